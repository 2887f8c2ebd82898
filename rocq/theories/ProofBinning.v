(** Lemmas about the construction of a likelihood. *)
From Coq Require Import Reals Lra ZArith Lia.
From Verif Require Import Base BaseFacts ModelFloat ModelHist ModelLikelihood ModelBinning
  SpecHist SpecLikelihood SpecWeighted SpecBinning
  ProofFloat ProofHist ProofLikelihood ProofLikelihood2 ProofWeighted.
Local Open Scope string_scope.
Local Open Scope list_scope.

(* ------------------------------------------------------------------ *)
(** * Columns *)

Lemma position_some c cols i : position c cols = Some i -> nth_error cols i = Some c.
Proof.
  revert i. induction cols as [|c' cols IH]; cbn [position]; intros i H; [discriminate|].
  destruct (String.eqb_spec c c') as [->|Hn].
  - assert (i = 0) by congruence. subst. reflexivity.
  - destruct (position c cols) as [j|]; [|discriminate]. assert (i = S j) by congruence. subst.
    cbn [nth_error]. apply IH. reflexivity.
Qed.

Lemma position_in c cols : In c cols -> exists i, position c cols = Some i.
Proof.
  induction cols as [|c' cols IH]; intros []; cbn [position].
  - subst. rewrite String.eqb_refl. eauto.
  - destruct (String.eqb_spec c c'); [eauto|]. destruct (IH H) as [i ->]. eauto.
Qed.

Lemma positions_ok wanted cols is : positions wanted cols = Ok is ->
  Forall2 (fun c i => nth_error cols i = Some c) wanted is.
Proof.
  revert is. induction wanted as [|c w IH]; cbn [positions]; intros is H.
  - assert (is = []) by congruence. subst. constructor.
  - destruct (position c cols) as [i|] eqn:Hp; [|discriminate].
    destruct (positions w cols) as [l|] eqn:Hq; [|discriminate].
    assert (is = i :: l) by congruence. subst. constructor; [apply position_some, Hp|apply IH; reflexivity].
Qed.

Lemma positions_in wanted cols : (forall c, In c wanted -> In c cols) -> exists is, positions wanted cols = Ok is.
Proof.
  induction wanted as [|c w IH]; intros H; cbn [positions]; [eauto|].
  destruct (position_in c cols (H c (or_introl eq_refl))) as [i ->].
  destruct IH as [l ->]; [intros; apply H; right; assumption|eauto].
Qed.

Lemma positions_err wanted cols e : positions wanted cols = Err e -> e = KeyError.
Proof.
  induction wanted as [|c w IH]; cbn [positions]; [discriminate|].
  destruct (position c cols); [|congruence]. destruct (positions w cols); [discriminate|].
  intros H. apply IH. congruence.
Qed.

Lemma select_values t is on r : Forall2 (fun c i => nth_error (t_columns t) i = Some c) on is ->
  Forall2 (value_in t r) on (select is r).
Proof.
  induction 1 as [|c i on is H1 H2 IH]; cbn [select map]; [constructor|].
  apply Forall2_cons; [|exact IH]. exists i. split; [exact H1|reflexivity].
Qed.

Lemma select_length is r : List.length (select is r) = List.length is.
Proof. apply map_length. Qed.

(* ------------------------------------------------------------------ *)
(** * The clip *)

Lemma strictly_iff c x : strictly c x = true <-> clipped c x.
Proof. unfold strictly, clipped. apply andb_true_iff. Qed.

Lemma keep_of_filter {P : list fl -> Prop} (b : list fl -> bool) f rows :
  (forall r, In r rows -> b r = true <-> P r) -> keep P f rows (map f (filter b rows)).
Proof.
  induction rows as [|r rows IH]; intros H; cbn [filter map]; [constructor|].
  pose proof (H r (or_introl eq_refl)) as Hr. destruct (b r).
  - cbn [map]. constructor; [apply Hr; reflexivity|apply IH; intros; apply H; right; assumption].
  - constructor; [intros Hp; apply Hr in Hp; discriminate|apply IH; intros; apply H; right; assumption].
Qed.

Lemma filter_map_comm {A B} (f : A -> B) (b : B -> bool) l :
  filter b (map f l) = map f (filter (fun a => b (f a)) l).
Proof.
  induction l as [|a l IH]; cbn [map filter]; [reflexivity|]. destruct (b (f a)); cbn [map]; rewrite IH; reflexivity.
Qed.

(** The rows kept by the mask. *)
Lemma mask_keep cfg is rows data : mask_data cfg (List.length is) (map (select is) rows) = Ok data ->
  keep (fun r => in_clip cfg (select is r)) (select is) rows data.
Proof.
  unfold mask_data. destruct is as [|i [|j is]]; cbn [List.length]; [discriminate| |].
  - destruct (lc_clip cfg) as [c|] eqn:Hc; [|discriminate]. intros H.
    assert (data = filter (fun r => strictly c (obs 0 r)) (map (select [i]) rows)) by congruence. subst data.
    rewrite filter_map_comm. apply keep_of_filter. intros r _. rewrite strictly_iff.
    cbn [select map in_clip obs nth]. rewrite Hc. split.
    + intros Hx. exists c. split; [reflexivity|exact Hx].
    + intros (c' & E & Hx). assert (c' = c) by congruence. subst. exact Hx.
  - destruct (lc_x_clip cfg) as [cx|] eqn:Hcx; [|discriminate].
    destruct (lc_y_clip cfg) as [cy|] eqn:Hcy; [|discriminate]. intros H.
    assert (data = filter (fun r => strictly cx (obs 0 r) && strictly cy (obs 1 r)) (map (select (i :: j :: is)) rows))
      by congruence. subst data.
    rewrite filter_map_comm. apply keep_of_filter. intros r _. rewrite andb_true_iff, !strictly_iff.
    cbn [select map in_clip obs nth]. rewrite Hcx, Hcy. split.
    + intros [Hx Hy]. exists cx, cy. repeat split; assumption || (apply Hx || apply Hy).
    + intros (cx' & cy' & E1 & E2 & Hx & Hy). assert (cx' = cx) by congruence. assert (cy' = cy) by congruence.
      subst. split; assumption.
Qed.

Lemma keep_in {P f rows out} : keep P f rows out -> forall x, In x out -> exists r, In r rows /\ P r /\ x = f r.
Proof.
  induction 1 as [|r rows out Hp Hk IH|r rows out Hp Hk IH]; intros x Hx; [destruct Hx| |].
  - destruct Hx as [<-|Hx]; [exists r; repeat split; [left; reflexivity|exact Hp]|].
    destruct (IH x Hx) as (r' & ? & ? & ?). exists r'. repeat split; [right|..]; assumption.
  - destruct (IH x Hx) as (r' & ? & ? & ?). exists r'. repeat split; [right|..]; assumption.
Qed.

(* ------------------------------------------------------------------ *)
(** * Counting *)

Lemma ones_weight P data : weight_of snd (fun e => P (fst e)) (combine data (map (fun _ : list fl => Fin 1) data))
  = number P data.
Proof.
  unfold weight_of, number. induction data as [|r data IH]; [reflexivity|].
  cbn [map combine filter fst]. destruct (P r).
  - cbn [map List.length snd]. rewrite fsum_cons, IH, S_INR. rewrite fadd_Fin. f_equal. lra.
  - exact IH.
Qed.

Lemma binned_ones b data : binned b (combine data (map (fun _ => Fin 1) data)) = counts b data.
Proof. unfold binned, counts. apply map_ext. intros P. apply ones_weight. Qed.

Section Hist.
  Variable oor : list (list fl) -> nat -> list fl.

  Lemma make_data_hist_plain b data : b <> BUnsupported ->
    plain_hist oor b data (map (fun _ => Fin 1) data) = Ok (make_data_hist oor b data).
  Proof. destruct b; intros H; reflexivity || congruence. Qed.

  Lemma data_hist_counts b data : binning_ok b -> make_data_hist oor b data = counts b data.
  Proof.
    intros Hb. pose proof (plain_hist_binned oor b data (map (fun _ => Fin 1) data) Hb) as H.
    rewrite make_data_hist_plain in H by (intros ->; destruct Hb). rewrite binned_ones in H. congruence.
  Qed.

  (** The number of entries of a histogram depends on the binning only. *)
  Definition entries_of (b : binning) : nat :=
    match b with
    | BIrreg1 e | BMesh1 e => List.length e - 1
    | BIrreg2 ex ry => (List.length ex - 1) * (row_length ry - 1)
    | BMesh2 ex ey => (List.length ex - 1) * (List.length ey - 1)
    | BUnsupported => 0
    end.

  Lemma concat_length {A} (l : list (list A)) n : (forall r, In r l -> List.length r = n) ->
    List.length (List.concat l) = List.length l * n.
  Proof.
    induction l as [|r l IH]; intros H; [reflexivity|]. cbn [List.concat List.length Nat.mul].
    rewrite app_length, IH, (H r (or_introl eq_refl)); [reflexivity|]. intros; apply H; right; assumption.
  Qed.

  Lemma plain_hist_length b mc eff h : plain_hist oor b mc eff = Ok h -> List.length h = entries_of b.
  Proof.
    destruct b as [e|ex ry|e|ex ey|]; cbn [plain_hist entries_of]; intros H; [| | | |discriminate];
      match type of H with Ok ?x = _ => assert (E : h = x) by congruence end; rewrite E.
    - apply hist_1d_length.
    - destruct (hist_2d_shape oor ex ry (combine (map (fun r => (obs 0 r, obs 1 r)) mc) eff)) as [S1 S2].
      rewrite (concat_length _ (row_length ry - 1) S2), S1. reflexivity.
    - apply hist_mesh_1d_length.
    - destruct (trim2_scatter (List.length ex) (List.length ey)
                  (fun e : fl * fl * fl => index_dd ex (fst (fst e)))
                  (fun e => index_dd ey (snd (fst e))) snd
                  (combine (map (fun r => (obs 0 r, obs 1 r)) mc) eff)) as (H1 & H2 & _).
      unfold hist_mesh_2d. rewrite <- H1. apply concat_length.
      intros r Hr. destruct (In_nth _ _ [] Hr) as (i & Hi & <-). apply H2. rewrite <- H1. exact Hi.
  Qed.

  Lemma implement_binning_length a b mc eff h : implement_binning oor a b mc eff = Ok h ->
    List.length h = entries_of b.
  Proof.
    unfold implement_binning. destruct (plain_hist oor b mc eff) as [x|] eqn:Hp; [|discriminate].
    intros H. apply plain_hist_length in Hp. destruct a.
    - assert (E : h = floor_hist eff x) by congruence. rewrite E. unfold floor_hist. rewrite map_length. exact Hp.
    - assert (E : h = x) by congruence. rewrite E. exact Hp.
  Qed.

  Lemma sim_hist_length {K} c (sim : K -> nat -> params -> result (K * list (list fl))) key n p key' h :
    sim_hist oor c sim key n p = Ok (key', h) -> List.length h = entries_of (n_bins c).
  Proof.
    unfold sim_hist. destruct (sim key n p) as [[k rows]|]; [|discriminate].
    destruct (split_rows (n_no_eff c) rows) as [mc eff]. destruct (forallb _ mc); [|discriminate].
    destruct (implement_binning oor (n_add_eps c) (n_bins c) mc eff) as [x|] eqn:Hi; [|discriminate].
    destruct (get_normalization _ _ _ _ _ _) as [f|]; [|discriminate]. intros H.
    assert (E : h = scale f x) by congruence. rewrite E. unfold scale. rewrite map_length.
    exact (implement_binning_length _ _ _ _ _ Hi).
  Qed.

  Lemma fixed_hist_length c data p h : fixed_hist oor c data p = Ok h -> List.length h = entries_of (n_bins c).
  Proof.
    unfold fixed_hist. destruct (fixed_deduce oor c data) as [x|] eqn:Hi; [|discriminate].
    destruct (get_normalization _ _ _ _ _ _) as [f|]; [|discriminate]. intros H.
    assert (E : h = scale f x) by congruence. rewrite E. unfold scale. rewrite map_length.
    exact (implement_binning_length _ _ _ _ _ Hi).
  Qed.

  Lemma make_data_hist_length b data : List.length (make_data_hist oor b data) = entries_of b.
  Proof.
    destruct b as [e|ex ry|e|ex ey|] eqn:Hb; [| | | |reflexivity];
      refine (plain_hist_length _ data (map (fun _ => Fin 1) data) _ (make_data_hist_plain _ _ _)); discriminate.
  Qed.
End Hist.

(* ------------------------------------------------------------------ *)
(** * Edges that reach over the clip *)

Lemma reaches_between c e x : 1 <= List.length e -> reaches c e -> clipped c x -> between e x.
Proof.
  intros Hl [H1 H2] [H3 H4]. split.
  - exists (edge e 0). split; [apply nth_In; lia|]. exact (fle_lt_trans _ _ _ H1 H3).
  - exists (edge e (List.length e - 1)). split; [apply nth_In; lia|]. exact (flt_le_trans _ _ _ H4 H2).
Qed.

Lemma in_clip_one cfg c r : List.length r = 1 -> lc_clip cfg = Some c -> in_clip cfg r -> clipped c (obs 0 r).
Proof.
  intros Hl Hc. destruct r as [|x [|? ?]]; try discriminate. cbn [in_clip].
  intros (c' & E & H). assert (c' = c) by congruence. subst. exact H.
Qed.
Lemma in_clip_two cfg cx cy r : List.length r = 2 -> lc_x_clip cfg = Some cx -> lc_y_clip cfg = Some cy ->
  in_clip cfg r -> clipped cx (obs 0 r) /\ clipped cy (obs 1 r).
Proof.
  intros Hl Hx Hy. destruct r as [|x [|y [|? ?]]]; try discriminate. cbn [in_clip].
  intros (c & c' & E & E' & H). assert (c = cx) by congruence. assert (c' = cy) by congruence. subst. exact H.
Qed.

Lemma spans_in_bin cfg b r : binning_ok b -> spans cfg b -> List.length r = ndim b -> in_clip cfg r ->
  in_some_bin b r.
Proof.
  intros Hb Hs Hl Hc. destruct b as [e|ex ry|e|ex ey|]; [| | | |destruct Hb]; cbn [ndim] in Hl.
  - destruct Hs as (c & Ec & Hr). apply roi_in_bin; [exact Hb|exact I|]. cbn [in_roi].
    apply (reaches_between c); [destruct Hb; lia|exact Hr|exact (in_clip_one cfg c r Hl Ec Hc)].
  - destruct Hs as (cx & cy & Ex & Ey & Hrx & Hry). destruct Hb as (Hx & Hxl & Hrows).
    destruct (in_clip_two cfg cx cy r Hl Ex Ey Hc) as [Hcx Hcy].
    destruct (between_right_bin ex (obs 0 r) Hx (reaches_between cx ex _ ltac:(destruct Hx; lia) Hrx Hcx)) as (i & Hi & Hxi).
    assert (Hil : i < List.length ry) by (unfold bin_numbers in Hi; apply in_seq in Hi; lia).
    assert (HIn : In (nth i ry []) ry) by (apply nth_In; exact Hil).
    destruct (Hrows _ HIn) as [Hok _].
    destruct (between_right_bin (nth i ry []) (obs 1 r) Hok
      (reaches_between cy (nth i ry []) (obs 1 r) ltac:(destruct Hok; lia) (Hry _ HIn) Hcy)) as (j & Hj & Hyj).
    exists (fun r => right_bin ex i (obs 0 r) && right_bin (nth i ry []) j (obs 1 r)).
    split; [|rewrite Hxi, Hyj; reflexivity]. unfold bins_of. apply in_concat.
    exists (map (fun j r => right_bin ex i (obs 0 r) && right_bin (nth i ry []) j (obs 1 r)) (bin_numbers (nth i ry []))). split.
    + apply (in_map (fun i => map (fun j r => right_bin ex i (obs 0 r) && right_bin (nth i ry []) j (obs 1 r))
                                  (bin_numbers (nth i ry [])))), Hi.
    + apply (in_map (fun j r => right_bin ex i (obs 0 r) && right_bin (nth i ry []) j (obs 1 r))), Hj.
  - destruct Hs as (c & Ec & Hr). apply roi_in_bin; [exact Hb|exact I|]. cbn [in_roi].
    apply (reaches_between c); [destruct Hb; lia|exact Hr|exact (in_clip_one cfg c r Hl Ec Hc)].
  - destruct Hs as (cx & cy & Ex & Ey & Hrx & Hry). destruct Hb as (Hx & Hy).
    destruct (in_clip_two cfg cx cy r Hl Ex Ey Hc) as [Hcx Hcy].
    apply roi_in_bin; [split; assumption|exact I|]. cbn [in_roi].
    split; [apply (reaches_between cx)|apply (reaches_between cy)]; assumption || (destruct Hx, Hy; lia).
Qed.

Lemma counts_total b data : binning_ok b -> (forall r, In r data -> in_some_bin b r) ->
  fsum (counts b data) = Fin (INR (List.length data)).
Proof.
  intros Hb H. rewrite <- binned_ones, binned_all.
  - clear. induction data as [|r data IH]; [reflexivity|]. cbn [map combine snd List.length].
    rewrite fsum_cons, IH, S_INR, fadd_Fin. f_equal. lra.
  - exact Hb.
  - intros [r w] He. apply in_combine_l in He. apply H, He.
Qed.

(* ------------------------------------------------------------------ *)
(** * Bins of equal width *)

Lemma sorted_of_index e : (forall i, i < List.length e -> edge e i <> NaN) ->
  (forall i j, i < j -> j < List.length e -> fle (edge e i) (edge e j) = true) -> sorted e.
Proof.
  induction e as [|x e IH]; intros Hn Hle; cbn [sorted]; [exact I|]. split; [|split].
  - apply (Hn 0). cbn. lia.
  - intros y Hy. destruct (In_nth e y NaN Hy) as (j & Hj & <-). apply (Hle 0 (S j)); cbn [List.length]; lia.
  - apply IH.
    + intros i Hi. apply (Hn (S i)). cbn [List.length]. lia.
    + intros i j Hi Hj. apply (Hle (S i) (S j)); cbn [List.length]; lia.
Qed.

Lemma evenly_ok lo hi n e : (1 <= n) -> (lo <= hi)%R -> evenly lo hi n e -> edges_ok e.
Proof.
  intros Hn Hlh [Hl He]. split; [|lia]. apply sorted_of_index.
  - intros i Hi. rewrite He by lia. discriminate.
  - intros i j Hij Hj. rewrite !He by lia. apply fle_Fin.
    assert (H0 : (0 < INR n)%R) by (apply lt_0_INR; lia).
    assert (H1 : (INR i / INR n <= INR j / INR n)%R).
    { unfold Rdiv. apply Rmult_le_compat_r; [left; apply Rinv_0_lt_compat, H0|apply le_INR; lia]. }
    apply Rplus_le_compat_l, Rmult_le_compat_l; [lra|exact H1].
Qed.

Lemma evenly_reaches lo hi n e : 1 <= n -> evenly lo hi n e -> reaches (Fin lo, Fin hi) e.
Proof.
  intros Hn [Hl He]. unfold reaches. cbn [fst snd]. rewrite Hl. replace (S n - 1) with n by lia.
  assert (H0 : INR n <> 0%R) by (apply not_0_INR; lia).
  rewrite !He by lia. cbn [INR]. split; apply fle_Fin.
  - unfold Rdiv. rewrite Rmult_0_l, Rmult_0_r. lra.
  - unfold Rdiv. rewrite Rinv_r by exact H0. lra.
Qed.

Lemma linspace_evenly lo hi n a : (1 <= n)%Z -> np_linspace (Fin lo, Fin hi) n = Ok a ->
  exists e, a = Arr1 e /\ evenly lo hi (Z.to_nat n) e.
Proof.
  intros Hn. unfold np_linspace. destruct (Z.ltb_spec (n + 1) 0); [lia|].
  replace (Z.to_nat (n + 1)) with (S (Z.to_nat n)) by lia.
  set (N := Z.to_nat n). assert (HN : 1 <= N) by (unfold N; lia).
  destruct (Nat.eqb_spec (S N) 1); [lia|]. cbn [fst snd]. replace (S N - 1) with N by lia. intros HA.
  exists (map (linspace_point (Fin lo) (Fin hi) N) (seq 0 (S N))). split; [congruence|].
  split; [rewrite map_length, seq_length; reflexivity|]. intros i Hi. unfold edge.
  rewrite (nth_indep _ NaN (linspace_point (Fin lo) (Fin hi) N 0)) by (rewrite map_length, seq_length; lia).
  rewrite map_nth, seq_nth by lia. cbn [plus]. unfold linspace_point.
  assert (H0 : INR N <> 0%R) by (apply not_0_INR; lia).
  destruct (Nat.eqb_spec N 0); [lia|]. cbn [negb]. rewrite andb_true_r.
  destruct (Nat.eqb_spec i N) as [->|Hne].
  - f_equal. unfold Rdiv. rewrite Rinv_r by exact H0. lra.
  - unfold fdiv, finv. destruct (Req_EM_T (INR N) 0); [contradiction|].
    unfold fsub, fneg, fadd, fmul. cbn beta iota. f_equal. field. exact H0.
Qed.

Lemma linspace_one_dim c n a : np_linspace c n = Ok a -> exists e, a = Arr1 e.
Proof. unfold np_linspace. destruct (_ <? _)%Z; [discriminate|]. intros H. eexists. symmetry. injection H as <-. reflexivity. Qed.

(** What resolve_bin_edges returns is what the config asks for. *)
Lemma resolve_asked s clip e : resolve_bin_edges s clip = Ok (Arr1 e) ->
  exists c, clip = Some c /\ mesh_axis s c e.
Proof.
  unfold resolve_bin_edges. destruct clip as [c|]; [|discriminate]. intros H. exists c. split; [reflexivity|].
  destruct s as [n|a]; cbn [mesh_axis].
  - intros lo hi -> Hn. destruct (linspace_evenly lo hi n _ Hn H) as (e' & E & He). congruence.
  - unfold np_array in H. destruct a as [x|l|rows]; try congruence.
    destruct (rectangular rows); congruence.
Qed.

(* ------------------------------------------------------------------ *)
(** * Limiting edges to the clip *)

Lemma fclip_le a b lo hi : a <> NaN -> b <> NaN -> lo <> NaN -> hi <> NaN -> fle a b = true ->
  fle (fclip a lo hi) (fclip b lo hi) = true.
Proof.
  intros Ha Hb Hl Hh H. unfold fclip, fmin, fmax.
  destruct a, b, lo, hi; try contradiction; cbn in H |- *; try discriminate;
  repeat first [reflexivity | progress cbn
    | match goal with
      | |- context [Rle_dec ?x ?y] => destruct (Rle_dec x y); try lra
      | H : context [Rle_dec ?x ?y] |- _ => destruct (Rle_dec x y); try lra; try discriminate
      end].
Qed.

Lemma fclip_below e lo hi x : e <> NaN -> clipped (lo, hi) x ->
  flt (fclip e lo hi) x = flt e x /\ fle x (fclip e lo hi) = fle x e.
Proof.
  intros He [H1 H2]. cbn [fst snd] in H1, H2. unfold fclip, fmin, fmax.
  destruct e, lo, hi, x; try contradiction; cbn in H1, H2 |- *; try discriminate;
  repeat first [split; reflexivity | progress cbn
    | match goal with
      | |- context [Rle_dec ?x ?y] => destruct (Rle_dec x y); try lra
      | |- context [Rlt_dec ?x ?y] => destruct (Rlt_dec x y); try lra
      | H : context [Rle_dec ?x ?y] |- _ => destruct (Rle_dec x y); try lra; try discriminate
      | H : context [Rlt_dec ?x ?y] |- _ => destruct (Rlt_dec x y); try lra; try discriminate
      end].
Qed.

Lemma fclip_not_nan e lo hi : e <> NaN -> lo <> NaN -> hi <> NaN -> fclip e lo hi <> NaN.
Proof. intros. unfold fclip. apply fmin_not_nan; [apply fmax_not_nan|]; assumption. Qed.

Definition limit (c : fl * fl) (e : list fl) : list fl := map (fun x => fclip x (fst c) (snd c)) e.

Lemma limit_length c e : List.length (limit c e) = List.length e.
Proof. apply map_length. Qed.

Lemma limit_edge c e i : i < List.length e -> edge (limit c e) i = fclip (edge e i) (fst c) (snd c).
Proof.
  intros Hi. unfold edge, limit. rewrite (nth_indep _ NaN (fclip NaN (fst c) (snd c))) by (rewrite map_length; exact Hi).
  apply (map_nth (fun x => fclip x (fst c) (snd c))).
Qed.

Lemma reaches_not_nan c e : reaches c e -> fst c <> NaN /\ snd c <> NaN.
Proof.
  intros [H1 H2]. split; intros E.
  - rewrite E, fle_nan_r in H1. discriminate.
  - rewrite E, fle_nan_l in H2. discriminate.
Qed.

Lemma limit_ok c e : edges_ok e -> fst c <> NaN -> snd c <> NaN -> edges_ok (limit c e).
Proof.
  intros [Hs Hl] H1 H2. split; [|rewrite limit_length; exact Hl]. apply sorted_of_index; rewrite limit_length.
  - intros i Hi. rewrite limit_edge by exact Hi. apply fclip_not_nan; [|assumption..]. apply sorted_not_nan; assumption.
  - intros i j Hij Hj. rewrite !limit_edge by lia.
    apply fclip_le; [apply sorted_not_nan; [exact Hs|lia]..|exact H1|exact H2|]. apply sorted_le; [exact Hs|lia|exact Hj].
Qed.

Lemma limit_reaches c e : edges_ok e -> reaches c e -> reaches c (limit c e).
Proof.
  intros [Hs Hl] Hr. destruct (reaches_not_nan c e Hr) as [Hn1 Hn2]. destruct Hr as [H1 H2].
  unfold reaches. rewrite limit_length, !limit_edge by lia.
  pose proof (sorted_not_nan e 0 Hs ltac:(lia)) as N1.
  pose proof (sorted_not_nan e (List.length e - 1) Hs ltac:(lia)) as N2.
  revert H1 H2 N1 N2. generalize (edge e 0) (edge e (List.length e - 1)). destruct c as [lo hi]. cbn [fst snd] in *.
  intros a z H1 H2 Na Nz. unfold fclip, fmin, fmax. split.
  - destruct a, lo, hi; try contradiction; cbn in H1 |- *; try discriminate;
    repeat first [reflexivity | progress cbn
      | match goal with
        | |- context [Rle_dec ?x ?y] => destruct (Rle_dec x y); try lra
        | H : context [Rle_dec ?x ?y] |- _ => destruct (Rle_dec x y); try lra; try discriminate
        end].
  - clear H1. destruct z, lo, hi; try contradiction; cbn in H2 |- *; try discriminate;
    repeat first [reflexivity | progress cbn
      | match goal with
        | |- context [Rle_dec ?x ?y] => destruct (Rle_dec x y); try lra
        | H : context [Rle_dec ?x ?y] |- _ => destruct (Rle_dec x y); try lra; try discriminate
        end].
Qed.

(** Limiting the edges does not move an event inside the clip to another bin. *)
Lemma limit_right_bin c e i x : edges_ok e -> In i (bin_numbers e) -> clipped c x ->
  right_bin (limit c e) i x = right_bin e i x.
Proof.
  intros [Hs Hl] Hi Hc. unfold bin_numbers in Hi. apply in_seq in Hi. unfold right_bin, in_bin.
  rewrite !limit_edge by lia. destruct c as [lo hi]. cbn [fst snd].
  destruct (fclip_below (edge e i) lo hi x (sorted_not_nan e i Hs ltac:(lia)) Hc) as [-> _].
  destruct (fclip_below (edge e (S i)) lo hi x (sorted_not_nan e (S i) Hs ltac:(lia)) Hc) as [_ ->].
  reflexivity.
Qed.

Lemma number_ext P Q data : (forall r, In r data -> P r = Q r) -> number P data = number Q data.
Proof. intros H. unfold number. rewrite (filter_map_ext P Q data H). reflexivity. Qed.

Lemma limit_counts_1d c e data : edges_ok e -> (forall r, In r data -> clipped c (obs 0 r)) ->
  counts (BIrreg1 (limit c e)) data = counts (BIrreg1 e) data.
Proof.
  intros He H. unfold counts, bins_of. rewrite !map_map. unfold bin_numbers. rewrite limit_length.
  apply map_ext_in. intros i Hi. apply number_ext. intros r Hr.
  apply limit_right_bin; [exact He|exact Hi|apply H, Hr].
Qed.

Lemma limit_rows_nth c ry i : nth i (map (limit c) ry) [] = limit c (nth i ry []).
Proof. exact (map_nth (limit c) ry [] i). Qed.

Lemma limit_counts_2d cx cy ex ry data : binning_ok (BIrreg2 ex ry) ->
  (forall r, In r data -> clipped cx (obs 0 r) /\ clipped cy (obs 1 r)) ->
  counts (BIrreg2 (limit cx ex) (map (limit cy) ry)) data = counts (BIrreg2 ex ry) data.
Proof.
  intros (Hx & Hl & Hr) H. unfold counts, bins_of. rewrite !map_concat_map. f_equal.
  unfold bin_numbers. rewrite limit_length. apply map_ext_in. intros i Hi. rewrite !map_map, limit_rows_nth, limit_length.
  assert (Hii := Hi). apply in_seq in Hii.
  assert (HIn : In (nth i ry []) ry) by (apply nth_In; lia).
  apply map_ext_in. intros j Hj. apply number_ext. intros r Hrd. destruct (H r Hrd) as [H1 H2].
  rewrite (limit_right_bin cx ex i (obs 0 r) Hx Hi H1),
          (limit_right_bin cy (nth i ry []) j (obs 1 r) (proj1 (Hr _ HIn)) Hj H2).
  reflexivity.
Qed.

Lemma limit_binning_2d cx cy ex ry : good_equiprob_2d cx cy ex ry -> 1 <= List.length ry ->
  binning_ok (BIrreg2 (limit cx ex) (map (limit cy) ry)).
Proof.
  intros ((Hx & Hl & Hr) & Hrx & Hry) Hne. destruct (reaches_not_nan _ _ Hrx). cbn [binning_ok]. split; [|split].
  - apply limit_ok; assumption.
  - rewrite limit_length, map_length. exact Hl.
  - intros r Hrr. apply in_map_iff in Hrr. destruct Hrr as (r0 & <- & Hr0). destruct (Hr r0 Hr0) as [Hok Hrl].
    destruct (reaches_not_nan _ _ (Hry r0 Hr0)). split; [apply limit_ok; assumption|].
    rewrite limit_length, Hrl. destruct ry as [|y ry]; [cbn in Hne; lia|]. cbn [map row_length].
    symmetry. apply limit_length.
Qed.

(* ------------------------------------------------------------------ *)
(** * The constructor *)

Lemma normalise_wanted cfg on bs : normalise_bins (lc_bins_on cfg) (lc_bins cfg) = Ok (on, bs) <-> wanted cfg on bs.
Proof.
  unfold normalise_bins, wanted. split.
  - destruct (lc_bins_on cfg) as [s|l|]; [|destruct (lc_bins cfg); try discriminate|discriminate].
    + intros H. right. exists s. split; [reflexivity|].
      destruct (lc_bins cfg) as [n|l|]; [| |discriminate].
      * split; [congruence|]. right. exists n. split; [reflexivity|congruence].
      * split; [congruence|]. left. congruence.
    + intros H. left. split; congruence.
  - intros [[-> ->]|(s & -> & -> & [->|(n & -> & ->)])]; reflexivity.
Qed.

Lemma forall2_length {A B} {R : A -> B -> Prop} {l l'} : Forall2 R l l' -> List.length l = List.length l'.
Proof. induction 1; cbn [List.length]; congruence. Qed.
Lemma forall2_left {A B} {R : A -> B -> Prop} {l l'} : Forall2 R l l' -> forall a, In a l -> exists b, In b l' /\ R a b.
Proof.
  induction 1 as [|x y l l' H HF IH]; intros a []; [subst; exists y; split; [left; reflexivity|exact H]|].
  destruct (IH a H0) as (b & ? & ?). exists b. split; [right|]; assumption.
Qed.

Section New.
  Variable oor : list (list fl) -> nat -> list fl.
  Variable g1 : list fl -> Z -> result (list fl).
  Variable g2 : list (list fl) -> list Z -> result (list fl * list (list fl)).

  Lemma new_inv cfg load k : new_likelihood oor g1 g2 cfg load = Ok k ->
    exists bs t is, wanted cfg (k_on k) bs /\ List.length (k_on k) = List.length bs /\ load = Ok t /\
      positions (k_on k) (t_columns t) = Ok is /\
      mask_data cfg (List.length (k_on k)) (map (select is) (t_rows t)) = Ok (k_data k) /\
      set_bins g1 g2 cfg (List.length (k_on k)) bs (k_data k) = Ok (k_bins k) /\
      k_hist k = make_data_hist oor (k_bins k) (k_data k).
  Proof.
    unfold new_likelihood. destruct (normalise_bins _ _) as [[on bs]|] eqn:Hn; [|discriminate].
    destruct (Nat.eqb_spec (List.length on) (List.length bs)) as [Hl|]; [|discriminate]. cbn [negb].
    destruct load as [t|]; [|discriminate]. destruct (positions on (t_columns t)) as [is|] eqn:Hp; [|discriminate].
    destruct (mask_data _ _ _) as [data|] eqn:Hm; [|discriminate].
    destruct (set_bins _ _ _ _ _ _) as [b|] eqn:Hs; [|discriminate]. intros H.
    assert (k = mk_likelihood on data b (make_data_hist oor b data)) by congruence. subst k. cbn.
    exists bs, t, is. apply normalise_wanted in Hn. repeat split; assumption || reflexivity.
  Qed.

  Lemma new_intro cfg t on bs is data b : wanted cfg on bs -> List.length on = List.length bs ->
    positions on (t_columns t) = Ok is -> mask_data cfg (List.length on) (map (select is) (t_rows t)) = Ok data ->
    set_bins g1 g2 cfg (List.length on) bs data = Ok b ->
    new_likelihood oor g1 g2 cfg (Ok t) = Ok (mk_likelihood on data b (make_data_hist oor b data)).
  Proof.
    intros Hw Hl Hp Hm Hs. unfold new_likelihood. apply normalise_wanted in Hw. rewrite Hw.
    rewrite Hl, Nat.eqb_refl. cbn [negb]. rewrite Hp, <- Hl, Hm, Hs. reflexivity.
  Qed.

  Lemma mesh_binning_dim bins b : mesh_binning bins = Ok b ->
    (exists e, bins = [Arr1 e] /\ b = BMesh1 e) \/ (exists ex ey, bins = [Arr1 ex; Arr1 ey] /\ b = BMesh2 ex ey).
  Proof.
    destruct bins as [|[x|e|rows] [|[x'|e'|rows'] [|? ?]]]; cbn; intros H; try discriminate.
    - left. exists e. split; [reflexivity|congruence].
    - right. exists e, e'. split; [reflexivity|congruence].
  Qed.
  Lemma irreg_binning_dim bins b : irreg_binning bins = Ok b ->
    (exists e, bins = [Arr1 e] /\ b = BIrreg1 e) \/ (exists ex ry, bins = [Arr1 ex; Arr2 ry] /\ b = BIrreg2 ex ry).
  Proof.
    destruct bins as [|[x|e|rows] [|[x'|e'|rows'] [|? ?]]]; cbn; intros H; try discriminate.
    - left. exists e. split; [reflexivity|congruence].
    - right. exists e, rows'. split; [reflexivity|congruence].
  Qed.

  (** What set_binning makes of a config, by bins_type. *)
  Inductive binned_as (cfg : lconfig) (data : list (list fl)) : list bin_spec -> binning -> Prop :=
  | as_mesh1 s e : lc_bins_type cfg = "meshgrid" -> resolve_bin_edges s (lc_clip cfg) = Ok (Arr1 e) ->
      binned_as cfg data [s] (BMesh1 e)
  | as_mesh2 s s' ex ey : lc_bins_type cfg = "meshgrid" -> resolve_bin_edges s (lc_x_clip cfg) = Ok (Arr1 ex) ->
      resolve_bin_edges s' (lc_y_clip cfg) = Ok (Arr1 ey) -> binned_as cfg data [s; s'] (BMesh2 ex ey)
  | as_irreg1 e : lc_bins_type cfg = "irreg" -> binned_as cfg data [AArr (Arr1 e)] (BIrreg1 e)
  | as_irreg2 ex ry : lc_bins_type cfg = "irreg" -> List.length ex = List.length ry + 1 -> rectangular ry = true ->
      binned_as cfg data [AArr (Arr1 ex); AArr (Arr2 ry)] (BIrreg2 ex ry)
  | as_equi1 n c e : lc_bins_type cfg = "equiprob" -> lc_clip cfg = Some c ->
      g1 (filter (strictly c) (map (obs 0) data)) n = Ok e -> binned_as cfg data [AInt n] (BIrreg1 (limit c e))
  | as_equi2 n m cx cy ex ry : lc_bins_type cfg = "equiprob" -> lc_x_clip cfg = Some cx -> lc_y_clip cfg = Some cy ->
      g2 (filter (fun r => strictly cx (obs 0 r) && strictly cy (obs 1 r)) data) [n; m] = Ok (ex, ry) ->
      binned_as cfg data [AInt n; AInt m] (BIrreg2 (limit cx ex) (map (limit cy) ry)).

  Lemma np_array_arr b a : np_array b = Ok a -> (exists n, b = AInt n /\ a = Arr0 (Fin (IZR n))) \/ (b = AArr a).
  Proof.
    destruct b as [n|[x|l|rows]]; cbn; intros H.
    - left. exists n. split; [reflexivity|congruence].
    - right. congruence.
    - right. congruence.
    - right. destruct (rectangular rows); congruence.
  Qed.

  Lemma np_array_fix a a' : np_array (AArr a) = Ok a' -> a' = a.
  Proof. intros H. destruct (np_array_arr _ _ H) as [(n & E & _)|E]; congruence. Qed.

  Lemma set_bins_as cfg bs data b :
    set_bins g1 g2 cfg (List.length bs) bs data = Ok b -> binned_as cfg data bs b.
  Proof.
    unfold set_bins. destruct (_ || _) eqn:Hdim; [|discriminate]. cbn [negb].
    assert (Hb : exists s, bs = [s] \/ exists s', bs = [s; s']).
    { destruct bs as [|s [|s' [|? ?]]]; cbn in Hdim; try discriminate; eauto. }
    destruct (String.eqb_spec (lc_bins_type cfg) "meshgrid") as [Ht|_].
    { destruct Hb as (s & [->|(s' & ->)]); cbn [List.length resolve_explicit_bins].
      - destruct (resolve_bin_edges s (lc_clip cfg)) as [a|] eqn:Ha; [|discriminate]. intros H.
        destruct (mesh_binning_dim _ _ H) as [(e & E & ->)|(ex & ey & E & _)]; [|discriminate].
        assert (a = Arr1 e) by congruence. subst. apply as_mesh1; assumption.
      - destruct (resolve_bin_edges s (lc_x_clip cfg)) as [a|] eqn:Ha; [|discriminate].
        destruct (resolve_bin_edges s' (lc_y_clip cfg)) as [a'|] eqn:Ha'; [|discriminate]. intros H.
        destruct (mesh_binning_dim _ _ H) as [(e & E & _)|(ex & ey & E & ->)]; [discriminate|].
        assert (a = Arr1 ex) by congruence. assert (a' = Arr1 ey) by congruence. subst.
        apply as_mesh2; assumption. }
    destruct (String.eqb_spec (lc_bins_type cfg) "equiprob") as [Ht|_].
    { destruct Hb as (s & [->|(s' & ->)]); cbn [List.length all_int Nat.eqb].
      - destruct s as [n|a]; [|discriminate]. destruct (lc_clip cfg) as [c|] eqn:Hc; [|discriminate].
        unfold equiprob_1d. destruct (g1 _ n) as [e|] eqn:Hg; [|discriminate]. intros H.
        assert (E : b = BIrreg1 (limit c e)) by (unfold limit; congruence). rewrite E.
        apply as_equi1; assumption.
      - destruct s as [n|a]; [|discriminate]. destruct s' as [m|a]; [|discriminate].
        destruct (lc_x_clip cfg) as [cx|] eqn:Hcx; [|discriminate].
        destruct (lc_y_clip cfg) as [cy|] eqn:Hcy; [|discriminate].
        unfold equiprob_2d. destruct (g2 _ [n; m]) as [[ex ry]|] eqn:Hg; [|discriminate]. intros H.
        assert (E : b = BIrreg2 (limit cx ex) (map (limit cy) ry)) by (injection H as <-; reflexivity). rewrite E.
        apply as_equi2; assumption. }
    destruct (String.eqb_spec (lc_bins_type cfg) "irreg") as [Ht|_]; [|discriminate].
    destruct Hb as (s & [->|(s' & ->)]); cbn [List.length to_arrays].
    - destruct (np_array s) as [a|] eqn:Ha; [|discriminate]. cbn [resolve_explicit_bins resolve_bin_edges].
      destruct (lc_clip cfg) as [c|]; [|discriminate]. cbn [resolve_bin_edges].
      destruct (np_array (AArr a)) as [a1|] eqn:Ha1; [|discriminate]. apply np_array_fix in Ha1. subst a1. intros H.
      destruct (irreg_binning_dim _ _ H) as [(e & E & ->)|(ex & ey & E & _)]; [|discriminate].
      assert (a = Arr1 e) by congruence. subst a.
      destruct (np_array_arr _ _ Ha) as [(n & _ & E')|E']; [discriminate|]. subst s. apply as_irreg1, Ht.
    - destruct (np_array s) as [a|] eqn:Ha; [|discriminate]. destruct (np_array s') as [a'|] eqn:Ha'; [|discriminate].
      cbn [resolve_explicit_bins resolve_bin_edges].
      destruct (lc_x_clip cfg) as [cx|]; [|discriminate]. cbn [resolve_bin_edges].
      destruct (np_array (AArr a)) as [a1|] eqn:Ha1; [|discriminate]. apply np_array_fix in Ha1. subst a1.
      destruct (lc_y_clip cfg) as [cy|]; [|discriminate]. cbn [resolve_bin_edges].
      destruct (np_array (AArr a')) as [a1|] eqn:Ha1; [|discriminate]. apply np_array_fix in Ha1. subst a1.
      destruct (validate_irreg a a') as [[]|] eqn:Hv; [|discriminate]. intros H.
      destruct (irreg_binning_dim _ _ H) as [(e & E & _)|(ex & ry & E & ->)]; [discriminate|].
      assert (a = Arr1 ex) by congruence. assert (a' = Arr2 ry) by congruence. subst a a'.
      destruct (np_array_arr _ _ Ha) as [(n & _ & E')|E']; [discriminate|]. subst s.
      destruct (np_array_arr _ _ Ha') as [(n & _ & E')|E']; [discriminate|]. subst s'.
      unfold validate_irreg in Hv. cbn [np_len] in Hv.
      destruct (Nat.eqb_spec (List.length ex) (List.length ry + 1)) as [Hlen|]; [|discriminate]. cbn [negb] in Hv.
      destruct (rectangular ry) eqn:Hrect; [|discriminate].
      apply as_irreg2; assumption.
  Qed.

  Lemma as_set_bins cfg bs data b : binned_as cfg data bs b -> has_clips cfg (List.length bs) ->
    set_bins g1 g2 cfg (List.length bs) bs data = Ok b.
  Proof.
    intros H Hc. unfold set_bins.
    destruct H as [s e Ht H|s s' ex ey Ht H H'|e Ht|ex ry Ht Hl Hr|n c e Ht Hcl Hg|n m cx cy ex ry Ht Hx Hy Hg];
      cbn [List.length Nat.eqb orb negb]; rewrite Ht; cbn [String.eqb Ascii.eqb Bool.eqb].
    - cbn [resolve_explicit_bins]. rewrite H. reflexivity.
    - cbn [resolve_explicit_bins]. rewrite H, H'. reflexivity.
    - destruct Hc as [c Hc]. cbn [to_arrays np_array resolve_explicit_bins]. unfold resolve_bin_edges. rewrite Hc. reflexivity.
    - destruct Hc as (cx & cy & Hx & Hy). cbn [to_arrays np_array]. rewrite Hr. cbn [resolve_explicit_bins].
      unfold resolve_bin_edges. rewrite Hx, Hy. cbn [np_array]. rewrite Hr. unfold validate_irreg. cbn [np_len].
      rewrite Hl, Nat.eqb_refl. cbn [negb]. rewrite Hr. reflexivity.
    - cbn [all_int]. rewrite Hcl. unfold equiprob_1d. rewrite Hg. reflexivity.
    - cbn [all_int]. rewrite Hx, Hy. unfold equiprob_2d. rewrite Hg. reflexivity.
  Qed.

  Lemma binned_as_dim cfg data bs b : binned_as cfg data bs b ->
    ndim b = List.length bs /\ b <> BUnsupported /\ (List.length bs = 1 \/ List.length bs = 2).
  Proof. destruct 1; cbn; repeat split; (discriminate || auto). Qed.

  Lemma new_data cfg load k : new_likelihood oor g1 g2 cfg load = Ok k ->
    exists t sel, load = Ok t /\ (forall r, Forall2 (value_in t r) (k_on k) (sel r)) /\
      (forall r, List.length (sel r) = ndim (k_bins k)) /\
      keep (fun r => in_clip cfg (sel r)) sel (t_rows t) (k_data k).
  Proof.
    intros H. destruct (new_inv _ _ _ H) as (bs & t & is & Hw & Hl & -> & Hp & Hm & Hs & _).
    exists t, (select is). pose proof (positions_ok _ _ _ Hp) as HF. pose proof (forall2_length HF) as Hlen.
    split; [reflexivity|]. split; [|split].
    - intros r. apply select_values, HF.
    - intros r. rewrite select_length, <- Hlen, Hl. rewrite Hl in Hs. apply set_bins_as, binned_as_dim in Hs. symmetry. apply Hs.
    - rewrite Hlen in Hm. apply mask_keep, Hm.
  Qed.

  Lemma new_rows cfg load k r : new_likelihood oor g1 g2 cfg load = Ok k -> In r (k_data k) ->
    List.length r = ndim (k_bins k) /\ in_clip cfg r.
  Proof.
    intros H Hr. destruct (new_data _ _ _ H) as (t & sel & _ & _ & Hl & Hk).
    destruct (keep_in Hk r Hr) as (r0 & _ & Hc & ->). split; [apply Hl|exact Hc].
  Qed.

  Lemma new_as cfg load k : new_likelihood oor g1 g2 cfg load = Ok k ->
    exists bs, wanted cfg (k_on k) bs /\ List.length (k_on k) = List.length bs /\ binned_as cfg (k_data k) bs (k_bins k).
  Proof.
    intros H. destruct (new_inv _ _ _ H) as (bs & t & is & Hw & Hl & _ & _ & _ & Hs & _).
    exists bs. rewrite Hl in Hs. split; [exact Hw|]. split; [exact Hl|]. apply set_bins_as, Hs.
  Qed.

  Lemma new_supported cfg load k : new_likelihood oor g1 g2 cfg load = Ok k -> k_bins k <> BUnsupported.
  Proof. intros H. destruct (new_as _ _ _ H) as (bs & _ & _ & Ha). apply binned_as_dim in Ha. apply Ha. Qed.

  Lemma new_hist cfg load k : new_likelihood oor g1 g2 cfg load = Ok k ->
    k_hist k = make_data_hist oor (k_bins k) (k_data k).
  Proof. intros H. destruct (new_inv _ _ _ H) as (bs & t & is & _ & _ & _ & _ & _ & _ & E). exact E. Qed.

  Lemma new_counts cfg load k : new_likelihood oor g1 g2 cfg load = Ok k -> binning_ok (k_bins k) ->
    k_hist k = counts (k_bins k) (k_data k).
  Proof. intros H Hb. rewrite (new_hist _ _ _ H). apply data_hist_counts, Hb. Qed.

  Lemma new_total cfg load k : new_likelihood oor g1 g2 cfg load = Ok k -> binning_ok (k_bins k) ->
    spans cfg (k_bins k) -> fsum (k_hist k) = Fin (INR (List.length (k_data k))).
  Proof.
    intros H Hb Hs. rewrite (new_counts _ _ _ H Hb). apply counts_total; [exact Hb|]. intros r Hr.
    destruct (new_rows _ _ _ r H Hr) as [Hl Hc]. exact (spans_in_bin cfg _ r Hb Hs Hl Hc).
  Qed.

  (** Events outside the clip that are in no bin do not count. *)
  Lemma counts_keep cfg b sel rows data : keep (fun r => in_clip cfg (sel r)) sel rows data ->
    (forall r, In r rows -> in_some_bin b (sel r) -> in_clip cfg (sel r)) ->
    counts b (map sel rows) = counts b data.
  Proof.
    intros Hk H. unfold counts. apply map_ext_in. intros P HP. unfold number. f_equal. f_equal.
    induction Hk as [|r rows out Hc Hk IH|r rows out Hc Hk IH]; [reflexivity| |].
    - cbn [map filter]. destruct (P (sel r)); cbn [List.length];
        rewrite IH by (intros x Hx; apply H; right; exact Hx); reflexivity.
    - cbn [map filter]. destruct (P (sel r)) eqn:E.
      + destruct Hc. apply H; [left; reflexivity|]. exists P. split; assumption.
      + apply IH. intros x Hx. apply H. right. exact Hx.
  Qed.

  Lemma new_fixed cfg t k : new_likelihood oor g1 g2 cfg (Ok t) = Ok k -> binning_ok (k_bins k) ->
    exists sel, (forall r, Forall2 (value_in t r) (k_on k) (sel r)) /\
      forall c, n_bins c = k_bins k -> n_add_eps c = false ->
        (forall r, In r (t_rows t) -> in_some_bin (k_bins k) (sel r) -> in_clip cfg (sel r)) ->
        fixed_deduce oor c (map sel (t_rows t)) = Ok (k_hist k).
  Proof.
    intros H Hb. destruct (new_data _ _ _ H) as (t' & sel & E & Hv & Hl & Hk).
    assert (t' = t) by congruence. subst t'. exists sel. split; [exact Hv|]. intros c Hc He Hin.
    unfold fixed_deduce, implement_binning. rewrite Hc, He, make_data_hist_plain by (exact (new_supported _ _ _ H)).
    f_equal. rewrite (new_counts _ _ _ H Hb), data_hist_counts by exact Hb. exact (counts_keep cfg _ sel _ _ Hk Hin).
  Qed.

  Lemma filter_all {A} (f : A -> bool) l : (forall x, In x l -> f x = true) -> filter f l = l.
  Proof.
    induction l as [|a l IH]; intros H; [reflexivity|]. cbn [filter]. rewrite (H a (or_introl eq_refl)), IH; [reflexivity|].
    intros x Hx. apply H. right. exact Hx.
  Qed.

  Lemma new_equiprob_1d cfg load k n c e : new_likelihood oor g1 g2 cfg load = Ok k ->
    lc_bins_type cfg = "equiprob" -> wanted cfg (k_on k) [AInt n] -> lc_clip cfg = Some c ->
    g1 (map (obs 0) (k_data k)) n = Ok e -> good_equiprob_1d c e ->
    exists e', k_bins k = BIrreg1 e' /\ edges_ok e' /\ reaches c e' /\ k_hist k = counts (BIrreg1 e) (k_data k).
  Proof.
    intros H Ht Hw Hc Hg [Hok Hr]. destruct (new_as _ _ _ H) as (bs & Hw' & Hl & Ha).
    assert (E : bs = [AInt n]).
    { apply normalise_wanted in Hw. apply normalise_wanted in Hw'. congruence. }
    subst bs. destruct (reaches_not_nan _ _ Hr) as [Hn1 Hn2].
    assert (Hd : forall r, In r (k_data k) -> clipped c (obs 0 r)).
    { intros r Hrd. destruct (new_rows _ _ _ r H Hrd) as [Hlr Hcl].
      apply (in_clip_one cfg c r); [|exact Hc|exact Hcl]. rewrite Hlr. apply (binned_as_dim _ _ _ _ Ha). }
    inversion Ha as [s e0 Ht'|s s' ex ey Ht'|e0 Ht'|ex ry Ht'|n' c' e0 Ht' Hc' Hg' En Eb|n' m cx cy ex ry Ht']; try congruence; subst n'.
    assert (c' = c) by congruence. subst c'.
    rewrite filter_all in Hg' by (intros x Hx; apply in_map_iff in Hx; destruct Hx as (r & <- & Hx); apply strictly_iff, Hd, Hx).
    assert (e0 = e) by congruence. subst e0. exists (limit c e).
    split; [congruence|]. split; [apply limit_ok; assumption|]. split; [apply limit_reaches; assumption|].
    rewrite (new_counts _ _ _ H).
    - rewrite <- Eb. apply limit_counts_1d; assumption.
    - rewrite <- Eb. apply limit_ok; assumption.
  Qed.

  Lemma new_equiprob_2d cfg load k n m cx cy ex ry : new_likelihood oor g1 g2 cfg load = Ok k ->
    lc_bins_type cfg = "equiprob" -> wanted cfg (k_on k) [AInt n; AInt m] ->
    lc_x_clip cfg = Some cx -> lc_y_clip cfg = Some cy ->
    g2 (k_data k) [n; m] = Ok (ex, ry) -> good_equiprob_2d cx cy ex ry ->
    exists ex' ry', k_bins k = BIrreg2 ex' ry' /\ binning_ok (k_bins k) /\ spans cfg (k_bins k) /\
      k_hist k = counts (BIrreg2 ex ry) (k_data k).
  Proof.
    intros H Ht Hw Hcx Hcy Hg Hgood. destruct (new_as _ _ _ H) as (bs & Hw' & Hl & Ha).
    assert (E : bs = [AInt n; AInt m]).
    { apply normalise_wanted in Hw. apply normalise_wanted in Hw'. congruence. }
    subst bs. assert (Hd : forall r, In r (k_data k) -> clipped cx (obs 0 r) /\ clipped cy (obs 1 r)).
    { intros r Hrd. destruct (new_rows _ _ _ r H Hrd) as [Hlr Hcl].
      apply (in_clip_two cfg cx cy r); [|exact Hcx|exact Hcy|exact Hcl]. rewrite Hlr. apply (binned_as_dim _ _ _ _ Ha). }
    inversion Ha as [s e0 Ht'|s s' ex0 ey Ht'|e0 Ht'|ex0 ry0 Ht'|n' c' e0 Ht'|n' m' cx' cy' ex0 ry0 Ht' Hx' Hy' Hg' En Eb];
      try congruence; subst n' m'.
    assert (cx' = cx) by congruence. assert (cy' = cy) by congruence. subst cx' cy'.
    rewrite filter_all in Hg' by (intros r Hr; apply andb_true_iff; split; apply strictly_iff, Hd, Hr).
    assert (ex0 = ex) by congruence. assert (ry0 = ry) by congruence. subst ex0 ry0.
    assert (Hne : 1 <= List.length ry).
    { destruct Hgood as (((_ & Hx2) & Hlx & _) & _). lia. }
    assert (Hb : binning_ok (BIrreg2 (limit cx ex) (map (limit cy) ry))) by (apply limit_binning_2d; assumption).
    exists (limit cx ex), (map (limit cy) ry). split; [congruence|]. rewrite <- Eb in *. split; [exact Hb|].
    destruct Hgood as (Hok & Hrx & Hry). split.
    - exists cx, cy. split; [exact Hcx|]. split; [exact Hcy|]. split; [apply limit_reaches; [exact (proj1 Hok)|exact Hrx]|].
      intros r Hr. apply in_map_iff in Hr. destruct Hr as (r0 & <- & Hr0).
      apply limit_reaches; [|apply Hry, Hr0]. destruct Hok as (_ & _ & Hrows). apply (Hrows r0 Hr0).
    - rewrite (new_counts _ _ _ H) by (rewrite <- Eb; exact Hb). rewrite <- Eb. apply limit_counts_2d; assumption.
  Qed.

  Lemma has_clips_of cfg n rows data : mask_data cfg n rows = Ok data -> has_clips cfg n.
  Proof.
    unfold mask_data, has_clips. destruct n as [|[|n]]; [discriminate| |].
    - destruct (lc_clip cfg) as [c|]; [|discriminate]. intros _. exists c. reflexivity.
    - destruct (lc_x_clip cfg) as [cx|]; [|discriminate]. destruct (lc_y_clip cfg) as [cy|]; [|discriminate].
      intros _. exists cx, cy. split; reflexivity.
  Qed.

  Lemma has_clips_mask cfg n rows : 1 <= n -> has_clips cfg n -> exists data, mask_data cfg n rows = Ok data.
  Proof.
    unfold mask_data, has_clips. destruct n as [|[|n]]; intros Hn; [lia| |].
    - intros [c ->]. eauto.
    - intros (cx & cy & -> & ->). eauto.
  Qed.

  Lemma new_readable cfg load k : new_likelihood oor g1 g2 cfg load = Ok k ->
    readable load (k_on k) /\ has_clips cfg (List.length (k_on k)).
  Proof.
    intros H. destruct (new_inv _ _ _ H) as (bs & t & is & _ & _ & -> & Hp & Hm & _). split.
    - exists t. split; [reflexivity|]. intros c Hc. apply positions_ok in Hp.
      destruct (forall2_left Hp c Hc) as (i & _ & Hi). exact (nth_error_In _ _ Hi).
    - exact (has_clips_of _ _ _ _ Hm).
  Qed.
End New.
