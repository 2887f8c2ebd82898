(** C136: what of a data file matters. *)
From Coq Require Import Reals Lra ZArith Lia Permutation.
From Verif Require Import Base BaseFacts ModelFloat ModelHist ModelLikelihood ModelBinning
  SpecHist SpecLikelihood SpecWeighted SpecBinning
  ProofFloat ProofHist ProofLikelihood ProofLikelihood2 ProofWeighted ProofBinning PropHist PropBinning.
Local Open Scope string_scope.
Local Open Scope list_scope.

(** A column that the config asks for. *)
Definition asked (cfg : lconfig) (c : string) : Prop :=
  match lc_bins_on cfg with OnStr s => c = s | OnList l => In c l | OnOther => False end.

(** The bins do not depend on the order of the data: they are given, or the library that makes them does not. *)
Definition order_free (g1 : list fl -> Z -> result (list fl)) (g2 : list (list fl) -> list Z -> result (list fl * list (list fl))) (cfg : lconfig) : Prop :=
  lc_bins_type cfg <> "equiprob" \/
  (forall l l' n, Permutation l l' -> g1 l n = g1 l' n) /\ (forall l l' ns, Permutation l l' -> g2 l ns = g2 l' ns).

Lemma asked_on cfg on bs : normalise_bins (lc_bins_on cfg) (lc_bins cfg) = Ok (on, bs) -> forall c, In c on <-> asked cfg c.
Proof.
  intros H c. unfold asked. destruct (lc_bins_on cfg) as [s|l|], (lc_bins cfg); cbn in H; try discriminate; injection H as <- <-; cbn; intuition congruence.
Qed.

Lemma filter_perm {A} (f : A -> bool) l l' : Permutation l l' -> Permutation (filter f l) (filter f l').
Proof.
  induction 1 as [|x l l' P IH|x y l|l l' l'' P1 IH1 P2 IH2]; cbn [filter].
  - constructor.
  - destruct (f x); [constructor|]; exact IH.
  - destruct (f x), (f y); try apply Permutation_refl; constructor.
  - eapply Permutation_trans; eassumption.
Qed.
Lemma mask_perm cfg dim rows rows' data : Permutation rows rows' -> mask_data cfg dim rows = Ok data ->
  exists data', mask_data cfg dim rows' = Ok data' /\ Permutation data data'.
Proof.
  intros P H. unfold mask_data in *. destruct dim as [|[|d]]; [discriminate| |].
  - destruct (lc_clip cfg) as [c|]; [|discriminate]. injection H as <-. eexists. split; [reflexivity|]. apply filter_perm, P.
  - destruct (lc_x_clip cfg) as [cx|]; [|discriminate]. destruct (lc_y_clip cfg) as [cy|]; [|discriminate]. injection H as <-.
    eexists. split; [reflexivity|]. apply filter_perm, P.
Qed.
Lemma mask_err cfg dim rows rows' e : mask_data cfg dim rows = Err e -> mask_data cfg dim rows' = Err e.
Proof.
  unfold mask_data. destruct dim as [|[|d]]; [auto| |].
  - destruct (lc_clip cfg); congruence.
  - destruct (lc_x_clip cfg), (lc_y_clip cfg); congruence.
Qed.
Lemma set_bins_perm g1 g2 cfg dim bs data data' : order_free g1 g2 cfg -> Permutation data data' -> set_bins g1 g2 cfg dim bs data = set_bins g1 g2 cfg dim bs data'.
Proof.
  intros Hf P. unfold set_bins. destruct (negb _); [reflexivity|]. destruct (String.eqb (lc_bins_type cfg) "meshgrid"); [reflexivity|].
  destruct (String.eqb (lc_bins_type cfg) "equiprob") eqn:He; [|reflexivity]. apply String.eqb_eq in He.
  destruct Hf as [Hf|[H1 H2]]; [congruence|]. destruct (all_int bs) as [ns|]; [|reflexivity]. destruct (Nat.eqb dim 1).
  - destruct (lc_clip cfg) as [c|]; [|reflexivity]. destruct ns as [|n ns]; [reflexivity|]. unfold equiprob_1d.
    rewrite (H1 _ _ n (filter_perm (strictly c) _ _ (Permutation_map (obs 0) P))). reflexivity.
  - destruct (lc_x_clip cfg) as [cx|]; [|reflexivity]. destruct (lc_y_clip cfg) as [cy|]; [|reflexivity]. unfold equiprob_2d.
    rewrite (H2 _ _ ns (filter_perm (fun r => strictly cx (obs 0 r) && strictly cy (obs 1 r))%bool _ _ P)). reflexivity.
Qed.
Lemma counts_perm b data data' : Permutation data data' -> counts b data = counts b data'.
Proof. intros P. unfold counts. apply map_ext. intros Q. unfold number. rewrite (Permutation_length (filter_perm Q _ _ P)). reflexivity. Qed.

(** The order of the events of the file does not matter: the same bins, the same histogram, or the same refusal. *)
Theorem C136_order oor g1 g2 cfg cols rows rows' : order_free g1 g2 cfg -> Permutation rows rows' ->
  match new_likelihood oor g1 g2 cfg (Ok (mk_table cols rows)), new_likelihood oor g1 g2 cfg (Ok (mk_table cols rows')) with
  | Ok k, Ok k' => k_on k = k_on k' /\ k_bins k = k_bins k' /\ Permutation (k_data k) (k_data k') /\ (binning_ok (k_bins k) -> k_hist k = k_hist k')
  | Err e, Err e' => e = e'
  | _, _ => False
  end.
Proof.
  intros Hf P. unfold new_likelihood. cbn [t_columns t_rows]. destruct (normalise_bins _ _) as [[on bs]|e]; [|reflexivity].
  destruct (negb _); [reflexivity|]. destruct (positions on cols) as [is|e]; [|reflexivity].
  destruct (mask_data cfg (List.length on) (map (select is) rows)) as [data|e] eqn:Hm.
  - destruct (mask_perm _ _ _ _ _ (Permutation_map (select is) P) Hm) as (data' & -> & Pd).
    rewrite (set_bins_perm g1 g2 cfg (List.length on) bs data data' Hf Pd). destruct (set_bins _ _ _ _ _ data') as [b|e]; [|reflexivity].
    cbn [k_on k_bins k_data k_hist]. split; [reflexivity|]. split; [reflexivity|]. split; [exact Pd|]. intros Hb.
    rewrite !data_hist_counts by exact Hb. apply counts_perm, Pd.
  - rewrite (mask_err _ _ _ (map (select is) rows') _ Hm). reflexivity.
Qed.

Lemma position_none c cols : position c cols = None -> ~ In c cols.
Proof. intros H Hi. destruct (position_in c cols Hi) as [i E]. congruence. Qed.
Lemma nodup_position c cols i : NoDup cols -> nth_error cols i = Some c -> position c cols = Some i.
Proof.
  intros Hn Hi. destruct (position_in c cols (nth_error_In _ _ Hi)) as [j Hj]. rewrite Hj. f_equal.
  apply (proj1 (NoDup_nth_error cols) Hn); [apply nth_error_Some; rewrite (position_some _ _ _ Hj); discriminate|].
  rewrite Hi. apply position_some, Hj.
Qed.

(** Only the columns that are asked for matter, wherever in the file they are. *)
Theorem C136_columns oor g1 g2 cfg t t' : NoDup (t_columns t) -> NoDup (t_columns t') ->
  (forall c, asked cfg c -> In c (t_columns t) <-> In c (t_columns t')) ->
  Forall2 (fun r r' => forall c v, asked cfg c -> value_in t r c v <-> value_in t' r' c v) (t_rows t) (t_rows t') ->
  new_likelihood oor g1 g2 cfg (Ok t) = new_likelihood oor g1 g2 cfg (Ok t').
Proof.
  intros N N' Hc Hr. unfold new_likelihood. destruct (normalise_bins _ _) as [[on bs]|e] eqn:Hn; [|reflexivity].
  destruct (negb _); [reflexivity|].
  assert (Ha : forall c, In c on -> asked cfg c) by (intros c; apply (asked_on _ _ _ Hn)). clear Hn.
  assert (E : match positions on (t_columns t), positions on (t_columns t') with
              | Ok is, Ok is' => map (select is) (t_rows t) = map (select is') (t_rows t')
              | Err e, Err e' => e = e' | _, _ => False end).
  { clear bs. induction on as [|c on IH]; cbn [positions].
    - clear - Hr. induction Hr as [|r r' l l' _ _ IH]; cbn [map]; [reflexivity|]. f_equal. exact IH.
    - destruct (position c (t_columns t)) as [i|] eqn:Hi; destruct (position c (t_columns t')) as [j|] eqn:Hj.
      + specialize (IH (fun c' H => Ha c' (or_intror H))).
        destruct (positions on (t_columns t)) as [is|], (positions on (t_columns t')) as [is'|]; try exact IH.
        pose proof (position_some _ _ _ Hi) as Ei. pose proof (position_some _ _ _ Hj) as Ej.
        specialize (Ha c (or_introl eq_refl)). clear - Hr IH Ei Ej Ha N N' Hj.
        induction Hr as [|r r' l l' H _ IHr]; cbn [map] in *; [reflexivity|]. injection IH as E1 E2. f_equal; [|apply IHr, E2].
        unfold select in *. cbn [map]. f_equal; [|exact E1].
        assert (V : value_in t r c (obs i r)) by (exists i; split; [exact Ei|reflexivity]).
        apply (H c _ Ha) in V. destruct V as (j' & Hj' & ->). pose proof (nodup_position _ _ _ N' Hj') as Ep. rewrite Hj in Ep. injection Ep as <-. reflexivity.
      + exfalso. apply (position_none _ _ Hj). apply (proj1 (Hc c (Ha c (or_introl eq_refl)))). exact (nth_error_In _ _ (position_some _ _ _ Hi)).
      + exfalso. apply (position_none _ _ Hi). apply (proj2 (Hc c (Ha c (or_introl eq_refl)))). exact (nth_error_In _ _ (position_some _ _ _ Hj)).
      + reflexivity. }
  destruct (positions on (t_columns t)) as [is|e], (positions on (t_columns t')) as [is'|e']; try contradiction; [|congruence].
  rewrite E. reflexivity.
Qed.

Lemma filter_twice {A} (f g : A -> bool) l : (forall x, In x l -> f x = false -> g x = false) -> filter g (filter f l) = filter g l.
Proof.
  induction l as [|x l IH]; intros H; [reflexivity|]. cbn [filter]. pose proof (H x (or_introl eq_refl)) as Hx.
  specialize (IH (fun y Hy => H y (or_intror Hy))). destruct (f x); cbn [filter]; [rewrite IH; reflexivity|]. rewrite Hx by reflexivity. exact IH.
Qed.

(** Events outside the clip may as well not be in the file. *)
Theorem C136_outside oor g1 g2 cfg cols rows keep_it :
  (forall r on bs vs, In r rows -> keep_it r = false -> wanted cfg on bs -> Forall2 (value_in (mk_table cols rows) r) on vs -> ~ in_clip cfg vs) ->
  new_likelihood oor g1 g2 cfg (Ok (mk_table cols (filter keep_it rows))) = new_likelihood oor g1 g2 cfg (Ok (mk_table cols rows)).
Proof.
  intros H. unfold new_likelihood. cbn [t_columns t_rows]. destruct (normalise_bins _ _) as [[on bs]|e] eqn:Hn; [|reflexivity].
  destruct (negb _); [reflexivity|]. destruct (positions on cols) as [is|e] eqn:Hp; [|reflexivity].
  assert (V : forall r, In r rows -> keep_it r = false -> ~ in_clip cfg (select is r)).
  { intros r Hr Hk. apply (H r on bs _ Hr Hk); [apply normalise_wanted, Hn|]. apply select_values, positions_ok, Hp. }
  assert (E : mask_data cfg (List.length on) (map (select is) (filter keep_it rows)) = mask_data cfg (List.length on) (map (select is) rows)).
  { rewrite (forall2_length (positions_ok _ _ _ Hp)). unfold mask_data. destruct is as [|i [|j is]]; cbn [List.length]; [reflexivity| |].
    - destruct (lc_clip cfg) as [c|] eqn:Hc; [|reflexivity]. f_equal. rewrite !filter_map_comm. f_equal. apply filter_twice.
      intros r Hr Hk. specialize (V r Hr Hk). apply Bool.not_true_is_false. intros Hs. apply V. cbn. exists c. split; [exact Hc|]. apply strictly_iff, Hs.
    - destruct (lc_x_clip cfg) as [cx|] eqn:Hcx; [|reflexivity]. destruct (lc_y_clip cfg) as [cy|] eqn:Hcy; [|reflexivity].
      f_equal. rewrite !filter_map_comm. f_equal. apply filter_twice.
      intros r Hr Hk. specialize (V r Hr Hk). apply Bool.not_true_is_false. intros Hs. apply andb_true_iff in Hs as [Hx Hy].
      apply V. cbn. exists cx, cy. split; [exact Hcx|]. split; [exact Hcy|]. split; apply strictly_iff; assumption. }
  rewrite E. reflexivity.
Qed.

Lemma set_bins_given g1 g2 cfg dim bs data data' : lc_bins_type cfg <> "equiprob" -> set_bins g1 g2 cfg dim bs data = set_bins g1 g2 cfg dim bs data'.
Proof.
  intros Hf. unfold set_bins. destruct (String.eqb (lc_bins_type cfg) "equiprob") eqn:He; [apply String.eqb_eq in He; congruence|reflexivity].
Qed.
Lemma counts_app b d d' : counts b (d ++ d') = map (fun e => fadd (fst e) (snd e)) (combine (counts b d) (counts b d')).
Proof.
  unfold counts. induction (bins_of b) as [|P l IH]; [reflexivity|]. cbn [map combine fst snd]. f_equal; [|exact IH].
  unfold number. rewrite filter_app, app_length, plus_INR. rewrite fadd_Fin. reflexivity.
Qed.

(** With bins that do not come from the data, the histogram of two files put together is the sum of the two. *)
Theorem C136_joined oor g1 g2 cfg cols rows rows' k k' : lc_bins_type cfg <> "equiprob" ->
  new_likelihood oor g1 g2 cfg (Ok (mk_table cols rows)) = Ok k -> new_likelihood oor g1 g2 cfg (Ok (mk_table cols rows')) = Ok k' ->
  exists j, new_likelihood oor g1 g2 cfg (Ok (mk_table cols (rows ++ rows'))) = Ok j /\
    k_bins j = k_bins k /\ k_bins j = k_bins k' /\ k_data j = k_data k ++ k_data k' /\
    (binning_ok (k_bins j) -> k_hist j = map (fun e => fadd (fst e) (snd e)) (combine (k_hist k) (k_hist k'))).
Proof.
  intros Hf. unfold new_likelihood. cbn [t_columns t_rows]. destruct (normalise_bins _ _) as [[on bs]|e]; [|discriminate].
  destruct (negb _); [discriminate|]. destruct (positions on cols) as [is|e]; [|discriminate].
  destruct (mask_data cfg (List.length on) (map (select is) rows)) as [d|e] eqn:Hm; [|discriminate].
  destruct (mask_data cfg (List.length on) (map (select is) rows')) as [d'|e] eqn:Hm'; [|discriminate].
  assert (E : mask_data cfg (List.length on) (map (select is) (rows ++ rows')) = Ok (d ++ d')).
  { rewrite map_app. unfold mask_data in *. destruct (List.length on) as [|[|n]]; [discriminate| |].
    - destruct (lc_clip cfg); [|discriminate]. injection Hm as <-. injection Hm' as <-. rewrite filter_app. reflexivity.
    - destruct (lc_x_clip cfg); [|discriminate]. destruct (lc_y_clip cfg); [|discriminate]. injection Hm as <-. injection Hm' as <-. rewrite filter_app. reflexivity. }
  rewrite E. rewrite (set_bins_given g1 g2 cfg _ bs d (d ++ d') Hf), (set_bins_given g1 g2 cfg _ bs d' (d ++ d') Hf).
  destruct (set_bins _ _ _ _ _ _) as [b|e]; [|discriminate]. intros H H'. injection H as <-. injection H' as <-.
  eexists. split; [reflexivity|]. cbn [k_bins k_data k_hist]. repeat split. intros Hb. rewrite !data_hist_counts by exact Hb. apply counts_app.
Qed.

(** A component made from a file does not depend on the order of its events either. *)
Theorem C136_fixed oor c data data' p : binning_ok (n_bins c) -> Permutation data data' -> fixed_hist oor c data p = fixed_hist oor c data' p.
Proof.
  intros Hb P. unfold fixed_hist, fixed_deduce, implement_binning. rewrite !(plain_hist_binned oor _ _ _ Hb), !binned_ones, (counts_perm _ _ _ P).
  assert (E : map (fun _ : list fl => Fin 1) data = map (fun _ => Fin 1) data').
  { apply Permutation_length in P. clear - P. revert data' P. induction data as [|x l IH]; intros [|y l'] P; try discriminate; [reflexivity|].
    cbn [map]. f_equal. apply IH. injection P as P. exact P. }
  rewrite E, (Permutation_length P). reflexivity.
Qed.

(** A file in another order, with the columns exchanged and an event outside the clip less. *)
Definition table5_other : table := mk_table ["cs2"; "cs1"] [[Fin 2; Fin 9]; [Fin 3; Fin 9]; [NaN; Fin 9]; [Fin 1; Fin 9]].
Example C136_case : exists k k', new_likelihood no_oor no_g1 no_g2 config5 (Ok table5) = Ok k /\
  new_likelihood no_oor no_g1 no_g2 config5 (Ok table5_other) = Ok k' /\ k_bins k = k_bins k' /\ k_hist k' = [Fin 1; Fin 2].
Proof.
  destruct C80_case as (k & Hk & He & _ & Hh & _).
  set (t1 := mk_table ["cs1"; "cs2"] [[Fin 9; Fin 1]; [Fin 9; Fin 3]; [Fin 9; Fin 2]; [Fin 9; NaN]]).
  set (t2 := mk_table ["cs1"; "cs2"] [[Fin 9; Fin 2]; [Fin 9; Fin 3]; [Fin 9; NaN]; [Fin 9; Fin 1]]).
  assert (E1 : new_likelihood no_oor no_g1 no_g2 config5 (Ok t1) = Ok k).
  { rewrite <- Hk. set (f := fun r => negb (flt (Fin 4) (nth 1 r NaN))). assert (Ef : t1 = mk_table ["cs1"; "cs2"] (filter f (t_rows table5))).
    { unfold t1, f, table5. f_equal. cbn [t_rows filter nth]. fl_eval. reflexivity. }
    rewrite Ef. apply C136_outside. intros r on bs vs _ Hr Hw Hv. unfold f in Hr. apply Bool.negb_false_iff in Hr.
    destruct Hw as [[Hw _]|(s & Hw & -> & _)]; [discriminate Hw|]. injection Hw as <-.
    inversion Hv as [|a b l l' (i & Hi & ->) Hn]; subst. inversion Hn; subst. cbn [in_clip]. intros (c & Hc & _ & Hlt). injection Hc as <-. cbn [snd] in Hlt.
    destruct i as [|[|i]]; cbn in Hi; [discriminate| |destruct i; discriminate].
    destruct (nth 1 r NaN) as [x| | |] eqn:Ex; cbn in Hr, Hlt; try discriminate. repeat destruct Rlt_dec; try discriminate; lra. }
  pose proof (C136_order no_oor no_g1 no_g2 config5 ["cs1"; "cs2"] (t_rows t1) (t_rows t2)) as Ho.
  change (mk_table ["cs1"; "cs2"] (t_rows t1)) with t1 in Ho. change (mk_table ["cs1"; "cs2"] (t_rows t2)) with t2 in Ho.
  rewrite E1 in Ho.
  assert (Hf : order_free no_g1 no_g2 config5) by (left; cbn; discriminate). specialize (Ho Hf).
  assert (P : Permutation (t_rows t1) (t_rows t2)).
  { cbn. apply perm_trans with ([[Fin 9; Fin 3]; [Fin 9; Fin 2]; [Fin 9; NaN]] ++ [[Fin 9; Fin 1]]); [apply Permutation_cons_append|]. cbn. apply perm_swap. }
  specialize (Ho P).
  assert (E2 : new_likelihood no_oor no_g1 no_g2 config5 (Ok table5_other) = new_likelihood no_oor no_g1 no_g2 config5 (Ok t2)).
  { apply C136_columns.
    - repeat constructor; cbn; intuition congruence.
    - repeat constructor; cbn; intuition congruence.
    - intros c Hc. cbn in *. intuition congruence.
    - assert (A : forall a b, (fun r r' => forall c v, asked config5 c -> value_in table5_other r c v <-> value_in t2 r' c v) [a; b] [b; a]).
      { intros a b c v Hc. cbn in Hc. subst c. unfold value_in. cbn [t_columns table5_other t2]. split; intros (i & Hi & ->).
        - destruct i as [|[|[|i]]]; cbn in Hi; try discriminate. exists 1. split; reflexivity.
        - destruct i as [|[|[|i]]]; cbn in Hi; try discriminate. exists 0. split; reflexivity. }
      repeat (constructor; [apply A|]). constructor. }
  rewrite E2. destruct (new_likelihood no_oor no_g1 no_g2 config5 (Ok t2)) as [k'|e] eqn:E3; [|contradiction].
  exists k, k'. split; [exact Hk|]. split; [reflexivity|]. destruct Ho as (_ & Hb & _ & Hkk). split; [exact Hb|]. rewrite <- Hh. symmetry. apply Hkk.
  assert (Hw : wanted config5 ["cs2"] [AInt 2]).
  { right. exists "cs2". split; [reflexivity|]. split; [reflexivity|]. right. exists 2%Z. split; reflexivity. }
  destruct (new_as _ _ _ _ _ _ Hk) as (bs & Hw' & _). destruct Hw' as [[Hw' _]|(s & Hw' & Eo & _)]; [discriminate Hw'|].
  injection Hw' as <-. rewrite <- Eo in Hw.
  exact (proj1 (proj2 (C80_meshgrid_1d _ _ _ _ _ _ 2 0 4 Hk eq_refl Hw eq_refl ltac:(lia) ltac:(lra)))).
Qed.

Print Assumptions C136_order.
Print Assumptions C136_columns.
Print Assumptions C136_outside.
Print Assumptions C136_joined.
Print Assumptions C136_fixed.
