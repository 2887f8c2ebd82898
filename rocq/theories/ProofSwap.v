(** Lemmas for the order of the two axes of a likelihood (C123). *)
From Coq Require Import Reals Lia Permutation ZArith.
From Verif Require Import Base BaseFacts ModelFloat ModelHist ModelLikelihood ModelBinning SpecHist SpecSwap
  ProofFloat ProofHist ProofLikelihood ProofRebin.
Local Open Scope string_scope.
Local Open Scope list_scope.

(* ------------------------------------------------------------------ *)
(** * Tables *)

Lemma perm_columns {A B C} (f : A -> B -> C) (xs : list A) (ys : list B) :
  Permutation (flat_map (fun x => map (f x) ys) xs) (flat_map (fun y => map (fun x => f x y) xs) ys).
Proof.
  induction xs as [|x xs IH].
  - cbn. induction ys as [|y ys IHy]; [constructor|exact IHy].
  - cbn [flat_map]. rewrite IH. clear IH. induction ys as [|y ys IHy]; [constructor|].
    cbn [flat_map map]. cbn [app]. constructor. rewrite <- IHy.
    rewrite !app_assoc. apply Permutation_app_tail. apply Permutation_app_comm.
Qed.

Lemma exchanged_perm {A} n m (l l' : list A) : exchanged n m l l' -> Permutation l l'.
Proof. intros (f & -> & ->). apply perm_columns. Qed.

Lemma by_rows_length {A} n m (f : nat -> nat -> A) : List.length (by_rows n m f) = n * m.
Proof.
  unfold by_rows. rewrite <- (seq_length n 0) at 2. generalize (seq 0 n). intros l. induction l as [|i l IH]; [reflexivity|].
  cbn [flat_map List.length]. rewrite app_length, IH, map_length, seq_length. cbn. reflexivity.
Qed.

Lemma exchanged_length {A} n m (l l' : list A) : exchanged n m l l' -> List.length l = n * m /\ List.length l' = n * m.
Proof. intros (f & -> & ->). rewrite !by_rows_length. split; [reflexivity|apply Nat.mul_comm]. Qed.

Lemma by_rows_map {A B} (g : A -> B) n m f : map g (by_rows n m f) = by_rows n m (fun i j => g (f i j)).
Proof.
  unfold by_rows. generalize (seq 0 n). intros l. induction l as [|i l IH]; [reflexivity|].
  cbn [flat_map]. rewrite map_app, IH, map_map. reflexivity.
Qed.

Lemma combine_app {A B} : forall (a b : list A) (c d : list B), List.length a = List.length c ->
  combine (a ++ b) (c ++ d) = combine a c ++ combine b d.
Proof.
  induction a as [|x a IH]; intros b [|y c] d H; cbn in H; try discriminate; [reflexivity|]. cbn. f_equal. apply IH. lia.
Qed.

Lemma combine_maps {A B C} (f : A -> B) (g : A -> C) l : combine (map f l) (map g l) = map (fun x => (f x, g x)) l.
Proof. induction l as [|x l IH]; [reflexivity|]. cbn. f_equal. exact IH. Qed.

Lemma by_rows_combine {A B} n m (f : nat -> nat -> A) (g : nat -> nat -> B) :
  combine (by_rows n m f) (by_rows n m g) = by_rows n m (fun i j => (f i j, g i j)).
Proof.
  unfold by_rows. generalize (seq 0 n). intros l. induction l as [|i l IH]; [reflexivity|].
  cbn [flat_map]. rewrite combine_app by (rewrite !map_length; reflexivity). rewrite IH, combine_maps. reflexivity.
Qed.

Lemma exchanged_map {A B} (g : A -> B) n m l l' : exchanged n m l l' -> exchanged n m (map g l) (map g l').
Proof. intros (f & -> & ->). exists (fun i j => g (f i j)). rewrite !by_rows_map. split; reflexivity. Qed.

Lemma exchanged_combine {A B} n m (l l' : list A) (k k' : list B) : exchanged n m l l' -> exchanged n m k k' ->
  exchanged n m (combine l k) (combine l' k').
Proof. intros (f & -> & ->) (g & -> & ->). exists (fun i j => (f i j, g i j)). rewrite !by_rows_combine. split; reflexivity. Qed.

Lemma exchanged_sum n m l l' : exchanged n m l l' -> fsum l' = fsum l.
Proof. intros H. apply fsum_perm, Permutation_sym, (exchanged_perm _ _ _ _ H). Qed.

(* ------------------------------------------------------------------ *)
(** * Histograms *)

Lemma concat_map_flat {A B} (g : A -> list B) l : List.concat (map g l) = flat_map g l.
Proof. induction l as [|x l IH]; [reflexivity|]. cbn. rewrite IH. reflexivity. Qed.

Definition flip_event (e : fl * fl * fl) : fl * fl * fl := (snd (fst e), fst (fst e), snd e).

Lemma mesh_by_rows ex ey events :
  List.concat (hist_mesh_2d ex ey events)
  = by_rows (List.length ex - 1) (List.length ey - 1) (fun i j =>
      weight_of snd (fun e => Nat.eqb (index_dd ex (fst (fst e))) (S i) && Nat.eqb (index_dd ey (snd (fst e))) (S j)) events).
Proof.
  pose proof (trim2_scatter (List.length ex) (List.length ey) (fun e : fl * fl * fl => index_dd ex (fst (fst e)))
    (fun e => index_dd ey (snd (fst e))) snd events) as (_ & _ & C).
  destruct (mesh_2d_shape ex ey events) as (A & _ & B).
  rewrite (rows_as_entries _ _ _ A B), concat_map_flat. unfold by_rows. rewrite !flat_map_concat_map. f_equal.
  apply map_ext_in. intros i Hi. apply in_seq in Hi. apply map_ext_in. intros j Hj. apply in_seq in Hj.
  unfold hist_mesh_2d. change (fold_left _ events ?h) with
    (scatter2 _ (fun e : fl * fl * fl => index_dd ex (fst (fst e))) (fun e => index_dd ey (snd (fst e))) snd events h).
  unfold zeros2 in C. apply C; lia.
Qed.

Lemma weight_flip P events :
  weight_of snd P (map flip_event events) = weight_of snd (fun e => P (flip_event e)) events.
Proof.
  unfold weight_of. f_equal. induction events as [|e events IH]; [reflexivity|]. cbn [map filter].
  destruct (P (flip_event e)); cbn [map]; rewrite IH; reflexivity.
Qed.

Lemma mesh_exchanged ex ey events :
  exchanged (List.length ex - 1) (List.length ey - 1)
    (List.concat (hist_mesh_2d ex ey events)) (List.concat (hist_mesh_2d ey ex (map flip_event events))).
Proof.
  eexists. rewrite !mesh_by_rows. split; [reflexivity|]. unfold by_rows. apply flat_map_ext. intros i. apply map_ext. intros j.
  rewrite weight_flip. apply weight_of_ext. intros e _. cbn [flip_event fst snd]. apply andb_comm.
Qed.

Lemma obs_swap r : 2 <= List.length r -> obs 0 (swap_row r) = obs 1 r /\ obs 1 (swap_row r) = obs 0 r.
Proof. destruct r as [|x [|y r]]; cbn; intros H; try lia. split; reflexivity. Qed.

Lemma swap_length r : List.length (swap_row r) = List.length r.
Proof. destruct r as [|x [|y r]]; reflexivity. Qed.

Lemma flip_events mc eff : (forall r, In r mc -> 2 <= List.length r) ->
  combine (map (fun r => (obs 0 r, obs 1 r)) (map swap_row mc)) eff
  = map flip_event (combine (map (fun r => (obs 0 r, obs 1 r)) mc) eff).
Proof.
  revert eff. induction mc as [|r mc IH]; intros [|e eff] H; [reflexivity..|]. cbn [map combine]. f_equal.
  - destruct (obs_swap r (H r (or_introl eq_refl))) as [-> ->]. reflexivity.
  - apply IH. intros r' Hr'. apply H. right. exact Hr'.
Qed.

Section Swap.
  Variable oor : list (list fl) -> nat -> list fl.

  Lemma binning_exchanged a ex ey mc eff : (forall r, In r mc -> 2 <= List.length r) ->
    exists h h', implement_binning oor a (BMesh2 ex ey) mc eff = Ok h /\
      implement_binning oor a (BMesh2 ey ex) (map swap_row mc) eff = Ok h' /\
      exchanged (List.length ex - 1) (List.length ey - 1) h h'.
  Proof.
    intros H. unfold implement_binning. cbn [plain_hist]. rewrite flip_events by exact H. do 2 eexists.
    split; [reflexivity|]. split; [reflexivity|]. destruct a; [apply exchanged_map|]; apply mesh_exchanged.
  Qed.

  Lemma normalization_exchanged nt rate mci n m h h' p b : exchanged n m h h' ->
    get_normalization nt rate mci h' p b = get_normalization nt rate mci h p b.
  Proof. intros H. unfold get_normalization. rewrite (exchanged_sum _ _ _ _ H). reflexivity. Qed.

  Lemma split_swap no_eff rows : (forall r, In r (fst (split_rows no_eff rows)) -> List.length r = 2) ->
    split_rows no_eff (map swap_row rows) = (map swap_row (fst (split_rows no_eff rows)), snd (split_rows no_eff rows)).
  Proof.
    unfold split_rows. destruct no_eff; cbn [fst snd]; intros H.
    - f_equal. rewrite map_map. reflexivity.
    - rewrite !map_map. f_equal; apply map_ext_in; intros r Hr;
        specialize (H (removelast r) (in_map _ _ _ Hr)); destruct r as [|x [|y [|z [|u r]]]]; cbn in H; try discriminate; reflexivity.
  Qed.

  Lemma removelast_swap_length r : List.length (removelast (swap_row r)) = List.length (removelast r).
  Proof. rewrite !removelast_length, swap_length. reflexivity. Qed.

  Lemma split_swap_lengths no_eff rows P :
    forallb (fun r : list fl => P (List.length r)) (fst (split_rows no_eff (map swap_row rows)))
    = forallb (fun r => P (List.length r)) (fst (split_rows no_eff rows)).
  Proof.
    unfold split_rows. destruct no_eff; cbn [fst]; induction rows as [|r rows IH]; try reflexivity; cbn [map forallb];
      rewrite IH; [rewrite swap_length|rewrite removelast_swap_length]; reflexivity.
  Qed.

  Lemma sim_hist_exchanged {K} c c' ex ey (sim sim' : K -> nat -> params -> result (K * list (list fl))) key b p :
    swapped_cnum c c' ex ey -> swapped_sim sim sim' ->
    same_hist (List.length ex - 1) (List.length ey - 1) (sim_hist oor c sim key b p) (sim_hist oor c' sim' key b p).
  Proof.
    intros (B & B' & Hr & Hn & Ha & He & Hm) Hs. unfold sim_hist. rewrite Hs. destruct (sim key b p) as [[k rows]|e]; [|reflexivity].
    rewrite He, B, B', Hr, Hn, Ha, Hm. cbn [ndim].
    pose proof (split_swap_lengths (n_no_eff c) rows (fun x => Nat.eqb x 2)) as HL.
    pose proof (split_swap (n_no_eff c) rows) as HS.
    destruct (split_rows (n_no_eff c) rows) as [mc eff] eqn:E. destruct (split_rows (n_no_eff c) (map swap_row rows)) as [mc' eff'] eqn:E'.
    cbn [fst snd] in HL, HS. rewrite HL. destruct (forallb (fun r => Nat.eqb (List.length r) 2) mc) eqn:F; [|reflexivity].
    assert (F' : forall r, In r mc -> List.length r = 2).
    { rewrite forallb_forall in F. intros r Hi. apply Nat.eqb_eq, F, Hi. }
    specialize (HS F'). injection HS as -> ->.
    destruct (binning_exchanged (n_add_eps c) ex ey mc eff) as (h & h' & -> & -> & X).
    { intros r Hi. rewrite (F' r Hi). constructor. }
    rewrite (normalization_exchanged _ _ _ _ _ _ _ _ _ X). destruct (get_normalization _ _ _ h p b) as [f|e]; [|reflexivity].
    cbn. split; [reflexivity|]. apply exchanged_map, X.
  Qed.

  Lemma fixed_hist_exchanged c c' ex ey data p : swapped_cnum c c' ex ey -> (forall r, In r data -> 2 <= List.length r) ->
    same_hist (List.length ex - 1) (List.length ey - 1)
      (with_unit (fixed_hist oor c data p)) (with_unit (fixed_hist oor c' (map swap_row data) p)).
  Proof.
    intros (B & B' & Hr & Hn & Ha & He & Hm) Hd. unfold fixed_hist, fixed_deduce. rewrite B, B', Hr, Hn, Ha, map_map, map_length.
    destruct (binning_exchanged (n_add_eps c) ex ey data (map (fun _ => Fin 1) data) Hd) as (h & h' & -> & -> & X).
    rewrite (normalization_exchanged _ _ _ _ _ _ _ _ _ X). destruct (get_normalization _ _ _ h p _) as [f|e]; [|reflexivity].
    cbn. split; [reflexivity|]. apply exchanged_map, X.
  Qed.
End Swap.

(* ------------------------------------------------------------------ *)
(** * The likelihood *)

Lemma iadd_exchanged n m h h' x x' : exchanged n m h h' -> exchanged n m x x' ->
  exists y y', iadd h x = Ok y /\ iadd h' x' = Ok y' /\ exchanged n m y y'.
Proof.
  intros H X. destruct (exchanged_length _ _ _ _ H) as [L1 L2]. destruct (exchanged_length _ _ _ _ X) as [L3 L4].
  unfold iadd. rewrite L1, L2, L3, L4, Nat.eqb_refl. do 2 eexists. split; [reflexivity|]. split; [reflexivity|].
  apply exchanged_map, exchanged_combine; assumption.
Qed.

Lemma sum_exchanged {K} n m (cs cs' : dict (lcomp K)) :
  Forall2 (fun x x' => fst x' = fst x /\ same_comp n m (snd x) (snd x')) cs cs' ->
  forall key b p h h', exchanged n m h h' ->
  same_hist n m (sum_components cs key b p h) (sum_components cs' key b p h').
Proof.
  induction 1 as [|[a c] [a' c'] cs cs' (_ & _ & Hc) Hcs IH]; intros key b p h h' X; [split; [reflexivity|exact X]|].
  cbn [fst snd] in *. cbn [sum_components].
  set (r := match l_kind c with LSim f => f key b p | LFixed f => _ | LOther => _ end).
  set (r' := match l_kind c' with LSim f => f key b p | LFixed f => _ | LOther => _ end).
  assert (S : same_hist n m r r').
  { unfold r, r'. destruct (l_kind c) as [f|f|], (l_kind c') as [f'|f'|]; try contradiction; [apply Hc| |reflexivity].
    specialize (Hc p). destruct (f p) as [x|e], (f' p) as [x'|e']; cbn in Hc |- *; try contradiction; [|exact Hc].
    destruct Hc as [_ Hc]. split; [reflexivity|exact Hc]. }
  clearbody r r'. destruct r as [[k x]|e], r' as [[k' x']|e']; cbn in S; try contradiction; [|exact S].
  destruct S as [-> S]. destruct (iadd_exchanged _ _ _ _ _ _ X S) as (y & y' & -> & -> & Y). apply IH, Y.
Qed.

Lemma model_exchanged {K} n m (L L' : llh K) key b p : same_llh n m L L' ->
  same_hist n m (simulate_model_hist L key b p) (simulate_model_hist L' key b p).
Proof.
  intros (Ha & Hd & Hc). unfold simulate_model_hist. rewrite Ha. apply sum_exchanged; [exact Hc|].
  apply (exchanged_map (fun _ => Fin 0)), Hd.
Qed.

Lemma log_likelihood_exchanged {K} n m d d' (key : K) h h' : exchanged n m d d' -> exchanged n m h h' ->
  log_likelihood_of d' key h' = log_likelihood_of d key h.
Proof.
  intros D H. unfold log_likelihood_of, poisson_sum.
  pose proof (Permutation_sym (exchanged_perm _ _ _ _ H)) as P.
  rewrite (existsb_perm (fun x => fle x (Fin 0)) _ _ P), (existsb_perm is_nan _ _ P), (existsb_perm is_inf _ _ P).
  rewrite (fsum_perm _ _ (Permutation_map _ (Permutation_sym (exchanged_perm _ _ _ _ (exchanged_combine _ _ _ _ _ _ D H))))). reflexivity.
Qed.

(* ------------------------------------------------------------------ *)
(** * The constructor *)

Lemma select_swap i j r : select [j; i] r = swap_row (select [i; j] r).
Proof. reflexivity. Qed.

Lemma positions_swap a b cols :
  (exists i j, positions [a; b] cols = Ok [i; j] /\ positions [b; a] cols = Ok [j; i]) \/
  (positions [a; b] cols = Err KeyError /\ positions [b; a] cols = Err KeyError).
Proof.
  cbn. destruct (position a cols) as [i|], (position b cols) as [j|]; [left; exists i, j; split; reflexivity|right; split; reflexivity..].
Qed.

Lemma filter_map_comm {A B} (g : A -> B) P l : filter P (map g l) = map g (filter (fun x => P (g x)) l).
Proof. induction l as [|x l IH]; [reflexivity|]. cbn. destruct (P (g x)); cbn; rewrite IH; reflexivity. Qed.

Lemma mask_swap cfg cfg' i j rows : lc_x_clip cfg' = lc_y_clip cfg -> lc_y_clip cfg' = lc_x_clip cfg ->
  mask_data cfg' 2 (map (select [j; i]) rows) =
  match mask_data cfg 2 (map (select [i; j]) rows) with Ok d => Ok (map swap_row d) | Err e => Err e end.
Proof.
  intros X Y. unfold mask_data. rewrite X, Y. destruct (lc_x_clip cfg) as [cx|], (lc_y_clip cfg) as [cy|]; try reflexivity.
  f_equal. rewrite !filter_map_comm, map_map. erewrite filter_ext; [reflexivity|]. intros r. cbn. apply andb_comm.
Qed.

Lemma mask_rows cfg i j rows d : mask_data cfg 2 (map (select [i; j]) rows) = Ok d -> forall r, In r d -> List.length r = 2.
Proof.
  unfold mask_data. destruct (lc_x_clip cfg), (lc_y_clip cfg); try discriminate. intros E r Hr. injection E as <-.
  apply filter_In in Hr. destruct Hr as [Hr _]. apply in_map_iff in Hr. destruct Hr as (x & <- & _). reflexivity.
Qed.

Definition swap_bins (b : binning) : binning := match b with BMesh2 ex ey => BMesh2 ey ex | _ => b end.

Lemma np_array_err b e : np_array b = Err e -> e = ValueError.
Proof. destruct b as [z|[x|l|rows]]; cbn; try discriminate. destruct (rectangular rows); [discriminate|congruence]. Qed.
Lemma np_linspace_err c z e : np_linspace c z = Err e -> e = ValueError.
Proof. unfold np_linspace. destruct (z + 1 <? 0)%Z; [congruence|discriminate]. Qed.
Lemma resolve_err p c e : resolve_bin_edges p (Some c) = Err e -> e = ValueError.
Proof. unfold resolve_bin_edges. destruct p; [apply np_linspace_err|apply np_array_err]. Qed.

Lemma set_bins_swap g1 g2 cfg cfg' p q data data' cx cy : lc_bins_type cfg = "meshgrid" -> lc_bins_type cfg' = "meshgrid" ->
  lc_x_clip cfg = Some cx -> lc_y_clip cfg = Some cy -> lc_x_clip cfg' = Some cy -> lc_y_clip cfg' = Some cx ->
  (exists ex ey, set_bins g1 g2 cfg 2 [p; q] data = Ok (BMesh2 ex ey) /\ set_bins g1 g2 cfg' 2 [q; p] data' = Ok (BMesh2 ey ex)) \/
  (exists e, set_bins g1 g2 cfg 2 [p; q] data = Err e /\ set_bins g1 g2 cfg' 2 [q; p] data' = Err e).
Proof.
  intros T T' X Y X' Y'. unfold set_bins. rewrite T, T'. cbn [Nat.eqb orb negb]. rewrite String.eqb_refl.
  unfold resolve_explicit_bins. rewrite X, Y, X', Y'.
  destruct (resolve_bin_edges p (Some cx)) as [x|e] eqn:E, (resolve_bin_edges q (Some cy)) as [y|e'] eqn:E'.
  - destruct x as [x|x|x], y as [y|y|y]; try (right; eexists; split; reflexivity). left. do 2 eexists. split; reflexivity.
  - apply resolve_err in E'. subst. right. eexists. split; reflexivity.
  - apply resolve_err in E. subst. right. eexists. split; reflexivity.
  - apply resolve_err in E. apply resolve_err in E'. subst. right. eexists. split; reflexivity.
Qed.

Lemma new_likelihood_swap oor g1 g2 cfg cfg' load : swapped_config cfg cfg' ->
  match new_likelihood oor g1 g2 cfg load, new_likelihood oor g1 g2 cfg' load with
  | Ok k, Ok k' => swapped_likelihood k k'
  | Err e, Err e' => e' = e
  | _, _ => False
  end.
Proof.
  intros (T & T' & (a & b & Ho & Ho') & (p & q & Hb & Hb') & X & Y). unfold new_likelihood. rewrite Ho, Ho', Hb, Hb'.
  cbn [normalise_bins List.length Nat.eqb negb]. destruct load as [t|e]; [|reflexivity].
  destruct (positions_swap a b (t_columns t)) as [(i & j & -> & ->)|[-> ->]]; [|reflexivity].
  rewrite (mask_swap cfg cfg' i j _ X Y). destruct (mask_data cfg 2 (map (select [i; j]) (t_rows t))) as [d|e] eqn:M; [|reflexivity].
  pose proof (mask_rows _ _ _ _ _ M) as HL. unfold mask_data in M.
  destruct (lc_x_clip cfg) as [cx|] eqn:CX; [|discriminate]. destruct (lc_y_clip cfg) as [cy|] eqn:CY; [|discriminate]. clear M.
  destruct (set_bins_swap g1 g2 cfg cfg' p q d (map swap_row d) cx cy T T' CX CY X Y) as [(ex & ey & -> & ->)|(e & -> & ->)]; [|reflexivity].
  exists ex, ey, a, b. cbn. repeat (split; [reflexivity|]).
  rewrite (map_map swap_row (fun _ => Fin 1)).
  rewrite flip_events by (intros r Hr; rewrite (HL r Hr); constructor). apply mesh_exchanged.
Qed.
