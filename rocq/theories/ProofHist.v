(** Lemmas about the histograms. *)
From Coq Require Import Reals Lra Permutation.
From Verif Require Import Base ModelFloat ModelHist SpecHist ProofFloat.
Local Open Scope list_scope.

(* ------------------------------------------------------------------ *)
(** * Scatter-add *)

Lemma at_add_length j w h : List.length (at_add j w h) = List.length h.
Proof. revert j. induction h as [|x h IH]; intros [|j]; simpl; auto. Qed.

Lemma at_add_nth d : forall h i j w, i < List.length h ->
  nth i (at_add j w h) d = if Nat.eqb j i then fadd (nth i h d) w else nth i h d.
Proof.
  induction h as [|x h IH]; intros i j w Hi; [simpl in Hi; lia|].
  destruct j as [|j], i as [|i]; simpl; try reflexivity.
  apply IH. simpl in Hi. lia.
Qed.

Section Scatter.
  Variable E : Type.
  Variable idx : E -> nat.
  Variable w : E -> fl.

  Definition scatter (events : list E) (h : list fl) : list fl :=
    fold_left (fun h e => at_add (idx e) (w e) h) events h.

  Lemma scatter_length events : forall h, List.length (scatter events h) = List.length h.
  Proof.
    unfold scatter. induction events as [|e events IH]; simpl; intros h; [reflexivity|].
    rewrite IH. apply at_add_length.
  Qed.

  Lemma scatter_nth d events : forall h i, i < List.length h ->
    nth i (scatter events h) d
    = fadd (nth i h d) (weight_of w (fun e => Nat.eqb (idx e) i) events).
  Proof.
    unfold scatter, weight_of. induction events as [|e events IH]; simpl; intros h i Hi.
    - rewrite fadd_0_r. reflexivity.
    - rewrite IH by (rewrite at_add_length; exact Hi). rewrite at_add_nth by exact Hi.
      destruct (Nat.eqb (idx e) i); simpl; [apply fadd_assoc|reflexivity].
  Qed.
End Scatter.

Lemma nth_repeat_lt {A} (x d : A) n i : i < n -> nth i (repeat x n) d = x.
Proof.
  revert i. induction n as [|n IH]; intros i Hi; [lia|]. destruct i; simpl; [reflexivity|].
  apply IH. lia.
Qed.

Lemma removelast_length {A} (l : list A) : List.length (removelast l) = List.length l - 1.
Proof.
  induction l as [|a l IH]; simpl; [reflexivity|]. destruct l as [|b l]; [reflexivity|].
  cbn [List.length]. rewrite IH. simpl. lia.
Qed.

Lemma removelast_nth {A} (d : A) : forall l i, i < List.length l - 1 -> nth i (removelast l) d = nth i l d.
Proof.
  induction l as [|a l IH]; simpl; intros i Hi; [lia|]. destruct l as [|b l]; simpl in *; [lia|].
  destruct i; [reflexivity|]. apply (IH i). lia.
Qed.

Lemma trim_length {A} (l : list A) : List.length (trim l) = List.length l - 2.
Proof. unfold trim. rewrite removelast_length. destruct l; simpl; lia. Qed.

Lemma trim_nth {A} (d : A) l i : i < List.length l - 2 -> nth i (trim l) d = nth (S i) l d.
Proof.
  intros Hi. unfold trim. rewrite removelast_nth by (destruct l; simpl in *; lia).
  destruct l as [|a l]; simpl; [|reflexivity]. destruct i; reflexivity.
Qed.

Lemma weight_of_ext {E} (w : E -> fl) P Q events :
  (forall e, In e events -> P e = Q e) -> weight_of w P events = weight_of w Q events.
Proof.
  intros H. unfold weight_of. rewrite (filter_ext_in P Q events H). reflexivity.
Qed.

(* ------------------------------------------------------------------ *)
(** * searchsorted on sorted edges *)

Lemma below_not e x : e <> NaN -> below x e = negb (fle x e).
Proof.
  intros He. unfold below. destruct e as [r| | |]; try congruence;
    destruct x as [y| | |]; try reflexivity; apply flt_fle; discriminate.
Qed.

Lemma searchsorted_cons e edges x : sorted (e :: edges) ->
  searchsorted (e :: edges) x = if below x e then S (searchsorted edges x) else 0.
Proof.
  intros [Hn [Hle Hs]]. unfold searchsorted. simpl. destruct (below x e) eqn:Hb; [reflexivity|].
  replace (filter (below x) edges) with (@nil fl); [reflexivity|].
  symmetry. rewrite (below_not e x Hn) in Hb. apply negb_false_iff in Hb.
  clear -Hb Hle Hs. induction edges as [|a edges IH]; [reflexivity|].
  simpl in Hs. destruct Hs as [Ha [Hla Hsa]]. simpl.
  assert (Hxa : fle x a = true) by (eapply fle_trans; [exact Hb|apply Hle; left; reflexivity]).
  rewrite (below_not a x Ha), Hxa. simpl. apply IH; [|exact Hsa].
  intros y Hy. apply Hle. right. exact Hy.
Qed.

Lemma searchsorted_ge edges x : sorted edges -> forall j, j < List.length edges ->
  Nat.ltb j (searchsorted edges x) = below x (edge edges j).
Proof.
  intros Hs. induction edges as [|e edges IH]; intros j Hj; [simpl in Hj; lia|].
  rewrite searchsorted_cons by exact Hs. destruct Hs as [Hn [Hle Hs]].
  destruct j as [|j]; unfold edge; simpl nth.
  - destruct (below x e); reflexivity.
  - destruct (below x e) eqn:Hb.
    + specialize (IH Hs j). unfold edge in IH. simpl in Hj. rewrite <- IH by lia. reflexivity.
    + simpl. rewrite (below_not e x Hn) in Hb. apply negb_false_iff in Hb.
      simpl in Hj. assert (Hin : In (nth j edges NaN) edges) by (apply nth_In; lia).
      assert (Hnn : nth j edges NaN <> NaN).
      { intros H. specialize (Hle _ Hin). rewrite H, fle_nan_r in Hle. discriminate. }
      rewrite (below_not _ x Hnn). rewrite (fle_trans x e _ Hb (Hle _ Hin)). reflexivity.
Qed.

Lemma searchsorted_le edges x : searchsorted edges x <= List.length edges.
Proof.
  unfold searchsorted. induction edges as [|e edges IH]; simpl; [lia|].
  destruct (below x e); simpl; lia.
Qed.

Lemma sorted_not_nan edges i : sorted edges -> i < List.length edges -> edge edges i <> NaN.
Proof.
  revert i. induction edges as [|e edges IH]; intros i Hs Hi; simpl in Hi; [lia|].
  destruct Hs as [Hn [_ Hs]]. destruct i; [exact Hn|]. apply (IH i Hs). lia.
Qed.

Lemma searchsorted_bin edges x i : sorted edges -> S i < List.length edges ->
  Nat.eqb (searchsorted edges x) (S i) = in_bin (edge edges i) (edge edges (S i)) x.
Proof.
  intros Hs Hi. pose proof (searchsorted_ge edges x Hs i ltac:(lia)) as H1.
  pose proof (searchsorted_ge edges x Hs (S i) Hi) as H2.
  pose proof (sorted_not_nan edges i Hs ltac:(lia)) as Hn1.
  pose proof (sorted_not_nan edges (S i) Hs Hi) as Hn2.
  rewrite (below_not _ x Hn2) in H2. unfold in_bin.
  assert (H3 : below x (edge edges i) && fle x (edge edges (S i))
               = flt (edge edges i) x && fle x (edge edges (S i))).
  { destruct x; try reflexivity; unfold below; destruct (edge edges i); try reflexivity;
      try congruence; rewrite fle_nan_l, !andb_false_r; reflexivity. }
  rewrite <- H3, <- H1. destruct (fle x (edge edges (S i))); simpl in H2.
  - apply Nat.ltb_ge in H2. rewrite andb_true_r.
    destruct (Nat.ltb i (searchsorted edges x)) eqn:E.
    + apply Nat.ltb_lt in E. apply Nat.eqb_eq. lia.
    + apply Nat.ltb_ge in E. apply Nat.eqb_neq. lia.
  - apply Nat.ltb_lt in H2. rewrite andb_false_r. apply Nat.eqb_neq. lia.
Qed.

Lemma searchsorted_inside edges x : sorted edges -> edges <> [] ->
  Nat.leb 1 (searchsorted edges x) && Nat.ltb (searchsorted edges x) (List.length edges)
  = in_bin (edge edges 0) (edge edges (List.length edges - 1)) x.
Proof.
  intros Hs Hne. assert (Hl : 0 < List.length edges) by (destruct edges; [congruence|simpl; lia]).
  pose proof (searchsorted_ge edges x Hs 0 Hl) as H1.
  pose proof (searchsorted_ge edges x Hs (List.length edges - 1) ltac:(lia)) as H2.
  pose proof (sorted_not_nan edges 0 Hs Hl) as Hn1.
  pose proof (sorted_not_nan edges (List.length edges - 1) Hs ltac:(lia)) as Hn2.
  pose proof (searchsorted_le edges x) as Hle.
  rewrite (below_not _ x Hn2) in H2. unfold in_bin.
  set (last := edge edges (List.length edges - 1)) in *.
  assert (H3 : below x (edge edges 0) && fle x last = flt (edge edges 0) x && fle x last).
  { destruct x; try reflexivity; unfold below; destruct (edge edges 0); try reflexivity;
      try congruence; rewrite fle_nan_l, !andb_false_r; reflexivity. }
  rewrite <- H3, <- H1. clear H3. destruct (fle x last); simpl in H2.
  - apply Nat.ltb_ge in H2. rewrite andb_true_r.
    destruct (Nat.ltb 0 (searchsorted edges x)) eqn:E.
    + apply Nat.ltb_lt in E. apply andb_true_iff. split; [apply Nat.leb_le|apply Nat.ltb_lt]; lia.
    + apply Nat.ltb_ge in E. replace (searchsorted edges x) with 0 by lia. reflexivity.
  - apply Nat.ltb_lt in H2. rewrite andb_false_r. apply andb_false_iff. right.
    apply Nat.ltb_ge. lia.
Qed.

(* ------------------------------------------------------------------ *)
(** * One dimension *)

Lemma hist_1d_length bins events : List.length (hist_1d bins events) = List.length bins - 1.
Proof.
  unfold hist_1d. rewrite trim_length.
  change (fold_left _ events ?h) with (scatter _ (fun e => searchsorted bins (fst e)) snd events h).
  rewrite scatter_length, repeat_length. lia.
Qed.

Lemma hist_1d_entry_idx bins events i : S i < List.length bins ->
  entry (hist_1d bins events) i
  = weight_of snd (fun e => Nat.eqb (searchsorted bins (fst e)) (S i)) events.
Proof.
  intros Hi. unfold entry, hist_1d.
  change (fold_left _ events ?h) with (scatter _ (fun e => searchsorted bins (fst e)) snd events h).
  set (h := scatter _ _ _ _ _).
  assert (Hl : List.length h = List.length bins + 1).
  { unfold h. rewrite scatter_length, repeat_length. reflexivity. }
  rewrite trim_nth by lia. unfold h. rewrite scatter_nth by (rewrite repeat_length; lia).
  rewrite nth_repeat_lt by lia. apply fadd_0_l.
Qed.

Lemma hist_1d_entry bins events i : sorted bins -> S i < List.length bins ->
  entry (hist_1d bins events) i
  = weight_of snd (fun e => in_bin (edge bins i) (edge bins (S i)) (fst e)) events.
Proof.
  intros Hs Hi. rewrite hist_1d_entry_idx by exact Hi. apply weight_of_ext.
  intros e _. apply searchsorted_bin; assumption.
Qed.

Lemma weight_of_disjoint {E} (w : E -> fl) P Q R events :
  (forall e, R e = P e || Q e) -> (forall e, P e && Q e = false) ->
  fadd (weight_of w P events) (weight_of w Q events) = weight_of w R events.
Proof.
  intros HR HD. unfold weight_of. induction events as [|e events IH]; simpl; [apply fadd_0_l|].
  specialize (HD e). rewrite HR. destruct (P e), (Q e); simpl in *; try discriminate.
  - rewrite <- IH. apply fadd_assoc.
  - rewrite <- IH. rewrite <- !fadd_assoc. f_equal. apply fadd_comm.
  - exact IH.
Qed.

Lemma sum_over_bins {E} (w : E -> fl) (idx : E -> nat) events a k :
  fsum (map (fun i => weight_of w (fun e => Nat.eqb (idx e) i) events) (seq a k))
  = weight_of w (fun e => Nat.leb a (idx e) && Nat.ltb (idx e) (a + k)) events.
Proof.
  induction k as [|k IH].
  - simpl. unfold weight_of. replace (filter _ events) with (@nil E); [reflexivity|].
    symmetry. clear. induction events as [|e events IH]; [reflexivity|]. simpl.
    destruct (Nat.leb a (idx e) && Nat.ltb (idx e) (a + 0)) eqn:H; [|exact IH].
    apply andb_true_iff in H. destruct H as [H1 H2]. apply Nat.leb_le in H1. apply Nat.ltb_lt in H2. lia.
  - rewrite seq_S, map_app, fsum_app, IH. simpl map. rewrite fsum_cons. simpl fsum.
    rewrite fadd_0_r. apply weight_of_disjoint; intros e.
    + destruct (Nat.leb a (idx e)) eqn:H1, (Nat.ltb (idx e) (a + S k)) eqn:H2,
        (Nat.ltb (idx e) (a + k)) eqn:H3, (Nat.eqb (idx e) (a + k)) eqn:H4; simpl; try reflexivity;
        repeat match goal with
        | H : Nat.leb _ _ = true |- _ => apply Nat.leb_le in H
        | H : Nat.leb _ _ = false |- _ => apply Nat.leb_gt in H
        | H : Nat.ltb _ _ = true |- _ => apply Nat.ltb_lt in H
        | H : Nat.ltb _ _ = false |- _ => apply Nat.ltb_ge in H
        | H : Nat.eqb _ _ = true |- _ => apply Nat.eqb_eq in H
        | H : Nat.eqb _ _ = false |- _ => apply Nat.eqb_neq in H
        end; lia.
    + destruct (Nat.leb a (idx e)), (Nat.ltb (idx e) (a + k)) eqn:H3,
        (Nat.eqb (idx e) (a + k)) eqn:H4; simpl; try reflexivity.
      apply Nat.ltb_lt in H3. apply Nat.eqb_eq in H4. lia.
Qed.

Lemma list_as_entries (h : list fl) : h = map (entry h) (seq 0 (List.length h)).
Proof.
  unfold entry. induction h as [|x h IH]; [reflexivity|]. simpl. f_equal.
  rewrite <- seq_shift, map_map. exact IH.
Qed.

Lemma hist_1d_total bins events : sorted bins -> bins <> [] ->
  fsum (hist_1d bins events)
  = weight_of snd (fun e => in_bin (edge bins 0) (edge bins (List.length bins - 1)) (fst e)) events.
Proof.
  intros Hs Hne. rewrite (list_as_entries (hist_1d bins events)), hist_1d_length.
  assert (Hm : map (entry (hist_1d bins events)) (seq 0 (List.length bins - 1))
    = map (fun i => weight_of snd (fun e => Nat.eqb (searchsorted bins (fst e)) i) events)
          (seq 1 (List.length bins - 1))).
  { rewrite <- seq_shift, map_map. apply map_ext_in. intros i Hi. apply in_seq in Hi.
    apply hist_1d_entry_idx. lia. }
  rewrite Hm, sum_over_bins. apply weight_of_ext. intros e _.
  rewrite <- (searchsorted_inside bins (fst e) Hs Hne).
  assert (0 < List.length bins) by (destruct bins; [congruence|simpl; lia]).
  replace (1 + (List.length bins - 1)) with (List.length bins) by lia. reflexivity.
Qed.

Lemma weight_of_perm {E} (w : E -> fl) P a b : Permutation a b -> weight_of w P a = weight_of w P b.
Proof.
  intros H. unfold weight_of. apply fsum_perm. apply Permutation_map.
  induction H; simpl.
  - constructor.
  - destruct (P x); [constructor|]; assumption.
  - destruct (P x), (P y); try apply Permutation_refl; constructor.
  - eapply Permutation_trans; eauto.
Qed.

Lemma weight_of_app {E} (w : E -> fl) P a b :
  weight_of w P (a ++ b) = fadd (weight_of w P a) (weight_of w P b).
Proof. unfold weight_of. rewrite filter_app, map_app, fsum_app. reflexivity. Qed.

Lemma entry_ext h h' : List.length h = List.length h' ->
  (forall i, i < List.length h -> entry h i = entry h' i) -> h = h'.
Proof. intros Hl He. apply (nth_ext h h' NaN NaN Hl). exact He. Qed.

Lemma hist_1d_perm bins a b : Permutation a b -> hist_1d bins a = hist_1d bins b.
Proof.
  intros H. apply entry_ext; [rewrite !hist_1d_length; reflexivity|].
  intros i Hi. rewrite hist_1d_length in Hi. rewrite !hist_1d_entry_idx by lia.
  apply weight_of_perm, H.
Qed.

(** Adding two histograms of the same shape. *)
Definition hist_add (h h' : list fl) : list fl := map (fun p => fadd (fst p) (snd p)) (combine h h').

Lemma hist_add_length h h' : List.length h = List.length h' ->
  List.length (hist_add h h') = List.length h.
Proof. intros H. unfold hist_add. rewrite map_length, combine_length. lia. Qed.

Lemma hist_add_entry h h' i : List.length h = List.length h' -> i < List.length h ->
  entry (hist_add h h') i = fadd (entry h i) (entry h' i).
Proof.
  unfold entry, hist_add. revert h' i. induction h as [|x h IH]; intros [|y h'] i Hl Hi;
    simpl in *; try lia. destruct i; [reflexivity|]. apply IH; lia.
Qed.

Lemma hist_1d_split bins a b :
  hist_1d bins (a ++ b) = hist_add (hist_1d bins a) (hist_1d bins b).
Proof.
  assert (Hl : List.length (hist_1d bins a) = List.length (hist_1d bins b))
    by (rewrite !hist_1d_length; reflexivity).
  apply entry_ext; [rewrite hist_add_length, !hist_1d_length by exact Hl; reflexivity|].
  intros i Hi. rewrite hist_1d_length in Hi. rewrite hist_add_entry; [|exact Hl|rewrite hist_1d_length; lia].
  rewrite !hist_1d_entry_idx by lia. apply weight_of_app.
Qed.

(* ------------------------------------------------------------------ *)
(** * Two dimensions *)

Lemma at_add2_length i j w h : List.length (at_add2 i j w h) = List.length h.
Proof. revert i. induction h as [|r h IH]; intros [|i]; simpl; auto. Qed.

Lemma at_add2_nth : forall h i j w i', i' < List.length h ->
  nth i' (at_add2 i j w h) [] = if Nat.eqb i i' then at_add j w (nth i' h []) else nth i' h [].
Proof.
  induction h as [|r h IH]; intros i j w i' Hi'; [simpl in Hi'; lia|].
  destruct i as [|i], i' as [|i']; simpl; try reflexivity. apply IH. simpl in Hi'. lia.
Qed.

Section Scatter2.
  Variable E : Type.
  Variables ix iy : E -> nat.
  Variable w : E -> fl.

  Definition scatter2 (events : list E) (h : list (list fl)) : list (list fl) :=
    fold_left (fun h e => at_add2 (ix e) (iy e) (w e) h) events h.

  Lemma scatter2_length events : forall h, List.length (scatter2 events h) = List.length h.
  Proof.
    unfold scatter2. induction events as [|e events IH]; simpl; intros h; [reflexivity|].
    rewrite IH. apply at_add2_length.
  Qed.

  Lemma scatter2_row_length events : forall h i, i < List.length h ->
    List.length (nth i (scatter2 events h) []) = List.length (nth i h []).
  Proof.
    unfold scatter2. induction events as [|e events IH]; simpl; intros h i Hi; [reflexivity|].
    rewrite IH by (rewrite at_add2_length; exact Hi). rewrite at_add2_nth by exact Hi.
    destruct (Nat.eqb (ix e) i); [apply at_add_length|reflexivity].
  Qed.

  Lemma scatter2_nth d events : forall h i j,
    i < List.length h -> j < List.length (nth i h []) ->
    nth j (nth i (scatter2 events h) []) d
    = fadd (nth j (nth i h []) d)
           (weight_of w (fun e => Nat.eqb (ix e) i && Nat.eqb (iy e) j) events).
  Proof.
    unfold scatter2, weight_of. induction events as [|e events IH]; simpl; intros h i j Hi Hj.
    - rewrite fadd_0_r. reflexivity.
    - assert (Hrow : nth i (at_add2 (ix e) (iy e) (w e) h) [] =
                if Nat.eqb (ix e) i then at_add (iy e) (w e) (nth i h []) else nth i h [])
        by (apply at_add2_nth, Hi).
      rewrite IH; [|rewrite at_add2_length; exact Hi|].
      + rewrite Hrow. destruct (Nat.eqb (ix e) i); simpl; [|reflexivity].
        rewrite at_add_nth by exact Hj.
        destruct (Nat.eqb (iy e) j); simpl; [apply fadd_assoc|reflexivity].
      + rewrite Hrow. destruct (Nat.eqb (ix e) i); [rewrite at_add_length|]; exact Hj.
  Qed.
End Scatter2.

Definition cell (h : list (list fl)) (i j : nat) : fl := nth j (nth i h []) NaN.

Section Trim2.
  Variables (n m : nat).
  Definition zeros2 := repeat (repeat (Fin 0) (m + 1)) (n + 1).

  Lemma trim2_scatter {E} (ix iy : E -> nat) (w : E -> fl) events :
    let h := map trim (trim (scatter2 E ix iy w events zeros2)) in
    List.length h = n - 1 /\
    (forall i, i < n - 1 -> List.length (nth i h []) = m - 1) /\
    (forall i j, i < n - 1 -> j < m - 1 ->
       entry2 h i j = weight_of w (fun e => Nat.eqb (ix e) (S i) && Nat.eqb (iy e) (S j)) events).
  Proof.
    intros h. set (s := scatter2 E ix iy w events zeros2) in *.
    assert (Hls : List.length s = n + 1).
    { unfold s. rewrite scatter2_length. unfold zeros2. apply repeat_length. }
    assert (Hlh : List.length h = n - 1).
    { unfold h. rewrite map_length, trim_length, Hls. lia. }
    assert (Hrow : forall i, i < n - 1 -> nth i h [] = trim (nth (S i) s [])).
    { intros i Hi. unfold h. change (@nil fl) with (trim (@nil fl)) at 1.
      rewrite map_nth. f_equal. apply trim_nth. lia. }
    assert (Hrl : forall i, i < n + 1 -> List.length (nth i s []) = m + 1).
    { intros i Hi. unfold s. rewrite scatter2_row_length by (unfold zeros2; rewrite repeat_length; exact Hi).
      unfold zeros2. rewrite nth_repeat_lt by exact Hi. apply repeat_length. }
    split; [exact Hlh|]. split.
    - intros i Hi. rewrite Hrow by exact Hi. rewrite trim_length, Hrl by lia. lia.
    - intros i j Hi Hj. unfold entry2, entry. rewrite Hrow by exact Hi.
      rewrite trim_nth by (rewrite Hrl by lia; lia). unfold s.
      rewrite scatter2_nth.
      + unfold zeros2. rewrite nth_repeat_lt by lia. rewrite nth_repeat_lt by lia. apply fadd_0_l.
      + unfold zeros2. rewrite repeat_length. lia.
      + unfold zeros2. rewrite nth_repeat_lt by lia. rewrite repeat_length. lia.
  Qed.
End Trim2.

Section TwoD.
  Variable oor : list (list fl) -> nat -> list fl.
  Variables (bins_x : list fl) (bins_y : list (list fl)).

  Lemma hist_2d_entry_idx events :
    let h := hist_2d oor bins_x bins_y events in
    List.length h = List.length bins_x - 1 /\
    (forall i, i < List.length bins_x - 1 ->
       List.length (nth i h []) = row_length bins_y - 1) /\
    (forall i j, i < List.length bins_x - 1 -> j < row_length bins_y - 1 ->
       entry2 h i j = weight_of snd (fun e =>
         Nat.eqb (searchsorted bins_x (fst (fst e))) (S i) &&
         Nat.eqb (searchsorted (row oor bins_y (searchsorted bins_x (fst (fst e)))) (snd (fst e))) (S j))
         events).
  Proof.
    exact (trim2_scatter (List.length bins_x) (row_length bins_y)
             (fun e => searchsorted bins_x (fst (fst e)))
             (fun e => searchsorted (row oor bins_y (searchsorted bins_x (fst (fst e)))) (snd (fst e)))
             snd events).
  Qed.

  Lemma hist_2d_entry events i j :
    sorted bins_x -> List.length bins_x = List.length bins_y + 1 ->
    (forall r, In r bins_y -> sorted r /\ List.length r = row_length bins_y) ->
    i < List.length bins_y -> S j < row_length bins_y ->
    entry2 (hist_2d oor bins_x bins_y events) i j
    = weight_of snd (fun e =>
        in_bin (edge bins_x i) (edge bins_x (S i)) (fst (fst e)) &&
        in_bin (edge (nth i bins_y []) j) (edge (nth i bins_y []) (S j)) (snd (fst e))) events.
  Proof.
    intros Hsx Hlen Hr Hi Hj. destruct (hist_2d_entry_idx events) as (_ & _ & H).
    rewrite H by lia. apply weight_of_ext. intros e _.
    rewrite <- (searchsorted_bin bins_x (fst (fst e)) i Hsx) by lia.
    destruct (Nat.eqb (searchsorted bins_x (fst (fst e))) (S i)) eqn:E; [|reflexivity].
    apply Nat.eqb_eq in E. simpl. rewrite E.
    assert (Hnth : nth_error bins_y i = Some (nth i bins_y [])).
    { apply nth_error_nth'. exact Hi. }
    simpl. rewrite Hnth. destruct (Hr (nth i bins_y []) (nth_In bins_y [] Hi)) as [Hsr Hlr].
    apply searchsorted_bin; [exact Hsr|]. rewrite Hlr. exact Hj.
  Qed.

  Lemma hist_2d_shape events :
    List.length (hist_2d oor bins_x bins_y events) = List.length bins_x - 1 /\
    forall r, In r (hist_2d oor bins_x bins_y events) -> List.length r = row_length bins_y - 1.
  Proof.
    destruct (hist_2d_entry_idx events) as (H1 & H2 & _). split; [exact H1|].
    intros r Hr. destruct (In_nth _ _ [] Hr) as (i & Hi & <-). apply H2. lia.
  Qed.
End TwoD.

(* ------------------------------------------------------------------ *)
(** * Meshgrid binning *)

Definition above (x e : fl) : bool := negb (below e x).
Definition count_le (edges : list fl) (x : fl) : nat := List.length (filter (above x) edges).

Lemma above_char x e : e <> NaN -> above x e = is_nan x || fle e x.
Proof.
  intros He. unfold above, below. destruct x as [r| | |]; simpl is_nan;
    destruct e as [y| | |]; try congruence; try reflexivity; simpl.
  destruct (Rlt_dec r y), (Rle_dec y r); simpl; try reflexivity; lra.
Qed.

Lemma count_le_cons e edges x : sorted (e :: edges) ->
  count_le (e :: edges) x = if above x e then S (count_le edges x) else 0.
Proof.
  intros [Hn [Hle Hs]]. unfold count_le. simpl. destruct (above x e) eqn:Hb; [reflexivity|].
  replace (filter (above x) edges) with (@nil fl); [reflexivity|].
  symmetry. rewrite (above_char x e Hn) in Hb. apply orb_false_iff in Hb. destruct Hb as [Hx Hb].
  clear -Hb Hle Hs Hx. induction edges as [|a edges IH]; [reflexivity|].
  simpl in Hs. destruct Hs as [Ha [Hla Hsa]]. simpl.
  rewrite (above_char x a Ha), Hx. simpl.
  destruct (fle a x) eqn:Hax.
  - exfalso. assert (fle e x = true); [|congruence].
    eapply fle_trans; [apply Hle; left; reflexivity|exact Hax].
  - apply IH; [|exact Hsa]. intros y Hy. apply Hle. right. exact Hy.
Qed.

Lemma count_le_ge edges x : sorted edges -> forall j, j < List.length edges ->
  Nat.ltb j (count_le edges x) = above x (edge edges j).
Proof.
  intros Hs. induction edges as [|e edges IH]; intros j Hj; [simpl in Hj; lia|].
  rewrite count_le_cons by exact Hs. destruct Hs as [Hn [Hle Hs]].
  destruct j as [|j]; unfold edge; simpl nth.
  - destruct (above x e); reflexivity.
  - destruct (above x e) eqn:Hb.
    + specialize (IH Hs j). unfold edge in IH. simpl in Hj. rewrite <- IH by lia. reflexivity.
    + simpl. rewrite (above_char x e Hn) in Hb. apply orb_false_iff in Hb. destruct Hb as [Hx Hb].
      simpl in Hj. assert (Hin : In (nth j edges NaN) edges) by (apply nth_In; lia).
      assert (Hnn : nth j edges NaN <> NaN).
      { intros H. specialize (Hle _ Hin). rewrite H, fle_nan_r in Hle. discriminate. }
      rewrite (above_char x _ Hnn), Hx. simpl.
      destruct (fle (nth j edges NaN) x) eqn:Hc; [|reflexivity].
      rewrite (fle_trans e _ x (Hle _ Hin) Hc) in Hb. discriminate.
Qed.

Lemma count_le_le edges x : count_le edges x <= List.length edges.
Proof.
  unfold count_le. induction edges as [|e edges IH]; simpl; [lia|].
  destruct (above x e); simpl; lia.
Qed.

Lemma feq_char a b : a <> NaN -> b <> NaN -> feq a b = fle a b && fle b a.
Proof.
  destruct a as [x| | |], b as [y| | |]; simpl; try congruence; auto. intros _ _.
  destruct (Req_EM_T x y), (Rle_dec x y), (Rle_dec y x); simpl; try reflexivity; lra.
Qed.

Lemma rev_last (edges : list fl) : edges <> [] ->
  exists t, rev edges = edge edges (List.length edges - 1) :: t.
Proof.
  intros H. destruct (rev edges) as [|l t] eqn:Hr.
  - apply (f_equal (@rev fl)) in Hr. rewrite rev_involutive in Hr. simpl in Hr. contradiction.
  - exists t. f_equal. apply (f_equal (@rev fl)) in Hr. rewrite rev_involutive in Hr. simpl in Hr.
    rewrite Hr. unfold edge. rewrite app_length. simpl.
    replace (List.length (rev t) + 1 - 1) with (List.length (rev t)) by lia.
    rewrite nth_middle. reflexivity.
Qed.

Lemma sorted_le edges i j : sorted edges -> i <= j -> j < List.length edges ->
  fle (edge edges i) (edge edges j) = true.
Proof.
  revert i j. induction edges as [|e edges IH]; intros i j Hs Hij Hj; [simpl in Hj; lia|].
  destruct Hs as [Hn [Hle Hs]]. destruct i as [|i], j as [|j]; simpl in Hj; try lia.
  - apply fle_refl, Hn.
  - apply Hle. unfold edge. simpl. apply nth_In. lia.
  - apply (IH i j Hs); lia.
Qed.

Lemma index_dd_bin edges x i : sorted edges -> S i < List.length edges ->
  Nat.eqb (index_dd edges x) (S i)
  = in_bin_left (Nat.eqb (S (S i)) (List.length edges)) (edge edges i) (edge edges (S i)) x.
Proof.
  intros Hs Hi. unfold index_dd.
  change (List.length (filter (fun e => negb (below e x)) edges)) with (count_le edges x).
  assert (Hne : edges <> []) by (intros ->; simpl in Hi; lia).
  destruct (rev_last edges Hne) as [t ->].
  set (n := List.length edges) in *. set (last := edge edges (n - 1)).
  assert (Hln : last <> NaN) by (apply sorted_not_nan; [exact Hs|unfold n in *; lia]).
  pose proof (count_le_ge edges x Hs i ltac:(unfold n in *; lia)) as H1.
  pose proof (count_le_ge edges x Hs (S i) ltac:(unfold n in *; lia)) as H2.
  pose proof (count_le_ge edges x Hs (n - 1) ltac:(unfold n in *; lia)) as H3.
  pose proof (count_le_le edges x) as Hle. fold n in Hle.
  pose proof (sorted_not_nan edges i Hs ltac:(unfold n in *; lia)) as Hn1.
  pose proof (sorted_not_nan edges (S i) Hs ltac:(unfold n in *; lia)) as Hn2.
  rewrite (above_char x _ Hn1) in H1. rewrite (above_char x _ Hn2) in H2.
  fold last in H3. rewrite (above_char x _ Hln) in H3.
  unfold in_bin_left. remember (Nat.eqb (S (S i)) n) as isl eqn:En. symmetry in En.
  destruct (is_nan x) eqn:Hx.
  { destruct x; try discriminate. rewrite fle_nan_r. simpl.
    simpl in H3. apply Nat.ltb_lt in H3. apply Nat.eqb_neq. lia. }
  assert (Hxn : x <> NaN) by (intros ->; discriminate).
  simpl in H1, H2, H3. rewrite (feq_char x last Hxn Hln).
  rewrite (flt_fle x (edge edges (S i)) Hxn Hn2).
  pose proof (sorted_le edges (S i) (n - 1) Hs ltac:(unfold n in *; lia) ltac:(unfold n in *; lia)) as Hel.
  fold last in Hel.
  pose proof (sorted_le edges i (S i) Hs ltac:(lia) ltac:(unfold n in *; lia)) as Hee.
  destruct (fle last x) eqn:Hlx; simpl in H3.
  - (* at or beyond the last edge *)
    apply Nat.ltb_lt in H3. assert (Hc : count_le edges x = n) by lia.
    rewrite Hc in *. rewrite (fle_trans _ _ _ Hel Hlx). simpl.
    rewrite (fle_trans _ _ _ Hee (fle_trans _ _ _ Hel Hlx)). rewrite andb_true_r. simpl.
    destruct isl.
    + apply Nat.eqb_eq in En. replace (edge edges (S i)) with last by (unfold last; f_equal; lia).
      simpl. destruct (fle x last); [apply Nat.eqb_eq; lia|apply Nat.eqb_neq; lia].
    + apply Nat.eqb_neq in En. simpl. destruct (fle x last); apply Nat.eqb_neq; lia.
  - rewrite andb_false_r. rewrite <- H1, <- H2.
    assert (Hxs : isl && fle x (edge edges (S i)) = isl).
    { destruct isl; [|reflexivity]. apply Nat.eqb_eq in En.
      replace (edge edges (S i)) with last by (unfold last; f_equal; lia).
      pose proof (flt_fle x last Hxn Hln) as Hf. rewrite Hlx in Hf. simpl. apply flt_weak, Hf. }
    rewrite Hxs. apply Nat.ltb_ge in H3.
    destruct (Nat.ltb i (count_le edges x)) eqn:E1, (Nat.ltb (S i) (count_le edges x)) eqn:E2,
      isl; simpl;
      repeat match goal with
      | H : Nat.ltb _ _ = true |- _ => apply Nat.ltb_lt in H
      | H : Nat.ltb _ _ = false |- _ => apply Nat.ltb_ge in H
      | H : Nat.eqb _ _ = true |- _ => apply Nat.eqb_eq in H
      | H : Nat.eqb _ _ = false |- _ => apply Nat.eqb_neq in H
      end; try (apply Nat.eqb_eq; lia); try (apply Nat.eqb_neq; lia).
Qed.

Lemma hist_mesh_1d_length bins events : List.length (hist_mesh_1d bins events) = List.length bins - 1.
Proof.
  unfold hist_mesh_1d. rewrite trim_length.
  change (fold_left _ events ?h) with (scatter _ (fun e => index_dd bins (fst e)) snd events h).
  rewrite scatter_length, repeat_length. lia.
Qed.

Lemma hist_mesh_1d_entry bins events i : sorted bins -> S i < List.length bins ->
  entry (hist_mesh_1d bins events) i
  = weight_of snd (fun e => in_bin_left (Nat.eqb (S (S i)) (List.length bins))
                              (edge bins i) (edge bins (S i)) (fst e)) events.
Proof.
  intros Hs Hi. unfold entry, hist_mesh_1d.
  change (fold_left _ events ?h) with (scatter _ (fun e => index_dd bins (fst e)) snd events h).
  set (h := scatter _ _ _ _ _).
  assert (Hl : List.length h = List.length bins + 1).
  { unfold h. rewrite scatter_length, repeat_length. reflexivity. }
  rewrite trim_nth by lia. unfold h. rewrite scatter_nth by (rewrite repeat_length; lia).
  rewrite nth_repeat_lt by lia. rewrite fadd_0_l. apply weight_of_ext.
  intros e _. apply index_dd_bin; assumption.
Qed.

Lemma hist_mesh_2d_entry bx by_ events i j :
  sorted bx -> sorted by_ -> S i < List.length bx -> S j < List.length by_ ->
  entry2 (hist_mesh_2d bx by_ events) i j
  = weight_of snd (fun e =>
      in_bin_left (Nat.eqb (S (S i)) (List.length bx)) (edge bx i) (edge bx (S i)) (fst (fst e)) &&
      in_bin_left (Nat.eqb (S (S j)) (List.length by_)) (edge by_ j) (edge by_ (S j)) (snd (fst e)))
      events.
Proof.
  intros Hx Hy Hi Hj.
  pose proof (trim2_scatter (List.length bx) (List.length by_)
               (fun e : fl * fl * fl => index_dd bx (fst (fst e)))
               (fun e => index_dd by_ (snd (fst e))) snd events) as (_ & _ & H).
  unfold hist_mesh_2d.
  change (fold_left _ events ?h) with
    (scatter2 _ (fun e : fl * fl * fl => index_dd bx (fst (fst e)))
               (fun e => index_dd by_ (snd (fst e))) snd events h).
  unfold zeros2 in H. rewrite H by lia. apply weight_of_ext. intros e _.
  rewrite index_dd_bin, index_dd_bin by assumption. reflexivity.
Qed.
