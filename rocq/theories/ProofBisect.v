(** Bisection finds the number of entries below. *)
From Coq Require Import Reals Lra Lia.
From Verif Require Import Base ModelFloat ModelHist ModelInterp ModelBisect SpecHist SpecInterp ProofFloat ProofHist.
Local Open Scope list_scope.

Lemma count_split A (d : A) (P : A -> bool) l : forall c, c <= List.length l ->
  (forall i, i < c -> P (nth i l d) = true) -> (forall i, c <= i < List.length l -> P (nth i l d) = false) ->
  List.length (filter P l) = c.
Proof.
  induction l as [|x l IH]; intros c Hc H1 H2; cbn [List.length] in *; [cbn; lia|]. destruct c as [|c].
  - pose proof (H2 0 ltac:(lia)) as E. cbn in E. cbn [filter]. rewrite E. apply IH; [lia|intros i Hi; lia|].
    intros i Hi. exact (H2 (S i) ltac:(lia)).
  - pose proof (H1 0 ltac:(lia)) as E. cbn in E. cbn [filter]. rewrite E. cbn. f_equal. apply IH; [lia| |].
    + intros i Hi. exact (H1 (S i) ltac:(lia)).
    + intros i Hi. exact (H2 (S i) ltac:(lia)).
Qed.

Section Bisect.
  Context {A : Type} (d : A) (go_left : A -> bool) (l : list A).
  Definition found_by (n : nat) (s : nat * nat) : Prop :=
    snd s <= List.length l /\ (snd s < List.length l -> go_left (nth (snd s) l d) = true) /\
    (fst s = 0 /\ snd s < 2 ^ n \/ fst s < snd s /\ go_left (nth (fst s) l d) = false /\ snd s - fst s <= 2 ^ n).

  Lemma step_ok n s : 0 < List.length l -> found_by (S n) s -> found_by n (bisect_step A d go_left l s).
  Proof.
    destruct s as [lo hi]. unfold found_by, bisect_step. cbn [fst snd]. intros Hl (H1 & H2 & H3).
    rewrite Nat.pow_succ_r' in H3. pose proof (Nat.div2_odd (lo + hi)) as Hm. set (mid := Nat.div2 (lo + hi)) in *.
    assert (Hb : Nat.b2n (Nat.odd (lo + hi)) <= 1) by (destruct (Nat.odd _); cbn; lia). generalize dependent (Nat.b2n (Nat.odd (lo + hi))). intros b Hm Hb.
    pose proof (Nat.pow_nonzero 2 n ltac:(lia)) as Hp.
    destruct (go_left (nth mid l d)) eqn:E; cbn [fst snd].
    - destruct H3 as [[-> H3]|(H3 & H4 & H5)].
      + split; [lia|]. split; [intros _; exact E|]. left. lia.
      + assert (mid <> lo) by congruence. split; [lia|]. split; [intros _; exact E|]. right. split; [lia|]. split; [exact H4|lia].
    - assert (Hlt : mid < hi).
      { destruct H3 as [[-> H3]|(H3 & H4 & H5)]; [|lia]. destruct (Nat.eq_dec hi 0) as [->|]; [|lia].
        exfalso. assert (mid = 0) by lia. rewrite H in E. rewrite H2 in E by lia. discriminate E. }
      split; [lia|]. split; [exact H2|]. right. split; [exact Hlt|]. split; [exact E|]. lia.
  Qed.

  Lemma bisect_found : found_by 0 (Nat.iter (Nat.log2_up (S (List.length l))) (bisect_step A d go_left l) (0, List.length l)).
  Proof.
    destruct (Nat.eq_dec (List.length l) 0) as [E|E].
    { rewrite E. cbn. unfold found_by. cbn. rewrite E. lia. }
    assert (G : forall n m s, found_by (n + m) s -> found_by m (Nat.iter n (bisect_step A d go_left l) s)).
    { induction n as [|n IH]; intros m s F; [exact F|]. change (found_by m (bisect_step A d go_left l (Nat.iter n (bisect_step A d go_left l) s))).
      apply step_ok; [lia|]. apply IH. rewrite Nat.add_succ_r. exact F. }
    apply G. rewrite Nat.add_0_r. unfold found_by. cbn [fst snd]. split; [lia|]. split; [lia|]. left. split; [reflexivity|].
    apply Nat.lt_le_trans with (S (List.length l)); [lia|]. apply Nat.log2_up_spec. lia.
  Qed.

  (** Whatever the list: the entry found goes left and the one before it does not. *)
  Lemma bisect_between : bisect A d go_left l <= List.length l /\
    (bisect A d go_left l < List.length l -> go_left (nth (bisect A d go_left l) l d) = true) /\
    (0 < bisect A d go_left l -> go_left (nth (bisect A d go_left l - 1) l d) = false).
  Proof.
    unfold bisect. destruct bisect_found as (F1 & F2 & F3). set (s := Nat.iter _ _ _) in *. cbn [Nat.pow] in F3. split; [exact F1|]. split; [exact F2|].
    intros H. destruct F3 as [F3|(F3 & F4 & F5)]; [lia|]. replace (snd s - 1) with (fst s) by lia. exact F4.
  Qed.

  (** Once to the left, then to the left for every entry further on. *)
  Hypothesis mono : forall i j, i <= j < List.length l -> go_left (nth i l d) = true -> go_left (nth j l d) = true.
  Lemma bisect_count : bisect A d go_left l = List.length (filter (fun e => negb (go_left e)) l).
  Proof.
    destruct bisect_between as (F1 & F2 & F3). symmetry. apply (count_split A d); [exact F1| |].
    - intros i Hi. destruct (go_left (nth i l d)) eqn:Eg; [|reflexivity]. rewrite (mono i (bisect A d go_left l - 1)) in F3 by (assumption || lia). discriminate F3. lia.
    - intros i Hi. rewrite (mono (bisect A d go_left l) i); [reflexivity|lia|]. apply F2. lia.
  Qed.
End Bisect.


Lemma sorted_nth l : sorted l -> forall i j, i <= j < List.length l -> fle (nth i l NaN) (nth j l NaN) = true.
Proof.
  induction l as [|x l IH]; intros Hs i j Hij; cbn [List.length] in Hij; [lia|]. destruct Hs as (H1 & H2 & H3). destruct i as [|i], j as [|j]; cbn [nth]; try lia.
  - apply fle_refl. exact H1.
  - apply H2. apply nth_In. lia.
  - apply IH; [exact H3|lia].
Qed.
Lemma search_left_count bins x : sorted bins -> search_left bins x = searchsorted bins x.
Proof.
  intros Hs. unfold search_left, searchsorted. rewrite bisect_count.
  - f_equal. apply filter_ext. intros e. apply negb_involutive.
  - intros i j Hij H. pose proof (sorted_nth bins Hs i j Hij) as L. rewrite Bool.negb_true_iff in *. set (a := nth i bins NaN) in *. set (b := nth j bins NaN) in *.
    destruct (below x b) eqn:E; [|reflexivity]. rewrite <- H. clear H. destruct a as [a| | |], b as [b| | |], x as [x| | |]; try reflexivity; try discriminate.
    cbn [below] in *. apply flt_Fin in E. apply fle_Fin in L. symmetry. apply flt_Fin. lra.
Qed.
Lemma search_right_count bins x : sorted bins -> search_right bins x = List.length (filter (fun e => negb (below e x)) bins).
Proof.
  intros Hs. unfold search_right. rewrite bisect_count; [reflexivity|]. intros i j Hij H. pose proof (sorted_nth bins Hs i j Hij) as L.
  set (a := nth i bins NaN) in *. set (b := nth j bins NaN) in *. destruct a as [a| | |], b as [b| | |], x as [x| | |]; try reflexivity; try discriminate.
  cbn [below] in *. apply flt_Fin in H. apply fle_Fin in L. apply flt_Fin. lra.
Qed.
Lemma fold_ext {S E} (f g : S -> E -> S) l : (forall s e, f s e = g s e) -> forall s, fold_left f l s = fold_left g l s.
Proof. intros H. induction l as [|e l IH]; intros s; cbn; [reflexivity|]. rewrite H. apply IH. Qed.
Lemma search_hist_1d_eq bins events : sorted bins -> search_hist_1d bins events = hist_1d bins events.
Proof. intros Hs. unfold search_hist_1d, hist_1d. f_equal. apply fold_ext. intros h e. rewrite search_left_count by exact Hs. reflexivity. Qed.
Lemma search_index_eq bins x : sorted bins -> search_index_dd bins x = index_dd bins x.
Proof. intros Hs. unfold search_index_dd, index_dd. rewrite search_right_count by exact Hs. reflexivity. Qed.
Lemma search_mesh_1d_eq bins events : sorted bins -> search_hist_mesh_1d bins events = hist_mesh_1d bins events.
Proof. intros Hs. unfold search_hist_mesh_1d, hist_mesh_1d. f_equal. apply fold_ext. intros h e. rewrite search_index_eq by exact Hs. reflexivity. Qed.
Lemma search_mesh_2d_eq bx b2 events : sorted bx -> sorted b2 -> search_hist_mesh_2d bx b2 events = hist_mesh_2d bx b2 events.
Proof. intros Hx Hy. unfold search_hist_mesh_2d, hist_mesh_2d. do 2 f_equal. apply fold_ext. intros h e. rewrite !search_index_eq by assumption. reflexivity. Qed.
Lemma last_in {A} (d : A) l : l <> [] -> In (last l d) l.
Proof. induction l as [|x [|y l] IH]; intros H; [congruence|left; reflexivity|right; apply IH; discriminate]. Qed.
Lemma search_hist_2d_eq bx b2 events : sorted bx -> (forall r, In r b2 -> sorted r) -> search_hist_2d bx b2 events = hist_2d last_row bx b2 events.
Proof.
  intros Hx Hy. unfold search_hist_2d, hist_2d. do 2 f_equal. apply fold_ext. intros h e. rewrite search_left_count by exact Hx. f_equal. apply search_left_count.
  assert (Hl : forall i, sorted (last_row b2 i)). { intros i. unfold last_row. destruct b2 as [|r b2]; [exact I|]. apply Hy, last_in. discriminate. }
  unfold row. destruct (searchsorted bx _) as [|i]; [apply Hl|]. destruct (nth_error b2 i) as [r|] eqn:N; [|apply Hl]. apply Hy. exact (nth_error_In _ _ N).
Qed.

Lemma ss_left_count refs x : non_decreasing refs -> ss_left refs x = List.length (filter (fun e => negb (if Rle_dec x e then true else false)) refs).
Proof.
  induction refs as [|r refs IH]; intros H; [reflexivity|]. cbn [ss_left filter].
  assert (H' : non_decreasing refs). { intros i j Hij. exact (H (S i) (S j) ltac:(cbn; lia)). }
  destruct (Rlt_dec r x) as [L|L], (Rle_dec x r) as [L'|L']; cbn [negb]; try lra; [cbn; f_equal; apply IH; exact H'|].
  assert (G : forall e, In e refs -> (r <= e)%R). { intros e He. destruct (In_nth _ _ 0%R He) as (j & Hj & <-). exact (H 0 (S j) ltac:(cbn; lia)). }
  symmetry. clear - G L'. induction refs as [|e refs IH]; [reflexivity|]. cbn [filter]. destruct (Rle_dec x e) as [_|N]; cbn [negb].
  - apply IH. intros u Hu. apply G. right. exact Hu.
  - exfalso. apply N. pose proof (G e (or_introl eq_refl)). lra.
Qed.
Lemma search_curve_eq refs vals x : non_decreasing refs -> search_curve refs vals x = curve refs vals x.
Proof.
  intros H. unfold search_curve, curve. rewrite bisect_count, <- (ss_left_count refs x H); [reflexivity|].
  intros i j Hij E. pose proof (H i j Hij) as L. unfold ent in L. destruct (Rle_dec x (nth i refs 0%R)); [|discriminate]. destruct (Rle_dec x (nth j refs 0%R)); [reflexivity|lra].
Qed.

Lemma ss_right_count refs x : non_decreasing refs -> ss_right refs x = List.length (filter (fun e => negb (if Rlt_dec x e then true else false)) refs).
Proof.
  induction refs as [|r refs IH]; intros H; [reflexivity|]. cbn [ss_right filter].
  assert (H' : non_decreasing refs). { intros i j Hij. exact (H (S i) (S j) ltac:(cbn; lia)). }
  destruct (Rle_dec r x) as [L|L], (Rlt_dec x r) as [L'|L']; cbn [negb]; try lra; [cbn; f_equal; apply IH; exact H'|].
  assert (G : forall e, In e refs -> (r <= e)%R). { intros e He. destruct (In_nth _ _ 0%R He) as (j & Hj & <-). exact (H 0 (S j) ltac:(cbn; lia)). }
  symmetry. clear - G L'. induction refs as [|e refs IH]; [reflexivity|]. cbn [filter]. destruct (Rlt_dec x e) as [_|N]; cbn [negb].
  - apply IH. intros u Hu. apply G. right. exact Hu.
  - exfalso. apply N. pose proof (G e (or_introl eq_refl)). lra.
Qed.
Lemma search_interp_eq refs vals x : non_decreasing refs -> search_interp refs vals x = interp refs vals x.
Proof.
  intros H. unfold search_interp, interp. rewrite bisect_count, <- (ss_right_count refs x H); [reflexivity|].
  intros i j Hij E. pose proof (H i j Hij) as L. unfold ent in L. destruct (Rlt_dec x (nth i refs 0%R)); [|discriminate]. destruct (Rlt_dec x (nth j refs 0%R)); [reflexivity|lra].
Qed.
