(** Lemmas about the median (C103). *)
From Coq Require Import Reals Lra Lia Permutation Sorted.
From Verif Require Import Base BaseFacts ModelFloat ProofFloat ModelLikelihood ModelContext SpecPost.
Local Open Scope list_scope.

Fixpoint rinsert (x : R) (l : list R) : list R :=
  match l with [] => [x] | y :: l' => if Rle_dec x y then x :: l else y :: rinsert x l' end.
Fixpoint rsort (l : list R) : list R := match l with [] => [] | x :: l' => rinsert x (rsort l') end.

Lemma insert_Fin x l : insert_fl (Fin x) (map Fin l) = map Fin (rinsert x l).
Proof.
  induction l as [|y l IH]; [reflexivity|]. cbn. destruct (Rle_dec x y); [reflexivity|]. cbn. rewrite IH. reflexivity.
Qed.

Lemma sort_Fin l : sort_fl (map Fin l) = map Fin (rsort l).
Proof. induction l as [|x l IH]; [reflexivity|]. cbn. rewrite IH. apply insert_Fin. Qed.

Lemma rinsert_perm x l : Permutation (x :: l) (rinsert x l).
Proof.
  induction l as [|y l IH]; [constructor; constructor|]. cbn. destruct (Rle_dec x y); [apply Permutation_refl|].
  eapply perm_trans; [apply perm_swap|]. constructor. exact IH.
Qed.

Lemma rsort_perm l : Permutation l (rsort l).
Proof.
  induction l as [|x l IH]; [constructor|]. cbn. eapply perm_trans; [|apply rinsert_perm]. constructor. exact IH.
Qed.

Lemma rinsert_sorted x l : StronglySorted Rle l -> StronglySorted Rle (rinsert x l).
Proof.
  induction l as [|y l IH]; intros H; [constructor; constructor|]. cbn. inversion H as [|? ? H1 H2]; subst. destruct (Rle_dec x y) as [r|r].
  - constructor; [exact H|]. constructor; [exact r|]. rewrite Forall_forall in H2 |- *. intros z Hz. specialize (H2 z Hz). lra.
  - constructor; [apply IH, H1|]. rewrite Forall_forall in H2 |- *. intros z Hz.
    apply (Permutation_in _ (Permutation_sym (rinsert_perm x l))) in Hz. destruct Hz as [<-|Hz]; [lra|apply H2, Hz].
Qed.

Lemma rsort_sorted l : StronglySorted Rle (rsort l).
Proof. induction l as [|x l IH]; [constructor|]. cbn. apply rinsert_sorted, IH. Qed.

Lemma filter_perm {A} (f : A -> bool) l l' : Permutation l l' -> Permutation (filter f l) (filter f l').
Proof.
  induction 1; cbn; [constructor| | |eapply perm_trans; eassumption].
  - destruct (f x); [constructor|]; assumption.
  - destruct (f x), (f y); try apply Permutation_refl. apply perm_swap.
Qed.

Lemma halves_perm l l' m : Permutation l l' -> halves l m -> halves l' m.
Proof.
  intros P (H1 & H2). unfold halves. rewrite <- (Permutation_length P).
  rewrite <- (Permutation_length (filter_perm _ _ _ P)), <- (Permutation_length (filter_perm _ _ _ P)). auto.
Qed.

(** In a sorted list, how many are at most y. *)
Lemma count_below s : StronglySorted Rle s -> forall j y, j < List.length s ->
  (j < List.length (filter (fun x => if Rle_dec x y then true else false) s) <-> (nth j s 0 <= y)%R).
Proof.
  induction 1 as [|x s Hs IH Hx]; intros j y Hj; [cbn in Hj; lia|]. rewrite Forall_forall in Hx. cbn [filter].
  destruct (Rle_dec x y) as [r|r].
  - cbn [List.length]. destruct j as [|j]; [cbn; split; [intros _; exact r|intros _; lia]|]. cbn [nth]. cbn in Hj.
    rewrite <- (IH j y) by lia. lia.
  - assert (E : filter (fun x0 => if Rle_dec x0 y then true else false) s = []).
    { clear - Hx r. induction s as [|z s IH]; [reflexivity|]. cbn. destruct (Rle_dec z y) as [q|q].
      - exfalso. specialize (Hx z (or_introl eq_refl)). lra.
      - apply IH. intros w Hw. apply Hx. right. exact Hw. }
    rewrite E. cbn [List.length]. split; [lia|]. intros H. exfalso. destruct j as [|j]; cbn in H; [lra|].
    assert (Hi : In (nth j s 0%R) s) by (apply nth_In; cbn in Hj; lia). specialize (Hx _ Hi). lra.
Qed.

Lemma filter_le_all s y : (forall z, In z s -> (y <= z)%R) -> filter (fun x => if Rle_dec y x then true else false) s = s.
Proof.
  induction s as [|z s IH]; intros H; [reflexivity|]. cbn. destruct (Rle_dec y z) as [q|q].
  - f_equal. apply IH. intros w Hw. apply H. right. exact Hw.
  - exfalso. apply q, H. left. reflexivity.
Qed.

Lemma filter_length {A} (f : A -> bool) l : List.length (filter f l) <= List.length l.
Proof. induction l as [|a l IH]; cbn; [lia|]. destruct (f a); cbn; lia. Qed.

Lemma count_above s : StronglySorted Rle s -> forall j y, j < List.length s ->
  (List.length s - j <= List.length (filter (fun x => if Rle_dec y x then true else false) s) <-> (y <= nth j s 0)%R).
Proof.
  induction 1 as [|x s Hs IH Hx]; intros j y Hj; [cbn in Hj; lia|]. rewrite Forall_forall in Hx. cbn [filter].
  destruct (Rle_dec y x) as [r|r].
  - rewrite filter_le_all by (intros z Hz; specialize (Hx z Hz); lra). cbn [List.length]. split; [|lia]. intros _.
    destruct j as [|j]; [exact r|]. cbn [nth]. assert (Hi : In (nth j s 0%R) s) by (apply nth_In; cbn in Hj; lia). specialize (Hx _ Hi). lra.
  - destruct j as [|j].
    + cbn [nth List.length]. split; [|lra]. pose proof (filter_length (fun x0 => if Rle_dec y x0 then true else false) s). lia.
    + cbn [nth List.length]. cbn in Hj. rewrite <- (IH j y) by lia. lia.
Qed.

(** The median of numbers over the reals. *)
Definition rmedian (l : list R) : R :=
  let s := rsort l in
  let h := Nat.div (List.length s) 2 in
  if Nat.odd (List.length s) then nth h s 0%R else ((nth (h - 1) s 0 + nth h s 0) / 2)%R.

Lemma half_cases n : (Nat.odd n = true /\ n = 2 * Nat.div n 2 + 1) \/ (Nat.odd n = false /\ n = 2 * Nat.div n 2).
Proof.
  pose proof (Nat.div_mod n 2 ltac:(lia)) as D. pose proof (Nat.mod_upper_bound n 2 ltac:(lia)) as B.
  rewrite <- Nat.bit0_odd, Nat.bit0_eqb. destruct (Nat.modulo n 2) as [|[|k]]; [right|left|]; [split; [reflexivity|lia]..|lia].
Qed.

Lemma halves_sorted s y : StronglySorted Rle s -> s <> [] ->
  (halves s y <-> (nth ((List.length s + 1) / 2 - 1) s 0 <= y <= nth (List.length s / 2) s 0)%R).
Proof.
  intros Hs Hn. assert (L : 0 < List.length s) by (destruct s; [congruence|cbn; lia]).
  assert (D : (List.length s + 1) / 2 - 1 < List.length s /\ List.length s / 2 < List.length s).
  { split.
    - pose proof (Nat.div_le_mono (List.length s + 1) (2 * List.length s) 2 ltac:(lia) ltac:(lia)) as X.
      rewrite Nat.mul_comm, Nat.div_mul in X by lia. lia.
    - apply Nat.div_lt; lia. }
  rewrite <- (count_below s Hs _ y (proj1 D)), <- (count_above s Hs _ y (proj2 D)). unfold halves.
  set (a := List.length (filter (fun x => if Rle_dec x y then true else false) s)).
  set (b := List.length (filter (fun x => if Rle_dec y x then true else false) s)).
  set (n := List.length s) in *. clearbody a b n.
  pose proof (Nat.div_mod n 2 ltac:(lia)) as D1. pose proof (Nat.mod_upper_bound n 2 ltac:(lia)) as B1.
  pose proof (Nat.div_mod (n + 1) 2 ltac:(lia)) as D2. pose proof (Nat.mod_upper_bound (n + 1) 2 ltac:(lia)) as B2.
  lia.
Qed.

Lemma rmedian_ok l : l <> [] -> is_median l (rmedian l).
Proof.
  intros Hl. pose proof (rsort_perm l) as P. pose proof (rsort_sorted l) as S.
  assert (Hn : rsort l <> []) by (intros E; rewrite E in P; apply Permutation_sym, Permutation_nil in P; contradiction).
  assert (Hm : let s := rsort l in (2 * rmedian l = nth ((List.length s + 1) / 2 - 1) s 0 + nth (List.length s / 2) s 0)%R).
  { cbv zeta. unfold rmedian. set (s := rsort l) in *. set (n := List.length s).
    destruct (half_cases n) as [[E H]|[E H]]; rewrite E.
    - replace ((n + 1) / 2 - 1) with (n / 2); [lra|].
      pose proof (Nat.div_mod (n + 1) 2 ltac:(lia)). pose proof (Nat.mod_upper_bound (n + 1) 2 ltac:(lia)). lia.
    - replace ((n + 1) / 2 - 1) with (n / 2 - 1); [lra|].
      pose proof (Nat.div_mod (n + 1) 2 ltac:(lia)). pose proof (Nat.mod_upper_bound (n + 1) 2 ltac:(lia)). lia. }
  cbv zeta in Hm.
  assert (Hle : (nth ((List.length (rsort l) + 1) / 2 - 1) (rsort l) 0 <= nth (List.length (rsort l) / 2) (rsort l) 0)%R).
  { destruct (proj1 (halves_sorted (rsort l) (nth ((List.length (rsort l) + 1) / 2 - 1) (rsort l) 0%R) S Hn)) as [_ H]; [|exact H].
    set (s := rsort l) in *. set (n := List.length s). assert (L : 0 < n) by (destruct s; [congruence|cbn; lia]).
    pose proof (Nat.div_mod (n + 1) 2 ltac:(lia)) as D2. pose proof (Nat.mod_upper_bound (n + 1) 2 ltac:(lia)) as B2.
    assert (Hj : (n + 1) / 2 - 1 < n) by lia.
    pose proof (proj2 (count_below s S _ _ Hj) (Rle_refl _)) as C1. pose proof (proj2 (count_above s S _ _ Hj) (Rle_refl _)) as C2.
    unfold halves. fold n in C2 |- *. lia. }
  assert (T : forall y, halves l y <-> halves (rsort l) y).
  { intros y. split; apply halves_perm; [exact P|apply Permutation_sym, P]. }
  split.
  - apply T, halves_sorted; [exact S|exact Hn|]. lra.
  - intros y Hy. apply T in Hy. apply T. apply halves_sorted in Hy; [|exact S|exact Hn]. apply halves_sorted; [exact S|exact Hn|]. lra.
Qed.

Lemma median_Fin l : l <> [] -> np_median (map Fin l) = Fin (rmedian l).
Proof.
  intros Hl. unfold np_median.
  assert (E : existsb is_nan (map Fin l) = false) by (clear; induction l as [|x l IH]; [reflexivity|exact IH]).
  rewrite E, sort_Fin, map_length. destruct l as [|x0 l0] eqn:El; [congruence|]. cbn [map]. rewrite <- El. clear E.
  pose proof (rsort_perm l) as P. assert (L : 0 < List.length (rsort l)) by (rewrite <- (Permutation_length P), El; cbn; lia).
  assert (N : forall j, j < List.length (rsort l) -> nth j (map Fin (rsort l)) NaN = Fin (nth j (rsort l) 0%R)).
  { intros j Hj. rewrite (nth_indep _ NaN (Fin 0)) by (rewrite map_length; exact Hj). apply map_nth. }
  assert (D : List.length (rsort l) / 2 < List.length (rsort l)) by (apply Nat.div_lt; lia).
  unfold rmedian. destruct (Nat.odd _).
  - apply N. exact D.
  - rewrite (N _ D), N by lia. unfold fdiv. cbn. destruct (Req_EM_T 2 0); [lra|]. reflexivity.
Qed.

(** Something that halves the numbers is between two of them. *)
Lemma halves_between l m : l <> [] -> halves l m -> exists a b, In a l /\ In b l /\ (a <= m <= b)%R.
Proof.
  intros Hl (H1 & H2). assert (L : 0 < List.length l) by (destruct l; [congruence|cbn; lia]).
  destruct (filter (fun x => if Rle_dec x m then true else false) l) as [|a r1] eqn:E1; [cbn in H1; lia|].
  destruct (filter (fun x => if Rle_dec m x then true else false) l) as [|b r2] eqn:E2; [cbn in H2; lia|].
  assert (A : In a (a :: r1)) by (left; reflexivity). rewrite <- E1 in A. apply filter_In in A. destruct A as [A1 A2].
  assert (B : In b (b :: r2)) by (left; reflexivity). rewrite <- E2 in B. apply filter_In in B. destruct B as [B1 B2].
  exists a, b. destruct (Rle_dec a m); [|discriminate]. destruct (Rle_dec m b); [|discriminate]. auto.
Qed.

(** There is at most one median. *)
Lemma median_unique l m m' : l <> [] -> is_median l m -> is_median l m' -> m = m'.
Proof.
  intros Hl. enough (X : forall a b, is_median l a -> is_median l b -> (a < b)%R -> False).
  { intros H H'. destruct (Rtotal_order m m') as [C|[C|C]]; [exfalso; eapply (X m m')|exact C|exfalso; eapply (X m' m)]; eassumption. }
  intros a b [A1 A2] [B1 B2] C.
  (* halving values can be moved by 2 (b - a) for ever *)
  assert (M : forall k, halves l (a + INR k * (2 * (b - a)))%R).
  { induction k as [|k IH]; [cbn; replace (a + 0 * _)%R with a by lra; exact A1|]. apply A2 in IH. apply B2 in IH. rewrite S_INR.
    replace (a + (INR k + 1) * (2 * (b - a)))%R with (2 * b - (2 * a - (a + INR k * (2 * (b - a)))))%R by lra. exact IH. }
  assert (Bd : exists u, forall x, In x l -> (x <= u)%R).
  { clear. induction l as [|x l [u IH]]; [exists 0%R; intros x []|]. exists (Rmax x u). intros z [<-|Hz]; [apply Rmax_l|].
    eapply Rle_trans; [apply IH, Hz|apply Rmax_r]. }
  destruct Bd as [u Hu]. assert (Hex : exists k, (INR k > (u - a) / (2 * (b - a)))%R).
  { destruct (archimed ((u - a) / (2 * (b - a)))) as [H _]. exists (Z.to_nat (up ((u - a) / (2 * (b - a))))).
    eapply Rge_gt_trans; [|exact H]. rewrite INR_IZR_INZ. apply Rle_ge, IZR_le. lia. }
  destruct Hex as [k Hk].
  destruct (halves_between _ _ Hl (M k)) as (x & y & _ & Hy & _ & Hy2). specialize (Hu y Hy).
  apply (Rmult_gt_compat_r (2 * (b - a))) in Hk; [|lra]. unfold Rdiv in Hk. rewrite Rmult_assoc, Rinv_l, Rmult_1_r in Hk by lra. lra.
Qed.
