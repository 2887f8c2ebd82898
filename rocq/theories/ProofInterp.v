(** Proofs about points and one-dimensional interpolation. *)
From Coq Require Import Reals ZArith Lra Lia Permutation.
From Verif Require Import Base ModelInterp SpecInterp.
Local Open Scope R_scope.

Lemma clipR_mid x lo hi : lo <= x <= hi -> clipR x lo hi = x.
Proof. intros H. unfold clipR. rewrite Rmax_left, Rmin_left by lra. reflexivity. Qed.
Lemma clipR_low x lo hi : x <= lo -> lo <= hi -> clipR x lo hi = lo.
Proof. intros H1 H2. unfold clipR. rewrite Rmax_right, Rmin_left by lra. reflexivity. Qed.
Lemma clipR_high x lo hi : hi <= x -> lo <= hi -> clipR x lo hi = hi.
Proof. intros H1 H2. unfold clipR. rewrite Rmin_right; [reflexivity|]. pose proof (Rmax_l x lo). lra. Qed.
Lemma clipR_range x lo hi : lo <= hi -> lo <= clipR x lo hi <= hi.
Proof.
  intros H. unfold clipR. pose proof (Rmax_r x lo). unfold Rmin. destruct (Rle_dec (Rmax x lo) hi); lra.
Qed.
Lemma clipR_cases x lo hi : lo <= hi ->
  (x <= lo /\ clipR x lo hi = lo) \/ (hi <= x /\ clipR x lo hi = hi) \/ (lo <= x <= hi /\ clipR x lo hi = x).
Proof.
  intros H. destruct (Rle_lt_dec x lo) as [H1|H1]; [left; auto using clipR_low|].
  destruct (Rle_lt_dec hi x) as [H2|H2]; [right; left; auto using clipR_high|].
  right; right. split; [lra|]. apply clipR_mid. lra.
Qed.
Lemma clipR_lip x y lo hi : lo <= hi -> Rabs (clipR x lo hi - clipR y lo hi) <= Rabs (x - y).
Proof.
  intros H. destruct (clipR_cases x lo hi H) as [[A ->]|[[A ->]|[A ->]]], (clipR_cases y lo hi H) as [[B ->]|[[B ->]|[B ->]]];
    unfold Rabs; repeat (match goal with |- context [Rcase_abs ?a] => destruct (Rcase_abs a) end); lra.
Qed.
Lemma clipR_mono x y lo hi : lo <= hi -> x <= y -> clipR x lo hi <= clipR y lo hi.
Proof.
  intros H L. destruct (clipR_cases x lo hi H) as [[A ->]|[[A ->]|[A ->]]], (clipR_cases y lo hi H) as [[B ->]|[[B ->]|[B ->]]]; lra.
Qed.

(* ------------------------------------------------------------------ *)
(** * searchsorted *)

Lemma ss_left_is refs x : forall k, (k <= List.length refs)%nat -> (forall j, (j < k)%nat -> ent refs j < x) ->
  ((k < List.length refs)%nat -> x <= ent refs k) -> ss_left refs x = k.
Proof.
  unfold ent. induction refs as [|r refs IH]; intros k Hk H1 H2; cbn in *; [lia|].
  destruct k as [|k].
  - specialize (H2 ltac:(lia)). cbn in H2. destruct (Rlt_dec r x); [lra|reflexivity].
  - pose proof (H1 0%nat ltac:(lia)) as H0. cbn in H0. destruct (Rlt_dec r x); [|lra]. f_equal. apply IH; [lia| |].
    + intros j Hj. apply (H1 (S j)). lia.
    + intros Hj. apply H2. lia.
Qed.

Lemma ss_right_is refs x : forall k, (k <= List.length refs)%nat -> (forall j, (j < k)%nat -> ent refs j <= x) ->
  ((k < List.length refs)%nat -> x < ent refs k) -> ss_right refs x = k.
Proof.
  unfold ent. induction refs as [|r refs IH]; intros k Hk H1 H2; cbn in *; [lia|].
  destruct k as [|k].
  - specialize (H2 ltac:(lia)). cbn in H2. destruct (Rle_dec r x); [lra|reflexivity].
  - pose proof (H1 0%nat ltac:(lia)) as H0. cbn in H0. destruct (Rle_dec r x); [|lra]. f_equal. apply IH; [lia| |].
    + intros j Hj. apply (H1 (S j)). lia.
    + intros Hj. apply H2. lia.
Qed.

Lemma increasing_le refs i j : increasing refs -> (i <= j < List.length refs)%nat -> ent refs i <= ent refs j.
Proof.
  intros H Hij. destruct (Nat.eq_dec i j) as [->|N]; [lra|]. apply Rlt_le, H. lia.
Qed.

(* ------------------------------------------------------------------ *)
(** * curve_interpolator *)

Section Curve.
  Variables (refs vals : list R).
  Let n := List.length refs.
  Hypothesis Hn : (1 <= n)%nat.
  Hypothesis Hinc : increasing refs.

  Lemma curve_low x : x <= ent refs 0 -> curve refs vals x = ent vals 0.
  Proof.
    intros Hx. unfold curve. fold n. rewrite (ss_left_is refs x 0); [|lia|intros j Hj; lia|intros _; exact Hx].
    cbn [Nat.min Nat.sub]. fold (ent vals 0). fold (ent refs 0).
    destruct (Rlt_dec 0 (Rabs (x - ent refs 0) + Rabs (x - ent refs 0))); [field; lra|reflexivity].
  Qed.

  Lemma curve_high x : ent refs (n - 1) <= x -> curve refs vals x = ent vals (n - 1).
  Proof.
    intros Hx. unfold curve. fold n. destruct (Req_EM_T x (ent refs (n - 1))) as [E|E].
    - rewrite (ss_left_is refs x (n - 1)); [|subst n; lia| |intros _; lra].
      2:{ intros j Hj. rewrite E. apply Hinc. subst n. lia. }
      rewrite Nat.min_id. fold (ent vals (n - 1)). fold (ent refs (n - 1)).
      replace (Nat.min (n - 1 - 1) (n - 1)) with (n - 1 - 1)%nat by lia. fold (ent vals (n - 1 - 1)). fold (ent refs (n - 1 - 1)).
      rewrite E, Rminus_diag_eq, Rabs_R0 by reflexivity.
      destruct (Rlt_dec 0 (0 + Rabs (ent refs (n - 1) - ent refs (n - 1 - 1)))) as [P|P]; [field; lra|reflexivity].
    - rewrite (ss_left_is refs x n); [|subst n; lia| |subst n; lia].
      2:{ intros j Hj. pose proof (increasing_le refs j (n - 1) Hinc ltac:(subst n; lia)). lra. }
      replace (Nat.min n (n - 1)) with (n - 1)%nat by lia. rewrite Nat.min_id.
      fold (ent vals (n - 1)). fold (ent refs (n - 1)).
      destruct (Rlt_dec 0 (Rabs (x - ent refs (n - 1)) + Rabs (x - ent refs (n - 1)))); [field; lra|reflexivity].
  Qed.

  Lemma curve_between x i : (S i < n)%nat -> ent refs i <= x <= ent refs (S i) ->
    curve refs vals x = line (ent refs i) (ent vals i) (ent refs (S i)) (ent vals (S i)) x.
  Proof.
    intros Hi Hx. pose proof (Hinc i (S i) ltac:(subst n; lia)) as Hlt.
    destruct (Req_EM_T x (ent refs i)) as [E|E].
    - unfold line. rewrite E, Rminus_diag_eq by reflexivity. unfold Rdiv. rewrite !Rmult_0_l, Rplus_0_r.
      destruct i as [|i]; [apply curve_low; lra|].
      unfold curve. fold n. rewrite (ss_left_is refs (ent refs (S i)) (S i)); [|subst n; lia| |intros _; lra].
      2:{ intros j Hj. apply Hinc. subst n. lia. }
      replace (Nat.min (S i) (n - 1)) with (S i) by lia.
      replace (Nat.min (S i - 1) (n - 1)) with i by lia.
      fold (ent vals (S i)). fold (ent refs (S i)). fold (ent vals i). fold (ent refs i).
      rewrite Rminus_diag_eq, Rabs_R0 by reflexivity.
      pose proof (Hinc i (S i) ltac:(subst n; lia)).
      rewrite (Rabs_right (ent refs (S i) - ent refs i)) by lra.
      destruct (Rlt_dec 0 (0 + (ent refs (S i) - ent refs i))); [field; lra|lra].
    - unfold curve. fold n. rewrite (ss_left_is refs x (S i)); [|subst n; lia| |intros _; lra].
      2:{ intros j Hj. pose proof (increasing_le refs j i Hinc ltac:(subst n; lia)). lra. }
      replace (Nat.min (S i) (n - 1)) with (S i) by lia.
      replace (Nat.min (S i - 1) (n - 1)) with i by lia.
      fold (ent vals (S i)). fold (ent refs (S i)). fold (ent vals i). fold (ent refs i).
      rewrite (Rabs_left1 (x - ent refs (S i))) by lra. rewrite (Rabs_right (x - ent refs i)) by lra.
      destruct (Rlt_dec 0 (- (x - ent refs (S i)) + (x - ent refs i))); [|lra].
      unfold line. field. lra.
  Qed.

  Lemma interp_low x : x <= ent refs 0 -> interp refs vals x = ent vals 0.
  Proof.
    intros Hx. unfold interp. fold n. fold (ent refs (n - 1)). fold (ent refs 0).
    pose proof (increasing_le refs 0 (n - 1) Hinc ltac:(subst n; lia)).
    destruct (Rlt_dec (ent refs (n - 1)) x); [lra|]. destruct (Rlt_dec x (ent refs 0)); [reflexivity|].
    assert (E : x = ent refs 0) by lra.
    destruct (Nat.eq_dec n 1) as [E1|N1].
    - replace (Nat.min (Nat.max (ss_right refs x) 1) (n - 1)) with 0%nat by lia.
      cbn [Nat.sub]. destruct (Req_EM_T (nth 0 refs 0 - nth 0 refs 0) 0); [reflexivity|lra].
    - rewrite (ss_right_is refs x 1); [|subst n; lia| |].
      + replace (Nat.min (Nat.max 1 1) (n - 1)) with 1%nat by lia. cbn [Nat.sub]. fold (ent refs 1). fold (ent refs 0).
        pose proof (Hinc 0%nat 1%nat ltac:(subst n; lia)).
        destruct (Req_EM_T (ent refs 1 - ent refs 0) 0); [lra|].
        rewrite E, Rminus_diag_eq by reflexivity. unfold Rdiv. rewrite !Rmult_0_l, Rplus_0_r. reflexivity.
      + intros j Hj. replace j with 0%nat by lia. lra.
      + intros Hj. rewrite E. apply Hinc. lia.
  Qed.

  Lemma interp_high x : ent refs (n - 1) <= x -> interp refs vals x = ent vals (n - 1).
  Proof.
    intros Hx. destruct (Nat.eq_dec n 1) as [E1|N1].
    - assert (En : (n - 1 = 0)%nat) by lia. unfold interp. fold n. rewrite En in *. cbn [Nat.sub].
      replace (Nat.min (Nat.max (ss_right refs x) 1) 0) with 0%nat by lia. cbn [Nat.sub]. fold (ent refs 0) in *.
      destruct (Rlt_dec (ent refs 0) x); [reflexivity|]. destruct (Rlt_dec x (ent refs 0)); [reflexivity|].
      destruct (Req_EM_T (ent refs 0 - ent refs 0) 0); [reflexivity|lra].
    - unfold interp. fold n. fold (ent refs (n - 1)). fold (ent refs 0).
      destruct (Rlt_dec (ent refs (n - 1)) x); [reflexivity|].
      pose proof (Hinc 0%nat (n - 1)%nat ltac:(subst n; lia)).
      destruct (Rlt_dec x (ent refs 0)); [lra|].
      rewrite (ss_right_is refs x n); [|subst n; lia| |subst n; lia].
      + replace (Nat.min (Nat.max n 1) (n - 1)) with (n - 1)%nat by lia.
        fold (ent refs (n - 1)). fold (ent refs (n - 1 - 1)). fold (ent vals (n - 1)). fold (ent vals (n - 1 - 1)).
        pose proof (Hinc (n - 1 - 1)%nat (n - 1)%nat ltac:(subst n; lia)).
        destruct (Req_EM_T (ent refs (n - 1) - ent refs (n - 1 - 1)) 0); [lra|].
        replace x with (ent refs (n - 1)) by lra. field. lra.
      + intros j Hj. pose proof (increasing_le refs j (n - 1) Hinc ltac:(subst n; lia)). lra.
  Qed.

  Lemma interp_between x i : (S i < n)%nat -> ent refs i <= x <= ent refs (S i) ->
    interp refs vals x = line (ent refs i) (ent vals i) (ent refs (S i)) (ent vals (S i)) x.
  Proof.
    intros Hi Hx. pose proof (Hinc i (S i) ltac:(subst n; lia)) as Hlt.
    destruct (Rle_lt_dec (ent refs (S i)) x) as [E|E].
    - assert (Ex : x = ent refs (S i)) by lra.
      replace (line _ _ _ _ x) with (ent vals (S i)) by (unfold line; rewrite Ex; field; lra).
      destruct (Nat.eq_dec (S i) (n - 1)) as [En|En].
      + rewrite En. apply interp_high. rewrite <- En. lra.
      + unfold interp. fold n. fold (ent refs (n - 1)). fold (ent refs 0).
        pose proof (Hinc (S i) (n - 1)%nat ltac:(subst n; lia)). pose proof (Hinc 0%nat (S i) ltac:(subst n; lia)).
        destruct (Rlt_dec (ent refs (n - 1)) x); [lra|]. destruct (Rlt_dec x (ent refs 0)); [lra|].
        rewrite (ss_right_is refs x (S (S i))); [|subst n; lia| |].
        * replace (Nat.min (Nat.max (S (S i)) 1) (n - 1)) with (S (S i)) by lia. cbn [Nat.sub].
          fold (ent refs (S (S i))). fold (ent refs (S i)). fold (ent vals (S (S i))). fold (ent vals (S i)).
          pose proof (Hinc (S i) (S (S i)) ltac:(subst n; lia)).
          destruct (Req_EM_T (ent refs (S (S i)) - ent refs (S i)) 0); [lra|]. rewrite Ex. field. lra.
        * intros j Hj. pose proof (increasing_le refs j (S i) Hinc ltac:(subst n; lia)). lra.
        * intros Hj. rewrite Ex. apply Hinc. lia.
    - unfold interp. fold n. fold (ent refs (n - 1)). fold (ent refs 0).
      pose proof (increasing_le refs (S i) (n - 1) Hinc ltac:(subst n; lia)). pose proof (increasing_le refs 0 i Hinc ltac:(subst n; lia)).
      destruct (Rlt_dec (ent refs (n - 1)) x); [lra|]. destruct (Rlt_dec x (ent refs 0)); [lra|].
      rewrite (ss_right_is refs x (S i)); [|subst n; lia| |intros _; lra].
      + replace (Nat.min (Nat.max (S i) 1) (n - 1)) with (S i) by lia. cbn [Nat.sub]. rewrite Nat.sub_0_r.
        fold (ent refs (S i)). fold (ent refs i). fold (ent vals (S i)). fold (ent vals i).
        destruct (Req_EM_T (ent refs (S i) - ent refs i) 0); [lra|]. unfold line. reflexivity.
      + intros j Hj. pose proof (increasing_le refs j i Hinc ltac:(subst n; lia)). lra.
  Qed.

  (** Where a query lies. *)
  Lemma locate x : x <= ent refs 0 \/ ent refs (n - 1) <= x \/
    exists i, (S i < n)%nat /\ ent refs i <= x <= ent refs (S i).
  Proof.
    destruct (Rle_lt_dec x (ent refs 0)) as [H|H]; [auto|]. right.
    destruct (Rle_lt_dec (ent refs (n - 1)) x) as [H2|H2]; [auto|]. right.
    assert (G : forall k, (k < n)%nat -> x < ent refs k -> exists i, (S i < n)%nat /\ ent refs i <= x <= ent refs (S i)).
    { induction k as [|k IH]; intros Hk Hx; [lra|].
      destruct (Rle_lt_dec (ent refs k) x) as [E|E]; [exists k; split; [exact Hk|lra]|apply IH; [lia|exact E]]. }
    apply (G (n - 1)%nat); [lia|exact H2].
  Qed.

  Lemma interp_curve x : interp refs vals x = curve refs vals x.
  Proof.
    destruct (locate x) as [H|[H|(i & Hi & H)]].
    - rewrite interp_low, curve_low by exact H. reflexivity.
    - rewrite interp_high, curve_high by exact H. reflexivity.
    - rewrite (interp_between x i Hi H), (curve_between x i Hi H). reflexivity.
  Qed.

  Lemma line_between x0 y0 x1 y1 x : x0 < x1 -> x0 <= x <= x1 ->
    exists t, 0 <= t <= 1 /\ x = x0 + t * (x1 - x0) /\ line x0 y0 x1 y1 x = y0 + t * (y1 - y0).
  Proof.
    intros H Hx. exists ((x - x0) / (x1 - x0)). assert (0 < / (x1 - x0)) by (apply Rinv_0_lt_compat; lra).
    split; [|split].
    - split.
      + unfold Rdiv. apply Rmult_le_pos; lra.
      + apply (Rmult_le_reg_r (x1 - x0)); [lra|]. unfold Rdiv. rewrite Rmult_assoc, Rinv_l by lra. lra.
    - field. lra.
    - reflexivity.
  Qed.

  (** The value at a query is that at the query moved into the range. *)
  Lemma curve_clamp x : curve refs vals x = curve refs vals (clipR x (ent refs 0) (ent refs (n - 1))).
  Proof.
    pose proof (increasing_le refs 0 (n - 1) Hinc ltac:(subst n; lia)).
    destruct (Rle_lt_dec x (ent refs 0)) as [H1|H1].
    - rewrite clipR_low by lra. rewrite !curve_low by lra. reflexivity.
    - destruct (Rle_lt_dec (ent refs (n - 1)) x) as [H2|H2].
      + rewrite clipR_high by lra. rewrite !curve_high by lra. reflexivity.
      + rewrite clipR_mid by lra. reflexivity.
  Qed.

  Lemma locate_in x : (2 <= n)%nat -> ent refs 0 <= x <= ent refs (n - 1) ->
    exists i, (S i < n)%nat /\ ent refs i <= x <= ent refs (S i).
  Proof.
    intros H2 Hx. destruct (locate x) as [H|[H|H]]; [| |exact H].
    - exists 0%nat. split; [lia|]. pose proof (Hinc 0%nat 1%nat ltac:(subst n; lia)). lra.
    - exists (n - 2)%nat. replace (S (n - 2)) with (n - 1)%nat by lia. split; [lia|].
      pose proof (Hinc (n - 2)%nat (n - 1)%nat ltac:(subst n; lia)). lra.
  Qed.

  Lemma curve_single x : n = 1%nat -> curve refs vals x = ent vals 0.
  Proof.
    intros E. destruct (Rle_lt_dec x (ent refs 0)); [apply curve_low; assumption|].
    rewrite curve_high by (rewrite E; cbn [Nat.sub]; lra). rewrite E. reflexivity.
  Qed.

  (** Bound on differences of values from the bound on slopes. *)
  Lemma slopes_sum K : (forall i, (S i < n)%nat -> Rabs (ent vals (S i) - ent vals i) <= K * (ent refs (S i) - ent refs i)) ->
    forall d i, (i + d < n)%nat -> Rabs (ent vals (i + d) - ent vals i) <= K * (ent refs (i + d) - ent refs i).
  Proof.
    intros HK. induction d as [|d IH]; intros i Hi.
    - rewrite Nat.add_0_r, !Rminus_diag_eq, Rabs_R0 by reflexivity. lra.
    - specialize (IH i ltac:(lia)). specialize (HK (i + d)%nat ltac:(lia)).
      rewrite Nat.add_succ_r.
      replace (ent vals (S (i + d)) - ent vals i) with ((ent vals (S (i + d)) - ent vals (i + d)) + (ent vals (i + d) - ent vals i)) by lra.
      eapply Rle_trans; [apply Rabs_triang|]. lra.
  Qed.

  Lemma cell_lip K i x y : (S i < n)%nat -> Rabs (ent vals (S i) - ent vals i) <= K * (ent refs (S i) - ent refs i) ->
    ent refs i <= x <= y -> y <= ent refs (S i) -> Rabs (curve refs vals y - curve refs vals x) <= K * (y - x).
  Proof.
    intros Hi HK Hx Hy. rewrite (curve_between x i Hi), (curve_between y i Hi) by lra. unfold line.
    pose proof (Hinc i (S i) ltac:(subst n; lia)).
    replace (_ - _) with ((y - x) / (ent refs (S i) - ent refs i) * (ent vals (S i) - ent vals i)) by (field; lra).
    rewrite Rabs_mult. assert (0 < / (ent refs (S i) - ent refs i)) by (apply Rinv_0_lt_compat; lra).
    rewrite (Rabs_right ((y - x) / _)) by (apply Rle_ge; unfold Rdiv; apply Rmult_le_pos; lra).
    eapply Rle_trans; [apply Rmult_le_compat_l; [unfold Rdiv; apply Rmult_le_pos; lra|exact HK]|].
    right. field. lra.
  Qed.

  Lemma curve_lipschitz K : 0 <= K ->
    (forall i, (S i < n)%nat -> Rabs (ent vals (S i) - ent vals i) <= K * (ent refs (S i) - ent refs i)) ->
    forall x y, Rabs (curve refs vals y - curve refs vals x) <= K * Rabs (y - x).
  Proof.
    intros HK0 HK.
    assert (G : forall x y, x <= y -> ent refs 0 <= x -> y <= ent refs (n - 1) ->
      Rabs (curve refs vals y - curve refs vals x) <= K * (y - x)).
    { intros x y Hxy Hx Hy. destruct (Nat.eq_dec n 1) as [E1|N1].
      - rewrite !curve_single, Rminus_diag_eq, Rabs_R0 by (reflexivity || exact E1). apply Rmult_le_pos; lra.
      - destruct (locate_in x) as (i & Hi & Hxi); [lia|lra|]. destruct (locate_in y) as (j & Hj & Hyj); [lia|lra|].
        destruct (lt_eq_lt_dec i j) as [[L|E]|L].
        + assert (A : Rabs (curve refs vals (ent refs (S i)) - curve refs vals x) <= K * (ent refs (S i) - x))
            by (apply (cell_lip K i); auto; lra).
          assert (B : Rabs (curve refs vals y - curve refs vals (ent refs j)) <= K * (y - ent refs j))
            by (apply (cell_lip K j); auto; lra).
          assert (C : Rabs (curve refs vals (ent refs j) - curve refs vals (ent refs (S i))) <= K * (ent refs j - ent refs (S i))).
          { pose proof (Hinc i (S i) ltac:(subst n; lia)). pose proof (Hinc j (S j) ltac:(subst n; lia)).
            rewrite (curve_between (ent refs (S i)) i Hi), (curve_between (ent refs j) j Hj) by lra.
            replace (line (ent refs j) (ent vals j) _ _ (ent refs j)) with (ent vals j) by (unfold line; field; lra).
            replace (line (ent refs i) _ _ _ _) with (ent vals (S i)) by (unfold line; field; lra).
            pose proof (slopes_sum K HK (j - S i) (S i) ltac:(lia)) as S0.
            replace (S i + (j - S i))%nat with j in S0 by lia. exact S0. }
          replace (_ - _) with ((curve refs vals y - curve refs vals (ent refs j)) + ((curve refs vals (ent refs j) - curve refs vals (ent refs (S i))) + (curve refs vals (ent refs (S i)) - curve refs vals x))) by lra.
          eapply Rle_trans; [apply Rabs_triang|]. pose proof (Rabs_triang (curve refs vals (ent refs j) - curve refs vals (ent refs (S i))) (curve refs vals (ent refs (S i)) - curve refs vals x)). lra.
        + subst j. apply (cell_lip K i); auto; lra.
        + pose proof (increasing_le refs (S j) i Hinc ltac:(subst n; lia)). assert (E : x = y) by lra. subst y.
          rewrite !Rminus_diag_eq, Rabs_R0 by reflexivity. lra. }
    intros x y. rewrite (curve_clamp x), (curve_clamp y).
    pose proof (increasing_le refs 0 (n - 1) Hinc ltac:(subst n; lia)) as H0n.
    pose proof (clipR_range x _ _ H0n). pose proof (clipR_range y _ _ H0n).
    pose proof (clipR_lip y x _ _ H0n) as Hl.
    set (a := clipR x _ _) in *. set (b := clipR y _ _) in *.
    apply Rle_trans with (K * Rabs (b - a)); [|apply Rmult_le_compat_l; assumption].
    destruct (Rle_lt_dec a b) as [L|L].
    - rewrite (Rabs_right (b - a)) by lra. apply G; lra.
    - rewrite Rabs_minus_sym, (Rabs_minus_sym b a), (Rabs_right (a - b)) by lra. apply G; lra.
  Qed.

  Lemma curve_mono : non_decreasing vals -> List.length vals = n -> forall x y, x <= y -> curve refs vals x <= curve refs vals y.
  Proof.
    intros Hv Hl.
    assert (G : forall x y, x <= y -> ent refs 0 <= x -> y <= ent refs (n - 1) -> curve refs vals x <= curve refs vals y).
    { intros x y Hxy Hx Hy. destruct (Nat.eq_dec n 1) as [E1|N1].
      - rewrite !curve_single by exact E1. lra.
      - destruct (locate_in x) as (i & Hi & Hxi); [lia|lra|]. destruct (locate_in y) as (j & Hj & Hyj); [lia|lra|].
        rewrite (curve_between x i Hi Hxi), (curve_between y j Hj Hyj).
        pose proof (Hinc i (S i) ltac:(subst n; lia)). pose proof (Hinc j (S j) ltac:(subst n; lia)).
        destruct (line_between (ent refs i) (ent vals i) (ent refs (S i)) (ent vals (S i)) x ltac:(assumption) Hxi) as (t & Ht & Ex & ->).
        destruct (line_between (ent refs j) (ent vals j) (ent refs (S j)) (ent vals (S j)) y ltac:(assumption) Hyj) as (u & Hu & Ey & ->).
        pose proof (Hv i (S i) ltac:(rewrite Hl; lia)). pose proof (Hv j (S j) ltac:(rewrite Hl; lia)).
        destruct (lt_eq_lt_dec i j) as [[L|E]|L].
        + pose proof (Hv (S i) j ltac:(rewrite Hl; lia)). nra.
        + subst j. assert (t <= u) by nra. nra.
        + pose proof (increasing_le refs (S j) i Hinc ltac:(subst n; lia)).
          assert (t = 0) by nra. assert (u = 1) by nra. subst t u.
          assert (ent vals (S j) = ent vals i \/ ent vals (S j) <= ent vals i) by (right; apply Hv; rewrite Hl; lia).
          assert (E : S j = i).
          { destruct (Nat.eq_dec (S j) i) as [E|E]; [exact E|]. pose proof (Hinc (S j) i ltac:(subst n; lia)). lra. }
          subst i. lra. }
    intros x y Hxy. rewrite (curve_clamp x), (curve_clamp y).
    pose proof (increasing_le refs 0 (n - 1) Hinc ltac:(subst n; lia)) as H0n.
    apply G; [apply clipR_mono; assumption|apply clipR_range, H0n|apply clipR_range, H0n].
  Qed.
End Curve.
