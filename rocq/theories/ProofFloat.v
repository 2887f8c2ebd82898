(** Facts about the idealised floats. *)
From Coq Require Import Reals Lra Permutation.
From Verif Require Import Base ModelFloat.
Local Open Scope R_scope.
Local Open Scope list_scope.

Lemma fadd_comm a b : fadd a b = fadd b a.
Proof. destruct a, b; simpl; try reflexivity. f_equal. lra. Qed.

Lemma fadd_assoc a b c : fadd (fadd a b) c = fadd a (fadd b c).
Proof. destruct a, b, c; simpl; try reflexivity. f_equal. lra. Qed.

Lemma fadd_0_l a : fadd (Fin 0) a = a.
Proof. destruct a; simpl; try reflexivity. f_equal. lra. Qed.

Lemma fadd_0_r a : fadd a (Fin 0) = a.
Proof. rewrite fadd_comm. apply fadd_0_l. Qed.

Lemma fadd_Fin x y : fadd (Fin x) (Fin y) = Fin (x + y).
Proof. reflexivity. Qed.

Lemma fadd_Fin_inv a b s : fadd a b = Fin s -> exists x y, a = Fin x /\ b = Fin y /\ s = x + y.
Proof. destruct a, b; simpl; try discriminate. intros H. injection H as <-. eauto. Qed.

Global Arguments fadd : simpl never.

Lemma fsum_app a b : fsum (a ++ b) = fadd (fsum a) (fsum b).
Proof.
  induction a as [|x a IH]; simpl; [rewrite fadd_0_l; reflexivity|].
  rewrite IH, fadd_assoc. reflexivity.
Qed.

Lemma fsum_perm a b : Permutation a b -> fsum a = fsum b.
Proof.
  induction 1; simpl; try congruence.
  rewrite <- !fadd_assoc. f_equal. apply fadd_comm.
Qed.

Lemma fsum_cons x l : fsum (x :: l) = fadd x (fsum l).
Proof. reflexivity. Qed.

(** Sums of finite numbers. *)
Fixpoint rsum (l : list R) : R := match l with [] => 0 | x :: l' => x + rsum l' end.

Lemma fsum_Fin l : fsum (map Fin l) = Fin (rsum l).
Proof. induction l as [|x l IH]; simpl; [reflexivity|]. rewrite IH. reflexivity. Qed.

(** A finite sum has only finite terms. *)
Lemma fsum_Fin_inv l s : fsum l = Fin s -> exists rs, l = map Fin rs /\ rsum rs = s.
Proof.
  revert s. induction l as [|x l IH]; simpl; intros s H.
  - injection H as <-. exists []. split; reflexivity.
  - destruct (fadd_Fin_inv _ _ _ H) as (x0 & y & -> & Hl & ->).
    destruct (IH y Hl) as (rs & -> & Hs).
    exists (x0 :: rs). simpl. split; [reflexivity|]. lra.
Qed.

Lemma rsum_app a b : rsum (a ++ b) = rsum a + rsum b.
Proof. induction a as [|x a IH]; simpl; [lra|]. rewrite IH. lra. Qed.

Lemma rsum_scale c l : rsum (map (fun x => x * c) l) = rsum l * c.
Proof. induction l as [|x l IH]; simpl; [lra|]. rewrite IH. lra. Qed.

Lemma rsum_nonneg l : (forall x, In x l -> 0 <= x) -> 0 <= rsum l.
Proof.
  induction l as [|x l IH]; simpl; intros H; [lra|].
  pose proof (H x (or_introl eq_refl)). specialize (IH (fun y Hy => H y (or_intror Hy))). lra.
Qed.

(** Comparisons *)
Lemma flt_Fin x y : flt (Fin x) (Fin y) = true <-> x < y.
Proof. simpl. destruct (Rlt_dec x y); split; auto; discriminate. Qed.
Lemma fle_Fin x y : fle (Fin x) (Fin y) = true <-> x <= y.
Proof. simpl. destruct (Rle_dec x y); split; auto; discriminate. Qed.

Lemma fle_refl a : a <> NaN -> fle a a = true.
Proof. destruct a; simpl; try congruence. intros _. destruct (Rle_dec r r); [reflexivity|lra]. Qed.

Lemma fle_trans a b c : fle a b = true -> fle b c = true -> fle a c = true.
Proof.
  destruct a as [x| | |], b as [y| | |], c as [z| | |]; simpl; try congruence; auto.
  destruct (Rle_dec x y), (Rle_dec y z), (Rle_dec x z); try congruence. lra.
Qed.

Lemma flt_le_trans a b c : flt a b = true -> fle b c = true -> flt a c = true.
Proof.
  destruct a as [x| | |], b as [y| | |], c as [z| | |]; simpl; try congruence; auto.
  destruct (Rlt_dec x y), (Rle_dec y z), (Rlt_dec x z); try congruence. lra.
Qed.

Lemma fle_lt_trans a b c : fle a b = true -> flt b c = true -> flt a c = true.
Proof.
  destruct a as [x| | |], b as [y| | |], c as [z| | |]; simpl; try congruence; auto.
  destruct (Rle_dec x y), (Rlt_dec y z), (Rlt_dec x z); try congruence. lra.
Qed.

Lemma flt_fle a b : a <> NaN -> b <> NaN -> flt a b = negb (fle b a).
Proof.
  destruct a as [x| | |], b as [y| | |]; simpl; try congruence; auto.
  intros _ _. destruct (Rlt_dec x y), (Rle_dec y x); simpl; try reflexivity; lra.
Qed.

Lemma flt_nan_r a : flt a NaN = false.
Proof. destruct a; reflexivity. Qed.
Lemma fle_nan_l a : fle NaN a = false.
Proof. reflexivity. Qed.
Lemma flt_nan_l a : flt NaN a = false.
Proof. reflexivity. Qed.
Lemma fle_nan_r a : fle a NaN = false.
Proof. destruct a; reflexivity. Qed.

Lemma flt_weak a b : flt a b = true -> fle a b = true.
Proof.
  destruct a as [x| | |], b as [y| | |]; simpl; try congruence.
  destruct (Rlt_dec x y), (Rle_dec x y); try congruence. lra.
Qed.
