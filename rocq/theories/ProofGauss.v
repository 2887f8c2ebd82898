(** The error function exists (C99): the integral of exp(-x^2) and its limit, for the cases of the theorems. *)
From Coq Require Import Reals Lra Lia.
From Verif Require Import Base ModelFloat ModelTwoHalf SpecSigmas ModelSigmas ProofSigmas ProofSigmas2.
Local Open Scope R_scope.

(* ------------------------------------------------------------------ *)
(** * Integrals of continuous functions *)

Lemma integrable f : continuity f -> forall a b, Riemann_integrable f a b.
Proof.
  intros C a b. destruct (Rle_lt_dec a b) as [H|H].
  - apply continuity_implies_RiemannInt; [exact H|intros x _; apply C].
  - apply RiemannInt_P1. apply continuity_implies_RiemannInt; [lra|intros x _; apply C].
Qed.

Definition Int f (C : continuity f) (a b : R) : R := RiemannInt (integrable f C a b).

Lemma Int_chasles f C a b c : Int f C a b + Int f C b c = Int f C a c.
Proof. apply RiemannInt_P26. Qed.

Lemma Int_swap f C a b : Int f C a b = - Int f C b a.
Proof. apply RiemannInt_P8. Qed.

Lemma Int_le f g Cf Cg a b : a <= b -> (forall x, a < x < b -> f x <= g x) -> Int f Cf a b <= Int g Cg a b.
Proof. intros H K. apply RiemannInt_P19; assumption. Qed.

Lemma Int_ext f g Cf Cg a b : a <= b -> (forall x, a < x < b -> f x = g x) -> Int f Cf a b = Int g Cg a b.
Proof. intros H K. apply RiemannInt_P18; assumption. Qed.

Lemma Int_lin f g Cf Cg l C a b : Int (fun x => f x + l * g x) C a b = Int f Cf a b + l * Int g Cg a b.
Proof. apply RiemannInt_P13. Qed.

Lemma const_continuous c : continuity (fct_cte c).
Proof. intros x. apply continuity_pt_const. intros a b. reflexivity. Qed.

Lemma Int_const c C a b : Int (fct_cte c) C a b = c * (b - a).
Proof. apply RiemannInt_P15. Qed.

Lemma Int_bounds f C a b lo hi : a <= b -> (forall x, a < x < b -> lo <= f x <= hi) -> lo * (b - a) <= Int f C a b <= hi * (b - a).
Proof.
  intros H K. rewrite <- (Int_const lo (const_continuous lo) a b), <- (Int_const hi (const_continuous hi) a b).
  split; apply Int_le; try exact H; intros x Hx; apply K, Hx.
Qed.

Lemma Int_derivative f C a x : derivable_pt_lim (fun x => Int f C a x) x (f x).
Proof.
  intros eps Heps. destruct (C x (eps / 2) ltac:(lra)) as (del & Hdel & K). exists (mkposreal del Hdel). intros h Hh Hhd. cbn [pos] in Hhd.
  assert (B : forall y, Rabs (y - x) < del -> f x - eps / 2 <= f y <= f x + eps / 2).
  { intros y Hy. destruct (Req_EM_T y x) as [->|Hyx]; [lra|].
    specialize (K y). cbn in K. unfold R_dist, D_x, no_cond in K. specialize (K ltac:(split; [split; [exact I|congruence]|exact Hy])).
    apply Rabs_def2 in K. lra. }
  assert (E : Int f C a (x + h) - Int f C a x = Int f C x (x + h)) by (rewrite <- (Int_chasles f C a x (x + h)); lra). rewrite E.
  assert (G : Rabs (Int f C x (x + h) - f x * h) <= eps / 2 * Rabs h).
  { destruct (Rdichotomy _ _ Hh) as [Hn|Hp].
    - rewrite Int_swap. destruct (Int_bounds f C (x + h) x (f x - eps / 2) (f x + eps / 2)) as [L U]; [lra| |].
      { intros y Hy. apply B. rewrite Rabs_left in Hhd by exact Hn. apply Rabs_def1; lra. }
      rewrite (Rabs_left h) by exact Hn. apply Rabs_le. lra.
    - destruct (Int_bounds f C x (x + h) (f x - eps / 2) (f x + eps / 2)) as [L U]; [lra| |].
      { intros y Hy. apply B. rewrite Rabs_right in Hhd by lra. apply Rabs_def1; lra. }
      rewrite (Rabs_right h) by lra. apply Rabs_le. lra. }
  replace (Int f C x (x + h) / h - f x) with ((Int f C x (x + h) - f x * h) / h) by (field; exact Hh).
  unfold Rdiv. rewrite Rabs_mult, Rabs_inv. pose proof (Rabs_pos_lt h Hh) as Hp.
  apply Rmult_lt_reg_r with (Rabs h); [exact Hp|]. rewrite Rmult_assoc, Rinv_l by lra. nra.
Qed.

Lemma Int_antiderivative f C F a b : a <= b -> (forall x, a <= x <= b -> derivable_pt_lim F x (f x)) -> Int f C a b = F b - F a.
Proof.
  intros H D. pose proof (same_derivative (fun x => Int f C a x) F f a b H (fun x _ => Int_derivative f C a x) D) as E. cbn beta in E.
  assert (Z : Int f C a a = 0) by apply RiemannInt_P9. lra.
Qed.

(* ------------------------------------------------------------------ *)
(** * The primitive of exp(-x^2) *)

Lemma exp_continuous : continuity exp.
Proof. intros x. apply derivable_continuous_pt. exists (exp x). apply derivable_pt_lim_exp. Qed.

Lemma square_continuous : continuity (fun t => t * t).
Proof. intros x. apply continuity_pt_mult; apply derivable_continuous_pt, derivable_pt_id. Qed.

Definition bell (t : R) : R := exp (- (t * t)).
Lemma bell_continuous : continuity bell.
Proof.
  intros x. unfold bell. apply (continuity_pt_comp (fun t => - (t * t)) exp); [|apply exp_continuous].
  apply (continuity_pt_opp (fun t => t * t)). apply square_continuous.
Qed.

Definition prim (x : R) : R := Int bell bell_continuous 0 x.
Lemma prim_derivative x : derivable_pt_lim prim x (bell x).
Proof. apply Int_derivative. Qed.
Lemma prim_0 : prim 0 = 0. Proof. apply RiemannInt_P9. Qed.
Lemma prim_nonneg x : 0 <= x -> 0 <= prim x.
Proof.
  intros H. unfold prim. assert (K : 0 * (x - 0) <= Int bell bell_continuous 0 x); [|lra].
  rewrite <- (Int_const 0 (const_continuous 0) 0 x). apply Int_le; [exact H|]. intros y _. left. apply exp_pos.
Qed.

(* ------------------------------------------------------------------ *)
(** * An integral with a parameter *)

Lemma weight_pos t : 1 <= 1 + t * t. Proof. nra. Qed.

Definition part (y t : R) : R := exp (- (y * (1 + t * t))).
Lemma part_continuous y : continuity (part y).
Proof.
  intros x. unfold part. apply (continuity_pt_comp (fun t => - (y * (1 + t * t))) exp); [|apply exp_continuous].
  apply (continuity_pt_opp (fun t => y * (1 + t * t))). apply (continuity_pt_mult (fct_cte y) (fun t => 1 + t * t)); [apply const_continuous|].
  apply (continuity_pt_plus (fct_cte 1) (fun t => t * t)); [apply const_continuous|apply square_continuous].
Qed.

Definition ratio (y t : R) : R := part y t / (1 + t * t).
Lemma ratio_continuous y : continuity (ratio y).
Proof.
  intros x. unfold ratio. apply (continuity_pt_div (part y) (fun t => 1 + t * t)); [apply part_continuous| |].
  - apply (continuity_pt_plus (fct_cte 1) (fun t => t * t)); [apply const_continuous|apply square_continuous].
  - pose proof (weight_pos x). lra.
Qed.

Definition rest (y : R) : R := Int (ratio y) (ratio_continuous y) 0 1.
Definition slope (y : R) : R := Int (part y) (part_continuous y) 0 1.

Lemma exp_second z : Rabs z <= / 2 -> 0 <= exp z - 1 - z <= 2 * (z * z).
Proof.
  intros H. assert (B : - / 2 <= z <= / 2) by (unfold Rabs in H; destruct (Rcase_abs z); lra). split; [pose proof (exp_ineq1_le z); lra|].
  pose proof (exp_ineq1_le (- z)) as L. assert (E : exp z * exp (- z) = 1) by (rewrite <- exp_plus, Rplus_opp_r, exp_0; reflexivity).
  pose proof (exp_pos z) as P. assert (K : exp z * (1 - z) <= 1) by nra.
  apply Rmult_le_reg_r with (1 - z); [lra|]. apply Rle_trans with (1 - (1 + z) * (1 - z)); [lra|]. nra.
Qed.

Lemma ratio_second y h t : 0 <= t <= 1 -> Rabs h <= / 4 ->
  Rabs (ratio (y + h) t - ratio y t + h * part y t) <= 4 * exp (2 * Rabs y) * (h * h).
Proof.
  intros Ht Hh. set (k := 1 + t * t). assert (Hk : 1 <= k <= 2) by (unfold k; nra).
  assert (E : ratio (y + h) t - ratio y t + h * part y t = part y t / k * (exp (- (h * k)) - 1 - (- (h * k)))).
  { unfold ratio, part. fold k. replace (- ((y + h) * k)) with (- (y * k) + - (h * k)) by ring. rewrite exp_plus. field. lra. }
  rewrite E, Rabs_mult. destruct (exp_second (- (h * k))) as [L U].
  { rewrite Rabs_Ropp, Rabs_mult, (Rabs_right k) by lra. pose proof (Rabs_pos h). nra. }
  rewrite (Rabs_right (exp _ - _ - _)) by lra.
  assert (P : part y t <= exp (2 * Rabs y)).
  { unfold part. fold k. assert (Z : - (y * k) <= 2 * Rabs y) by (unfold Rabs; destruct (Rcase_abs y); nra).
    destruct Z as [Z|Z]; [left; apply exp_increasing, Z|rewrite Z; right; reflexivity]. }
  assert (P0 : 0 < part y t) by apply exp_pos.
  rewrite Rabs_right by (apply Rle_ge; apply Rmult_le_pos; [lra|left; apply Rinv_0_lt_compat; lra]).
  apply Rle_trans with (part y t / k * (2 * (- (h * k) * - (h * k)))).
  - apply Rmult_le_compat_l; [apply Rmult_le_pos; [lra|left; apply Rinv_0_lt_compat; lra]|exact U].
  - replace (part y t / k * (2 * (- (h * k) * - (h * k)))) with (part y t * k * (2 * (h * h))) by (field; lra).
    assert (0 <= h * h) by nra. apply Rle_trans with (exp (2 * Rabs y) * 2 * (2 * (h * h))); [|lra].
    apply Rmult_le_compat_r; [lra|]. apply Rmult_le_compat; lra.
Qed.

Lemma rest_derivative y : derivable_pt_lim rest y (- slope y).
Proof.
  intros eps Heps. set (K := 4 * exp (2 * Rabs y)). assert (HK : 0 < K) by (unfold K; pose proof (exp_pos (2 * Rabs y)); lra).
  assert (Hd : 0 < Rmin (/ 4) (eps / (2 * K))) by (apply Rmin_pos; [lra|]; apply Rmult_lt_0_compat; [lra|apply Rinv_0_lt_compat; lra]).
  exists (mkposreal _ Hd). intros h Hh Hhd. cbn [pos] in Hhd. assert (H1 := Rmin_l (/ 4) (eps / (2 * K))). assert (H2 := Rmin_r (/ 4) (eps / (2 * K))).
  set (f := fun t => (ratio (y + h) t + -1 * ratio y t) + h * part y t).
  assert (C0 : continuity (fun t => ratio (y + h) t + -1 * ratio y t)).
  { intros x. apply (continuity_pt_plus (ratio (y + h)) (fun t => -1 * ratio y t)); [apply ratio_continuous|].
    apply (continuity_pt_mult (fct_cte (-1)) (ratio y)); [apply const_continuous|apply ratio_continuous]. }
  assert (Cf : continuity f).
  { intros x. unfold f. apply (continuity_pt_plus (fun t => ratio (y + h) t + -1 * ratio y t) (fun t => h * part y t)); [apply C0|].
    apply (continuity_pt_mult (fct_cte h) (part y)); [apply const_continuous|apply part_continuous]. }
  assert (Ef : Int f Cf 0 1 = rest (y + h) - rest y + h * slope y).
  { unfold f. rewrite (Int_lin _ (part y) C0 (part_continuous y) h). rewrite (Int_lin (ratio (y + h)) (ratio y) (ratio_continuous _) (ratio_continuous _) (-1)).
    unfold rest, slope. ring. }
  destruct (Int_bounds f Cf 0 1 (- (K * (h * h))) (K * (h * h))) as [L U]; [lra| |].
  { intros t Ht. pose proof (ratio_second y h t ltac:(lra) ltac:(lra)) as R. fold K in R. unfold f.
    replace (ratio (y + h) t - ratio y t + h * part y t) with (ratio (y + h) t + -1 * ratio y t + h * part y t) in R by ring.
    unfold Rabs in R. destruct (Rcase_abs _) in R; lra. }
  rewrite Ef in L, U. replace ((rest (y + h) - rest y) / h - - slope y) with ((rest (y + h) - rest y + h * slope y) / h) by (field; exact Hh).
  unfold Rdiv. rewrite Rabs_mult, Rabs_inv. pose proof (Rabs_pos_lt h Hh) as Hp.
  apply Rmult_lt_reg_r with (Rabs h); [exact Hp|]. rewrite Rmult_assoc, Rinv_l by lra. rewrite Rmult_1_r.
  apply Rle_lt_trans with (K * (Rabs h * Rabs h)).
  - rewrite <- Rabs_mult. rewrite (Rabs_right (h * h)) by nra. apply Rabs_le. lra.
  - assert (Z : K * Rabs h < eps); [|nra]. apply Rlt_le_trans with (K * (eps / (2 * K))); [apply Rmult_lt_compat_l; lra|].
    replace (K * (eps / (2 * K))) with (eps / 2) by (field; lra). lra.
Qed.

Lemma slope_prim x : x * slope (x * x) = bell x * prim x.
Proof.
  assert (C : continuity (fun t => x * part (x * x) t)).
  { intros t. apply (continuity_pt_mult (fct_cte x) (part (x * x))); [apply const_continuous|apply part_continuous]. }
  transitivity (Int (fun t => x * part (x * x) t) C 0 1).
  - assert (C0 : continuity (fun t => fct_cte 0 t + x * part (x * x) t)).
    { intros t. apply (continuity_pt_plus (fct_cte 0) (fun t => x * part (x * x) t)); [apply const_continuous|apply C]. }
    rewrite (Int_ext _ (fun t => fct_cte 0 t + x * part (x * x) t) C C0 0 1); [|lra|intros t _; unfold fct_cte; ring].
    rewrite (Int_lin (fct_cte 0) (part (x * x)) (const_continuous 0) (part_continuous _) x). rewrite Int_const. unfold slope. ring.
  - rewrite (Int_antiderivative _ C (fun t => bell x * prim (x * t)) 0 1); [| lra|].
    + rewrite Rmult_1_r, Rmult_0_r, prim_0. ring.
    + intros t _. replace (x * part (x * x) t) with (bell x * (bell (x * t) * x)).
      * apply derivable_pt_lim_scal. apply (derivable_pt_lim_comp (fun t => x * t) prim); [|apply prim_derivative].
        assert (Dx : derivable_pt_lim (fun t => x * t) t (x * 1)) by (apply (derivable_pt_lim_scal id x t 1), derivable_pt_lim_id).
        rewrite Rmult_1_r in Dx. exact Dx.
      * unfold bell, part. replace (- (x * x * (1 + t * t))) with (- (x * x) + - (x * t * (x * t))) by ring. rewrite exp_plus. ring.
Qed.

Lemma rest_0 : rest 0 = PI / 4.
Proof.
  unfold rest. rewrite (Int_antiderivative _ _ atan 0 1); [rewrite atan_1, atan_0; lra|lra|].
  intros x _. unfold ratio, part. rewrite Rmult_0_l, Ropp_0, exp_0.
  replace (1 / (1 + x * x)) with (/ (1 + x ^ 2)) by (pose proof (weight_pos x); replace (x ^ 2) with (x * x) by ring; field; lra).
  apply derivable_pt_lim_atan.
Qed.

Lemma gauss_identity x : prim x * prim x + rest (x * x) = PI / 4.
Proof.
  set (G := fun x => prim x * prim x + rest (x * x)).
  assert (D : forall x, derivable_pt_lim G x 0).
  { intros y. replace 0 with (bell y * prim y + prim y * bell y + - slope (y * y) * (1 * y + y * 1)).
    - apply derivable_pt_lim_plus.
      + apply derivable_pt_lim_mult; apply prim_derivative.
      + apply (derivable_pt_lim_comp (fun x => x * x) rest); [|apply rest_derivative].
        apply (derivable_pt_lim_mult id id y 1 1); apply derivable_pt_lim_id.
    - pose proof (slope_prim y). lra. }
  assert (Z : G 0 = PI / 4) by (unfold G; rewrite prim_0, Rmult_0_l, rest_0; lra).
  assert (K : forall a b, a <= b -> G b = G a).
  { intros a b H. pose proof (same_derivative G (fun _ => 0) (fun _ => 0) a b H (fun x _ => D x) (fun x _ => derivable_pt_lim_const 0 x)). lra. }
  change (G x = PI / 4). destruct (Rle_lt_dec 0 x) as [H|H]; [rewrite (K 0 x H); exact Z|rewrite <- (K x 0) by lra; exact Z].
Qed.

Lemma rest_bounds y : 0 <= y -> 0 <= rest y <= exp (- y).
Proof.
  intros Hy. unfold rest. destruct (Int_bounds (ratio y) (ratio_continuous y) 0 1 0 (exp (- y))) as [L U]; [lra| |lra].
  intros t Ht. unfold ratio. pose proof (weight_pos t) as W. assert (P : 0 < part y t) by apply exp_pos.
  assert (I1 : 0 < / (1 + t * t)) by (apply Rinv_0_lt_compat; lra).
  assert (I2 : / (1 + t * t) <= 1) by (rewrite <- Rinv_1; apply Rinv_le_contravar; lra).
  split; [apply Rmult_le_pos; lra|].
  assert (Q : part y t <= exp (- y)).
  { unfold part. assert (Z : - (y * (1 + t * t)) <= - y) by nra. destruct Z as [Z|Z]; [left; apply exp_increasing, Z|rewrite Z; right; reflexivity]. }
  unfold Rdiv. nra.
Qed.

(** The error function. *)
Definition the_erf (x : R) : R := 2 / sqrt PI * prim x.

Lemma the_erf_is : is_erf the_erf.
Proof.
  pose proof PI_RGT_0 as HP. pose proof (sqrt_lt_R0 PI HP) as HS. assert (SS : sqrt PI * sqrt PI = PI) by (apply sqrt_sqrt; lra).
  split; [|split].
  - intros x. apply (derivable_pt_lim_scal prim). apply prim_derivative.
  - unfold the_erf. rewrite prim_0. ring.
  - intros eps Heps.
    (* the difference of the squares is at most 4 / PI * exp (- x * x) *)
    exists (Rmax 1 (4 / (PI * eps))). intros x Hx. assert (A := Rmax_l 1 (4 / (PI * eps))). assert (B := Rmax_r 1 (4 / (PI * eps))).
    pose proof (gauss_identity x) as G. destruct (rest_bounds (x * x)) as [L U]; [nra|]. pose proof (prim_nonneg x ltac:(lra)) as N.
    set (e := the_erf x). assert (E0 : 0 <= e) by (unfold e, the_erf; apply Rmult_le_pos; [left; apply pi_half_pos|exact N]).
    assert (E2 : e * e = 1 - 4 / PI * rest (x * x)).
    { unfold e, the_erf. replace (2 / sqrt PI * prim x * (2 / sqrt PI * prim x)) with (4 / (sqrt PI * sqrt PI) * (prim x * prim x)) by (field; lra).
      rewrite SS. replace (prim x * prim x) with (PI / 4 - rest (x * x)) by lra. field. lra. }
    assert (I4 : 0 < 4 / PI) by (apply Rmult_lt_0_compat; [lra|apply Rinv_0_lt_compat, HP]).
    assert (X : exp (- (x * x)) <= / x).
    { rewrite exp_Ropp. apply Rinv_le_contravar; [lra|]. pose proof (exp_ineq1_le (x * x)). nra. }
    assert (Y : 4 / PI * / x < eps).
    { apply Rmult_lt_reg_r with x; [lra|]. rewrite Rmult_assoc, Rinv_l by lra. rewrite Rmult_1_r.
      apply Rmult_lt_reg_r with (/ eps); [apply Rinv_0_lt_compat, Heps|].
      replace (eps * x * / eps) with x by (field; lra). replace (4 / PI * / eps) with (4 / (PI * eps)) by (field; split; lra). lra. }
    assert (Z : 1 - eps < e * e <= 1) by (rewrite E2; nra).
    assert (e <= 1) by nra. assert (1 - eps < e) by nra. apply Rabs_def1; lra.
Qed.
