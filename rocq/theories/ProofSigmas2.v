(** Lemmas for the widths of a two-half-normal distribution (C99): the percentiles. *)
From Coq Require Import Reals Lra Lia.
From Verif Require Import Base ModelFloat ProofFloat ModelTwoHalf ProofParameter ModelSigmas SpecSigmas ProofSigmas.
Local Open Scope R_scope.

(** Two functions with the same derivative on an interval differ by a constant there. *)
Lemma same_derivative F G d a b : a <= b -> (forall x, a <= x <= b -> derivable_pt_lim F x (d x)) ->
  (forall x, a <= x <= b -> derivable_pt_lim G x (d x)) -> F b - G b = F a - G a.
Proof.
  intros [H|H] HF HG; [|subst; reflexivity].
  destruct (MVT_cor2 (fun x => F x - G x) (fun _ => 0) a b H) as (c & E & _).
  - intros x Hx. replace 0 with (d x - d x) by lra. apply derivable_pt_lim_minus; [apply HF, Hx|apply HG, Hx].
  - cbn beta in E. lra.
Qed.

Lemma limit_const (F G : R -> R) k m : (forall x, x <= m -> F x - G x = k) ->
  (forall eps, 0 < eps -> exists M, forall x, x < M -> Rabs (F x) < eps) ->
  (forall eps, 0 < eps -> exists M, forall x, x < M -> Rabs (G x) < eps) -> k = 0.
Proof.
  intros H HF HG. destruct (Req_EM_T k 0) as [E|E]; [exact E|exfalso].
  assert (P : 0 < Rabs k / 2) by (pose proof (Rabs_pos_lt k E); lra).
  destruct (HF _ P) as (M1 & H1). destruct (HG _ P) as (M2 & H2).
  set (x := Rmin m (Rmin M1 M2) - 1). assert (A1 := Rmin_l m (Rmin M1 M2)). assert (A2 := Rmin_r m (Rmin M1 M2)).
  assert (A3 := Rmin_l M1 M2). assert (A4 := Rmin_r M1 M2). specialize (H1 x ltac:(unfold x; lra)). specialize (H2 x ltac:(unfold x; lra)).
  specialize (H x ltac:(unfold x; lra)). rewrite <- H in P, E. pose proof (Rabs_triang (F x) (- G x)) as T. rewrite Rabs_Ropp in T.
  unfold Rminus in *. rewrite H in *. lra.
Qed.

Section Cdf.
  Variable erf : R -> R.
  Hypothesis He : is_erf erf.

  (** [A + B * erf ((x - mu) / (s * sqrt 2))] and its derivative. *)
  Lemma scaled_derivative A B mu s x : 0 < s ->
    derivable_pt_lim (fun x => A + B * erf ((x - mu) / (s * sqrt 2))) x
      (B * (2 / (s * sqrt (2 * PI))) * exp (- ((x - mu) * (x - mu)) * / (2 * (s * s)))).
  Proof.
    intros Hs. pose proof sqrt2_pos as H2. pose proof (sqrt_lt_R0 PI PI_RGT_0) as HP.
    assert (S2 : sqrt 2 * sqrt 2 = 2) by (apply sqrt_sqrt; lra).
    assert (SP : sqrt (2 * PI) = sqrt 2 * sqrt PI) by (apply sqrt_mult; [lra|left; apply PI_RGT_0]).
    replace (B * (2 / (s * sqrt (2 * PI))) * exp (- ((x - mu) * (x - mu)) * / (2 * (s * s))))
      with (0 + B * (2 / sqrt PI * exp (- ((x - mu) / (s * sqrt 2) * ((x - mu) / (s * sqrt 2)))) * ((1 - 0) / (s * sqrt 2)))).
    - apply derivable_pt_lim_plus; [apply derivable_pt_lim_const|].
      apply derivable_pt_lim_scal.
      apply (derivable_pt_lim_comp (fun x => (x - mu) / (s * sqrt 2)) erf); [|apply He].
      unfold Rdiv. set (c := / (s * sqrt 2)). replace ((1 - 0) * c) with ((1 - 0) * c + (x - mu) * 0) by lra.
      apply (derivable_pt_lim_mult (fun x => x - mu) (fun _ => c) x (1 - 0) 0); [|apply derivable_pt_lim_const].
      apply derivable_pt_lim_minus; [apply derivable_pt_lim_id|apply derivable_pt_lim_const].
    - rewrite SP. replace (- ((x - mu) / (s * sqrt 2) * ((x - mu) / (s * sqrt 2)))) with (- ((x - mu) * (x - mu)) * / (2 * (s * s))).
      + field. repeat split; lra.
      + replace (2 * (s * s)) with (sqrt 2 * sqrt 2 * (s * s)) by (rewrite S2; ring). field. split; lra.
  Qed.

  Lemma scaled_limit B mu s : 0 < s ->
    forall eps, 0 < eps -> exists M, forall x, x < M -> Rabs (B + B * erf ((x - mu) / (s * sqrt 2))) < eps.
  Proof.
    intros Hs eps Heps. pose proof sqrt2_pos as H2.
    destruct He as (_ & _ & L). destruct (L (eps / (Rabs B + 1))) as (M & HM).
    { apply Rmult_lt_0_compat; [exact Heps|]. apply Rinv_0_lt_compat. pose proof (Rabs_pos B). lra. }
    exists (mu - M * (s * sqrt 2)). intros x Hx. assert (K : M < - ((x - mu) / (s * sqrt 2))).
    { apply Rmult_lt_reg_r with (s * sqrt 2); [nra|]. replace (- ((x - mu) / (s * sqrt 2)) * (s * sqrt 2)) with (mu - x) by (field; split; lra). lra. }
    specialize (HM _ K). rewrite (erf_odd erf He) in HM.
    replace (B + B * erf ((x - mu) / (s * sqrt 2))) with (- (B * (- erf ((x - mu) / (s * sqrt 2)) - 1))) by lra.
    rewrite Rabs_Ropp, Rabs_mult. pose proof (Rabs_pos B) as PB.
    apply Rle_lt_trans with (Rabs B * (eps / (Rabs B + 1))).
    - apply Rmult_le_compat_l; [exact PB|]. left. exact HM.
    - apply Rmult_lt_reg_r with (Rabs B + 1); [lra|]. replace (Rabs B * (eps / (Rabs B + 1)) * (Rabs B + 1)) with (Rabs B * eps) by (field; lra). nra.
  Qed.

  Lemma normal_value N x : distribution normal_density N -> N x = / 2 + / 2 * erf (x / sqrt 2).
  Proof.
    intros [D L]. pose proof sqrt2_pos.
    assert (DG : forall y, derivable_pt_lim (fun x => / 2 + / 2 * erf ((x - 0) / (1 * sqrt 2))) y (normal_density y)).
    { intros y. replace (normal_density y) with (/ 2 * (2 / (1 * sqrt (2 * PI))) * exp (- ((y - 0) * (y - 0)) * / (2 * (1 * 1)))).
      - apply scaled_derivative. lra.
      - unfold normal_density. replace (- ((y - 0) * (y - 0)) * / (2 * (1 * 1))) with (- (y * y) / 2) by field.
        assert (0 < sqrt (2 * PI)) by (apply sqrt_lt_R0; pose proof PI_RGT_0; lra). field. lra. }
    set (G := fun x => / 2 + / 2 * erf ((x - 0) / (1 * sqrt 2))) in *.
    assert (C : forall y, y <= x -> N y - G y = N x - G x) by (intros y Hy; symmetry; apply (same_derivative N G normal_density); auto).
    assert (E : N x - G x = 0) by (apply (limit_const N G _ x C L), (scaled_limit (/ 2) 0 1); lra).
    unfold G in E. replace ((x - 0) / (1 * sqrt 2)) with (x / sqrt 2) in E by (field; lra). lra.
  Qed.

  Lemma density_val mu sp sn d x : 0 < sp -> 0 < sn -> two_half_density mu sp sn d ->
    d x = exp (- ((x - mu) * (x - mu)) * / (2 * ((if Rlt_dec x mu then sn else sp) * (if Rlt_dec x mu then sn else sp)))) * (2 / ((sp + sn) * sqrt (2 * PI))).
  Proof.
    intros Hp Hn Hd. destruct (Hd x) as (l & El & ->). rewrite twohalf_logpdf_Fin in El by assumption. injection El as <-.
    rewrite exp_plus, exp_ln; [reflexivity|]. apply Rmult_lt_0_compat; [lra|]. apply Rinv_0_lt_compat. apply Rmult_lt_0_compat; [lra|].
    apply sqrt_lt_R0. pose proof PI_RGT_0. lra.
  Qed.

  Lemma two_half_value mu sp sn d F x : 0 < sp -> 0 < sn -> two_half_density mu sp sn d -> distribution d F ->
    F x = if Rle_dec x mu then sn / (sp + sn) * (1 + erf ((x - mu) / (sn * sqrt 2)))
          else sn / (sp + sn) + sp / (sp + sn) * erf ((x - mu) / (sp * sqrt 2)).
  Proof.
    intros Hp Hn Hd [DF LF]. assert (S2P : 0 < sqrt (2 * PI)) by (apply sqrt_lt_R0; pose proof PI_RGT_0; lra).
    set (G1 := fun x => sn / (sp + sn) + sn / (sp + sn) * erf ((x - mu) / (sn * sqrt 2))).
    set (G2 := fun x => sn / (sp + sn) + sp / (sp + sn) * erf ((x - mu) / (sp * sqrt 2))).
    assert (D1 : forall y, y <= mu -> derivable_pt_lim G1 y (d y)).
    { intros y Hy. rewrite (density_val mu sp sn d y Hp Hn Hd).
      replace (exp _ * _) with (sn / (sp + sn) * (2 / (sn * sqrt (2 * PI))) * exp (- ((y - mu) * (y - mu)) * / (2 * (sn * sn)))); [apply scaled_derivative; exact Hn|].
      destruct (Rlt_dec y mu) as [K|K].
      - field. repeat split; lra.
      - replace y with mu by lra. replace (- ((mu - mu) * (mu - mu))) with 0 by lra. rewrite !Rmult_0_l, exp_0. field. repeat split; lra. }
    assert (D2 : forall y, mu <= y -> derivable_pt_lim G2 y (d y)).
    { intros y Hy. rewrite (density_val mu sp sn d y Hp Hn Hd).
      replace (exp _ * _) with (sp / (sp + sn) * (2 / (sp * sqrt (2 * PI))) * exp (- ((y - mu) * (y - mu)) * / (2 * (sp * sp)))); [apply scaled_derivative; exact Hp|].
      destruct (Rlt_dec y mu) as [K|K]; [lra|]. field. repeat split; lra. }
    assert (C : forall y, y <= mu -> F y = G1 y).
    { assert (C0 : forall y, y <= mu -> F y - G1 y = F mu - G1 mu).
      { intros y Hy. symmetry. apply (same_derivative F G1 d y mu Hy); intros z Hz; [apply DF|apply D1; lra]. }
      assert (E : F mu - G1 mu = 0) by (apply (limit_const F G1 _ mu C0 LF), scaled_limit; lra).
      intros y Hy. specialize (C0 y Hy). lra. }
    destruct (Rle_dec x mu) as [Hx|Hx].
    - rewrite (C x Hx). unfold G1. lra.
    - assert (E : F x - G2 x = F mu - G2 mu) by (apply (same_derivative F G2 d mu x); [lra|intros; apply DF|intros z Hz; apply D2; lra]).
      rewrite (C mu (Rle_refl _)) in E. unfold G1, G2 in E. replace ((mu - mu) / (sn * sqrt 2)) with 0 in E by (unfold Rdiv; lra).
      replace ((mu - mu) / (sp * sqrt 2)) with 0 in E by (unfold Rdiv; lra). rewrite (erf_0 erf He) in E. lra.
  Qed.

  Lemma percentiles mu ep en sp sn d F N : 0 < ep -> 0 < en -> is_root (to_solve erf (ep, en) (tail_prob erf)) (sp, sn) ->
    two_half_density mu sp sn d -> distribution d F -> distribution normal_density N ->
    F (mu - en) = N (-1) /\ F (mu + ep) = N 1.
  Proof.
    intros Hep Hen Hr Hd HF HN. destruct (roots_positive erf He (ep, en) (sp, sn)) as [Hp Hn]; [cbn; lra|cbn; lra|exact Hr|].
    cbn [fst snd] in Hp, Hn. apply root_eqs in Hr. cbv zeta in Hr. cbn [fst snd] in Hr. destruct Hr as (_ & _ & _ & E1 & E2).
    pose proof (q_tail erf) as Q. pose proof sqrt2_pos as S2.
    rewrite !(two_half_value mu sp sn d F _ Hp Hn Hd HF), !(normal_value N _ HN).
    destruct (Rle_dec (mu - en) mu) as [K|K]; [clear K|lra]. destruct (Rle_dec (mu + ep) mu) as [K|K]; [lra|clear K].
    replace ((mu - en - mu) / (sn * sqrt 2)) with (- (en / sn / sqrt 2)) by (field; split; lra).
    replace ((mu + ep - mu) / (sp * sqrt 2)) with (ep / sp / sqrt 2) by (field; split; lra).
    replace (-1 / sqrt 2) with (- (1 / sqrt 2)) by (field; lra). rewrite !(erf_odd erf He).
    unfold tail in E1, E2, Q. split.
    - replace (sn / (sp + sn) * (1 + - erf (en / sn / sqrt 2))) with (q erf); [lra|].
      apply Rmult_eq_reg_r with (sp + sn); [|lra]. rewrite <- E2. field. lra.
    - replace (sn / (sp + sn) + sp / (sp + sn) * erf (ep / sp / sqrt 2)) with (1 - q erf); [lra|].
      apply Rmult_eq_reg_r with (sp + sn); [|lra].
      replace ((1 - q erf) * (sp + sn)) with (sp + sn - q erf * (sp + sn)) by lra. rewrite <- E1. field. lra.
  Qed.
End Cdf.
