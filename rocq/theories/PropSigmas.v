(** C99: the widths of a two-half-normal distribution from its errors. *)
From Coq Require Import Reals Lra Lia.
From Verif Require Import Base BaseFacts ModelFloat ProofFloat ModelTwoHalf ProofParameter ModelSigmas SpecSigmas ProofSigmas ProofSigmas2
  ProofGauss.
Local Open Scope R_scope.

(** For every two positive errors there is exactly one root, and it is positive: no other answer of the root finder
    solves the equations, whatever the signs. *)
Theorem C99_one_root erf ep en : is_erf erf -> 0 < ep -> 0 < en ->
  exists sp sn, 0 < sp /\ 0 < sn /\
    forall x, is_root (to_solve erf (ep, en) (tail_prob erf)) x <-> x = (sp, sn).
Proof.
  intros He Hp Hn. destruct (root_exists erf He (ep, en)) as ([sp sn] & Hx); [exact Hp|exact Hn|].
  exists sp, sn. destruct (roots_positive erf He (ep, en) (sp, sn)) as [A B]; [cbn; lra|cbn; lra|exact Hx|].
  split; [exact A|]. split; [exact B|]. intros x. split; [|intros ->; exact Hx].
  intros H. apply (roots_unique erf He (ep, en)); assumption.
Qed.

(** What the function returns makes the distribution of TwoHalfNorm.logpdf have its one-sigma percentiles (those of a
    standard normal variable at -1 and 1) at mu - en and mu + ep. *)
Theorem C99_percentiles erf root mu ep en sp sn d F N : is_erf erf -> finds_roots root -> 0 < ep -> 0 < en ->
  errors_to_sigmas erf root (ep, en) = Ok (sp, sn) ->
  two_half_density mu sp sn d -> distribution d F -> distribution normal_density N ->
  F (mu - en) = N (-1) /\ F (mu + ep) = N 1.
Proof.
  intros He Hr Hp Hn E Hd HF HN. unfold errors_to_sigmas in E. destruct (root _ _) as [x|] eqn:Ex in E; [|discriminate E].
  injection E as ->. apply Hr in Ex. apply (percentiles erf He mu ep en sp sn d F N); assumption.
Qed.

(** The widths are positive, so that sampling and densities are defined; equal errors are the widths themselves; the
    larger error has the larger width; scaling and exchanging the errors does the same to the widths. *)
Theorem C99_widths erf root ep en sp sn : is_erf erf -> finds_roots root -> 0 < ep -> 0 < en ->
  errors_to_sigmas erf root (ep, en) = Ok (sp, sn) ->
  0 < sp /\ 0 < sn /\ (ep = en -> sp = ep /\ sn = en) /\ (ep < en -> sp < sn) /\ (en < ep -> sn < sp) /\
  (forall c tp tn, 0 < c -> errors_to_sigmas erf root (c * ep, c * en) = Ok (tp, tn) -> tp = c * sp /\ tn = c * sn) /\
  (forall tp tn, errors_to_sigmas erf root (en, ep) = Ok (tp, tn) -> tp = sn /\ tn = sp).
Proof.
  intros He Hr Hp Hn E.
  assert (R : forall e x, errors_to_sigmas erf root e = Ok x -> is_root (to_solve erf e (tail_prob erf)) x).
  { intros e x H. unfold errors_to_sigmas in H. destruct (root _ _) as [y|] eqn:Ey in H; [|discriminate H]. injection H as <-. apply Hr in Ey. exact Ey. }
  pose proof (R _ _ E) as Hx. destruct (roots_positive erf He (ep, en) (sp, sn)) as [A B]; [cbn; lra|cbn; lra|exact Hx|]. cbn [fst snd] in A, B.
  pose proof (root_eqs erf _ _ Hx) as Q. cbv zeta in Q. cbn [fst snd] in Q. destruct Q as (_ & _ & _ & E1 & E2).
  assert (U : forall e x y, 0 < fst e -> 0 < snd e -> is_root (to_solve erf e (tail_prob erf)) x -> is_root (to_solve erf e (tail_prob erf)) y -> x = y)
    by (intros; apply (roots_unique erf He e); assumption).
  pose proof (q_bounds erf He) as QB.
  assert (cmp : forall a b e f, 0 < a -> 0 < b -> 0 < e -> 0 < f -> a * tail erf (e / a) = q erf * (a + b) -> b * tail erf (f / b) = q erf * (a + b) -> e < f -> a < b).
  { intros a b e f Ha Hb He0 Hf K1 K2 Hef. destruct (Rlt_le_dec a b) as [K|K]; [exact K|exfalso].
    assert (L : e / a < f / b).
    { apply Rmult_lt_reg_r with (a * b); [nra|]. replace (e / a * (a * b)) with (e * b) by (field; lra).
      replace (f / b * (a * b)) with (f * a) by (field; lra). nra. }
    pose proof (tail_decreasing erf He _ _ L) as T. pose proof (tail_pos erf He (f / b)) as P. nra. }
  split; [exact A|]. split; [exact B|]. split.
  { intros ->. assert (K : (sp, sn) = (en, en)); [|injection K as -> ->; split; reflexivity].
    apply (U (en, en)); [exact Hp|exact Hn|exact Hx|]. apply (eqs_root erf); cbn [fst snd]; try lra;
      replace (en / en) with 1 by (field; lra); rewrite <- (q_tail erf); ring. }
  split; [intros K; apply (cmp sp sn ep en); assumption|]. split.
  { intros K. apply (cmp sn sp en ep); try assumption; lra. }
  split.
  - intros c tp tn Hc Et. assert (K : (tp, tn) = (c * sp, c * sn)); [|injection K as -> ->; split; reflexivity].
    apply (U (c * ep, c * en)); [cbn; nra|cbn; nra|apply R, Et|]. apply (eqs_root erf); cbn [fst snd]; try nra.
    + replace (c * ep / (c * sp)) with (ep / sp) by (field; split; lra). replace (c * sp * tail erf (ep / sp)) with (c * (sp * tail erf (ep / sp))) by ring. rewrite E1. ring.
    + replace (c * en / (c * sn)) with (en / sn) by (field; split; lra). replace (c * sn * tail erf (en / sn)) with (c * (sn * tail erf (en / sn))) by ring. rewrite E2. ring.
  - intros tp tn Et. assert (K : (tp, tn) = (sn, sp)); [|injection K as -> ->; split; reflexivity].
    apply (U (en, ep)); [exact Hn|exact Hp|apply R, Et|]. apply (eqs_root erf); cbn [fst snd]; try lra.
Qed.

(** The density of TwoHalfNorm.logpdf is normalised: it has a distribution function, which goes to 1. *)
Theorem C99_normalised mu sp sn d : 0 < sp -> 0 < sn -> two_half_density mu sp sn d ->
  exists F, distribution d F /\ forall eps, 0 < eps -> exists M, forall x, M < x -> Rabs (F x - 1) < eps.
Proof.
  intros Hp Hn Hd. pose proof the_erf_is as He. assert (S2P : 0 < sqrt (2 * PI)) by (apply sqrt_lt_R0; pose proof PI_RGT_0; lra).
  set (lower := fun t => (t - Rabs t) / 2). set (upper := fun t => (t + Rabs t) / 2).
  assert (C : continuity d).
  { set (g := fun x => exp (- (lower (x - mu) * lower (x - mu)) * / (2 * (sn * sn)) + - (upper (x - mu) * upper (x - mu)) * / (2 * (sp * sp))) * (2 / ((sp + sn) * sqrt (2 * PI)))).
    assert (Cg : continuity g).
    { assert (Ci : forall s, continuity (fun x => (x - mu + s * Rabs (x - mu)) / 2)).
      { intros s x. apply (continuity_pt_mult (fun x => x - mu + s * Rabs (x - mu)) (fct_cte (/ 2))); [|apply const_continuous].
        assert (Cm : continuity_pt (fun x => x - mu) x).
        { apply (continuity_pt_minus id (fct_cte mu)); [apply derivable_continuous_pt, derivable_pt_id|apply const_continuous]. }
        apply (continuity_pt_plus (fun x => x - mu) (fun x => s * Rabs (x - mu))); [exact Cm|].
        apply (continuity_pt_mult (fct_cte s) (fun x => Rabs (x - mu))); [apply const_continuous|].
        apply (continuity_pt_comp (fun x => x - mu) Rabs); [exact Cm|apply Rcontinuity_abs]. }
      assert (Cs : forall s k, continuity (fun x => - ((x - mu + s * Rabs (x - mu)) / 2 * ((x - mu + s * Rabs (x - mu)) / 2)) * k)).
      { intros s k x. apply (continuity_pt_mult (fun x => - ((x - mu + s * Rabs (x - mu)) / 2 * ((x - mu + s * Rabs (x - mu)) / 2))) (fct_cte k)); [|apply const_continuous].
        apply (continuity_pt_opp (fun x => (x - mu + s * Rabs (x - mu)) / 2 * ((x - mu + s * Rabs (x - mu)) / 2))).
        apply continuity_pt_mult; apply Ci. }
      intros x. unfold g. apply (continuity_pt_mult (fun x => exp _) (fct_cte (2 / ((sp + sn) * sqrt (2 * PI))))); [|apply const_continuous].
      apply (continuity_pt_comp (fun x => _) exp); [|apply exp_continuous].
      apply continuity_pt_locally_ext with (f := fun x => - ((x - mu + -1 * Rabs (x - mu)) / 2 * ((x - mu + -1 * Rabs (x - mu)) / 2)) * / (2 * (sn * sn)) +
        - ((x - mu + 1 * Rabs (x - mu)) / 2 * ((x - mu + 1 * Rabs (x - mu)) / 2)) * / (2 * (sp * sp))) (a := 1); [lra| |].
      - intros y _. unfold lower, upper. f_equal; f_equal; f_equal; f_equal; f_equal; ring.
      - apply continuity_pt_plus; apply Cs. }
    intros x. apply continuity_pt_locally_ext with (f := g) (a := 1); [lra| |apply Cg].
    intros y _. rewrite (density_val mu sp sn d y Hp Hn Hd). unfold g. f_equal. f_equal.
    destruct (Rlt_dec y mu) as [K|K]; unfold lower, upper.
    - rewrite Rabs_left by lra. replace ((y - mu + - (y - mu)) / 2) with 0 by lra. replace ((y - mu - - (y - mu)) / 2) with (y - mu) by lra. rewrite Rmult_0_l. lra.
    - rewrite Rabs_right by lra. replace ((y - mu - (y - mu)) / 2) with 0 by lra. replace ((y - mu + (y - mu)) / 2) with (y - mu) by lra. rewrite Rmult_0_l. lra. }
  set (F := fun x => sn / (sp + sn) + Int d C mu x).
  assert (DF : forall x, derivable_pt_lim F x (d x)).
  { intros x. replace (d x) with (0 + d x) by lra. apply (derivable_pt_lim_plus (fct_cte (sn / (sp + sn))) (fun x => Int d C mu x)); [apply derivable_pt_lim_const|apply Int_derivative]. }
  assert (Z : F mu = sn / (sp + sn)).
  { unfold F. replace (Int d C mu mu) with 0 by (symmetry; apply RiemannInt_P9). lra. }
  assert (LF : forall eps, 0 < eps -> exists M, forall x, x < M -> Rabs (F x) < eps).
  { intros eps Heps. destruct (scaled_limit the_erf He (sn / (sp + sn)) mu sn Hn eps Heps) as (M & HM).
    exists (Rmin M mu). intros x Hx. assert (A1 := Rmin_l M mu). assert (A2 := Rmin_r M mu).
    set (G1 := fun x => sn / (sp + sn) + sn / (sp + sn) * the_erf ((x - mu) / (sn * sqrt 2))).
    assert (E : F mu - G1 mu = F x - G1 x).
    { apply (same_derivative F G1 d x mu); [lra|intros; apply DF|]. intros y Hy. rewrite (density_val mu sp sn d y Hp Hn Hd).
      replace (exp _ * _) with (sn / (sp + sn) * (2 / (sn * sqrt (2 * PI))) * exp (- ((y - mu) * (y - mu)) * / (2 * (sn * sn)))); [apply (scaled_derivative the_erf He); exact Hn|].
      destruct (Rlt_dec y mu) as [K|K].
      - field. repeat split; lra.
      - replace y with mu by lra. replace (- ((mu - mu) * (mu - mu))) with 0 by lra. rewrite !Rmult_0_l, exp_0. field. repeat split; lra. }
    assert (E0 : G1 mu = sn / (sp + sn)).
    { unfold G1. replace ((mu - mu) / (sn * sqrt 2)) with 0 by (unfold Rdiv; lra). rewrite (erf_0 the_erf He). lra. }
    replace (F x) with (G1 x) by lra. apply HM. lra. }
  exists F. split; [split; [exact DF|exact LF]|]. intros eps Heps.
  destruct He as (He1 & He2 & He3). destruct (He3 eps Heps) as (M & HM). pose proof sqrt2_pos as S2.
  exists (Rmax mu (mu + M * (sp * sqrt 2))). intros x Hx.
  assert (A1 := Rmax_l mu (mu + M * (sp * sqrt 2))). assert (A2 := Rmax_r mu (mu + M * (sp * sqrt 2))).
  rewrite (two_half_value the_erf the_erf_is mu sp sn d F x Hp Hn Hd (conj DF LF)). destruct (Rle_dec x mu) as [K|K]; [lra|].
  assert (KM : M < (x - mu) / (sp * sqrt 2)).
  { apply Rmult_lt_reg_r with (sp * sqrt 2); [nra|]. replace ((x - mu) / (sp * sqrt 2) * (sp * sqrt 2)) with (x - mu) by (field; split; lra). lra. }
  specialize (HM _ KM). set (r := the_erf ((x - mu) / (sp * sqrt 2))) in *.
  replace (sn / (sp + sn) + sp / (sp + sn) * r - 1) with (sp / (sp + sn) * (r - 1)) by (field; lra).
  rewrite Rabs_mult. assert (0 < sp / (sp + sn) < 1).
  { split; [apply Rmult_lt_0_compat; [lra|apply Rinv_0_lt_compat; lra]|]. apply Rmult_lt_reg_r with (sp + sn); [lra|].
    unfold Rdiv. rewrite Rmult_assoc, Rinv_l by lra. lra. }
  rewrite (Rabs_right (sp / (sp + sn))) by lra. pose proof (Rabs_pos (r - 1)). nra.
Qed.

(** Two errors of zero have no root: whatever the root finder does, the call cannot succeed. *)
Theorem C99_zero_errors erf root : is_erf erf -> finds_roots root ->
  errors_to_sigmas erf root (0, 0) = Err AssertionError.
Proof.
  intros He Hr. unfold errors_to_sigmas. destruct (root _ _) as [x|] eqn:Ex; [|reflexivity].
  apply Hr in Ex. exfalso. exact (no_root_zero erf He x Ex).
Qed.

(* ------------------------------------------------------------------ *)
(** * Cases *)

(** The error function exists, there is one only, and the standard normal distribution has a distribution function. *)
Example C99_erf_case : is_erf the_erf /\ (forall erf x, is_erf erf -> erf x = the_erf x) /\ exists N, distribution normal_density N.
Proof.
  split; [exact the_erf_is|]. split.
  - intros erf x He.
    assert (K : forall a b, a <= b -> erf b - the_erf b = erf a - the_erf a).
    { intros a b H. apply (same_derivative erf the_erf (fun x => 2 / sqrt PI * exp (- (x * x))) a b H); intros y _; [apply He|apply the_erf_is]. }
    pose proof (erf_0 erf He) as Z1. pose proof (erf_0 the_erf the_erf_is) as Z2.
    destruct (Rle_lt_dec 0 x) as [H|H]; [pose proof (K 0 x H)|pose proof (K x 0 ltac:(lra))]; lra.
  - exists (fun x => / 2 + / 2 * the_erf ((x - 0) / (1 * sqrt 2))). split.
    + intros y. assert (0 < sqrt (2 * PI)) by (apply sqrt_lt_R0; pose proof PI_RGT_0; lra).
      replace (normal_density y) with (/ 2 * (2 / (1 * sqrt (2 * PI))) * exp (- ((y - 0) * (y - 0)) * / (2 * (1 * 1)))).
      * apply (scaled_derivative the_erf the_erf_is). lra.
      * unfold normal_density. replace (- ((y - 0) * (y - 0)) * / (2 * (1 * 1))) with (- (y * y) / 2) by field. field. lra.
    + apply (scaled_limit the_erf the_erf_is). lra.
Qed.

(** Errors 1 and 2: a root finder that finds its only root. *)
Example C99_case : exists root sp sn, finds_roots root /\ errors_to_sigmas the_erf root (1, 2) = Ok (sp, sn) /\ sp < sn.
Proof.
  destruct (C99_one_root the_erf 1 2 the_erf_is ltac:(lra) ltac:(lra)) as (sp & sn & Hp & Hn & Hx).
  set (f0 := to_solve the_erf (1, 2) (tail_prob the_erf)).
  set (root := fun (f : R * R -> R * R) (_ : R * R) =>
    match Req_EM_T (fst (f (sp, sn))) 0, Req_EM_T (snd (f (sp, sn))) 0 with left _, left _ => Some (sp, sn) | _, _ => None end).
  assert (Hr : finds_roots root).
  { intros f x0 x H. unfold root in H. destruct (Req_EM_T _ _) as [Ea|] in H; [|discriminate H].
    destruct (Req_EM_T _ _) as [Eb|] in H; [|discriminate H]. injection H as <-.
    split; [cbn; lra|]. split; [cbn; lra|]. split; [cbn; lra|]. destruct (f (sp, sn)). cbn [fst snd] in *. congruence. }
  assert (E : errors_to_sigmas the_erf root (1, 2) = Ok (sp, sn)).
  { destruct (proj2 (Hx (sp, sn)) eq_refl) as (_ & _ & _ & E0). unfold errors_to_sigmas, root. rewrite E0. cbn [fst snd].
    destruct (Req_EM_T 0 0) as [_|K]; [reflexivity|congruence]. }
  exists root, sp, sn. split; [exact Hr|]. split; [exact E|].
  destruct (C99_widths the_erf root 1 2 sp sn the_erf_is Hr ltac:(lra) ltac:(lra) E) as (_ & _ & _ & K & _). apply K. lra.
Qed.

Example C99_density_case mu sp sn : 0 < sp -> 0 < sn -> exists d, two_half_density mu sp sn d.
Proof.
  intros Hp Hn. eexists. intros x. eexists. split; [apply twohalf_logpdf_Fin; assumption|reflexivity].
Qed.

Print Assumptions C99_one_root.
Print Assumptions C99_percentiles.
Print Assumptions C99_widths.
Print Assumptions C99_normalised.
Print Assumptions C99_zero_errors.
