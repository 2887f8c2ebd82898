(** Lemmas on the plugins. *)
From Coq Require Import Reals ZArith Lra Lia.
From Verif Require Import Base ModelFloat ModelRandgen ModelPlugins SpecRandgen SpecPlugins ProofFloat ProofLikelihood2 ProofLikelihood3
  ProofRandgen.
Local Open Scope R_scope.
Arguments fadd : simpl never.

(* ------------------------------------------------------------------ *)
(** * Clipping *)

Lemma clip01_prob x : x <> NaN -> probability (clip01 x).
Proof.
  intros H. unfold clip01, fclip. destruct x as [r| | |]; [..|contradiction].
  - rewrite fmax_Fin, fmin_Fin. exists (Rmin (Rmax r 0) 1). split; [reflexivity|].
    split; [apply Rmin_glb; [apply Rmax_r|lra]|apply Rmin_r].
  - cbn. exists 1. split; [reflexivity|lra].
  - change (fmax NInf #0%fl) with (Fin 0). rewrite fmin_Fin. exists (Rmin 0 1). split; [reflexivity|]. unfold Rmin. destruct (Rle_dec 0 1); lra.
Qed.
Lemma clip01_inside r : 0 <= r <= 1 -> clip01 (Fin r) = Fin r.
Proof.
  intros H. unfold clip01. rewrite fclip_Fin. f_equal. unfold Rmin, Rmax. repeat destruct (Rle_dec _ _); lra.
Qed.
Lemma clip_pos_Fin r : clip_pos (Fin r) = Fin (Rmax r 0).
Proof. apply fclip_inf. Qed.
Lemma clip_pos_ok x : x <> NaN -> clip_pos x = PInf \/ finite_nonneg (clip_pos x).
Proof.
  intros H. destruct x as [r| | |]; [..|contradiction].
  - right. rewrite clip_pos_Fin. exists (Rmax r 0). split; [reflexivity|apply Rmax_r].
  - left. reflexivity.
  - right. exists 0. split; [reflexivity|lra].
Qed.

Lemma prob_mul x y : probability x -> probability y -> probability (x * y)%fl.
Proof.
  intros (a & -> & Ha) (b & -> & Hb). exists (a * b). split; [reflexivity|]. nra.
Qed.

Lemma zclip_range x n : (0 <= n)%Z -> (0 <= zclip x 0 n <= n)%Z.
Proof. unfold zclip. lia. Qed.

(* ------------------------------------------------------------------ *)
(** * Electronic recoils *)

(** A clipped normal with finite mean and width, rounded. *)
Lemma rounded_nonneg o k e (mean std : arr fl) m s hi : mean e = Fin m -> std e = Fin s -> hi = None \/ hi = Some PInf ->
  (0 <= to_int o (fround (result (truncate_normal o mean std (Some #0%fl) hi) k e)))%Z.
Proof.
  intros Hm Hs Hh. change (result (truncate_normal o mean std (Some #0%fl) hi) k e)
    with (clip_opt (#(o_norm o (child k 1) e) * std e + mean e)%fl (Some #0%fl) hi).
  rewrite Hm, Hs. farith. unfold clip_opt. rewrite fmax_Fin.
  assert (E : match hi with Some v => fmin (Fin (Rmax (o_norm o (child k 1) e * s + m) 0)) v | None => Fin (Rmax (o_norm o (child k 1) e * s + m) 0) end
     = Fin (Rmax (o_norm o (child k 1) e * s + m) 0)) by (destruct Hh as [->| ->]; reflexivity).
  rewrite E, round_to_int. apply roundZ_ge. apply Rmax_r.
Qed.

Lemma Quanta_nonneg o w fano energy k e W F E :
  w = Fin W -> fano = Fin F -> energy e = Fin E -> 0 < W -> 0 <= F -> 0 <= E ->
  (0 <= result (Quanta o w fano energy) k e)%Z.
Proof.
  intros -> -> HE PW PF PE. unfold Quanta. rewrite bind_result.
  match goal with |- context [result (ret ?f) ?k' e] => change (result (ret f) k' e) with (f e) end. cbv beta.
  assert (0 <= E / W). { apply Rmult_le_pos; [assumption|]. left. apply Rinv_0_lt_compat. assumption. }
  apply (rounded_nonneg o k e _ _ (E / W) (sqrt (E / W * F))); [| |now left].
  - rewrite HE, fdiv_Fin by lra. reflexivity.
  - rewrite HE, fdiv_Fin by lra. rewrite fmul_Fin, fsqrt_Fin; [reflexivity|]. apply Rmult_le_pos; assumption.
Qed.

Lemma ion_probability r : 0 <= r -> 0 < 1 / (1 + r) <= 1.
Proof.
  intros H. split; [apply Rdiv_lt_0_compat; lra|]. apply (Rmult_le_reg_r (1 + r)); [lra|]. field_simplify; lra.
Qed.

Lemma IonizationER_range o mode size ratio nq k e r : lawful o -> ratio = Fin r -> 0 <= r -> (0 <= nq e)%Z ->
  (0 <= result (IonizationER o mode size ratio nq) k e <= nq e)%Z.
Proof.
  intros L -> Hr Hn. unfold IonizationER. farith. rewrite fdiv_Fin by lra.
  apply (binomial_range o mode size k _ _ e (1 / (1 + r))); [assumption|reflexivity| |assumption].
  pose proof (ion_probability r Hr). lra.
Qed.

Lemma TrueRecombER_range o mean std k e m s : mean e = Fin m -> std e = Fin s ->
  probability (result (TrueRecombER o mean std) k e).
Proof.
  intros Hm Hs. change (result (TrueRecombER o mean std) k e)
    with (clip_opt (#(o_norm o (child k 1) e) * std e + mean e)%fl (Some #0%fl) (Some #1%fl)).
  rewrite Hm, Hs. farith. unfold clip_opt. rewrite fmax_Fin, fmin_Fin. eexists. split; [reflexivity|].
  split; [apply Rmin_glb; [apply Rmax_r|lra]|apply Rmin_r].
Qed.

Lemma RecombinationER_counts o mode size nq ni recomb k e : lawful o -> probability (recomb e) -> (0 <= ni e <= nq e)%Z ->
  conserved (nq e) (ni e) (nq e - ni e) (fst (result (RecombinationER o mode size nq ni recomb) k) e)
    (snd (result (RecombinationER o mode size nq ni recomb) k) e).
Proof.
  intros L (r & Hr & Pr) Hn. unfold RecombinationER. rewrite bind_result.
  match goal with |- context [result (ret ?f) ?k'] => change (result (ret f) k') with f end. cbn [fst snd].
  assert (B : (0 <= result (binomial o mode size (fun e => #1 - recomb e)%fl ni) k e <= ni e)%Z).
  { apply (binomial_range o mode size k _ _ e (1 - r)); [assumption| |lra|lia]. rewrite Hr. reflexivity. }
  unfold conserved. lia.
Qed.

(* Thomas-Imel *)
Lemma ln1p_le t : 0 <= t -> 0 <= ln (1 + t) <= t.
Proof.
  intros H. split.
  - rewrite <- ln_1. destruct (Req_dec t 0) as [->|N]; [right; f_equal; ring|]. left. apply ln_increasing; lra.
  - destruct (Req_dec t 0) as [->|N]. { rewrite Rplus_0_r, ln_1. lra. }
    left. rewrite <- (ln_exp t) at 2. apply ln_increasing; [lra|]. apply exp_ineq1. lra.
Qed.
Lemma thomas_imel_range t : 0 < t -> 0 <= thomas_imel t <= 1.
Proof.
  intros H. unfold thomas_imel. destruct (ln1p_le t) as [A B]; [lra|].
  assert (C : ln (1 + t) / t * t = ln (1 + t)) by (field; lra).
  assert (D : 0 < / t) by (apply Rinv_0_lt_compat; assumption).
  assert (E : 0 <= ln (1 + t) / t) by (unfold Rdiv; nra). split; nra.
Qed.
Lemma sigmoid_range x : 0 < 1 / (1 + exp x) < 1.
Proof.
  pose proof (exp_pos x). split; [apply Rdiv_lt_0_compat; lra|].
  apply (Rmult_lt_reg_r (1 + exp x)); [lra|]. field_simplify; lra.
Qed.

(** The recombination fraction and the damping factor, as numbers. *)
Definition box (w ratio py0 py1 py2 energy field : R) : R :=
  energy / w / (1 + ratio) * py0 * exp (- energy / py1) * Rpower field py2 / 4.
Definition mti_r (t : R) : R := if Rlt_dec t (1 / 100) then t / 2 - t * t / 3 else thomas_imel t.

Lemma mTI_value o w ratio py0 py1 py2 py3 py4 energy field k e W r p0 p1 p2 p3 p4 E F :
  w = Fin W -> ratio = Fin r -> py0 = Fin p0 -> py1 = Fin p1 -> py2 = Fin p2 -> py3 = Fin p3 -> py4 = Fin p4 ->
  energy e = Fin E -> field e = Fin F -> W <> 0 -> 1 + r <> 0 -> p1 <> 0 -> p4 <> 0 -> 0 < F -> 0 <= box W r p0 p1 p2 E F ->
  result (mTI o w ratio py0 py1 py2 py3 py4 energy field) k e =
  Fin (mti_r (box W r p0 p1 p2 E F) * (1 / (1 + exp (- (E - p3) / p4)))).
Proof.
  intros -> -> -> -> -> -> -> HE HF HW Hr H1 H4 PF B. unfold mTI.
  match goal with |- result (ret ?f) ?k' e = _ => change (result (ret f) k' e) with (f e) end. cbv beta zeta.
  rewrite HE, HF. farith. rewrite fpow_pos by assumption. rewrite !fdiv_Fin by (assumption || lra). farith.
  rewrite !fdiv_Fin by (assumption || lra). farith. rewrite !fdiv_Fin by (assumption || lra). farith.
  fold (box W r p0 p1 p2 E F). set (t := box W r p0 p1 p2 E F) in *.
  rewrite (fdiv_Fin 1 (1 + exp _)) by (pose proof (exp_pos (- (E - p3) / p4)); lra).
  unfold f10. unfold where_. cbn [flt]. unfold mti_r. destruct (Rlt_dec t (1 / 100)) as [L|L].
  - reflexivity.
  - rewrite flog_pos by lra. rewrite !fdiv_Fin by lra. reflexivity.
Qed.
Lemma mti_r_range t : 0 <= t -> 0 <= mti_r t <= 1.
Proof.
  intros H. unfold mti_r. destruct (Rlt_dec t (1 / 100)); [split; nra|]. apply thomas_imel_range. lra.
Qed.

(* ------------------------------------------------------------------ *)
(** * Keys *)

Ltac wk := repeat first
  [ apply well_keyed_ret | apply wk_uniform | apply wk_poisson | apply wk_normal | apply wk_truncate_normal | apply wk_skewnormal
  | apply wk_binomial | apply well_keyed_bind; [|intros] ].

Lemma shipped_well_keyed o mode size A m : shipped o mode size A m -> well_keyed m.
Proof.
  destruct 1; try (apply well_keyed_ret).
  all: try (unfold EField; destruct b; apply well_keyed_ret).
  all: unfold UniformEnergySpectra, FixedEnergySpectra, PositionSpectra, Quanta, IonizationER, TrueRecombER,
    RecombinationER, NumberPhoton, NumberElectron, PhotonDetection, S1PE, DriftLoss, ElectronDrifted,
    S2PE, PositionRecon, S1, S2, UniformEnergiesSpectra, TrueExcitonIonNR, TruePhotonElectronNR,
    TrueExcitonIonER, TruePhotonElectronER; cbv zeta; wk.
Qed.

(* ------------------------------------------------------------------ *)
(** * The series of the Thomas-Imel fraction *)

Lemma ln1p_deriv c : 0 <= c -> derivable_pt_lim (fun t => ln (1 + t)) c (/ (1 + c)).
Proof.
  intros H. replace (/ (1 + c)) with (/ (1 + c) * (0 + 1)) by ring.
  apply (derivable_pt_lim_comp (fun t => 1 + t) ln).
  - apply derivable_pt_lim_plus; [apply derivable_pt_lim_const|apply derivable_pt_lim_id].
  - apply derivable_pt_lim_ln. lra.
Qed.
Lemma power_deriv n c : derivable_pt_lim (fun t => t ^ (S n)) c (INR (S n) * c ^ n).
Proof. apply (derivable_pt_lim_pow c (S n)). Qed.

Lemma from_zero (f f' : R -> R) t : 0 < t -> f 0 = 0 -> (forall c, 0 <= c -> derivable_pt_lim f c (f' c)) ->
  (forall c, 0 < c -> 0 <= f' c) -> 0 <= f t.
Proof.
  intros H F0 D P. destruct (MVT_cor2 f f' 0 t H) as (c & E & Hc).
  - intros c [Hc _]. apply D. assumption.
  - rewrite F0 in E. specialize (P c (proj1 Hc)). nra.
Qed.

Lemma ln1p_upper t : 0 < t -> ln (1 + t) <= t - t * t / 2 + t * t * t / 3.
Proof.
  intros H. enough (G : 0 <= (fun t => (t ^ 1 - / 2 * t ^ 2 + / 3 * t ^ 3) - ln (1 + t)) t) by (cbn beta in G; simpl pow in G; lra).
  apply (from_zero (fun t => (t ^ 1 - / 2 * t ^ 2 + / 3 * t ^ 3) - ln (1 + t)) (fun c => (INR 1 * c ^ 0 - / 2 * (INR 2 * c ^ 1) + / 3 * (INR 3 * c ^ 2)) - / (1 + c))); [assumption| | |].
  - cbn beta. rewrite Rplus_0_r, ln_1. simpl. ring.
  - intros c Hc. apply (derivable_pt_lim_minus (fun t => t ^ 1 - / 2 * t ^ 2 + / 3 * t ^ 3) (fun t => ln (1 + t)) c _ (/ (1 + c))); [|apply ln1p_deriv; assumption].
    apply (derivable_pt_lim_plus (fun t => t ^ 1 - / 2 * t ^ 2)).
    + apply (derivable_pt_lim_minus (fun t => t ^ 1)); [apply power_deriv|].
      apply (derivable_pt_lim_scal (fun t => t ^ 2)). apply power_deriv.
    + apply (derivable_pt_lim_scal (fun t => t ^ 3)). apply power_deriv.
  - intros c Hc. simpl. replace (1 * 1 - / 2 * ((1 + 1) * (c * 1)) + / 3 * ((1 + 1 + 1) * (c * (c * 1))) - / (1 + c))
      with (c * c * c / (1 + c)) by (field; lra).
    apply Rmult_le_pos; [|left; apply Rinv_0_lt_compat; lra]. nra.
Qed.

Lemma ln1p_lower t : 0 < t -> t - t * t / 2 + t * t * t / 3 - t * t * t * t / 4 <= ln (1 + t).
Proof.
  intros H. enough (G : 0 <= (fun t => ln (1 + t) - (t ^ 1 - / 2 * t ^ 2 + / 3 * t ^ 3 - / 4 * t ^ 4)) t) by (cbn beta in G; simpl pow in G; lra).
  apply (from_zero (fun t => ln (1 + t) - (t ^ 1 - / 2 * t ^ 2 + / 3 * t ^ 3 - / 4 * t ^ 4)) (fun c => / (1 + c) - (INR 1 * c ^ 0 - / 2 * (INR 2 * c ^ 1) + / 3 * (INR 3 * c ^ 2) - / 4 * (INR 4 * c ^ 3)))); [assumption| | |].
  - cbn beta. rewrite Rplus_0_r, ln_1. simpl. ring.
  - intros c Hc. apply (derivable_pt_lim_minus (fun t => ln (1 + t)) (fun t => t ^ 1 - / 2 * t ^ 2 + / 3 * t ^ 3 - / 4 * t ^ 4) c (/ (1 + c))); [apply ln1p_deriv; assumption|].
    apply (derivable_pt_lim_minus (fun t => t ^ 1 - / 2 * t ^ 2 + / 3 * t ^ 3)).
    + apply (derivable_pt_lim_plus (fun t => t ^ 1 - / 2 * t ^ 2)).
      * apply (derivable_pt_lim_minus (fun t => t ^ 1)); [apply power_deriv|].
        apply (derivable_pt_lim_scal (fun t => t ^ 2)). apply power_deriv.
      * apply (derivable_pt_lim_scal (fun t => t ^ 3)). apply power_deriv.
    + apply (derivable_pt_lim_scal (fun t => t ^ 4)). apply power_deriv.
  - intros c Hc. simpl.
    match goal with |- 0 <= ?t => replace t with (c * c * c * c / (1 + c)) by (field; lra) end.
    apply Rmult_le_pos; [|left; apply Rinv_0_lt_compat; lra]. nra.
Qed.

Lemma thomas_imel_series t : 0 < t -> t / 2 - t * t / 3 <= thomas_imel t <= t / 2 - t * t / 3 + t * t * t / 4.
Proof.
  intros H. pose proof (ln1p_upper t H). pose proof (ln1p_lower t H). unfold thomas_imel.
  assert (E : ln (1 + t) / t * t = ln (1 + t)) by (field; lra).
  set (q := ln (1 + t) / t) in *. split; apply (Rmult_le_reg_r t); try assumption; nra.
Qed.

(* ------------------------------------------------------------------ *)
(** * NEST: mean numbers of excitons and ions *)

Lemma exp_ge x : 1 + x <= exp x.
Proof. destruct (Req_dec x 0) as [->|H]; [rewrite exp_0; lra|]. left. apply exp_ineq1. assumption. Qed.

Lemma exp_neg_le x : 0 <= x -> exp (- x) <= 1.
Proof.
  intros H. destruct (Req_dec x 0) as [->|Q]; [rewrite Ropp_0, exp_0; lra|]. left. rewrite <- exp_0. apply exp_increasing. lra.
Qed.

(** The ions needed for [ne] electrons to escape recombination. *)
Definition ions (ti ne : R) : R := 4 / ti * (exp (ne * ti / 4) - 1).

Lemma ions_ge ti ne : 0 < ti -> ne <= ions ti ne.
Proof.
  intros H. unfold ions. pose proof (exp_ge (ne * ti / 4)).
  apply Rle_trans with (4 / ti * (ne * ti / 4)).
  - right. field. lra.
  - apply Rmult_le_compat_l; [|lra]. apply Rmult_le_pos; [lra|]. left. apply Rinv_0_lt_compat. assumption.
Qed.

Lemma mean_exciton_ion_value ti nph ne : 0 < ti -> 0 <= nph -> 0 <= ne ->
  let ei := mean_exciton_ion (Fin ti) (Fin nph) (Fin ne) in
  ei_nex ei = Fin (nph + ne - ions ti ne) /\ ei_ni ei = Fin (ions ti ne) /\
  (0 < ne -> ei_ratio ei = Fin ((nph + ne - ions ti ne) / ions ti ne) /\ ei_alf ei = Fin (ions ti ne / (nph + ne)) /\
     ei_elecFrac ei = Fin (ne / (nph + ne)) /\ ei_recombProb ei = Fin (1 - ne / ions ti ne)) /\
  (ne = 0 -> ei_ratio ei = Fin 1 /\ ei_alf ei = Fin (1 / 2) /\ ei_elecFrac ei = Fin 0 /\ ei_recombProb ei = Fin 1).
Proof.
  intros Hti Hph Hne ei. unfold ei, mean_exciton_ion. cbn [ei_nex ei_ni ei_ratio ei_alf ei_elecFrac ei_recombProb].
  farith. rewrite !(fdiv_Fin _ ti), !(fdiv_Fin _ 4) by lra. farith.
  fold (ions ti ne).
  assert (EX : -1 / ti * (4 * exp (ne * ti / 4) - (ne + nph) * ti - 4) = nph + ne - ions ti ne) by (unfold ions; field; lra).
  rewrite EX. pose proof (ions_ge ti ne Hti) as G. set (N := ions ti ne) in *.
  split; [reflexivity|]. split; [reflexivity|]. split; intros P.
  - unfold where_. cbn [flt]. destruct (Rlt_dec 0 N); [|lra]. destruct (Rlt_dec 0 (nph + ne)); [|lra].
    rewrite !(fdiv_Fin _ N), !(fdiv_Fin _ (nph + ne)) by lra. farith.
    assert (1 + (nph + ne - N) / N = (nph + ne) / N) as Z by (field; lra).
    assert (0 < (nph + ne) / N) by (apply Rdiv_lt_0_compat; lra).
    rewrite (fdiv_Fin 1) by lra. repeat split; try reflexivity; f_equal.
    + rewrite Z. field. lra.
    + field. lra.
  - assert (Z : N = 0). { unfold N, ions. rewrite P. replace (0 * ti / 4) with 0 by field. rewrite exp_0. ring. }
    rewrite Z, P. unfold where_. cbn [flt]. destruct (Rlt_dec 0 0); [lra|]. rewrite Rplus_0_r.
    assert (X : (if Rlt_dec 0 nph then true else false) = true -> 0 < nph) by (destruct (Rlt_dec 0 nph); [auto|discriminate]).
    destruct (if Rlt_dec 0 nph then true else false) eqn:Q.
    + specialize (X eq_refl). rewrite (fdiv_Fin 0 nph) by lra. farith. rewrite fdiv_Fin by lra.
      repeat split; f_equal; field; lra.
    + farith. rewrite fdiv_Fin by lra. repeat split; f_equal; lra.
Qed.

Lemma TrueExcitonIonNR_counts o fi fx _Nph _Ne ratio alf k e FI FX nph ne r a :
  fi = Fin FI -> fx = Fin FX -> _Nph e = Fin nph -> _Ne e = Fin ne -> ratio e = Fin r -> alf e = Fin a ->
  0 <= FI -> 0 <= FX -> 0 <= nph + ne -> 0 <= a -> 0 <= (nph + ne) * r * a ->
  let '(Ni, Nex, Nq) := result (TrueExcitonIonNR o fi fx _Nph _Ne ratio alf) k in
  (0 <= Ni e /\ 0 <= Nex e /\ Nq e = Nex e + Ni e)%Z.
Proof.
  intros -> -> Hph Hne Hr Ha P1 P2 P3 P4 P5. unfold TrueExcitonIonNR. rewrite !bind_result.
  match goal with |- context [result (ret ?f) ?k'] => change (result (ret f) k') with f end. cbv beta iota.
  split; [|split; [|reflexivity]].
  - apply (rounded_nonneg o _ e _ _ ((nph + ne) * a) (sqrt (FI * (nph + ne) * a))); [| |now left]; rewrite Hph, Hne, Ha; farith.
    + reflexivity.
    + rewrite fsqrt_Fin; [reflexivity|]. repeat apply Rmult_le_pos; assumption.
  - apply (rounded_nonneg o _ e _ _ ((nph + ne) * r * a) (sqrt (FX * (nph + ne) * r * a))); [| |now left]; rewrite Hph, Hne, Hr, Ha; farith.
    + reflexivity.
    + rewrite fsqrt_Fin; [reflexivity|]. replace (FX * (nph + ne) * r * a) with (FX * ((nph + ne) * r * a)) by ring. apply Rmult_le_pos; assumption.
Qed.

Lemma TruePhotonElectronNR_counts o a2 rp v Ni Nex Nq k e : (0 <= Ni e)%Z -> (0 <= Nex e)%Z -> Nq e = (Nex e + Ni e)%Z ->
  let '(photons, electrons) := result (TruePhotonElectronNR o a2 rp v Ni Nex Nq) k in
  conserved (Nq e) (Ni e) (Nex e) (photons e) (electrons e).
Proof.
  intros H1 H2 H3. unfold TruePhotonElectronNR. rewrite !bind_result.
  match goal with |- context [result (ret ?f) ?k'] => change (result (ret f) k') with f end. cbv beta iota zeta.
  match goal with |- context [zclip ?x 0 (Ni e)] => pose proof (zclip_range x (Ni e) H1) as Z; set (c := zclip x 0 (Ni e)) in * end.
  unfold conserved. lia.
Qed.

(* ------------------------------------------------------------------ *)
(** * NEST electronic recoils *)

Lemma TrueExcitonIonER_counts o mode size _Nph _Ne fano alf k e nph ne f :
  _Nph e = Fin nph -> _Ne e = Fin ne -> fano e = Fin f -> 0 <= nph + ne -> 0 <= f ->
  let '(Ni, Nex, Nq) := result (TrueExcitonIonER o mode size _Nph _Ne fano alf) k in
  (0 <= Ni e /\ 0 <= Nex e /\ Ni e + Nex e = Nq e)%Z.
Proof.
  intros Hph Hne Hf P1 P2. unfold TrueExcitonIonER. rewrite !bind_result.
  match goal with |- context [result (ret ?f) ?k'] => change (result (ret f) k') with f end. cbv beta iota zeta.
  match goal with |- context [to_int o (fround ?x)] => assert (Q : (0 <= to_int o (fround x))%Z); [|set (nq := to_int o (fround x)) in *] end.
  { apply (rounded_nonneg o _ e _ _ (nph + ne) (sqrt (f * (nph + ne)))); [| |now right]; rewrite Hph, Hne; farith; [reflexivity|].
    rewrite Hf. farith. rewrite fsqrt_Fin; [reflexivity|]. apply Rmult_le_pos; assumption. }
  unfold zclip. lia.
Qed.

Lemma TruePhotonElectronER_counts o rp v Ni Nq k e : (0 <= Ni e <= Nq e)%Z ->
  let '(photons, electrons) := result (TruePhotonElectronER o rp v Ni Nq) k in
  conserved (Nq e) (Ni e) (Nq e - Ni e) (photons e) (electrons e).
Proof.
  intros H. unfold TruePhotonElectronER. rewrite !bind_result.
  match goal with |- context [result (ret ?f) ?k'] => change (result (ret f) k') with f end. cbv beta iota zeta.
  match goal with |- context [zclip ?x 0 (Ni e)] => pose proof (zclip_range x (Ni e) (proj1 H)) as Z; set (c := zclip x 0 (Ni e)) in * end.
  unfold conserved. lia.
Qed.

(* ------------------------------------------------------------------ *)
(** * Charge yield of electronic recoils *)

Lemma fmul_1_r x : (x * #1)%fl = x.
Proof.
  destruct x; cbn [fmul]; [f_equal; ring| | |reflexivity]; unfold inf_times;
    destruct (total_order_T 1 0) as [[?|?]|?]; try lra; reflexivity.
Qed.

Lemma Rpower_inv D x : 0 < D -> Rpower (1 / D) x = Rpower D (- x).
Proof. intros H. unfold Rpower. f_equal. unfold Rdiv. rewrite Rmult_1_l, ln_Rinv by assumption. ring. Qed.

Lemma density_factor o D : 0 < D ->
  (let D := Fin D in
   let coeff_TI := fpow o (#1 / D) (f10 3 10) in
   let coeff_Ni := fpow o (#1 / D) (f10 14 10) in
   let coeff_OL := fpow o (#1 / D) (f10 (-17) 10) / flog (#1 + coeff_TI * coeff_Ni * fpow o D (f10 17 10)) in
   coeff_OL * flog (#1 + coeff_TI * coeff_Ni * fpow o D (f10 17 10)) * fpow o D (f10 (-17) 10))%fl = Fin 1.
Proof.
  intros H. cbv zeta. assert (0 < 1 / D) by (apply Rdiv_lt_0_compat; lra). unfold f10.
  rewrite fdiv_Fin by lra. rewrite !fpow_pos by assumption. farith.
  assert (P : 0 < ln 2) by (rewrite <- ln_1; apply ln_increasing; lra).
  assert (E : Rpower (1 / D) (3 / 10) * Rpower (1 / D) (14 / 10) * Rpower D (17 / 10) = 1).
  { rewrite !Rpower_inv by assumption. rewrite <- !Rpower_plus. rewrite <- (Rpower_O D H). f_equal. lra. }
  rewrite E. rewrite flog_pos by lra. replace (1 + 1) with 2 by ring. rewrite fdiv_Fin by lra. farith. f_equal.
  rewrite Rpower_inv by assumption. replace (- (-17 / 10)) with (17 / 10) by lra.
  replace (Rpower D (17 / 10) / ln 2 * ln 2) with (Rpower D (17 / 10)) by (field; lra).
  rewrite <- Rpower_plus. rewrite <- (Rpower_O D H). f_equal. lra.
Qed.

(* ------------------------------------------------------------------ *)
(** * Moments *)

Lemma mean_add d g h : mean d (fun z z' => g z z' + h z z') = mean d g + mean d h.
Proof. induction d; cbn [mean fold_right]; [ring|]. unfold mean in IHd. rewrite IHd. ring. Qed.
Lemma mean_scal d c g : mean d (fun z z' => c * g z z') = c * mean d g.
Proof. induction d; cbn [mean fold_right]; [ring|]. unfold mean in IHd. rewrite IHd. ring. Qed.
Lemma mean_ext d g h : (forall z z', g z z' = h z z') -> mean d g = mean d h.
Proof. intros H. induction d; cbn [mean fold_right]; [reflexivity|]. unfold mean in IHd. rewrite IHd, H. reflexivity. Qed.

Lemma linear_moments d A B C : normal_moments d ->
  mean d (fun z z' => A * Rabs z + B * z' + C) = A * sqrt (2 / PI) + C /\
  variance d (fun z z' => A * Rabs z + B * z' + C) = A * A * (1 - 2 / PI) + B * B.
Proof.
  intros [T Ab Sq S1 S2 Mx].
  assert (M1 : mean d (fun z z' => A * Rabs z + B * z' + C) = A * sqrt (2 / PI) + C).
  { rewrite (mean_ext _ _ (fun z z' => (A * Rabs z + B * z') + C * 1)) by (intros; ring).
    rewrite !mean_add. rewrite (mean_scal d A (fun z _ => Rabs z)), (mean_scal d B (fun _ z => z)), (mean_scal d C (fun _ _ => 1)).
    rewrite T, Ab, S1. ring. }
  split; [assumption|]. unfold variance. rewrite M1. set (s := sqrt (2 / PI)) in *.
  assert (SS : s * s = 2 / PI). { apply sqrt_sqrt. pose proof PI_RGT_0. apply Rlt_le, Rdiv_lt_0_compat; lra. }
  rewrite (mean_ext _ _ (fun z z' => ((((A * A) * (z * z) + (B * B) * (z' * z')) + (A * A * (s * s)) * 1)
     + ((2 * A * B) * (Rabs z * z') + (- 2 * A * A * s) * Rabs z)) + (- 2 * A * B * s) * z')).
  2: { intros z z'. replace (z * z) with (Rabs z * Rabs z) by (rewrite <- Rabs_mult; apply Rabs_right; nra). ring. }
  rewrite (mean_add d _ (fun z z' => (- 2 * A * B * s) * z')).
  rewrite (mean_add d (fun z z' => ((A * A) * (z * z) + (B * B) * (z' * z')) + (A * A * (s * s)) * 1)).
  rewrite (mean_add d (fun z z' => ((A * A) * (z * z) + (B * B) * (z' * z')))).
  rewrite (mean_add d (fun z z' => ((A * A) * (z * z)))).
  rewrite (mean_add d (fun z z' => (2 * A * B) * (Rabs z * z'))).
  rewrite (mean_scal d (A * A) (fun z _ => z * z)), (mean_scal d (B * B) (fun _ z => z * z)), (mean_scal d (A * A * (s * s)) (fun _ _ => 1)),
    (mean_scal d (2 * A * B) (fun z z' => Rabs z * z')), (mean_scal d (- 2 * A * A * s) (fun z _ => Rabs z)), (mean_scal d (- 2 * A * B * s) (fun _ z => z)).
  rewrite T, Ab, Sq, S1, S2, Mx. fold s. nra.
Qed.
