(** Properties of the shipped plugins: C42-C44, C61-C69. *)
From Coq Require Import Reals ZArith Lra Lia.
From Verif Require Import Base ModelFloat ModelRandgen ModelPlugins SpecRandgen SpecPlugins ProofFloat ProofLikelihood2 ProofLikelihood3
  ProofRandgen ProofPlugins PropRandgen.
Local Open Scope R_scope.

Ltac ret_result := match goal with |- context [result (ret ?f) ?k'] => change (result (ret f) k') with f end.

(* ------------------------------------------------------------------ *)
(** * C42: electronic recoils, er_microphys *)

(** From energies to photons and electrons. *)
Definition er_chain (o : oracle) (mode : binmode) (size : nat) (w fano ratio py0 py1 py2 py3 py4 rf0 rf1 : fl) (energy field : arr fl)
  : M (arr Z * arr Z * (arr Z * arr Z)) :=
  num_quanta <- Quanta o w fano energy;;
  num_ion <- IonizationER o mode size ratio num_quanta;;
  recomb_mean <- mTI o w ratio py0 py1 py2 py3 py4 energy field;;
  recomb_std <- RecombFluct rf0 rf1 energy;;
  recomb <- TrueRecombER o recomb_mean recomb_std;;
  out <- RecombinationER o mode size num_quanta num_ion recomb;;
  ret (num_quanta, num_ion, out).

Theorem C42_chain : forall o mode size w fano ratio py0 py1 py2 py3 py4 rf0 rf1 energy field k e E F,
  lawful o -> 0 < w -> 0 <= fano -> 0 <= ratio -> 0 <= py0 -> py1 <> 0 -> py4 <> 0 -> rf1 <> 0 ->
  energy e = Fin E -> field e = Fin F -> 0 <= E -> 0 < F ->
  let '(quanta, ions, (photons, electrons)) := result (er_chain o mode size (Fin w) (Fin fano) (Fin ratio) (Fin py0) (Fin py1) (Fin py2)
     (Fin py3) (Fin py4) (Fin rf0) (Fin rf1) energy field) k in
  conserved (quanta e) (ions e) (quanta e - ions e) (photons e) (electrons e).
Proof.
  intros o mode size w fano ratio py0 py1 py2 py3 py4 rf0 rf1 energy field k e E F L Pw Pf Pr P0 P1 P4 Pr1 HE HF PE PF.
  unfold er_chain. rewrite !bind_result. ret_result.
  set (nq := result (Quanta _ _ _ _) _). set (k1 := next_key (Quanta _ _ _ _) _).
  assert (N : (0 <= nq e)%Z) by (apply (Quanta_nonneg o _ _ energy k e w fano E); auto).
  set (ni := result (IonizationER _ _ _ _ _) _). set (k2 := next_key (IonizationER _ _ _ _ _) _).
  assert (I : (0 <= ni e <= nq e)%Z) by (apply (IonizationER_range o mode size _ nq k1 e ratio); auto).
  set (rm := result (mTI _ _ _ _ _ _ _ _ _ _) _). set (k3 := next_key (mTI _ _ _ _ _ _ _ _ _ _) _).
  assert (RM : exists x, rm e = Fin x).
  { eexists. apply (mTI_value o _ _ _ _ _ _ _ energy field k2 e w ratio py0 py1 py2 py3 py4 E F); try reflexivity; try assumption; try lra.
    unfold box. apply Rmult_le_pos; [|lra]. apply Rmult_le_pos; [|left; apply exp_pos].
    apply Rmult_le_pos; [|left; apply exp_pos]. apply Rmult_le_pos; [|assumption].
    apply Rmult_le_pos; [apply Rmult_le_pos; [assumption|]|]; left; apply Rinv_0_lt_compat; lra. }
  set (rs := result (RecombFluct _ _ _) _). set (k4 := next_key (RecombFluct _ _ _) _).
  assert (RS : exists x, rs e = Fin x).
  { change (rs e) with (clip01 (Fin rf0 * (#1 - fexp (fneg (energy e) / Fin rf1)))%fl). rewrite HE. rewrite fneg_Fin, fdiv_Fin by assumption. farith.
    unfold clip01. rewrite fclip_Fin. eexists. reflexivity. }
  destruct RM as [m RM], RS as [s RS].
  pose proof (RecombinationER_counts o mode size nq ni (result (TrueRecombER o rm rs) k4) (next_key (TrueRecombER o rm rs) k4) e L
    (TrueRecombER_range o rm rs k4 e m s RM RS) I) as C.
  destruct (result (RecombinationER o mode size nq ni (result (TrueRecombER o rm rs) k4)) (next_key (TrueRecombER o rm rs) k4)).
  exact C.
Qed.

Example C42_case :
  let '(quanta, ions, (photons, electrons)) := result (er_chain toy JaxBinomial 1 (Fin (137 / 10000)) (Fin (59 / 1000)) (Fin (15 / 100))
     (Fin (12 / 100)) (Fin 24) (Fin (-24 / 100)) (Fin 1) (Fin 1) (Fin 1) (Fin 1) (fun _ => Fin 10) (fun _ => Fin 23)) [] in
  conserved (quanta 0%nat) (ions 0%nat) (quanta 0%nat - ions 0%nat) (photons 0%nat) (electrons 0%nat).
Proof. apply (C42_chain toy JaxBinomial 1 (137 / 10000) (59 / 1000) (15 / 100) (12 / 100) 24 (-24 / 100) 1 1 1 1
  (fun _ => Fin 10) (fun _ => Fin 23) [] 0%nat 10 23 toy_lawful); try reflexivity; lra. Qed.

(* ------------------------------------------------------------------ *)
(** * C43: NEST nuclear and electronic recoils *)

Definition nr_chain (o : oracle) (fano_ni fano_nex A xi omega alpha2 : fl) (ThomasImel _Nph _Ne : arr fl)
  : M (arr Z * arr Z * arr Z * (arr Z * arr Z)) :=
  ei <- MeanExcitonIon ThomasImel _Nph _Ne;;
  counts <- TrueExcitonIonNR o fano_ni fano_nex _Nph _Ne (fun e => ei_ratio (ei e)) (fun e => ei_alf (ei e));;
  var <- OmegaNR A xi omega (fun e => ei_elecFrac (ei e)) (fun e => ei_recombProb (ei e)) (fst (fst counts));;
  out <- TruePhotonElectronNR o alpha2 (fun e => ei_recombProb (ei e)) (snd var) (fst (fst counts)) (snd (fst counts)) (snd counts);;
  ret (counts, out).

(** The mean photons and electrons leave room for the ions that the mean electrons need. *)
Theorem C43_nr : forall o fano_ni fano_nex A xi omega alpha2 ThomasImel _Nph _Ne k e ti nph ne,
  0 <= fano_ni -> 0 <= fano_nex -> ThomasImel e = Fin ti -> _Nph e = Fin nph -> _Ne e = Fin ne ->
  0 < ti -> 0 <= nph -> 0 <= ne -> 4 / ti * (exp (ne * ti / 4) - 1) <= nph + ne ->
  let '((ions, excitons, quanta), (photons, electrons)) :=
    result (nr_chain o (Fin fano_ni) (Fin fano_nex) A xi omega alpha2 ThomasImel _Nph _Ne) k in
  conserved (quanta e) (ions e) (excitons e) (photons e) (electrons e).
Proof.
  intros o fi fx A xi om a2 TI _Nph _Ne k e ti nph ne Pi Px HT Hph Hne Pt Pp Pn Room. fold (ions ti ne) in Room.
  unfold nr_chain. rewrite !bind_result. ret_result.
  change (result (MeanExcitonIon TI _Nph _Ne) k) with (fun e => mean_exciton_ion (TI e) (_Nph e) (_Ne e)).
  set (ei := fun e => mean_exciton_ion (TI e) (_Nph e) (_Ne e)). set (k1 := next_key (MeanExcitonIon _ _ _) k).
  pose proof (mean_exciton_ion_value ti nph ne Pt Pp Pn) as V. cbv zeta in V.
  assert (EI : ei e = mean_exciton_ion (Fin ti) (Fin nph) (Fin ne)) by (unfold ei; rewrite HT, Hph, Hne; reflexivity).
  rewrite <- EI in V. destruct V as (Vx & Vi & Vpos & Vzero).
  pose proof (ions_ge ti ne Pt) as G.
  assert (RA : exists r a, ei_ratio (ei e) = Fin r /\ ei_alf (ei e) = Fin a /\ 0 <= a /\ 0 <= (nph + ne) * r * a).
  { destruct Pn as [Pn|Z].
    - destruct (Vpos Pn) as (R & Al & _). eexists _, _. split; [exact R|]. split; [exact Al|]. split.
      + apply Rmult_le_pos; [lra|]. left. apply Rinv_0_lt_compat. lra.
      + match goal with |- 0 <= ?t => replace t with (nph + ne - ions ti ne) by (field; lra) end. lra.
    - destruct (Vzero (eq_sym Z)) as (R & Al & _). eexists _, _. split; [exact R|]. split; [exact Al|]. split; lra. }
  destruct RA as (r & a & R & Al & Pa & Pra).
  pose proof (TrueExcitonIonNR_counts o (Fin fi) (Fin fx) _Nph _Ne (fun e => ei_ratio (ei e)) (fun e => ei_alf (ei e)) k1 e fi fx nph ne r a
    eq_refl eq_refl Hph Hne R Al Pi Px ltac:(lra) Pa Pra) as C.
  set (c := result (TrueExcitonIonNR _ _ _ _ _ _ _) k1) in *. destruct c as [[Ni Nex] Nq]. destruct C as (C1 & C2 & C3).
  cbn [fst snd].
  match goal with |- context [result (TruePhotonElectronNR ?a1 ?a2' ?a3 ?a4 Ni Nex Nq) ?k'] =>
    pose proof (TruePhotonElectronNR_counts a1 a2' a3 a4 Ni Nex Nq k' e C1 C2 C3) as D;
    destruct (result (TruePhotonElectronNR a1 a2' a3 a4 Ni Nex Nq) k') end.
  exact D.
Qed.

(** Without that room the mean number of excitons is negative, the width of their distribution is the
    square root of a negative number, and the number of excitons is whatever NaN is cast to. *)
Theorem C43_nr_refuted : exists o fano_ni fano_nex A xi omega alpha2 ThomasImel _Nph _Ne k e,
  lawful o /\ positive fano_ni /\ positive fano_nex /\ positive (ThomasImel e) /\ finite_nonneg (_Nph e) /\ positive (_Ne e) /\
  let '((_, excitons, _), (photons, _)) := result (nr_chain o fano_ni fano_nex A xi omega alpha2 ThomasImel _Nph _Ne) k in
  excitons e = o_cast o NaN /\ (excitons e < 0)%Z.
Proof.
  exists toy, (Fin 1), (Fin 1), (Fin 1), (Fin 1), (Fin 1), (Fin 1), (fun _ => Fin 1), (fun _ => Fin 0), (fun _ => Fin 8), [], 0%nat.
  split; [apply toy_lawful|]. split; [exists 1; split; [reflexivity|lra]|]. split; [exists 1; split; [reflexivity|lra]|].
  split; [exists 1; split; [reflexivity|lra]|]. split; [exists 0; split; [reflexivity|lra]|]. split; [exists 8; split; [reflexivity|lra]|].
  unfold nr_chain. rewrite !bind_result. ret_result.
  change (result (MeanExcitonIon (fun _ => Fin 1) (fun _ => Fin 0) (fun _ => Fin 8)) []) with (fun _ : nat => mean_exciton_ion (Fin 1) (Fin 0) (Fin 8)).
  destruct (mean_exciton_ion_value 1 0 8 ltac:(lra) ltac:(lra) ltac:(lra)) as (_ & _ & V & _).
  destruct (V ltac:(lra)) as (R & Al & _). clear V.
  assert (G : 12 <= ions 1 8). { unfold ions. replace (8 * 1 / 4) with (1 + 1) by lra. rewrite exp_plus. pose proof (exp_ge 1). nra. }
  set (k1 := next_key _ []).
  assert (X : forall r, snd (fst (result (TrueExcitonIonNR toy (Fin 1) (Fin 1) (fun _ => Fin 0) (fun _ => Fin 8)
     (fun e => ei_ratio (mean_exciton_ion (Fin 1) (Fin 0) (Fin 8))) (fun e => ei_alf (mean_exciton_ion (Fin 1) (Fin 0) (Fin 8)))) r)) 0%nat = (-99)%Z).
  { intros r. unfold TrueExcitonIonNR. rewrite !bind_result. ret_result. cbn [fst snd].
    match goal with |- context [result (truncate_normal toy ?m ?s ?a ?b) ?k'] =>
      change (result (truncate_normal toy m s a b) k' 0%nat) with (clip_opt (#(- / 2) * s 0%nat + m 0%nat)%fl a b) end.
    cbv beta. rewrite R, Al. farith. unfold fsqrt.
    destruct (Rlt_dec (1 * (0 + 8) * ((0 + 8 - ions 1 8) / ions 1 8) * (ions 1 8 / (0 + 8))) 0) as [_|N]; [reflexivity|].
    exfalso. apply N. match goal with |- ?t < 0 => replace t with (8 - ions 1 8) by (field; lra) end. lra. }
  specialize (X k1).
  match type of X with snd (fst ?p) 0%nat = _ => set (c := p) in * end. destruct c as [[Ni Nex] Nq]. cbn [fst snd] in *.
  match goal with |- context [result (TruePhotonElectronNR ?a ?b ?c ?d Ni Nex Nq) ?k'] => destruct (result (TruePhotonElectronNR a b c d Ni Nex Nq) k') end.
  rewrite X. split; [reflexivity|lia].
Qed.

Definition er_nest_chain (o : oracle) (mode : binmode) (size : nat) (fano alf _Nph _Ne recombProb Variance : arr fl)
  : M (arr Z * arr Z * arr Z * (arr Z * arr Z)) :=
  counts <- TrueExcitonIonER o mode size _Nph _Ne fano alf;;
  out <- TruePhotonElectronER o recombProb Variance (fst (fst counts)) (snd counts);;
  ret (counts, out).

(** For every recombination probability and variance, NaN included. *)
Theorem C43_er : forall o mode size fano alf _Nph _Ne recombProb Variance k e f nph ne,
  fano e = Fin f -> _Nph e = Fin nph -> _Ne e = Fin ne -> 0 <= f -> 0 <= nph + ne ->
  let '((ions, excitons, quanta), (photons, electrons)) :=
    result (er_nest_chain o mode size fano alf _Nph _Ne recombProb Variance) k in
  conserved (quanta e) (ions e) (excitons e) (photons e) (electrons e).
Proof.
  intros o mode size fano alf _Nph _Ne rp v k e f nph ne Hf Hph Hne Pf Pn. unfold er_nest_chain. rewrite !bind_result. ret_result.
  pose proof (TrueExcitonIonER_counts o mode size _Nph _Ne fano alf k e nph ne f Hph Hne Hf Pn Pf) as C.
  set (c := result (TrueExcitonIonER _ _ _ _ _ _ _) k) in *. destruct c as [[Ni Nex] Nq]. cbn [fst snd].
  set (k1 := next_key _ k). pose proof (TruePhotonElectronER_counts o rp v Ni Nq k1 e ltac:(lia)) as D.
  destruct (result (TruePhotonElectronER o rp v Ni Nq) k1) as [ph el]. unfold conserved in *. lia.
Qed.

Example C43_case : 4 / 1 * (exp (1 * 1 / 4) - 1) <= 9 + 1 /\
  let '((ions, excitons, quanta), (photons, electrons)) :=
    result (er_nest_chain toy JaxBinomial 1 (fun _ => Fin 1) (fun _ => Fin (/ 2)) (fun _ => Fin 9) (fun _ => Fin 7) (fun _ => Fin (/ 2)) (fun _ => Fin 0)) [] in
  quanta 0%nat = 14%Z.
Proof.
  split.
  - assert (exp (1 * 1 / 4) <= exp 1). { left. apply exp_increasing. lra. } pose proof exp_le_3. lra.
  - unfold er_nest_chain. rewrite !bind_result. ret_result.
    unfold TrueExcitonIonER. rewrite !bind_result. ret_result. cbn [fst snd].
    match goal with |- context [let '(_, _) := ?x in _] => destruct x end.
    change (to_int toy (fround (clip_opt (#(- / 2) * fsqrt (#1 * (#9 + #7)) + (#9 + #7))%fl (Some #0%fl) (Some PInf))) = 14%Z).
    farith. rewrite fsqrt_Fin by lra. farith. replace (1 * (9 + 7)) with (4 * 4) by ring. rewrite sqrt_square by lra.
    unfold clip_opt. rewrite fmax_Fin. change (to_int toy (fround (Fin (Rmax (- / 2 * 4 + (9 + 7)) 0))) = 14%Z).
    rewrite round_to_int. replace (Rmax (- / 2 * 4 + (9 + 7)) 0) with (IZR 14); [apply roundZ_IZR|].
    unfold Rmax. destruct (Rle_dec _ _); lra.
Qed.

(* ------------------------------------------------------------------ *)
(** * C44: efficiencies *)

Definition eff_chain (s2_threshold : fl) (recon cut1 cut2 : fl -> fl) (num_s1_phd : arr Z) (s1_area s2_area : arr fl) : M (arr fl) :=
  a <- S2Threshold s2_threshold s2_area;;
  b <- S1ReconEff recon num_s1_phd;;
  c <- S1CutAccept cut1 s1_area;;
  d <- S2CutAccept cut2 s2_area;;
  Eff a b c d.

(** Whatever the maps return short of NaN. *)
Theorem C44_probability : forall s2_threshold recon cut1 cut2 phd s1 s2 k e,
  recon (of_int (phd e)) <> NaN -> cut1 (s1 e) <> NaN -> cut2 (s2 e) <> NaN ->
  probability (result (eff_chain s2_threshold recon cut1 cut2 phd s1 s2) k e).
Proof.
  intros t recon cut1 cut2 phd s1 s2 k e H1 H2 H3. unfold eff_chain. rewrite !bind_result.
  match goal with |- probability (?x) => change x with
    (where_ (flt t (s2 e)) #1 #0 * clip01 (recon (of_int (phd e))) * clip01 (cut1 (s1 e)) * clip01 (cut2 (s2 e)))%fl end.
  repeat apply prob_mul; try (apply clip01_prob; assumption).
  unfold where_. destruct (flt t (s2 e)); [exists 1|exists 0]; split; try reflexivity; lra.
Qed.

(** Below the threshold nothing is seen; above it the efficiency is the product of the clipped maps. *)
Theorem C44_product : forall t recon cut1 cut2 phd s1 s2 k e S a b c,
  s2 e = Fin S -> recon (of_int (phd e)) = Fin a -> cut1 (s1 e) = Fin b -> cut2 (s2 e) = Fin c ->
  result (eff_chain (Fin t) recon cut1 cut2 phd s1 s2) k e =
  Fin (if Rlt_dec t S then Rmin (Rmax a 0) 1 * Rmin (Rmax b 0) 1 * Rmin (Rmax c 0) 1 else 0).
Proof.
  intros t recon cut1 cut2 phd s1 s2 k e S a b c HS H1 H2 H3. unfold eff_chain. rewrite !bind_result.
  match goal with |- ?x = _ => change x with
    (where_ (flt (Fin t) (s2 e)) #1 #0 * clip01 (recon (of_int (phd e))) * clip01 (cut1 (s1 e)) * clip01 (cut2 (s2 e)))%fl end.
  rewrite H1, H2, H3, HS. unfold clip01. rewrite !fclip_Fin. unfold where_. cbn [flt].
  destruct (Rlt_dec t S); farith; f_equal; ring.
Qed.

(** The placeholder efficiencies are 0 or 1; MonoEnergiesClipEff keeps the energies inside the closed
    interval. *)
Theorem C44_clip : forall lo hi center k e c, center e = Fin c ->
  result (MonoEnergiesClipEff (Fin lo) (Fin hi) center) k e = Fin (if Rle_dec lo c then if Rle_dec c hi then 1 else 0 else 0) /\
  (forall energy, result (BandEnergiesClipEff energy) k e = Fin 1).
Proof.
  intros lo hi center k e c Hc. split; [|reflexivity].
  change (result (MonoEnergiesClipEff (Fin lo) (Fin hi) center) k e) with
    (where_ (fle (Fin lo) (center e) && fle (center e) (Fin hi)) (Fin 1) (Fin 0)).
  rewrite Hc. unfold where_. cbn [fle]. destruct (Rle_dec lo c), (Rle_dec c hi); reflexivity.
Qed.

Example C44_case : result (eff_chain (Fin 100) (fun _ => Fin (/ 2)) (fun _ => Fin 2) (fun _ => Fin (/ 4)) (fun _ => 3%Z) (fun _ => Fin 3) (fun _ => Fin 200)) [] 0%nat = Fin (/ 8).
Proof.
  rewrite (C44_product _ _ _ _ _ _ _ _ _ 200 (/ 2) 2 (/ 4)) by reflexivity. destruct (Rlt_dec 100 200); [|lra]. f_equal.
  unfold Rmin, Rmax. repeat destruct (Rle_dec _ _); lra.
Qed.

(* ------------------------------------------------------------------ *)
(** * C61: the recombination fraction *)

(** The Thomas-Imel value times a logistic factor, exact from t = 1/100 on, and within t^3/4 below. *)
Theorem C61_value : forall o w ratio py0 py1 py2 py3 py4 energy field k e E F,
  w <> 0 -> 1 + ratio <> 0 -> py1 <> 0 -> py4 <> 0 -> energy e = Fin E -> field e = Fin F -> 0 < F ->
  let t := E / w / (1 + ratio) * py0 * exp (- E / py1) * Rpower F py2 / 4 in 0 < t ->
  exists r, result (mTI o (Fin w) (Fin ratio) (Fin py0) (Fin py1) (Fin py2) (Fin py3) (Fin py4) energy field) k e =
      Fin (r * (1 / (1 + exp (- (E - py3) / py4)))) /\
    (1 / 100 <= t -> r = thomas_imel t) /\ (t < 1 / 100 -> 0 <= thomas_imel t - r <= t * t * t / 4).
Proof.
  intros o w ratio py0 py1 py2 py3 py4 energy field k e E F Hw Hr H1 H4 HE HF PF t Pt.
  exists (mti_r t). split; [|split].
  - apply (mTI_value o _ _ _ _ _ _ _ energy field k e w ratio py0 py1 py2 py3 py4 E F); try reflexivity; try assumption.
    change (0 <= t). lra.
  - intros H. unfold mti_r. destruct (Rlt_dec t (1 / 100)); [lra|reflexivity].
  - intros H. unfold mti_r. destruct (Rlt_dec t (1 / 100)); [|lra]. pose proof (thomas_imel_series t Pt). lra.
Qed.

Theorem C61_probability : forall o w ratio py0 py1 py2 py3 py4 energy field k e E F,
  0 < w -> 0 <= ratio -> 0 <= py0 -> py1 <> 0 -> py4 <> 0 -> energy e = Fin E -> field e = Fin F -> 0 <= E -> 0 < F ->
  probability (result (mTI o (Fin w) (Fin ratio) (Fin py0) (Fin py1) (Fin py2) (Fin py3) (Fin py4) energy field) k e).
Proof.
  intros o w ratio py0 py1 py2 py3 py4 energy field k e E F Hw Hr H0 H1 H4 HE HF PE PF.
  assert (B : 0 <= box w ratio py0 py1 py2 E F).
  { unfold box. apply Rmult_le_pos; [|lra]. apply Rmult_le_pos; [|left; apply exp_pos].
    apply Rmult_le_pos; [|left; apply exp_pos]. apply Rmult_le_pos; [|assumption].
    apply Rmult_le_pos; [apply Rmult_le_pos; [assumption|]|]; left; apply Rinv_0_lt_compat; lra. }
  rewrite (mTI_value o _ _ _ _ _ _ _ energy field k e w ratio py0 py1 py2 py3 py4 E F) by (reflexivity || assumption || lra).
  eexists. split; [reflexivity|]. pose proof (mti_r_range _ B). pose proof (sigmoid_range (- (E - py3) / py4)). nra.
Qed.

(** The width and the fraction that is finally used. *)
Theorem C61_width : forall rf0 rf1 energy k e E, energy e = Fin E -> rf1 <> 0 ->
  probability (result (RecombFluct (Fin rf0) (Fin rf1) energy) k e) /\
  (0 <= rf0 <= 1 -> 0 < rf1 -> 0 <= E -> result (RecombFluct (Fin rf0) (Fin rf1) energy) k e = Fin (rf0 * (1 - exp (- E / rf1)))).
Proof.
  intros rf0 rf1 energy k e E HE H.
  change (result (RecombFluct (Fin rf0) (Fin rf1) energy) k e) with (clip01 (Fin rf0 * (#1 - fexp (fneg (energy e) / Fin rf1)))%fl).
  rewrite HE, fneg_Fin, fdiv_Fin by assumption. farith. split; [apply clip01_prob; discriminate|].
  intros H0 H1 PE. apply clip01_inside.
  assert (0 <= E / rf1). { apply Rmult_le_pos; [assumption|]. left. apply Rinv_0_lt_compat. assumption. }
  replace (- E / rf1) with (- (E / rf1)) by (field; assumption).
  assert (exp (- (E / rf1)) <= 1). { rewrite <- exp_0. destruct (Req_dec (E / rf1) 0) as [Z|Z]; [right; f_equal; lra|]. left. apply exp_increasing. lra. }
  pose proof (exp_pos (- (E / rf1))). nra.
Qed.

Theorem C61_fraction : forall o recomb_mean recomb_std k e m s, recomb_mean e = Fin m -> recomb_std e = Fin s ->
  probability (result (TrueRecombER o recomb_mean recomb_std) k e).
Proof. exact TrueRecombER_range. Qed.

Example C61_case : probability (result (mTI toy (Fin (137 / 10000)) (Fin (15 / 100)) (Fin (12 / 100)) (Fin 24) (Fin (-24 / 100)) (Fin 1) (Fin 1)
  (fun _ => Fin 10) (fun _ => Fin 23)) [] 0%nat).
Proof. apply (C61_probability toy _ _ _ _ _ _ _ _ _ _ _ 10 23); try reflexivity; lra. Qed.

(* ------------------------------------------------------------------ *)
(** * C62: detected numbers *)

Theorem C62_photons : forall o mode size g1 p_dpe num_photon s1_lce k e l, lawful o -> s1_lce e = Fin l -> 0 <= p_dpe -> (0 <= num_photon e)%Z ->
  (0 <= result (PhotonDetection o mode size (Fin g1) (Fin p_dpe) num_photon s1_lce) k e <= num_photon e)%Z.
Proof.
  intros o mode size g1 d n lce k e l L Hl Hd Hn. unfold PhotonDetection.
  destruct (clip01_prob (Fin (g1 * l / (1 + d)))) as (p & E & P); [discriminate|].
  apply (binomial_range o mode size k _ _ e p); try assumption. rewrite Hl. farith. rewrite fdiv_Fin by lra. exact E.
Qed.

(** Each detected photon gives one or two photoelectrons. *)
Theorem C62_photoelectrons : forall o mode size p_dpe phd k e, lawful o -> 0 <= p_dpe <= 1 -> (0 <= phd e)%Z ->
  (phd e <= result (S1PE o mode size (Fin p_dpe) phd) k e <= 2 * phd e)%Z.
Proof.
  intros o mode size d n k e L Hd Hn. unfold S1PE. rewrite bind_result. ret_result. cbv beta.
  pose proof (binomial_range o mode size k (fun _ => Fin d) n e d L eq_refl Hd Hn). lia.
Qed.

(** Electrons survive the drift with a probability that is positive, at most 1, and decreases with
    depth. *)
Theorem C62_drift : forall o elife v sigma z k e Z life, lawful o -> 0 < v ->
  (forall p, 0 <= p < 1 -> elife (Fin p) = Fin (life p) /\ 0 < life p * (1 + sigma)) -> z e = Fin Z ->
  exists p x, 0 <= p < 1 /\ result (DriftLoss o elife (Fin v) (Fin sigma) z) k e = Fin x /\ 0 < x <= 1 /\
    x = exp (- (Rabs Z / (v * (life p * (1 + sigma))))).
Proof.
  intros o elife v sg z k e Z life L Pv HL HZ. pose proof (law_unif o L (child k 1) e) as U.
  unfold DriftLoss. rewrite bind_result. ret_result. cbv beta.
  change (result (uniform o (fun _ => #0%fl) (fun _ => #1%fl)) k e) with (fmax #0 (#(o_unif o (child k 1) e) * (#1 - #0) + #0))%fl.
  farith. rewrite fmax_Fin. set (p := o_unif o (child k 1) e) in *.
  replace (Rmax 0 (p * (1 - 0) + 0)) with p by (unfold Rmax; destruct (Rle_dec _ _); lra).
  destruct (HL p U) as (E & PL). rewrite E, HZ. farith. rewrite (fdiv_Fin _ v) by lra. rewrite fdiv_Fin by lra. rewrite fexp_Fin.
  exists p. eexists. split; [assumption|]. split; [reflexivity|].
  assert (X : - Rabs Z / v / (life p * (1 + sg)) = - (Rabs Z / (v * (life p * (1 + sg))))).
  { set (c := life p * (1 + sg)) in *. field. split; lra. }
  rewrite X. split; [|reflexivity]. split; [apply exp_pos|].
  assert (0 <= Rabs Z / (v * (life p * (1 + sg)))).
  { apply Rmult_le_pos; [apply Rabs_pos|]. left. apply Rinv_0_lt_compat. apply Rmult_lt_0_compat; assumption. }
  apply exp_neg_le. assumption.
Qed.

Theorem C62_electrons : forall o mode size n p k e, lawful o -> probability (p e) -> (0 <= n e)%Z ->
  (0 <= result (ElectronDrifted o mode size n p) k e <= n e)%Z.
Proof. intros o mode size n p k e L (r & E & P) Hn. apply (binomial_range o mode size k _ _ e r); assumption. Qed.

(** S2 signals: a whole number between once and twice a number of detected photons; none without
    electrons. *)
Theorem C62_s2 : forall o mode size rel g2 gain p_dpe n lce x y k e r l, lawful o ->
  rel (x e) (y e) = Fin r -> lce e = Fin l -> 0 < gain * r -> 0 <= g2 <= gain * r -> 0 <= l -> 0 <= p_dpe <= 1 -> (0 <= n e)%Z ->
  exists phd pe, result (S2PE o mode size rel (Fin g2) (Fin gain) (Fin p_dpe) n lce x y) k e = Fin (IZR pe) /\
    (0 <= phd)%Z /\ (phd <= pe <= 2 * phd)%Z /\ (n e = 0%Z -> pe = 0%Z).
Proof.
  intros o mode size rel g2 gain d n lce x y k e r l L Hr Hl Pg Hg Pl Hd Hn. unfold S2PE. rewrite !bind_result. ret_result. cbv beta.
  set (k1 := next_key (binomial _ _ _ _ _) k).
  set (ext := result (binomial _ _ _ _ _) k).
  assert (X : (0 <= ext e <= n e)%Z).
  { apply (binomial_range o mode size k _ _ e (g2 / (gain * r))); [assumption| | |assumption].
    - rewrite Hr. farith. rewrite fdiv_Fin by lra. reflexivity.
    - assert (g2 / (gain * r) * (gain * r) = g2) by (set (c := gain * r) in *; field; lra). split; [|nra].
      apply Rmult_le_pos; [lra|]. left. apply Rinv_0_lt_compat. assumption. }
  set (m := fun e => (of_int (ext e) * _)%fl).
  assert (ME : m e = Fin (IZR (ext e) * (gain * r * l / (1 + d)))).
  { unfold m. rewrite Hr, Hl. farith. rewrite fdiv_Fin by lra. reflexivity. }
  assert (NN : 0 <= gain * r * l / (1 + d)).
  { apply Rmult_le_pos; [apply Rmult_le_pos; lra|]. left. apply Rinv_0_lt_compat. lra. }
  set (phd := result (poisson o m) k1). set (k2 := next_key (poisson o m) k1).
  assert (PH : (0 <= phd e)%Z).
  { change (phd e) with (o_pois o (child k1 1) e (m e)). rewrite ME. apply (law_pois o L). apply Rmult_le_pos; [apply (IZR_le 0); lia|assumption]. }
  pose proof (binomial_range o mode size k2 (fun _ => Fin d) phd e d L eq_refl Hd PH) as B.
  exists (phd e), (phd e + result (binomial o mode size (fun _ => Fin d) phd) k2 e)%Z.
  split; [reflexivity|]. split; [assumption|]. split; [lia|]. intros Z.
  assert (phd e = 0%Z); [|lia]. change (phd e) with (o_pois o (child k1 1) e (m e)). rewrite ME.
  replace (ext e) with 0%Z by lia. rewrite Rmult_0_l. apply (law_pois_0 o L).
Qed.

(** The extraction efficiency g2 / (gain * relative gain) is not limited to 1. Beyond, the hybrid
    sampler extracts every electron, so g2 no longer has any effect; the other samplers are called
    outside their domain. *)
Theorem C62_g2_saturates : forall o size rel g2 g2' gain p_dpe n lce x y k e,
  (forall e, exists r, rel (x e) (y e) = Fin r /\ 0 < gain * r /\ gain * r <= g2 /\ gain * r <= g2') -> (forall e, (0 <= n e)%Z) ->
  result (S2PE o Hybrid size rel (Fin g2) (Fin gain) (Fin p_dpe) n lce x y) k e =
  result (S2PE o Hybrid size rel (Fin g2') (Fin gain) (Fin p_dpe) n lce x y) k e.
Proof.
  intros o size rel g2 g2' gain d n lce x y k e Hr Hn.
  assert (B : forall g, (forall e, exists r, rel (x e) (y e) = Fin r /\ 0 < gain * r /\ gain * r <= g) -> forall i,
     result (binomial o Hybrid size (fun e => Fin g / (Fin gain * rel (x e) (y e)))%fl n) k i = n i).
  { intros g Hg i. destruct (Hg i) as (r & E & P & Q). unfold binomial.
    apply (hybrid_hit o _ k _ n i (g / (gain * r))); [| |apply Hn].
    - rewrite E. farith. rewrite fdiv_Fin by lra. reflexivity.
    - assert (g / (gain * r) * (gain * r) = g) by (set (c := gain * r) in *; field; lra). nra. }
  set (k1 := child k 0).
  assert (V : forall g, (forall e, exists r, rel (x e) (y e) = Fin r /\ 0 < gain * r /\ gain * r <= g) ->
    result (S2PE o Hybrid size rel (Fin g) (Fin gain) (Fin d) n lce x y) k e =
    of_int (o_pois o (child k1 1) e (of_int (n e) * (Fin gain * rel (x e) (y e) * lce e / (#1 + Fin d)))%fl +
      result (binomial_hybrid o HYBRID_BERNOULLI_THRESHOLD (fun _ => Fin d) (fun i => o_pois o (child k1 1) i (of_int (n i) * (Fin gain * rel (x i) (y i) * lce i / (#1 + Fin d)))%fl)) (child k1 0) e)).
  { intros g Hg. unfold S2PE. rewrite !bind_result. ret_result. cbv beta zeta.
    change (next_key (binomial o Hybrid size (fun e0 => (Fin g / (Fin gain * rel (x e0) (y e0)))%fl) n) k) with k1.
    match goal with |- context [next_key (poisson o ?m) k1] => change (next_key (poisson o m) k1) with (child k1 0);
      change (result (poisson o m) k1) with (fun i => o_pois o (child k1 1) i (m i)) end. cbv beta.
    rewrite (B g Hg). f_equal. f_equal. unfold binomial at 1. rewrite !hybrid_result. rewrite (B g Hg). reflexivity. }
  rewrite !V; [reflexivity| |]; intros i; destruct (Hr i) as (r & ? & ? & ? & ?); exists r; auto.
Qed.

(** Called outside its domain, an admissible binomial sampler may return a negative number: an S2
    signal of -1 photoelectrons from five electrons. *)
Theorem C62_g2_above_gain_refuted : exists o rel g2 gain p_dpe n lce x y k e,
  lawful o /\ 0 < gain < g2 /\ 0 <= p_dpe <= 1 /\ (0 <= n e)%Z /\ positive (lce e) /\ rel (x e) (y e) = Fin 1 /\
  exists s, result (S2PE o JaxBinomial 1 rel (Fin g2) (Fin gain) (Fin p_dpe) n lce x y) k e = Fin s /\ s < 0.
Proof.
  set (o := mk_oracle (fun _ _ => 0) (fun _ _ => 0)
    (fun _ _ lam => match lam with Fin r => if Rlt_dec r 0 then -1 else 0 | _ => 0 end)%Z (fun _ _ _ => Fin 1) (fun _ _ _ => true)
    (fun _ _ n p => match p with Fin r => if Rlt_dec 1 r then -1 else 0 | _ => 0 end)%Z
    (fun _ => 0%Z) (fun _ _ => NaN) (fun x => 0)).
  exists o, (fun _ _ => Fin 1), 2, 1, 0, (fun _ => 5%Z), (fun _ => Fin 1), (fun _ => Fin 0), (fun _ => Fin 0), [], 0%nat.
  split.
  { constructor; cbn [o o_unif o_pois o_gamma o_binom o_erf]; intros; try lra.
    - destruct (Rlt_dec lam 0); [lra|lia].
    - destruct (Rlt_dec 0 0); [lra|lia].
    - exists 1. split; [reflexivity|lra].
    - destruct (Rlt_dec 1 p); [lra|lia]. }
  split; [lra|]. split; [lra|]. split; [lia|]. split; [exists 1; split; [reflexivity|lra]|]. split; [reflexivity|].
  unfold S2PE. rewrite !bind_result. ret_result. cbv beta.
  match goal with |- context [result (binomial o JaxBinomial 1 ?p ?n) []] =>
    assert (X : result (binomial o JaxBinomial 1 p n) [] 0%nat = (-1)%Z) end.
  { change ((match (Fin 2 / (Fin 1 * Fin 1))%fl with Fin r => if Rlt_dec 1 r then -1 else 0 | _ => 0 end)%Z = (-1)%Z).
    farith. rewrite fdiv_Fin by lra. destruct (Rlt_dec 1 (2 / (1 * 1))); [reflexivity|lra]. }
  match goal with |- context [result (poisson o ?m) ?k1] => assert (Y : result (poisson o m) k1 0%nat = (-1)%Z) end.
  { match goal with |- result (poisson o ?m) ?k1 0%nat = _ =>
      change ((match m 0%nat with Fin r => if Rlt_dec r 0 then -1 else 0 | _ => 0 end)%Z = (-1)%Z) end.
    cbv beta. rewrite X. unfold of_int. farith. rewrite fdiv_Fin by lra. farith.
    destruct (Rlt_dec (-1 * (1 * 1 * 1 / (1 + 0))) 0); [reflexivity|lra]. }
  match goal with |- context [result (binomial o JaxBinomial 1 ?p ?n) ?k2] => 
    match n with result (poisson _ _) _ => assert (W : result (binomial o JaxBinomial 1 p n) k2 0%nat = 0%Z) end end.
  { change ((if Rlt_dec 1 0 then -1 else 0)%Z = 0%Z). destruct (Rlt_dec 1 0); [lra|reflexivity]. }
  rewrite Y, W. eexists. split; [reflexivity|]. cbn. lra.
Qed.

Example C62_case : result (S1PE toy JaxBinomial 1 (Fin (/ 4)) (fun _ => 7%Z)) [] 0%nat = 14%Z.
Proof. change (((if Rle_dec (/ 4) 0 then 0 else 7) + 7)%Z = 14%Z). destruct (Rle_dec (/ 4) 0); [lra|reflexivity]. Qed.

(* ------------------------------------------------------------------ *)
(** * C63: positions and energies *)

Theorem C63_cylinder : forall o z_min z_max r_max k e, lawful o -> z_min <= z_max -> 0 <= r_max ->
  let '(x, y, z) := result (PositionSpectra o (Fin z_min) (Fin z_max) (Fin r_max)) k in
  exists a b c, x e = Fin a /\ y e = Fin b /\ z e = Fin c /\
    a * a + b * b <= r_max * r_max /\ (0 < r_max -> a * a + b * b < r_max * r_max) /\ z_min <= c <= z_max.
Proof.
  intros o z0 z1 R k e L Hz HR. unfold PositionSpectra. rewrite !bind_result. ret_result. cbv beta iota zeta.
  destruct (C60_uniform o (fun _ => Fin z0) (fun _ => Fin z1) k e z0 z1 L eq_refl eq_refl Hz) as (c & -> & Hc & _).
  set (k1 := next_key _ k).
  destruct (C60_uniform o (fun _ => #0%fl) (fun _ => (Fin R * Fin R)%fl) k1 e 0 (R * R) L eq_refl eq_refl ltac:(nra)) as (q & -> & Hq & Hq').
  set (k2 := next_key _ k1). pose proof PI_RGT_0 as PIP.
  destruct (C60_uniform o (fun _ => #0%fl) (fun _ => #(2 * PI)%fl) k2 e 0 (2 * PI) L eq_refl eq_refl ltac:(lra)) as (t & -> & Ht & _).
  rewrite fsqrt_Fin by lra. cbn [on_fin]. farith. eexists _, _, _. split; [reflexivity|]. split; [reflexivity|]. split; [reflexivity|].
  assert (E : sqrt q * cos t * (sqrt q * cos t) + sqrt q * sin t * (sqrt q * sin t) = q).
  { pose proof (sin2_cos2 t) as S. unfold Rsqr in S. pose proof (sqrt_sqrt q (proj1 Hq)) as Q.
    replace (sqrt q * cos t * (sqrt q * cos t) + sqrt q * sin t * (sqrt q * sin t)) with (sqrt q * sqrt q * (sin t * sin t + cos t * cos t)) by ring.
    rewrite S, Q. ring. }
  rewrite E. split; [lra|]. split; [|lra]. intros P. apply Hq'. nra.
Qed.

Theorem C63_energy : forall o lo hi k e, lawful o -> lo <= hi ->
  (exists x, result (UniformEnergySpectra o (Fin lo) (Fin hi)) k e = Fin x /\ lo <= x <= hi /\ (lo < hi -> x < hi)) /\
  (exists x, result (UniformEnergiesSpectra o (Fin lo) (Fin hi)) k e = Fin x /\ lo <= x <= hi /\ (lo < hi -> x < hi)) /\
  (forall c, result (MonoEnergySpectra (Fin c)) k e = Fin c) /\
  (forall spectrum, exists p, 0 <= p < 1 /\ result (FixedEnergySpectra o spectrum) k e = spectrum (Fin p)).
Proof.
  intros o lo hi k e L H. split; [|split; [|split]].
  - apply C60_uniform; auto.
  - apply C60_uniform; auto.
  - reflexivity.
  - intros spectrum. destruct (C60_uniform o (fun _ => #0%fl) (fun _ => #1%fl) k e 0 1 L eq_refl eq_refl ltac:(lra)) as (p & E & Hp & Hp').
    exists p. split; [lra|]. unfold FixedEnergySpectra. rewrite bind_result. ret_result. cbv beta. rewrite E. reflexivity.
Qed.

(** The mono-energetic lines never give a negative energy, and report their centres. *)
Theorem C63_lines : forall o mu sp sn k e m a b, mu e = Fin m -> sp e = Fin a -> sn e = Fin b -> 0 < a -> 0 < b ->
  let '(energy, center) := result (MonoEnergiesSpectra o mu sp sn) k in finite_nonneg (energy e) /\ center e = Fin m.
Proof.
  intros o mu sp sn k e m a b Hm Ha Hb Pa Pb. unfold MonoEnergiesSpectra. rewrite bind_result. ret_result. cbv beta iota.
  split; [|assumption]. rewrite (twohalfnorm_value o mu sp sn k e m a b) by assumption. rewrite clip_pos_Fin.
  eexists. split; [reflexivity|apply Rmax_r].
Qed.

Example C63_case : let '(x, y, z) := result (PositionSpectra toy (Fin (-134)) (Fin (-13)) (Fin 60)) [] in
  exists c, z 0%nat = Fin c /\ -134 <= c <= -13.
Proof.
  pose proof (C63_cylinder toy (-134) (-13) 60 [] 0%nat toy_lawful ltac:(lra) ltac:(lra)) as C.
  destruct (result (PositionSpectra toy (Fin (-134)) (Fin (-13)) (Fin 60)) []) as [[x y] z].
  destruct C as (a & b & c & _ & _ & H & _ & _ & H'). exists c. auto.
Qed.

(* ------------------------------------------------------------------ *)
(** * C64: the density in the charge yield of electronic recoils *)

(** The density is listed among the parameters of QyER, but its value makes no difference. *)
Theorem C64_density_ignored : forall o m1 m2 m3 m4 m7 m8 m9 m10 w D D' energy ratio field k e, 0 < D -> 0 < D' ->
  result (QyER o m1 m2 m3 m4 m7 m8 m9 m10 w (Fin D) energy ratio field) k e =
  result (QyER o m1 m2 m3 m4 m7 m8 m9 m10 w (Fin D') energy ratio field) k e.
Proof.
  intros o m1 m2 m3 m4 m7 m8 m9 m10 w D D' energy ratio field k e P P'.
  unfold QyER. unfold result, ret. cbn [fst]. cbv zeta.
  pose proof (density_factor o D P) as F. pose proof (density_factor o D' P') as F'. cbv zeta in F, F'.
  rewrite F, F'. reflexivity.
Qed.

(** A charge yield that did depend on it, for comparison: the Thomas-Imel parameter of nuclear recoils. *)
Theorem C64_nr_density_matters : forall o gamma delta D D' field k e F, field e = Fin F -> 0 < F -> 0 < gamma -> 0 < D < D' ->
  exists t t', result (ThomasImelBox o (Fin gamma) (Fin delta) (Fin D) field) k e = Fin t /\
    result (ThomasImelBox o (Fin gamma) (Fin delta) (Fin D') field) k e = Fin t' /\ 0 < t < t'.
Proof.
  intros o g d D D' field k e F HF PF Pg PD. unfold ThomasImelBox, result, ret. cbn [fst]. rewrite HF. unfold f10.
  rewrite !fdiv_Fin by lra. rewrite !fpow_pos by (assumption || lra). farith. eexists _, _. split; [reflexivity|]. split; [reflexivity|].
  assert (A : 0 < Rpower F d) by apply exp_pos. assert (B : 0 < Rpower (D / (29 / 10)) (3 / 10)) by apply exp_pos.
  assert (C : Rpower (D / (29 / 10)) (3 / 10) < Rpower (D' / (29 / 10)) (3 / 10)).
  { unfold Rpower. apply exp_increasing. apply Rmult_lt_compat_l; [lra|]. apply ln_increasing; lra. }
  assert (G : 0 < g * Rpower F d) by (apply Rmult_lt_0_compat; assumption). split.
  - apply Rmult_lt_0_compat; lra.
  - apply Rmult_lt_compat_l; lra.
Qed.

Example C64_case : exists x, result (ThomasImelBox toy (Fin 1) (Fin 1) (Fin (29 / 10)) (fun _ => Fin 23)) [] 0%nat = Fin x /\ x = 23.
Proof.
  unfold ThomasImelBox, result, ret. cbn [fst]. unfold f10. rewrite fdiv_Fin by lra. rewrite !fpow_pos by lra. farith.
  eexists. split; [reflexivity|]. replace (29 / 10 / (29 / 10)) with 1 by field. rewrite Rpower_1 by lra.
  unfold Rpower. rewrite ln_1, Rmult_0_r, exp_0. ring.
Qed.

(* ------------------------------------------------------------------ *)
(** * C65: mean yields *)

(** Yields are never negative. *)
Theorem C65_yields : forall (qy ly : fl -> fl) t energy k e, (qy (energy e) * (#1 + t))%fl <> NaN -> (ly (energy e) * (#1 + t))%fl <> NaN ->
  (result (ChargeYield qy t energy) k e = PInf \/ finite_nonneg (result (ChargeYield qy t energy) k e)) /\
  (result (LightYield ly t energy) k e = PInf \/ finite_nonneg (result (LightYield ly t energy) k e)).
Proof. intros. split; apply clip_pos_ok; assumption. Qed.

(** Fewer than one mean quantum counts as none. *)
Theorem C65_validity : forall ly qy energy k e l q E, ly e = Fin l -> qy e = Fin q -> energy e = Fin E ->
  let '(nph, ne) := result (MeanNphNe ly qy energy) k in
  (1 <= l * E + q * E -> nph e = Fin (l * E) /\ ne e = Fin (q * E)) /\
  (l * E + q * E < 1 -> nph e = Fin 0 /\ ne e = Fin 0).
Proof.
  intros ly qy energy k e l q E Hl Hq HE. unfold MeanNphNe. ret_result. cbv beta iota zeta. rewrite Hl, Hq, HE. farith.
  unfold where_. cbn [fle]. destruct (Rle_dec 1 (l * E + q * E)); split; intros; try lra; split; reflexivity.
Qed.

(** Mean excitons and ions: they add up to the quanta, ions are at least the electrons, and the
    recombination probability is that of the ions that did not become electrons. *)
Theorem C65_exciton_ion : forall ThomasImel _Nph _Ne k e ti nph ne,
  ThomasImel e = Fin ti -> _Nph e = Fin nph -> _Ne e = Fin ne -> 0 < ti -> 0 <= nph -> 0 <= ne ->
  let ei := result (MeanExcitonIon ThomasImel _Nph _Ne) k e in
  exists nex ni r, ei_nex ei = Fin nex /\ ei_ni ei = Fin ni /\ nex + ni = nph + ne /\ ne <= ni /\
    ei_recombProb ei = Fin r /\ 0 <= r <= 1 /\ (0 < ne -> (1 - r) * ni = ne) /\
    (0 < ne -> exists a, ei_alf ei = Fin a /\ a * (nph + ne) = ni).
Proof.
  intros TI _Nph _Ne k e ti nph ne HT Hph Hne Pt Pp Pn. cbv zeta.
  change (result (MeanExcitonIon TI _Nph _Ne) k e) with (mean_exciton_ion (TI e) (_Nph e) (_Ne e)). rewrite HT, Hph, Hne.
  pose proof (mean_exciton_ion_value ti nph ne Pt Pp Pn) as V. cbv zeta in V. destruct V as (Vx & Vi & Vp & V0).
  pose proof (ions_ge ti ne Pt) as G. destruct Pn as [Pn|Z].
  - destruct (Vp Pn) as (_ & Al & _ & R). exists (nph + ne - ions ti ne), (ions ti ne), (1 - ne / ions ti ne).
    assert (X : ne / ions ti ne * ions ti ne = ne) by (field; lra).
    assert (Y : 0 <= ne / ions ti ne). { apply Rmult_le_pos; [lra|]. left. apply Rinv_0_lt_compat. lra. }
    repeat split; try assumption; try lra; try nra.
    intros _. eexists. split; [exact Al|]. field. lra.
  - destruct (V0 (eq_sym Z)) as (_ & Al & _ & R). exists (nph + ne - ions ti ne), (ions ti ne), 1.
    repeat split; try assumption; try lra; intros; exfalso; lra.
Qed.

(** Electronic recoils: light and charge add up to the quanta of the energy unless the charge alone
    exceeds them. *)
Theorem C65_er : forall w qy energy k k' e q E, 0 < w -> qy e = Fin q -> energy e = Fin E ->
  let ly := result (LyER (Fin w) qy) k in
  let '(nph, ne) := result (MeanNphNeER ly qy energy) k' in
  exists a b, nph e = Fin a /\ ne e = Fin b /\ (q <= 1 / w -> a + b = E / w) /\ (1 / w <= q -> a = 0 /\ b = q * E).
Proof.
  intros w qy energy k k' e q E Pw Hq HE. cbv zeta. unfold MeanNphNeER. ret_result. cbv beta iota.
  change (result (LyER (Fin w) qy) k e) with (fmax (#1 / Fin w - qy e) #0)%fl. rewrite Hq, HE. rewrite fdiv_Fin by lra. farith.
  rewrite fmax_Fin. farith. eexists _, _. split; [reflexivity|]. split; [reflexivity|]. unfold Rmax.
  destruct (Rle_dec (1 / w - q) 0); split; intros H.
  - assert (q = 1 / w) as -> by lra. field. lra.
  - split; ring.
  - field. lra.
  - split; [|ring]. assert (q = 1 / w) as -> by lra. ring.
Qed.

(** Nuclear recoils: the numbers of photons and electrons are not negative, and together they are
    at most the quanta of the energy, unless the charge alone exceeds them; there is no light then. *)
Theorem C65_nr : forall o alpha beta epsilon zeta eta theta iota energy TI k1 k2 k3 k4 e E ti,
  energy e = Fin E -> TI e = Fin ti -> 0 < E -> 0 < ti -> 0 < alpha -> 0 <= epsilon -> 0 < zeta -> 0 < theta ->
  let nq := result (TotalQuanta o (Fin alpha) (Fin beta) energy) k1 in
  let qy := result (QyNR o (Fin epsilon) (Fin zeta) (Fin eta) energy TI) k2 in
  let ly := result (LyNR o (Fin theta) (Fin iota) energy nq qy) k3 in
  let '(nph, ne) := result (MeanNphNe ly qy energy) k4 in
  exists n q a b, nq e = Fin n /\ 0 < n /\ qy e = Fin q /\ 0 < q /\ nph e = Fin a /\ ne e = Fin b /\ 0 <= a /\ 0 <= b <= q * E /\
    (b = q * E \/ (a = 0 /\ b = 0)) /\ (q * E < n -> a + b < n) /\ (n <= q * E -> a = 0).
Proof.
  intros o alpha beta eps zeta eta theta iota energy TI k1 k2 k3 k4 e E ti HE HT PE Pt Pa Pe Pz Pth. cbv zeta.
  set (n := alpha * Rpower E beta). assert (Pn : 0 < n) by (apply Rmult_lt_0_compat; [assumption|apply exp_pos]).
  assert (Hn : result (TotalQuanta o (Fin alpha) (Fin beta) energy) k1 e = Fin n).
  { unfold TotalQuanta. ret_result. cbv beta. rewrite HE, fpow_pos by assumption. farith. reflexivity. }
  assert (Hsat : forall x y, 0 < x -> exists s, (#1 - #1 / (#1 + fpow o (Fin x) (Fin y)))%fl = Fin s /\ 0 < s < 1).
  { intros x y Px. rewrite fpow_pos by assumption. farith. assert (P := exp_pos (y * ln x)). fold (Rpower x y) in P.
    rewrite fdiv_Fin by lra. farith. eexists. split; [reflexivity|].
    assert (A : 0 < 1 / (1 + Rpower x y)) by (apply Rdiv_lt_0_compat; lra).
    assert (B : 1 / (1 + Rpower x y) * (1 + Rpower x y) = 1) by (field; lra). nra. }
  assert (Hq : exists q, result (QyNR o (Fin eps) (Fin zeta) (Fin eta) energy TI) k2 e = Fin q /\ 0 < q).
  { unfold QyNR. ret_result. cbv beta zeta. rewrite HE, HT. rewrite (fdiv_Fin E) by lra.
    destruct (Hsat (E / zeta) eta) as (s & -> & Ps); [apply Rdiv_lt_0_compat; assumption|].
    farith. rewrite fsqrt_Fin by lra. assert (Sq : 0 < sqrt (E + eps)) by (apply sqrt_lt_R0; lra).
    rewrite !fdiv_Fin by lra. farith. rewrite clip_pos_Fin.
    assert (Q : 0 < 1 / ti / sqrt (E + eps) * s).
    { apply Rmult_lt_0_compat; [|lra]. apply Rdiv_lt_0_compat; [|exact Sq]. apply Rdiv_lt_0_compat; lra. }
    eexists. split; [reflexivity|]. unfold Rmax. destruct (Rle_dec _ _); lra. }
  destruct Hq as (q & Hq & Pq).
  set (nq := result (TotalQuanta o (Fin alpha) (Fin beta) energy) k1) in *.
  set (qy := result (QyNR o (Fin eps) (Fin zeta) (Fin eta) energy TI) k2) in *.
  assert (Hl : exists l, result (LyNR o (Fin theta) (Fin iota) energy nq qy) k3 e = Fin l /\ 0 <= l /\
    (q * E < n -> l * E + q * E < n) /\ (n <= q * E -> l = 0)).
  { unfold LyNR. ret_result. cbv beta zeta. rewrite HE, Hq, Hn. rewrite (fdiv_Fin E) by lra. rewrite (fdiv_Fin n) by lra.
    destruct (Hsat (E / theta) iota) as (s & -> & Ps); [apply Rdiv_lt_0_compat; assumption|].
    farith. rewrite clip_pos_Fin. eexists. split; [reflexivity|]. split; [apply Rmax_r|].
    assert (X : (n / E - q) * E = n - q * E) by (field; lra).
    split; intros Hc; unfold Rmax; destruct (Rle_dec _ _) as [H|H].
    - lra.
    - replace ((n / E - q) * s * E) with ((n / E - q) * E * s) by ring. rewrite X. nra.
    - reflexivity.
    - exfalso. apply H. assert (n / E - q <= 0) by nra. nra. }
  destruct Hl as (l & Hl & Pl & L1 & L2).
  pose proof (C65_validity (result (LyNR o (Fin theta) (Fin iota) energy nq qy) k3) qy energy k4 e l q E Hl Hq HE) as V.
  destruct (result (MeanNphNe (result (LyNR o (Fin theta) (Fin iota) energy nq qy) k3) qy energy) k4) as [nph ne].
  destruct V as [V1 V2]. exists n, q.
  assert (PlE : 0 <= l * E) by (apply Rmult_le_pos; lra). assert (PqE : 0 < q * E) by (apply Rmult_lt_0_compat; lra).
  destruct (Rle_lt_dec 1 (l * E + q * E)) as [H|H].
  - destruct (V1 H) as [-> ->]. exists (l * E), (q * E). repeat split; try assumption; try lra; try (left; reflexivity).
    intros Hc. rewrite (L2 Hc). ring.
  - destruct (V2 H) as [-> ->]. exists 0, 0. repeat split; try assumption; try lra; right; split; reflexivity.
Qed.

(** At zero energy the light yield is 0/0, but no quanta come out. *)
Theorem C65_nr_zero_energy : forall o alpha beta epsilon zeta eta theta iota energy TI k1 k2 k3 k4 e ti,
  energy e = Fin 0 -> TI e = Fin ti -> 0 < ti -> 0 < beta -> 0 < epsilon -> 0 < zeta -> 0 < eta ->
  let nq := result (TotalQuanta o (Fin alpha) (Fin beta) energy) k1 in
  let qy := result (QyNR o (Fin epsilon) (Fin zeta) (Fin eta) energy TI) k2 in
  let ly := result (LyNR o (Fin theta) (Fin iota) energy nq qy) k3 in
  let '(nph, ne) := result (MeanNphNe ly qy energy) k4 in
  ly e = NaN /\ nph e = Fin 0 /\ ne e = Fin 0.
Proof.
  intros o alpha beta eps zeta eta theta iota energy TI k1 k2 k3 k4 e ti HE HT Pt Pb Pe Pz Pet. cbv zeta.
  assert (Hp : forall y, 0 < y -> fpow o (Fin 0) (Fin y) = Fin 0).
  { intros y Py. unfold fpow. destruct (Rlt_dec 0 0); [lra|]. destruct (Req_EM_T 0 0); [|lra]. destruct (Rlt_dec 0 y); [reflexivity|lra]. }
  assert (Hn : result (TotalQuanta o (Fin alpha) (Fin beta) energy) k1 e = Fin 0).
  { unfold TotalQuanta. ret_result. cbv beta. rewrite HE, Hp by assumption. farith. f_equal. ring. }
  assert (Hl : forall nq qy k, nq e = Fin 0 -> result (LyNR o (Fin theta) (Fin iota) energy nq qy) k e = NaN).
  { intros nq qy k H. unfold LyNR. ret_result. cbv beta zeta. rewrite HE, H.
    assert (D : (Fin 0 / Fin 0)%fl = NaN).
    { unfold fdiv, finv. destruct (Req_EM_T 0 0); [|lra]. cbn [fmul]. unfold inf_times.
      destruct (total_order_T 0 0) as [[?|?]|?]; [lra|reflexivity|lra]. }
    rewrite D. reflexivity. }
  set (nq := result (TotalQuanta o (Fin alpha) (Fin beta) energy) k1) in *.
  set (qy := result (QyNR o (Fin eps) (Fin zeta) (Fin eta) energy TI) k2) in *.
  pose proof (Hl nq qy k3 Hn) as HL. set (ly := result (LyNR o (Fin theta) (Fin iota) energy nq qy) k3) in *.
  unfold MeanNphNe. ret_result. cbv beta iota zeta. rewrite HL. split; [reflexivity|]. split; reflexivity.
Qed.

Example C65_case : exists a, ei_alf (result (MeanExcitonIon (fun _ => Fin 1) (fun _ => Fin 9) (fun _ => Fin 1)) [] 0%nat) = Fin a /\ 0 < a.
Proof.
  destruct (C65_exciton_ion (fun _ => Fin 1) (fun _ => Fin 9) (fun _ => Fin 1) [] 0%nat 1 9 1) as (x & i & r & _ & _ & _ & H & _ & _ & _ & A); try reflexivity; try lra.
  destruct A as (a & A & B); [lra|]. exists a. split; [assumption|]. nra.
Qed.

(* ------------------------------------------------------------------ *)
(** * C66: mean and variance of the electrons of nuclear recoils *)

(** Before rounding and clipping the number of electrons is a function of the two normal numbers, whose
    mean is (1 - recombination) * ions and whose variance is the given one, whatever the skewness. *)
Theorem C66_moments : forall o alpha2 recombProb Variance Ni Nex Nq k e r v,
  recombProb e = Fin r -> Variance e = Fin v -> 0 <= v ->
  exists f s0 s1, s0 <> s1 /\
    snd (result (TruePhotonElectronNR o (Fin alpha2) recombProb Variance Ni Nex Nq) k) e =
      Z.min (Z.max (roundZ (f (o_norm o s0 e) (o_norm o s1 e))) 0) (Ni e) /\
    forall d, normal_moments d -> mean d f = (1 - r) * IZR (Ni e) /\ variance d f = v.
Proof.
  intros o a rp V Ni Nex Nq k e r v Hr Hv Pv. pose proof PI_RGT_0 as PP.
  assert (P2 : 2 / PI < 1). { apply (Rmult_lt_reg_r PI); [assumption|]. pose proof PI2_1. field_simplify; lra. }
  assert (P2' : 0 < 2 / PI) by (apply Rdiv_lt_0_compat; lra).
  assert (A1 : 0 < 1 + a * a) by nra.
  assert (X : 0 <= a * a / (1 + a * a) <= 1).
  { split; [apply Rmult_le_pos; [nra|left; apply Rinv_0_lt_compat; assumption]|].
    apply (Rmult_le_reg_r (1 + a * a)); [assumption|]. field_simplify; nra. }
  assert (W : 0 < 1 - 2 / PI * (a * a) / (1 + a * a)).
  { replace (2 / PI * (a * a) / (1 + a * a)) with (2 / PI * (a * a / (1 + a * a))) by (field; lra). nra. }
  set (wc := sqrt (1 - 2 / PI * (a * a) / (1 + a * a))).
  assert (WC : 0 < wc) by (apply sqrt_lt_R0; assumption).
  assert (WC2 : wc * wc = 1 - 2 / PI * (a * a) / (1 + a * a)) by (apply sqrt_sqrt; lra).
  set (sa := sqrt (1 + a * a)). assert (SA : 0 < sa) by (apply sqrt_lt_R0; assumption).
  assert (SA2 : sa * sa = 1 + a * a) by (apply sqrt_sqrt; lra).
  set (s2p := sqrt (2 * PI)). assert (SP : 0 < s2p) by (apply sqrt_lt_R0; lra).
  set (sv := sqrt v). assert (SV2 : sv * sv = v) by (apply sqrt_sqrt; assumption).
  exists (fun z z' => (a * (sv / wc) / sa) * Rabs z + ((sv / wc) / sa) * z' + ((1 - r) * IZR (Ni e) - sv / wc * (a / sa) * 2 * (1 / s2p))).
  exists (child k 1), (child (child k 0) 1). split.
  { intros E. apply (f_equal (@List.length nat)) in E. unfold child in E. rewrite !app_length in E. cbn in E. lia. }
  split.
  - unfold TruePhotonElectronNR. rewrite bind_result. ret_result. cbn [snd].
    match goal with |- context [result (skewnormal o ?a1 ?l ?s) k e] => change (result (skewnormal o a1 l s) k e) with
      ((a1 e * fabsf #(o_norm o (child k 1) e) + #(o_norm o (child (child k 0) 1) e)) / fsqrt (#1 + a1 e * a1 e) * s e + l e)%fl end.
    cbv beta. rewrite Hr, Hv. unfold of_int. farith. rewrite (fsqrt_Fin v Pv), (fsqrt_Fin (1 + a * a)), (fsqrt_Fin (2 * PI)) by lra.
    fold sa s2p sv. rewrite (fdiv_Fin 2 PI), (fdiv_Fin 1 s2p), (fdiv_Fin a sa) by lra. farith. rewrite (fdiv_Fin _ (1 + a * a)) by lra. farith.
    rewrite fsqrt_Fin by lra. fold wc. rewrite !(fdiv_Fin _ wc), !(fdiv_Fin _ sa) by lra. farith. rewrite round_to_int.
    unfold zclip. f_equal. f_equal. f_equal. field. repeat split; lra.
  - intros d Hd. destruct (linear_moments d (a * (sv / wc) / sa) ((sv / wc) / sa) ((1 - r) * IZR (Ni e) - sv / wc * (a / sa) * 2 * (1 / s2p)) Hd) as [-> ->].
    assert (Q : sqrt (2 / PI) = 2 * (1 / s2p)).
    { apply Rsqr_inj; [apply sqrt_pos| |].
      - apply Rmult_le_pos; [lra|]. apply Rmult_le_pos; [lra|]. left. apply Rinv_0_lt_compat. assumption.
      - rewrite Rsqr_sqrt by lra. unfold Rsqr. assert (s2p * s2p = 2 * PI) as E by (apply sqrt_sqrt; lra).
        replace (2 * (1 / s2p) * (2 * (1 / s2p))) with (4 / (s2p * s2p)) by (field; lra). rewrite E. field. lra. }
    split; [rewrite Q; field; repeat split; lra|].
    replace (a * (sv / wc) / sa * (a * (sv / wc) / sa) * (1 - 2 / PI) + sv / wc / sa * (sv / wc / sa))
      with ((sv * sv) / (wc * wc) * ((a * a * (1 - 2 / PI) + 1) / (sa * sa))) by (field; repeat split; lra).
    rewrite SA2, SV2. replace ((a * a * (1 - 2 / PI) + 1) / (1 + a * a)) with (wc * wc).
    + field. lra.
    + rewrite WC2. field. lra.
Qed.

(** Distributions with such moments exist: four equally likely pairs. *)
Example C66_case : exists d, normal_moments d.
Proof.
  pose proof PI_RGT_0 as PP. set (m := sqrt (2 / PI)).
  assert (P2 : 2 / PI < 1). { apply (Rmult_lt_reg_r PI); [assumption|]. pose proof PI2_1. field_simplify; lra. }
  assert (P2' : 1 / 2 <= 2 / PI). { apply (Rmult_le_reg_r PI); [assumption|]. pose proof PI_4. field_simplify; lra. }
  assert (M2 : m * m = 2 / PI) by (apply sqrt_sqrt; lra).
  assert (M0 : 0 <= m) by apply sqrt_pos.
  set (s := sqrt (1 - 2 / PI)). assert (S2 : s * s = 1 - 2 / PI) by (apply sqrt_sqrt; lra).
  assert (S0 : 0 <= s) by apply sqrt_pos. assert (SM : s <= m) by nra.
  exists [(/ 4, (m + s, 1)); (/ 4, (m + s, -1)); (/ 4, (m - s, 1)); (/ 4, (m - s, -1))].
  constructor; cbn [mean fold_right fst snd]; fold m; rewrite ?(Rabs_right (m + s)), ?(Rabs_right (m - s)) by lra; nra.
Qed.

(* ------------------------------------------------------------------ *)
(** * C67: the recombination width of electronic recoils *)

Definition ampl (A F : R) : R := 86036 / 1000000 + (A - 86036 / 1000000) / Rpower (1 + Rpower (F / (2952 / 10)) (2516 / 10)) (69114 / 10000000).

Lemma omega_value o A xi w s elecFrac rp Ni field k e x F : elecFrac e = Fin x -> field e = Fin F -> 0 < F -> 0 < w -> like_erf (o_erf o) ->
  let shape := fun x => exp (-1 / 2 * ((x - xi) * (x - xi)) / (w * w)) * (1 + o_erf o (s * (x - xi) / (w * sqrt 2))) in
  let m := xi + sqrt (2 / PI) * s * w / sqrt (1 + s * s) in
  fst (result (OmegaER o (Fin A) (Fin xi) (Fin w) (Fin s) elecFrac rp Ni field) k) e = Fin (Rmax (1 / shape m * ampl A F * shape x) 0) /\
  (forall x, 0 < shape x).
Proof.
  intros Hx HF PF Pw (Er & _) shape m. pose proof PI_RGT_0 as PP.
  assert (P2' : 0 < 2 / PI) by (apply Rdiv_lt_0_compat; lra). assert (0 < 1 + s * s) by nra.
  assert (S1 : 0 < sqrt (1 + s * s)) by (apply sqrt_lt_R0; assumption). assert (S2 : 0 < sqrt 2) by (apply sqrt_lt_R0; lra).
  assert (PS : forall x, 0 < shape x).
  { intros y. unfold shape. apply Rmult_lt_0_compat; [apply exp_pos|]. pose proof (Er (s * (y - xi) / (w * sqrt 2))). lra. }
  split; [|assumption].
  unfold OmegaER. ret_result. cbn [fst].
  assert (G : 0 < F / (2952 / 10)) by (apply Rdiv_lt_0_compat; lra).
  rewrite Hx, HF. unfold f10.
  assert (FS : forall y, (fexp (#(-1) / #2 * ((Fin y - Fin xi) * (Fin y - Fin xi)) / (Fin w * Fin w)) *
     (#1 + ferf o (Fin s * (Fin y - Fin xi) / (Fin w * fsqrt #2))))%fl = Fin (shape y)).
  { intros y. rewrite fsqrt_Fin by lra. farith. rewrite (fdiv_Fin _ 2), !fdiv_Fin by nra. farith. rewrite fdiv_Fin by nra. reflexivity. }
  assert (FM : (Fin xi + fsqrt (#2 / #PI) * Fin s * Fin w / fsqrt (#1 + Fin s * Fin s))%fl = Fin m).
  { rewrite fdiv_Fin by lra. rewrite fsqrt_Fin by lra. farith. rewrite fsqrt_Fin by lra. rewrite fdiv_Fin by lra. reflexivity. }
  rewrite FM. rewrite !FS.
  assert (0 < 1 + Rpower (F / (2952 / 10)) (2516 / 10)). { assert (0 < Rpower (F / (2952 / 10)) (2516 / 10)) by apply exp_pos. lra. }
  assert (0 < Rpower (1 + Rpower (F / (2952 / 10)) (2516 / 10)) (69114 / 10000000)) by apply exp_pos.
  rewrite (fdiv_Fin F) by lra. rewrite fpow_pos by assumption. farith. rewrite fpow_pos by assumption. rewrite (fdiv_Fin (A - _)) by lra. farith.
  specialize (PS m). rewrite (fdiv_Fin 1) by lra. farith. rewrite fmax_Fin. reflexivity.
Qed.

(** Without skewness the width never exceeds the amplitude. *)
Theorem C67_no_skewness : forall o A xi w elecFrac rp Ni field k e x F,
  like_erf (o_erf o) -> elecFrac e = Fin x -> field e = Fin F -> 0 < F -> 0 < w -> 0 <= ampl A F ->
  exists om, fst (result (OmegaER o (Fin A) (Fin xi) (Fin w) (Fin 0) elecFrac rp Ni field) k) e = Fin om /\ 0 <= om <= ampl A F.
Proof.
  intros o A xi w ef rp Ni field k e x F Er Hx HF PF Pw PA.
  destruct (omega_value o A xi w 0 ef rp Ni field k e x F Hx HF PF Pw Er) as [V P]. eexists. split; [exact V|].
  split; [apply Rmax_r|]. apply Rmax_lub; [|assumption].
  replace (xi + sqrt (2 / PI) * 0 * w / sqrt (1 + 0 * 0)) with xi by (unfold Rdiv; ring).
  destruct Er as (_ & _ & E0 & _).
  assert (Z : forall y, o_erf o (0 * (y - xi) / (w * sqrt 2)) = 0). { intros y. transitivity (o_erf o 0); [|assumption]. f_equal. unfold Rdiv. ring. }
  rewrite !Z. replace (-1 / 2 * ((xi - xi) * (xi - xi)) / (w * w)) with 0 by (unfold Rdiv; ring). rewrite exp_0.
  assert (0 <= (x - xi) * (x - xi) / (2 * (w * w))).
  { apply Rmult_le_pos; [apply Rle_0_sqr|]. left. apply Rinv_0_lt_compat. nra. }
  replace (-1 / 2 * ((x - xi) * (x - xi)) / (w * w)) with (- ((x - xi) * (x - xi) / (2 * (w * w)))) by (field; lra).
  pose proof (exp_neg_le _ H). replace (1 / (1 * (1 + 0))) with 1 by field. nra.
Qed.

(** With it, it can: the shape is normalised at the mean of the skewed distribution instead of its
    mode. "makes sure omega never exceeds ampl" (er_nestv2.py 209) is not so. *)
Theorem C67_exceeds_refuted : forall o, like_erf (o_erf o) -> exists A xi w s elecFrac rp Ni field k e F om,
  field e = Fin F /\ 0 < F /\ 0 < ampl A F /\ 0 < w /\ probability (elecFrac e) /\
  fst (result (OmegaER o (Fin A) (Fin xi) (Fin w) (Fin s) elecFrac rp Ni field) k) e = Fin om /\ ampl A F < om.
Proof.
  intros o Er. pose proof PI_RGT_0 as PP.
  assert (AA : ampl (86036 / 1000000) 1 = 86036 / 1000000) by (unfold ampl; rewrite Rminus_diag_eq by reflexivity; unfold Rdiv; rewrite Rmult_0_l; apply Rplus_0_r).
  exists (86036 / 1000000), 0, 1, 10, (fun _ => Fin (1 / 5)), (fun _ => Fin 0), (fun _ => 0%Z), (fun _ => Fin 1), [], 0%nat, 1.
  destruct (omega_value o (86036 / 1000000) 0 1 10 (fun _ => Fin (1 / 5)) (fun _ => Fin 0) (fun _ => 0%Z) (fun _ => Fin 1) [] 0%nat (1 / 5) 1
    eq_refl eq_refl ltac:(lra) ltac:(lra) Er) as [V P]. cbv zeta in P.
  set (m := 0 + sqrt (2 / PI) * 10 * 1 / sqrt (1 + 10 * 10)) in *.
  set (shape := fun x => exp (-1 / 2 * ((x - 0) * (x - 0)) / (1 * 1)) * (1 + o_erf o (10 * (x - 0) / (1 * sqrt 2)))) in *.
  eexists. split; [reflexivity|]. split; [lra|]. split; [rewrite AA; lra|]. split; [lra|].
  split; [exists (1 / 5); split; [reflexivity|lra]|]. split; [exact V|]. cbv zeta.
  assert (C : shape m < shape (1 / 5)).
  2: { eapply Rlt_le_trans; [|apply Rmax_l]. rewrite AA.
    change (86036 / 1000000 < 1 / shape m * (86036 / 1000000) * shape (1 / 5)).
    specialize (P m). change (0 < shape m) in P.
    assert (1 < 1 / shape m * shape (1 / 5)).
    { apply (Rmult_lt_reg_r (shape m)); [assumption|]. field_simplify; lra. }
    nra. }
  destruct Er as (Eb & Em & _ & E1).
  assert (L : 1764 / 1000 <= shape (1 / 5)).
  { unfold shape.
    assert (4 / 5 <= o_erf o (10 * (1 / 5 - 0) / (1 * sqrt 2))).
    { apply Rle_trans with (o_erf o 1); [assumption|]. apply Em.
      assert (S : 0 < sqrt 2) by (apply sqrt_lt_R0; lra). pose proof (sqrt_sqrt 2 ltac:(lra)).
      apply (Rmult_le_reg_r (1 * sqrt 2)); [lra|].
      replace (10 * (1 / 5 - 0) / (1 * sqrt 2) * (1 * sqrt 2)) with 2 by (field; lra). nra. }
    pose proof (exp_ge (-1 / 2 * ((1 / 5 - 0) * (1 / 5 - 0)) / (1 * 1))). nra. }
  assert (M : 495 / 1000 <= m * m).
  { unfold m. set (q := sqrt (2 / PI)). set (h := sqrt (1 + 10 * 10)).
    assert (Q : q * q = 2 / PI). { apply sqrt_sqrt. left. apply Rdiv_lt_0_compat; lra. }
    assert (H : h * h = 101). { unfold h. rewrite sqrt_sqrt; lra. }
    assert (HP : 0 < h) by (apply sqrt_lt_R0; lra).
    replace ((0 + q * 10 * 1 / h) * (0 + q * 10 * 1 / h)) with (100 * (q * q) / (h * h)) by (field; lra). rewrite Q, H.
    assert (1 / 2 <= 2 / PI). { apply (Rmult_le_reg_r PI); [assumption|]. pose proof PI_4. field_simplify; lra. } lra. }
  assert (U : shape m <= 1604 / 1000).
  { unfold shape. pose proof (Eb (10 * (m - 0) / (1 * sqrt 2))).
    replace (-1 / 2 * ((m - 0) * (m - 0)) / (1 * 1)) with (- (m * m / 2)) by field.
    rewrite exp_Ropp. pose proof (exp_ge (m * m / 2)). pose proof (exp_pos (m * m / 2)) as EP.
    set (x := exp (m * m / 2)) in *. assert (IX : / x * x = 1) by (field; lra).
    assert (0 < / x) by (apply Rinv_0_lt_compat; assumption).
    assert (/ x <= 802 / 1000) by nra. nra. }
  lra.
Qed.

Definition step_erf (x : R) : R := if Rle_dec 1 x then 1 else if Rle_dec 0 x then 0 else - / 2.
Example C67_case : like_erf step_erf.
Proof.
  unfold step_erf. split; [|split; [|split]].
  - intros x. destruct (Rle_dec 1 x), (Rle_dec 0 x); lra.
  - intros x y H. destruct (Rle_dec 1 x), (Rle_dec 0 x), (Rle_dec 1 y), (Rle_dec 0 y); lra.
  - destruct (Rle_dec 1 0), (Rle_dec 0 0); lra.
  - destruct (Rle_dec 1 1); lra.
Qed.

(* ------------------------------------------------------------------ *)
(** * C68: keys through plugins *)

(** A component made of any shipped plugins but MonoEnergiesSpectra never consumes a key twice. *)
Theorem C68_chains : forall o mode size A (m : M A), chain o mode size A m -> well_keyed m.
Proof.
  intros o mode size A m H. induction H; [apply well_keyed_ret|].
  apply well_keyed_bind; [apply (shipped_well_keyed o mode size _ m H)|assumption].
Qed.

(** MonoEnergiesSpectra does, through twohalfnorm. *)
Theorem C68_mono_refuted : exists o mu sp sn k, ~ NoDup (consumed (MonoEnergiesSpectra o mu sp sn) k).
Proof.
  exists toy, (fun _ => Fin 1), (fun _ => Fin (/ 10)), (fun _ => Fin (/ 10)), []. cbn.
  intros H. inversion H as [|? ? _ H1]; subst. inversion H1 as [|? ? N _]; subst. apply N. now left.
Qed.

Example C68_case : chain toy Hybrid 1 _ (er_chain toy Hybrid 1 (Fin 1) (Fin 1) (Fin 1) (Fin 1) (Fin 1) (Fin 1) (Fin 1) (Fin 1) (Fin 1) (Fin 1)
  (fun _ => Fin 1) (fun _ => Fin 1)).
Proof.
  unfold er_chain. repeat (apply ch_step; [constructor|intros]). apply ch_end.
Qed.

(* ------------------------------------------------------------------ *)
(** * C69: the Fano factor *)

(** Positive delta_f is the Fano factor itself; negative delta_f gives the density and field dependent
    one; zero gives half of the constant term. *)
Theorem C69_sign : forall df D _Nph _Ne field k e nph ne F,
  _Nph e = Fin nph -> _Ne e = Fin ne -> field e = Fin F -> 0 <= (nph + ne) * F ->
  let const := 12707 / 100000 - 29623 / 1000000 * D - 57042 / 10000000 * (D * D) + 15957 / 10000000 * (D * D * D) in
  let fano := result (FanoFactorER (Fin df) (Fin D) _Nph _Ne field) k e in
  (0 < df -> fano = Fin df) /\
  (df < 0 -> fano = Fin (const + - df * sqrt ((nph + ne) * F))) /\
  (df = 0 -> fano = Fin (const / 2)).
Proof.
  intros df D _Nph _Ne field k e nph ne F Hph Hne HF P. cbv zeta.
  unfold FanoFactorER, result, ret. cbn [fst]. rewrite Hph, Hne, HF. unfold f10. farith. rewrite fsqrt_Fin by assumption. farith.
  unfold fsign. destruct (total_order_T df 0) as [[N|Z]|Q]; farith; rewrite !fdiv_Fin by lra; farith; repeat split; intros C; try lra; f_equal.
  - rewrite Rabs_left by assumption. lra.
  - rewrite Z, Rabs_R0. lra.
  - rewrite Rabs_right by lra. lra.
Qed.

Example C69_case : result (FanoFactorER (Fin (/ 10)) (Fin (28 / 10)) (fun _ => Fin 100) (fun _ => Fin 200) (fun _ => Fin 23)) [] 0%nat = Fin (/ 10).
Proof. apply (C69_sign (/ 10) (28 / 10) (fun _ => Fin 100) (fun _ => Fin 200) (fun _ => Fin 23) [] 0%nat 100 200 23); try reflexivity; lra. Qed.

Print Assumptions C42_chain.
Print Assumptions C43_nr.
Print Assumptions C43_nr_refuted.
Print Assumptions C43_er.
Print Assumptions C44_probability.
Print Assumptions C44_product.
Print Assumptions C44_clip.
Print Assumptions C61_value.
Print Assumptions C61_probability.
Print Assumptions C61_width.
Print Assumptions C61_fraction.
Print Assumptions C62_photons.
Print Assumptions C62_photoelectrons.
Print Assumptions C62_drift.
Print Assumptions C62_electrons.
Print Assumptions C62_s2.
Print Assumptions C62_g2_saturates.
Print Assumptions C62_g2_above_gain_refuted.
Print Assumptions C63_cylinder.
Print Assumptions C63_energy.
Print Assumptions C63_lines.
Print Assumptions C64_density_ignored.
Print Assumptions C64_nr_density_matters.
Print Assumptions C65_yields.
Print Assumptions C65_validity.
Print Assumptions C65_exciton_ion.
Print Assumptions C65_er.
Print Assumptions C65_nr.
Print Assumptions C65_nr_zero_energy.
Print Assumptions C66_moments.
Print Assumptions C67_no_skewness.
Print Assumptions C67_exceeds_refuted.
Print Assumptions C68_chains.
Print Assumptions C68_mono_refuted.
Print Assumptions C69_sign.
