(** C112: mean and variance of the quanta. *)
From Coq Require Import Reals ZArith Lra Lia.
From Verif Require Import Base ModelFloat ModelRandgen ModelPlugins SpecRandgen SpecPlugins SpecSignals SpecYields ProofFloat ProofLikelihood2 ProofLikelihood3
  ProofRandgen ProofPlugins PropRandgen PropPlugins PropSignals PropYields.
Local Open Scope R_scope.

Lemma linear_has_moments m v : 0 <= v -> has_moments (fun z => z * sqrt v + m) m v.
Proof.
  intros Pv d [[T N] S]. pose proof (sqrt_sqrt v Pv) as Q. split.
  - rewrite (average_affine d (fun z => z) _ (sqrt v) m T) by (intros; ring). rewrite N. ring.
  - rewrite (average_affine d (fun z => z * z) _ v 0 T).
    + rewrite S. ring.
    + intros w z _. replace ((z * sqrt v + m - m) * (z * sqrt v + m - m)) with (z * z * (sqrt v * sqrt v)) by ring. rewrite Q. ring.
Qed.

Lemma truncate_value o mean std k e m s hi : mean e = Fin m -> std e = Fin s -> hi = None \/ hi = Some PInf ->
  to_int o (fround (result (truncate_normal o mean std (Some #0%fl) hi) k e)) = roundZ (Rmax (o_norm o (child k 1) e * s + m) 0).
Proof.
  intros Hm Hs Hh. change (result (truncate_normal o mean std (Some #0%fl) hi) k e)
    with (clip_opt (#(o_norm o (child k 1) e) * std e + mean e)%fl (Some #0%fl) hi).
  rewrite Hm, Hs. farith. unfold clip_opt. rewrite fmax_Fin. destruct Hh as [-> | ->]; [apply round_to_int|].
  replace (fmin (Fin (Rmax (o_norm o (child k 1) e * s + m) 0)) PInf) with (Fin (Rmax (o_norm o (child k 1) e * s + m) 0)) by reflexivity.
  apply round_to_int.
Qed.

(** * C112 *)

(** ** Electronic recoils, er_microphys *)

(** The number of quanta is a normal number with mean E / w and variance fano * E / w, cut at 0 and
    rounded. *)
Theorem C112_quanta : forall o w fano energy k e E, energy e = Fin E -> 0 < w -> 0 <= fano -> 0 <= E ->
  exists f s, result (Quanta o (Fin w) (Fin fano) energy) k e = roundZ (Rmax (f (o_norm o s e)) 0) /\
    has_moments f (E / w) (fano * (E / w)).
Proof.
  intros o w fano energy k e E HE Pw Pf PE. assert (Q : 0 <= E / w) by (apply Rmult_le_pos; [assumption|left; apply Rinv_0_lt_compat; assumption]).
  exists (fun z => z * sqrt (fano * (E / w)) + E / w), (child k 1). split; [|apply linear_has_moments; apply Rmult_le_pos; assumption].
  unfold Quanta. rewrite bind_result. ret_result. cbv beta zeta. apply truncate_value; [| |now left].
  - rewrite HE, fdiv_Fin by lra. reflexivity.
  - rewrite HE, fdiv_Fin by lra. rewrite fmul_Fin, fsqrt_Fin by (apply Rmult_le_pos; assumption). f_equal. f_equal. ring.
Qed.

(** Ionization and recombination, one after the other. *)
Definition split_quanta (o : oracle) (mode : binmode) (size : nat) (ratio : fl) (num_quanta : arr Z) (recomb : arr fl) : M (arr Z * arr Z) :=
  num_ion <- IonizationER o mode size ratio num_quanta;;
  RecombinationER o mode size num_quanta num_ion recomb.

(** Of [n] quanta, n (1 - r) / (1 + ratio) become electrons on average, and the others photons. *)
Theorem C112_er_split : forall size ratio num_quanta recomb k e r, recomb e = Fin r -> 0 <= r <= 1 -> 0 <= ratio -> (0 <= num_quanta e)%Z ->
  exists s0 s1 f, s0 <> s1 /\
    (forall o, let '(photons, electrons) := result (split_quanta o JaxBinomial size (Fin ratio) num_quanta recomb) k in
       electrons e = f (o_binom o s0 e) (o_binom o s1 e) /\ (photons e + electrons e = num_quanta e)%Z) /\
    forall d0 d1, binomial_like d0 (num_quanta e) (1 / (1 + ratio)) -> (forall m, (0 <= m)%Z -> binomial_like d1 m (1 - r)) ->
      average d0 (fun b0 => average d1 (fun b1 => IZR (f b0 b1))) = IZR (num_quanta e) * (1 - r) / (1 + ratio).
Proof.
  intros size ratio n recomb k e r Hr Pr Pq Hn.
  exists (child k 1), (child (child k 0) 1), (fun b0 b1 => b1 (b0 (n e) (Fin (1 / (1 + ratio)))) (Fin (1 - r))).
  split. { unfold child. rewrite <- !app_assoc. cbn [app]. apply child_longer. discriminate. }
  split.
  - intros o. unfold split_quanta, RecombinationER, IonizationER, binomial, binomial_jax, split2, use.
    unfold result, bind, ret. cbn [fst snd]. rewrite Hr. farith. rewrite fdiv_Fin by lra. split; [reflexivity|lia].
  - intros d0 d1 (T0 & R0 & M0) B1.
    rewrite (average_affine d0 (fun b0 => IZR (b0 (n e) (Fin (1 / (1 + ratio))))) _ (1 - r) 0 T0).
    + rewrite M0. field. lra.
    + intros w b0 I. pose proof (R0 w b0 I) as R. destruct (B1 (b0 (n e) (Fin (1 / (1 + ratio)))) ltac:(lia)) as (_ & _ & M1). rewrite M1. ring.
Qed.

(** The fraction that recombines is a normal number with the given mean and width, kept in [0, 1]. *)
Theorem C112_recombination : forall o recomb_mean recomb_std k e m s, recomb_mean e = Fin m -> recomb_std e = Fin s -> 0 <= s ->
  exists f key, result (TrueRecombER o recomb_mean recomb_std) k e = Fin (Rmin (Rmax (f (o_norm o key e)) 0) 1) /\ has_moments f m (s * s).
Proof.
  intros o mean std k e m s Hm Hs Ps. exists (fun z => z * sqrt (s * s) + m), (child k 1). split; [|apply linear_has_moments; nra].
  change (result (TrueRecombER o mean std) k e) with (clip_opt (#(o_norm o (child k 1) e) * std e + mean e)%fl (Some #0%fl) (Some #1%fl)).
  rewrite Hm, Hs. farith. unfold clip_opt. rewrite fmax_Fin, fmin_Fin. rewrite sqrt_square by assumption. reflexivity.
Qed.

(** ** Yields from maps, lyqy *)
Definition photons_from_map (o : oracle) (ly : fl -> fl) (t : fl) (energy : arr fl) : M (arr Z) :=
  light_yield <- LightYield ly t energy;; NumberPhoton o energy light_yield.
Definition electrons_from_map (o : oracle) (qy : fl -> fl) (t : fl) (energy : arr fl) : M (arr Z) :=
  charge_yield <- ChargeYield qy t energy;; NumberElectron o energy charge_yield.

(** The yield read from the map, scaled by 1 + t, times the energy is the average number. *)
Theorem C112_from_map : forall y t energy k e E v, energy e = Fin E -> y (Fin E) = Fin v -> 0 <= E -> 0 <= v * (1 + t) ->
  exists s f, (forall o, result (photons_from_map o y (Fin t) energy) k e = f (o_pois o s e)) /\
    (forall o, result (electrons_from_map o y (Fin t) energy) k e = f (o_pois o s e)) /\
    forall d, poisson_like d (v * (1 + t) * E) -> average d (fun b => IZR (f b)) = v * (1 + t) * E.
Proof.
  intros y t energy k e E v HE Hv PE PV. exists (child k 1), (fun b => b (Fin (v * (1 + t) * E))).
  assert (C : clip_pos (Fin v * (#1 + Fin t))%fl = Fin (v * (1 + t))) by (farith; rewrite clip_pos_Fin, Rmax_left by assumption; reflexivity).
  split; [|split].
  - intros o. unfold photons_from_map, LightYield, NumberPhoton, poisson, split2, use, result, bind, ret. cbn [fst snd].
    rewrite HE, Hv, C. farith. reflexivity.
  - intros o. unfold electrons_from_map, ChargeYield, NumberElectron, poisson, split2, use, result, bind, ret. cbn [fst snd].
    rewrite HE, Hv, C. farith. reflexivity.
  - intros d (_ & _ & M). exact M.
Qed.

(** ** NEST nuclear recoils *)

(** Ions and excitons: independent normal numbers around their parts of the mean quanta, with
    variances that are the Fano factors times these means; both cut at 0 and rounded. *)
Theorem C112_nr_ions : forall o fano_ni fano_nex _Nph _Ne ratio alf k e nph ne q a,
  _Nph e = Fin nph -> _Ne e = Fin ne -> ratio e = Fin q -> alf e = Fin a ->
  0 <= fano_ni -> 0 <= fano_nex -> 0 <= nph + ne -> 0 <= q -> 0 <= a ->
  let '(Ni, Nex, Nq) := result (TrueExcitonIonNR o (Fin fano_ni) (Fin fano_nex) _Nph _Ne ratio alf) k in
  exists f g s0 s1, s0 <> s1 /\ Ni e = roundZ (Rmax (f (o_norm o s0 e)) 0) /\ Nex e = roundZ (Rmax (g (o_norm o s1 e)) 0) /\ Nq e = (Ni e + Nex e)%Z /\
    has_moments f ((nph + ne) * a) (fano_ni * ((nph + ne) * a)) /\
    has_moments g ((nph + ne) * a * q) (fano_nex * ((nph + ne) * a * q)).
Proof.
  intros o fi fx _Nph _Ne ratio alf k e nph ne q a Hph Hne Hq Ha P1 P2 P3 P4 P5. unfold TrueExcitonIonNR. rewrite !bind_result.
  ret_result. cbv beta iota zeta.
  set (mi := fun e => ((_Nph e + _Ne e) * alf e)%fl). set (si := fun e => fsqrt (Fin fi * (_Nph e + _Ne e) * alf e)%fl).
  change (next_key (truncate_normal o mi si (Some #0%fl) None) k) with (child k 0).
  assert (V1 : 0 <= (nph + ne) * a) by (apply Rmult_le_pos; assumption).
  assert (V2 : 0 <= (nph + ne) * a * q) by (apply Rmult_le_pos; assumption).
  assert (W1 : 0 <= fi * ((nph + ne) * a)) by (apply Rmult_le_pos; assumption).
  assert (W2 : 0 <= fx * ((nph + ne) * a * q)) by (apply Rmult_le_pos; assumption).
  exists (fun z => z * sqrt (fi * ((nph + ne) * a)) + (nph + ne) * a), (fun z => z * sqrt (fx * ((nph + ne) * a * q)) + (nph + ne) * a * q).
  exists (child k 1), (child (child k 0) 1).
  split. { unfold child. rewrite <- !app_assoc. cbn [app]. apply child_longer. discriminate. }
  split; [|split; [|split; [lia|split; apply linear_has_moments; assumption]]].
  - apply truncate_value; [| |now left]; unfold mi, si; rewrite Hph, Hne, Ha; farith; [reflexivity|].
    replace (fi * (nph + ne) * a) with (fi * ((nph + ne) * a)) by ring. rewrite fsqrt_Fin by assumption. reflexivity.
  - apply truncate_value; [| |now left]; rewrite Hph, Hne, Ha, Hq; farith; [f_equal; ring|].
    replace (fx * (nph + ne) * q * a) with (fx * ((nph + ne) * a * q)) by ring. rewrite fsqrt_Fin by assumption. reflexivity.
Qed.

(** ** NEST electronic recoils *)
Theorem C112_er_ions : forall size _Nph _Ne fano alf k e nph ne f a,
  _Nph e = Fin nph -> _Ne e = Fin ne -> fano e = Fin f -> alf e = Fin a -> 0 <= f -> 0 <= nph + ne -> 0 <= a <= 1 ->
  exists s0 s1 g h, s0 <> s1 /\ has_moments g (nph + ne) (f * (nph + ne)) /\
    (forall o, let '(Ni, Nex, Nq) := result (TrueExcitonIonER o JaxBinomial size _Nph _Ne fano alf) k in
       Nq e = roundZ (Rmax (g (o_norm o s0 e)) 0) /\ (0 <= Nq e)%Z /\
       (lawful o -> Ni e = h (Nq e) (o_binom o s1 e) /\ (Ni e + Nex e = Nq e)%Z)) /\
    forall n d, (0 <= n)%Z -> binomial_like d n a -> average d (fun b => IZR (h n b)) = a * IZR n.
Proof.
  intros size _Nph _Ne fano alf k e nph ne f a Hph Hne Hf Ha Pf Pn Pa.
  exists (child k 1), (child (child k 0) 1), (fun z => z * sqrt (f * (nph + ne)) + (nph + ne)), (fun n b => b n (Fin a)).
  split. { unfold child. rewrite <- !app_assoc. cbn [app]. apply child_longer. discriminate. }
  split; [apply linear_has_moments; apply Rmult_le_pos; assumption|].
  split; [|intros n d Hn (_ & _ & M); rewrite M; ring].
  intros o. pose proof (TrueExcitonIonER_counts o JaxBinomial size _Nph _Ne fano alf k e nph ne f Hph Hne Hf Pn Pf) as C. revert C.
  unfold TrueExcitonIonER. rewrite !bind_result. ret_result. cbv beta iota zeta.
  set (mq := fun e => (_Nph e + _Ne e)%fl). set (sq := fun e => fsqrt (fano e * (_Nph e + _Ne e))%fl).
  set (nq := fun e => to_int o (fround (result (truncate_normal o mq sq (Some #0%fl) (Some PInf)) k e))).
  change (to_int o (fround (result (truncate_normal o mq sq (Some #0%fl) (Some PInf)) k e))) with (nq e).
  change (next_key (truncate_normal o mq sq (Some #0%fl) (Some PInf)) k) with (child k 0). intros C.
  split; [|split; [lia|]].
  - unfold nq. apply truncate_value; [| |now right]; unfold mq, sq; rewrite Hph, Hne; farith; [reflexivity|].
    rewrite Hf. farith. rewrite fsqrt_Fin by (apply Rmult_le_pos; assumption). reflexivity.
  - intros L.
    match goal with |- context [result (binomial o JaxBinomial size alf ?n) ?k'] => change (result (binomial o JaxBinomial size alf n) k' e) with (o_binom o (child k' 1) e (nq e) (alf e)) in * end.
    rewrite Ha in *. pose proof (law_binom o L (child (child k 0) 1) e (nq e) a ltac:(lia) Pa) as B. unfold zclip in *. lia.
Qed.

Theorem C112_er_electrons : forall o recombProb Variance Ni Nq k e r v, recombProb e = Fin r -> Variance e = Fin v -> 0 <= v ->
  exists f s, snd (result (TruePhotonElectronER o recombProb Variance Ni Nq) k) e = Z.min (Z.max (roundZ (f (o_norm o s e))) 0) (Ni e) /\
    has_moments f ((1 - r) * IZR (Ni e)) v.
Proof.
  intros o rp V Ni Nq k e r v Hr Hv Pv. exists (fun z => z * sqrt v + (1 - r) * IZR (Ni e)), (child k 1).
  split; [|apply linear_has_moments; assumption].
  unfold TruePhotonElectronER. rewrite bind_result. ret_result. cbn [snd].
  match goal with |- context [result (normal o ?m ?sd) k e] => change (result (normal o m sd) k e) with (#(o_norm o (child k 1) e) * sd e + m e)%fl end.
  cbv beta. rewrite Hr, Hv. rewrite fsqrt_Fin by assumption. unfold of_int. farith. rewrite round_to_int. reflexivity.
Qed.

(** Ions are the part 1 / (1 + ratio) of the quanta and electrons the part 1 - r of the ions: together
    these give back the mean electrons, unless the recombination probability had to be cut at 0, when
    there are too few. *)
Theorem C112_er_mean : forall ratio _Nph _Ne k e q nph ne, ratio e = Fin q -> _Nph e = Fin nph -> _Ne e = Fin ne ->
  0 <= q -> 0 < nph + ne -> 0 <= ne ->
  exists r, snd (result (MeanExcitonIonER ratio _Nph _Ne) k) e = Fin r /\ 0 <= r <= 1 /\
    ((q + 1) * ne <= nph + ne -> (1 - r) * ((nph + ne) * (1 / (1 + q))) = ne) /\
    (nph + ne < (q + 1) * ne -> (1 - r) * ((nph + ne) * (1 / (1 + q))) < ne).
Proof.
  intros ratio _Nph _Ne k e q nph ne Hq Hph Hne Pq Pn Pe. unfold MeanExcitonIonER. ret_result. cbn [snd]. rewrite Hq, Hph, Hne. farith.
  rewrite fdiv_Fin by lra. farith. rewrite fmax_Fin. eexists. split; [reflexivity|].
  assert (D : (q + 1) * (ne / (nph + ne)) * (nph + ne) = (q + 1) * ne) by (field; lra).
  assert (P : 0 <= (q + 1) * (ne / (nph + ne))).
  { apply Rmult_le_pos; [lra|]. apply Rmult_le_pos; [assumption|]. left. apply Rinv_0_lt_compat. assumption. }
  set (x := (q + 1) * (ne / (nph + ne))) in *. split; [|split].
  - unfold Rmax. destruct (Rle_dec (1 - x) 0); lra.
  - intros C. rewrite Rmax_left by nra. replace ((1 - (1 - x)) * ((nph + ne) * (1 / (1 + q)))) with (x * (nph + ne) / (1 + q)) by (field; lra).
    rewrite D. field. lra.
  - intros C. rewrite Rmax_right by nra. replace ((1 - 0) * ((nph + ne) * (1 / (1 + q)))) with ((nph + ne) / (1 + q)) by (field; lra).
    apply Rmult_lt_reg_r with (1 + q); [lra|]. replace ((nph + ne) / (1 + q) * (1 + q)) with (nph + ne) by (field; lra). lra.
Qed.

(** The normal number is cut at 0, so the mean of what is used is never below the nominal one: with a
    standard number of two values and E / w = 1, fano = 4, it is 3/2 and not 1. *)
Theorem C112_cut_refuted : exists f d, has_moments f 1 4 /\ standard d /\ average d (fun z => Rmax (f z) 0) = 3 / 2.
Proof.
  exists (fun z => z * sqrt 4 + 1), [(/ 2, 1); (/ 2, -1)].
  assert (S4 : sqrt 4 = 2) by (replace 4 with (2 * 2) by lra; apply sqrt_square; lra).
  split; [apply linear_has_moments; lra|]. split.
  - split; [split; [split|]|]; cbn.
    + intros w x [E|[E|[]]]; injection E as <- <-; lra.
    + lra.
    + lra.
    + lra.
  - cbn. rewrite S4. rewrite (Rmax_left (1 * 2 + 1) 0), (Rmax_right (-1 * 2 + 1) 0) by lra. lra.
Qed.

(** ** Instances *)
Example C112_case_standard : standard [(/ 2, 1); (/ 2, -1)].
Proof.
  split; [split; [split|]|]; cbn; try lra. intros w x [E|[E|[]]]; injection E as <- <-; lra.
Qed.

(** 13.7 keV at 13.7 eV per quantum: 1000 quanta on average. *)
Example C112_case_quanta : exists f s, result (Quanta toy (Fin (137 / 10000)) (Fin (/ 2)) (fun _ => Fin (137 / 10))) [] 0%nat = roundZ (Rmax (f (o_norm toy s 0%nat)) 0) /\
  has_moments f 1000 500.
Proof.
  destruct (C112_quanta toy (137 / 10000) (/ 2) (fun _ => Fin (137 / 10)) [] 0%nat (137 / 10) eq_refl ltac:(lra) ltac:(lra) ltac:(lra)) as (f & s & E & M).
  replace (137 / 10 / (137 / 10000)) with 1000 in M by field. replace (/ 2 * 1000) with 500 in M by field. eauto.
Qed.

Example C112_case_binomial : binomial_like [(/ 2, fun n _ => n); (/ 2, fun _ _ => 0%Z)] 10 (/ 2).
Proof.
  split; [split|split].
  - intros w b [E|[E|[]]]; injection E as <- _; lra.
  - cbn. lra.
  - intros w b [E|[E|[]]]; injection E as _ <-; lia.
  - cbn. lra.
Qed.

Print Assumptions C112_quanta.
Print Assumptions C112_er_split.
Print Assumptions C112_recombination.
Print Assumptions C112_from_map.
Print Assumptions C112_nr_ions.
Print Assumptions C112_er_ions.
Print Assumptions C112_er_electrons.
Print Assumptions C112_er_mean.
Print Assumptions C112_cut_refuted.
