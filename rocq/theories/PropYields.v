(** C111: the mean yields of NEST. *)
From Coq Require Import Reals ZArith Lra Lia.
From Verif Require Import Base ModelFloat ModelRandgen ModelPlugins SpecRandgen SpecPlugins SpecSignals SpecYields ProofFloat ProofLikelihood2 ProofLikelihood3
  ProofRandgen ProofPlugins PropRandgen PropPlugins PropSignals.
Local Open Scope R_scope.

(** * Facts about the formulas *)
Lemma threshold_range x s k : 0 < threshold x s k < 1.
Proof.
  unfold threshold. pose proof (exp_pos (k * ln (x / s))) as P. fold (Rpower (x / s) k) in P.
  set (q := Rpower (x / s) k) in *. assert (0 < 1 / (1 + q)) by (apply Rdiv_lt_0_compat; lra).
  assert (1 / (1 + q) * (1 + q) = 1) by (field; lra). split; nra.
Qed.

Lemma nr_box_pos g d D F : 0 < g -> 0 < nr_box g d D F.
Proof. intros. unfold nr_box. repeat apply Rmult_lt_0_compat; try assumption; apply exp_pos. Qed.

Lemma nr_charge_pos b ep z et E : 0 < b -> 0 < E + ep -> 0 < nr_charge b ep z et E.
Proof.
  intros. unfold nr_charge. pose proof (threshold_range E z et). apply Rdiv_lt_0_compat; [lra|].
  apply Rmult_lt_0_compat; [assumption|apply sqrt_lt_R0; assumption].
Qed.

(** * C111 *)

(** ** Nuclear recoils *)

(** The plugins compute the published formulas. *)
Theorem C111_nr_box : forall o gamma delta D field k e F, field e = Fin F -> 0 < F -> 0 < D ->
  result (ThomasImelBox o (Fin gamma) (Fin delta) (Fin D) field) k e = Fin (nr_box gamma delta D F).
Proof.
  intros o g d D field k e F HF PF PD. unfold ThomasImelBox. ret_result. cbv beta zeta. rewrite HF. unfold f10.
  assert (0 < D / (29 / 10)) by (apply Rdiv_lt_0_compat; lra).
  rewrite fdiv_Fin by lra. rewrite !fpow_pos by assumption. farith. f_equal. unfold nr_box. ring.
Qed.

Theorem C111_nr_quanta : forall o alpha beta energy k e E, energy e = Fin E -> 0 < E ->
  result (TotalQuanta o (Fin alpha) (Fin beta) energy) k e = Fin (nr_quanta alpha beta E).
Proof.
  intros o a b energy k e E HE PE. unfold TotalQuanta. ret_result. cbv beta zeta. rewrite HE, fpow_pos by assumption. farith. reflexivity.
Qed.

Theorem C111_nr_charge : forall o epsilon zeta eta energy TI k e E ti, energy e = Fin E -> TI e = Fin ti ->
  0 < E -> 0 < ti -> 0 < E + epsilon -> 0 < zeta ->
  result (QyNR o (Fin epsilon) (Fin zeta) (Fin eta) energy TI) k e = Fin (nr_charge ti epsilon zeta eta E).
Proof.
  intros o ep z et energy TI k e E ti HE HT PE Pt Pep Pz. unfold QyNR. ret_result. cbv beta zeta. rewrite HE, HT.
  assert (Q : 0 < E / z) by (apply Rdiv_lt_0_compat; assumption).
  assert (S : 0 < sqrt (E + ep)) by (apply sqrt_lt_R0; assumption).
  pose proof (exp_pos (et * ln (E / z))) as P. fold (Rpower (E / z) et) in P.
  farith. rewrite (fdiv_Fin E z) by lra. rewrite (fdiv_Fin 1 ti) by lra. rewrite fsqrt_Fin by lra. rewrite fdiv_Fin by lra.
  rewrite fpow_pos by assumption. farith. rewrite (fdiv_Fin 1 (1 + _)) by lra. farith. rewrite clip_pos_Fin. f_equal.
  pose proof (nr_charge_pos ti ep z et E Pt Pep) as C. rewrite Rmax_left.
  - unfold nr_charge, threshold. field. repeat split; lra.
  - left. replace (1 / ti / sqrt (E + ep) * (1 - 1 / (1 + Rpower (E / z) et))) with (nr_charge ti ep z et E); [exact C|].
    unfold nr_charge, threshold. field. repeat split; lra.
Qed.

Theorem C111_nr_light : forall o theta iota energy nq qy k e E n q, energy e = Fin E -> nq e = Fin n -> qy e = Fin q ->
  0 < E -> 0 < theta ->
  result (LyNR o (Fin theta) (Fin iota) energy nq qy) k e = Fin (nr_light n q theta iota E).
Proof.
  intros o th io energy nq qy k e E n q HE Hn Hq PE Pt. unfold LyNR. ret_result. cbv beta zeta. rewrite HE, Hn, Hq.
  assert (Q : 0 < E / th) by (apply Rdiv_lt_0_compat; assumption).
  pose proof (exp_pos (io * ln (E / th))) as P. fold (Rpower (E / th) io) in P.
  rewrite !fdiv_Fin by lra. rewrite fpow_pos by assumption. farith. rewrite fdiv_Fin by lra. farith. rewrite clip_pos_Fin. reflexivity.
Qed.

(** What a user reads off them. A stronger field (with a negative exponent, as shipped) or a thinner
    liquid moves quanta from light to charge. *)
Lemma nr_box_field g d D F F' : 0 < g -> d < 0 -> 0 < F < F' -> nr_box g d D F' < nr_box g d D F.
Proof.
  intros Pg Hd HF. unfold nr_box. apply Rmult_lt_compat_r; [apply exp_pos|]. apply Rmult_lt_compat_l; [assumption|].
  unfold Rpower. apply exp_increasing. pose proof (ln_increasing F F' ltac:(lra) ltac:(lra)). nra.
Qed.

Lemma nr_charge_box b b' ep z et E : 0 < b < b' -> 0 < E + ep -> nr_charge b' ep z et E < nr_charge b ep z et E.
Proof.
  intros Hb He. unfold nr_charge. pose proof (threshold_range E z et). assert (S : 0 < sqrt (E + ep)) by (apply sqrt_lt_R0; assumption).
  unfold Rdiv. apply Rmult_lt_compat_l; [lra|]. apply Rinv_lt_contravar; [|apply Rmult_lt_compat_r; lra].
  repeat apply Rmult_lt_0_compat; lra.
Qed.

(** The four plugins, one after the other. *)
Definition nr_yields (o : oracle) (alpha beta gamma delta D epsilon zeta eta theta iota : fl) (energy field : arr fl) : M (arr fl * arr fl) :=
  nq <- TotalQuanta o alpha beta energy;;
  ti <- ThomasImelBox o gamma delta D field;;
  qy <- QyNR o epsilon zeta eta energy ti;;
  ly <- LyNR o theta iota energy nq qy;;
  ret (ly, qy).

Theorem C111_nr_chain : forall o alpha beta gamma delta D epsilon zeta eta theta iota energy field k e E F,
  energy e = Fin E -> field e = Fin F -> 0 < E -> 0 < F -> 0 < gamma -> 0 < D -> 0 <= epsilon -> 0 < zeta -> 0 < theta ->
  let '(ly, qy) := result (nr_yields o (Fin alpha) (Fin beta) (Fin gamma) (Fin delta) (Fin D) (Fin epsilon) (Fin zeta) (Fin eta) (Fin theta) (Fin iota) energy field) k in
  let q := nr_charge (nr_box gamma delta D F) epsilon zeta eta E in
  qy e = Fin q /\ ly e = Fin (nr_light (nr_quanta alpha beta E) q theta iota E) /\ 0 < q.
Proof.
  intros o al be ga de D ep z et th io energy field k e E F HE HF PE PF Pg PD Pe Pz Pt. unfold nr_yields. rewrite !bind_result. ret_result.
  cbv beta iota zeta.
  set (k1 := next_key _ k). set (k2 := next_key _ k1). set (k3 := next_key _ k2).
  pose proof (nr_box_pos ga de D F Pg) as PB.
  assert (Hq : forall k', result (QyNR o (Fin ep) (Fin z) (Fin et) energy (result (ThomasImelBox o (Fin ga) (Fin de) (Fin D) field) k1)) k' e =
     Fin (nr_charge (nr_box ga de D F) ep z et E)).
  { intros k'. apply C111_nr_charge; try assumption; [|lra]. apply C111_nr_box; assumption. }
  split; [apply Hq|]. split; [|apply nr_charge_pos; lra].
  apply C111_nr_light; try assumption; [apply C111_nr_quanta; assumption|apply Hq].
Qed.

Theorem C111_nr_field : forall o alpha beta gamma delta D epsilon zeta eta theta iota energy field field' k e E F F',
  energy e = Fin E -> field e = Fin F -> field' e = Fin F' -> 0 < E -> 0 < F < F' -> delta < 0 ->
  0 < gamma -> 0 < D -> 0 <= epsilon -> 0 < zeta -> 0 < theta ->
  let '(ly, qy) := result (nr_yields o (Fin alpha) (Fin beta) (Fin gamma) (Fin delta) (Fin D) (Fin epsilon) (Fin zeta) (Fin eta) (Fin theta) (Fin iota) energy field) k in
  let '(ly', qy') := result (nr_yields o (Fin alpha) (Fin beta) (Fin gamma) (Fin delta) (Fin D) (Fin epsilon) (Fin zeta) (Fin eta) (Fin theta) (Fin iota) energy field') k in
  exists q q' l l', qy e = Fin q /\ qy' e = Fin q' /\ ly e = Fin l /\ ly' e = Fin l' /\ q < q' /\ l' <= l /\ (0 < l -> l' < l).
Proof.
  intros o al be ga de D ep z et th io energy field field' k e E F F' HE HF HF' PE PF Hd Pg PD Pe Pz Pt.
  pose proof (C111_nr_chain o al be ga de D ep z et th io energy field k e E F HE HF PE ltac:(lra) Pg PD Pe Pz Pt) as A.
  pose proof (C111_nr_chain o al be ga de D ep z et th io energy field' k e E F' HE HF' PE ltac:(lra) Pg PD Pe Pz Pt) as A'.
  destruct (result _ k) as [ly qy] in A |- *. destruct (result _ k) as [ly' qy'] in A' |- *.
  cbv zeta in A, A'. destruct A as (A1 & A2 & _). destruct A' as (A1' & A2' & _).
  do 4 eexists. split; [exact A1|]. split; [exact A1'|]. split; [exact A2|]. split; [exact A2'|].
  pose proof (nr_charge_box (nr_box ga de D F') (nr_box ga de D F) ep z et E
    (conj (nr_box_pos ga de D F' Pg) (nr_box_field ga de D F F' Pg Hd PF)) ltac:(lra)) as C.
  split; [exact C|]. unfold nr_light. pose proof (threshold_range E th io) as T.
  set (q := nr_charge _ _ _ _ _) in *. set (q' := nr_charge (nr_box ga de D F') _ _ _ _) in *.
  assert (M : (nr_quanta al be E / E - q') * threshold E th io < (nr_quanta al be E / E - q) * threshold E th io) by (apply Rmult_lt_compat_r; lra).
  unfold Rmax. repeat destruct (Rle_dec _ _); split; intros; lra.
Qed.

(** The thresholds: at E = zeta half of the charge yield is left, and (for a positive exponent) more
    at every higher energy. *)
Lemma threshold_half s k : 0 < s -> threshold s s k = / 2.
Proof.
  intros H. unfold threshold, Rpower. replace (s / s) with 1 by (field; lra). rewrite ln_1, Rmult_0_r, exp_0. field.
Qed.
Lemma threshold_up x y s k : 0 < x < y -> 0 < s -> 0 < k -> threshold x s k < threshold y s k.
Proof.
  intros H Ps Pk. unfold threshold.
  assert (P : Rpower (x / s) k < Rpower (y / s) k).
  { unfold Rpower. apply exp_increasing. apply Rmult_lt_compat_l; [assumption|].
    apply ln_increasing; [apply Rdiv_lt_0_compat; lra|]. unfold Rdiv. apply Rmult_lt_compat_r; [apply Rinv_0_lt_compat; assumption|lra]. }
  assert (P0 : 0 < Rpower (x / s) k) by apply exp_pos.
  assert (1 / (1 + Rpower (y / s) k) < 1 / (1 + Rpower (x / s) k)); [|lra].
  unfold Rdiv. apply Rmult_lt_compat_l; [lra|]. apply Rinv_lt_contravar; [apply Rmult_lt_0_compat; lra|lra].
Qed.

Theorem C111_nr_threshold : forall o epsilon zeta eta energy TI k ti, 0 < ti -> 0 <= epsilon -> 0 < zeta ->
  (forall e, TI e = Fin ti) ->
  (forall e, energy e = Fin zeta ->
     result (QyNR o (Fin epsilon) (Fin zeta) (Fin eta) energy TI) k e = Fin (/ 2 * (/ (ti * sqrt (zeta + epsilon))))) /\
  (forall e e' E E', energy e = Fin E -> energy e' = Fin E' -> 0 < E < E' -> 0 < eta ->
     exists q q', result (QyNR o (Fin epsilon) (Fin zeta) (Fin eta) energy TI) k e = Fin q /\
       result (QyNR o (Fin epsilon) (Fin zeta) (Fin eta) energy TI) k e' = Fin q' /\
       q * sqrt (E + epsilon) < q' * sqrt (E' + epsilon)).
Proof.
  intros o ep z et energy TI k ti Pt Pe Pz HT. split.
  - intros e HE. rewrite (C111_nr_charge o ep z et energy TI k e z ti) by (auto; lra). f_equal. unfold nr_charge.
    rewrite threshold_half by assumption. assert (0 < sqrt (z + ep)) by (apply sqrt_lt_R0; lra). field. split; lra.
  - intros e e' E E' HE HE' PE Pk.
    rewrite (C111_nr_charge o ep z et energy TI k e E ti) by (auto; lra).
    rewrite (C111_nr_charge o ep z et energy TI k e' E' ti) by (auto; lra).
    do 2 eexists. split; [reflexivity|]. split; [reflexivity|].
    assert (S : 0 < sqrt (E + ep)) by (apply sqrt_lt_R0; lra). assert (S' : 0 < sqrt (E' + ep)) by (apply sqrt_lt_R0; lra).
    unfold nr_charge. pose proof (threshold_up E E' z et PE Pz Pk) as T.
    replace (threshold E z et / (ti * sqrt (E + ep)) * sqrt (E + ep)) with (threshold E z et / ti) by (field; split; lra).
    replace (threshold E' z et / (ti * sqrt (E' + ep)) * sqrt (E' + ep)) with (threshold E' z et / ti) by (field; split; lra).
    unfold Rdiv. apply Rmult_lt_compat_r; [apply Rinv_0_lt_compat; assumption|exact T].
Qed.

(** ** Electronic recoils *)
Lemma step_den x s k p : 0 < Rpower (1 + Rpower (x / s) k) p.
Proof. apply exp_pos. Qed.
Lemma one_plus x y : 0 < 1 + Rpower x y.
Proof. pose proof (exp_pos (y * ln x)) as P. unfold Rpower. lra. Qed.

Theorem C111_er_charge : forall o m1 m2 m3 m4 m7 m8 m9 m10 w D energy ratio field k e E F r,
  energy e = Fin E -> ratio e = Fin r -> field e = Fin F -> 0 < E -> 0 < F -> 0 < w -> 0 <= r -> 0 < D ->
  0 < er_m3 m3 F -> 0 < er_m7 m7 F ->
  result (QyER o (Fin m1) (Fin m2) (Fin m3) (Fin m4) (Fin m7) (Fin m8) (Fin m9) (Fin m10) (Fin w) (Fin D) energy ratio field) k e =
  Fin (Rmax (er_charge m1 m2 m3 m4 m7 m8 m9 m10 w r E F) 0).
Proof.
  intros o m1 m2 m3 m4 m7 m8 m9 m10 w D energy ratio field k e E F r HE Hr HF PE PF Pw Pr PD P3 P7.
  unfold QyER. ret_result. cbv zeta. pose proof (density_factor o D PD) as DF. cbv zeta in DF. rewrite DF. clear DF.
  rewrite HE, Hr, HF. unfold f10.
  assert (L10 : ln 10 <> 0). { pose proof (ln_increasing 1 10 ltac:(lra) ltac:(lra)). rewrite ln_1 in *. lra. }
  assert (LF : forall x, 0 < x -> flog (Fin x) = Fin (ln x)).
  { intros x Px. unfold flog. destruct (total_order_T x 0) as [[?|?]|?]; [lra|lra|reflexivity]. }
  unfold flog10. rewrite (LF F PF), (LF 10) by lra. rewrite (fdiv_Fin (ln F)) by assumption.
  rewrite !(fdiv_Fin F) by lra.
  rewrite !(fpow_pos o (F / _)) by (apply Rdiv_lt_0_compat; lra). farith.
  rewrite (fpow_pos o (1 + Rpower (F / (73855 / 1000)) (20318 / 10000))) by apply one_plus.
  rewrite (fdiv_Fin (m1 - 3066 / 100)) by (apply Rgt_not_eq, exp_pos).
  rewrite (fdiv_Fin (m4 - _)) by (apply Rgt_not_eq, one_plus). rewrite (fdiv_Fin (m7 - _)) by (apply Rgt_not_eq, one_plus).
  rewrite (fdiv_Fin (m10 - _)) by (apply Rgt_not_eq, one_plus). rewrite (fdiv_Fin 1 w) by lra. rewrite (fdiv_Fin (1 / w)) by lra. farith.
  assert (S1 : forall a b x s k, b + (a - b) / (1 + Rpower (x / s) k) = step a b x s k 1).
  { intros. unfold step. rewrite Rpower_1 by apply one_plus. reflexivity. }
  rewrite !S1. fold (er_m4 m4 F) (er_m7 m7 F) (er_m10 m10 F). fold (step m1 (3066 / 100) F (73855 / 1000) (20318 / 10000) (41883 / 100000)). fold (er_m1 m1 F).
  replace (ln F / ln 10 * (13946236 / 100000000) + m3) with (er_m3 m3 F) by (unfold er_m3; ring).
  rewrite (fdiv_Fin E (er_m3 m3 F)), (fdiv_Fin E (er_m7 m7 F)) by lra.
  rewrite !(fpow_pos o (E / _)) by (apply Rdiv_lt_0_compat; assumption). farith.
  rewrite !(fpow_pos o (1 + _)) by apply one_plus.
  rewrite !(fdiv_Fin _ (Rpower (1 + _) _)) by (apply Rgt_not_eq, exp_pos). farith. rewrite clip_pos_Fin. farith. f_equal. rewrite Rmult_1_r.
  f_equal. unfold er_charge, step. replace (1 / w / (1 + r)) with (1 / (w * (1 + r))) by (field; lra). unfold Rdiv. ring.
Qed.

Theorem C111_er_ratio : forall o D energy k e E, lawful o -> energy e = Fin E -> 0 <= E -> 0 <= D ->
  let '(ratio, alf) := result (ExcitonIonRatioER o (Fin D) energy) k in
  exists r, ratio e = Fin r /\ r = er_ratio (o_erf o) D E /\ 0 <= r <= 67366 / 1000000 + 39693 / 1000000 * D /\ alf e = Fin (1 / (1 + r)).
Proof.
  intros o D energy k e E L HE PE PD. unfold ExcitonIonRatioER. ret_result. cbv beta iota zeta. rewrite HE. unfold f10. farith.
  cbn [ferf]. farith. replace (E * (5 / 100)) with (E / 20) by field.
  pose proof (law_erf_bound o L (E / 20)). pose proof (law_erf_sign o L (E / 20) ltac:(lra)).
  fold (er_ratio (o_erf o) D E). assert (B : 0 <= er_ratio (o_erf o) D E <= 67366 / 1000000 + 39693 / 1000000 * D) by (unfold er_ratio; split; nra).
  eexists. split; [reflexivity|]. split; [reflexivity|]. split; [exact B|]. rewrite fdiv_Fin by lra. reflexivity.
Qed.

(** ** The widths of recombination *)
Lemma bell_peak A c w x : 0 < A -> 0 < w -> bell A c w x <= A /\ (bell A c w x = A <-> x = c).
Proof.
  intros PA Pw. unfold bell. assert (PW : 0 < 2 * w ^ 2) by (apply Rmult_lt_0_compat; [lra|apply pow_lt; assumption]).
  assert (N : 0 <= (x - c) ^ 2 / (2 * w ^ 2)) by (apply Rmult_le_pos; [apply pow2_ge_0|left; apply Rinv_0_lt_compat; assumption]).
  destruct (Req_dec x c) as [->|D].
  - replace ((c - c) ^ 2 / (2 * w ^ 2)) with 0 by (field; lra). rewrite Ropp_0, exp_0. split; [lra|]. split; intros; [reflexivity|lra].
  - assert (X : 0 < (x - c) ^ 2) by (rewrite <- Rsqr_pow2; apply Rsqr_pos_lt; lra).
    assert (P : 0 < (x - c) ^ 2 / (2 * w ^ 2)) by (apply Rdiv_lt_0_compat; assumption).
    assert (exp (- ((x - c) ^ 2 / (2 * w ^ 2))) < 1) by (rewrite <- exp_0; apply exp_increasing; lra).
    split; [nra|]. split; [intros; nra|intros; contradiction].
Qed.

Theorem C111_nr_width : forall A xi w elecFrac recombProb Ni k e x r, elecFrac e = Fin x -> recombProb e = Fin r -> 0 < w ->
  let '(om, Variance) := result (OmegaNR (Fin A) (Fin xi) (Fin w) elecFrac recombProb Ni) k in
  om e = Fin (bell A xi w x) /\ Variance e = Fin (ion_variance r (bell A xi w x) (IZR (Ni e))) /\
  (0 < A -> bell A xi w x <= A /\ (bell A xi w x = A <-> x = xi)).
Proof.
  intros A xi w ef rp Ni k e x r Hx Hr Pw. unfold OmegaNR. ret_result. cbv beta iota zeta. rewrite Hx, Hr. unfold of_int.
  rewrite (fdiv_Fin (-1) 2) by lra. farith. rewrite fdiv_Fin by nra. farith.
  assert (E : A * exp (-1 / 2 * ((x - xi) * (x - xi)) / (w * w)) = bell A xi w x).
  { unfold bell. f_equal. f_equal. field. lra. }
  rewrite E. split; [reflexivity|]. split; [f_equal; unfold ion_variance; ring|]. intros PA. apply bell_peak; assumption.
Qed.

Theorem C111_er_width : forall o A xi w s elecFrac recombProb Ni field k e x r F,
  like_erf (o_erf o) -> elecFrac e = Fin x -> recombProb e = Fin r -> field e = Fin F -> 0 < F -> 0 < w ->
  let '(om, Variance) := result (OmegaER o (Fin A) (Fin xi) (Fin w) (Fin s) elecFrac recombProb Ni field) k in
  exists v, om e = Fin v /\ 0 <= v /\ Variance e = Fin (ion_variance r v (IZR (Ni e))).
Proof.
  intros o A xi w s ef rp Ni field k e x r F Er Hx Hr HF PF Pw.
  destruct (omega_value o A xi w s ef rp Ni field k e x F Hx HF PF Pw Er) as [V _].
  unfold OmegaER in *. revert V. ret_result. cbn [fst]. intros V. eexists. split; [exact V|]. split; [apply Rmax_r|].
  cbv beta iota zeta in V |- *. rewrite V, Hr. unfold of_int. farith. f_equal. unfold ion_variance. ring.
Qed.

(** ** The field of an event *)
(** Without the map every event has the field of the parameter; with it, the one at the event's
    distance from the axis and height, whatever its azimuth. *)
Theorem C111_field : forall m V x y z k e r t, x e = Fin (r * cos t) -> y e = Fin (r * sin t) -> 0 <= r ->
  result (EField true m (Fin V) x y z) k e = m (Fin r) (z e) /\
  result (EField false m (Fin V) x y z) k e = Fin V.
Proof.
  intros m V x y z k e r t Hx Hy Pr. split.
  - change (result (EField true m (Fin V) x y z) k e) with (m (fsqrt (x e * x e + y e * y e)%fl) (z e)). rewrite Hx, Hy. farith.
    replace (r * cos t * (r * cos t) + r * sin t * (r * sin t)) with (r * r * (Rsqr (sin t) + Rsqr (cos t))) by (unfold Rsqr; ring).
    rewrite sin2_cos2, Rmult_1_r. rewrite fsqrt_Fin by nra. rewrite sqrt_square by assumption. reflexivity.
  - change (result (EField false m (Fin V) x y z) k e) with (#1 * Fin V)%fl. farith. f_equal. ring.
Qed.

(** ** Instances: the shipped parameters of nuclear recoils (rounded), 100 V/cm against 20 V/cm. *)
Definition shipped_yields (V : R) : M (arr fl * arr fl) :=
  nr_yields toy (Fin 11) (Fin (11 / 10)) (Fin (48 / 1000)) (Fin (-53 / 1000)) (Fin (286 / 100)) (Fin (126 / 10)) (Fin (3 / 10)) (Fin 2)
    (Fin (3 / 10)) (Fin 2) (fun _ => Fin 10) (fun _ => Fin V).
Example C111_case_nr :
  let '(_, qy) := result (shipped_yields 20) [] in let '(_, qy') := result (shipped_yields 100) [] in
  exists q q', qy 0%nat = Fin q /\ qy' 0%nat = Fin q' /\ q < q'.
Proof.
  pose proof (C111_nr_field toy 11 (11 / 10) (48 / 1000) (-53 / 1000) (286 / 100) (126 / 10) (3 / 10) 2 (3 / 10) 2 (fun _ => Fin 10)
    (fun _ => Fin 20) (fun _ => Fin 100) [] 0%nat 10 20 100 eq_refl eq_refl eq_refl ltac:(lra) ltac:(lra) ltac:(lra) ltac:(lra) ltac:(lra) ltac:(lra) ltac:(lra) ltac:(lra)) as H.
  fold (shipped_yields 20) in H. fold (shipped_yields 100) in H.
  destruct (result (shipped_yields 20) []) as [l q]. destruct (result (shipped_yields 100) []) as [l' q'].
  destruct H as (a & a' & b & b' & Q & Q' & _ & _ & C & _). exists a, a'. auto.
Qed.

(** At 1 keV, 100 V/cm the charge yield of electronic recoils comes from these formulas. *)
Example C111_case_er : exists q, result (QyER toy (Fin 12) (Fin 70) (Fin 1) (Fin 2) (Fin 50) (Fin 4) (Fin (3 / 10)) (Fin (1 / 10)) (Fin (137 / 10000)) (Fin (286 / 100))
    (fun _ => Fin 1) (fun _ => Fin (1 / 10)) (fun _ => Fin 100)) [] 0%nat = Fin q /\ 0 <= q.
Proof.
  eexists. split; [apply (C111_er_charge toy 12 70 1 2 50 4 (3 / 10) (1 / 10) (137 / 10000) (286 / 100) _ _ _ [] 0%nat 1 100 (1 / 10)); try reflexivity; try lra|apply Rmax_r].
  - unfold er_m3. assert (0 < ln 100 / ln 10); [|lra].
    apply Rdiv_lt_0_compat; rewrite <- ln_1; apply ln_increasing; lra.
  - unfold er_m7, step. rewrite Rpower_1 by apply one_plus. set (q := Rpower _ _). assert (0 < q) by apply exp_pos.
    assert (0 < (50 - 702921301 / 100000000) / (1 + q)) by (apply Rdiv_lt_0_compat; lra). lra.
Qed.

Print Assumptions C111_nr_box.
Print Assumptions C111_nr_quanta.
Print Assumptions C111_nr_charge.
Print Assumptions C111_nr_light.
Print Assumptions C111_nr_chain.
Print Assumptions C111_nr_field.
Print Assumptions C111_nr_threshold.
Print Assumptions C111_er_charge.
Print Assumptions C111_er_ratio.
Print Assumptions C111_nr_width.
Print Assumptions C111_er_width.
Print Assumptions C111_field.
