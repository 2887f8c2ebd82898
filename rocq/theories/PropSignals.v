(** Properties of the reconstructed signals: C84. *)
From Coq Require Import Reals ZArith Lra Lia.
From Verif Require Import Base ModelFloat ModelRandgen ModelPlugins SpecRandgen SpecPlugins SpecSignals ProofFloat ProofLikelihood2 ProofLikelihood3
  ProofRandgen ProofPlugins PropRandgen PropPlugins.
Local Open Scope R_scope.

Lemma average_ext {A} (d : SpecSignals.dist A) f g : (forall w a, In (w, a) d -> f a = g a) -> average d f = average d g.
Proof.
  induction d as [|[w a] d IH]; intros H; [reflexivity|]. change (w * f a + average d f = w * g a + average d g). rewrite (H w a) by (left; reflexivity). f_equal. apply IH. intros w' a' I. apply (H w' a'). right. exact I.
Qed.
Lemma average_linear {A} (d : SpecSignals.dist A) f a b : average d (fun x => a * f x + b) = a * average d f + b * average d (fun _ => 1).
Proof.
  induction d as [|[w x] d IH]; [cbn; ring|]. change (w * (a * f x + b) + average d (fun x => a * f x + b) = a * (w * f x + average d f) + b * (w * 1 + average d (fun _ => 1))).
  rewrite IH. ring.
Qed.
Lemma average_affine {A} (d : SpecSignals.dist A) f g a b : total d -> (forall w x, In (w, x) d -> g x = a * f x + b) -> average d g = a * average d f + b.
Proof. intros [_ T] H. rewrite (average_ext d g (fun x => a * f x + b) H), average_linear, T. ring. Qed.

Lemma child_neq k i j : i <> j -> child k i <> child k j.
Proof. intros N E. apply app_inv_head in E. injection E as E. contradiction. Qed.
Lemma child_longer k (a b : list nat) : List.length a <> List.length b -> (k ++ a)%list <> (k ++ b)%list.
Proof. intros N E. apply app_inv_head in E. subst. contradiction. Qed.

(** * C84: corrected signals *)

(** The corrected S1 is a function of three numbers drawn from different keys. On average it is g1
    times the number of photons, times the bias, times the ratio of the light collection efficiency at
    the true position to the correction at the reconstructed one. *)
Theorem C84_s1 : forall size g1 p_dpe lce corr bias smear num_photon x y z rx ry rz k e l c b s,
  lce (x e) (y e) (z e) = Fin l -> corr (rx e) (ry e) (rz e) = Fin c ->
  (forall m, bias (of_int m) = Fin b /\ smear (of_int m) = Fin (s m)) ->
  (0 <= num_photon e)%Z -> 0 <= p_dpe <= 1 -> 0 <= g1 * l <= 1 + p_dpe -> c <> 0 ->
  exists s0 s1 s2 f, s0 <> s1 /\ s0 <> s2 /\ s1 <> s2 /\
    (forall o, result (s1_chain o JaxBinomial size (Fin g1) (Fin p_dpe) lce corr bias smear num_photon x y z rx ry rz) k e =
      Fin (f (o_binom o s0 e) (o_binom o s1 e) (o_norm o s2 e))) /\
    forall d0 d1 d2, binomial_like d0 (num_photon e) (g1 * l / (1 + p_dpe)) -> (forall m, (0 <= m)%Z -> binomial_like d1 m p_dpe) -> normal_like d2 ->
      average d0 (fun b0 => average d1 (fun b1 => average d2 (fun z => f b0 b1 z))) = g1 * IZR (num_photon e) * (1 + b) * (l / c).
Proof.
  intros size g1 p lce corr bias smear n x y z rx ry rz k e l c b s Hl Hc Hb Hn Hp Hg Nc.
  exists (child k 1), (child (child k 0) 1), (child (child (child k 0) 0) 1).
  exists (fun b0 b1 v => let phd := b0 (n e) (Fin (g1 * l / (1 + p))) in let pe := (b1 phd (Fin p) + phd)%Z in IZR pe * (1 + (v * s pe + b)) / c).
  unfold child. rewrite <- !app_assoc. cbn [app].
  split; [apply child_longer; discriminate|]. split; [apply child_longer; discriminate|]. split; [apply child_longer; discriminate|]. split.
  - intros o. unfold s1_chain, S1LCE, PhotonDetection, S1PE, S1, S1Correction, cS1, binomial, binomial_jax, normal, split2, use, child.
    unfold result, bind, ret. cbn [fst snd]. rewrite <- !app_assoc. cbn [app]. rewrite Hl, Hc.
    assert (P : 0 <= g1 * l / (1 + p) <= 1).
    { assert (X : g1 * l / (1 + p) * (1 + p) = g1 * l) by (field; lra). split; nra. }
    farith. rewrite fdiv_Fin by lra. rewrite (clip01_inside _ P).
    set (phd := o_binom o _ e (n e) _). set (dpe := o_binom o _ e phd _).
    destruct (Hb (dpe + phd)%Z) as [-> ->]. unfold of_int. farith. rewrite fdiv_Fin by assumption. reflexivity.
  - intros d0 d1 d2 B0 B1 [T2 N2]. cbv zeta.
    destruct B0 as (T0 & R0 & M0).
    rewrite (average_affine d0 (fun b0 => IZR (b0 (n e) (Fin (g1 * l / (1 + p))))) _ ((1 + p) * (1 + b) / c) 0 T0).
    + rewrite M0. field. split; lra.
    + intros w b0 I. pose proof (R0 w b0 I) as R. set (phd := b0 (n e) _) in *. destruct (B1 phd ltac:(lia)) as (T1 & R1 & M1).
      rewrite (average_affine d1 (fun b1 => IZR (b1 phd (Fin p))) _ ((1 + b) / c) (IZR phd * (1 + b) / c) T1).
      * rewrite M1. field. assumption.
      * intros w1 b1 I1. set (pe := (b1 phd (Fin p) + phd)%Z).
        rewrite (average_affine d2 (fun z => z) _ (IZR pe * s pe / c) (IZR pe * (1 + b) / c) T2).
        -- rewrite N2. unfold pe. rewrite plus_IZR. field. assumption.
        -- intros. field. assumption.
Qed.

(** The corrected S2 in the same way: g2 times the number of electrons, whatever the drift loss and
    the gas gain are at the position of the event. *)
Theorem C84_s2 : forall size g2 gain p_dpe rel lce corr bias smear num_electron surv x y rx ry k e l c b s q r,
  lce (x e) (y e) = Fin l -> corr (rx e) (ry e) = Fin c -> surv e = Fin q -> rel (x e) (y e) = Fin r ->
  (forall m, bias (of_int m) = Fin b /\ smear (of_int m) = Fin (s m)) ->
  (0 <= num_electron e)%Z -> 0 <= p_dpe <= 1 -> 0 < q <= 1 -> 0 < gain * r -> 0 <= g2 <= gain * r -> 0 <= l -> c <> 0 ->
  exists s0 s1 s2 s3 s4 f, NoDup [s0; s1; s2; s3; s4] /\
    (forall o, result (s2_chain o JaxBinomial size (Fin g2) (Fin gain) (Fin p_dpe) rel lce corr bias smear num_electron surv x y rx ry) k e =
      Fin (f (o_binom o s0 e) (o_binom o s1 e) (o_pois o s2 e) (o_binom o s3 e) (o_norm o s4 e))) /\
    forall d0 d1 d2 d3 d4, binomial_like d0 (num_electron e) q -> (forall m, (0 <= m)%Z -> binomial_like d1 m (g2 / (gain * r))) ->
      (forall m, (0 <= m)%Z -> poisson_like d2 (IZR m * (gain * r * l / (1 + p_dpe)))) -> (forall m, (0 <= m)%Z -> binomial_like d3 m p_dpe) -> normal_like d4 ->
      average d0 (fun b0 => average d1 (fun b1 => average d2 (fun b2 => average d3 (fun b3 => average d4 (fun z => f b0 b1 b2 b3 z))))) =
        g2 * IZR (num_electron e) * (1 + b) * (l / c).
Proof.
  intros size g2 gain p rel lce corr bias smear n surv x y rx ry k e l c b s q r Hl Hc Hq Hr Hb Hn Hp Pq Pg Hg Pl Nc.
  set (k1 := child k 0). set (k2 := child k1 0). set (k3 := child k2 0). set (k4 := child k3 0).
  exists (child k 1), (child k1 1), (child k2 1), (child k3 1), (child k4 1).
  set (G := gain * r) in *. set (h := G * l / (1 + p)).
  exists (fun b0 b1 b2 b3 v => let dr := b0 (n e) (Fin q) in let ex := b1 dr (Fin (g2 / G)) in let phd := b2 (Fin (IZR ex * h)) in
    let pe := (phd + b3 phd (Fin p))%Z in IZR pe * (1 + (v * s pe + b)) / c / q).
  split.
  { unfold k4, k3, k2, k1, child. rewrite <- !app_assoc. cbn [app].
    assert (N : forall (l : list (list nat)), NoDup (map (@List.length nat) l) -> NoDup (map (fun a => (k ++ a)%list) l)).
    { intros ls H. apply FinFun.Injective_map_NoDup; [intros u v; apply app_inv_head|]. apply NoDup_map_inv in H. exact H. }
    apply (N [[1]; [0; 1]; [0; 0; 1]; [0; 0; 0; 1]; [0; 0; 0; 0; 1]]%nat). cbn. repeat constructor; cbn; intuition discriminate. }
  split.
  - intros o. unfold s2_chain, S2LCE, ElectronDrifted, S2PE, S2, S2Correction, cS2, binomial, binomial_jax, poisson, normal, split2, use.
    unfold result, bind, ret. cbn [fst snd]. fold k1 k2 k3 k4. rewrite Hl, Hc, Hq, Hr.
    farith. fold G. rewrite fdiv_Fin by lra.
    set (dr := o_binom o _ e (n e) _). set (ex := o_binom o _ e dr _). unfold of_int. rewrite fdiv_Fin by lra. fold h. farith.
    set (phd := o_pois o _ e _). set (dpe := o_binom o _ e phd _).
    destruct (Hb (phd + dpe)%Z) as [B1 B2]. unfold of_int in B1, B2. rewrite B1, B2. farith. rewrite fdiv_Fin by assumption. rewrite fdiv_Fin by lra. reflexivity.
  - intros d0 d1 d2 d3 d4 (T0 & R0 & M0) B1 B2 B3 [T4 N4]. cbv zeta.
    assert (Q : q <> 0) by lra. assert (GN : G <> 0) by lra. assert (PN : 1 + p <> 0) by lra.
    rewrite (average_affine d0 (fun b0 => IZR (b0 (n e) (Fin q))) _ (g2 * (1 + b) * l / c / q) 0 T0).
    { rewrite M0. field. split; assumption. }
    intros w0 b0 I0. pose proof (R0 _ _ I0) as R0'. set (dr := b0 (n e) _) in *. destruct (B1 dr ltac:(lia)) as (T1 & R1 & M1).
    rewrite (average_affine d1 (fun b1 => IZR (b1 dr (Fin (g2 / G)))) _ (G * (1 + b) * l / c / q) 0 T1).
    { rewrite M1. field. repeat split; assumption. }
    intros w1 b1 I1. pose proof (R1 _ _ I1) as R1'. set (ex := b1 dr _) in *. destruct (B2 ex ltac:(lia)) as (T2 & R2 & M2). fold h in T2, R2, M2.
    rewrite (average_affine d2 (fun b2 => IZR (b2 (Fin (IZR ex * h)))) _ ((1 + p) * (1 + b) / c / q) 0 T2).
    { rewrite M2. unfold h. field. repeat split; assumption. }
    intros w2 b2 I2. pose proof (R2 _ _ I2) as R2'. set (phd := b2 _) in *. destruct (B3 phd ltac:(lia)) as (T3 & R3 & M3).
    rewrite (average_affine d3 (fun b3 => IZR (b3 phd (Fin p))) _ ((1 + b) / c / q) (IZR phd * (1 + b) / c / q) T3).
    { rewrite M3. field. split; assumption. }
    intros w3 b3 I3. set (pe := (phd + b3 phd (Fin p))%Z).
    rewrite (average_affine d4 (fun z => z) _ (IZR pe * s pe / c / q) (IZR pe * (1 + b) / c / q) T4).
    { rewrite N4. unfold pe. rewrite plus_IZR. field. split; assumption. }
    intros. field. split; assumption.
Qed.

(** Reconstructed positions: the two coordinates are moved by two different normal numbers, so that
    the mean square distance from the true position is the square of the resolution. *)
Theorem C84_position : forall o reso x y z num k e X Y s, x e = Fin X -> y e = Fin Y -> reso (of_int (num e)) = Fin s ->
  let '(rx, ry, rz, rr) := result (PositionRecon o reso x y z num) k in
  exists s0 s1 f g, s0 <> s1 /\ rx e = Fin (f (o_norm o s0 e)) /\ ry e = Fin (g (o_norm o s1 e)) /\ rz e = z e /\
    rr e = Fin (sqrt (f (o_norm o s0 e) * f (o_norm o s0 e) + g (o_norm o s1 e) * g (o_norm o s1 e))) /\
    forall d0 d1, normal_like d0 -> normal_like d1 -> average d0 (fun a => a * a) = 1 -> average d1 (fun a => a * a) = 1 ->
      average d0 (fun a => average d1 (fun b => (f a - X) * (f a - X) + (g b - Y) * (g b - Y))) = s * s /\
      average d0 f = X /\ average d1 g = Y.
Proof.
  intros o reso x y z num k e X Y s HX HY Hs. unfold PositionRecon. rewrite !bind_result. ret_result. cbv beta iota zeta.
  set (k1 := child k 0). exists (child k 1), (child k1 1), (fun a => X + (a * (s / sqrt 2) + 0)), (fun a => Y + (a * (s / sqrt 2) + 0)).
  assert (S2 : 0 < sqrt 2) by (apply sqrt_lt_R0; lra). assert (SS : sqrt 2 * sqrt 2 = 2) by (apply sqrt_sqrt; lra).
  split; [unfold k1, child; rewrite <- app_assoc; apply child_longer; discriminate|].
  repeat match goal with |- context [result (normal o ?m ?sd) ?k' e] => change (result (normal o m sd) k' e) with (#(o_norm o (child k' 1) e) * sd e + m e)%fl end.
  cbv beta. change (next_key (normal o _ _) k) with k1. rewrite HX, HY, Hs, fsqrt_Fin by lra. rewrite fdiv_Fin by lra. farith.
  split; [reflexivity|]. split; [reflexivity|]. split; [reflexivity|]. split.
  { rewrite fsqrt_Fin; [reflexivity|]. match goal with |- 0 <= ?a * ?a + ?b * ?b => pose proof (Rle_0_sqr a); pose proof (Rle_0_sqr b); unfold Rsqr in *; lra end. }
  intros d0 d1 [T0 N0] [T1 N1] Q0 Q1. set (v := s / sqrt 2). assert (V : v * v * 2 = s * s) by (unfold v; replace 2 with (sqrt 2 * sqrt 2) at 3; field; lra).
  split; [|split].
  - rewrite (average_affine d0 (fun a => a * a) _ (v * v) (v * v) T0); [rewrite Q0; lra|]. intros w a I.
    rewrite (average_affine d1 (fun a => a * a) _ (v * v) (v * v * (a * a)) T1); [rewrite Q1; ring|]. intros. ring.
  - rewrite (average_affine d0 (fun a => a) _ v X T0); [rewrite N0; ring|]. intros. ring.
  - rewrite (average_affine d1 (fun a => a) _ v Y T1); [rewrite N1; ring|]. intros. ring.
Qed.

(** A signal without bias and smearing is its number of photoelectrons; no photoelectrons, no signal. *)
Theorem C84_area : forall o bias smear pe k e b s, bias (of_int (pe e)) = Fin b -> smear (of_int (pe e)) = Fin s ->
  exists a, result (S1 o bias smear pe) k e = Fin a /\ result (S2 o bias smear (fun e => of_int (pe e))) k e = Fin a /\
    (b = 0 -> s = 0 -> a = IZR (pe e)) /\ (pe e = 0%Z -> a = 0).
Proof.
  intros o bias smear pe k e b s Hb Hs. unfold S1, S2. rewrite !bind_result.
  repeat match goal with |- context [result (ret ?f) ?k'] => change (result (ret f) k') with f end. cbv beta.
  repeat match goal with |- context [result (normal o ?m ?sd) ?k' e] => change (result (normal o m sd) k' e) with (#(o_norm o (child k' 1) e) * sd e + m e)%fl end.
  cbv beta. rewrite Hb, Hs. unfold of_int. farith. eexists. split; [reflexivity|]. split; [reflexivity|]. split; intros.
  - subst. ring.
  - rewrite H. ring.
Qed.

(** Areas can be negative: the smearing is not bounded. *)
Theorem C84_area_sign_refuted : exists o bias smear pe k e a, lawful o /\ (0 < pe e)%Z /\ bias (of_int (pe e)) = Fin 0 /\ positive (smear (of_int (pe e))) /\
  result (S1 o bias smear pe) k e = Fin a /\ a < 0.
Proof.
  set (o := mk_oracle (fun _ _ => 0) (fun _ _ => -5) (fun _ _ _ => 0%Z) (fun _ _ _ => Fin 1) (fun _ _ _ => true) (fun _ _ _ _ => 0%Z)
    (fun _ => 0%Z) (fun _ _ => NaN) (fun x => 0)).
  exists o, (fun _ => Fin 0), (fun _ => Fin 1), (fun _ => 2%Z), [], 0%nat. eexists. split.
  { constructor; cbn [o o_unif o_pois o_gamma o_binom o_erf]; intros; try lra; try lia. exists 1. split; [reflexivity|lra]. }
  split; [lia|]. split; [reflexivity|]. split; [exists 1; split; [reflexivity|lra]|].
  unfold S1. rewrite bind_result. ret_result. cbv beta.
  match goal with |- context [result (normal o ?m ?sd) ?k' ?e'] => change (result (normal o m sd) k' e') with (#(o_norm o (child k' 1) e') * sd e' + m e')%fl end.
  cbv beta. cbn [o o_norm]. unfold of_int. farith. split; [reflexivity|lra].
Qed.

(** All or nothing draws have these averages. *)
Definition all_or_nothing (p : R) : SpecSignals.dist (Z -> fl -> Z) := [(p, fun n _ => n); (1 - p, fun _ _ => 0%Z)].
Example C84_case_binomial : forall n p, (0 <= n)%Z -> 0 <= p <= 1 -> binomial_like (all_or_nothing p) n p.
Proof.
  intros n p H P. unfold binomial_like, total, all_or_nothing. split; [split; [|cbn; ring]|split; [|cbn; ring]].
  - intros w b [E|[E|[]]]; injection E as <- <-; lra.
  - intros w b [E|[E|[]]]; injection E as <- <-; lia.
Qed.
Definition floor_of (c : R) (x : fl) : Z := match x with Fin r => Z.max 0 (Int_part (r / c)) | _ => 0%Z end.
Definition seldom (c : R) (K : Z) : SpecSignals.dist (fl -> Z) := [(c / IZR K, fun x => (K * floor_of c x)%Z); (1 - c / IZR K, fun _ => 0%Z)].
Example C84_case_poisson : forall c K m, 0 < c <= IZR K -> (0 <= m)%Z -> poisson_like (seldom c K) (IZR m * c).
Proof.
  intros c K m P H. assert (F : floor_of c (Fin (IZR m * c)) = m).
  { unfold floor_of. replace (IZR m * c / c) with (IZR m) by (field; lra).
    assert (I : Int_part (IZR m) = m).
    { destruct (base_Int_part (IZR m)) as [A B]. apply le_IZR in A. assert (m - 1 < Int_part (IZR m))%Z by (apply lt_IZR; rewrite minus_IZR; lra). lia. }
    rewrite I. lia. }
  assert (PK : (0 < K)%Z) by (apply lt_IZR; lra).
  assert (W : c / IZR K * IZR K = c) by (field; lra). assert (W0 : 0 < c / IZR K) by (apply Rdiv_lt_0_compat; lra).
  assert (W1 : c / IZR K <= 1) by nra.
  unfold poisson_like, total, seldom. split; [split|split].
  - intros w b [E|[E|[]]]; injection E as <- <-; lra.
  - cbn. ring.
  - intros w b [E|[E|[]]]; injection E as <- <-; [rewrite F|]; lia.
  - cbn [average fold_right fst snd]. rewrite F, mult_IZR. field. lra.
Qed.
Definition coin : SpecSignals.dist R := [(/ 2, 1); (/ 2, -1)].
Example C84_case_normal : normal_like coin /\ average coin (fun a => a * a) = 1.
Proof.
  unfold normal_like, total, coin. split; [split; [split|]|]; cbn; try lra.
  intros w b [E|[E|[]]]; injection E as <- <-; lra.
Qed.

(** One hundred photons at g1 = 0.15 give 15 on average. *)
Example C84_case : exists s0 s1 s2 f, s0 <> s1 /\ s0 <> s2 /\ s1 <> s2 /\
  (forall o, result (s1_chain o JaxBinomial 1 (Fin (15 / 100)) (Fin (22 / 100)) (fun _ _ _ => Fin (9 / 10)) (fun _ _ _ => Fin (9 / 10)) (fun _ => Fin 0) (fun _ => Fin (1 / 10))
     (fun _ => 100%Z) (fun _ => Fin 1) (fun _ => Fin 2) (fun _ => Fin (-30)) (fun _ => Fin 1) (fun _ => Fin 2) (fun _ => Fin (-30))) [] 0%nat =
     Fin (f (o_binom o s0 0%nat) (o_binom o s1 0%nat) (o_norm o s2 0%nat))) /\
  average (all_or_nothing (15 / 100 * (9 / 10) / (1 + 22 / 100))) (fun b0 => average (all_or_nothing (22 / 100)) (fun b1 => average coin (fun z => f b0 b1 z))) = 15.
Proof.
  destruct (C84_s1 1 (15 / 100) (22 / 100) (fun _ _ _ => Fin (9 / 10)) (fun _ _ _ => Fin (9 / 10)) (fun _ => Fin 0) (fun _ => Fin (1 / 10))
     (fun _ => 100%Z) (fun _ => Fin 1) (fun _ => Fin 2) (fun _ => Fin (-30)) (fun _ => Fin 1) (fun _ => Fin 2) (fun _ => Fin (-30)) [] 0%nat (9 / 10) (9 / 10) 0 (fun _ => 1 / 10))
    as (s0 & s1 & s2 & f & N1 & N2 & N3 & V & A); try reflexivity; try lra; try lia.
  - intros. split; reflexivity.
  - exists s0, s1, s2, f. split; [assumption|]. split; [assumption|]. split; [assumption|]. split; [exact V|].
    rewrite A; [lra| | |apply C84_case_normal]; intros; apply C84_case_binomial; lia || lra.
Qed.

(** Fifty electrons at g2 = 16 give 800 on average. *)
Example C84_case_s2 : exists s0 s1 s2 s3 s4 f, NoDup [s0; s1; s2; s3; s4] /\
  (forall o, result (s2_chain o JaxBinomial 1 (Fin 16) (Fin 30) (Fin (22 / 100)) (fun _ _ => Fin (11 / 10)) (fun _ _ => Fin (9 / 10)) (fun _ _ => Fin (9 / 10))
     (fun _ => Fin 0) (fun _ => Fin (1 / 10)) (fun _ => 50%Z) (fun _ => Fin (3 / 4)) (fun _ => Fin 1) (fun _ => Fin 2) (fun _ => Fin 1) (fun _ => Fin 2)) [] 0%nat =
     Fin (f (o_binom o s0 0%nat) (o_binom o s1 0%nat) (o_pois o s2 0%nat) (o_binom o s3 0%nat) (o_norm o s4 0%nat))) /\
  average (all_or_nothing (3 / 4)) (fun b0 => average (all_or_nothing (16 / (30 * (11 / 10)))) (fun b1 =>
    average (seldom (30 * (11 / 10) * (9 / 10) / (1 + 22 / 100)) 40) (fun b2 => average (all_or_nothing (22 / 100)) (fun b3 => average coin (fun z => f b0 b1 b2 b3 z))))) = 800.
Proof.
  destruct (C84_s2 1 16 30 (22 / 100) (fun _ _ => Fin (11 / 10)) (fun _ _ => Fin (9 / 10)) (fun _ _ => Fin (9 / 10)) (fun _ => Fin 0) (fun _ => Fin (1 / 10))
     (fun _ => 50%Z) (fun _ => Fin (3 / 4)) (fun _ => Fin 1) (fun _ => Fin 2) (fun _ => Fin 1) (fun _ => Fin 2) [] 0%nat (9 / 10) (9 / 10) 0 (fun _ => 1 / 10) (3 / 4) (11 / 10))
    as (s0 & s1 & s2 & s3 & s4 & f & N & V & A); try reflexivity; try lra; try lia.
  - intros. split; reflexivity.
  - exists s0, s1, s2, s3, s4, f. split; [assumption|]. split; [exact V|].
    rewrite A; [lra| | | | |apply C84_case_normal]; intros; (apply C84_case_binomial || apply C84_case_poisson); lia || lra.
Qed.

Print Assumptions C84_s1.
Print Assumptions C84_s2.
Print Assumptions C84_position.
Print Assumptions C84_area.
Print Assumptions C84_area_sign_refuted.
