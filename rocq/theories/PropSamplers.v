(** C113: the distributions of the samplers. *)
From Coq Require Import Reals ZArith Lra Lia Psatz.
From Verif Require Import Base ModelFloat ModelRandgen SpecRandgen SpecPlugins SpecSignals SpecYields SpecSamplers ProofFloat ProofLikelihood2 ProofLikelihood3
  ProofRandgen ProofPlugins PropRandgen PropPlugins PropSignals PropQuanta.
Local Open Scope R_scope.

(* ------------------------------------------------------------------ *)
(** * Averages *)

Lemma average_add {A} (d : SpecSignals.dist A) f g : average d (fun x => f x + g x) = average d f + average d g.
Proof. induction d as [|[w x] d IH]; cbn [average fold_right]; [ring|]. unfold average in IH. rewrite IH. ring. Qed.
Lemma average_scal {A} (d : SpecSignals.dist A) f c : average d (fun x => c * f x) = c * average d f.
Proof. induction d as [|[w x] d IH]; cbn [average fold_right]; [ring|]. unfold average in IH. rewrite IH. ring. Qed.
Lemma average_const {A} (d : SpecSignals.dist A) c : total d -> average d (fun _ => c) = c.
Proof. intros [_ T]. rewrite (average_ext d _ (fun x => c * 1)) by (intros; ring). rewrite average_scal, T. ring. Qed.
Lemma average_app {A} (d d' : SpecSignals.dist A) f : average (d ++ d') f = average d f + average d' f.
Proof. unfold average. induction d as [|[w x] d IH]; cbn [fold_right app]; [ring|]. rewrite IH. ring. Qed.

Lemma average_draws {A} (d : SpecSignals.dist A) n f : average (draws d (S n)) f = average d (fun x => average (draws d n) (fun l => f (x :: l))).
Proof.
  cbn [draws]. generalize (draws d n) as e. intros e. induction d as [|[w x] d IH]; [reflexivity|].
  cbn [flat_map]. rewrite average_app, IH. cbn [average fold_right fst snd]. f_equal. clear IH.
  induction e as [|[v l] e IHe]; cbn [map average fold_right fst snd]; [ring|]. unfold average in IHe. rewrite IHe. ring.
Qed.

Lemma average_below d p X Y : uniform_at d p -> average d (fun u => if below p u then X else Y) = p * X + (1 - p) * Y.
Proof.
  intros [T P]. rewrite (average_affine d (fun u => if below p u then 1 else 0) _ (X - Y) Y T).
  - fold (chance d (below p)). rewrite P. ring.
  - intros w u _. destruct (below p u); ring.
Qed.

(* ------------------------------------------------------------------ *)
(** * Binomial numbers *)

Definition successes (p : R) (us : list R) : nat := List.length (filter (below p) us).
Lemma successes_cons p u us : successes p (u :: us) = if below p u then S (successes p us) else successes p us.
Proof. unfold successes. cbn [filter]. destruct (below p u); reflexivity. Qed.

Lemma successes_pmf d p n : uniform_at d p -> forall j, chance (draws d n) (fun us => Nat.eqb (successes p us) j) = binomial_pmf n p j.
Proof.
  intros U. induction n as [|n IH]; intros j.
  - destruct j; unfold binomial_pmf; cbn; ring.
  - unfold chance. rewrite average_draws.
    rewrite (average_ext d _ (fun u => if below p u then chance (draws d n) (fun us => Nat.eqb (S (successes p us)) j) else chance (draws d n) (fun us => Nat.eqb (successes p us) j))).
    2:{ intros w u _. unfold chance. destruct (below p u) eqn:B; apply average_ext; intros v us _; rewrite successes_cons, B; reflexivity. }
    rewrite average_below by assumption. rewrite IH. destruct j as [|j].
    + replace (chance (draws d n) (fun us => Nat.eqb (S (successes p us)) 0)) with 0.
      2:{ unfold chance. symmetry. rewrite (average_ext _ _ (fun us => 0 * 1)) by (intros; cbn; ring). rewrite average_scal. ring. }
      unfold binomial_pmf. destruct n; cbn [choose INR]; rewrite ?Nat.sub_0_r; cbn [pow]; ring.
    + replace (chance (draws d n) (fun us => Nat.eqb (S (successes p us)) (S j))) with (binomial_pmf n p j) by (rewrite <- IH; reflexivity).
      unfold binomial_pmf. cbn [choose]. rewrite plus_INR. cbn [Nat.sub].
      destruct (Nat.lt_ge_cases j n) as [L|L].
      * replace (n - j)%nat with (S (n - S j)) by lia. cbn [pow]. ring.
      * assert (Z : forall m i, (m < i)%nat -> choose m i = 0%nat).
        { clear. induction m; intros i Hi; (destruct i; [lia|]); [reflexivity|]. cbn [choose]. rewrite !IHm by lia. reflexivity. }
        rewrite (Z n (S j)) by lia. cbn [INR pow]. ring.
Qed.

Lemma draws_total {A} (d : SpecSignals.dist A) n : total d -> total (draws d n).
Proof.
  intros T. induction n as [|n IH].
  - split; [intros w x [E|[]]; injection E as <- _; lra|cbn; ring].
  - split.
    + intros w x I. cbn [draws] in I. apply in_flat_map in I. destruct I as ([v a] & Ia & I). apply in_map_iff in I. destruct I as ([u l] & E & I).
      injection E as <- _. cbn [fst]. apply Rmult_le_pos; [exact (proj1 T v a Ia)|exact (proj1 IH u l I)].
    + rewrite average_draws. rewrite (average_ext d _ (fun _ => 1)) by (intros; exact (proj2 IH)). exact (proj2 T).
Qed.

Lemma successes_moments d p n : uniform_at d p ->
  average (draws d n) (fun us => INR (successes p us)) = INR n * p /\
  average (draws d n) (fun us => (INR (successes p us) - INR n * p) ^ 2) = INR n * (p * (1 - p)).
Proof.
  intros U. pose proof (proj1 U) as T.
  assert (M : forall n, average (draws d n) (fun us => INR (successes p us)) = INR n * p).
  { clear n. induction n as [|n IH]; [cbn; ring|]. rewrite average_draws.
    rewrite (average_ext d _ (fun u => if below p u then INR n * p + 1 else INR n * p)).
    - rewrite average_below by assumption. rewrite S_INR. ring.
    - intros w u _. destruct (below p u) eqn:B.
      + rewrite (average_affine (draws d n) (fun us => INR (successes p us)) _ 1 1 (draws_total d n T)).
        * rewrite IH. ring.
        * intros. rewrite successes_cons, B, S_INR. ring.
      + rewrite (average_ext _ _ (fun us => INR (successes p us))); [exact IH|]. intros. rewrite successes_cons, B. reflexivity. }
  split; [apply M|]. induction n as [|n IH]; [cbn; ring|]. rewrite average_draws.
  rewrite (average_ext d _ (fun u => if below p u then INR n * (p * (1 - p)) + (1 - p) ^ 2 else INR n * (p * (1 - p)) + p ^ 2)).
  - rewrite average_below by assumption. rewrite S_INR. ring.
  - intros w u _.
    assert (G : forall c, average (draws d n) (fun us => (INR (successes p us) - INR n * p + c) ^ 2) = INR n * (p * (1 - p)) + c ^ 2).
    { intros c. rewrite (average_ext _ _ (fun us => (INR (successes p us) - INR n * p) ^ 2 + (2 * c * INR (successes p us) + (c ^ 2 - 2 * c * (INR n * p))))) by (intros; ring).
      rewrite average_add, IH. rewrite (average_affine (draws d n) (fun us => INR (successes p us)) _ (2 * c) (c ^ 2 - 2 * c * (INR n * p)) (draws_total d n T)) by (intros; ring).
      rewrite M. ring. }
    destruct (below p u) eqn:B.
    + rewrite <- G. apply average_ext. intros v us _. rewrite successes_cons, B, !S_INR. f_equal. ring.
    + replace (p ^ 2) with ((- p) ^ 2) by ring. rewrite <- G. apply average_ext. intros v us _. rewrite successes_cons, B, S_INR. f_equal. ring.
Qed.

Lemma tally_successes u p n : tally (fun t => if Rlt_dec (u t) p then true else false) n = successes p (map u (seq 0 n)).
Proof.
  induction n as [|n IH]; [reflexivity|]. cbn [tally]. rewrite IH, seq_S, map_app. cbn [map Nat.add]. unfold successes, below.
  rewrite filter_app, app_length. f_equal. cbn [filter]. destruct (Rlt_dec (u n) p); reflexivity.
Qed.

(** Up to the threshold (128 by default) the hybrid sampler is a binomial one: it is a function of n
    uniform numbers of the same key at different places, and if they are independent every count has
    the binomial probability. *)
Theorem C113_hybrid_small : forall threshold p n k e r, p e = Fin r -> (0 <= n e <= Z.of_nat threshold)%Z ->
  let N := Z.to_nat (n e) in
  exists (f : list R -> nat) (place : nat -> nat), NoDup (map place (seq 0 N)) /\
    (forall o, lawful o -> result (binomial_hybrid o threshold p n) k e = Z.of_nat (f (map (fun t => o_unif o (child k 2) (place t)) (seq 0 N)))) /\
    forall d, uniform_at d r ->
      (forall j, chance (draws d N) (fun us => Nat.eqb (f us) j) = binomial_pmf N r j) /\
      average (draws d N) (fun us => INR (f us)) = INR N * r /\
      average (draws d N) (fun us => (INR (f us) - INR N * r) ^ 2) = INR N * (r * (1 - r)).
Proof.
  intros T p n k e r Hp Hn N. exists (successes r), (fun t => (e * T + t)%nat). split; [|split].
  - apply FinFun.Injective_map_NoDup; [intros x y; lia|apply seq_NoDup].
  - intros o L. rewrite (hybrid_exact o T k p n e r L Hp Hn). fold N. rewrite tally_successes. reflexivity.
  - intros d U. split; [apply successes_pmf; assumption|apply successes_moments; assumption].
Qed.

(* ------------------------------------------------------------------ *)
(** * The Cornish-Fisher value *)

Definition eps : R := / 1000000000000.
(** Its value before rounding, for a probability at most one half. *)
Definition cf_raw (n p z : R) : R :=
  let S := n * p * (1 - p) + eps in
  let s := sqrt S in
  let g1 := (1 - p - p) / (s + eps) in
  let g2 := (1 - 6 * p * (1 - p)) / S in
  n * p + s * (z + g1 / 6 * (z * z - 1) + g2 / 24 * (z * z * z - 3 * z) - g1 * g1 / 36 * (2 * (z * z * z) - 5 * z)).

Definition zclamp (n x : Z) : Z := Z.min (Z.max x 0) n.

Lemma cornish_value z p n : 0 < p < 1 -> (0 <= n)%Z ->
  cornish_fisher (Fin z) (Fin p) (of_int n) =
  of_int (if Rlt_dec (/ 2) p then n - zclamp n (roundZ (cf_raw (IZR n) (1 - p) z)) else zclamp n (roundZ (cf_raw (IZR n) p z))).
Proof.
  intros Hp Hn. pose proof (IZR_le _ _ Hn) as Hn'. pose proof tiny_pos as T.
  assert (G : forall p0, 0 < p0 < 1 -> forall flip : bool,
    (let q0 := (#1 - #p0)%fl in
     let mu := (of_int n * #p0)%fl in
     let var := (of_int n * #p0 * q0)%fl in
     let sigma := fsqrt (var + tiny)%fl in
     let var_safe := (var + tiny)%fl in
     let gamma1 := ((q0 - #p0) / (sigma + tiny))%fl in
     let gamma2 := ((#1 - #6 * #p0 * q0) / var_safe)%fl in
     let z2 := (#z * #z)%fl in
     let z3 := (z2 * #z)%fl in
     let gamma1_sq := (gamma1 * gamma1)%fl in
     let z_cf := (#z + (gamma1 / #6) * (z2 - #1) + (gamma2 / #24) * (z3 - #3 * #z)
               - (gamma1_sq / #36) * (#2 * z3 - #5 * #z))%fl in
     let x_cf := fround (mu + sigma * z_cf)%fl in
     let x_cf := fclip x_cf #0%fl (of_int n) in
     where_ flip (of_int n - x_cf)%fl x_cf) =
    of_int (if flip then n - zclamp n (roundZ (cf_raw (IZR n) p0 z)) else zclamp n (roundZ (cf_raw (IZR n) p0 z)))).
  { intros p0 Hp0 flip. cbv zeta.
    assert (V : 0 <= IZR n * p0 * (1 - p0)). { apply Rmult_le_pos; [apply Rmult_le_pos|]; lra. }
    unfold of_int, tiny. farith. rewrite fsqrt_Fin by lra.
    pose proof (sqrt_pos (IZR n * p0 * (1 - p0) + / 1000000000000)) as S.
    farith. rewrite (fdiv_Fin _ (sqrt _ + _)) by lra.
    rewrite (fdiv_Fin _ (IZR n * p0 * (1 - p0) + / 1000000000000)) by lra.
    farith. rewrite !(fdiv_Fin _ 6), !(fdiv_Fin _ 24), !(fdiv_Fin _ 36) by lra. farith.
    cbn [fround]. match goal with |- context [roundZ ?t] => change t with (cf_raw (IZR n) p0 z) end.
    rewrite fclip_Fin, Rmax_IZR, Rmin_IZR. unfold where_, zclamp. destruct flip; [|reflexivity].
    rewrite fsub_Fin, <- minus_IZR. reflexivity. }
  unfold cornish_fisher. destruct (Rlt_dec (/ 2) p) as [F|F].
  - replace (flt #(/ 2) #p)%fl with true by (symmetry; cbn; destruct (Rlt_dec (/ 2) p); [reflexivity|contradiction]).
    unfold where_ at 1 2 3 4 5 6 7 8 9 10 11 12 13 14. cbv zeta. rewrite fsub_Fin. exact (G (1 - p) ltac:(lra) true).
  - replace (flt #(/ 2) #p)%fl with false by (symmetry; cbn; destruct (Rlt_dec (/ 2) p); [contradiction|reflexivity]).
    exact (G p ltac:(lra) false).
Qed.

Lemma cubic_moments d A B C D : gaussian d ->
  average d (fun z => A + B * z + C * z ^ 2 + D * z ^ 3) = A + C /\
  average d (fun z => (A + B * z + C * z ^ 2 + D * z ^ 3 - (A + C)) ^ 2) = B ^ 2 + 2 * C ^ 2 + 15 * D ^ 2 + 6 * B * D.
Proof.
  intros [T M1 M2 M3 M4 M5 M6]. split.
  - rewrite (average_ext d _ (fun z => (A * 1 + B * z) + (C * z ^ 2 + D * z ^ 3))) by (intros; ring).
    rewrite !average_add. rewrite (average_scal d (fun z => z)), (average_scal d (fun z => z ^ 2)), (average_scal d (fun z => z ^ 3)), (average_scal d (fun _ => 1)).
    rewrite (proj2 T), M1, M2, M3. ring.
  - rewrite (average_ext d _ (fun z => ((C ^ 2) * 1 + (- 2 * B * C) * z) + ((B ^ 2 - 2 * C ^ 2) * z ^ 2 + (2 * B * C - 2 * C * D) * z ^ 3) +
       ((C ^ 2 + 2 * B * D) * z ^ 4 + ((2 * C * D) * z ^ 5 + (D ^ 2) * z ^ 6)))) by (intros; ring).
    rewrite !average_add. rewrite (average_scal d (fun z => z)), (average_scal d (fun z => z ^ 2)), (average_scal d (fun z => z ^ 3)), (average_scal d (fun z => z ^ 4)),
      (average_scal d (fun z => z ^ 5)), (average_scal d (fun z => z ^ 6)), (average_scal d (fun _ => 1)).
    rewrite (proj2 T), M1, M2, M3, M4, M5, M6. ring.
Qed.

Lemma cf_moments d n p : gaussian d -> 0 < p < 1 -> 0 < n ->
  average d (cf_raw n p) = n * p /\
  Rabs (average d (fun z => (cf_raw n p z - n * p) ^ 2) - n * p * (1 - p)) <= 3 / 50 / (n * p * (1 - p)) + eps.
Proof.
  intros G Hp Hn. pose proof tiny_pos as PT. fold eps in PT.
  assert (V : 0 < n * p * (1 - p)) by (apply Rmult_lt_0_compat; [apply Rmult_lt_0_compat|]; lra).
  set (S := n * p * (1 - p) + eps). assert (PS : 0 < S) by (unfold S; lra).
  set (s := sqrt S). assert (Ps : 0 < s) by (apply sqrt_lt_R0; assumption). assert (SS : s * s = S) by (apply sqrt_sqrt; lra).
  set (g1 := (1 - p - p) / (s + eps)). set (g2 := (1 - 6 * p * (1 - p)) / S).
  set (a := g1 / 6). set (b := g2 / 24). set (c := g1 * g1 / 36).
  assert (F : forall z, cf_raw n p z = (n * p - s * a) + (s * (1 - 3 * b + 5 * c)) * z + (s * a) * z ^ 2 + (s * (b - 2 * c)) * z ^ 3).
  { intros z. unfold cf_raw. cbv zeta. fold S. fold s. fold g1. fold g2. fold a. fold b. fold c. ring. }
  destruct (cubic_moments d (n * p - s * a) (s * (1 - 3 * b + 5 * c)) (s * a) (s * (b - 2 * c)) G) as [M Q]. split.
  - rewrite (average_ext d _ _ (fun w z _ => F z)), M. ring.
  - rewrite (average_ext d _ (fun z => (n * p - s * a + s * (1 - 3 * b + 5 * c) * z + s * a * z ^ 2 + s * (b - 2 * c) * z ^ 3 - (n * p - s * a + s * a)) ^ 2)).
    2:{ intros w z _. rewrite F. f_equal. ring. }
    rewrite Q. clear M Q F.
    assert (C1 : 0 <= c * S <= / 36).
    { assert (X : (g1 * s) ^ 2 <= 1).
      { unfold g1. replace ((1 - p - p) / (s + eps) * s) with ((1 - p - p) * (s / (s + eps))) by (field; lra).
        assert (Y : 0 <= s / (s + eps) <= 1).
        { split; [apply Rlt_le, Rdiv_lt_0_compat; lra|]. apply Rmult_le_reg_r with (s + eps); [lra|]. replace (s / (s + eps) * (s + eps)) with s by (field; lra). lra. }
        set (y := s / (s + eps)) in *. rewrite Rpow_mult_distr. assert (0 <= (1 - p - p) ^ 2 <= 1) by (split; [apply pow2_ge_0|]; clear - Hp; cbn; nra). assert (0 <= y ^ 2 <= 1) by (split; [apply pow2_ge_0|]; clear - Y; cbn; nra). clear - H H0. nra. }
      replace (c * S) with ((g1 * s) ^ 2 / 36) by (unfold c; rewrite <- SS; field). pose proof (pow2_ge_0 (g1 * s)). lra. }
    assert (B1 : - / 24 <= b * S <= / 24).
    { replace (b * S) with ((1 - 6 * p * (1 - p)) / 24) by (unfold b, g2; field; lra). nra. }
    assert (AC : 2 * (a * a) = 2 * c) by (unfold a, c; field).
    replace ((s * (1 - 3 * b + 5 * c)) ^ 2 + 2 * (s * a) ^ 2 + 15 * (s * (b - 2 * c)) ^ 2 + 6 * (s * (1 - 3 * b + 5 * c)) * (s * (b - 2 * c)))
      with (s * s * ((1 - 3 * b + 5 * c) ^ 2 + 2 * (a * a) + 15 * (b - 2 * c) ^ 2 + 6 * (1 - 3 * b + 5 * c) * (b - 2 * c))) by ring.
    rewrite AC, SS. replace ((1 - 3 * b + 5 * c) ^ 2 + 2 * c + 15 * (b - 2 * c) ^ 2 + 6 * (1 - 3 * b + 5 * c) * (b - 2 * c))
      with (1 + (6 * b ^ 2 + 25 * c ^ 2 - 24 * b * c)) by ring.
    set (x := b * S) in *. set (y := c * S) in *.
    replace (S * (1 + (6 * b ^ 2 + 25 * c ^ 2 - 24 * b * c))) with (S + (6 * x ^ 2 + 25 * y ^ 2 - 24 * x * y) / S) by (unfold x, y; field; lra).
    replace (S + (6 * x ^ 2 + 25 * y ^ 2 - 24 * x * y) / S - n * p * (1 - p)) with ((6 * x ^ 2 + 25 * y ^ 2 - 24 * x * y) / S + eps) by (unfold S; ring).
    assert (E : Rabs (6 * x ^ 2 + 25 * y ^ 2 - 24 * x * y) <= 3 / 50).
    { assert (0 <= x ^ 2 <= / 576) by (split; nra). assert (0 <= y ^ 2 <= / 1296) by (split; nra).
      assert (- / 864 <= x * y <= / 864) by (split; nra). apply Rabs_le. split; nra. }
    eapply Rle_trans; [apply Rabs_triang|]. rewrite (Rabs_right eps) by lra. apply Rplus_le_compat_r.
    unfold Rdiv at 1. rewrite Rabs_mult, (Rabs_right (/ S)) by (apply Rle_ge, Rlt_le, Rinv_0_lt_compat; assumption).
    apply Rmult_le_compat; [apply Rabs_pos|apply Rlt_le, Rinv_0_lt_compat; assumption|exact E|]. apply Rinv_le_contravar; [assumption|unfold S; lra].
Qed.

(** Above the threshold the hybrid sampler rounds and clamps a number whose mean is exactly n p, and
    whose variance is n p (1 - p) up to 3 / (50 n p (1 - p)) and 10^-12. *)
Theorem C113_hybrid_large : forall o threshold p n k e r, p e = Fin r -> 0 < r < 1 -> (Z.of_nat threshold < n e)%Z ->
  exists f s,
    (result (binomial_hybrid o threshold p n) k e = zclamp (n e) (roundZ (f (o_norm o s e))) \/
     result (binomial_hybrid o threshold p n) k e = (n e - zclamp (n e) (roundZ (IZR (n e) - f (o_norm o s e))))%Z) /\
    forall d, gaussian d -> average d f = IZR (n e) * r /\
      Rabs (average d (fun z => (f z - IZR (n e) * r) ^ 2) - IZR (n e) * r * (1 - r)) <= 3 / 50 / (IZR (n e) * r * (1 - r)) + eps.
Proof.
  intros o T p n k e r Hp Hr Hn. assert (Pn : 0 < IZR (n e)) by (apply (IZR_lt 0); lia).
  assert (R : result (binomial_hybrid o T p n) k e = to_int o (cornish_fisher (Fin (o_norm o (child k 1) e)) (Fin r) (of_int (n e)))).
  { rewrite (hybrid_middle o T k p n e r Hp Hr) by lia. f_equal. unfold where_.
    replace (fle (of_int (n e)) (Fin (INR T))) with false; [reflexivity|]. symmetry. apply fle_Fin_false. rewrite INR_Zof. apply IZR_lt. assumption. }
  rewrite cornish_value in R by (assumption || lia). rewrite to_int_of_int in R.
  destruct (Rlt_dec (/ 2) r) as [F|F].
  - exists (fun z => IZR (n e) - cf_raw (IZR (n e)) (1 - r) z), (child k 1). split.
    + right. rewrite R. f_equal. f_equal. f_equal. ring.
    + intros d G. destruct (cf_moments d (IZR (n e)) (1 - r) G ltac:(lra) Pn) as [M V]. split.
      * rewrite (average_affine d (cf_raw (IZR (n e)) (1 - r)) _ (-1) (IZR (n e)) (g_total d G)) by (intros; ring). rewrite M. ring.
      * replace (IZR (n e) * r * (1 - r)) with (IZR (n e) * (1 - r) * (1 - (1 - r))) by ring. eapply Rle_trans; [|exact V]. right. f_equal. f_equal.
        apply average_ext. intros w z _. ring.
  - exists (cf_raw (IZR (n e)) r), (child k 1). split; [left; exact R|]. intros d G. apply cf_moments; assumption || lra.
Qed.

(** With few expected successes this is not a binomial number: 10000 trials of probability 10^-8 give
    at least two successes for every normal number between -2 and -3/2, that is in four of a hundred
    cases. *)
Theorem C113_hybrid_rare_refuted : forall o p n k e, p e = Fin (/ 100000000) -> n e = 10000%Z ->
  -2 <= o_norm o (child k 1) e <= -3 / 2 -> (2 <= result (binomial_hybrid o HYBRID_BERNOULLI_THRESHOLD p n) k e)%Z.
Proof.
  intros o p n k e Hp Hn Hz. set (z := o_norm o (child k 1) e) in *.
  rewrite (hybrid_middle o _ k p n e _ Hp) by (lra || lia). unfold where_.
  replace (fle (of_int (n e)) (Fin (INR HYBRID_BERNOULLI_THRESHOLD))) with false.
  2:{ symmetry. apply fle_Fin_false. rewrite INR_Zof, Hn. apply IZR_lt. reflexivity. }
  fold z. rewrite Hn. rewrite cornish_value by (lra || lia). rewrite to_int_of_int. destruct (Rlt_dec (/ 2) (/ 100000000)); [lra|].
  assert (B : 2 <= cf_raw 10000 (/ 100000000) z).
  { unfold cf_raw. cbv zeta. replace (10000 * / 100000000 * (1 - / 100000000) + eps) with (1 / 10000) by (unfold eps; field).
    replace (sqrt (1 / 10000)) with (1 / 100).
    2:{ replace (1 / 10000) with (1 / 100 * (1 / 100)) by field. rewrite sqrt_square; lra. }
    set (g1 := (1 - / 100000000 - / 100000000) / (1 / 100 + eps)). set (g2 := (1 - 6 * / 100000000 * (1 - / 100000000)) / (1 / 10000)).
    assert (G1 : 99999 / 1000 <= g1 <= 100).
    { assert (X : g1 * (1 / 100 + / 1000000000000) = 1 - / 100000000 - / 100000000) by (unfold g1, eps; field; lra). clearbody g1. lra. }
    assert (G2 : 9999 <= g2 <= 10000) by (unfold g2; split; lra).
    assert (GG : 9999 <= g1 * g1 <= 10000) by nra.
    set (h := g1 * g1) in *.
    assert (Z2 : 9 / 4 <= z * z <= 4) by nra.
    assert (Z3 : z * z * z - 3 * z >= -2) by nra.
    assert (Z4 : z * z * z - 3 * z <= 9 / 8) by nra.
    assert (Z5 : 2 * (z * z * z) - 5 * z <= 3 / 4) by nra.
    assert (T1 : g1 / 6 * (z * z - 1) >= 99999 / 6000 * (5 / 4)) by nra.
    assert (T2 : g2 / 24 * (z * z * z - 3 * z) >= 9999 / 24 * (z * z * z - 3 * z) - 1 / 12) by nra.
    assert (T3 : h / 36 * (2 * (z * z * z) - 5 * z) <= 9999 / 36 * (2 * (z * z * z) - 5 * z) + 1 / 36) by nra.
    assert (T4 : 9999 / 24 * (z * z * z - 3 * z) - 9999 / 36 * (2 * (z * z * z) - 5 * z) >= 9999 / 72 * (15 / 8)) by nra.
    lra. }
  unfold zclamp. pose proof (roundZ_ge 2 _ B). lia.
Qed.

(** The normal approximation of numpyro. *)
Theorem C113_normal_approximation : forall o size p n k e r, p e = Fin r -> 0 <= r <= 1 -> (0 <= n e)%Z ->
  exists f s, result (binomial o (Numpyro true) size p n) k e = roundZ (Rmin (Rmax (f (o_norm o s 0%nat)) 0) (IZR (n e))) /\
    has_moments f (IZR (n e) * r) (IZR (n e) * r * (1 - r)).
Proof.
  intros o size p n k e r Hp Hr Hn. pose proof (IZR_le _ _ Hn) as Hn'. assert (V : 0 <= IZR (n e) * r * (1 - r)) by (apply Rmult_le_pos; [apply Rmult_le_pos|]; lra).
  exists (fun z => z * sqrt (IZR (n e) * r * (1 - r)) + IZR (n e) * r), (child (child k 1) e). split; [|apply linear_has_moments; assumption].
  change (result (binomial o (Numpyro true) size p n) k e) with (binomial_normal_approx o (child (child k 1) e) (p e) (n e)).
  rewrite Hp. unfold binomial_normal_approx, of_int. cbv zeta. farith. rewrite fsqrt_Fin by assumption. farith. rewrite fclip_Fin, round_to_int. reflexivity.
Qed.

(** The binomial sampler as it is imported by default: exact up to 128 trials. *)
Theorem C113_default_small : forall size p n k e r, p e = Fin r -> (0 <= n e <= 128)%Z ->
  let N := Z.to_nat (n e) in
  exists (f : list R -> nat) s (place : nat -> nat), NoDup (map place (seq 0 N)) /\
    (forall o, lawful o -> result (binomial o Hybrid size p n) k e = Z.of_nat (f (map (fun t => o_unif o s (place t)) (seq 0 N)))) /\
    forall d, uniform_at d r -> forall j, chance (draws d N) (fun us => Nat.eqb (f us) j) = binomial_pmf N r j.
Proof.
  intros size p n k e r Hp Hn N. destruct (C113_hybrid_small 128 p n k e r Hp Hn) as (f & place & A & B & C).
  exists f, (child k 2), place. split; [exact A|]. split; [exact B|]. intros d U. apply (C d U).
Qed.

(** The other two: jax.random.binomial, and below 5 expected successes the exact sampler of numpyro, otherwise the normal approximation. *)
Theorem C113_modes : forall o size p n k e r, p e = Fin r ->
  (exists s, result (binomial o JaxBinomial size p n) k e = o_binom o s e (n e) (Fin r)) /\
  (IZR (n e) * r < 5 -> exists s, result (binomial o (Numpyro false) size p n) k e = o_binom o s 0%nat (n e) (Fin r)) /\
  (5 <= IZR (n e) * r -> result (binomial o (Numpyro false) size p n) k e = result (binomial o (Numpyro true) size p n) k e).
Proof.
  intros o size p n k e r Hp. split; [|split].
  - exists (child k 1). rewrite <- Hp. reflexivity.
  - intros H. exists (child (child k 1) e).
    change (result (binomial o (Numpyro false) size p n) k e) with (if false || fle (Fin 5) (of_int (n e) * p e)%fl then binomial_normal_approx o (child (child k 1) e) (p e) (n e) else o_binom o (child (child k 1) e) 0 (n e) (p e)).
    rewrite Hp. unfold of_int. farith. replace (fle (Fin 5) (Fin (IZR (n e) * r))) with false; [reflexivity|]. symmetry. apply fle_Fin_false. assumption.
  - intros H.
    change (result (binomial o (Numpyro false) size p n) k e) with (if false || fle (Fin 5) (of_int (n e) * p e)%fl then binomial_normal_approx o (child (child k 1) e) (p e) (n e) else o_binom o (child (child k 1) e) 0 (n e) (p e)).
    change (result (binomial o (Numpyro true) size p n) k e) with (binomial_normal_approx o (child (child k 1) e) (p e) (n e)).
    rewrite Hp. unfold of_int. farith. replace (fle (Fin 5) (Fin (IZR (n e) * r))) with true; [reflexivity|]. symmetry. apply fle_Fin. assumption.
Qed.

(** One trial. *)
Theorem C113_bernoulli : forall p k e r, p e = Fin r ->
  exists f s, (forall o, result (bernoulli o p) k e = f (o_bern o s e)) /\
    forall d, total d -> chance d (fun b : fl -> bool => b (Fin r)) = r ->
      (forall b, f b = 0%Z \/ f b = 1%Z) /\ average d (fun b => IZR (f b)) = r /\ average d (fun b => (IZR (f b) - r) ^ 2) = r * (1 - r).
Proof.
  intros p k e r Hp. exists (fun b : fl -> bool => if b (Fin r) then 1%Z else 0%Z), (child k 1). split.
  - intros o. change (result (bernoulli o p) k e) with (if o_bern o (child k 1) e (p e) then 1%Z else 0%Z). rewrite Hp. reflexivity.
  - intros d T C. split; [intros b; destruct (b (Fin r)); auto|]. unfold chance in C. split.
    + apply eq_trans with (2 := C). apply average_ext. intros w b _. destruct (b (Fin r)); reflexivity.
    + rewrite (average_affine d (fun b => if b (Fin r) then 1 else 0) _ (1 - 2 * r) (r * r) T); [rewrite C; ring|]. intros w b _. destruct (b (Fin r)); ring.
Qed.

(** A coin. *)
Example C113_case_bernoulli : let d := [(1 / 2, fun _ : fl => true); (1 / 2, fun _ : fl => false)] in
  total d /\ chance d (fun b => b (Fin (1 / 2))) = 1 / 2.
Proof. cbv zeta. unfold total, chance, average. cbn. split; [split|]; [|lra|lra]. intros w x [H|[H|[]]]; injection H as <- <-; lra. Qed.
Example C113_case_modes o size : result (binomial o (Numpyro false) size (fun _ => Fin (1 / 2)) (fun _ => 10%Z)) [] 0%nat
  = result (binomial o (Numpyro true) size (fun _ => Fin (1 / 2)) (fun _ => 10%Z)) [] 0%nat.
Proof. apply (C113_modes o size (fun _ => Fin (1 / 2)) (fun _ => 10%Z) [] 0%nat (1 / 2) eq_refl). lra. Qed.

(* ------------------------------------------------------------------ *)
(** * Continuous samplers *)

Theorem C113_normal : forall o mean std k e m s, mean e = Fin m -> std e = Fin s -> 0 <= s ->
  exists f key, result (normal o mean std) k e = Fin (f (o_norm o key e)) /\ has_moments f m (s * s).
Proof.
  intros o mean std k e m s Hm Hs Ps. exists (fun z => z * sqrt (s * s) + m), (child k 1). split; [|apply linear_has_moments; nra].
  change (result (normal o mean std) k e) with (#(o_norm o (child k 1) e) * std e + mean e)%fl. rewrite Hm, Hs. farith. rewrite sqrt_square by assumption. reflexivity.
Qed.

Theorem C113_gamma : forall alpha beta k e a b, alpha e = Fin a -> beta e = Fin b -> 0 < b ->
  exists f s, (forall o, result (gamma o alpha beta) k e = f (o_gamma o s e)) /\
    forall d, gamma_moments d a -> (forall w g, In (w, g) d -> exists x, f g = Fin x /\ 0 <= x) /\
      average d (fun g => number (f g)) = a / b /\ average d (fun g => (number (f g) - a / b) ^ 2) = a / (b * b).
Proof.
  intros alpha beta k e a b Ha Hb Pb. exists (fun g => (g (Fin a) / Fin b)%fl), (child k 1). split.
  - intros o. change (result (gamma o alpha beta) k e) with (o_gamma o (child k 1) e (alpha e) / beta e)%fl. rewrite Ha, Hb. reflexivity.
  - intros d (T & P & M & V).
    assert (F : forall w g, In (w, g) d -> number (g (Fin a) / Fin b)%fl = number (g (Fin a)) / b).
    { intros w g I. destruct (P w g I) as (x & E & _). rewrite E, fdiv_Fin by lra. reflexivity. }
    split; [|split].
    + intros w g I. destruct (P w g I) as (x & E & Px). rewrite E, fdiv_Fin by lra. eexists. split; [reflexivity|].
      apply Rmult_le_pos; [assumption|left; apply Rinv_0_lt_compat; assumption].
    + rewrite (average_affine d (fun g => number (g (Fin a))) _ (/ b) 0 T); [rewrite M; field; lra|]. intros w g I. rewrite (F w g I). field. lra.
    + rewrite (average_affine d (fun g => (number (g (Fin a)) - a) ^ 2) _ (/ (b * b)) 0 T); [rewrite V; field; lra|]. intros w g I. rewrite (F w g I). field. lra.
Qed.

Theorem C113_skewnormal : forall o a loc scale k e A L S, a e = Fin A -> loc e = Fin L -> scale e = Fin S ->
  exists f s0 s1, s0 <> s1 /\ result (skewnormal o a loc scale) k e = Fin (f (o_norm o s0 e) (o_norm o s1 e)) /\
    forall d, normal_moments d ->
      mean d f = L + S * (A / sqrt (1 + A * A)) * sqrt (2 / PI) /\
      variance d f = S * S * (1 - 2 / PI * (A * A / (1 + A * A))).
Proof.
  intros o a loc scale k e A L S HA HL HS. assert (P : 0 < 1 + A * A) by nra. pose proof (sqrt_lt_R0 _ P) as Q.
  assert (QQ : sqrt (1 + A * A) * sqrt (1 + A * A) = 1 + A * A) by (apply sqrt_sqrt; lra). set (q := sqrt (1 + A * A)) in *.
  exists (fun z z' => (A * S / q) * Rabs z + (S / q) * z' + L), (child k 1), (child (child k 0) 1).
  split. { unfold child. rewrite <- !app_assoc. cbn [app]. apply child_longer. discriminate. }
  split.
  - change (result (skewnormal o a loc scale) k e) with
      ((a e * fabsf #(o_norm o (child k 1) e) + #(o_norm o (child (child k 0) 1) e)) / fsqrt (#1 + a e * a e) * scale e + loc e)%fl.
    rewrite HA, HL, HS. farith. rewrite fsqrt_Fin by lra. fold q. rewrite fdiv_Fin by lra. farith. f_equal. field. lra.
  - intros d Hd. destruct (linear_moments d (A * S / q) (S / q) L Hd) as [-> ->]. split; [field; lra|].
    pose proof PI_RGT_0. replace (A * S / q * (A * S / q) * (1 - 2 / PI) + S / q * (S / q)) with (S * S * ((A * A * (1 - 2 / PI) + 1) / (q * q))) by (field; lra).
    rewrite QQ. field. lra.
Qed.

(* ------------------------------------------------------------------ *)
(** * Mixtures and families *)

(** Negative binomial numbers: mean n (1 - p) / p and variance n (1 - p) / p^2, as in scipy. The Poisson
    number may have any distribution with the right moments for each mean that the gamma number
    leads to. *)
Theorem C113_negative_binomial : forall p n k e r m, p e = Fin r -> n e = Fin m -> 0 < r < 1 -> 0 < m ->
  exists f mu s0 s1, s0 <> s1 /\ (forall o, result (negative_binomial o p n) k e = f (o_gamma o s0 e) (o_pois o s1 e)) /\
    forall d0 d1, gamma_moments d0 m -> (forall lam, 0 <= lam -> poisson_moments (d1 lam) lam) ->
      average d0 (fun g => average (d1 (mu g)) (fun b => IZR (f g b))) = m * (1 - r) / r /\
      average d0 (fun g => average (d1 (mu g)) (fun b => (IZR (f g b) - m * (1 - r) / r) ^ 2)) = m * (1 - r) / (r * r).
Proof.
  intros p n k e r m Hp Hn Pr Pm.
  exists (fun g b => b (g (Fin m) / Fin (r / (1 - r)))%fl), (fun g => number (g (Fin m)) / (r / (1 - r))), (child k 1), (child (child k 0) 1).
  split. { unfold child. rewrite <- !app_assoc. cbn [app]. apply child_longer. discriminate. }
  split.
  - intros o. unfold negative_binomial, gamma, poisson, split2, use, result, bind, ret. cbn [fst snd]. rewrite Hp, Hn. farith. rewrite fdiv_Fin by lra. reflexivity.
  - intros d0 d1 (T & P & M & V) D.
    assert (K : 0 < r / (1 - r)) by (apply Rdiv_lt_0_compat; lra).
    assert (F : forall w g, In (w, g) d0 -> exists lam, lam = number (g (Fin m)) * ((1 - r) / r) /\ 0 <= lam /\ number (g (Fin m)) / (r / (1 - r)) = lam /\ (g (Fin m) / Fin (r / (1 - r)))%fl = Fin lam).
    { intros w g I. destruct (P w g I) as (x & E & Px). exists (x * ((1 - r) / r)). rewrite E. cbn [number]. split; [reflexivity|].
      assert (X : x / (r / (1 - r)) = x * ((1 - r) / r)) by (field; lra).
      split; [apply Rmult_le_pos; [assumption|apply Rlt_le, Rdiv_lt_0_compat; lra]|]. split; [exact X|]. rewrite fdiv_Fin by lra. rewrite X. reflexivity. }
    split.
    + rewrite (average_affine d0 (fun g => number (g (Fin m))) _ ((1 - r) / r) 0 T); [rewrite M; field; lra|].
      intros w g I. destruct (F w g I) as (lam & E & Pl & -> & ->). destruct (D lam Pl) as [(_ & _ & A) _]. rewrite A, E. ring.
    + rewrite (average_ext d0 _ (fun g => ((1 - r) / r) * number (g (Fin m)) + ((1 - r) / r) ^ 2 * (number (g (Fin m)) - m) ^ 2)).
      * rewrite average_add. rewrite (average_scal d0 (fun g => number (g (Fin m)))), (average_scal d0 (fun g => (number (g (Fin m)) - m) ^ 2)), M, V. field. lra.
      * intros w g I. destruct (F w g I) as (lam & E & Pl & -> & ->). destruct (D lam Pl) as [(Tl & _ & A) B].
        rewrite (average_ext (d1 lam) _ (fun b => (IZR (b (Fin lam)) - lam) ^ 2 + (2 * (lam - m * (1 - r) / r) * IZR (b (Fin lam)) + ((lam - m * (1 - r) / r) ^ 2 - 2 * lam * (lam - m * (1 - r) / r))))) by (intros; ring).
        rewrite average_add, B. rewrite (average_affine (d1 lam) (fun b => IZR (b (Fin lam))) _ (2 * (lam - m * (1 - r) / r)) ((lam - m * (1 - r) / r) ^ 2 - 2 * lam * (lam - m * (1 - r) / r)) Tl) by (intros; ring).
        rewrite A. rewrite E. field. lra.
Qed.

(** The seeds of the generations of generalized_poisson. *)
Fixpoint generation (k : key) (i : nat) : key := match i with O => child k 1 | S j => generation (child k 0) j end.

Lemma progeny_done eta born bs : (forall b, In b bs -> b (Fin 0) = 0%Z) -> progeny eta 0 born bs = born.
Proof.
  revert born. induction bs as [|b bs IH]; intros born H; [reflexivity|]. cbn [progeny]. rewrite Rmult_0_r, (H b) by (now left).
  rewrite IH by (intros; apply H; now right). lia.
Qed.

Lemma gp_loop_progeny o size h eta : lawful o -> 0 <= h -> forall fuel off pop k r e, (e < size)%nat -> eta e = Fin h -> (0 <= off e)%Z ->
  result (gp_loop o size fuel eta off pop) k = Some r -> forall m, (fuel <= m)%nat ->
  r e = progeny h (off e) (pop e) (map (fun i => o_pois o (generation k i) e) (seq 0 m)).
Proof.
  intros L Ph. induction fuel as [|fuel IH]; intros off pop k r e He Hh Po H m Hm; cbn [gp_loop] in H;
    destruct (existsb _ (seq 0 size)) eqn:X; try discriminate.
  1, 3: injection H as <-;
    (assert (Z : off e = 0%Z) by
      (destruct (Z.eq_dec (off e) 0) as [|N]; [assumption|exfalso];
       assert (Y : existsb (fun e => Z.ltb 0 (off e)) (seq 0 size) = true) by (apply existsb_exists; exists e; split; [apply in_seq; lia|apply Z.ltb_lt; lia]); congruence));
    rewrite Z; symmetry; apply progeny_done; intros b I; apply in_map_iff in I; destruct I as (i & <- & _); apply (law_pois_0 o L).
  destruct m as [|m]; [lia|]. rewrite bind_result in H. change (next_key (poisson o _) k) with (child k 0) in H.
  set (off' := result (poisson o _) k) in *.
  assert (O : off' e = o_pois o (child k 1) e (Fin (h * IZR (off e)))).
  { unfold off'. change (result (poisson o (fun e0 => (eta e0 * of_int (off e0))%fl)) k e) with (o_pois o (child k 1) e (eta e * of_int (off e))%fl).
    rewrite Hh. unfold of_int. farith. reflexivity. }
  assert (P' : (0 <= off' e)%Z). { rewrite O. apply (law_pois o L). apply Rmult_le_pos; [assumption|]. apply (IZR_le 0). assumption. }
  rewrite (IH off' _ (child k 0) r e He Hh P' H m ltac:(lia)). cbn [seq map progeny generation]. rewrite <- O. rewrite <- seq_shift, map_map. reflexivity.
Qed.

Fixpoint geo (h : R) (m : nat) : R := match m with O => 0 | S m' => h * (1 + geo h m') end.
Lemma geo_sum h m : (1 - h) * (1 + geo h m) = 1 - h ^ S m.
Proof. induction m as [|m IH]; [cbn; ring|]. cbn [geo]. replace (h ^ S (S m)) with (h * h ^ S m) by reflexivity. replace (h ^ S m) with (1 - (1 - h) * (1 + geo h m)) by lra. ring. Qed.

Lemma progeny_mean h d m : 0 <= h -> (forall a, (0 <= a)%Z -> poisson_like d (h * IZR a)) -> forall a c, (0 <= a)%Z ->
  average (draws d m) (fun bs => IZR (progeny h a c bs)) = IZR c + IZR a * geo h m.
Proof.
  intros Ph D. induction m as [|m IH]; intros a c Pa; [cbn; ring|]. rewrite average_draws. destruct (D a Pa) as (T & P & M).
  rewrite (average_affine d (fun b => IZR (b (Fin (h * IZR a)))) _ (1 + geo h m) (IZR c) T).
  - rewrite M. cbn [geo]. ring.
  - intros w b I. cbn [progeny]. rewrite IH by exact (P w b I). rewrite plus_IZR. ring.
Qed.

(** Generalized Poisson numbers: whenever the loop stops, the result is the size of a family whose
    first members are Poisson with mean lam (1 - eta), followed through any larger number of
    generations; over m generations its mean is lam (1 - eta^(m+1)), which tends to lam. *)
Theorem C113_generalized_poisson : forall o size fuel lam eta k r e l h, lawful o -> (e < size)%nat ->
  lam e = Fin l -> eta e = Fin h -> 0 <= l -> 0 <= h < 1 -> result (generalized_poisson o size fuel lam eta) k = Some r ->
  forall m, (fuel <= m)%nat -> exists f,
    r e = f (o_pois o (generation k 0) e) (map (fun i => o_pois o (generation k i) e) (seq 1 m)) /\
    forall d0 d, poisson_like d0 (l * (1 - h)) -> (forall a, (0 <= a)%Z -> poisson_like d (h * IZR a)) ->
      average d0 (fun b => average (draws d m) (fun bs => IZR (f b bs))) = l * (1 - h ^ S m).
Proof.
  intros o size fuel lam eta k r e l h L He Hl Hh Pl Ph H m Hm.
  exists (fun b bs => let c := b (Fin (l * (1 - h))) in progeny h c c bs). split.
  - unfold generalized_poisson in H. rewrite bind_result in H. change (next_key (poisson o _) k) with (child k 0) in H.
    set (pop := result (poisson o _) k) in *.
    assert (O : pop e = o_pois o (child k 1) e (Fin (l * (1 - h)))).
    { unfold pop. change (result (poisson o (fun e0 => (lam e0 * (#1 - eta e0))%fl)) k e) with (o_pois o (child k 1) e (lam e * (#1 - eta e))%fl).
      rewrite Hl, Hh. farith. reflexivity. }
    assert (P' : (0 <= pop e)%Z). { rewrite O. apply (law_pois o L). apply Rmult_le_pos; lra. }
    rewrite (gp_loop_progeny o size h eta L (proj1 Ph) fuel pop pop (child k 0) r e He Hh P' H m Hm). cbn [generation]. cbv zeta. rewrite <- O.
    rewrite <- seq_shift, map_map. reflexivity.
  - intros d0 d (T & P & M) D. cbv zeta.
    rewrite (average_affine d0 (fun b => IZR (b (Fin (l * (1 - h))))) _ (1 + geo h m) 0 T).
    + rewrite M. rewrite <- (geo_sum h m). ring.
    + intros w b I. rewrite (progeny_mean h d m (proj1 Ph) D) by exact (P w b I). ring.
Qed.

(* ------------------------------------------------------------------ *)
(** * Instances *)

(** Distributions with the assumed moments exist: the four nodes of Gauss and Hermite. *)
Example C113_case_gaussian : exists d, gaussian d.
Proof.
  set (t := sqrt 6). assert (T : t * t = 6) by (apply sqrt_sqrt; lra). assert (T0 : 0 <= t) by apply sqrt_pos.
  assert (T3 : t < 3) by nra.
  set (u := sqrt (3 - t)). set (v := sqrt (3 + t)).
  assert (U : u ^ 2 = 3 - t) by (cbn; rewrite Rmult_1_r; apply sqrt_sqrt; lra). assert (V : v ^ 2 = 3 + t) by (cbn; rewrite Rmult_1_r; apply sqrt_sqrt; lra).
  exists [((3 + t) / 12, u); ((3 + t) / 12, - u); ((3 - t) / 12, v); ((3 - t) / 12, - v)].
  split; unfold average; cbn [fold_right fst snd].
  - split; [|cbn; lra]. intros w x [E|[E|[E|[E|[]]]]]; injection E as <- _; lra.
  - ring.
  - replace ((- u) ^ 2) with (u ^ 2) by ring. replace ((- v) ^ 2) with (v ^ 2) by ring. rewrite U, V. nra.
  - ring.
  - replace (u ^ 4) with (u ^ 2 * u ^ 2) by ring. replace ((- u) ^ 4) with (u ^ 2 * u ^ 2) by ring. replace (v ^ 4) with (v ^ 2 * v ^ 2) by ring. replace ((- v) ^ 4) with (v ^ 2 * v ^ 2) by ring.
    rewrite U, V. replace ((3 + t) / 12 * ((3 - t) * (3 - t)) + ((3 + t) / 12 * ((3 - t) * (3 - t)) + ((3 - t) / 12 * ((3 + t) * (3 + t)) + ((3 - t) / 12 * ((3 + t) * (3 + t)) + 0)))) with (9 - t * t) by field. rewrite T. ring.
  - ring.
  - replace (u ^ 6) with (u ^ 2 * u ^ 2 * u ^ 2) by ring. replace ((- u) ^ 6) with (u ^ 2 * u ^ 2 * u ^ 2) by ring. replace (v ^ 6) with (v ^ 2 * v ^ 2 * v ^ 2) by ring. replace ((- v) ^ 6) with (v ^ 2 * v ^ 2 * v ^ 2) by ring.
    rewrite U, V. match goal with |- ?x = 15 => replace x with ((9 - t * t) * (9 + t * t) / 3) by field end. rewrite T. lra.
Qed.

Example C113_case_uniform : uniform_at [(/ 4, 0); (3 / 4, / 2)] (/ 4).
Proof.
  split; [split|].
  - intros w x [E|[E|[]]]; injection E as <- _; lra.
  - cbn. lra.
  - unfold chance, average, below. cbn [fold_right fst snd]. destruct (Rlt_dec 0 (/ 4)); [|lra]. destruct (Rlt_dec (/ 2) (/ 4)); lra.
Qed.

(** Two of three trials of probability 1/4. *)
Example C113_case_pmf : binomial_pmf 3 (/ 4) 2 = 9 / 64.
Proof. unfold binomial_pmf. cbn. lra. Qed.

Example C113_case_family : forall a, (0 <= a)%Z -> poisson_like [(/ 2, fun x => match x with Fin r => Int_part (2 * r) | _ => 0%Z end); (/ 2, fun _ => 0%Z)] (/ 2 * IZR a).
Proof.
  intros a Ha. assert (E : Int_part (2 * (/ 2 * IZR a)) = a).
  { replace (2 * (/ 2 * IZR a)) with (IZR a) by field. destruct (base_Int_part (IZR a)) as [B1 B2]. apply le_IZR in B1.
    assert (IZR a < IZR (Int_part (IZR a) + 1)) by (rewrite plus_IZR; lra). apply lt_IZR in H. lia. }
  split; [split|split].
  - intros w x [X|[X|[]]]; injection X as <- _; lra.
  - cbn. lra.
  - intros w b [X|[X|[]]]; injection X as _ <-; [rewrite E|]; lia.
  - unfold average. cbn [fold_right fst snd]. rewrite E. lra.
Qed.

Print Assumptions C113_hybrid_small.
Print Assumptions C113_hybrid_large.
Print Assumptions C113_hybrid_rare_refuted.
Print Assumptions C113_normal_approximation.
Print Assumptions C113_default_small.
Print Assumptions C113_modes.
Print Assumptions C113_bernoulli.
Print Assumptions C113_normal.
Print Assumptions C113_gamma.
Print Assumptions C113_skewnormal.
Print Assumptions C113_negative_binomial.
Print Assumptions C113_generalized_poisson.
