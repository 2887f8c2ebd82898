(** Properties of the random samplers: C39, C40, C58-C60. *)
From Coq Require Import Reals ZArith Lra Lia.
From Verif Require Import Base ModelFloat ModelRandgen SpecRandgen ProofFloat ProofLikelihood2 ProofRandgen.
Local Open Scope R_scope.

(** An instance of the distributions, for the examples: uniform numbers 1/4, normal numbers -1/2. *)
Definition toy : oracle := mk_oracle
  (fun _ e => if Nat.even e then / 4 else 3 / 4) (fun _ e => if Nat.even e then - / 2 else / 2)
  (fun _ _ lam => match lam with Fin r => if Rle_dec r 0 then 0 else 1 | _ => -1 end)%Z
  (fun _ _ _ => Fin 1) (fun _ _ _ => true)
  (fun _ _ n p => match p with Fin r => if Rle_dec r 0 then 0%Z else n | _ => (-1)%Z end)
  (fun _ => (-99)%Z) (fun _ _ => NaN) (fun x => if Rle_dec 0 x then 1 else -1).

Lemma toy_lawful : lawful toy.
Proof.
  constructor; cbn [toy o_unif o_pois o_gamma o_binom o_erf].
  - intros _ e. destruct (Nat.even e); lra.
  - intros _ _ lam H. destruct (Rle_dec lam 0); lia.
  - intros _ _. destruct (Rle_dec 0 0); [reflexivity|lra].
  - intros _ _ a _. exists 1. split; [reflexivity|lra].
  - intros _ _ n p H _. destruct (Rle_dec p 0); lia.
  - intros x. destruct (Rle_dec 0 x); lra.
  - intros x H. destruct (Rle_dec 0 x); lra.
Qed.

(* ------------------------------------------------------------------ *)
(** * C39: binomial samplers *)

Theorem C39_hybrid_range : forall o threshold p n k e r, p e = Fin r -> (0 <= n e)%Z ->
  (0 <= result (binomial_hybrid o threshold p n) k e <= n e)%Z.
Proof. intros. apply hybrid_range with (r := r); assumption. Qed.

Theorem C39_hybrid_edges : forall o threshold p n k e,
  ((n e <= 0)%Z -> result (binomial_hybrid o threshold p n) k e = 0%Z) /\
  (forall r, p e = Fin r -> r <= 0 -> result (binomial_hybrid o threshold p n) k e = 0%Z) /\
  (forall r, p e = Fin r -> 1 <= r -> (0 <= n e)%Z -> result (binomial_hybrid o threshold p n) k e = n e).
Proof.
  intros o T p n k e. split; [apply hybrid_none|]. split; intros r; [apply hybrid_miss|apply hybrid_hit].
Qed.

(** At most [threshold] trials: exactly the number of trials below n whose uniform number is below p,
    each trial of each element having its own uniform number. *)
Theorem C39_hybrid_exact : forall o threshold p n k e r, lawful o -> p e = Fin r -> (0 <= n e <= Z.of_nat threshold)%Z ->
  exists u : nat -> R,
    (forall t, (t < threshold)%nat -> exists i, (i / threshold = e)%nat /\ (i mod threshold = t)%nat /\ u t = o_unif o (child k 2) i) /\
    result (binomial_hybrid o threshold p n) k e =
    Z.of_nat (tally (fun t => if Rlt_dec (u t) r then true else false) (Z.to_nat (n e))).
Proof.
  intros o T p n k e r L E Hn. exists (fun t => o_unif o (child k 2) (e * T + t)). split.
  - intros t Ht. exists (e * T + t)%nat. rewrite Nat.add_comm, Nat.div_add, Nat.mod_add, Nat.div_small, Nat.mod_small by lia.
    repeat split.
  - apply hybrid_exact; assumption.
Qed.

(** Whichever sampler randgen.binomial is. *)
Theorem C39_range : forall o mode size p n k e r, lawful o -> p e = Fin r -> 0 <= r <= 1 -> (0 <= n e)%Z ->
  (0 <= result (binomial o mode size p n) k e <= n e)%Z.
Proof. intros. apply binomial_range with (r := r); assumption. Qed.

Theorem C39_normal_approximation : forall o size p n k e r, p e = Fin r -> 0 <= r <= 1 -> (0 <= n e)%Z ->
  (0 <= result (binomial o (Numpyro true) size p n) k e <= n e)%Z.
Proof.
  intros o size p n k e r E Hr Hn. unfold binomial.
  change (0 <= binomial_normal_approx o (child (child k 1) e) (p e) (n e) <= n e)%Z.
  rewrite E. apply normal_approx_range; assumption.
Qed.

(** The first two trials of element 0 draw 1/4 and 3/4. *)
Example C39_case : result (binomial_hybrid toy 128 (fun _ => Fin (/ 2)) (fun _ => 2%Z)) [] 0%nat = 1%Z.
Proof.
  rewrite (hybrid_exact toy 128 [] _ _ 0%nat (/ 2)); [|apply toy_lawful|reflexivity|cbn; lia].
  change (Z.to_nat 2) with 2%nat. cbn [tally Nat.mul Nat.add toy o_unif Nat.even].
  destruct (Rlt_dec (/ 4) (/ 2)); [|lra]. destruct (Rlt_dec (3 / 4) (/ 2)); [lra|reflexivity].
Qed.

(* ------------------------------------------------------------------ *)
(** * C40: keys *)

Lemma sampler_well_keyed o A m : sampler o A m -> well_keyed m.
Proof.
  destruct 1; [apply wk_uniform|apply wk_poisson|apply wk_gamma|apply wk_normal|apply wk_truncate_normal
    |apply wk_skewnormal|apply wk_bernoulli|apply wk_hybrid|apply wk_binomial|apply wk_negative_binomial|apply wk_generalized_poisson].
Qed.

(** Each sampler, and every program of sampler calls, consumes each key at most once and returns a key
    from which no consumed key derives. *)
Theorem C40_samplers : forall o A (m : M A), sampler o A m -> well_keyed m.
Proof. exact sampler_well_keyed. Qed.

Theorem C40_programs : forall o A (m : M A), program o A m -> well_keyed m.
Proof.
  intros o A m H. induction H; [apply well_keyed_ret|].
  apply well_keyed_bind; [apply (sampler_well_keyed o _ m H)|assumption].
Qed.

(** twohalfnorm draws twice from one key. *)
Theorem C40_twohalfnorm_refuted : exists o mu sp sn k, ~ NoDup (consumed (twohalfnorm o mu sp sn) k).
Proof.
  exists toy, (fun _ => Fin 0), (fun _ => Fin 1), (fun _ => Fin 1), []. cbn.
  intros H. inversion H as [|? ? _ H1]; subst. inversion H1 as [|? ? N _]; subst. apply N. now left.
Qed.

Definition two_steps : M (arr Z) :=
  n <- poisson toy (fun _ => Fin 3);; k <- binomial toy Hybrid 1 (fun _ => Fin (/ 2)) n;; ret k.
Example C40_case : program toy _ two_steps /\
  consumed two_steps [] = [[]; [1]; [0]; [0; 1]; [0; 2]]%nat.
Proof.
  split; [|reflexivity]. apply p_call; [apply s_poisson|]. intros n. apply p_call; [apply s_binomial|]. intros k. apply p_return.
Qed.

(* ------------------------------------------------------------------ *)
(** * C58: the jax two-half-normal *)

Lemma twohalfnorm_value o mu sp sn k e m a b : mu e = Fin m -> sp e = Fin a -> sn e = Fin b -> 0 < a -> 0 < b ->
  result (twohalfnorm o mu sp sn) k e = Fin (two_half (o_unif o (child k 1) e) (o_norm o (child k 1) e) m a b).
Proof.
  intros Hm Ha Hb Pa Pb. change (result (twohalfnorm o mu sp sn) k e) with
   (let pos_half_prob := (sp e / (sp e + sn e))%fl in
    let use_pos_half := flt #(o_unif o (child k 1) e)%fl pos_half_prob in
    let n_sigma := fabsf #(o_norm o (child k 1) e)%fl in
    let b := fun c : bool => #(if c then 1 else 0)%fl in
    (b use_pos_half * n_sigma * sp e - b (negb use_pos_half) * n_sigma * sn e + mu e)%fl).
  rewrite Hm, Ha, Hb. cbv zeta. rewrite fadd_Fin, fdiv_Fin by lra. farith. f_equal. unfold two_half. cbn [flt].
  destruct (Rlt_dec _ _); cbn [negb]; lra.
Qed.

(** With the uniform and the normal number taken independently every value is possible. *)
Theorem C58_intended : forall mu sigma_pos sigma_neg x, 0 < sigma_pos -> 0 < sigma_neg ->
  exists u z, 0 <= u < 1 /\ two_half u z mu sigma_pos sigma_neg = x.
Proof.
  intros mu a b x Ha Hb. assert (P : 0 < a / (a + b) < 1).
  { split; [apply Rdiv_lt_0_compat; lra|]. apply (Rmult_lt_reg_r (a + b)); [lra|]. field_simplify; lra. }
  destruct (Rle_dec mu x).
  - exists 0, ((x - mu) / a). split; [lra|]. unfold two_half. destruct (Rlt_dec 0 _); [|lra].
    rewrite Rabs_right. { field. lra. } apply Rle_ge, Rmult_le_pos; [lra|]. left. apply Rinv_0_lt_compat. lra.
  - exists (a / (a + b)), ((mu - x) / b). split; [lra|]. unfold two_half. destruct (Rlt_dec _ _); [lra|].
    rewrite Rabs_right. { field. lra. } apply Rle_ge, Rmult_le_pos; [lra|]. left. apply Rinv_0_lt_compat. lra.
Qed.

(** With both from the same uniform number a whole interval next to mu is impossible, below mu when
    the upper width is larger and above mu when it is smaller. *)
Theorem C58_gap : forall o Q mu sigma_pos sigma_neg k e m a b,
  same_stream o Q -> mu e = Fin m -> sigma_pos e = Fin a -> sigma_neg e = Fin b -> 0 < a -> 0 < b ->
  let q := Q (a / (a + b)) in
  exists x, result (twohalfnorm o mu sigma_pos sigma_neg) k e = Fin x /\
    (b < a -> 0 < q /\ ~ (m - q * b < x < m)) /\ (a < b -> q < 0 /\ ~ (m < x < m - q * a)).
Proof.
  intros o Q mu sp sn k e m a b (HN & Q0 & HQ) Hm Ha Hb Pa Pb q.
  exists (two_half (o_unif o (child k 1) e) (o_norm o (child k 1) e) m a b).
  split; [apply twohalfnorm_value; assumption|]. rewrite HN.
  set (u := o_unif o (child k 1) e). unfold two_half.
  assert (PP : a / (a + b) * (a + b) = a) by (field; lra).
  set (p := a / (a + b)) in *.
  assert (MONO : forall x y, x <= y -> Q x <= Q y). { intros x y [H|H]; [left; auto|right; congruence]. }
  split; intros L.
  - assert (H : / 2 < p) by nra. split; [unfold q; rewrite <- Q0; auto|].
    destruct (Rlt_dec u p) as [U|U].
    + intros [_ C]. pose proof (Rabs_pos (Q u)). nra.
    + intros [C _]. assert (q <= Q u) by (apply MONO; lra). pose proof (Rle_abs (Q u)). nra.
  - assert (H : p < / 2) by nra. split; [unfold q; rewrite <- Q0; auto|].
    destruct (Rlt_dec u p) as [U|U].
    + intros [_ C]. assert (Q u <= q) by (apply MONO; lra). pose proof (Rabs_pos (Q u)).
      assert (- Q u <= Rabs (Q u)) by (rewrite <- Rabs_Ropp; apply Rle_abs). nra.
    + intros [C _]. pose proof (Rabs_pos (Q u)). nra.
Qed.

(** Equal widths: nothing is lost. *)
Theorem C58_equal_widths : forall Q mu sigma x, (forall z, exists u, 0 <= u < 1 /\ Q u = z) -> Q (/ 2) = 0 ->
  (forall x y, x < y -> Q x < Q y) -> 0 < sigma -> exists u, 0 <= u < 1 /\ two_half u (Q u) mu sigma sigma = x.
Proof.
  intros Q mu s x S Q0 HQ Hs. destruct (S ((mu - x) / s)) as (u & Hu & E). exists u. split; [assumption|].
  unfold two_half. rewrite E. replace (s / (s + s)) with (/ 2) by (field; lra).
  destruct (Rlt_dec u (/ 2)) as [U|U].
  - assert (N : (mu - x) / s < 0). { rewrite <- E, <- Q0. auto. }
    rewrite Rabs_left by assumption. field. lra.
  - assert (N : 0 <= (mu - x) / s).
    { rewrite <- E. destruct (Req_dec u (/ 2)) as [->|D]; [lra|]. left. rewrite <- Q0. apply HQ. lra. }
    rewrite Rabs_right by lra. field. lra.
Qed.

(** The claim that the sampler can return every value is false: widths 3 and 1, mu = 0. *)
Definition stream : oracle := mk_oracle (fun _ e => INR e / INR (S e)) (fun _ e => 2 * (INR e / INR (S e)) - 1)
  (fun _ _ _ => 0%Z) (fun _ _ _ => Fin 0) (fun _ _ _ => true) (fun _ _ _ _ => 0%Z) (fun _ => 0%Z) (fun _ _ => NaN) (fun _ => 0).
Theorem C58_every_value_refuted : exists o Q, same_stream o Q /\
  exists x, forall k e, result (twohalfnorm o (fun _ => Fin 0) (fun _ => Fin 3) (fun _ => Fin 1)) k e <> Fin x.
Proof.
  exists stream, (fun u => 2 * u - 1).
  assert (S : same_stream stream (fun u => 2 * u - 1)). { repeat split; [lra|]. intros x y H. lra. }
  split; [assumption|]. exists (- / 4). intros k e C.
  destruct (C58_gap stream _ (fun _ => Fin 0) (fun _ => Fin 3) (fun _ => Fin 1) k e 0 3 1 S eq_refl eq_refl eq_refl ltac:(lra) ltac:(lra))
    as (x & E & H & _).
  rewrite C in E. injection E as <-. destruct H as [_ H]; [lra|]. apply H. lra.
Qed.

(* ------------------------------------------------------------------ *)
(** * C59: compound Poisson samplers *)

Theorem C59_negative_binomial : forall o p n k e a b, lawful o -> p e = Fin a -> n e = Fin b -> 0 < a < 1 -> 0 < b ->
  (0 <= result (negative_binomial o p n) k e)%Z.
Proof.
  intros o p n k e a b L Ha Hb Pa Pb. unfold negative_binomial. rewrite bind_result.
  change (0 <= o_pois o (child (child k 0) 1) e (o_gamma o (child k 1) e (n e) / (p e / (#1 - p e))%fl)%fl)%Z.
  rewrite Ha, Hb. rewrite fsub_Fin, fdiv_Fin by lra.
  destruct (law_gamma o L (child k 1) e b Pb) as (g & -> & G).
  assert (0 < a / (1 - a)) by (apply Rdiv_lt_0_compat; lra).
  rewrite fdiv_Fin by lra. apply (law_pois o L). apply Rmult_le_pos; [assumption|]. left. apply Rinv_0_lt_compat. assumption.
Qed.

Lemma gp_loop_cases o size : forall fuel eta off pop k,
  match result (gp_loop o size fuel eta off pop) k with
  | None => True
  | Some r => result (gp_loop o size (S fuel) eta off pop) k = Some r
  end.
Proof.
  induction fuel; intros eta off pop k.
  - cbn [gp_loop]. destruct (existsb _ _); [exact I|reflexivity].
  - cbn [gp_loop]. destruct (existsb _ (seq 0 size)) eqn:X; [|reflexivity].
    rewrite !bind_result. specialize (IHfuel eta (result (poisson o (fun e => (eta e * of_int (off e))%fl)) k)
      (fun e => (pop e + result (poisson o (fun e => (eta e * of_int (off e))%fl)) k e)%Z)
      (next_key (poisson o (fun e => (eta e * of_int (off e))%fl)) k)).
    destruct (result (gp_loop o size fuel _ _ _) _); [|exact I]. exact IHfuel.
Qed.

(** Once the loop has stopped, allowing more rounds changes nothing. *)
Theorem C59_stopped : forall o size fuel more lam eta k r,
  result (generalized_poisson o size fuel lam eta) k = Some r ->
  result (generalized_poisson o size (fuel + more) lam eta) k = Some r.
Proof.
  intros o size fuel more lam eta k r. unfold generalized_poisson. rewrite !bind_result.
  set (pop := result _ k). set (k' := next_key _ k). intros H. induction more.
  - rewrite Nat.add_0_r. assumption.
  - rewrite Nat.add_succ_r. pose proof (gp_loop_cases o size (fuel + more) eta pop pop k') as G.
    rewrite IHmore in G. exact G.
Qed.

Lemma gp_loop_grows o size : lawful o -> forall fuel eta off pop k r,
  (forall e, finite_nonneg (eta e)) -> (forall e, (0 <= off e)%Z) ->
  result (gp_loop o size fuel eta off pop) k = Some r -> forall e, (pop e <= r e)%Z.
Proof.
  intros L. induction fuel; intros eta off pop k r Heta Hoff; cbn [gp_loop];
    destruct (existsb _ (seq 0 size)); try (cbn; intros [= <-] e; lia); try discriminate.
  rewrite bind_result. set (off' := result _ k). set (k' := next_key _ k). intros H e.
  assert (Hoff' : forall e, (0 <= off' e)%Z).
  { intros i. change (off' i) with (o_pois o (child k 1) i (eta i * of_int (off i))%fl).
    destruct (Heta i) as (t & -> & Ht). unfold of_int. rewrite fmul_Fin. apply (law_pois o L).
    apply Rmult_le_pos; [assumption|]. apply (IZR_le 0). apply Hoff. }
  pose proof (IHfuel eta off' _ k' r Heta Hoff' H e) as G. cbn beta in G. specialize (Hoff' e). lia.
Qed.

(** A generation is only ever added: not less than the first Poisson draw, hence not negative. *)
Theorem C59_generalized_poisson : forall o size fuel lam eta k r, lawful o ->
  (forall e, within 0 1 (eta e)) -> (forall e, finite_nonneg (lam e)) ->
  result (generalized_poisson o size fuel lam eta) k = Some r ->
  forall e, (0 <= result (poisson o (fun e => (lam e * (#1 - eta e))%fl)) k e <= r e)%Z.
Proof.
  intros o size fuel lam eta k r L He Hl. unfold generalized_poisson. rewrite bind_result.
  set (pop := result (poisson _ _) k). set (k' := next_key _ k). intros H e.
  assert (P : forall e, (0 <= pop e)%Z).
  { intros i. change (pop i) with (o_pois o (child k 1) i (lam i * (#1 - eta i))%fl).
    destruct (He i) as (t & -> & Ht), (Hl i) as (l & -> & Hl'). farith. apply (law_pois o L). apply Rmult_le_pos; lra. }
  split; [apply P|]. apply (gp_loop_grows o size L fuel eta pop pop k' r); [|assumption|assumption].
  intros i. destruct (He i) as (t & -> & Ht). exists t. split; [reflexivity|lra].
Qed.

(** eta = 0 is the Poisson distribution: the first draw is returned, after at most one more round. *)
Theorem C59_eta_zero : forall o size fuel lam k, lawful o -> exists r,
  result (generalized_poisson o size (S fuel) lam (fun _ => Fin 0)) k = Some r /\
  forall e, r e = result (poisson o (fun e => (lam e * #1)%fl)) k e.
Proof.
  intros o size fuel lam k L. unfold generalized_poisson. rewrite bind_result.
  set (pop := result (poisson _ _) k). set (k' := next_key _ k).
  assert (E : forall e, pop e = result (poisson o (fun e => (lam e * #1)%fl)) k e).
  { intros e. change (pop e) with (o_pois o (child k 1) e (lam e * (#1 - #0))%fl). rewrite fsub_Fin, Rminus_0_r. reflexivity. }
  cbn [gp_loop]. destruct (existsb _ (seq 0 size)); [|exists pop; split; [reflexivity|assumption]].
  rewrite bind_result. set (off := result _ k').
  assert (Z : forall e, off e = 0%Z).
  { intros e. change (off e) with (o_pois o (child k' 1) e (#0 * of_int (pop e))%fl). unfold of_int.
    rewrite fmul_Fin, Rmult_0_l. apply (law_pois_0 o L). }
  assert (X : existsb (fun e => Z.ltb 0 (off e)) (seq 0 size) = false).
  { rewrite <- not_true_iff_false, existsb_exists. intros (e & _ & He). rewrite Z in He. discriminate. }
  exists (fun e => (pop e + off e)%Z). split.
  - destruct fuel; cbn [gp_loop]; rewrite X; reflexivity.
  - intros e. rewrite Z, <- E. lia.
Qed.

Example C59_case : exists r, result (generalized_poisson toy 3 1 (fun _ => Fin 2) (fun _ => Fin 0)) [] = Some r /\ r 0%nat = 1%Z.
Proof.
  destruct (C59_eta_zero toy 3 0 (fun _ => Fin 2) [] toy_lawful) as (r & H & E). exists r. split; [assumption|].
  rewrite E. change (match (#2 * #1)%fl with Fin r => if Rle_dec r 0 then 0 else 1 | _ => -1 end = 1)%Z.
  rewrite fmul_Fin. destruct (Rle_dec (2 * 1) 0); [lra|reflexivity].
Qed.

(* ------------------------------------------------------------------ *)
(** * C60: ranges of the continuous samplers *)

Theorem C60_uniform : forall o vmin vmax k e a b, lawful o -> vmin e = Fin a -> vmax e = Fin b -> a <= b ->
  exists x, result (uniform o vmin vmax) k e = Fin x /\ a <= x <= b /\ (a < b -> x < b).
Proof.
  intros o vmin vmax k e a b L Ha Hb H.
  change (result (uniform o vmin vmax) k e) with (fmax (vmin e) (#(o_unif o (child k 1) e) * (vmax e - vmin e) + vmin e)%fl).
  rewrite Ha, Hb. farith. rewrite fmax_Fin. eexists. split; [reflexivity|].
  pose proof (law_unif o L (child k 1) e) as U. set (u := o_unif o (child k 1) e) in *.
  unfold Rmax. destruct (Rle_dec a _); repeat split; intros; nra.
Qed.

Theorem C60_truncate_normal : forall o mean std k e m s lo hi, mean e = Fin m -> std e = Fin s -> lo <= hi ->
  exists x, result (normal o mean std) k e = Fin x /\
    (exists y, result (truncate_normal o mean std (Some (Fin lo)) (Some (Fin hi))) k e = Fin y /\ lo <= y <= hi /\ (lo <= x <= hi -> y = x)) /\
    (exists y, result (truncate_normal o mean std (Some (Fin lo)) None) k e = Fin y /\ lo <= y /\ (lo <= x -> y = x)).
Proof.
  intros o mean std k e m s lo hi Hm Hs H.
  change (result (normal o mean std) k e) with (#(o_norm o (child k 1) e) * std e + mean e)%fl.
  unfold truncate_normal. rewrite !bind_result.
  change (result (normal o mean std) k) with (fun e => #(o_norm o (child k 1) e) * std e + mean e)%fl. cbn [result ret fst].
  unfold result, ret; cbn [fst]. rewrite Hm, Hs. farith. eexists. split; [reflexivity|]. unfold clip_opt.
  rewrite fmax_Fin, fmin_Fin. split; (eexists; split; [reflexivity|]); unfold Rmin, Rmax;
    repeat (destruct (Rle_dec _ _)); repeat split; intros; lra.
Qed.

(** It is a clipped normal rather than a truncated one: the bound itself is returned for every draw
    beyond it. *)
Theorem C60_mass_at_the_bound : forall o mean std k e m s lo x, mean e = Fin m -> std e = Fin s ->
  result (normal o mean std) k e = Fin x -> x <= lo ->
  result (truncate_normal o mean std (Some (Fin lo)) None) k e = Fin lo.
Proof.
  intros o mean std k e m s lo x Hm Hs E H. unfold truncate_normal. rewrite bind_result.
  unfold result at 1, ret; cbn [fst]. rewrite E. unfold clip_opt. rewrite fmax_Fin. f_equal. unfold Rmax.
  destruct (Rle_dec x lo); lra.
Qed.

Example C60_case : exists x, result (uniform toy (fun _ => Fin 2) (fun _ => Fin 6)) [] 0%nat = Fin x /\ x = 3.
Proof.
  change (result (uniform toy (fun _ => Fin 2) (fun _ => Fin 6)) [] 0%nat) with (fmax #2 (#(/ 4) * (#6 - #2) + #2))%fl.
  farith. rewrite fmax_Fin. eexists. split; [reflexivity|]. unfold Rmax. destruct (Rle_dec _ _); lra.
Qed.

Print Assumptions C39_hybrid_range.
Print Assumptions C39_hybrid_edges.
Print Assumptions C39_hybrid_exact.
Print Assumptions C39_range.
Print Assumptions C39_normal_approximation.
Print Assumptions C40_samplers.
Print Assumptions C40_programs.
Print Assumptions C40_twohalfnorm_refuted.
Print Assumptions C58_intended.
Print Assumptions C58_gap.
Print Assumptions C58_equal_widths.
Print Assumptions C58_every_value_refuted.
Print Assumptions C59_negative_binomial.
Print Assumptions C59_stopped.
Print Assumptions C59_generalized_poisson.
Print Assumptions C59_eta_zero.
Print Assumptions C60_uniform.
Print Assumptions C60_truncate_normal.
Print Assumptions C60_mass_at_the_bound.
