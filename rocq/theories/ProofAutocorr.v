(** Lemmas for the autocorrelation of a chain (C98): the Fourier transform. *)
From Coq Require Import Reals Lra Lia.
From Verif Require Import Base BaseFacts ModelFloat ProofFloat ModelTwoHalf ModelParameter ModelContext
  ModelPlotter SpecPlotter ProofPlotter ProofPlotter2 ProofAccept.
Local Open Scope list_scope.
Local Open Scope R_scope.

(* ------------------------------------------------------------------ *)
(** * Powers of two *)

Lemma double_until_spec : forall fuel i n, (0 < i)%nat -> (n <= i + fuel)%nat ->
  (n <= double_until fuel i n)%nat /\ (i <= double_until fuel i n)%nat /\
  exists e, double_until fuel i n = (i * 2 ^ e)%nat.
Proof.
  induction fuel as [|f IH]; intros i n Hi Hn; cbn [double_until].
  - split; [lia|]. split; [lia|]. exists 0%nat. cbn. lia.
  - destruct (Nat.ltb_spec i n) as [H|H].
    + destruct (IH (2 * i)%nat n ltac:(lia) ltac:(lia)) as (H1 & H2 & e & H3). split; [exact H1|]. split; [lia|].
      exists (S e). rewrite H3. cbn [Nat.pow]. lia.
    + split; [exact H|]. split; [lia|]. exists 0%nat. cbn. lia.
Qed.

Lemma next_pow_two_spec n : (n <= next_pow_two n)%nat /\ (1 <= next_pow_two n)%nat /\ exists e, next_pow_two n = (2 ^ e)%nat.
Proof.
  destruct (double_until_spec n 1 n ltac:(lia) ltac:(lia)) as (H1 & H2 & e & H3). split; [exact H1|]. split; [exact H2|].
  exists e. unfold next_pow_two. rewrite H3. lia.
Qed.

(* ------------------------------------------------------------------ *)
(** * Sums *)

Lemma sum_ext n f g : (forall i, (i < n)%nat -> f i = g i) -> sum_to n f = sum_to n g.
Proof.
  induction n as [|n IH]; intros H; cbn [sum_to]; [reflexivity|]. rewrite IH, (H n) by (auto with arith). reflexivity.
Qed.
Lemma sum_plus n f g : sum_to n (fun i => f i + g i) = sum_to n f + sum_to n g.
Proof. induction n as [|n IH]; cbn [sum_to]; [lra|]. rewrite IH. lra. Qed.
Lemma sum_scale n c f : sum_to n (fun i => c * f i) = c * sum_to n f.
Proof. induction n as [|n IH]; cbn [sum_to]; [lra|]. rewrite IH. lra. Qed.
Lemma sum_zero n f : (forall i, (i < n)%nat -> f i = 0) -> sum_to n f = 0.
Proof. induction n as [|n IH]; intros H; cbn [sum_to]; [reflexivity|]. rewrite IH, (H n) by auto with arith. lra. Qed.
Lemma sum_swap n m f : sum_to n (fun i => sum_to m (fun j => f i j)) = sum_to m (fun j => sum_to n (fun i => f i j)).
Proof.
  induction n as [|n IH]; cbn [sum_to]; [symmetry; apply sum_zero; reflexivity|]. rewrite IH, <- sum_plus. reflexivity.
Qed.
Lemma sum_mult n m f g : sum_to n f * sum_to m g = sum_to n (fun i => sum_to m (fun j => f i * g j)).
Proof.
  rewrite (sum_ext n (fun i => sum_to m (fun j => f i * g j)) (fun i => sum_to m g * f i)).
  - rewrite sum_scale. lra.
  - intros i _. rewrite sum_scale. lra.
Qed.
Lemma sum_const n c : sum_to n (fun _ => c) = INR n * c.
Proof. induction n as [|n IH]; cbn [sum_to]; [cbn; lra|]. rewrite IH, S_INR. lra. Qed.
Lemma sum_single n c f : sum_to n (fun i => if Nat.eqb i c then f i else 0) = if Nat.ltb c n then f c else 0.
Proof.
  induction n as [|n IH]; cbn [sum_to]; [reflexivity|]. rewrite IH. destruct (Nat.eqb_spec n c) as [->|Hc].
  - replace (Nat.ltb c c) with false by (symmetry; apply Nat.ltb_ge; lia).
    replace (Nat.ltb c (S c)) with true by (symmetry; apply Nat.ltb_lt; lia). lra.
  - destruct (Nat.ltb_spec c n); destruct (Nat.ltb_spec c (S n)); try lia; lra.
Qed.
Lemma sum_le n f g : (forall i, (i < n)%nat -> f i <= g i) -> sum_to n f <= sum_to n g.
Proof.
  induction n as [|n IH]; intros H; cbn [sum_to]; [lra|]. pose proof (H n (Nat.lt_succ_diag_r n)).
  assert (sum_to n f <= sum_to n g) by (apply IH; auto with arith). lra.
Qed.
Lemma sum_split n m f : sum_to (n + m) f = sum_to n f + sum_to m (fun i => f (n + i)%nat).
Proof.
  induction m as [|m IH]; [rewrite Nat.add_0_r; cbn [sum_to]; lra|]. rewrite Nat.add_succ_r. cbn [sum_to]. rewrite IH. lra.
Qed.
Lemma sum_first n f : sum_to (S n) f = f 0%nat + sum_to n (fun i => f (S i)).
Proof. change (S n) with (1 + n)%nat. rewrite sum_split. cbn [sum_to Nat.add]. lra. Qed.
Lemma sum_list n f : sum_to n f = fold_right Rplus 0 (map f (seq 0 n)).
Proof.
  induction n as [|n IH]; [reflexivity|]. rewrite seq_S, map_app, fold_right_app. cbn [sum_to map fold_right Nat.add].
  rewrite IH. generalize (map f (seq 0 n)). intros l. generalize (f n). intros c. clear.
  assert (H : forall a, fold_right Rplus a l = fold_right Rplus 0 l + a).
  { intros a. induction l as [|x l IH]; cbn [fold_right]; [lra|]. rewrite IH. lra. }
  rewrite (H (c + 0)). lra.
Qed.

(* ------------------------------------------------------------------ *)
(** * Sums of cosines *)

Lemma telescope phi n : 2 * sin (phi / 2) * sum_to n (fun m => cos (INR m * phi)) = sin (INR n * phi - phi / 2) + sin (phi / 2).
Proof.
  induction n as [|n IH].
  - cbn [sum_to INR]. replace (0 * phi - phi / 2) with (- (phi / 2)) by lra. rewrite sin_neg. lra.
  - cbn [sum_to]. rewrite Rmult_plus_distr_l, IH. rewrite S_INR.
    replace ((INR n + 1) * phi - phi / 2) with (INR n * phi + phi / 2) by lra.
    rewrite sin_plus, sin_minus. lra.
Qed.

Lemma sin_turn (d : nat) x : sin (2 * PI * INR d - x) = - sin x.
Proof.
  replace (2 * PI * INR d - x) with (- x + 2 * INR d * PI) by ring. rewrite sin_period. apply sin_neg.
Qed.

Lemma cos_sum_nat (N d : nat) : (0 < d < N)%nat -> sum_to N (fun m => cos (INR m * (2 * PI * INR d / INR N))) = 0.
Proof.
  intros [Hd HN]. set (phi := 2 * PI * INR d / INR N).
  assert (HNr : 0 < INR N) by (apply lt_0_INR; lia). assert (Hdr : 0 < INR d) by (apply lt_0_INR; lia).
  assert (Hdn : INR d < INR N) by (apply lt_INR; lia). pose proof PI_RGT_0 as Hpi.
  pose proof (telescope phi N) as H.
  replace (INR N * phi - phi / 2) with (2 * PI * INR d - phi / 2) in H by (unfold phi; field; lra).
  rewrite sin_turn in H.
  assert (Hs : 0 < sin (phi / 2)).
  { apply sin_gt_0.
    - unfold phi. apply Rmult_lt_0_compat; [|lra]. apply Rmult_lt_0_compat; [nra|]. apply Rinv_0_lt_compat. exact HNr.
    - unfold phi. apply Rmult_lt_reg_r with (INR N); [exact HNr|]. replace (2 * PI * INR d / INR N / 2 * INR N) with (PI * INR d) by (field; lra). nra. }
  assert (H0 : sin (phi / 2) * sum_to N (fun m => cos (INR m * phi)) = 0) by lra.
  apply Rmult_integral in H0. destruct H0 as [H0|H0]; [lra|exact H0].
Qed.

(** [sum over m of cos (2 pi m (a - b) / N)] *)
Lemma cos_sum (N a b : nat) : (0 < N)%nat -> (a < b + N)%nat -> (b < a + N)%nat ->
  sum_to N (fun m => cos (2 * PI * INR m / INR N * (INR a - INR b))) = if Nat.eqb a b then INR N else 0.
Proof.
  intros HN H1 H2. assert (HNr : INR N <> 0) by (apply not_0_INR; lia). destruct (Nat.eqb_spec a b) as [->|Hab].
  - rewrite (sum_ext N _ (fun _ => 1)).
    + rewrite sum_const. lra.
    + intros i _. replace (2 * PI * INR i / INR N * (INR b - INR b)) with 0 by lra. apply cos_0.
  - destruct (le_lt_dec a b) as [Hle|Hle].
    + rewrite (sum_ext N _ (fun m => cos (INR m * (2 * PI * INR (b - a) / INR N)))).
      * apply cos_sum_nat. lia.
      * intros i _. rewrite minus_INR by lia. rewrite <- cos_neg. f_equal. field. exact HNr.
    + rewrite (sum_ext N _ (fun m => cos (INR m * (2 * PI * INR (a - b) / INR N)))).
      * apply cos_sum_nat. lia.
      * intros i _. rewrite minus_INR by lia. f_equal. field. exact HNr.
Qed.

(* ------------------------------------------------------------------ *)
(** * The inverse transform of the power spectrum *)

Lemma power_eq N (y : list R) m :
  let f := fft N y m in fst (cmul f (conj f)) =
    sum_to N (fun j => sum_to N (fun l => nth j y 0 * nth l y 0 * cos (2 * PI * INR m / INR N * (INR j - INR l)))) /\
  snd (cmul f (conj f)) = 0.
Proof.
  intros f. unfold f, cmul, conj, fft. cbn [fst snd]. split; [|ring].
  set (C := fun j => nth j y 0 * cos (angle N m j)). set (S := fun j => - (nth j y 0 * sin (angle N m j))).
  replace (sum_to N C * sum_to N C - sum_to N S * - sum_to N S) with (sum_to N C * sum_to N C + sum_to N S * sum_to N S) by ring.
  rewrite !sum_mult, <- sum_plus. apply sum_ext. intros j _. rewrite <- sum_plus. apply sum_ext. intros l _.
  unfold C, S, angle. replace (2 * PI * INR m / INR N * (INR j - INR l))
    with (2 * PI * INR m * INR j / INR N - 2 * PI * INR m * INR l / INR N) by (unfold Rdiv; ring).
  rewrite cos_minus. ring.
Qed.

Lemma ifft_power N n (y : list R) k : (List.length y = n)%nat -> (2 * n <= N)%nat -> (k < n)%nat ->
  ifft_re N (fun m => cmul (fft N y m) (conj (fft N y m))) k = sum_to N (fun j => nth j y 0 * nth (j + k) y 0).
Proof.
  intros Hl HN Hk. assert (HN0 : (0 < N)%nat) by lia. assert (HNr : INR N <> 0) by (apply not_0_INR; lia).
  unfold ifft_re.
  rewrite (sum_ext N _ (fun m => sum_to N (fun j => sum_to N (fun l => nth j y 0 * nth l y 0 *
     (cos (2 * PI * INR m / INR N * (INR j - INR (l + k))) / 2 + cos (2 * PI * INR m / INR N * (INR (j + k) - INR l)) / 2))))).
  2: { intros m _. destruct (power_eq N y m) as [E1 E2]. unfold cmul at 1. cbn [fst snd]. rewrite E1, E2.
    rewrite Rmult_0_l, Rminus_0_r, Rmult_comm, <- sum_scale. apply sum_ext. intros j _. rewrite <- sum_scale. apply sum_ext. intros l _.
    rewrite !plus_INR. unfold angle. set (u := 2 * PI * INR m / INR N).
    replace (2 * PI * INR m * INR k / INR N) with (u * INR k) by (unfold u, Rdiv; ring).
    replace (u * (INR j - (INR l + INR k))) with (u * (INR j - INR l) - u * INR k) by ring.
    replace (u * (INR j + INR k - INR l)) with (u * (INR j - INR l) + u * INR k) by ring.
    rewrite cos_minus, cos_plus. field. }
  rewrite sum_swap.
  rewrite (sum_ext N _ (fun j => sum_to N (fun l => INR N * ((if Nat.eqb l (j + k) then nth j y 0 * nth l y 0 / 2 else 0) +
     (if Nat.eqb j (l + k) then nth j y 0 * nth l y 0 / 2 else 0))))).
  2: { intros j Hj. rewrite sum_swap. apply sum_ext. intros l Hll. rewrite sum_scale.
    rewrite sum_plus.
    rewrite (sum_ext N (fun i => cos (2 * PI * INR i / INR N * (INR j - INR (l + k))) / 2)
       (fun i => / 2 * cos (2 * PI * INR i / INR N * (INR j - INR (l + k))))) by (intros; unfold Rdiv; ring).
    rewrite (sum_ext N (fun i => cos (2 * PI * INR i / INR N * (INR (j + k) - INR l)) / 2)
       (fun i => / 2 * cos (2 * PI * INR i / INR N * (INR (j + k) - INR l)))) by (intros; unfold Rdiv; ring).
    rewrite !sum_scale.
    destruct (le_lt_dec n j) as [Hjn|Hjn].
    { rewrite (nth_overflow y) with (n := j) by lia. destruct (Nat.eqb l (j + k)), (Nat.eqb j (l + k)); unfold Rdiv; ring. }
    destruct (le_lt_dec n l) as [Hln|Hln].
    { rewrite (nth_overflow y) with (n := l) by lia. destruct (Nat.eqb l (j + k)), (Nat.eqb j (l + k)); unfold Rdiv; ring. }
    rewrite !cos_sum by lia. rewrite (Nat.eqb_sym (j + k) l). destruct (Nat.eqb l (j + k)), (Nat.eqb j (l + k)); field. }
  rewrite (sum_ext N _ (fun j => INR N * ((if Nat.ltb (j + k) N then nth j y 0 * nth (j + k) y 0 / 2 else 0) +
     sum_to N (fun l => if Nat.eqb j (l + k) then nth j y 0 * nth l y 0 / 2 else 0)))).
  2: { intros j Hj. rewrite sum_scale, sum_plus, sum_single. reflexivity. }
  rewrite sum_scale, sum_plus, (sum_swap N N).
  rewrite (sum_ext N (fun i => if Nat.ltb (i + k) N then nth i y 0 * nth (i + k) y 0 / 2 else 0) (fun i => / 2 * (nth i y 0 * nth (i + k) y 0))).
  2: { intros i Hi. destruct (Nat.ltb_spec (i + k) N); [unfold Rdiv; ring|]. rewrite (nth_overflow y) with (n := (i + k)%nat) by lia. ring. }
  rewrite (sum_ext N (fun j => sum_to N (fun i => if Nat.eqb i (j + k) then nth i y 0 * nth j y 0 / 2 else 0)) (fun i => / 2 * (nth i y 0 * nth (i + k) y 0))).
  2: { intros j Hj. rewrite (sum_single N (j + k)%nat (fun i => nth i y 0 * nth j y 0 / 2)).
    destruct (Nat.ltb_spec (j + k) N); [unfold Rdiv; ring|]. rewrite (nth_overflow y) with (n := (j + k)%nat) by lia. ring. }
  rewrite !sum_scale. field. exact HNr.
Qed.
