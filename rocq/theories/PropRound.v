(** C116: rounding in histograms and log likelihoods. *)
From Coq Require Import Reals ZArith Lra Lia List Permutation.
From Verif Require Import Base ModelFloat ModelHist ModelRound SpecRound SpecHist ProofFloat ProofHist ProofRound PropHist.
Local Open Scope R_scope.

Lemma fsum_Fins ws : fsum (map Fin ws) = Fin (total ws).
Proof. induction ws as [|w ws IH]; [reflexivity|]. cbn [map total]. change (fsum (Fin w :: map Fin ws)) with (fadd (Fin w) (fsum (map Fin ws))). rewrite IH. reflexivity. Qed.
Lemma exact_entry bins events i ws : sorted bins -> (S i < List.length bins)%nat -> bin_weights bins events i ws ->
  entry (hist_1d bins events) i = Fin (total ws).
Proof. intros Hs Hi H. rewrite C11_entry by assumption. unfold weight_of. unfold bin_weights in H. rewrite H. apply fsum_Fins. Qed.
Lemma rounded_entry_sum p bins events i ws : sorted bins -> (S i < List.length bins)%nat -> bin_weights bins events i ws ->
  entry (rounded_hist_1d p bins events) i = Fin (rounded_sum p (comb ws)).
Proof.
  intros Hs Hi H. rewrite rounded_entry by assumption. unfold bin_weights in H. rewrite H. exact (fold_comb p ws (Leaf 0)).
Qed.

(** Sums of whole numbers up to 2^p are exact, in any order. *)
Theorem C116_whole : forall p t, (1 <= p)%nat -> (forall w, In w (leaves t) -> a_whole_number w) -> total (leaves t) <= 2 ^ p ->
  rounded_sum p t = total (leaves t).
Proof. intros p t Hp Hw Ht. exact (proj1 (sum_whole p t Hp Hw Ht)). Qed.

(** So counts are exact: a bin with whole weights that come to no more than 2^p. *)
Theorem C116_counts : forall p bins events i ws, (1 <= p)%nat -> sorted bins -> (S i < List.length bins)%nat ->
  bin_weights bins events i ws -> (forall w, In w ws -> a_whole_number w) -> total ws <= 2 ^ p ->
  entry (rounded_hist_1d p bins events) i = entry (hist_1d bins events) i.
Proof.
  intros p bins events i ws Hp Hs Hi H Hw Ht.
  rewrite (rounded_entry_sum p bins events i ws), (exact_entry bins events i ws) by assumption. f_equal.
  rewrite C116_whole; rewrite ?comb_leaves; cbn [total]; [lra|exact Hp| |lra].
  intros w [<-|Hin]; [exists 0%nat; reflexivity|apply Hw, Hin].
Qed.

(** A bin in which no event weighs more than 1 never exceeds 2^p, however many events there are. *)
Lemma comb_snoc p ws w : rounded_sum p (comb (ws ++ [w])) = round_to p (rounded_sum p (comb ws) + w).
Proof. unfold comb. rewrite fold_left_app. reflexivity. Qed.
Theorem C116_ceiling : forall p bins events i ws, (2 <= p)%nat -> sorted bins -> (S i < List.length bins)%nat ->
  bin_weights bins events i ws -> (forall w, In w ws -> 0 <= w <= 1) ->
  exists s, entry (rounded_hist_1d p bins events) i = Fin s /\ 0 <= s <= 2 ^ p.
Proof.
  intros p bins events i ws Hp Hs Hi H Hw. rewrite (rounded_entry_sum p bins events i ws) by assumption. eexists. split; [reflexivity|].
  clear H. induction ws as [|w ws IH] using rev_ind.
  - cbn. pose proof (pow2_pos p). lra.
  - rewrite comb_snoc. specialize (IH (fun v Hv => Hw v (in_or_app _ _ _ (or_introl Hv)))).
    specialize (Hw w ltac:(apply in_or_app; right; left; reflexivity)). set (s := rounded_sum p (comb ws)) in *.
    destruct (Rle_dec (s + w) (2 ^ p)) as [L|L]; [apply round_below; lia || lra|].
    replace (s + w) with (2 ^ p + (s + w - 2 ^ p)) by ring. rewrite round_stuck by (lia || lra). pose proof (pow2_pos p). lra.
Qed.

(** Counting stops: of more than 2^p events of weight 1 in a bin, 2^p are counted. *)
Lemma total_ones n : total (repeat 1 n) = INR n.
Proof. induction n as [|n IH]; [reflexivity|]. cbn [repeat total]. rewrite IH, S_INR. ring. Qed.
Lemma repeat_snoc {A} (x : A) n : repeat x (S n) = (repeat x n ++ [x])%list.
Proof. induction n as [|n IH]; [reflexivity|]. cbn [repeat app] in *. rewrite <- IH. reflexivity. Qed.
Theorem C116_stuck : forall p bins events i n, (2 <= p)%nat -> sorted bins -> (S i < List.length bins)%nat ->
  bin_weights bins events i (repeat 1 n) ->
  entry (rounded_hist_1d p bins events) i = Fin (Rmin (INR n) (2 ^ p)).
Proof.
  intros p bins events i n Hp Hs Hi H. rewrite (rounded_entry_sum p bins events i _) by eassumption. f_equal. clear H.
  induction n as [|n IH].
  - cbn. rewrite Rmin_left; [reflexivity|]. left. apply pow2_pos.
  - rewrite repeat_snoc, comb_snoc, IH, S_INR. destruct (Rle_dec (2 ^ p) (INR n)) as [L|L].
    + rewrite !Rmin_right by lra. apply round_stuck; [exact Hp|lra].
    + rewrite (Rmin_left (INR n)) by lra. rewrite <- S_INR, INR_IZR_INZ. assert (Q : (Z.of_nat (S n) <= 2 ^ Z.of_nat p)%Z).
      { apply Z.nlt_ge. intros C. apply L. rewrite INR_IZR_INZ.
        replace (2 ^ p) with (IZR (2 ^ Z.of_nat p)) by (rewrite <- pow_IZR; reflexivity). apply IZR_le. lia. }
      rewrite Rmin_left by (apply IZR_le in Q; rewrite <- pow_IZR in Q; exact Q).
      apply round_whole; lia.
Qed.

(** Weights that are not whole: the relative error of a bin with n events. *)
Theorem C116_error : forall p bins events i ws, sorted bins -> (S i < List.length bins)%nat ->
  bin_weights bins events i ws -> (forall w, In w ws -> 0 <= w) ->
  let u := unit_roundoff p in let n := List.length ws in
  exists r s, entry (rounded_hist_1d p bins events) i = Fin r /\ entry (hist_1d bins events) i = Fin s /\
    Rabs (r - s) <= ((1 + u) ^ n - 1) * s /\ (INR n * u <= 1 -> Rabs (r - s) <= 2 * INR n * u * s).
Proof.
  intros p bins events i ws Hs Hi H Hw u n.
  exists (rounded_sum p (comb ws)), (total ws). split; [apply rounded_entry_sum; assumption|]. split; [apply exact_entry; assumption|].
  pose proof (sum_error p (comb ws)) as E. cbv zeta in E. rewrite comb_leaves, comb_depth in E. cbn [map total] in E. rewrite Rabs_R0, !Rplus_0_l in E.
  assert (A : map Rabs ws = ws). { clear - Hw. induction ws as [|w ws IH]; [reflexivity|]. cbn. rewrite IH by (intros v Hv; apply Hw; right; exact Hv). rewrite Rabs_pos_eq; [reflexivity|apply Hw; left; reflexivity]. }
  rewrite A in E. split; [exact E|]. intros Hn. eapply Rle_trans; [exact E|].
  assert (P : 0 <= total ws). { clear - Hw. induction ws as [|w ws IH]; cbn; [lra|]. pose proof (Hw w (or_introl eq_refl)). specialize (IH (fun v Hv => Hw v (or_intror Hv))). lra. }
  apply Rmult_le_compat_r; [exact P|]. fold u n. pose proof (unit_roundoff_pos p) as Hu. fold u in Hu.
  clear - Hn Hu. assert (G : forall k, INR k * u <= 1 -> (1 + u) ^ k <= 1 + 2 * INR k * u - INR k * u * (1 - INR k * u)).
  { induction k as [|k IH]; intros Hk; [cbn; lra|]. rewrite S_INR in *. pose proof (pos_INR k). specialize (IH ltac:(nra)). cbn [pow].
    set (x := INR k * u) in *. replace (2 * INR k * u) with (2 * x) in IH by (unfold x; ring). replace (2 * (INR k + 1) * u) with (2 * x + 2 * u) by (unfold x; ring).
    replace ((INR k + 1) * u) with (x + u) in * by (unfold x; ring). assert (0 <= x) by (unfold x; nra).
    apply Rle_trans with ((1 + u) * (1 + 2 * x - x * (1 - x))); [apply Rmult_le_compat_l; lra|].
    assert (0 <= u * (x * (1 - x) + u)) by (apply Rmult_le_pos; nra). nra. }
  specialize (G n Hn). pose proof (pos_INR n). set (x := INR n * u) in *. assert (0 <= x) by (unfold x; nra).
  replace (2 * INR n * u) with (2 * x) in * by (unfold x; ring). nra.
Qed.

(** Any sum, in any order. *)
Theorem C116_sum : forall p t, let u := unit_roundoff p in
  Rabs (rounded_sum p t - total (leaves t)) <= ((1 + u) ^ depth t - 1) * total (map Rabs (leaves t)).
Proof. exact sum_error. Qed.

(** The log likelihood. *)
Lemma term_error p d m l c : let u := unit_roundoff p in 0 <= d -> 0 < m -> 0 <= c -> Rabs (l - ln m) <= c * Rabs (ln m) ->
  Rabs (rounded_term p d m l - poisson_term d m) <= ((1 + u) ^ 2 * (1 + c) - 1) * poisson_size d m.
Proof.
  intros u Hd Hm Hc Hl. unfold rounded_term, poisson_term, poisson_size. pose proof (unit_roundoff_pos p) as Hu. fold u in Hu.
  pose proof (round_error p (d * l)) as E1. fold u in E1. set (a := round_to p (d * l)) in *.
  pose proof (round_error p (a - m)) as E2. fold u in E2. set (b := round_to p (a - m)) in *.
  pose proof (Rabs_pos (ln m)) as PL. set (L := Rabs (ln m)) in *.
  assert (Ll : Rabs l <= (1 + c) * L). { replace l with (l - ln m + ln m) by ring. eapply Rle_trans; [apply Rabs_triang|]. unfold L in *. lra. }
  assert (D1 : Rabs (d * l) <= (1 + c) * (d * L)). { rewrite Rabs_mult, (Rabs_pos_eq d) by lra. nra. }
  assert (D2 : Rabs (d * l - d * ln m) <= c * (d * L)). { replace (d * l - d * ln m) with (d * (l - ln m)) by ring. rewrite Rabs_mult, (Rabs_pos_eq d) by lra. nra. }
  assert (PX : 0 <= d * L) by nra. set (X := d * L) in *.
  assert (A1 : Rabs (a - d * ln m) <= ((1 + u) * (1 + c) - 1) * X).
  { replace (a - d * ln m) with ((a - d * l) + (d * l - d * ln m)) by ring. eapply Rle_trans; [apply Rabs_triang|]. nra. }
  assert (A2 : Rabs a <= (1 + u) * ((1 + c) * X)).
  { replace a with ((a - d * l) + d * l) by ring. eapply Rle_trans; [apply Rabs_triang|]. nra. }
  assert (A3 : Rabs (a - m) <= (1 + u) * ((1 + c) * X) + m).
  { unfold Rminus. eapply Rle_trans; [apply Rabs_triang|]. rewrite Rabs_Ropp, (Rabs_pos_eq m) by lra. lra. }
  replace (b - (d * ln m - m)) with ((b - (a - m)) + (a - d * ln m)) by ring. eapply Rle_trans; [apply Rabs_triang|].
  assert (A4 : u * Rabs (a - m) <= u * ((1 + u) * ((1 + c) * X) + m)) by (apply Rmult_le_compat_l; lra).
  apply Rle_trans with (u * ((1 + u) * ((1 + c) * X) + m) + ((1 + u) * (1 + c) - 1) * X); [lra|].
  assert (M : u * m <= ((1 + u) ^ 2 * (1 + c) - 1) * m) by (apply Rmult_le_compat_r; [lra|]; cbn [pow]; nra).
  replace (((1 + u) ^ 2 * (1 + c) - 1) * (X + m)) with (((1 + u) ^ 2 * (1 + c) - 1) * X + ((1 + u) ^ 2 * (1 + c) - 1) * m) by ring.
  replace (u * ((1 + u) * ((1 + c) * X) + m) + ((1 + u) * (1 + c) - 1) * X) with (((1 + u) ^ 2 * (1 + c) - 1) * X + u * m) by ring. lra.
Qed.

(** [bins]: for every bin the data, the model and the computed logarithm of the model, which is off by at
    most the relative error [c]. The sum is taken in any order. *)
Theorem C116_log_likelihood : forall p t (bins : list (R * R * R)) c, let u := unit_roundoff p in 0 <= c ->
  (forall d m l, In (d, m, l) bins -> 0 <= d /\ 0 < m /\ Rabs (l - ln m) <= c * Rabs (ln m)) ->
  Permutation (leaves t) (map (fun b => rounded_term p (fst (fst b)) (snd (fst b)) (snd b)) bins) ->
  Rabs (rounded_sum p t - total (map (fun b => poisson_term (fst (fst b)) (snd (fst b))) bins))
  <= ((1 + u) ^ (depth t + 2) * (1 + c) - 1) * total (map (fun b => poisson_size (fst (fst b)) (snd (fst b))) bins).
Proof.
  intros p t bins c u Hc HB HP. pose proof (unit_roundoff_pos p) as Hu. fold u in Hu.
  pose proof (sum_error p t) as E. cbv zeta in E. fold u in E.
  rewrite (total_perm _ _ HP) in E. rewrite (total_perm _ _ (Permutation_map Rabs HP)) in E.
  set (f := fun b : R * R * R => rounded_term p (fst (fst b)) (snd (fst b)) (snd b)) in *.
  set (g := fun b : R * R * R => poisson_term (fst (fst b)) (snd (fst b))).
  set (h := fun b : R * R * R => poisson_size (fst (fst b)) (snd (fst b))).
  set (k := (1 + u) ^ 2 * (1 + c)). assert (Hk : 1 <= k) by (unfold k; cbn [pow]; nra).
  assert (T : forall b, In b bins -> Rabs (f b - g b) <= (k - 1) * h b /\ Rabs (f b) <= k * h b).
  { intros [[d m] l] Hb. destruct (HB d m l Hb) as (Hd & Hm & Hl). pose proof (term_error p d m l c Hd Hm Hc Hl) as Q. fold u k in Q.
    unfold f, g, h. cbn [fst snd]. split; [exact Q|].
    replace (rounded_term p d m l) with (rounded_term p d m l - poisson_term d m + poisson_term d m) by ring.
    eapply Rle_trans; [apply Rabs_triang|].
    assert (S1 : Rabs (poisson_term d m) <= poisson_size d m).
    { unfold poisson_term, poisson_size, Rminus. eapply Rle_trans; [apply Rabs_triang|]. rewrite Rabs_Ropp, (Rabs_pos_eq m), Rabs_mult, (Rabs_pos_eq d) by lra. lra. }
    lra. }
  assert (S : Rabs (total (map f bins) - total (map g bins)) <= (k - 1) * total (map h bins) /\ total (map Rabs (map f bins)) <= k * total (map h bins)).
  { clear - T. induction bins as [|b bins IH]; cbn [map total].
    - rewrite Rminus_0_r, Rabs_R0. split; lra.
    - destruct (IH (fun x Hx => T x (or_intror Hx))) as [I1 I2]. destruct (T b (or_introl eq_refl)) as [T1 T2]. split.
      + replace (f b + total (map f bins) - (g b + total (map g bins))) with ((f b - g b) + (total (map f bins) - total (map g bins))) by ring.
        eapply Rle_trans; [apply Rabs_triang|]. lra.
      + lra. }
  destruct S as [S1 S2].
  replace (rounded_sum p t - total (map g bins)) with ((rounded_sum p t - total (map f bins)) + (total (map f bins) - total (map g bins))) by ring.
  eapply Rle_trans; [apply Rabs_triang|]. rewrite pow_add. pose proof (growth_1 u (depth t) ltac:(lra)) as G.
  set (G0 := (1 + u) ^ depth t) in *. replace (G0 * (1 + u) ^ 2 * (1 + c)) with (G0 * k) by (unfold k; ring).
  set (H0 := total (map h bins)) in *.
  assert (Q : (G0 - 1) * total (map Rabs (map f bins)) <= (G0 - 1) * (k * H0)) by (apply Rmult_le_compat_l; lra).
  replace ((G0 * k - 1) * H0) with ((G0 - 1) * (k * H0) + (k - 1) * H0) by ring. lra.
Qed.

(** ** The order of the events matters *)
Definition one_bin : list fl := [Fin 0; Fin 1].
Lemma one_bin_sorted : sorted one_bin.
Proof.
  unfold one_bin. cbn. repeat split; try discriminate; intros x Hx;
    repeat (destruct Hx as [<-|Hx]; [fl_eval; try reflexivity|]); destruct Hx.
Qed.
(** Events at 1 with the given weights. *)
Definition at_one (ws : list R) : list (fl * fl) := map (fun w => (Fin 1, Fin w)) ws.
Lemma at_one_weights ws : bin_weights one_bin (at_one ws) 0 ws.
Proof.
  unfold bin_weights. assert (E : in_bin (edge one_bin 0) (edge one_bin 1) (Fin 1) = true).
  { unfold one_bin, edge, in_bin. cbn [nth]. fl_eval. }
  induction ws as [|w ws IH]; [reflexivity|]. cbn [at_one map filter fst]. rewrite E. cbn [map snd]. f_equal. exact IH.
Qed.
Lemma at_one_entry p ws : entry (rounded_hist_1d p one_bin (at_one ws)) 0 = Fin (rounded_sum p (comb ws)).
Proof. apply rounded_entry_sum; [exact one_bin_sorted|cbn; lia|apply at_one_weights]. Qed.

Theorem C116_order_refuted : forall p, (2 <= p)%nat -> exists a b, Permutation a b /\
  (forall e, In e a -> exists w, snd e = Fin w /\ 0 <= w <= 1) /\
  entry (rounded_hist_1d p one_bin a) 0 <> entry (rounded_hist_1d p one_bin b) 0.
Proof.
  intros p Hp. set (s := powerRZ 2 (- Z.of_nat p)). pose proof (powerRZ2_pos (- Z.of_nat p)) as Ps. fold s in Ps.
  pose proof (pow2_pos p) as P2. assert (S2 : 2 ^ p * s = 1).
  { unfold s. rewrite <- powerRZ_nat, <- powerRZ_add. replace (Z.of_nat p + - Z.of_nat p)%Z with 0%Z by lia. reflexivity. }
  assert (B2 : 2 <= 2 ^ p). { replace p with (S (p - 1)) by lia. cbn [pow]. pose proof (pow_R1_Rle 2 (p - 1) ltac:(lra)). lra. }
  assert (W : forall n, (0 < n <= 2 ^ Z.of_nat p)%Z -> round_to p (IZR n * s) = IZR n * s).
  { intros n Hn. unfold s. rewrite round_shift by (apply IZR_lt; lia). rewrite round_whole by lia. reflexivity. }
  assert (Z2 : (2 <= 2 ^ Z.of_nat p)%Z) by (apply le_IZR; rewrite <- pow_IZR; exact B2).
  exists (at_one [1; s; s]), (at_one [s; s; 1]). split; [|split].
  - apply Permutation_map. apply Permutation_trans with [s; 1; s]; [apply perm_swap|apply perm_skip, perm_swap].
  - intros e He. apply in_map_iff in He. destruct He as (w & <- & Hw). exists w. split; [reflexivity|]. assert (s <= 1) by nra.
    destruct Hw as [<-|[<-|[<-|[]]]]; lra.
  - rewrite !at_one_entry. intros E. injection E as E. unfold comb in E. cbn [fold_left rounded_sum] in E.
    assert (R1 : round_to p (0 + 1) = 1). { rewrite Rplus_0_l. apply (round_whole p 1); lia. }
    assert (Rs : round_to p (0 + s) = s). { rewrite Rplus_0_l. pose proof (W 1%Z ltac:(lia)) as Q. rewrite Rmult_1_l in Q. exact Q. }
    assert (R2 : round_to p (s + s) = 2 * s). { replace (s + s) with (2 * s) by ring. apply (W 2%Z). lia. }
    assert (R3 : round_to p (1 + s) = 1).
    { rewrite <- S2 at 1. replace (2 ^ p * s + s) with ((2 ^ p + 1) * s) by ring. unfold s at 1. rewrite round_shift by lra.
      rewrite round_stuck by (lia || lra). exact S2. }
    rewrite R1, R3, R3, Rs, R2 in E.
    assert (R4 : round_to p (2 * s + 1) = 1 + 2 * s).
    { rewrite <- S2. replace (2 * s + 2 ^ p * s) with ((2 ^ (p - 1) + 1) * powerRZ 2 (1 - Z.of_nat p)).
      - rewrite round_shift by (pose proof (pow2_pos (p - 1)); lra). replace (2 ^ (p - 1) + 1) with (IZR (2 ^ Z.of_nat (p - 1) + 1)) by (rewrite plus_IZR, <- pow_IZR; reflexivity).
        rewrite round_whole.
        + rewrite plus_IZR, <- pow_IZR. replace (1 - Z.of_nat p)%Z with (1 + - Z.of_nat p)%Z by lia. rewrite powerRZ_add, powerRZ_1'. fold s.
          replace p with (S (p - 1)) at 2 by lia. cbn [pow]. ring.
        + lia.
        + replace (Z.of_nat p) with (Z.succ (Z.of_nat (p - 1))) by lia. rewrite Z.pow_succ_r by lia.
          pose proof (Z.pow_pos_nonneg 2 (Z.of_nat (p - 1)) ltac:(lia) ltac:(lia)). lia.
      - replace (1 - Z.of_nat p)%Z with (1 + - Z.of_nat p)%Z by lia. rewrite powerRZ_add, powerRZ_1'. fold s.
        replace p with (S (p - 1)) at 2 by lia. cbn [pow]. ring. }
    rewrite R4 in E. lra.
Qed.

(** ** Cases *)
(** In single precision a bin counts up to 16777216: one more event is lost. *)
Example C116_case_lost : let n := Z.to_nat (2 ^ 24 + 1) in
  entry (rounded_hist_1d 24 one_bin (at_one (repeat 1 n))) 0 = Fin (2 ^ 24) /\
  entry (hist_1d one_bin (at_one (repeat 1 n))) 0 = Fin (2 ^ 24 + 1).
Proof.
  intros n. assert (E : INR n = 2 ^ 24 + 1). { unfold n. rewrite INR_IZR_INZ, Z2Nat.id by lia. rewrite plus_IZR. change (2 ^ 24)%Z with (2 ^ Z.of_nat 24)%Z. rewrite <- pow_IZR. reflexivity. }
  split.
  - rewrite (C116_stuck 24 one_bin _ 0 n) by (lia || exact one_bin_sorted || (cbn; lia) || apply at_one_weights). rewrite E, Rmin_right by lra. reflexivity.
  - rewrite (exact_entry one_bin _ 0 (repeat 1 n)) by (exact one_bin_sorted || (cbn; lia) || apply at_one_weights). rewrite total_ones, E. reflexivity.
Qed.
Example C116_case_counts : entry (rounded_hist_1d 24 one_bin (at_one [1; 1; 1])) 0 = Fin 3.
Proof.
  rewrite (C116_counts 24 one_bin _ 0 [1; 1; 1]); [|lia|exact one_bin_sorted|cbn; lia|apply at_one_weights| |cbn [total]; lra].
  - rewrite (exact_entry one_bin _ 0 [1; 1; 1]) by (exact one_bin_sorted || (cbn; lia) || apply at_one_weights). f_equal. cbn. lra.
  - intros w Hw. exists 1%nat. cbn in Hw. destruct Hw as [<-|[<-|[<-|[]]]]; reflexivity.
Qed.
(** A million events in a bin: at most 12 % off. *)
Example C116_case_error : forall ws, List.length ws = Z.to_nat 1000000 -> (forall w, In w ws -> 0 <= w) ->
  exists r, entry (rounded_hist_1d 24 one_bin (at_one ws)) 0 = Fin r /\ Rabs (r - total ws) <= 0.12 * total ws.
Proof.
  intros ws Hl Hw. assert (En : INR (List.length ws) = 1000000) by (rewrite Hl, INR_IZR_INZ, Z2Nat.id by lia; reflexivity).
  destruct (C116_error 24 one_bin (at_one ws) 0 ws one_bin_sorted ltac:(cbn; lia) (at_one_weights ws) Hw) as (r & s & Hr & Hs & _ & E).
  exists r. split; [exact Hr|]. rewrite (exact_entry one_bin _ 0 ws one_bin_sorted ltac:(cbn; lia) (at_one_weights ws)) in Hs. injection Hs as <-.
  rewrite En in E. assert (U : unit_roundoff 24 = / 16777216) by (unfold unit_roundoff; f_equal; lra). rewrite U in E.
  eapply Rle_trans; [apply E; lra|]. apply Rmult_le_compat_r; [|lra].
  clear - Hw. induction ws as [|w ws IH]; cbn; [lra|]. pose proof (Hw w (or_introl eq_refl)). specialize (IH (fun v Hv => Hw v (or_intror Hv))). lra.
Qed.
(** Four bins added in pairs, in single precision, with logarithms good to 24 bits. *)
Example C116_case_log_likelihood : forall l1 l2 l3 l4, let u := unit_roundoff 24 in
  Rabs (l1 - ln 2) <= u * Rabs (ln 2) -> Rabs (l2 - ln 3) <= u * Rabs (ln 3) ->
  Rabs (l3 - ln 2) <= u * Rabs (ln 2) -> Rabs (l4 - ln 1) <= u * Rabs (ln 1) ->
  Rabs (rounded_sum 24 (Node (Node (Leaf (rounded_term 24 1 2 l1)) (Leaf (rounded_term 24 4 3 l2)))
                             (Node (Leaf (rounded_term 24 0 2 l3)) (Leaf (rounded_term 24 7 1 l4))))
        - (ln 2 - 2 + (4 * ln 3 - 3) + (0 - 2) + (7 * ln 1 - 1))) <= 0.00001.
Proof.
  intros l1 l2 l3 l4 u H1 H2 H3 H4. set (t := Node (Node _ _) _).
  assert (U : u = / 16777216) by (unfold u, unit_roundoff; f_equal; lra).
  pose proof (C116_log_likelihood 24 t [(1, 2, l1); (4, 3, l2); (0, 2, l3); (7, 1, l4)] u ltac:(rewrite U; lra)) as E.
  cbv zeta in E. specialize (E ltac:(intros d m l [Q|[Q|[Q|[Q|[]]]]]; injection Q as <- <- <-; repeat split; try lra; assumption)
    ltac:(cbn; apply Permutation_refl)).
  cbn [map total fst snd] in E. unfold poisson_term, poisson_size in E.
  replace (1 * ln 2 - 2 + (4 * ln 3 - 3 + (0 * ln 2 - 2 + (7 * ln 1 - 1 + 0))))
    with (ln 2 - 2 + (4 * ln 3 - 3) + (0 - 2) + (7 * ln 1 - 1)) in E by ring.
  eapply Rle_trans; [exact E|]. fold u. replace (depth t + 2)%nat with 4%nat by reflexivity.
  assert (L : forall x, 1 <= x -> 0 <= ln x <= x - 1).
  { intros x Hx. split; [destruct (Req_dec x 1) as [->|N]; [rewrite ln_1; lra|left; rewrite <- ln_1; apply ln_increasing; lra]|].
    destruct (Req_dec x 1) as [->|N]; [rewrite ln_1; lra|]. pose proof (exp_ineq1 (ln x)) as Q.
    assert (ln x <> 0). { rewrite <- ln_1. intros C. apply ln_inv in C; lra. } specialize (Q H). rewrite exp_ln in Q by lra. lra. }
  pose proof (L 2 ltac:(lra)). pose proof (L 3 ltac:(lra)). rewrite ln_1, Rabs_R0, !Rabs_pos_eq by lra.
  rewrite U. apply Rle_trans with (((1 + / 16777216) ^ 4 * (1 + / 16777216) - 1) * 17).
  - apply Rmult_le_compat_l; lra.
  - lra.
Qed.

Print Assumptions C116_whole.
Print Assumptions C116_counts.
Print Assumptions C116_ceiling.
Print Assumptions C116_stuck.
Print Assumptions C116_error.
Print Assumptions C116_sum.
Print Assumptions C116_log_likelihood.
Print Assumptions C116_order_refuted.
