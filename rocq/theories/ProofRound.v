(** Facts about rounding. *)
From Coq Require Import Reals ZArith Lra Lia List.
From Verif Require Import Base ModelFloat ModelHist ModelRound SpecRound SpecHist ProofFloat ProofHist.
Local Open Scope R_scope.

Lemma ln2_pos : 0 < ln 2.
Proof. rewrite <- ln_1. apply ln_increasing; lra. Qed.
Lemma powerRZ2_pos z : 0 < powerRZ 2 z.
Proof. apply powerRZ_lt. lra. Qed.
Lemma powerRZ_exp z : powerRZ 2 z = exp (IZR z * ln 2).
Proof. rewrite powerRZ_Rpower by lra. reflexivity. Qed.
Lemma exponent_bounds x : 0 < x -> powerRZ 2 (exponent x) <= x < powerRZ 2 (exponent x + 1).
Proof.
  intros H. rewrite !powerRZ_exp. unfold exponent. set (q := ln x / ln 2). pose proof (base_Int_part q) as (B1 & B2).
  pose proof ln2_pos as L. assert (E : x = exp (q * ln 2)).
  { unfold q. replace (ln x / ln 2 * ln 2) with (ln x) by (field; lra). rewrite exp_ln; auto. }
  clearbody q.
  rewrite plus_IZR. split.
  - rewrite E. destruct (Req_dec (IZR (Int_part q)) q) as [->|N]; [lra|]. left. apply exp_increasing. nra.
  - rewrite E. apply exp_increasing. nra.
Qed.
Lemma powerRZ_le a b : (a <= b)%Z -> powerRZ 2 a <= powerRZ 2 b.
Proof.
  intros H. rewrite !powerRZ_exp. pose proof ln2_pos. apply IZR_le in H. destruct (Req_dec (IZR a) (IZR b)) as [->|N]; [lra|].
  left. apply exp_increasing. nra.
Qed.
Lemma exponent_unique x e : powerRZ 2 e <= x < powerRZ 2 (e + 1) -> exponent x = e.
Proof.
  intros [A B]. assert (P : 0 < x) by (pose proof (powerRZ2_pos e); lra). destruct (exponent_bounds x P) as [C D].
  destruct (Z.lt_trichotomy (exponent x) e) as [L|[L|L]]; [|exact L|].
  - exfalso. pose proof (powerRZ_le (exponent x + 1) e ltac:(lia)). lra.
  - exfalso. pose proof (powerRZ_le (e + 1) (exponent x) ltac:(lia)). lra.
Qed.

Lemma half_even_near y : Rabs (IZR (half_even y) - y) <= / 2.
Proof.
  unfold half_even. pose proof (base_Int_part y) as (B1 & B2).
  destruct (Rlt_dec _ _); [apply Rabs_le; lra|]. destruct (Rlt_dec _ _); [rewrite plus_IZR; apply Rabs_le; lra|].
  destruct (Z.even _); [apply Rabs_le; lra|rewrite plus_IZR; apply Rabs_le; lra].
Qed.

Lemma Int_part_unique y n : IZR n <= y < IZR n + 1 -> Int_part y = n.
Proof.
  intros [A B]. pose proof (base_Int_part y) as (B1 & B2).
  assert (n < Int_part y + 1)%Z by (apply lt_IZR; rewrite plus_IZR; lra).
  assert (Int_part y < n + 1)%Z by (apply lt_IZR; rewrite plus_IZR; lra). lia.
Qed.
Lemma half_even_IZR n : half_even (IZR n) = n.
Proof. unfold half_even. rewrite (Int_part_unique (IZR n) n) by lra. destruct (Rlt_dec _ _); [reflexivity|lra]. Qed.

(** ** The error of one rounding *)
Lemma powerRZ_nat p : powerRZ 2 (Z.of_nat p) = 2 ^ p.
Proof. symmetry. apply pow_powerRZ. Qed.
Lemma powerRZ_add a b : powerRZ 2 (a + b) = powerRZ 2 a * powerRZ 2 b.
Proof. apply powerRZ_add. lra. Qed.
Lemma powerRZ_1' : powerRZ 2 1 = 2.
Proof. apply powerRZ_1. Qed.
Lemma pow2_pos p : 0 < 2 ^ p.
Proof. apply pow_lt. lra. Qed.
Lemma unit_roundoff_pos p : 0 < unit_roundoff p.
Proof. apply Rinv_0_lt_compat, pow2_pos. Qed.

Lemma round_pos_error p x : 0 < x -> Rabs (round_pos p x - x) <= unit_roundoff p * x.
Proof.
  intros H. unfold round_pos. set (e := (exponent x - Z.of_nat p + 1)%Z). pose proof (powerRZ2_pos e) as Pe.
  set (s := powerRZ 2 e) in *. pose proof (half_even_near (x / s)) as N. set (y := IZR (half_even (x / s))) in *.
  replace (y * s - x) with ((y - x / s) * s) by (field; lra). rewrite Rabs_mult, (Rabs_pos_eq s) by lra.
  destruct (exponent_bounds x H) as [B _].
  assert (Q : s * 2 ^ p = 2 * powerRZ 2 (exponent x)).
  { unfold s, e. rewrite <- powerRZ_nat. replace (exponent x - Z.of_nat p + 1)%Z with (exponent x + 1 + - Z.of_nat p)%Z by lia.
    rewrite powerRZ_add, Rmult_assoc, <- powerRZ_add. replace (- Z.of_nat p + Z.of_nat p)%Z with 0%Z by lia. rewrite powerRZ_add, powerRZ_1'. change (powerRZ 2 0) with 1. ring. }
  unfold unit_roundoff. pose proof (pow2_pos p) as Pp.
  apply Rmult_le_reg_r with (2 ^ p); [exact Pp|].
  replace (/ 2 ^ p * x * 2 ^ p) with x by (field; lra).
  apply Rle_trans with (/ 2 * s * 2 ^ p).
  - apply Rmult_le_compat_r; [lra|]. apply Rmult_le_compat_r; lra.
  - rewrite Rmult_assoc, Q. lra.
Qed.
Lemma round_error p x : Rabs (round_to p x - x) <= unit_roundoff p * Rabs x.
Proof.
  unfold round_to. destruct (Rlt_dec 0 x) as [H|H]; [rewrite (Rabs_pos_eq x) by lra; apply round_pos_error, H|].
  destruct (Rlt_dec x 0) as [L|L].
  - rewrite (Rabs_left x L). pose proof (round_pos_error p (- x) ltac:(lra)) as E.
    replace (- round_pos p (- x) - x) with (- (round_pos p (- x) - - x)) by ring. rewrite Rabs_Ropp. exact E.
  - replace x with 0 by lra. rewrite Rminus_0_r, Rabs_R0. lra.
Qed.

(** ** What is not rounded *)
Lemma round_pos_whole p n : (1 <= p)%nat -> (0 < n <= 2 ^ Z.of_nat p)%Z -> round_pos p (IZR n) = IZR n.
Proof.
  intros Hp [Hn HM]. unfold round_pos. assert (P : 0 < IZR n) by (apply IZR_lt; exact Hn).
  destruct (exponent_bounds _ P) as [B C].
  assert (E : (exponent (IZR n) <= Z.of_nat p)%Z).
  { apply Z.nlt_ge. intros L. pose proof (powerRZ_le (Z.of_nat p + 1) (exponent (IZR n)) ltac:(lia)) as Q.
    rewrite powerRZ_add, powerRZ_nat, powerRZ_1' in Q. apply IZR_le in HM. rewrite <- pow_IZR in HM. pose proof (pow2_pos p). lra. }
  set (e := (exponent (IZR n) - Z.of_nat p + 1)%Z).
  assert (W : exists k, IZR n / powerRZ 2 e = IZR k).
  { destruct (Z.le_gt_cases e 0) as [L|L].
    - exists (n * 2 ^ (- e))%Z. rewrite mult_IZR. unfold Rdiv. f_equal.
      replace (- e)%Z with (Z.of_nat (Z.to_nat (- e))) at 1 by lia. rewrite <- pow_IZR, <- powerRZ_nat.
      replace (Z.of_nat (Z.to_nat (- e))) with (- e)%Z by lia. symmetry. apply powerRZ_neg'.
    - assert (Ee : exponent (IZR n) = Z.of_nat p) by lia. assert (e = 1%Z) as -> by lia.
      rewrite Ee, powerRZ_nat in B. assert (En : IZR n = 2 ^ p) by (apply IZR_le in HM; rewrite <- pow_IZR in HM; lra).
      exists (2 ^ Z.of_nat (p - 1))%Z. rewrite <- pow_IZR, En. destruct p as [|p]; [lia|]. replace (S p - 1)%nat with p by lia. rewrite powerRZ_1'. cbn [pow]. field. }
  destruct W as (k & W). fold e. rewrite W, half_even_IZR, <- W. field. pose proof (powerRZ2_pos e). lra.
Qed.
Lemma round_whole p n : (1 <= p)%nat -> (Z.abs n <= 2 ^ Z.of_nat p)%Z -> round_to p (IZR n) = IZR n.
Proof.
  intros Hp H. unfold round_to. destruct (Rlt_dec 0 (IZR n)) as [L|L].
  - apply round_pos_whole; [exact Hp|]. apply lt_IZR in L. lia.
  - destruct (Rlt_dec (IZR n) 0) as [M|M].
    + rewrite <- opp_IZR, round_pos_whole; [rewrite opp_IZR; ring|exact Hp|]. apply lt_IZR in M. lia.
    + lra.
Qed.

(** ** Where counting ends *)
Lemma round_stuck p w : (2 <= p)%nat -> 0 <= w <= 1 -> round_to p (2 ^ p + w) = 2 ^ p.
Proof.
  intros Hp Hw. pose proof (pow2_pos p) as P. unfold round_to. destruct (Rlt_dec 0 (2 ^ p + w)) as [_|N]; [|lra].
  assert (P2 : 2 <= 2 ^ p). { replace p with (S (p - 1)) by lia. cbn. pose proof (pow_R1_Rle 2 (p - 1) ltac:(lra)). lra. }
  assert (E : exponent (2 ^ p + w) = Z.of_nat p).
  { apply exponent_unique. rewrite powerRZ_add, powerRZ_nat, powerRZ_1'. lra. }
  unfold round_pos. rewrite E. replace (Z.of_nat p - Z.of_nat p + 1)%Z with 1%Z by lia.
  assert (Q : (2 ^ p + w) / powerRZ 2 1 = 2 ^ (p - 1) + w / 2).
  { rewrite powerRZ_1'. replace p with (S (p - 1)) at 1 by lia. cbn [pow]. field. }
  rewrite Q. set (f := (2 ^ Z.of_nat (p - 1))%Z). assert (Ef : IZR f = 2 ^ (p - 1)) by (unfold f; rewrite <- pow_IZR; reflexivity).
  assert (H : half_even (2 ^ (p - 1) + w / 2) = f).
  { unfold half_even. rewrite (Int_part_unique _ f) by (rewrite Ef; lra). rewrite Ef.
    destruct (Rlt_dec _ _) as [_|N1]; [reflexivity|]. destruct (Rlt_dec _ _) as [N2|N2]; [lra|].
    assert (Ev : Z.even f = true). { unfold f. replace (Z.of_nat (p - 1)) with (Z.succ (Z.of_nat (p - 2))) by lia. rewrite Z.pow_succ_r by lia. apply Z.even_mul. }
    rewrite Ev. reflexivity. }
  rewrite H, Ef, powerRZ_1'. replace p with (S (p - 1)) at 2 by lia. cbn [pow]. ring.
Qed.
Lemma round_below p x : (1 <= p)%nat -> 0 <= x <= 2 ^ p -> 0 <= round_to p x <= 2 ^ p.
Proof.
  intros Hp [H0 H1]. pose proof (pow2_pos p) as P. unfold round_to. destruct (Rlt_dec 0 x) as [H|H].
  2: { destruct (Rlt_dec x 0); lra. }
  destruct (Req_dec x (2 ^ p)) as [->|N].
  { replace (2 ^ p) with (IZR (2 ^ Z.of_nat p)) by (rewrite <- pow_IZR; reflexivity).
    rewrite round_pos_whole by (try exact Hp; pose proof (Z.pow_pos_nonneg 2 (Z.of_nat p)); lia). rewrite <- pow_IZR. lra. }
  unfold round_pos. set (e := (exponent x - Z.of_nat p + 1)%Z). pose proof (powerRZ2_pos e) as Pe.
  destruct (exponent_bounds x H) as [B C].
  assert (E : (exponent x < Z.of_nat p)%Z).
  { apply Z.nle_gt. intros L. pose proof (powerRZ_le (Z.of_nat p) (exponent x) L) as Q. rewrite powerRZ_nat in Q. lra. }
  assert (D : powerRZ 2 (exponent x + 1) = 2 ^ p * powerRZ 2 e).
  { rewrite <- powerRZ_nat, <- powerRZ_add. f_equal. unfold e. lia. }
  assert (Y : 0 < x / powerRZ 2 e < 2 ^ p).
  { split; [apply Rdiv_lt_0_compat; assumption|]. apply Rmult_lt_reg_r with (powerRZ 2 e); [exact Pe|].
    replace (x / powerRZ 2 e * powerRZ 2 e) with x by (field; lra). lra. }
  set (y := x / powerRZ 2 e) in *. pose proof (half_even_near y) as N'.
  assert (K : (0 <= half_even y <= 2 ^ Z.of_nat p)%Z).
  { assert (A : Rabs (IZR (half_even y) - y) < 1) by lra. apply Rabs_def2 in A.
    split.
    - assert (-1 < half_even y)%Z by (apply lt_IZR; lra). lia.
    - assert (half_even y < 2 ^ Z.of_nat p + 1)%Z by (apply lt_IZR; rewrite plus_IZR, <- pow_IZR; lra). lia. }
  destruct K as [K1 K2]. apply IZR_le in K1, K2. rewrite <- pow_IZR in K2. split; [apply Rmult_le_pos; lra|].
  apply Rle_trans with (2 ^ p * powerRZ 2 e); [apply Rmult_le_compat_r; lra|]. rewrite <- D.
  pose proof (powerRZ_le (exponent x + 1) (Z.of_nat p) ltac:(lia)) as Q. rewrite powerRZ_nat in Q. exact Q.
Qed.

(** ** Sums *)
Lemma total_app a b : total (a ++ b) = total a + total b.
Proof. induction a as [|x a IH]; cbn; [ring|rewrite IH; ring]. Qed.
Lemma total_perm a b : Permutation.Permutation a b -> total a = total b.
Proof. induction 1; cbn; try lra. Qed.
Lemma total_abs_nonneg l : 0 <= total (map Rabs l).
Proof. induction l as [|x l IH]; cbn; [lra|pose proof (Rabs_pos x); lra]. Qed.
Lemma total_abs l : Rabs (total l) <= total (map Rabs l).
Proof. induction l as [|x l IH]; cbn; [rewrite Rabs_R0; lra|]. pose proof (Rabs_triang x (total l)). lra. Qed.
Lemma growth_le u a b : 0 <= u -> (a <= b)%nat -> (1 + u) ^ a <= (1 + u) ^ b.
Proof. intros Hu H. apply Rle_pow; lra || exact H. Qed.
Lemma growth_1 u a : 0 <= u -> 1 <= (1 + u) ^ a.
Proof. intros H. apply pow_R1_Rle. lra. Qed.

Lemma sum_error p t : let u := unit_roundoff p in
  Rabs (rounded_sum p t - total (leaves t)) <= ((1 + u) ^ depth t - 1) * total (map Rabs (leaves t)).
Proof.
  cbv zeta. pose proof (unit_roundoff_pos p) as Hu. set (u := unit_roundoff p) in *.
  induction t as [w|l IHl r IHr]; cbn [rounded_sum leaves depth].
  - cbn. replace (w - (w + 0)) with 0 by ring. rewrite Rabs_R0. lra.
  - rewrite total_app, map_app, total_app.
    set (dl := depth l) in *. set (dr := depth r) in *. set (d := Nat.max dl dr).
    pose proof (growth_le u dl d ltac:(lra) ltac:(lia)) as Gl. pose proof (growth_le u dr d ltac:(lra) ltac:(lia)) as Gr.
    pose proof (growth_1 u d ltac:(lra)) as G1. cbn [pow].
    set (a := rounded_sum p l) in *. set (b := rounded_sum p r) in *.
    set (sl := total (leaves l)) in *. set (sr := total (leaves r)) in *.
    pose proof (total_abs_nonneg (leaves l)) as Pl. pose proof (total_abs_nonneg (leaves r)) as Pr.
    pose proof (total_abs (leaves l)) as Tl. pose proof (total_abs (leaves r)) as Tr. fold sl in Tl. fold sr in Tr.
    set (Al := total (map Rabs (leaves l))) in *. set (Ar := total (map Rabs (leaves r))) in *.
    pose proof (round_error p (a + b)) as E. fold u in E.
    assert (El : Rabs (a - sl) <= ((1 + u) ^ d - 1) * Al). { eapply Rle_trans; [exact IHl|]. apply Rmult_le_compat_r; lra. }
    assert (Er : Rabs (b - sr) <= ((1 + u) ^ d - 1) * Ar). { eapply Rle_trans; [exact IHr|]. apply Rmult_le_compat_r; lra. }
    set (g := (1 + u) ^ d) in *.
    assert (Ba : Rabs a <= g * Al). { replace a with (a - sl + sl) by ring. eapply Rle_trans; [apply Rabs_triang|]. lra. }
    assert (Bb : Rabs b <= g * Ar). { replace b with (b - sr + sr) by ring. eapply Rle_trans; [apply Rabs_triang|]. lra. }
    assert (Bs : Rabs (a + b) <= g * (Al + Ar)). { eapply Rle_trans; [apply Rabs_triang|]. lra. }
    replace (round_to p (a + b) - (sl + sr)) with ((round_to p (a + b) - (a + b)) + ((a - sl) + (b - sr))) by ring.
    eapply Rle_trans; [apply Rabs_triang|].
    assert (Q : Rabs (a - sl + (b - sr)) <= (g - 1) * Al + (g - 1) * Ar). { eapply Rle_trans; [apply Rabs_triang|]. lra. }
    assert (Q2 : u * Rabs (a + b) <= u * (g * (Al + Ar))) by (apply Rmult_le_compat_l; lra).
    replace (((1 + u) * g - 1) * (Al + Ar)) with (u * (g * (Al + Ar)) + ((g - 1) * Al + (g - 1) * Ar)) by ring. lra.
Qed.

Lemma sum_whole p t : (1 <= p)%nat -> (forall w, In w (leaves t) -> a_whole_number w) -> total (leaves t) <= 2 ^ p ->
  rounded_sum p t = total (leaves t) /\ a_whole_number (total (leaves t)).
Proof.
  intros Hp. induction t as [w|l IHl r IHr]; cbn [rounded_sum leaves]; intros HW HT.
  - cbn. rewrite Rplus_0_r. split; [reflexivity|apply HW; left; reflexivity].
  - rewrite total_app in *.
    assert (N : forall l0, (forall w, In w l0 -> a_whole_number w) -> 0 <= total l0).
    { induction l0 as [|x l0 IH]; cbn; intros H; [lra|]. destruct (H x (or_introl eq_refl)) as (n & ->). pose proof (pos_INR n).
      specialize (IH (fun w Hw => H w (or_intror Hw))). lra. }
    assert (Hl : forall w, In w (leaves l) -> a_whole_number w) by (intros w Hw; apply HW, in_or_app; left; exact Hw).
    assert (Hr : forall w, In w (leaves r) -> a_whole_number w) by (intros w Hw; apply HW, in_or_app; right; exact Hw).
    pose proof (N _ Hl). pose proof (N _ Hr).
    destruct (IHl Hl ltac:(lra)) as (-> & n & En). destruct (IHr Hr ltac:(lra)) as (-> & k & Ek). rewrite En, Ek in *.
    rewrite <- plus_INR in *. split; [|exists (n + k)%nat; reflexivity].
    rewrite INR_IZR_INZ in *. apply round_whole; [exact Hp|].
    assert (Z.of_nat (n + k) <= 2 ^ Z.of_nat p)%Z by (apply le_IZR; rewrite <- pow_IZR; exact HT). lia.
Qed.

(** ** Histograms *)
Definition comb (ws : list R) : tree := fold_left (fun t w => Node t (Leaf w)) ws (Leaf 0).
Lemma comb_facts ws : forall t, depth (fold_left (fun t w => Node t (Leaf w)) ws t) = (depth t + List.length ws)%nat /\
  leaves (fold_left (fun t w => Node t (Leaf w)) ws t) = (leaves t ++ ws)%list.
Proof.
  induction ws as [|w ws IH]; intros t; cbn [fold_left List.length].
  - rewrite app_nil_r. split; [lia|reflexivity].
  - destruct (IH (Node t (Leaf w))) as [A B]. rewrite A, B. cbn [depth leaves]. rewrite <- app_assoc. split; [lia|reflexivity].
Qed.
Lemma comb_depth ws : depth (comb ws) = List.length ws.
Proof. unfold comb. rewrite (proj1 (comb_facts ws (Leaf 0))). reflexivity. Qed.
Lemma comb_leaves ws : leaves (comb ws) = (0 :: ws)%list.
Proof. unfold comb. rewrite (proj2 (comb_facts ws (Leaf 0))). reflexivity. Qed.
Lemma fold_comb p ws : forall t, fold_left (rounded_add p) (map Fin ws) (Fin (rounded_sum p t)) =
  Fin (rounded_sum p (fold_left (fun t w => Node t (Leaf w)) ws t)).
Proof. induction ws as [|w ws IH]; intros t; [reflexivity|]. cbn [map fold_left]. rewrite <- IH. reflexivity. Qed.

Lemma rounded_at_add_length p i w h : List.length (rounded_at_add p i w h) = List.length h.
Proof. revert i. induction h as [|x h IH]; intros [|i]; cbn; auto. Qed.
Lemma rounded_at_add_nth p w h : forall i j, (i < List.length h)%nat ->
  nth i (rounded_at_add p j w h) NaN = if Nat.eqb j i then rounded_add p (nth i h NaN) w else nth i h NaN.
Proof.
  induction h as [|x h IH]; intros i j H; [cbn in H; lia|]. destruct j as [|j], i as [|i]; cbn [rounded_at_add nth Nat.eqb]; try reflexivity.
  apply IH. cbn in H. lia.
Qed.
Lemma rounded_scatter p (idx : fl * fl -> nat) events : forall h,
  List.length (fold_left (fun h e => rounded_at_add p (idx e) (snd e) h) events h) = List.length h /\
  forall i, (i < List.length h)%nat ->
    nth i (fold_left (fun h e => rounded_at_add p (idx e) (snd e) h) events h) NaN =
    fold_left (rounded_add p) (map snd (filter (fun e => Nat.eqb (idx e) i) events)) (nth i h NaN).
Proof.
  induction events as [|e events IH]; intros h; [split; reflexivity|]. cbn [fold_left filter].
  destruct (IH (rounded_at_add p (idx e) (snd e) h)) as [A B]. rewrite rounded_at_add_length in *. split; [exact A|].
  intros i Hi. rewrite B by exact Hi. rewrite rounded_at_add_nth by exact Hi. destruct (Nat.eqb (idx e) i); reflexivity.
Qed.
Lemma rounded_entry p bins events i : sorted bins -> (S i < List.length bins)%nat ->
  entry (rounded_hist_1d p bins events) i =
  fold_left (rounded_add p) (map snd (filter (fun e => in_bin (edge bins i) (edge bins (S i)) (fst e)) events)) (Fin 0).
Proof.
  intros Hs Hi. unfold entry, rounded_hist_1d.
  destruct (rounded_scatter p (fun e => searchsorted bins (fst e)) events (repeat (Fin 0) (List.length bins + 1)%nat)) as [A B].
  rewrite repeat_length in *. rewrite trim_nth by (rewrite A; lia). rewrite B by lia. rewrite nth_repeat_lt by lia.
  f_equal. f_equal. apply filter_ext. intros e. apply searchsorted_bin; assumption.
Qed.

(** ** Scaling by powers of two *)
Lemma round_shift p x k : 0 < x -> round_to p (x * powerRZ 2 k) = round_to p x * powerRZ 2 k.
Proof.
  intros H. pose proof (powerRZ2_pos k) as Pk. pose proof (Rmult_lt_0_compat _ _ H Pk) as P.
  unfold round_to. destruct (Rlt_dec 0 (x * powerRZ 2 k)) as [_|N]; [|lra]. destruct (Rlt_dec 0 x) as [_|N]; [|lra].
  destruct (exponent_bounds x H) as [B C].
  assert (E : exponent (x * powerRZ 2 k) = (exponent x + k)%Z).
  { apply exponent_unique. replace (exponent x + k + 1)%Z with (exponent x + 1 + k)%Z by lia. rewrite !powerRZ_add. rewrite powerRZ_add in C.
    split; [apply Rmult_le_compat_r; lra|apply Rmult_lt_compat_r; lra]. }
  unfold round_pos. rewrite E. replace (exponent x + k - Z.of_nat p + 1)%Z with (exponent x - Z.of_nat p + 1 + k)%Z by lia.
  set (e := (exponent x - Z.of_nat p + 1)%Z). pose proof (powerRZ2_pos e) as Pe. rewrite powerRZ_add.
  replace (x * powerRZ 2 k / (powerRZ 2 e * powerRZ 2 k)) with (x / powerRZ 2 e) by (field; lra). ring.
Qed.
