(** Lemmas for the autocorrelation of a chain (C98): the estimate of the time. *)
From Coq Require Import Reals Lra Lia.
From Verif Require Import Base BaseFacts ModelFloat ProofFloat ModelTwoHalf ModelParameter ModelContext
  ModelPlotter SpecPlotter ProofPlotter ProofPlotter2 ProofAccept ProofAutocorr.
Local Open Scope list_scope.
Local Open Scope R_scope.

(* ------------------------------------------------------------------ *)
(** * The autocovariance *)

Lemma autocov_sum x k : autocov x k = sum_to (List.length x - k) (fun j => dev x j * dev x (j + k)).
Proof. unfold autocov. rewrite sum_list. reflexivity. Qed.

Lemma centred_nth x j : (j < List.length x)%nat -> nth j (map (fun v => v - rmean x) x) 0 = dev x j.
Proof.
  intros H. apply nth_error_nth. rewrite nth_error_map, (nth_error_nth' _ 0) by exact H. reflexivity.
Qed.

Lemma padded_sum x k N : (List.length x <= N)%nat ->
  let y := map (fun v => v - rmean x) x in
  sum_to N (fun j => nth j y 0 * nth (j + k) y 0) = autocov x k.
Proof.
  intros HN y. rewrite autocov_sum. set (n := List.length x) in *.
  replace N with ((n - k) + (N - (n - k)))%nat by lia. rewrite sum_split.
  assert (Ly : List.length y = n) by (unfold y; apply map_length).
  rewrite (sum_zero (N - (n - k))).
  - rewrite Rplus_0_r. apply sum_ext. intros j Hj. unfold y. rewrite !centred_nth by (fold n; lia). reflexivity.
  - intros i _. rewrite (nth_overflow y) with (n := (n - k + i + k)%nat) by lia. ring.
Qed.

Lemma acf_value x k : (k < List.length x)%nat ->
  nth_error (autocorr_func x) k =
    Some (fdiv (Fin (autocov x k / INR (4 * next_pow_two (List.length x)))) (Fin (autocov x 0 / INR (4 * next_pow_two (List.length x))))).
Proof.
  intros Hk. unfold autocorr_func. set (n := List.length x) in *. destruct (next_pow_two_spec n) as (Hn & H1 & _).
  rewrite nth_error_map, nth_error_seq by exact Hk. cbn [option_map Nat.add].
  set (y := map (fun v => v - rmean x) x). assert (Ly : List.length y = n) by (unfold y; apply map_length).
  rewrite !(ifft_power _ n) by (try exact Ly; lia). unfold y. rewrite !padded_sum by (fold n; lia). reflexivity.
Qed.

Lemma acf_length x : List.length (autocorr_func x) = List.length x.
Proof. unfold autocorr_func. rewrite map_length, seq_length. reflexivity. Qed.

Lemma four_pow_pos n : INR (4 * next_pow_two n) <> 0.
Proof. destruct (next_pow_two_spec n) as (_ & H & _). apply not_0_INR. lia. Qed.

Lemma rsum_const c l : (forall v, In v l -> v = c) -> fold_right Rplus 0 l = INR (List.length l) * c.
Proof.
  induction l as [|x l IH]; intros H; cbn [fold_right List.length]; [cbn; lra|].
  rewrite IH by (intros v Hv; apply H; right; exact Hv). rewrite (H x) by (left; reflexivity). rewrite S_INR. lra.
Qed.

Lemma constant_dev x : ~ varies x -> forall j, (j < List.length x)%nat -> dev x j = 0.
Proof.
  intros Hv j Hj. assert (Hc : forall v, In v x -> v = nth j x 0).
  { intros v Hin. destruct (Req_dec v (nth j x 0)) as [E|E]; [exact E|]. exfalso. apply Hv. exists v, (nth j x 0).
    split; [exact Hin|]. split; [apply nth_In, Hj|exact E]. }
  unfold dev. rewrite (rsum_const _ _ Hc). field. apply not_0_INR. lia.
Qed.

Lemma sum_squares_zero n f : (forall i, (i < n)%nat -> 0 <= f i) -> sum_to n f <= 0 -> forall i, (i < n)%nat -> f i = 0.
Proof.
  induction n as [|n IH]; intros Hf Hs i Hi; [lia|]. cbn [sum_to] in Hs.
  assert (H0 : 0 <= sum_to n f).
  { replace 0 with (sum_to n (fun _ => 0)) by (apply sum_zero; reflexivity). apply sum_le. auto with arith. }
  pose proof (Hf n (Nat.lt_succ_diag_r n)). destruct (Nat.eq_dec i n) as [->|Hn]; [lra|]. apply IH; [auto with arith|lra|lia].
Qed.

Lemma varies_pos x : varies x -> 0 < autocov x 0.
Proof.
  intros (a & b & Ha & Hb & Hab). destruct (Rlt_le_dec 0 (autocov x 0)) as [H|H]; [exact H|]. exfalso. apply Hab.
  rewrite autocov_sum, Nat.sub_0_r in H.
  assert (Z : forall i, (i < List.length x)%nat -> dev x i = 0).
  { assert (P : forall i, (i < List.length x)%nat -> 0 <= dev x i * dev x (i + 0)) by (intros i _; rewrite Nat.add_0_r; apply Rle_0_sqr).
    intros i Hi. pose proof (sum_squares_zero _ _ P H i Hi) as E.
    cbn beta in E. rewrite Nat.add_0_r in E. apply Rsqr_0_uniq. exact E. }
  apply (In_nth _ _ 0) in Ha. destruct Ha as (i & Hi & <-). apply (In_nth _ _ 0) in Hb. destruct Hb as (j & Hj & <-).
  pose proof (Z i Hi). pose proof (Z j Hj). unfold dev in *. lra.
Qed.

Lemma acf_varies x k : varies x -> (k < List.length x)%nat -> nth_error (autocorr_func x) k = Some (Fin (autocorr x k)).
Proof.
  intros Hv Hk. rewrite acf_value by exact Hk. pose proof (four_pow_pos (List.length x)) as Hp. pose proof (varies_pos x Hv) as Hpos.
  rewrite fdiv_pos.
  - do 2 f_equal. unfold autocorr. field. split; lra.
  - intros E. apply (Rmult_eq_compat_r (INR (4 * next_pow_two (List.length x)))) in E.
    unfold Rdiv in E. rewrite Rmult_assoc, Rinv_l, Rmult_1_r, Rmult_0_l in E by exact Hp. lra.
Qed.

Lemma acf_constant x k : ~ varies x -> (k < List.length x)%nat -> nth_error (autocorr_func x) k = Some NaN.
Proof.
  intros Hv Hk. rewrite acf_value by exact Hk.
  assert (Z : forall q, autocov x q = 0).
  { intros q. rewrite autocov_sum. apply sum_zero. intros j Hj. rewrite (constant_dev x Hv j) by lia. ring. }
  rewrite !Z. unfold Rdiv. rewrite Rmult_0_l. unfold fdiv, finv. destruct (Req_EM_T 0 0); [|lra]. cbn [fmul]. unfold inf_times.
  destruct (total_order_T 0 0) as [[H|H]|H]; [lra|reflexivity|lra].
Qed.

Lemma autocorr_0 x : varies x -> autocorr x 0 = 1.
Proof. intros H. apply varies_pos in H. unfold autocorr. field. lra. Qed.

Lemma autocorr_bound x k : varies x -> -1 <= autocorr x k <= 1.
Proof.
  intros Hv. apply varies_pos in Hv.
  assert (B : forall s, s * s = 1 -> s * autocov x k <= autocov x 0).
  { intros s Hs. rewrite !autocov_sum. rewrite Nat.sub_0_r. set (n := List.length x). set (a := dev x).
    rewrite <- sum_scale.
    apply Rle_trans with (sum_to (n - k) (fun j => / 2 * (a j * a j) + / 2 * (a (j + k)%nat * a (j + k)%nat))).
    - apply sum_le. intros j _. pose proof (Rle_0_sqr (a j - s * a (j + k)%nat)) as H. unfold Rsqr in H.
      replace ((a j - s * a (j + k)%nat) * (a j - s * a (j + k)%nat))
        with (a j * a j - 2 * (s * (a j * a (j + k)%nat)) + (s * s) * (a (j + k)%nat * a (j + k)%nat)) in H by ring.
      rewrite Hs in H. lra.
    - rewrite sum_plus, !sum_scale.
      assert (Q : forall (c : nat -> R), (forall i, 0 <= c i) -> sum_to (n - k) c <= sum_to n c).
      { intros c Hc. replace n with ((n - k) + (n - (n - k)))%nat at 2 by lia. rewrite sum_split.
        assert (0 <= sum_to (n - (n - k)) (fun i => c (n - k + i)%nat)); [|lra].
        replace 0 with (sum_to (n - (n - k)) (fun _ => 0)) by (apply sum_zero; reflexivity). apply sum_le. auto. }
      assert (Q2 : forall (c : nat -> R), (forall i, 0 <= c i) -> sum_to (n - k) (fun j => c (j + k)%nat) <= sum_to n c).
      { intros c Hc. destruct (le_lt_dec k n) as [Hkn|Hkn].
        - rewrite (sum_ext _ _ (fun j => c (k + j)%nat)) by (intros; f_equal; lia).
          replace n with (k + (n - k))%nat at 2 by lia. rewrite sum_split.
          assert (0 <= sum_to k c); [|lra]. replace 0 with (sum_to k (fun _ => 0)) by (apply sum_zero; reflexivity). apply sum_le. auto.
        - replace (n - k)%nat with 0%nat by lia. cbn [sum_to].
          replace 0 with (sum_to n (fun _ => 0)) by (apply sum_zero; reflexivity). apply sum_le. auto. }
      pose proof (Q (fun j => a j * a j) (fun i => Rle_0_sqr (a i))). pose proof (Q2 (fun j => a j * a j) (fun i => Rle_0_sqr (a i))).
      cbn beta in *. rewrite (sum_ext n (fun j => a j * a (j + 0)%nat) (fun j => a j * a j)) by (intros; rewrite Nat.add_0_r; reflexivity).
      lra. }
  pose proof (B 1 ltac:(ring)). pose proof (B (-1) ltac:(ring)). unfold autocorr. split.
  - apply Rmult_le_reg_r with (autocov x 0); [exact Hv|]. unfold Rdiv. rewrite Rmult_assoc, Rinv_l by lra. lra.
  - apply Rmult_le_reg_r with (autocov x 0); [exact Hv|]. unfold Rdiv. rewrite Rmult_assoc, Rinv_l by lra. lra.
Qed.

(* ------------------------------------------------------------------ *)
(** * The sum over all lags *)

Lemma sum_reverse a : forall n, sum_to (S n) (fun k => a (n - k)%nat) = sum_to (S n) a.
Proof.
  induction n as [|n IH]; [reflexivity|]. rewrite sum_first. rewrite Nat.sub_0_r.
  rewrite (sum_ext _ _ (fun k => a (n - k)%nat)) by (intros; f_equal; lia). rewrite IH. cbn [sum_to]. lra.
Qed.

Lemma lag_sum a : forall n,
  sum_to n a * sum_to n a =
  2 * sum_to n (fun k => sum_to (n - k) (fun j => a j * a (j + k)%nat)) - sum_to n (fun j => a j * a j).
Proof.
  induction n as [|n IH]; [cbn [sum_to]; lra|].
  rewrite (sum_ext (S n) (fun k => sum_to (S n - k) (fun j => a j * a (j + k)%nat))
    (fun k => sum_to (n - k) (fun j => a j * a (j + k)%nat) + a n * a (n - k)%nat)).
  - rewrite sum_plus, sum_scale, sum_reverse. cbn [sum_to]. rewrite Nat.sub_diag. cbn [sum_to].
    set (U := sum_to n (fun k => sum_to (n - k) _)) in *. nra.
  - intros k Hk. replace (S n - k)%nat with (S (n - k)) by lia. cbn [sum_to].
    replace (n - k + k)%nat with n by lia. ring.
Qed.

Lemma dev_sum x : x <> [] -> sum_to (List.length x) (dev x) = 0.
Proof.
  intros Hx. unfold dev.
  rewrite (sum_ext _ _ (fun j => nth j x 0 + -1 * (fold_right Rplus 0 x / INR (List.length x)))) by (intros; ring).
  rewrite sum_plus, sum_const.
  assert (E : sum_to (List.length x) (fun j => nth j x 0) = fold_right Rplus 0 x).
  { rewrite sum_list. f_equal. symmetry. apply list_as_nth. }
  rewrite E. field. apply not_0_INR. destruct x; [congruence|discriminate].
Qed.

Lemma autocorr_total x : varies x -> 2 * sum_to (List.length x) (autocorr x) - 1 = 0.
Proof.
  intros Hv. assert (Hx : x <> []) by (intros ->; destruct Hv as (a & _ & [] & _)). apply varies_pos in Hv.
  pose proof (lag_sum (dev x) (List.length x)) as H. rewrite dev_sum in H by exact Hx.
  rewrite (sum_ext _ (fun k => sum_to (List.length x - k) _) (autocov x)) in H by (intros; rewrite autocov_sum; reflexivity).
  replace (sum_to (List.length x) (fun j => dev x j * dev x j)) with (autocov x 0) in H.
  2: { rewrite autocov_sum, Nat.sub_0_r. apply sum_ext. intros; rewrite Nat.add_0_r; reflexivity. }
  unfold autocorr. rewrite (sum_ext _ _ (fun k => / autocov x 0 * autocov x k)) by (intros; unfold Rdiv; ring).
  rewrite sum_scale. replace (sum_to (List.length x) (autocov x)) with (autocov x 0 / 2) by lra. field. lra.
Qed.

(* ------------------------------------------------------------------ *)
(** * The average over the walkers *)

Definition acf_at (x : list R) (k : nat) : fl := nth k (autocorr_func x) NaN.

Lemma acf_list x : autocorr_func x = map (acf_at x) (seq 0 (List.length x)).
Proof. unfold acf_at. rewrite <- acf_length. apply list_as_nth. Qed.

Lemma fold_zip n : forall y h, (forall x, In x y -> List.length x = n) ->
  fold_left (fun acc yy => zip_with fadd acc (autocorr_func yy)) y (map h (seq 0 n))
  = map (fun k => fold_left (fun a x => fadd a (acf_at x k)) y (h k)) (seq 0 n).
Proof.
  induction y as [|x y IH]; intros h Hy; cbn [fold_left]; [reflexivity|].
  rewrite acf_list, (Hy x) by (left; reflexivity). rewrite zip_map.
  rewrite (IH (fun k => fadd (h k) (acf_at x k))) by (intros z Hz; apply Hy; right; exact Hz). reflexivity.
Qed.

Lemma fold_fin k : forall y c, (forall x, In x y -> varies x /\ (k < List.length x)%nat) ->
  fold_left (fun a x => fadd a (acf_at x k)) y (Fin c) = Fin (c + fold_right Rplus 0 (map (fun x => autocorr x k) y)).
Proof.
  induction y as [|x y IH]; intros c Hy; cbn [fold_left map fold_right]; [f_equal; lra|].
  destruct (Hy x (or_introl eq_refl)) as [Hv Hk]. unfold acf_at at 2. rewrite (nth_error_nth _ _ _ (acf_varies x k Hv Hk)).
  rewrite fadd_Fin, IH by (intros z Hz; apply Hy; right; exact Hz). f_equal. lra.
Qed.

Lemma fadd_NaN_l a : fadd NaN a = NaN. Proof. reflexivity. Qed.
Lemma fadd_NaN_r a : fadd a NaN = NaN. Proof. destruct a; reflexivity. Qed.

Lemma fold_nan_start k : forall y, fold_left (fun a x => fadd a (acf_at x k)) y NaN = NaN.
Proof. induction y as [|x y IH]; [reflexivity|]. cbn [fold_left]. rewrite fadd_NaN_l. exact IH. Qed.

Lemma fold_nan k : forall y c x, In x y -> ~ varies x -> (k < List.length x)%nat ->
  fold_left (fun a x => fadd a (acf_at x k)) y c = NaN.
Proof.
  induction y as [|z y IH]; intros c x Hx Hv Hk; [destruct Hx|]. cbn [fold_left]. destruct Hx as [->|Hx].
  - unfold acf_at at 2. rewrite (nth_error_nth _ _ _ (acf_constant x k Hv Hk)), fadd_NaN_r. apply fold_nan_start.
  - apply (IH _ x); assumption.
Qed.

Lemma repeat_map {A} (a : A) n s : repeat a n = map (fun _ => a) (seq s n).
Proof. revert s. induction n as [|n IH]; intros s; cbn; [reflexivity|]. rewrite (IH (S s)). reflexivity. Qed.

Lemma cumsum_fin g : forall n s a,
  cumsum (Fin a) (map (fun k => Fin (g k)) (seq s n)) = map (fun k => Fin (a + sum_to (S (k - s)) (fun i => g (s + i)%nat))) (seq s n).
Proof.
  induction n as [|n IH]; intros s a; cbn [seq map cumsum]; [reflexivity|]. rewrite fadd_Fin, IH. f_equal.
  - rewrite Nat.sub_diag. cbn [sum_to]. rewrite Nat.add_0_r. f_equal. lra.
  - apply map_ext_in. intros k Hk. apply in_seq in Hk. f_equal.
    replace (S (k - s)) with (S (S (k - S s))) by lia. rewrite (sum_first (S (k - S s))). rewrite Nat.add_0_r.
    rewrite (sum_ext _ (fun i => g (s + S i)%nat) (fun i => g (S s + i)%nat)) by (intros; f_equal; lia). lra.
Qed.

Lemma cumsum_nan : forall n s (c : fl), cumsum NaN (map (fun _ => c) (seq s n)) = map (fun _ => NaN) (seq s n).
Proof. induction n as [|n IH]; intros s c; cbn [seq map cumsum]; [reflexivity|]. rewrite fadd_NaN_l, IH. reflexivity. Qed.

Lemma tau_sum y m : mean_autocorr y 0 = 1 -> tau y m = 2 * sum_to (S m) (mean_autocorr y) - 1.
Proof.
  intros H0. unfold tau. rewrite sum_first, H0. rewrite <- seq_shift, map_map.
  rewrite <- (sum_list m (fun i => mean_autocorr y (S i))). lra.
Qed.

Lemma mean_autocorr_0 y : y <> [] -> (forall x, In x y -> varies x) -> mean_autocorr y 0 = 1.
Proof.
  intros Hy Hv. unfold mean_autocorr. rewrite (map_ext_in _ (fun _ => 1)) by (intros x Hx; apply autocorr_0, Hv, Hx).
  rewrite (rsum_const 1) by (intros v Hin; apply in_map_iff in Hin; destruct Hin as (? & <- & _); reflexivity).
  rewrite map_length. field. apply not_0_INR. destruct y; [congruence|discriminate].
Qed.

Lemma fold_right_sum (y : list (list R)) n : forall f : list R -> nat -> R,
  sum_to n (fun k => fold_right Rplus 0 (map (fun x => f x k) y)) = fold_right Rplus 0 (map (fun x => sum_to n (f x)) y).
Proof.
  intros f. induction y as [|x y IH]; cbn [map fold_right]; [apply sum_zero; reflexivity|]. rewrite sum_plus, IH. reflexivity.
Qed.

(** With all lags the estimate is zero. *)
Lemma tau_last y n : y <> [] -> (0 < n)%nat -> (forall x, In x y -> varies x /\ List.length x = n) -> tau y (n - 1) = 0.
Proof.
  intros Hy Hn Hv. rewrite tau_sum by (apply mean_autocorr_0; [exact Hy|intros x Hx; apply Hv, Hx]).
  replace (S (n - 1)) with n by lia. unfold mean_autocorr.
  rewrite (sum_ext _ _ (fun k => / INR (List.length y) * fold_right Rplus 0 (map (fun x => autocorr x k) y))) by (intros; unfold Rdiv; ring).
  rewrite sum_scale, fold_right_sum. rewrite (map_ext_in _ (fun _ => / 2)).
  - rewrite (rsum_const (/ 2)) by (intros v Hin; apply in_map_iff in Hin; destruct Hin as (? & <- & _); reflexivity).
    rewrite map_length. field. apply not_0_INR. destruct y; [congruence|discriminate].
  - intros x Hx. destruct (Hv x Hx) as [Hvx Hl]. pose proof (autocorr_total x Hvx) as H. rewrite Hl in H. lra.
Qed.

(* ------------------------------------------------------------------ *)
(** * The window *)

Lemma first_false_some : forall m i, In false m -> exists M, first_false i m = Some (i + M)%nat /\
  nth_error m M = Some false /\ forall q, (q < M)%nat -> nth_error m q = Some true.
Proof.
  induction m as [|b m IH]; intros i H; [destruct H|]. cbn [first_false]. destruct b.
  - destruct H as [H|H]; [discriminate|]. destruct (IH (S i) H) as (M & E & N & Q). exists (S M).
    split; [rewrite E; f_equal; lia|]. split; [exact N|]. intros [|q] Hq; [reflexivity|]. cbn. apply Q. lia.
  - exists 0%nat. split; [rewrite Nat.add_0_r; reflexivity|]. split; [reflexivity|]. intros q Hq. lia.
Qed.

Lemma zip_self {A B C} (f : A -> B -> C) (h : A -> B) l : zip_with f l (map h l) = map (fun x => f x (h x)) l.
Proof. induction l as [|x l IH]; cbn; [reflexivity|]. rewrite IH. reflexivity. Qed.

Lemma autocorr_new_ok y n : y <> [] -> (2 <= n)%nat -> (forall x, In x y -> varies x /\ List.length x = n) ->
  exists M, autocorr_new n y = Ok (Fin (tau y M)) /\ (1 <= M <= n - 1)%nat /\ 5 * tau y M <= INR M /\
    forall i, (i < M)%nat -> INR i < 5 * tau y i.
Proof.
  intros Hy Hn Hv.
  assert (H0 : mean_autocorr y 0 = 1) by (apply mean_autocorr_0; [exact Hy|intros x Hx; apply Hv, Hx]).
  unfold autocorr_new. rewrite (repeat_map (Fin 0) n 0), (fold_zip n y) by (intros x Hx; apply Hv, Hx).
  assert (HL : INR (List.length y) <> 0) by (apply not_0_INR; destruct y; [congruence|discriminate]).
  assert (E : map (fun v => fdiv v (Fin (INR (List.length y))))
      (map (fun k => fold_left (fun a x => fadd a (acf_at x k)) y (Fin 0)) (seq 0 n))
    = map (fun k => Fin (mean_autocorr y k)) (seq 0 n)).
  { rewrite map_map. apply map_ext_in. intros k Hk. apply in_seq in Hk.
    rewrite fold_fin by (intros x Hx; destruct (Hv x Hx) as [H1 H2]; split; [exact H1|lia]).
    rewrite fdiv_pos by exact HL. f_equal. unfold mean_autocorr. rewrite Rplus_0_l. reflexivity. }
  rewrite E. unfold taus_of. rewrite cumsum_fin, map_map.
  assert (T : map (fun x => fsub (fmul (Fin 2) (Fin (0 + sum_to (S (x - 0)) (fun i => mean_autocorr y (0 + i))))) (Fin 1)) (seq 0 n)
    = map (fun k => Fin (tau y k)) (seq 0 n)).
  { apply map_ext. intros k. rewrite (tau_sum y k H0), Nat.sub_0_r. unfold fsub. cbn [fmul fneg fadd Nat.add]. f_equal.
    rewrite Rplus_0_l. reflexivity. }
  rewrite T. unfold auto_window. rewrite map_length, seq_length, zip_self. cbn [fmul].
  set (m := map (fun x => flt (Fin (INR x)) (Fin (5 * tau y x))) (seq 0 n)).
  assert (T0 : tau y 0 = 1) by (unfold tau; cbn [seq map fold_right]; lra).
  assert (M0 : nth_error m 0 = Some true).
  { unfold m. rewrite nth_error_map, nth_error_seq by lia. cbn [option_map Nat.add]. f_equal. apply flt_Fin. rewrite T0. cbn. lra. }
  assert (ML : nth_error m (n - 1) = Some false).
  { unfold m. rewrite nth_error_map, nth_error_seq by lia. cbn [option_map Nat.add]. f_equal.
    rewrite (tau_last y n Hy) by (try lia; exact Hv). cbn [flt]. destruct (Rlt_dec _ _) as [H|]; [|reflexivity].
    pose proof (pos_INR (n - 1)). lra. }
  replace (existsb (fun b => b) m) with true.
  2: { symmetry. apply existsb_exists. exists true. split; [apply (nth_error_In _ 0), M0|reflexivity]. }
  destruct (first_false_some m 0 (nth_error_In _ _ ML)) as (M & EM & NM & QM). rewrite EM. cbn [Nat.add].
  assert (HM : (M < n)%nat).
  { replace n with (List.length m) by (unfold m; rewrite map_length, seq_length; reflexivity). apply nth_error_Some. congruence. }
  assert (HM1 : (1 <= M)%nat) by (destruct M; [congruence|lia]).
  exists M. rewrite nth_error_map, nth_error_seq by exact HM. cbn [option_map Nat.add]. split; [reflexivity|]. split; [lia|]. split.
  - unfold m in NM. rewrite nth_error_map, nth_error_seq in NM by exact HM. cbn [option_map Nat.add flt] in NM.
    destruct (Rlt_dec (INR M) (5 * tau y M)) as [H|H]; [discriminate NM|lra].
  - intros i Hi. specialize (QM i Hi). unfold m in QM. rewrite nth_error_map, nth_error_seq in QM by lia. cbn [option_map Nat.add] in QM.
    injection QM as QM. apply flt_Fin. exact QM.
Qed.

Lemma autocorr_new_nan y n x : (1 <= n)%nat -> (forall x, In x y -> List.length x = n) -> In x y -> ~ varies x ->
  autocorr_new n y = Ok NaN.
Proof.
  intros Hn Hl Hx Hv. unfold autocorr_new. rewrite (repeat_map (Fin 0) n 0), (fold_zip n y) by exact Hl.
  assert (E : map (fun v => fdiv v (Fin (INR (List.length y))))
      (map (fun k => fold_left (fun a x => fadd a (acf_at x k)) y (Fin 0)) (seq 0 n)) = map (fun _ => NaN) (seq 0 n)).
  { rewrite map_map. apply map_ext_in. intros k Hk. apply in_seq in Hk. rewrite (fold_nan k y _ x Hx Hv) by (rewrite (Hl x Hx); lia). reflexivity. }
  rewrite E. unfold taus_of. destruct n as [|n]; [lia|].
  assert (C : cumsum (Fin 0) (map (fun _ => NaN) (seq 0 (S n))) = map (fun _ => NaN) (seq 0 (S n))).
  { cbn [seq map cumsum]. rewrite fadd_NaN_r, cumsum_nan. reflexivity. }
  rewrite C, map_map. replace (map (fun x0 : nat => fsub (fmul (Fin 2) NaN) (Fin 1)) (seq 0 (S n))) with (map (fun _ : nat => NaN) (seq 0 (S n))) by reflexivity.
  unfold auto_window. rewrite map_length, seq_length, zip_self.
  replace (existsb (fun b => b) _) with false.
  - rewrite nth_error_map, nth_error_seq by lia. reflexivity.
  - symmetry. generalize (seq 0 (S n)). intros l. induction l as [|k l IH]; [reflexivity|]. cbn. exact IH.
Qed.
