(** Lemmas for the widths of a two-half-normal distribution (C99): the roots. *)
From Coq Require Import Reals Lra Lia.
From Verif Require Import Base ModelSigmas SpecSigmas.
Local Open Scope R_scope.

(* ------------------------------------------------------------------ *)
(** * The error function *)

Lemma pi_half_pos : 0 < 2 / sqrt PI.
Proof. apply Rmult_lt_0_compat; [lra|]. apply Rinv_0_lt_compat, sqrt_lt_R0, PI_RGT_0. Qed.

Lemma sqrt2_pos : 0 < sqrt 2.
Proof. apply sqrt_lt_R0. lra. Qed.

Section Erf.
  Variable erf : R -> R.
  Hypothesis He : is_erf erf.

  Lemma erf_increasing x y : x < y -> erf x < erf y.
  Proof.
    intros H. destruct He as (D & _ & _).
    destruct (MVT_cor2 erf (fun c => 2 / sqrt PI * exp (- (c * c))) x y H) as (c & E & _); [intros; apply D|].
    assert (0 < 2 / sqrt PI * exp (- (c * c))) by (apply Rmult_lt_0_compat; [apply pi_half_pos|apply exp_pos]).
    assert (0 < erf y - erf x); [|lra]. rewrite E. apply Rmult_lt_0_compat; lra.
  Qed.

  Lemma erf_inj x y : erf x = erf y -> x = y.
  Proof. intros H. destruct (Rtotal_order x y) as [K|[K|K]]; [apply erf_increasing in K; lra|exact K|apply erf_increasing in K; lra]. Qed.

  Lemma erf_lt x y : erf x < erf y -> x < y.
  Proof. intros H. destruct (Rtotal_order x y) as [K|[->|K]]; [exact K|lra|apply erf_increasing in K; lra]. Qed.

  Lemma erf_0 : erf 0 = 0. Proof. apply He. Qed.

  Lemma erf_below_1 x : erf x < 1.
  Proof.
    destruct (Rlt_le_dec (erf x) 1) as [H|H]; [exact H|exfalso].
    assert (K : erf x < erf (x + 1)) by (apply erf_increasing; lra).
    destruct He as (_ & _ & L). destruct (L (erf (x + 1) - 1)) as (M & HM); [lra|].
    specialize (HM (Rmax M (x + 1) + 1)). assert (A := Rmax_l M (x + 1)). assert (B := Rmax_r M (x + 1)). specialize (HM ltac:(lra)).
    assert (C : erf (x + 1) < erf (Rmax M (x + 1) + 1)) by (apply erf_increasing; lra).
    rewrite Rabs_right in HM by lra. lra.
  Qed.

  Lemma erf_continuous : continuity erf.
  Proof.
    intros x. apply derivable_continuous_pt. exists (2 / sqrt PI * exp (- (x * x))). apply He.
  Qed.

  Lemma erf_odd x : erf (- x) = - erf x.
  Proof.
    assert (D : forall y, derivable_pt_lim (fun y => erf (- y) + erf y) y 0).
    { intros y. replace 0 with (2 / sqrt PI * exp (- (- y * - y)) * -1 + 2 / sqrt PI * exp (- (y * y))).
      - apply derivable_pt_lim_plus; [|apply He].
        apply (derivable_pt_lim_comp (fun y => - y) erf y (-1) (2 / sqrt PI * exp (- (- y * - y)))); [|apply He].
        replace (-1) with (- (1)) by lra. apply (derivable_pt_lim_opp id). apply derivable_pt_lim_id.
      - replace (- (- y * - y)) with (- (y * y)) by lra. lra. }
    assert (K : forall a b, a < b -> erf (- a) + erf a = erf (- b) + erf b).
    { intros a b H. destruct (MVT_cor2 (fun y => erf (- y) + erf y) (fun _ => 0) a b H) as (c & E & _); [intros; apply D|].
      cbn beta in E. lra. }
    assert (Z : erf (- 0) + erf 0 = 0) by (rewrite Ropp_0, erf_0; lra).
    destruct (Rtotal_order x 0) as [H|[->|H]].
    - pose proof (K x 0 H). lra.
    - lra.
    - pose proof (K 0 x H). lra.
  Qed.

  Lemma erf_above_m1 x : -1 < erf x.
  Proof. pose proof (erf_below_1 (- x)). rewrite erf_odd in H. lra. Qed.

  (** What is left above [u] standard deviations, on both sides. *)
  Definition tail (u : R) : R := 1 - erf (u / sqrt 2).

  Lemma tail_decreasing u v : u < v -> tail v < tail u.
  Proof.
    intros H. unfold tail. assert (erf (u / sqrt 2) < erf (v / sqrt 2)); [|lra]. apply erf_increasing.
    apply Rmult_lt_compat_r; [apply Rinv_0_lt_compat, sqrt2_pos|exact H].
  Qed.
  Lemma tail_lt u v : tail v < tail u -> u < v.
  Proof. intros H. destruct (Rtotal_order u v) as [K|[->|K]]; [exact K|lra|apply tail_decreasing in K; lra]. Qed.
  Lemma tail_inj u v : tail u = tail v -> u = v.
  Proof. intros H. destruct (Rtotal_order u v) as [K|[K|K]]; [apply tail_decreasing in K; lra|exact K|apply tail_decreasing in K; lra]. Qed.
  Lemma tail_0 : tail 0 = 1.
  Proof. unfold tail. replace (0 / sqrt 2) with 0 by (unfold Rdiv; lra). rewrite erf_0. lra. Qed.
  Lemma tail_pos u : 0 < tail u.
  Proof. unfold tail. pose proof (erf_below_1 (u / sqrt 2)). lra. Qed.
  Lemma tail_below u : 0 < u -> tail u < 1.
  Proof. intros H. rewrite <- tail_0. apply tail_decreasing, H. Qed.
  Lemma tail_neg u : u < 0 -> 1 < tail u.
  Proof. intros H. rewrite <- tail_0. apply tail_decreasing, H. Qed.
  Lemma tail_opp u : tail (- u) = 2 - tail u.
  Proof. unfold tail. replace (- u / sqrt 2) with (- (u / sqrt 2)) by (unfold Rdiv; lra). rewrite erf_odd. lra. Qed.
  Lemma tail_continuous : continuity tail.
  Proof.
    intros x. unfold tail. apply continuity_pt_minus; [apply continuity_pt_const; intros a b; reflexivity|].
    apply (continuity_pt_comp (fun u => u / sqrt 2) erf); [|apply erf_continuous].
    apply continuity_pt_mult; [apply derivable_continuous_pt, derivable_pt_id|apply continuity_pt_const; intros a b; reflexivity].
  Qed.
  Lemma tail_small eps : 0 < eps -> exists M, forall u, M < u -> tail u < eps.
  Proof.
    intros H. destruct He as (_ & _ & L). destruct (L eps H) as (M & HM). exists (M * sqrt 2). intros u Hu.
    specialize (HM (u / sqrt 2)). unfold tail. pose proof (erf_below_1 (u / sqrt 2)). rewrite Rabs_left in HM by lra.
    assert (M < u / sqrt 2); [|lra]. apply Rmult_lt_reg_r with (sqrt 2); [apply sqrt2_pos|]. unfold Rdiv.
    rewrite Rmult_assoc, Rinv_l by (pose proof sqrt2_pos; lra). lra.
  Qed.

  (** Half of the tail beyond one standard deviation. *)
  Definition q : R := tail_prob erf / 2.
  Lemma q_tail : 2 * q = tail 1.
  Proof. unfold q, tail_prob, tail. lra. Qed.
  Lemma q_bounds : 0 < q < 1 / 2.
  Proof. pose proof q_tail. pose proof (tail_pos 1). pose proof (tail_below 1 ltac:(lra)). lra. Qed.

  (* ---------------------------------------------------------------- *)
  (** * Roots are positive and unique *)

  Lemma root_eqs e x : is_root (to_solve erf e (tail_prob erf)) x ->
    let s := fst x + snd x in
    fst x <> 0 /\ snd x <> 0 /\ s <> 0 /\ fst x * tail (fst e / fst x) = q * s /\ snd x * tail (snd e / snd x) = q * s.
  Proof.
    intros (Ha & Hb & Hs & E). cbv zeta. split; [exact Ha|]. split; [exact Hb|]. split; [exact Hs|].
    unfold to_solve in E. injection E as E1 E2. fold (tail (fst e / fst x)) in E1. fold (tail (snd e / snd x)) in E2. fold q in E1, E2.
    split; [replace q with (fst x / (fst x + snd x) * tail (fst e / fst x)) by lra
           |replace q with (snd x / (fst x + snd x) * tail (snd e / snd x)) by lra]; field; exact Hs.
  Qed.

  Lemma eqs_root e a b : a <> 0 -> b <> 0 -> a + b <> 0 -> a * tail (fst e / a) = q * (a + b) -> b * tail (snd e / b) = q * (a + b) ->
    is_root (to_solve erf e (tail_prob erf)) (a, b).
  Proof.
    intros Ha Hb Hs E1 E2. unfold is_root, to_solve. cbn [fst snd]. split; [exact Ha|]. split; [exact Hb|]. split; [exact Hs|].
    fold (tail (fst e / a)) (tail (snd e / b)). fold q.
    replace (a / (a + b) * tail (fst e / a)) with q by (apply Rmult_eq_reg_r with (a + b); [rewrite <- E1; field; exact Hs|exact Hs]).
    replace (b / (a + b) * tail (snd e / b)) with q by (apply Rmult_eq_reg_r with (a + b); [rewrite <- E2; field; exact Hs|exact Hs]).
    f_equal; lra.
  Qed.

  Lemma roots_positive e x : 0 <= fst e -> 0 <= snd e -> is_root (to_solve erf e (tail_prob erf)) x -> 0 < fst x /\ 0 < snd x.
  Proof.
    intros He0 He1 H. apply root_eqs in H. cbv zeta in H. destruct H as (Ha & Hb & Hs & E1 & E2).
    set (a := fst x) in *. set (b := snd x) in *. pose proof q_bounds as Q. pose proof (tail_pos (fst e / a)) as P1. pose proof (tail_pos (snd e / b)) as P2.
    (* the sign of every part is the sign of the sum *)
    destruct (Rdichotomy _ _ Hs) as [Hn|Hp].
    - exfalso. assert (a < 0) by nra. assert (b < 0) by nra.
      assert (G : forall e' x', 0 <= e' -> x' < 0 -> 1 <= tail (e' / x')).
      { intros e' x' K1 K2. destruct K1 as [K1| <-].
        - left. apply tail_neg. unfold Rdiv. assert (/ x' < 0) by (apply Rinv_lt_0_compat, K2). nra.
        - unfold Rdiv. rewrite Rmult_0_l, tail_0. lra. }
      pose proof (G (fst e) a He0 H). pose proof (G (snd e) b He1 H0). nra.
    - split; [assert (0 < a * tail (fst e / a)) by (rewrite E1; nra)|assert (0 < b * tail (snd e / b)) by (rewrite E2; nra)]; nra.
  Qed.

  Lemma roots_unique e x y : 0 < fst e -> 0 < snd e -> is_root (to_solve erf e (tail_prob erf)) x ->
    is_root (to_solve erf e (tail_prob erf)) y -> x = y.
  Proof.
    intros He0 He1 Hx Hy.
    destruct (roots_positive e x ltac:(lra) ltac:(lra) Hx) as [Xa Xb]. destruct (roots_positive e y ltac:(lra) ltac:(lra) Hy) as [Ya Yb].
    apply root_eqs in Hx. apply root_eqs in Hy. cbv zeta in *.
    destruct Hx as (_ & _ & _ & X1 & X2). destruct Hy as (_ & _ & _ & Y1 & Y2).
    destruct x as [a b], y as [c d], e as [e0 e1]. cbn [fst snd] in *. pose proof q_bounds as Q.
    assert (E1 : tail (e0 / a) = q + q * (b / a)) by (apply Rmult_eq_reg_l with a; [rewrite X1; field; lra|lra]).
    assert (E2 : tail (e1 / b) = q + q * (a / b)) by (apply Rmult_eq_reg_l with b; [rewrite X2; field; lra|lra]).
    assert (E3 : tail (e0 / c) = q + q * (d / c)) by (apply Rmult_eq_reg_l with c; [rewrite Y1; field; lra|lra]).
    assert (E4 : tail (e1 / d) = q + q * (c / d)) by (apply Rmult_eq_reg_l with d; [rewrite Y2; field; lra|lra]).
    assert (div_lt : forall u v e', 0 < u -> 0 < v -> 0 < e' -> e' / u < e' / v -> v < u).
    { intros u v e' Hu Hv He' H. unfold Rdiv in H. apply Rmult_lt_reg_l in H; [|exact He'].
      destruct (Rlt_le_dec v u) as [K|K]; [exact K|exfalso]. assert (/ v <= / u) by (apply Rinv_le_contravar; assumption). lra. }
    assert (ratio : forall p r s t, 0 < r -> 0 < t -> p / r < s / t <-> p * t < s * r).
    { intros p r s t Hr Ht. split; intros H.
      - apply Rmult_lt_compat_r with (r := r * t) in H; [|nra]. replace (p / r * (r * t)) with (p * t) in H by (field; lra).
        replace (s / t * (r * t)) with (s * r) in H by (field; lra). exact H.
      - apply Rmult_lt_reg_r with (r * t); [nra|]. replace (p / r * (r * t)) with (p * t) by (field; lra).
        replace (s / t * (r * t)) with (s * r) by (field; lra). exact H. }
    assert (main : forall a b c d, 0 < a -> 0 < b -> 0 < c -> 0 < d -> tail (e0 / a) = q + q * (b / a) -> tail (e1 / b) = q + q * (a / b) ->
      tail (e0 / c) = q + q * (d / c) -> tail (e1 / d) = q + q * (c / d) -> ~ b * c < d * a).
    { clear - He erf He0 He1 Q div_lt ratio. intros a b c d Ha Hb Hc Hd E1 E2 E3 E4 H.
      assert (T1 : tail (e0 / a) < tail (e0 / c)) by (rewrite E1, E3; assert (b / a < d / c) by (apply ratio; assumption); nra).
      assert (T2 : tail (e1 / d) < tail (e1 / b)) by (rewrite E2, E4; assert (c / d < a / b) by (apply ratio; lra); nra).
      apply tail_lt in T1. apply tail_lt in T2. apply div_lt in T1; try assumption. apply div_lt in T2; try assumption. nra. }
    assert (K : b * c = d * a).
    { destruct (Rtotal_order (b * c) (d * a)) as [K|[K|K]]; [exfalso; exact (main a b c d Xa Xb Ya Yb E1 E2 E3 E4 K)|exact K|].
      exfalso. apply (main c d a b Ya Yb Xa Xb E3 E4 E1 E2). lra. }
    assert (Er : b / a = d / c) by (apply Rmult_eq_reg_r with (a * c); [replace (b / a * (a * c)) with (b * c) by (field; lra); replace (d / c * (a * c)) with (d * a) by (field; lra); exact K|nra]).
    rewrite Er, <- E3 in E1. apply tail_inj in E1.
    assert (a = c).
    { unfold Rdiv in E1. apply Rmult_eq_reg_l in E1; [|lra]. rewrite <- (Rinv_inv a), E1, Rinv_inv. reflexivity. }
    subst c. f_equal. nra.
  Qed.

  Lemma no_root_zero x : ~ is_root (to_solve erf (0, 0) (tail_prob erf)) x.
  Proof.
    intros H. destruct (roots_positive (0, 0) x) as [Ha Hb]; [cbn; lra|cbn; lra|exact H|].
    apply root_eqs in H. cbv zeta in H. destruct H as (_ & _ & _ & E1 & E2). cbn [fst snd] in E1, E2. pose proof q_bounds.
    unfold Rdiv in E1, E2. rewrite Rmult_0_l, tail_0 in E1. rewrite Rmult_0_l, tail_0 in E2. nra.
  Qed.

  (* ---------------------------------------------------------------- *)
  (** * A root exists *)

  Definition w (u : R) : R := u / tail u.

  Lemma w_continuous : continuity w.
  Proof.
    intros x. unfold w. apply continuity_pt_div; [apply derivable_continuous_pt, derivable_pt_id|apply tail_continuous|].
    pose proof (tail_pos x). lra.
  Qed.

  Lemma w_increasing u v : 0 <= u -> u < v -> w u < w v.
  Proof.
    intros Hu Huv. unfold w. pose proof (tail_pos u). pose proof (tail_pos v). pose proof (tail_decreasing u v Huv).
    apply Rmult_lt_reg_r with (tail u * tail v); [nra|].
    replace (u / tail u * (tail u * tail v)) with (u * tail v) by (field; lra).
    replace (v / tail v * (tail u * tail v)) with (v * tail u) by (field; lra). nra.
  Qed.

  Lemma w_0 : w 0 = 0. Proof. unfold w, Rdiv. lra. Qed.

  Lemma w_above u : 0 <= u -> u <= w u.
  Proof.
    intros Hu. unfold w. pose proof (tail_pos u).
    assert (T : tail u <= 1) by (destruct Hu as [Hu| <-]; [left; apply tail_below, Hu|rewrite tail_0; lra]).
    apply Rmult_le_reg_r with (tail u); [assumption|]. replace (u / tail u * tail u) with u by (field; lra). nra.
  Qed.

  Lemma w_inverse y : 0 <= y -> { u | 0 <= u /\ w u = y }.
  Proof.
    intros Hy. destruct (Req_EM_T y 0) as [->|Hn]; [exists 0; split; [lra|apply w_0]|].
    destruct (IVT (fun u => w u - y) 0 (y + 1)) as (u & Hu & E).
    - intros x. apply continuity_pt_minus; [apply w_continuous|apply continuity_pt_const; intros a b; reflexivity].
    - lra.
    - rewrite w_0. lra.
    - pose proof (w_above (y + 1) ltac:(lra)). lra.
    - exists u. split; [lra|]. lra.
  Qed.

  (** The inverse, constant below 0. *)
  Definition winv (y : R) : R := match Rle_lt_dec 0 y with left H => proj1_sig (w_inverse y H) | right _ => 0 end.

  Lemma winv_spec y : 0 <= y -> 0 <= winv y /\ w (winv y) = y.
  Proof.
    intros Hy. unfold winv. destruct (Rle_lt_dec 0 y) as [H|H]; [|lra]. destruct (w_inverse y H) as (u & Hu). cbn. exact Hu.
  Qed.
  Lemma winv_neg y : y <= 0 -> winv y = 0.
  Proof.
    intros Hy. unfold winv. destruct (Rle_lt_dec 0 y) as [H|H]; [|reflexivity]. destruct (w_inverse y H) as (u & Hu & E). cbn.
    destruct Hu as [Hu|Hu]; [|lra]. pose proof (w_increasing 0 u ltac:(lra) Hu). rewrite w_0 in *. lra.
  Qed.
  Lemma winv_nonneg y : 0 <= winv y.
  Proof. destruct (Rle_lt_dec 0 y) as [H|H]; [apply winv_spec, H|rewrite winv_neg by lra; lra]. Qed.
  Lemma winv_lt y u : 0 <= u -> y < w u -> winv y < u \/ u = 0 /\ winv y = 0.
  Proof.
    intros Hu H. destruct (Rle_lt_dec y 0) as [Hy|Hy].
    - rewrite winv_neg by exact Hy. destruct Hu as [Hu|Hu]; [left; exact Hu|right; lra].
    - destruct (winv_spec y ltac:(lra)) as [A B]. left. destruct (Rlt_le_dec (winv y) u) as [K|K]; [exact K|exfalso].
      destruct K as [K|K]; [pose proof (w_increasing u (winv y) Hu K); lra|rewrite K in *; lra].
  Qed.
  Lemma winv_gt y u : 0 <= u -> w u < y -> u < winv y.
  Proof.
    intros Hu H. assert (0 <= w u) by (pose proof (w_above u Hu); lra). destruct (winv_spec y ltac:(lra)) as [A B].
    destruct (Rlt_le_dec u (winv y)) as [K|K]; [exact K|exfalso].
    destruct K as [K|K]; [pose proof (w_increasing (winv y) u A K); lra|rewrite K in *; lra].
  Qed.

  Lemma winv_continuous : continuity winv.
  Proof.
    intros y eps Heps. set (u := winv y). assert (Hu : 0 <= u) by apply winv_nonneg.
    assert (Yu : y <= w u).
    { destruct (Rle_lt_dec y 0) as [K|K]; [pose proof (w_above u Hu); lra|]. destruct (winv_spec y ltac:(lra)) as [_ B]. unfold u. lra. }
    assert (U1 : y < w (u + eps / 2)) by (pose proof (w_increasing u (u + eps / 2) Hu ltac:(lra)); lra).
    assert (D : exists del, 0 < del /\ forall z, Rabs (z - y) < del -> winv z < u + eps /\ u - eps < winv z).
    { destruct (Rlt_le_dec u eps) as [Ks|Ks].
      - exists (w (u + eps / 2) - y). split; [lra|]. intros z Hz. apply Rabs_def2 in Hz. split.
        + destruct (winv_lt z (u + eps / 2)) as [K|K]; lra.
        + pose proof (winv_nonneg z). lra.
      - assert (Hy : 0 < y).
        { destruct (Rle_lt_dec y 0) as [K|K]; [|exact K]. apply winv_neg in K. unfold u in Ks. lra. }
        destruct (winv_spec y ltac:(lra)) as [_ B]. fold u in B.
        pose proof (w_increasing (u - eps / 2) u ltac:(lra) ltac:(lra)) as L.
        exists (Rmin (w (u + eps / 2) - y) (y - w (u - eps / 2))). split; [apply Rmin_pos; lra|]. intros z Hz.
        assert (M1 := Rmin_l (w (u + eps / 2) - y) (y - w (u - eps / 2))). assert (M2 := Rmin_r (w (u + eps / 2) - y) (y - w (u - eps / 2))).
        apply Rabs_def2 in Hz. split.
        + destruct (winv_lt z (u + eps / 2)) as [K|K]; lra.
        + pose proof (winv_gt z (u - eps / 2)). lra. }
    destruct D as (del & Hd & D). exists del. split; [exact Hd|]. intros z [_ Hz]. cbn in Hz |- *. unfold R_dist in *. fold u.
    destruct (D z Hz). apply Rabs_def1; lra.
  Qed.

  Lemma root_exists e : 0 < fst e -> 0 < snd e -> exists x, is_root (to_solve erf e (tail_prob erf)) x.
  Proof.
    destruct e as [e0 e1]. cbn [fst snd]. intros H0 H1. pose proof q_bounds as Q.
    set (k := fun t => q / tail (winv (e0 * t)) + q / tail (winv (e1 * t)) - 1).
    assert (Ck : continuity k).
    { assert (C1 : forall c, continuity (fun t => q / tail (winv (c * t)))).
      { intros c t. apply continuity_pt_div.
        - apply continuity_pt_const. intros a b. reflexivity.
        - apply (continuity_pt_comp (fun t => winv (c * t)) tail); [|apply tail_continuous].
          apply (continuity_pt_comp (fun t => c * t) winv); [|apply winv_continuous].
          apply continuity_pt_mult; [apply continuity_pt_const; intros a b; reflexivity|apply derivable_continuous_pt, derivable_pt_id].
        - pose proof (tail_pos (winv (c * t))). lra. }
      intros t. unfold k. apply continuity_pt_minus; [|apply continuity_pt_const; intros a b; reflexivity].
      apply continuity_pt_plus; apply C1. }
    assert (K0 : k 0 < 0).
    { unfold k. rewrite !Rmult_0_r, winv_neg, tail_0 by lra. unfold Rdiv. rewrite Rinv_1. lra. }
    destruct (tail_small q) as (M & HM); [lra|].
    set (u1 := Rmax M 0 + 1). assert (Hu1 : 0 < u1 /\ M < u1) by (unfold u1; pose proof (Rmax_l M 0); pose proof (Rmax_r M 0); lra).
    set (T := (w u1 + 1) / e0).
    assert (Hw : 0 < w u1) by (pose proof (w_above u1 ltac:(lra)); lra).
    assert (HT : 0 < T) by (unfold T; apply Rmult_lt_0_compat; [lra|apply Rinv_0_lt_compat, H0]).
    assert (KT : 0 < k T).
    { unfold k. replace (e0 * T) with (w u1 + 1) by (unfold T; field; lra).
      assert (A : u1 < winv (w u1 + 1)) by (apply winv_gt; lra).
      assert (B : tail (winv (w u1 + 1)) < q) by (apply HM; lra). pose proof (tail_pos (winv (w u1 + 1))) as P.
      assert (1 < q / tail (winv (w u1 + 1))).
      { apply Rmult_lt_reg_r with (tail (winv (w u1 + 1))); [exact P|]. unfold Rdiv. rewrite Rmult_assoc, Rinv_l by lra. lra. }
      assert (0 < q / tail (winv (e1 * T))) by (apply Rmult_lt_0_compat; [lra|apply Rinv_0_lt_compat, tail_pos]). lra. }
    destruct (IVT k 0 T Ck HT K0 KT) as (t & Ht & Et).
    assert (Htp : 0 < t) by (destruct Ht as [[Ht|Ht] _]; [exact Ht|subst t; lra]).
    destruct (winv_spec (e0 * t)) as [U1 U2]; [nra|]. destruct (winv_spec (e1 * t)) as [V1 V2]; [nra|].
    set (u := winv (e0 * t)) in *. set (v := winv (e1 * t)) in *.
    assert (Hu : 0 < u) by (destruct U1 as [U1|U1]; [exact U1|rewrite <- U1, w_0 in U2; nra]).
    assert (Hv : 0 < v) by (destruct V1 as [V1|V1]; [exact V1|rewrite <- V1, w_0 in V2; nra]).
    pose proof (tail_pos u) as Pu. pose proof (tail_pos v) as Pv. unfold w in U2, V2.
    assert (Ek : q / tail u + q / tail v = 1) by (unfold k in Et; fold u v in Et; lra).
    assert (Eu : u = e0 * t * tail u) by (rewrite <- U2; field; lra).
    assert (Ev : v = e1 * t * tail v) by (rewrite <- V2; field; lra).
    assert (Ek2 : q * tail v + q * tail u = tail u * tail v).
    { apply Rmult_eq_reg_r with (/ (tail u * tail v)); [|apply Rinv_neq_0_compat; nra].
      transitivity (q / tail u + q / tail v); [field; split; lra|]. rewrite Ek. field. split; lra. }
    exists (e0 / u, e1 / v). assert (A : 0 < e0 / u) by (apply Rmult_lt_0_compat; [lra|apply Rinv_0_lt_compat, Hu]).
    assert (B : 0 < e1 / v) by (apply Rmult_lt_0_compat; [lra|apply Rinv_0_lt_compat, Hv]).
    apply eqs_root; cbn [fst snd]; try lra.
    - replace (e0 / (e0 / u)) with u by (field; lra). rewrite Eu at 1 3. rewrite Ev.
      replace (e0 / (e0 * t * tail u) * tail u) with (/ t) by (field; repeat split; lra).
      replace (q * (e0 / (e0 * t * tail u) + e1 / (e1 * t * tail v))) with (/ t * (q * tail v + q * tail u) / (tail u * tail v)) by (field; repeat split; lra).
      rewrite Ek2. field. repeat split; lra.
    - replace (e1 / (e1 / v)) with v by (field; lra). rewrite Ev at 1 3. rewrite Eu.
      replace (e1 / (e1 * t * tail v) * tail v) with (/ t) by (field; repeat split; lra).
      replace (q * (e0 / (e0 * t * tail u) + e1 / (e1 * t * tail v))) with (/ t * (q * tail v + q * tail u) / (tail u * tail v)) by (field; repeat split; lra).
      rewrite Ek2. field. repeat split; lra.
  Qed.
End Erf.
