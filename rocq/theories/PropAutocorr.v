(** C98: the autocorrelation times of a chain. *)
From Coq Require Import Reals Lra Lia.
From Verif Require Import Base BaseFacts ModelFloat ProofFloat ModelTwoHalf ModelParameter ModelContext
  ModelPlotter SpecPlotter ProofPlotter ProofPlotter2 ProofPlotter3 ProofAccept ProofAutocorr ProofAutocorr2
  ProofAutocorr3 PropPlotter PropAccept.
Local Open Scope string_scope.
Local Open Scope list_scope.

(** The function computed with two Fourier transforms is the autocorrelation of the series: padding with zeros
    removes the wrap-around. It starts at 1 and never leaves [-1, 1]. *)
Theorem C98_autocorrelation x : varies x ->
  List.length (autocorr_func x) = List.length x /\
  forall k, k < List.length x -> exists r, nth_error (autocorr_func x) k = Some (Fin r) /\
    r = autocorr x k /\ (-1 <= r <= 1)%R /\ (k = 0 -> r = 1%R).
Proof.
  intros Hv. split.
  - assert (H : forall k, k < List.length x -> nth_error (autocorr_func x) k <> None).
    { intros k Hk. rewrite (acf_varies x k Hv Hk). discriminate. }
    assert (L : List.length (autocorr_func x) <= List.length x).
    { unfold autocorr_func. repeat rewrite map_length. try rewrite firstn_length. repeat rewrite map_length. try rewrite seq_length. lia. }
    destruct (Nat.eq_dec (List.length x) 0) as [E|E]; [lia|]. specialize (H (List.length x - 1) ltac:(lia)). apply nth_error_Some in H. lia.
  - intros k Hk. exists (autocorr x k). split; [apply acf_varies; assumption|]. split; [reflexivity|]. split; [apply autocorr_bound, Hv|].
    intros ->. apply autocorr_0, Hv.
Qed.

(** The length the padding is computed from: a power of two that is not below the length of the series. *)
Theorem C98_padding n : n <= next_pow_two n /\ exists e, next_pow_two n = 2 ^ e.
Proof. destruct (next_pow_two_spec n) as (A & _ & B). split; assumption. Qed.

(** The plot: ten points for every fitted parameter, the last of them for the whole chain. With all walkers
    varying the estimate is the autocorrelation time up to the first lag that is at least five times as large. *)
Theorem C98_plot b names config d t lo p l : new_plotter b names config d t = Ok p -> 0 < lo -> 0 < bk_walkers b ->
  List.length names = bk_params b -> plot_autocorr lo p = Ok l ->
  map fst l = names /\
  forall i n pts, nth_error l i = Some (n, pts) -> List.length pts = 10 /\
    forall q x v, nth_error pts q = Some (x, v) -> exists N, x = N * t /\ 0 < N /\
      (q = 0 -> N = lo) /\ (q = 9 -> N = n_iter p) /\ (lo <= n_iter p -> lo <= N <= n_iter p) /\
      (n_iter p <= lo -> n_iter p <= N <= lo) /\
      let y := map (series (kept_chain b d t) i N) (seq 0 (bk_walkers b)) in
      ((forall s, In s y -> varies s) -> exists M, v = Fin (tau y M) /\ 1 <= M < Nat.min N (n_iter p) /\
         (5 * tau y M <= INR M)%R /\ forall m, m < M -> (INR m < 5 * tau y m)%R) /\
      ((exists s, In s y /\ ~ varies s) -> v = NaN).
Proof.
  intros H Hlo HW Hnm Hl. apply new_plotter_inv in H. destruct H as (_ & _ & _ & i0 & s0 & mpe & _ & _ & _ & ->).
  set (p := plotter_of b names config d t mpe) in *.
  destruct (plot_autocorr_at lo p l Hl) as (Hn & HP & Ll & A).
  change (pl_params p) with (bk_params b) in *. change (pl_names p) with names in A. change (pl_thin p) with t in A.
  change (pl_chain p) with (kept_chain b d t) in A. change (pl_walkers p) with (bk_walkers b) in A.
  assert (Hlen : List.length (kept_chain b d t) = n_iter p) by reflexivity.
  split.
  { apply nth_ext with (d := "") (d' := ""); rewrite map_length; [congruence|]. intros k Hk.
    destruct (nth_error l k) as [[n pts]|] eqn:E; [|apply nth_error_None in E; lia].
    destruct (A k n pts E) as [E2 _]. apply nth_error_nth with (d := "") in E2. rewrite E2.
    rewrite nth_error_nth with (x := n); [reflexivity|]. rewrite nth_error_map, E. reflexivity. }
  intros i n pts Hi. destruct (A i n pts Hi) as (_ & Lp & Q). split; [exact Lp|]. intros q x v Hq.
  assert (Hq10 : q < 10) by (rewrite <- Lp; apply nth_error_Some; congruence).
  destruct (Q q Hq10) as (u & E & Ea). rewrite E in Hq. injection Hq as <- <-.
  assert (Hp : 0 < geom_int lo (n_iter p) q) by (apply geom_int_pos; lia).
  destruct (geom_int_mono lo (n_iter p) 0 q Hlo Hn ltac:(lia) ltac:(lia)) as [L1 G1].
  destruct (geom_int_mono lo (n_iter p) q 9 Hlo Hn ltac:(lia) ltac:(lia)) as [L2 G2].
  rewrite geom_int_0 in L1, G1. rewrite geom_int_9 in L2, G2. remember (geom_int lo (n_iter p) q) as N eqn:EN.
  exists N. split; [reflexivity|]. split; [exact Hp|].
  split; [intros ->; exact EN|]. split; [intros ->; exact EN|]. split; [lia|]. split; [lia|].
  cbv zeta. set (y := map (series (kept_chain b d t) i N) (seq 0 (bk_walkers b))) in *.
  assert (Hy : y <> []) by (unfold y; destruct (bk_walkers b); [lia|discriminate]).
  assert (Hlens : forall s, In s y -> List.length s = Nat.min N (n_iter p)).
  { intros s Hs. apply in_map_iff in Hs. destruct Hs as (j & <- & _). rewrite series_length, Hlen. reflexivity. }
  split.
  - intros Hv. assert (H2 : 2 <= Nat.min N (n_iter p)).
    { destruct (le_lt_dec 2 (Nat.min N (n_iter p))) as [|C]; [assumption|exfalso]. destruct y as [|s y']; [congruence|].
      apply (one_entry_constant s); [rewrite (Hlens s (or_introl eq_refl)); lia|apply Hv; left; reflexivity]. }
    destruct (autocorr_new_ok y (Nat.min N (n_iter p)) Hy H2) as (M & E1 & E2 & E3 & E4).
    { intros s Hs. split; [apply Hv, Hs|apply Hlens, Hs]. }
    rewrite E1 in Ea. injection Ea as <-. exists M. split; [reflexivity|]. split; [lia|]. split; [exact E3|exact E4].
  - intros (s & Hs & Hc). rewrite (autocorr_new_nan y (Nat.min N (n_iter p)) s) in Ea; try assumption.
    + injection Ea as <-. reflexivity.
    + lia.
Qed.

(** Along the ten points the number of iterations never decreases. *)
Theorem C98_increasing b names config d t lo p l : new_plotter b names config d t = Ok p -> 0 < lo -> lo <= n_iter p ->
  plot_autocorr lo p = Ok l ->
  forall i n pts q q' x x' v v', nth_error l i = Some (n, pts) -> nth_error pts q = Some (x, v) ->
    nth_error pts q' = Some (x', v') -> q <= q' -> x <= x'.
Proof.
  intros _ Hlo Hn Hl i n pts q q' x x' v v' Hi Hq Hq' Hqq.
  destruct (plot_autocorr_at lo p l Hl) as (Hn0 & _ & _ & A). destruct (A i n pts Hi) as (_ & Lp & Q).
  assert (H1 : q < 10) by (rewrite <- Lp; apply nth_error_Some; congruence).
  assert (H2 : q' < 10) by (rewrite <- Lp; apply nth_error_Some; congruence).
  destruct (Q q H1) as (u & E & _). destruct (Q q' H2) as (u' & E' & _).
  rewrite E in Hq. rewrite E' in Hq'. injection Hq as <- <-. injection Hq' as <- <-.
  apply Nat.mul_le_mono_r.
  destruct (geom_int_mono lo (n_iter p) q q' Hlo Hn0 Hqq ltac:(lia)) as [G _]. apply G, Hn.
Qed.

(** The estimate is at most a fifth of the number of iterations it is made from, however slowly the chain moves. *)
Theorem C98_capped b names config d t lo p l : new_plotter b names config d t = Ok p -> 0 < lo -> 0 < bk_walkers b ->
  List.length names = bk_params b -> plot_autocorr lo p = Ok l ->
  forall i n pts q x r, nth_error l i = Some (n, pts) -> nth_error pts q = Some (x, Fin r) ->
    (5 * r <= INR (n_iter p - 1))%R /\ (5 * r * INR t <= INR x)%R.
Proof.
  intros H Hlo HW Hnm Hl i n pts q x r Hi Hq.
  destruct (C98_plot b names config d t lo p l H Hlo HW Hnm Hl) as (_ & A).
  destruct (A i n pts Hi) as [_ B]. destruct (B q x (Fin r) Hq) as (N & -> & HN & _ & _ & _ & _ & V & C). cbv zeta in *.
  set (y := map (series (kept_chain b d t) i N) (seq 0 (bk_walkers b))) in *.
  destruct (all_vary_dec y) as [Hv|Hc].
  - destruct (V Hv) as (M & E & HM & H5 & _). injection E as ->.
    assert (L1 : (INR M <= INR (n_iter p - 1))%R) by (apply le_INR; lia).
    assert (L2 : (INR M <= INR N)%R) by (apply le_INR; lia).
    split; [lra|]. rewrite mult_INR. apply Rmult_le_compat_r; [apply pos_INR|lra].
  - specialize (C Hc). discriminate C.
Qed.

(** With two fitted parameters or more, a kept iteration and a walker the plot is made. *)
Theorem C98_made b names config d t lo p : new_plotter b names config d t = Ok p -> 0 < lo -> 0 < bk_walkers b ->
  2 <= bk_params b -> List.length names = bk_params b -> kept b d t <> [] -> exists l, plot_autocorr lo p = Ok l.
Proof.
  intros H Hlo HW HP Hnm Hk. apply new_plotter_inv in H. destruct H as (_ & _ & _ & i0 & s0 & mpe & _ & _ & _ & ->).
  apply plot_autocorr_total; try assumption.
  unfold n_iter, plotter_of. cbn [pl_chain]. rewrite map_length. destruct (kept b d t); [congruence|cbn; lia].
Qed.

(** A walker that never changed a coordinate takes the estimates of that parameter with it: they are NaN. *)
Theorem C98_constant_walker_refuted b names config d t lo p l : new_plotter b names config d t = Ok p -> 0 < lo ->
  List.length names = bk_params b -> plot_autocorr lo p = Ok l ->
  forall i j c, j < bk_walkers b ->
    (forall row, In row (kept_chain b d t) -> nth i (nth j row []) 0%R = c) ->
    forall n pts, nth_error l i = Some (n, pts) -> forall x v, In (x, v) pts -> v = NaN.
Proof.
  intros H Hlo Hnm Hl i j c Hj Hc n pts Hi x v Hx. apply In_nth_error in Hx. destruct Hx as (q & Hq).
  destruct (C98_plot b names config d t lo p l H Hlo ltac:(lia) Hnm Hl) as (_ & A).
  destruct (A i n pts Hi) as [_ B]. destruct (B q x v Hq) as (N & -> & HN & _ & _ & _ & _ & _ & C). apply C.
  exists (series (kept_chain b d t) i N j). split; [apply in_map, in_seq; lia|].
  intros (u & w & Hu & Hw & Huw). apply Huw. unfold series in Hu, Hw. apply in_map_iff in Hu. apply in_map_iff in Hw.
  destruct Hu as (k & <- & Hk). destruct Hw as (k' & <- & Hk'). apply in_seq in Hk. apply in_seq in Hk'.
  transitivity c; [|symmetry]; apply Hc, nth_In; lia.
Qed.

(** With fewer kept iterations than [lo] (100 in the code) all ten estimates are the one of the whole chain, yet they are
    drawn at numbers of iterations that were never made. *)
Theorem C98_short_chain_refuted b names config d t lo p l : new_plotter b names config d t = Ok p ->
  n_iter p < lo -> 0 < t -> plot_autocorr lo p = Ok l ->
  forall i n pts, nth_error l i = Some (n, pts) ->
    exists v, (forall x w, In (x, w) pts -> w = v /\ n_iter p * t <= x) /\
      nth_error pts 0 = Some (lo * t, v) /\ n_iter p * t < lo * t.
Proof.
  intros H Hn Ht Hl i n pts Hi. apply new_plotter_inv in H. destruct H as (_ & _ & _ & i0 & s0 & mpe & _ & _ & _ & ->).
  set (p := plotter_of b names config d t mpe) in *.
  destruct (plot_autocorr_at lo p l Hl) as (Hn0 & _ & _ & A). destruct (A i n pts Hi) as (_ & Lp & Q).
  change (pl_thin p) with t in Q.
  assert (G : forall q, q < 10 -> n_iter p <= geom_int lo (n_iter p) q).
  { intros q Hq. destruct (geom_int_mono lo (n_iter p) q 9 ltac:(lia) Hn0 ltac:(lia) ltac:(lia)) as [_ X]. apply X. lia. }
  assert (S : forall N j, n_iter p <= N -> series (pl_chain p) i N j = series (pl_chain p) i (n_iter p) j).
  { intros N j HN. unfold series. fold (n_iter p). rewrite Nat.min_id, Nat.min_r by exact HN. reflexivity. }
  assert (E : forall q, q < 10 -> exists u, nth_error pts q = Some (geom_int lo (n_iter p) q * t, u) /\
    autocorr_new (n_iter p) (map (series (pl_chain p) i (n_iter p)) (seq 0 (pl_walkers p))) = Ok u).
  { intros q Hq. destruct (Q q Hq) as (u & E1 & E2). exists u. split; [exact E1|]. rewrite Nat.min_r in E2 by (apply G, Hq).
    rewrite <- E2. f_equal. apply map_ext. intros j. symmetry. apply S, G, Hq. }
  destruct (E 0 ltac:(lia)) as (v & E0 & Ev). exists v. split; [|split; [exact E0|nia]].
  intros x w Hx. apply In_nth_error in Hx. destruct Hx as (q & Hq).
  assert (H10 : q < 10) by (rewrite <- Lp; apply nth_error_Some; congruence).
  destruct (E q H10) as (u & E1 & E2). rewrite E1 in Hq. injection Hq as <- <-. rewrite E2 in Ev. injection Ev as ->.
  split; [reflexivity|]. apply Nat.mul_le_mono_r, G, H10.
Qed.

(* ------------------------------------------------------------------ *)
(** * Cases *)

(** Two walkers, two parameters, three iterations: the second walker never changes the second parameter. *)
Definition wk (a c : R) : list R * (fl * fl) := ([a; c], (Fin 0, Fin 0)).
Definition demo_slow : backend := mk_backend 2 2 [[wk 0 0; wk 1 5]; [wk 1 0; wk 2 5]; [wk 0 1; wk 3 5]].
Lemma demo_slow_shaped : shaped demo_slow.
Proof.
  intros it Hit. cbn [bk_iters demo_slow In] in Hit. in_cases; subst it; (split; [reflexivity|]); intros s Hs;
    cbn [In] in Hs; in_cases; subst s; reflexivity.
Qed.

Example C98_case config : exists p l, new_plotter demo_slow ["a"; "c"] config 0 1 = Ok p /\ plot_autocorr 2 p = Ok l /\
  n_iter p = 3 /\
  (forall s, In s (map (series (kept_chain demo_slow 0 1) 0 3) (seq 0 2)) -> varies s) /\
  (forall row, In row (kept_chain demo_slow 0 1) -> nth 1 (nth 1 row []) 0%R = 5%R).
Proof.
  destruct (new_plotter_total demo_slow ["a"; "c"] config 0 1) as (mpe & s & E & _).
  { lia. } { discriminate. } { apply demo_slow_shaped. } { repeat constructor; cbn [In]; intuition discriminate. } { reflexivity. }
  destruct (C98_made _ _ _ _ _ 2 _ E) as (l & Hl); [lia|cbn; lia|cbn; lia|reflexivity|discriminate|].
  exists (plotter_of demo_slow ["a"; "c"] config 0 1 mpe), l. split; [exact E|]. split; [exact Hl|]. split; [reflexivity|]. split.
  - change (map (series (kept_chain demo_slow 0 1) 0 3) (seq 0 2)) with [[0%R; 1%R; 0%R]; [1%R; 2%R; 3%R]].
    intros x [<-|[<-|[]]].
    + exists 0%R, 1%R. split; [left; reflexivity|]. split; [right; left; reflexivity|lra].
    + exists 1%R, 2%R. split; [left; reflexivity|]. split; [right; left; reflexivity|lra].
  - change (kept_chain demo_slow 0 1) with [[[0%R; 0%R]; [1%R; 5%R]]; [[1%R; 0%R]; [2%R; 5%R]]; [[0%R; 1%R]; [3%R; 5%R]]].
    intros row [<-|[<-|[<-|[]]]]; reflexivity.
Qed.

(** From two iterations the estimate is 0. *)
Example C98_two_case : autocorr_new 2 [[0%R; 1%R]] = Ok (Fin 0).
Proof.
  destruct (autocorr_new_ok [[0%R; 1%R]] 2) as (M & E & HM & _); [discriminate|lia| |].
  - intros x [<-|[]]. split; [|reflexivity]. exists 0%R, 1%R. split; [left; reflexivity|]. split; [right; left; reflexivity|lra].
  - assert (M = 1) by lia. subst M. rewrite E. do 2 f_equal. unfold tau, mean_autocorr, autocorr, autocov, dev.
    cbn [seq map fold_right List.length Nat.sub Nat.add nth INR]. field.
Qed.

Print Assumptions C98_autocorrelation.
Print Assumptions C98_padding.
Print Assumptions C98_plot.
Print Assumptions C98_increasing.
Print Assumptions C98_capped.
Print Assumptions C98_made.
Print Assumptions C98_constant_walker_refuted.
Print Assumptions C98_short_chain_refuted.
