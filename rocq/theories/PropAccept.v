(** C97: the acceptance fractions of a chain. *)
From Coq Require Import Reals Lra Lia.
From Verif Require Import Base BaseFacts ModelFloat ProofFloat ModelTwoHalf ModelParameter ModelContext
  ModelPlotter SpecPlotter ProofPlotter ProofPlotter2 ProofPlotter3 ProofAccept PropPlotter.
Local Open Scope string_scope.
Local Open Scope list_scope.

Lemma acceptance_of b names config d t p wl a : new_plotter b names config d t = Ok p -> shaped b -> 0 < bk_walkers b ->
  plot_acceptance p wl = Ok a ->
  let ch := kept_chain b d t in let n := List.length (kept b d t) in let W := bk_walkers b in let w := window_of n wl in
  let at_ i := Fin (INR (i * t + d)) in
  0 < n /\
  ac_cumulative a = map (fun k => (at_ k, Fin (INR (all_moves ch W 0 k) / (INR k * INR W)))) (seq 1 (n - 1)) /\
  (0 < w -> ac_moving a = map (fun i => (at_ i, Fin (INR (all_moves ch W (i - w) w) / (INR w * INR W)))) (seq w (n - w))) /\
  ac_walkers a = map (fun j => fmean (map (fun k => Fin (INR (moves ch 0 k j) / INR k)%R) (seq 1 (n - 1)))) (seq 0 W).
Proof.
  intros H Hs HW Ha ch n W w at_. apply new_plotter_inv in H. destruct H as (_ & _ & _ & i & s & mpe & _ & _ & _ & ->).
  set (p := plotter_of b names config d t mpe) in *.
  assert (En : n_iter p = n) by (unfold n_iter, p, plotter_of; cbn [pl_chain]; apply map_length).
  assert (Hn : 0 < n_iter p) by (destruct (n_iter p) eqn:E; [unfold plot_acceptance in Ha; rewrite E in Ha; discriminate Ha|lia]).
  destruct (plot_acceptance_eq W (bk_params b) p wl eq_refl (kept_chain_shaped b d t Hs) HW Hn) as (mv & E & _ & Hm).
  rewrite E in Ha. injection Ha as <-. cbn [ac_cumulative ac_moving ac_walkers]. rewrite En in *. split; [exact Hn|].
  split; [reflexivity|]. split; [exact Hm|reflexivity].
Qed.

Lemma walkers_fraction ch W a k : 0 < W -> 0 < k -> (0 <= INR (all_moves ch W a k) / (INR k * INR W) <= 1)%R.
Proof. intros HW Hk. rewrite <- mult_INR. apply fraction_bounds; [apply all_moves_le|nia]. Qed.

(** The cumulative curve: up to every kept iteration the fraction of steps in which a walker moved. *)
Theorem C97_cumulative b names config d t p wl a : new_plotter b names config d t = Ok p -> shaped b -> 0 < bk_walkers b ->
  plot_acceptance p wl = Ok a ->
  List.length (ac_cumulative a) = n_iter p - 1 /\
  forall k x y, nth_error (ac_cumulative a) k = Some (x, y) -> exists f,
    x = Fin (INR ((k + 1) * t + d)) /\ y = Fin f /\ (0 <= f <= 1)%R /\
    f = (INR (all_moves (kept_chain b d t) (bk_walkers b) 0 (k + 1)) / (INR (k + 1) * INR (bk_walkers b)))%R.
Proof.
  intros H Hs HW Ha. pose proof (C96_kept _ _ _ _ _ _ H) as (L & _).
  destruct (acceptance_of _ _ _ _ _ _ _ _ H Hs HW Ha) as (Hn & E & _). rewrite E, map_length, seq_length, L. split; [reflexivity|].
  intros k x y Hk. assert (Hkn : k < List.length (kept b d t) - 1).
  { rewrite <- (seq_length (List.length (kept b d t) - 1) 1). erewrite <- map_length. apply nth_error_Some. rewrite Hk. discriminate. }
  rewrite nth_error_map, nth_error_seq in Hk by exact Hkn. cbn [option_map] in Hk. injection Hk as <- <-. change (S k) with (1 + k). rewrite !(Nat.add_comm k 1).
  eexists. split; [reflexivity|]. split; [reflexivity|]. split; [|reflexivity]. apply walkers_fraction; lia.
Qed.

(** For the whole chain of a run the last point is the fraction of all steps of all walkers. *)
Theorem C97_whole b names config p wl a : new_plotter b names config 0 1 = Ok p -> shaped b -> 0 < bk_walkers b ->
  kept b 0 1 = read_iterations b 0 1 -> plot_acceptance p wl = Ok a -> 2 <= List.length (bk_iters b) ->
  let n := List.length (bk_iters b) in
  nth_error (ac_cumulative a) (n - 2) = Some (Fin (INR (n - 1)),
    Fin (INR (all_moves (map (map coords) (bk_iters b)) (bk_walkers b) 0 (n - 1)) / (INR (n - 1) * INR (bk_walkers b)))).
Proof.
  intros H Hs HW Hk Ha Hn n.
  assert (Ht : 0 < 1) by lia.
  assert (Er : read_iterations b 0 1 = seq 0 n).
  { unfold read_iterations. rewrite read_list by lia. rewrite Nat.div_1_r, Nat.sub_0_r.
    rewrite (map_ext _ (fun k => k)) by (intros; lia). apply map_id. }
  assert (Ec : kept_chain b 0 1 = map (map coords) (bk_iters b)).
  { unfold kept_chain. rewrite Hk, Er. unfold iteration.
    transitivity (map (map coords) (map (fun i => nth i (bk_iters b) []) (seq 0 (List.length (bk_iters b))))).
    { rewrite map_map. reflexivity. }
    f_equal. symmetry. apply list_as_nth. }
  destruct (acceptance_of _ _ _ _ _ _ _ _ H Hs HW Ha) as (_ & E & _). rewrite E, Ec, Hk, Er, seq_length.
  rewrite nth_error_map, nth_error_seq by lia. cbn [option_map]. replace (1 + (n - 2)) with (n - 1) by lia.
  replace ((n - 1) * 1 + 0) with (n - 1) by lia. reflexivity.
Qed.

(** The moving average: the fraction in the steps of the window; with a window as long as the chain it is the
    last cumulative value. *)
Theorem C97_moving b names config d t p wl a : new_plotter b names config d t = Ok p -> shaped b -> 0 < bk_walkers b ->
  plot_acceptance p wl = Ok a -> 0 < wl < n_iter p ->
  List.length (ac_moving a) = n_iter p - wl /\
  forall k x y, nth_error (ac_moving a) k = Some (x, y) -> exists f,
    x = Fin (INR ((wl + k) * t + d)) /\ y = Fin f /\ (0 <= f <= 1)%R /\
    f = (INR (all_moves (kept_chain b d t) (bk_walkers b) k wl) / (INR wl * INR (bk_walkers b)))%R.
Proof.
  intros H Hs HW Ha Hwl. pose proof (C96_kept _ _ _ _ _ _ H) as (L & _).
  destruct (acceptance_of _ _ _ _ _ _ _ _ H Hs HW Ha) as (Hn & _ & E & _). rewrite L in *.
  assert (Ew : window_of (List.length (kept b d t)) wl = wl).
  { unfold window_of. replace (Nat.leb (List.length (kept b d t)) wl) with false by (symmetry; apply Nat.leb_gt; lia). reflexivity. }
  rewrite Ew in E. specialize (E ltac:(lia)). rewrite E, map_length, seq_length. split; [reflexivity|].
  intros k x y Hk. assert (Hkn : k < List.length (kept b d t) - wl).
  { rewrite <- (seq_length (List.length (kept b d t) - wl) wl). erewrite <- map_length. apply nth_error_Some. rewrite Hk. discriminate. }
  rewrite nth_error_map, nth_error_seq in Hk by exact Hkn. cbn [option_map] in Hk. injection Hk as <- <-.
  replace (wl + k - wl) with k by lia. eexists. split; [reflexivity|]. split; [reflexivity|]. split; [|reflexivity]. apply walkers_fraction; lia.
Qed.

Theorem C97_long_window b names config d t p wl a : new_plotter b names config d t = Ok p -> shaped b -> 0 < bk_walkers b ->
  plot_acceptance p wl = Ok a -> 2 <= n_iter p <= wl ->
  exists pt, ac_moving a = [pt] /\ nth_error (ac_cumulative a) (n_iter p - 2) = Some pt.
Proof.
  intros H Hs HW Ha Hwl. pose proof (C96_kept _ _ _ _ _ _ H) as (L & _).
  destruct (acceptance_of _ _ _ _ _ _ _ _ H Hs HW Ha) as (Hn & C & E & _). rewrite L in *.
  set (n := List.length (kept b d t)) in *.
  assert (Ew : window_of n wl = n - 1).
  { unfold window_of. replace (Nat.leb n wl) with true by (symmetry; apply Nat.leb_le; lia). reflexivity. }
  rewrite Ew in E. specialize (E ltac:(lia)). replace (n - (n - 1)) with 1 in E by lia. cbn [seq map] in E. rewrite Nat.sub_diag in E.
  eexists. split; [exact E|]. rewrite C, nth_error_map, nth_error_seq by lia. cbn [option_map].
  replace (1 + (n - 2)) with (n - 1) by lia. reflexivity.
Qed.

(** A plot is made unless every iteration was dropped. *)
Theorem C97_made b names config d t p wl : new_plotter b names config d t = Ok p -> shaped b -> 0 < bk_walkers b ->
  (kept b d t <> [] -> exists a, plot_acceptance p wl = Ok a) /\
  (kept b d t = [] -> plot_acceptance p wl = Err ValueError).
Proof.
  intros H Hs HW. apply new_plotter_inv in H. destruct H as (_ & _ & _ & i & s & mpe & _ & _ & _ & ->).
  set (p := plotter_of b names config d t mpe) in *.
  assert (En : n_iter p = List.length (kept b d t)) by (unfold n_iter, p, plotter_of; cbn [pl_chain]; apply map_length).
  split; intros Hk.
  - destruct (plot_acceptance_eq (bk_walkers b) (bk_params b) p wl eq_refl (kept_chain_shaped b d t Hs) HW) as (mv & E & _).
    + rewrite En. destruct (kept b d t); [congruence|cbn; lia].
    + eexists. exact E.
  - unfold plot_acceptance. rewrite En, Hk. reflexivity.
Qed.

(** The number of a walker is the average of its cumulative fractions. *)
Theorem C97_walker b names config d t p wl a : new_plotter b names config d t = Ok p -> shaped b -> 0 < bk_walkers b ->
  plot_acceptance p wl = Ok a -> 2 <= n_iter p ->
  List.length (ac_walkers a) = bk_walkers b /\
  forall j y, nth_error (ac_walkers a) j = Some y -> exists f, y = Fin f /\ (0 <= f <= 1)%R /\
    f = (fold_right Rplus 0 (map (fun k => INR (moves (kept_chain b d t) 0 k j) / INR k) (seq 1 (n_iter p - 1))) / INR (n_iter p - 1))%R.
Proof.
  intros H Hs HW Ha Hn. pose proof (C96_kept _ _ _ _ _ _ H) as (L & _).
  destruct (acceptance_of _ _ _ _ _ _ _ _ H Hs HW Ha) as (_ & _ & _ & E). rewrite L in *. rewrite E, map_length, seq_length.
  split; [reflexivity|]. intros j y Hj. set (n := List.length (kept b d t)) in *.
  assert (Hjn : j < bk_walkers b).
  { rewrite <- (seq_length (bk_walkers b) 0). erewrite <- map_length. apply nth_error_Some. rewrite Hj. discriminate. }
  rewrite nth_error_map, nth_error_seq in Hj by exact Hjn. cbn [option_map Nat.add] in Hj. injection Hj as <-.
  set (g := fun k => (INR (moves (kept_chain b d t) 0 k j) / INR k)%R).
  change (map (fun k => Fin (INR (moves (kept_chain b d t) 0 k j) / INR k)%R) (seq 1 (n - 1)))
    with (map (fun k => Fin (g k)) (seq 1 (n - 1))).
  rewrite <- (map_map g Fin). rewrite fmean_rsum by (destruct n as [|[|n']]; [lia|lia|discriminate]).
  rewrite map_length, seq_length. eexists. split; [reflexivity|].
  assert (Er : rsum (map g (seq 1 (n - 1))) = fold_right Rplus 0%R (map g (seq 1 (n - 1)))).
  { generalize (map g (seq 1 (n - 1))). intros l. induction l as [|x l IH]; cbn; [reflexivity|]. rewrite IH. reflexivity. }
  split; [|rewrite Er; reflexivity].
  assert (B : (0 <= rsum (map g (seq 1 (n - 1))) <= INR (n - 1))%R).
  { assert (G : forall m, (0 <= rsum (map g (seq 1 m)) <= INR m)%R).
    { induction m as [|m IH]; [cbn; lra|]. rewrite seq_S, map_app, rsum_app, S_INR. cbn [map rsum].
      assert (Q : (0 <= g (1 + m)%nat <= 1)%R) by (unfold g; apply fraction_bounds; [apply moves_le|lia]). lra. }
    apply G. }
  assert (Hp : (0 < INR (n - 1))%R) by (apply lt_0_INR; lia). split.
  - apply Rmult_le_pos; [lra|]. left. apply Rinv_0_lt_compat. exact Hp.
  - apply Rmult_le_reg_r with (INR (n - 1)); [exact Hp|]. unfold Rdiv. rewrite Rmult_assoc, Rinv_l by lra. lra.
Qed.

(** That is not the acceptance fraction of the walker: here it moves in one of two steps and 3/4 is shown. *)
Definition demo_walker : backend := mk_backend 1 1 [[fit_sample 0]; [fit_sample 1]; [fit_sample 1]].
Lemma demo_walker_shaped : shaped demo_walker.
Proof.
  intros it Hit. cbn [bk_iters demo_walker In] in Hit. in_cases; subst it; (split; [reflexivity|]); intros s Hs;
    cbn [In] in Hs; in_cases; subst s; reflexivity.
Qed.


Lemma demo_walker_moved : moved (kept_chain demo_walker 0 1) 0 0 = true /\ moved (kept_chain demo_walker 0 1) 1 0 = false.
Proof.
  change (kept_chain demo_walker 0 1) with [[[0%R]]; [[1%R]]; [[1%R]]]. split.
  - unfold moved. cbn [nth]. destruct (list_eq_dec Req_EM_T [1%R] [0%R]) as [E|E]; [exfalso; injection E; lra|reflexivity].
  - unfold moved. cbn [nth]. destruct (list_eq_dec Req_EM_T [1%R] [1%R]) as [E|E]; [reflexivity|congruence].
Qed.

Theorem C97_walker_refuted config : exists p a,
  new_plotter demo_walker ["a"] config 0 1 = Ok p /\ plot_acceptance p 100 = Ok a /\
  moves (kept_chain demo_walker 0 1) 0 2 0 = 1 /\ ac_walkers a = [Fin (3 / 4)] /\
  nth_error (ac_cumulative a) 1 = Some (Fin 2, Fin (1 / 2)).
Proof.
  destruct demo_walker_moved as [M0 M1].
  assert (K1 : moves (kept_chain demo_walker 0 1) 0 1 0 = 1) by (unfold moves; cbn [seq filter]; rewrite M0; reflexivity).
  assert (K2 : moves (kept_chain demo_walker 0 1) 0 2 0 = 1) by (unfold moves; cbn [seq filter]; rewrite M0, M1; reflexivity).
  destruct (new_plotter_total demo_walker ["a"] config 0 1) as (mpe & s & E & _).
  { lia. } { discriminate. } { apply demo_walker_shaped. } { constructor; [intros []|constructor]. } { reflexivity. }
  destruct (C97_made _ _ _ _ _ _ 100 E demo_walker_shaped ltac:(cbn; lia)) as [H1 _].
  destruct (H1 ltac:(discriminate)) as (a & Ha). exists (plotter_of demo_walker ["a"] config 0 1 mpe), a.
  split; [exact E|]. split; [exact Ha|]. split; [exact K2|].
  destruct (acceptance_of _ _ _ _ _ _ _ _ E demo_walker_shaped ltac:(cbn; lia) Ha) as (_ & C & _ & Wk).
  change (List.length (kept demo_walker 0 1) - 1) with 2 in *. change (bk_walkers demo_walker) with 1 in *.
  cbn [seq map] in Wk, C. rewrite K1, K2 in Wk. split.
  - rewrite Wk. change [Fin (INR 1 / INR 1); Fin (INR 1 / INR 2)] with (map Fin [INR 1 / INR 1; INR 1 / INR 2])%R.
    rewrite fmean_rsum by discriminate. cbn [rsum List.length INR]. do 2 f_equal. lra.
  - rewrite C. cbn [nth_error]. unfold all_moves. cbn [seq map]. rewrite K2. cbn [list_sum fold_right Nat.add Nat.mul INR].
    repeat f_equal; lra.
Qed.

(** A thinned chain shows a larger fraction than the sampler's: here half of the steps and 1. *)
Definition demo_thin : backend := mk_backend 1 1
  [[fit_sample 0]; [fit_sample 1]; [fit_sample 1]; [fit_sample 2]; [fit_sample 2]; [fit_sample 3]; [fit_sample 3]].
Lemma demo_thin_shaped : shaped demo_thin.
Proof.
  intros it Hit. cbn [bk_iters demo_thin In] in Hit. in_cases; subst it; (split; [reflexivity|]); intros s Hs;
    cbn [In] in Hs; in_cases; subst s; reflexivity.
Qed.

Lemma moved_neq ch i j x y : nth j (nth (S i) ch []) [] = [x] -> nth j (nth i ch []) [] = [y] -> x <> y -> moved ch i j = true.
Proof. intros E1 E2 H. unfold moved. rewrite E1, E2. destruct (list_eq_dec Req_EM_T [x] [y]) as [E|E]; [congruence|reflexivity]. Qed.
Lemma moved_eq ch i j : nth j (nth (S i) ch []) [] = nth j (nth i ch []) [] -> moved ch i j = false.
Proof. intros E. unfold moved. destruct (list_eq_dec _ _ _) as [H|H]; [reflexivity|congruence]. Qed.

Theorem C97_thin_refuted config : exists p q a c,
  new_plotter demo_thin ["a"] config 0 1 = Ok p /\ plot_acceptance p 100 = Ok a /\ map snd (ac_moving a) = [Fin (1 / 2)] /\
  new_plotter demo_thin ["a"] config 0 2 = Ok q /\ plot_acceptance q 100 = Ok c /\ map snd (ac_moving c) = [Fin 1].
Proof.
  assert (N1 : (1 <> 0)%R) by lra. assert (N2 : (2 <> 1)%R) by lra. assert (N3 : (3 <> 2)%R) by lra.
  set (ch := kept_chain demo_thin 0 1). set (ch' := kept_chain demo_thin 0 2).
  assert (K1 : moves ch 0 6 0 = 3).
  { unfold moves. cbn [seq filter]. rewrite (moved_neq ch 0 0 1 0), (moved_eq ch 1 0), (moved_neq ch 2 0 2 1), (moved_eq ch 3 0),
      (moved_neq ch 4 0 3 2), (moved_eq ch 5 0) by (reflexivity || assumption). reflexivity. }
  assert (K2 : moves ch' 0 2 0 = 2).
  { unfold moves. cbn [seq filter]. rewrite (moved_neq ch' 0 0 2 1), (moved_neq ch' 1 0 3 2) by (reflexivity || assumption). reflexivity. }
  destruct (new_plotter_total demo_thin ["a"] config 0 1) as (mpe & s & E & _).
  { lia. } { discriminate. } { apply demo_thin_shaped. } { constructor; [intros []|constructor]. } { reflexivity. }
  destruct (new_plotter_total demo_thin ["a"] config 0 2) as (mpe' & s' & E' & _).
  { lia. } { discriminate. } { apply demo_thin_shaped. } { constructor; [intros []|constructor]. } { reflexivity. }
  destruct (C97_made _ _ _ _ _ _ 100 E demo_thin_shaped ltac:(cbn; lia)) as [H1 _].
  destruct (H1 ltac:(discriminate)) as (a & Ha).
  destruct (C97_made _ _ _ _ _ _ 100 E' demo_thin_shaped ltac:(cbn; lia)) as [H2 _].
  destruct (H2 ltac:(discriminate)) as (c & Hc).
  exists (plotter_of demo_thin ["a"] config 0 1 mpe), (plotter_of demo_thin ["a"] config 0 2 mpe'), a, c.
  destruct (acceptance_of _ _ _ _ _ _ _ _ E demo_thin_shaped ltac:(cbn; lia) Ha) as (_ & _ & Ma & _).
  destruct (acceptance_of _ _ _ _ _ _ _ _ E' demo_thin_shaped ltac:(cbn; lia) Hc) as (_ & _ & Mc & _).
  change (List.length (kept demo_thin 0 1)) with 7 in Ma. change (List.length (kept demo_thin 0 2)) with 3 in Mc.
  change (window_of 7 100) with 6 in Ma. change (window_of 3 100) with 2 in Mc. change (bk_walkers demo_thin) with 1 in *.
  specialize (Ma ltac:(lia)). specialize (Mc ltac:(lia)). cbn [Nat.sub seq map] in Ma, Mc.
  fold ch in Ma. fold ch' in Mc. unfold all_moves in Ma, Mc. cbn [seq map] in Ma, Mc. rewrite K1 in Ma. rewrite K2 in Mc.
  cbn [list_sum fold_right Nat.add] in Ma, Mc.
  split; [exact E|]. split; [exact Ha|]. split.
  { rewrite Ma. cbn [map snd]. do 2 f_equal. cbn [INR]. field. }
  split; [exact E'|]. split; [exact Hc|]. rewrite Mc. cbn [map snd]. do 2 f_equal. cbn [INR]. field.
Qed.

(** With one iteration there is nothing to show: the moving average is NaN. *)
Theorem C97_one_iteration b names config d t p wl a : new_plotter b names config d t = Ok p -> shaped b -> 0 < bk_walkers b ->
  plot_acceptance p wl = Ok a -> n_iter p = 1 -> 0 < wl ->
  ac_cumulative a = [] /\ map snd (ac_moving a) = [NaN] /\ forall y, In y (ac_walkers a) -> y = NaN.
Proof.
  intros H Hs HW Ha Hn Hwl. pose proof (C96_kept _ _ _ _ _ _ H) as (L & _).
  destruct (acceptance_of _ _ _ _ _ _ _ _ H Hs HW Ha) as (_ & C & _ & Wk). rewrite <- L, Hn in *.
  assert (Z : forall c : R, fdiv (Fin 0) (Fin 0) = NaN).
  { intros _. unfold fdiv, finv. destruct (Req_EM_T 0 0); [|lra]. cbn [fmul]. unfold inf_times.
    destruct (total_order_T 0 0) as [[Hx|Hx]|Hx]; [lra|reflexivity|lra]. }
  split; [exact C|]. split.
  - unfold plot_acceptance in Ha. rewrite Hn in Ha. replace (Nat.leb 1 wl) with true in Ha by (symmetry; apply Nat.leb_le; lia).
    injection Ha as <-. cbn [ac_moving Nat.sub seq map snd firstn]. f_equal. unfold window_mean. cbn [map fold_right INR].
    assert (HWp : 0 < pl_walkers p).
    { apply new_plotter_inv in H. destruct H as (_ & _ & _ & i & s & mpe & _ & _ & _ & ->). exact HW. }
    destruct (pl_walkers p) as [|W]; [lia|]. cbn [seq map]. unfold fmean. cbn [fsum fold_right].
    rewrite (Z 0%R). reflexivity.
  - intros y Hy. rewrite Wk in Hy. apply in_map_iff in Hy. destruct Hy as (j & <- & _). cbn [Nat.sub seq map]. unfold fmean.
    cbn [fsum fold_right List.length INR]. apply (Z 0%R).
Qed.

(* ------------------------------------------------------------------ *)
(** * Cases *)

Example C97_case config : exists p a, new_plotter demo_thin ["a"] config 0 2 = Ok p /\ shaped demo_thin /\
  0 < bk_walkers demo_thin /\ n_iter p = 3 /\ plot_acceptance p 2 = Ok a.
Proof.
  destruct (new_plotter_total demo_thin ["a"] config 0 2) as (mpe & s & E & _).
  { lia. } { discriminate. } { apply demo_thin_shaped. } { constructor; [intros []|constructor]. } { reflexivity. }
  destruct (C97_made _ _ _ _ _ _ 2 E demo_thin_shaped ltac:(cbn; lia)) as [H1 _].
  destruct (H1 ltac:(discriminate)) as (a & Ha).
  exists (plotter_of demo_thin ["a"] config 0 2 mpe), a. split; [exact E|]. split; [apply demo_thin_shaped|]. split; [cbn; lia|].
  split; [reflexivity|exact Ha].
Qed.

Print Assumptions C97_cumulative.
Print Assumptions C97_whole.
Print Assumptions C97_moving.
Print Assumptions C97_long_window.
Print Assumptions C97_made.
Print Assumptions C97_walker.
Print Assumptions C97_walker_refuted.
Print Assumptions C97_thin_refuted.
Print Assumptions C97_one_iteration.
