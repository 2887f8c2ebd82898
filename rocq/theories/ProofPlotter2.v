(** Lemmas for the plots of a chain (C96): positions, panels, priors. *)
From Coq Require Import Reals Lra Lia.
From Verif Require Import Base BaseFacts ModelFloat ProofFloat ModelTwoHalf ModelParameter ModelContext SpecContext
  ProofContext ModelPlotter SpecPlotter ProofPlotter.
Local Open Scope string_scope.
Local Open Scope list_scope.

(* ------------------------------------------------------------------ *)
(** * The iterations that are read *)

Lemma recorded_div d t n : 0 < t ->
  if recorded d t n then (S n - d) / t = S ((n - d) / t) /\ n = d + (S ((n - d) / t)) * t - 1
  else (S n - d) / t = (n - d) / t.
Proof.
  intros Ht. unfold recorded. destruct (le_lt_dec d n) as [Hd|Hd].
  - set (m := n - d). replace (n + 1 - d) with (S m) by (unfold m; lia). replace (S n - d) with (S m) by (unfold m; lia).
    pose proof (Nat.div_mod (S m) t) as Hdm. specialize (Hdm ltac:(lia)).
    pose proof (Nat.mod_upper_bound (S m) t ltac:(lia)) as Hub.
    destruct (Nat.eqb_spec (S m mod t) 0) as [E|E].
    + rewrite E in Hdm. destruct (S m / t) as [|q] eqn:Eq; [lia|].
      assert (Hq : m / t = q). { symmetry. apply Nat.div_unique with (r := t - 1); lia. }
      rewrite Hq. replace (Nat.leb (d + t) (n + 1)) with true by (symmetry; apply Nat.leb_le; unfold m in *; nia).
      cbn [andb]. split; [reflexivity|]. unfold m in *; nia.
    + rewrite andb_false_r. apply Nat.div_unique with (r := S m mod t - 1); lia.
  - replace (Nat.leb (d + t) (n + 1)) with false by (symmetry; apply Nat.leb_gt; lia). cbn [andb].
    replace (S n - d) with 0 by lia. replace (n - d) with 0 by lia. reflexivity.
Qed.

Lemma read_list d t n : 0 < t ->
  filter (recorded d t) (seq 0 n) = map (fun k => k * t + d + t - 1) (seq 0 ((n - d) / t)).
Proof.
  intros Ht. induction n as [|n IH].
  - cbn [seq filter]. rewrite Nat.div_0_l by lia. reflexivity.
  - rewrite seq_S, filter_app, IH. cbn [Nat.add filter]. pose proof (recorded_div d t n Ht) as H.
    destruct (recorded d t n).
    + destruct H as [H1 H2]. rewrite H1, seq_S, map_app. cbn [map Nat.add]. f_equal. f_equal. nia.
    + rewrite H, app_nil_r. reflexivity.
Qed.

Lemma read_at b d t k i : 0 < t -> nth_error (read_iterations b d t) k = Some i -> i = k * t + d + t - 1.
Proof.
  intros Ht. unfold read_iterations. rewrite read_list by exact Ht. rewrite nth_error_map.
  destruct (nth_error (seq 0 _) k) as [x|] eqn:E; [|discriminate]. cbn. intros H. injection H as <-.
  assert (x = k).
  { assert (Hk : k < List.length (seq 0 ((List.length (bk_iters b) - d) / t))) by (apply nth_error_Some; congruence).
    rewrite seq_length in Hk. rewrite (nth_error_nth' _ 0), seq_nth in E by (rewrite ?seq_length; exact Hk).
    injection E as <-. reflexivity. }
  subst x. reflexivity.
Qed.

Lemma read_in b d t i : In i (read_iterations b d t) -> i < List.length (bk_iters b).
Proof. intros H. apply filter_In in H. destruct H as [H _]. apply in_seq in H. lia. Qed.

Lemma kept_in b d t i : In i (kept b d t) -> i < List.length (bk_iters b) /\ clean b i = true.
Proof. intros H. apply filter_In in H. destruct H as [H1 H2]. apply read_in in H1. auto. Qed.

Lemma iteration_in b i : i < List.length (bk_iters b) -> In (iteration b i) (bk_iters b).
Proof. intros H. apply nth_In, H. Qed.

Lemma samples_all b : samples b 0 1 = List.concat (bk_iters b).
Proof.
  unfold samples. f_equal. unfold read_iterations.
  replace (filter (recorded 0 1) (seq 0 (List.length (bk_iters b)))) with (seq 0 (List.length (bk_iters b))).
  - unfold iteration. clear. induction (bk_iters b) as [|x l IH]; [reflexivity|]. cbn [List.length seq map nth].
    rewrite <- seq_shift, map_map. f_equal. exact IH.
  - symmetry. rewrite read_list by lia. rewrite Nat.div_1_r, Nat.sub_0_r.
    rewrite (map_ext _ (fun k => k)) by (intros; lia). apply map_id.
Qed.

(* ------------------------------------------------------------------ *)
(** * Panels *)

Lemma per_param_ok {A} rows (draw : nat -> result A) : forall is l, per_param rows draw is = Ok l ->
  List.length l = List.length is /\
  forall k a, nth_error l k = Some a -> exists i, nth_error is k = Some i /\ draw i = Ok a /\ i + 1 <= rows * 2.
Proof.
  induction is as [|i is IH]; intros l H; cbn [per_param] in H.
  - injection H as <-. split; [reflexivity|]. intros [|k] a Hk; discriminate Hk.
  - unfold add_subplot in H. destruct (Nat.leb 1 (i + 1) && Nat.leb (i + 1) (rows * 2)) eqn:E; [|discriminate H].
    apply andb_true_iff in E. destruct E as [_ E]. apply Nat.leb_le in E. cbn [bind] in H.
    destruct (draw i) as [a|] eqn:Ed; [|discriminate H]. cbn [bind] in H.
    destruct (per_param rows draw is) as [l'|] eqn:El; [|discriminate H]. cbn [bind] in H. injection H as <-.
    destruct (IH l' eq_refl) as [H1 H2]. split; [cbn; rewrite H1; reflexivity|].
    intros [|k] a' Hk; cbn in Hk.
    + injection Hk as <-. exists i. auto.
    + destruct (H2 k a' Hk) as (j & Hj & Hd & Hr). exists j. auto.
Qed.

Lemma per_param_total {A} rows (draw : nat -> result A) : forall is,
  (forall i, In i is -> i + 1 <= rows * 2 /\ exists a, draw i = Ok a) ->
  exists l, per_param rows draw is = Ok l /\ List.length l = List.length is.
Proof.
  induction is as [|i is IH]; intros H; cbn [per_param]; [eexists; split; reflexivity|].
  destruct (H i (or_introl eq_refl)) as (Hi & a & Ha). unfold add_subplot.
  replace (Nat.leb 1 (i + 1)) with true by (symmetry; apply Nat.leb_le; lia).
  replace (Nat.leb (i + 1) (rows * 2)) with true by (symmetry; apply Nat.leb_le; exact Hi).
  cbn [andb bind]. rewrite Ha. cbn [bind]. destruct IH as (l & El & Hl); [intros j Hj; apply H; right; exact Hj|].
  rewrite El. cbn [bind]. eexists. split; [reflexivity|]. cbn. rewrite Hl. reflexivity.
Qed.

Lemma half_up_enough n : n <= half_up n * 2.
Proof.
  unfold half_up. pose proof (Nat.div_mod (n + 1) 2 ltac:(lia)). pose proof (Nat.mod_upper_bound (n + 1) 2 ltac:(lia)). lia.
Qed.

Lemma add_subplot_ok rows i : 1 <= i -> i <= rows * 2 -> add_subplot rows 2 i = Ok tt.
Proof.
  intros H1 H2. unfold add_subplot. replace (Nat.leb 1 i) with true by (symmetry; apply Nat.leb_le; exact H1).
  replace (Nat.leb i (rows * 2)) with true by (symmetry; apply Nat.leb_le; exact H2). reflexivity.
Qed.

Lemma nth_error_combine {A B} : forall (a : list A) (b : list B) k,
  nth_error (combine a b) k =
    match nth_error a k, nth_error b k with Some x, Some y => Some (x, y) | _, _ => None end.
Proof.
  induction a as [|x a IH]; intros [|y b] [|k]; cbn; try reflexivity.
  - destruct (nth_error a k); reflexivity.
  - apply IH.
Qed.

Lemma nth_error_seq s n k : k < n -> nth_error (seq s n) k = Some (s + k).
Proof. intros H. rewrite (nth_error_nth' _ 0), seq_nth by (rewrite ?seq_length; exact H). reflexivity. Qed.

Lemma walker_curves_at p rows j : j < pl_walkers p ->
  exists c, nth_error (walker_curves p rows) j = Some c /\ List.length c = List.length rows /\
    forall k r, nth_error rows k = Some r ->
      nth_error c k = Some (Fin (INR (k * pl_thin p + pl_discard p)), nth j r NaN).
Proof.
  intros Hj. unfold walker_curves. rewrite nth_error_map, nth_error_seq by exact Hj. cbn [option_map Nat.add].
  eexists. split; [reflexivity|]. unfold column, positions. split.
  - rewrite combine_length, !map_length, seq_length. apply Nat.min_id.
  - intros k r Hr. assert (Hk : k < List.length rows) by (apply nth_error_Some; congruence).
    rewrite nth_error_combine, !nth_error_map, nth_error_seq by exact Hk. cbn [option_map Nat.add]. rewrite Hr. reflexivity.
Qed.

Lemma walker_curves_length p rows : List.length (walker_curves p rows) = pl_walkers p.
Proof. unfold walker_curves. rewrite map_length, seq_length. reflexivity. Qed.

(* ------------------------------------------------------------------ *)
(** * Burn-in *)

Lemma finite_max_ok rows : rows <> [] -> (forall r, In r rows -> r <> []) ->
  (forall r x, In r rows -> In x r -> is_fin x = true) -> finite_max rows = Ok tt.
Proof.
  intros Hr Hn Hf. unfold finite_max.
  assert (H : forall x, In x (List.concat rows) -> is_fin x = true).
  { intros x Hx. apply in_concat in Hx. destruct Hx as (r & H1 & H2). eapply Hf; eassumption. }
  assert (E : exists x, In x (List.concat rows)).
  { destruct rows as [|r rows]; [congruence|]. destruct r as [|x r]; [exfalso; apply (Hn [] (or_introl eq_refl)); reflexivity|].
    exists x. left. reflexivity. }
  replace (forallb _ (List.concat rows)) with true.
  - replace (existsb is_fin (List.concat rows)) with true; [reflexivity|]. symmetry. apply existsb_exists.
    destruct E as [x Hx]. exists x. auto.
  - symmetry. apply forallb_forall. intros x Hx. apply H in Hx. destruct x; try discriminate Hx. reflexivity.
Qed.

Lemma plotter_rows b names config d t mpe i : param_rows (plotter_of b names config d t mpe) i
  = map (fun k => map (fun s => nth i (coords s) 0%R) (iteration b k)) (kept b d t).
Proof.
  unfold param_rows, plotter_of, column. cbn [pl_chain]. rewrite map_map. apply map_ext. intros k. rewrite map_map. reflexivity.
Qed.

Lemma plot_burn_in_total b names config d t mpe : shaped b -> List.length names = bk_params b ->
  0 < bk_walkers b -> kept b d t <> [] -> finite_prior b ->
  exists l, plot_burn_in (plotter_of b names config d t mpe) = Ok l.
Proof.
  intros Hs Hn Hw Hk Hp. set (p := plotter_of b names config d t mpe). unfold plot_burn_in.
  replace (pl_params p) with (bk_params b) by reflexivity. set (P := bk_params b) in *.
  pose proof (half_up_enough (P + 2)) as Hh.
  destruct (per_param_total (half_up (P + 2))
    (fun i => do n <- name_at p i; Ok (mk_axes n (walker_curves p (map (map Fin) (param_rows p i))))) (seq 0 P)) as (l & El & Hl).
  { intros i Hi. apply in_seq in Hi. split; [lia|]. unfold name_at. cbn [pl_names p plotter_of].
    destruct (nth_error names i) eqn:E; [|apply nth_error_None in E; lia]. cbn [bind]. eexists. reflexivity. }
  rewrite El. cbn [bind]. rewrite add_subplot_ok by lia. cbn [bind].
  assert (F : forall (g : walker -> fl), (forall s it, In it (bk_iters b) -> In s it -> is_fin (log_post s) = true -> is_fin (g s) = true) ->
    finite_max (map (fun i => map g (iteration b i)) (kept b d t)) = Ok tt).
  { intros g Hg. apply finite_max_ok.
    - intros E. apply map_eq_nil in E. contradiction.
    - intros r Hr E. apply in_map_iff in Hr. destruct Hr as (i & <- & Hi). apply map_eq_nil in E.
      apply kept_in in Hi. destruct Hi as [Hi _]. apply iteration_in, Hs in Hi. rewrite E in Hi. cbn in Hi. lia.
    - intros r x Hr Hx. apply in_map_iff in Hr. destruct Hr as (i & <- & Hi). apply in_map_iff in Hx. destruct Hx as (s & <- & Hx).
      apply kept_in in Hi. destruct Hi as [Hi Hc]. unfold clean in Hc. rewrite forallb_forall in Hc.
      eapply Hg; [apply iteration_in, Hi|exact Hx|apply Hc, Hx]. }
  unfold p, plotter_of; cbn [pl_post pl_prior]; fold p.
  rewrite (F log_post) by auto. cbn [bind]. rewrite add_subplot_ok by lia. cbn [bind].
  rewrite (F log_prior_of) by (intros s it H1 H2 H3; eapply Hp; eassumption). cbn [bind].
  unfold last_two. destruct l as [|a l]; [|destruct l]; cbn [app bind]; eexists; reflexivity.
Qed.

Lemma plot_burn_in_at b names config d t mpe l : shaped b -> List.length names = bk_params b ->
  plot_burn_in (plotter_of b names config d t mpe) = Ok l ->
  map ax_label l = names ++ ["log posterior"; "log prior"] /\
  forall a ax, nth_error l a = Some ax -> List.length (ax_curves ax) = bk_walkers b /\
    forall j c, nth_error (ax_curves ax) j = Some c -> List.length c = List.length (kept b d t) /\
      forall k i, nth_error (kept b d t) k = Some i -> exists s v,
        nth_error (iteration b i) j = Some s /\ nth_error (shown s) a = Some v /\
        nth_error c k = Some (Fin (INR (k * t + d)), v).
Proof.
  intros Hs Hn H. set (p := plotter_of b names config d t mpe) in *. unfold plot_burn_in in H.
  replace (pl_params p) with (bk_params b) in H by reflexivity. set (P := bk_params b) in *.
  destruct (per_param _ _ _) as [l0|] eqn:E0 in H; [|discriminate H]. cbn [bind] in H.
  destruct (add_subplot (half_up (P + 2)) 2 (P + 1)) as [[]|] in H; [|discriminate H]. cbn [bind] in H.
  destruct (finite_max (pl_post p)) as [[]|] in H; [|discriminate H]. cbn [bind] in H.
  destruct (add_subplot (half_up (P + 2)) 2 (P + 2)) as [[]|] in H; [|discriminate H]. cbn [bind] in H.
  destruct (finite_max (pl_prior p)) as [[]|] in H; [|discriminate H]. cbn [bind] in H.
  destruct (last_two _) as [[]|] in H; [|discriminate H]. cbn [bind] in H. injection H as <-.
  apply per_param_ok in E0. destruct E0 as [L0 A0]. rewrite seq_length in L0.
  assert (A : forall i ax, nth_error l0 i = Some ax -> exists n, nth_error names i = Some n /\
    ax = mk_axes n (walker_curves p (map (map Fin) (param_rows p i)))).
  { intros i ax Hi. destruct (A0 i ax Hi) as (i' & Hi' & Hd & _).
    assert (i < P) by (rewrite <- L0; apply nth_error_Some; congruence).
    rewrite nth_error_seq in Hi' by assumption. injection Hi' as <-. cbn [Nat.add] in Hd. unfold name_at in Hd.
    cbn [pl_names p plotter_of] in Hd. destruct (nth_error names i) as [n|]; [|discriminate Hd]. cbn [bind] in Hd.
    injection Hd as <-. exists n. auto. }
  split.
  { rewrite map_app. cbn [map ax_label]. f_equal.
    assert (Hll : List.length l0 = List.length names) by (rewrite L0, Hn; reflexivity). clear -A Hll.
    assert (B : forall i ax, nth_error l0 i = Some ax -> nth_error names i = Some (ax_label ax)).
    { intros i ax Hi. destruct (A i ax Hi) as (n & E & ->). exact E. } clear A p.
    revert names Hll B. induction l0 as [|a l0 IH]; intros [|n names] Hll B; try discriminate; [reflexivity|].
    cbn. f_equal; [specialize (B 0 a eq_refl); cbn in B; congruence|]. apply IH; [cbn in Hll; lia|]. intros i ax Hi. exact (B (S i) ax Hi). }
  assert (W : forall g : walker -> fl, forall a, (forall i s, i < List.length (bk_iters b) -> In s (iteration b i) -> nth_error (shown s) a = Some (g s)) ->
    forall n, List.length (ax_curves (mk_axes n (walker_curves p (map (fun i => map g (iteration b i)) (kept b d t))))) = bk_walkers b /\
    forall j c, nth_error (ax_curves (mk_axes n (walker_curves p (map (fun i => map g (iteration b i)) (kept b d t))))) j = Some c ->
      List.length c = List.length (kept b d t) /\
      forall k i, nth_error (kept b d t) k = Some i -> exists s v,
        nth_error (iteration b i) j = Some s /\ nth_error (shown s) a = Some v /\
        nth_error c k = Some (Fin (INR (k * t + d)), v)).
  { intros g a Hg n. cbn [ax_curves]. split; [apply walker_curves_length|].
    intros j c Hc. assert (Hj : j < bk_walkers b).
    { change (bk_walkers b) with (pl_walkers p). erewrite <- walker_curves_length. apply nth_error_Some. rewrite Hc. discriminate. }
    destruct (walker_curves_at p (map (fun i => map g (iteration b i)) (kept b d t)) j Hj) as (c' & Hc' & Lc & Pc).
    rewrite Hc in Hc'. injection Hc' as <-. split; [rewrite Lc, map_length; reflexivity|].
    intros k i Hk. assert (Hi : In i (kept b d t)) by (eapply nth_error_In; exact Hk). apply kept_in in Hi. destruct Hi as [Hi _].
    pose proof (Hs _ (iteration_in _ _ Hi)) as [Hlen _].
    destruct (nth_error (iteration b i) j) as [s|] eqn:Es; [|apply nth_error_None in Es; lia].
    exists s, (g s). split; [reflexivity|]. split; [apply (Hg i s Hi); eapply nth_error_In; exact Es|].
    rewrite (Pc k (map g (iteration b i))) by (rewrite nth_error_map, Hk; reflexivity).
    cbn [pl_thin pl_discard p plotter_of]. repeat f_equal. apply nth_error_nth. rewrite nth_error_map, Es. reflexivity. }
  intros a ax Ha. destruct (le_lt_dec P a) as [Hp|Hp].
  - rewrite nth_error_app2 in Ha by lia. rewrite L0 in Ha.
    assert (Sh : forall i s, i < List.length (bk_iters b) -> In s (iteration b i) -> nth_error (shown s) a = nth_error [log_post s; log_prior_of s] (a - P)).
    { intros i s Hi Hin. pose proof (Hs _ (iteration_in _ _ Hi)) as [_ Hc]. specialize (Hc s Hin). unfold shown.
      rewrite nth_error_app2 by (rewrite map_length, Hc; exact Hp). rewrite map_length, Hc. reflexivity. }
    destruct (a - P) as [|[|q]]; cbn in Ha.
    + injection Ha as <-. apply W. exact Sh.
    + injection Ha as <-. apply W. exact Sh.
    + destruct q; discriminate Ha.
  - rewrite nth_error_app1 in Ha by lia. destruct (A a ax Ha) as (n & En & ->).
    unfold p; rewrite plotter_rows; fold p. rewrite map_map.
    rewrite (map_ext _ (fun i => map (fun s => Fin (nth a (coords s) 0%R)) (iteration b i))) by (intros i; apply map_map).
    apply W. intros i s Hi Hin. pose proof (Hs _ (iteration_in _ _ Hi)) as [_ Hc]. specialize (Hc s Hin). unfold shown.
    rewrite nth_error_app1 by (rewrite map_length, Hc; exact Hp). rewrite nth_error_map.
    rewrite (nth_error_nth' _ 0%R) by (rewrite Hc; exact Hp). reflexivity.
Qed.
