(** C96: what the plots of a chain show. *)
From Coq Require Import Reals Lra Lia.
From Verif Require Import Base BaseFacts ModelFloat ProofFloat ModelTwoHalf ModelParameter ModelContext SpecContext
  ProofContext ModelPlotter SpecPlotter ProofPlotter ProofPlotter2 ProofPlotter3 ProofAccept ProofAutocorr3.
Local Open Scope string_scope.
Local Open Scope list_scope.

(** The rows of chain, posterior and prior belong together: one for every iteration that is read and in which
    all samples have a finite posterior; the flat arrays have every sample with a finite posterior. *)
Theorem C96_kept b names config d t p : new_plotter b names config d t = Ok p ->
  n_iter p = List.length (kept b d t) /\ List.length (pl_post p) = n_iter p /\ List.length (pl_prior p) = n_iter p /\
  (forall k i, nth_error (kept b d t) k = Some i ->
     nth_error (pl_chain p) k = Some (map coords (iteration b i)) /\
     nth_error (pl_post p) k = Some (map log_post (iteration b i)) /\
     nth_error (pl_prior p) k = Some (map log_prior_of (iteration b i))) /\
  pl_flat p = map coords (finite_samples b d t) /\ pl_flat_post p = map log_post (finite_samples b d t) /\
  pl_flat_prior p = map log_prior_of (finite_samples b d t).
Proof.
  intros H. apply new_plotter_inv in H. destruct H as (_ & _ & _ & i & s & mpe & _ & _ & _ & ->).
  unfold n_iter, plotter_of. cbn [pl_chain pl_post pl_prior pl_flat pl_flat_post pl_flat_prior]. rewrite !map_length.
  repeat (split; [reflexivity|]). split; [|auto]. intros k j Hk. rewrite !nth_error_map, Hk. auto.
Qed.

(** Row [k] is iteration [k * thin + discard + thin - 1] of the run if no iteration was dropped. *)
Theorem C96_row b names config d t p k : new_plotter b names config d t = Ok p ->
  kept b d t = read_iterations b d t -> k < n_iter p ->
  nth_error (pl_chain p) k = Some (map coords (iteration b (k * t + d + t - 1))) /\
  k * t + d + t - 1 < List.length (bk_iters b).
Proof.
  intros H Hk Hn. pose proof (C96_kept _ _ _ _ _ _ H) as (L & _ & _ & R & _). rewrite L in Hn.
  apply new_plotter_inv in H. destruct H as (Ht & _).
  destruct (nth_error (kept b d t) k) as [i|] eqn:E; [|apply nth_error_None in E; lia].
  rewrite Hk in E. pose proof (read_at _ _ _ _ _ Ht E) as ->.
  split; [apply R; rewrite Hk; exact E|]. eapply read_in, nth_error_In, E.
Qed.

(** The constructor needs a sample with a finite posterior, and param_mpe is the point of a best one. *)
Theorem C96_mpe b names config d t : 0 < t -> shaped b -> NoDup names -> List.length names = bk_params b ->
  finite_samples b d t <> [] ->
  exists p s, new_plotter b names config d t = Ok p /\ In s (finite_samples b d t) /\
    (forall s', In s' (finite_samples b d t) -> fle (log_post s') (log_post s) = true) /\
    keys (pl_mpe p) = names /\ (forall j n, nth_error names j = Some n -> get n (pl_mpe p) = nth_error (coords s) j).
Proof.
  intros Ht Hs Hn Hl Hf. destruct (new_plotter_total b names config d t Ht Hf Hs Hn Hl) as (mpe & s & E & H1 & H2 & H3 & H4).
  exists (plotter_of b names config d t mpe), s. auto.
Qed.

Theorem C96_no_sample b names config d t : 0 < t -> bk_iters b <> [] -> finite_samples b d t = [] ->
  new_plotter b names config d t = Err ValueError.
Proof. intros Ht Hb Hf. rewrite new_plotter_eq by assumption. rewrite Hf. reflexivity. Qed.

(** param_mpe of the whole chain is what Context.get_post_parameters('mpe') returns for the same chain. *)
Theorem C96_as_context b names config pars f f' dct p : shaped b -> NoDup names -> List.length names = bk_params b ->
  (forall s, In s (List.concat (bk_iters b)) -> log_post s <> NaN /\ log_post s <> PInf) ->
  new_plotter b names config 0 1 = Ok p ->
  f_cache f = None -> f_chain f = Some (map (fun s => (map Fin (coords s), log_post s)) (List.concat (bk_iters b))) ->
  get_post_parameters Mpe names pars f = Ok (f', dct) ->
  forall n, In n names -> exists v, get n (pl_mpe p) = Some v /\ get n dct = Some (Fin v).
Proof.
  intros Hs Hnd Hl Hnan H Hc Hch Hg n Hin.
  apply new_plotter_inv in H. destruct H as (Ht & Hb & Hf & j & s & mpe & Ej & Es & Em & ->).
  unfold finite_samples in *. rewrite samples_all in *.
  destruct (argmax_filtered (List.concat (bk_iters b)) Hf Hnan) as (i & j' & s' & Ei & Ej' & Ni & Nj).
  rewrite Ej in Ej'. injection Ej' as <-. rewrite Es in Nj. injection Nj as <-.
  rewrite (read_uncached _ _ _ _ _ Hc Hch) in Hg. unfold chosen in Hg. rewrite map_map in Hg. cbn [snd] in Hg.
  change (map (fun x => log_post x) (List.concat (bk_iters b))) with (map log_post (List.concat (bk_iters b))) in Hg.
  rewrite Ei in Hg. cbn [bind] in Hg. unfold row in Hg. rewrite nth_error_map, Ni in Hg. cbn [option_map bind] in Hg. injection Hg as _ <-.
  assert (Hlen : List.length (coords s) = bk_params b).
  { apply (finite_sample_shape b 0 1); [exact Hs|]. unfold finite_samples. rewrite samples_all. eapply nth_error_In; exact Es. }
  destruct (name_values_ok names (coords s) [] Hnd) as (mpe' & Em' & _ & Gm & _); [intros m _ []|lia|].
  rewrite Em in Em'. injection Em' as <-. cbn [pl_mpe plotter_of].
  apply In_nth_error in Hin. destruct Hin as (q & Hq). rewrite (Gm q n Hq).
  assert (Hqn : q < List.length names) by (apply nth_error_Some; congruence).
  destruct (nth_error (coords s) q) as [v|] eqn:Ev; [|apply nth_error_None in Ev; lia].
  exists v. split; [reflexivity|].
  assert (Hkc : keys (combine names (map Fin (coords s))) = names).
  { unfold keys. apply combine_fst. rewrite map_length. lia. }
  rewrite get_update by (rewrite Hkc; exact Hnd).
  assert (Hi : In (n, Fin v) (combine names (map Fin (coords s)))).
  { apply (nth_error_In _ q). rewrite nth_error_combine, Hq, nth_error_map, Ev. reflexivity. }
  rewrite (In_get _ _ _ (eq_ind_r (@NoDup string) Hnd Hkc) Hi). reflexivity.
Qed.

(** The burn-in plot has one curve for every parameter, the posterior and the prior and for every walker; point
    [k] is at [k * thin + discard] and is the value in the [k]-th kept iteration, which is the iteration
    [thin - 1] after the position if no iteration was dropped. *)
Theorem C96_burn_in b names config d t p l : new_plotter b names config d t = Ok p -> shaped b ->
  List.length names = bk_params b -> plot_burn_in p = Ok l ->
  map ax_label l = names ++ ["log posterior"; "log prior"] /\
  forall a ax, nth_error l a = Some ax -> List.length (ax_curves ax) = bk_walkers b /\
    forall j c, nth_error (ax_curves ax) j = Some c -> List.length c = n_iter p /\
      forall k x v, nth_error c k = Some (x, v) -> exists i s,
        x = Fin (INR (k * t + d)) /\ nth_error (kept b d t) k = Some i /\
        nth_error (iteration b i) j = Some s /\ nth_error (shown s) a = Some v /\
        (kept b d t = read_iterations b d t -> i = (k * t + d) + t - 1).
Proof.
  intros H Hs Hl Hb. pose proof (C96_kept _ _ _ _ _ _ H) as (L & _).
  apply new_plotter_inv in H. destruct H as (Ht & _ & _ & i0 & s0 & mpe & _ & _ & _ & ->).
  destruct (plot_burn_in_at _ _ _ _ _ _ _ Hs Hl Hb) as [H1 H2]. split; [exact H1|].
  intros a ax Ha. destruct (H2 a ax Ha) as [H3 H4]. split; [exact H3|]. intros j c Hc.
  destruct (H4 j c Hc) as [H5 H6]. rewrite L. split; [exact H5|]. intros k x v Hk.
  assert (Hkl : k < List.length (kept b d t)) by (rewrite <- H5; apply nth_error_Some; congruence).
  destruct (nth_error (kept b d t) k) as [i|] eqn:Ei; [|apply nth_error_None in Ei; lia].
  destruct (H6 k i Ei) as (s & v' & E1 & E2 & E3). rewrite Hk in E3. injection E3 as -> ->.
  exists i, s. split; [reflexivity|]. split; [reflexivity|]. split; [exact E1|]. split; [exact E2|].
  intros Hr. rewrite Hr in Ei. apply (read_at _ _ _ _ _ Ht Ei).
Qed.

(** If some iterations were dropped the positions of the others are wrong: here the value drawn at 0 is that of
    iteration 1. *)
Definition fit_sample (x : R) : walker := ([x], (Fin 1, Fin 0)).
Definition bad_sample (x : R) : walker := ([x], (NInf, NInf)).
Definition demo_dropped : backend :=
  mk_backend 2 1 [[fit_sample 0; bad_sample 1]; [fit_sample 2; fit_sample 3]; [fit_sample 4; fit_sample 5]].

Ltac in_cases := repeat match goal with
  | H : _ \/ _ |- _ => destruct H as [H|H]
  | H : False |- _ => destruct H
  end.

Lemma demo_dropped_shaped : shaped demo_dropped.
Proof.
  intros it Hit. cbn [bk_iters demo_dropped In] in Hit. in_cases; subst it; (split; [reflexivity|]); intros s Hs;
    cbn [In] in Hs; in_cases; subst s; reflexivity.
Qed.
Lemma demo_dropped_prior : finite_prior demo_dropped.
Proof.
  intros it s Hit Hs Hf. cbn [bk_iters demo_dropped In] in Hit. in_cases; subst it; cbn [In] in Hs; in_cases; subst s; cbn in *; congruence.
Qed.

Theorem C96_dropped_refuted config : exists p l ax c,
  new_plotter demo_dropped ["a"] config 0 1 = Ok p /\ plot_burn_in p = Ok l /\
  nth_error l 0 = Some ax /\ nth_error (ax_curves ax) 0 = Some c /\
  nth_error c 0 = Some (Fin 0, Fin 2) /\
  nth_error (iteration demo_dropped 0) 0 = Some (fit_sample 0) /\
  nth_error (iteration demo_dropped 1) 0 = Some (fit_sample 2).
Proof.
  destruct (new_plotter_total demo_dropped ["a"] config 0 1) as (mpe & s & E & _).
  { lia. } { discriminate. } { apply demo_dropped_shaped. } { constructor; [intros []|constructor]. } { reflexivity. }
  destruct (plot_burn_in_total demo_dropped ["a"] config 0 1 mpe demo_dropped_shaped eq_refl ltac:(cbn; lia) ltac:(discriminate) demo_dropped_prior)
    as (l & El).
  destruct (plot_burn_in_at demo_dropped ["a"] config 0 1 mpe l demo_dropped_shaped eq_refl El) as [H1 H2].
  destruct l as [|ax l]; [discriminate H1|]. destruct (H2 0 ax eq_refl) as [H3 H4].
  destruct (ax_curves ax) as [|c cs] eqn:Ec; [discriminate H3|].
  destruct (H4 0 c eq_refl) as [H5 H6]. destruct (H6 0 1 eq_refl) as (s1 & v & E1 & E2 & E3).
  exists (plotter_of demo_dropped ["a"] config 0 1 mpe), (ax :: l), ax, c.
  split; [exact E|]. split; [exact El|]. split; [reflexivity|]. split; [rewrite Ec; reflexivity|].
  cbn in E1. injection E1 as <-. cbn in E2. injection E2 as <-. split; [exact E3|]. split; reflexivity.
Qed.

(** If every iteration has a sample that is not finite the plotter is made, but nothing can be plotted. *)
Definition demo_all_dropped : backend := mk_backend 2 1 [[fit_sample 0; bad_sample 1]; [bad_sample 2; fit_sample 3]].
Theorem C96_all_dropped_refuted config : exists p,
  new_plotter demo_all_dropped ["a"] config 0 1 = Ok p /\ plot_burn_in p = Err ValueError /\
  forall lo w, plot_autocorr lo p = Err ValueError /\ plot_acceptance p w = Err ValueError.
Proof.
  assert (Hs : shaped demo_all_dropped).
  { intros it Hit. cbn [bk_iters demo_all_dropped In] in Hit. in_cases; subst it; (split; [reflexivity|]); intros s Hs;
      cbn [In] in Hs; in_cases; subst s; reflexivity. }
  destruct (new_plotter_total demo_all_dropped ["a"] config 0 1) as (mpe & s & E & _).
  { lia. } { discriminate. } { exact Hs. } { constructor; [intros []|constructor]. } { reflexivity. }
  exists (plotter_of demo_all_dropped ["a"] config 0 1 mpe). split; [exact E|]. split; [reflexivity|]. intros lo w. split; reflexivity.
Qed.

(** The histograms show all samples with a finite posterior, and the curves of the priors are proportional to
    the prior density of the fit wherever that is not zero. *)
Theorem C96_marginal sigmas grid b names config d t p l : new_plotter b names config d t = Ok p ->
  List.length names = bk_params b -> (forall xs, exists vs, grid xs = map Fin vs) ->
  plot_marginal sigmas grid p = Ok l ->
  map pn_name l = names /\
  forall a pn, nth_error l a = Some pn ->
    pn_samples pn = map (fun s => nth a (coords s) 0%R) (finite_samples b d t) /\
    exists s, get (pn_name pn) config = Some s /\
      (drawable sigmas s -> s_type s = Some "free" -> pn_prior pn = None) /\
      (drawable sigmas s -> s_type s <> Some "free" -> exists pts c, pn_prior pn = Some pts /\ (0 < c)%R /\
         map fst pts = grid (pn_samples pn) /\
         forall v y q, In (Fin v, y) pts -> prior_term sigmas s (Fin v) = Ok (Fin q) -> y = Fin (c * exp q)).
Proof.
  intros H Hl Hg Hm. apply new_plotter_inv in H. destruct H as (_ & _ & _ & i & s0 & mpe & _ & _ & _ & ->).
  destruct (plot_marginal_at _ _ _ _ _ _ _ _ _ Hl Hm) as [H1 H2]. split; [exact H1|]. intros a pn Ha.
  destruct (H2 a pn Ha) as (s & Gs & Es & Ec). split; [exact Es|]. exists s. split; [exact Gs|].
  rewrite Es. destruct (Hg (samples_of b d t a)) as (vs & Ev). rewrite Ev in *.
  split; intros Hd Hty; destruct (curve_ok sigmas s vs Hd) as (o & Eo & [[T ->]|[T Ho]]); try congruence.
  rewrite Eo in Ec. injection Ec as Ec. rewrite <- Ec. exact Ho.
Qed.

(** A uniform prior is drawn outside of its range too. *)
Definition demo_uniform : setting :=
  mk_setting (Some "uniform") (Some [("lower", Fin 0); ("upper", Fin 1)]) (Some (Fin 0, Fin 1)) (Some (Fin 0)) (Some (Fin 1)).
Theorem C96_uniform_outside_refuted sigmas :
  prior_curve sigmas demo_uniform [Fin 2] = Ok (Some [(Fin 2, Fin 1)]) /\
  prior_term sigmas demo_uniform (Fin 2) = Ok NInf.
Proof.
  split.
  - unfold prior_curve, prior_pdf, demo_uniform. cbn [s_type s_args key bind String.eqb Ascii.eqb Bool.eqb get over].
    unfold uniform_pdf, fsub. cbn [fneg]. rewrite fadd_Fin. destruct (Req_EM_T (1 + - 0) 0); [lra|]. cbn [bind combine]. replace (/ (1 + - 0))%R with 1%R by (rewrite Ropp_0, Rplus_0_r, Rinv_1; reflexivity). reflexivity.
  - unfold prior_term, demo_uniform. cbn [s_type s_args s_range key bind fst snd flt orb].
    destruct (Rlt_dec 2 0); [lra|]. destruct (Rlt_dec 1 2); [reflexivity|lra].
Qed.

(** make_all_plots draws and saves everything for two or more fitted parameters. *)
Theorem C96_all_plots sigmas grid lo save b names config d t p : new_plotter b names config d t = Ok p ->
  shaped b -> List.length names = bk_params b -> 2 <= bk_params b -> 0 < bk_walkers b -> finite_prior b -> 0 < lo ->
  kept b d t <> [] -> (forall xs, exists vs, grid xs = map Fin vs) ->
  (forall n, In n names -> exists s, get n config = Some s /\ drawable sigmas s) ->
  make_all_plots sigmas grid lo (Ok tt) save p =
    (if save then ["burn_in"; "marginal_posterior"; "corner"; "autocorr"; "acceptance_fraction"] else [], Ok tt).
Proof.
  intros H Hs Hl HP HW Hp Hlo Hk Hg Hc. apply new_plotter_inv in H. destruct H as (_ & _ & _ & i & s0 & mpe & _ & _ & _ & ->).
  unfold make_all_plots.
  destruct (plot_burn_in_total b names config d t mpe Hs Hl HW Hk Hp) as (l1 & ->).
  destruct (plot_marginal_total sigmas grid b names config d t mpe ltac:(lia) Hl Hg Hc) as (l2 & ->).
  set (p := plotter_of b names config d t mpe).
  assert (Hn : 0 < n_iter p).
  { unfold n_iter, p, plotter_of. cbn [pl_chain]. rewrite map_length. destruct (kept b d t); [congruence|cbn; lia]. }
  destruct (plot_autocorr_total lo p Hlo Hn HW HP Hl) as (l3 & ->).
  destruct (plot_acceptance_eq (bk_walkers b) (bk_params b) p 100 eq_refl (kept_chain_shaped b d t Hs) HW Hn) as (mv & -> & _).
  destruct save; reflexivity.
Qed.

(** With one fitted parameter it stops with an IndexError after three plots. *)
Theorem C96_one_parameter_refuted sigmas grid lo save b names config d t p : new_plotter b names config d t = Ok p ->
  shaped b -> List.length names = bk_params b -> bk_params b = 1 -> 0 < bk_walkers b -> finite_prior b -> 0 < lo ->
  kept b d t <> [] -> (forall xs, exists vs, grid xs = map Fin vs) ->
  (forall n, In n names -> exists s, get n config = Some s /\ drawable sigmas s) ->
  make_all_plots sigmas grid lo (Ok tt) save p =
    (if save then ["burn_in"; "marginal_posterior"; "corner"] else [], Err IndexError).
Proof.
  intros H Hs Hl HP HW Hp Hlo Hk Hg Hc. apply new_plotter_inv in H. destruct H as (_ & _ & _ & i & s0 & mpe & _ & _ & _ & ->).
  unfold make_all_plots.
  destruct (plot_burn_in_total b names config d t mpe Hs Hl HW Hk Hp) as (l1 & ->).
  destruct (plot_marginal_total sigmas grid b names config d t mpe ltac:(lia) Hl Hg Hc) as (l2 & ->).
  set (p := plotter_of b names config d t mpe).
  assert (Hn : 0 < n_iter p).
  { unfold n_iter, p, plotter_of. cbn [pl_chain]. rewrite map_length. destruct (kept b d t); [congruence|cbn; lia]. }
  assert (E : plot_autocorr lo p = Err IndexError).
  { unfold plot_autocorr. destruct (n_iter p) as [|n'] eqn:En; [lia|].
    replace (pl_params p) with 1 by (symmetry; exact HP). cbn [seq per_param]. unfold add_subplot, half_up.
    change (Nat.div (1 + 1) 2) with 1. cbn [Nat.leb Nat.add Nat.mul andb bind].
    destruct (taus_at_total p 0 (map (geom_int lo (S n')) (seq 0 10)) HW ltac:(lia)) as (ts & Et).
    { intros n Hin. apply in_map_iff in Hin. destruct Hin as (j & <- & Hj). apply in_seq in Hj. apply geom_int_pos; lia. }
    cbn [seq] in Et. rewrite Et. cbn [bind]. unfold name_at. destruct (nth_error (pl_names p) 0) as [n|] eqn:Enm.
    - reflexivity.
    - apply nth_error_None in Enm. cbn [pl_names p plotter_of] in Enm. lia. }
  rewrite E. destruct save; reflexivity.
Qed.

(* ------------------------------------------------------------------ *)
(** * Cases *)

(** A run of two walkers and two parameters, read from the second iteration on, every second iteration. *)
Definition pt (x y l : R) : walker := ([x; y], (Fin l, Fin 0)).
Definition demo_run : backend := mk_backend 2 2
  [[pt 0 0 1; pt 1 1 2]; [pt 0 1 1; pt 1 0 2]; [pt 2 1 3; pt 1 0 2]; [pt 2 1 3; pt 3 3 5]; [pt 4 4 4; pt 3 3 5]; [pt 5 4 4; pt 3 1 5]].

Lemma demo_run_shaped : shaped demo_run.
Proof.
  intros it Hit. cbn [bk_iters demo_run In] in Hit. in_cases; subst it; (split; [reflexivity|]); intros s Hs;
    cbn [In] in Hs; in_cases; subst s; reflexivity.
Qed.
Lemma demo_run_prior : finite_prior demo_run.
Proof. intros it s Hit Hs Hf. cbn [bk_iters demo_run In] in Hit. in_cases; subst it; cbn [In] in Hs; in_cases; subst s; reflexivity. Qed.

Example C96_read_case : read_iterations demo_run 1 2 = [2; 4] /\ kept demo_run 1 2 = [2; 4] /\ kept demo_dropped 0 1 = [1; 2].
Proof. repeat split; reflexivity. Qed.

Definition demo_free : setting := mk_setting (Some "free") (Some []) (Some (Fin 0, Fin 9)) (Some (Fin 0)) (Some (Fin 1)).
Definition demo_norm : setting :=
  mk_setting (Some "norm") (Some [("mean", Fin 1); ("std", Fin 2)]) (Some (Fin 0, Fin 9)) (Some (Fin 0)) (Some (Fin 1)).
Definition demo_config : dict setting := [("a", demo_norm); ("b", demo_free)].
Lemma demo_drawable sigmas : forall n, In n ["a"; "b"] -> exists s, get n demo_config = Some s /\ drawable sigmas s.
Proof.
  intros n Hn. cbn [In] in Hn. in_cases; subst n; eexists; (split; [reflexivity|]).
  - exists "norm", [("mean", Fin 1); ("std", Fin 2)]. split; [reflexivity|]. split; [reflexivity|]. right. left.
    split; [reflexivity|]. split; [reflexivity|]. exists 1%R, 2%R. split; [reflexivity|]. split; [reflexivity|]. lra.
  - exists "free", []. split; [reflexivity|]. split; [reflexivity|]. left. reflexivity.
Qed.

Example C96_mpe_case : exists p, new_plotter demo_run ["a"; "b"] demo_config 1 2 = Ok p /\ n_iter p = 2 /\
  forall sigmas, make_all_plots sigmas (fun l => map Fin l) 100 (Ok tt) true p =
    (["burn_in"; "marginal_posterior"; "corner"; "autocorr"; "acceptance_fraction"], Ok tt).
Proof.
  destruct (C96_mpe demo_run ["a"; "b"] demo_config 1 2) as (p & s & E & _); [lia|apply demo_run_shaped| |reflexivity|discriminate|].
  { constructor; [intros [H|[]]; discriminate H|constructor; [intros []|constructor]]. }
  exists p. split; [exact E|]. split; [apply (C96_kept _ _ _ _ _ _ E)|]. intros sigmas.
  apply (C96_all_plots sigmas (fun l => map Fin l) 100 true _ _ _ _ _ _ E); try (cbn; lia).
  - apply demo_run_shaped.
  - apply demo_run_prior.
  - discriminate.
  - intros xs. exists xs. reflexivity.
  - apply demo_drawable.
Qed.

Example C96_prior_case : drawable (fun ep en => Ok (ep, en)) demo_norm /\ s_type demo_norm <> Some "free" /\
  exists q, prior_term (fun ep en => Ok (ep, en)) demo_norm (Fin 3) = Ok (Fin q) /\ q <> 0%R.
Proof.
  split; [|split; [discriminate|]].
  - destruct (demo_drawable (fun ep en => Ok (ep, en)) "a" (or_introl eq_refl)) as (s & Gs & Hs). cbn in Gs. injection Gs as <-. exact Hs.
  - unfold prior_term, demo_norm. cbn [s_type s_args s_range key bind fst snd flt orb get String.eqb Ascii.eqb Bool.eqb].
    destruct (Rlt_dec 3 0); [lra|]. destruct (Rlt_dec 9 3); [lra|]. cbn [orb]. unfold fsqr, fsub. cbn [fneg fmul]. rewrite fadd_Fin. cbn [fneg fmul].
    rewrite !fdiv_pos by lra. eexists. split; [reflexivity|]. lra.
Qed.

Print Assumptions C96_kept.
Print Assumptions C96_row.
Print Assumptions C96_mpe.
Print Assumptions C96_no_sample.
Print Assumptions C96_as_context.
Print Assumptions C96_burn_in.
Print Assumptions C96_dropped_refuted.
Print Assumptions C96_all_dropped_refuted.
Print Assumptions C96_marginal.
Print Assumptions C96_uniform_outside_refuted.
Print Assumptions C96_all_plots.
Print Assumptions C96_one_parameter_refuted.
