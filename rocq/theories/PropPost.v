(** Properties of reading a chain: C103. *)
From Coq Require Import Reals Lra Lia Permutation.
From Verif Require Import Base BaseFacts ModelFloat ProofFloat ModelHist ModelShare ModelConfig ModelComponent ModelCompile ModelParameter ModelLikelihood ModelBinning
  ModelLit ModelContext ModelFit ModelWhole ModelPost SpecParameter SpecLikelihood SpecContext SpecFit SpecPost ProofParameter ProofParameter2
  ProofContext ProofFit ProofFit2 ProofFit3 ProofFit4 ProofFit5 ProofFit6 ProofFit7 ProofWhole ProofPost ProofPost2 ProofPost3 PropParameter PropContext PropFit PropWhole PropWholeLit.
Local Open Scope string_scope.
Local Open Scope list_scope.

(** The median of each fitted parameter over the samples of the chain; the other parameters as they are. *)
Theorem C103_median names pars f c : f_cache f = None -> f_chain f = Some c -> c <> [] ->
  (forall v lp, In (v, lp) c -> List.length v = List.length names /\ forall y, In y v -> exists r, y = Fin r) ->
  NoDup names -> (forall n, In n names -> In n (keys pars)) ->
  exists f' d, get_post_parameters Median names pars f = Ok (f', d) /\ keys d = keys pars /\
    (forall j n, nth_error names j = Some n -> exists m, get n d = Some (Fin m) /\ forall rs, column c j rs -> is_median rs m) /\
    (forall n, ~ In n names -> get n d = get n pars).
Proof.
  intros Hc Hch Hne Hl Hn Hk. destruct (medians_ok c _ Hne Hl) as [L M].
  rewrite (read_uncached _ _ _ _ _ Hc Hch). cbn [chosen bind]. eexists _, _. split; [reflexivity|].
  assert (Hkc : keys (combine names (medians c)) = names).
  { clear - L. revert L. generalize (medians c) as v. induction names as [|n l IH]; intros [|x v] H; try discriminate; [reflexivity|].
    cbn. f_equal. apply IH. cbn in H. lia. }
  assert (Hnd : NoDup (keys (combine names (medians c)))) by (rewrite Hkc; exact Hn). split; [|split].
  - apply update_same_keys. intros n Hin. rewrite Hkc in Hin. auto.
  - intros j n Hj. destruct (M j) as (m & Em & Hm); [apply nth_error_Some; congruence|]. exists m. split; [|exact Hm].
    rewrite get_update by exact Hnd. assert (Hin : In (n, Fin m) (combine names (medians c))).
    { clear - Hj Em. revert Em. generalize (medians c) as v. revert j Hj. induction names as [|k l IH]; intros [|j] Hj [|y v] Em; try discriminate.
      - cbn in *. left. congruence.
      - cbn in *. right. eapply IH; eassumption. }
    rewrite (In_get _ _ _ Hnd Hin). reflexivity.
  - intros n Hin. rewrite get_update by exact Hnd. assert (Hnone : get n (combine names (medians c)) = None) by (apply get_None_keys; rewrite Hkc; exact Hin).
    rewrite Hnone. reflexivity.
Qed.

(** There is exactly one median of some numbers. *)
Theorem C103_one_median l : l <> [] -> exists m, is_median l m /\ forall m', is_median l m' -> m' = m.
Proof. intros H. exists (rmedian l). split; [apply rmedian_ok, H|]. intros m' Hm. apply (median_unique l); [exact H|exact Hm|apply rmedian_ok, H]. Qed.

(** It is not outside of the numbers. *)
Theorem C103_between l m : l <> [] -> is_median l m -> exists a b, In a l /\ In b l /\ (a <= m <= b)%R.
Proof. intros H [Hm _]. apply halves_between; assumption. Qed.

Section Fits.
  Variables K Rng : Type.
  Variables normal uniform : fl -> fl -> Rng -> result (fl * Rng).
  Variable sigmas : fl -> fl -> result (fl * fl).
  Variable ls : dict (llh_fun K).
  Variable fresh : nat -> nat -> K.
  Variable independent : list (list fl) -> result bool.
  Notation fit := (fitting K Rng normal sigmas ls fresh independent).

  (** After the first fit of a context every choice gives all the parameters: the fitted ones finite and in their ranges, the
      fixed ones as configured. 'random' gives the recorded sample that was drawn, 'median' the medians of the recorded
      samples. *)
  Theorem C103_after_fit nw n b t mv x x' res w : normal_finite normal -> fittable x ->
    moves_in (List.length (parameter_fit (x_pars Rng x))) mv -> x_cache Rng x = None -> (0 < n)%nat -> fit nw n b t mv x = (x', Ok res) ->
    (w = Mpe \/ w = Median \/ exists i, w = RandomAt i /\ (i < n * nw)%nat) ->
    exists s x2 d, x_sampler Rng x' = Some s /\ post_parameters Rng w x' = (x2, Ok d) /\
      (forall m, In m (keys d) <-> In m (keys (p_config (x_pars Rng x)))) /\
      (forall m, In m (parameter_fit (x_pars Rng x)) -> exists c v, get m (p_config (x_pars Rng x)) = Some c /\ get m d = Some (Fin v) /\ in_range c (Fin v)) /\
      (forall m c args, get m (p_config (x_pars Rng x)) = Some c -> s_type c = Some "fixed" -> s_args c = Some args -> get m d = get "val" args) /\
      (forall i, w = RandomAt i -> exists k, nth_error (List.concat (recorded x' s)) i = Some k /\
         forall m v, In (m, v) (combine (parameter_fit (x_pars Rng x)) (w_pos k)) -> get m d = Some v) /\
      (w = Median -> forall j m rs, nth_error (parameter_fit (x_pars Rng x)) j = Some m ->
         Forall2 (fun k r => nth_error (w_pos k) j = Some (Fin r)) (List.concat (recorded x' s)) rs ->
         exists v, get m d = Some (Fin v) /\ is_median rs v).
  Proof.
    intros Hr Hfit Hm Hc Hn H Hw.
    destruct (fit_reads K Rng normal sigmas ls fresh independent nw n b t mv x x' res Hr Hfit Hm Hc Hn H) as (s & Es & R).
    destruct (C100_samples K Rng normal sigmas ls fresh independent nw n b t mv x x' (Ok res) Hr Hfit Hm H) as (s' & Es' & En & G & O).
    rewrite Es in Es'. injection Es' as <-. destruct (O res eq_refl) as [O1 O2].
    destruct (C100_fixed K Rng normal sigmas ls fresh independent nw n b t mv x x' (Ok res) Hr Hfit Hm H) as (F1 & F2 & F3 & F4).
    specialize (F4 O2). set (c := flat (recorded x' s)) in *. pose proof Hfit as (M & _ & _).
    assert (Lc : List.length c = n * nw) by (unfold c; rewrite (flat_length _ nw); [rewrite O1; reflexivity|]; intros ws Hi; apply (G ws Hi)).
    assert (NE : c <> []) by (intros E; rewrite E in Lc; cbn in Lc; nia).
    assert (A : forall v lp, In (v, lp) c -> allowed (p_config (x_pars Rng x)) (parameter_fit (x_pars Rng x)) v /\ lp <> NaN).
    { intros v lp Hi. apply in_flat in Hi. destruct Hi as (ws & k & H1 & H2 & <- & <-). destruct (G ws H1) as [_ G2]. destruct (G2 k H2) as (G3 & _ & G4).
      rewrite En in G3. auto. }
    assert (Ch : exists v, chosen w c = Ok v /\ allowed (p_config (x_pars Rng x)) (parameter_fit (x_pars Rng x)) v /\
      (forall i, w = RandomAt i -> exists k, nth_error (List.concat (recorded x' s)) i = Some k /\ w_pos k = v) /\ (w = Median -> v = medians c)).
    { destruct Hw as [-> | [-> | (i & -> & Hi)]].
      - destruct (best_of_ok c NE) as (i & lp & E & Ei & _); [intros v lp Hi; apply (A v lp Hi)|]. exists (best_of c). cbn [chosen]. rewrite E. cbn [bind]. unfold row. rewrite Ei.
        split; [reflexivity|]. split; [apply (A _ _ (nth_error_In _ _ Ei))|]. split; [intros j Hj; discriminate Hj|discriminate].
      - exists (medians c). split; [reflexivity|]. split; [apply medians_allowed; [exact NE|intros v lp Hi; apply (A v lp Hi)]|]. split; [intros j Hj; discriminate Hj|reflexivity].
      - destruct (nth_error c i) as [[v lp]|] eqn:Ei; [|apply nth_error_None in Ei; lia]. exists v. cbn [chosen]. unfold row. rewrite Ei.
        split; [destruct c; [congruence|reflexivity]|]. split; [apply (A _ _ (nth_error_In _ _ Ei))|]. split; [|discriminate].
        intros j Hj. injection Hj as <-. destruct (in_flat_nth _ _ _ _ Ei) as (k & H1 & H2 & _). exists k. auto. }
    destruct Ch as (v & Ev & Av & Hrand & Hmed). pose proof (post_any Rng w x' s c v Es R Ev) as PV.
    exists s. eexists. eexists. split; [exact Es|]. split; [exact PV|]. rewrite En.
    assert (Nf : NoDup (parameter_fit (x_pars Rng x))) by (apply fit_NoDup, M).
    assert (Lv : List.length v = List.length (parameter_fit (x_pars Rng x))) by apply (allowed_finite _ _ _ Av).
    assert (Kc : keys (combine (parameter_fit (x_pars Rng x)) v) = parameter_fit (x_pars Rng x)).
    { clear - Lv. revert v Lv. generalize (parameter_fit (x_pars Rng x)) as l. induction l as [|a l IH]; intros [|y v] L; try discriminate L; [reflexivity|]. cbn. f_equal. apply IH. cbn in L. lia. }
    assert (Nc : NoDup (keys (combine (parameter_fit (x_pars Rng x)) v))) by (rewrite Kc; exact Nf).
    assert (Val : forall m y, In (m, y) (combine (parameter_fit (x_pars Rng x)) v) ->
      get m (update (p_values (x_pars Rng x')) (combine (parameter_fit (x_pars Rng x)) v)) = Some y).
    { intros m y Hi. rewrite get_update by exact Nc. rewrite (In_get _ _ _ Nc Hi). reflexivity. }
    assert (Pos : forall j m y, nth_error (parameter_fit (x_pars Rng x)) j = Some m -> nth_error v j = Some y -> In (m, y) (combine (parameter_fit (x_pars Rng x)) v)).
    { clear. generalize (parameter_fit (x_pars Rng x)) as l. intros l. revert v. induction l as [|a l IH]; intros [|z v] [|j] m y H1 H2; try discriminate.
      - cbn in *. left. congruence.
      - right. apply (IH v j m y H1 H2). }
    split; [|split; [|split; [|split]]].
    - intros m. rewrite keys_update_In, F3, Kc. split; [intros [A1|A1]; [exact A1|]|auto]. destruct M as (M1 & M2 & M3 & M4). rewrite <- M3. apply fit_known; [|exact A1]. split; [exact M1|]. auto.
    - intros m Hi. apply In_nth_error in Hi. destruct Hi as (j & Hj). destruct (allowed_nth _ _ _ _ _ Av Hj) as (c0 & r & E1 & E2 & E3). exists c0, r.
      split; [exact E1|]. split; [|exact E3]. apply Val, (Pos j); assumption.
    - intros m c0 args E1 Et Ea. rewrite get_update by exact Nc. destruct (get m (combine _ _)) as [y|] eqn:Eg.
      + exfalso. apply get_In in Eg. apply in_combine_l in Eg. apply fit_in in Eg. destruct (free_setting (x_pars Rng x) m M Eg) as (s2 & ty & E2 & Et2 & Hx). congruence.
      + apply (F4 m c0 args E1 Et Ea).
    - intros i Ei. destruct (Hrand i Ei) as (k & H1 & <-). exists k. split; [exact H1|]. exact Val.
    - intros Ew j m rs Hj Hrs. specialize (Hmed Ew). subst v. destruct (medians_ok c (List.length (parameter_fit (x_pars Rng x))) NE) as [_ Mo].
      { intros v lp Hi. eapply allowed_finite, (A v lp Hi). }
      destruct (Mo j) as (v & E1 & E2); [apply nth_error_Some; congruence|]. exists v. split; [apply Val, (Pos j); assumption|]. apply E2.
      unfold column, c, flat. clear - Hrs. induction Hrs as [|k r l rs Hk _ IH]; constructor; assumption.
  Qed.

  (** The template of a component after the first fit: its simulation with the parameters of a best recorded sample and the
      configured values; nothing else of the context matters. *)
  Theorem C103_template nw n b t mv x x' res (c : context K) lname cname L sim key batch : normal_finite normal -> fittable x ->
    moves_in (List.length (parameter_fit (x_pars Rng x))) mv -> x_cache Rng x = None -> (0 < n)%nat -> fit nw n b t mv x = (x', Ok res) ->
    get lname (cx_llhs c) = Some L -> get cname (wl_sims L) = Some sim ->
    exists s d l w, x_sampler Rng x' = Some s /\ In l (recorded x' s) /\ In w l /\
      (forall l' w', In l' (recorded x' s) -> In w' l' -> fle (w_logp w') (w_logp w) = true) /\
      (forall m, In m (keys d) <-> In m (keys (p_config (x_pars Rng x)))) /\
      (forall m v, In (m, v) (combine (parameter_fit (x_pars Rng x)) (w_pos w)) -> get m d = Some v) /\
      (forall m g args, get m (p_config (x_pars Rng x)) = Some g -> s_type g = Some "fixed" -> s_args g = Some args -> get m d = get "val" args) /\
      (forall key' cols, sim key batch d = Ok (key', cols) -> snd (get_template K Rng c lname cname key batch x') = Ok cols) /\
      (forall e, sim key batch d = Err e -> snd (get_template K Rng c lname cname key batch x') = Err e).
  Proof.
    intros Hr Hfit Hm Hc Hn H HL Hs.
    destruct (C100_best K Rng normal sigmas ls fresh independent nw n b t mv x x' res Hr Hfit Hm Hc Hn H) as (s & x2 & d & l & w & E1 & E2 & E3 & E4 & E5 & E6 & E7 & E8 & _).
    exists s, d, l, w. do 7 (split; [assumption|]). unfold get_template. rewrite E2. cbn [snd]. unfold template. rewrite HL, Hs. split.
    - intros key' cols E. rewrite E. reflexivity.
    - intros e E. rewrite E. reflexivity.
  Qed.

  (** Without a fit there is no template, and the names must exist. *)
  Theorem C103_no_template (c : context K) lname cname key batch x :
    (x_sampler Rng x = None -> get_template K Rng c lname cname key batch x = (x, Err AttributeError)) /\
    (forall x2 d, post_parameters Rng Mpe x = (x2, Ok d) ->
       (get lname (cx_llhs c) = None \/ exists L, get lname (cx_llhs c) = Some L /\ get cname (wl_sims L) = None) ->
       get_template K Rng c lname cname key batch x = (x2, Err KeyError)).
  Proof.
    split.
    - intros E. unfold get_template, post_parameters. rewrite E. reflexivity.
    - intros x2 d E Hx. unfold get_template, template. rewrite E. destruct Hx as [Hx|(L & E1 & Hx)]; [rewrite Hx; reflexivity|]. rewrite E1, Hx. reflexivity.
  Qed.
End Fits.

(** The template of a simulated component are the events of which the component makes its histogram with the same key, batch
    size and parameters. *)
Theorem C103_template_events {K} (E : ModelWhole.env K) manager ins par w w' c lname L cname lc hist sim :
  new_context K E manager ins par w = (w', Ok c) -> get lname (cx_llhs c) = Some L ->
  get cname (ll_components (wl_llh L)) = Some lc -> l_kind lc = LSim hist -> get cname (wl_sims L) = Some sim ->
  exists cn, forall key batch p key' cols, sim key batch p = Ok (key', cols) -> cols <> [] ->
    template K c lname cname key batch p = Ok cols /\
    ((forall a b, In a cols -> In b cols -> List.length a = List.length b) ->
     exists rows, events cols rows /\ hist key batch p = sim_hist (e_row E) cn (fun _ _ _ => Ok (key', rows)) key batch p).
Proof.
  intros Hc HL Hl Hk Hs. pose proof (context_paired K E _ _ _ _ _ _ Hc) as P.
  destruct (get_Forall _ _ _ _ P HL) as [k' HP]. pose proof (paired_get K E _ _ HP _ _ _ Hl Hs) as (_ & lname' & on & bins & k & file & wa & wb & Hb). cbn [fst snd] in Hb.
  destruct (construct_pair K E _ _ _ _ _ _ _ _ _ _ _ Hb Hk) as (cl & cn & -> & ->). exists cn. intros key batch p key' cols E1 Hne. split.
  - unfold template. rewrite HL, Hs, E1. reflexivity.
  - intros Hlen. destruct (rows_total cols (match cols with [] => 0 | a :: _ => List.length a end)) as [rows Hr].
    { intros a Ha. destruct cols as [|c0 cs]; [destruct Ha|]. apply Hlen; [exact Ha|left; reflexivity]. }
    exists rows. split; [apply rows_events; assumption|].
    assert (Er : sim_rows K E cl key batch p = Ok (key', rows)).
    { unfold sim_cols in E1. unfold sim_rows. destruct (run_closure _ _ _ _ _ _) as [[v outs]|e]; [|discriminate E1]. destruct v; try discriminate E1.
      destruct (arrays K outs) as [cols'|e]; [|discriminate E1]. injection E1 as -> ->. rewrite Hr. reflexivity. }
    unfold sim_hist. rewrite Er. reflexivity.
Qed.

(** A component with fixed events has no template. *)
Theorem C103_template_fixed {K} (E : ModelWhole.env K) manager ins par w w' c lname L cname lc hist sim key batch p :
  new_context K E manager ins par w = (w', Ok c) -> get lname (cx_llhs c) = Some L ->
  get cname (ll_components (wl_llh L)) = Some lc -> l_kind lc = LFixed hist -> get cname (wl_sims L) = Some sim ->
  template K c lname cname key batch p = Err TypeError.
Proof.
  intros Hc HL Hl Hk Hs. pose proof (context_paired K E _ _ _ _ _ _ Hc) as P.
  destruct (get_Forall _ _ _ _ P HL) as [k' HP]. pose proof (paired_get K E _ _ HP _ _ _ Hl Hs) as (_ & lname' & on & bins & k & file & wa & wb & Hb). cbn [fst snd] in Hb.
  unfold template. rewrite HL, Hs, (construct_fixed K E _ _ _ _ _ _ _ _ _ _ _ Hb Hk key batch p). reflexivity.
Qed.

(* ------------------------------------------------------------------ *)
(** * Concrete cases *)

Ltac compare_all :=
  repeat match goal with
         | |- context [Rle_dec ?x ?y] => destruct (Rle_dec x y)
         | H : context [Rle_dec ?x ?y] |- _ => destruct (Rle_dec x y)
         end; cbn in *; first [lia | lra | exfalso; lra | split; first [lia | exfalso; lra]].

(** The aliases of the likelihood are not applied: this context has a finite log likelihood at its best sample, but no template
    there. *)
Definition t_ctx : fctx nat :=
  mk_fctx nat (l_state 3) ["nr_rate"; "lux_field"] false None
    (Some (mk_sampler nat ["lux_field"] (Some (mk_backend nat (1, 1) [[mk_walker [Fin 3] (Fin 0) (Fin 0)]] None no_meta)) 0 None)) None 0 0.
Theorem C103_template_alias_refuted : exists w' x2 d v, new_context nat l_env w_manager l_ins (Ok l_par) init_world = (w', Ok l_context) /\
  post_parameters nat Mpe t_ctx = (x2, Ok d) /\ wl_log_likelihood l_llh 0 1 d = Ok (2, Fin v) /\
  get_template nat nat l_context "lux" "nr" 0 1 t_ctx = (x2, Err KeyError).
Proof.
  exists l_w2. do 3 eexists. split; [exact l_context_made|]. split; [lazy; reflexivity|]. split; [|lazy; reflexivity]. exact (l_value 0 1).
Qed.

(** The medians are not a sample: all samples of this chain have a log posterior above minus infinity, the medians do not. *)
Definition t_llh : dict (llh_fun nat) :=
  [("l", fun k _ p => match get "a" p with Some (Fin r) => Ok (k, if Req_EM_T r 0 then NInf else Fin 0) | _ => Err KeyError end)].
Definition t_state : pstate := mk_pstate [("a", ex_free)] [] ["a"] [("a", Fin 5)].
Definition t_post (d : dict fl) := snd (log_posterior nat PropFit.ex_sigmas t_llh (fun i => i) t_state d 10 1).
Lemma t_post_eq r : t_post [("a", Fin r)] = Ok (if Req_EM_T r 0 then NInf else Fin (0 + 0 + (0 + 0)), Fin (0 + 0)).
Proof. unfold t_post. lazy -[Rplus Req_EM_T IZR]. destruct (Req_EM_T r 0); reflexivity. Qed.
Theorem C103_median_zero_refuted : exists c f' d x,
  (forall v lp, In (v, lp) c -> exists r y, v = [Fin r] /\ lp = Fin y /\ t_post [("a", Fin r)] = Ok (lp, x)) /\
  get_post_parameters Median ["a"] (p_values t_state) (mk_fitctx (Some c) None false) = Ok (f', d) /\
  t_post d = Ok (NInf, x) /\ forall v lp, In (v, lp) c -> d <> combine ["a"] v.
Proof.
  set (y := (0 + 0 + (0 + 0))%R).
  assert (C1 : column [([Fin 1], Fin y); ([Fin (-1)], Fin y)] 0 [1; -1]%R) by (repeat constructor).
  destruct (C103_median ["a"] (p_values t_state) (mk_fitctx (Some [([Fin 1], Fin y); ([Fin (-1)], Fin y)]) None false) _ eq_refl eq_refl) as (f' & d & E1 & E2 & E3 & _).
  - discriminate.
  - intros v lp [X|[X|[]]]; injection X as <- <-; (split; [reflexivity|]); intros z [<-|[]]; eexists; reflexivity.
  - repeat constructor. intros [].
  - intros n [<-|[]]. left. reflexivity.
  - destruct (E3 0 "a" eq_refl) as (m & Em & Hm). specialize (Hm _ C1).
    assert (M0 : m = 0%R).
    { destruct (C103_one_median [1; -1]%R) as (m0 & _ & U); [discriminate|]. rewrite (U m Hm). symmetry. apply U. split.
      - unfold halves. cbn [filter]. compare_all.
      - intros z (H1 & H2). cbn [filter] in H1, H2. unfold halves. cbn [filter]. compare_all. }
    subst m. assert (Ed : d = [("a", Fin 0)]).
    { destruct d as [|[n v] [|]]; try discriminate E2. cbn in E2. injection E2 as ->. cbn in Em. congruence. }
    subst d. exists [([Fin 1], Fin y); ([Fin (-1)], Fin y)], f', [("a", Fin 0)], (Fin (0 + 0)). split; [|split; [exact E1|split]].
    + intros v lp [X|[X|[]]]; injection X as <- <-; eexists _, y; (split; [reflexivity|]); (split; [reflexivity|]); rewrite t_post_eq; destruct (Req_EM_T _ 0); [lra|reflexivity|lra|reflexivity].
    + rewrite t_post_eq. destruct (Req_EM_T 0 0); [reflexivity|congruence].
    + intros v lp [X|[X|[]]]; injection X as <- <-; cbn; intros X; injection X as X; lra.
Qed.

(** The medians of two parameters of three samples: 1 and 5, not together in a sample. *)
Example C103_median_case : is_median [0; 1; 2]%R 1 /\ is_median [5; 9; 0]%R 5 /\ ~ In (1, 5)%R (combine [0; 1; 2]%R [5; 9; 0]%R).
Proof.
  assert (H : forall a b c m, (a <= m <= b)%R \/ (b <= m <= a)%R -> c = m -> forall l, Permutation l [a; b; c] -> (forall y, halves l y -> y = m) -> is_median l m).
  { intros a b c m Hab -> l P U. split.
    - eapply halves_perm; [apply Permutation_sym, P|]. unfold halves. cbn [filter]. compare_all.
    - intros y Hy. rewrite (U y Hy). replace (2 * m - m)%R with m by lra.
      eapply halves_perm; [apply Permutation_sym, P|]. unfold halves. cbn [filter]. compare_all. }
  split; [|split].
  - apply (H 0 2 1 1)%R; [lra|reflexivity|apply perm_skip, perm_swap|]. intros y (H1 & H2). cbn [filter] in H1, H2. compare_all.
  - apply (H 9 0 5 5)%R; [lra|reflexivity| |].
    + eapply perm_trans; [apply perm_swap|]. apply perm_skip, perm_swap.
    + intros y (H1 & H2). cbn [filter] in H1, H2. compare_all.
  - cbn. intros [X|[X|[X|[]]]]; injection X; intros; lra.
Qed.

(** A fit whose samples can be read in all three ways. *)
Example C103_fit_case : exists x' res, ex_fit 2 2 (ex_jump (Fin 1)) (ex_ctx "a" ex_free false) = (x', Ok res) /\
  forall w, In w [Mpe; Median; RandomAt 3] -> exists x2 d, post_parameters nat w x' = (x2, Ok d) /\ get "z" d = Some (Fin 7) /\ exists v, get "a" d = Some (Fin v).
Proof.
  destruct (ex_fit 2 2 (ex_jump (Fin 1)) (ex_ctx "a" ex_free false)) as [x' [res|e]] eqn:E; [|lazy in E; discriminate E]. exists x', res. split; [reflexivity|].
  intros w Hw. destruct (C103_after_fit nat nat ex_normal PropFit.ex_sigmas ex_llh ex_fresh ex_ind 2 2 10 1 (ex_jump (Fin 1)) (ex_ctx "a" ex_free false) x' res w C100_normal
    (C100_fittable "a" false ltac:(discriminate)) (C100_jump_in (Fin 1)) eq_refl ltac:(lia) E) as (s & x2 & d & _ & P & _ & A & F & _).
  - destruct Hw as [<-|[<-|[<-|[]]]]; [left; reflexivity|right; left; reflexivity|right; right]. exists 3. split; [reflexivity|lia].
  - exists x2, d. split; [exact P|]. split.
    + apply (F "z" ex_fixed [("val", Fin 7)]); reflexivity.
    + destruct (A "a" (or_introl eq_refl)) as (c & v & _ & Hv & _). exists v. exact Hv.
Qed.

(** A template: the columns of the component at lux_field 3, if the parameter is given by the name the component uses. *)
Example C103_template_case : exists sim, get "nr" (wl_sims l_llh) = Some sim /\ get "lux" (cx_llhs l_context) = Some l_llh /\
  (exists lc hist, get "nr" (ll_components (wl_llh l_llh)) = Some lc /\ l_kind lc = LSim hist) /\
  template nat l_context "lux" "nr" 0 1 [("field", Fin 3)] = Ok [[Fin 1; Fin 2]; [fmul (Fin 1) (Fin 3); fmul (Fin 2) (Fin 3)]; [Fin 1]].
Proof. eexists. split; [reflexivity|]. split; [reflexivity|]. split; [eexists _, _; split; reflexivity|]. reflexivity. Qed.

Print Assumptions C103_median.
Print Assumptions C103_one_median.
Print Assumptions C103_between.
Print Assumptions C103_after_fit.
Print Assumptions C103_template.
Print Assumptions C103_no_template.
Print Assumptions C103_template_events.
Print Assumptions C103_template_fixed.
Print Assumptions C103_template_alias_refuted.
Print Assumptions C103_median_zero_refuted.
