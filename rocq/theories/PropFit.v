(** Properties of fitting and of continuing a fit: C100, C101. *)
From Coq Require Import Reals Lra Lia Permutation.
From Verif Require Import Base BaseFacts ModelFloat ProofFloat ModelParameter ModelLikelihood ModelContext ModelFit
  SpecParameter SpecLikelihood SpecContext SpecFit ProofParameter ProofParameter2 ProofContext ProofFit ProofFit2 ProofFit3 ProofFit4 ProofFit5 ProofFit6 ProofFit7.
Local Open Scope string_scope.
Local Open Scope list_scope.

Section Fits.
  Variables K Rng : Type.
  Variables normal uniform : fl -> fl -> Rng -> result (fl * Rng).
  Variable sigmas : fl -> fl -> result (fl * fl).
  Variable ls : dict (llh_fun K).
  Variable fresh : nat -> nat -> K.
  Variable independent : list (list fl) -> result bool.
  Notation fit := (fitting K Rng normal sigmas ls fresh independent).
  Notation cont := (continue_fitting K Rng sigmas ls fresh independent).

  (* ---------------------------------------------------------------- *)
  (** * C100 fitting *)

  (** Every parameter manager that can be made and used is one. *)
  Theorem C100_made cfg st : NoDup (keys cfg) -> reachable Rng normal uniform sigmas cfg st -> manages st /\ p_config st = cfg.
  Proof.
    intros Hn H. destruct (reachable_wf Rng normal uniform sigmas _ _ H) as (W1 & W2 & W3 & W4 & _).
    split; [|exact W1]. split; [exact W3|]. rewrite W1. split; [exact Hn|]. split; [exact W2|exact W4].
  Qed.

  (** Whatever the moves propose and however the fit ends: every recorded sample has a finite value in its allowed range for
      every fitted parameter, in the order of the names of the sampler; the recorded log posterior and log prior are those
      of an evaluation at this sample, and never NaN; every iteration has all the walkers. A fit that succeeds has recorded
      as many iterations as asked for. *)
  Theorem C100_samples nw n b t mv x x' r : normal_finite normal -> fittable x ->
    moves_in (List.length (parameter_fit (x_pars Rng x))) mv -> fit nw n b t mv x = (x', r) ->
    exists s, x_sampler Rng x' = Some s /\ s_names Rng s = parameter_fit (x_pars Rng x) /\
      (forall l, In l (recorded x' s) -> List.length l = nw /\ forall w, In w l ->
         allowed (p_config (x_pars Rng x)) (s_names Rng s) (w_pos w) /\
         evaluated sigmas ls fresh b t (x_pars Rng x') w /\ w_logp w <> NaN) /\
      (forall res, r = Ok res -> List.length (recorded x' s) = n /\ (0 < nw)%nat).
  Proof.
    intros Hr (M & S & Hs) Hm H. apply sanity_ok in Hs.
    destruct (fit_ok K Rng normal sigmas ls fresh independent Hr nw n b t mv x x' r M S Hs Hm H) as (F & _ & _ & s & first & Es & En & G & _ & _ & O).
    pose proof (frame_names _ _ F) as NM. pose proof F as (Fc & _). exists s. split; [exact Es|]. split; [exact En|]. split.
    - intros l Hl. rewrite Forall_forall in G. destruct (G l Hl) as [A B]. split; [exact B|]. intros w Hw. rewrite Forall_forall in A.
      destruct (A w Hw) as (A1 & A2 & A3). rewrite NM, Fc in A2. rewrite En. auto.
    - intros res E. destruct (O res E) as [O1 O2]. split; [exact O1|lia].
  Qed.

  (** A walker that has a log posterior above minus infinity keeps one for the rest of the fit. *)
  Theorem C100_kept nw n b t mv x x' r s l1 l l' l2 : normal_finite normal -> fittable x ->
    moves_in (List.length (parameter_fit (x_pars Rng x))) mv -> fit nw n b t mv x = (x', r) ->
    x_sampler Rng x' = Some s -> recorded x' s = l1 ++ l :: l' :: l2 -> keeps l l'.
  Proof.
    intros Hr (M & S & Hs) Hm H Es E. apply sanity_ok in Hs.
    destruct (fit_ok K Rng normal sigmas ls fresh independent Hr nw n b t mv x x' r M S Hs Hm H) as (_ & _ & _ & s' & first & Es' & _ & _ & Kp & _).
    rewrite Es in Es'. injection Es' as <-. rewrite E in Kp. eapply keeps_next. exact Kp.
  Qed.

  (** A fixed parameter has its configured value after the fit; no parameter is added or removed, the configuration stays. *)
  Theorem C100_fixed nw n b t mv x x' r : normal_finite normal -> fittable x ->
    moves_in (List.length (parameter_fit (x_pars Rng x))) mv -> fit nw n b t mv x = (x', r) ->
    p_config (x_pars Rng x') = p_config (x_pars Rng x) /\ parameter_fit (x_pars Rng x') = parameter_fit (x_pars Rng x) /\
    keys (p_values (x_pars Rng x')) = keys (p_config (x_pars Rng x)) /\
    ((0 < nw)%nat -> forall m s args, get m (p_config (x_pars Rng x)) = Some s -> s_type s = Some "fixed" -> s_args s = Some args ->
       get m (p_values (x_pars Rng x')) = get "val" args).
  Proof.
    intros Hr (M & S & Hs) Hm H. apply sanity_ok in Hs.
    destruct (fit_ok K Rng normal sigmas ls fresh independent Hr nw n b t mv x x' r M S Hs Hm H) as (F & _ & V & _).
    pose proof (frame_names _ _ F) as NM. destruct F as (F1 & _ & _ & F4). destruct M as (_ & _ & M3 & _). repeat split; congruence || exact V.
  Qed.

  (** After the first fit of a context get_post_parameters gives the values of a best recorded sample for the fitted parameters,
      and the configured values for the fixed ones; the same is in the file. *)
  Theorem C100_best nw n b t mv x x' res : normal_finite normal -> fittable x ->
    moves_in (List.length (parameter_fit (x_pars Rng x))) mv -> x_cache Rng x = None -> (0 < n)%nat -> fit nw n b t mv x = (x', Ok res) ->
    exists s x2 d l w, x_sampler Rng x' = Some s /\ post_parameters Rng Mpe x' = (x2, Ok d) /\
      (forall m, In m (keys d) <-> In m (keys (p_config (x_pars Rng x)))) /\
      In l (recorded x' s) /\ In w l /\ (forall l' w', In l' (recorded x' s) -> In w' l' -> fle (w_logp w') (w_logp w) = true) /\
      (forall m v, In (m, v) (combine (parameter_fit (x_pars Rng x)) (w_pos w)) -> get m d = Some v) /\
      (forall m c args, get m (p_config (x_pars Rng x)) = Some c -> s_type c = Some "fixed" -> s_args c = Some args -> get m d = get "val" args) /\
      (x_h5 Rng x = true -> exists bk, x_file Rng x' = Some bk /\ m_post (b_meta Rng bk) = Some d /\
         m_names (b_meta Rng bk) = Some (parameter_fit (x_pars Rng x)) /\ m_config (b_meta Rng bk) = Some (p_config (x_pars Rng x)) /\ m_batch (b_meta Rng bk) = Some b).
  Proof.
    intros Hr (M & S & Hs) Hm Hc Hn H. apply sanity_ok in Hs.
    destruct (fit_ok K Rng normal sigmas ls fresh independent Hr nw n b t mv x x' (Ok res) M S Hs Hm H) as (F & Hh' & V & s & first & Es & En & G & _ & _ & O).
    destruct (O res eq_refl) as [O1 O2]. pose proof (frame_names _ _ F) as NM. pose proof F as (Fc & Ff & _ & Fk).
    assert (R : reads Rng x' s (flat (recorded x' s)) /\ (x_h5 Rng x = true -> exists bk, x_file Rng x' = Some bk /\
      b_meta Rng bk = mk_meta (Some (p_config (x_pars Rng x))) (Some (update (p_values (x_pars Rng x')) (combine (parameter_fit (x_pars Rng x)) (best_of (flat (recorded x' s))))))
        (Some (parameter_fit (x_pars Rng x))) (Some b))).
    { destruct (x_h5 Rng x) eqn:Eh.
      - destruct (fit_exact K Rng normal sigmas ls fresh independent Hr nw n b t mv x x' res M S Hs Hm Eh Hc Hn H)
          as (st0 & g0 & p0 & e & ws0 & g1 & e1 & saved & ws2 & g2 & s1 & bk & pre & _ & _ & _ & _ & _ & _ & _ & _ & _ & _ & _ & X4 & X5 & _ & _ & X8 & (_ & B2 & _) & E1 & _ & X9 & X10 & _).
        rewrite Es in X4. injection X4 as <-. assert (Rc : recorded x' s = map fst saved) by (unfold recorded; rewrite X5, X8, B2; symmetry; exact E1).
        rewrite Rc. split; [left; exact X9|]. intros _. exists bk. split; [exact X8|exact X10].
      - split; [|discriminate]. right. split; [rewrite (fit_cache K Rng normal sigmas ls fresh independent Hr nw n b t mv x x' _ M S Hs Eh H); exact Hc|].
        split; [|reflexivity]. intros E. rewrite E in O1. cbn in O1. lia. }
    destruct R as [R Hfile].
    assert (NN : forall v lp, In (v, lp) (flat (recorded x' s)) -> lp <> NaN).
    { apply (flat_not_nan (good K sigmas ls fresh b t (x_pars Rng x'))); [intros w (_ & _ & X); exact X|]. eapply Forall_impl; [|exact G]. intros l [A _]. exact A. }
    assert (NE : flat (recorded x' s) <> []).
    { destruct (recorded x' s) as [|l ll] eqn:E; [cbn in O1; lia|]. apply (flat_nonempty _ l); [left; reflexivity|]. rewrite Forall_forall in G. destruct (G l (or_introl eq_refl)) as [_ B]. intros El. rewrite El in B. cbn in B. congruence. }
    pose proof (post_value Rng x' s _ Es R NE NN) as PV. destruct (best_of_ok _ NE NN) as (i & lp & _ & Ei & Hmax).
    pose proof (nth_error_In _ _ Ei) as Hin. apply in_flat in Hin. destruct Hin as (l & w & Hl & Hw & Epos & Elp).
    exists s. eexists. eexists. exists l, w. split; [exact Es|]. split; [exact PV|]. rewrite En.
    assert (Nf : NoDup (parameter_fit (x_pars Rng x))) by (apply fit_NoDup, M).
    assert (Kc : forall q : list fl, incl (keys (combine (parameter_fit (x_pars Rng x)) q)) (keys (p_config (x_pars Rng x)))).
    { intros q m Hi. unfold keys in Hi. apply in_map_iff in Hi. destruct Hi as ((m' & v) & <- & Hi). apply in_combine_l in Hi. cbn [fst].
      destruct M as (M1 & M2 & M3 & M4). rewrite <- M3. apply fit_known; [|exact Hi]. split; [exact M1|]. auto. }
    assert (Nc : forall q : list fl, NoDup (keys (combine (parameter_fit (x_pars Rng x)) q))).
    { intros q. revert q. generalize (parameter_fit (x_pars Rng x)) Nf. induction l0 as [|a names IH]; intros Hnd q; [constructor|]. destruct q as [|v q]; [constructor|].
      inversion Hnd as [|? ? Ha Hn']; subst. cbn [combine keys map fst]. constructor; [|apply IH, Hn']. intros Hi. apply Ha. unfold keys in Hi. apply in_map_iff in Hi.
      destruct Hi as ((a' & x0) & E & Hi). cbn in E. subst a'. eapply in_combine_l. exact Hi. }
    split; [|split; [exact Hl|split; [exact Hw|split; [|split; [|split]]]]].
    - intros m. rewrite keys_update_In. rewrite Fk. destruct M as (_ & _ & M3 & _). rewrite M3. split; [intros [A|A]; [exact A|apply (Kc _ _ A)]|auto].
    - intros l' w' Hl' Hw'. rewrite Elp. apply (Hmax (w_pos w') (w_logp w')). apply in_flat. exists l', w'. auto.
    - intros m v Hi. rewrite get_update by apply Nc. rewrite <- Epos. rewrite (get_combine _ _ Nf m v Hi). reflexivity.
    - intros m c args Hm1 Ht Ha. rewrite get_update by apply Nc. destruct (get m (combine _ _)) as [v|] eqn:Eg.
      + exfalso. apply get_In in Eg. apply in_combine_l in Eg. apply fit_in in Eg. destruct (free_setting (x_pars Rng x) m M Eg) as (s2 & ty & E2 & Et2 & Hx). congruence.
      + apply (V ltac:(lia) m c args Hm1 Ht Ha).
    - intros Eh. destruct (Hfile Eh) as (bk & E1 & E2). exists bk. rewrite E2. cbn [m_post m_names m_config m_batch]. auto.
  Qed.

  (** A parameter that nothing needs stops the fit before anything happens. *)
  Theorem C100_superfluous nw n b t mv x p : In p (keys (p_values (x_pars Rng x))) -> ~ In p (x_needed Rng x) -> fit nw n b t mv x = (x, Err RuntimeError).
  Proof.
    intros Hp Hn. unfold fitting. destruct (sanity_check (x_needed Rng x) (keys (p_values (x_pars Rng x)))) as [[]|err] eqn:E.
    - exfalso. apply Hn. apply (proj1 (sanity_ok _ _) E), Hp.
    - unfold sanity_check in E. destruct (forallb _ _) in E; [discriminate E|]. injection E as <-. reflexivity.
  Qed.

  (** Too few walkers for the moves on parts of the ensemble: the fit fails, and what the file contained before is lost. *)
  Theorem C100_few_walkers nw n b t mv x x' r : normal_finite normal -> fittable x ->
    (forall g, mv_kind Rng (fst (mv g)) = RedBlue false) -> (nw < 2 * List.length (parameter_fit (x_pars Rng x)))%nat -> (0 < n)%nat -> x_h5 Rng x = true ->
    fit nw n b t mv x = (x', r) ->
    (exists err, r = Err err) /\ x_file Rng x' = Some (empty_backend Rng nw (List.length (parameter_fit (x_pars Rng x)))).
  Proof.
    intros Hr (M & S & Hs) Hk Hlt Hn Hh H. apply sanity_ok in Hs.
    destruct (fit_unfold K Rng normal sigmas ls fresh independent Hr nw n b t mv x M S Hs) as (st0 & g0 & p0 & Est & F & L & Q & V & E).
    rewrite E in H. clear E. destruct (run_mcmc K Rng sigmas ls fresh independent b t nw false (Some p0) n mv (ready Rng nw x st0 g0)) as [xa ra] eqn:E1.
    destruct (ready_sampler Rng nw x st0 g0) as (s & Es & En & Eg & Er & Ef & Em). destruct (Ef Hh) as [Ef1 Ef2]. destruct (ready_pars Rng nw x st0 g0) as (Rp & Rc & Rh & Rk).
    assert (M0 : manages st0) by (eapply frame_manages; eassumption).
    assert (S0 : startable_cfg (p_config st0)) by (pose proof F as (-> & _); exact S).
    pose proof (start_ranges st0 M0 S0) as R0.
    assert (N0 : parameter_fit st0 = parameter_fit (x_pars Rng x)) by (apply frame_names; exact F).
    destruct (run_mcmc_inv K Rng sigmas ls fresh independent b t nw false (Some p0) n mv _ s (Positions Rng p0) xa ra Es eq_refl E1)
      as [(e & err & _ & -> & ->)|(e & ws & g & e' & saved & rr & Eb & Esteps & AR & Er')].
    - cbn [finish] in H. injection H as <- <-. split; [eauto|]. cbn [with_pars x_file]. exact Ef2.
    - rewrite Rp, Rc, En, Eg, <- N0 in Eb. destruct (begin_ok K Rng sigmas ls fresh independent b t st0 M0 R0 _ _ _ _ _ _ _ Q Eb) as [_ Ob].
      destruct (Ob _ _ eq_refl) as (_ & Lw & _). destruct n as [|n]; [lia|]. cbn [run_steps] in Esteps. unfold one_step in Esteps. specialize (Hk g).
      destruct (mv g) as [mm gg]. cbn [fst] in Hk. rewrite Hk, Lw, En in Esteps. unfold move_fits in Esteps. cbn [negb] in Esteps. rewrite (proj2 (Nat.ltb_lt _ _) Hlt) in Esteps.
      cbn [andb] in Esteps. injection Esteps as <- <- <-. subst ra. cbn [finish] in H. injection H as <- <-. split; [eauto|].
      destruct AR as (_ & _ & _ & _ & _ & _ & AR7 & _). rewrite AR7, Ef1, Ef2. reflexivity.
  Qed.

  (* ---------------------------------------------------------------- *)
  (** * C101 continue_fitting *)

  (** With a file: a fit followed by a continuation has the outcome of one longer fit: the same iterations and state of the generator
      in the file, the same values of all parameters, the same number of evaluations of the log posterior, the same result or
      exception. *)
  Theorem C101_longer nw n m b t mv x x1 res x2 r2 x3 r3 : normal_finite normal -> fittable x ->
    moves_in (List.length (parameter_fit (x_pars Rng x))) mv -> x_h5 Rng x = true -> x_cache Rng x = None -> (0 < n)%nat ->
    fit nw n b t mv x = (x1, Ok res) -> cont None m b t mv x1 = (x2, r2) -> fit nw (n + m) b t mv x = (x3, r3) ->
    content x2 = content x3 /\ x_pars Rng x2 = x_pars Rng x3 /\ x_calls Rng x2 = x_calls Rng x3 /\ ((0 < m)%nat -> r2 = r3).
  Proof.
    intros Hr (M & S & Hs) Hm Hh Hc Hn H1 H2 H3. apply sanity_ok in Hs.
    destruct (longer K Rng normal sigmas ls fresh independent Hr nw n m b t mv x x1 res x2 r2 x3 r3 M S Hs Hm Hh Hc Hn H1 H2 H3) as [(A & B & C) D]. auto.
  Qed.

  (** After a fit with a file the context is in progress, and stays so when it is continued. *)
  Theorem C101_progress nw n b t mv x x1 res : normal_finite normal -> fittable x ->
    moves_in (List.length (parameter_fit (x_pars Rng x))) mv -> x_h5 Rng x = true -> x_cache Rng x = None -> (0 < n)%nat ->
    fit nw n b t mv x = (x1, Ok res) -> in_progress x1 /\ parameter_fit (x_pars Rng x1) = parameter_fit (x_pars Rng x).
  Proof.
    intros Hr (M & S & Hs) Hm Hh Hc Hn H1. apply sanity_ok in Hs.
    destruct (fit_in_progress K Rng sigmas ls fresh independent normal Hr nw n b t mv x x1 res M S Hs Hm Hh Hc Hn H1) as [A B]. split; [exact A|apply frame_names, B].
  Qed.
  Theorem C101_still_progress m b t mv x x2 r : in_progress x -> moves_in (List.length (parameter_fit (x_pars Rng x))) mv ->
    cont None m b t mv x = (x2, r) -> in_progress x2 /\ parameter_fit (x_pars Rng x2) = parameter_fit (x_pars Rng x) /\
    exists nw old new g g', content x = Some (nw, List.length (parameter_fit (x_pars Rng x)), old, g) /\
      content x2 = Some (nw, List.length (parameter_fit (x_pars Rng x)), old ++ new, g') /\ (forall res, r = Ok res -> List.length new = m).
  Proof.
    intros IP Hm H. destruct (cont_ok K Rng sigmas ls fresh independent m b t mv x IP Hm)
      as (nw & st & g & ws & pre & e' & saved & rr & x2' & C0 & C1 & C2 & C3 & C4 & C5 & C6 & C6' & C7 & C8 & C9 & C10).
    rewrite H in C5. injection C5 as <- ->. split; [exact C9|]. split; [rewrite C6; apply same_names, C6'|]. exists nw, st, (map fst saved), (Some g). eexists.
    split; [exact C0|]. split; [exact C8|]. intros res E. destruct rr as [[ws' g']|]; [|discriminate E]. destruct (C10 _ _ eq_refl) as [A _]. rewrite map_length. exact A.
  Qed.

  (** Continuing in pieces is continuing once. *)
  Theorem C101_pieces m1 m2 b t mv x x1 r1 x2 r2 x3 r3 : in_progress x -> moves_in (List.length (parameter_fit (x_pars Rng x))) mv ->
    cont None m1 b t mv x = (x1, Ok r1) -> cont None m2 b t mv x1 = (x2, r2) -> cont None (m1 + m2) b t mv x = (x3, r3) ->
    content x2 = content x3 /\ x_pars Rng x2 = x_pars Rng x3 /\ x_calls Rng x2 = x_calls Rng x3 /\ ((0 < m2)%nat -> r2 = r3).
  Proof.
    intros IP Hm H1 H2 H3. destruct (twice K Rng sigmas ls fresh independent m1 m2 b t mv x x1 r1 x2 r2 x3 r3 IP Hm H1 H2 H3) as [(A & B & C) D]. auto.
  Qed.

  (** A context made from the file in another session continues it in the same way as the context that wrote it, if it is given the same keys. *)
  Theorem C101_from_backend m b t mv x y x2 r : in_progress x -> moves_in (List.length (parameter_fit (x_pars Rng x))) mv ->
    same_but_fit (x_pars Rng x) (x_pars Rng y) -> x_h5 Rng y = true -> x_file Rng y = x_file Rng x -> x_cache Rng y = None -> x_calls Rng y = x_calls Rng x ->
    (forall bk, x_file Rng x = Some bk -> m_batch (b_meta Rng bk) <> None) ->
    cont None m b t mv x = (x2, r) ->
    exists y1 y2, attach Rng y = (y1, Ok tt) /\ in_progress y1 /\ x_cache Rng y1 = None /\ cont None m b t mv y1 = (y2, r) /\
      content y2 = content x2 /\ x_calls Rng y2 = x_calls Rng x2 /\ same_but_fit (x_pars Rng x2) (x_pars Rng y2).
  Proof. apply (from_file K Rng sigmas ls fresh independent). Qed.

  (** The parameters written to the file: those of a best sample of the chain that was looked at first. That is the whole chain if none
      was looked at before, and otherwise the chain cached then, whatever was sampled since. *)
  Theorem C101_written m b t mv x x2 res : in_progress x -> moves_in (List.length (parameter_fit (x_pars Rng x))) mv ->
    cont None m b t mv x = (x2, Ok res) ->
    exists bk d c v lp, x_file Rng x2 = Some bk /\ m_post (b_meta Rng bk) = Some d /\ In (v, lp) c /\ (forall v' lp', In (v', lp') c -> fle lp' lp = true) /\
      (forall p q, In (p, q) (combine (parameter_fit (x_pars Rng x)) v) -> get p d = Some q) /\
      match x_cache Rng x with
      | Some c0 => c = c0
      | None => forall v' lp', In (v', lp') c <-> exists l w, In l (b_steps Rng bk) /\ In w l /\ w_pos w = v' /\ w_logp w = lp'
      end.
  Proof.
    intros IP Hm H. destruct (cont_ok K Rng sigmas ls fresh independent m b t mv x IP Hm)
      as (nw & st & g & ws & pre & e' & saved & rr & x2' & C0 & C1 & C2 & C3 & C4 & C5 & C6 & C6' & C7 & C8 & IP2 & C10).
    rewrite H in C5. injection C5 as <- Er. destruct rr as [[ws' g']|]; [|discriminate Er]. destruct (C10 _ _ eq_refl) as (_ & _ & bk & Ef & Ec & Eb). cbv zeta in Ec, Eb.
    destruct IP2 as (_ & _ & _ & _ & Hc). destruct (Hc _ Ec) as [NE NN]. destruct (best_of_ok _ NE NN) as (i & lp & _ & Ei & Hmax).
    assert (Nf : NoDup (parameter_fit (x_pars Rng x))) by (apply fit_NoDup, IP).
    exists bk. eexists. eexists. eexists. exists lp. split; [exact Ef|]. split; [rewrite Eb; reflexivity|]. split; [eapply nth_error_In; exact Ei|]. split; [exact Hmax|]. split.
    - intros p q Hi. rewrite get_update; [rewrite (get_combine _ _ Nf p q Hi); reflexivity|]. clear -Nf. 
      match goal with |- NoDup (keys (combine _ ?q)) => generalize q end. revert Nf. generalize (parameter_fit (x_pars Rng x)).
      induction l as [|a names IH]; intros Hnd q; [constructor|]. destruct q as [|v q]; [constructor|].
      inversion Hnd as [|? ? Ha Hn']; subst. cbn [combine keys map fst]. constructor; [|apply IH, Hn']. intros Hi. apply Ha. unfold keys in Hi. apply in_map_iff in Hi.
      destruct Hi as ((a' & x0) & E & Hi). cbn in E. subst a'. eapply in_combine_l. exact Hi.
    - destruct (x_cache Rng x); [reflexivity|]. intros v' lp'. rewrite in_flat. unfold content in C8. rewrite Ef in C8. cbn [option_map] in C8. injection C8 as _ -> _. reflexivity.
  Qed.

  (** Continuing the run of another context whose last positions are allowed here: what was recorded in the file of this context
      stays, and every new sample is as good as one of a fit. *)
  Theorem C101_other y m b t mv x x' res : fittable x -> moves_in (List.length (parameter_fit (x_pars Rng x))) mv ->
    (forall s, x_sampler Rng y = Some s -> forall w, In w (last (recorded y s) []) -> allowed (p_config (x_pars Rng x)) (parameter_fit (x_pars Rng x)) (w_pos w)) ->
    cont (Some y) m b t mv x = (x', Ok res) ->
    exists s new, x_sampler Rng x' = Some s /\ s_names Rng s = parameter_fit (x_pars Rng x) /\
      recorded x' s = (if x_h5 Rng x then match x_file Rng x with Some bk => b_steps Rng bk | None => [] end else []) ++ new /\ List.length new = m /\
      forall l w, In l new -> In w l -> allowed (p_config (x_pars Rng x)) (s_names Rng s) (w_pos w) /\ evaluated sigmas ls fresh b t (x_pars Rng x') w /\ w_logp w <> NaN.
  Proof.
    intros (M & S & _) Hm Hy H. destruct (other_ok K Rng sigmas ls fresh independent y m b t mv x x' res M S Hm Hy H) as (Sx & sy & s & new & _ & Es & En & Er & Ln & G).
    exists s, new. split; [exact Es|]. split; [exact En|]. split; [exact Er|]. split; [exact Ln|]. intros l w Hl Hw. rewrite Forall_forall in G. destruct (G l Hl) as [A _].
    rewrite Forall_forall in A. destruct (A w Hw) as (A1 & A2 & A3). rewrite (same_names _ _ Sx) in A2. pose proof Sx as (Sc & _). rewrite Sc in A2. rewrite En. auto.
  Qed.

  (** A file for another number of walkers or of parameters is refused, and nothing changes. *)
  Theorem C101_other_shape y m b t mv x s l bk : x_sampler Rng y = Some s -> stored Rng y s = Ok l -> x_h5 Rng x = true -> x_file Rng x = Some bk ->
    b_shape Rng bk <> (List.length (last l []), List.length (parameter_fit (x_pars Rng x))) -> cont (Some y) m b t mv x = (x, Err ValueError).
  Proof. apply (other_shape K Rng sigmas ls fresh independent). Qed.

  (** Without a file a context cannot be continued on itself, and the attempt throws the chain away. *)
  Theorem C101_memory m b t mv x s bk : x_h5 Rng x = false -> x_sampler Rng x = Some s -> s_mem Rng s = Some bk -> b_steps Rng bk <> [] ->
    exists x' s', cont None m b t mv x = (x', Err ValueError) /\ x_sampler Rng x' = Some s' /\ recorded x' s' = [].
  Proof. apply (memory_lost K Rng sigmas ls fresh independent). Qed.
  (** A fit that fails leaves its iterations in the file but no description of the fit: from_backend cannot open the file. *)
  Theorem C101_interrupted nw n b t mv x x' err y : normal_finite normal -> fittable x -> x_h5 Rng x = true ->
    fit nw n b t mv x = (x', Err err) -> x_file Rng y = x_file Rng x' -> attach Rng y = (y, Err KeyError).
  Proof.
    intros Hr (M & S & Hs) Hh H Hy. apply sanity_ok in Hs.
    destruct (fit_unfold K Rng normal sigmas ls fresh independent Hr nw n b t mv x M S Hs) as (st0 & g0 & p0 & Est & F & L & Q & V & E).
    rewrite E in H. clear E. destruct (run_mcmc K Rng sigmas ls fresh independent b t nw false (Some p0) n mv (ready Rng nw x st0 g0)) as [xa ra] eqn:E1.
    destruct (ready_sampler Rng nw x st0 g0) as (s & Es & En & Eg & Er & Ef & Em). destruct (Ef Hh) as [Ef1 Ef2].
    destruct (ready_pars Rng nw x st0 g0) as (Rp & Rc & Rh & Rk).
    assert (A : exists bk, x_file Rng xa = Some bk /\ b_meta Rng bk = no_meta).
    { destruct (run_mcmc_inv K Rng sigmas ls fresh independent b t nw false (Some p0) n mv _ s (Positions Rng p0) xa ra Es eq_refl E1)
        as [(e & err' & _ & -> & _)|(e & ws & g & e' & saved & rr & _ & _ & AR & _)].
      - cbn [with_pars x_file]. rewrite Ef2. eexists. split; reflexivity.
      - destruct AR as (_ & _ & _ & _ & _ & _ & AR7 & _). rewrite AR7, Ef1, Ef2. eexists. split; reflexivity. }
    destruct A as (bk & A1 & A2).
    assert (B : exists bk', x_file Rng x' = Some bk' /\ m_batch (b_meta Rng bk') = None).
    { destruct ra as [res|err']; cbn [finish] in H.
      - unfold dump_meta in H. destruct (x_h5 Rng xa); [|discriminate H].
        unfold post_parameters in H. cbn [set_meta with_file x_sampler x_pars] in H.
        destruct (x_sampler Rng xa) as [sa|].
        + destruct (get_post_parameters _ _ _ _) as [[f d]|e]; [discriminate H|]. injection H as <- <-.
          unfold set_meta. cbn [x_file with_file]. rewrite A1. eexists. split; [reflexivity|]. cbn. rewrite A2. reflexivity.
        + injection H as <- <-. unfold set_meta. cbn [x_file with_file]. rewrite A1. eexists. split; [reflexivity|]. cbn. rewrite A2. reflexivity.
      - injection H as <- <-. exists bk. split; [exact A1|]. rewrite A2. reflexivity. }
    destruct B as (bk' & B1 & B2). unfold attach. rewrite Hy, B1, B2. reflexivity.
  Qed.

  (** The rule by which the sampler takes a proposal of a symmetric move, for both kinds of moves: the log posterior must have
      changed by more than the logarithm of a uniform number. A proposal that is not worse is always taken. *)
  Theorem C100_metropolis k w q r a c u : w_logp w = Fin a -> fst r = Fin c -> q_factor q = Fin 0 -> q_logu q = Fin u ->
    (u < c - a -> accept k w q r = mk_walker (q_pos q) (Fin c) (snd r))%R /\ (c - a <= u -> accept k w q r = w)%R /\
    (u < 0 -> a <= c -> w_pos (accept k w q r) = q_pos q)%R.
  Proof.
    intros Ha Hc Hf Hu. unfold accept, log_ratio. rewrite Ha, Hc, Hf, Hu.
    assert (E : forall z, match k with RedBlue _ => fsub (fadd (Fin 0) (Fin c)) (Fin a) | MH _ => fadd (fsub (Fin c) (Fin a)) (Fin 0) end = z -> z = Fin (c - a)).
    { intros z <-. destruct k; repeat (rewrite fadd_Fin || rewrite fsub_Fin); f_equal; lra. }
    rewrite (E _ eq_refl). repeat split; intros H.
    - rewrite (proj2 (flt_Fin _ _) H). reflexivity.
    - rewrite (flt_Fin_false _ _ H). reflexivity.
    - intros H2. rewrite (proj2 (flt_Fin u (c - a))); [reflexivity|lra].
  Qed.
End Fits.

(* ------------------------------------------------------------------ *)
(** * Concrete cases *)

Definition ex_free := mk_setting (Some "free") (Some []) (Some (NInf, PInf)) (Some (Fin 0)) (Some (Fin 1)).
Definition ex_narrow := mk_setting (Some "free") (Some []) (Some (Fin 2, Fin 3)) (Some (Fin 2)) (Some (Fin 1)).
Definition ex_fixed := mk_setting (Some "fixed") (Some [("val", Fin 7)]) None None None.
(** A context that fits the parameter [n] with the setting [s], and has a fixed one. *)
Definition ex_ctx (n : string) (s : setting) (h5 : bool) : fctx nat :=
  mk_fctx nat (mk_pstate [(n, s); ("z", ex_fixed)] ["z"] [n] [(n, Fin 5); ("z", Fin 1)]) [n; "z"] h5 None None None 0 0.
Definition ex_normal (m sd : fl) (g : nat) : result (fl * nat) := Ok (m, S g).
Definition ex_sigmas (a b : fl) : result (fl * fl) := Err ValueError.
(** A likelihood that is zero in the first evaluation. *)
Definition ex_llh : dict (llh_fun nat) := [("l", fun k _ _ => Ok (k, if Nat.eqb k 0 then NInf else Fin 0))].
Definition ex_fresh (i j : nat) : nat := i.
Definition ex_ind (l : list (list fl)) : result bool := Ok true.
(** Moves: none, and one to [p] for all walkers. *)
Definition ex_rest : moves nat := fun g => (mk_move nat (MH None) (fun g n => ([], g)), g).
Definition ex_jump (p : fl) : moves nat :=
  fun g => (mk_move nat (MH None) (fun g n => ([fun g pos => (map (fun _ => Some (mk_proposal [p] (Fin 0) NInf)) pos, S g)], g)), g).
Definition ex_pair : moves nat := fun g => (mk_move nat (RedBlue false) (fun g n => ([], g)), g).
Definition ex_fit nw n mv x := fitting nat nat ex_normal ex_sigmas ex_llh ex_fresh ex_ind nw n 10 1 mv x.
Definition ex_cont y m mv x := continue_fitting nat nat ex_sigmas ex_llh ex_fresh ex_ind y m 10 1 mv x.

Example C100_normal : normal_finite ex_normal.
Proof. intros m sd g _. exists m, (S g). reflexivity. Qed.
Example C100_fittable n h5 : n <> "z" -> fittable (ex_ctx n ex_free h5).
Proof.
  intros Hz. split; [|split].
  - split; [repeat constructor; intros []|]. split; [constructor; [intros [H|[]]; exact (Hz (eq_sym H))|constructor; [intros []|constructor]]|]. split; [reflexivity|].
    intros m. split.
    + intros [<-|[]]. exists ex_free, "free". split; [left; reflexivity|]. split; [reflexivity|discriminate].
    + intros (s & ty & [E|[E|[]]] & Ht & Hx); injection E as <- <-; [left; reflexivity|]. injection Ht as <-. congruence.
  - intros m s. cbn. destruct (String.eqb m n); [|destruct (String.eqb m "z"); [|discriminate]]; intros E; injection E as <-.
    + eapply startable_guess with (m := 0%R) (sd := 1%R); try reflexivity; [discriminate|lra].
    + eapply startable_fixed; reflexivity.
  - intros m Hm. exact Hm.
Qed.
Example C100_rest_in : moves_in 1 ex_rest.
Proof. intros g m g1 g2 n parts g3 p g4 pos ps g5 q E E2 Hp. injection E as <- <-. cbn in E2. injection E2 as <- <-. destruct Hp. Qed.
Example C100_jump_in v : moves_in 1 (ex_jump v).
Proof.
  intros g m g1 g2 n parts g3 p g4 pos ps g5 q E E2 Hp E3 Hq. injection E as <- <-. cbn in E2. injection E2 as <- <-. destruct Hp as [<-|[]].
  injection E3 as <- <-. apply in_map_iff in Hq. destruct Hq as (y & Eq & _). injection Eq as <-. reflexivity.
Qed.
(** Two walkers, two iterations: the starting values are the guess of the configuration, and the move is accepted. *)
Example C100_case : exists x' s ws, ex_fit 2 2 (ex_jump (Fin 1)) (ex_ctx "a" ex_free false) = (x', Ok (Some ws)) /\ x_sampler nat x' = Some s /\
  List.length (recorded x' s) = 2 /\ map w_pos ws = [[Fin 1]; [Fin 1]] /\ x_calls nat x' = 6 /\ get "z" (p_values (x_pars nat x')) = Some (Fin 7).
Proof. do 3 eexists. split; [lazy; reflexivity|]. split; [lazy; reflexivity|]. repeat (split; [lazy; reflexivity|]). lazy. reflexivity. Qed.
Example C100_few_case : exists x' err, ex_fit 1 3 ex_pair (ex_ctx "a" ex_free true) = (x', Err err) /\ x_file nat x' = Some (empty_backend nat 1 1).
Proof. do 2 eexists. split; [lazy; reflexivity|lazy; reflexivity]. Qed.
Example C100_metropolis_case : w_pos (accept (MH None) (mk_walker [Fin 0] (Fin (-3)) (Fin 0)) (mk_proposal [Fin 1] (Fin 0) (Fin (-1))) (Fin (-3), Fin 0)) = [Fin 1].
Proof. apply (C100_metropolis (MH None) (mk_walker [Fin 0] (Fin (-3)) (Fin 0)) (mk_proposal [Fin 1] (Fin 0) (Fin (-1))) (Fin (-3), Fin 0) (-3) (-3) (-1)); try reflexivity; lra. Qed.
(** The run that C100_few_case stops cannot be opened. *)
Example C101_interrupted_case : exists x' err, ex_fit 1 3 ex_pair (ex_ctx "a" ex_free true) = (x', Err err) /\ attach nat x' = (x', Err KeyError).
Proof.
  destruct (ex_fit 1 3 ex_pair (ex_ctx "a" ex_free true)) as [x' [res|err]] eqn:E; [exfalso; lazy in E; discriminate E|]. exists x', err.
  split; [reflexivity|].
  exact (C101_interrupted nat nat ex_normal ex_sigmas ex_llh ex_fresh ex_ind 1 3 10 1 ex_pair (ex_ctx "a" ex_free true) x' err x' C100_normal
    (C100_fittable "a" true ltac:(discriminate)) eq_refl E eq_refl).
Qed.
Example C100_superfluous_case x : In "z" (keys (p_values (x_pars nat (ex_ctx "a" ex_free x)))) /\ ~ In "z" ["a"].
Proof. split; [right; left; reflexivity|]. intros [H|[]]. discriminate H. Qed.

(** A fit in a file, and a continuation of it. *)
Definition ex_one := fst (ex_fit 1 1 ex_rest (ex_ctx "a" ex_free true)).
Example C101_case_progress : in_progress ex_one /\ exists res, snd (ex_fit 1 1 ex_rest (ex_ctx "a" ex_free true)) = Ok res.
Proof.
  destruct (ex_fit 1 1 ex_rest (ex_ctx "a" ex_free true)) as [x1 [res|err]] eqn:E; [|lazy in E; discriminate E]. split; [|exists res; reflexivity].
  unfold ex_one. rewrite E. cbn [fst].
  apply (C101_progress nat nat ex_normal ex_sigmas ex_llh ex_fresh ex_ind 1 1 10 1 ex_rest (ex_ctx "a" ex_free true) x1 res C100_normal
    (C100_fittable "a" true ltac:(discriminate)) C100_rest_in eq_refl eq_refl (le_n 1) E).
Qed.

(** The file does not tell the best sample after continuing: the fit has only seen a sample of likelihood zero; the continuation finds
    one above, which is in the file, but the parameters written are still those of the first. *)
Theorem C101_stale_refuted : exists x2 res bk d w0 w1, in_progress ex_one /\ ex_cont None 1 (ex_jump (Fin 1)) ex_one = (x2, Ok res) /\
  x_file nat x2 = Some bk /\ m_post (b_meta nat bk) = Some d /\ b_steps nat bk = [[w0]; [w1]] /\
  w_pos w0 = [Fin 0] /\ w_logp w0 = NInf /\ w_pos w1 = [Fin 1] /\ flt (w_logp w0) (w_logp w1) = true /\ get "a" d = Some (Fin 0).
Proof.
  do 6 eexists. split; [apply C101_case_progress|]. repeat (split; [lazy; reflexivity|]). lazy. reflexivity.
Qed.

(** A context that continues the run of another one with a wider range records a sample outside of its own allowed range. *)
Theorem C101_other_range_refuted : exists x' res s w, ex_cont (Some ex_one) 1 ex_rest (ex_ctx "a" ex_narrow false) = (x', Ok res) /\
  x_sampler nat x' = Some s /\ recorded x' s = [[w]] /\ w_logp w = NInf /\ ~ allowed (p_config (x_pars nat x')) (s_names nat s) (w_pos w).
Proof.
  remember (ex_cont (Some ex_one) 1 ex_rest (ex_ctx "a" ex_narrow false)) as c eqn:E. lazy in E.
  destruct (Rlt_dec R0 (R1 + R1)) as [H2|H2] in E; [|exfalso; apply H2; change (0 < 2)%R; lra]. lazy in E. subst c.
  do 4 eexists. split; [reflexivity|]. split; [reflexivity|]. split; [reflexivity|]. split; [reflexivity|].
  cbn [p_config x_pars s_names w_pos]. intros H. inversion H as [|? ? ? ? (s & r & E1 & E2 & (lo & hi & E3 & E4 & E5)) _]; subst. lazy in E1. injection E1 as <-. lazy in E3. injection E3 as <- <-.
  rewrite fle_Fin in E4. change (2 <= 0)%R in E4. lra.
Qed.

(** Nothing compares the names: the values of one parameter become values of another one. *)
Theorem C101_other_names_refuted : exists x' res s w, ex_cont (Some ex_one) 1 ex_rest (ex_ctx "b" ex_free false) = (x', Ok res) /\
  x_sampler nat x' = Some s /\ recorded x' s = [[w]] /\ s_names nat s = ["b"] /\ w_pos w = [Fin 0] /\ w_prior w <> NInf /\
  (exists sy wy, x_sampler nat ex_one = Some sy /\ s_names nat sy = ["a"] /\ recorded ex_one sy = [[wy]] /\ w_pos wy = w_pos w).
Proof.
  do 4 eexists. repeat (split; [lazy; reflexivity|]). split; [lazy; discriminate|]. do 2 eexists. repeat (split; [lazy; reflexivity|]). lazy. reflexivity.
Qed.
Example C101_memory_case : exists x1 res s bk, ex_fit 1 1 ex_rest (ex_ctx "a" ex_free false) = (x1, Ok res) /\ x_h5 nat x1 = false /\
  x_sampler nat x1 = Some s /\ s_mem nat s = Some bk /\ b_steps nat bk <> [].
Proof. do 4 eexists. repeat (split; [lazy; reflexivity|]). lazy. discriminate. Qed.
(** The parameters of the run of a context that fits the same parameter with the same range are allowed. *)
Example C101_other_case : forall s, x_sampler nat ex_one = Some s -> forall w, In w (last (recorded ex_one s) []) ->
  allowed (p_config (x_pars nat (ex_ctx "a" ex_free false))) (parameter_fit (x_pars nat (ex_ctx "a" ex_free false))) (w_pos w).
Proof.
  intros s E w Hw. lazy in E. injection E as <-. lazy in Hw. destruct Hw as [<-|[]]. constructor; [|constructor]. exists ex_free, 0%R. split; [reflexivity|]. split; [reflexivity|].
  exists NInf, PInf. repeat split.
Qed.

Print Assumptions C100_made.
Print Assumptions C100_samples.
Print Assumptions C100_kept.
Print Assumptions C100_fixed.
Print Assumptions C100_best.
Print Assumptions C100_superfluous.
Print Assumptions C100_few_walkers.
Print Assumptions C101_longer.
Print Assumptions C101_progress.
Print Assumptions C101_still_progress.
Print Assumptions C101_pieces.
Print Assumptions C101_from_backend.
Print Assumptions C101_written.
Print Assumptions C101_other.
Print Assumptions C101_other_shape.
Print Assumptions C101_memory.
Print Assumptions C101_interrupted.
Print Assumptions C100_metropolis.
Print Assumptions C101_stale_refuted.
Print Assumptions C101_other_range_refuted.
Print Assumptions C101_other_names_refuted.
