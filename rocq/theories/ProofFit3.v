(** Lemmas about fits (C100, C101), third part: fitting and continue_fitting. *)
From Coq Require Import Reals Lra Lia Permutation.
From Verif Require Import Base BaseFacts ModelFloat ProofFloat ModelParameter ModelLikelihood ModelContext ModelFit
  SpecParameter SpecLikelihood SpecContext SpecFit ProofParameter ProofParameter2 ProofContext ProofFit ProofFit2.
Local Open Scope string_scope.
Local Open Scope list_scope.

Section Fits.
  Variables K Rng : Type.
  Variable normal : fl -> fl -> Rng -> result (fl * Rng).
  Variable sigmas : fl -> fl -> result (fl * fl).
  Variable ls : dict (llh_fun K).
  Variable fresh : nat -> nat -> K.
  Variable independent : list (list fl) -> result bool.
  Notation begin := (begin_run K Rng sigmas ls fresh independent).
  Notation steps := (run_steps K Rng sigmas ls fresh).
  Notation mcmc := (run_mcmc K Rng sigmas ls fresh independent).
  Notation fit := (fitting K Rng normal sigmas ls fresh independent).
  Notation cont := (continue_fitting K Rng sigmas ls fresh independent).
  Notation goodw := (good K sigmas ls fresh).

  (** What a run leaves behind. *)
  Definition after_run (s : sampler Rng) (e' : ev) (saved : list (list walker * Rng)) (n : nat) (x x' : fctx Rng) : Prop :=
    x_pars Rng x' = fst e' /\ x_calls Rng x' = snd e' /\ x_needed Rng x' = x_needed Rng x /\ x_h5 Rng x' = x_h5 Rng x /\
    x_global Rng x' = x_global Rng x /\ x_cache Rng x' = x_cache Rng x /\
    x_file Rng x' = match s_mem Rng s with Some _ => x_file Rng x | None => option_map (save Rng saved) (x_file Rng x) end /\
    exists s', x_sampler Rng x' = Some s' /\ s_names Rng s' = s_names Rng s /\
      s_mem Rng s' = option_map (save Rng saved) (s_mem Rng s).

  Lemma run_mcmc_inv b t nw skip p0 n mv x s st x' r : x_sampler Rng x = Some s ->
    match p0 with
    | Some l => Some (Positions Rng l)
    | None => match s_prev Rng s with Some (ws, g) => Some (State Rng ws g) | None => None end
    end = Some st ->
    mcmc b t nw skip p0 n mv x = (x', r) ->
    (exists e err, begin b t (s_names Rng s) nw skip st (x_pars Rng x, x_calls Rng x) (s_rng Rng s) = (e, Err err) /\
       x' = with_pars Rng x (fst e) (x_global Rng x) (snd e) /\ r = Err err) \/
    (exists e ws g e' saved rr,
       begin b t (s_names Rng s) nw skip st (x_pars Rng x, x_calls Rng x) (s_rng Rng s) = (e, Ok (ws, g)) /\
       steps b t (s_names Rng s) n mv e g ws = (e', saved, rr) /\ after_run s e' saved n x x' /\
       r = match rr with Err err => Err err | Ok (ws', _) => Ok (match n with 0 => None | S _ => Some ws' end) end).
  Proof.
    intros Es Est H. unfold run_mcmc in H. rewrite Es, Est in H.
    destruct (begin b t (s_names Rng s) nw skip st (x_pars Rng x, x_calls Rng x) (s_rng Rng s)) as [e [[ws g]|err]] eqn:Eb.
    - right. destruct (steps b t (s_names Rng s) n mv e g ws) as [[e' saved] rr] eqn:Er.
      exists e, ws, g, e', saved, rr. split; [reflexivity|]. split; [exact Er|].
      destruct rr as [[ws' g1]|err]; injection H as <- <-; (split; [|reflexivity]); unfold after_run;
        destruct (s_mem Rng s); cbn; repeat split; eexists; repeat split.
    - left. exists e, err. injection H as <- <-. auto.
  Qed.

  Hypothesis normal_ok : forall m sd g, (0 < sd)%R -> exists v g', normal (Fin m) (Fin sd) g = Ok (Fin v, g').

  (** The context just before the run of a fit. *)
  Definition ready (nw : nat) (x : fctx Rng) (st0 : pstate) (g0 : Rng) : fctx Rng :=
    let names := parameter_fit (x_pars Rng x) in
    let x0 := with_pars Rng x st0 g0 (x_calls Rng x) in
    let b := empty_backend Rng nw (List.length names) in
    if x_h5 Rng x then with_sampler Rng (with_file Rng x0 (Some b)) (mk_sampler Rng names None g0 None)
    else with_sampler Rng x0 (mk_sampler Rng names (Some b) g0 None).

  Lemma fit_unfold nw n b t mv x : manages (x_pars Rng x) -> startable_cfg (p_config (x_pars Rng x)) ->
    sanity_check (x_needed Rng x) (keys (p_values (x_pars Rng x))) = Ok tt ->
    exists st0 g0 p0, starts Rng normal nw (x_pars Rng x) (x_global Rng x) = (st0, g0, Ok p0) /\
      same_frame (x_pars Rng x) st0 /\ List.length p0 = nw /\
      Forall (Forall2 (fun n v => exists s, get n (p_config st0) = Some s /\ in_range s v) (parameter_fit st0)) p0 /\
      (0 < nw -> forall n s, get n (p_config st0) = Some s -> exists v, get n (p_values st0) = Some v /\ sampled_ok s v)%nat /\
      fit nw n b t mv x = finish Rng b (mcmc b t nw false (Some p0) n mv (ready nw x st0 g0)).
  Proof.
    intros M S Hs. destruct (starts_ok Rng normal normal_ok nw (x_pars Rng x) (x_global Rng x) M S) as (st0 & g0 & p0 & E & F & L & Q & V).
    exists st0, g0, p0. split; [exact E|]. split; [exact F|]. split; [exact L|]. pose proof F as (Fc & _).
    rewrite (frame_names _ _ F), Fc. split; [exact Q|]. split; [exact V|].
    unfold fitting. rewrite Hs, E. unfold pre_fitting, ready. cbn [x_pars with_pars x_h5 x_global]. rewrite (frame_names _ _ F).
    destruct (x_h5 Rng x).
    - cbn [with_file x_file b_shape empty_backend fst snd]. rewrite !Nat.eqb_refl. cbn [andb negb b_rng b_steps rev]. reflexivity.
    - reflexivity.
  Qed.

  Lemma ready_sampler nw x st0 g0 : exists s, x_sampler Rng (ready nw x st0 g0) = Some s /\
    s_names Rng s = parameter_fit (x_pars Rng x) /\ s_rng Rng s = g0 /\ recorded (ready nw x st0 g0) s = [] /\
    (x_h5 Rng x = true -> s_mem Rng s = None /\ x_file Rng (ready nw x st0 g0) = Some (empty_backend Rng nw (List.length (parameter_fit (x_pars Rng x))))) /\
    (x_h5 Rng x = false -> s_mem Rng s = Some (empty_backend Rng nw (List.length (parameter_fit (x_pars Rng x))))).
  Proof.
    unfold ready. destruct (x_h5 Rng x); eexists; (split; [reflexivity|]); repeat split; discriminate.
  Qed.

  Lemma ready_pars nw x st0 g0 : x_pars Rng (ready nw x st0 g0) = st0 /\ x_calls Rng (ready nw x st0 g0) = x_calls Rng x /\
    x_h5 Rng (ready nw x st0 g0) = x_h5 Rng x /\ x_cache Rng (ready nw x st0 g0) = x_cache Rng x.
  Proof. unfold ready. destruct (x_h5 Rng x) eqn:E; repeat split; cbn; exact E. Qed.

  (** The samples recorded by a run. *)
  Lemma after_recorded s e' saved n x x' s' : after_run s e' saved n x x' -> x_sampler Rng x' = Some s' ->
    (s_mem Rng s = None -> x_file Rng x <> None) -> recorded x' s' = recorded x s ++ map fst saved.
  Proof.
    intros (_ & _ & _ & _ & _ & _ & Hf & s1 & E1 & _ & Hm) Es Hn. rewrite E1 in Es. injection Es as <-.
    unfold recorded. rewrite Hm, Hf. destruct (s_mem Rng s) as [b|]; cbn [option_map]; [reflexivity|].
    destruct (x_file Rng x) as [b|]; [reflexivity|]. exfalso. apply Hn; reflexivity.
  Qed.

  Lemma evaluated_same b t st st' w : same_but_fit st st' -> evaluated sigmas ls fresh b t st w -> evaluated sigmas ls fresh b t st' w.
  Proof.
    intros S (i & st1 & st2 & cs & S1 & E). exists i, st1, st2, cs. split; [eapply same_trans; [apply same_sym; exact S|exact S1]|].
    rewrite (same_names _ _ S). exact E.
  Qed.

  Lemma good_same b t st st' w : same_but_fit st st' -> goodw b t st w -> goodw b t st' w.
  Proof.
    intros S (E & A & N). split; [eapply evaluated_same; eassumption|]. split; [|exact N].
    pose proof S as (Sc & _). rewrite Sc, (same_names _ _ S). exact A.
  Qed.

  (** Everything about a fit that gets as far as the run. *)
  Lemma fit_ok nw n b t mv x x' r : manages (x_pars Rng x) -> startable_cfg (p_config (x_pars Rng x)) ->
    sanity_check (x_needed Rng x) (keys (p_values (x_pars Rng x))) = Ok tt ->
    moves_in (List.length (parameter_fit (x_pars Rng x))) mv ->
    fit nw n b t mv x = (x', r) ->
    same_frame (x_pars Rng x) (x_pars Rng x') /\ x_h5 Rng x' = x_h5 Rng x /\
    (0 < nw -> forall m s args, get m (p_config (x_pars Rng x)) = Some s -> s_type s = Some "fixed" -> s_args s = Some args ->
       get m (p_values (x_pars Rng x')) = get "val" args)%nat /\
    exists s first, x_sampler Rng x' = Some s /\ s_names Rng s = parameter_fit (x_pars Rng x) /\
      Forall (fun l => Forall (goodw b t (x_pars Rng x')) l /\ List.length l = nw) (recorded x' s) /\
      keeps_all first (recorded x' s) /\
      (x_h5 Rng x = true -> s_mem Rng s = None /\ exists bk, x_file Rng x' = Some bk /\ b_shape Rng bk = (nw, List.length (parameter_fit (x_pars Rng x)))) /\
      (forall res, r = Ok res -> List.length (recorded x' s) = n /\ nw <> 0%nat).
  Proof.
    intros M S Hs Hm H. destruct (fit_unfold nw n b t mv x M S Hs) as (st0 & g0 & p0 & _ & F & L & Q & V & E).
    rewrite E in H. clear E. destruct (mcmc b t nw false (Some p0) n mv (ready nw x st0 g0)) as [x1 r1] eqn:E1.
    destruct (finish_run Rng b x1 r1 x' r H) as [SR OK]. destruct (ready_sampler nw x st0 g0) as (s & Es & En & Eg & Er & Ef & Em).
    destruct (ready_pars nw x st0 g0) as (Rp & Rc & Rh & _).
    assert (M0 : manages st0) by (eapply frame_manages; eassumption).
    assert (S0 : startable_cfg (p_config st0)) by (pose proof F as (-> & _); exact S).
    pose proof (start_ranges st0 M0 S0) as R0.
    assert (N0 : parameter_fit st0 = parameter_fit (x_pars Rng x)) by (apply frame_names; exact F).
    pose proof (run_recorded Rng _ _ s SR) as RR. pose proof SR as (SR1 & SR2 & SR3 & SR4 & SR5 & SR6 & SR7).
    assert (FX : forall e : ev, same_but_fit st0 (fst e) -> x_pars Rng x' = fst e ->
      same_frame (x_pars Rng x) (x_pars Rng x') /\
      (0 < nw -> forall m s args, get m (p_config (x_pars Rng x)) = Some s -> s_type s = Some "fixed" -> s_args s = Some args ->
       get m (p_values (x_pars Rng x')) = get "val" args)%nat).
    { intros e Se Ee. rewrite Ee. split; [eapply frame_trans; [exact F|apply same_is_frame; exact Se]|].
      intros Hnw m s1 args Hm1 Ht Ha. pose proof F as (Fc & Ff & _). rewrite <- Fc in Hm1.
      destruct (V Hnw m s1 Hm1) as (v & Ev & Ov). unfold sampled_ok in Ov. rewrite Ht in Ov. cbn in Ov.
      destruct Ov as (args' & Ea' & Eval). rewrite Ha in Ea'. injection Ea' as <-.
      destruct Se as (_ & _ & _ & _ & Sx). rewrite Sx; [congruence|]. intros Hi. destruct (free_setting st0 m M0 Hi) as (s2 & ty & E2 & Et2 & Hx).
      rewrite Hm1 in E2. injection E2 as <-. congruence. }
    destruct (run_mcmc_inv b t nw false (Some p0) n mv _ s (Positions Rng p0) x1 r1 Es eq_refl E1)
      as [(e & err & Eb & -> & ->)|(e & ws & g & e' & saved & rr & Eb & Est & AR & ->)]; rewrite Rp, Rc, En, Eg, <- N0 in Eb.
    - destruct (begin_ok K Rng sigmas ls fresh independent b t st0 M0 R0 _ _ _ _ _ _ _ Q Eb) as [Sb _].
      destruct (FX e Sb SR1) as [A B]. split; [exact A|]. split; [rewrite SR3; exact Rh|]. split; [exact B|].
      exists s, []. cbn [with_pars x_sampler] in SR4. rewrite Es in SR4. split; [exact SR4|]. split; [exact En|].
      assert (RE : recorded x' s = []). { rewrite RR. exact Er. }
      rewrite RE. split; [constructor|]. split; [exact Logic.I|]. split.
      + intros Hh. destruct (Ef Hh) as [Ef1 Ef2]. split; [exact Ef1|]. cbn [with_pars x_file] in SR7. rewrite Ef2 in SR7.
        destruct (x_file Rng x') as [bk|]; [|discriminate SR7]. injection SR7 as X1 _ _. exists bk. split; [reflexivity|]. exact X1.
      + intros res Hr. specialize (OK _ Hr). discriminate OK.
    - rewrite En, <- N0 in Est. destruct (begin_ok K Rng sigmas ls fresh independent b t st0 M0 R0 _ _ _ _ _ _ _ Q Eb) as [Sb Ob].
      destruct (Ob _ _ eq_refl) as (G & Lw & Hnw & _ & _). destruct e as [st1 c1]. cbn [fst] in Sb. rewrite <- N0 in Hm.
      destruct (steps_ok K Rng sigmas ls fresh b t st0 M0 R0 mv n _ _ _ _ _ _ _ Sb G Hm Est) as (S1 & F1 & K1 & O1).
      pose proof AR as (AR1 & AR2 & AR3 & AR4 & AR5 & AR6 & AR7 & s' & Es' & Ens' & Ems').
      rewrite AR1 in SR1. destruct (FX e' S1 SR1) as [A B]. split; [exact A|]. split; [rewrite SR3, AR4; exact Rh|]. split; [exact B|].
      assert (RE : recorded x' s' = map fst saved).
      { rewrite (run_recorded Rng _ _ s' SR). rewrite (after_recorded _ _ _ _ _ _ _ AR Es'), Er; [reflexivity|].
        intros Hn Hx. destruct (x_h5 Rng x) eqn:Eh; [destruct (Ef eq_refl) as [_ Ef2]; rewrite Ef2 in Hx; discriminate Hx|].
        rewrite (Em eq_refl) in Hn. discriminate Hn. }
      exists s', ws. rewrite Es' in SR4. split; [exact SR4|]. split; [congruence|]. rewrite RE. split; [|split; [exact K1|split]].
      + eapply Forall_impl; [|exact F1]. intros l [Hg Hl]. split; [|congruence]. eapply Forall_impl; [|exact Hg].
        intros w Hw. rewrite SR1. eapply good_same; eassumption.
      + intros Hh. destruct (Ef Hh) as [Ef1 Ef2]. rewrite Ef1 in Ems'. split; [exact Ems'|]. rewrite AR7, Ef1, Ef2 in SR7.
        destruct (x_file Rng x') as [bk|]; [|discriminate SR7]. injection SR7 as X1 _ _. exists bk. split; [reflexivity|exact X1].
      + intros res Hr. specialize (OK _ Hr). destruct rr as [[ws' g']|]; [|discriminate OK]. destruct (O1 _ _ eq_refl) as [O2 _].
        rewrite map_length. auto.
  Qed.
End Fits.
