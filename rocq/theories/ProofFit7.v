(** Lemmas about fits (C100, C101), seventh part: a longer fit, and continuing from another context. *)
From Coq Require Import Reals Lra Lia Permutation.
From Verif Require Import Base BaseFacts ModelFloat ProofFloat ModelParameter ModelLikelihood ModelContext ModelFit
  SpecParameter SpecLikelihood SpecContext SpecFit ProofParameter ProofParameter2 ProofContext ProofFit ProofFit2 ProofFit3 ProofFit4 ProofFit5 ProofFit6.
Local Open Scope string_scope.
Local Open Scope list_scope.

Lemma keeps_next (l1 : list (list walker)) : forall first l l' l2, keeps_all first (l1 ++ l :: l' :: l2) -> keeps l l'.
Proof.
  induction l1 as [|a l1 IH]; intros first l l' l2 H; cbn [keeps_all app] in H.
  - apply H.
  - destruct H as [_ H]. eapply IH. exact H.
Qed.

Lemma in_flat l v lp : In (v, lp) (flat l) <-> exists ws w, In ws l /\ In w ws /\ w_pos w = v /\ w_logp w = lp.
Proof.
  unfold flat. rewrite in_map_iff. split.
  - intros (w & E & Hw). injection E as <- <-. apply in_concat in Hw. destruct Hw as (ws & A & B). exists ws, w. auto.
  - intros (ws & w & A & B & <- & <-). exists w. split; [reflexivity|]. apply in_concat. exists ws. auto.
Qed.

Lemma get_combine names : forall q, NoDup names -> forall n (v : fl), In (n, v) (combine names q) -> get n (combine names q) = Some v.
Proof.
  intros q Hn n v Hi. apply In_get; [|exact Hi]. clear n v Hi. revert q. induction names as [|a names IH]; intros q; [constructor|].
  destruct q as [|x q]; [constructor|]. inversion Hn as [|? ? Ha Hn']; subst. cbn [combine keys map fst]. constructor; [|apply IH, Hn'].
  intros H. apply Ha. unfold keys in H. apply in_map_iff in H. destruct H as ((a' & x') & E & Hi). cbn in E. subst a'. eapply in_combine_l. exact Hi.
Qed.

Section More.
  Variables K Rng : Type.
  Variable normal : fl -> fl -> Rng -> result (fl * Rng).
  Variable sigmas : fl -> fl -> result (fl * fl).
  Variable ls : dict (llh_fun K).
  Variable fresh : nat -> nat -> K.
  Variable independent : list (list fl) -> result bool.
  Notation begin := (begin_run K Rng sigmas ls fresh independent).
  Notation steps := (run_steps K Rng sigmas ls fresh).
  Notation mcmc := (run_mcmc K Rng sigmas ls fresh independent).
  Notation fit := (fitting K Rng normal sigmas ls fresh independent).
  Notation cont := (continue_fitting K Rng sigmas ls fresh independent).
  Notation goodw := (good K sigmas ls fresh).
  Hypothesis normal_ok : forall m sd g, (0 < sd)%R -> exists v g', normal (Fin m) (Fin sd) g = Ok (Fin v, g').

  Lemma fit_cache nw n b t mv x x' r : manages (x_pars Rng x) -> startable_cfg (p_config (x_pars Rng x)) ->
    sanity_check (x_needed Rng x) (keys (p_values (x_pars Rng x))) = Ok tt -> x_h5 Rng x = false ->
    fit nw n b t mv x = (x', r) -> x_cache Rng x' = x_cache Rng x.
  Proof.
    intros M S Hs Hh H. destruct (fit_unfold K Rng normal sigmas ls fresh independent normal_ok nw n b t mv x M S Hs) as (st0 & g0 & p0 & Est & F & L & Q & V & E).
    rewrite E in H. clear E. destruct (mcmc b t nw false (Some p0) n mv (ready Rng nw x st0 g0)) as [xa ra] eqn:E1.
    destruct (ready_sampler Rng nw x st0 g0) as (s & Es & En & Eg & Er & Ef & Em). destruct (ready_pars Rng nw x st0 g0) as (Rp & Rc & Rh & Rk).
    assert (X : x_cache Rng xa = x_cache Rng x /\ x_h5 Rng xa = false).
    { destruct (run_mcmc_inv K Rng sigmas ls fresh independent b t nw false (Some p0) n mv _ s (Positions Rng p0) xa ra Es eq_refl E1)
        as [(e & err & _ & -> & _)|(e & ws & g & e' & saved & rr & _ & _ & AR & _)].
      - cbn [with_pars x_cache x_h5]. split; congruence.
      - destruct AR as (_ & _ & _ & A4 & _ & A6 & _). split; congruence. }
    destruct X as [X1 X2]. unfold finish, dump_meta in H. rewrite X2 in H. destruct ra; injection H as <- <-; exact X1.
  Qed.

  (** Two runs with the same outcome. *)
  Definition same_outcome (x y : fctx Rng) : Prop := content x = content y /\ x_pars Rng x = x_pars Rng y /\ x_calls Rng x = x_calls Rng y.

  Lemma content_run x y : same_run Rng x y -> content y = content x.
  Proof. intros (_ & _ & _ & _ & _ & _ & H). exact H. Qed.

  Lemma longer nw n m b t mv x x1 res x2 r2 x3 r3 : manages (x_pars Rng x) -> startable_cfg (p_config (x_pars Rng x)) ->
    sanity_check (x_needed Rng x) (keys (p_values (x_pars Rng x))) = Ok tt ->
    moves_in (List.length (parameter_fit (x_pars Rng x))) mv -> x_h5 Rng x = true -> x_cache Rng x = None -> (0 < n)%nat ->
    fit nw n b t mv x = (x1, Ok res) -> cont None m b t mv x1 = (x2, r2) -> fit nw (n + m) b t mv x = (x3, r3) ->
    same_outcome x2 x3 /\ (0 < m -> r2 = r3)%nat.
  Proof.
    intros M S Hs Hm Hh Hc Hn H1 H2 H3.
    destruct (fit_in_progress K Rng sigmas ls fresh independent normal normal_ok nw n b t mv x x1 res M S Hs Hm Hh Hc Hn H1) as [IP FR].
    destruct (fit_exact K Rng normal sigmas ls fresh independent normal_ok nw n b t mv x x1 res M S Hs Hm Hh Hc Hn H1)
      as (st0 & g0 & p0 & e & ws0 & g1 & e1 & saved & ws2 & g2 & s & bk & pre & Est & Ebeg & Estep & F & Sb & Gb & S1 & FF & X1 & X2 & X3 & X4 & X5 & X6 & X7 & X8 & (B1 & B2 & B3) & E1 & E2 & X9 & X10 & Hz).
    pose proof (frame_names _ _ FR) as NM. rewrite <- NM in Hm.
    destruct (cont_ok K Rng sigmas ls fresh independent m b t mv x1 IP Hm)
      as (nw' & st & g & ws & pre' & e' & saved' & rr & x2' & C0 & C1 & C2 & C3 & C4 & C5 & C6 & C6' & C7 & C8 & C9 & C10).
    rewrite H2 in C5. injection C5 as <- Er2.
    unfold content in C0. rewrite X8 in C0. cbn [option_map] in C0. rewrite B1, B2, B3 in C0. injection C0 as Q1 Q2 Q3 Q4. subst nw' g.
    assert (W : ws = ws2 /\ pre' = pre) by (rewrite <- Q3 in C1; apply app_inj_tail in C1; destruct C1; auto). destruct W as [-> ->].
    (* the long fit *)
    destruct (fit_unfold K Rng normal sigmas ls fresh independent normal_ok nw (n + m) b t mv x M S Hs) as (st0' & g0' & p0' & Est' & _ & _ & _ & _ & E').
    rewrite Est in Est'. injection Est' as <- <- <-. rewrite E' in H3. clear E'.
    destruct (mcmc b t nw false (Some p0) (n + m) mv (ready Rng nw x st0 g0)) as [xa ra] eqn:Ea.
    destruct (ready_sampler Rng nw x st0 g0) as (s0 & Es & En & Eg & Er & Ef & Em). destruct (Ef Hh) as [Ef1 Ef2].
    destruct (ready_pars Rng nw x st0 g0) as (Rp & Rc & Rh & Rk).
    destruct (run_mcmc_inv K Rng sigmas ls fresh independent b t nw false (Some p0) (n + m) mv _ s0 (Positions Rng p0) xa ra Es eq_refl Ea)
      as [(ee & err & Eb & _)|(ee & wsb & gb & e3 & saved3 & r3' & Eb & Es3 & AR & Era)];
      rewrite Rp, Rc, En, Eg, Ebeg in Eb; [discriminate Eb|]. injection Eb as <- <- <-. rewrite En in Es3.
    rewrite steps_split, Estep in Es3. rewrite NM, X1, X2 in C4. replace (fst e1, snd e1) with e1 in C4 by (destruct e1; reflexivity). rewrite C4 in Es3.
    injection Es3 as <- <- <-.
    pose proof AR as (AR1 & AR2 & AR3 & AR4 & AR5 & AR6 & AR7 & s' & Es' & Ens' & Ems'). rewrite Ef1 in AR7, Ems'. rewrite Ef2 in AR7. cbn [option_map] in AR7, Ems'.
    rewrite Rh, Hh in AR4. rewrite Rk, Hc in AR6.
    assert (Con : content xa = content x2).
    { rewrite C8. unfold content. rewrite AR7. cbn [option_map save empty_backend b_shape b_steps b_rng app]. rewrite NM, map_app, E1, <- Q3.
      f_equal. f_equal. rewrite rev_app_distr. destruct (rev saved') as [|[w0 gg] l] eqn:Ers; [|reflexivity]. cbn [app].
      unfold holds_run in *. assert (Rv : exists l, rev saved = (ws2, g2) :: l).
      { rewrite Forall_forall in FF. assert (G0 : Forall (fine (List.length (parameter_fit (x_pars Rng x)))) ws0).
        { apply Forall_forall. intros w Hw. rewrite Forall_forall in Gb. specialize (Gb w Hw). pose proof (good_length _ _ _ _ _ _ _ w Gb) as GL. split; [|apply Gb].
          rewrite GL, (frame_names _ _ F). reflexivity. }
        rewrite NM in Hm. destruct (steps_fine K Rng sigmas ls fresh b t _ mv n _ _ _ _ _ _ G0 Hm Estep) as [_ SL]. destruct (SL _ _ eq_refl) as [L1 L2].
        destruct (last_snoc saved (ws0, g1)) as (ps & Eps); [intros ->; cbn in L1; lia|]. rewrite <- L2 in Eps. exists (rev ps). rewrite Eps. apply rev_last. }
      destruct Rv as (l & ->). reflexivity. }
    destruct (finish_run Rng b xa ra x3 r3 H3) as [SR OK]. split.
    - split; [rewrite (content_run _ _ SR); symmetry; exact Con|]. destruct SR as (SR1 & _ & _ & _ & _ & SR6 & _). rewrite SR1, SR6. split; congruence.
    - intros Hmp. destruct rr as [[wsf gf]|err].
      + assert (Rec : recorded xa s' = (pre ++ [ws2]) ++ map fst saved').
        { unfold recorded. rewrite Ems', AR7. cbn [save empty_backend b_steps app]. rewrite map_app, E1. reflexivity. }
        destruct C9 as (_ & _ & _ & (nwz & stz & gz & Cz & Nz & Sz & Az) & _). rewrite C8 in Cz. injection Cz as <- _ <- <-.
        destruct (dump_value Rng b xa s' (flat ((pre ++ [ws2]) ++ map fst saved')) _ AR4 AR7 Es') as (xb & Ed & _ & _).
        * right. rewrite Rec. split; [exact AR6|]. split; [|reflexivity]. destruct pre; discriminate.
        * apply (flat_nonempty _ ws2); [apply in_or_app; left; apply in_or_app; right; left; reflexivity|]. intros ->. cbn in C3. congruence.
        * intros v lp Hi. apply in_flat in Hi. destruct Hi as (wl & w & A & B & <- & <-). rewrite Q3 in A. apply (Az wl A), B.
        * rewrite Era in H3. cbn [finish] in H3. rewrite Ed in H3. injection H3 as _ <-. rewrite Er2. destruct m as [|m']; [lia|]. rewrite Nat.add_succ_r. reflexivity.
      + rewrite Era in H3. cbn [finish] in H3. injection H3 as _ <-. exact Er2.
  Qed.

  (** Continuing twice. *)
  Lemma twice m1 m2 b t mv x x1 r1 x2 r2 x3 r3 : in_progress x -> moves_in (List.length (parameter_fit (x_pars Rng x))) mv ->
    cont None m1 b t mv x = (x1, Ok r1) -> cont None m2 b t mv x1 = (x2, r2) -> cont None (m1 + m2) b t mv x = (x3, r3) ->
    same_outcome x2 x3 /\ (0 < m2 -> r2 = r3)%nat.
  Proof.
    intros IP Hm H1 H2 H3.
    destruct (cont_ok K Rng sigmas ls fresh independent m1 b t mv x IP Hm)
      as (nw & st & g & ws & pre & e1 & sv1 & rr1 & x1' & C0 & C1 & C2 & C3 & C4 & C5 & C6 & C6' & C7 & C8 & IP1 & C10).
    rewrite H1 in C5. injection C5 as <- Er1. destruct rr1 as [[ws1 g1]|]; [|discriminate Er1]. destruct (C10 _ _ eq_refl) as (L1 & L2 & _).
    assert (NM : parameter_fit (x_pars Rng x1) = parameter_fit (x_pars Rng x)) by (rewrite C6; apply same_names; exact C6').
    pose proof Hm as Hm1. rewrite <- NM in Hm1.
    destruct (cont_ok K Rng sigmas ls fresh independent m2 b t mv x1 IP1 Hm1)
      as (nw2 & st2 & g2 & ws2 & pre2 & e2 & sv2 & rr2 & x2' & D0 & D1 & D2 & D3 & D4 & D5 & D6 & D6' & D7 & D8 & IP2 & D10).
    rewrite H2 in D5. injection D5 as <- Er2.
    destruct (cont_ok K Rng sigmas ls fresh independent (m1 + m2) b t mv x IP Hm)
      as (nw3 & st3 & g3 & ws3 & pre3 & e3 & sv3 & rr3 & x3' & E0 & E1 & E2 & E3 & E4 & E5 & E6 & E6' & E7 & E8 & IP3 & E10).
    rewrite H3 in E5. injection E5 as <- Er3.
    rewrite C0 in E0. injection E0 as <- <- <-. rewrite C1 in E1. apply app_inj_tail in E1. destruct E1 as [<- <-].
    rewrite C8 in D0. injection D0 as <- _ Q3 Q4.
    assert (Last : ws2 = ws1 /\ g2 = g1 /\ (forall l, rev sv1 = [] -> sv1 = l -> l = [])).
    { destruct sv1 as [|a l].
      - cbn in L2, Q4, Q3. injection L2 as -> ->. rewrite app_nil_r in Q3. rewrite <- Q3, C1 in D1. apply app_inj_tail in D1. destruct D1 as [_ <-].
        repeat split; auto.
      - destruct (last_snoc (a :: l) (ws, g)) as (ps & Eps); [discriminate|]. rewrite <- L2 in Eps. rewrite Eps in Q3, Q4. rewrite rev_last in Q4. cbn in Q4.
        rewrite map_app, app_assoc in Q3. cbn [map fst] in Q3. rewrite <- Q3 in D1. apply app_inj_tail in D1. destruct D1 as [_ <-]. repeat split; auto.
        intros l' Hl. apply (f_equal (@List.length _)) in Hl. rewrite rev_length in Hl. discriminate Hl. }
    destruct Last as (-> & -> & _). rewrite NM, C6, C7 in D4. replace (fst e1, snd e1) with e1 in D4 by (destruct e1; reflexivity).
    rewrite steps_split, C4, D4 in E4. injection E4 as <- <- <-. split.
    - unfold same_outcome. rewrite D8, E8, D6, E6, D7, E7. split; [|split; reflexivity]. rewrite NM, <- Q3, map_app, app_assoc. f_equal. f_equal.
      rewrite rev_app_distr. destruct (rev sv2) as [|[w0 gg] l]; [|reflexivity]. cbn [app]. rewrite <- Q4. reflexivity.
    - intros Hp. rewrite Er2, Er3. destruct rr2 as [[wa ga]|]; [|reflexivity]. destruct m2 as [|m2]; [lia|]. rewrite Nat.add_succ_r. reflexivity.
  Qed.

  (** Continuing from a file in another session. *)
  Lemma from_file m b t mv x y x2 rx : in_progress x -> moves_in (List.length (parameter_fit (x_pars Rng x))) mv ->
    same_but_fit (x_pars Rng x) (x_pars Rng y) -> x_h5 Rng y = true -> x_file Rng y = x_file Rng x -> x_cache Rng y = None -> x_calls Rng y = x_calls Rng x ->
    (forall bk, x_file Rng x = Some bk -> m_batch (b_meta Rng bk) <> None) ->
    cont None m b t mv x = (x2, rx) ->
    exists y1 y2, attach Rng y = (y1, Ok tt) /\ in_progress y1 /\ x_cache Rng y1 = None /\ cont None m b t mv y1 = (y2, rx) /\
      content y2 = content x2 /\ x_calls Rng y2 = x_calls Rng x2 /\ same_but_fit (x_pars Rng x2) (x_pars Rng y2).
  Proof.
    intros IP Hm Sxy Hh Hf Hk Hcalls Hb H.
    pose proof IP as (M & Hhx & (s & Es & Em) & (nw & st & g & C0 & C1 & C2 & C3) & _).
    assert (NM : parameter_fit (x_pars Rng y) = parameter_fit (x_pars Rng x)) by (apply same_names; exact Sxy).
    pose proof C0 as C0'. unfold content in C0'. destruct (x_file Rng x) as [bk|] eqn:Ef; [|discriminate C0']. cbn [option_map] in C0'. injection C0' as A1 A2 A3.
    specialize (Hb bk eq_refl).
    set (s1 := mk_sampler Rng (parameter_fit (x_pars Rng y)) None g (match rev st with ws :: _ => Some (ws, Some g) | [] => None end)).
    assert (EA : attach Rng y = (with_sampler Rng y s1, Ok tt)).
    { unfold attach. rewrite Hf. destruct (m_batch (b_meta Rng bk)) as [b0|]; [|congruence]. unfold pre_fitting. rewrite Hh, Hf, A1. cbn [fst snd].
      rewrite NM, !Nat.eqb_refl. cbn [andb negb]. rewrite A2, A3. unfold s1. rewrite NM. reflexivity. }
    set (y1 := with_sampler Rng y s1) in *.
    assert (IPy : in_progress y1).
    { unfold in_progress, y1. cbn [with_sampler x_pars x_h5 x_sampler x_cache content x_file]. split; [eapply same_manages; eassumption|]. split; [exact Hh|].
      split; [exists s1; split; reflexivity|]. rewrite NM. split; [|rewrite Hk; discriminate]. exists nw, st, g. split; [|auto].
      unfold content. cbn [with_sampler x_file]. rewrite Hf. cbn [option_map]. congruence. }
    assert (Hmy : moves_in (List.length (parameter_fit (x_pars Rng y1))) mv) by (unfold y1; cbn [with_sampler x_pars]; rewrite NM; exact Hm).
    destruct (cont_ok K Rng sigmas ls fresh independent m b t mv x IP Hm)
      as (nwx & stx & gx & wsx & prex & ex & svx & rrx & x2' & X0 & X1 & X2 & X3 & X4 & X5 & X6 & X6' & X7 & X8 & _ & _).
    rewrite H in X5. injection X5 as <- Erx.
    destruct (cont_ok K Rng sigmas ls fresh independent m b t mv y1 IPy Hmy)
      as (nwy & sty & gy & wsy & prey & ey & svy & rry & y2 & Y0 & Y1 & Y2 & Y3 & Y4 & Y5 & Y6 & Y6' & Y7 & Y8 & _ & _).
    assert (Cy : content y1 = content x) by (unfold content, y1; cbn [with_sampler x_file]; rewrite Hf, Ef; reflexivity).
    rewrite Cy, X0 in Y0. unfold y1 in Y0. cbn [with_sampler x_pars] in Y0. injection Y0 as <- _ <- <-. rewrite X1 in Y1. apply app_inj_tail in Y1. destruct Y1 as [<- <-].
    unfold y1 in Y4, Y6', Y8. cbn [with_sampler x_pars x_calls] in Y4, Y6', Y8. rewrite NM in Y4, Y8.
    pose proof (steps_same K Rng sigmas ls fresh b t (x_pars Rng x) M mv m (x_pars Rng x, x_calls Rng x) (x_pars Rng y, x_calls Rng y) gx wsx) as SS.
    rewrite X4, Y4 in SS. destruct SS as (SS1 & SS2 & SS3).
    { split; [apply same_refl|]. split; [exact Sxy|symmetry; exact Hcalls]. }
    { exact Hm. }
    cbn [fst snd] in SS1, SS2, SS3. subst svy rry. destruct SS3 as (T1 & T2 & T3).
    exists y1, y2. split; [exact EA|]. split; [exact IPy|]. split; [exact Hk|]. split; [rewrite Y5; subst rx; reflexivity|].
    split; [rewrite Y8, X8; reflexivity|]. split; [congruence|]. rewrite X6, Y6. eapply same_trans; [apply same_sym; exact T1|exact T2].
  Qed.

  (** Continuing the run of another context: the shape is wrong. *)
  Lemma other_shape y m b t mv x s l bk : x_sampler Rng y = Some s -> stored Rng y s = Ok l -> x_h5 Rng x = true -> x_file Rng x = Some bk ->
    b_shape Rng bk <> (List.length (last l []), List.length (parameter_fit (x_pars Rng x))) ->
    cont (Some y) m b t mv x = (x, Err ValueError).
  Proof.
    intros Es El Hh Hf Hs. unfold continue_fitting. rewrite Es. cbn [bind]. rewrite El.
    assert (EL : (match rev l with ws :: _ => ws | [] => [] end) = last l []).
    { destruct l as [|a l']; [reflexivity|]. destruct (last_snoc (a :: l') []) as (pre & Ep); [discriminate|]. rewrite Ep at 1. rewrite rev_last. reflexivity. }
    rewrite EL. unfold pre_fitting. rewrite Hh, Hf. destruct (b_shape Rng bk) as [p q] eqn:Eb. cbn [fst snd].
    destruct (Nat.eqb_spec p (List.length (last l []))) as [->|]; [|reflexivity]. cbn [andb].
    destruct (Nat.eqb_spec q (List.length (parameter_fit (x_pars Rng x)))) as [->|]; [congruence|]. reflexivity.
  Qed.

  (** What a context has recorded before it is continued. *)
  Definition before (x : fctx Rng) : list (list walker) :=
    if x_h5 Rng x then match x_file Rng x with Some bk => b_steps Rng bk | None => [] end else [].

  Lemma other_ok y m b t mv x x' res : manages (x_pars Rng x) -> startable_cfg (p_config (x_pars Rng x)) ->
    moves_in (List.length (parameter_fit (x_pars Rng x))) mv ->
    (forall s, x_sampler Rng y = Some s -> forall w, In w (last (recorded y s) []) -> allowed (p_config (x_pars Rng x)) (parameter_fit (x_pars Rng x)) (w_pos w)) ->
    cont (Some y) m b t mv x = (x', Ok res) ->
    same_but_fit (x_pars Rng x) (x_pars Rng x') /\
    exists sy s new, x_sampler Rng y = Some sy /\ x_sampler Rng x' = Some s /\ s_names Rng s = parameter_fit (x_pars Rng x) /\
      recorded x' s = before x ++ new /\ List.length new = m /\
      Forall (fun l => Forall (goodw b t (x_pars Rng x')) l /\ List.length l = List.length (last (recorded y sy) [])) new.
  Proof.
    intros M S Hm Hy H. unfold continue_fitting in H. destruct (x_sampler Rng y) as [sy|] eqn:Esy; [|discriminate H]. cbn [bind] in H.
    destruct (stored Rng y sy) as [l|] eqn:El; [|discriminate H]. specialize (Hy sy eq_refl).
    assert (Rl : recorded y sy = l /\ l <> []).
    { unfold stored in El. unfold recorded. destruct (match s_mem Rng sy with Some b => Some b | None => x_file Rng y end) as [b0|]; [|discriminate El].
      destruct (b_steps Rng b0); [discriminate El|]. injection El as <-. split; [reflexivity|discriminate]. }
    destruct Rl as [Rl Nl]. rewrite Rl in Hy.
    assert (EL : (match rev l with ws :: _ => ws | [] => [] end) = last l []).
    { destruct (last_snoc l [] Nl) as (pre & Ep). rewrite Ep at 1. rewrite rev_last. reflexivity. }
    rewrite EL in H. set (ws := last l []) in *. set (nw := List.length ws) in *.
    destruct (pre_fitting Rng nw false x) as [x1 [[]|err]] eqn:Ep; [|discriminate H].
    assert (P : x_pars Rng x1 = x_pars Rng x /\ x_calls Rng x1 = x_calls Rng x /\ exists s1, x_sampler Rng x1 = Some s1 /\ s_names Rng s1 = parameter_fit (x_pars Rng x) /\
      recorded x1 s1 = before x /\ (s_mem Rng s1 = None -> x_file Rng x1 <> None)).
    { unfold pre_fitting in Ep. unfold before. destruct (x_h5 Rng x) eqn:Eh.
      - destruct (x_file Rng x) as [bk|] eqn:Ef.
        + destruct (negb _) in Ep; [discriminate Ep|]. injection Ep as <-. cbn [with_sampler x_pars x_calls x_sampler]. split; [reflexivity|]. split; [reflexivity|].
          eexists. split; [reflexivity|]. cbn [s_names s_mem recorded]. split; [reflexivity|]. unfold recorded. cbn [s_mem with_sampler x_file]. rewrite Ef. split; [reflexivity|]. discriminate.
        + injection Ep as <-. cbn [with_sampler with_file x_pars x_calls x_sampler]. split; [reflexivity|]. split; [reflexivity|].
          eexists. split; [reflexivity|]. cbn [s_names s_mem]. split; [reflexivity|]. split; [reflexivity|]. discriminate.
      - injection Ep as <-. cbn [with_sampler x_pars x_calls x_sampler]. split; [reflexivity|]. split; [reflexivity|].
        eexists. split; [reflexivity|]. cbn [s_names s_mem]. split; [reflexivity|]. split; [reflexivity|]. discriminate. }
    destruct P as (P1 & P2 & s1 & Es1 & En1 & Er1 & Ef1).
    destruct (mcmc b t nw true (Some (map w_pos ws)) m mv x1) as [xa ra] eqn:Ea.
    destruct (finish_run Rng b xa ra x' (Ok res) H) as [SR OK]. specialize (OK _ eq_refl). subst ra.
    destruct (run_mcmc_inv K Rng sigmas ls fresh independent b t nw true (Some (map w_pos ws)) m mv x1 s1 (Positions Rng (map w_pos ws)) xa (Ok res) Es1 eq_refl Ea)
      as [(e & err & _ & _ & X)|(e & ws0 & g & e' & saved & rr & Eb & Est & AR & Err)]; [discriminate X|].
    destruct rr as [[ws2 g2]|]; [|discriminate Err]. rewrite P1, P2, En1 in Eb. rewrite En1 in Est.
    pose proof (start_ranges (x_pars Rng x) M S) as R0.
    assert (Q : Forall (Forall2 (fun n v => exists s, get n (p_config (x_pars Rng x)) = Some s /\ in_range s v) (parameter_fit (x_pars Rng x))) (map w_pos ws)).
    { apply Forall_forall. intros q Hq. apply in_map_iff in Hq. destruct Hq as (w & <- & Hw). specialize (Hy w Hw). unfold allowed in Hy.
      clear -Hy. induction Hy as [|n v ns vs (s & r & A & B & C) F IH]; constructor; [exists s; auto|exact IH]. }
    destruct (begin_ok K Rng sigmas ls fresh independent b t (x_pars Rng x) M R0 _ _ _ _ _ _ _ Q Eb) as [Sb Ob].
    destruct (Ob _ _ eq_refl) as (G & Lw & Hnw & _). destruct e as [st1 c1]. cbn [fst] in Sb.
    destruct (steps_ok K Rng sigmas ls fresh b t (x_pars Rng x) M R0 mv m _ _ _ _ _ _ _ Sb G Hm Est) as (S1 & F1 & K1 & O1).
    destruct (O1 _ _ eq_refl) as [Ln _].
    pose proof AR as (AR1 & _ & _ & _ & _ & _ & _ & s' & Es' & Ens' & Ems').
    pose proof (run_recorded Rng _ _ s' SR) as RR. destruct SR as (SR1 & _ & _ & SR4 & _).
    assert (Sx : same_but_fit (x_pars Rng x) (x_pars Rng x')) by (rewrite SR1, AR1; exact S1).
    split; [exact Sx|]. exists sy, s', (map fst saved). split; [reflexivity|]. split; [congruence|]. split; [congruence|].
    split; [rewrite RR, (after_recorded Rng s1 e' saved m x1 xa s' AR Es' Ef1), Er1; reflexivity|]. split; [rewrite map_length; exact Ln|].
    rewrite Rl. eapply Forall_impl; [|exact F1]. intros ll [A B]. split; [|fold ws; fold nw; congruence].
    eapply Forall_impl; [|exact A]. intros w Hw. eapply good_same; [exact Sx|exact Hw].
  Qed.

  (** Without a file a context cannot be continued on itself. *)
  Lemma memory_lost m b t mv x s bk : x_h5 Rng x = false -> x_sampler Rng x = Some s -> s_mem Rng s = Some bk -> b_steps Rng bk <> [] ->
    exists x' s', cont None m b t mv x = (x', Err ValueError) /\ x_sampler Rng x' = Some s' /\ recorded x' s' = [].
  Proof.
    intros Hh Es Em Hn. unfold continue_fitting. rewrite Es. cbn [bind]. unfold stored. rewrite Em. destruct (b_steps Rng bk) as [|a l] eqn:El; [congruence|].
    unfold pre_fitting. rewrite Hh. unfold run_mcmc. cbn [with_sampler x_sampler s_prev finish]. eexists. eexists. split; [reflexivity|]. split; reflexivity.
  Qed.
End More.
