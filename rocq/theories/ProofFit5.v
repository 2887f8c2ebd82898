(** Lemmas about fits (C100, C101), fifth part: continuing. *)
From Coq Require Import Reals Lra Lia Permutation.
From Verif Require Import Base BaseFacts ModelFloat ProofFloat ModelParameter ModelLikelihood ModelContext ModelFit
  SpecParameter SpecLikelihood SpecContext SpecFit ProofParameter ProofParameter2 ProofContext ProofFit ProofFit2 ProofFit3 ProofFit4.
Local Open Scope string_scope.
Local Open Scope list_scope.

Lemma rev_last {A} (l : list A) a : rev (l ++ [a]) = a :: rev l.
Proof. rewrite rev_app_distr. reflexivity. Qed.

Lemma last_snoc {A} (l : list A) d : l <> [] -> exists pre, l = pre ++ [last l d].
Proof. intros H. exists (removelast l). apply app_removelast_last, H. Qed.

Section Continue.
  Variables K Rng : Type.
  Variable normal : fl -> fl -> Rng -> result (fl * Rng).
  Variable sigmas : fl -> fl -> result (fl * fl).
  Variable ls : dict (llh_fun K).
  Variable fresh : nat -> nat -> K.
  Variable independent : list (list fl) -> result bool.
  Notation begin := (begin_run K Rng sigmas ls fresh independent).
  Notation steps := (run_steps K Rng sigmas ls fresh).
  Notation mcmc := (run_mcmc K Rng sigmas ls fresh independent).
  Notation fit := (fitting K Rng normal sigmas ls fresh independent).
  Notation cont := (continue_fitting K Rng sigmas ls fresh independent).
  Notation goodw := (good K sigmas ls fresh).

  (** A file with a run in it: all iterations of [nw] walkers, the last one [ws] and the generator [g]. *)
  Definition holds_run (nw ndim : nat) (pre : list (list walker)) (ws : list walker) (g : Rng) (bk : backend Rng) : Prop :=
    b_shape Rng bk = (nw, ndim) /\ b_steps Rng bk = pre ++ [ws] /\ b_rng Rng bk = Some g.

  Lemma begin_state b t names nw skip ws g0 e g : List.length ws = nw -> nw <> 0%nat -> (skip = true \/ independent (map w_pos ws) = Ok true) ->
    Forall (fun w => List.length (w_pos w) = List.length names /\ w_logp w <> NaN) ws ->
    begin b t names nw skip (State Rng ws (Some g0)) e g = (e, Ok (ws, g0)).
  Proof.
    intros Hl Hz Hi Hf. cbn [begin_run].
    replace (negb (Nat.eqb nw 0)) with true by (symmetry; apply Bool.negb_true_iff, Nat.eqb_neq; exact Hz).
    rewrite map_length, Hl, Nat.eqb_refl. cbn [andb].
    replace (forallb _ (map w_pos ws)) with true.
    2:{ symmetry. apply forallb_forall. intros q Hq. apply in_map_iff in Hq. destruct Hq as (w & <- & Hw).
        rewrite Forall_forall in Hf. apply Nat.eqb_eq, (Hf w Hw). }
    cbn [negb]. replace (if skip then Ok true else independent (map w_pos ws)) with (Ok true).
    2:{ destruct skip; [reflexivity|]. destruct Hi as [Hi|Hi]; [discriminate Hi|symmetry; exact Hi]. }
    replace (existsb _ ws) with false; [reflexivity|]. symmetry. apply Bool.not_true_is_false. intros H. apply existsb_exists in H.
    destruct H as (w & Hw & Hn). rewrite Forall_forall in Hf. destruct (Hf w Hw) as [_ Hx]. destruct (w_logp w); try discriminate Hn. apply Hx. reflexivity.
  Qed.

  (** Continuing a context on itself with a file. *)
  Lemma cont_self m b t mv x s bk pre ws g : x_h5 Rng x = true -> x_sampler Rng x = Some s -> s_mem Rng s = None ->
    x_file Rng x = Some bk -> holds_run (List.length ws) (List.length (parameter_fit (x_pars Rng x))) pre ws g bk -> ws <> [] ->
    Forall (fun w => List.length (w_pos w) = List.length (parameter_fit (x_pars Rng x)) /\ w_logp w <> NaN) ws ->
    exists e' saved rr x1, let s1 := mk_sampler Rng (parameter_fit (x_pars Rng x)) None g (Some (ws, Some g)) in
      steps b t (parameter_fit (x_pars Rng x)) m mv (x_pars Rng x, x_calls Rng x) g ws = (e', saved, rr) /\
      after_run Rng s1 e' saved m (with_sampler Rng x s1) x1 /\
      cont None m b t mv x
      = finish Rng b (x1, match rr with Err err => Err err | Ok (ws', _) => Ok (match m with 0 => None | S _ => Some ws' end) end).
  Proof.
    intros Hh Es Em Ef (B1 & B2 & B3) Hw Hf. unfold continue_fitting. rewrite Es. cbn [bind]. unfold stored. rewrite Em, Ef, B2.
    destruct (pre ++ [ws]) as [|a l] eqn:Ep; [destruct pre; discriminate Ep|]. rewrite <- Ep. rewrite rev_last.
    unfold pre_fitting. rewrite Hh, Ef, B1. cbn [fst snd]. rewrite !Nat.eqb_refl. cbn [andb negb]. rewrite B2, B3, <- Ep, rev_last.
    set (s1 := mk_sampler Rng (parameter_fit (x_pars Rng x)) None g (Some (ws, Some g))).
    destruct (mcmc b t (List.length ws) true None m mv (with_sampler Rng x s1)) as [x1 r1] eqn:E1.
    assert (Hz : List.length ws <> 0%nat) by (destruct ws; [congruence|discriminate]).
    destruct (run_mcmc_inv K Rng sigmas ls fresh independent b t (List.length ws) true None m mv (with_sampler Rng x s1) s1 (State Rng ws (Some g)) x1 r1 eq_refl eq_refl E1)
      as [(e & err & Eb & _)|(e & ws1 & g1 & e' & saved & rr & Eb & Est & AR & ->)];
      cbn [with_sampler x_pars x_calls s_names s_rng s1] in Eb; rewrite (begin_state b t _ _ true ws g) in Eb; try assumption; auto; [discriminate Eb|].
    injection Eb as <- <- <-. exists e', saved, rr, x1. split; [exact Est|]. split; [exact AR|]. reflexivity.
  Qed.

  Hypothesis normal_ok : forall m sd g, (0 < sd)%R -> exists v g', normal (Fin m) (Fin sd) g = Ok (Fin v, g').

  Lemma flat_not_nan (P : walker -> Prop) (l : list (list walker)) : (forall w, P w -> w_logp w <> NaN) -> Forall (Forall P) l ->
    forall v lp, In (v, lp) (flat l) -> lp <> NaN.
  Proof.
    intros HP F v lp H. unfold flat in H. apply in_map_iff in H. destruct H as (w & E & Hw). injection E as <- <-.
    apply in_concat in Hw. destruct Hw as (ws & Hws & Hw). rewrite Forall_forall in F. specialize (F ws Hws).
    rewrite Forall_forall in F. apply HP, F, Hw.
  Qed.

  Lemma flat_nonempty (l : list (list walker)) ws : In ws l -> ws <> [] -> flat l <> [].
  Proof.
    intros Hi Hw E. unfold flat in E. apply map_eq_nil in E. destruct ws as [|w ws]; [congruence|].
    assert (H : In w (List.concat l)) by (apply in_concat; exists (w :: ws); split; [exact Hi|left; reflexivity]).
    rewrite E in H. exact H.
  Qed.

  (** A successful fit with a file, in detail. *)
  Lemma fit_exact nw n b t mv x x1 res : manages (x_pars Rng x) -> startable_cfg (p_config (x_pars Rng x)) ->
    sanity_check (x_needed Rng x) (keys (p_values (x_pars Rng x))) = Ok tt ->
    moves_in (List.length (parameter_fit (x_pars Rng x))) mv -> x_h5 Rng x = true -> x_cache Rng x = None -> (0 < n)%nat ->
    fit nw n b t mv x = (x1, Ok res) ->
    exists st0 g0 p0 e ws0 g1 e1 saved ws2 g2 s bk pre,
      starts Rng normal nw (x_pars Rng x) (x_global Rng x) = (st0, g0, Ok p0) /\
      begin b t (parameter_fit (x_pars Rng x)) nw false (Positions Rng p0) (st0, x_calls Rng x) g0 = (e, Ok (ws0, g1)) /\
      steps b t (parameter_fit (x_pars Rng x)) n mv e g1 ws0 = (e1, saved, Ok (ws2, g2)) /\
      same_frame (x_pars Rng x) st0 /\ same_but_fit st0 (fst e) /\ Forall (goodw b t st0) ws0 /\
      same_but_fit st0 (fst e1) /\ Forall (fun l => Forall (goodw b t st0) l /\ List.length l = nw) (map fst saved) /\
      x_pars Rng x1 = fst e1 /\ x_calls Rng x1 = snd e1 /\ x_h5 Rng x1 = true /\ x_sampler Rng x1 = Some s /\ s_mem Rng s = None /\
      s_names Rng s = parameter_fit (x_pars Rng x) /\ x_needed Rng x1 = x_needed Rng x /\
      x_file Rng x1 = Some bk /\ holds_run nw (List.length (parameter_fit (x_pars Rng x))) pre ws2 g2 bk /\ map fst saved = pre ++ [ws2] /\
      res = Some ws2 /\ x_cache Rng x1 = Some (flat (map fst saved)) /\
      b_meta Rng bk = mk_meta (Some (p_config (x_pars Rng x))) (Some (update (p_values (x_pars Rng x1)) (combine (parameter_fit (x_pars Rng x)) (best_of (flat (map fst saved))))))
        (Some (parameter_fit (x_pars Rng x))) (Some b) /\ nw <> 0%nat.
  Proof.
    intros M S Hs Hm Hh Hc Hn H. destruct (fit_unfold K Rng normal sigmas ls fresh independent normal_ok nw n b t mv x M S Hs) as (st0 & g0 & p0 & Est & F & L & Q & V & E).
    rewrite E in H. clear E. destruct (mcmc b t nw false (Some p0) n mv (ready Rng nw x st0 g0)) as [xa ra] eqn:E1.
    destruct (finish_run Rng b xa ra x1 (Ok res) H) as [SR OK]. specialize (OK _ eq_refl). subst ra.
    destruct (ready_sampler Rng nw x st0 g0) as (s & Es & En & Eg & Er & Ef & Em). destruct (Ef Hh) as [Ef1 Ef2].
    destruct (ready_pars Rng nw x st0 g0) as (Rp & Rc & Rh & Rk).
    assert (M0 : manages st0) by (eapply frame_manages; eassumption).
    assert (S0 : startable_cfg (p_config st0)) by (pose proof F as (-> & _); exact S).
    pose proof (start_ranges st0 M0 S0) as R0.
    assert (N0 : parameter_fit st0 = parameter_fit (x_pars Rng x)) by (apply frame_names; exact F).
    destruct (run_mcmc_inv K Rng sigmas ls fresh independent b t nw false (Some p0) n mv _ s (Positions Rng p0) xa (Ok res) Es eq_refl E1)
      as [(e & err & _ & _ & X)|(e & ws & g & e' & saved & rr & Eb & Esteps & AR & Er')]; [discriminate X|].
    rewrite Rp, Rc, En, Eg in Eb. rewrite En in Esteps. destruct rr as [[ws2 g2]|]; [|discriminate Er'].
    pose proof Eb as Eb'. rewrite <- N0 in Eb'.
    destruct (begin_ok K Rng sigmas ls fresh independent b t st0 M0 R0 _ _ _ _ _ _ _ Q Eb') as [Sb Ob].
    destruct (Ob _ _ eq_refl) as (G & Lw & Hnw & _ & _). destruct e as [st1 c1]. cbn [fst] in Sb. rewrite <- N0 in Hm.
    pose proof Esteps as Esteps'. rewrite <- N0 in Esteps'.
    destruct (steps_ok K Rng sigmas ls fresh b t st0 M0 R0 mv n _ _ _ _ _ _ _ Sb G Hm Esteps') as (S1 & F1 & K1 & O1).
    destruct (O1 _ _ eq_refl) as [Ln Elast].
    pose proof AR as (AR1 & AR2 & AR3 & AR4 & AR5 & AR6 & AR7 & s' & Es' & Ens' & Ems'). rewrite Ef1 in Ems', AR7. cbn [option_map] in Ems'.
    rewrite Ef2 in AR7. cbn [option_map] in AR7. rewrite Rh, Hh in AR4. rewrite Rk, Hc in AR6.
    assert (Sne : saved <> []) by (intros ->; cbn in Ln; lia).
    destruct (last_snoc saved (ws, g) Sne) as (presaved & Epre). rewrite <- Elast in Epre.
    assert (Emap : map fst saved = map fst presaved ++ [ws2]) by (rewrite Epre, map_app; reflexivity).
    assert (RE : recorded xa s' = map fst saved).
    { unfold recorded. rewrite Ems', AR7. reflexivity. }
    assert (W2 : List.length ws2 = nw /\ Forall (goodw b t st0) ws2).
    { rewrite Forall_forall in F1. destruct (F1 ws2) as [A B]; [rewrite Emap; apply in_or_app; right; left; reflexivity|]. split; [congruence|exact A]. }
    assert (NN : forall v lp, In (v, lp) (flat (map fst saved)) -> lp <> NaN).
    { apply (flat_not_nan (goodw b t st0)); [intros w (_ & _ & X); exact X|]. eapply Forall_impl; [|exact F1]. intros l [A _]. exact A. }
    assert (NE : flat (map fst saved) <> []).
    { apply (flat_nonempty _ ws2); [rewrite Emap; apply in_or_app; right; left; reflexivity|]. destruct W2 as [W2 _]. destruct ws2; [cbn in W2; congruence|discriminate]. }
    cbn [finish] in H.
    destruct (dump_value Rng b xa s' (flat (map fst saved)) _ AR4 AR7 Es') as (xb & Ed & Ecb & Efb); [|exact NE|exact NN|].
    { right. rewrite RE. split; [exact AR6|]. split; [|reflexivity]. rewrite Emap. destruct (map fst presaved); discriminate. }
    rewrite Ed in H. injection H as <-. pose proof (dump_run Rng b xa xb (Ok tt) Ed) as (D1 & D2 & D3 & D4 & D5 & D6 & D7).
    exists st0, g0, p0, (st1, c1), ws, g, e', saved, ws2, g2, s'. eexists. exists (map fst presaved).
    rewrite D1, D6, D3, D4, D2. split; [exact Est|]. split; [exact Eb|]. split; [exact Esteps|]. split; [exact F|]. split; [exact Sb|]. split; [exact G|].
    split; [exact S1|]. split; [eapply Forall_impl; [|exact F1]; intros l [A B]; split; [exact A|congruence]|].
    split; [exact AR1|]. split; [exact AR2|]. split; [exact AR4|]. split; [exact Es'|]. split; [exact Ems'|]. split; [congruence|].
    split; [rewrite AR3; unfold ready; rewrite Hh; reflexivity|]. split; [exact Efb|]. split.
    { unfold holds_run. cbn [b_shape b_steps b_rng save empty_backend]. split; [reflexivity|]. split; [exact Emap|].
      rewrite Epre, rev_last. reflexivity. }
    split; [exact Emap|]. split.
    { destruct n; [lia|]. congruence. }
    split; [exact Ecb|]. split; [|exact Hnw]. cbn [b_meta]. rewrite Ens', En, AR1. f_equal.
    - f_equal. destruct S1 as (X & _). rewrite X. destruct F as (X' & _). exact X'.
    - rewrite (same_names _ _ S1), N0. reflexivity.
  Qed.
End Continue.
