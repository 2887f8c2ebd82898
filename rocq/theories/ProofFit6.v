(** Lemmas about fits (C100, C101), sixth part: continuing in several pieces. *)
From Coq Require Import Reals Lra Lia Permutation.
From Verif Require Import Base BaseFacts ModelFloat ProofFloat ModelParameter ModelLikelihood ModelContext ModelFit
  SpecParameter SpecLikelihood SpecContext SpecFit ProofParameter ProofParameter2 ProofContext ProofFit ProofFit2 ProofFit3 ProofFit4 ProofFit5.
Local Open Scope string_scope.
Local Open Scope list_scope.

Section Pieces.
  Variables K Rng : Type.
  Variable sigmas : fl -> fl -> result (fl * fl).
  Variable ls : dict (llh_fun K).
  Variable fresh : nat -> nat -> K.
  Variable independent : list (list fl) -> result bool.
  Notation steps := (run_steps K Rng sigmas ls fresh).
  Notation cont := (continue_fitting K Rng sigmas ls fresh independent).

  Definition fine (ndim : nat) (w : walker) : Prop := List.length (w_pos w) = ndim /\ w_logp w <> NaN.

  Lemma evals_len b t names qs : forall e e' rs, eval_list K sigmas ls fresh b t names e qs = (e', Ok rs) -> List.length rs = List.length qs.
  Proof.
    induction qs as [|q qs IH]; intros e e' rs H; cbn [eval_list] in H; [injection H as <- <-; reflexivity|].
    destruct (eval_one K sigmas ls fresh b t names e q) as [e1 [y|err]]; [|discriminate H].
    destruct (eval_list K sigmas ls fresh b t names e1 qs) as [e2 [ys|err]] eqn:E; [|discriminate H].
    injection H as <- <-. cbn. f_equal. eapply IH. exact E.
  Qed.

  Lemma compute_fine b t names e qs e' rs : compute_log_prob K sigmas ls fresh b t names e qs = (e', Ok rs) ->
    List.length rs = List.length qs /\ Forall (fun r => fst r <> NaN) rs.
  Proof.
    unfold compute_log_prob. destruct (negb _); [discriminate|].
    destruct (eval_list K sigmas ls fresh b t names e qs) as [e1 [ys|err]] eqn:E; [|discriminate].
    destruct (existsb _ ys) eqn:En; [discriminate|]. intros H. injection H as <- <-. split; [eapply evals_len; exact E|].
    apply Forall_forall. intros r Hr Hx. assert (X : existsb (fun r => is_nan (fst r)) ys = true) by (apply existsb_exists; exists r; split; [exact Hr|rewrite Hx; reflexivity]).
    congruence.
  Qed.

  Lemma update_fine ndim k : forall ws ps rs, Forall (fine ndim) ws -> (forall q, In (Some q) ps -> List.length (q_pos q) = ndim) ->
    Forall (fun r : fl * fl => fst r <> NaN) rs ->
    Forall (fine ndim) (update_part k ws ps rs) /\ List.length (update_part k ws ps rs) = List.length ws.
  Proof.
    induction ws as [|w ws IH]; intros ps rs F Hp Hr; [split; [constructor|reflexivity]|].
    inversion F as [|? ? Fw F']; subst. destruct ps as [|[q|] ps]; cbn [update_part]; [split; [exact F|reflexivity]| |].
    - destruct rs as [|r rs]; [split; [exact F|reflexivity]|]. inversion Hr as [|? ? Hr1 Hr']; subst.
      destruct (IH ps rs F' (fun q' Hq => Hp q' (or_intror Hq)) Hr') as [I1 I2]. split; [|cbn; congruence].
      constructor; [|exact I1]. unfold accept. destruct (flt _ _); [|exact Fw]. split; [apply Hp; left; reflexivity|exact Hr1].
    - destruct (IH ps rs F' (fun q' Hq => Hp q' (or_intror Hq)) Hr) as [I1 I2]. split; [constructor; assumption|cbn; congruence].
  Qed.

  Lemma parts_fine b t names ndim k parts : forall e g ws e' ws' g', Forall (fine ndim) ws ->
    (forall p, In p parts -> forall g4 pos ps g5 q, p g4 pos = (ps, g5) -> In (Some q) ps -> List.length (q_pos q) = ndim) ->
    make_parts K Rng sigmas ls fresh b t names k parts e g ws = (e', Ok (ws', g')) -> Forall (fine ndim) ws' /\ List.length ws' = List.length ws.
  Proof.
    induction parts as [|p parts IH]; intros e g ws e' ws' g' F Hp H; cbn [make_parts] in H; [injection H as <- <- <-; split; [exact F|reflexivity]|].
    destruct (p g (map w_pos ws)) as [ps g1] eqn:Ep.
    destruct (compute_log_prob K sigmas ls fresh b t names e (proposed ps)) as [e1 [rs|err]] eqn:Ec; [|discriminate H].
    destruct (compute_fine _ _ _ _ _ _ _ Ec) as [_ Hr].
    destruct (update_fine ndim k ws ps rs F) as [U1 U2]; [intros q Hq; apply (Hp p (or_introl eq_refl) _ _ _ _ _ Ep Hq)|exact Hr|].
    destruct (IH _ _ _ _ _ _ U1 (fun p' Hp' => Hp p' (or_intror Hp')) H) as [I1 I2]. split; [exact I1|congruence].
  Qed.

  Lemma steps_fine b t names mv n : forall e g ws e' saved r, Forall (fine (List.length names)) ws -> moves_in (List.length names) mv ->
    steps b t names n mv e g ws = (e', saved, r) ->
    Forall (fun l => Forall (fine (List.length names)) l /\ List.length l = List.length ws) (map fst saved) /\
    (forall ws' g', r = Ok (ws', g') -> List.length saved = n /\ (ws', g') = last saved (ws, g)).
  Proof.
    induction n as [|n IH]; intros e g ws e' saved r F Hm H; cbn [run_steps] in H.
    - injection H as <- <- <-. split; [constructor|]. intros ws' g' E. injection E as <- <-. split; reflexivity.
    - destruct (one_step K Rng sigmas ls fresh b t names mv e g ws) as [e1 [[ws1 g1]|err]] eqn:E1.
      + assert (P : Forall (fine (List.length names)) ws1 /\ List.length ws1 = List.length ws).
        { unfold one_step in E1. destruct (mv g) as [mm g0] eqn:Em. destruct (move_fits _ _ _) as [[]|]; [|discriminate E1].
          destruct (mv_parts Rng mm g0 (List.length ws)) as [parts g2] eqn:Epp. eapply parts_fine; [exact F| |exact E1].
          intros p Hp g4 pos ps g5 q X Y. eapply Hm; eassumption. }
        destruct P as [P1 P2]. destruct (steps b t names n mv e1 g1 ws1) as [[e2 saved2] r2] eqn:E2. injection H as <- <- <-.
        destruct (IH _ _ _ _ _ _ P1 Hm E2) as [I1 I2]. split.
        * cbn [map fst]. constructor; [split; assumption|]. rewrite P2 in I1. exact I1.
        * intros ws' g' E. destruct (I2 _ _ E) as [A B]. split; [cbn; congruence|]. rewrite B, last_cons. reflexivity.
      + injection H as <- <- <-. split; [constructor|discriminate].
  Qed.

  Lemma same_manager b t st0 mv n : manages st0 -> forall e g ws e' saved r, same_but_fit st0 (fst e) -> moves_in (List.length (parameter_fit st0)) mv ->
    steps b t (parameter_fit st0) n mv e g ws = (e', saved, r) -> same_but_fit st0 (fst e').
  Proof.
    intros M0 e g ws e' saved r S Hm H.
    pose proof (steps_same K Rng sigmas ls fresh b t st0 M0 mv n e e g ws (same_ev_refl st0 e S) Hm) as (_ & _ & (X & _)).
    rewrite H in X. exact X.
  Qed.

  (** Everything about continuing a run in progress. *)
  Lemma cont_ok m b t mv x : in_progress x -> moves_in (List.length (parameter_fit (x_pars Rng x))) mv ->
    exists nw st g ws pre e' saved rr x2,
      content x = Some (nw, List.length (parameter_fit (x_pars Rng x)), st, Some g) /\ st = pre ++ [ws] /\ nw <> 0%nat /\
      List.length ws = nw /\
      steps b t (parameter_fit (x_pars Rng x)) m mv (x_pars Rng x, x_calls Rng x) g ws = (e', saved, rr) /\
      cont None m b t mv x = (x2, match rr with Err err => Err err | Ok (ws', _) => Ok (match m with 0 => None | S _ => Some ws' end) end) /\
      x_pars Rng x2 = fst e' /\ same_but_fit (x_pars Rng x) (fst e') /\ x_calls Rng x2 = snd e' /\
      content x2 = Some (nw, List.length (parameter_fit (x_pars Rng x)), st ++ map fst saved, Some (match rev saved with (_, g') :: _ => g' | [] => g end)) /\
      in_progress x2 /\
      (forall ws' g', rr = Ok (ws', g') -> List.length saved = m /\ (ws', g') = last saved (ws, g) /\
         exists bk, x_file Rng x2 = Some bk /\
           let c := match x_cache Rng x with Some c => c | None => flat (st ++ map fst saved) end in
           x_cache Rng x2 = Some c /\
           b_meta Rng bk = mk_meta (Some (p_config (x_pars Rng x))) (Some (update (p_values (x_pars Rng x2)) (combine (parameter_fit (x_pars Rng x)) (best_of c))))
             (Some (parameter_fit (x_pars Rng x))) (Some b)).
  Proof.
    intros (M & Hh & (s & Es & Em) & (nw & st & g & Hc & Hz & Hst & Hall) & Hcache) Hm.
    pose proof Hc as Hc0. unfold content in Hc. destruct (x_file Rng x) as [bk|] eqn:Ef; [|discriminate Hc]. cbn [option_map] in Hc. injection Hc as C1 C2 C3.
    destruct (last_snoc st [] Hst) as (pre & Epre). set (ws := last st []) in *.
    assert (Hws : In ws st) by (rewrite Epre; apply in_or_app; right; left; reflexivity).
    destruct (Hall ws Hws) as [Lw Fw].
    assert (Fws : Forall (fine (List.length (parameter_fit (x_pars Rng x)))) ws) by (apply Forall_forall; exact Fw).
    assert (Wne : ws <> []) by (intros E; rewrite E in Lw; cbn in Lw; congruence).
    destruct (cont_self K Rng sigmas ls fresh independent m b t mv x s bk pre ws g Hh Es Em Ef) as (e' & saved & rr & x1 & Est & AR & Eco).
    { unfold holds_run. rewrite Lw, C1, C2, C3. auto. }
    { exact Wne. }
    { exact Fws. }
    set (s1 := mk_sampler Rng (parameter_fit (x_pars Rng x)) None g (Some (ws, Some g))) in *. cbv zeta in Est, AR, Eco.
    pose proof AR as (AR1 & AR2 & AR3 & AR4 & AR5 & AR6 & AR7 & s2 & Es2 & En2 & Em2).
    cbn [with_sampler x_needed x_h5 x_global x_cache x_file s_mem s_names s1 option_map] in AR3, AR4, AR5, AR6, AR7, En2, Em2. rewrite Ef in AR7. cbn [option_map] in AR7.
    destruct (steps_fine b t (parameter_fit (x_pars Rng x)) mv m _ _ _ _ _ _ Fws Hm Est) as [SF SL].
    pose proof (same_manager b t (x_pars Rng x) mv m M (x_pars Rng x, x_calls Rng x) _ _ _ _ _ (same_refl _) Hm Est) as SM.
    pose proof (same_names _ _ SM) as NM.
    set (st' := st ++ map fst saved). set (g' := match rev saved with (_, g') :: _ => g' | [] => g end).
    assert (Hall' : forall l, In l st' -> List.length l = nw /\ forall w, In w l -> List.length (w_pos w) = List.length (parameter_fit (x_pars Rng x)) /\ w_logp w <> NaN).
    { intros l Hl. apply in_app_or in Hl. destruct Hl as [Hl|Hl]; [apply Hall, Hl|]. rewrite Forall_forall in SF. destruct (SF l Hl) as [A B].
      split; [congruence|]. intros w Hw. rewrite Forall_forall in A. apply (A w Hw). }
    assert (NN : forall v lp, In (v, lp) (flat st') -> lp <> NaN).
    { apply (flat_not_nan (fun w => w_logp w <> NaN)); [auto|]. apply Forall_forall. intros l Hl. apply Forall_forall. intros w Hw. apply (Hall' l Hl), Hw. }
    assert (NE : flat st' <> []) by (apply (flat_nonempty _ ws); [apply in_or_app; left; exact Hws|exact Wne]).
    assert (Con1 : content x1 = Some (nw, List.length (parameter_fit (x_pars Rng x)), st', Some g')).
    { unfold content. rewrite AR7. cbn [option_map save b_shape b_steps b_rng]. rewrite C1, C2, C3. unfold st', g'. destruct (rev saved) as [|[]]; reflexivity. }
    assert (Rec1 : recorded x1 s2 = st') by (unfold recorded; rewrite Em2, AR7; cbn [save b_steps]; rewrite C2; reflexivity).
    assert (IP1 : forall y, same_run Rng x1 y -> (forall c, x_cache Rng y = Some c -> c <> [] /\ forall v lp, In (v, lp) c -> lp <> NaN) -> in_progress y).
    { intros y (Y1 & Y2 & Y3 & Y4 & Y5 & Y6 & Y7) Hy. unfold in_progress. rewrite Y1, Y3, Y4, AR1, NM. split; [eapply same_manages; eassumption|].
      split; [congruence|]. split; [exists s2; split; [exact Es2|exact Em2]|]. split; [|exact Hy].
      exists nw, st', g'. split; [unfold content in *; rewrite Y7; exact Con1|]. split; [exact Hz|]. split; [unfold st'; destruct st; [congruence|discriminate]|exact Hall']. }
    destruct rr as [[ws' gg]|err].
    - set (c := match x_cache Rng x with Some c => c | None => flat st' end).
      assert (Cc : c <> [] /\ forall v lp, In (v, lp) c -> lp <> NaN) by (unfold c; destruct (x_cache Rng x) as [c0|] eqn:Ec; [apply Hcache; reflexivity|split; assumption]).
      destruct (dump_value Rng b x1 s2 c _ ltac:(rewrite AR4; exact Hh) AR7 Es2) as (x2 & Ed & Ec2 & Ef2); [|apply Cc|apply Cc|].
      { unfold reads. rewrite AR6, Rec1. unfold c. destruct (x_cache Rng x) as [c0|]; [left; reflexivity|right]. split; [reflexivity|].
        split; [unfold st'; destruct st; [congruence|discriminate]|reflexivity]. }
      pose proof (dump_run Rng b x1 x2 (Ok tt) Ed) as DR. pose proof DR as (D1 & D2 & D3 & D4 & D5 & D6 & D7).
      exists nw, st, g, ws, pre, e', saved, (Ok (ws', gg)), x2. split; [exact Hc0|].
      split; [exact Epre|]. split; [exact Hz|]. split; [exact Lw|]. split; [exact Est|]. split; [rewrite Eco; cbn [finish]; rewrite Ed; reflexivity|].
      split; [congruence|]. split; [exact SM|]. split; [congruence|]. split; [unfold content in *; rewrite D7; exact Con1|].
      split.
      { apply IP1; [exact DR|]. intros c' Hc'. rewrite Ec2 in Hc'. injection Hc' as <-. exact Cc. }
      intros ws1 g1 E. injection E as <- <-. destruct (SL _ _ eq_refl) as [SL1 SL2]. split; [exact SL1|]. split; [exact SL2|].
      eexists. split; [exact Ef2|]. cbv zeta. fold st' c. split; [exact Ec2|]. cbn [b_meta]. rewrite D1, En2, AR1. pose proof SM as (-> & _). rewrite NM. reflexivity.
    - exists nw, st, g, ws, pre, e', saved, (Err err), x1. split; [exact Hc0|].
      split; [exact Epre|]. split; [exact Hz|]. split; [exact Lw|]. split; [exact Est|]. split; [rewrite Eco; reflexivity|].
      split; [exact AR1|]. split; [exact SM|]. split; [exact AR2|]. split; [exact Con1|]. split; [|discriminate].
      apply IP1; [apply run_refl|]. rewrite AR6. exact Hcache.
  Qed.

  Variable normal : fl -> fl -> Rng -> result (fl * Rng).
  Hypothesis normal_ok : forall m sd g, (0 < sd)%R -> exists v g', normal (Fin m) (Fin sd) g = Ok (Fin v, g').
  Notation fit := (fitting K Rng normal sigmas ls fresh independent).

  Lemma fit_in_progress nw n b t mv x x1 res : manages (x_pars Rng x) -> startable_cfg (p_config (x_pars Rng x)) ->
    sanity_check (x_needed Rng x) (keys (p_values (x_pars Rng x))) = Ok tt ->
    moves_in (List.length (parameter_fit (x_pars Rng x))) mv -> x_h5 Rng x = true -> x_cache Rng x = None -> (0 < n)%nat ->
    fit nw n b t mv x = (x1, Ok res) -> in_progress x1 /\ same_frame (x_pars Rng x) (x_pars Rng x1).
  Proof.
    intros M S Hs Hm Hh Hc Hn H.
    destruct (fit_exact K Rng normal sigmas ls fresh independent normal_ok nw n b t mv x x1 res M S Hs Hm Hh Hc Hn H)
      as (st0 & g0 & p0 & e & ws0 & g1 & e1 & saved & ws2 & g2 & s & bk & pre & _ & _ & _ & F & _ & _ & S1 & FF & X1 & X2 & X3 & X4 & X5 & X6 & X7 & X8 & (H1 & H2 & H3) & E1 & E2 & X9 & X10 & Hz).
    assert (FR : same_frame (x_pars Rng x) (x_pars Rng x1)) by (rewrite X1; eapply frame_trans; [exact F|apply same_is_frame, S1]).
    split; [|exact FR]. split; [eapply frame_manages; eassumption|]. split; [exact X3|]. split; [exists s; auto|]. rewrite (frame_names _ _ FR). split.
    - exists nw, (map fst saved), g2. split; [unfold content; rewrite X8; cbn [option_map]; congruence|]. split; [exact Hz|].
      split; [rewrite E1; destruct pre; discriminate|]. intros l Hl. rewrite Forall_forall in FF. destruct (FF l Hl) as [A B]. split; [exact B|].
      intros w Hw. rewrite Forall_forall in A. specialize (A w Hw). pose proof (good_length _ _ _ _ _ _ _ w A) as GL. split; [|apply A].
      rewrite GL. rewrite (frame_names _ _ F). reflexivity.
    - intros c Ec. rewrite X9 in Ec. injection Ec as <-. split.
      + apply (flat_nonempty _ ws2); [rewrite E1; apply in_or_app; right; left; reflexivity|]. rewrite Forall_forall in FF.
        destruct (FF ws2) as [_ B]; [rewrite E1; apply in_or_app; right; left; reflexivity|]. destruct ws2; [cbn in B; congruence|discriminate].
      + apply (flat_not_nan (good K sigmas ls fresh b t st0)); [intros w (_ & _ & X); exact X|]. eapply Forall_impl; [|exact FF]. intros l [A _]. exact A.
  Qed.
End Pieces.
