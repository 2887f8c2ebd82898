(** Lemmas about fits (C100, C101), fourth part: the best sample, continued and repeated runs. *)
From Coq Require Import Reals Lra Lia Permutation.
From Verif Require Import Base BaseFacts ModelFloat ProofFloat ModelParameter ModelLikelihood ModelContext ModelFit
  SpecParameter SpecLikelihood SpecContext SpecFit ProofParameter ProofParameter2 ProofContext ProofFit ProofFit2 ProofFit3.
Local Open Scope string_scope.
Local Open Scope list_scope.

(* ------------------------------------------------------------------ *)
(** * The best sample *)

Definition best_of (c : chain) : list fl :=
  match argmax (map snd c) with
  | Ok i => match nth_error c i with Some (v, _) => v | None => [] end
  | Err _ => []
  end.

Lemma best_of_ok c : c <> [] -> (forall v lp, In (v, lp) c -> lp <> NaN) ->
  exists i lp, argmax (map snd c) = Ok i /\ nth_error c i = Some (best_of c, lp) /\
    forall v' lp', In (v', lp') c -> fle lp' lp = true.
Proof.
  intros Hc Hn. destruct (argmax_chain c Hc Hn) as (i & E & (v & lp & Ei & Hm)). exists i, lp. unfold best_of. rewrite E, Ei. auto.
Qed.

Section Post.
  Variable Rng : Type.

  (** The chain that get_post_parameters looks at. *)
  Definition reads (x : fctx Rng) (s : sampler Rng) (c : chain) : Prop :=
    x_cache Rng x = Some c \/ (x_cache Rng x = None /\ recorded x s <> [] /\ c = flat (recorded x s)).

  Definition with_cache (x : fctx Rng) (c : chain) : fctx Rng :=
    mk_fctx Rng (x_pars Rng x) (x_needed Rng x) (x_h5 Rng x) (x_file Rng x) (x_sampler Rng x) (Some c) (x_global Rng x) (x_calls Rng x).

  Lemma stored_recorded x s : recorded x s <> [] -> stored Rng x s = Ok (recorded x s).
  Proof.
    unfold recorded, stored. destruct (match s_mem Rng s with Some b => Some b | None => x_file Rng x end) as [b|]; [|congruence].
    destruct (b_steps Rng b); congruence.
  Qed.

  Lemma post_value x s c : x_sampler Rng x = Some s -> reads x s c -> c <> [] -> (forall v lp, In (v, lp) c -> lp <> NaN) ->
    post_parameters Rng Mpe x
    = (with_cache x c, Ok (update (p_values (x_pars Rng x)) (combine (s_names Rng s) (best_of c)))).
  Proof.
    intros Es Hr Hc Hn. destruct (best_of_ok c Hc Hn) as (i & lp & E & Ei & _). unfold post_parameters. rewrite Es.
    destruct Hr as [Hr|(Hr & Hx & ->)].
    - rewrite (read_cached _ _ _ _ c) by exact Hr. unfold chosen. rewrite E. cbn [bind]. unfold row. rewrite Ei. cbn [bind]. unfold with_cache. cbn [as_fitctx f_cache].
      rewrite Hr, Es. reflexivity.
    - rewrite (read_uncached _ _ _ _ (flat (recorded x s))); [|exact Hr|cbn; rewrite (stored_recorded x s Hx); reflexivity].
      unfold chosen. rewrite E. cbn [bind]. unfold row. rewrite Ei. cbn [bind]. unfold with_cache. cbn [f_cache]. rewrite Es. reflexivity.
  Qed.
  Lemma dump_value b x s c bk : x_h5 Rng x = true -> x_file Rng x = Some bk -> x_sampler Rng x = Some s -> reads x s c -> c <> [] ->
    (forall v lp, In (v, lp) c -> lp <> NaN) ->
    exists x', dump_meta Rng b x = (x', Ok tt) /\ x_cache Rng x' = Some c /\
      x_file Rng x' = Some (mk_backend Rng (b_shape Rng bk) (b_steps Rng bk) (b_rng Rng bk)
        (mk_meta (Some (p_config (x_pars Rng x))) (Some (update (p_values (x_pars Rng x)) (combine (s_names Rng s) (best_of c))))
           (Some (parameter_fit (x_pars Rng x))) (Some b))).
  Proof.
    intros Hh Hf Es Hr Hc Hn. unfold dump_meta. rewrite Hh.
    set (f1 := fun m : meta => mk_meta (Some (p_config (x_pars Rng x))) (m_post m) (m_names m) (m_batch m)). pose proof (set_meta_run Rng x f1) as SR.
    rewrite (post_value (set_meta Rng x f1) s c); [|exact Es| |exact Hc|exact Hn].
    - eexists. split; [reflexivity|]. split; [reflexivity|]. unfold set_meta, with_cache, with_file. cbn. rewrite Hf. reflexivity.
    - unfold reads. rewrite (run_recorded Rng _ _ s SR). exact Hr.
  Qed.
End Post.

(* ------------------------------------------------------------------ *)
(** * Runs from the same place *)

Section Same.
  Variables K Rng : Type.
  Variable sigmas : fl -> fl -> result (fl * fl).
  Variable ls : dict (llh_fun K).
  Variable fresh : nat -> nat -> K.
  Variables batch times : nat.
  Variable st0 : pstate.
  Hypothesis M0 : manages st0.
  Notation names := (parameter_fit st0).
  Notation eval1 := (eval_one K sigmas ls fresh batch times names).
  Notation evals := (eval_list K sigmas ls fresh batch times names).
  Notation compute := (compute_log_prob K sigmas ls fresh batch times names).
  Notation steps := (run_steps K Rng sigmas ls fresh batch times names).

  Definition same_ev (e e' : ev) : Prop := same_but_fit st0 (fst e) /\ same_but_fit st0 (fst e') /\ snd e = snd e'.

  (** An evaluation forgets the values of the fitted parameters. *)
  Lemma eval_same q e e' : same_ev e e' -> List.length q = List.length names ->
    eval1 e q = eval1 e' q /\ same_but_fit st0 (fst (fst (eval1 e q))).
  Proof.
    intros (S & S' & En) Hl. destruct e as [a c], e' as [a' c']. cbn [fst snd] in *. subst c'.
    assert (Hk : keys (combine names q) = names) by (apply keys_combine; symmetry; exact Hl).
    assert (KA : forall s, same_but_fit st0 s -> forall n, In n (keys (combine names q)) -> In n (keys (p_values s))).
    { intros s (_ & _ & _ & Hs & _) n Hn. rewrite Hk in Hn. rewrite Hs. apply fit_known; assumption. }
    assert (E : with_values a (assign (keys (combine names q)) (map snd (combine names q)) (p_values a))
              = with_values a' (assign (keys (combine names q)) (map snd (combine names q)) (p_values a'))).
    { pose proof S as (A1 & A2 & A3 & A4 & A5). pose proof S' as (B1 & B2 & B3 & B4 & B5). unfold with_values. f_equal; try congruence.
      symmetry. apply dict_ext.
      - rewrite assign_keys by (apply KA, S). rewrite A4. destruct M0 as (_ & X & Y & _). rewrite Y. exact X.
      - rewrite !assign_keys by (apply KA; assumption). congruence.
      - intros n. rewrite !assign_get, last_value_dict by (rewrite Hk; apply fit_NoDup, M0).
        destruct (get n (combine names q)) as [v|] eqn:Eg; [reflexivity|].
        assert (Hn : ~ In n (p_fit st0)).
        { intros Hi. apply fit_in in Hi. rewrite <- Hk in Hi. apply get_In_keys in Hi. destruct Hi as (v & Ev). congruence. }
        rewrite A5, B5 by exact Hn. reflexivity. }
    assert (EL : log_posterior K sigmas ls (fresh c) a (combine names q) batch times = log_posterior K sigmas ls (fresh c) a' (combine names q) batch times).
    { unfold log_posterior. rewrite !posterior_state by (apply KA; assumption). rewrite E. reflexivity. }
    split; [unfold eval_one; cbn [fst snd]; rewrite EL; reflexivity|].
    unfold eval_one. cbn [fst snd]. destruct (log_posterior K sigmas ls (fresh c) a (combine names q) batch times) as [[st' cs] r] eqn:Ep.
    cbn [fst]. destruct (posterior_frame K sigmas ls _ _ _ _ _ _ _ _ Ep) as (O1 & O2 & O3 & O4 & O5 & _).
    destruct S as (A1 & A2 & A3 & A4 & A5). repeat split; try congruence. intros n Hn. rewrite O5, A5; [reflexivity|exact Hn|].
    rewrite Hk. intros Hi. apply Hn, fit_in, Hi.
  Qed.

  Lemma same_ev_refl e : same_but_fit st0 (fst e) -> same_ev e e.
  Proof. intros H. repeat split; apply H. Qed.

  Lemma evals_same qs : forall e e', same_ev e e' -> Forall (fun q => List.length q = List.length names) qs ->
    snd (evals e qs) = snd (evals e' qs) /\ same_ev (fst (evals e qs)) (fst (evals e' qs)).
  Proof.
    destruct qs as [|q qs]; intros e e' S Hl; [split; [reflexivity|exact S]|].
    inversion Hl as [|? ? Hq Hl']; subst. cbn [eval_list]. destruct (eval_same q e e' S Hq) as [E F]. rewrite <- E.
    assert (G : forall qs e, Forall (fun q => List.length q = List.length names) qs -> same_but_fit st0 (fst e) -> same_but_fit st0 (fst (fst (evals e qs)))).
    { clear -M0. induction qs as [|q qs IH]; intros e Hl S; [exact S|]. inversion Hl as [|? ? Hq Hl']; subst. cbn [eval_list].
      destruct (eval_same q e e (same_ev_refl e S) Hq) as [_ F]. destruct (eval1 e q) as [e1 [y|err]]; [|exact F]. cbn [fst] in F.
      pose proof (IH e1 Hl' F) as I. destruct (evals e1 qs) as [e2 [ys|err]]; exact I. }
    destruct (eval1 e q) as [e1 [y|err]]; cbn [fst] in F.
    - pose proof (G qs e1 Hl' F) as I. destruct (evals e1 qs) as [e2 [ys|err]]; (split; [reflexivity|]); apply same_ev_refl; exact I.
    - split; [reflexivity|]. apply same_ev_refl. exact F.
  Qed.

  Lemma compute_same qs e e' : same_ev e e' -> Forall (fun q => List.length q = List.length names) qs ->
    snd (compute e qs) = snd (compute e' qs) /\ same_ev (fst (compute e qs)) (fst (compute e' qs)).
  Proof.
    intros S Hl. unfold compute_log_prob. destruct (negb _); [split; [reflexivity|exact S]|].
    destruct (evals_same qs e e' S Hl) as [E F]. destruct (evals e qs) as [e1 r1], (evals e' qs) as [e2 r2]. cbn [fst snd] in E, F. subst r2.
    destruct r1 as [rs|err]; [destruct (existsb _ rs)|]; (split; [reflexivity|exact F]).
  Qed.

  Lemma parts_same k parts : forall e e' g ws, same_ev e e' ->
    (forall p, In p parts -> forall g4 pos ps g5 q, p g4 pos = (ps, g5) -> In (Some q) ps -> List.length (q_pos q) = List.length names) ->
    snd (make_parts K Rng sigmas ls fresh batch times names k parts e g ws) = snd (make_parts K Rng sigmas ls fresh batch times names k parts e' g ws) /\
    same_ev (fst (make_parts K Rng sigmas ls fresh batch times names k parts e g ws)) (fst (make_parts K Rng sigmas ls fresh batch times names k parts e' g ws)).
  Proof.
    induction parts as [|p parts IH]; intros e e' g ws S Hp; cbn [make_parts]; [split; [reflexivity|exact S]|].
    destruct (p g (map w_pos ws)) as [ps g'] eqn:Ep.
    assert (Hl : Forall (fun q => List.length q = List.length names) (proposed ps)).
    { assert (HH : forall q, In (Some q) ps -> List.length (q_pos q) = List.length names) by (intros q Hq; apply (Hp p (or_introl eq_refl) _ _ _ _ _ Ep Hq)).
      clear -HH. induction ps as [|[q|] ps I]; cbn [proposed]; [constructor| |].
      - constructor; [apply HH; left; reflexivity|apply I; intros; apply HH; right; assumption].
      - apply I. intros; apply HH; right; assumption. }
    destruct (compute_same (proposed ps) e e' S Hl) as [E F].
    destruct (compute e (proposed ps)) as [e1 r1], (compute e' (proposed ps)) as [e2 r2]. cbn [fst snd] in E, F. subst r2.
    destruct r1 as [rs|err]; [|split; [reflexivity|exact F]]. apply IH; [exact F|]. intros p' Hp'. apply Hp. right. exact Hp'.
  Qed.

  Lemma steps_same mv n : forall e e' g ws, same_ev e e' -> moves_in (List.length names) mv ->
    snd (steps n mv e g ws) = snd (steps n mv e' g ws) /\ snd (fst (steps n mv e g ws)) = snd (fst (steps n mv e' g ws)) /\
    same_ev (fst (fst (steps n mv e g ws))) (fst (fst (steps n mv e' g ws))).
  Proof.
    induction n as [|n IH]; intros e e' g ws S Hm; cbn [run_steps]; [split; [reflexivity|split; [reflexivity|exact S]]|].
    assert (P : snd (one_step K Rng sigmas ls fresh batch times names mv e g ws) = snd (one_step K Rng sigmas ls fresh batch times names mv e' g ws) /\
      same_ev (fst (one_step K Rng sigmas ls fresh batch times names mv e g ws)) (fst (one_step K Rng sigmas ls fresh batch times names mv e' g ws))).
    { unfold one_step. destruct (mv g) as [m g1] eqn:Em. destruct (move_fits _ _ _) as [[]|err]; [|split; [reflexivity|exact S]].
      destruct (mv_parts Rng m g1 (List.length ws)) as [parts g2] eqn:Epp. apply parts_same; [exact S|].
      intros p Hp g4 pos ps g5 q E1 E2. eapply Hm; eassumption. }
    destruct (one_step K Rng sigmas ls fresh batch times names mv e g ws) as [e1 r1], (one_step K Rng sigmas ls fresh batch times names mv e' g ws) as [e2 r2].
    cbn [fst snd] in P. destruct P as [<- P]. destruct r1 as [[ws1 g1]|err]; [|split; [reflexivity|split; [reflexivity|exact P]]].
    destruct (IH e1 e2 g1 ws1 P Hm) as (A & B & C). destruct (steps n mv e1 g1 ws1) as [[e3 s3] r3], (steps n mv e2 g1 ws1) as [[e4 s4] r4].
    cbn [fst snd] in *. subst. split; [reflexivity|]. split; [reflexivity|exact C].
  Qed.

  (** A run in two pieces. *)
  Lemma steps_split mv n m : forall e g ws,
    steps (n + m) mv e g ws
    = match steps n mv e g ws with
      | (e1, s1, Err err) => (e1, s1, Err err)
      | (e1, s1, Ok (ws1, g1)) => let '(e2, s2, r2) := steps m mv e1 g1 ws1 in (e2, s1 ++ s2, r2)
      end.
  Proof.
    induction n as [|n IH]; intros e g ws; cbn [run_steps Nat.add].
    - destruct (steps m mv e g ws) as [[e2 s2] r2]. reflexivity.
    - destruct (one_step K Rng sigmas ls fresh batch times names mv e g ws) as [e1 [[ws1 g1]|err]]; [|reflexivity].
      rewrite IH. destruct (steps n mv e1 g1 ws1) as [[e2 s2] [[ws2 g2]|err]]; [|reflexivity].
      destruct (steps m mv e2 g2 ws2) as [[e3 s3] r3]. reflexivity.
  Qed.
End Same.
