(** Lemmas about fits (C100, C101). *)
From Coq Require Import Reals Lra Lia Permutation.
From Verif Require Import Base BaseFacts ModelFloat ProofFloat ModelParameter ModelLikelihood ModelContext ModelFit
  SpecParameter SpecLikelihood SpecContext SpecFit ProofParameter ProofParameter2 ProofContext.
Local Open Scope string_scope.
Local Open Scope list_scope.

(* ------------------------------------------------------------------ *)
(** * Parameter managers *)

Lemma same_refl st : same_but_fit st st.
Proof. repeat split. Qed.

Lemma same_trans a b c : same_but_fit a b -> same_but_fit b c -> same_but_fit a c.
Proof.
  intros (A1 & A2 & A3 & A4 & A5) (B1 & B2 & B3 & B4 & B5). repeat split; try congruence.
  intros n Hn. rewrite B5 by (rewrite A2; exact Hn). apply A5, Hn.
Qed.

Lemma same_sym a b : same_but_fit a b -> same_but_fit b a.
Proof.
  intros (A1 & A2 & A3 & A4 & A5). repeat split; try congruence. intros n Hn. symmetry. apply A5. rewrite <- A2. exact Hn.
Qed.

Lemma same_names a b : same_but_fit a b -> parameter_fit b = parameter_fit a.
Proof. intros (_ & A & _). unfold parameter_fit. rewrite A. reflexivity. Qed.

Lemma same_manages a b : same_but_fit a b -> manages a -> manages b.
Proof. intros (A1 & A2 & A3 & A4 & A5) (B1 & B2 & B3 & B4). unfold manages. rewrite A1, A2, A4. auto. Qed.

Lemma fit_in st n : In n (parameter_fit st) <-> In n (p_fit st).
Proof. split; apply Permutation_in; [apply sorted_perm|apply Permutation_sym, sorted_perm]. Qed.

Lemma fit_NoDup st : manages st -> NoDup (parameter_fit st).
Proof. intros (H & _). eapply Permutation_NoDup; [apply Permutation_sym, sorted_perm|exact H]. Qed.

Lemma fit_known st n : manages st -> In n (parameter_fit st) -> In n (keys (p_values st)).
Proof.
  intros (_ & _ & K & F) H. rewrite K. apply fit_in, F in H. destruct H as (s & ty & Hi & _).
  change n with (fst (n, s)). apply in_map. exact Hi.
Qed.

Lemma keys_combine {V} (l : list string) : forall xs : list V, List.length l = List.length xs -> keys (combine l xs) = l.
Proof.
  induction l as [|n l IH]; intros [|x xs] H; try reflexivity; try discriminate H. cbn [combine keys map fst]. f_equal.
  apply IH. cbn in H. lia.
Qed.

(** Two dictionaries with the same keys in the same order and the same values. *)
Lemma dict_ext {V} : forall d d' : dict V, NoDup (keys d) -> keys d' = keys d -> (forall n, get n d' = get n d) -> d' = d.
Proof.
  induction d as [|[k v] d IH]; intros [|[k' v'] d'] Hn Hk Hg; try reflexivity; try discriminate Hk.
  cbn [keys map fst] in Hk. injection Hk as -> Hk. pose proof (Hg k) as E. cbn [get] in E. rewrite String.eqb_refl in E.
  injection E as ->. f_equal. inversion Hn as [|? ? Hx Hn']; subst. apply IH; [exact Hn'|exact Hk|].
  intros n. specialize (Hg n). cbn [get] in Hg. destruct (String.eqb n k) eqn:En; [|exact Hg].
  apply eqb_true in En. subst n. transitivity (@None V); [|symmetry]; apply get_None_keys; [|exact Hx].
  fold (keys d) in Hx. change (map fst d') with (keys d') in Hk. rewrite Hk. exact Hx.
Qed.

(* ------------------------------------------------------------------ *)
(** * A finite log prior *)

Lemma fadd_Fin_inv a b c : fadd a b = Fin c -> (exists x, a = Fin x) /\ (exists y, b = Fin y).
Proof. destruct a, b; cbn; intros H; try discriminate H; eauto. Qed.

Lemma loop_Fin sigmas cfg v : forall names acc p, log_prior_loop sigmas cfg v names acc = Ok (Fin p) ->
  (exists a, acc = Fin a) /\
  forall n, In n names -> exists x s t, get n v = Some x /\ get n cfg = Some s /\ prior_term sigmas s x = Ok (Fin t).
Proof.
  induction names as [|n names IH]; intros acc p H; cbn [log_prior_loop] in H.
  - injection H as ->. split; [eauto|]. intros n [].
  - destruct (get n v) as [x|] eqn:Ex; cbn [key bind] in H; [|discriminate H].
    destruct (get n cfg) as [s|] eqn:Es; cbn [key bind] in H; [|discriminate H].
    destruct (prior_term sigmas s x) as [t|] eqn:Et; cbn [bind] in H; [|discriminate H].
    destruct (IH _ _ H) as ((a & Ea) & F). apply fadd_Fin_inv in Ea. destruct Ea as (A & (y & ->)).
    split; [exact A|]. intros m [<-|Hm]; [exists x, s, y; auto|apply F, Hm].
Qed.

Lemma term_in_range sigmas s r t lo hi : s_range s = Some (lo, hi) -> fle lo hi = true ->
  prior_term sigmas s (Fin r) = Ok (Fin t) -> in_range s (Fin r).
Proof.
  intros Hr Hl H. unfold prior_term in H. destruct (s_args s) as [args|]; cbn [key bind] in H; [|discriminate H].
  destruct (s_type s) as [ty|]; cbn [key bind] in H; [|discriminate H]. rewrite Hr in H. cbn [key bind fst snd] in H.
  destruct (fle_not_nan _ _ Hl) as [N1 N2].
  destruct (flt (Fin r) lo || flt hi (Fin r)) eqn:E; [discriminate H|].
  exists lo, hi. split; [exact Hr|]. rewrite range_test in E by assumption. apply Bool.negb_false_iff, andb_prop in E. exact E.
Qed.

Lemma Forall2_combine {A B} (P : A -> B -> Prop) : forall l q, List.length l = List.length q ->
  (forall a b, In (a, b) (combine l q) -> P a b) -> Forall2 P l q.
Proof.
  induction l as [|n l IH]; intros [|v q] Hl G; try discriminate Hl; constructor.
  - apply G. left. reflexivity.
  - apply IH; [cbn in Hl; lia|]. intros; apply G; right; assumption.
Qed.

Lemma last_cons {A} (l : list A) : forall a d, last (a :: l) d = last l a.
Proof.
  induction l as [|b l IH]; intros a d; [reflexivity|]. change (last (a :: b :: l) d) with (last (b :: l) d).
  rewrite IH. symmetry. apply IH.
Qed.

(* ------------------------------------------------------------------ *)
(** * Runs *)

Section Run.
  Variables K Rng : Type.
  Variable sigmas : fl -> fl -> result (fl * fl).
  Variable ls : dict (llh_fun K).
  Variable fresh : nat -> nat -> K.
  Variables batch times : nat.
  Variable st0 : pstate.
  Hypothesis M0 : manages st0.
  (** The allowed ranges are not empty. *)
  Hypothesis R0 : forall n, In n (parameter_fit st0) -> exists s lo hi,
    get n (p_config st0) = Some s /\ s_range s = Some (lo, hi) /\ fle lo hi = true.
  Notation names := (parameter_fit st0).
  Notation eval1 := (eval_one K sigmas ls fresh batch times names).
  Notation evals := (eval_list K sigmas ls fresh batch times names).
  Notation compute := (compute_log_prob K sigmas ls fresh batch times names).
  Notation evald := (evaluated sigmas ls fresh batch times st0).

  (** What is known after an evaluation. *)
  Definition result_ok (q : list fl) (r : fl * fl) : Prop :=
    evald (mk_walker q (fst r) (snd r)) /\ (fst r <> NInf -> forallb is_fin q = true -> allowed (p_config st0) names q).

  Lemma allowed_of st1 q : List.length q = List.length names -> forallb is_fin q = true ->
    (forall n v, In (n, v) (combine names q) -> get n (p_values st1) = Some v) -> p_config st1 = p_config st0 ->
    p_fit st1 = p_fit st0 -> (exists p, log_prior sigmas st1 = Ok (Fin p)) -> allowed (p_config st0) names q.
  Proof.
    intros Hl Hf Hg Hc Hp (p & H). unfold log_prior in H. destruct (loop_Fin _ _ _ _ _ _ H) as (_ & F). rewrite Hp in F.
    assert (G : forall n v, In (n, v) (combine names q) -> exists s r, get n (p_config st0) = Some s /\ v = Fin r /\ in_range s v).
    { intros n v Hi. assert (Hn : In n names) by (apply in_combine_l in Hi; exact Hi).
      destruct (R0 n Hn) as (s & lo & hi & Es & Er & El). destruct (F n (proj1 (fit_in _ _) Hn)) as (x & s' & t & Ex & Es' & Et).
      rewrite Hc in Es'. rewrite Es in Es'. injection Es' as <-. rewrite (Hg n v Hi) in Ex. injection Ex as <-.
      assert (Hv : In v q) by (apply in_combine_r in Hi; exact Hi). rewrite forallb_forall in Hf. specialize (Hf v Hv).
      destruct v as [r| | |]; try discriminate Hf. exists s, r. split; [exact Es|]. split; [reflexivity|].
      eapply term_in_range; eassumption. }
    apply Forall2_combine; [symmetry; exact Hl|exact G].
  Qed.

  Lemma get_combine (l : list string) : forall q n (v : fl), NoDup l -> In (n, v) (combine l q) -> get n (combine l q) = Some v.
  Proof.
    induction l as [|m l IH]; intros [|x q] n v Hn Hi; try (destruct Hi; fail). cbn [combine get].
    inversion Hn as [|? ? Hx Hn']; subst. destruct Hi as [E|Hi].
    - injection E as -> ->. rewrite String.eqb_refl. reflexivity.
    - destruct (String.eqb n m) eqn:E; [|apply IH; assumption]. apply eqb_true in E. subst m. exfalso. apply Hx.
      apply in_combine_l in Hi. exact Hi.
  Qed.

  Lemma eval_one_ok st n q e r : same_but_fit st0 st -> List.length q = List.length names ->
    eval1 (st, n) q = (e, r) ->
    same_but_fit st0 (fst e) /\ snd e = S n /\ (forall y, r = Ok y -> result_ok q y).
  Proof.
    intros Hs Hl. unfold eval_one. cbn [fst snd].
    destruct (log_posterior K sigmas ls (fresh n) st (combine names q) batch times) as [[st' cs] r'] eqn:E.
    intros H. injection H as <- <-. cbn [fst snd].
    assert (Hk : keys (combine names q) = names) by (apply keys_combine; symmetry; exact Hl).
    destruct (posterior_overwritten sigmas ls (fresh n) st (combine names q) batch times st' cs r') as [O P].
    { rewrite Hk. apply fit_NoDup, M0. }
    { intros m Hm. rewrite Hk in Hm. destruct Hs as (_ & _ & _ & -> & _). apply fit_known; assumption. }
    { exact E. }
    destruct O as (O1 & O2 & O3 & O4 & O5). destruct Hs as (A1 & A2 & A3 & A4 & A5).
    split; [|split; [reflexivity|]].
    { repeat split; try congruence. intros m Hm. rewrite O5. destruct (get m (combine names q)) as [v|] eqn:Eg.
      - exfalso. apply Hm, fit_in. rewrite <- Hk. apply get_In_keys. exists v. exact Eg.
      - apply A5, Hm. }
    intros y ->. split.
    - exists n, st, st', cs. split; [repeat split; assumption|]. cbn [w_pos w_logp w_prior]. destruct y as [lp pr]. exact E.
    - intros Hy Hf. apply (allowed_of st'); try congruence; try assumption.
      + intros m v Hi. rewrite O5, (get_combine _ _ _ _ (fit_NoDup _ M0) Hi). reflexivity.
      + destruct (log_prior sigmas st') as [prior|]; [|destruct P as [_ P]; discriminate P].
        destruct (is_fin prior) eqn:Ef; [destruct prior; try discriminate Ef; eauto|].
        destruct P as [_ P]. injection P as ->. exfalso. apply Hy. reflexivity.
  Qed.

  Lemma evals_ok qs : forall st n e r, same_but_fit st0 st -> Forall (fun q => List.length q = List.length names) qs ->
    evals (st, n) qs = (e, r) ->
    same_but_fit st0 (fst e) /\ (forall rs, r = Ok rs -> Forall2 result_ok qs rs).
  Proof.
    induction qs as [|q qs IH]; intros st n e r Hs Hl H; cbn [eval_list] in H.
    - injection H as <- <-. split; [exact Hs|]. intros rs E. injection E as <-. constructor.
    - inversion Hl as [|? ? Hq Hl']; subst. destruct (eval1 (st, n) q) as [e1 r1] eqn:E1.
      destruct (eval_one_ok _ _ _ _ _ Hs Hq E1) as (S1 & _ & O1). destruct r1 as [y|err].
      + destruct (evals e1 qs) as [e2 r2] eqn:E2. destruct e1 as [st1 n1]. destruct (IH _ _ _ _ S1 Hl' E2) as (S2 & O2).
        destruct r2 as [ys|err]; injection H as <- <-; (split; [exact S2|]); intros rs E; [|discriminate E].
        injection E as <-. constructor; [apply O1; reflexivity|apply O2; reflexivity].
      + injection H as <- <-. split; [exact S1|]. intros rs E. discriminate E.
  Qed.

  Lemma compute_ok qs st n e r : same_but_fit st0 st -> Forall (fun q => List.length q = List.length names) qs ->
    compute (st, n) qs = (e, r) ->
    same_but_fit st0 (fst e) /\
    (forall rs, r = Ok rs -> Forall2 (fun q y => result_ok q y /\ fst y <> NaN /\ forallb is_fin q = true) qs rs).
  Proof.
    intros Hs Hl H. unfold compute_log_prob in H. destruct (forallb (forallb is_fin) qs) eqn:Ef; cbn [negb] in H.
    - destruct (evals (st, n) qs) as [e1 r1] eqn:E1. destruct (evals_ok _ _ _ _ _ Hs Hl E1) as (S1 & O1).
      destruct r1 as [ys|err]; [|injection H as <- <-; split; [exact S1|discriminate]].
      destruct (existsb _ ys) eqn:En in H; injection H as <- <-; (split; [exact S1|]); intros rs E; [discriminate E|].
      injection E as <-. specialize (O1 _ eq_refl). clear -O1 En Ef. revert Ef En. induction O1 as [|q y qs ys Hy O1 IH]; intros Ef En; [constructor|].
      cbn [forallb existsb] in Ef, En. apply andb_prop in Ef. apply Bool.orb_false_iff in En. destruct Ef as [F1 F2], En as [N1 N2].
      constructor; [|apply IH; assumption]. split; [exact Hy|]. split; [|exact F1]. intros E. rewrite E in N1. discriminate N1.
    - injection H as <- <-. split; [exact Hs|discriminate].
  Qed.

  (** Walkers that may be recorded. *)
  Definition good (w : walker) : Prop :=
    evald w /\ allowed (p_config st0) names (w_pos w) /\ w_logp w <> NaN.

  Lemma good_length w : good w -> List.length (w_pos w) = List.length names.
  Proof.
    intros (_ & A & _). unfold allowed in A. revert A. generalize names. intros l. induction 1; cbn; congruence.
  Qed.

  Lemma ratio_accepts k w q r : flt (q_logu q) (log_ratio k w q r) = true -> fst r <> NInf.
  Proof.
    intros H E. unfold log_ratio in H. rewrite E in H. destruct k; destruct (q_logu q), (q_factor q), (w_logp w); discriminate H.
  Qed.

  Lemma accept_ok k w q r : good w -> result_ok (q_pos q) r -> fst r <> NaN -> forallb is_fin (q_pos q) = true ->
    good (accept k w q r) /\ (w_logp w <> NInf -> w_logp (accept k w q r) <> NInf).
  Proof.
    intros G (E & A) Hn Hf. unfold accept. destruct (flt _ _) eqn:Ef; [|split; [exact G|auto]].
    pose proof (ratio_accepts _ _ _ _ Ef) as Hi. split; [|intros _; exact Hi]. split; [exact E|]. split; [apply A; assumption|exact Hn].
  Qed.

  Lemma update_ok k : forall ws ps rs, Forall good ws ->
    Forall2 (fun q y => result_ok q y /\ fst y <> NaN /\ forallb is_fin q = true) (proposed ps) rs ->
    Forall good (update_part k ws ps rs) /\ keeps ws (update_part k ws ps rs).
  Proof.
    assert (KR : forall ws, keeps ws ws) by (induction ws; constructor; auto).
    induction ws as [|w ws IH]; intros ps rs G F; [split; [constructor|constructor]|].
    inversion G as [|? ? Gw G']; subst. destruct ps as [|[q|] ps]; cbn [update_part proposed] in *; [split; [exact G|apply KR]| |].
    - inversion F as [|? y ? rs' (Hy & Hn & Hf) F']; subst. destruct (IH ps rs' G' F') as [I1 I2].
      destruct (accept_ok k w q y Gw Hy Hn Hf) as [A1 A2]. split; constructor; assumption.
    - destruct (IH ps rs G' F) as [I1 I2]. split; constructor; auto.
  Qed.

  Lemma keeps_trans a b c : keeps a b -> keeps b c -> keeps a c.
  Proof.
    intros H. revert c. induction H as [|x y a b Hxy H IH]; intros c Hc; inversion Hc; subst; constructor; auto. apply IH. assumption.
  Qed.

  Lemma keeps_length a b : keeps a b -> List.length b = List.length a.
  Proof. induction 1; cbn; congruence. Qed.

  Lemma parts_ok k parts : forall st n g ws e r, same_but_fit st0 st -> Forall good ws ->
    (forall p, In p parts -> forall g4 pos ps g5 q, p g4 pos = (ps, g5) -> In (Some q) ps -> List.length (q_pos q) = List.length names) ->
    make_parts K Rng sigmas ls fresh batch times names k parts (st, n) g ws = (e, r) ->
    same_but_fit st0 (fst e) /\ (forall ws' g', r = Ok (ws', g') -> Forall good ws' /\ keeps ws ws').
  Proof.
    induction parts as [|p parts IH]; intros st n g ws e r Hs G Hp H; cbn [make_parts] in H.
    - injection H as <- <-. split; [exact Hs|]. intros ws' g' E. injection E as <- <-. split; [exact G|].
      clear. induction ws; constructor; auto.
    - destruct (p g (map w_pos ws)) as [ps g'] eqn:Ep.
      assert (Hl : Forall (fun q => List.length q = List.length names) (proposed ps)).
      { assert (HH : forall q, In (Some q) ps -> List.length (q_pos q) = List.length names) by (intros q Hq; apply (Hp p (or_introl eq_refl) _ _ _ _ _ Ep Hq)).
        clear -HH. induction ps as [|[q|] ps I]; cbn [proposed]; [constructor| |].
        - constructor; [apply HH; left; reflexivity|apply I; intros; apply HH; right; assumption].
        - apply I. intros; apply HH; right; assumption. }
      destruct (compute (st, n) (proposed ps)) as [e1 r1] eqn:E1. destruct (compute_ok _ _ _ _ _ Hs Hl E1) as (S1 & O1).
      destruct r1 as [rs|err]; [|injection H as <- <-; split; [exact S1|discriminate]].
      destruct (update_ok k ws ps rs G (O1 _ eq_refl)) as [U1 U2]. destruct e1 as [st1 n1].
      destruct (IH _ _ _ _ _ _ S1 U1 (fun p' Hp' => Hp p' (or_intror Hp')) H) as (I1 & I2). split; [exact I1|].
      intros ws' g1 E. destruct (I2 _ _ E) as [A B]. split; [exact A|]. eapply keeps_trans; eassumption.
  Qed.

  Lemma step_ok mv st n g ws e r : same_but_fit st0 st -> Forall good ws -> moves_in (List.length names) mv ->
    one_step K Rng sigmas ls fresh batch times names mv (st, n) g ws = (e, r) ->
    same_but_fit st0 (fst e) /\ (forall ws' g', r = Ok (ws', g') -> Forall good ws' /\ keeps ws ws').
  Proof.
    intros Hs G Hm H. unfold one_step in H. destruct (mv g) as [m g1] eqn:Em.
    destruct (move_fits _ _ _) as [[]|err]; [|injection H as <- <-; split; [exact Hs|discriminate]].
    destruct (mv_parts Rng m g1 (List.length ws)) as [parts g2] eqn:Epp. eapply parts_ok; try eassumption.
    intros p Hp g4 pos ps g5 q E1 E2. eapply Hm; eassumption.
  Qed.

  (** Consecutive iterations. *)
  Fixpoint keeps_all (ws : list walker) (l : list (list walker)) : Prop :=
    match l with [] => True | ws' :: l' => keeps ws ws' /\ keeps_all ws' l' end.

  Lemma steps_ok mv n : forall st c g ws e saved r, same_but_fit st0 st -> Forall good ws -> moves_in (List.length names) mv ->
    run_steps K Rng sigmas ls fresh batch times names n mv (st, c) g ws = (e, saved, r) ->
    same_but_fit st0 (fst e) /\ Forall (fun l => Forall good l /\ List.length l = List.length ws) (map fst saved) /\
    keeps_all ws (map fst saved) /\
    (forall ws' g', r = Ok (ws', g') -> List.length saved = n /\ (ws', g') = last saved (ws, g)).
  Proof.
    induction n as [|n IH]; intros st c g ws e saved r Hs G Hm H; cbn [run_steps] in H.
    - injection H as <- <- <-. split; [exact Hs|]. split; [constructor|]. split; [exact Logic.I|]. intros ws' g' E. injection E as <- <-. split; reflexivity.
    - destruct (one_step K Rng sigmas ls fresh batch times names mv (st, c) g ws) as [e1 r1] eqn:E1.
      destruct (step_ok _ _ _ _ _ _ _ Hs G Hm E1) as (S1 & O1). destruct r1 as [[ws1 g1]|err].
      + destruct (O1 _ _ eq_refl) as [G1 K1]. destruct e1 as [st1 c1].
        destruct (run_steps K Rng sigmas ls fresh batch times names n mv (st1, c1) g1 ws1) as [[e2 saved2] r2] eqn:E2.
        injection H as <- <- <-. destruct (IH _ _ _ _ _ _ _ S1 G1 Hm E2) as (I1 & I2 & I3 & I4). pose proof (keeps_length _ _ K1) as Hl.
        split; [exact I1|]. split; [|split].
        * cbn [map fst]. constructor; [split; assumption|]. rewrite Hl in I2. exact I2.
        * cbn [map fst keeps_all]. split; assumption.
        * intros ws' g' E. destruct (I4 _ _ E) as [A B]. split; [cbn; congruence|]. rewrite B.
          rewrite last_cons. reflexivity.
      + injection H as <- <- <-. split; [exact S1|]. split; [constructor|]. split; [exact Logic.I|]. discriminate.
  Qed.
End Run.
