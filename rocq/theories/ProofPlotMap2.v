(** Lemmas about the collection of maps and the files of their plots (C93, C95). *)
From Coq Require Import Reals Lia.
From Verif Require Import Base BaseFacts ModelShare ModelConfig ModelComponent SpecComponent SpecConfig
  ModelCompile SpecCompile ProofComponent ProofWorkflow ProofSim ProofHistory ProofComponentTop ProofConfig
  ProofCompile ModelPlotMap SpecPlotMap.
Local Open Scope string_scope.
Local Open Scope list_scope.

Lemma keys_eqb_iff : forall a b, keys_eqb a b = true <-> same_files a b.
Proof.
  unfold same_files. induction a as [|x a IH]; intros [|y b]; cbn [keys_eqb]; split; intros H; try discriminate H;
    try reflexivity; try constructor; try (inversion H; fail).
  - apply andb_true_iff in H. tauto.
  - apply andb_true_iff in H. apply IH. tauto.
  - inversion H; subst. apply andb_true_iff. split; [assumption|]. apply IH. assumption.
Qed.
Lemma same_refl a : same_files a a.
Proof. unfold same_files. induction a; constructor; [apply value_eqb_refl|assumption]. Qed.
Lemma same_sym a b : same_files a b -> same_files b a.
Proof. unfold same_files. induction 1; constructor; [rewrite value_eqb_sym; assumption|assumption]. Qed.
Lemma same_trans a b c : same_files a b -> same_files b c -> same_files a c.
Proof.
  unfold same_files. intros H. revert c. induction H as [|x y a b Hxy H IH]; intros c Hc; inversion Hc; subst; constructor.
  - eapply value_eqb_trans; eassumption.
  - apply IH. assumption.
Qed.

Lemma map_key_iff b key : map_key b = Some key <-> uses_files b key.
Proof.
  unfold map_key, uses_files. split.
  - intros H. destruct (c_kind (b_config b)); try discriminate H; injection H as <-; auto.
  - intros [[-> | ->] ->]; reflexivity.
Qed.

(** Adding one config to the collection. *)
Lemma collect1_lists L b key out : uses_files b key -> lists_files L out ->
  lists_files (fun b' => L b' \/ b' = b) (collect1 key b out).
Proof.
  intros Hb [O S N C].
  assert (Hin : forall out, (forall i j ki kj ei ej, nth_error out i = Some (ki, ei) -> nth_error out j = Some (kj, ej) -> same_files ki kj -> i = j) ->
    (exists out1 key' b' names out2, out = out1 ++ (key', (b', names)) :: out2 /\ same_files key key' /\
       (forall k e, In (k, e) (out1 ++ out2) -> ~ same_files key k) /\
       collect1 key b out = out1 ++ (key', (b', add1 (c_name (b_config b)) names)) :: out2) \/
    ((forall k e, In (k, e) out -> ~ same_files key k) /\ collect1 key b out = out ++ [(key, (b, [c_name (b_config b)]))])).
  { clear. induction out as [|[k' [b' names]] out IH]; intros O.
    - right. split; [intros k e []|reflexivity].
    - cbn [collect1]. destruct (keys_eqb key k') eqn:E.
      + apply keys_eqb_iff in E. left. exists [], k', b', names, out. split; [reflexivity|]. split; [exact E|]. split; [|reflexivity].
        intros k e Hk Hs. apply In_nth_error in Hk. destruct Hk as [i Hi].
        assert (Hk' : same_files k' k) by (eapply same_trans; [apply same_sym, E|exact Hs]).
        specialize (O 0 (S i) _ _ _ _ eq_refl Hi Hk'). discriminate O.
      + assert (Hne : ~ same_files key k') by (rewrite <- keys_eqb_iff, E; discriminate).
        destruct IH as [(o1 & key' & b'' & nn & o2 & E1 & E2 & E3 & E4)|[E1 E2]].
        { intros i j ki kj ei ej A B Hs. specialize (O (S i) (S j) ki kj ei ej A B Hs). congruence. }
        * left. exists ((k', (b', names)) :: o1), key', b'', nn, o2. rewrite E1 at 1. split; [reflexivity|]. split; [exact E2|].
          split; [|rewrite E4; reflexivity]. intros k e [Hk|Hk]; [injection Hk as <- _; exact Hne|apply (E3 k e Hk)].
        * right. split; [|rewrite E2; reflexivity]. intros k e [Hk|Hk]; [injection Hk as <- _; exact Hne|apply (E1 k e Hk)]. }
  destruct (Hin out O) as [(o1 & key' & b' & names & o2 & E1 & E2 & E3 & E4)|[E1 E2]].
  - rewrite E4. subst out. constructor.
    + assert (Hrow : forall i k e, nth_error (o1 ++ (key', (b', add1 (c_name (b_config b)) names)) :: o2) i = Some (k, e) ->
        exists e', nth_error (o1 ++ (key', (b', names)) :: o2) i = Some (k, e')).
      { clear. induction o1 as [|x o1 IH]; intros [|i] k e H; cbn in *.
        - injection H as <- <-. eauto.
        - eauto.
        - eauto.
        - eapply IH, H. }
      intros i j ki kj ei ej A B Hs. destruct (Hrow _ _ _ A) as [ei' A']. destruct (Hrow _ _ _ B) as [ej' B']. eapply O; eassumption.
    + intros k bb nn H. apply in_app_or in H. destruct H as [H|[H|H]].
      * destruct (S k bb nn) as [S1 S2]; [apply in_or_app; left; exact H|auto].
      * injection H as <- <- <-. destruct (S key' b' names) as [S1 S2]; [apply in_or_app; right; left; reflexivity|auto].
      * destruct (S k bb nn) as [S1 S2]; [apply in_or_app; right; right; exact H|auto].
    + assert (Hold : forall k bb nn, In (k, (bb, nn)) (o1 ++ o2) -> NoDup nn /\ forall n, In n nn <->
        exists b'0 key'0, (L b'0 \/ b'0 = b) /\ uses_files b'0 key'0 /\ same_files key'0 k /\ c_name (b_config b'0) = n).
      { intros k bb nn H. destruct (N k bb nn) as [N1 N2]; [apply in_app_or in H; apply in_or_app; cbn; tauto|].
        split; [exact N1|]. intros n. rewrite N2. split.
        - intros (b0 & k0 & H1 & H2 & H3 & H4). exists b0, k0. auto.
        - intros (b0 & k0 & [H1|H1] & H2 & H3 & H4); [exists b0, k0; auto|]. subst b0. exfalso.
          destruct H2 as [_ ->]. destruct Hb as [_ Ek]. rewrite <- Ek in H3. exact (E3 _ _ H H3). }
      intros k bb nn H. apply in_app_or in H. destruct H as [H|[H|H]]; [apply (Hold k bb nn); apply in_or_app; auto| |apply (Hold k bb nn); apply in_or_app; auto].
      injection H as <- <- <-. destruct (N key' b' names) as [N1 N2]; [apply in_or_app; right; left; reflexivity|].
      split; [apply NoDup_add1, N1|]. intros n. rewrite add1_In, N2. split.
      * intros [->|(b0 & k0 & H1 & H2 & H3 & H4)]; [exists b, key; auto|exists b0, k0; auto].
      * intros (b0 & k0 & [H1|H1] & H2 & H3 & H4); [right; exists b0, k0; auto|]. subst b0. left. symmetry. exact H4.
    + intros b0 k0 [H1|H1] H2.
      * destruct (C b0 k0 H1 H2) as (k1 & b1 & n1 & H3 & H4). apply in_app_or in H3. destruct H3 as [H3|[H3|H3]].
        -- exists k1, b1, n1. split; [apply in_or_app; auto|exact H4].
        -- injection H3 as <- <- <-. exists key', b', (add1 (c_name (b_config b)) names). split; [apply in_or_app; right; left; reflexivity|exact H4].
        -- exists k1, b1, n1. split; [apply in_or_app; right; right; exact H3|exact H4].
      * subst b0. destruct H2 as [_ ->]. destruct Hb as [_ Ek]. rewrite <- Ek.
        exists key', b', (add1 (c_name (b_config b)) names). split; [apply in_or_app; right; left; reflexivity|exact E2].
  - rewrite E2. constructor.
    + intros i j ki kj ei ej A B Hs.
      assert (Hlast : forall i k e, nth_error (out ++ [(key, (b, [c_name (b_config b)]))]) i = Some (k, e) ->
        nth_error out i = Some (k, e) \/ (i = List.length out /\ k = key)).
      { intros i0 k e H. destruct (Nat.lt_ge_cases i0 (List.length out)) as [Hl|Hl].
        - left. rewrite nth_error_app1 in H by exact Hl. exact H.
        - right. rewrite nth_error_app2 in H by exact Hl. destruct (i0 - List.length out) as [|m] eqn:Em; cbn in H.
          + injection H as <- _. split; [lia|reflexivity].
          + destruct m; discriminate H. }
      destruct (Hlast _ _ _ A) as [A'|[A1 A2]], (Hlast _ _ _ B) as [B'|[B1 B2]].
      * eapply O; eassumption.
      * subst kj. exfalso. apply nth_error_In in A'. exact (E1 _ _ A' (same_sym _ _ Hs)).
      * subst ki. exfalso. apply nth_error_In in B'. exact (E1 _ _ B' Hs).
      * congruence.
    + intros k bb nn H. apply in_app_or in H. destruct H as [H|[H|[]]].
      * destruct (S k bb nn H). auto.
      * injection H as <- <- <-. auto.
    + intros k bb nn H. apply in_app_or in H. destruct H as [H|[H|[]]].
      * destruct (N k bb nn H) as [N1 N2]. split; [exact N1|]. intros n. rewrite N2. split.
        -- intros (b0 & k0 & H1 & H2 & H3 & H4). exists b0, k0. auto.
        -- intros (b0 & k0 & [H1|H1] & H2 & H3 & H4); [exists b0, k0; auto|]. subst b0. exfalso.
           destruct H2 as [_ ->]. destruct Hb as [_ Ek]. rewrite <- Ek in H3. exact (E1 _ _ H H3).
      * injection H as <- <- <-. split; [constructor; [intros []|constructor]|]. intros n. split.
        -- intros [<-|[]]. exists b, key. auto using same_refl.
        -- intros (b0 & k0 & [H1|H1] & H2 & H3 & H4).
           ++ exfalso. destruct (C b0 k0 H1 H2) as (k1 & b1 & n1 & H5 & H6).
              exact (E1 _ _ H5 (same_trans _ _ _ (same_sym _ _ H3) H6)).
           ++ subst b0. left. exact H4.
    + intros b0 k0 [H1|H1] H2.
      * destruct (C b0 k0 H1 H2) as (k1 & b1 & n1 & H3 & H4). exists k1, b1, n1. split; [apply in_or_app; auto|exact H4].
      * subst b0. destruct H2 as [_ ->]. destruct Hb as [_ Ek]. rewrite <- Ek. exists key, b, [c_name (b_config b)].
        split; [apply in_or_app; right; left; reflexivity|apply same_refl].
Qed.

Lemma lists_ext L1 L2 out : (forall b, L1 b <-> L2 b) -> lists_files L1 out -> lists_files L2 out.
Proof.
  intros E [O S N C]. constructor; [exact O| | |].
  - intros k b n H. destruct (S k b n H). rewrite <- E. auto.
  - intros k b n H. destruct (N k b n H) as [N1 N2]. split; [exact N1|]. intros m. rewrite N2. split; intros (b' & k' & H1 & H2); exists b', k'.
    + rewrite <- E. auto.
    + rewrite E. auto.
  - intros b k H1 H2. apply (C b k); [apply E, H1|exact H2].
Qed.

Lemma lists_skip L b out : (forall key, ~ uses_files b key) -> lists_files L out -> lists_files (fun b' => L b' \/ b' = b) out.
Proof.
  intros Hb [O S N C]. constructor; [exact O| | |].
  - intros k b0 n H. destruct (S k b0 n H). auto.
  - intros k b0 n H. destruct (N k b0 n H) as [N1 N2]. split; [exact N1|]. intros m. rewrite N2. split.
    + intros (b' & k' & H1 & H2). exists b', k'. auto.
    + intros (b' & k' & [H1|H1] & H2 & H3); [exists b', k'; auto|]. subst b'. destruct (Hb _ H2).
  - intros b0 k [H1|H1] H2; [apply (C b0 k H1 H2)|]. subst b0. destruct (Hb _ H2).
Qed.

Lemma collect_class_lists : forall cfs bs L out, List.length bs = List.length cfs -> lists_files L out ->
  exists out', collect_class cfs bs out = Ok out' /\ lists_files (fun b => L b \/ In b bs) out'.
Proof.
  induction cfs as [|cf cfs IH]; intros [|b bs] L out Hl H; try discriminate Hl.
  - exists out. split; [reflexivity|]. eapply lists_ext; [|exact H]. intros b. cbn. tauto.
  - cbn [collect_class].
    assert (Hstep : exists out1, lists_files (fun b' => L b' \/ b' = b) out1 /\
      match map_key b with Some key => collect_class cfs bs (collect1 key b out) | None => collect_class cfs bs out end =
      collect_class cfs bs out1).
    { destruct (map_key b) as [key|] eqn:E.
      - exists (collect1 key b out). split; [|reflexivity]. apply collect1_lists; [apply map_key_iff, E|exact H].
      - exists out. split; [|reflexivity]. apply lists_skip; [|exact H]. intros key Hk. apply map_key_iff in Hk. congruence. }
    destruct Hstep as (out1 & H1 & E1). rewrite E1.
    destruct (IH bs _ out1 ltac:(cbn in Hl; lia) H1) as (out' & E & H').
    exists out'. split; [exact E|]. eapply lists_ext; [|exact H']. intros b'. cbn [In]. intuition congruence.
Qed.

(** The worksheet of a component: every plugin is found under the first name it provides. *)
Lemma collect_works_lists w reg (cls : work -> plugin) (bss : plugin -> list built) : forall ws L out,
  (forall wk, In wk ws -> exists d ds, w_provides wk = d :: ds /\ get d reg = Some (cls wk) /\ class_built w (cls wk) (bss (cls wk))) ->
  lists_files L out ->
  exists out', collect_works w reg ws out = Ok out' /\
    lists_files (fun b => L b \/ exists wk, In wk ws /\ In b (bss (cls wk))) out'.
Proof.
  induction ws as [|wk ws IH]; intros L out H Hl; cbn [collect_works].
  - exists out. split; [reflexivity|]. eapply lists_ext; [|exact Hl]. intros b. split; [auto|]. intros [Hb|(wk & [] & _)]. exact Hb.
  - destruct (H wk (or_introl eq_refl)) as (d & ds & E1 & E2 & [E3 E4]). rewrite E1, E2, E3.
    destruct (collect_class_lists (map snd (p_configs (cls wk))) (bss (cls wk)) L out) as (out1 & F1 & F2);
      [rewrite map_length; exact E4|exact Hl|]. rewrite F1.
    destruct (IH _ out1 (fun wk' Hw => H wk' (or_intror Hw)) F2) as (out' & G1 & G2).
    exists out'. split; [exact G1|]. eapply lists_ext; [|exact G2]. intros b. cbn beta. split.
    + intros [[Hb|Hb]|(wk' & Hw & Hb)]; [auto|right; exists wk; cbn; auto|right; exists wk'; cbn; auto].
    + intros [Hb|(wk' & [<-|Hw] & Hb)]; [auto|auto|right; exists wk'; auto].
Qed.

Lemma lists_nil : lists_files (fun _ => False) [].
Proof.
  constructor.
  - intros [|i] j ki kj ei ej A; discriminate A.
  - intros k b n [].
  - intros k b n [].
  - intros b k [].
Qed.

Lemma compile_worksheet f plugins k w w' k' r : compile f plugins k w = (w', k', r) -> k_worksheet k' = k_worksheet k.
Proof.
  unfold compile. intros H. destruct (k_compile k) as [[pr a]|]; [|injection H as _ <- _; reflexivity].
  destruct (imports_ok _ _); [|injection H as _ <- _; reflexivity].
  destruct (instantiate _ _ _ _ _ _) as [w2 [insts|e2]]; [|injection H as _ <- _; reflexivity].
  destruct (get (k_llh k) _) as [a'|]; [|injection H as _ <- _; reflexivity].
  destruct (get (k_func k) _) as [cl|]; injection H as _ <- _; reflexivity.
Qed.

Lemma build_all_length f llh : forall cfs c c' bs, build_all f cfs llh c = (c', bs, Ok tt) -> List.length bs = List.length cfs.
Proof.
  induction cfs as [|cf cfs IH]; cbn [build_all]; intros c c' bs H; [injection H as _ <-; reflexivity|].
  destruct (config_build f cf llh c) as [c1 [b|e]]; [|discriminate H].
  destruct (build_all f cfs llh c1) as [[c2 bs'] [u|e]] eqn:E; [|discriminate H].
  injection H as _ <-. destruct u. cbn. f_equal. eapply IH, E.
Qed.
