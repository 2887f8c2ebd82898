(** Lemmas about simulating with a new compilation before every run. *)
From Verif Require Import Base BaseFacts ModelShare ModelConfig ModelComponent SpecComponent
  SpecConfig ModelCompile SpecCompile ProofComponent ProofWorkflow ProofSim ProofHistory
  ProofComponentTop ProofConfig ProofConfig2 ProofCompile ProofWhole ProofRecompile ProofRecompile2 ModelFloat
  ModelLikelihood SpecLikelihood ProofLikelihood3 ModelRecompile SpecRecompile.
Local Open Scope string_scope.

(* ------------------------------------------------------------------ *)
(** * Components that stay registered *)

Lemma step_keeps o w llh a : o <> OClear -> get llh (w_fn w) = Some a -> a < List.length (w_heap w) ->
  get llh (w_fn (fst (wstep o w))) = Some a /\ a < List.length (w_heap (fst (wstep o w))).
Proof.
  intros Ho Hg Ha. destruct o as [limit dn func nodep noeff k|f plugins k| |f configs]; cbn [wstep].
  - unfold deduce. destruct (dependencies_deduce _ _ _ _ _) as [deps|e]; [|cbn; auto].
    destruct (dependencies_simplify _ _ _ _) as [[c1 [ws needed]] [u|e]]; [|cbn; auto].
    unfold set_code, sv_setitem. cbn [w_fn with_cache k_llh].
    destruct (has (k_llh k) (w_fn w)) eqn:Hh; [cbn; auto|]. cbn.
    split; [|rewrite app_length; cbn; lia].
    rewrite get_set_neq; [exact Hg|]. intros ->. apply has_false in Hh. congruence.
  - pose proof (compile_fn f plugins k w) as [F1 F2].
    destruct (compile f plugins k w) as [[w1 k1] r]. cbn in *. rewrite F1, F2. auto.
  - contradiction.
  - destruct (set_global_config f configs (w_cache w)) as [c' r]. cbn. auto.
Qed.

Lemma wrun_keeps os : forall w llh a, ~ In OClear os -> get llh (w_fn w) = Some a ->
  a < List.length (w_heap w) ->
  get llh (w_fn (wrun os w)) = Some a /\ a < List.length (w_heap (wrun os w)).
Proof.
  unfold wrun. induction os as [|o os IH]; cbn [fold_left]; intros w llh a Ho Hg Ha; [auto|].
  destruct (step_keeps o w llh a) as [S1 S2]; auto.
  { intros ->. apply Ho. left. reflexivity. }
  apply IH; auto. intros Hin. apply Ho. right. exact Hin.
Qed.

Lemma built_bound limit data_names func nodep noeff f plugins k w w' k' os :
  build_component limit data_names func nodep noeff f plugins k w = (w', k', Ok tt) ->
  ~ In OClear os -> bound k' (wrun os w') /\
  (forall pr a, k_compile k' = Some (pr, a) -> NoDup (map fst (pr_insts pr))).
Proof.
  intros H Ho. destruct (build_compile_state _ _ _ _ _ _ _ _ _ _ _ H) as
    (pr & cl & B1 & B2 & B3 & B4 & B5 & B6 & B7 & B8 & B9).
  destruct (wrun_keeps os w' _ _ Ho B7 B8) as [W1 W2]. split.
  - exists pr, (List.length (w_heap w)). repeat split; auto; congruence.
  - intros pr' a' E. rewrite B1 in E. injection E as <- <-. exact B9.
Qed.

(** deduce and compile: the state before the compilation. *)
Lemma built_before limit data_names func nodep noeff f plugins k w w' k' :
  build_component limit data_names func nodep noeff f plugins k w = (w', k', Ok tt) ->
  exists w1 k1, compile f plugins k1 w1 = (w', k', Ok tt) /\ bound k1 w1 /\
    deduce limit data_names func nodep noeff k w = (w1, k1, Ok tt).
Proof.
  intros H. destruct (built_bound _ _ _ _ _ _ _ _ _ _ _ [] H (fun x => x)) as [(pr & a & B1 & B2 & B3 & B4 & B5) _].
  cbn [wrun fold_left] in *. unfold build_component in H.
  destruct (deduce limit data_names func nodep noeff k w) as [[w1 k1] [[]|e]]; [|discriminate].
  exists w1, k1. split; [exact H|]. split; [|reflexivity].
  pose proof (compile_fn f plugins k1 w1) as [F1 F2]. rewrite H in F1, F2. cbn [fst] in F1, F2.
  destruct (compile_fields _ _ _ _ _ _ H) as (cl & ->). cbn in *.
  exists pr, a. rewrite <- F1, <- F2. auto.
Qed.

Lemma compile_base f plugins k w w1 k1 : bound k w -> compile f plugins k w = (w1, k1, Ok tt) ->
  (get "url_base" (contents (w_cache w)) = None -> get "url_base" (contents (w_cache w1)) = None) ->
  base_of (w_cache w1) = base_of (w_cache w).
Proof.
  intros (pr & a & B1 & B2 & B3 & B4 & B5) H Hu.
  destruct (compile_ok _ _ _ _ _ _ H) as
    (pr' & a1 & w3 & insts & cl & a' & E1 & E2 & E3 & E4 & _).
  destruct (instantiate_twice _ _ _ _ _ _ _ _ E3) as [G _].
  assert (C : w_cache w1 = w_cache w3) by (rewrite E4; reflexivity). rewrite <- C in G.
  unfold base_of in *. destruct (get "url_base" (contents (w_cache w))) as [v|] eqn:E.
  - destruct (G _ _ E) as (v' & -> & Kv). destruct v; cbn in Kv; try (subst v'; reflexivity).
    destruct Kv as (d' & -> & _). reflexivity.
  - rewrite (Hu eq_refl). reflexivity.
Qed.

Lemma with_cache_bound k w c : bound k w -> bound k (with_cache w c).
Proof. intros (pr & a & H). exists pr, a. exact H. Qed.

Lemma bound_same k k' w : k_compile k' = k_compile k -> k_llh k' = k_llh k -> k_func k' = k_func k ->
  bound k w -> bound k' w.
Proof. intros H1 H2 H3 (pr & a & B). exists pr, a. rewrite H1, H2, H3. exact B. Qed.

Lemma compiled_bound f plugins k w w1 k1 : bound k w -> compile f plugins k w = (w1, k1, Ok tt) -> bound k1 w1.
Proof.
  intros B H. pose proof (compile_bound f plugins k w B) as B1. rewrite H in B1. cbn [fst] in B1.
  destruct (compile_fields _ _ _ _ _ _ H) as (cl & ->). eapply bound_same; [..|exact B1]; reflexivity.
Qed.

(* ------------------------------------------------------------------ *)
(** * One run *)

Lemma combine_nil_list (l : list (list fl)) : map (fun x => (x ++ [])%list) l = l.
Proof. induction l as [|x l IH]; cbn; [reflexivity|]. rewrite app_nil_r, IH. reflexivity. Qed.

Lemma columns_one r : forall is, (forall i, In i is -> i < List.length r) ->
  columns is [r] = Ok (map (fun i => nth i r []) is).
Proof.
  induction is as [|i is IH]; intros H; cbn [columns column map]; [reflexivity|].
  destruct (nth_error r i) as [col|] eqn:E.
  - rewrite app_nil_r, IH by (intros; apply H; right; assumption).
    rewrite (nth_error_nth _ _ [] E). reflexivity.
  - apply nth_error_None in E. specialize (H i (or_introl eq_refl)). lia.
Qed.

Lemma nth_seq_all {A} (r : list A) d : map (fun i => nth i r d) (seq 0 (List.length r)) = r.
Proof.
  induction r as [|x r IH]; cbn [List.length seq map nth]; [reflexivity|].
  f_equal. rewrite <- seq_shift, map_map. exact IH.
Qed.

Lemma hstack_one r : hstack_runs [r] = Ok r.
Proof.
  unfold hstack_runs. cbn [last]. rewrite columns_one by (intros i Hi; apply in_seq in Hi; lia).
  rewrite nth_seq_all. reflexivity.
Qed.

Section Turns.
  Context {K : Type}.
  Variable key_sum : K -> Z.
  Variable csem : closure -> K -> nat -> params -> result (K * list (list fl)).

  Definition eff_of (apply_eff : bool) (cols : list (list fl)) : list (list fl) :=
    if apply_eff then keep_positive cols else cols.

  Lemma one_run (sim : K -> nat -> params -> result (K * list (list fl))) ne ae key b p :
    multiple_simulations sim ne ae 1 key b p =
    match sim key b p with
    | Err e => Err e
    | Ok (key', cols) => if ae && ne then Err RuntimeError else Ok (key', eff_of ae cols)
    end.
  Proof.
    unfold multiple_simulations. cbn [pile]. destruct (sim key b p) as [[key' cols]|e]; [|reflexivity].
    destruct (ae && ne); [reflexivity|]. cbn [app]. rewrite hstack_one. reflexivity.
  Qed.

  (** Turns that compile to the same function every time are the runs of multiple_simulations. *)
  Lemma turns_same f plugins ae b p k c0 :
    (forall key c, contents c = c0 ->
       snd (refresh K key_sum k key b c) = Ok tt /\ contents (fst (refresh K key_sum k key b c)) = c0) ->
    (forall w, contents (w_cache w) = c0 -> bound k w ->
       exists w2, compile f plugins k w = (w2, k, Ok tt) /\ contents (w_cache w2) = c0 /\ bound k w2) ->
    forall times key w acc, contents (w_cache w) = c0 -> bound k w ->
    exists w', contents (w_cache w') = c0 /\
      turns K key_sum csem f plugins ae times key b p k w acc =
      (w', k, pile (sim_of K csem k) (k_noeff k) ae times key b p acc).
  Proof.
    intros Hr Hk. induction times as [|n IH]; intros key w acc Hc Hb; cbn [turns pile].
    - exists w. auto.
    - destruct (Hr key (w_cache w) Hc) as [R1 R2].
      destruct (refresh K key_sum k key b (w_cache w)) as [c1 r]. cbn [fst snd] in R1, R2. subst r.
      destruct (Hk (with_cache w c1) R2 (with_cache_bound _ _ _ Hb)) as (w2 & -> & C2 & B2).
      rewrite one_run. destruct (sim_of K csem k key b p) as [[key' cols]|e]; [|exists w2; auto].
      destruct (ae && k_noeff k); [exists w2; auto|].
      exact (IH key' w2 (acc ++ [eff_of ae cols])%list C2 B2).
  Qed.

  Lemma refresh_idle k key b c v : get "g4" (contents c) = Some v ->
    (truthy v = false \/ use_mcinput k = Ok false) ->
    snd (refresh K key_sum k key b c) = Ok tt /\ contents (fst (refresh K key_sum k key b c)) = contents c.
  Proof.
    intros Hg H. unfold refresh, rd_getitem. rewrite Hg. destruct (truthy v) eqn:T; [|split; reflexivity].
    destruct H as [H|H]; [discriminate|]. rewrite H. split; reflexivity.
  Qed.

  Lemma recompile_same f plugins ae times key b p k w w3 k3 v :
    bound k w -> get "g4" (contents (w_cache w)) = Some v ->
    (use_mcinput k = Ok false \/ truthy v = false /\ not_dict v) ->
    compile f plugins k w = (w3, k3, Ok tt) ->
    (get "url_base" (contents (w_cache w)) = None -> get "url_base" (contents (w_cache w3)) = None) ->
    times <> 0 ->
    exists w4, contents (w_cache w4) = contents (w_cache w3) /\
      multiple_simulations_compile K key_sum csem f plugins ae times key b p k w =
      (w4, k3, multiple_simulations (sim_of K csem k3) (k_noeff k3) ae times key b p).
  Proof.
    intros Hb Hg Hidle Hc Hu Ht. destruct times as [|n]; [contradiction|].
    pose proof (compile_base _ _ _ _ _ _ Hb Hc Hu) as Hbase.
    pose proof (compiled_bound _ _ _ _ _ _ Hb Hc) as Hb3.
    assert (Hk3 : use_mcinput k3 = use_mcinput k /\ k_compile k3 = k_compile k /\
                  k_llh k3 = k_llh k /\ k_func k3 = k_func k /\ k_noeff k3 = k_noeff k).
    { destruct (compile_fields _ _ _ _ _ _ Hc) as (cl & ->). repeat split. }
    destruct Hk3 as (N2 & N3 & N4 & N5 & N6).
    assert (Hg3 : exists v', get "g4" (contents (w_cache w3)) = Some v' /\
                  (truthy v' = false \/ use_mcinput k3 = Ok false)).
    { destruct (compile_ok _ _ _ _ _ _ Hc) as (pr & a & w1 & insts & cl & a' & E1 & E2 & E3 & E4 & _).
      destruct (instantiate_twice _ _ _ _ _ _ _ _ E3) as [G _].
      assert (C : w_cache w3 = w_cache w1) by (rewrite E4; reflexivity). rewrite <- C in G.
      destruct (G _ _ Hg) as (v' & Hv' & Kv). exists v'. split; [exact Hv'|].
      destruct Hidle as [T|[T Hd]]; [right; congruence|left].
      destruct v as [ |x|x|x|x|d]; cbn in Kv; try (subst v'; exact T). destruct (Hd d eq_refl). }
    destruct Hg3 as (v3 & Hg3 & Hidle3).
    destruct (refresh_idle k key b (w_cache w) v Hg) as [R1 R2]; [tauto|].
    assert (Hagain : forall w', contents (w_cache w') = contents (w_cache w3) -> bound k3 w' ->
      exists w2, compile f plugins k3 w' = (w2, k3, Ok tt) /\
        contents (w_cache w2) = contents (w_cache w3) /\ bound k3 w2).
    { intros w' C' B'. apply (compile_twice f plugins k w w3 k3 w' Hb Hc Hbase); [|exact C'].
      eapply bound_same; [..|exact B']; congruence. }
    assert (Hidl : forall key c, contents c = contents (w_cache w3) ->
      snd (refresh K key_sum k3 key b c) = Ok tt /\
      contents (fst (refresh K key_sum k3 key b c)) = contents (w_cache w3)).
    { intros key' c C. rewrite <- C. apply (refresh_idle k3 key' b c v3); [congruence|exact Hidle3]. }
    (* the first turn *)
    unfold multiple_simulations_compile, multiple_simulations. cbn [turns pile].
    destruct (refresh K key_sum k key b (w_cache w)) as [c1 r] eqn:Er. cbn [fst snd] in R1, R2. subst r.
    destruct (compile_alike f plugins k w (with_cache w c1) w3 k3 Hb (with_cache_bound _ _ _ Hb) (eq_sym R2) Hc)
      as (w2 & Hc2 & C2).
    rewrite Hc2, one_run. pose proof (compiled_bound _ _ _ _ _ _ (with_cache_bound _ _ _ Hb) Hc2) as B2.
    destruct (sim_of K csem k3 key b p) as [[key' cols]|e]; [|exists w2; auto].
    destruct (ae && k_noeff k3); [exists w2; auto|].
    destruct (turns_same f plugins ae b p k3 _ Hidl Hagain n key' w2 ([] ++ [eff_of ae cols])%list C2 B2)
      as (w4 & C4 & ->).
    exists w4. split; [exact C4|]. unfold eff_of.
    destruct (pile _ _ _ n _ _ _ _) as [[key2 runs]|e]; reflexivity.
  Qed.

  (* ---------------------------------------------------------------- *)
  (** ** Turns of a bootstrap component *)

  Lemma explicit_xg c c' n L v : xg L c c' -> explicit_value c n L v -> explicit_value c' n L v.
  Proof.
    intros G [[Hg Hd]|(d & Hg & Hl)]; destruct (G _ _ Hg) as (v' & Hv' & Kv).
    - left. destruct v; cbn in Kv; try (subst v'; auto). destruct (Hd _ eq_refl).
    - right. cbn in Kv. destruct Kv as (d' & -> & Kv). eauto.
  Qed.

  (** The entries of the other likelihoods in a table of g4. *)
  Definition others_kept (L : string) (c c' : dict value) : Prop :=
    forall d, get "g4" c = Some (VDict d) -> exists d', get "g4" c' = Some (VDict d') /\
      forall l v, l <> L -> get l d = Some v -> exists v', get l d' = Some v' /\ value_eqb v v' = true.

  Lemma others_refl L c : others_kept L c c.
  Proof. intros d Hd. exists d. split; [exact Hd|]. intros l v _ Hv. exists v. auto using value_eqb_refl. Qed.

  Lemma others_trans L a b c : others_kept L a b -> others_kept L b c -> others_kept L a c.
  Proof.
    intros H1 H2 d Hd. destruct (H1 d Hd) as (d1 & E1 & K1). destruct (H2 d1 E1) as (d2 & E2 & K2).
    exists d2. split; [exact E2|]. intros l v Hl Hv. destruct (K1 l v Hl Hv) as (v1 & Hv1 & Q1).
    destruct (K2 l v1 Hl Hv1) as (v2 & Hv2 & Q2). exists v2. split; [exact Hv2|]. eapply value_eqb_trans; eauto.
  Qed.

  Lemma others_grows L c c' : grows c c' -> others_kept L c c'.
  Proof.
    intros G d Hd. destruct (G _ _ Hd) as (v & Hv & d' & -> & Kd). exists d'. split; [exact Hv|].
    intros l x _ Hx. exact (Kd l x Hx).
  Qed.

  Lemma refresh_boot k key b c x file :
    explicit_value (contents c) "g4" (k_llh k) x -> file_of x file -> use_mcinput k = Ok true ->
    exists c1, refresh K key_sum k key b c = (c1, Ok tt) /\
      explicit_value (contents c1) "g4" (k_llh k) (new_entry K key_sum file b key) /\
      others_kept (k_llh k) (contents c) (contents c1) /\
      (forall n, n <> "g4" -> get n (contents c1) = get n (contents c)).
  Proof.
    intros He Hf Hu. unfold refresh, rd_getitem.
    assert (Hfi : first_item x = Ok file) by (destruct Hf; reflexivity).
    destruct He as [[Hg Hd]|(d & Hg & Hl)]; rewrite Hg.
    - replace (truthy x) with true by (destruct Hf; reflexivity). rewrite Hu, Hfi.
      destruct x as [ |y|y|y|y|d]; try (destruct (Hd _ eq_refl));
        (eexists; split; [reflexivity|]; cbn; split; [left; split; [apply get_set_eq|intros ? ?; discriminate]|];
         split; [intros d Hd'; congruence|]; intros n Hn; apply get_set_neq; exact Hn).
    - assert (Ht : truthy (VDict d) = true) by (destruct d; [discriminate Hl|reflexivity]).
      rewrite Ht, Hu, Hl, Hfi. eexists. split; [reflexivity|]. cbn. split.
      { right. eexists. split; [apply get_set_eq|apply get_set_eq]. }
      split; [|intros n Hn; apply get_set_neq; exact Hn].
      intros d' Hd'. rewrite Hg in Hd'. injection Hd' as <-. eexists. split; [apply get_set_eq|].
      intros l v Hne Hv. exists v. split; [rewrite get_set_neq by exact Hne; exact Hv|apply value_eqb_refl].
  Qed.

  Lemma compile_explicit f plugins k w w1 k1 n v : bound k w -> compile f plugins k w = (w1, k1, Ok tt) ->
    explicit_value (contents (w_cache w)) n (k_llh k) v -> explicit_value (contents (w_cache w1)) n (k_llh k) v.
  Proof.
    intros (pr & a & B1 & _ & _ & _ & B5) Hc.
    destruct (compile_ok _ _ _ _ _ _ Hc) as (pr' & a' & w3 & insts & cl & a2 & E1 & E2 & E3 & E4 & _).
    rewrite B1 in E1. injection E1 as <- <-. destruct (instantiate_twice _ _ _ _ _ _ _ _ E3) as [G _].
    assert (C : w_cache w1 = w_cache w3) by (rewrite E4; reflexivity). rewrite <- C, B5 in G.
    apply explicit_xg, G.
  Qed.

  Lemma compile_reads f plugins k w w1 k1 n v : bound k w ->
    (forall pr a, k_compile k = Some (pr, a) -> NoDup (map fst (pr_insts pr))) ->
    compile f plugins k w = (w1, k1, Ok tt) -> explicit_value (contents (w_cache w)) n (k_llh k) v ->
    exists cl, k_simulate k1 = Some cl /\ reads n v cl.
  Proof.
    intros (pr & a & B1 & B2 & B3 & B4 & B5) Hnd Hc He.
    destruct (recompile_ok f plugins k w w1 k1 pr a Hc B1 B2 B3 B4 B5 (Hnd _ _ B1))
      as (insts & R1 & R2 & R3 & R4).
    exists (mk_closure pr insts). split; [exact R1|]. intros m i cf vs Hi Hk Hd <- Hv.
    destruct (R3 m i Hi) as (pn & _ & Hm). exact (instance_config_explicit _ _ _ _ _ _ _ _ _ _ Hm Hk Hd Hv He).
  Qed.

  Lemma turns_boot f plugins ae b p file : forall times key k w acc x,
    bound k w -> (forall pr a, k_compile k = Some (pr, a) -> NoDup (map fst (pr_insts pr))) ->
    explicit_value (contents (w_cache w)) "g4" (k_llh k) x -> file_of x file -> use_mcinput k = Ok true ->
    forall w' k' r, turns K key_sum csem f plugins ae times key b p k w acc = (w', k', r) ->
    (times <> 0 -> exists j rs key1 v, j < times /\
       fresh_runs csem (fun key => reads "g4" (new_entry K key_sum file b key)) b p j key rs key1 /\
       explicit_value (contents (w_cache w')) "g4" (k_llh k) v /\
       value_eqb (new_entry K key_sum file b key1) v = true /\
       (forall o, r = Ok o -> S j = times)) /\
    others_kept (k_llh k) (contents (w_cache w)) (contents (w_cache w')) /\
    forall key' runs, r = Ok (key', runs) ->
      exists rs, fresh_runs csem (fun key => reads "g4" (new_entry K key_sum file b key)) b p times key rs key' /\
        runs = (acc ++ map (eff_of ae) rs)%list /\ (times = 0 \/ ae && k_noeff k = false).
  Proof.
    induction times as [|n IH]; intros key k w acc x Hb Hnd He Hf Hu w' k' r; cbn [turns].
    - intros H. injection H as <- <- <-. split; [intros []; reflexivity|]. split; [apply others_refl|].
      intros key' runs H. injection H as <- <-. exists []. split; [constructor|]. cbn. rewrite app_nil_r. auto.
    - destruct (refresh_boot k key b (w_cache w) x file He Hf Hu) as (c1 & -> & He1 & Ho1 & _).
      pose proof (with_cache_bound k w c1 Hb) as Hb1.
      pose proof (compile_grows f plugins k (with_cache w c1)) as Hg. unfold wgrows in Hg.
      destruct (compile f plugins k (with_cache w c1)) as [[w2 k2] [[]|e]] eqn:Hc; cbn [fst] in Hg; cbn [w_cache with_cache] in Hg.
      2: { intros H. injection H as <- <- <-. split; [|split].
           - intros _. destruct (explicit_value_eqb_grows _ _ _ _ _ Hg He1) as (v & V1 & V2).
             exists 0, [], key, v. split; [lia|]. split; [constructor|]. split; [exact V1|]. split; [exact V2|].
             intros; discriminate.
           - eapply others_trans; [exact Ho1|apply others_grows, Hg].
           - intros; discriminate. }
      pose proof (compile_explicit _ _ _ _ _ _ _ _ Hb1 Hc He1) as He2.
      destruct (compile_reads _ _ _ _ _ _ _ _ Hb1 Hnd Hc He1) as (cl & Hcl & Hreads).
      assert (Ho2 : others_kept (k_llh k) (contents (w_cache w)) (contents (w_cache w2)))
        by (eapply others_trans; [exact Ho1|apply others_grows, Hg]).
      pose proof (compiled_bound _ _ _ _ _ _ Hb1 Hc) as Hb2.
      assert (Hk2 : use_mcinput k2 = use_mcinput k /\ k_compile k2 = k_compile k /\
                    k_llh k2 = k_llh k /\ k_noeff k2 = k_noeff k).
      { destruct (compile_fields _ _ _ _ _ _ Hc) as (cl' & ->). repeat split. }
      destruct Hk2 as (N1 & N2 & N3 & N4).
      assert (Hnow : exists j rs key1 v, j < S n /\
        fresh_runs csem (fun key => reads "g4" (new_entry K key_sum file b key)) b p j key rs key1 /\
        explicit_value (contents (w_cache w2)) "g4" (k_llh k) v /\
        value_eqb (new_entry K key_sum file b key1) v = true /\ j = 0).
      { exists 0, [], key, (new_entry K key_sum file b key). split; [lia|]. split; [constructor|].
        split; [exact He2|]. split; [apply value_eqb_refl|reflexivity]. }
      rewrite one_run. unfold sim_of at 1. rewrite Hcl.
      destruct (csem cl key b p) as [[key1 cols]|e] eqn:Hsim.
      2: { intros H. injection H as <- <- <-. split; [|split; [exact Ho2|intros; discriminate]].
           intros _. destruct Hnow as (j & rs & key1 & v & J1 & J2 & J3 & J4 & _).
           exists j, rs, key1, v. repeat split; auto. intros; discriminate. }
      destruct (ae && k_noeff k2) eqn:Hae.
      { intros H. injection H as <- <- <-. split; [|split; [exact Ho2|intros; discriminate]].
        intros _. destruct Hnow as (j & rs & key2 & v & J1 & J2 & J3 & J4 & _).
        exists j, rs, key2, v. repeat split; auto. intros; discriminate. }
      intros H.
      destruct (IH key1 k2 w2 (acc ++ [eff_of ae cols])%list (new_entry K key_sum file b key) Hb2) with (w' := w') (k' := k') (r := r)
        as (I1 & I2 & I3).
      { rewrite N2. exact Hnd. }
      { rewrite N3. exact He2. }
      { apply fo_list. }
      { congruence. }
      { exact H. }
      rewrite N3 in I1, I2. rewrite N4 in I3, Hae.
      split; [|split; [eapply others_trans; eauto|]].
      + intros _. destruct n as [|n].
        * cbn [turns] in H. injection H as <- <- <-.
          destruct Hnow as (j & rs & key2 & v & J1 & J2 & J3 & J4 & ->).
          exists 0, rs, key2, v. repeat split; auto.
        * destruct I1 as (j & rs & key2 & v & J1 & J2 & J3 & J4 & J5); [discriminate|].
          exists (S j), (cols :: rs), key2, v. split; [lia|]. split; [econstructor; eauto|].
          split; [exact J3|]. split; [exact J4|]. intros o Ho. f_equal. exact (J5 o Ho).
      + intros key' runs Hr. destruct (I3 key' runs Hr) as (rs & F & -> & _).
        exists (cols :: rs). split; [econstructor; eauto|]. split; [rewrite <- app_assoc; reflexivity|].
        right. exact Hae.
  Qed.

  Lemma stack_spec ae w : forall rs, rs <> [] -> (forall r, In r rs -> List.length r = w) ->
    hstack_runs (map (eff_of ae) rs) =
    Ok (map (fun i => List.concat (map (fun r =>
          let col := nth i r [] in
          if ae then positive_only (last r []) col else col) rs)) (seq 0 w)).
  Proof.
    intros rs Hne Hl. unfold hstack_runs.
    assert (Hg : forall r, List.length (eff_of ae r) = List.length r).
    { intros r. unfold eff_of. destruct ae; [rewrite keep_positive_spec; apply map_length|reflexivity]. }
    rewrite (last_map (eff_of ae) rs [] []) by exact Hne. rewrite Hg.
    rewrite (Hl _ (last_In rs [] Hne)).
    rewrite columns_concat.
    - f_equal. apply map_ext_in. intros i Hi. apply in_seq in Hi. f_equal. rewrite map_map.
      apply map_ext_in. intros r Hr. unfold eff_of. destruct ae; [|reflexivity]. rewrite keep_positive_spec.
      rewrite (nth_indep _ [] (positive_only (last r []) [])) by (rewrite map_length, (Hl r Hr); lia).
      apply map_nth.
    - intros i r Hi Hr. apply in_seq in Hi. apply in_map_iff in Hr. destruct Hr as (r0 & <- & Hr0).
      rewrite Hg, (Hl r0 Hr0). lia.
  Qed.

  Lemma fresh_width suits b p w : (forall cl key key' cols, csem cl key b p = Ok (key', cols) -> List.length cols = w) ->
    forall n key rs key', fresh_runs csem suits b p n key rs key' ->
    List.length rs = n /\ forall r, In r rs -> List.length r = w.
  Proof.
    intros Hw. induction 1 as [|n key cl key1 cols runs key2 Hs Hc Hr [I1 I2]]; [split; [reflexivity|intros r []]|].
    split; [cbn; congruence|]. intros r [<-|Hr']; [exact (Hw _ _ _ _ Hc)|auto].
  Qed.

  Lemma boot_values f plugins ae times key b p k w x file width w' k' key' cols :
    bound k w -> (forall pr a, k_compile k = Some (pr, a) -> NoDup (map fst (pr_insts pr))) ->
    explicit_value (contents (w_cache w)) "g4" (k_llh k) x -> file_of x file -> use_mcinput k = Ok true ->
    (forall cl key key' cols, csem cl key b p = Ok (key', cols) -> List.length cols = width) ->
    multiple_simulations_compile K key_sum csem f plugins ae times key b p k w = (w', k', Ok (key', cols)) ->
    ae && k_noeff k = false /\
    exists rs, fresh_runs csem (fun key => reads "g4" (new_entry K key_sum file b key)) b p times key rs key' /\
      cols = map (fun i => List.concat (map (fun r =>
               let col := nth i r [] in
               if ae then positive_only (last r []) col else col) rs)) (seq 0 width).
  Proof.
    intros Hb Hnd He Hf Hu Hw. unfold multiple_simulations_compile.
    destruct (turns K key_sum csem f plugins ae times key b p k w []) as [[w1 k1] [[key1 runs]|e]] eqn:Ht; [|discriminate].
    destruct times as [|n]; [discriminate|]. intros H.
    destruct (turns_boot f plugins ae b p file _ _ _ _ _ _ Hb Hnd He Hf Hu _ _ _ Ht) as (_ & _ & T3).
    destruct (T3 key1 runs eq_refl) as (rs & F & -> & [Hz|Hae]); [discriminate|].
    destruct (fresh_width _ _ _ _ Hw _ _ _ _ F) as [L1 L2].
    cbn [app] in H. rewrite (stack_spec ae width rs) in H; [|intros ->; discriminate|exact L2].
    injection H as <- <- <- <-. split; [exact Hae|]. exists rs. auto.
  Qed.
End Turns.

Lemma truthy_false v : truthy v = false <-> py_false v.
Proof.
  split.
  - destruct v as [|[|]|z|s|[|]|[|]]; cbn; try discriminate; try constructor.
    + destruct (Z.eqb_spec z 0); [subst; constructor|discriminate].
    + destruct (String.eqb_spec s ""); [subst; constructor|discriminate].
  - destruct 1; reflexivity.
Qed.

Lemma prefix_split : forall sub s, substring 0 (String.length sub) s = sub -> exists c, s = sub ++ c.
Proof.
  induction sub as [|a sub IH]; intros s H; [exists s; reflexivity|].
  destruct s as [|b s]; [discriminate|]. cbn in H. injection H as -> H.
  destruct (IH s) as [c ->]; [destruct s; exact H|]. exists c. reflexivity.
Qed.
Lemma substring_split : forall m sub s, sub <> "" ->
  substring m (String.length sub) s = sub -> exists a c, s = a ++ sub ++ c.
Proof.
  induction m as [|m IH]; intros sub s Hs H.
  - destruct (prefix_split sub s H) as [c ->]. exists "", c. reflexivity.
  - destruct s as [|b s]; [cbn in H; congruence|]. cbn in H. destruct (IH sub s Hs H) as (a & c & ->).
    exists (String b a), c. reflexivity.
Qed.
Lemma append_substring : forall a sub c, substring (String.length a) (String.length sub) (a ++ sub ++ c) = sub.
Proof.
  induction a as [|x a IH]; intros sub c; cbn [String.length append substring]; [|apply IH].
  induction sub as [|y sub IH]; cbn; [destruct c; reflexivity|]. f_equal.
  destruct sub; cbn in *; [destruct c; reflexivity|exact IH].
Qed.
Lemma has_bootstrap_spec s : has_bootstrap s = true <-> exists a c, s = a ++ "Bootstrap" ++ c.
Proof.
  unfold has_bootstrap. destruct (index 0 "Bootstrap" s) as [m|] eqn:E.
  - split; [intros _|reflexivity]. apply index_correct1 in E.
    apply (substring_split m "Bootstrap" s); [discriminate|exact E].
  - split; [discriminate|]. intros (a & c & ->). exfalso.
    refine (index_correct3 0 (String.length a) _ _ E _ _ _); [discriminate|apply Nat.le_0_l|].
    apply append_substring.
Qed.
Lemma use_mcinput_true k : use_mcinput k = Ok true <-> bootstrap_energy k.
Proof.
  unfold use_mcinput, bootstrap_energy. destruct (get "energy" (k_registry k)) as [p|].
  - split.
    + intros H. injection H as H. apply has_bootstrap_spec in H. destruct H as (a & c & H). eauto 6.
    + intros (q & a & c & [=<-] & H). f_equal. apply has_bootstrap_spec. eauto.
  - split; [discriminate|]. intros (q & a & c & H & _). discriminate.
Qed.
Lemma use_mcinput_false k : use_mcinput k = Ok false <-> other_energy k.
Proof.
  unfold use_mcinput, other_energy. destruct (get "energy" (k_registry k)) as [p|].
  - split.
    + intros H. injection H as H. exists p. split; [reflexivity|]. intros a c Hn.
      assert (has_bootstrap (p_name p) = true) by (apply has_bootstrap_spec; eauto). congruence.
    + intros (q & [=<-] & H). f_equal. destruct (has_bootstrap (p_name p)) eqn:E; [|reflexivity].
      apply has_bootstrap_spec in E. destruct E as (a & c & E). destruct (H _ _ E).
  - split; [discriminate|]. intros (q & H & _). discriminate.
Qed.
