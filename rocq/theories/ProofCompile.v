(** Lemmas about compiled components. *)
From Verif Require Import Base BaseFacts ModelShare ModelConfig ModelComponent SpecComponent
  SpecConfig ModelCompile SpecCompile ProofComponent ProofWorkflow ProofSim ProofHistory
  ProofComponentTop ProofConfig ProofConfig2.
Local Open Scope string_scope.

Lemma append_length a b : String.length (a ++ b) = String.length a + String.length b.
Proof. induction a as [|c a IH]; simpl; [reflexivity|]. rewrite IH. reflexivity. Qed.

Lemma append_inj_r a b s : a ++ s = b ++ s -> a = b.
Proof.
  revert b. induction a as [|c a IH]; intros [|d b] H.
  - reflexivity.
  - exfalso. apply (f_equal String.length) in H. rewrite !append_length in H. simpl in H. lia.
  - exfalso. apply (f_equal String.length) in H. rewrite !append_length in H. simpl in H. lia.
  - simpl in H. injection H as -> H. f_equal. exact (IH b H).
Qed.

(* ------------------------------------------------------------------ *)
(** * Instances *)

Lemma build_all_ok f llh cfs : forall c c' bs,
  build_all f cfs llh c = (c', bs, Ok tt) ->
  grows (contents c) (contents c') /\ List.length bs = List.length cfs /\
  forall n cf, nth_error cfs n = Some cf ->
    exists c1 b, nth_error bs n = Some b /\ grows (contents c) (contents c1) /\
      snd (config_build f cf llh c1) = Ok b /\
      grows (contents (fst (config_build f cf llh c1))) (contents c').
Proof.
  induction cfs as [|cf cfs IH]; cbn [build_all]; intros c c' bs H.
  - injection H as <- <-. split; [apply grows_refl|]. split; [reflexivity|]. intros [|n] cf; discriminate.
  - pose proof (build_grows f cf llh c) as Hg.
    destruct (config_build f cf llh c) as [c1 [b|e]] eqn:Hb; [|discriminate]. cbn [fst] in Hg.
    destruct (build_all f cfs llh c1) as [[c2 bs2] r2] eqn:Hr.
    injection H as <- <- ->. destruct (IH _ _ _ Hr) as (G & L & N).
    split; [eapply grows_trans; eauto|]. split; [simpl; rewrite L; reflexivity|].
    intros [|n] cf' Hn; cbn [nth_error] in Hn.
    + injection Hn as <-. exists c, b. rewrite Hb. cbn. auto using grows_refl.
    + destruct (N n cf' Hn) as (c3 & b3 & H1 & H2 & H3 & H4). exists c3, b3. cbn [nth_error].
      split; [exact H1|]. split; [eapply grows_trans; eauto|]. auto.
Qed.

Lemma plugin_init_ok f p llh c c' bs i :
  plugin_init f p llh c = (c', bs, Ok i) ->
  i = mk_instance p llh bs /\ build_all f (map snd (p_configs p)) llh c = (c', bs, Ok tt) /\
  p_depends p <> [] /\ p_provides p <> [] /\ sanity_check p = Ok tt.
Proof.
  unfold plugin_init. intros H.
  destruct (p_depends p) as [|d ds]; [discriminate|].
  destruct (p_provides p) as [|q qs]; [discriminate|].
  destruct (build_all f (map snd (p_configs p)) llh c) as [[c1 bs1] r].
  destruct r as [[]|e]; [|discriminate].
  destruct (sanity_check p) as [[]|e] eqn:Hs; [|discriminate].
  injection H as <- <- <-. repeat split; discriminate.
Qed.

Lemma plugin_init_grows f p llh c :
  forall c' bs i, plugin_init f p llh c = (c', bs, Ok i) -> grows (contents c) (contents c').
Proof.
  intros c' bs i H. apply plugin_init_ok in H. destruct H as (_ & H & _).
  apply build_all_ok in H. tauto.
Qed.

(** One instance of the result of [instantiate]. *)
Definition made (f : fs) (plugins : string -> option plugin) (llh : string) (c0 c9 : dict value)
    (pname : string) (i : instance) : Prop :=
  exists p c1 c2, plugins pname = Some p /\ i_class i = p /\ i_llh i = Some llh /\
    plugin_init f p (Some llh) c1 = (c2, i_built i, Ok i) /\
    grows c0 (contents c1) /\ grows (contents c2) c9.

Lemma instantiate_ok f plugins llh insts : forall acc w w' res,
  instantiate f plugins llh insts acc w = (w', Ok res) -> NoDup (map fst insts) ->
  grows (contents (w_cache w)) (contents (w_cache w')) /\
  (forall n, ~ In n (map fst insts) -> get n res = get n acc) /\
  (forall n pn, In (n, pn) insts -> exists i, get n res = Some i /\
     made f plugins llh (contents (w_cache w)) (contents (w_cache w')) pn i) /\
  (forall n, In n (keys res) <-> In n (keys acc) \/ In n (map fst insts)) /\
  (NoDup (keys acc) -> NoDup (keys res)).
Proof.
  induction insts as [|[n0 p0] rest IH]; cbn [instantiate map fst]; intros acc w w' res H Hnd.
  - injection H as <- <-. split; [apply grows_refl|]. split; [auto|]. split; [intros n pn []|].
    split; [|auto]. intros n. cbn [In]. tauto.
  - destruct (plugins p0) as [p|] eqn:Hp; [|discriminate].
    destruct (plugin_init f p (Some llh) (w_cache w)) as [[c1 bs] [i|e]] eqn:Hi; [|discriminate].
    inversion Hnd as [|? ? Hni Hnd']; subst.
    pose proof (plugin_init_grows _ _ _ _ _ _ _ Hi) as G1.
    destruct (IH _ _ _ _ H Hnd') as (G & Hout & Hin & Hk & Hn). cbn [w_cache] in G, Hin.
    split; [eapply grows_trans; eauto|]. split; [|split; [|split]].
    + intros n Hno. cbn [In] in Hno. rewrite Hout by tauto. apply get_set_neq. intros ->. tauto.
    + intros n pn [Heq|Hr].
      * injection Heq as <- <-. exists i. split.
        { rewrite Hout by exact Hni. apply get_set_eq. }
        destruct (plugin_init_ok _ _ _ _ _ _ _ Hi) as (Hii & _).
        exists p, (w_cache w), c1. rewrite Hii in *. cbn [i_class i_llh i_built] in *.
        repeat split; auto using grows_refl.
      * destruct (Hin n pn Hr) as (j & Hj & q & c3 & c4 & H1 & H2 & H3 & H4 & H5 & H6).
        exists j. split; [exact Hj|]. exists q, c3, c4. repeat split; auto.
        eapply grows_trans; eauto.
    + intros n. rewrite Hk, keys_set_In. cbn [In]. intuition congruence.
    + intros Ha. apply Hn, NoDup_set, Ha.
Qed.

(** The class-level configs after [instantiate]. *)
Lemma instantiate_class f plugins llh insts : forall acc w w' res,
  instantiate f plugins llh insts acc w = (w', Ok res) ->
  NoDup (map fst insts) -> NoDup (map snd insts) ->
  (forall pn, ~ In pn (map snd insts) -> get pn (w_class w') = get pn (w_class w)) /\
  (forall n pn, In (n, pn) insts -> exists i, get n res = Some i /\
     get pn (w_class w') = Some (i_built i)).
Proof.
  induction insts as [|[n0 p0] rest IH]; cbn [instantiate map fst snd]; intros acc w w' res H Hnd Hnd2.
  - injection H as <- <-. split; [auto|]. intros n pn [].
  - destruct (plugins p0) as [p|] eqn:Hp; [|discriminate].
    destruct (plugin_init f p (Some llh) (w_cache w)) as [[c1 bs] [i|e]] eqn:Hi; [|discriminate].
    inversion Hnd as [|? ? Hni Hnd']; subst. inversion Hnd2 as [|? ? Hni2 Hnd2']; subst.
    destruct (IH _ _ _ _ H Hnd' Hnd2') as (Hc & Hin). cbn [w_class] in Hc.
    destruct (instantiate_ok _ _ _ _ _ _ _ _ H Hnd') as (_ & Hout & _).
    split.
    + intros pn Hno. cbn [In] in Hno. rewrite Hc by tauto. apply get_set_neq. intros ->. tauto.
    + intros n pn [Heq|Hr]; [|exact (Hin n pn Hr)]. injection Heq as <- <-. exists i. split.
      { rewrite Hout by exact Hni. apply get_set_eq. }
      rewrite Hc by exact Hni2. rewrite get_set_eq.
      destruct (plugin_init_ok _ _ _ _ _ _ _ Hi) as (-> & _). reflexivity.
Qed.

(* ------------------------------------------------------------------ *)
(** * Compilation *)

Lemma compile_ok f plugins k w w' k' :
  compile f plugins k w = (w', k', Ok tt) ->
  exists pr a w1 insts cl a',
    k_compile k = Some (pr, a) /\ imports_ok plugins (pr_imports pr) = true /\
    instantiate f plugins (pr_llh pr) (pr_insts pr) [] w = (w1, Ok insts) /\
    w' = mk_world (w_cache w1) (w_fn w1)
           (set_nth a (set (pr_func pr) (mk_closure pr insts) (nth a (w_heap w1) [])) (w_heap w1))
           (w_class w1) /\
    get (k_llh k) (w_fn w1) = Some a' /\
    get (k_func k) (nth a' (w_heap w') []) = Some cl /\ k_simulate k' = Some cl /\
    k_code k' = k_code k /\ k_registry k' = k_registry k /\ k_llh k' = k_llh k /\
    k_func k' = k_func k /\ k_name k' = k_name k /\ k_needed k' = k_needed k /\
    k_compile k' = k_compile k.
Proof.
  unfold compile. intros H. destruct (k_compile k) as [[pr a]|] eqn:Hk; [|discriminate].
  destruct (imports_ok plugins (pr_imports pr)) eqn:Him; [|discriminate].
  destruct (instantiate f plugins (pr_llh pr) (pr_insts pr) [] w) as [w1 [insts|e]] eqn:Hi;
    [|discriminate].
  cbn [w_fn w_heap w_cache w_class] in H.
  destruct (get (k_llh k) (w_fn w1)) as [a'|] eqn:Hl; [|discriminate].
  destruct (get (k_func k) _) as [cl|] eqn:Hf; [|discriminate].
  injection H as <- <-. exists pr, a, w1, insts, cl, a'. cbn. auto 20.
Qed.

Lemma nth_set_nth {A} (l : list A) a x d :
  a < List.length l -> nth a (set_nth a x l) d = x.
Proof.
  revert a. induction l as [|y l IH]; intros [|a] H; simpl in *; try lia; [reflexivity|].
  apply IH. lia.
Qed.

(** Everything established by deduce followed by compile. *)
Lemma build_component_ok limit data_names func nodep noeff f plugins k w w' k' :
  build_component limit data_names func nodep noeff f plugins k w = (w', k', Ok tt) ->
  exists deps w1 k1 insts w2,
    deduce limit data_names func nodep noeff k w = (w1, k1, Ok tt) /\
    dependencies_deduce (k_registry k) nodep limit (output_names data_names noeff) [] = Ok deps /\
    let pr := gen_code (k_name k) (k_llh k) func nodep (map work_of (selected deps))
                (output_names data_names noeff) in
    instantiate f plugins (k_llh k) (pr_insts pr) [] w1 = (w2, Ok insts) /\
    k_simulate k' = Some (mk_closure pr insts) /\ k_code k' = Some pr /\
    w_cache w' = w_cache w2 /\ w_class w' = w_class w2 /\ w_fn w' = w_fn w1 /\
    w_cache w1 = w_cache w1 /\ k_func k' = func /\ k_llh k' = k_llh k /\
    get (k_llh k) (w_fn w') = Some (List.length (w_heap w)) /\
    get func (nth (List.length (w_heap w)) (w_heap w') []) = Some (mk_closure pr insts) /\
    imports_ok plugins (pr_imports pr) = true.
Proof.
  unfold build_component. intros H.
  destruct (deduce limit data_names func nodep noeff k w) as [[w1 k1] [[]|e]] eqn:Hd; [|discriminate].
  destruct (deduce_ok_inv _ _ _ _ _ _ _ _ _ Hd) as
    (deps & c1 & needed & H1 & H2 & H3 & H4 & H5 & H6 & H7 & H8 & H9 & H10 & H11 & H12 & H13 & H14
     & H15 & H16 & H17 & H18).
  destruct (compile_ok _ _ _ _ _ _ H) as
    (pr & a & w2 & insts & cl & a' & E1 & E2 & E3 & E4 & E5 & E6 & E7 & E8 & E9 & E10 & E11 & E12).
  exists deps, w1, k1, insts, w2. split; [reflexivity|]. split; [exact H1|].
  rewrite H13 in E1. injection E1 as <- <-.
  pose proof (instantiate_fn f plugins (k_llh k) (pr_insts (gen_code (k_name k) (k_llh k) func nodep
    (map work_of (selected deps)) (output_names data_names noeff))) [] w1) as [F1 F2].
  change (pr_llh (gen_code (k_name k) (k_llh k) func nodep
    (map work_of (selected deps)) (output_names data_names noeff))) with (k_llh k) in E3.
  rewrite E3 in F1, F2. cbn [fst] in F1, F2.
  rewrite F1, H15, H8, get_set_eq in E5. injection E5 as <-.
  assert (Hlen : List.length (w_heap w) < List.length (w_heap w2)).
  { rewrite F2, H16, app_length. simpl. lia. }
  assert (Hheap : get func (nth (List.length (w_heap w)) (w_heap w') []) =
    Some (mk_closure (gen_code (k_name k) (k_llh k) func nodep
       (map work_of (selected deps)) (output_names data_names noeff)) insts)).
  { rewrite E4. cbn [w_heap]. rewrite nth_set_nth by exact Hlen. apply get_set_eq. }
  rewrite H6, Hheap in E6. injection E6 as <-.
  cbn zeta. split; [exact E3|]. split; [exact E7|]. split; [congruence|].
  rewrite E4. cbn [w_cache w_class w_fn]. split; [reflexivity|]. split; [reflexivity|].
  split; [exact F1|]. split; [reflexivity|]. split; [destruct E12 as (_ & _); congruence|].
  split; [congruence|]. split; [rewrite F1, H15; apply get_set_eq|].
  split; [rewrite E4 in Hheap; exact Hheap|exact E2].
Qed.

Definition inst_names (name : string) (ps : list plugin) : list (string * string) :=
  map (fun p => (p_name p ++ "_" ++ name, p_name p)) ps.

Lemma gen_insts name llh func nodep ps dn :
  pr_insts (gen_code name llh func nodep (map work_of ps) dn) = inst_names name ps.
Proof. unfold gen_code, inst_names. cbn. rewrite map_map. reflexivity. Qed.

Lemma inst_names_NoDup name ps :
  NoDup (map p_name ps) ->
  NoDup (map fst (inst_names name ps)) /\ NoDup (map snd (inst_names name ps)).
Proof.
  unfold inst_names. rewrite !map_map. cbn. intros H. split; [|exact H].
  induction ps as [|p ps IH]; cbn in *; [constructor|].
  inversion H as [|? ? Hni H']; subst. constructor; [|exact (IH H')].
  intros Hi. apply Hni. apply in_map_iff in Hi. destruct Hi as (q & Hq & Hin).
  apply append_inj_r in Hq. rewrite <- Hq. apply in_map. exact Hin.
Qed.

Lemma used_selected reg nodep limit names deps :
  unique_names reg -> dependencies_deduce reg nodep limit names [] = Ok deps ->
  forall p, In p (selected deps) <-> exists d, Reach reg nodep names d /\ get d reg = Some p.
Proof.
  intros Hu Hd p. destruct (dependencies_deduce_ok _ _ _ _ _ _ Hd) as (l & Hl & Hc & Ht & Hf).
  cbn in Hl. subst l. rewrite (selected_in _ nodep Hu _ _ p Hf). split; [apply Hf|].
  intros (d & Hdr & Hg). destruct (good_ext_reach _ _ _ _ _ Hc Ht Hdr) as (q & Hq & Hi). congruence.
Qed.

(** The instances of a compiled component. *)
Lemma compiled_instances limit data_names func nodep noeff f plugins k w w' k' :
  unique_names (k_registry k) ->
  build_component limit data_names func nodep noeff f plugins k w = (w', k', Ok tt) ->
  exists pr cl, k_code k' = Some pr /\ k_simulate k' = Some cl /\ cl_prog cl = pr /\
    forall d p, Reach (k_registry k) nodep (output_names data_names noeff) d ->
      get d (k_registry k) = Some p ->
      exists i, get (p_name p ++ "_" ++ k_name k) (cl_insts cl) = Some i /\
        plugins (p_name p) = Some (i_class i) /\ i_llh i = Some (k_llh k).
Proof.
  intros Hu H. destruct (build_component_ok _ _ _ _ _ _ _ _ _ _ _ H) as
    (deps & w1 & k1 & insts & w2 & H1 & H2 & H3 & H4 & H5 & _).
  eexists. eexists. split; [exact H5|]. split; [exact H4|]. split; [reflexivity|].
  intros d p Hd Hg. rewrite gen_insts in H3.
  destruct (inst_names_NoDup (k_name k) (selected deps)) as [N1 N2].
  { apply first_by_name_NoDup. }
  destruct (instantiate_ok _ _ _ _ _ _ _ _ H3 N1) as (_ & _ & Hin & _).
  destruct (Hin (p_name p ++ "_" ++ k_name k) (p_name p)) as (i & Hi & q & c1 & c2 & Q1 & Q2 & Q3 & _).
  { unfold inst_names. apply in_map_iff. exists p. split; [reflexivity|].
    apply (used_selected _ _ _ _ _ Hu H2). eauto. }
  exists i. split; [exact Hi|]. split; [congruence|exact Q3].
Qed.

(** Values returned by a compiled component. *)
Lemma compiled_values {V} (isem : instance -> list V -> result (list V))
    calls limit data_names func nodep noeff f plugins k w w' k' key n params key' outs :
  k_registry k = registry_after calls -> unique_names (k_registry k) ->
  consistent (k_registry k) nodep (output_names data_names noeff) ->
  build_component limit data_names func nodep noeff f plugins k w = (w', k', Ok tt) ->
  simulate V isem k' key n params = Ok (key', outs) ->
  exists E : string -> option V,
    E nodep = Some n /\
    (forall d p, Reach (k_registry k) nodep (output_names data_names noeff) d ->
       get d (k_registry k) = Some p ->
       exists i k1 k2 argv vs,
         plugins (p_name p) = Some (i_class i) /\ i_llh i = Some (k_llh k) /\
         map E (p_depends p) = map Some argv /\
         isem i (k1 :: params :: argv) = Ok (k2 :: vs) /\
         map E (p_provides p) = map Some vs) /\
    map E (output_names data_names noeff) = map Some outs.
Proof.
  intros Hreg Hu Hcons H Hrun.
  destruct (compiled_instances _ _ _ _ _ _ _ _ _ _ _ Hu H) as (pr & cl & Hcode & Hsim & Hpr & Hinst).
  destruct (build_component_ok _ _ _ _ _ _ _ _ _ _ _ H) as
    (deps & w1 & k1 & insts & w2 & Hd & _ & Hb). cbn zeta in Hb.
  unfold simulate in Hrun. rewrite Hsim in Hrun. unfold run_closure in Hrun. rewrite Hpr in Hrun.
  assert (Hc1 : k_code k1 = Some pr).
  { destruct (deduce_ok_inv _ _ _ _ _ _ _ _ _ Hd) as (deps' & c1 & needed & D1 & _ & _ & _ & D5 & _).
    destruct (build_component_ok _ _ _ _ _ _ _ _ _ _ _ H) as
      (deps2 & w1' & k1' & insts' & w2' & Hd2 & D2 & Hb2). cbn zeta in Hb2.
    destruct Hb2 as (_ & _ & Hcode2 & _). rewrite D1 in D2. injection D2 as <-.
    rewrite D5, <- Hcode2. exact Hcode. }
  destruct (top_values (call_instance V isem (cl_insts cl)) _ _ _ _ _ _ _ _ _ _ _ _ _ _ _ _
              Hreg Hu Hcons Hd Hc1 Hrun) as (E & H1 & _ & H3 & H4).
  exists E. split; [exact H1|]. split; [|exact H4].
  intros d p Hr Hg. destruct (H3 d p Hr Hg) as (ka & kb & argv & vs & A1 & A2 & A3).
  destruct (Hinst d p Hr Hg) as (i & I1 & I2 & I3).
  unfold call_instance in A2. rewrite I1 in A2. exists i, ka, kb, argv, vs. auto.
Qed.

Lemma compiled_runs {V} (isem : instance -> list V -> result (list V))
    calls limit data_names func nodep noeff f plugins k w w' k' key n params :
  k_registry k = registry_after calls -> unique_names (k_registry k) ->
  nodep <> "key" -> nodep <> "parameters" ->
  published plugins (k_registry k) nodep (output_names data_names noeff) ->
  (forall i args, List.length args = 2 + List.length (p_depends (i_class i)) ->
     exists key' vs, isem i args = Ok (key' :: vs) /\
       List.length vs = List.length (p_provides (i_class i))) ->
  build_component limit data_names func nodep noeff f plugins k w = (w', k', Ok tt) ->
  exists key' outs, simulate V isem k' key n params = Ok (key', outs) /\
    List.length outs = List.length (output_names data_names noeff).
Proof.
  intros Hreg Hu Hk Hpa Hpub Hsem H.
  destruct (compiled_instances _ _ _ _ _ _ _ _ _ _ _ Hu H) as (pr & cl & Hcode & Hsim & Hpr & Hinst).
  destruct (build_component_ok _ _ _ _ _ _ _ _ _ _ _ H) as
    (deps & w1 & k1 & insts & w2 & Hd & Hdd & Hb). cbn zeta in Hb.
  destruct Hb as (_ & _ & Hcode2 & _). rewrite Hcode in Hcode2. injection Hcode2 as ->.
  destruct (deduce_ok_inv _ _ _ _ _ _ _ _ _ Hd) as (deps' & c1 & needed & D1 & _ & _ & _ & D5 & _).
  rewrite Hdd in D1. injection D1 as <-.
  unfold simulate, run_closure. rewrite Hsim, Hpr.
  eapply (top_runs (call_instance V isem (cl_insts cl))); eauto.
  intros outs inst ins args Hi Hl. rewrite gen_body in Hi.
  unfold body_of in Hi. apply in_map_iff in Hi. destruct Hi as (p & Hp & Hin).
  injection Hp as <- <- <-.
  change (String "_" (k_name k)) with ("_" ++ k_name k).
  apply (used_selected _ _ _ _ _ Hu Hdd) in Hin. destruct Hin as (d & Hr & Hg).
  destruct (Hinst d p Hr Hg) as (i & I1 & I2 & _). unfold call_instance. rewrite I1.
  rewrite (Hpub d p Hr Hg) in I2. injection I2 as I2. rewrite I2 in *.
  apply Hsem. exact Hl.
Qed.

(* ------------------------------------------------------------------ *)
(** * Config values of the instances *)

Lemma deduce_cache_grows limit data_names func nodep noeff k w w' k' r :
  deduce limit data_names func nodep noeff k w = (w', k', r) ->
  grows (contents (w_cache w)) (contents (w_cache w')).
Proof.
  assert (Hcp : forall llh cfs needed c, grows (contents c)
            (contents (fst (fst (config_params cfs llh needed c))))).
  { intros llh cfs. induction cfs as [|cf cfs IH]; intros needed c; cbn [config_params];
      [apply grows_refl|].
    pose proof (required_grows cf (Some llh) c) as G.
    destruct (required_parameter cf (Some llh) c) as [c1 [[s|]|e]]; cbn [fst] in G; [| |exact G].
    - eapply grows_trans; [exact G|apply IH].
    - eapply grows_trans; [exact G|apply IH]. }
  assert (Hsl : forall llh ps ws needed c, grows (contents c)
            (contents (fst (fst (simplify_loop ps llh ws needed c))))).
  { intros llh ps. induction ps as [|p ps IH]; intros ws needed c; cbn [simplify_loop];
      [apply grows_refl|].
    pose proof (Hcp llh (map snd (p_configs p)) (union needed (p_params p)) c) as G.
    destruct (config_params _ _ _ c) as [[c1 n1] [u|e]]; cbn [fst] in G; [|exact G].
    eapply grows_trans; [exact G|apply IH]. }
  unfold deduce. intros H.
  destruct (dependencies_deduce _ _ _ _ _) as [deps|e]; [|injection H as <- _ _; apply grows_refl].
  unfold dependencies_simplify in H.
  pose proof (Hsl (k_llh k) (selected deps) [] (if String.eqb (k_rate k) "" then [] else [k_rate k])
                (w_cache w)) as G.
  destruct (simplify_loop _ _ _ _ _) as [[c1 [ws needed]] [u|e]]; cbn [fst] in G.
  - unfold set_code in H. destruct (sv_setitem _ _ _) as [fn'|e]; injection H as <- _ _; exact G.
  - injection H as <- _ _. exact G.
Qed.

(** The value a plain config gets, and what the cache holds afterwards. *)
Lemma plain_build_seen f cf llh c b :
  plain_kind (c_kind cf) -> (forall d, c_default cf <> Some (VDict d)) ->
  snd (config_build f cf (Some llh) c) = Ok b ->
  exists v, b_values b = [v] /\
    explicit_value (contents (fst (config_build f cf (Some llh) c))) (c_name cf) llh v.
Proof.
  intros Hk Hd H. unfold config_build in *.
  assert (Hr : exists v, b_values b = [v] /\
    snd (resolve_cached_config f false cf (Some llh) c) = Ok v /\
    explicit_value (contents (fst (resolve_cached_config f false cf (Some llh) c))) (c_name cf) llh v).
  { assert (Hb : exists v, snd (resolve_cached_config f false cf (Some llh) c) = Ok v /\ b_values b = [v]).
    { destruct Hk as [Hk|Hk]; rewrite Hk in H;
        destruct (resolve_cached_config f false cf (Some llh) c) as [c1 [v|e]]; cbn in H; try discriminate;
        injection H as <-; exists v; auto. }
    destruct Hb as (v & Hv & Hbv). exists v. split; [exact Hbv|]. split; [exact Hv|].
    unfold resolve_cached_config, rd_in, has in *.
    destruct (get (c_name cf) (contents c)) as [v0|] eqn:Hg.
    - unfold rd_getitem in *. rewrite Hg in *. destruct v0; cbn in Hv |- *;
        try (injection Hv as <-; left; split; [exact Hg|intros ? ?; discriminate]).
      right. destruct (get llh d) as [x|] eqn:Hl; [|discriminate]. injection Hv as <-. eauto.
    - unfold get_default in *. destruct (c_default cf) as [v0|] eqn:Hdf; [|discriminate].
      cbn [transform_value] in *. destruct v0; cbn in Hv |- *;
        try (injection Hv as <-; left; split; [apply get_set_eq|intros ? ?; discriminate]).
      destruct (Hd d eq_refl). }
  destruct Hr as (v & H1 & H2 & H3). exists v. split; [exact H1|].
  destruct Hk as [Hk|Hk]; rewrite Hk;
    destruct (resolve_cached_config f false cf (Some llh) c) as [c1 r]; exact H3.
Qed.

Lemma explicit_grows c c' n llh v v' :
  grows c c' -> explicit_value c n llh v -> explicit_value c' n llh v' -> value_eqb v v' = true.
Proof.
  intros G H H'. destruct H as [[Hg Hn]|(d & Hg & Hl)].
  - destruct (G n v Hg) as (x & Hx & E). apply (ext_not_dict v x Hn) in E. subst x.
    destruct H' as [[Hg' _]|(d' & Hg' & _)]; rewrite Hx in Hg'.
    + injection Hg' as ->. apply value_eqb_refl.
    + injection Hg' as ->. destruct (Hn d' eq_refl).
  - destruct (G n _ Hg) as (x & Hx & E). cbn in E. destruct E as (d' & -> & E).
    destruct (E llh v Hl) as (y & Hy & Hvy). destruct H' as [[Hg' Hn']|(d'' & Hg' & Hl')]; rewrite Hx in Hg'.
    + injection Hg' as <-. destruct (Hn' d' eq_refl).
    + injection Hg' as <-. congruence.
Qed.

(** Python equality of the values of two builds in one history, the first before the second. *)
Lemma explicit_value_eqb_grows c c' n llh v :
  grows c c' -> explicit_value c n llh v ->
  exists v', explicit_value c' n llh v' /\ value_eqb v v' = true.
Proof.
  intros G [[Hg Hn]|(d & Hg & Hl)].
  - destruct (G n v Hg) as (x & Hx & E). apply (ext_not_dict v x Hn) in E. subst x.
    exists v. split; [left; auto|apply value_eqb_refl].
  - destruct (G n _ Hg) as (x & Hx & E). cbn in E. destruct E as (d' & -> & E).
    destruct (E llh v Hl) as (y & Hy & Hvy). exists y. split; [right; eauto|exact Hvy].
Qed.

Lemma constructed_default cf : constructed cf -> forall d, c_default cf <> Some (VDict d).
Proof.
  intros (kd & n & dv & H) d Hd. unfold config_init in H.
  destruct dv as [[]|]; try discriminate; injection H as <-; discriminate.
Qed.

(** Every plain config of every instance has, up to Python's equality, the value that the
    configuration holds for it at the end of the compilation. *)
Lemma instance_config_final f plugins llh c0 c9 pn i cf vs :
  made f plugins llh c0 c9 pn i -> plain_kind (c_kind cf) ->
  constructed cf -> config_value i cf vs ->
  exists v v9, vs = [v] /\ explicit_value c9 (c_name cf) llh v9 /\ value_eqb v v9 = true.
Proof.
  intros (p & c1 & c2 & Hp & Hi & Hl & Hb & G1 & G2) Hk Hd (n & Hn & Hv).
  destruct (plugin_init_ok _ _ _ _ _ _ _ Hb) as (_ & Hall & _).
  destruct (build_all_ok _ _ _ _ _ _ Hall) as (_ & _ & Hnth). rewrite Hi in Hn.
  destruct (Hnth n cf Hn) as (c3 & b & B1 & B2 & B3 & B4). rewrite B1 in Hv. cbn in Hv.
  injection Hv as <-.
  destruct (plain_build_seen f cf llh c3 b Hk (constructed_default _ Hd) B3) as (v & V1 & V2).
  destruct (explicit_value_eqb_grows _ _ _ _ _ (grows_trans _ _ _ B4 G2) V2) as (v9 & V3 & V4).
  exists v, v9. auto.
Qed.

Lemma explicit_unique c n llh v v' :
  explicit_value c n llh v -> explicit_value c n llh v' -> v = v'.
Proof.
  intros [[Hg Hn]|(d & Hg & Hl)] [[Hg' Hn']|(d' & Hg' & Hl')]; rewrite Hg in Hg'.
  - injection Hg' as ->. reflexivity.
  - injection Hg' as ->. destruct (Hn d' eq_refl).
  - injection Hg' as <-. destruct (Hn' d eq_refl).
  - injection Hg' as <-. congruence.
Qed.

(** A value set before deduce (and not a table) is the value of every plain config of that name. *)
Lemma instance_config_explicit f plugins llh c0 c9 pn i cf vs v :
  made f plugins llh c0 c9 pn i -> plain_kind (c_kind cf) ->
  constructed cf -> config_value i cf vs ->
  explicit_value c0 (c_name cf) llh v ->
  exists v', vs = [v'] /\ value_eqb v v' = true.
Proof.
  intros Hm Hk Hd Hv He. pose proof Hm as (p & c1 & c2 & Hp & Hi & Hl & Hb & G1 & G2).
  destruct Hv as (n & Hn & Hv).
  destruct (plugin_init_ok _ _ _ _ _ _ _ Hb) as (_ & Hall & _).
  destruct (build_all_ok _ _ _ _ _ _ Hall) as (_ & _ & Hnth). rewrite Hi in Hn.
  destruct (Hnth n cf Hn) as (c3 & b & B1 & B2 & B3 & B4). rewrite B1 in Hv. cbn in Hv.
  injection Hv as <-.
  destruct (plain_build_seen f cf llh c3 b Hk (constructed_default _ Hd) B3) as (x & V1 & V2).
  exists x. split; [exact V1|].
  eapply explicit_grows; [|exact He|exact V2].
  eapply grows_trans; [exact G1|]. eapply grows_trans; [exact B2|]. apply build_grows.
Qed.

Lemma compiled_made limit data_names func nodep noeff f plugins k w w' k' cl :
  build_component limit data_names func nodep noeff f plugins k w = (w', k', Ok tt) ->
  k_simulate k' = Some cl ->
  forall n i, get n (cl_insts cl) = Some i ->
    exists pn, made f plugins (k_llh k) (contents (w_cache w)) (contents (w_cache w')) pn i.
Proof.
  intros H Hcl n i Hi. destruct (build_component_ok _ _ _ _ _ _ _ _ _ _ _ H) as
    (deps & w1 & k1 & insts & w2 & H1 & H2 & H3 & H4 & H5 & H6 & H7 & _).
  rewrite Hcl in H4. injection H4 as ->. cbn [cl_insts] in Hi. rewrite gen_insts in H3.
  destruct (inst_names_NoDup (k_name k) (selected deps)) as [N1 N2].
  { apply first_by_name_NoDup. }
  destruct (instantiate_ok _ _ _ _ _ _ _ _ H3 N1) as (_ & _ & Hin & Hk & _).
  assert (Hkey : In n (keys insts)) by (apply get_In_keys; eauto).
  apply Hk in Hkey. destruct Hkey as [[]|Hkey]. apply in_map_iff in Hkey.
  destruct Hkey as ([n' pn] & Hn' & Hp). cbn in Hn'. subst n'.
  destruct (Hin n pn Hp) as (j & Hj & p & c1 & c2 & Q1 & Q2 & Q3 & Q4 & Q5 & Q6).
  rewrite Hi in Hj. injection Hj as <-. exists pn. exists p, c1, c2. rewrite H6.
  repeat split; auto. eapply grows_trans; [|exact Q5]. exact (deduce_cache_grows _ _ _ _ _ _ _ _ _ _ H1).
Qed.

(* ------------------------------------------------------------------ *)
(** * Recompiling *)

Lemma deduce_keeps_simulate limit dn func nodep noeff k w :
  k_simulate (snd (fst (deduce limit dn func nodep noeff k w))) = k_simulate k.
Proof.
  unfold deduce. destruct (dependencies_deduce _ _ _ _ _) as [deps|e]; [|reflexivity].
  destruct (dependencies_simplify _ _ _ _) as [[c1 [ws needed]] [u|e]]; [|reflexivity].
  unfold set_code. destruct (sv_setitem _ _ _); reflexivity.
Qed.

Lemma build_has limit data_names func nodep noeff f plugins k w w' k' :
  build_component limit data_names func nodep noeff f plugins k w = (w', k', Ok tt) ->
  has (k_llh k) (w_fn w') = true.
Proof.
  intros H. destruct (build_component_ok _ _ _ _ _ _ _ _ _ _ _ H) as
    (deps & w1 & k1 & insts & w2 & H1 & H2 & H3 & H4 & H5 & H6 & H7 & H8 & H9 & H10 & H11 & H12 & _).
  unfold has. rewrite H12. reflexivity.
Qed.

(** compile() alone, when the component's namespace is still the registered one. *)
Lemma recompile_ok f plugins k w w' k' pr a :
  compile f plugins k w = (w', k', Ok tt) ->
  k_compile k = Some (pr, a) -> get (k_llh k) (w_fn w) = Some a -> a < List.length (w_heap w) ->
  k_func k = pr_func pr -> pr_llh pr = k_llh k -> NoDup (map fst (pr_insts pr)) ->
  exists insts, k_simulate k' = Some (mk_closure pr insts) /\ k_needed k' = k_needed k /\
    (forall n i, get n insts = Some i -> exists pn, In (n, pn) (pr_insts pr) /\
       made f plugins (k_llh k) (contents (w_cache w)) (contents (w_cache w')) pn i) /\
    (forall n, In n (keys insts) <-> In n (map fst (pr_insts pr))).
Proof.
  intros H Hc Hg Ha Hf Hl Hnd. destruct (compile_ok _ _ _ _ _ _ H) as
    (pr' & a1 & w2 & insts & cl & a' & E1 & E2 & E3 & E4 & E5 & E6 & E7 & E8 & E9 & E10 & E11 & E12 & E13 & E14).
  rewrite Hc in E1. injection E1 as <- <-.
  pose proof (instantiate_fn f plugins (pr_llh pr) (pr_insts pr) [] w) as [F1 F2].
  rewrite E3 in F1, F2. cbn [fst] in F1, F2. rewrite F1, Hg in E5. injection E5 as <-.
  exists insts. rewrite E4 in E6. cbn [w_heap] in E6.
  rewrite nth_set_nth in E6 by (rewrite F2; exact Ha).
  rewrite Hf, get_set_eq in E6. injection E6 as <-.
  split; [exact E7|]. split; [exact E13|].
  destruct (instantiate_ok _ _ _ _ _ _ _ _ E3 Hnd) as (_ & _ & Hin & Hk & _).
  assert (Hk' : forall n, In n (keys insts) <-> In n (map fst (pr_insts pr))).
  { intros n. rewrite Hk. cbn. tauto. }
  split; [|exact Hk'].
  intros n i Hi. assert (Hn : In n (keys insts)) by (apply get_In_keys; eauto).
  apply Hk' in Hn. apply in_map_iff in Hn. destruct Hn as ([n' pn] & Hn' & Hp). cbn in Hn'. subst n'.
  destruct (Hin n pn Hp) as (j & Hj & Hm). rewrite Hi in Hj. injection Hj as <-.
  exists pn. split; [exact Hp|]. rewrite Hl in Hm. rewrite E4. exact Hm.
Qed.

Lemma build_compile_state limit data_names func nodep noeff f plugins k w w' k' :
  build_component limit data_names func nodep noeff f plugins k w = (w', k', Ok tt) ->
  exists pr cl, k_compile k' = Some (pr, List.length (w_heap w)) /\ k_simulate k' = Some cl /\
    cl_prog cl = pr /\ k_func k' = pr_func pr /\ pr_llh pr = k_llh k /\ k_llh k' = k_llh k /\
    get (k_llh k') (w_fn w') = Some (List.length (w_heap w)) /\
    List.length (w_heap w) < List.length (w_heap w') /\ NoDup (map fst (pr_insts pr)).
Proof.
  intros H. destruct (build_component_ok _ _ _ _ _ _ _ _ _ _ _ H) as
    (deps & w1 & k1 & insts & w2 & H1 & H2 & H3 & H4 & H5 & H6 & H7 & H8 & H9 & H10 & H11 & H12 & H13 & H14).
  unfold build_component in H. rewrite H1 in H.
  destruct (deduce_ok_inv _ _ _ _ _ _ _ _ _ H1) as
    (deps' & c1 & needed & D1 & D2 & D3 & D4 & D5 & D6 & D7 & D8 & D9 & D10 & D11 & D12 & D13 & D14
     & D15 & D16 & D17 & D18).
  rewrite H2 in D1. injection D1 as <-.
  destruct (compile_ok _ _ _ _ _ _ H) as
    (pr' & a1 & w3 & insts' & cl & a' & E1 & E2 & E3 & E4 & E5 & E6 & E7 & E8 & E9 & E10 & E11 & E12 & E13 & E14).
  eexists. eexists. split; [rewrite E14, D13; reflexivity|]. split; [exact H4|].
  split; [reflexivity|]. split; [exact H10|]. split; [reflexivity|]. split; [exact H11|].
  split; [rewrite H11; exact H12|]. split.
  - pose proof (compile_fn f plugins k1 w1) as [_ G]. rewrite H in G. cbn [fst] in G.
    rewrite G, D16, app_length. simpl. lia.
  - rewrite gen_insts. apply inst_names_NoDup, first_by_name_NoDup.
Qed.

Lemma with_cache_eq w c : w_fn (with_cache w c) = w_fn w /\ w_heap (with_cache w c) = w_heap w /\
  w_class (with_cache w c) = w_class w /\ w_cache (with_cache w c) = c.
Proof. repeat split. Qed.

Lemma set_config_eq f configs w :
  set_config f configs w = (with_cache w (fst (set_global_config f configs (w_cache w))),
                            snd (set_global_config f configs (w_cache w))).
Proof. unfold set_config. destruct (set_global_config f configs (w_cache w)). reflexivity. Qed.

(* ------------------------------------------------------------------ *)
(** * Lineage *)

Lemma lineage_after_build limit data_names func nodep noeff f plugins k w w' k' cl :
  well_named plugins ->
  build_component limit data_names func nodep noeff f plugins k w = (w', k', Ok tt) ->
  k_simulate k' = Some cl ->
  component_lineage k' w' = Ok (own_values cl).
Proof.
  intros Hw H Hcl. destruct (build_component_ok _ _ _ _ _ _ _ _ _ _ _ H) as
    (deps & w1 & k1 & insts & w2 & H1 & H2 & H3 & H4 & H5 & H6 & H7 & H8 & H9 & H10 & H11 & H12 & H13 & H14).
  rewrite Hcl in H4. injection H4 as ->. rewrite gen_insts in H3.
  destruct (inst_names_NoDup (k_name k) (selected deps)) as [N1 N2].
  { apply first_by_name_NoDup. }
  destruct (instantiate_ok _ _ _ _ _ _ _ _ H3 N1) as (_ & _ & Hin & Hk & Hnd).
  destruct (instantiate_class _ _ _ _ _ _ _ _ H3 N1 N2) as (_ & Hc).
  unfold component_lineage. rewrite H11, H12, H10, H13. f_equal. unfold own_values.
  cbn [cl_insts]. apply map_ext_in. intros [n i] Hni. cbn [fst snd]. f_equal.
  unfold instance_lineage.
  assert (Hgi : get n insts = Some i) by (apply In_get; [apply Hnd; constructor|exact Hni]).
  assert (Hn : In n (keys insts)) by (apply get_In_keys; eauto).
  apply Hk in Hn. destruct Hn as [[]|Hn]. apply in_map_iff in Hn.
  destruct Hn as ([n' pn] & Hn' & Hp). cbn in Hn'. subst n'.
  destruct (Hin n pn Hp) as (j & Hj & p & c1 & c2 & Q1 & Q2 & _). rewrite Hgi in Hj. injection Hj as <-.
  destruct (Hc n pn Hp) as (j & Hj & Hcl2). rewrite Hgi in Hj. injection Hj as <-.
  rewrite Q2, (Hw _ _ Q1), H7, Hcl2. reflexivity.
Qed.

(* ------------------------------------------------------------------ *)
(** * show_config *)

Lemma show_rows_in llh prov c : forall cfs rows,
  show_rows llh prov cfs c = Ok rows ->
  Forall2 (fun cf r => r_option r = c_name cf /\ r_default r = c_default cf /\ r_applies r = prov /\
     shown (contents c) llh cf (r_current r)) cfs rows.
Proof.
  induction cfs as [|cf cfs IH]; cbn [show_rows]; intros rows H.
  - injection H as <-. constructor.
  - destruct (match get (c_name cf) (contents c) with
              | Some (VDict d) => match get llh d with Some v => Ok (Some v) | None => Err KeyError end
              | o => Ok o end) as [cur|e] eqn:Hc; [|discriminate].
    destruct (show_rows llh prov cfs c) as [rows'|e]; [|discriminate].
    injection H as <-. constructor; [|apply IH; reflexivity].
    cbn. split; [reflexivity|]. split; [reflexivity|]. split; [reflexivity|].
    destruct (get (c_name cf) (contents c)) as [v|] eqn:Hg.
    + destruct v as [| | | | |d]; try (injection Hc as <-; apply shown_value; [exact Hg|discriminate]).
      destruct (get llh d) as [v|] eqn:Hl; [|discriminate]. injection Hc as <-. eapply shown_entry; eauto.
    + injection Hc as <-. apply shown_unset. exact Hg.
Qed.

Lemma show_rows_err llh prov c : forall cfs,
  (exists rows, show_rows llh prov cfs c = Ok rows) /\
    (forall cf, In cf cfs -> ~ table_lacks (contents c) llh cf) \/
  show_rows llh prov cfs c = Err KeyError /\
    (exists cf, In cf cfs /\ table_lacks (contents c) llh cf).
Proof.
  induction cfs as [|cf cfs IH]; cbn [show_rows].
  - left. split; [eauto|intros ? []].
  - destruct (match get (c_name cf) (contents c) with
              | Some (VDict d) => match get llh d with Some v => Ok (Some v) | None => Err KeyError end
              | o => Ok o end) as [cur|e] eqn:Hc.
    + assert (Hcf : ~ table_lacks (contents c) llh cf).
      { intros (d & Hd & Hl). rewrite Hd, Hl in Hc. discriminate. }
      destruct IH as [[[rows ->] Hno]|[-> (cf' & Hi & Ht)]].
      * left. split; [eauto|]. intros x [<-|Hx]; auto.
      * right. split; [reflexivity|]. exists cf'. split; [right; exact Hi|exact Ht].
    + right. destruct (get (c_name cf) (contents c)) as [v|] eqn:Hg; [|discriminate].
      destruct v as [| | | | |d]; try discriminate. destruct (get llh d) eqn:Hl; [discriminate|].
      injection Hc as <-. split; [reflexivity|]. exists cf. split; [left; reflexivity|]. exists d. auto.
Qed.

Lemma show_plugins_in llh c : forall ps rows,
  show_plugins llh ps c = Ok rows ->
  forall r, In r rows <-> exists p rs, In p ps /\
    show_rows llh (p_provides p) (map snd (p_configs p)) c = Ok rs /\ In r rs.
Proof.
  induction ps as [|p ps IH]; cbn [show_plugins]; intros rows H r.
  - injection H as <-. split; [intros []|intros (p & rs & [] & _)].
  - destruct (show_rows llh (p_provides p) (map snd (p_configs p)) c) as [rs|e] eqn:Hr; [|discriminate].
    destruct (show_plugins llh ps c) as [rows'|e]; [|discriminate]. injection H as <-.
    rewrite in_app_iff, (IH _ eq_refl). split.
    + intros [Hi|(q & qs & Hq & Hqs & Hi)]; [exists p, rs|exists q, qs]; cbn [In]; auto.
    + intros (q & qs & [<-|Hq] & Hqs & Hi).
      * left. rewrite Hr in Hqs. injection Hqs as <-. exact Hi.
      * right. eauto.
Qed.

Lemma show_plugins_err llh c : forall ps,
  (exists rows, show_plugins llh ps c = Ok rows) /\
    (forall p cf, In p ps -> In cf (map snd (p_configs p)) -> ~ table_lacks (contents c) llh cf) \/
  show_plugins llh ps c = Err KeyError /\
    (exists p cf, In p ps /\ In cf (map snd (p_configs p)) /\ table_lacks (contents c) llh cf).
Proof.
  induction ps as [|p ps IH]; cbn [show_plugins].
  - left. split; [eauto|intros ? ? []].
  - destruct (show_rows_err llh (p_provides p) c (map snd (p_configs p))) as [[[rs ->] Hno]|[-> (cf & Hi & Ht)]].
    + destruct IH as [[[rows ->] Hno']|[-> (q & cf & Hq & Hi & Ht)]].
      * left. split; [eauto|]. intros q cf [<-|Hq] Hi; [exact (Hno cf Hi)|exact (Hno' q cf Hq Hi)].
      * right. split; [reflexivity|]. exists q, cf. cbn [In]. auto.
    + right. split; [reflexivity|]. exists p, cf. cbn [In]. auto.
Qed.

Lemma shown_plugins reg nodep limit names deps :
  unique_names reg -> dependencies_deduce reg nodep limit names [] = Ok deps ->
  forall p, In p (first_by_name [] deps) <->
    exists d, Reach reg nodep names d /\ get d reg = Some p.
Proof.
  intros Hu Hd p. rewrite <- (used_selected _ _ _ _ _ Hu Hd).
  destruct (dependencies_deduce_ok _ _ _ _ _ _ Hd) as (l & Hl & Hc & Ht & Hf).
  cbn in Hl. subst l. rewrite (selected_in _ nodep Hu _ _ p Hf). split; [apply first_by_name_incl|].
  intros H. destruct (first_by_name_complete [] deps p H) as [[]|(q & Hq & Hn)].
  pose proof (first_by_name_incl _ _ _ Hq) as Hq'.
  destruct (Hf _ Hq') as (d & _ & Hgd). destruct (Hf _ H) as (d' & _ & Hgd').
  rewrite <- (Hu _ _ _ _ Hgd Hgd' Hn). exact Hq.
Qed.

Lemma Forall2_in_l {A B} (R : A -> B -> Prop) l l' : Forall2 R l l' ->
  forall x, In x l -> exists y, In y l' /\ R x y.
Proof.
  induction 1 as [|a b l l' Hr _ IH]; intros x Hx; [destruct Hx|].
  destruct Hx as [<-|Hx]; [exists b; cbn; auto|]. destruct (IH x Hx) as (y & Hy & H'). exists y. cbn. auto.
Qed.
Lemma Forall2_in_r {A B} (R : A -> B -> Prop) l l' : Forall2 R l l' ->
  forall y, In y l' -> exists x, In x l /\ R x y.
Proof.
  induction 1 as [|a b l l' Hr _ IH]; intros x Hx; [destruct Hx|].
  destruct Hx as [<-|Hx]; [exists a; cbn; auto|]. destruct (IH x Hx) as (y & Hy & H'). exists y. cbn. auto.
Qed.

Lemma shown_fun c llh cf a b : shown c llh cf a -> shown c llh cf b -> a = b.
Proof.
  intros Ha Hb. inversion Ha; inversion Hb; try congruence; subst;
    match goal with H1 : get ?n c = Some ?x, H2 : get ?n c = Some ?y |- _ =>
      rewrite H1 in H2; injection H2 as -> end;
    try congruence;
    match goal with H : not_dict (VDict ?d) |- _ => destruct (H d eq_refl) end.
Qed.

Lemma show_config_exact limit data_names k w rows :
  unique_names (k_registry k) -> show_config limit data_names k w = Ok rows ->
  forall r, In r rows <-> exists d p cf,
    Reach (k_registry k) "batch_size" data_names d /\ get d (k_registry k) = Some p /\
    In cf (map snd (p_configs p)) /\ r_option r = c_name cf /\ r_default r = c_default cf /\
    r_applies r = p_provides p /\ shown (contents (w_cache w)) (k_llh k) cf (r_current r).
Proof.
  intros Hu H r. unfold show_config in H.
  destruct (dependencies_deduce _ _ _ _ _) as [deps|e] eqn:Hd; [|discriminate].
  pose proof (shown_plugins _ _ _ _ _ Hu Hd) as Hp.
  rewrite (show_plugins_in _ _ _ _ H). split.
  - intros (p & rs & Hi & Hr & Hin). apply Hp in Hi. destruct Hi as (d & Hre & Hg).
    destruct (Forall2_in_r _ _ _ (show_rows_in _ _ _ _ _ Hr) r Hin) as (cf & Hcf & H1 & H2 & H3 & H4).
    exists d, p, cf. auto 10.
  - intros (d & p & cf & Hre & Hg & Hcf & H1 & H2 & H3 & H4).
    assert (Hi : In p (first_by_name [] deps)) by (apply Hp; eauto).
    destruct (show_rows_err (k_llh k) (p_provides p) (w_cache w) (map snd (p_configs p)))
      as [[[rs Hr] _]|[Herr (cf' & Hcf' & Ht)]].
    + exists p, rs. split; [exact Hi|]. split; [exact Hr|].
      destruct (Forall2_in_l _ _ _ (show_rows_in _ _ _ _ _ Hr) cf Hcf) as (r' & Hin & G1 & G2 & G3 & G4).
      replace r with r'; [exact Hin|]. destruct r as [o df cu ap], r' as [o' df' cu' ap']. cbn in *.
      rewrite (shown_fun _ _ _ _ _ G4 H4). congruence.
    + exfalso. destruct (show_plugins_err (k_llh k) (w_cache w) (first_by_name [] deps))
        as [[_ Hno]|[He _]]; [exact (Hno p cf' Hi Hcf' Ht)|congruence].
Qed.

Lemma show_config_error limit data_names k w deps :
  unique_names (k_registry k) ->
  dependencies_deduce (k_registry k) "batch_size" limit data_names [] = Ok deps ->
  (show_config limit data_names k w = Err KeyError <->
   exists d p cf, Reach (k_registry k) "batch_size" data_names d /\ get d (k_registry k) = Some p /\
     In cf (map snd (p_configs p)) /\ table_lacks (contents (w_cache w)) (k_llh k) cf).
Proof.
  intros Hu Hd. pose proof (shown_plugins _ _ _ _ _ Hu Hd) as Hp. unfold show_config. rewrite Hd.
  destruct (show_plugins_err (k_llh k) (w_cache w) (first_by_name [] deps))
    as [[[rows ->] Hno]|[-> (p & cf & Hi & Hcf & Ht)]].
  - split; [discriminate|]. intros (d & p & cf & H1 & H2 & H3 & H4). exfalso.
    refine (Hno p cf _ H3 H4). apply Hp. eauto.
  - split; [|reflexivity]. intros _. apply Hp in Hi. destruct Hi as (d & H1 & H2). eauto 10.
Qed.

(* ------------------------------------------------------------------ *)
(** * Remaining lemmas *)

Lemma imports_none plugins names n :
  In n names -> plugins n = None -> imports_ok plugins names = false.
Proof.
  intros Hi Hn. unfold imports_ok. apply not_true_is_false. intros H.
  rewrite forallb_forall in H. specialize (H n Hi). rewrite Hn in H. discriminate.
Qed.

Lemma unpublished_import_error limit data_names func nodep noeff f plugins k w w1 k1 d p :
  unique_names (k_registry k) ->
  deduce limit data_names func nodep noeff k w = (w1, k1, Ok tt) ->
  Reach (k_registry k) nodep (output_names data_names noeff) d ->
  get d (k_registry k) = Some p -> plugins (p_name p) = None ->
  compile f plugins k1 w1 = (w1, k1, Err ImportError).
Proof.
  intros Hu Hd Hr Hg Hp. destruct (deduce_ok_inv _ _ _ _ _ _ _ _ _ Hd) as
    (deps & c1 & needed & D1 & D2 & D3 & D4 & D5 & D6 & D7 & D8 & D9 & D10 & D11 & D12 & D13 & D14
     & D15 & D16 & D17 & D18).
  unfold compile. rewrite D13. rewrite (imports_none plugins _ (p_name p)); [reflexivity| |exact Hp].
  unfold gen_code. cbn [pr_imports]. rewrite map_map. cbn [w_plugin work_of].
  apply in_map_iff. exists p. split; [reflexivity|].
  apply (used_selected _ _ _ _ _ Hu D1). eauto.
Qed.

Lemma deduce_again limit data_names func nodep noeff f plugins k w w' k' g configs os
    limit2 data_names2 func2 nodep2 noeff2 :
  build_component limit data_names func nodep noeff f plugins k w = (w', k', Ok tt) ->
  ~ In OClear os ->
  let w2 := fst (set_config g configs (wrun os w')) in
  let r := deduce limit2 data_names2 func2 nodep2 noeff2 k' w2 in
  snd r <> Ok tt /\ k_simulate (snd (fst r)) = k_simulate k'.
Proof.
  intros H Ho w2 r. split; [|apply deduce_keeps_simulate].
  apply deduce_taken. unfold w2. rewrite set_config_eq. cbn [fst].
  destruct (build_compile_state _ _ _ _ _ _ _ _ _ _ _ H) as
    (pr & cl & _ & _ & _ & _ & _ & -> & _).
  change (has (k_llh k) (w_fn (wrun os w')) = true).
  apply wrun_fn_keeps; [exact Ho|]. exact (build_has _ _ _ _ _ _ _ _ _ _ _ H).
Qed.

Lemma set_config_explicit f configs w w2 n llh v :
  NoDup (keys configs) -> set_config f configs w = (w2, Ok tt) ->
  get n configs = Some v -> is_plain v = true ->
  explicit_value (contents (w_cache w2)) n llh v.
Proof.
  intros Hnd Hs Hg Hp. rewrite set_config_eq in Hs.
  destruct (set_global_config f configs (w_cache w)) as [c2 r] eqn:E. cbn [fst snd] in Hs.
  injection Hs as <- ->. left. split.
  - exact (set_global_plain f configs _ c2 tt n v Hnd E Hg Hp).
  - intros d ->. discriminate.
Qed.

Lemma compile_alone limit data_names func nodep noeff f plugins k w w' k' g configs w2 f2 plugins2 w3 k3 :
  build_component limit data_names func nodep noeff f plugins k w = (w', k', Ok tt) ->
  NoDup (keys configs) -> set_config g configs w' = (w2, Ok tt) ->
  compile f2 plugins2 k' w2 = (w3, k3, Ok tt) ->
  exists cl cl3, k_simulate k' = Some cl /\ k_simulate k3 = Some cl3 /\ cl_prog cl3 = cl_prog cl /\
    k_needed k3 = k_needed k' /\
    (forall n, In n (keys (cl_insts cl3)) <-> In n (map fst (pr_insts (cl_prog cl)))) /\
    forall n i cf vs v, get n (cl_insts cl3) = Some i -> plain_kind (c_kind cf) ->
      constructed cf -> config_value i cf vs ->
      get (c_name cf) configs = Some v -> is_plain v = true ->
      exists v', vs = [v'] /\ value_eqb v v' = true.
Proof.
  intros Hb Hnd Hs Hc. destruct (build_compile_state _ _ _ _ _ _ _ _ _ _ _ Hb) as
    (pr & cl & B1 & B2 & B3 & B4 & B5 & B6 & B7 & B8 & B9).
  assert (Hw : w_fn w2 = w_fn w' /\ w_heap w2 = w_heap w').
  { rewrite set_config_eq in Hs. injection Hs as <- _. split; reflexivity. }
  destruct Hw as [Hw1 Hw2].
  destruct (recompile_ok f2 plugins2 k' w2 w3 k3 pr (List.length (w_heap w)) Hc B1) as
    (insts & R1 & R2 & R3 & R4); try congruence.
  exists cl, (mk_closure pr insts). split; [exact B2|]. split; [exact R1|].
  split; [symmetry; exact B3|]. split; [exact R2|]. rewrite B3. split; [exact R4|].
  cbn [cl_insts]. intros n i cf vs v Hi Hk Hd Hv Hg Hp.
  destruct (R3 n i Hi) as (pn & _ & Hm).
  refine (instance_config_explicit _ _ _ _ _ _ _ _ _ v Hm Hk Hd Hv _).
  exact (set_config_explicit _ _ _ _ _ _ _ Hnd Hs Hg Hp).
Qed.

Lemma compile_after_clear f plugins k w w' k' :
  compile f plugins k (clear_cache w) = (w', k', Ok tt) -> False.
Proof.
  intros H. destruct (compile_ok _ _ _ _ _ _ H) as
    (pr' & a1 & w2 & insts & cl & a' & E1 & E2 & E3 & E4 & E5 & _).
  pose proof (instantiate_fn f plugins (pr_llh pr') (pr_insts pr') [] (clear_cache w)) as [F1 _].
  rewrite E3 in F1. cbn [fst] in F1. rewrite F1 in E5. discriminate.
Qed.
