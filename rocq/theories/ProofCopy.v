(** Lemmas on copies of components. *)
From Verif Require Import Base BaseFacts ModelShare ModelConfig ModelComponent ModelCompile SpecComponent SpecConfig
  SpecCompile ProofConfig2 ProofComponent ProofCompile ProofWorkflow ModelLineage SpecLineage ProofRecompile ModelCopy SpecCopy
  ModelFloat ModelLikelihood.
Local Open Scope string_scope.

Definition valued (L : string) (C : dict value) (cf : config) (b : built) : Prop :=
  c_kind (b_config b) = c_kind cf /\ c_name (b_config b) = c_name cf /\
  match c_kind cf with
  | KSigmaMap =>
      c_llh (b_config b) = Some L /\
      exists cfgs, seen_by (c_name cf) L C = Some cfgs /\
        Forall2 (fun sg v => seen_by (c_name cf ++ "_" ++ sg) L C = Some v) sigma_names (b_values b) /\
        forall j sg, nth_error sigma_names j = Some sg -> exists u, resolve_sigma_value cfgs j = Ok u /\
          entry_ok L (c_name cf ++ "_" ++ sg) u C
  | _ => exists v, b_values b = [v] /\ seen_by (c_name cf) L C = Some v
  end.

Lemma valued_xg L C C' cf b : xg L C C' -> valued L C cf b -> valued L C' cf b.
Proof.
  intros G (K1 & K2 & H). split; [exact K1|]. split; [exact K2|]. destruct (c_kind cf).
  1,2,4: destruct H as (v & H1 & H2); exists v; split; [exact H1|exact (xg_seen _ _ _ _ _ G H2)].
  destruct H as (H0 & cfgs & H1 & H2 & H3). split; [exact H0|]. exists cfgs. split; [exact (xg_seen _ _ _ _ _ G H1)|]. split.
  - clear - G H2. induction H2; constructor; auto. exact (xg_seen _ _ _ _ _ G H).
  - intros j sg Hj. destruct (H3 j sg Hj) as (u & U1 & U2). exists u. split; [exact U1|exact (entry_xg _ _ _ _ _ G U2)].
Qed.

Lemma config_valued L f cf c c1 b : config_build f cf (Some L) c = (c1, Ok b) -> valued L (contents c1) cf b.
Proof.
  intros H. unfold valued. unfold config_build in H. destruct (c_kind cf) eqn:Ek.
  1,4: destruct (resolve_cached_config f false cf (Some L) c) as [c0 [v|e]] eqn:E; [|discriminate];
    injection H as <- <-; cbn [b_config b_values]; split; [exact Ek|]; split; [reflexivity|]; exists v; split; [reflexivity|];
    exact (resolve_first _ _ _ _ _ _ _ E).
  - destruct (map_build f cf (Some L) c) as [c0 [v|e]] eqn:E; [|discriminate].
    injection H as <- <-. cbn [b_config b_values]. split; [exact Ek|]. split; [reflexivity|]. exists v. split; [reflexivity|].
    exact (proj1 (map_first _ _ _ _ _ _ E)).
  - destruct (sigma_build f cf (Some L) c) as [c0 [[cf' vs]|e]] eqn:E; [|discriminate].
    injection H as <- <-. cbn [b_config b_values].
    revert E. unfold sigma_build. set (cf0 := mk_config (c_kind cf) (c_name cf) (c_default cf) (Some L)).
    destruct (get_configs cf0 None c) as [a1 [cfgs|e]] eqn:E1; [|discriminate].
    destruct (get_default cf0) as [dflt|e] eqn:Ed; [|discriminate].
    destruct (too_long cfgs || too_long dflt) eqn:Et; [discriminate|].
    destruct (sigma_loop (Some L) (c_name cf) cfgs dflt 0 sigma_names a1) as [c2 [ms|e]] eqn:El; [|discriminate].
    pose proof (maps_xg L f ms (Some L) c2) as G3.
    destruct (resolve_maps f ms (Some L) c2) as [c4 [vs'|e]] eqn:Er; [|discriminate].
    intros H. injection H as <- <- <-. cbn [fst] in G3. cbn [cf0 c_kind c_name c_llh].
    destruct (loop_first _ _ _ _ _ sigma_names_NoDup _ _ _ _ El) as (L1 & L2 & L3 & _).
    destruct (maps_first _ _ _ _ _ _ Er) as (M1 & _).
    split; [exact Ek|]. split; [reflexivity|]. split; [reflexivity|]. exists cfgs. split; [|split].
    + eapply xg_seen; [exact G3|]. unfold seen_by. rewrite L2.
      * exact (configs_first L cf0 c a1 cfgs eq_refl E1).
      * intros sg _ X. assert (N : forall s t, s <> s ++ String t sg).
        { clear. induction s as [|x s IH]; intros t E; [discriminate|]. injection E as E. exact (IH _ E). }
        exact (N _ _ X).
    + revert M1. assert (Hm : Forall2 (fun m sg => c_name m = c_name cf ++ "_" ++ sg) ms sigma_names).
      { clear - L1. revert L1. generalize sigma_names. induction ms as [|m ms IH]; intros [|sg sgs] E; try discriminate; constructor.
        - injection E as E _. exact E.
        - apply IH. injection E as _ E. exact E. }
      clear - Hm. revert vs'. induction Hm as [|m sg ms sgs Hm _ IH]; intros vs M; inversion M as [|? v ? vs2 [S _] M2]; subst; constructor.
      * rewrite <- Hm. exact S.
      * apply IH, M2.
    + intros j sg Hj. destruct (L3 j sg Hj) as (u & U1 & U2). exists u. split; [exact U1|exact (entry_xg _ _ _ _ _ G3 U2)].
Qed.

Lemma build_all_valued L f cfs : forall c c1 bs, build_all f cfs (Some L) c = (c1, bs, Ok tt) ->
  Forall2 (valued L (contents c1)) cfs bs.
Proof.
  induction cfs as [|cf cfs IH]; intros c c1 bs; cbn [build_all].
  - intros H. injection H as <- <-. constructor.
  - destruct (config_build f cf (Some L) c) as [c0 [b|e]] eqn:E; [|discriminate].
    destruct (build_all f cfs (Some L) c0) as [[c2 bs2] r] eqn:E2. intros H. injection H as <- <- ->.
    destruct (build_all_twice _ _ _ _ _ _ E2) as [G _]. constructor; [|exact (IH _ _ _ E2)].
    eapply valued_xg; [exact G|]. exact (config_valued _ _ _ _ _ _ E).
Qed.

(** An instance of [pn] for [L], with the values that [L] sees in [C]. *)
Definition inst_valued (plugins : string -> option plugin) (L : string) (C : dict value) (pn : string) (i : instance) : Prop :=
  exists p, plugins pn = Some p /\ i_class i = p /\ i_llh i = Some L /\
    Forall2 (valued L C) (map snd (p_configs p)) (i_built i).

Lemma valued_all_xg L C C' cfs bs : xg L C C' -> Forall2 (valued L C) cfs bs -> Forall2 (valued L C') cfs bs.
Proof. intros G H. induction H; constructor; auto. eapply valued_xg; eauto. Qed.

Lemma instantiate_valued L f plugins insts : forall acc w w1 res,
  instantiate f plugins L insts acc w = (w1, Ok res) -> NoDup (map fst insts) ->
  (forall n, ~ In n (map fst insts) -> get n res = get n acc) /\
  forall n pn, In (n, pn) insts -> exists i, get n res = Some i /\
    inst_valued plugins L (contents (w_cache w1)) pn i.
Proof.
  induction insts as [|[n pn] insts IH]; intros acc w w1 res; cbn [instantiate].
  - intros H _. injection H as <- <-. split; [reflexivity|]. intros n pn [].
  - destruct (plugins pn) as [p|] eqn:Ep; [|discriminate].
    destruct (plugin_init f p (Some L) (w_cache w)) as [[c1 bs] [i|e]] eqn:E; [|discriminate].
    intros H ND. cbn [map fst] in ND. inversion ND as [|? ? N1 N2]; subst.
    destruct (IH _ _ _ _ H N2) as [I1 I2]. split.
    + intros m Hm. cbn in Hm. rewrite I1 by tauto. apply get_set_neq. intros X. apply Hm. left. congruence.
    + intros m qn [Hm|Hm]; [|exact (I2 _ _ Hm)]. injection Hm as <- <-.
      exists i. split; [rewrite I1 by exact N1; apply get_set_eq|].
      destruct (plugin_init_ok _ _ _ _ _ _ _ E) as (-> & Hb & _). exists p. split; [exact Ep|].
      split; [reflexivity|]. split; [reflexivity|]. cbn [i_built].
      destruct (instantiate_twice _ _ _ _ _ _ _ _ H) as [G _]. cbn [w_cache] in G.
      eapply valued_all_xg; [exact G|]. exact (build_all_valued _ _ _ _ _ _ Hb).
Qed.

(* ------------------------------------------------------------------ *)
(** * Deducing keeps what a likelihood sees *)

Lemma required_xg L cf llh c : xg L (contents c) (contents (fst (required_parameter cf llh c))).
Proof.
  unfold required_parameter. destruct (c_kind cf); try apply xg_refl.
  pose proof (get_configs_xg L cf llh c) as G. destruct (get_configs cf llh c) as [c1 r]. exact G.
Qed.

Lemma deduce_xg L limit data_names func nodep noeff k w w' k' r :
  deduce limit data_names func nodep noeff k w = (w', k', r) -> xg L (contents (w_cache w)) (contents (w_cache w')).
Proof.
  assert (Hcp : forall llh cfs needed c, xg L (contents c) (contents (fst (fst (config_params cfs llh needed c))))).
  { intros llh cfs. induction cfs as [|cf cfs IH]; intros needed c; cbn [config_params]; [apply xg_refl|].
    pose proof (required_xg L cf (Some llh) c) as G.
    destruct (required_parameter cf (Some llh) c) as [c1 [[s|]|e]]; cbn [fst] in G; [| |exact G].
    - eapply xg_trans; [exact G|apply IH].
    - eapply xg_trans; [exact G|apply IH]. }
  assert (Hsl : forall llh ps ws needed c, xg L (contents c) (contents (fst (fst (simplify_loop ps llh ws needed c))))).
  { intros llh ps. induction ps as [|p ps IH]; intros ws needed c; cbn [simplify_loop]; [apply xg_refl|].
    pose proof (Hcp llh (map snd (p_configs p)) (Base.union needed (p_params p)) c) as G.
    destruct (config_params _ _ _ c) as [[c1 n1] [u|e]]; cbn [fst] in G; [|exact G].
    eapply xg_trans; [exact G|apply IH]. }
  unfold deduce. intros H.
  destruct (dependencies_deduce _ _ _ _ _) as [deps|e]; [|injection H as <- _ _; apply xg_refl].
  unfold dependencies_simplify in H.
  pose proof (Hsl (k_llh k) (selected deps) [] (if String.eqb (k_rate k) "" then [] else [k_rate k]) (w_cache w)) as G.
  destruct (simplify_loop _ _ _ _ _) as [[c1 [ws needed]] [u|e]]; cbn [fst] in G.
  - unfold set_code in H. destruct (sv_setitem _ _ _) as [fn'|e]; injection H as <- _ _; exact G.
  - injection H as <- _ _. exact G.
Qed.

(* ------------------------------------------------------------------ *)
(** * The same values *)

Lemma explicit_seen C n L v : explicit_value C n L v -> seen_by n L C = Some v.
Proof.
  unfold explicit_value, seen_by. intros [[-> H]|(d & -> & H)]; [|exact H].
  destruct v; try reflexivity. exfalso. exact (H _ eq_refl).
Qed.

Lemma passes_same a C1 C1' b C2 C3 n v v' : xg a C1 C1' -> xg b C2 C3 -> passes_value C1 a C2 b n ->
  seen_by n a C1' = Some v -> seen_by n b C3 = Some v' -> v = v'.
Proof.
  intros G1 G2 (u & E1 & E2) S1 S2. apply explicit_seen in E1, E2.
  apply (xg_seen _ _ _ _ _ G1) in E1. apply (xg_seen _ _ _ _ _ G2) in E2. congruence.
Qed.

Lemma sigma_nth j sg : nth_error sigma_names j = Some sg -> In sg ["median"; "lower"; "upper"].
Proof. intros H. apply nth_error_In in H. exact H. Qed.

Lemma values_same a C1 b C2 C3 cf x y : xg b C2 C3 -> passes C1 a C2 b cf ->
  valued a C1 cf x -> valued b C3 cf y ->
  b_values x = b_values y /\ c_kind (b_config x) = c_kind (b_config y) /\ c_name (b_config x) = c_name (b_config y) /\
  (c_kind cf = KSigmaMap -> c_llh (b_config x) = Some a /\ c_llh (b_config y) = Some b /\
     exists cfgs, seen_by (c_name cf) a C1 = Some cfgs /\ seen_by (c_name cf) b C3 = Some cfgs).
Proof.
  intros G [P Q] (X1 & X2 & X) (Y1 & Y2 & Y).
  assert (R : c_kind (b_config x) = c_kind (b_config y) /\ c_name (b_config x) = c_name (b_config y)) by (split; congruence).
  destruct (c_kind cf) eqn:K.
  1,2,4: destruct X as (v & X3 & X4); destruct Y as (u & Y3 & Y4);
    rewrite X3, Y3, (passes_same _ _ _ _ _ _ _ _ _ (xg_refl _ _) G P X4 Y4); split; [reflexivity|];
    split; [apply R|]; split; [apply R|]; discriminate.
  destruct X as (X0 & cx & X3 & X4 & X5). destruct Y as (Y0 & cy & Y3 & Y4 & Y5).
  pose proof (passes_same _ _ _ _ _ _ _ _ _ (xg_refl _ _) G P X3 Y3) as E. subst cy.
  split; [|split; [apply R|split; [apply R|]]]; [|intros _; split; [exact X0|]; split; [exact Y0|]; eauto].
  specialize (Q eq_refl).
  assert (A : forall j sg v u, nth_error sigma_names j = Some sg ->
     seen_by (c_name cf ++ "_" ++ sg) a C1 = Some v -> seen_by (c_name cf ++ "_" ++ sg) b C3 = Some u -> v = u).
  { intros j sg v u Hj S1 S2. destruct (Q sg (sigma_nth _ _ Hj)) as [Pv|[(d & T1) (d2 & T2 & T3)]].
    - exact (passes_same _ _ _ _ _ _ _ _ _ (xg_refl _ _) G Pv S1 S2).
    - destruct (X5 _ _ Hj) as (rv & R1 & R2). destruct (Y5 _ _ Hj) as (ru & R3 & R4).
      destruct (G _ _ T2) as (d3 & T4 & d4 & -> & _).
      unfold entry_ok in R2, R4. unfold seen_by in S1, S2. rewrite T1 in *. rewrite T4 in *. congruence. }
  revert X4 Y4 A. clear. generalize (b_values x) (b_values y). 
  assert (Z : forall sgs k vs us, (forall j, nth_error sgs j = nth_error sigma_names (k + j)) ->
    Forall2 (fun sg v => seen_by (c_name cf ++ "_" ++ sg) a C1 = Some v) sgs vs ->
    Forall2 (fun sg v => seen_by (c_name cf ++ "_" ++ sg) b C3 = Some v) sgs us ->
    (forall j sg v u, nth_error sigma_names j = Some sg ->
     seen_by (c_name cf ++ "_" ++ sg) a C1 = Some v -> seen_by (c_name cf ++ "_" ++ sg) b C3 = Some u -> v = u) -> vs = us).
  { induction sgs as [|sg sgs IH]; intros k vs us Hk F1 F2 A; inversion F1; inversion F2; subst; [reflexivity|].
    f_equal.
    - apply (A k sg); auto. rewrite <- (Nat.add_0_r k), <- Hk. reflexivity.
    - apply (IH (S k)); auto. intros j. specialize (Hk (S j)). rewrite Nat.add_succ_r in Hk. exact Hk. }
  intros vs us F1 F2 A. exact (Z _ 0 _ _ (fun j => eq_refl) F1 F2 A).
Qed.

Definition path_same (c c' : rdict) : Prop := get "url_base" (contents c) = get "url_base" (contents c').

Lemma read_same d c c' v : path_same c c' -> read_file d c v = read_file d c' v.
Proof.
  intros H. destruct v; try reflexivity. cbn [read_file].
  rewrite (path_base (d_fs d) s c c'); [reflexivity|]. unfold base_of. rewrite H. reflexivity.
Qed.

Section Held.
  Variable code : Type.

  Lemma held_same d (src : source code) a c1 b C2 c3 cf x y : path_same c1 c3 -> xg b C2 (contents c3) ->
    passes (contents c1) a C2 b cf -> valued a (contents c1) cf x -> valued b (contents c3) cf y ->
    held_of code d c1 src x = held_of code d c3 src y.
  Proof.
    intros U G P X Y. destruct (values_same _ _ _ _ _ _ _ _ G P X Y) as (E1 & E2 & E3 & E4).
    unfold held_of. rewrite <- E1, <- E2, <- E3.
    assert (K : c_kind (b_config x) = c_kind cf) by apply X.
    rewrite K. destruct (c_kind cf) eqn:Kc; try reflexivity.
    - destruct (b_values x) as [|v [|? ?]]; try reflexivity. rewrite (read_same d c1 c3 v U). reflexivity.
    - rewrite (map_ext _ _ (fun v => read_same d c1 c3 v U)). destruct (all_ok _) as [xs|e]; cbn [bind]; [|reflexivity].
      destruct (E4 eq_refl) as (L1 & L2 & cfgs & S1 & S2).
      assert (N : c_name (b_config x) = c_name cf) by apply X.
      assert (R : snd (required_parameter (b_config x) None c1) = snd (required_parameter (b_config y) None c3)).
      { unfold required_parameter. rewrite <- E2, K.
        rewrite <- N in S1. rewrite <- N, E3 in S2.
        destruct (configs_second _ _ _ _ L1 S1) as (q1 & -> & _). destruct (configs_second _ _ _ _ L2 S2) as (q2 & -> & _).
        cbn [snd]. rewrite E3. reflexivity. }
      rewrite R. reflexivity.
  Qed.

  Lemma holds_same d (src : string -> source code) plugins a c1 b C2 c3 pn i i' : path_same c1 c3 -> xg b C2 (contents c3) ->
    (forall p cf, plugins pn = Some p -> In cf (map snd (p_configs p)) -> passes (contents c1) a C2 b cf) ->
    inst_valued plugins a (contents c1) pn i -> inst_valued plugins b (contents c3) pn i' ->
    i_class i = i_class i' /\ forall n, holds code d src c1 i n = holds code d src c3 i' n.
  Proof.
    intros U G P (p & I1 & I2 & I3 & I4) (p' & J1 & J2 & J3 & J4). rewrite I1 in J1. injection J1 as <-.
    split; [congruence|]. intros n. unfold holds. rewrite I2, J2.
    assert (Hc : forall cf, In cf (map snd (p_configs p)) -> passes (contents c1) a C2 b cf) by (intros cf; apply P, I1).
    clear P I1 I2 I3 J2 J3. revert Hc J4. generalize (i_built i'). induction I4 as [|cf x cfs bs Hx _ IH]; intros bs' Hc J4;
      inversion J4 as [|? y ? bs2 Hy J5]; subst; [reflexivity|]. cbn [List.find].
    assert (Pc : passes (contents c1) a C2 b cf) by (apply Hc; left; reflexivity).
    destruct (values_same _ _ _ _ _ _ _ _ G Pc Hx Hy) as (_ & _ & E3 & _). rewrite <- E3.
    destruct (String.eqb (c_name (b_config x)) n).
    - rewrite (held_same d (src (p_name p)) _ _ _ _ _ _ _ _ U G Pc Hx Hy). reflexivity.
    - apply IH; [|exact J5]. intros cf' Hcf. apply Hc. right. exact Hcf.
  Qed.
End Held.

(* ------------------------------------------------------------------ *)
(** * Running the two programs *)

Lemma exec_renamed {V} (s1 s2 : string -> list V -> result (list V)) name name' : forall ps e,
  (forall p args, In p ps -> s1 (p_name p ++ "_" ++ name) args = s2 (p_name p ++ "_" ++ name') args) ->
  exec V s1 e (map (fun w => (w_provides w, w_plugin w ++ "_" ++ name, w_depends w)) (map work_of ps)) =
  exec V s2 e (map (fun w => (w_provides w, w_plugin w ++ "_" ++ name', w_depends w)) (map work_of ps)).
Proof.
  induction ps as [|p ps IH]; intros e H; [reflexivity|]. cbn [map exec].
  assert (E : forall o i, exec1 V s1 e (o, w_plugin (work_of p) ++ "_" ++ name, i) = exec1 V s2 e (o, w_plugin (work_of p) ++ "_" ++ name', i)).
  { intros o i. unfold exec1. destruct (lookups V e ("key" :: "parameters" :: i)) as [args|x]; cbn [bind]; [|reflexivity].
    replace (s1 (w_plugin (work_of p) ++ "_" ++ name) args) with (s2 (w_plugin (work_of p) ++ "_" ++ name') args); [reflexivity|].
    symmetry. apply (H p args). left. reflexivity. }
  rewrite E. destruct (exec1 V s2 e _) as [e1|x]; cbn [bind]; [|reflexivity]. apply IH. intros q args Hq. apply H. right. exact Hq.
Qed.

Lemma run_renamed {V} (s1 s2 : string -> list V -> result (list V)) name name' llh llh' func func' nodep ps dn key n params :
  (forall p args, In p ps -> s1 (p_name p ++ "_" ++ name) args = s2 (p_name p ++ "_" ++ name') args) ->
  run_prog V s1 (gen_code name llh func nodep (map work_of ps) dn) key n params =
  run_prog V s2 (gen_code name' llh' func' nodep (map work_of ps) dn) key n params.
Proof.
  intros H. unfold run_prog, gen_code. cbn [pr_nodep pr_body pr_return].
  destruct (mem nodep ["key"; "parameters"]); [reflexivity|]. rewrite (exec_renamed s1 s2 name name' ps _ H). reflexivity.
Qed.

Lemma copy_sim code V (call : code -> option string -> (string -> option held) -> list V -> result (list V))
  limit names func func' nodep noeff d plugins src k0 w0 w1 s k2 w2 w3 s' pr :
  reads_attributes call -> ignores_llh call ->
  k_registry k2 = k_registry k0 ->
  build_component limit names func nodep noeff (d_fs d) plugins k0 w0 = (w1, cs_k s, Ok tt) ->
  build_component limit names func' nodep noeff (d_fs d) plugins k2 w2 = (w3, cs_k s', Ok tt) ->
  k_code (cs_k s) = Some pr ->
  (forall pn p cf, In pn (pr_imports pr) -> plugins pn = Some p -> In cf (map snd (p_configs p)) ->
     passes (contents (w_cache w1)) (k_llh k0) (contents (w_cache w2)) (k_llh k2) cf) ->
  path_same (w_cache w1) (w_cache w3) ->
  forall key batch params,
    sim code V call d src (w_cache w1) s key batch params = sim code V call d src (w_cache w3) s' key batch params.
Proof.
  intros RA IG HR B B' Hpr P U key batch params.
  destruct (build_component_ok _ _ _ _ _ _ _ _ _ _ _ B) as
    (deps & v1 & k1 & insts & v2 & H1 & H2 & H3 & H4 & H5 & H6 & _). cbn zeta in *.
  destruct (build_component_ok _ _ _ _ _ _ _ _ _ _ _ B') as
    (deps' & v1' & k1' & insts' & v2' & H1' & H2' & H3' & H4' & H5' & H6' & _). cbn zeta in *.
  rewrite HR, H2 in H2'. injection H2' as <-.
  rewrite gen_insts in H3, H3'.
  destruct (inst_names_NoDup (k_name k0) (selected deps)) as [N1 _]; [apply first_by_name_NoDup|].
  destruct (inst_names_NoDup (k_name k2) (selected deps)) as [N2 _]; [apply first_by_name_NoDup|].
  destruct (instantiate_valued _ _ _ _ _ _ _ _ H3 N1) as [_ I1]. destruct (instantiate_valued _ _ _ _ _ _ _ _ H3' N2) as [_ I2].
  destruct (instantiate_twice _ _ _ _ _ _ _ _ H3') as [G2 _].
  pose proof (deduce_xg (k_llh k2) _ _ _ _ _ _ _ _ _ _ H1') as G1.
  unfold sim, simulate. rewrite H4, H4'. unfold run_closure. cbn [cl_prog cl_insts]. apply run_renamed.
  intros p args Hp. unfold call_instance.
  destruct (I1 (p_name p ++ "_" ++ k_name k0) (p_name p)) as (i & Gi & Vi).
  { unfold inst_names. apply in_map_iff. exists p. auto. }
  destruct (I2 (p_name p ++ "_" ++ k_name k2) (p_name p)) as (i' & Gi' & Vi').
  { unfold inst_names. apply in_map_iff. exists p. auto. }
  rewrite Gi, Gi'. unfold instance_call.
  rewrite <- H6 in Vi. rewrite <- H6' in Vi', G2.
  destruct (holds_same code d src plugins (k_llh k0) (w_cache w1) (k_llh k2) (contents (w_cache w2)) (w_cache w3) (p_name p) i i' U) as [E1 E2]; auto.
  - eapply xg_trans; eauto.
  - intros q cf Q1 Q2. apply (P (p_name p) q cf); auto.
    rewrite H5 in Hpr. injection Hpr as <-. unfold gen_code. cbn [pr_imports]. rewrite map_map. apply in_map_iff. exists p. auto.
  - rewrite E1. rewrite (IG _ (i_llh i) (i_llh i')). apply RA. exact E2.
Qed.

(* ------------------------------------------------------------------ *)
(** * The theorems *)

Lemma bins_type_false ty : bins_type_ok ty = false <-> ~ In ty [VNone; VStr "irreg"; VStr "meshgrid"].
Proof.
  split.
  - intros H [<-|[<-|[<-|[]]]]; discriminate H.
  - intros H. destruct (bins_type_ok ty) eqn:E; [|reflexivity]. exfalso. apply H. destruct ty; try discriminate E; [left; reflexivity|].
    cbn in E. apply orb_true_iff in E. destruct E as [E|E]; apply String.eqb_eq in E; subst s; cbn; auto.
Qed.

Lemma copy_refused cls s llh pass e :
  new_component cls s llh pass = Err e <->
  e = ValueError /\ pass = true /\
  (cs_bins s = None \/ exists b ty, cs_bins s = Some (b, ty) /\
     ~ In ty [VNone; VStr "irreg"; VStr "meshgrid"]).
Proof.
  unfold new_component, new_object. destruct pass.
  - destruct (cs_bins s) as [[b ty]|] eqn:E; cbn [snd].
    + destruct (bins_type_ok ty) eqn:T.
      * split; [discriminate|]. intros (_ & _ & [H|(b' & ty' & H & N)]); [discriminate|]. injection H as <- <-.
        apply bins_type_false in N. congruence.
      * apply bins_type_false in T. split; [|intros (-> & _); reflexivity]. intros H. injection H as <-. split; [reflexivity|].
        split; [reflexivity|]. right. eauto.
    + split; [|intros (-> & _); reflexivity]. intros H. injection H as <-. auto.
  - split; [discriminate|]. intros (_ & H & _). discriminate.
Qed.

Lemma copy_fields cls s llh pass s' :
  new_component cls s llh pass = Ok s' ->
  k_name (cs_k s') = k_name (cs_k s) ++ "_copy" /\
  (forall l, llh = Some l -> k_llh (cs_k s') = l) /\
  (llh = None -> k_llh (cs_k s') = cc_name cls ++ "_llh") /\
  k_registry (cs_k s') = cc_registry cls /\ k_rate (cs_k s') = cc_rate cls /\
  cs_norm s' = cc_norm cls /\ cs_eps s' = cc_eps cls /\ k_noeff (cs_k s') = false /\
  k_code (cs_k s') = None /\ k_compile (cs_k s') = None /\ k_simulate (cs_k s') = None /\
  k_needed (cs_k s') = [] /\
  (pass = true -> cs_bins s' = cs_bins s /\ cs_bins s' <> None) /\ (pass = false -> cs_bins s' = None).
Proof.
  unfold new_component, new_object. destruct pass.
  - destruct (cs_bins s) as [[b ty]|] eqn:E; cbn [snd]; [|discriminate]. destruct (bins_type_ok ty); [|discriminate].
    intros H. injection H as <-. cbn. repeat (split; [first [reflexivity|intros; subst; reflexivity]|]).
    split; [|discriminate]. intros _. split; [reflexivity|discriminate].
  - intros H. injection H as <-. cbn. repeat (split; [first [reflexivity|discriminate|intros; subst; reflexivity]|]). reflexivity.
Qed.

Lemma build_sim_inv limit names func nodep noeff f plugins s w w' s' r :
  build_sim limit names func nodep noeff f plugins s w = (w', s', r) ->
  build_component limit names func nodep noeff f plugins (cs_k s) w = (w', cs_k s', r) /\
  cs_norm s' = cs_norm s /\ cs_bins s' = cs_bins s /\ cs_eps s' = cs_eps s.
Proof.
  unfold build_sim. destruct (build_component _ _ _ _ _ _ _ _ _) as [[v k] q]. intros H. injection H as <- <- <-. auto.
Qed.

Lemma build_llh limit names func nodep noeff f plugins k w w' k' :
  build_component limit names func nodep noeff f plugins k w = (w', k', Ok tt) -> k_llh k' = k_llh k.
Proof.
  intros B. destruct (build_component_ok _ _ _ _ _ _ _ _ _ _ _ B) as (deps & v1 & k1 & insts & v2 & H). cbn zeta in H. apply H.
Qed.

Lemma copy_events :
  forall code V (call : code -> option string -> (string -> option held) -> list V -> result (list V))
    limit names func func' nodep noeff d plugins src cls s0 w0 w1 s llh pass s2 w2 w3 s' pr,
  reads_attributes call -> ignores_llh call ->
  k_registry (cs_k s0) = cc_registry cls ->
  build_sim limit names func nodep noeff (d_fs d) plugins s0 w0 = (w1, s, Ok tt) ->
  new_component cls s llh pass = Ok s2 ->
  build_sim limit names func' nodep noeff (d_fs d) plugins s2 w2 = (w3, s', Ok tt) ->
  k_code (cs_k s) = Some pr ->
  (forall pn p cf, In pn (pr_imports pr) -> plugins pn = Some p -> In cf (map snd (p_configs p)) ->
     passes (contents (w_cache w1)) (k_llh (cs_k s)) (contents (w_cache w2)) (k_llh (cs_k s2)) cf) ->
  get "url_base" (contents (w_cache w1)) = get "url_base" (contents (w_cache w3)) ->
  forall key batch params,
    sim code V call d src (w_cache w3) s' key batch params = sim code V call d src (w_cache w1) s key batch params.
Proof.
  intros until pr. intros RA IG R B N B' Hpr P U key batch params.
  apply build_sim_inv in B, B'. destruct B as (B & _). destruct B' as (B' & _).
  rewrite (build_llh _ _ _ _ _ _ _ _ _ _ _ B) in P.
  destruct (copy_fields _ _ _ _ _ N) as (_ & _ & _ & R2 & _). symmetry.
  exact (copy_sim code V call limit names func func' nodep noeff d plugins src (cs_k s0) w0 w1 s (cs_k s2) w2 w3 s' pr
           RA IG (eq_trans R2 (eq_sym R)) B B' Hpr P U key batch params).
Qed.

Lemma build_flags limit names func nodep noeff f plugins k w w' k' :
  build_component limit names func nodep noeff f plugins k w = (w', k', Ok tt) ->
  has (k_llh k) (w_fn w) = false /\
  k_rate k' = k_rate k /\ k_noeff k' = (if noeff then true else k_noeff k) /\ k_name k' = k_name k /\
  k_registry k' = k_registry k.
Proof.
  unfold build_component, deduce.
  destruct (dependencies_deduce _ _ _ _ _) as [deps|e]; [|discriminate].
  destruct (dependencies_simplify _ _ _ _) as [[c1 [ws needed]] [u|e]]; [|discriminate].
  unfold set_code, sv_setitem. cbn [k_llh w_fn with_cache].
  destruct (has (k_llh k) (w_fn w)); [discriminate|].
  intros H. split; [reflexivity|]. destruct (compile_fields _ _ _ _ _ _ H) as (cl & ->). cbn. auto.
Qed.

Lemma copy_taken limit names func nodep noeff f plugins s w w' s' r :
  has (k_llh (cs_k s)) (w_fn w) = true ->
  build_sim limit names func nodep noeff f plugins s w = (w', s', r) -> r <> Ok tt.
Proof.
  intros H B -> . apply build_sim_inv in B. destruct B as (B & _). apply build_flags in B. destruct B as (B & _). congruence.
Qed.

Lemma copy_second cls s1 s2 pass pass' a b limit names func nodep noeff f plugins w w1 a'
    limit' names' func' nodep' noeff' f' plugins' w2 b' r :
  new_component cls s1 None pass = Ok a -> new_component cls s2 None pass' = Ok b ->
  build_sim limit names func nodep noeff f plugins a w = (w1, a', Ok tt) ->
  build_sim limit' names' func' nodep' noeff' f' plugins' b w1 = (w2, b', r) -> r <> Ok tt.
Proof.
  intros N1 N2 B. apply copy_taken.
  destruct (copy_fields _ _ _ _ _ N1) as (_ & _ & L1 & _). destruct (copy_fields _ _ _ _ _ N2) as (_ & _ & L2 & _).
  rewrite L2, <- L1 by reflexivity. apply build_sim_inv in B. destruct B as (B & _).
  pose proof (build_has _ _ _ _ _ _ _ _ _ _ _ B) as H. exact H.
Qed.

Lemma copy_histogram :
  forall code V (call : code -> option string -> (string -> option held) -> list V -> result (list V)) ones post
    limit names func func' nodep noeff d plugins src cls name l0 bins s0 w0 w1 s llh s2 w2 w3 s' pr,
  reads_attributes call -> ignores_llh call ->
  registered cls name l0 bins = Ok s0 ->
  build_sim limit names func nodep noeff (d_fs d) plugins s0 w0 = (w1, s, Ok tt) ->
  new_component cls s llh true = Ok s2 ->
  build_sim limit names func' nodep noeff (d_fs d) plugins (set_rate (name ++ "_rate") s2) w2 = (w3, s', Ok tt) ->
  k_code (cs_k s) = Some pr ->
  (forall pn p cf, In pn (pr_imports pr) -> plugins pn = Some p -> In cf (map snd (p_configs p)) ->
     passes (contents (w_cache w1)) l0 (contents (w_cache w2)) (k_llh (cs_k s2)) cf) ->
  get "url_base" (contents (w_cache w1)) = get "url_base" (contents (w_cache w3)) ->
  forall key batch params,
    simulate_hist code V call ones post d src (w_cache w3) s' key batch params =
    simulate_hist code V call ones post d src (w_cache w1) s key batch params.
Proof.
  intros until pr. intros RA IG Rg B N B' Hpr P U key batch params.
  apply build_sim_inv in B, B'. destruct B as (B & M1 & M2 & M3). destruct B' as (B' & M1' & M2' & M3').
  destruct (copy_fields _ _ _ _ _ N) as (F1 & F2 & F3 & F4 & F5 & F6 & F7 & F8 & F9 & F10 & F11 & F12 & F13 & _).
  destruct (F13 eq_refl) as [F14 _].
  unfold registered, new_object in Rg. destruct (bins_type_ok (snd bins)); [|discriminate]. injection Rg as <-.
  cbn in M1, M2, M3.
  destruct (build_flags _ _ _ _ _ _ _ _ _ _ _ B) as (_ & G1 & G2 & _). cbn in G1, G2.
  destruct (build_flags _ _ _ _ _ _ _ _ _ _ _ B') as (_ & G1' & G2' & _). cbn in G1', G2'.
  assert (E : sim code V call d src (w_cache w3) s' key batch params = sim code V call d src (w_cache w1) s key batch params).
  { symmetry. eapply copy_sim; [exact RA|exact IG| |exact B|exact B'|exact Hpr|exact P|exact U].
    exact F4. }
  unfold simulate_hist. rewrite E.
  replace (k_noeff (cs_k s')) with (k_noeff (cs_k s)) by (rewrite G2, G2', F8; reflexivity).
  replace (k_rate (cs_k s')) with (k_rate (cs_k s)) by congruence.
  replace (cs_bins s') with (cs_bins s) by (cbn in M2'; congruence).
  replace (cs_norm s') with (cs_norm s) by (cbn in M1'; congruence).
  replace (cs_eps s') with (cs_eps s) by (cbn in M3'; congruence). reflexivity.
Qed.

Lemma copy_passes limit names func nodep noeff f plugins s0 w0 w1 s pr b pn p cf :
  build_sim limit names func nodep noeff f plugins s0 w0 = (w1, s, Ok tt) ->
  k_code (cs_k s) = Some pr ->
  In pn (pr_imports pr) -> plugins pn = Some p -> In cf (map snd (p_configs p)) ->
  newcomer b (contents (w_cache w1)) -> shared_config (contents (w_cache w1)) cf ->
  passes (contents (w_cache w1)) (k_llh (cs_k s)) (contents (w_cache w1)) b cf.
Proof.
  intros B Hpr Hpn Hp Hcf N S. apply build_sim_inv in B. destruct B as (B & _).
  rewrite (build_llh _ _ _ _ _ _ _ _ _ _ _ B).
  destruct (build_component_ok _ _ _ _ _ _ _ _ _ _ _ B) as
    (deps & v1 & k1 & insts & v2 & H1 & H2 & H3 & H4 & H5 & H6 & _). cbn zeta in *.
  rewrite H5 in Hpr. injection Hpr as <-. rewrite gen_insts in H3.
  destruct (inst_names_NoDup (k_name (cs_k s0)) (selected deps)) as [N1 _]; [apply first_by_name_NoDup|].
  destruct (instantiate_valued _ _ _ _ _ _ _ _ H3 N1) as [_ I1].
  unfold gen_code in Hpn. cbn [pr_imports] in Hpn. rewrite map_map in Hpn. apply in_map_iff in Hpn.
  destruct Hpn as (q & Hq & Hs). cbn in Hq.
  destruct (I1 (p_name q ++ "_" ++ k_name (cs_k s0)) pn) as (i & _ & p' & P1 & _ & _ & F).
  { unfold inst_names. apply in_map_iff. exists q. subst pn. auto. }
  rewrite Hp in P1. injection P1 as <-. rewrite <- H6 in F.
  destruct (Forall2_in_l _ _ _ F _ Hcf) as (x & _ & V). set (C := contents (w_cache w1)) in *.
  assert (A : forall n v, seen_by n (k_llh (cs_k s0)) C = Some v -> (forall d, get n C <> Some (VDict d)) ->
    passes_value C (k_llh (cs_k s0)) C b n).
  { intros n v Hv Hn. exists v. unfold seen_by in Hv. destruct (get n C) as [u|] eqn:E; [|discriminate].
    assert (u = v /\ not_dict v) as [-> Nd].
    { destruct u; try (injection Hv as <-; split; [reflexivity|intros d; discriminate]). exfalso. exact (Hn _ eq_refl). }
    split; left; auto. }
  destruct V as (V1 & V2 & V). split.
  - destruct (c_kind cf).
    1,2,4: destruct V as (v & _ & V); exact (A _ _ V S).
    destruct V as (_ & cfgs & V & _). exact (A _ _ V S).
  - intros K sg Hsg. rewrite K in V. destruct V as (_ & cfgs & V3 & V4 & V5).
    destruct (Forall2_in_l _ _ _ V4 sg Hsg) as (v & _ & Sv).
    unfold seen_by in Sv. destruct (get (c_name cf ++ "_" ++ sg) C) as [u|] eqn:E; [|discriminate].
    destruct u as [ | | | | |d].
    1-5: left; apply (A _ v); [unfold seen_by; rewrite E; exact Sv|intros d X; rewrite E in X; discriminate].
    right. split; [exists d; exact E|]. exists d. split; [exact E|exact (N _ _ E)].
Qed.

Lemma copy_rate limit names func nodep noeff f plugins cls s llh pass s2 w2 w3 s' :
  cc_rate cls = "" ->
  new_component cls s llh pass = Ok s2 ->
  build_sim limit names func nodep noeff f plugins s2 w2 = (w3, s', Ok tt) ->
  forall nt mcinput h p batch, get "" p = None ->
  exists e, get_normalization nt (k_rate (cs_k s')) mcinput h p batch = Err e.
Proof.
  intros R N B nt m h p batch G. apply build_sim_inv in B. destruct B as (B & _).
  destruct (build_flags _ _ _ _ _ _ _ _ _ _ _ B) as (_ & E & _).
  destruct (copy_fields _ _ _ _ _ N) as (_ & _ & _ & _ & F & _).
  replace (k_rate (cs_k s')) with "" by congruence. unfold get_normalization. rewrite G.
  destruct nt; [eauto| |eauto]. destruct m; eauto.
Qed.
