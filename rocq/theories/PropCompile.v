(** Properties C71-C74: compiled components. Only theorem statements closed by lemmas, their
    assumptions, and concrete instances. *)
From Verif Require Import Base BaseFacts ModelShare ModelConfig ModelComponent SpecComponent
  SpecConfig ModelCompile SpecCompile ProofComponent ProofWorkflow ProofSim ProofHistory
  ProofComponentTop ProofConfig ProofCompile PropComponent PropConfig.
Local Open Scope string_scope.

(* ------------------------------------------------------------------ *)
(** * C71 the compiled simulation runs instances made for the component *)

(** After deduce and compile, every needed plugin has its own instance, made for the component's
    likelihood from the class that appletree.plugins has under the plugin's name. *)
Theorem C71_instances :
  forall limit data_names func nodep noeff f plugins k w w' k',
  unique_names (k_registry k) ->
  build_component limit data_names func nodep noeff f plugins k w = (w', k', Ok tt) ->
  exists pr cl, k_code k' = Some pr /\ k_simulate k' = Some cl /\ cl_prog cl = pr /\
    forall d p, Reach (k_registry k) nodep (output_names data_names noeff) d ->
      get d (k_registry k) = Some p ->
      exists i, get (p_name p ++ "_" ++ k_name k) (cl_insts cl) = Some i /\
        plugins (p_name p) = Some (i_class i) /\ i_llh i = Some (k_llh k).
Proof. exact compiled_instances. Qed.

(** The values returned by the compiled function are those of the dependency graph, each computed
    by an instance of the class published under the provider's name. *)
Theorem C71_graph_values :
  forall (V : Type) (isem : instance -> list V -> result (list V))
    calls limit data_names func nodep noeff f plugins k w w' k' key n params key' outs,
  k_registry k = registry_after calls -> unique_names (k_registry k) ->
  consistent (k_registry k) nodep (output_names data_names noeff) ->
  build_component limit data_names func nodep noeff f plugins k w = (w', k', Ok tt) ->
  simulate V isem k' key n params = Ok (key', outs) ->
  exists E : string -> option V,
    E nodep = Some n /\
    (forall d p, Reach (k_registry k) nodep (output_names data_names noeff) d ->
       get d (k_registry k) = Some p ->
       exists i k1 k2 argv vs,
         plugins (p_name p) = Some (i_class i) /\ i_llh i = Some (k_llh k) /\
         map E (p_depends p) = map Some argv /\
         isem i (k1 :: params :: argv) = Ok (k2 :: vs) /\
         map E (p_provides p) = map Some vs) /\
    map E (output_names data_names noeff) = map Some outs.
Proof. exact (fun V => @compiled_values V). Qed.

(** If every registered class in use is the published one and every instance returns a key and one
    value per provided name, then the compiled function completes. *)
Theorem C71_completes :
  forall (V : Type) (isem : instance -> list V -> result (list V))
    calls limit data_names func nodep noeff f plugins k w w' k' key n params,
  k_registry k = registry_after calls -> unique_names (k_registry k) ->
  nodep <> "key" -> nodep <> "parameters" ->
  published plugins (k_registry k) nodep (output_names data_names noeff) ->
  (forall i args, List.length args = 2 + List.length (p_depends (i_class i)) ->
     exists key' vs, isem i args = Ok (key' :: vs) /\
       List.length vs = List.length (p_provides (i_class i))) ->
  build_component limit data_names func nodep noeff f plugins k w = (w', k', Ok tt) ->
  exists key' outs, simulate V isem k' key n params = Ok (key', outs) /\
    List.length outs = List.length (output_names data_names noeff).
Proof. exact (fun V => @compiled_runs V). Qed.

(** A value set before deduce is the one every Constant or ConstantSet config of that name has in
    every instance (up to Python's equality). *)
Theorem C71_set_value_is_used :
  forall limit data_names func nodep noeff f plugins k w w' k' cl n i cf vs v,
  build_component limit data_names func nodep noeff f plugins k w = (w', k', Ok tt) ->
  k_simulate k' = Some cl -> get n (cl_insts cl) = Some i ->
  plain_kind (c_kind cf) -> constructed cf ->
  config_value i cf vs -> explicit_value (contents (w_cache w)) (c_name cf) (k_llh k) v ->
  exists v', vs = [v'] /\ value_eqb v v' = true.
Proof.
  intros limit data_names func nodep noeff f plugins k w w' k' cl n i cf vs v H Hcl Hi Hk Hd Hv He.
  destruct (compiled_made _ _ _ _ _ _ _ _ _ _ _ _ H Hcl n i Hi) as (pn & Hm).
  eapply instance_config_explicit; eauto.
Qed.

(** Configs of the same name have one value throughout a component, whatever the defaults given by
    the different plugins: the one that the configuration holds after compile. *)
Theorem C71_one_value_per_name :
  forall limit data_names func nodep noeff f plugins k w w' k' cl n1 i1 cf1 vs1 n2 i2 cf2 vs2,
  build_component limit data_names func nodep noeff f plugins k w = (w', k', Ok tt) ->
  k_simulate k' = Some cl ->
  get n1 (cl_insts cl) = Some i1 -> get n2 (cl_insts cl) = Some i2 ->
  plain_kind (c_kind cf1) -> plain_kind (c_kind cf2) ->
  constructed cf1 -> constructed cf2 ->
  c_name cf1 = c_name cf2 -> config_value i1 cf1 vs1 -> config_value i2 cf2 vs2 ->
  exists v1 v2 v, vs1 = [v1] /\ vs2 = [v2] /\
    explicit_value (contents (w_cache w')) (c_name cf1) (k_llh k) v /\
    value_eqb v1 v = true /\ value_eqb v2 v = true.
Proof.
  intros limit data_names func nodep noeff f plugins k w w' k' cl n1 i1 cf1 vs1 n2 i2 cf2 vs2
    H Hcl Hi1 Hi2 Hk1 Hk2 Hd1 Hd2 Hn Hv1 Hv2.
  destruct (compiled_made _ _ _ _ _ _ _ _ _ _ _ _ H Hcl n1 i1 Hi1) as (pn1 & Hm1).
  destruct (compiled_made _ _ _ _ _ _ _ _ _ _ _ _ H Hcl n2 i2 Hi2) as (pn2 & Hm2).
  destruct (instance_config_final _ _ _ _ _ _ _ _ _ Hm1 Hk1 Hd1 Hv1) as (v1 & w1 & -> & E1 & Q1).
  destruct (instance_config_final _ _ _ _ _ _ _ _ _ Hm2 Hk2 Hd2 Hv2) as (v2 & w2 & -> & E2 & Q2).
  rewrite <- Hn in E2. pose proof (explicit_unique _ _ _ _ _ E1 E2) as <-.
  exists v1, v2, w1. auto.
Qed.

(** The demo graph with the map files at hand. *)
Definition all_files : fs :=
  mk_fs (fun p => true) (fun p => true) (fun d => "/pkg/" ++ d) false [] (fun _ => "") true (fun _ => None).
Definition demo_plugins (n : string) : option plugin :=
  List.find (fun p => String.eqb (p_name p) n) [pE; pQ; pS1; pS2; pF; pX].
Definition demo_isem (i : instance) (args : list nat) : result (list nat) :=
  match args with
  | k :: _ :: xs =>
      Ok (S k :: map (fun i => fold_left (fun a b => 2 * a + b) xs i)
                   (seq 1 (List.length (p_provides (i_class i)))))
  | _ => Err TypeError
  end.
Definition demo_build := build_component 20 ["cs2"; "cs1"] "simulate" "batch_size" false
  all_files demo_plugins demo_k.

Lemma demo_published :
  published demo_plugins (k_registry demo_k) "batch_size" (output_names ["cs2"; "cs1"] false).
Proof.
  intros d p _ Hg. apply get_In in Hg. rewrite demo_registry in Hg. cbn [In] in Hg.
  repeat (destruct Hg as [Hg|Hg]; [injection Hg as <- <-; reflexivity|]). destruct Hg.
Qed.

(** "w" is set to 21: both plugins that take it get 21 rather than their default 13. *)
Example C71_instance : exists w' k' cl i1 i2,
  demo_build (fst (set_config all_files [("w", VNum 21)] init_world)) = (w', k', Ok tt) /\
  k_simulate k' = Some cl /\
  get "Quanta_er" (cl_insts cl) = Some i1 /\ get "S2_er" (cl_insts cl) = Some i2 /\
  config_value i1 num_cf [VNum 21] /\ config_value i2 num_cf [VNum 21] /\
  simulate nat demo_isem k' 0 7 0 = Ok (5, [41; 13; 71]).
Proof.
  do 5 eexists. split; [vm_compute; reflexivity|]. split; [reflexivity|].
  split; [reflexivity|]. split; [reflexivity|].
  split; [exists 0; split; reflexivity|]. split; [exists 0; split; reflexivity|]. reflexivity.
Qed.

(** A build that fails changes nothing about what simulate does: it raises AttributeError if nothing
    was built before, and runs what was built last otherwise. *)
Theorem C71_failed_build :
  forall (V : Type) (isem : instance -> list V -> result (list V))
    limit data_names func nodep noeff f plugins k w w' k' e key n params,
  build_component limit data_names func nodep noeff f plugins k w = (w', k', Err e) ->
  simulate V isem k' key n params = simulate V isem k key n params /\
  (forall calls name llh rate, k = mk_component name llh rate (registry_after calls) false [] [] "" None None None ->
    simulate V isem k' key n params = Err AttributeError).
Proof.
  intros V isem limit dn func nodep noeff f plugins k w w' k' e key n params H.
  assert (E : k_simulate k' = k_simulate k).
  { unfold build_component in H. pose proof (deduce_keeps_simulate limit dn func nodep noeff k w) as D.
    destruct (deduce limit dn func nodep noeff k w) as [[w1 k1] r1]. cbn [fst snd] in D. rewrite <- D.
    destruct r1 as [u|e1]; [|injection H as _ <- _; reflexivity].
    unfold compile in H. destruct (k_compile k1) as [[pr a]|]; [|injection H as _ <- _; reflexivity].
    destruct (imports_ok _ _); [|injection H as _ <- _; reflexivity].
    destruct (instantiate _ _ _ _ _ _) as [w2 [insts|e2]]; [|injection H as _ <- _; reflexivity].
    destruct (get (k_llh k1) _) as [a'|]; [|injection H as _ <- _; reflexivity].
    destruct (get (k_func k1) _) as [cl|]; [discriminate H|injection H as _ <- _; reflexivity]. }
  assert (S : simulate V isem k' key n params = simulate V isem k key n params) by (unfold simulate; rewrite E; reflexivity).
  split; [exact S|]. intros calls name llh rate ->. rewrite S. reflexivity.
Qed.

(** The generated module imports the classes by name: if a class is registered whose name is also
    that of a different class in appletree.plugins, then the other class is run. *)
Definition pMine := mk_plugin "S1" ["cs1"] ["batch_size"] [] [] [].
Theorem C71_imported_class_refuted :
  exists calls plugins w' k' cl i,
    let k := mk_component "er" "llh" "" (registry_after calls) false [] [] "" None None None in
    build_component 20 ["cs1"] "simulate" "batch_size" true all_files plugins k init_world
      = (w', k', Ok tt) /\
    k_simulate k' = Some cl /\ get "cs1" (k_registry k) = Some pMine /\
    get "S1_er" (cl_insts cl) = Some i /\ i_class i <> pMine.
Proof.
  exists [[pMine]], (fun n => if String.eqb n "S1" then
    Some (mk_plugin "S1" ["cs1"] ["batch_size"] ["other"] [] ["self"; "key"; "parameters"; "batch_size"])
    else None).
  do 4 eexists. split; [vm_compute; reflexivity|]. split; [reflexivity|]. split; [reflexivity|].
  split; [reflexivity|]. discriminate.
Qed.

Example C71_case_failed_build : forall (isem : instance -> list nat -> result (list nat)) key n params,
  let k := mk_component "er" "llh" "" (registry_after [[pMine]]) false [] [] "" None None None in
  exists w' k' e, build_component 20 ["cs2"] "simulate" "batch_size" true all_files (fun _ => None) k init_world = (w', k', Err e) /\
    simulate nat isem k' key n params = Err AttributeError.
Proof. intros. do 3 eexists. split; vm_compute; reflexivity. Qed.

(** A class defined by the user (not in appletree.plugins) can be registered and deduced, but every
    compile of a workflow that needs it raises ImportError. *)
Theorem C71_unpublished_refuted :
  forall limit data_names func nodep noeff f plugins k w w1 k1 d p,
  unique_names (k_registry k) ->
  deduce limit data_names func nodep noeff k w = (w1, k1, Ok tt) ->
  Reach (k_registry k) nodep (output_names data_names noeff) d ->
  get d (k_registry k) = Some p -> plugins (p_name p) = None ->
  compile f plugins k1 w1 = (w1, k1, Err ImportError).
Proof. exact unpublished_import_error. Qed.

Example C71_unpublished_case :
  snd (demo_build init_world) = Ok tt /\
  snd (build_component 20 ["cs2"; "cs1"] "simulate" "batch_size" false all_files
         (fun n => if String.eqb n "Quanta" then None else demo_plugins n) demo_k init_world)
    = Err ImportError.
Proof. vm_compute. auto. Qed.

(* ------------------------------------------------------------------ *)
(** * C72 changing a config of a compiled component *)

(** set_config asks to run deduce() and compile() again. That deduce never succeeds, whatever
    happened since (except clear_cache), and the simulation function stays as it was. *)
Theorem C72_deduce_again_refuted :
  forall limit data_names func nodep noeff f plugins k w w' k' g configs os
    limit2 data_names2 func2 nodep2 noeff2,
  build_component limit data_names func nodep noeff f plugins k w = (w', k', Ok tt) ->
  ~ In OClear os ->
  let w2 := fst (set_config g configs (wrun os w')) in
  let r := deduce limit2 data_names2 func2 nodep2 noeff2 k' w2 in
  snd r <> Ok tt /\ k_simulate (snd (fst r)) = k_simulate k'.
Proof. exact deduce_again. Qed.

(** compile() alone does take the new value, in every instance ... *)
Theorem C72_compile_alone :
  forall limit data_names func nodep noeff f plugins k w w' k' g configs w2 f2 plugins2 w3 k3,
  build_component limit data_names func nodep noeff f plugins k w = (w', k', Ok tt) ->
  NoDup (keys configs) -> set_config g configs w' = (w2, Ok tt) ->
  compile f2 plugins2 k' w2 = (w3, k3, Ok tt) ->
  exists cl cl3, k_simulate k' = Some cl /\ k_simulate k3 = Some cl3 /\ cl_prog cl3 = cl_prog cl /\
    k_needed k3 = k_needed k' /\
    (forall n, In n (keys (cl_insts cl3)) <-> In n (map fst (pr_insts (cl_prog cl)))) /\
    forall n i cf vs v, get n (cl_insts cl3) = Some i -> plain_kind (c_kind cf) ->
      constructed cf -> config_value i cf vs ->
      get (c_name cf) configs = Some v -> is_plain v = true ->
      exists v', vs = [v'] /\ value_eqb v v' = true.
Proof. exact compile_alone. Qed.

(** ... but leaves the list of needed parameters as it was: here the new value of a map's config
    requires the scaler "new_sig", which the compiled component reads and does not declare. *)
Definition new_cut : value := VList [VStr "m.json"; VStr "l.json"; VStr "u.json"; VStr "new_sig"].
Theorem C72_needed_parameters_stale_refuted :
  exists w1 k1 w2 w3 k3 cl i b,
    demo_build init_world = (w1, k1, Ok tt) /\
    set_config all_files [("cut", new_cut)] w1 = (w2, Ok tt) /\
    compile all_files demo_plugins k1 w2 = (w3, k3, Ok tt) /\
    k_simulate k3 = Some cl /\ get "Eff_er" (cl_insts cl) = Some i /\
    nth_error (i_built i) 0 = Some b /\
    snd (required_parameter (b_config b) None (w_cache w3)) = Ok (Some "new_sig") /\
    ~ In "new_sig" (k_needed k3).
Proof.
  do 8 eexists. split; [vm_compute; reflexivity|]. split; [vm_compute; reflexivity|].
  split; [vm_compute; reflexivity|]. split; [reflexivity|]. split; [reflexivity|].
  split; [reflexivity|]. split; [reflexivity|]. cbn. intuition discriminate.
Qed.

(** A new file for a map that depends on a scaler cannot be compiled at all: the files of the first
    compile are kept in the configuration and the new ones clash with them. *)
Theorem C72_new_map_file_refuted :
  exists w1 k1 w2, demo_build init_world = (w1, k1, Ok tt) /\
    set_config all_files [("cut", VList [VStr "m2.json"; VStr "l.json"; VStr "u.json"; VStr "t_sig"])] w1
      = (w2, Ok tt) /\
    snd (compile all_files demo_plugins k1 w2) = Err ValueError.
Proof. do 3 eexists. split; [vm_compute; reflexivity|]. split; vm_compute; reflexivity. Qed.

(** The order that works: clear_cache, then set_config, then deduce and compile. *)
Theorem C72_clear_set_build :
  forall f configs w w2 limit data_names func nodep noeff plugins k w' k' cl n i cf vs v,
  NoDup (keys configs) -> set_config f configs (clear_cache w) = (w2, Ok tt) ->
  build_component limit data_names func nodep noeff f plugins k w2 = (w', k', Ok tt) ->
  k_simulate k' = Some cl -> get n (cl_insts cl) = Some i ->
  plain_kind (c_kind cf) -> constructed cf -> config_value i cf vs ->
  get (c_name cf) configs = Some v -> is_plain v = true ->
  exists v', vs = [v'] /\ value_eqb v v' = true.
Proof.
  intros f configs w w2 limit data_names func nodep noeff plugins k w' k' cl n i cf vs v
    Hnd Hs Hb Hcl Hi Hk Hd Hv Hg Hp.
  refine (C71_set_value_is_used _ _ _ _ _ _ _ _ _ _ _ _ _ _ _ _ v Hb Hcl Hi Hk Hd Hv _).
  exact (set_config_explicit _ _ _ _ _ _ _ Hnd Hs Hg Hp).
Qed.

Example C72_instance : exists w1 k1 w2 k2 w3 k3 cl i,
  demo_build init_world = (w1, k1, Ok tt) /\
  compile all_files demo_plugins k1 (fst (set_config all_files [("w", VNum 5)] w1)) = (w2, k2, Ok tt) /\
  demo_build (fst (set_config all_files [("w", VNum 6)] (clear_cache w2))) = (w3, k3, Ok tt) /\
  k_simulate k3 = Some cl /\ get "Quanta_er" (cl_insts cl) = Some i /\
  config_value i num_cf [VNum 6].
Proof.
  do 8 eexists. split; [vm_compute; reflexivity|]. split; [vm_compute; reflexivity|].
  split; [vm_compute; reflexivity|]. split; [reflexivity|]. split; [reflexivity|].
  exists 0. split; reflexivity.
Qed.

(** set_config before clear_cache is lost: the default is compiled in. *)
Theorem C72_set_then_clear_refuted : exists w' k' cl i,
  demo_build (clear_cache (fst (set_config all_files [("w", VNum 6)] init_world))) = (w', k', Ok tt) /\
  k_simulate k' = Some cl /\ get "Quanta_er" (cl_insts cl) = Some i /\
  config_value i num_cf [VNum 13].
Proof.
  do 4 eexists. split; [vm_compute; reflexivity|]. split; [reflexivity|]. split; [reflexivity|].
  exists 0. split; reflexivity.
Qed.

(** After clear_cache a compiled component cannot be compiled again without deduce. *)
Theorem C72_compile_after_clear :
  forall f plugins k w w' k', compile f plugins k (clear_cache w) = (w', k', Ok tt) -> False.
Proof. exact compile_after_clear. Qed.

(* ------------------------------------------------------------------ *)
(** * C73 lineage *)

(** Right after compile the lineage reports the values the instances work with. *)
Theorem C73_lineage_after_build :
  forall limit data_names func nodep noeff f plugins k w w' k' cl,
  well_named plugins ->
  build_component limit data_names func nodep noeff f plugins k w = (w', k', Ok tt) ->
  k_simulate k' = Some cl ->
  component_lineage k' w' = Ok (own_values cl).
Proof. exact lineage_after_build. Qed.

(** Changing the configuration without compiling changes neither. *)
Theorem C73_lineage_ignores_set_config :
  forall f configs k w,
  component_lineage k (fst (set_config f configs w)) = component_lineage k w.
Proof. intros f configs k w. rewrite set_config_eq. reflexivity. Qed.

Lemma demo_well_named : well_named demo_plugins.
Proof.
  intros n p H. unfold demo_plugins in H. apply List.find_some in H. destruct H as [_ H].
  apply String.eqb_eq in H. exact H.
Qed.

Example C73_instance : exists w' k' cl,
  demo_build (fst (set_config all_files [("w", VNum 21)] init_world)) = (w', k', Ok tt) /\
  k_simulate k' = Some cl /\
  component_lineage k' w' =
    Ok [("Energy_er", []); ("Quanta_er", [[VNum 21]]); ("S2_er", [[VNum 21]]); ("S1_er", []);
        ("Eff_er", [[VStr "m.json"; VStr "l.json"; VStr "u.json"]])] /\
  well_named demo_plugins.
Proof.
  do 3 eexists. split; [vm_compute; reflexivity|]. split; [reflexivity|].
  split; [vm_compute; reflexivity|exact demo_well_named].
Qed.

(** The config objects are shared by all instances of a class: with a per-likelihood table, once a
    second likelihood is compiled, the lineage of the first reports the second's value. *)
Definition other_k : component :=
  mk_component "er" "other" "" (registry_after demo_calls) false [] [] "" None None None.
Definition per_llh : dict value := [("w", VDict [("llh", VNum 1); ("other", VNum 2)])].
Theorem C73_shared_class_refuted : exists w1 k1 w2 k2 cl,
  demo_build (fst (set_config all_files per_llh init_world)) = (w1, k1, Ok tt) /\
  build_component 20 ["cs2"; "cs1"] "simulate" "batch_size" false all_files demo_plugins other_k w1
    = (w2, k2, Ok tt) /\
  k_simulate k1 = Some cl /\
  get "Quanta_er" (own_values cl) = Some [[VNum 1]] /\
  (exists l, component_lineage k1 w1 = Ok l /\ get "Quanta_er" l = Some [[VNum 1]]) /\
  (exists l, component_lineage k1 w2 = Ok l /\ get "Quanta_er" l = Some [[VNum 2]]).
Proof.
  do 5 eexists. split; [vm_compute; reflexivity|]. split; [vm_compute; reflexivity|].
  split; [reflexivity|]. split; [reflexivity|].
  split; (eexists; split; [vm_compute; reflexivity|reflexivity]).
Qed.

(* ------------------------------------------------------------------ *)
(** * C74 show_config *)

(** The table lists exactly the configs of the plugins needed for the data names, each with its
    default and the value current for the component's likelihood. *)
Theorem C74_exact :
  forall limit data_names k w rows,
  unique_names (k_registry k) -> show_config limit data_names k w = Ok rows ->
  forall r, In r rows <-> exists d p cf,
    Reach (k_registry k) "batch_size" data_names d /\ get d (k_registry k) = Some p /\
    In cf (map snd (p_configs p)) /\ r_option r = c_name cf /\ r_default r = c_default cf /\
    r_applies r = p_provides p /\ shown (contents (w_cache w)) (k_llh k) cf (r_current r).
Proof. exact show_config_exact. Qed.

(** It raises KeyError exactly if a needed config has a per-likelihood table without an entry for
    this likelihood. *)
Theorem C74_key_error :
  forall limit data_names k w deps,
  unique_names (k_registry k) ->
  dependencies_deduce (k_registry k) "batch_size" limit data_names [] = Ok deps ->
  (show_config limit data_names k w = Err KeyError <->
   exists d p cf, Reach (k_registry k) "batch_size" data_names d /\ get d (k_registry k) = Some p /\
     In cf (map snd (p_configs p)) /\ table_lacks (contents (w_cache w)) (k_llh k) cf).
Proof. exact show_config_error. Qed.

(** A current value shown is the value used by the next deduce and compile. *)
Theorem C74_shown_is_used :
  forall limit data_names func nodep noeff f plugins k w w' k' cl n i cf vs v,
  shown (contents (w_cache w)) (k_llh k) cf (Some v) ->
  build_component limit data_names func nodep noeff f plugins k w = (w', k', Ok tt) ->
  k_simulate k' = Some cl -> get n (cl_insts cl) = Some i ->
  plain_kind (c_kind cf) -> constructed cf -> config_value i cf vs ->
  exists v', vs = [v'] /\ value_eqb v v' = true.
Proof.
  intros limit data_names func nodep noeff f plugins k w w' k' cl n i cf vs v Hs Hb Hcl Hi Hk Hd Hv.
  refine (C71_set_value_is_used _ _ _ _ _ _ _ _ _ _ _ _ _ _ _ _ v Hb Hcl Hi Hk Hd Hv _).
  inversion Hs; subst; [left; auto|right; eauto].
Qed.

Example C74_instance :
  show_config 20 ["cs1"; "cs2"] demo_k (fst (set_config all_files per_llh init_world)) =
    Ok [mk_row "w" (Some (VNum 13)) (Some (VNum 1)) ["cs2"];
        mk_row "w" (Some (VNum 13)) (Some (VNum 1)) ["ph"; "el"]] /\
  show_config 20 ["cs1"] demo_k
    (fst (set_config all_files [("w", VDict [("other", VNum 2)])] init_world)) = Err KeyError.
Proof. vm_compute. auto. Qed.

(** The name without dependencies is fixed: a component deduced with another one cannot be shown. *)
Definition pN := mk_plugin "N" ["a"] ["n_events"] [] [] ["self"; "key"; "parameters"; "n_events"].
Theorem C74_other_nodep_refuted :
  let k := mk_component "er" "llh" "" (registry_after [[pN]]) false [] [] "" None None None in
  snd (deduce 20 ["a"] "simulate" "n_events" true k init_world) = Ok tt /\
  show_config 20 ["a"] k init_world = Err ValueError.
Proof. vm_compute. auto. Qed.

Print Assumptions C71_instances.
Print Assumptions C71_graph_values.
Print Assumptions C71_completes.
Print Assumptions C71_set_value_is_used.
Print Assumptions C71_one_value_per_name.
Print Assumptions C71_failed_build.
Print Assumptions C71_imported_class_refuted.
Print Assumptions C71_unpublished_refuted.
Print Assumptions C72_deduce_again_refuted.
Print Assumptions C72_compile_alone.
Print Assumptions C72_needed_parameters_stale_refuted.
Print Assumptions C72_new_map_file_refuted.
Print Assumptions C72_clear_set_build.
Print Assumptions C72_set_then_clear_refuted.
Print Assumptions C72_compile_after_clear.
Print Assumptions C73_lineage_after_build.
Print Assumptions C73_lineage_ignores_set_config.
Print Assumptions C73_shared_class_refuted.
Print Assumptions C74_exact.
Print Assumptions C74_key_error.
Print Assumptions C74_shown_is_used.
Print Assumptions C74_other_nodep_refuted.
