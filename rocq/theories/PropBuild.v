(** Properties C85-C86: components that can be built; the components and plugins that appletree ships.
    Only theorem statements closed by lemmas, their assumptions, and concrete instances. *)
From Verif Require Import Base BaseFacts ModelShare ModelConfig ModelComponent ModelCompile ModelShipped
  SpecComponent SpecConfig SpecCompile SpecBuild ProofComponent ProofWorkflow ProofSim ProofCompile
  ProofBuild ProofShipped PropComponent PropCompile.
Local Open Scope string_scope.

(* ------------------------------------------------------------------ *)
(** * C85 when deduce and compile succeed *)

Theorem C85_builds :
  forall limit data_names func nodep noeff f plugins k w,
  let reg := k_registry k in
  let names := output_names data_names noeff in
  unique_names reg ->
  acyclic reg nodep names -> complete reg nodep names -> List.length (keys reg) + 1 < limit ->
  published plugins reg nodep names ->
  (forall d p, Reach reg nodep names d -> get d reg = Some p -> proper_class p) ->
  separate (used_config reg nodep names) ->
  (forall cf, used_config reg nodep names cf -> usable f (contents (w_cache w)) (k_llh k) cf) ->
  get (k_llh k) (w_fn w) = None ->
  exists w' k', build_component limit data_names func nodep noeff f plugins k w = (w', k', Ok tt).
Proof. exact component_builds. Qed.

(** What plugin.py:33-51 has checked of a class that has an instance. *)
Lemma check_depends_args : forall deps args i, check_depends args i deps = Ok tt -> exists extra, skipn i args = (deps ++ extra)%list.
Proof.
  induction deps as [|d deps IH]; intros args i H; [eexists; reflexivity|]. cbn in H. unfold arg_is in H.
  destruct (nth_error args i) as [a|] eqn:E; [|discriminate H]. cbn in H. destruct (String.eqb a d) eqn:Ea; [|discriminate H]. cbn in H.
  apply String.eqb_eq in Ea. subst a. destruct (IH args (S i) H) as (extra & He). exists extra.
  clear - E He. revert i E He. induction args as [|x args IHa]; intros [|i] E He; cbn in *; try discriminate.
  - injection E as ->. f_equal. exact He.
  - exact (IHa i E He).
Qed.
Lemma instance_proper f p llh c c' bs i : plugin_init f p llh c = (c', bs, Ok i) -> proper_class p.
Proof.
  unfold plugin_init. destruct (p_depends p) as [|d0 ds] eqn:Ed; [discriminate|]. destruct (p_provides p) as [|o os] eqn:Eo; [discriminate|].
  destruct (build_all f (map snd (p_configs p)) llh c) as [[c1 b1] r1]. destruct r1; [|discriminate].
  destruct (sanity_check p) as [[]|e] eqn:Es; [|discriminate]. intros _.
  unfold proper_class. rewrite Ed, Eo. split; [discriminate|]. split; [discriminate|].
  unfold sanity_check, arg_is in Es. destruct (p_args p) as [|a0 [|a1 [|a2 args]]]; cbn in Es; try discriminate.
  - destruct (String.eqb a1 "key"); discriminate.
  - destruct (String.eqb a1 "key") eqn:E1; [|discriminate]. cbn in Es. destruct (String.eqb a2 "parameters") eqn:E2; [|discriminate]. cbn [bind] in Es.
    apply String.eqb_eq in E1. apply String.eqb_eq in E2. subst. rewrite Ed in Es.
    destruct (check_depends_args (d0 :: ds) (a0 :: "key" :: "parameters" :: args)%list 3 Es) as (extra & He). exists a0, extra. cbn in He. rewrite He. reflexivity.
Qed.

(** A component that builds runs proper classes only: every class used takes the key, the parameters and its
    dependencies, in this order and under these names. *)
Theorem C85_proper :
  forall limit data_names func nodep noeff f plugins k w w' k',
  unique_names (k_registry k) ->
  build_component limit data_names func nodep noeff f plugins k w = (w', k', Ok tt) ->
  forall d p, Reach (k_registry k) nodep (output_names data_names noeff) d -> get d (k_registry k) = Some p ->
  exists q, plugins (p_name p) = Some q /\ proper_class q.
Proof.
  intros limit data_names func nodep noeff f plugins k w w' k' Hu H d p Hd Hg.
  destruct (C71_instances _ _ _ _ _ _ _ _ _ _ _ Hu H) as (pr & cl & _ & Hcl & _ & Hi).
  destruct (Hi d p Hd Hg) as (i & Hget & Hp & _).
  destruct (compiled_made _ _ _ _ _ _ _ _ _ _ _ _ H Hcl _ i Hget) as (pn & q & c1 & c2 & _ & Hq & _ & Hinit & _).
  exists q. split; [congruence|]. exact (instance_proper _ _ _ _ _ _ _ Hinit).
Qed.

(** A plugin with its arguments in another order is refused, and so is one without the argument for the key. *)
Example C85_proper_case :
  snd (build_component 20 [] "simulate" "batch_size" false all_files
    (fun _ => Some (mk_plugin "Eff" ["eff"] ["batch_size"] [] [] ["self"; "parameters"; "key"; "batch_size"]))
    (mk_component "c" "llh" "" [("eff", mk_plugin "Eff" ["eff"] ["batch_size"] [] [] [])] false [] [] "" None None None) init_world)
  = Err ValueError /\
  snd (build_component 20 [] "simulate" "batch_size" false all_files
    (fun _ => Some (mk_plugin "Eff" ["eff"] ["batch_size"] [] [] ["self"]))
    (mk_component "c" "llh" "" [("eff", mk_plugin "Eff" ["eff"] ["batch_size"] [] [] [])] false [] [] "" None None None) init_world)
  = Err IndexError.
Proof. split; vm_compute; reflexivity. Qed.

(** The separation is needed: a Constant that goes by the name of a part of a map with uncertainty
    (or the other way round) makes a build fail although each config is usable by itself. *)
Definition part_cf : config := mk_config KConstant "cut_lower" (Some (VNum 3)) None.
Definition pPart := mk_plugin "Part" ["part"] ["batch_size"] [] [("cut_lower", part_cf)]
  ["self"; "key"; "parameters"; "batch_size"].
Definition pCut := mk_plugin "Cut" ["eff"] ["part"] [] [("cut", sig_cf)]
  ["self"; "key"; "parameters"; "part"].
Definition part_plugins (n : string) : option plugin :=
  List.find (fun p => String.eqb (p_name p) n) [pPart; pCut].
Definition part_k : component :=
  mk_component "c" "llh" "" (registry_after [[pPart; pCut]]) false [] [] "" None None None.

Theorem C85_shared_key_refuted :
  (forall cf, used_config (k_registry part_k) "batch_size" ["eff"] cf ->
     usable all_files (contents (w_cache init_world)) "llh" cf) /\
  complete (k_registry part_k) "batch_size" ["eff"] /\
  snd (build_component 20 [] "simulate" "batch_size" false all_files part_plugins part_k init_world)
    = Err TypeError.
Proof.
  assert (R : k_registry part_k = [("part", pPart); ("eff", pCut)]) by reflexivity.
  split; [|split].
  - intros cf (d & p & _ & Hg & Hi). rewrite R in Hg. apply get_In in Hg. cbn [In] in Hg.
    destruct Hg as [Hg|[Hg|[]]]; injection Hg as <- <-; cbn in Hi; destruct Hi as [<-|[]].
    + exists (VNum 3). reflexivity.
    + assert (F : forall s, found all_files [] s) by (intros s; exists s; reflexivity).
      split; [|do 4 eexists; split; [reflexivity|constructor]].
      do 4 eexists. split; [reflexivity|]. split; [constructor|]. cbn. auto 8.
  - intros d Hd. rewrite R. induction Hd as [d [<-|[]] _|d p x Hd IH Hg Hx Hne]; [eexists; reflexivity|].
    rewrite R in Hg. apply get_In in Hg. cbn [In] in Hg.
    destruct Hg as [Hg|[Hg|[]]]; injection Hg as <- <-; cbn in Hx; destruct Hx as [<-|[]].
    + congruence.
    + eexists. reflexivity.
  - vm_compute. reflexivity.
Qed.

(* ------------------------------------------------------------------ *)
(** * C86 the components that appletree ships *)

(** The constructors never raise, and any shipped plugins can be registered on top, in any number and
    order. *)
Theorem C86_registration :
  forall c calls more,
  In (c, calls) shipped_components ->
  (forall ps p, In ps more -> In p ps -> In p star_imports) ->
  forall pre ps post, (calls ++ more)%list = (pre ++ ps :: post)%list ->
  snd (register ps (registry_after pre)) = Ok tt.
Proof.
  intros c calls more Hc Hm. apply registers_accepted. intros ps p Hps Hp.
  apply in_app_or in Hps. destruct Hps as [Hps|Hps]; [eapply shipped_any; eauto|].
  right. eapply Hm; eauto.
Qed.

(** Whatever observables of a shipped component are requested, deduce and compile succeed in a fresh
    likelihood whose configuration is usable, and the compiled function returns for every
    observable the value of the dependency graph, computed by instances of the registered classes. *)
Theorem C86_simulates :
  forall c calls limit data_names func noeff f k w,
  In (c, calls) shipped_components -> k_registry k = registry_after calls -> 60 < limit ->
  (forall d, In d data_names ->
     d = "batch_size" \/ exists ps p, In ps calls /\ In p ps /\ In d (p_provides p)) ->
  (forall cf, used_config (k_registry k) "batch_size" (output_names data_names noeff) cf ->
     usable f (contents (w_cache w)) (k_llh k) cf) ->
  get (k_llh k) (w_fn w) = None ->
  exists w' k',
    build_component limit data_names func "batch_size" noeff f appletree_plugins k w = (w', k', Ok tt) /\
    forall (V : Type) (isem : instance -> list V -> result (list V)) key n params,
    (forall i args, List.length args = 2 + List.length (p_depends (i_class i)) ->
       exists key' vs, isem i args = Ok (key' :: vs) /\
         List.length vs = List.length (p_provides (i_class i))) ->
    exists key' outs (E : string -> option V),
      simulate V isem k' key n params = Ok (key', outs) /\
      map E (output_names data_names noeff) = map Some outs /\
      E "batch_size" = Some n /\
      forall d p, Reach (k_registry k) "batch_size" (output_names data_names noeff) d ->
        get d (k_registry k) = Some p ->
        exists i k1 k2 argv vs,
          i_class i = p /\ i_llh i = Some (k_llh k) /\
          map E (p_depends p) = map Some argv /\
          isem i (k1 :: params :: argv) = Ok (k2 :: vs) /\
          map E (p_provides p) = map Some vs.
Proof.
  intros c calls limit data_names func noeff f k w Hc Hk Hl Hn Hu Hfn.
  assert (Hu' : forall cf, used_config (registry_after calls) "batch_size" (output_names data_names noeff) cf ->
     usable f (contents (w_cache w)) (k_llh k) cf) by (rewrite <- Hk; exact Hu).
  destruct (shipped_builds c calls Hc limit data_names func noeff f k w Hk Hl Hn Hu' Hfn) as (w' & k' & H).
  exists w', k'. split; [exact H|]. intros V isem key n params Har.
  pose proof (shipped_unique c calls Hc) as Hun. rewrite <- Hk in Hun.
  pose proof (shipped_published c calls Hc (output_names data_names noeff)) as Hp. rewrite <- Hk in Hp.
  pose proof (shipped_consistent c calls Hc (output_names data_names noeff)) as Hco. rewrite <- Hk in Hco.
  destruct (C71_completes V isem calls limit data_names func "batch_size" noeff f appletree_plugins k w w' k'
    key n params Hk Hun ltac:(discriminate) ltac:(discriminate) Hp Har H) as (key' & outs & Hs & _).
  destruct (C71_graph_values V isem calls limit data_names func "batch_size" noeff f appletree_plugins k w w' k'
    key n params key' outs Hk Hun Hco H Hs) as (E & E1 & E2 & E3).
  exists key', outs, E. split; [exact Hs|]. split; [exact E3|]. split; [exact E1|].
  intros d p Hd Hg. destruct (E2 d p Hd Hg) as (i & k1 & k2 & argv & vs & P1 & P2 & P3).
  exists i, k1, k2, argv, vs. split; [|split; [exact P2|exact P3]].
  rewrite (Hp d p Hd Hg) in P1. congruence.
Qed.

(** Any other name is refused with a ValueError. *)
Theorem C86_unknown_name :
  forall c calls limit data_names func noeff k w d,
  In (c, calls) shipped_components -> k_registry k = registry_after calls -> 60 < limit ->
  In d data_names -> d <> "batch_size" ->
  (forall ps p, In ps calls -> In p ps -> ~ In d (p_provides p)) ->
  snd (deduce limit data_names func "batch_size" noeff k w) = Err ValueError.
Proof.
  intros c calls limit data_names func noeff k w d Hc Hk Hl Hd Hne Hno.
  apply (shipped_unknown c calls Hc limit data_names func noeff k w d); auto.
  assert (He : d <> "eff").
  { intros ->. destruct (component_good c calls Hc) as (_ & _ & G & _).
    apply registry_after_has in G; [|apply (shipped_any c); exact Hc].
    destruct G as (ps & p & H1 & H2 & H3). exact (Hno ps p H1 H2 H3). }
  unfold output_names.
  assert (In d (if mem "eff" data_names then remove_first "eff" data_names else data_names)).
  { destruct (mem "eff" data_names); [|exact Hd]. clear Hno. induction data_names as [|x l IH]; [destruct Hd|].
    cbn [remove_first]. destruct (String.eqb "eff" x) eqn:E.
    - apply String.eqb_eq in E. destruct Hd as [->|Hd]; [congruence|exact Hd].
    - destruct Hd as [->|Hd]; [left; reflexivity|right; auto]. }
  destruct noeff; [assumption|]. apply in_or_app. auto.
Qed.

(** Without any configuration, finding the default files is enough. *)
Theorem C86_default_configuration :
  forall c calls limit data_names func noeff f k w,
  In (c, calls) shipped_components -> k_registry k = registry_after calls -> 60 < limit ->
  (forall d, In d data_names -> exists ps p, In ps calls /\ In p ps /\ In d (p_provides p)) ->
  (forall s, In s default_files -> exists p, path_of f [] s p /\ found f [] p) ->
  contents (w_cache w) = [] -> get (k_llh k) (w_fn w) = None ->
  exists w' k', build_component limit data_names func "batch_size" noeff f appletree_plugins k w
    = (w', k', Ok tt).
Proof.
  intros c calls limit data_names func noeff f k w Hc Hk Hl Hn Hf Hw Hfn.
  apply (shipped_builds c calls Hc); auto.
  intros cf (d & p & _ & Hg & Hi). rewrite Hw. apply default_usable; [|exact Hf].
  destruct (component_good c calls Hc) as (_ & _ & _ & _ & G). destruct (G d p Hg) as [Hp _].
  apply (shipped_configs_complete p); [|exact Hi]. eapply published_in. exact Hp.
Qed.

Definition nr_component : component :=
  mk_component "nr" "nr_llh" "nr_rate" (registry_after calls_NR) false [] [] "" None None None.

Lemma nr_shipped : In ("NR", calls_NR) shipped_components.
Proof. unfold shipped_components. do 4 right. left. reflexivity. Qed.

(** The NR component with the files at hand: the requested observables, and the classes used, in the
    order of the generated code. *)
Example C86_case : exists w' k' cl,
  build_component 61 ["cs1"; "cs2"] "nr_sim" "batch_size" false all_files appletree_plugins nr_component
    init_world = (w', k', Ok tt) /\
  k_simulate k' = Some cl /\
  map fst (cl_insts cl) =
    ["PositionSpectra_nr"; "FixedEnergySpectra_nr"; "ChargeYield_nr"; "DriftLoss_nr";
     "NumberElectron_nr"; "S2LCE_nr"; "ElectronDrifted_nr"; "S2PE_nr"; "S2_nr"; "LightYield_nr";
     "S1LCE_nr"; "NumberPhoton_nr"; "PhotonDetection_nr"; "S1PE_nr"; "S1_nr"; "S2CutAccept_nr";
     "S1CutAccept_nr"; "S1ReconEff_nr"; "S2Threshold_nr"; "PositionRecon_nr"; "S2Correction_nr";
     "S1Correction_nr"; "Eff_nr"; "cS2_nr"; "cS1_nr"] /\
  k_needed k' = ["nr_rate"; "t_qy"; "drift_velocity"; "elife_sigma"; "g2"; "gas_gain"; "p_dpe"; "t_ly";
    "g1"; "s2_cut_acc_sigma"; "s1_cut_acc_sigma"; "s2_threshold"].
Proof.
  do 3 eexists. split; [vm_compute; reflexivity|]. split; [reflexivity|]. split; reflexivity.
Qed.

(** What the theorem says of it, with the semantics of PropCompile.v. *)
Example C86_case_simulates : exists w' k',
  build_component 61 ["cs1"; "cs2"] "nr_sim" "batch_size" false all_files appletree_plugins nr_component
    init_world = (w', k', Ok tt) /\ exists key' outs, simulate nat demo_isem k' 0 7 0 = Ok (key', outs).
Proof.
  destruct (C86_simulates "NR" calls_NR 61 ["cs1"; "cs2"] "nr_sim" false all_files nr_component init_world)
    as (w' & k' & H & S).
  - exact nr_shipped.
  - reflexivity.
  - lia.
  - intros d [<-|[<-|[]]]; right.
    + exists [reconstruction_cS1], reconstruction_cS1. split; [|split; left; reflexivity].
      apply (in_map (fun p => [p])). apply in_or_app. right. apply in_or_app. right. apply in_or_app. right.
      apply in_or_app. left. unfold dir_reconstruction. do 6 right. left. reflexivity.
    + exists [reconstruction_cS2], reconstruction_cS2. split; [|split; left; reflexivity].
      apply (in_map (fun p => [p])). apply in_or_app. right. apply in_or_app. right. apply in_or_app. right.
      apply in_or_app. left. unfold dir_reconstruction. do 7 right. left. reflexivity.
  - intros cf (d & p & _ & Hg & Hi). apply default_usable.
    + destruct (component_good "NR" calls_NR nr_shipped) as (_ & _ & _ & _ & G).
      destruct (G d p Hg) as [Hp _]. apply (shipped_configs_complete p); [|exact Hi].
      eapply published_in. exact Hp.
    + intros s _. exists s. split; [reflexivity|]. exists s. reflexivity.
  - reflexivity.
  - exists w', k'. split; [exact H|]. destruct (S nat demo_isem 0 7 0) as (key' & outs & E & Hs0 & _).
    + intros i args Ha. destruct args as [|a [|b xs]]; cbn in Ha; try discriminate Ha.
      eexists. eexists. split; [reflexivity|]. rewrite map_length, seq_length. reflexivity.
    + exists key', outs. exact Hs0.
Qed.

(** An observable that no plugin of the component provides. *)
Example C86_case_unknown :
  snd (deduce 61 ["cs1"; "num_quanta"] "nr_sim" "batch_size" false nr_component init_world) = Err ValueError.
Proof. vm_compute. reflexivity. Qed.

(** Both modules of NEST yields define a class BandEnergiesClipEff; the one published is that of
    er_nestv2. The efficiency of the components for NEST comes from Eff, which is registered last. *)
Example C86_case_efficiency :
  appletree_plugins "BandEnergiesClipEff" = Some er_nestv2_BandEnergiesClipEff /\
  get "eff" (registry_after calls_ERBandNestV2) = Some efficiency_Eff /\
  get "eff" (registry_after calls_BandEnergiesYields) = Some er_nestv2_BandEnergiesClipEff.
Proof. repeat split. Qed.

(** An installed package: the directory appletree/maps and nothing else. *)
Definition shipped_maps : list string :=
  ["_3fold_recon_eff.json"; "_efield_map.json"; "_elife.json"; "_gas_gain_relative.json"; "_nr_ly.json";
   "_nr_qy.json"; "_nr_spectrum.json"; "_posrec_reso.json"; "_s1_bias.json"; "_s1_correction.json";
   "_s1_cut_acc.json"; "_s1_smearing.json"; "_s2_bias.json"; "_s2_correction.json"; "_s2_cut_acc.json";
   "_s2_smearing.json"].
Definition package_fs : fs :=
  mk_fs (fun p => mem p (map (fun n => "/pkg/maps/" ++ n) shipped_maps))
        (fun p => mem p (map (fun n => "/pkg/maps/" ++ n) shipped_maps))
        (fun d => "/pkg/" ++ d) false [] (fun _ => "") true (fun _ => None).

(** Every file named by a default is shipped, so the hypothesis of C86_default_configuration holds. *)
Example C86_case_package : forall s, In s default_files ->
  exists p, path_of package_fs [] s p /\ found package_fs [] p.
Proof.
  intros s H. assert (E : forallb (fun s => match snd (get_file_path package_fs s (mk_rdict [] [])) with
    | Ok p => is_ok (snd (get_file_path package_fs p (mk_rdict [] []))) | Err _ => false end) default_files
    = true) by (vm_compute; reflexivity).
  rewrite forallb_forall in E. specialize (E s H). unfold path_of, found, path_of.
  destruct (snd (get_file_path package_fs s (mk_rdict [] []))) as [p|e]; [|discriminate E].
  exists p. split; [reflexivity|].
  destruct (snd (get_file_path package_fs p (mk_rdict [] []))) as [q|e]; [|discriminate E]. eauto.
Qed.

Print Assumptions C85_builds.
Print Assumptions C85_proper.
Print Assumptions C85_shared_key_refuted.
Print Assumptions C86_registration.
Print Assumptions C86_simulates.
Print Assumptions C86_unknown_name.
Print Assumptions C86_default_configuration.
