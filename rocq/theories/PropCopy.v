(** Property C107: copies of components. Only theorem statements closed by lemmas, their assumptions, and
    concrete instances. *)
From Verif Require Import Base BaseFacts ModelShare ModelConfig ModelComponent SpecComponent SpecConfig ModelCompile
  SpecCompile ProofCompile PropComponent PropCompile ModelLineage SpecLineage PropLineage ModelCopy SpecCopy ProofCopy
  ModelFloat ModelLikelihood.
Local Open Scope string_scope.

(* ------------------------------------------------------------------ *)
(** * C107 new_component *)

(** A copy is made whenever its binning can be: it is refused, with a ValueError, exactly if the binning
    is to be passed and there is none, or one of a kind that does not exist. *)
Theorem C107_refused : forall cls s llh pass e,
  new_component cls s llh pass = Err e <->
  e = ValueError /\ pass = true /\
  (cs_bins s = None \/ exists b ty, cs_bins s = Some (b, ty) /\
     ~ In ty [VNone; VStr "irreg"; VStr "meshgrid"]).
Proof. exact copy_refused. Qed.

(** What a copy takes from the original is the suffixed name, the class, and the binning if asked for. It
    is neither deduced nor compiled, its plugins are those of the class, and its rate_name is that of the
    class. *)
Theorem C107_copy : forall cls s llh pass s',
  new_component cls s llh pass = Ok s' ->
  k_name (cs_k s') = k_name (cs_k s) ++ "_copy" /\
  (forall l, llh = Some l -> k_llh (cs_k s') = l) /\
  (llh = None -> k_llh (cs_k s') = cc_name cls ++ "_llh") /\
  k_registry (cs_k s') = cc_registry cls /\ k_rate (cs_k s') = cc_rate cls /\
  cs_norm s' = cc_norm cls /\ cs_eps s' = cc_eps cls /\ k_noeff (cs_k s') = false /\
  k_code (cs_k s') = None /\ k_compile (cs_k s') = None /\ k_simulate (cs_k s') = None /\
  k_needed (cs_k s') = [] /\
  (pass = true -> cs_bins s' = cs_bins s /\ cs_bins s' <> None) /\ (pass = false -> cs_bins s' = None).
Proof. exact copy_fields. Qed.

(** The copy of a built component, deduced and compiled for its own likelihood, at any later time,
    simulates the same events for every key, batch size and parameters, if its likelihood finds the same
    in the configuration for every config of the plugins that are used, and no plugin was registered on
    the original itself. *)
Theorem C107_same_events :
  forall code V (call : code -> option string -> (string -> option held) -> list V -> result (list V))
    limit names func func' nodep noeff d plugins src cls s0 w0 w1 s llh pass s2 w2 w3 s' pr,
  reads_attributes call -> ignores_llh call ->
  k_registry (cs_k s0) = cc_registry cls ->
  build_sim limit names func nodep noeff (d_fs d) plugins s0 w0 = (w1, s, Ok tt) ->
  new_component cls s llh pass = Ok s2 ->
  build_sim limit names func' nodep noeff (d_fs d) plugins s2 w2 = (w3, s', Ok tt) ->
  k_code (cs_k s) = Some pr ->
  (forall pn p cf, In pn (pr_imports pr) -> plugins pn = Some p -> In cf (map snd (p_configs p)) ->
     passes (contents (w_cache w1)) (k_llh (cs_k s)) (contents (w_cache w2)) (k_llh (cs_k s2)) cf) ->
  get "url_base" (contents (w_cache w1)) = get "url_base" (contents (w_cache w3)) ->
  forall key batch params,
    sim code V call d src (w_cache w3) s' key batch params = sim code V call d src (w_cache w1) s key batch params.
Proof. exact copy_events. Qed.

(** Made from a component that a likelihood registered, and given its rate_name, the copy has the same
    histograms too. *)
Theorem C107_same_histogram :
  forall code V (call : code -> option string -> (string -> option held) -> list V -> result (list V)) ones post
    limit names func func' nodep noeff d plugins src cls name l0 bins s0 w0 w1 s llh s2 w2 w3 s' pr,
  reads_attributes call -> ignores_llh call ->
  registered cls name l0 bins = Ok s0 ->
  build_sim limit names func nodep noeff (d_fs d) plugins s0 w0 = (w1, s, Ok tt) ->
  new_component cls s llh true = Ok s2 ->
  build_sim limit names func' nodep noeff (d_fs d) plugins (set_rate (name ++ "_rate") s2) w2 = (w3, s', Ok tt) ->
  k_code (cs_k s) = Some pr ->
  (forall pn p cf, In pn (pr_imports pr) -> plugins pn = Some p -> In cf (map snd (p_configs p)) ->
     passes (contents (w_cache w1)) l0 (contents (w_cache w2)) (k_llh (cs_k s2)) cf) ->
  get "url_base" (contents (w_cache w1)) = get "url_base" (contents (w_cache w3)) ->
  forall key batch params,
    simulate_hist code V call ones post d src (w_cache w3) s' key batch params =
    simulate_hist code V call ones post d src (w_cache w1) s key batch params.
Proof. exact copy_histogram. Qed.

(** Made and built right after the original, for a likelihood that is not mentioned anywhere, a copy finds
    the same in every config that is not given per likelihood: also in maps with a scaler. *)
Theorem C107_shared_configs :
  forall limit names func nodep noeff f plugins s0 w0 w1 s pr b pn p cf,
  build_sim limit names func nodep noeff f plugins s0 w0 = (w1, s, Ok tt) ->
  k_code (cs_k s) = Some pr ->
  In pn (pr_imports pr) -> plugins pn = Some p -> In cf (map snd (p_configs p)) ->
  newcomer b (contents (w_cache w1)) -> shared_config (contents (w_cache w1)) cf ->
  passes (contents (w_cache w1)) (k_llh (cs_k s)) (contents (w_cache w1)) b cf.
Proof. exact copy_passes. Qed.

(** A copy for a likelihood name that was built before is never built, with whatever flags; in particular
    the second copy with the default name. *)
Theorem C107_llh_taken :
  forall limit names func nodep noeff f plugins s w w' s' r,
  has (k_llh (cs_k s)) (w_fn w) = true ->
  build_sim limit names func nodep noeff f plugins s w = (w', s', r) -> r <> Ok tt.
Proof. exact copy_taken. Qed.
Theorem C107_second_default_refuted :
  forall cls s1 s2 pass pass' a b limit names func nodep noeff f plugins w w1 a'
    limit' names' func' nodep' noeff' f' plugins' w2 b' r,
  new_component cls s1 None pass = Ok a -> new_component cls s2 None pass' = Ok b ->
  build_sim limit names func nodep noeff f plugins a w = (w1, a', Ok tt) ->
  build_sim limit' names' func' nodep' noeff' f' plugins' b w1 = (w2, b', r) -> r <> Ok tt.
Proof. exact copy_second. Qed.

(** ComponentFixed cannot be copied: its file name is not passed on. *)
Theorem C107_fixed_refuted : forall has_bins pass, new_fixed_component has_bins pass None = Err ValueError.
Proof. intros [|] [|]; reflexivity. Qed.

(** A copy that is not given a rate_name has none: no parameter is its rate, and it cannot be normalised
    with any parameters. *)
Theorem C107_rate_refuted :
  forall limit names func nodep noeff f plugins cls s llh pass s2 w2 w3 s',
  cc_rate cls = "" ->
  new_component cls s llh pass = Ok s2 ->
  build_sim limit names func nodep noeff f plugins s2 w2 = (w3, s', Ok tt) ->
  forall nt mcinput h p batch, get "" p = None ->
  exists e, get_normalization nt (k_rate (cs_k s')) mcinput h p batch = Err e.
Proof. exact copy_rate. Qed.

(* ------------------------------------------------------------------ *)
(** * Concrete cases *)

Definition demo_class := mk_class "ERBand" (registry_after demo_calls) "on_pdf" true "".
Definition demo_sims := build_sim 20 ["cs2"; "cs1"] "simulate" "batch_size" false all_files demo_plugins.

Lemma demo_call_ignores : ignores_llh demo_call.
Proof. intros co l l' h args. reflexivity. Qed.

(** A copy for llh2: the plugins use a constant and a map with a scaler, whose files are kept in a table with
    an entry for llh only; building the copy adds one for llh2. *)
Example C107_instance : exists s0 w1 s s2 w3 s' pr,
  registered demo_class "er" "llh" demo_bins = Ok s0 /\
  demo_sims s0 init_world = (w1, s, Ok tt) /\
  new_component demo_class s (Some "llh2") true = Ok s2 /\
  demo_sims (set_rate "er_rate" s2) w1 = (w3, s', Ok tt) /\
  k_code (cs_k s) = Some pr /\ In "Eff" (pr_imports pr) /\
  newcomer "llh2" (contents (w_cache w1)) /\
  (forall pn p cf, In pn (pr_imports pr) -> demo_plugins pn = Some p -> In cf (map snd (p_configs p)) ->
     shared_config (contents (w_cache w1)) cf) /\
  get "url_base" (contents (w_cache w1)) = get "url_base" (contents (w_cache w3)) /\
  get "cut_median" (contents (w_cache w1)) = Some (VDict [("llh", VStr "m.json")]) /\
  get "cut_median" (contents (w_cache w3)) = Some (VDict [("llh", VStr "m.json"); ("llh2", VStr "m.json")]) /\
  k_name (cs_k s') = "er_copy" /\
  sim _ nat demo_call disk_a demo_src (w_cache w1) s 0 10 0 = Ok (5, [65; 26; 115]) /\
  sim _ nat demo_call disk_a demo_src (w_cache w3) s' 0 10 0 = Ok (5, [65; 26; 115]).
Proof.
  do 7 eexists. do 3 (split; [vm_compute; reflexivity|]). split; [vm_compute; reflexivity|].
  split; [reflexivity|]. split; [cbn; tauto|]. split; [|split].
  - intros n d H. cbn [get contents w_cache] in H.
    repeat (destruct (String.eqb n _) in H; [try discriminate H; injection H as <-; reflexivity|]). discriminate.
  - intros pn p cf _ H Hi. apply List.find_some in H. destruct H as [H _].
    cbn in H. repeat destruct H as [<-|H]; try contradiction; cbn in Hi;
      repeat destruct Hi as [<-|Hi]; try contradiction; intros d; vm_compute; discriminate.
  - repeat (split; [vm_compute; reflexivity|]). vm_compute. reflexivity.
Qed.

(** The copies that are refused: without binning, and of a ComponentFixed. *)
Example C107_refused_case : exists s0,
  new_object demo_class (Some "er") (Some "llh") None = Ok s0 /\
  new_component demo_class s0 None true = Err ValueError /\
  exists s2, new_component demo_class s0 None false = Ok s2 /\ k_llh (cs_k s2) = "ERBand_llh".
Proof. eexists. split; [reflexivity|]. split; [reflexivity|]. eexists. split; reflexivity. Qed.

(** Two copies without a likelihood name: only the first is built. *)
Example C107_second_default_case : exists s0 s1 a w1 a',
  registered demo_class "er" "llh" demo_bins = Ok s0 /\ registered demo_class "nr" "llh" demo_bins = Ok s1 /\
  new_component demo_class s0 None true = Ok a /\ demo_sims a init_world = (w1, a', Ok tt) /\
  exists b, new_component demo_class s1 None true = Ok b /\ snd (demo_sims b w1) = Err RuntimeError.
Proof.
  do 5 eexists. split; [reflexivity|]. split; [reflexivity|]. split; [reflexivity|].
  split; [vm_compute; reflexivity|]. eexists. split; [reflexivity|]. vm_compute. reflexivity.
Qed.

(** A copy of a component that can be normalised, without rate. *)
Example C107_rate_case : exists s0 w1 s s2 w3 s',
  registered demo_class "er" "llh" demo_bins = Ok s0 /\ demo_sims s0 init_world = (w1, s, Ok tt) /\
  new_component demo_class s (Some "llh2") true = Ok s2 /\ demo_sims s2 w1 = (w3, s', Ok tt) /\
  k_rate (cs_k s) = "er_rate" /\ k_rate (cs_k s') = "" /\
  In "er_rate" (k_needed (cs_k s)) /\ ~ In "er_rate" (k_needed (cs_k s')).
Proof.
  do 6 eexists. do 4 (split; [vm_compute; reflexivity|]). do 2 (split; [reflexivity|]).
  split; [cbn; tauto|]. cbn. intuition discriminate.
Qed.

(** A config given per likelihood has no entry for the copy: it is not built. *)
Theorem C107_per_llh_refuted : exists s0 w1 s s2,
  registered demo_class "er" "llh" demo_bins = Ok s0 /\
  demo_sims s0 (fst (set_config all_files [("w", VDict [("llh", VNum 5)])] init_world)) = (w1, s, Ok tt) /\
  new_component demo_class s (Some "llh2") true = Ok s2 /\
  snd (demo_sims s2 w1) = Err ValueError.
Proof. do 4 eexists. do 3 (split; [vm_compute; reflexivity|]). vm_compute. reflexivity. Qed.

(** A plugin registered on the original, replacing one of its class, is not in the copy, which
    silently simulates with the plugin of the class. *)
Definition pS1b := mk_plugin "S1b" ["cs1"] ["el"] ["g1"] [] ["self"; "key"; "parameters"; "el"].
Definition more_plugins (n : string) : option plugin := if String.eqb n "S1b" then Some pS1b else demo_plugins n.
Theorem C107_registered_refuted : exists s0 s1 w1 s s2 w3 s',
  registered demo_class "er" "llh" demo_bins = Ok s0 /\
  cs_k s1 = mk_component "er" "llh" "er_rate" (fst (register [pS1b] (k_registry (cs_k s0)))) false [] [] "" None None None /\
  build_sim 20 ["cs2"; "cs1"] "simulate" "batch_size" false all_files more_plugins s1 init_world = (w1, s, Ok tt) /\
  new_component demo_class s (Some "llh2") true = Ok s2 /\
  build_sim 20 ["cs2"; "cs1"] "simulate" "batch_size" false all_files more_plugins s2 w1 = (w3, s', Ok tt) /\
  sim _ nat demo_call disk_a demo_src (w_cache w1) s 0 10 0 <> sim _ nat demo_call disk_a demo_src (w_cache w3) s' 0 10 0.
Proof.
  eexists. exists (demo_sim (mk_component "er" "llh" "er_rate" (fst (register [pS1b] (registry_after demo_calls))) false [] [] "" None None None)).
  do 5 eexists. split; [reflexivity|]. split; [reflexivity|]. do 3 (split; [vm_compute; reflexivity|]). vm_compute. discriminate.
Qed.

(** Two classes of binning that do not exist. *)
Example C107_bins_type_case : exists s0 b,
  cs_bins s0 = Some (b, VStr "square") /\ new_component demo_class s0 None true = Err ValueError /\
  registered demo_class "er" "llh" (b, VStr "square") = Err ValueError.
Proof. exists (mk_csim (cs_k (demo_sim demo_k)) "on_pdf" (Some (VList [], VStr "square")) true). eexists. split; [reflexivity|]. split; reflexivity. Qed.

Print Assumptions C107_refused.
Print Assumptions C107_copy.
Print Assumptions C107_same_events.
Print Assumptions C107_same_histogram.
Print Assumptions C107_shared_configs.
Print Assumptions C107_llh_taken.
Print Assumptions C107_second_default_refuted.
Print Assumptions C107_fixed_refuted.
Print Assumptions C107_rate_refuted.
Print Assumptions C107_per_llh_refuted.
Print Assumptions C107_registered_refuted.
