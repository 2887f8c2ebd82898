(** Property C109: what the text of the generated code means. *)
From Verif Require Import Base BaseFacts ModelShare ModelConfig ModelComponent ModelCompile
  SpecComponent PropComponent PropCompile ModelCode SpecCode ProofCode.
Local Open Scope string_scope.

(** Python reads the text of a workflow with plain names as exactly this workflow: the imports,
    one instance per plugin made for the likelihood, and a function with one call per plugin in
    the order of the worksheet that returns the key and the requested data. *)
Theorem C109_reads :
  forall name llh func nodep ws data_names,
  plain name llh func nodep ws data_names ->
  exists m, py_read (source name llh func nodep ws data_names) = Ok m /\
    pm_stmts m = (PImport ["functools"] "partial" :: PImport ["jax"] "jit"
                  :: map (fun wk => PImport ["appletree"; "plugins"] (w_plugin wk)) ws
                  ++ map (fun wk => PInst (instance_name name wk) (w_plugin wk) llh) ws)%list /\
    pd_name (pm_def m) = func /\
    pd_params (pm_def m) = ["key"; nodep; "parameters"] /\
    pd_deco (pm_def m) = (if String.eqb nodep "batch_size" then DStatic "partial" "jit"
                          else DPlain "jit") /\
    pd_body (pm_def m) = map (fun wk => mk_pycall ("key" :: w_provides wk) (instance_name name wk)
                                          ("key" :: "parameters" :: w_depends wk)) ws /\
    pd_key (pm_def m) = "key" /\ pd_return (pm_def m) = data_names.
Proof.
  intros. eexists. split; [now apply read_source|]. repeat split; reflexivity.
Qed.

(** Hence the text determines the workflow. *)
Theorem C109_same_text :
  forall name llh func nodep ws dn name' llh' func' nodep' ws' dn',
  plain name llh func nodep ws dn -> plain name' llh' func' nodep' ws' dn' ->
  source name llh func nodep ws dn = source name' llh' func' nodep' ws' dn' ->
  func = func' /\ nodep = nodep' /\ ws = ws' /\ dn = dn' /\
  (ws <> [] -> name = name' /\ llh = llh').
Proof. exact same_text. Qed.

(** Executing the text of a deduced component, in whatever namespace and after whatever changes of
    configs, fails or succeeds as compile does and leaves the same configs; if it succeeds, the
    function it leaves in the namespace computes what simulate computes. *)
Theorem C109_compile :
  forall calls limit data_names func nodep noeff f plugins k w w1 k1 w2 ns wt nst rt wc kc rc,
  k_registry k = registry_after calls -> unique_names (k_registry k) ->
  deduce limit data_names func nodep noeff k w = (w1, k1, Ok tt) ->
  w_fn w2 = w_fn w1 -> w_heap w2 = w_heap w1 ->
  plain (k_name k) (k_llh k) func nodep (k_worksheet k1) (output_names data_names noeff) ->
  no_clash (k_name k) func nodep (k_worksheet k1) ->
  py_exec f plugins (code_text data_names nodep noeff k1) ns w2 = (wt, nst, rt) ->
  compile f plugins k1 w2 = (wc, kc, rc) ->
  rt = rc /\ w_cache wt = w_cache wc /\ w_class wt = w_class wc /\
  (rc = Ok tt -> forall V isem key n params,
     py_call V isem func nst key n params = simulate V isem kc key n params).
Proof.
  intros until rc. intros Hr Hu Hd Hf Hh P C Ht Hc.
  pose proof (component_text _ _ _ _ _ _ f plugins _ _ _ _ w2 ns Hr Hu Hd Hf Hh P C) as H.
  rewrite Ht, Hc in H. exact H.
Qed.

(* ------------------------------------------------------------------ *)
(** * A concrete case *)

Definition letters (s : string) : bool := forallb (fun c => is_cont c) (chars s).

Lemma letters_ok s : letters s = true -> forall c, In c (chars s) -> In c name_chars.
Proof. unfold letters. rewrite forallb_forall. intros H c Hc. now apply cont_In, H. Qed.

Definition identb (x : string) : bool :=
  (match x with String c _ => is_start c | EmptyString => false end && letters x && not_keyword x)%bool.

Lemma identb_ok x : identb x = true -> identifier x.
Proof.
  unfold identb. intros H. apply andb_prop in H as [H H3]. apply andb_prop in H as [H1 H2].
  repeat split.
  - destruct x as [|c r]; [discriminate|]. exists c, r. split; [reflexivity|]. now apply start_In.
  - now apply letters_ok.
  - unfold not_keyword in H3. apply Bool.negb_true_iff in H3. now apply mem_false.
Qed.

Lemma idents_all l : forallb identb l = true -> forall x, In x l -> identifier x.
Proof. rewrite forallb_forall. intros H x Hx. now apply identb_ok, H. Qed.

Definition demo_ws : list work := map work_of [pE; pQ; pS2; pS1; pF].

(** The text of the diamond-shaped graph of PropComponent.v. *)
Example C109_text_instance :
  exists w1 k1, deduce 20 ["cs2"; "cs1"] "simulate" "batch_size" false demo_k init_world
                  = (w1, k1, Ok tt) /\
  String.concat nl
   ["from functools import partial";
    "from jax import jit";
    "from appletree.plugins import Energy";
    "from appletree.plugins import Quanta";
    "from appletree.plugins import S2";
    "from appletree.plugins import S1";
    "from appletree.plugins import Eff";
    "Energy_er = Energy('llh')";
    "Quanta_er = Quanta('llh')";
    "S2_er = S2('llh')";
    "S1_er = S1('llh')";
    "Eff_er = Eff('llh')";
    "";
    "@partial(jit, static_argnums=(1, ))";
    "def simulate(key, batch_size, parameters):";
    "    key, energy = Energy_er(key, parameters, batch_size)";
    "    key, ph, el = Quanta_er(key, parameters, energy)";
    "    key, cs2 = S2_er(key, parameters, el, ph)";
    "    key, cs1 = S1_er(key, parameters, ph)";
    "    key, eff = Eff_er(key, parameters, cs1, cs2)";
    "    return key, [cs2, cs1, eff]";
    ""] = code_text ["cs2"; "cs1"] "batch_size" false k1.
Proof. do 2 eexists. split; vm_compute; reflexivity. Qed.

Lemma demo_plain : plain "er" "llh" "simulate" "batch_size" demo_ws ["cs2"; "cs1"; "eff"].
Proof.
  constructor.
  - apply letters_ok. reflexivity.
  - intros c Hc. cbn in Hc. cbn. intuition (subst; discriminate).
  - apply identb_ok. reflexivity.
  - apply identb_ok. reflexivity.
  - split; discriminate.
  - intros wk Hw. apply identb_ok. revert wk Hw. rewrite <- Forall_forall. repeat constructor.
  - intros wk x Hw. apply idents_all. revert wk Hw. rewrite <- Forall_forall. repeat constructor.
  - intros wk x Hw. apply idents_all. revert wk Hw. rewrite <- Forall_forall. repeat constructor.
  - apply idents_all. reflexivity.
Qed.

Lemma demo_no_clash : no_clash "er" "simulate" "batch_size" demo_ws.
Proof.
  constructor.
  - intros wk Hw. cbn in Hw. intuition (subst; discriminate).
  - intros wk wk' Hw Hw'. cbn in Hw, Hw'. intuition (subst; discriminate).
  - intros wk Hw. cbn in Hw. split; cbn; intuition (subst; cbn in *; discriminate).
Qed.

Example C109_instance :
  exists w1 k1 wt nst,
    k_registry demo_k = registry_after demo_calls /\ unique_names (k_registry demo_k) /\
    deduce 20 ["cs2"; "cs1"] "simulate" "batch_size" false demo_k init_world = (w1, k1, Ok tt) /\
    plain (k_name demo_k) (k_llh demo_k) "simulate" "batch_size" (k_worksheet k1)
      (output_names ["cs2"; "cs1"] false) /\
    no_clash (k_name demo_k) "simulate" "batch_size" (k_worksheet k1) /\
    py_exec all_files demo_plugins (code_text ["cs2"; "cs1"] "batch_size" false k1) [] w1
      = (wt, nst, Ok tt) /\
    py_call nat demo_isem "simulate" nst 0 7 0 = Ok (5, [41; 13; 71]).
Proof.
  do 4 eexists. split; [reflexivity|]. split; [exact demo_unique|].
  split; [vm_compute; reflexivity|]. split; [exact demo_plain|]. split; [exact demo_no_clash|].
  split; vm_compute; reflexivity.
Qed.

(* ------------------------------------------------------------------ *)
(** * Where the hypotheses matter *)

Definition renamed (name llh : string) : component :=
  mk_component name llh "er_rate" (registry_after demo_calls) false [] [] "" None None None.

Definition demo_text (name llh : string) : string :=
  source name llh "simulate" "batch_size" demo_ws ["cs2"; "cs1"; "eff"].

(** A component called "er-band": deduce succeeds and compile raises SyntaxError. *)
Theorem C109_component_name_refuted :
  exists w1 k1,
    deduce 20 ["cs2"; "cs1"] "simulate" "batch_size" false (renamed "er-band" "llh") init_world
      = (w1, k1, Ok tt) /\
    code_text ["cs2"; "cs1"] "batch_size" false k1 = demo_text "er-band" "llh" /\
    forall f plugins ns w,
      py_exec f plugins (code_text ["cs2"; "cs1"] "batch_size" false k1) ns w
        = (w, ns, Err SyntaxError).
Proof. do 2 eexists. split; [vm_compute; reflexivity|]. split; [vm_compute; reflexivity|]. reflexivity. Qed.

(** The name of a likelihood with a quote in it is a SyntaxError too; with two adjacent quotes or a
    backslash in it the plugins are made for a likelihood of another name. *)
Theorem C109_llh_quote_refuted :
  forall f plugins ns w,
  py_exec f plugins (demo_text "er" "rn220's") ns w = (w, ns, Err SyntaxError).
Proof. intros. vm_compute. reflexivity. Qed.

Theorem C109_llh_other_refuted :
  (exists m, py_read (demo_text "er" "er''sr0") = Ok m /\
     forall x c s, In (PInst x c s) (pm_stmts m) -> s = "ersr0") /\
  (exists m, py_read (demo_text "er" "er\tsr0") = Ok m /\
     forall x c s, In (PInst x c s) (pm_stmts m) -> s = "er" ++ String "009" "sr0").
Proof.
  split; (eexists; split; [vm_compute; reflexivity|]);
    intros x c s H; cbn [pm_stmts In] in H;
    repeat (destruct H as [H|H]; [first [discriminate H|injection H as _ _ <-; reflexivity]|]);
    destruct H.
Qed.

(** Hence a config given per likelihood is not found: executing the text raises ValueError although
    the config has an entry for the likelihood. *)
Definition per_llh (llh : string) : world :=
  mk_world (mk_rdict [("w", VDict [(llh, VNum 21)])] []) [] [] [].

Theorem C109_llh_config_refuted :
  snd (py_exec all_files demo_plugins (demo_text "er" "er\tsr0") [] (per_llh "er\tsr0"))
    = Err ValueError /\
  snd (py_exec all_files demo_plugins (demo_text "er" "er_sr0") [] (per_llh "er_sr0")) = Ok tt.
Proof. split; vm_compute; reflexivity. Qed.

(** Data called like a reserved word of Python: SyntaxError when compiling. *)
Definition pKw := mk_plugin "Decay" ["lambda"] ["batch_size"] [] []
                    ["self"; "key"; "parameters"; "batch_size"].

Theorem C109_keyword_refuted :
  exists w1 k1,
    deduce 20 ["lambda"] "simulate" "batch_size" true
      (mk_component "er" "llh" "" (registry_after [[pKw]]) false [] [] "" None None None) init_world
      = (w1, k1, Ok tt) /\
    forall f plugins ns w,
      py_exec f plugins (code_text ["lambda"] "batch_size" true k1) ns w = (w, ns, Err SyntaxError).
Proof. do 2 eexists. split; vm_compute; reflexivity. Qed.

(** A plugin class called like the instance of another one: the line for the first overwrites the
    second class, and making the second instance calls the first instance. *)
Definition pH1 := mk_plugin "S1" ["a"] ["batch_size"] [] [] ["self"; "key"; "parameters"; "batch_size"].
Definition pH2 := mk_plugin "S1_er" ["b"] ["a"] [] [] ["self"; "key"; "parameters"; "a"].
Definition hidden_plugins (n : string) : option plugin :=
  List.find (fun p => String.eqb (p_name p) n) [pH1; pH2].

Theorem C109_hidden_class_refuted :
  exists w1 k1,
    deduce 20 ["b"] "simulate" "batch_size" true
      (mk_component "er" "llh" "" (registry_after [[pH1; pH2]]) false [] [] "" None None None)
      init_world = (w1, k1, Ok tt) /\
    snd (py_exec all_files hidden_plugins (code_text ["b"] "batch_size" true k1) [] w1) = Err TypeError.
Proof. do 2 eexists. split; vm_compute; reflexivity. Qed.

(** Data called like an instance: compile succeeds, every simulation raises NameError (the
    variable is local to the function and has no value yet). *)
Definition pL := mk_plugin "S1" ["S1_er"] ["batch_size"] [] []
                   ["self"; "key"; "parameters"; "batch_size"].

Theorem C109_hidden_instance_refuted :
  exists w1 k1 wt nst,
    deduce 20 ["S1_er"] "simulate" "batch_size" true
      (mk_component "er" "llh" "" (registry_after [[pL]]) false [] [] "" None None None) init_world
      = (w1, k1, Ok tt) /\
    py_exec all_files (fun _ => Some pL) (code_text ["S1_er"] "batch_size" true k1) [] w1
      = (wt, nst, Ok tt) /\
    forall V isem key n params, py_call V isem "simulate" nst key n params = Err NameError.
Proof.
  do 4 eexists. split; [vm_compute; reflexivity|]. split; [vm_compute; reflexivity|].
  intros. reflexivity.
Qed.

(** The function looks its plugins up in the namespace when it is traced. If compiling again fails
    at a later plugin, the plugins before it have already been replaced: a trace for a new batch
    size then mixes new and old plugins, although compile raised and simulate is the old
    function. *)
Definition pM1 := mk_plugin "M1" ["a"] ["batch_size"] [] [("u", mk_config KConstant "u" None None)]
                    ["self"; "key"; "parameters"; "batch_size"].
Definition pM2 := mk_plugin "M2" ["b"] ["a"] [] [("v", mk_config KConstant "v" None None)]
                    ["self"; "key"; "parameters"; "a"].
Definition mixed_plugins (n : string) : option plugin :=
  List.find (fun p => String.eqb (p_name p) n) [pM1; pM2].
(** A plugin adds the value of its config to its input. *)
Definition adding (i : instance) (args : list Z) : result (list Z) :=
  match args, i_built i with
  | [k; _; x], [mk_built _ [VNum z]] => Ok [k; (x + z)%Z]
  | _, _ => Err TypeError
  end.
Definition mixed_world (u v : value) : world := mk_world (mk_rdict [("u", u); ("v", v)] []) [] [] [].
Definition mixed_text : string :=
  source "er" "llh" "simulate" "batch_size" (map work_of [pM1; pM2]) ["b"].

Theorem C109_failed_recompile_refuted :
  exists w1 ns1 w2 ns2,
    py_exec all_files mixed_plugins mixed_text [] (mixed_world (VNum 1) (VNum 10)) = (w1, ns1, Ok tt) /\
    py_exec all_files mixed_plugins mixed_text ns1
      (mixed_world (VNum 2) (VDict [("other", VNum 20)])) = (w2, ns2, Err ValueError) /\
    py_call Z adding "simulate" ns1 0%Z 100%Z 0%Z = Ok (0%Z, [111%Z]) /\
    py_call Z adding "simulate" ns2 0%Z 100%Z 0%Z = Ok (0%Z, [112%Z]).
Proof. do 4 eexists. repeat split; vm_compute; reflexivity. Qed.

(** A workflow whose name without dependency is "key" is refused when it is compiled. *)
Theorem C109_nodep_refuted :
  forall f plugins ns w,
  py_exec f plugins (source "er" "llh" "simulate" "key" [] ["key"]) ns w = (w, ns, Err SyntaxError).
Proof. intros. vm_compute. reflexivity. Qed.

Print Assumptions C109_reads.
Print Assumptions C109_same_text.
Print Assumptions C109_compile.
Print Assumptions C109_component_name_refuted.
Print Assumptions C109_llh_quote_refuted.
Print Assumptions C109_llh_other_refuted.
Print Assumptions C109_llh_config_refuted.
Print Assumptions C109_keyword_refuted.
Print Assumptions C109_hidden_class_refuted.
Print Assumptions C109_hidden_instance_refuted.
Print Assumptions C109_failed_recompile_refuted.
Print Assumptions C109_nodep_refuted.
