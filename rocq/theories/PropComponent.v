(** Properties C01-C08 and C10: workflow deduction, registration and the function table.
    Only theorem statements closed by lemmas, their assumptions, and concrete instances. *)
From Verif Require Import Base BaseFacts ModelShare ModelConfig ModelComponent SpecComponent
  ProofComponent ProofWorkflow ProofSim ProofHistory ProofComponentTop.
From Coq Require Import Relations.
Local Open Scope string_scope.

(* ------------------------------------------------------------------ *)
(** * A concrete diamond-shaped graph with a multi-output plugin *)

Definition sig_default : value := VList [VStr "m.json"; VStr "l.json"; VStr "u.json"; VStr "t_sig"].
Definition sig_cf : config := mk_config KSigmaMap "cut" (Some sig_default) None.
Definition num_cf : config := mk_config KConstant "w" (Some (VNum 13)) None.
Definition pE := mk_plugin "Energy" ["energy"] ["batch_size"] [] [] ["self"; "key"; "parameters"; "batch_size"].
Definition pQ := mk_plugin "Quanta" ["ph"; "el"] ["energy"] ["w_fano"] [("w", num_cf)]
                   ["self"; "key"; "parameters"; "energy"].
Definition pS1 := mk_plugin "S1" ["cs1"] ["ph"] ["g1"] [] ["self"; "key"; "parameters"; "ph"].
Definition pS2 := mk_plugin "S2" ["cs2"] ["el"; "ph"] ["g2"] [("w", num_cf)] ["self"; "key"; "parameters"; "el"; "ph"].
Definition pF := mk_plugin "Eff" ["eff"] ["cs1"; "cs2"] [] [("cut", sig_cf)] ["self"; "key"; "parameters"; "cs1"; "cs2"].
Definition pX := mk_plugin "Unused" ["zzz"] ["cs1"] ["unused_par"] [] ["self"; "key"; "parameters"; "cs1"].
Definition demo_calls := [[pE; pQ]; [pS1; pX]; [pS2; pF]].
Definition demo_k : component :=
  mk_component "er" "llh" "er_rate" (registry_after demo_calls) false [] ["stale"] "" None None None.
Definition demo_deduce := deduce 20 ["cs2"; "eff"; "cs1"] "simulate" "batch_size" false demo_k init_world.

Example demo_ok : exists w' k', demo_deduce = (w', k', Ok tt) /\
  map w_plugin (k_worksheet k') = ["Energy"; "Quanta"; "S2"; "S1"; "Eff"] /\
  k_needed k' = ["er_rate"; "w_fano"; "g2"; "g1"; "t_sig"].
Proof. vm_compute. do 2 eexists. repeat split. Qed.

Lemma demo_registry :
  k_registry demo_k = [("energy", pE); ("ph", pQ); ("el", pQ); ("cs1", pS1); ("zzz", pX);
                       ("cs2", pS2); ("eff", pF)].
Proof. vm_compute. reflexivity. Qed.

Example demo_unique : unique_names (k_registry demo_k).
Proof.
  intros d p d' q Hp Hq. apply get_In in Hp. apply get_In in Hq.
  rewrite demo_registry in Hp, Hq. cbn [In] in Hp, Hq.
  intuition (try congruence); repeat match goal with H : (_, _) = (_, _) |- _ => injection H as <- <- end;
    cbn in *; congruence.
Qed.

(* ------------------------------------------------------------------ *)
(** * C01 *)

(** In generated code every plugin call reads only the no-dependency name and names assigned
    earlier, and every returned name is assigned (the key and the parameters, read by every
    call, are arguments of the function). *)
Theorem C01_no_undefined_variable :
  forall calls limit data_names func nodep noeff k w w' k',
  k_registry k = registry_after calls -> unique_names (k_registry k) ->
  deduce limit data_names func nodep noeff k w = (w', k', Ok tt) ->
  exists pr, k_code k' = Some pr /\ pr_nodep pr = nodep /\
    pr_return pr = output_names data_names noeff /\
    reads_defined [nodep] (pr_body pr) /\
    (forall x, In x (pr_return pr) -> x = nodep \/ In x (assigned (pr_body pr))).
Proof. exact top_defined. Qed.

(** Hence, if every plugin returns a key and one value per name it provides, the simulation
    function runs to the end and returns one value per requested name. *)
Theorem C01_simulation_completes :
  forall (V : Type) (sem : string -> list V -> result (list V))
    calls limit data_names func nodep noeff k w w' k' pr key n params,
  k_registry k = registry_after calls -> unique_names (k_registry k) ->
  nodep <> "key" -> nodep <> "parameters" ->
  deduce limit data_names func nodep noeff k w = (w', k', Ok tt) ->
  k_code k' = Some pr ->
  (forall outs inst ins args, In (outs, inst, ins) (pr_body pr) ->
     List.length args = 2 + List.length ins ->
     exists key' vs, sem inst args = Ok (key' :: vs) /\ List.length vs = List.length outs) ->
  exists key' outs, run_prog V sem pr key n params = Ok (key', outs) /\
    List.length outs = List.length (output_names data_names noeff).
Proof. exact (fun V => @top_runs V). Qed.

Example C01_instance : exists w' k',
  k_registry demo_k = registry_after demo_calls /\ unique_names (k_registry demo_k) /\
  demo_deduce = (w', k', Ok tt).
Proof.
  destruct demo_ok as (w' & k' & H & _). exists w', k'. split; [reflexivity|].
  split; [exact demo_unique|exact H].
Qed.

(** Two different classes with the same name break it: the workflow keeps only one of them and
    the generated function reads a variable that was never assigned. *)
Definition pA1 := mk_plugin "A" ["a"] ["batch_size"] [] [] [].
Definition pA2 := mk_plugin "A" ["b"] ["batch_size"] [] [] [].
Definition pC := mk_plugin "C" ["c"] ["a"; "b"] [] [] [].
Theorem C01_same_class_name_refuted :
  exists calls data_names w' k' pr,
    let k := mk_component "comp" "llh" "" (registry_after calls) false [] [] "" None None None in
    deduce 20 data_names "simulate" "batch_size" true k init_world = (w', k', Ok tt) /\
    k_code k' = Some pr /\ ~ reads_defined ["batch_size"] (pr_body pr) /\
    run_prog nat (fun i args => Ok [0; 1]) pr 0 0 0 = Err NameError.
Proof.
  exists [[pA1; pA2; pC]], ["c"]. do 3 eexists. repeat split.
  cbn. intros [_ [H _]]. destruct (H "a" (or_introl eq_refl)) as [H'|[H'|[]]]; discriminate.
Qed.

(* ------------------------------------------------------------------ *)
(** * C02 *)

(** The executed plugins are exactly the providers of the names reachable from the request,
    each once; the generated code has one line per executed plugin. *)
Theorem C02_exactly_the_needed_plugins :
  forall calls limit data_names func nodep noeff k w w' k',
  k_registry k = registry_after calls -> unique_names (k_registry k) ->
  deduce limit data_names func nodep noeff k w = (w', k', Ok tt) ->
  NoDup (map w_plugin (k_worksheet k')) /\
  (forall wk, In wk (k_worksheet k') <->
     exists d p, Reach (k_registry k) nodep (output_names data_names noeff) d /\
       get d (k_registry k) = Some p /\
       w_plugin wk = p_name p /\ w_provides wk = p_provides p /\ w_depends wk = p_depends p) /\
  (exists pr, k_code k' = Some pr /\
     pr_body pr = map (fun wk => (w_provides wk, w_plugin wk ++ "_" ++ k_name k, w_depends wk))
                      (k_worksheet k')).
Proof. exact top_exact. Qed.

(** Instance: the demo graph, where "Unused" is registered but not executed and the diamond
    (ph feeding both cs1 and cs2) does not execute Quanta twice. *)
Example C02_instance : exists w' k', demo_deduce = (w', k', Ok tt) /\
  ~ In "Unused" (map w_plugin (k_worksheet k')) /\ List.length (k_worksheet k') = 5.
Proof.
  vm_compute. do 2 eexists. split; [reflexivity|]. split; [|reflexivity].
  intros H. repeat (destruct H as [H|H]; [discriminate|]). exact H.
Qed.

(* ------------------------------------------------------------------ *)
(** * C03 *)

(** If every used plugin is the registered provider of all it provides, then a simulation
    returns the values of the dependency graph: there is an assignment [E] of values to data
    names in which the value(s) provided by each needed plugin are what that plugin returns on
    the values of the names it depends on, with the key threaded through the calls, and the
    returned list is [E] at the requested names. *)
Theorem C03_simulation_returns_graph_values :
  forall (V : Type) (sem : string -> list V -> result (list V))
    calls limit data_names func nodep noeff k w w' k' pr key n params key' outs,
  k_registry k = registry_after calls -> unique_names (k_registry k) ->
  consistent (k_registry k) nodep (output_names data_names noeff) ->
  deduce limit data_names func nodep noeff k w = (w', k', Ok tt) ->
  k_code k' = Some pr ->
  run_prog V sem pr key n params = Ok (key', outs) ->
  exists E : string -> option V,
    E nodep = Some n /\
    Solves sem E params key (pr_body pr) key' /\
    (forall d p, Reach (k_registry k) nodep (output_names data_names noeff) d ->
       get d (k_registry k) = Some p ->
       exists k1 k2 argv vs,
         map E (p_depends p) = map Some argv /\
         sem (p_name p ++ "_" ++ k_name k) (k1 :: params :: argv) = Ok (k2 :: vs) /\
         map E (p_provides p) = map Some vs) /\
    map E (output_names data_names noeff) = map Some outs.
Proof. exact (fun V => @top_values V). Qed.

(** The equations have at most one solution, so the returned values are determined by the graph,
    the key, the batch size and the parameters. *)
Theorem C03_graph_values_unique :
  forall (V : Type) (sem : string -> list V -> result (list V)) params E1 E2 body,
  forall defined k k1 k2,
  reads_defined defined body ->
  (forall x, In x defined -> E1 x = E2 x) ->
  Solves sem E1 params k body k1 -> Solves sem E2 params k body k2 ->
  k1 = k2 /\ forall x, In x (assigned body ++ defined)%list -> E1 x = E2 x.
Proof. exact (fun V => @solves_unique V). Qed.

(** Instance: the demo graph is consistent, and it runs (symbolic values as strings). *)
Definition demo_sem (inst : string) (args : list nat) : result (list nat) :=
  match args with
  | k :: _ :: xs =>
      Ok (S k :: map (fun i => fold_left (fun a b => 2 * a + b) xs i)
                   (if prefix "Quanta" inst then [1; 2] else [3]))
  | _ => Err TypeError
  end.
Example C03_instance :
  consistent (k_registry demo_k) "batch_size" (output_names ["cs2"; "eff"; "cs1"] false) /\
  exists w' k' pr key' outs, demo_deduce = (w', k', Ok tt) /\ k_code k' = Some pr /\
    run_prog nat demo_sem pr 0 7 0 = Ok (key', outs) /\ List.length outs = 3 /\ key' = 5.
Proof.
  split.
  - intros d p _ Hg. apply get_In in Hg. rewrite demo_registry in *.
    cbn [In] in Hg.
    repeat (destruct Hg as [Hg|Hg]; [injection Hg as <- <-; split;
      [repeat constructor; cbn [In]; intuition discriminate|];
      intros x Hx; cbn in Hx; repeat (destruct Hx as [<-|Hx]; [repeat split; discriminate|]); destruct Hx|]).
    destruct Hg.
  - vm_compute. do 5 eexists. repeat split.
Qed.

(** Without that condition a returned value can come from a plugin that is not the registered
    provider: a later registration overrides only one output of a two-output plugin. *)
Definition pAB := mk_plugin "AB" ["a"; "b"] ["batch_size"] [] [] [].
Definition pB := mk_plugin "B" ["b"] ["batch_size"] [] [] [].
Theorem C03_partly_overridden_refuted :
  exists calls w' k' pr,
    let k := mk_component "comp" "llh" "" (registry_after calls) false [] [] "" None None None in
    let sem := fun i (_ : list nat) => if String.eqb i "B_comp" then Ok [0; 42] else Ok [0; 1; 2] in
    deduce 20 ["a"; "b"] "simulate" "batch_size" true k init_world = (w', k', Ok tt) /\
    k_code k' = Some pr /\ get "b" (k_registry k) = Some pB /\
    run_prog nat sem pr 0 0 0 = Ok (0, [1; 2]).
Proof. exists [[pAB; pB]]. do 3 eexists. repeat split. Qed.

(* ------------------------------------------------------------------ *)
(** * C04 *)

(** On an acyclic graph, with a recursion limit above the number of registered names,
    deduction raises ValueError iff a needed name has no provider, and succeeds iff all have. *)
Theorem C04_fails_iff_provider_missing :
  forall reg nodep limit names,
  acyclic reg nodep names -> List.length (keys reg) + 1 < limit ->
  ((exists d, Reach reg nodep names d /\ get d reg = None) <->
   dependencies_deduce reg nodep limit names [] = Err ValueError) /\
  ((forall d, Reach reg nodep names d -> get d reg <> None) <->
   exists deps, dependencies_deduce reg nodep limit names [] = Ok deps).
Proof. exact top_valueerror. Qed.

(** On a graph with a needed name depending on itself it never returns. *)
Theorem C04_cyclic_never_returns :
  forall reg nodep names,
  (exists d, Reach reg nodep names d /\ clos_trans _ (edge reg nodep) d d) ->
  forall limit deps, dependencies_deduce reg nodep limit names [] <> Ok deps.
Proof. exact top_cyclic. Qed.

Example C04_instance_ok : acyclic (k_registry demo_k) "batch_size" ["eff"] /\
  exists deps, dependencies_deduce (k_registry demo_k) "batch_size" 20 ["eff"] [] = Ok deps.
Proof.
  assert (H : exists deps, dependencies_deduce (k_registry demo_k) "batch_size" 20 ["eff"] [] = Ok deps)
    by (vm_compute; eauto).
  split; [|exact H]. destruct H as (deps & H).
  exact (deduce_ok_acyclic _ _ _ _ _ _ H).
Qed.
Example C04_instance_missing :
  Reach [("a", mk_plugin "A" ["a"] ["nope"] [] [] [])] "batch_size" ["a"] "nope".
Proof.
  apply Reach_dep with (d := "a") (p := mk_plugin "A" ["a"] ["nope"] [] [] []);
    [apply Reach_req; [left; reflexivity|discriminate]|reflexivity|left; reflexivity|discriminate].
Qed.
Example C04_instance_cyclic :
  let reg := [("a", mk_plugin "A" ["a"] ["b"] [] [] []); ("b", mk_plugin "B" ["b"] ["a"] [] [] [])] in
  (exists d, Reach reg "batch_size" ["a"] d /\ clos_trans _ (edge reg "batch_size") d d) /\
  dependencies_deduce reg "batch_size" 50 ["a"] [] = Err RecursionError.
Proof.
  cbn zeta. split; [|vm_compute; reflexivity]. exists "a". split.
  - apply Reach_req; [left; reflexivity|discriminate].
  - eapply t_trans with "b"; apply t_step; eexists; (split; [reflexivity|]); cbn; split; auto; discriminate.
Qed.

(* ------------------------------------------------------------------ *)
(** * C05 *)

(** needed_parameters after deduction is exactly: the rate (if named), the parameters of the
    needed plugins, and the parameters their configs require; whatever was there before. *)
Theorem C05_needed_parameters_exact :
  forall limit data_names func nodep noeff k w w' k',
  unique_names (k_registry k) -> defaults_agree (k_registry k) ->
  (forall d p, get d (k_registry k) = Some p -> wf_plugin p) ->
  deduce limit data_names func nodep noeff k w = (w', k', Ok tt) ->
  forall x, In x (k_needed k') <->
    (x = k_rate k /\ k_rate k <> "") \/
    exists d p, Reach (k_registry k) nodep (output_names data_names noeff) d /\
      get d (k_registry k) = Some p /\
      (In x (p_params p) \/
       exists n cf, In (n, cf) (p_configs p) /\ requires (contents (w_cache w)) (k_llh k) cf x).
Proof. exact needed_exact. Qed.

Example C05_instance : unique_names (k_registry demo_k) /\ defaults_agree (k_registry demo_k) /\
  (forall d p, get d (k_registry demo_k) = Some p -> wf_plugin p) /\
  exists w' k', demo_deduce = (w', k', Ok tt) /\ ~ In "stale" (k_needed k') /\
    ~ In "unused_par" (k_needed k').
Proof.
  split; [exact demo_unique|]. split; [|split].
  - change (k_registry demo_k) with (registry_after demo_calls).
    apply registrations_agree. vm_compute. auto.
  - intros d p Hg. apply get_In in Hg. rewrite demo_registry in Hg. cbn [In] in Hg.
    repeat (destruct Hg as [Hg|Hg]; [injection Hg as <- <-; intros n cf Hi; cbn in Hi;
      repeat (destruct Hi as [Hi|Hi]; [injection Hi as <- <-; split; [reflexivity|intros ? ?; discriminate]|]);
      destruct Hi|]). destruct Hg.
  - vm_compute. do 2 eexists. split; [reflexivity|].
    split; intros H; repeat (destruct H as [H|H]; [discriminate|]); exact H.
Qed.

(* ------------------------------------------------------------------ *)
(** * C06 *)

(** A request naming the efficiency once, anywhere, yields the other names in order followed by
    the efficiency (or not at all with force_no_eff); one not naming it gets it appended. *)
Theorem C06_efficiency_last :
  forall l1 l2 noeff, ~ In "eff" l1 -> ~ In "eff" l2 ->
  output_names (l1 ++ "eff" :: l2) noeff
    = (if noeff then l1 ++ l2 else (l1 ++ l2) ++ ["eff"])%list /\
  output_names (l1 ++ l2) noeff
    = (if noeff then l1 ++ l2 else (l1 ++ l2) ++ ["eff"])%list.
Proof.
  exact (fun l1 l2 noeff H1 H2 => conj (output_names_once l1 l2 noeff H1 H2)
    (output_names_none (l1 ++ l2) noeff
       (fun H => match in_app_or _ _ _ H with or_introl h => H1 h | or_intror h => H2 h end))).
Qed.

Example C06_instance : ~ In "eff" ["cs1"] /\ ~ In "eff" ["cs2"] /\
  output_names ["cs1"; "eff"; "cs2"] false = ["cs1"; "cs2"; "eff"].
Proof. cbn. intuition discriminate. Qed.

(** The returned list of the generated function is that list. *)
Theorem C06_returned_names :
  forall calls limit data_names func nodep noeff k w w' k',
  k_registry k = registry_after calls -> unique_names (k_registry k) ->
  deduce limit data_names func nodep noeff k w = (w', k', Ok tt) ->
  exists pr, k_code k' = Some pr /\ pr_nodep pr = nodep /\
    pr_return pr = output_names data_names noeff /\
    reads_defined [nodep] (pr_body pr) /\
    (forall x, In x (pr_return pr) -> x = nodep \/ In x (assigned (pr_body pr))).
Proof. exact top_defined. Qed.

(** A request naming the efficiency twice keeps one occurrence among the data names. *)
Theorem C06_twice_refuted :
  exists l, output_names l false = ["cs1"; "eff"; "cs2"; "eff"].
Proof. exists ["eff"; "cs1"; "eff"; "cs2"]. reflexivity. Qed.

(* ------------------------------------------------------------------ *)
(** * C07 *)

(** After successful registrations only, all registered plugins agree on common defaults. *)
Theorem C07_registered_defaults_agree :
  forall calls, all_registered calls [] -> defaults_agree (registry_after calls).
Proof. exact registrations_agree. Qed.

(** Registering a class raises ValueError iff it disagrees with a plugin that stays registered
    (or with itself), after any history of registrations, failed ones included. *)
Theorem C07_conflict_detected :
  forall calls p,
  let reg := registry_after calls in
  (snd (register [p] reg) = Ok tt <->
   forall d q n cf cf', (get d reg = Some q /\ ~ In d (p_provides p)) \/ (q = p /\ In d (p_provides p)) ->
     In (n, cf) (p_configs q) -> In (n, cf') (p_configs p) ->
     same_default (c_default cf) (c_default cf')) /\
  (snd (register [p] reg) <> Ok tt -> snd (register [p] reg) = Err ValueError).
Proof. exact top_register_conflict. Qed.

Example C07_instance : all_registered demo_calls [].
Proof. vm_compute. auto. Qed.

(** Registration is not atomic: a rejected class stays registered, the component's plugins then
    disagree on a default, and deduction works with the rejected class. *)
Definition num_cf' : config := mk_config KConstant "w" (Some (VNum 15)) None.
Definition pG := mk_plugin "G" ["energy"] ["batch_size"] [] [("w", num_cf')] [].
Theorem C07_not_atomic_refuted :
  exists calls p w' k',
    let reg := fst (register [p] (registry_after calls)) in
    snd (register [p] (registry_after calls)) = Err ValueError /\
    get "energy" reg = Some p /\ ~ defaults_agree reg /\
    deduce 20 ["cs1"] "simulate" "batch_size" false
      (mk_component "er" "llh" "" reg false [] [] "" None None None) init_world = (w', k', Ok tt) /\
    In "G" (map w_plugin (k_worksheet k')).
Proof.
  exists demo_calls, pG. do 2 eexists. split; [vm_compute; reflexivity|].
  split; [vm_compute; reflexivity|]. split.
  - intros H. specialize (H "energy" pG "ph" pQ "w" num_cf' num_cf).
    vm_compute in H. discriminate H; auto.
  - split; [vm_compute; reflexivity|]. vm_compute. auto.
Qed.

(* ------------------------------------------------------------------ *)
(** * C08 *)

(** After registering classes in order, a name is provided by the last of them providing it,
    and names provided by none of them keep their provider. *)
Theorem C08_last_registration_wins :
  forall ps reg, snd (register ps reg) = Ok tt ->
  forall d p, get d (fst (register ps reg)) = Some p <->
    (exists l1 l2, ps = (l1 ++ p :: l2)%list /\ In d (p_provides p) /\
       forall q, In q l2 -> ~ In d (p_provides q)) \/
    ((forall q, In q ps -> ~ In d (p_provides q)) /\ get d reg = Some p).
Proof.
  intros ps reg H d p. rewrite (register_last_wins ps reg H d), <- last_provider_some, <- last_provider_none.
  destruct (last_provider d ps) as [q|]; split.
  - auto.
  - intros [Hq|[Hq _]]; [exact Hq|discriminate Hq].
  - auto.
  - intros [Hq|[_ Hq]]; [discriminate Hq|exact Hq].
Qed.

(** For a single class this holds even when the registration raises. *)
Theorem C08_single_registration_frame :
  forall p reg d,
  get d (fst (register1 p reg)) = if mem d (p_provides p) then Some p else get d reg.
Proof. exact register1_frame. Qed.

Example C08_instance : snd (register [pAB; pB] (registry_after demo_calls)) = Ok tt /\
  get "b" (fst (register [pAB; pB] (registry_after demo_calls))) = Some pB /\
  get "cs1" (fst (register [pAB; pB] (registry_after demo_calls))) = Some pS1.
Proof. vm_compute. auto. Qed.

(* ------------------------------------------------------------------ *)
(** * C10 *)

(** After a successful deduction under a likelihood name, no deduction under that name (of the
    same or another component) succeeds until clear_cache is called, whatever else happens. *)
Theorem C10_second_deduction_fails :
  forall os1 os2 w limit dn func nodep noeff k limit2 dn2 func2 nodep2 noeff2 k2,
  snd (wstep (ODeduce limit dn func nodep noeff k) (wrun os1 w)) = Ok tt ->
  ~ In OClear os2 -> k_llh k2 = k_llh k ->
  snd (wstep (ODeduce limit2 dn2 func2 nodep2 noeff2 k2)
         (wrun (os1 ++ ODeduce limit dn func nodep noeff k :: os2) w)) <> Ok tt.
Proof. exact second_deduction_fails. Qed.

(** If its workflow is deducible the failure is the RuntimeError of the write-once table ... *)
Theorem C10_failure_is_runtime_error :
  forall limit dn func nodep noeff k w deps c1 ws needed,
  has (k_llh k) (w_fn w) = true ->
  dependencies_deduce (k_registry k) nodep limit (output_names dn noeff) [] = Ok deps ->
  dependencies_simplify (k_rate k) (k_llh k) deps (w_cache w) = (c1, (ws, needed), Ok tt) ->
  snd (deduce limit dn func nodep noeff k w) = Err RuntimeError.
Proof. exact taken_deduction_runtime_error. Qed.

(** ... while under a free name (in particular after clear_cache) it succeeds. *)
Theorem C10_first_deduction_succeeds :
  forall limit dn func nodep noeff k w deps c1 ws needed,
  has (k_llh k) (w_fn w) = false ->
  dependencies_deduce (k_registry k) nodep limit (output_names dn noeff) [] = Ok deps ->
  dependencies_simplify (k_rate k) (k_llh k) deps (w_cache w) = (c1, (ws, needed), Ok tt) ->
  snd (deduce limit dn func nodep noeff k w) = Ok tt.
Proof. exact fresh_deduction_ok. Qed.

(** clear_cache frees every name: a workflow that can be deduced at all can be deduced next,
    whatever has been deduced, compiled or configured before. *)
Theorem C10_after_clear :
  forall os w limit dn func nodep noeff k w0 w1 k1,
  w_cache w0 = empty_rdict ->
  deduce limit dn func nodep noeff k w0 = (w1, k1, Ok tt) ->
  snd (deduce limit dn func nodep noeff k (wrun (os ++ [OClear]) w)) = Ok tt.
Proof. exact deduction_after_clear. Qed.

Definition demo_op := ODeduce 20 ["cs1"; "cs2"] "simulate" "batch_size" false demo_k.
Example C10_instance :
  snd (wstep demo_op (wrun [] init_world)) = Ok tt /\
  snd (wstep demo_op (wrun [demo_op] init_world)) = Err RuntimeError /\
  snd (wstep demo_op (wrun [demo_op; OClear] init_world)) = Ok tt.
Proof. vm_compute. auto. Qed.

Print Assumptions C01_no_undefined_variable.
Print Assumptions C01_simulation_completes.
Print Assumptions C01_same_class_name_refuted.
Print Assumptions C02_exactly_the_needed_plugins.
Print Assumptions C03_simulation_returns_graph_values.
Print Assumptions C03_graph_values_unique.
Print Assumptions C03_partly_overridden_refuted.
Print Assumptions C04_fails_iff_provider_missing.
Print Assumptions C04_cyclic_never_returns.
Print Assumptions C05_needed_parameters_exact.
Print Assumptions C06_efficiency_last.
Print Assumptions C06_returned_names.
Print Assumptions C06_twice_refuted.
Print Assumptions C07_registered_defaults_agree.
Print Assumptions C07_conflict_detected.
Print Assumptions C07_not_atomic_refuted.
Print Assumptions C08_last_registration_wins.
Print Assumptions C08_single_registration_frame.
Print Assumptions C10_second_deduction_fails.
Print Assumptions C10_failure_is_runtime_error.
Print Assumptions C10_first_deduction_succeeds.
Print Assumptions C10_after_clear.
