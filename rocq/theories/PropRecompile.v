(** Property C104: compiling again, and simulating with a new compilation before every run.
    Only theorem statements closed by lemmas, their assumptions, and concrete instances. *)
From Coq Require Import Reals.
From Verif Require Import Base BaseFacts ModelShare ModelConfig ModelComponent SpecComponent
  SpecConfig ModelCompile SpecCompile ProofConfig ProofCompile ProofRecompile ProofRecompile2 ModelFloat
  ModelLikelihood SpecLikelihood ModelRecompile SpecRecompile ProofRecompile3 PropComponent PropCompile.
Local Open Scope string_scope.

(** A compilation sets url_base only if a plugin has a config of that name. *)
Definition keeps_url_base (w w' : world) : Prop :=
  get "url_base" (contents (w_cache w)) = None -> get "url_base" (contents (w_cache w')) = None.

(** Compiling a second time gives the same function and changes no config: what the first
    compilation took from defaults and from map files is read back from the configuration. *)
Theorem C104_compile_twice :
  forall limit data_names func nodep noeff f plugins k w w' k' os f2 plugins2 w3 k3,
  build_component limit data_names func nodep noeff f plugins k w = (w', k', Ok tt) ->
  ~ In OClear os -> compile f2 plugins2 k' (wrun os w') = (w3, k3, Ok tt) ->
  keeps_url_base (wrun os w') w3 ->
  exists w4, compile f2 plugins2 k3 w3 = (w4, k3, Ok tt) /\ contents (w_cache w4) = contents (w_cache w3).
Proof.
  intros limit dn func nodep noeff f plugins k w w' k' os f2 plugins2 w3 k3 H Ho Hc Hu.
  destruct (built_bound _ _ _ _ _ _ _ _ _ _ _ os H Ho) as [Hb _].
  pose proof (compile_base _ _ _ _ _ _ Hb Hc Hu) as B.
  pose proof (compile_bound f2 plugins2 _ _ Hb) as Hb3. rewrite Hc in Hb3.
  destruct (compile_twice _ _ _ _ _ _ w3 Hb Hc B Hb3 eq_refl) as (w4 & H1 & H2 & _). eauto.
Qed.

(** The same right after the component was built. *)
Theorem C104_compile_after_build :
  forall limit data_names func nodep noeff f plugins k w w' k',
  build_component limit data_names func nodep noeff f plugins k w = (w', k', Ok tt) ->
  keeps_url_base w w' ->
  exists w2, compile f plugins k' w' = (w2, k', Ok tt) /\ contents (w_cache w2) = contents (w_cache w').
Proof.
  intros limit dn func nodep noeff f plugins k w w' k' H Hu.
  destruct (built_before _ _ _ _ _ _ _ _ _ _ _ H) as (w1 & k1 & Hc & Hb & Hd).
  assert (Hu1 : get "url_base" (contents (w_cache w1)) = None -> get "url_base" (contents (w_cache w')) = None).
  { intros H1. apply Hu. destruct (get "url_base" (contents (w_cache w))) as [v|] eqn:E; [|reflexivity].
    pose proof (deduce_cache_grows _ _ _ _ _ _ _ _ _ _ Hd) as G.
    destruct (G _ _ E) as (v' & E' & _). congruence. }
  pose proof (compile_base _ _ _ _ _ _ Hb Hc Hu1) as B.
  pose proof (compile_bound f plugins _ _ Hb) as Hb3. rewrite Hc in Hb3.
  destruct (compile_twice _ _ _ _ _ _ w' Hb Hc B Hb3 eq_refl) as (w4 & H1 & H2 & _). eauto.
Qed.

(** The demo graph: defaults, a constant and three map files. *)
Example C104_compile_twice_case : exists w1 k1 w2 w3 k3 w4,
  demo_build init_world = (w1, k1, Ok tt) /\
  w2 = wrun [OConfig all_files [("w", VNum 21)]] w1 /\
  compile all_files demo_plugins k1 w2 = (w3, k3, Ok tt) /\ keeps_url_base w2 w3 /\
  k_simulate k3 <> k_simulate k1 /\ compile all_files demo_plugins k3 w3 = (w4, k3, Ok tt).
Proof.
  do 6 eexists. split; [vm_compute; reflexivity|]. split; [reflexivity|]. split; [vm_compute; reflexivity|].
  split; [intros _; reflexivity|]. split; [vm_compute; discriminate|]. vm_compute. reflexivity.
Qed.

Section Sims.
  Context {K : Type}.
  Variable key_sum : K -> Z.
  Variable csem : closure -> K -> nat -> params -> result (K * list (list fl)).

  (** If a config g4 is set and is not that of a bootstrap energy, multiple_simulations_compile is
      compile followed by multiple_simulations: the same result or error, the same configs. *)
  Theorem C104_same :
    forall limit data_names func nodep noeff f plugins k w w' k' os f2 plugins2 v w3 k3
      apply_eff times key b p,
    build_component limit data_names func nodep noeff f plugins k w = (w', k', Ok tt) ->
    ~ In OClear os ->
    get "g4" (contents (w_cache (wrun os w'))) = Some v ->
    (other_energy k' \/ py_false v /\ not_dict v) ->
    compile f2 plugins2 k' (wrun os w') = (w3, k3, Ok tt) -> keeps_url_base (wrun os w') w3 ->
    times <> 0 ->
    exists w4, contents (w_cache w4) = contents (w_cache w3) /\
      multiple_simulations_compile K key_sum csem f2 plugins2 apply_eff times key b p k' (wrun os w') =
      (w4, k3, multiple_simulations (sim_of K csem k3) (k_noeff k3) apply_eff times key b p).
  Proof.
    intros limit dn func nodep noeff f plugins k w w' k' os f2 plugins2 v w3 k3 ae times key b p H Ho Hg Hi Hc Hu Ht.
    destruct (built_bound _ _ _ _ _ _ _ _ _ _ _ os H Ho) as [Hb _].
    rewrite <- use_mcinput_false, <- truthy_false in Hi.
    exact (recompile_same key_sum csem f2 plugins2 ae times key b p _ _ _ _ _ Hb Hg Hi Hc Hu Ht).
  Qed.

  (** With a bootstrap energy every run has a function of its own, in which g4 is the user's file,
      the batch size and the sum of the key the run starts from. The outputs are concatenated.
      [width] is the number of outputs. *)
  Theorem C104_bootstrap :
    forall limit data_names func nodep noeff f plugins k w w' k' os f2 plugins2 x file width
      apply_eff times key b p w4 k4 key' cols,
    build_component limit data_names func nodep noeff f plugins k w = (w', k', Ok tt) ->
    ~ In OClear os ->
    explicit_value (contents (w_cache (wrun os w'))) "g4" (k_llh k') x -> file_of x file ->
    bootstrap_energy k' ->
    (forall cl key key' cols, csem cl key b p = Ok (key', cols) -> List.length cols = width) ->
    multiple_simulations_compile K key_sum csem f2 plugins2 apply_eff times key b p k' (wrun os w') =
      (w4, k4, Ok (key', cols)) ->
    apply_eff && k_noeff k' = false /\
    exists rs, fresh_runs csem (fun key cl =>
        reads "g4" (VList [file; VNum (Z.of_nat b); VNum (key_sum key)]) cl) b p times key rs key' /\
      cols = map (fun i => List.concat (map (fun r =>
               let col := nth i r [] in
               if apply_eff then positive_only (last r []) col else col) rs)) (seq 0 width).
  Proof.
    intros limit dn func nodep noeff f plugins k w w' k' os f2 plugins2 x file width ae times key b p w4 k4 key' cols
      H Ho He Hf Hu Hw Hm. apply use_mcinput_true in Hu.
    destruct (built_bound _ _ _ _ _ _ _ _ _ _ _ os H Ho) as [Hb Hnd].
    exact (boot_values key_sum csem f2 plugins2 ae times key b p _ _ _ _ _ _ _ _ _ Hb Hnd He Hf Hu Hw Hm).
  Qed.

  (** The user's g4 is lost, also if a run fails: what is left is the entry of the last run begun.
      The entries of other likelihoods stay. *)
  Theorem C104_g4_left_refuted :
    forall limit data_names func nodep noeff f plugins k w w' k' os f2 plugins2 x file
      apply_eff times key b p w4 k4 r,
    build_component limit data_names func nodep noeff f plugins k w = (w', k', Ok tt) ->
    ~ In OClear os ->
    explicit_value (contents (w_cache (wrun os w'))) "g4" (k_llh k') x -> file_of x file ->
    bootstrap_energy k' -> times <> 0 ->
    multiple_simulations_compile K key_sum csem f2 plugins2 apply_eff times key b p k' (wrun os w') =
      (w4, k4, r) ->
    (exists j rs key1 v, j < times /\ fresh_runs csem (fun key cl =>
        reads "g4" (VList [file; VNum (Z.of_nat b); VNum (key_sum key)]) cl) b p j key rs key1 /\
       explicit_value (contents (w_cache w4)) "g4" (k_llh k') v /\
       value_eqb (VList [file; VNum (Z.of_nat b); VNum (key_sum key1)]) v = true /\
       (forall o, r = Ok o -> S j = times)) /\
    (forall d, get "g4" (contents (w_cache (wrun os w'))) = Some (VDict d) ->
       exists d', get "g4" (contents (w_cache w4)) = Some (VDict d') /\
       forall l y, l <> k_llh k' -> get l d = Some y ->
         exists y', get l d' = Some y' /\ value_eqb y y' = true).
  Proof.
    intros limit dn func nodep noeff f plugins k w w' k' os f2 plugins2 x file ae times key b p w4 k4 r
      H Ho He Hf Hu Ht. unfold multiple_simulations_compile. apply use_mcinput_true in Hu.
    destruct (built_bound _ _ _ _ _ _ _ _ _ _ _ os H Ho) as [Hb Hnd].
    destruct (turns K key_sum csem f2 plugins2 ae times key b p k' (wrun os w') []) as [[w1 k1] r1] eqn:E.
    destruct (turns_boot key_sum csem f2 plugins2 ae b p file _ _ _ _ _ _ Hb Hnd He Hf Hu _ _ _ E) as (T1 & T2 & _).
    intros Hm.
    assert (Hw : w4 = w1 /\ (forall o, r = Ok o -> exists o', r1 = Ok o')).
    { destruct r1 as [[key1 runs]|e].
      - destruct times as [|n]; [contradiction|]. injection Hm as <- <- <-. split; [reflexivity|]. eauto.
      - injection Hm as <- <- <-. split; [reflexivity|]. intros; discriminate. }
    destruct Hw as [-> Hr]. split; [|exact T2].
    destruct (T1 Ht) as (j & rs & key1 & v & J1 & J2 & J3 & J4 & J5).
    exists j, rs, key1, v. repeat split; auto. intros o Ho'. destruct (Hr o Ho') as (o' & Ho''). exact (J5 o' Ho'').
  Qed.

  (** Without a config named g4 the method cannot be used, whatever the plugins are; it also needs a
      plugin that provides energy once g4 is set. *)
  Theorem C104_needs_g4_refuted :
    forall f plugins apply_eff times key b p k w, times <> 0 ->
    (get "g4" (contents (w_cache w)) = None \/
     (exists v, get "g4" (contents (w_cache w)) = Some v /\ ~ py_false v) /\
     get "energy" (k_registry k) = None) ->
    exists w', multiple_simulations_compile K key_sum csem f plugins apply_eff times key b p k w =
                 (w', k, Err KeyError) /\ contents (w_cache w') = contents (w_cache w).
  Proof.
    intros f plugins ae times key b p k w Ht H. destruct times as [|n]; [contradiction|].
    unfold multiple_simulations_compile. cbn [turns]. unfold refresh, rd_getitem.
    destruct H as [H|[(v & H & T) Hn]]; rewrite H.
    - eexists. split; reflexivity.
    - rewrite <- truthy_false in T. apply not_false_is_true in T. rewrite T. unfold use_mcinput. rewrite Hn. eexists. split; reflexivity.
  Qed.

  (** A table of g4 for several likelihoods must have an entry for this one. *)
  Theorem C104_no_entry :
    forall f plugins apply_eff times key b p k w d, times <> 0 -> bootstrap_energy k ->
    get "g4" (contents (w_cache w)) = Some (VDict d) -> d <> [] -> get (k_llh k) d = None ->
    exists w', multiple_simulations_compile K key_sum csem f plugins apply_eff times key b p k w =
                 (w', k, Err KeyError) /\ contents (w_cache w') = contents (w_cache w) /\
               w_fn w' = w_fn w /\ w_heap w' = w_heap w /\ w_class w' = w_class w.
  Proof.
    intros f plugins ae times key b p k w d Ht Hu Hg Hd Hn. destruct times as [|n]; [contradiction|].
    apply use_mcinput_true in Hu.
    unfold multiple_simulations_compile. cbn [turns]. unfold refresh, rd_getitem. rewrite Hg.
    replace (truthy (VDict d)) with true by (destruct d; [contradiction|reflexivity]).
    rewrite Hu, Hn. eexists. repeat split; reflexivity.
  Qed.

  (** No runs: not the message of multiple_simulations, and nothing is compiled. *)
  Theorem C104_zero_refuted :
    forall f plugins apply_eff key b p k w,
    multiple_simulations_compile K key_sum csem f plugins apply_eff 0 key b p k w =
      (w, k, Err UnboundLocalError) /\
    multiple_simulations (sim_of K csem k) (k_noeff k) apply_eff 0 key b p = Err AssertionError.
  Proof. split; reflexivity. Qed.
End Sims.

(* ------------------------------------------------------------------ *)
(** * A concrete component with a bootstrap energy *)

Definition g4_cf : config := mk_config KConstant "g4" (Some (VList [VStr "d.csv"; VNum 1; VNum 2])) None.
Definition pBoot := mk_plugin "BootstrapEnergy" ["energy"] ["batch_size"] [] [("g4", g4_cf)]
                      ["self"; "key"; "parameters"; "batch_size"].
Definition pPlain := mk_plugin "Energy" ["energy"] ["batch_size"] [] [("g4", g4_cf)]
                      ["self"; "key"; "parameters"; "batch_size"].
Definition boot_plugins (n : string) : option plugin :=
  List.find (fun p => String.eqb (p_name p) n) [pBoot; pPlain].
Definition boot_k (p : plugin) : component :=
  mk_component "er" "llh" "er_rate" (registry_after [[p]]) false [] [] "" None None None.
Definition boot_build (p : plugin) (c : dict value) :=
  build_component 20 ["energy"] "simulate" "batch_size" true all_files boot_plugins (boot_k p)
    (fst (set_config all_files c init_world)).

(** Returns what its instances hold for g4: the last number as an event, and the key plus 10. *)
Definition boot_sem (cl : closure) (key : nat) (b : nat) (p : params) : result (nat * list (list fl)) :=
  match cl_insts cl with
  | (_, i) :: _ =>
      match map b_values (i_built i) with
      | [[VList [VStr s; VNum n; VNum z]]] => Ok (key + 10, [[Fin (IZR z)]])
      | [[VStr s]] => Ok (key + 10, [[Fin 0]])
      | _ => Err TypeError
      end
  | _ => Err TypeError
  end.

Lemma boot_width b p : forall cl key key' cols, boot_sem cl key b p = Ok (key', cols) -> List.length cols = 1.
Proof.
  intros cl key key' cols. unfold boot_sem. destruct (cl_insts cl) as [|[n i] l]; [discriminate|].
  intros H. repeat match type of H with context [match ?x with _ => _ end] => destruct x; try discriminate end;
    injection H as _ <-; reflexivity.
Qed.

(** Three runs from the key 7: the events come from the files of seeds 7, 17 and 27, and 27 stays
    in the configuration; the other likelihood's entry stays. *)
Example C104_bootstrap_case : exists w1 k1 w4 k4,
  boot_build pBoot [("g4", VDict [("llh", VList [VStr "my.csv"]); ("other", VNum 5)])] = (w1, k1, Ok tt) /\
  explicit_value (contents (w_cache (wrun [] w1))) "g4" (k_llh k1) (VList [VStr "my.csv"]) /\
  file_of (VList [VStr "my.csv"]) (VStr "my.csv") /\ bootstrap_energy k1 /\
  multiple_simulations_compile nat Z.of_nat boot_sem all_files boot_plugins false 3 7 4 [] k1 (wrun [] w1) =
    (w4, k4, Ok (37, [[Fin 7; Fin 17; Fin 27]])) /\
  get "g4" (contents (w_cache w4)) =
    Some (VDict [("llh", VList [VStr "my.csv"; VNum 4; VNum 27]); ("other", VNum 5)]).
Proof.
  do 4 eexists. split; [vm_compute; reflexivity|]. split; [right; eexists; split; reflexivity|].
  split; [constructor|]. split; [apply use_mcinput_true; reflexivity|]. split; [lazy; reflexivity|reflexivity].
Qed.

(** The plugin is found by a part of its name, not only by its beginning. *)
Example C104_bootstrap_name : forall p, p_name p = "MyBootstrapG4" ->
  bootstrap_energy (boot_k (mk_plugin (p_name p) ["energy"] [] [] [] [])).
Proof. intros p ->. eexists _, "My", "G4". split; reflexivity. Qed.

(** The table has an entry for another likelihood only. *)
Example C104_no_entry_case : exists w1 k1 d,
  boot_build pBoot [("g4", VList [VStr "my.csv"])] = (w1, k1, Ok tt) /\ bootstrap_energy k1 /\
  get "g4" (contents (w_cache (fst (set_config all_files [("g4", VDict d)] w1)))) = Some (VDict d) /\
  d <> [] /\ get (k_llh k1) d = None.
Proof.
  do 2 eexists. exists [("other", VList [VStr "my.csv"])]. split; [vm_compute; reflexivity|].
  split; [apply use_mcinput_true; reflexivity|]. split; [vm_compute; reflexivity|]. split; [discriminate|reflexivity].
Qed.

(** A g4 that is just the name of the file: the new entry has its first letter. *)
Theorem C104_name_refuted : exists w1 k1 w4 k4 o,
  boot_build pBoot [("g4", VStr "my.csv")] = (w1, k1, Ok tt) /\
  multiple_simulations_compile nat Z.of_nat boot_sem all_files boot_plugins false 1 7 4 [] k1 w1 =
    (w4, k4, Ok o) /\
  get "g4" (contents (w_cache w4)) = Some (VList [VStr "m"; VNum 4; VNum 7]).
Proof.
  do 5 eexists. split; [vm_compute; reflexivity|]. split; [lazy; reflexivity|reflexivity].
Qed.

(** The same component with another energy: the configured value is used as it is. Without a call of
    compile, multiple_simulations still works with the value of before. *)
Example C104_same_case : exists w1 k1 w2 w3 k3 w4 v,
  boot_build pPlain [] = (w1, k1, Ok tt) /\
  w2 = wrun [OConfig all_files [("g4", VList [VStr "my.csv"; VNum 3; VNum 11])]] w1 /\
  get "g4" (contents (w_cache w2)) = Some v /\ other_energy k1 /\
  compile all_files boot_plugins k1 w2 = (w3, k3, Ok tt) /\ keeps_url_base w2 w3 /\
  multiple_simulations_compile nat Z.of_nat boot_sem all_files boot_plugins false 2 7 4 [] k1 w2 =
    (w4, k3, Ok (27, [[Fin 11; Fin 11]])) /\
  multiple_simulations (sim_of nat boot_sem k3) true false 2 7 4 [] = Ok (27, [[Fin 11; Fin 11]]) /\
  multiple_simulations (sim_of nat boot_sem k1) true false 2 7 4 [] = Ok (27, [[Fin 2; Fin 2]]).
Proof.
  do 7 eexists. split; [vm_compute; reflexivity|]. split; [reflexivity|]. split; [reflexivity|].
  split; [apply use_mcinput_false; reflexivity|]. split; [vm_compute; reflexivity|]. split; [intros _; reflexivity|].
  split; [lazy; reflexivity|]. split; lazy; reflexivity.
Qed.

(** The demo component has no config g4. *)
Example C104_needs_g4_case : exists w1 k1,
  demo_build init_world = (w1, k1, Ok tt) /\ get "g4" (contents (w_cache w1)) = None.
Proof. do 2 eexists. split; [vm_compute; reflexivity|reflexivity]. Qed.

(** A run that fails after g4 was replaced. *)
Example C104_g4_left_case : exists w1 k1 w4 k4,
  boot_build pBoot [("g4", VList [VStr "my.csv"])] = (w1, k1, Ok tt) /\
  multiple_simulations_compile nat Z.of_nat (fun _ _ _ _ => Err ValueError) all_files boot_plugins
    false 3 7 4 [] k1 w1 = (w4, k4, Err ValueError) /\
  get "g4" (contents (w_cache w1)) = Some (VList [VStr "my.csv"]) /\
  get "g4" (contents (w_cache w4)) = Some (VList [VStr "my.csv"; VNum 4; VNum 7]).
Proof.
  do 4 eexists. split; [vm_compute; reflexivity|]. split; [lazy; reflexivity|]. split; reflexivity.
Qed.

Print Assumptions C104_compile_twice.
Print Assumptions C104_compile_after_build.
Print Assumptions C104_same.
Print Assumptions C104_bootstrap.
Print Assumptions C104_g4_left_refuted.
Print Assumptions C104_needs_g4_refuted.
Print Assumptions C104_no_entry.
Print Assumptions C104_zero_refuted.
Print Assumptions C104_name_refuted.
