(** C125: what a deduce that raises leaves behind.
    Only theorem statements, their proofs from the definitions, and concrete instances. *)
From Coq Require Import Reals Lia.
From Verif Require Import Base BaseFacts ModelFloat ModelHist ModelShare ModelConfig ModelComponent ModelCompile
  ModelLikelihood ModelRecompile ModelOnSim SpecRecompile SpecOnSim SpecHist SpecLikelihood SpecComponent SpecWeighted
  ProofComponent ProofWorkflow ProofHistory ProofCompile ProofOnSim PropComponent PropCompile.
Local Open Scope string_scope.

(** Of a deduce that raises the namespaces do not know: the component has the same name, plugins, compiled code and
    function, and every namespace and plugin class is as before. *)
Lemma refused_keeps limit dn func nodep noeff k w w1 k1 e : deduce limit dn func nodep noeff k w = (w1, k1, Err e) ->
  k_name k1 = k_name k /\ k_llh k1 = k_llh k /\ k_rate k1 = k_rate k /\ k_registry k1 = k_registry k /\
  k_compile k1 = k_compile k /\ k_simulate k1 = k_simulate k /\
  w_fn w1 = w_fn w /\ w_heap w1 = w_heap w /\ w_class w1 = w_class w /\
  k_noeff k1 = (if noeff then true else k_noeff k).
Proof.
  unfold deduce. destruct (dependencies_deduce _ _ _ _ _) as [deps|e0]; [|intros [= <- <- _]; cbn; auto 12].
  destruct (dependencies_simplify _ _ _ _) as [[c1 [ws needed]] [u|e1]]; [|intros [= <- <- _]; cbn; auto 12].
  unfold set_code. cbn [k_llh w_heap w_fn with_cache]. destruct (sv_setitem _ _ _); [discriminate|]. intros [= <- <- _]; cbn; auto 12.
Qed.

(** The function compiled before goes on giving the same results. *)
Theorem C125_simulate limit dn func nodep noeff k w w1 k1 e V isem key batch p :
  deduce limit dn func nodep noeff k w = (w1, k1, Err e) ->
  simulate V isem k1 key batch p = simulate V isem k key batch p.
Proof. intros H. unfold simulate. destruct (refused_keeps _ _ _ _ _ _ _ _ _ _ H) as (_ & _ & _ & _ & _ & -> & _). reflexivity. Qed.

(** So does simulate_hist, unless force_no_eff was asked for: *)
Theorem C125_hist {K} selected oor (rsem : closure -> K -> nat -> params -> result (K * list (list fl))) norm eps b
    limit dn func nodep k w w1 k1 e key batch p :
  deduce limit dn func nodep false k w = (w1, k1, Err e) ->
  simulate_hist_in selected K oor rsem norm eps b k1 w1 key batch p =
  simulate_hist_in selected K oor rsem norm eps b k w key batch p.
Proof.
  intros H. destruct (refused_keeps _ _ _ _ _ _ _ _ _ _ H) as (A1 & A2 & A3 & A4 & A5 & A6 & A7 & A8 & A9 & A10).
  unfold simulate_hist_in, rows_of, mcinput_of, sim_hist. rewrite A1, A2, A3, A4, A6, A7, A8, A10. reflexivity.
Qed.
(** then the efficiency of the same function is taken for one more observable. *)
Theorem C125_no_eff_refuted {K} selected oor (rsem : closure -> K -> nat -> params -> result (K * list (list fl))) norm eps b
    limit dn func nodep k w w1 k1 e key batch p key' rows :
  deduce limit dn func nodep true k w = (w1, k1, Err e) -> k_noeff k = false ->
  rows_of K rsem k key batch p = Ok (key', rows) -> rows <> [] -> (forall r, In r rows -> List.length r = ndim b + 1) ->
  simulate_hist_in selected K oor rsem norm eps b k1 w1 key batch p = Err AssertionError.
Proof.
  intros H Hk Hs Hne Hl. destruct (refused_keeps _ _ _ _ _ _ _ _ _ _ H) as (_ & _ & _ & _ & _ & A6 & _ & _ & _ & A10).
  unfold simulate_hist_in, sim_hist. replace (rows_of K rsem k1 key batch p) with (rows_of K rsem k key batch p)
    by (unfold rows_of; rewrite A6; reflexivity). rewrite Hs. cbn [n_no_eff n_bins]. rewrite A10. cbn [split_rows].
  destruct rows as [|r rows]; [destruct (Hne eq_refl)|]. cbn [forallb]. rewrite (Hl r (or_introl eq_refl)).
  replace (Nat.eqb (ndim b + 1) (ndim b)) with false by (symmetry; apply Nat.eqb_neq; lia). reflexivity.
Qed.

(** If the names cannot be deduced nothing else changes. *)
Theorem C125_not_deduced limit dn func nodep noeff k w w1 k1 e :
  deduce limit dn func nodep noeff k w = (w1, k1, Err e) ->
  dependencies_deduce (k_registry k) nodep limit (output_names dn noeff) [] = Err e ->
  w1 = w /\ k_worksheet k1 = k_worksheet k /\ k_needed k1 = k_needed k /\ k_func k1 = k_func k /\ k_code k1 = k_code k.
Proof. unfold deduce. intros H E; rewrite E in H. injection H as <- <-. cbn. auto 6. Qed.

(** If the name of the likelihood is taken, the component shows the workflow that was asked for: what a component of its
    name and plugins would have in a likelihood whose name is free. *)
Theorem C125_shows limit dn func nodep noeff k w w1 k1 e v1 j1 v :
  deduce limit dn func nodep noeff k w = (w1, k1, Err e) ->
  w_cache v = w_cache w -> deduce limit dn func nodep noeff k v = (v1, j1, Ok tt) ->
  k_worksheet k1 = k_worksheet j1 /\ k_needed k1 = k_needed j1 /\ k_func k1 = k_func j1 /\ k_code k1 = k_code j1 /\ k_func k1 = func.
Proof.
  unfold deduce. intros H Hc. rewrite Hc. revert H. destruct (dependencies_deduce _ _ _ _ _) as [deps|e0]; [|discriminate].
  destruct (dependencies_simplify _ _ _ _) as [[c1 [ws needed]] [u|e1]]; [|discriminate].
  unfold set_code. cbn [k_llh w_heap w_fn with_cache]. destruct (sv_setitem _ _ (w_fn w)); [discriminate|]. intros [= <- <- _].
  destruct (sv_setitem _ _ (w_fn v)); [|discriminate]. intros [= <- <-]. cbn. auto.
Qed.

(** Compiling then makes the function of the old workflow: exactly what compiling without the deduce would make. *)
Theorem C125_compile limit dn func nodep noeff k w w1 k1 e f plugins w2 k2 r w3 k3 r' :
  deduce limit dn func nodep noeff k w = (w1, k1, Err e) -> k_func k1 = k_func k ->
  compile f plugins k1 w1 = (w2, k2, r) -> compile f plugins k w1 = (w3, k3, r') ->
  w2 = w3 /\ r = r' /\ k_simulate k2 = k_simulate k3 /\ k_needed k2 = k_needed k1 /\ k_code k2 = k_code k1.
Proof.
  intros H Hf. destruct (refused_keeps _ _ _ _ _ _ _ _ _ _ H) as (A1 & A2 & A3 & A4 & A5 & A6 & _).
  unfold compile. rewrite A5. destruct (k_compile k) as [[pr a]|]; [|intros [= <- <- <-] [= <- <- <-]; auto].
  destruct (imports_ok plugins (pr_imports pr)); [|intros [= <- <- <-] [= <- <- <-]; auto].
  destruct (instantiate f plugins (pr_llh pr) (pr_insts pr) [] w1) as [wi [insts|ei]]; [|intros [= <- <- <-] [= <- <- <-]; auto].
  cbn [w_fn w_heap]. rewrite A2, Hf. destruct (get (k_llh k) (w_fn wi)) as [a'|]; [|intros [= <- <- <-] [= <- <- <-]; auto].
  destruct (get (k_func k) _) as [cl|]; intros [= <- <- <-] [= <- <- <-]; cbn; auto.
Qed.
(** With another name of the function it is a KeyError, whatever other components did in between. *)
Theorem C125_other_name limit dn func nodep noeff f plugins k w w' k' os limit2 dn2 func2 nodep2 noeff2 w1 k1 e f2 plugins2 w2 k2 :
  build_component limit dn func nodep noeff f plugins k w = (w', k', Ok tt) -> Forall (of_another k') os ->
  deduce limit2 dn2 func2 nodep2 noeff2 k' (wrun os w') = (w1, k1, Err e) -> k_func k1 <> k_func k' ->
  compile f2 plugins2 k' w1 = (w2, k2, Ok tt) -> compile f2 plugins2 k1 w1 = (w2, k1, Err KeyError).
Proof.
  intros Hb Ho H Hf. pose proof (wrun_alone os k' w' Ho (build_alone _ _ _ _ _ _ _ _ _ _ _ Hb)) as (pr & a & cl & B1 & B2 & B3 & B4 & B5 & B6).
  destruct (refused_keeps _ _ _ _ _ _ _ _ _ _ H) as (A1 & A2 & A3 & A4 & A5 & A6 & A7 & A8 & A9 & A10).
  unfold compile. rewrite A5, B1. destruct (imports_ok plugins2 (pr_imports pr)); [|discriminate].
  pose proof (instantiate_fn f2 plugins2 (pr_llh pr) (pr_insts pr) [] w1) as [F1 F2].
  destruct (instantiate f2 plugins2 (pr_llh pr) (pr_insts pr) [] w1) as [wi [insts|ei]]; [|discriminate]. cbn [fst w_fn w_heap] in *.
  rewrite A2, F1, A7, B2. rewrite F2, A8, B5, <- B4.
  rewrite nth_set_nth by exact B3. cbn [set]. rewrite String.eqb_refl. cbn [get]. rewrite String.eqb_refl. intros [= <- _].
  destruct (String.eqb_spec (k_func k1) (k_func k')); [contradiction|reflexivity].
Qed.

(** The demonstration component, deduced again for cs1 only: refused; compiling again succeeds, and the component shows the
    code for cs1 while its function still returns cs1 and cs2. *)
Theorem C125_code_refuted : exists w1 k1 w2 k2 w3 k3 pr cl,
  demo_build init_world = (w1, k1, Ok tt) /\ deduce 100 ["cs1"] (k_func k1) "batch_size" false k1 w1 = (w2, k2, Err RuntimeError) /\
  compile all_files demo_plugins k2 w2 = (w3, k3, Ok tt) /\
  k_code k3 = Some pr /\ pr_return pr = ["cs1"; "eff"] /\
  k_simulate k3 = Some cl /\ pr_return (cl_prog cl) = ["cs2"; "cs1"; "eff"].
Proof. do 8 eexists. repeat (split; [vm_compute; reflexivity|]). vm_compute; reflexivity. Qed.
(** Asked under another name compile fails; the refused deduce meets the hypotheses of C125_shows. *)
Example C125_case_name : exists w1 k1 w2 k2 w3 k3 v1 j1,
  demo_build init_world = (w1, k1, Ok tt) /\ deduce 100 ["cs1"] "other" "batch_size" false k1 (wrun [] w1) = (w2, k2, Err RuntimeError) /\
  k_func k2 <> k_func k1 /\ compile all_files demo_plugins k1 w2 = (w3, k3, Ok tt) /\
  compile all_files demo_plugins k2 w2 = (w3, k2, Err KeyError) /\
  deduce 100 ["cs1"] "other" "batch_size" false k1 (mk_world (w_cache w1) [] [] []) = (v1, j1, Ok tt) /\
  k_code k2 <> k_code k1.
Proof.
  do 8 eexists. split; [vm_compute; reflexivity|]. split; [vm_compute; reflexivity|]. split; [vm_compute; discriminate|].
  split; [vm_compute; reflexivity|]. split; [vm_compute; reflexivity|]. split; [vm_compute; reflexivity|]. vm_compute. discriminate.
Qed.
(** Names that nothing provides. *)
Example C125_case_unknown : exists w1 k1 w2 k2,
  demo_build init_world = (w1, k1, Ok tt) /\ deduce 100 ["cs9"] "simulate" "batch_size" false k1 w1 = (w2, k2, Err ValueError) /\
  dependencies_deduce (k_registry k1) "batch_size" 100 (output_names ["cs9"] false) [] = Err ValueError.
Proof. do 4 eexists. split; [vm_compute; reflexivity|]. split; vm_compute; reflexivity. Qed.
(** A histogram before and after a refused deduce with force_no_eff. *)
Example C125_case_no_eff : exists w1 k1 w2 k2 h,
  let rsem := fun (_ : closure) (key batch : nat) (_ : params) => Ok (key, [[Fin 1; Fin 2; Fin 1]]) in
  let b := BMesh2 [Fin 0; Fin 3] [Fin 0; Fin 3] in
  demo_build init_world = (w1, k1, Ok tt) /\ deduce 100 ["cs1"] "simulate" "batch_size" true k1 w1 = (w2, k2, Err RuntimeError) /\
  simulate_hist_in (fun _ => Err AttributeError) nat (fun _ _ => []) rsem OnPdf false b k1 w1 0 7 [(k_rate k1, Fin 5)] = Ok (0, h) /\
  simulate_hist_in (fun _ => Err AttributeError) nat (fun _ _ => []) rsem OnPdf false b k2 w2 0 7 [(k_rate k1, Fin 5)] = Err AssertionError.
Proof.
  do 5 eexists. cbv zeta. split; [vm_compute; reflexivity|]. split; [vm_compute; reflexivity|].
  split; unfold simulate_hist_in, sim_hist; reflexivity.
Qed.

Print Assumptions C125_simulate.
Print Assumptions C125_hist.
Print Assumptions C125_no_eff_refuted.
Print Assumptions C125_not_deduced.
Print Assumptions C125_shows.
Print Assumptions C125_compile.
Print Assumptions C125_other_name.
Print Assumptions C125_code_refuted.
