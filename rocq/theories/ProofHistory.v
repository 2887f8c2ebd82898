(** Lemmas about the write-once table of compiled functions. *)
From Verif Require Import Base BaseFacts ModelShare ModelConfig ModelComponent SpecComponent
  ProofComponent ProofWorkflow ProofSim.
Local Open Scope string_scope.

Lemma instantiate_fn f plugins llh insts : forall acc w,
  w_fn (fst (instantiate f plugins llh insts acc w)) = w_fn w /\
  w_heap (fst (instantiate f plugins llh insts acc w)) = w_heap w.
Proof.
  induction insts as [|[iname pname] rest IH]; simpl; intros acc w; [auto|].
  destruct (plugins pname) as [p|]; [|auto].
  destruct (plugin_init f p (Some llh) (w_cache w)) as [[c1 bs] r].
  destruct r as [i|e]; [|auto]. destruct (IH (set iname i acc)
    (mk_world c1 (w_fn w) (w_heap w) (set pname bs (w_class w)))) as [H1 H2]. auto.
Qed.

Lemma set_nth_length {A} a (x : A) l : List.length (set_nth a x l) = List.length l.
Proof.
  revert a. induction l as [|y l IH]; intros [|a]; simpl; auto.
Qed.

Lemma compile_fn f plugins k w :
  w_fn (fst (fst (compile f plugins k w))) = w_fn w /\
  List.length (w_heap (fst (fst (compile f plugins k w)))) = List.length (w_heap w).
Proof.
  unfold compile. destruct (k_compile k) as [[pr a]|]; [|auto].
  destruct (imports_ok plugins (pr_imports pr)); [|auto].
  pose proof (instantiate_fn f plugins (pr_llh pr) (pr_insts pr) [] w) as [Hf Hh].
  destruct (instantiate f plugins (pr_llh pr) (pr_insts pr) [] w) as [w1 r]. simpl in Hf, Hh.
  destruct r as [insts|e]; [|simpl; rewrite Hf, Hh; auto].
  simpl. destruct (get (k_llh k) (w_fn w1)) as [a'|]; simpl.
  - destruct (get (k_func k) _); simpl; rewrite set_nth_length, Hf, Hh; auto.
  - rewrite set_nth_length, Hf, Hh. auto.
Qed.

Lemma deduce_fn limit dn func nodep noeff k w :
  (w_fn (fst (fst (deduce limit dn func nodep noeff k w))) = w_fn w /\
   w_heap (fst (fst (deduce limit dn func nodep noeff k w))) = w_heap w) \/
  (exists k', deduce limit dn func nodep noeff k w =
     (fst (fst (deduce limit dn func nodep noeff k w)), k', Ok tt) /\
   has (k_llh k) (w_fn w) = false /\
   w_fn (fst (fst (deduce limit dn func nodep noeff k w)))
     = set (k_llh k) (List.length (w_heap w)) (w_fn w)).
Proof.
  unfold deduce.
  destruct (dependencies_deduce _ _ _ _ _) as [deps|e]; [|left; auto].
  destruct (dependencies_simplify _ _ _ _) as [[c1 [ws needed]] r].
  destruct r as [u|e]; [|left; auto].
  unfold set_code, sv_setitem. simpl.
  destruct (has (k_llh k) (w_fn w)) eqn:Hh; [left; auto|].
  right. simpl. eexists. split; [reflexivity|]. auto.
Qed.

Lemma wstep_fn_keeps o w llh :
  o <> OClear -> has llh (w_fn w) = true -> has llh (w_fn (fst (wstep o w))) = true.
Proof.
  intros Ho Hh. destruct o as [limit dn func nodep noeff k|f plugins k| |f configs]; simpl.
  - pose proof (deduce_fn limit dn func nodep noeff k w) as H.
    destruct (deduce limit dn func nodep noeff k w) as [[w' k'] r]. simpl in *.
    destruct H as [[H _]|(k2 & _ & _ & H)]; rewrite H; [exact Hh|].
    apply has_keys. apply keys_set_In. right. apply has_keys, Hh.
  - pose proof (compile_fn f plugins k w) as [H _].
    destruct (compile f plugins k w) as [[w' k'] r]. simpl in *. rewrite H. exact Hh.
  - congruence.
  - destruct (set_global_config f configs (w_cache w)) as [c' r]. exact Hh.
Qed.

Lemma wrun_fn_keeps os w llh :
  ~ In OClear os -> has llh (w_fn w) = true -> has llh (w_fn (wrun os w)) = true.
Proof.
  unfold wrun. revert w. induction os as [|o os IH]; simpl; intros w Ho Hh; [exact Hh|].
  apply IH; [tauto|]. apply wstep_fn_keeps; [intros ->; tauto|exact Hh].
Qed.

(** A deduction under a likelihood name that is already in the table never succeeds and leaves
    the table alone. *)
Lemma deduce_taken limit dn func nodep noeff k w :
  has (k_llh k) (w_fn w) = true ->
  snd (deduce limit dn func nodep noeff k w) <> Ok tt /\
  w_fn (fst (fst (deduce limit dn func nodep noeff k w))) = w_fn w.
Proof.
  intros Hh. pose proof (deduce_fn limit dn func nodep noeff k w) as H. split.
  - intros Hok. destruct (deduce limit dn func nodep noeff k w) as [[w' k'] r] eqn:E.
    simpl in Hok. subst r. apply deduce_ok_inv in E.
    destruct E as (deps & c1 & needed & H1). decompose [and] H1. congruence.
  - destruct H as [[H _]|(k' & _ & Hf & _)]; [exact H|congruence].
Qed.

Theorem second_deduction_fails os1 os2 w limit dn func nodep noeff k limit2 dn2 func2 nodep2 noeff2 k2 :
  snd (wstep (ODeduce limit dn func nodep noeff k) (wrun os1 w)) = Ok tt ->
  ~ In OClear os2 -> k_llh k2 = k_llh k ->
  snd (wstep (ODeduce limit2 dn2 func2 nodep2 noeff2 k2)
         (wrun (os1 ++ ODeduce limit dn func nodep noeff k :: os2) w)) <> Ok tt.
Proof.
  intros Hok Hc Hl. unfold wrun. rewrite fold_left_app. simpl.
  fold (wrun os1 w). fold (wrun os2). simpl in Hok.
  destruct (deduce limit dn func nodep noeff k (wrun os1 w)) as [[w1 k1] r] eqn:E.
  simpl in Hok. subst r.
  apply deduce_ok_inv in E. destruct E as (deps & c1 & needed & H1).
  decompose [and] H1. clear H1.
  assert (Hh : has (k_llh k2) (w_fn w1) = true).
  { rewrite Hl. match goal with H : w_fn w1 = _ |- _ => rewrite H end.
    apply has_keys. apply keys_set_In. left. reflexivity. }
  pose proof (wrun_fn_keeps os2 w1 _ Hc Hh) as Hh2.
  pose proof (deduce_taken limit2 dn2 func2 nodep2 noeff2 k2 _ Hh2) as [Hn _].
  unfold wrun in Hn. simpl.
  destruct (deduce limit2 dn2 func2 nodep2 noeff2 k2 _) as [[w2 k3] r2]. exact Hn.
Qed.

(** Under a free likelihood name the outcome of a deduction is decided by the workflow alone. *)
Theorem fresh_deduction_ok limit dn func nodep noeff k w deps c1 ws needed :
  has (k_llh k) (w_fn w) = false ->
  dependencies_deduce (k_registry k) nodep limit (output_names dn noeff) [] = Ok deps ->
  dependencies_simplify (k_rate k) (k_llh k) deps (w_cache w) = (c1, (ws, needed), Ok tt) ->
  snd (deduce limit dn func nodep noeff k w) = Ok tt.
Proof.
  intros Hh Hd Hs. unfold deduce. rewrite Hd, Hs. unfold set_code, sv_setitem. simpl.
  rewrite Hh. reflexivity.
Qed.

Theorem taken_deduction_runtime_error limit dn func nodep noeff k w deps c1 ws needed :
  has (k_llh k) (w_fn w) = true ->
  dependencies_deduce (k_registry k) nodep limit (output_names dn noeff) [] = Ok deps ->
  dependencies_simplify (k_rate k) (k_llh k) deps (w_cache w) = (c1, (ws, needed), Ok tt) ->
  snd (deduce limit dn func nodep noeff k w) = Err RuntimeError.
Proof.
  intros Hh Hd Hs. unfold deduce. rewrite Hd, Hs. unfold set_code, sv_setitem. simpl.
  rewrite Hh. reflexivity.
Qed.

Lemma deduction_after_clear os w limit dn func nodep noeff k w0 w1 k1 :
  w_cache w0 = empty_rdict ->
  deduce limit dn func nodep noeff k w0 = (w1, k1, Ok tt) ->
  snd (deduce limit dn func nodep noeff k (wrun (os ++ [OClear]) w)) = Ok tt.
Proof.
  intros H0 H. destruct (deduce_ok_inv _ _ _ _ _ _ _ _ _ H) as
    (deps & c1 & needed & D1 & D2 & _). rewrite H0 in D2.
  eapply fresh_deduction_ok; [| exact D1 |].
  - unfold wrun. rewrite fold_left_app. reflexivity.
  - unfold wrun. rewrite fold_left_app. exact D2.
Qed.
