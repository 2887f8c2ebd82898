(** The workflow lemmas restated for [deduce] on a component. *)
From Verif Require Import Base BaseFacts ModelShare ModelConfig ModelComponent SpecComponent
  ProofComponent ProofWorkflow ProofSim ProofHistory.
From Coq Require Import Relations.
Local Open Scope string_scope.

Lemma top_defined calls limit data_names func nodep noeff k w w' k' :
  k_registry k = registry_after calls -> unique_names (k_registry k) ->
  deduce limit data_names func nodep noeff k w = (w', k', Ok tt) ->
  exists pr, k_code k' = Some pr /\ pr_nodep pr = nodep /\
    pr_return pr = output_names data_names noeff /\
    reads_defined [nodep] (pr_body pr) /\
    (forall x, In x (pr_return pr) -> x = nodep \/ In x (assigned (pr_body pr))).
Proof.
  intros Hreg Hu H. destruct (deduce_ok_inv _ _ _ _ _ _ _ _ _ H) as
    (deps & c1 & needed & Hd & Hs & Hws & Hn & Hcode & _).
  eexists. split; [exact Hcode|]. split; [reflexivity|]. split; [reflexivity|].
  rewrite gen_body.
  assert (Hp : provides_ok (k_registry k)) by (rewrite Hreg; apply provides_ok_after).
  exact (deduced_code_defined _ _ _ _ _ (k_name k) Hp Hu Hd).
Qed.

Lemma top_runs {V} (sem : string -> list V -> result (list V))
    calls limit data_names func nodep noeff k w w' k' pr key n params :
  k_registry k = registry_after calls -> unique_names (k_registry k) ->
  nodep <> "key" -> nodep <> "parameters" ->
  deduce limit data_names func nodep noeff k w = (w', k', Ok tt) ->
  k_code k' = Some pr ->
  (forall outs inst ins args, In (outs, inst, ins) (pr_body pr) ->
     List.length args = 2 + List.length ins ->
     exists key' vs, sem inst args = Ok (key' :: vs) /\ List.length vs = List.length outs) ->
  exists key' outs, run_prog V sem pr key n params = Ok (key', outs) /\
    List.length outs = List.length (output_names data_names noeff).
Proof.
  intros Hreg Hu Hk Hpar H Hcode0 Hsh. destruct (deduce_ok_inv _ _ _ _ _ _ _ _ _ H) as
    (deps & c1 & needed & Hd & Hs & Hws & Hn & Hcode & _).
  rewrite Hcode in Hcode0. injection Hcode0 as <-.
  assert (Hp : provides_ok (k_registry k)) by (rewrite Hreg; apply provides_ok_after).
  eapply simulation_total; eauto. intros o i ins a Hi. apply Hsh. rewrite gen_body. exact Hi.
Qed.

Lemma top_exact calls limit data_names func nodep noeff k w w' k' :
  k_registry k = registry_after calls -> unique_names (k_registry k) ->
  deduce limit data_names func nodep noeff k w = (w', k', Ok tt) ->
  NoDup (map w_plugin (k_worksheet k')) /\
  (forall wk, In wk (k_worksheet k') <->
     exists d p, Reach (k_registry k) nodep (output_names data_names noeff) d /\
       get d (k_registry k) = Some p /\
       w_plugin wk = p_name p /\ w_provides wk = p_provides p /\ w_depends wk = p_depends p) /\
  (exists pr, k_code k' = Some pr /\
     pr_body pr = map (fun wk => (w_provides wk, w_plugin wk ++ "_" ++ k_name k, w_depends wk))
                      (k_worksheet k')).
Proof.
  intros Hreg Hu H. destruct (deduce_ok_inv _ _ _ _ _ _ _ _ _ H) as
    (deps & c1 & needed & Hd & Hs & Hws & Hn & Hcode & _).
  destruct (dependencies_deduce_ok _ _ _ _ _ _ Hd) as (l & Hl & Hc & Ht & Hf).
  simpl in Hl. subst l. split; [|split].
  - rewrite Hws, map_map. apply first_by_name_NoDup.
  - intros wk. rewrite Hws, in_map_iff. split.
    + intros (p & <- & Hp). apply (selected_in _ nodep Hu _ _ p Hf) in Hp.
      destruct (Hf p Hp) as (d & Hdr & Hg). exists d, p. repeat split; auto.
    + intros (d & p & Hdr & Hg & H1 & H2 & H3). exists p. split.
      * destruct wk; simpl in *; subst; reflexivity.
      * apply (selected_in _ nodep Hu _ _ p Hf).
        destruct (good_ext_reach _ _ _ _ _ Hc Ht Hdr) as (q & Hq & Hi). congruence.
  - eexists. split; [exact Hcode|]. rewrite Hws. reflexivity.
Qed.

Lemma Solves_line {V} (sem : string -> list V -> result (list V)) E params k body k' outs inst ins :
  Solves sem E params k body k' -> In (outs, inst, ins) body ->
  exists k1 k2 argv vs, map E ins = map Some argv /\
    sem inst (k1 :: params :: argv) = Ok (k2 :: vs) /\ map E outs = map Some vs.
Proof.
  intros H. induction H as [|k k1 k2 o i n argv vs body Hi Hs Ho Hrest IH]; [intros []|].
  intros [Heq|Hin]; [|exact (IH Hin)]. injection Heq as -> -> ->. exists k, k1, argv, vs. auto.
Qed.

Lemma top_values {V} (sem : string -> list V -> result (list V))
    calls limit data_names func nodep noeff k w w' k' pr key n params key' outs :
  k_registry k = registry_after calls -> unique_names (k_registry k) ->
  consistent (k_registry k) nodep (output_names data_names noeff) ->
  deduce limit data_names func nodep noeff k w = (w', k', Ok tt) ->
  k_code k' = Some pr ->
  run_prog V sem pr key n params = Ok (key', outs) ->
  exists E : string -> option V,
    E nodep = Some n /\
    Solves sem E params key (pr_body pr) key' /\
    (forall d p, Reach (k_registry k) nodep (output_names data_names noeff) d ->
       get d (k_registry k) = Some p ->
       exists k1 k2 argv vs,
         map E (p_depends p) = map Some argv /\
         sem (p_name p ++ "_" ++ k_name k) (k1 :: params :: argv) = Ok (k2 :: vs) /\
         map E (p_provides p) = map Some vs) /\
    map E (output_names data_names noeff) = map Some outs.
Proof.
  intros Hreg Hu Hcons H Hcode0 Hrun. pose proof H as Hded.
  destruct (deduce_ok_inv _ _ _ _ _ _ _ _ _ H) as
    (deps & c1 & needed & Hd & Hs & Hws & Hn & Hcode & _).
  rewrite Hcode in Hcode0. injection Hcode0 as <-.
  assert (Hp : provides_ok (k_registry k)) by (rewrite Hreg; apply provides_ok_after).
  destruct (simulation_values sem _ _ _ _ _ _ _ _ _ _ _ _ _ Hp Hu Hcons Hd Hrun)
    as (E & H1 & H2 & H3).
  exists E. split; [exact H1|]. split; [rewrite gen_body; exact H2|]. split; [|exact H3].
  intros d p Hdr Hg. eapply Solves_line; [exact H2|].
  unfold body_of. apply in_map_iff. exists p. split; [reflexivity|].
  destruct (dependencies_deduce_ok _ _ _ _ _ _ Hd) as (l & Hl & Hc & Ht & Hf).
  simpl in Hl. subst l. apply (selected_in _ nodep Hu _ _ p Hf).
  destruct (good_ext_reach _ _ _ _ _ Hc Ht Hdr) as (q & Hq & Hi). congruence.
Qed.

Lemma top_valueerror reg nodep limit names :
  acyclic reg nodep names -> List.length (keys reg) + 1 < limit ->
  ((exists d, Reach reg nodep names d /\ get d reg = None) <->
   dependencies_deduce reg nodep limit names [] = Err ValueError) /\
  ((forall d, Reach reg nodep names d -> get d reg <> None) <->
   exists deps, dependencies_deduce reg nodep limit names [] = Ok deps).
Proof.
  intros Ha Hl. split; split.
  - intros (d & Hd & Hg). apply deduce_missing; [exact Ha| |exact Hl].
    intros Hc. destruct (Hc d Hd) as (p & Hp). congruence.
  - intros H. apply deduce_err in H. destruct H as [(_ & H)|(Hbad & _)]; [exact H|discriminate].
  - intros H. apply deduce_success; [|exact Ha|lia]. intros d Hd. specialize (H d Hd).
    destruct (get d reg) as [p|]; [eauto|congruence].
  - intros (deps & H) d Hd. destruct (deduce_ok_complete _ _ _ _ _ _ H d Hd) as (p & Hp).
    congruence.
Qed.

Lemma top_cyclic reg nodep names :
  (exists d, Reach reg nodep names d /\ clos_trans _ (edge reg nodep) d d) ->
  forall limit deps, dependencies_deduce reg nodep limit names [] <> Ok deps.
Proof.
  intros (d & Hd & Hc) limit deps H. exact (deduce_ok_acyclic _ _ _ _ _ _ H d Hd Hc).
Qed.

Lemma top_register_conflict calls p :
  let reg := registry_after calls in
  (snd (register [p] reg) = Ok tt <->
   forall d q n cf cf', (get d reg = Some q /\ ~ In d (p_provides p)) \/ (q = p /\ In d (p_provides p)) ->
     In (n, cf) (p_configs q) -> In (n, cf') (p_configs p) ->
     same_default (c_default cf) (c_default cf')) /\
  (snd (register [p] reg) <> Ok tt -> snd (register [p] reg) = Err ValueError).
Proof.
  intros reg.
  assert (Heq : snd (register [p] reg) = snd (register1 p reg)).
  { simpl. destruct (existsb _ _); reflexivity. }
  rewrite Heq. split.
  - rewrite (register1_ok_iff p reg (NoDup_registry_after calls)). split.
    + intros H d q n cf cf' Hq H1 H2. apply same_default_iff. apply (H d q n cf cf'); [|exact H1|exact H2].
      rewrite get_register_provides. destruct Hq as [[Hg Hn]|[-> Hi]].
      * apply mem_false in Hn. rewrite Hn. exact Hg.
      * apply mem_In in Hi. rewrite Hi. reflexivity.
    + intros H d q n cf cf' Hq H1 H2. apply same_default_iff. apply (H d q n cf cf'); [|exact H1|exact H2].
      rewrite get_register_provides in Hq. destruct (mem d (p_provides p)) eqn:E.
      * right. split; [congruence|]. apply mem_In, E.
      * left. split; [exact Hq|]. apply mem_false, E.
  - unfold register1. simpl. destruct (existsb _ _); [reflexivity|congruence].
Qed.
