(** C90: the instructions that appletree ships. *)
From Coq Require Import Reals Lia.
From Verif Require Import Base BaseFacts ModelFloat ModelHist ModelShare ModelConfig ModelComponent ModelShipped
  ModelParameter ModelLikelihood ModelBinning ModelLit ModelContext ModelWhole ModelInstruct
  SpecLikelihood SpecComponent SpecConfig SpecContext SpecBinning SpecBuild SpecWhole SpecNeeded SpecConstruct SpecInstruct
  ProofContext ProofInstruct PropContext PropNeeded PropConstruct PropCompile PropBinning.
Local Open Scope string_scope.
Local Open Scope list_scope.

(** In a fresh process with appletree's own plugins and components, an instruction that appletree
    ships gives a context whenever its files are there, its data can be read, and the parameter
    manager accepts the parameters named in its parameter file. The likelihoods are those of the
    instruction, the needed parameters are exactly the configured ones (after copying), the check
    before a fit passes, and whatever a component needs has a value after the renaming. *)
Theorem C90_constructs {K} (E : ModelWhole.env K) manager ins pars cfg w :
  In (ins, pars) shipped_instructs -> shipped_env E -> contents (w_cache w) = [] -> w_fn w = [] ->
  (forall s, map_file ins s -> exists p, path_of (e_fs E) [] s p /\ found (e_fs E) [] p) ->
  (forall lname li, In (lname, li) (in_llhs ins) -> data_there E li) ->
  NoDup (keys cfg) -> (forall n, In n (keys cfg) <-> In n pars) ->
  (forall cfg' needed, update_parameter_config (copying ins) cfg = Ok (cfg', needed) -> exists st, manager cfg' = Ok st) ->
  exists w' c cfg' needed, new_context K E manager ins (Ok cfg) w = (w', Ok c) /\
    keys (cx_llhs c) = keys (in_llhs ins) /\
    update_parameter_config (copying ins) cfg = Ok (cfg', needed) /\ manager cfg' = Ok (cx_pars c) /\
    (forall z, In z (cx_needed c) <-> In z (keys cfg')) /\
    sanity_check (cx_needed c) (keys cfg') = Ok tt /\
    forall lname li x (p p' : params), In (lname, li) (in_llhs ins) -> llh_needs E (contents (w_cache w')) lname li x ->
      (forall z, In z (keys cfg') -> In z (keys p)) -> renamed (li_alias li) p p' -> exists v, get x p' = Some v.
Proof.
  intros Hin HE Hw Hfn Hfiles Hdata Hnd Hk Hman.
  pose proof (shipped_checked ins pars Hin) as Hcheck. pose proof (shipped_pars ins pars Hin) as Hpars.
  pose proof (fun lname li => shipped_types ins pars lname li Hin) as Htypes.
  destruct (check_parts E ins Hcheck Hfiles) as (P1 & P2 & P3 & P4 & P5 & _).
  destruct (par_parts ins pars Hpars) as (_ & R2 & R3 & R4 & R5 & R6).
  destruct (C89_constructs E manager ins cfg w []) as (w' & c & d1 & G1 & G2 & (cfg' & needed & G3 & G4) & G5 & _ & G6); auto.
  - unfold with_base. rewrite P3, Hw. reflexivity.
  - intros v Hv. apply Hk. auto.
  - rewrite Hfn. intros d1 Hd. apply (shipped_ready E ins HE Hcheck Htypes Hfiles Hdata d1 Hd).
  - pose proof (shipped_plain E ins HE pars Hpars) as Hplain.
    assert (Hneed : forall z, In z (cx_needed c) <-> In z (keys cfg')).
    { intros z. rewrite (C87_needed E manager ins (Ok cfg) w w' c G1 Hplain).
      rewrite (needed_list_ok E ins HE Hcheck pars Hpars Htypes Hdata d1 (contents (w_cache w')) z G5 G6).
      rewrite R6. symmetry. apply (keys_after_ok ins pars cfg cfg' needed); auto. }
    exists w', c, cfg', needed. split; [exact G1|]. split; [exact G2|]. split; [exact G3|]. split; [exact G4|].
    split; [exact Hneed|]. split. { apply sanity_ok. intros z Hz. apply Hneed. exact Hz. }
    intros lname li x p p' Hl Hx Hp Hr. destruct (R5 _ _ Hl) as (_ & A2 & _ & _ & A5 & _).
    apply (C87_found E manager ins (Ok cfg) w w' c p lname li x p' G1 Hplain); auto.
    + intros z Hz. apply Hp, Hneed. exact Hz.
    + apply A5. apply (llh_list_ok E ins HE Hcheck pars Hpars Htypes Hdata d1 (contents (w_cache w')) lname li x G5 G6 Hl). exact Hx.
Qed.

(* ------------------------------------------------------------------ *)
(** The instruction neutron_low.json, all files at hand, its data with the two observables. *)
Definition n_table : table := mk_table ["num_s1_phd"; "cs2"] [[Fin 3; Fin 200]; [Fin 7; Fin 700]].
Definition n_env : ModelWhole.env nat :=
  mk_env all_files (fun _ => Ok n_table) 1000 appletree_plugins appletree_components
    (fun _ _ => Err TypeError) (fun _ => Err AttributeError) no_oor no_g1 no_g2 (fun a b => Ok (a, b)).
Definition n_par : dict setting :=
  map (fun n => (n, mk_setting (Some "fixed") (Some [("val", Fin 1)]) None None None)) neutron_low_parameters.

Example C90_case : exists w' c, new_context nat n_env (fun cfg => Ok (mk_pstate cfg (keys cfg) [] (map (fun kv => (fst kv, Fin 1)) cfg)))
    neutron_low (Ok n_par) init_world = (w', Ok c) /\
  keys (cx_llhs c) = ["neutron_llh"] /\ In "neutron_nr_rate" (cx_needed c) /\ In "t_ly" (cx_needed c) /\ ~ In "nr_rate" (cx_needed c).
Proof.
  destruct (C90_constructs n_env (fun cfg => Ok (mk_pstate cfg (keys cfg) [] (map (fun kv => (fst kv, Fin 1)) cfg)))
    neutron_low neutron_low_parameters n_par init_world) as (w' & c & cfg' & needed & G1 & G2 & G3 & G4 & G5 & _).
  - right. right. left. reflexivity.
  - split; [reflexivity|]. split; [reflexivity|]. cbn [e_limit n_env]. lia.
  - reflexivity.
  - reflexivity.
  - intros s _. exists s. split; [reflexivity|]. exists s. reflexivity.
  - intros lname li [H|[]]. apply (f_equal snd) in H. cbn [snd] in H. subst li. exists ["num_s1_phd"; "cs2"]. split; [reflexivity|].
    split.
    + exists "data_Neutron.csv", n_table. split; [reflexivity|]. split; [reflexivity|].
      split; [intros x Hx; exact Hx|]. intros H. discriminate H.
    + intros cname cls fname [H|[]]. discriminate H.
  - apply (ProofShipped.nodup_b_ok). vm_compute. reflexivity.
  - intros n. reflexivity.
  - intros cfg' needed _. eexists. reflexivity.
  - exists w', c. split; [exact G1|]. split; [exact G2|]. rewrite !G5.
    assert (K : keys cfg' = ["gas_gain"; "drift_velocity"; "s2_threshold"; "g1"; "g2"; "p_dpe"; "elife_sigma"; "s1_eff_3f_sigma";
      "s1_cut_acc_sigma"; "s2_cut_acc_sigma"; "t_ly"; "t_qy"; "neutron_nr_rate"]).
    { apply (f_equal (fun r => match r with Ok (x, _) => keys x | Err _ => [] end)) in G3. cbv beta iota in G3. rewrite <- G3. reflexivity. }
    rewrite K. cbn [In]. repeat split; [tauto|tauto|]. intros H. repeat (destruct H as [H|H]; [discriminate H|]). destruct H.
Qed.

Print Assumptions C90_constructs.
