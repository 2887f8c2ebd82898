(** C91: the parameter files that appletree ships. *)
From Coq Require Import Reals Lra Lia.
From Verif Require Import Base BaseFacts ModelFloat ModelHist ModelShare ModelConfig ModelComponent ModelShipped
  ModelParameter ModelLikelihood ModelBinning ModelLit ModelContext ModelWhole ModelInstruct ModelParFiles
  SpecLikelihood SpecParameter SpecComponent SpecConfig SpecContext SpecBinning SpecBuild SpecWhole SpecNeeded SpecConstruct SpecInstruct SpecParFiles
  ProofParameter ProofParameter2 ProofContext ProofShipped ProofInstruct ProofParFiles
  PropParameter PropContext PropNeeded PropConstruct PropCompile PropBinning PropInstruct.
Local Open Scope string_scope.
Local Open Scope list_scope.

(** Every entry of every shipped file can be used for everything; names are not repeated. *)
Theorem C91_files sigmas f cfg : In (f, cfg) shipped_parameters -> solvable sigmas cfg ->
  NoDup (keys cfg) /\ forall n s, get n cfg = Some s -> sound_setting sigmas s.
Proof.
  intros Hin Hs. destruct (shipped_forms f cfg Hin) as [H1 H2]. split; [exact H1|]. intros n s Hg. apply get_In in Hg.
  rewrite Forall_forall in H2. apply (form_sound sigmas cfg n s Hs Hg). exact (H2 _ Hg).
Qed.

Lemma copied_sound sigmas (ls : dict linstr) cfg cfg' needed :
  NoDup (keys cfg) -> NoDup (map fst (all_copies ls)) ->
  (forall n, In n (map fst (all_copies ls)) -> ~ In n (map snd (all_copies ls))) ->
  update_parameter_config ls cfg = Ok (cfg', needed) ->
  (forall n s, get n cfg = Some s -> sound_setting sigmas s) ->
  NoDup (keys cfg') /\ forall n s, get n cfg' = Some s -> sound_setting sigmas s.
Proof.
  intros Hn Hc Hch Hu Hs. split.
  - unfold update_parameter_config in Hu. destruct (copy_loop _ cfg) as [cfg1|] eqn:E1; [|discriminate Hu]. cbn [bind] in Hu.
    injection Hu as <- _. pose proof (copy_loop_NoDup _ _ _ E1 Hn) as N1. revert N1. clear.
    generalize (map snd (flat_map (fun nl => i_copy (snd nl)) ls)) as from.
    generalize (flat_map (fun nl => map (fun c => c ++ "_rate")%string (i_components (snd nl))) ls) as rates.
    intros rates from. revert cfg1. induction from as [|x from IH]; intros cfg1 N1; cbn [drop_loop]; [exact N1|].
    destruct (negb (mem x rates) && has x cfg1); [apply IH, NoDup_del, N1|apply IH, N1].
  - destruct (C47_copies ls cfg cfg' needed Hn Hc Hch Hu) as (C1 & C2 & C3 & C4 & _). intros n s Hg.
    destruct (in_dec string_dec n (map fst (all_copies ls))) as [Hf|Hf].
    + apply in_map_iff in Hf. destruct Hf as ([k v] & <- & Hf). destruct (C1 k v Hf) as (s' & G1 & G2). cbn [fst] in Hg.
      rewrite G2 in Hg. injection Hg as <-. eauto.
    + destruct (in_dec string_dec n (map snd (all_copies ls))) as [Hv|Hv].
      * assert (Hd : is_rate ls n \/ ~ is_rate ls n).
        { destruct (in_dec string_dec n (flat_map (fun nl => map (fun c => c ++ "_rate")%string (i_components (snd nl))) ls)) as [H|H].
          - left. apply in_flat_map in H. destruct H as (nl & H1 & H2). apply in_map_iff in H2. destruct H2 as (c & <- & H2). exists nl, c. auto.
          - right. intros (nl & c & H1 & H2 & ->). apply H. apply in_flat_map. exists nl. split; [exact H1|]. apply in_map_iff. eauto. }
        destruct Hd as [Hd|Hd]; [rewrite (C3 n Hv Hd) in Hg; eauto|rewrite (C2 n Hv Hd) in Hg; discriminate Hg].
      * rewrite (C4 n Hf Hv) in Hg. eauto.
Qed.

Section Start.
  Variable Rng : Type.
  Variables normal uniform : fl -> fl -> Rng -> result (fl * Rng).
  Variable sigmas : fl -> fl -> result (fl * fl).
  Hypothesis draws : draws_finite normal uniform.

  Lemma sound_start cfg g : NoDup (keys cfg) -> (forall n s, get n cfg = Some s -> sound_setting sigmas s) ->
    exists st g', new_parameter Rng normal uniform sigmas cfg g = Ok (st, g') /\
      keys (p_values st) = keys cfg /\
      (exists r, log_prior sigmas st = Ok (Fin r)) /\
      (forall n s, get n cfg = Some s -> exists x, get n (p_values st) = Some x /\ sampled_ok s x) /\
      forall g1, exists st' g2 r, sample_init Rng normal st g1 = (st', Ok g2) /\ log_prior sigmas st' = Ok (Fin r).
  Proof.
    intros Hn Hs.
    destruct (C22_construction Rng normal uniform sigmas cfg g draws Hn) as (st & g' & E & S). { intros n s Hg. apply (Hs n s Hg). }
    assert (R : reachable Rng normal uniform sigmas cfg st) by (eapply r_new; exact E).
    destruct (reachable_wf _ _ _ _ _ _ R) as (W1 & W2 & W3 & W4 & W5).
    assert (Hk : keys (p_values st) = keys cfg). { exact W2. }
    exists st, g'. split; [exact E|]. split; [exact Hk|]. split; [eapply sampled_finite; eauto|]. split; [exact S|].
    intros g1. destruct (C22_sample_init Rng normal uniform st g1 draws) as (st' & g2 & I1 & I2 & I3 & I4 & I5 & I6).
    - rewrite Hk. exact Hn.
    - rewrite Hk, W1. intros n Hi. apply get_In_keys in Hi. destruct Hi as [s Hg]. exists s. split; [exact Hg|apply (Hs n s Hg)].
    - assert (F : exists r, log_prior sigmas st' = Ok (Fin r)).
      { apply (sampled_finite sigmas st' cfg); [congruence|exact Hn|rewrite I3; exact W4|exact Hs|].
        intros n s Hg. destruct (I6 n) as (s' & x & J1 & J2 & J3). { rewrite Hk. apply get_In_keys. eauto. }
        rewrite W1, Hg in J1. injection J1 as <-. eauto. }
      destruct F as [r F]. exists st', g2, r. auto.
  Qed.

  (** A parameter manager made from a shipped file has all its parameters, each fixed one at its value
      and each free one in its allowed range; the prior is finite then, and after sampling around the
      initial guesses. *)
  Theorem C91_start f cfg g : In (f, cfg) shipped_parameters -> solvable sigmas cfg ->
    exists st g', new_parameter Rng normal uniform sigmas cfg g = Ok (st, g') /\
      keys (p_values st) = keys cfg /\
      (exists r, log_prior sigmas st = Ok (Fin r)) /\
      (forall n s, get n cfg = Some s -> exists x, get n (p_values st) = Some x /\ sampled_ok s x) /\
      forall g1, exists st' g2 r, sample_init Rng normal st g1 = (st', Ok g2) /\ log_prior sigmas st' = Ok (Fin r).
  Proof. intros Hin Hs. destruct (C91_files sigmas f cfg Hin Hs) as [H1 H2]. apply sound_start; assumption. Qed.

  Definition manager_from (g : Rng) (cfg : dict setting) : result pstate :=
    match new_parameter Rng normal uniform sigmas cfg g with Ok (st, _) => Ok st | Err e => Err e end.

  (** A shipped instruction with the parameter file it names gives a context whose parameters are
      exactly the needed ones, and whose prior is finite at the start. *)
  Theorem C91_context {K} (E : ModelWhole.env K) ins f cfg w g :
    In (ins, f) shipped_par_config -> get f shipped_parameters = Some cfg -> solvable sigmas cfg ->
    shipped_env E -> contents (w_cache w) = [] -> w_fn w = [] ->
    (forall s, map_file ins s -> exists p, path_of (e_fs E) [] s p /\ found (e_fs E) [] p) ->
    (forall lname li, In (lname, li) (in_llhs ins) -> data_there E li) ->
    exists w' c, new_context K E (manager_from g) ins (Ok cfg) w = (w', Ok c) /\
      keys (cx_llhs c) = keys (in_llhs ins) /\
      (forall z, In z (cx_needed c) <-> In z (keys (p_values (cx_pars c)))) /\
      sanity_check (cx_needed c) (keys (p_values (cx_pars c))) = Ok tt /\
      (exists r, log_prior sigmas (cx_pars c) = Ok (Fin r)) /\
      forall g1, exists st' g2 r, sample_init Rng normal (cx_pars c) g1 = (st', Ok g2) /\ log_prior sigmas st' = Ok (Fin r).
  Proof.
    intros Hins Hf Hs HE Hw Hfn Hfiles Hdata.
    assert (Hpars : In (ins, keys cfg) shipped_instructs).
    { unfold shipped_par_config in Hins. unfold shipped_instructs. cbn [In] in *.
      destruct Hins as [H|[H|[H|[H|[]]]]];
        (assert (H1 := f_equal fst H); assert (H2 := f_equal snd H); cbn [fst snd] in H1, H2; subst ins f; clear H).
      - left. f_equal. assert (E1 : Some cfg = Some par_er) by (rewrite <- Hf; reflexivity). injection E1 as ->. reflexivity.
      - right. left. f_equal. assert (E1 : Some cfg = Some par_er_rn220_ar37) by (rewrite <- Hf; reflexivity). injection E1 as ->. reflexivity.
      - right. right. left. f_equal. assert (E1 : Some cfg = Some par_nr_low) by (rewrite <- Hf; reflexivity). injection E1 as ->. reflexivity.
      - right. right. right. left. f_equal. assert (E1 : Some cfg = Some par_nestv2_yield_only) by (rewrite <- Hf; reflexivity). injection E1 as ->. reflexivity. }
    apply get_In in Hf. destruct (C91_files sigmas f cfg Hf Hs) as [H1 H2].
    destruct (par_parts ins (keys cfg) (shipped_pars ins (keys cfg) Hpars)) as (_ & P2 & P3 & _).
    assert (Hm : forall cfg' needed, update_parameter_config (copying ins) cfg = Ok (cfg', needed) ->
      exists st g', new_parameter Rng normal uniform sigmas cfg' g = Ok (st, g') /\
        keys (p_values st) = keys cfg' /\ (exists r, log_prior sigmas st = Ok (Fin r)) /\
        forall g1, exists st' g2 r, sample_init Rng normal st g1 = (st', Ok g2) /\ log_prior sigmas st' = Ok (Fin r)).
    { intros cfg' needed Hu. destruct (copied_sound sigmas (copying ins) cfg cfg' needed H1 P2 P3 Hu H2) as [N1 N2].
      destruct (sound_start cfg' g N1 N2) as (st & g' & S1 & S2 & S3 & _ & S4). eauto 10. }
    destruct (C90_constructs E (manager_from g) ins (keys cfg) cfg w) as (w' & c & cfg' & needed & G1 & G2 & G3 & G4 & G5 & G6 & _); auto.
    - intros n. reflexivity.
    - intros cfg' needed Hu. destruct (Hm cfg' needed Hu) as (st & g' & S1 & _). exists st. unfold manager_from. rewrite S1. reflexivity.
    - exists w', c. split; [exact G1|]. split; [exact G2|].
      destruct (Hm cfg' needed G3) as (st & g' & S1 & S2 & S3 & S4). unfold manager_from in G4. rewrite S1 in G4. injection G4 as G4.
      rewrite <- G4, S2. auto.
  Qed.
End Start.

Lemma no_hits_acceptance p : In p star_imports -> ~ In "hits_acceptance" (p_params p).
Proof.
  intros H. assert (A : forallb (fun q => negb (mem "hits_acceptance" (p_params q))) star_imports = true) by (vm_compute; reflexivity).
  rewrite forallb_forall in A. specialize (A _ H). apply mem_false. destruct (mem _ _); [discriminate A|reflexivity].
Qed.

Lemma not_suffix s : ("hits_acceptance" <> s ++ "_rate")%string.
Proof.
  intros H. do 16 (destruct s as [|? s]; [discriminate H|cbn [append] in H; injection H as _ H || discriminate H]); discriminate H.
Qed.

(** No plugin of appletree takes "hits_acceptance", which is in er_nestv2.json: the check before a fit
    refuses every context whose parameter manager has it, unless the instruction copies to it, renames
    it, or uses it to scale a map. *)
Theorem C91_er_nestv2_refuted {K} (E : ModelWhole.env K) manager ins par w w' c provided :
  new_context K E manager ins par w = (w', Ok c) -> shipped_env E ->
  (forall lname li, In (lname, li) (in_llhs ins) -> plain_llh E li) ->
  (forall lname li, In (lname, li) (in_llhs ins) -> ~ In "hits_acceptance" (keys (li_copy li)) /\ ~ In "hits_acceptance" (keys (li_alias li))) ->
  (forall lname li on cname cls file ps nt ae cf, In (lname, li) (in_llhs ins) ->
     match li_type li with TDefault cfg _ => exists bs, wanted cfg on bs | TLit _ on' _ _ => on = on' end ->
     In (cname, (cls, file)) (li_components li) -> e_classes E cls = Some (ClsSim ps nt ae) ->
     used_config (registry_after [ps]) "batch_size" (on ++ ["eff"]) cf ->
     ~ requires (contents (w_cache w')) lname cf "hits_acceptance") ->
  In "hits_acceptance" (keys par_er_nestv2) /\
  (In "hits_acceptance" provided -> sanity_check (cx_needed c) provided = Err RuntimeError).
Proof.
  intros Hc HE Hp Hno Hsc. split. { apply mem_In. vm_compute. reflexivity. }
  intros Hin. destruct (sanity_check (cx_needed c) provided) as [[]|e] eqn:Es.
  2:{ unfold sanity_check in Es. destruct (forallb _ _); [discriminate Es|]. injection Es as <-. reflexivity. }
  exfalso. rewrite (C87_checked E manager ins par w w' c provided Hc Hp) in Es.
  destruct (Es _ Hin) as [(lname & li & Hl & Hz)|(lname & li & x & Hl & Hx & Hz)].
  - exact (proj1 (Hno _ _ Hl) Hz).
  - destruct Hz as [[_ <-]|Hz].
    2:{ apply (proj2 (Hno _ _ Hl)). change "hits_acceptance" with (fst ("hits_acceptance", x)). apply in_map. exact Hz. }
    destruct Hx as (on & cname & cls & file & k & Hon & Hi & Hk & [Hx|Hx]); [exact (not_suffix cname Hx)|].
    destruct k as [ps nt ae|nt ae|]; [|destruct Hx|destruct Hx].
    destruct Hx as (d & q & Hd & Hq & Hx). pose proof Hk as Hk'. rewrite (proj1 (proj2 HE)) in Hk'.
    destruct Hx as [Hx|(n & cf & Hcf & Hr)].
    + destruct (class_calls cls ps nt ae Hk') as (calls & Hcalls & ->).
      destruct (registry_one calls) as [Er _]. { apply in_map_iff. exists (cls, calls). auto. }
      rewrite Er in Hq. destruct (component_good cls calls Hcalls) as (_ & _ & _ & _ & G5).
      destruct (G5 _ q Hq) as [Hpub _]. apply published_in in Hpub. exact (no_hits_acceptance q Hpub Hx).
    + apply (Hsc lname li on cname cls file ps nt ae cf Hl Hon Hi Hk); [|exact Hr].
      exists d, q. split; [exact Hd|]. split; [exact Hq|]. change cf with (snd (n, cf)). apply in_map. exact Hcf.
Qed.

(* ------------------------------------------------------------------ *)
(** An instruction with the component for which er_nestv2.json is meant, and the file: the context is
    made, the check fails. *)
Definition v_table : table := mk_table ["cs1"; "cs2"] [[Fin 30; Fin 2000]; [Fin 70; Fin 3000]].
Definition v_env : ModelWhole.env nat :=
  mk_env all_files (fun _ => Ok v_table) 1000 appletree_plugins appletree_components
    (fun _ _ => Err TypeError) (fun _ => Err AttributeError) no_oor no_g1 no_g2 (fun a b => Ok (Fin 1, Fin 1)).
Definition v_ins : instruct :=
  mk_instruct None []
    [("rn220_llh", mk_linstruct
       (TDefault (mk_lconfig "irreg" (OnList ["cs1"; "cs2"])
          (PList [AArr (Arr1 [Fin 0; Fin 50; Fin 100]); AArr (Arr2 [[Fin 200; Fin 10000]; [Fin 200; Fin 10000]])])
          None (Some (Fin 0, Fin 100)) (Some (Fin 200, Fin 10000))) "data.csv")
       [] [] [("er", ("ERBandNestV2", None)); ("ac", ("AC", Some "ac.csv"))])].

Lemma v_draws : draws_finite ex_normal ex_uniform.
Proof. exact ex_draws. Qed.

Example C91_er_nestv2_case : exists w' c,
  new_context nat v_env (manager_from unit ex_normal ex_uniform (fun a b => Ok (Fin 1, Fin 1)) tt) v_ins (Ok par_er_nestv2) init_world = (w', Ok c) /\
  sanity_check (cx_needed c) (keys (p_values (cx_pars c))) = Err RuntimeError.
Proof.
  set (sg := fun a b : fl => Ok (Fin 1, Fin 1)).
  assert (HE : shipped_env v_env). { split; [reflexivity|]. split; [reflexivity|]. cbn [e_limit v_env]. lia. }
  assert (Hcheck : ins_check v_ins = true) by (vm_compute; reflexivity).
  assert (Hfiles : forall s, map_file v_ins s -> exists p, path_of (e_fs v_env) [] s p /\ found (e_fs v_env) [] p).
  { intros s _. exists s. split; [reflexivity|]. exists s. reflexivity. }
  assert (Htypes : forall lname li, In (lname, li) (in_llhs v_ins) -> type_checked (li_type li)).
  { intros lname li [H|[]]. apply (f_equal snd) in H. cbn [snd] in H. subst li. cbn [li_type type_checked lc_bins_on lc_bins_type lc_bins].
    eexists _, _. split; [reflexivity|]. right. split; [reflexivity|]. split; [reflexivity|]. split; [reflexivity|].
    split; [eexists _, _; split; reflexivity|]. eexists _, _. split; [reflexivity|]. split; [reflexivity|].
    intros r r' Hr Hr'. cbn in Hr, Hr'. destruct Hr as [<-|[<-|[]]], Hr' as [<-|[<-|[]]]; reflexivity. }
  assert (Hdata : forall lname li, In (lname, li) (in_llhs v_ins) -> data_there v_env li).
  { intros lname li [H|[]]. apply (f_equal snd) in H. cbn [snd] in H. subst li. exists ["cs1"; "cs2"]. split; [reflexivity|].
    split.
    - exists "data.csv", v_table. split; [reflexivity|]. split; [reflexivity|]. split; [intros x Hx; exact Hx|]. intros H. discriminate H.
    - intros cname cls fname _. exists fname, v_table. split; [reflexivity|]. split; [reflexivity|]. intros x Hx; exact Hx. }
  assert (Hsolv : solvable sg par_er_nestv2).
  { intros n s args ep en _ _ _ _ _. exists 1%R, 1%R. split; [reflexivity|]. split; lra. }
  destruct (C91_start unit ex_normal ex_uniform sg ex_draws "er_nestv2.json" par_er_nestv2 tt) as (st & g' & S1 & S2 & _).
  { unfold shipped_parameters. cbn [In]. tauto. }
  { exact Hsolv. }
  destruct (C89_constructs v_env (manager_from unit ex_normal ex_uniform sg tt) v_ins par_er_nestv2 init_world [])
    as (w' & c & d1 & G1 & _ & (cfg' & needed & G3 & G4) & G5 & _ & G6).
  - reflexivity.
  - constructor.
  - intros [].
  - intros n es [].
  - intros k v [].
  - intros n [].
  - intros v [].
  - intros cfg' needed Hu. injection Hu as <- _. exists st. unfold manager_from. rewrite S1. reflexivity.
  - intros d1 Hd. exact (shipped_ready v_env v_ins HE Hcheck Htypes Hfiles Hdata d1 Hd).
  - exists w', c. split; [exact G1|]. unfold manager_from in G4. injection G3 as <- _. rewrite S1 in G4. injection G4 as <-.
    apply (C91_er_nestv2_refuted v_env _ v_ins _ _ w' c _ G1 HE).
    + intros lname li [H|[]]. apply (f_equal snd) in H. cbn [snd] in H. subst li.
      split; [intros k []|]. split; [constructor|]. intros cname cls file ps nt ae Hi Hk.
      change (appletree_components cls = Some (ClsSim ps nt ae)) in Hk. destruct (class_calls cls ps nt ae Hk) as (calls & Hc & ->).
      destruct (registry_one calls) as [Er _]. { apply in_map_iff. exists (cls, calls). auto. }
      rewrite Er. apply (shipped_unique cls). exact Hc.
    + intros lname li [H|[]]. apply (f_equal snd) in H. cbn [snd] in H. subst li. split; intros [].
    + intros lname li on cname cls file ps nt ae cf Hl Hon Hi Hk Hcf Hr.
      assert (Hu : get "url_base" d1 = None) by (rewrite (proj1 G5) by (intros []); reflexivity).
      pose proof (checked_ready v_env d1 li Hu (Htypes _ _ Hl) (Hdata _ _ Hl)) as Hrd.
      destruct Hl as [Hl|[]]. assert (E1 := f_equal fst Hl). apply (f_equal snd) in Hl. cbn [fst snd] in Hl, E1. subst li lname.
      destruct Hon as (bs & [[Hon _]|(s & Hon & _)]); [|discriminate Hon]. injection Hon as <-.
      assert (Huse : uses v_env d1 v_ins "rn220_llh" cf).
      { eexists _, _, cname, cls, file, ps, nt, ae. split; [left; reflexivity|]. split; [exact Hrd|]. auto. }
      assert (Hchk : comp_check [] "rn220_llh" ["cs1"; "cs2"] (cname, (cls, file)) = true).
      { cbn [li_components In] in Hi. destruct Hi as [Hi|[Hi|[]]]; injection Hi as <- <- <-; vm_compute; reflexivity. }
      destruct (sim_check v_env [] "rn220_llh" ["cs1"; "cs2"] cname cls file ps nt ae HE Hchk Hk) as [_ Hf].
      destruct (Hf cf Hcf) as [F1 F2].
      assert (Hr' : requires d1 "rn220_llh" cf "hits_acceptance").
      { destruct Hr as [Hkd Hr]. split; [exact Hkd|]. rewrite <- (G6 "rn220_llh" cf Huse); [exact Hr|]. rewrite Hkd. discriminate. }
      rewrite (scaler_ok _ [] d1 "rn220_llh" cf "hits_acceptance" G5 F1 F2) in Hr'.
      assert (A : forallb (fun cf => negb (mem "hits_acceptance" (scaler [] cf))) shipped_configs = true) by (vm_compute; reflexivity).
      rewrite forallb_forall in A. specialize (A _ F1). apply mem_In in Hr'. rewrite Hr' in A. discriminate A.
    + rewrite S2. apply mem_In. vm_compute. reflexivity.
Qed.

(** neutron_low.json with nr_low.json. *)
Example C91_case : exists w' c r,
  new_context nat n_env (manager_from unit ex_normal ex_uniform (fun a b => Ok (Fin 1, Fin 1)) tt) neutron_low (Ok par_nr_low) init_world = (w', Ok c) /\
  keys (cx_llhs c) = ["neutron_llh"] /\ sanity_check (cx_needed c) (keys (p_values (cx_pars c))) = Ok tt /\
  log_prior (fun a b => Ok (Fin 1, Fin 1)) (cx_pars c) = Ok (Fin r).
Proof.
  destruct (C91_context unit ex_normal ex_uniform (fun a b => Ok (Fin 1, Fin 1)) ex_draws n_env neutron_low "nr_low.json" par_nr_low init_world tt)
    as (w' & c & G1 & G2 & _ & G4 & (r & G5) & _).
  - right. right. left. reflexivity.
  - reflexivity.
  - intros n s args ep en _ _ _ _ _. exists 1%R, 1%R. split; [reflexivity|]. split; lra.
  - split; [reflexivity|]. split; [reflexivity|]. cbn [e_limit n_env]. lia.
  - reflexivity.
  - reflexivity.
  - intros s _. exists s. split; [reflexivity|]. exists s. reflexivity.
  - intros lname li [H|[]]. apply (f_equal snd) in H. cbn [snd] in H. subst li. exists ["num_s1_phd"; "cs2"]. split; [reflexivity|].
    split.
    + exists "data_Neutron.csv", n_table. split; [reflexivity|]. split; [reflexivity|].
      split; [intros x Hx; exact Hx|]. intros H. discriminate H.
    + intros cname cls fname [H|[]]. discriminate H.
  - exists w', c, r. auto.
Qed.

Print Assumptions C91_files.
Print Assumptions C91_start.
Print Assumptions C91_context.
Print Assumptions C91_er_nestv2_refuted.
