(** Lemmas about the instructions that appletree ships. *)
From Coq Require Import Reals Lia.
From Verif Require Import Base BaseFacts ModelFloat ModelHist ModelShare ModelConfig ModelComponent ModelCompile ModelShipped
  ModelParameter ModelLikelihood ModelBinning ModelLit ModelContext ModelWhole ModelInstruct
  SpecLikelihood SpecComponent SpecConfig SpecCompile SpecContext SpecBinning SpecBuild SpecWhole SpecNeeded SpecConstruct SpecInstruct
  ProofConfig ProofConfig2 ProofContext ProofComponent ProofCompile ProofBuild ProofShipped ProofConstruct PropBinning PropContext.
Local Open Scope string_scope.
Local Open Scope list_scope.

(** * Classes *)

Lemma registry_one calls : In calls (map snd shipped_components) ->
  registry_after [List.concat calls] = registry_after calls /\ snd (register (List.concat calls) []) = Ok tt.
Proof.
  intros H. unfold shipped_components in H. cbn [map snd] in H.
  repeat (destruct H as [<-|H]; [split; vm_compute; reflexivity|]). destruct H.
Qed.

Lemma class_calls cls ps nt ae : appletree_components cls = Some (ClsSim ps nt ae) ->
  exists calls, In (cls, calls) shipped_components /\ ps = List.concat calls.
Proof.
  unfold appletree_components. intros H. apply get_In in H. unfold shipped_classes in H.
  assert (P : forall c calls nt' ae', (c, ClsSim (List.concat calls) nt' ae') = (cls, ClsSim ps nt ae) ->
    In (c, calls) shipped_components -> exists calls, In (cls, calls) shipped_components /\ ps = List.concat calls).
  { intros c calls nt' ae' E Hi. exists calls. assert (E1 : c = cls) by congruence. assert (E2 : List.concat calls = ps) by congruence.
    subst. auto. }
  cbn [In] in H. repeat (destruct H as [H|H];
    [try discriminate H; match type of H with (?c, ClsSim (List.concat ?l) ?n ?a) = _ =>
       apply (P c l n a H); unfold shipped_components; cbn [In]; tauto end|]).
  destruct H.
Qed.

(** * Default files *)

Lemma default_files_named s : In s default_files -> default_file s.
Proof.
  unfold default_files. intros H. apply in_flat_map in H. destruct H as (cf & Hcf & Hs).
  assert (G : forallb (fun cf => existsb (fun np : string * plugin =>
     (if in_dec config_eq_dec cf (map snd (p_configs (snd np))) then true else false) &&
     is_plugin (appletree_plugins (fst np)) (snd np)) published_classes) shipped_configs = true)
    by (vm_compute; reflexivity).
  rewrite forallb_forall in G. specialize (G cf Hcf). apply existsb_exists in G. destruct G as ([n p] & _ & G).
  apply andb_prop in G. destruct G as [G1 G2]. cbn [fst snd] in *. apply is_plugin_ok in G2.
  destruct (in_dec config_eq_dec cf (map snd (p_configs p))) as [Hi|]; [|discriminate G1].
  destruct (c_default cf) as [v|] eqn:Hd; [|destruct (c_kind cf); destruct Hs].
  exists n, p, cf, v. split; [exact G2|]. split; [exact Hi|]. split; [|split; [exact Hd|]];
    destruct (c_kind cf); try destruct Hs; auto.
Qed.

(** * Configs that fit to an instruction *)

Definition fits (configs : dict value) (l : string) (cf : config) : bool :=
  forallb (fun n => negb (has n configs)) (sub_maps cf) &&
  match get (ModelConfig.c_name cf) configs with
  | None => true
  | Some v =>
      match c_kind cf, v with
      | KMap, VStr _ => true
      | KSigmaMap, VList [VStr _; VStr _; VStr _] => true
      | (KConstant | KConstantSet), VDict es =>
          match get l es with Some (VBool _) | Some (ModelShare.VNum _) | Some (VList _) => true | _ => false end
      | (KConstant | KConstantSet), (VBool _ | ModelShare.VNum _ | VList _) => true
      | _, _ => false
      end
  end.

Lemma shipped_default cf : In cf shipped_configs ->
  match c_kind cf with
  | KSigmaMap => exists v m l u, c_default cf = Some v /\ three_files v m l u
  | _ => True
  end.
Proof.
  intros H. unfold shipped_configs in H.
  repeat (destruct H as [<-|H]; [cbn; try exact I; try (do 4 eexists; split; [reflexivity|constructor])|]). destruct H.
Qed.

Lemma fits_usable f configs d1 l cf :
  ~ In "url_base" (keys configs) -> configured f configs [] d1 -> In cf shipped_configs ->
  (forall s, default_file s \/ (exists k v, In (k, v) configs /\ In s (files_in v)) ->
     exists p, path_of f [] s p /\ found f [] p) ->
  fits configs l cf = true -> usable f d1 l cf.
Proof.
  intros Hu [C1 C2] Hcf Hfiles Hfit. unfold fits in Hfit. apply andb_prop in Hfit. destruct Hfit as [Hsub Hfit].
  assert (Eu : get "url_base" [] = get "url_base" d1) by (symmetry; apply C1; exact Hu).
  assert (Hnone : forall n, In n (sub_maps cf) -> get n d1 = None).
  { intros n Hn. rewrite C1; [reflexivity|]. rewrite forallb_forall in Hsub. specialize (Hsub n Hn).
    intros Hk. apply has_keys in Hk. rewrite Hk in Hsub. discriminate Hsub. }
  destruct (get (ModelConfig.c_name cf) configs) as [v|] eqn:Hv.
  - destruct (C2 _ _ Hv) as (v' & Hg & Hb).
    assert (Hs : forall s, In s (files_in v) -> exists p, path_of f [] s p /\ found f [] p).
    { intros s Hs. apply Hfiles. right. exists (ModelConfig.c_name cf), v. split; [apply get_In; exact Hv|exact Hs]. }
    unfold usable, effective_value. rewrite Hg.
    assert (Hcon : (c_kind cf = KConstant \/ c_kind cf = KConstantSet) ->
      exists v0, match v' with VDict d => get l d | _ => Some v' end = Some v0).
    { intros Hk. destruct v as [|b|z|s|vs|es]; try (destruct Hk as [Hk|Hk]; rewrite Hk in Hfit; discriminate Hfit);
        try (cbn in Hb; subst v'; eauto).
      destruct Hb as (es' & -> & Hes). specialize (Hes l).
      destruct (get l es) as [[]|] eqn:El; try (destruct Hk as [Hk|Hk]; rewrite Hk in Hfit; discriminate Hfit); eauto. }
    destruct (c_kind cf) eqn:Hk; try (destruct (Hcon ltac:(auto)) as [v0 Hv0]; exists v0; destruct v'; exact Hv0).
    + destruct v as [|b|z|s|vs|es]; try discriminate Hfit. destruct Hb as (p & Hp & ->).
      exists p. split; [reflexivity|]. destruct (Hs s) as (p' & Hp' & Hf); [left; reflexivity|].
      assert (p = p') by (unfold path_of in *; congruence). subst p'. eapply found_ext; [exact Eu|exact Hf].
    + destruct v as [|b|z|s|vs|es]; try discriminate Hfit.
      destruct vs as [|a1 [|a2 [|a3 [|a4 vs]]]]; try discriminate Hfit;
        destruct a1; try discriminate Hfit; destruct a2; try discriminate Hfit; destruct a3; try discriminate Hfit.
      cbn in Hb. subst v'.
      assert (Hfound : forall s', In s' [s; s0; s1] -> found f d1 s').
      { intros s' Hs'. destruct (Hs s') as (p & Hp & _); [exact Hs'|]. eapply found_ext; [exact Eu|]. exists p. exact Hp. }
      split; [|pose proof (shipped_default cf Hcf) as Hd; rewrite Hk in Hd; exact Hd].
      exists (VList [VStr s; VStr s0; VStr s1]), s, s0, s1. split; [reflexivity|]. split; [constructor|].
      unfold sub_maps in Hnone. rewrite Hk in Hnone.
      unfold part_free. rewrite !Hnone by (cbn; auto).
      split; [apply Hfound; cbn; auto|]. split; [apply Hfound; cbn; auto|]. split; [apply Hfound; cbn; auto|]. auto.
  - eapply usable_ext; [exact Eu| |apply default_usable; [exact Hcf|]].
    + intros n [<-|Hn]; [|rewrite (Hnone n Hn); reflexivity]. symmetry. rewrite C1; [reflexivity|].
      apply get_None_keys. exact Hv.
    + intros s Hs. apply Hfiles. left. apply default_files_named. exact Hs.
Qed.

(** * Components *)

Definition comp_check (configs : dict value) (lname : string) (on : list string) (c : string * (string * option string)) : bool :=
  match appletree_components (fst (snd c)) with
  | Some (ClsSim ps _ _) =>
      let reg := registry_after [ps] in
      forallb (fun d => has d reg) (on ++ ["eff"]) &&
      forallb (fun dp => forallb (fun ncf => fits configs lname (snd ncf)) (p_configs (snd dp))) reg
  | Some (ClsFixed _ _) => match snd (snd c) with Some s => negb (String.eqb s "") | None => false end
  | _ => false
  end.

Lemma sim_check {K} (E : env K) configs lname on cname cls file ps nt ae :
  shipped_env E -> comp_check configs lname on (cname, (cls, file)) = true -> appletree_components cls = Some (ClsSim ps nt ae) ->
  sim_ready E ps on /\
  (forall cf, used_config (registry_after [ps]) "batch_size" (on ++ ["eff"]) cf ->
     In cf shipped_configs /\ fits configs lname cf = true).
Proof.
  intros (E1 & E2 & E3) Hc Hk. unfold comp_check in Hc. cbn [fst snd] in Hc. rewrite Hk in Hc.
  apply andb_prop in Hc. destruct Hc as [Hn Hf].
  destruct (class_calls cls ps nt ae Hk) as (calls & Hin & ->).
  destruct (registry_one calls) as [Er Hok]. { apply in_map_iff. exists (cls, calls). auto. }
  unfold sim_ready. rewrite Er in *.
  destruct (component_good cls calls Hin) as (G1 & (rank & G2) & G3 & G4 & G5).
  split.
  - split; [exact Hok|]. split; [apply (shipped_unique cls); exact Hin|].
    split; [eapply ranked_acyclic; exact G2|]. split.
    { intros d Hd. eapply reach_in; [exact G1| |exact Hd]. intros x Hx _. rewrite forallb_forall in Hn. apply Hn. exact Hx. }
    split; [lia|]. split.
    { intros d p _ Hg. rewrite E1. apply (G5 d p Hg). }
    intros d p _ Hg. apply shipped_proper. eapply published_in. apply (G5 d p Hg).
  - intros cf (d & p & _ & Hg & Hi). split.
    + apply (shipped_configs_complete p); [|exact Hi]. eapply published_in. apply (G5 d p Hg).
    + rewrite forallb_forall in Hf. specialize (Hf _ (get_In _ _ _ Hg)). cbn [snd] in Hf.
      rewrite forallb_forall in Hf. apply in_map_iff in Hi. destruct Hi as ([n cf'] & <- & Hi). exact (Hf _ Hi).
Qed.

(** * Likelihoods *)

Definition on_of (li : linstruct) : list string :=
  match li_type li with
  | TDefault cfg _ => match lc_bins_on cfg with OnList on => on | _ => [] end
  | TLit _ on _ _ => on
  end.

Lemma type_on {K} (E : env K) d li on : type_ready E d (li_type li) on ->
  match li_type li with TDefault cfg _ => exists l, lc_bins_on cfg = OnList l | _ => True end -> on = on_of li.
Proof.
  unfold type_ready, on_of. destruct (li_type li) as [cfg file|vt on' names values].
  - intros (path & tb & lk & _ & _ & Hn & ->) [l Hl]. rewrite Hl.
    destruct (C81_checked _ _ _ _ _ _ Hn) as (bs & Hw & _).
    destruct Hw as [[H1 _]|(s & H1 & _)]; congruence.
  - intros [-> _] _. reflexivity.
Qed.

(** The binning of a shipped config is one that C81 accepts. *)
Definition type_checked (t : ltype) : Prop :=
  match t with
  | TDefault cfg _ => exists on bs, lc_bins_on cfg = OnList on /\
      (lc_bins_type cfg = "equiprob" \/
       lc_bins_type cfg = "irreg" /\ lc_bins cfg = PList bs /\ List.length on = List.length bs /\
       has_clips cfg (List.length bs) /\
       exists ex ry, bs = [AArr (Arr1 ex); AArr (Arr2 ry)] /\ List.length ex = List.length ry + 1 /\
         forall r r', In r ry -> In r' ry -> List.length r = List.length r')
  | TLit vt on names values => exists L, new_lit vt on (logpdf_args names values) = Some (Ok L)
  end.

Lemma checked_ready {K} (E : env K) d1 li : get "url_base" d1 = None -> type_checked (li_type li) -> data_there E li ->
  type_ready E d1 (li_type li) (on_of li).
Proof.
  intros Hu Ht Hd. unfold type_checked, data_there, type_ready, on_of in *.
  destruct (li_type li) as [cfg file|vt on' names values]; [|auto].
  destruct Ht as (on & bs & Hon & Ht). destruct Hd as (on' & Hon' & (path & t & Hp & Hr & Hcols & Heq) & _).
  assert (on' = on) by congruence. subst on'. rewrite Hon.
  assert (Hlk : exists lk, new_likelihood (e_row E) (e_gof_1d E) (e_gof_2d E) cfg (Ok t) = Ok lk /\ k_on lk = on).
  { destruct Ht as [Ht|(Ht & Hbs & Hlen & Hclip & Hform)].
    - destruct (Heq Ht) as [lk Hlk]. exists lk. split; [exact Hlk|].
      destruct (C81_checked _ _ _ _ _ _ Hlk) as (bs' & [[H1 _]|(s & H1 & _)] & _); congruence.
    - apply (C81_accepted _ _ _ cfg t on bs); auto.
      + left. auto.
      + exists t. auto. }
  destruct Hlk as (lk & Hlk & Hk). exists path, t, lk. split; [|auto].
  eapply path_ext; [|exact Hp]. rewrite Hu. reflexivity.
Qed.

Definition sim_b (c : string * (string * option string)) : bool :=
  match appletree_components (fst (snd c)) with Some (ClsSim _ _ _) => true | _ => false end.

Definition llh_check (configs : dict value) (nl : string * linstruct) : bool :=
  let li := snd nl in
  nodup_b (keys (li_components li)) &&
  forallb (comp_check configs (fst nl) (on_of li)) (li_components li) &&
  Nat.leb (List.length (filter sim_b (li_components li))) 1 &&
  match li_type li with
  | TDefault cfg _ => match lc_bins_on cfg with OnList _ => true | _ => false end
  | TLit _ _ _ _ => match li_components li with [c] => sim_b c | _ => false end
  end.

Lemma filter_one {A} (f : A -> bool) l a b : List.length (filter f l) <= 1 -> In a l -> In b l -> f a = true -> f b = true -> a = b.
Proof.
  intros Hl Ha Hb Fa Fb.
  assert (Ga : In a (filter f l)) by (apply filter_In; auto). assert (Gb : In b (filter f l)) by (apply filter_In; auto).
  destruct (filter f l) as [|x [|y l']]; cbn in *; [destruct Ga| |lia].
  destruct Ga as [<-|[]], Gb as [<-|[]]. reflexivity.
Qed.

Lemma is_sim_b {K} (E : env K) c : shipped_env E -> is_sim E c <-> sim_b c = true.
Proof.
  intros (_ & E2 & _). unfold is_sim, sim_b. rewrite E2.
  destruct (appletree_components (fst (snd c))) as [[ps nt ae| |]|]; split; try (intros (? & ? & ? & H); discriminate H); try discriminate; eauto.
Qed.

Definition ins_check (ins : instruct) : bool :=
  nodup_b (keys (in_configs ins)) && negb (mem "url_base" (keys (in_configs ins))) &&
  match in_url ins with None => true | Some _ => false end &&
  forallb (fun kv => match snd kv with
                     | VDict es => nodup_b (keys es) && forallb (fun e => match snd e with VStr _ => false | _ => true end) es
                     | ModelShare.VNone => false
                     | _ => true end) (in_configs ins) &&
  nodup_b (keys (in_llhs ins)) && forallb (llh_check (in_configs ins)) (in_llhs ins).

Section Ready.
  Context {K : Type} (E : env K).
  Variable ins : instruct.
  Hypothesis HE : shipped_env E.
  Hypothesis Hcheck : ins_check ins = true.
  Hypothesis Htypes : forall lname li, In (lname, li) (in_llhs ins) -> type_checked (li_type li).
  Hypothesis Hfiles : forall s, map_file ins s -> exists p, path_of (e_fs E) [] s p /\ found (e_fs E) [] p.
  Hypothesis Hdata : forall lname li, In (lname, li) (in_llhs ins) -> data_there E li.

  Lemma check_parts : NoDup (keys (in_configs ins)) /\ ~ In "url_base" (keys (in_configs ins)) /\ in_url ins = None /\
    (forall n es, In (n, VDict es) (in_configs ins) -> NoDup (keys es)) /\
    (forall k v, In (k, v) (in_configs ins) -> settable (e_fs E) [] v) /\
    NoDup (keys (in_llhs ins)) /\ (forall nl, In nl (in_llhs ins) -> llh_check (in_configs ins) nl = true).
  Proof.
    pose proof Hcheck as H. unfold ins_check in H. rewrite !andb_true_iff in H. destruct H as (((((H1 & H2) & H3) & H4) & H5) & H6).
    rewrite forallb_forall in H4.
    split; [apply nodup_b_ok; exact H1|]. split. { apply mem_false. destruct (mem _ _); [discriminate H2|reflexivity]. }
    split. { destruct (in_url ins); [discriminate H3|reflexivity]. }
    split.
    { intros n es Hi. specialize (H4 _ Hi). cbn [snd] in H4. apply andb_prop in H4. apply nodup_b_ok, H4. }
    split; [|split; [apply nodup_b_ok; exact H5|apply forallb_forall; exact H6]].
    intros k v Hi. pose proof (H4 _ Hi) as Hv. cbn [snd] in Hv. destruct v as [|b|z|s|vs|es]; cbn; auto; [discriminate Hv| |].
    - destruct (Hfiles s) as (p & Hp & _); [|exists p; exact Hp]. right. exists k, (VStr s). split; [exact Hi|left; reflexivity].
    - intros l s Hs. apply andb_prop in Hv. destruct Hv as [_ Hv]. rewrite forallb_forall in Hv. specialize (Hv _ Hs). discriminate Hv.
  Qed.

  Lemma shipped_ready d1 : configured (e_fs E) (in_configs ins) [] d1 -> ready E d1 [] ins.
  Proof.
    intros Hc. destruct check_parts as (P1 & P2 & _ & _ & _ & P6 & P7).
    assert (Hu : get "url_base" d1 = None) by (rewrite (proj1 Hc) by exact P2; reflexivity).
    assert (Hl : forall lname li, In (lname, li) (in_llhs ins) ->
      NoDup (keys (li_components li)) /\
      (forall c, In c (li_components li) -> comp_check (in_configs ins) lname (on_of li) c = true) /\
      List.length (filter sim_b (li_components li)) <= 1 /\
      match li_type li with TDefault cfg _ => exists l, lc_bins_on cfg = OnList l
                          | _ => exists c, li_components li = [c] /\ sim_b c = true end).
    { intros lname li Hin. specialize (P7 _ Hin). unfold llh_check in P7. cbn [fst snd] in P7. rewrite !andb_true_iff in P7.
      destruct P7 as (((Q1 & Q2) & Q3) & Q4). split; [apply nodup_b_ok; exact Q1|]. rewrite forallb_forall in Q2.
      split; [exact Q2|]. split; [apply Nat.leb_le; exact Q3|].
      destruct (li_type li) as [cfg file|].
      - destruct (lc_bins_on cfg); try discriminate Q4; eauto.
      - destruct (li_components li) as [|c [|]]; try discriminate Q4. eauto. }
    assert (Huse : forall l cf, uses E d1 ins l cf -> In cf shipped_configs /\ fits (in_configs ins) l cf = true).
    { intros l cf (li & on & cname & cls & file & ps & nt & ae & Hin & Ht & Hi & Hk & Hcf).
      destruct (Hl _ _ Hin) as (_ & Q2 & _ & Q4).
      assert (on = on_of li) as ->. { eapply type_on; [exact Ht|]. destruct (li_type li); auto. }
      rewrite (proj1 (proj2 HE)) in Hk.
      eapply (sim_check E (in_configs ins) l (on_of li) cname cls file); eauto. }
    split; [exact P6|]. split; [|split].
    - intros lname li Hin. destruct (Hl _ _ Hin) as (Q1 & Q2 & Q3 & Q4). split; [exact Q1|]. split; [|split; [|split]].
      + exists (on_of li). split; [apply checked_ready; eauto|]. intros [cname [cls file]] Hi. specialize (Q2 _ Hi).
        unfold comp_ready. cbn [fst snd]. rewrite (proj1 (proj2 HE)).
        destruct (appletree_components cls) as [[ps nt ae|nt ae|]|] eqn:Hk.
        * eapply (sim_check E (in_configs ins)); eauto.
        * unfold comp_check in Q2. cbn [fst snd] in Q2. rewrite Hk in Q2. destruct file as [fname|]; [|discriminate Q2].
          pose proof (Hdata _ _ Hin) as Hd. unfold data_there in Hd. unfold on_of.
          destruct (li_type li) as [cfg f0|].
          -- destruct Hd as (on & Hon & _ & Hd). destruct (Hd _ _ _ Hi) as (path & t & D1 & D2 & D3). rewrite Hon.
             exists fname, path, t. split; [reflexivity|]. split; [intros ->; discriminate Q2|].
             split; [eapply path_ext; [|exact D1]; rewrite Hu; reflexivity|]. auto.
          -- exfalso. destruct Q4 as (c & Hc' & Hs). rewrite Hc' in Hi. destruct Hi as [->|[]].
             unfold sim_b in Hs. cbn [fst snd] in Hs. rewrite Hk in Hs. discriminate Hs.
        * unfold comp_check in Q2. cbn [fst snd] in Q2. rewrite Hk in Q2. discriminate Q2.
        * unfold comp_check in Q2. cbn [fst snd] in Q2. rewrite Hk in Q2. discriminate Q2.
      + intros a b Ha Hb Sa Sb. apply (is_sim_b E) in Sa, Sb; auto. eapply filter_one; eauto.
      + intros vt on names values Ht a b Ha Hb. rewrite Ht in Q4. destruct Q4 as (c & Hc' & Hs).
        rewrite Hc' in Ha, Hb. destruct Ha as [<-|[]], Hb as [<-|[]]. split; [apply is_sim_b; auto|reflexivity].
      + reflexivity.
    - destruct shipped_separate as [S1 S2]. split.
      + intros a b [l Ha] [l' Hb]. apply S1; eapply Huse; eauto.
      + intros a [l Ha]. apply S2. eapply Huse; eauto.
    - intros l cf Hu'. destruct (Huse l cf Hu') as [H1 H2]. eapply fits_usable; eauto.
  Qed.
End Ready.

Lemma shipped_checked ins pars : In (ins, pars) shipped_instructs -> ins_check ins = true.
Proof.
  intros H. unfold shipped_instructs in H. cbn [In] in H.
  repeat (destruct H as [H|H]; [injection H as <- _; vm_compute; reflexivity|]). destruct H.
Qed.

Lemma shipped_types ins pars lname li : In (ins, pars) shipped_instructs -> In (lname, li) (in_llhs ins) -> type_checked (li_type li).
Proof.
  intros H Hl. unfold shipped_instructs in H. cbn [In] in H.
  repeat (destruct H as [H|H]; [injection H as <- _; cbn [in_llhs In] in Hl;
    repeat (destruct Hl as [Hl|Hl]; [apply (f_equal snd) in Hl; cbn [snd] in Hl; subst li|]); try destruct Hl|]); try destruct H.
  all: cbn [li_type rn220_rn220_llh rn220_ar37_rn220_llh rn220_ar37_ar37_llh neutron_low_neutron_llh
       literature_lyqy_ly_lux_2016 literature_lyqy_qy_lenardo_2019 literature_lyqy_ly_lux_2022 literature_lyqy_qy_lux_2022 type_checked].
  all: try (eexists; reflexivity).
  all: cbn [lc_bins_on lc_bins_type lc_bins].
  all: try (exists ["cs1"; "cs2"], []; split; [reflexivity|left; reflexivity]).
  eexists _, _. split; [reflexivity|]. right. split; [reflexivity|]. split; [reflexivity|]. split; [reflexivity|].
  split; [eexists _, _; split; reflexivity|]. eexists _, _. split; [reflexivity|]. split; [reflexivity|].
  intros r r' Hr Hr'. cbn in Hr, Hr'. destruct Hr as [<-|[<-|[]]], Hr' as [<-|[<-|[]]]; reflexivity.
Qed.

(** * The parameters that are needed *)

Section Closure.
  Variable reg : registry.
  Definition deps_of (d : string) : list string :=
    match get d reg with
    | Some p => filter (fun x => negb (String.eqb x "batch_size")) (p_depends p)
    | None => []
    end.
  Fixpoint close (n : nat) (l : list string) : list string :=
    match n with
    | O => l
    | S n' => close n' (fold_left (fun acc x => add1 x acc) (flat_map deps_of l) l)
    end.
  Definition closed_list (names l : list string) : bool :=
    forallb (fun x => String.eqb x "batch_size" || mem x l) names &&
    forallb (fun d => forallb (fun x => mem x l) (deps_of d)) l.

  Lemma fold_add_in (xs : list string) : forall acc y, In y (fold_left (fun acc x => add1 x acc) xs acc) -> In y acc \/ In y xs.
  Proof.
    induction xs as [|x xs IH]; cbn [fold_left]; intros acc y H; [auto|]. destruct (IH _ _ H) as [H1|H1]; [|right; right; exact H1].
    unfold add1 in H1. destruct (mem x acc); [auto|]. apply in_app_or in H1. destruct H1 as [H1|[<-|[]]]; [auto|right; left; reflexivity].
  Qed.

  Lemma deps_reach names d x : Reach reg "batch_size" names d -> In x (deps_of d) -> Reach reg "batch_size" names x.
  Proof.
    intros Hd Hx. unfold deps_of in Hx. destruct (get d reg) as [p|] eqn:Hp; [|destruct Hx].
    apply filter_In in Hx. destruct Hx as [Hx Hne]. eapply Reach_dep; eauto.
    intros ->. discriminate Hne.
  Qed.

  Lemma close_sound names n : forall l, (forall x, In x l -> Reach reg "batch_size" names x) ->
    forall x, In x (close n l) -> Reach reg "batch_size" names x.
  Proof.
    induction n as [|n IH]; cbn [close]; intros l Hl x Hx; [auto|]. apply (IH _) in Hx; [exact Hx|].
    intros y Hy. apply fold_add_in in Hy. destruct Hy as [Hy|Hy]; [auto|]. apply in_flat_map in Hy.
    destruct Hy as (d & Hd & Hy). eapply deps_reach; eauto.
  Qed.

  Lemma closed_complete names l : closed_list names l = true -> forall x, Reach reg "batch_size" names x -> In x l.
  Proof.
    intros H x Hx. unfold closed_list in H. apply andb_prop in H. destruct H as [H1 H2].
    rewrite forallb_forall in H1, H2. induction Hx as [d Hi Hne|d p x Hd IH Hg Hx Hne].
    - specialize (H1 _ Hi). apply Bool.orb_prop in H1. destruct H1 as [H1|H1]; [apply String.eqb_eq in H1; contradiction|].
      apply mem_In. exact H1.
    - specialize (H2 _ IH). rewrite forallb_forall in H2. apply mem_In. apply H2. unfold deps_of. rewrite Hg.
      apply filter_In. split; [exact Hx|]. destruct (String.eqb x "batch_size") eqn:E; [|reflexivity].
      apply String.eqb_eq in E. contradiction.
  Qed.
End Closure.

Definition list_scaler (name : string) (vs : list value) : list string :=
  if Nat.eqb (List.length vs) 4 then match nth 3 vs ModelShare.VNone with VStr x => [x] | _ => [] end
  else [(name ++ "_sigma")%string].

Definition scaler (configs : dict value) (cf : config) : list string :=
  match c_kind cf, (match get (ModelConfig.c_name cf) configs with Some v => Some v | None => c_default cf end) with
  | KSigmaMap, Some (VList vs) => list_scaler (ModelConfig.c_name cf) vs
  | _, _ => []
  end.

Lemma list_scaler_ok name vs x :
  ((exists a b c, vs = [a; b; c; VStr x]) \/ (List.length vs <> 4 /\ x = (name ++ "_sigma")%string)) <-> In x (list_scaler name vs).
Proof.
  unfold list_scaler. split.
  - intros [(a & b & c & ->)|[Hn ->]]; [left; reflexivity|]. apply Nat.eqb_neq in Hn. rewrite Hn. left. reflexivity.
  - destruct (Nat.eqb_spec (List.length vs) 4) as [Hl|Hl].
    + destruct vs as [|a [|b [|c [|y [|z vs]]]]]; cbn in Hl; try lia. cbn [nth].
      destruct y; intros H; try destruct H as [H|[]]; try destruct H. subst. left. eauto.
    + intros [<-|[]]. auto.
Qed.

Lemma scaler_ok f configs d1 l cf x : configured f configs [] d1 -> In cf shipped_configs -> fits configs l cf = true ->
  requires d1 l cf x <-> In x (scaler configs cf).
Proof.
  intros [C1 C2] Hcf Hfit. unfold fits in Hfit. apply andb_prop in Hfit. destruct Hfit as [_ Hfit].
  pose proof (shipped_default cf Hcf) as Hd.
  unfold requires, scaler. destruct (c_kind cf) eqn:Hk; try (split; [intros [H _]; discriminate H|intros []]).
  assert (Hlist : forall v, effective_value d1 cf l = Some v -> (forall d, v <> VDict d) ->
    ((KSigmaMap = KSigmaMap /\ exists l0, effective_value d1 cf l = Some (VList l0) /\
      ((exists a b c, l0 = [a; b; c; VStr x]) \/ (List.length l0 <> 4 /\ x = (ModelConfig.c_name cf ++ "_sigma")%string))) <->
     In x (match v with VList vs => list_scaler (ModelConfig.c_name cf) vs | _ => [] end))).
  { intros v Hv Hn. rewrite Hv. split.
    - intros (_ & l0 & El & H). injection El as ->. apply list_scaler_ok. exact H.
    - intros Hx. split; [reflexivity|]. destruct v as [| | | |vs|]; try destruct Hx. exists vs. split; [reflexivity|].
      apply list_scaler_ok. exact Hx. }
  destruct (get (ModelConfig.c_name cf) configs) as [v|] eqn:Hv.
  - destruct v as [|b|z|s|vs|es]; try discriminate Hfit.
    destruct (C2 _ _ Hv) as (v' & Hg & Hb). cbn in Hb. subst v'.
    apply (Hlist (VList vs)); [|discriminate]. unfold effective_value. rewrite Hg. reflexivity.
  - destruct Hd as (v & m & lo & u & Hdef & H3). rewrite Hdef.
    assert (Hg : get (ModelConfig.c_name cf) d1 = None). { rewrite C1; [reflexivity|]. apply get_None_keys. exact Hv. }
    destruct v as [|b|z|s|vs|es]; try (inversion H3; fail).
    + apply (Hlist (VStr s)); [|discriminate]. unfold effective_value. rewrite Hg, Hdef. reflexivity.
    + apply (Hlist (VList vs)); [|discriminate]. unfold effective_value. rewrite Hg, Hdef. reflexivity.
Qed.

(** What the components of a likelihood need, computed. *)
Definition comp_list (configs : dict value) (on : list string) (c : string * (string * option string)) : list string :=
  (fst c ++ "_rate")%string ::
  match appletree_components (fst (snd c)) with
  | Some (ClsSim ps _ _) =>
      let reg := registry_after [ps] in
      flat_map (fun d => match get d reg with
                         | Some q => p_params q ++ flat_map (fun ncf => scaler configs (snd ncf)) (p_configs q)
                         | None => []
                         end) (close reg 30 (on ++ ["eff"]))
  | _ => []
  end.
Definition comp_closed (on : list string) (c : string * (string * option string)) : bool :=
  match appletree_components (fst (snd c)) with
  | Some (ClsSim ps _ _) =>
      let reg := registry_after [ps] in
      negb (mem "batch_size" (on ++ ["eff"])) && closed_list reg (on ++ ["eff"]) (close reg 30 (on ++ ["eff"]))
  | _ => true
  end.
Definition given_list (alias : dict string) (x : string) : list string :=
  (if mem x (map snd alias) then [] else [x]) ++ map fst (filter (fun a => String.eqb (snd a) x) alias).
Definition needed_list (ins : instruct) : list string :=
  flat_map (fun nl => keys (li_copy (snd nl))) (in_llhs ins) ++
  flat_map (fun nl => flat_map (given_list (li_alias (snd nl)))
     (flat_map (comp_list (in_configs ins) (on_of (snd nl))) (li_components (snd nl)))) (in_llhs ins).

Lemma given_list_ok alias x z : given_as alias x z <-> In z (given_list alias x).
Proof.
  unfold given_as, given_list, targets. rewrite in_app_iff. split.
  - intros [[H ->]|H].
    + left. apply mem_false in H. rewrite H. left. reflexivity.
    + right. apply in_map_iff. exists (z, x). split; [reflexivity|]. apply filter_In. split; [exact H|apply String.eqb_refl].
  - intros [H|H].
    + destruct (mem x (map snd alias)) eqn:E; [destruct H|]. destruct H as [<-|[]]. left. apply mem_false in E. auto.
    + apply in_map_iff in H. destruct H as ([a b] & <- & H). apply filter_In in H. cbn [fst snd] in *.
      destruct H as [H E]. apply String.eqb_eq in E. subst b. auto.
Qed.

(** The parameters that are configured after copying. *)
Definition keys_after (ins : instruct) (pars : list string) : list string :=
  let copies := all_copies (copying ins) in
  let rates := flat_map (fun nl => map (fun c => c ++ "_rate")%string (i_components (snd nl))) (copying ins) in
  map fst copies ++ filter (fun n => negb (mem n (map snd copies)) || mem n rates) pars.

Definition same_set (a b : list string) : bool := forallb (fun x => mem x b) a && forallb (fun x => mem x a) b.
Lemma same_set_ok a b : same_set a b = true -> forall x, In x a <-> In x b.
Proof.
  unfold same_set. intros H. apply andb_prop in H. destruct H as [H1 H2]. rewrite forallb_forall in H1, H2.
  intros x. split; intros Hx; apply mem_In; auto.
Qed.

Definition par_check (ins : instruct) (pars : list string) : bool :=
  let copies := all_copies (copying ins) in
  nodup_b pars && nodup_b (map fst copies) &&
  forallb (fun n => negb (mem n (map snd copies))) (map fst copies) &&
  forallb (fun v => mem v pars) (map snd copies) &&
  forallb (fun nl => nodup_b (map snd (li_alias (snd nl))) && nodup_b (keys (li_alias (snd nl))) &&
                     forallb (fun k => negb (mem k (map snd (li_alias (snd nl))))) (keys (li_alias (snd nl))) &&
                     forallb (comp_closed (on_of (snd nl))) (li_components (snd nl)) &&
                     forallb (fun x => negb (mem x (keys (li_alias (snd nl)))))
                       (flat_map (comp_list (in_configs ins) (on_of (snd nl))) (li_components (snd nl))) &&
                     match li_type (snd nl) with
                     | TDefault cfg _ => match lc_bins_on cfg, lc_bins cfg with OnList _, PList _ => true | _, _ => false end
                     | _ => true
                     end) (in_llhs ins) &&
  same_set (needed_list ins) (keys_after ins pars).

Lemma shipped_pars ins pars : In (ins, pars) shipped_instructs -> par_check ins pars = true.
Proof.
  intros H. unfold shipped_instructs in H. cbn [In] in H.
  repeat (destruct H as [H|H]; [injection H as <- <-; vm_compute; reflexivity|]). destruct H.
Qed.

Lemma cons_in {A} (x a : A) l : In x (a :: l) <-> x = a \/ In x l.
Proof. cbn. intuition. Qed.

Section Needs.
  Context {K : Type} (E : env K).
  Variable ins : instruct.
  Hypothesis HE : shipped_env E.
  Hypothesis Hcheck : ins_check ins = true.

  Lemma comp_list_ok d1 cs lname on cname cls file k x :
    configured (e_fs E) (in_configs ins) [] d1 ->
    comp_check (in_configs ins) lname on (cname, (cls, file)) = true -> comp_closed on (cname, (cls, file)) = true ->
    appletree_components cls = Some k ->
    match k with
    | ClsSim ps _ _ => forall cf, used_config (registry_after [ps]) "batch_size" (on ++ ["eff"]) cf ->
        c_kind cf <> KMap -> effective_value cs cf lname = effective_value d1 cf lname
    | _ => True
    end ->
    comp_needs cs lname on cname k x <-> In x (comp_list (in_configs ins) on (cname, (cls, file))).
  Proof.
    intros Hc Hchk Hcl Hk Hkeep. unfold comp_needs, comp_list. cbn [fst snd]. rewrite Hk.
    rewrite cons_in. apply or_iff_compat_l.
    destruct k as [ps nt ae|nt ae|]; [|reflexivity|reflexivity].
    unfold comp_closed in Hcl. cbn [fst snd] in Hcl. rewrite Hk in Hcl. cbv zeta in Hcl.
    apply andb_prop in Hcl. destruct Hcl as [Hb Hcl].
    assert (Hbs : ~ In "batch_size" (on ++ ["eff"])) by (apply mem_false; destruct (mem _ _); [discriminate Hb|reflexivity]).
    destruct (sim_check E (in_configs ins) lname on cname cls file ps nt ae HE Hchk Hk) as [_ Hfit].
    cbv zeta. set (reg := registry_after [ps]) in *. set (names := on ++ ["eff"]) in *.
    assert (Hreach : forall d, Reach reg "batch_size" names d <-> In d (close reg 30 names)).
    { intros d. split; [apply closed_complete; exact Hcl|]. apply close_sound. intros y Hy. apply Reach_req; [exact Hy|].
      intros ->. auto. }
    assert (Hreq : forall d q n cf, Reach reg "batch_size" names d -> get d reg = Some q -> In (n, cf) (p_configs q) ->
              (requires cs lname cf x <-> In x (scaler (in_configs ins) cf))).
    { intros d q n cf Hd Hq Hi.
      assert (Hu : used_config reg "batch_size" names cf).
      { exists d, q. split; [exact Hd|]. split; [exact Hq|]. apply in_map_iff. exists (n, cf). auto. }
      destruct (Hfit cf Hu) as [H1 H2].
      transitivity (requires d1 lname cf x); [|eapply scaler_ok; eauto].
      unfold requires. split; intros [Hkd H]; (split; [exact Hkd|]); specialize (Hkeep cf Hu);
        (rewrite Hkeep in H || rewrite Hkeep); try exact H; rewrite Hkd; discriminate. }
    generalize dependent (close reg 30 names). intros cl _ Hreach. rewrite in_flat_map. split.
    - intros (d & q & Hd & Hq & Hx). exists d. split; [apply Hreach; exact Hd|].
      rewrite Hq. apply in_or_app. destruct Hx as [Hx|(n & cf & Hi & Hr)]; [auto|]. right.
      apply in_flat_map. exists (n, cf). split; [exact Hi|]. cbn [snd]. eapply Hreq; eauto.
    - intros (d & Hd & Hx). apply Hreach in Hd.
      destruct (get d reg) as [q|] eqn:Hq; [|destruct Hx]. exists d, q. split; [exact Hd|]. split; [exact Hq|].
      apply in_app_or in Hx. destruct Hx as [Hx|Hx]; [auto|]. right. apply in_flat_map in Hx.
      destruct Hx as ([n cf] & Hi & Hx). exists n, cf. split; [exact Hi|]. eapply Hreq; eauto.
  Qed.

  Variable pars : list string.
  Hypothesis Hpars : par_check ins pars = true.

  Lemma par_parts : NoDup pars /\ NoDup (map fst (all_copies (copying ins))) /\
    (forall n, In n (map fst (all_copies (copying ins))) -> ~ In n (map snd (all_copies (copying ins)))) /\
    (forall v, In v (map snd (all_copies (copying ins))) -> In v pars) /\
    (forall lname li, In (lname, li) (in_llhs ins) ->
       NoDup (map snd (li_alias li)) /\ NoDup (keys (li_alias li)) /\ SpecLikelihood.separate (li_alias li) /\
       (forall c, In c (li_components li) -> comp_closed (on_of li) c = true) /\
       (forall x, In x (flat_map (comp_list (in_configs ins) (on_of li)) (li_components li)) -> ~ In x (keys (li_alias li))) /\
       match li_type li with TDefault cfg _ => exists on bs, lc_bins_on cfg = OnList on /\ lc_bins cfg = PList bs | _ => True end) /\
    (forall x, In x (needed_list ins) <-> In x (keys_after ins pars)).
  Proof.
    pose proof Hpars as H. unfold par_check in H. cbv zeta in H. rewrite !andb_true_iff in H.
    destruct H as (((((H1 & H2) & H3) & H4) & H5) & H6). rewrite forallb_forall in H3, H4, H5.
    assert (Hneg : forall x l, negb (mem x l) = true -> ~ In x l).
    { intros x l Hx. apply mem_false. destruct (mem x l); [discriminate Hx|reflexivity]. }
    split; [apply nodup_b_ok; exact H1|]. split; [apply nodup_b_ok; exact H2|].
    split. { intros n Hn. apply Hneg, H3, Hn. }
    split. { intros v Hv. apply mem_In, H4, Hv. }
    split; [|apply same_set_ok; exact H6].
    intros lname li Hin. specialize (H5 _ Hin). cbn [snd] in H5. rewrite !andb_true_iff in H5.
    destruct H5 as (((((G1 & G2) & G3) & G4) & G6) & G5). rewrite forallb_forall in G3, G4, G6.
    split; [apply nodup_b_ok; exact G1|]. split; [apply nodup_b_ok; exact G2|].
    split. { intros k Hk. apply Hneg, G3, Hk. }
    split; [exact G4|]. split. { intros x Hx. apply Hneg, G6, Hx. } destruct (li_type li) as [cfg file|]; [|exact I].
    destruct (lc_bins_on cfg); try discriminate G5. destruct (lc_bins cfg); try discriminate G5. eauto.
  Qed.

  Lemma shipped_plain lname li : In (lname, li) (in_llhs ins) -> plain_llh E li.
  Proof.
    intros Hin. destruct par_parts as (_ & _ & _ & _ & P & _). destruct (P _ _ Hin) as (Q1 & _ & Q3 & _).
    split; [exact Q3|]. split; [exact Q1|]. intros cname cls file ps nt ae Hi Hk.
    rewrite (proj1 (proj2 HE)) in Hk. destruct (class_calls cls ps nt ae Hk) as (calls & Hc & ->).
    destruct (registry_one calls) as [Er _]. { apply in_map_iff. exists (cls, calls). auto. }
    rewrite Er. apply (shipped_unique cls). exact Hc.
  Qed.

  Hypothesis Htypes : forall lname li, In (lname, li) (in_llhs ins) -> type_checked (li_type li).
  Hypothesis Hdata : forall lname li, In (lname, li) (in_llhs ins) -> data_there E li.

  Lemma llh_list_ok d1 cs lname li x : configured (e_fs E) (in_configs ins) [] d1 ->
    (forall l cf, uses E d1 ins l cf -> c_kind cf <> KMap -> effective_value cs cf l = effective_value d1 cf l) ->
    In (lname, li) (in_llhs ins) ->
    (llh_needs E cs lname li x <-> In x (flat_map (comp_list (in_configs ins) (on_of li)) (li_components li))).
  Proof.
    intros Hc Hkeep Hin. destruct par_parts as (_ & _ & _ & _ & P & _).
    unfold ins_check in Hcheck. rewrite !andb_true_iff in Hcheck. destruct Hcheck as (((((_ & C2) & _) & _) & _) & C6).
    rewrite forallb_forall in C6.
    assert (Hu : get "url_base" d1 = None).
    { rewrite (proj1 Hc); [reflexivity|]. apply mem_false. destruct (mem _ _); [discriminate C2|reflexivity]. }
    destruct (P _ _ Hin) as (_ & _ & _ & P4 & _ & P5). pose proof (C6 _ Hin) as C. unfold llh_check in C.
      cbn [fst snd] in C. rewrite !andb_true_iff in C. destruct C as (((_ & C) & _) & _). rewrite forallb_forall in C.
      pose proof (checked_ready E d1 li Hu (Htypes _ _ Hin) (Hdata _ _ Hin)) as Hready.
      assert (Hcomp : forall cname cls file k, In (cname, (cls, file)) (li_components li) -> appletree_components cls = Some k ->
        (comp_needs cs lname (on_of li) cname k x <-> In x (comp_list (in_configs ins) (on_of li) (cname, (cls, file))))).
      { intros cname cls file k Hi Hk. apply (comp_list_ok d1 cs lname (on_of li) cname cls file k x Hc (C _ Hi) (P4 _ Hi) Hk).
        destruct k as [ps nt ae|nt ae|]; [|exact I|exact I]. intros cf Hcf Hkd.
        apply Hkeep; [|exact Hkd]. exists li, (on_of li), cname, cls, file, ps, nt, ae.
        rewrite (proj1 (proj2 HE)). repeat (split; [assumption|]). exact Hcf. }
      split.
      - intros (on & cname & cls & file & k & Hon & Hi & Hk & Hx). rewrite (proj1 (proj2 HE)) in Hk.
        assert (on = on_of li) as ->.
        { unfold on_of. destruct (li_type li) as [cfg f0|]; [|exact Hon]. destruct P5 as (on' & bs' & P5 & _). rewrite P5.
          destruct Hon as (bs & [[Hon _]|(s & Hon & _)]); congruence. }
        apply in_flat_map. exists (cname, (cls, file)). split; [exact Hi|]. apply (Hcomp cname cls file k Hi Hk). exact Hx.
      - intros Hx. apply in_flat_map in Hx. destruct Hx as ([cname [cls file]] & Hi & Hx).
        destruct (appletree_components cls) as [k|] eqn:Hk.
        + exists (on_of li), cname, cls, file, k. rewrite (proj1 (proj2 HE)).
          split; [|split; [exact Hi|split; [exact Hk|apply (Hcomp cname cls file k Hi Hk); exact Hx]]].
          unfold on_of. destruct (li_type li) as [cfg f0|]; [|reflexivity]. destruct P5 as (on' & bs' & P5 & P6). rewrite P5.
          exists bs'. left. auto.
        + exfalso. specialize (C _ Hi). unfold comp_check in C. cbn [fst snd] in C. rewrite Hk in C. discriminate C.
  Qed.

  Lemma needed_list_ok d1 cs z : configured (e_fs E) (in_configs ins) [] d1 ->
    (forall l cf, uses E d1 ins l cf -> c_kind cf <> KMap -> effective_value cs cf l = effective_value d1 cf l) ->
    ins_needs E cs ins z <-> In z (needed_list ins).
  Proof.
    intros Hc Hkeep.
    assert (Hll : forall lname li x, In (lname, li) (in_llhs ins) ->
      (llh_needs E cs lname li x <-> In x (flat_map (comp_list (in_configs ins) (on_of li)) (li_components li)))).
    { intros lname li x Hin. apply (llh_list_ok d1 cs lname li x Hc Hkeep Hin). }
    unfold ins_needs, needed_list. rewrite in_app_iff, !in_flat_map. split.
    - intros [(lname & li & Hin & Hz)|(lname & li & x & Hin & Hx & Hz)].
      + left. exists (lname, li). auto.
      + right. exists (lname, li). split; [exact Hin|]. cbn [snd]. apply in_flat_map. exists x.
        split; [apply (Hll lname li x Hin); exact Hx|apply given_list_ok; exact Hz].
    - intros [([lname li] & Hin & Hz)|([lname li] & Hin & Hz)]; cbn [snd] in Hz.
      + left. exists lname, li. auto.
      + right. apply in_flat_map in Hz. destruct Hz as (x & Hx & Hz). exists lname, li, x. split; [exact Hin|].
        split; [apply (Hll lname li x Hin); exact Hx|apply given_list_ok; exact Hz].
  Qed.
End Needs.

(** * The parameters that are configured *)

Lemma keys_after_ok {V} ins pars (cfg cfg' : dict V) needed :
  par_check ins pars = true -> NoDup (keys cfg) -> (forall n, In n (keys cfg) <-> In n pars) ->
  update_parameter_config (copying ins) cfg = Ok (cfg', needed) ->
  forall z, In z (keys cfg') <-> In z (keys_after ins pars).
Proof.
  intros Hp Hnd Hk Hu z. destruct (par_parts ins pars Hp) as (_ & P2 & P3 & P4 & _ & _).
  destruct (C47_copies (copying ins) cfg cfg' needed Hnd P2 P3 Hu) as (C1 & C2 & C3 & C4 & _).
  assert (Hrate : is_rate (copying ins) z <->
    mem z (flat_map (fun nl => map (fun c => c ++ "_rate")%string (i_components (snd nl))) (copying ins)) = true).
  { rewrite mem_In, in_flat_map. unfold is_rate. split.
    - intros (nl & c & H1 & H2 & ->). exists nl. split; [exact H1|]. apply in_map_iff. eauto.
    - intros (nl & H1 & H2). apply in_map_iff in H2. destruct H2 as (c & <- & H2). eauto. }
  unfold keys_after. cbv zeta. rewrite in_app_iff, filter_In.
  set (copies := all_copies (copying ins)) in *. set (rates := flat_map _ _) in *.
  rewrite (get_In_keys z cfg'). rewrite <- Hk, (get_In_keys z cfg).
  destruct (in_dec string_dec z (map fst copies)) as [Hf|Hf].
  - split; [auto|]. intros _. apply in_map_iff in Hf. destruct Hf as ([k v] & <- & Hf). destruct (C1 k v Hf) as (s & _ & Hs). eauto.
  - destruct (in_dec string_dec z (map snd copies)) as [Hs|Hs].
    + destruct (mem z rates) eqn:Hr.
      * rewrite (C3 z Hs) by (apply Hrate; reflexivity). rewrite orb_true_r. tauto.
      * rewrite (C2 z Hs) by (rewrite Hrate; discriminate). apply mem_In in Hs. rewrite Hs. cbn [negb orb].
        split; [intros [? H]; discriminate H|intros [H|[_ H]]; [contradiction|discriminate H]].
    + rewrite (C4 z Hf Hs). apply mem_false in Hs. rewrite Hs. cbn [negb orb]. tauto.
Qed.
