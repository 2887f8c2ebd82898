(** Lemmas about when a context can be constructed. *)
From Coq Require Import Reals Lia.
From Verif Require Import Base BaseFacts ModelFloat ModelHist ModelShare ModelConfig ModelComponent ModelCompile
  ModelParameter ModelLikelihood ModelBinning ModelLit ModelContext ModelWhole
  SpecComponent SpecConfig SpecCompile SpecBuild SpecWhole SpecConstruct
  ProofComponent ProofWorkflow ProofSim ProofHistory ProofBinning ProofWhole ProofWhole2 ProofBuild ProofNeeded.
Local Open Scope string_scope.
Local Open Scope list_scope.

Lemma build_simulate limit dn func nodep noeff f plugins k w w' k' :
  build_component limit dn func nodep noeff f plugins k w = (w', k', Ok tt) -> exists cl, k_simulate k' = Some cl.
Proof.
  unfold build_component. intros H.
  destruct (deduce limit dn func nodep noeff k w) as [[w1 k1] [[]|e]]; [|discriminate H].
  unfold compile in H. destruct (k_compile k1) as [[pr a]|]; [|discriminate H].
  destruct (imports_ok plugins (pr_imports pr)); [|discriminate H].
  destruct (instantiate f plugins (pr_llh pr) (pr_insts pr) [] w1) as [w2 [insts|e]]; [|discriminate H].
  cbn [w_fn] in H. destruct (get (k_llh k1) (w_fn w2)) as [a'|]; [|discriminate H].
  destruct (get (k_func k1) _) as [cl|]; [|discriminate H]. injection H as <- <-. exists cl. reflexivity.
Qed.

Lemma build_fn limit dn func nodep noeff f plugins k w w' k' :
  build_component limit dn func nodep noeff f plugins k w = (w', k', Ok tt) ->
  forall n, n <> k_llh k -> get n (w_fn w') = get n (w_fn w).
Proof.
  unfold build_component. intros H n Hn.
  pose proof (deduce_fn limit dn func nodep noeff k w) as D.
  destruct (deduce limit dn func nodep noeff k w) as [[w1 k1] [[]|e]]; [|discriminate H]. cbn [fst] in D.
  pose proof (compile_fn f plugins k1 w1) as [C _]. rewrite H in C. cbn [fst] in C. rewrite C.
  destruct D as [[-> _]|(k2 & _ & _ & ->)]; [reflexivity|]. apply get_set_neq. exact Hn.
Qed.

Section Construct.
  Context {K : Type} (E : ModelWhole.env K).
  Variable U : string -> config -> Prop.
  Hypothesis Hsep : SpecBuild.separate (in_use U).
  Let f := e_fs E.
  Variable d : dict value.

  (** What holds all along: url_base is that of [d], and everything in use is usable. *)
  Definition going (w : world) : Prop :=
    get "url_base" (contents (w_cache w)) = get "url_base" d /\ all_usable f U (contents (w_cache w)).

  Lemma load_ready w file path tb : going w -> path_of f d file path -> e_read E path = Ok tb ->
    exists w', load_data K E file w = (w', Ok tb) /\ going w' /\
      contents (w_cache w') = contents (w_cache w) /\ w_fn w' = w_fn w.
  Proof.
    intros [G1 G2] Hp Hr.
    destruct (path_get f file path (w_cache w)) as (c1 & H1 & H2).
    { eapply path_ext; [|exact Hp]. symmetry. exact G1. }
    unfold load_data. fold f. rewrite H1. rewrite Hr. eexists. split; [reflexivity|].
    unfold going. cbn [w_cache with_cache w_fn]. rewrite H2. auto.
  Qed.

  Lemma type_makes w t on : going w -> type_ready E d t on ->
    exists w' m, make_type K E t w = (w', Ok m) /\ m_on m = on /\ going w' /\
      contents (w_cache w') = contents (w_cache w) /\ w_fn w' = w_fn w /\
      match t with TDefault _ _ => m_bins m <> BUnsupported /\ exists lk, m = MDefault lk
                 | TLit _ _ _ _ => True end.
  Proof.
    intros G H. destruct t as [cfg file|vt on' names values]; cbn [type_ready make_type] in *.
    - destruct H as (path & tb & lk & H1 & H2 & H3 & ->).
      destruct (load_ready w file path tb G H1 H2) as (w' & L1 & L2 & L3 & L4). rewrite L1, H3.
      exists w', (MDefault lk). split; [reflexivity|]. split; [reflexivity|]. split; [exact L2|].
      split; [exact L3|]. split; [exact L4|]. split; [|eauto]. exact (new_supported _ _ _ _ _ _ H3).
    - destruct H as (-> & L & H). rewrite H. exists w, (MLit on' L). auto 10.
  Qed.

  (** One component. *)
  Lemma component_makes w lname on b c k :
    going w -> comp_ready E d on c -> e_classes E (fst (snd c)) = Some k ->
    (forall ps nt ae, k = ClsSim ps nt ae -> get lname (w_fn w) = None /\
       forall cf, used_config (registry_after [ps]) "batch_size" (on ++ ["eff"]) cf -> U lname cf) ->
    (forall nt ae, k = ClsFixed nt ae -> b <> BUnsupported) ->
    exists w' lc, construct_component K E lname on b (fst c) k (snd (snd c)) w = (w', Ok lc) /\ going w' /\
      all_kept f U (contents (w_cache w)) (contents (w_cache w')) /\
      (forall n, n <> lname -> get n (w_fn w') = get n (w_fn w)) /\
      ((forall ps nt ae, k <> ClsSim ps nt ae) -> w_fn w' = w_fn w).
  Proof.
    intros G Hc Hk Hs Hf. destruct c as [cname [cls file]]. cbn [fst snd] in *.
    unfold comp_ready in Hc. cbn [fst snd] in Hc. rewrite Hk in Hc. destruct k as [ps nt ae|nt ae|]; [| |destruct Hc].
    - destruct (Hs ps nt ae eq_refl) as [Hfn Hu].
      destruct Hc as (R1 & R2 & R3 & R4 & R5 & R6 & R7). cbn [construct_component].
      destruct (register ps []) as [reg r] eqn:Hr. cbn [snd] in R1. subst r.
      assert (Hreg : reg = registry_after [ps]) by (exact (registry_after_one _ _ _ Hr)).
      set (k0 := mk_component cname lname (cname ++ "_rate")%string reg false [] [] "" None None None).
      assert (S : forall n, Reach reg "batch_size" (output_names (on ++ ["eff"]) false) n <->
                            Reach (registry_after [ps]) "batch_size" (on ++ ["eff"]) n).
      { intros n. rewrite Hreg. apply reach_same. intros x. apply outputs_same. }
      destruct (component_builds_kept f U Hsep (e_limit E) (on ++ ["eff"]) (lname ++ "_" ++ cname ++ "_sim")%string
                  "batch_size" false (e_plugins E) k0 w) as (w' & k' & B & Kp).
      { cbn [k_registry k0]. rewrite Hreg. exact R2. }
      { intros n Hn. cbn [k_registry k0] in *. apply S in Hn. rewrite Hreg. apply R3. exact Hn. }
      { intros n Hn. cbn [k_registry k0] in *. apply S in Hn. rewrite Hreg. apply R4. exact Hn. }
      { cbn [k_registry k0]. rewrite Hreg. exact R5. }
      { intros n p Hn Hg. cbn [k_registry k0] in *. apply S in Hn. rewrite Hreg in Hg. exact (R6 n p Hn Hg). }
      { intros n p Hn Hg. cbn [k_registry k0 k_llh] in *. apply S in Hn. rewrite Hreg in Hg. split; [exact (R7 n p Hn Hg)|].
        intros cf Hi. apply Hu. exists n, p. auto. }
      { apply G. }
      { exact Hfn. }
      fold f. rewrite B. destruct (build_simulate _ _ _ _ _ _ _ _ _ _ _ B) as (cl & ->).
      eexists _, _. split; [reflexivity|]. split.
      { destruct G as [G1 G2]. split; [destruct Kp as [-> _]; exact G1|]. eauto using kept_usable. }
      split; [exact Kp|]. split; [exact (build_fn _ _ _ _ _ _ _ _ _ _ _ B)|]. intros H. destruct (H ps nt ae eq_refl).
    - destruct Hc as (fname & path & tb & -> & Hne & Hp & Hr & Hcol).
      destruct (load_ready w fname path tb G Hp Hr) as (w' & L1 & L2 & L3 & L4).
      cbn [construct_component]. destruct fname as [|a s]; [congruence|]. rewrite L1.
      destruct (positions_in on (t_columns tb) Hcol) as (is & ->). cbv beta iota.
      unfold fixed_deduce, implement_binning. cbn [n_add_eps n_bins].
      rewrite make_data_hist_plain by (eapply Hf; reflexivity).
      eexists _, _. split; [reflexivity|]. split; [exact L2|]. rewrite L3. split; [apply kept_refl|].
      rewrite L4. auto.
  Qed.

  (** The components of one likelihood: [cs] is what is left of [all]. *)
  Lemma components_make lname on t all : 
    (forall a b, In a all -> In b all -> is_sim E a -> is_sim E b -> a = b) ->
    (forall vt on' names values, t = TLit vt on' names values ->
       forall a b, In a all -> In b all -> is_sim E a /\ a = b) ->
    (forall c, In c all -> comp_ready E d on c) ->
    (forall cname cls file ps nt ae, In (cname, (cls, file)) all -> e_classes E cls = Some (ClsSim ps nt ae) ->
       forall cf, used_config (registry_after [ps]) "batch_size" (on ++ ["eff"]) cf -> U lname cf) ->
    forall cs done D (L : wlik K) pars needed w,
    all = done ++ cs -> NoDup (keys all) -> has lname D = false ->
    keys (ll_components (wl_llh L)) = keys done -> m_on (wl_type L) = on ->
    match t with TDefault _ _ => m_bins (wl_type L) <> BUnsupported /\ exists lk, wl_type L = MDefault lk
               | TLit _ _ _ _ => True end ->
    going w -> (forall c, In c cs -> is_sim E c -> get lname (w_fn w) = None) ->
    exists w' L' needed', 
      context_components K E lname cs (mk_context pars (D ++ [(lname, L)]) needed) w
        = (w', mk_context pars (D ++ [(lname, L')]) needed', Ok tt) /\
      going w' /\ all_kept f U (contents (w_cache w)) (contents (w_cache w')) /\
      (forall n, n <> lname -> get n (w_fn w') = get n (w_fn w)).
  Proof.
    intros Hone Hlit Hready Huse. induction cs as [|[cname [cls file]] rest IH];
      intros done D L pars needed w Hall Hnd Hh Hk Hon Ht G Hfn; cbn [context_components].
    - exists w, L, needed. split; [reflexivity|]. split; [exact G|]. split; [apply kept_refl|reflexivity].
    - set (c := (cname, (cls, file))) in *.
      assert (Hin : In c all) by (rewrite Hall; apply in_or_app; right; left; reflexivity).
      pose proof (Hready c Hin) as Hr. unfold comp_ready in Hr. cbn [fst snd c] in Hr.
      destruct (e_classes E cls) as [k|] eqn:Hc; [|destruct Hr].
      unfold context_component. cbn [cx_llhs cx_pars cx_needed]. rewrite (get_last _ _ _ Hh).
      unfold add_component.
      assert (Hnew : ~ In cname (keys done)).
      { intros Hi. rewrite Hall in Hnd. unfold keys in Hnd. rewrite map_app in Hnd. cbn [map fst c] in Hnd.
        apply NoDup_remove_2 in Hnd. apply Hnd. apply in_or_app. left. exact Hi. }
      assert (Hfull : full L = false).
      { unfold full. destruct t as [? ?|vt on' names values].
        - destruct Ht as (_ & lk & ->). reflexivity.
        - destruct (wl_type L); [reflexivity|]. destruct (ll_components (wl_llh L)) as [|x xs]; [reflexivity|].
          destruct done as [|a done']; [discriminate Hk|]. exfalso.
          assert (Ha : In a all) by (rewrite Hall; left; reflexivity).
          destruct (Hlit vt on' names values eq_refl a c Ha Hin) as [_ ->]. apply Hnew. left. reflexivity. }
      rewrite Hfull.
      assert (Hhas : has cname (ll_components (wl_llh L)) = false).
      { destruct (has cname (ll_components (wl_llh L))) eqn:Hx; [|reflexivity].
        apply has_keys in Hx. rewrite Hk in Hx. contradiction. }
      rewrite Hhas. rewrite Hon.
      destruct (component_makes w lname on (m_bins (wl_type L)) c k G (Hready c Hin) Hc) as
        (w1 & [lc sim] & B & G1 & K1 & F1 & F2).
      { intros ps nt ae ->. split; [apply (Hfn c); [left; reflexivity|exists ps, nt, ae; exact Hc]|].
        intros cf Hcf. apply (Huse cname cls file ps nt ae Hin Hc cf Hcf). }
      { intros nt ae ->. destruct t as [? ?|vt on' names values]; [apply Ht|].
        destruct (Hlit vt on' names values eq_refl c c Hin Hin) as [(ps & nt' & ae' & Hx) _].
        cbn [fst snd c] in Hx. congruence. }
      cbn [fst snd c] in B. rewrite B.
      unfold register_component. rewrite Hhas. rewrite set_last by exact Hh.
      match goal with |- context [context_components _ _ _ _ (mk_context _ (_ ++ [(_, ?L2)]) ?n2) _] =>
        destruct (IH (done ++ [c]) D L2 pars n2 w1) as (w' & L' & needed' & R1 & R2 & R3 & R4) end.
      { rewrite <- app_assoc. exact Hall. } { exact Hnd. } { exact Hh. }
      { cbn [wl_llh ll_components]. rewrite set_new by exact Hhas. unfold keys in *. rewrite !map_app, Hk. reflexivity. }
      { exact Hon. } { exact Ht. } { exact G1. }
      { intros x Hx Hsx. destruct k as [ps nt ae|nt ae|].
        - exfalso. assert (Hxa : In x all) by (rewrite Hall; apply in_or_app; right; right; exact Hx).
          assert (Hs : is_sim E c) by (exists ps, nt, ae; exact Hc).
          pose proof (Hone x c Hxa Hin Hsx Hs) as Hxc. rewrite Hall in Hnd. unfold keys in Hnd. rewrite map_app in Hnd.
          cbn [map] in Hnd. apply NoDup_remove_2 in Hnd. apply Hnd. apply in_or_app. right.
          rewrite <- Hxc. apply in_map. exact Hx.
        - rewrite F2 by discriminate. apply (Hfn x); [right; exact Hx|exact Hsx].
        - rewrite F2 by discriminate. apply (Hfn x); [right; exact Hx|exact Hsx]. }
      cbn [wl_type] in R1. rewrite R1. exists w', L', needed'. split; [reflexivity|]. split; [exact R2|].
      split; [eapply kept_trans; eassumption|]. intros n Hn. rewrite R4, F1 by exact Hn. reflexivity.
  Qed.

  (** All likelihoods. *)
  Lemma likelihoods_make : forall ls D pars needed w,
    NoDup (keys ls) -> (forall n, In n (keys ls) -> has n D = false) ->
    (forall lname li, In (lname, li) ls -> llh_ready E d (w_fn w) lname li) ->
    (forall lname li on cname cls file ps nt ae, In (lname, li) ls -> type_ready E d (li_type li) on ->
       In (cname, (cls, file)) (li_components li) -> e_classes E cls = Some (ClsSim ps nt ae) ->
       forall cf, used_config (registry_after [ps]) "batch_size" (on ++ ["eff"]) cf -> U lname cf) ->
    going w ->
    exists w' D' needed',
      context_likelihoods K E ls (mk_context pars D needed) w = (w', mk_context pars D' needed', Ok tt) /\
      keys D' = keys D ++ keys ls /\ going w' /\ all_kept f U (contents (w_cache w)) (contents (w_cache w')).
  Proof.
    induction ls as [|[lname li] rest IH]; intros D pars needed w Hnd Hnew Hr Hu G; cbn [context_likelihoods].
    - exists w, D, needed. split; [reflexivity|]. split; [rewrite app_nil_r; reflexivity|].
      split; [exact G|apply kept_refl].
    - destruct (Hr lname li (or_introl eq_refl)) as (R1 & (on & R2 & R3) & R4 & R5 & R6).
      unfold context_likelihood. cbn [cx_llhs cx_pars cx_needed].
      assert (Hh : has lname D = false) by (apply Hnew; left; reflexivity). rewrite Hh.
      destruct (type_makes w (li_type li) on G R2) as (w1 & m & M1 & M2 & M3 & M4 & M5 & M6). rewrite M1.
      rewrite set_new by exact Hh.
      destruct (components_make lname on (li_type li) (li_components li) R4 R5 R3) with
        (cs := li_components li) (done := @nil (string * (string * option string))) (D := D)
        (L := mk_wlik m (mk_llh (@nil (string * lcomp K)) [] (li_alias li) (m_hist m)) []) (pars := pars)
        (needed := needed) (w := w1) as (w2 & L2 & n2 & C1 & C2 & C3 & C4); auto.
      { intros cname cls file ps nt ae Hin Hk cf Hcf.
        exact (Hu lname li on cname cls file ps nt ae (or_introl eq_refl) R2 Hin Hk cf Hcf). }
      { intros c Hc Hs. rewrite M5. exact (R6 c Hc Hs). }
      rewrite C1. cbn [keys map fst] in Hnd. inversion Hnd as [|? ? N1 N2]; subst.
      destruct (IH (D ++ [(lname, L2)]) pars n2 w2) as (w' & D' & n' & Q1 & Q2 & Q3 & Q4); auto.
      { intros n Hn. destruct (has n (D ++ [(lname, L2)])) eqn:Hx; [|reflexivity].
        apply has_keys in Hx. unfold keys in Hx. rewrite map_app in Hx. apply in_app_or in Hx.
        destruct Hx as [Hx|[Hx|[]]].
        - assert (Hf : has n D = false) by (apply Hnew; right; exact Hn).
          apply has_keys in Hx. congruence.
        - cbn [fst] in Hx. subst n. contradiction. }
      { intros l0 li0 H0. destruct (Hr l0 li0 (or_intror H0)) as (S1 & S2 & S3 & S4 & S5).
        split; [exact S1|]. split; [exact S2|]. split; [exact S3|]. split; [exact S4|].
        intros c Hc Hs. rewrite C4.
        - rewrite M5. exact (S5 c Hc Hs).
        - intros ->. apply N1. apply (in_map fst) in H0. exact H0. }
      { intros l0 li0 on0 cname cls file ps nt ae H0. apply (Hu l0 li0). right. exact H0. }
      rewrite Q1. exists w', D', n'. split; [reflexivity|]. split.
      { rewrite Q2. unfold keys. rewrite map_app, <- app_assoc. reflexivity. }
      split; [exact Q3|]. rewrite M4 in C3. eapply kept_trans; eassumption.
  Qed.
End Construct.

Lemma context_constructs {K} (E : ModelWhole.env K) manager ins cfg w w1 cfg' needed st :
  context_configs K E ins w = (w1, Ok tt) ->
  update_parameter_config
    (map (fun nl => (fst nl, mk_linstr (li_copy (snd nl)) (keys (li_components (snd nl))))) (in_llhs ins)) cfg
    = Ok (cfg', needed) ->
  manager cfg' = Ok st ->
  ready E (contents (w_cache w1)) (w_fn w1) ins ->
  exists w' c, new_context K E manager ins (Ok cfg) w = (w', Ok c) /\
    keys (cx_llhs c) = keys (in_llhs ins) /\ cx_pars c = st /\
    all_kept (e_fs E) (uses E (contents (w_cache w1)) ins) (contents (w_cache w1)) (contents (w_cache w')).
Proof.
  intros Hc Hu Hm (R1 & R2 & R3 & R4). unfold new_context. rewrite Hc, Hu, Hm.
  destruct (likelihoods_make E (uses E (contents (w_cache w1)) ins) R3 (contents (w_cache w1)))
    with (ls := in_llhs ins) (D := @nil (string * wlik K)) (pars := st) (needed := needed) (w := w1)
    as (w' & D' & n' & H1 & H2 & _ & H4); auto.
  - intros lname li on cname cls file ps nt ae Hin Ht Hi Hk cf Hcf.
    exists li, on, cname, cls, file, ps, nt, ae. auto 10.
  - split; [reflexivity|exact R4].
  - rewrite H1. eexists _, _. split; [reflexivity|]. cbn [cx_llhs cx_pars]. auto.
Qed.
