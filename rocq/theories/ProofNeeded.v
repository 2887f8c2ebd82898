(** Lemmas about the parameters that a context needs. *)
From Coq Require Import Reals Lia.
From Verif Require Import Base BaseFacts ModelFloat ModelShare ModelConfig ModelComponent ModelCompile
  ModelLikelihood ModelBinning ModelLit ModelContext ModelWhole
  SpecLikelihood SpecComponent SpecConfig SpecBinning SpecWhole SpecNeeded
  ProofComponent ProofWorkflow ProofSim ProofConfig ProofCompile ProofLikelihood ProofBinning ProofWhole.
Local Open Scope string_scope.
Local Open Scope list_scope.

(** A parameter that a config was found to require stays required. *)
Lemma req_static_grows c1 c9 llh cf v r : get (ModelConfig.c_name cf) c1 = Some v -> req_static c1 llh cf = Ok r ->
  grows c1 c9 -> req_static c9 llh cf = Ok r.
Proof.
  unfold req_static. intros Hg Hr G. destruct (c_kind cf); try exact Hr. rewrite Hg in Hr.
  destruct (G _ _ Hg) as (v' & Hg' & Hx). rewrite Hg'.
  destruct v; cbn [ext] in Hx; try (subst v'; exact Hr).
  destruct Hx as (d' & -> & Hd). destruct (get llh d) as [x|] eqn:Hl; [|discriminate].
  destruct (Hd _ _ Hl) as (y & Hy & Hxy). rewrite Hy. rewrite <- (required_of_value_eqb _ _ _ Hxy). exact Hr.
Qed.

Lemma required_settles cf llh c c1 r : required_parameter cf (Some llh) c = (c1, Ok r) ->
  forall c9, grows (contents c1) c9 -> req_static c9 llh cf = Ok r.
Proof.
  intros H c9 G. unfold required_parameter in H. destruct (c_kind cf) eqn:Hk;
    try (injection H as <- <-; unfold req_static; rewrite Hk; reflexivity).
  unfold get_configs in H. unfold rd_in, has in H.
  assert (S : forall v cc, get (ModelConfig.c_name cf) (contents cc) = Some v ->
    (let '(c1', r') := match v with VDict d => (cc, lookup_llh d (Some llh)) | v0 => (cc, Ok v0) end in
     (c1', match r' with Ok v0 => required_of_value (ModelConfig.c_name cf) v0 | Err e => Err e end)) = (c1, Ok r) ->
    req_static c9 llh cf = Ok r).
  { intros v cc Hg He. assert (cc = c1) by (apply (f_equal fst) in He; destruct v; exact He). subst cc.
    apply (req_static_grows (contents c1) c9 llh cf v); [exact Hg| |exact G].
    unfold req_static. rewrite Hk, Hg. apply (f_equal snd) in He. destruct v as [ | | | | |d]; try exact He.
    cbn in He. destruct (get llh d); [exact He|discriminate]. }
  destruct (get (ModelConfig.c_name cf) (contents c)) as [v|] eqn:Hv.
  - unfold rd_getitem in H. rewrite Hv in H.
    apply (S v (mk_rdict (contents c) (add1 (ModelConfig.c_name cf) (accessed c)))); [exact Hv|].
    destruct v; exact H.
  - unfold get_default in H. destruct (c_default cf) as [v0|]; [|discriminate].
    apply (S v0 (rd_setitem (ModelConfig.c_name cf) v0 c)); [apply get_set_eq|]. destruct v0; exact H.
Qed.

Lemma config_params_grows llh cfs : forall needed c,
  grows (contents c) (contents (fst (fst (config_params cfs llh needed c)))).
Proof.
  induction cfs as [|cf cfs IH]; intros needed c; cbn [config_params]; [apply grows_refl|].
  pose proof (required_grows cf (Some llh) c) as G.
  destruct (required_parameter cf (Some llh) c) as [c1 [[s|]|e]]; cbn [fst] in G; [| |exact G];
    (eapply grows_trans; [exact G|apply IH]).
Qed.

Lemma simplify_loop_grows llh ps : forall ws needed c,
  grows (contents c) (contents (fst (fst (simplify_loop ps llh ws needed c)))).
Proof.
  induction ps as [|p ps IH]; intros ws needed c; cbn [simplify_loop]; [apply grows_refl|].
  pose proof (config_params_grows llh (map snd (p_configs p)) (Base.union needed (p_params p)) c) as G.
  destruct (config_params _ _ _ c) as [[c1 n1] [u|e]]; cbn [fst] in G; [|exact G].
  eapply grows_trans; [exact G|apply IH].
Qed.

Lemma config_params_settled llh cfs : forall needed c c1 needed1 c9,
  config_params cfs llh needed c = (c1, needed1, Ok tt) -> grows (contents c1) c9 ->
  forall x, In x needed1 <-> In x needed \/ exists cf, In cf cfs /\ requires c9 llh cf x.
Proof.
  induction cfs as [|cf cfs IH]; intros needed c c1 needed1 c9 H G x; cbn [config_params] in H.
  - injection H as _ <-. split; [auto|]. intros [Hx|(cf & [] & _)]. exact Hx.
  - destruct (required_parameter cf (Some llh) c) as [c2 r] eqn:Hr.
    assert (G2 : forall nn, config_params cfs llh nn c2 = (c1, needed1, Ok tt) -> grows (contents c2) c9).
    { intros nn Hn. pose proof (config_params_grows llh cfs nn c2) as Gc. rewrite Hn in Gc. cbn [fst] in Gc.
      eapply grows_trans; eassumption. }
    assert (S : forall y, r = Ok y -> forall z, requires c9 llh cf z <-> y = Some z).
    { intros y -> z. rewrite <- req_static_requires.
      rewrite (required_settles cf llh c c2 y Hr c9).
      - split; [congruence|]. intros ->. reflexivity.
      - destruct y; eapply G2; exact H. }
    destruct r as [[s|]|e]; [| |discriminate].
    + rewrite (IH _ _ _ _ _ H G x), add1_In. split.
      * intros [[->|Hx]|(cf' & Hi & Hx)]; [right; exists cf; split; [left; reflexivity|]|auto|right; exists cf'; split; [right; exact Hi|exact Hx]].
        apply (S (Some s) eq_refl). reflexivity.
      * intros [Hx|(cf' & [<-|Hi] & Hx)]; [auto| |right; eauto].
        apply (S (Some s) eq_refl) in Hx. injection Hx as <-. auto.
    + rewrite (IH _ _ _ _ _ H G x). split.
      * intros [Hx|(cf' & Hi & Hx)]; [auto|right; exists cf'; split; [right; exact Hi|exact Hx]].
      * intros [Hx|(cf' & [<-|Hi] & Hx)]; [auto| |right; eauto].
        apply (S None eq_refl) in Hx. discriminate.
Qed.

Lemma simplify_loop_settled llh ps : forall ws needed c c1 ws1 needed1 c9,
  simplify_loop ps llh ws needed c = (c1, (ws1, needed1), Ok tt) -> grows (contents c1) c9 ->
  forall x, In x needed1 <-> In x needed \/ exists p, In p ps /\
    (In x (p_params p) \/ exists n cf, In (n, cf) (p_configs p) /\ requires c9 llh cf x).
Proof.
  induction ps as [|p ps IH]; intros ws needed c c1 ws1 needed1 c9 H G x; cbn [simplify_loop] in H.
  - injection H as _ _ <-. split; [auto|]. intros [Hx|(p & [] & _)]. exact Hx.
  - destruct (config_params (map snd (p_configs p)) llh (Base.union needed (p_params p)) c) as [[c2 n2] r] eqn:Hcp.
    destruct r as [[]|e]; [|discriminate].
    assert (G2 : grows (contents c2) c9).
    { pose proof (simplify_loop_grows llh ps (ws ++ [work_of p]) n2 c2) as Gs. rewrite H in Gs. cbn [fst] in Gs.
      eapply grows_trans; eassumption. }
    rewrite (IH _ _ _ _ _ _ _ H G x), (config_params_settled _ _ _ _ _ _ _ Hcp G2 x), union_In. split.
    + intros [[[Hx|Hx]|(cf & Hi & Hx)]|(q & Hq & Hx)].
      * auto.
      * right. exists p. split; [left; reflexivity|auto].
      * right. exists p. split; [left; reflexivity|]. apply in_map_iff in Hi. destruct Hi as ([n cf'] & <- & Hi). eauto.
      * right. exists q. split; [right; exact Hq|exact Hx].
    + intros [Hx|(q & [<-|Hq] & Hx)]; [auto| |right; eauto].
      left. destruct Hx as [Hx|(n & cf & Hi & Hx)]; [auto|]. right. exists cf. split; [|exact Hx].
      apply in_map_iff. exists (n, cf). auto.
Qed.

(** needed_parameters of a deduced component, read off the configuration at any later time. *)
Lemma needed_settled limit data_names func nodep noeff k w w' k' c9 :
  unique_names (k_registry k) ->
  deduce limit data_names func nodep noeff k w = (w', k', Ok tt) ->
  grows (contents (w_cache w')) c9 ->
  forall x, In x (k_needed k') <->
    (x = k_rate k /\ k_rate k <> "") \/
    exists d p, Reach (k_registry k) nodep (output_names data_names noeff) d /\
      get d (k_registry k) = Some p /\
      (In x (p_params p) \/ exists n cf, In (n, cf) (p_configs p) /\ requires c9 (k_llh k) cf x).
Proof.
  intros Hu H G x.
  destruct (deduce_ok_inv _ _ _ _ _ _ _ _ _ H) as (deps & c1 & needed & Hd & Hs & _ & Hn & Hrest). subst needed.
  assert (Hw : w_cache w' = c1) by (decompose [and] Hrest; assumption). rewrite Hw in G.
  destruct (dependencies_deduce_ok _ _ _ _ _ _ Hd) as (l & Hl & Hc & Ht & Hf). simpl in Hl. subst l.
  assert (Hsel : forall p, In p (selected deps) <->
            exists d, Reach (k_registry k) nodep (output_names data_names noeff) d /\ get d (k_registry k) = Some p).
  { intros p. rewrite (selected_in _ nodep Hu _ _ p Hf). split; [apply Hf|].
    intros (d & Hdr & Hg). destruct (good_ext_reach _ _ _ _ _ Hc Ht Hdr) as (q & Hq & Hi). congruence. }
  unfold dependencies_simplify in Hs.
  rewrite (simplify_loop_settled _ _ _ _ _ _ _ _ _ Hs G x). clear Hs. split.
  - intros [Hx|(p & Hp & Hx)].
    + left. destruct (String.eqb (k_rate k) "") eqn:Er; [destruct Hx|]. destruct Hx as [<-|[]].
      split; [reflexivity|]. apply String.eqb_neq, Er.
    + right. apply Hsel in Hp. destruct Hp as (d & Hr & Hg). exists d, p. auto.
  - intros [[-> Hr]|(d & p & Hr & Hg & Hx)].
    + left. apply String.eqb_neq in Hr. rewrite Hr. left. reflexivity.
    + right. exists p. split; [apply Hsel; eauto|exact Hx].
Qed.

Lemma compile_needed f plugins k w w' k' r : compile f plugins k w = (w', k', r) -> k_needed k' = k_needed k.
Proof.
  unfold compile. intros H. destruct (k_compile k) as [[pr a]|]; [|injection H as _ <- _; reflexivity].
  destruct (imports_ok plugins (pr_imports pr)); [|injection H as _ <- _; reflexivity].
  destruct (instantiate f plugins (pr_llh pr) (pr_insts pr) [] w) as [w1 [insts|e]]; [|injection H as _ <- _; reflexivity].
  cbn [w_fn] in H. destruct (get (k_llh k) (w_fn w1)) as [a'|]; [|injection H as _ <- _; reflexivity].
  destruct (get (k_func k) _) as [cl|]; injection H as _ <- _; reflexivity.
Qed.

Lemma reach_same reg nodep l l' : (forall x, In x l <-> In x l') -> forall d, Reach reg nodep l d <-> Reach reg nodep l' d.
Proof.
  assert (S : forall l l', (forall x, In x l -> In x l') -> forall d, Reach reg nodep l d -> Reach reg nodep l' d).
  { clear. intros l l' Hs d H. induction H as [d Hi Hn|d p x _ IH Hg Hx Hn]; [apply Reach_req; auto|eapply Reach_dep; eauto]. }
  intros H d. split; apply S; intros x; apply H.
Qed.

Lemma append_rate cname : (cname ++ "_rate")%string <> "".
Proof. destruct cname; discriminate. Qed.

Lemma remove_first_in x y l : In y (remove_first x l) -> In y l.
Proof.
  induction l as [|z l IH]; cbn; [auto|]. destruct (String.eqb x z); [auto|]. intros [->|H]; auto.
Qed.
Lemma remove_first_other x y l : x <> y -> In y l -> In y (remove_first x l).
Proof.
  intros Hn. induction l as [|z l IH]; cbn [remove_first]; [auto|]. destruct (String.eqb x z) eqn:E.
  - apply String.eqb_eq in E. subst z. intros [Hz|H]; [destruct (Hn Hz)|exact H].
  - intros [Hz|H]; [left; exact Hz|right; exact (IH H)].
Qed.

Lemma outputs_same on x : In x (output_names (on ++ ["eff"]) false) <-> In x (on ++ ["eff"]).
Proof.
  unfold output_names.
  assert (Hm : mem "eff" (on ++ ["eff"]) = true) by (apply mem_In, in_or_app; right; left; reflexivity).
  rewrite Hm. rewrite in_app_iff. split.
  - intros [H|[<-|[]]]; [exact (remove_first_in _ _ _ H)|]. apply in_or_app. right. left. reflexivity.
  - intros H. destruct (string_dec "eff" x) as [<-|Hn]; [right; left; reflexivity|].
    left. apply remove_first_other; assumption.
Qed.

Section Whole.
  Context {K : Type}.
  Variable E : ModelWhole.env K.

  Definition class_plain (k : comp_class) : Prop :=
    match k with ClsSim ps _ _ => unique_names (registry_after [ps]) | _ => True end.

  Lemma construct_needed lname on b cname k file w w' lc sim c9 :
    construct_component K E lname on b cname k file w = (w', Ok (lc, sim)) -> class_plain k ->
    grows (contents (w_cache w')) c9 ->
    forall x, In x (l_needed lc) <-> comp_needs c9 lname on cname k x.
  Proof.
    unfold construct_component, comp_needs. intros H Hp G x. destruct k as [ps nt ae|nt ae|]; [| |discriminate].
    - destruct (register ps []) as [reg [u|e]] eqn:Hr; [|discriminate]. cbn [class_plain] in Hp.
      pose proof (registry_after_one ps reg _ Hr) as Hreg. subst reg.
      unfold build_component in H.
      match type of H with context [deduce ?a ?b ?c ?d ?e ?f ?g] => destruct (deduce a b c d e f g) as [[w1 k1] r1] eqn:Hd end.
      destruct r1 as [[]|e]; [|discriminate].
      destruct (compile (e_fs E) (e_plugins E) k1 w1) as [[w2 k2] r2] eqn:Hc.
      pose proof (compile_grows (e_fs E) (e_plugins E) k1 w1) as Gc. rewrite Hc in Gc. cbn [fst] in Gc.
      destruct r2 as [[]|e]; [|discriminate]. destruct (k_simulate k2) as [cl|]; [|discriminate].
      injection H as <- <- _. cbn [l_needed]. rewrite (compile_needed _ _ _ _ _ _ _ Hc).
      rewrite (needed_settled _ _ _ _ _ (mk_component cname lname (cname ++ "_rate")%string (registry_after [ps]) false [] [] "" None None None) _ _ _ c9 Hp Hd (grows_trans _ _ _ Gc G) x). cbn [k_rate k_registry k_llh].
      split.
      + intros [[H _]|(d & q & Hrd & H)]; [auto|]. right. exists d, q. split; [|exact H].
        apply (reach_same _ _ _ _ (outputs_same on)), Hrd.
      + intros [H|(d & q & Hrd & H)].
        * left. split; [exact H|apply append_rate].
        * right. exists d, q. split; [|exact H]. apply (reach_same _ _ _ _ (outputs_same on)), Hrd.
    - destruct file as [[|a s]|]; [discriminate| |discriminate].
      destruct (load_data K E (String a s) w) as [w1 [t|e]]; [|discriminate].
      destruct (positions on (t_columns t)) as [is|e]; [|discriminate].
      destruct (fixed_deduce _ _ _) as [y|e]; [|discriminate]. injection H as _ <- _. cbn [l_needed].
      split; [intros [<-|[]]; auto|intros [->|[]]; left; reflexivity].
  Qed.

  Lemma components_needed lname cs : forall D (L : wlik K) pars needed w w' c' ,
    has lname D = false -> separate (ll_alias (wl_llh L)) -> NoDup (targets (ll_alias (wl_llh L))) ->
    (forall z, In z (ll_needed (wl_llh L)) -> ~ In z (targets (ll_alias (wl_llh L))) /\ In z needed) ->
    (forall cname cls file k, In (cname, (cls, file)) cs -> e_classes E cls = Some k -> class_plain k) ->
    context_components K E lname cs (mk_context pars (D ++ [(lname, L)]) needed) w = (w', c', Ok tt) ->
    wgrows w w' /\ exists L' needed', c' = mk_context pars (D ++ [(lname, L')]) needed' /\
      forall c9, grows (contents (w_cache w')) c9 -> forall z, In z needed' <-> In z needed \/
        exists cname cls file k x, In (cname, (cls, file)) cs /\ e_classes E cls = Some k /\
          comp_needs c9 lname (m_on (wl_type L)) cname k x /\ given_as (ll_alias (wl_llh L)) x z.
  Proof.
    induction cs as [|[cname [cls file]] rest IH]; intros D L pars needed w w' c' Hh Hs Ht Hin Hpl H;
      cbn [context_components] in H.
    - injection H as <- <-. split; [apply wgrows_refl|]. exists L, needed. split; [reflexivity|].
      intros c9 _ z. split; [auto|]. intros [Hz|(? & ? & ? & ? & ? & [] & _)]. exact Hz.
    - destruct (e_classes E cls) as [k|] eqn:Hc; [|discriminate].
      unfold context_component in H. cbn [cx_llhs cx_pars cx_needed] in H. rewrite (get_last _ _ _ Hh) in H.
      unfold add_component in H. destruct (full L); [discriminate|].
      destruct (has cname (ll_components (wl_llh L))) eqn:Hn; [discriminate|].
      pose proof (construct_grows E lname (m_on (wl_type L)) (m_bins (wl_type L)) cname k file w) as G1.
      destruct (construct_component K E lname (m_on (wl_type L)) (m_bins (wl_type L)) cname k file w)
        as [w2 [[lc sim]|e]] eqn:Hcc; unfold register_component in H; rewrite ?Hn in H; [|discriminate].
      cbn [fst] in G1. rewrite set_last in H by exact Hh.
      assert (Hk : class_plain k) by (eapply Hpl; [left; reflexivity|exact Hc]).
      match type of H with context [mk_wlik ?a ?b ?d] => set (L2 := mk_wlik a b d) in H end.
      set (al := ll_alias (wl_llh L)) in *.
      assert (HL2 : forall z, In z (ll_needed (wl_llh L2)) <->
                In z (ll_needed (wl_llh L)) \/ exists x, In x (l_needed lc) /\ given_as al x z).
      { intros z. unfold L2, given_as. cbn [wl_llh ll_needed].
        rewrite (alias_needed_spec al _ z Hs Ht). rewrite union_In. split.
        - intros [[[H1|H1] H2]|(v & H1 & H2)]; [auto|right; exists z; auto|].
          apply union_In in H1. destruct H1 as [H1|H1]; [|right; exists v; auto].
          exfalso. apply (proj1 (Hin v H1)). apply in_map_iff. exists (z, v). auto.
        - intros [H1|(x & H1 & [[H2 ->]|H2])].
          + left. split; [auto|]. apply (Hin z H1).
          + auto.
          + right. exists x. split; [apply union_In; auto|exact H2]. }
      destruct (IH D L2 pars (Base.union needed (ll_needed (wl_llh L2))) w2 w' c' Hh Hs Ht) as (G2 & L' & needed' & Hc' & Hneed).
      + intros z Hz. split; [|apply union_In; auto].
        apply HL2 in Hz. destruct Hz as [Hz|(x & _ & [[Hx ->]|Hx])]; [apply (Hin z Hz)|exact Hx|].
        apply Hs. apply in_map_iff. exists (z, x). auto.
      + intros cn cl fi k0 Hi. eapply Hpl. right. exact Hi.
      + exact H.
      + split; [eapply wgrows_trans; eassumption|]. exists L', needed'. split; [exact Hc'|].
        intros c9 G9 z. rewrite (Hneed c9 G9 z), union_In, HL2.
        assert (Hlc : forall x, In x (l_needed lc) <-> comp_needs c9 lname (m_on (wl_type L)) cname k x).
        { apply (construct_needed _ _ _ _ _ _ _ _ _ _ c9 Hcc Hk). eapply grows_trans; [exact G2|exact G9]. }
        change (wl_type L2) with (wl_type L). change (ll_alias (wl_llh L2)) with al. split.
        * intros [[Hz|[Hz|(x & Hx & Hg)]]|(cn & cl & fi & k0 & x & Hi & Hrest)].
          -- auto.
          -- left. apply (Hin z Hz).
          -- right. exists cname, cls, file, k, x. split; [left; reflexivity|]. split; [exact Hc|].
             split; [apply Hlc, Hx|exact Hg].
          -- right. exists cn, cl, fi, k0, x. split; [right; exact Hi|exact Hrest].
        * intros [Hz|(cn & cl & fi & k0 & x & [Hi|Hi] & Hk0 & Hx & Hg)]; [auto| |right; exists cn, cl, fi, k0, x; auto].
          injection Hi as <- <- <-. rewrite Hc in Hk0. injection Hk0 as <-.
          left. right. right. exists x. split; [apply Hlc, Hx|exact Hg].
  Qed.

  Lemma make_on t w w' m : make_type K E t w = (w', Ok m) -> forall on,
    match t with TDefault cfg _ => exists bs, wanted cfg on bs | TLit _ on' _ _ => on = on' end <-> on = m_on m.
  Proof.
    unfold make_type. destruct t as [cfg file|vt on0 names values]; intros H on.
    - destruct (load_data K E file w) as [w2 d].
      destruct (new_likelihood _ _ _ _ d) as [lk|e] eqn:Hk; [|discriminate]. injection H as _ <-. cbn [m_on].
      destruct (new_inv _ _ _ _ _ _ Hk) as (bs & _ & _ & Hw & _). split.
      + intros [bs' Hw']. apply normalise_wanted in Hw. apply normalise_wanted in Hw'. congruence.
      + intros ->. eauto.
    - destruct (new_lit vt on0 _) as [[L|e]|]; [|discriminate|discriminate]. injection H as _ <-. reflexivity.
  Qed.

  Lemma likelihoods_needed ls : forall c w w' c',
    (forall lname li, In (lname, li) ls -> plain_llh E li) ->
    context_likelihoods K E ls c w = (w', c', Ok tt) ->
    wgrows w w' /\ cx_pars c' = cx_pars c /\ forall c9, grows (contents (w_cache w')) c9 ->
      forall z, In z (cx_needed c') <-> In z (cx_needed c) \/
        exists lname li x, In (lname, li) ls /\ llh_needs E c9 lname li x /\ given_as (li_alias li) x z.
  Proof.
    induction ls as [|[lname li] rest IH]; intros c w w' c' Hpl H; cbn [context_likelihoods] in H.
    - injection H as <- <-. split; [apply wgrows_refl|]. split; [reflexivity|]. intros c9 _ z. split; [auto|].
      intros [Hz|(? & ? & ? & [] & _)]. exact Hz.
    - unfold context_likelihood in H. destruct (has lname (cx_llhs c)) eqn:Hh; [discriminate|].
      pose proof (make_type_grows E (li_type li) w) as G1.
      destruct (make_type K E (li_type li) w) as [w2 [m|e]] eqn:Hmk; [|discriminate]. cbn [fst] in G1.
      rewrite set_new in H by exact Hh.
      match type of H with context [context_components _ _ _ _ ?c0 _] => destruct (context_components K E lname (li_components li) c0 w2)
        as [[w3 c3] [u|e]] eqn:Hcs end; [|discriminate]. destruct u.
      destruct (Hpl lname li (or_introl eq_refl)) as (Hs & Ht & Hcl).
      assert (Hcl' : forall cname cls file k, In (cname, (cls, file)) (li_components li) -> e_classes E cls = Some k -> class_plain k).
      { intros cname cls file k Hi He. destruct k as [ps nt ae| |]; cbn; auto. eapply Hcl; eassumption. }
      assert (Hz0 : forall z : string, In z [] -> ~ In z (targets (li_alias li)) /\ In z (cx_needed c)) by (intros z []).
      destruct (components_needed lname (li_components li) (cx_llhs c)
                  (mk_wlik m (mk_llh [] [] (li_alias li) (m_hist m)) []) _ _ _ _ _ Hh Hs Ht Hz0 Hcl' Hcs)
        as (G2 & L' & needed' & -> & Hneed).
      destruct (IH _ w3 w' c' (fun ln l0 Hi => Hpl ln l0 (or_intror Hi)) H) as (G3 & Hp3 & Hn3).
      split; [eapply wgrows_trans; [exact G1|eapply wgrows_trans; eassumption]|]. split; [exact Hp3|].
      intros c9 G9 z. rewrite (Hn3 c9 G9 z). cbn [cx_needed].
      rewrite (Hneed c9 (grows_trans _ _ _ G3 G9) z). cbn [wl_type wl_llh ll_alias].
      assert (Hon := make_on _ _ _ _ Hmk).
      split.
      + intros [[Hz|(cname & cls & file & k & x & Hi & He & Hx & Hg)]|(ln & l0 & x & Hi & Hrest)].
        * auto.
        * right. exists lname, li, x. split; [left; reflexivity|]. split; [|exact Hg].
          exists (m_on m), cname, cls, file, k. split; [apply Hon; reflexivity|]. auto.
        * right. exists ln, l0, x. split; [right; exact Hi|exact Hrest].
      + intros [Hz|(ln & l0 & x & [Hi|Hi] & Hx & Hg)]; [auto| |right; exists ln, l0, x; auto].
        injection Hi as <- <-. destruct Hx as (on & cname & cls & file & k & Hw' & Hi & He & Hx).
        left. right. exists cname, cls, file, k, x. split; [exact Hi|]. split; [exact He|]. split; [|exact Hg].
        apply Hon in Hw'. subst on. exact Hx.
  Qed.

  Lemma context_needed manager ins par w w' c :
    new_context K E manager ins par w = (w', Ok c) ->
    (forall lname li, In (lname, li) (in_llhs ins) -> plain_llh E li) ->
    forall z, In z (cx_needed c) <-> ins_needs E (contents (w_cache w')) ins z.
  Proof.
    unfold new_context. intros H Hpl z.
    destruct (context_configs K E ins w) as [w1 [u|e]]; [|discriminate].
    destruct par as [cfg|e]; [|discriminate].
    destruct (update_parameter_config _ cfg) as [[cfg' needed]|e] eqn:Hu; [|discriminate].
    destruct (manager cfg') as [st|e]; [|discriminate].
    destruct (context_likelihoods K E (in_llhs ins) (mk_context st [] needed) w1) as [[w2 c2] r] eqn:Hl.
    destruct r as [[]|e]; [|discriminate]. injection H as <- <-.
    destruct (likelihoods_needed _ _ _ _ _ Hpl Hl) as (_ & _ & Hn).
    rewrite (Hn _ (grows_refl _) z). cbn [cx_needed]. unfold ins_needs.
    assert (Hc : In z needed <-> exists lname li, In (lname, li) (in_llhs ins) /\ In z (keys (li_copy li))).
    { unfold update_parameter_config in Hu. destruct (copy_loop _ cfg) as [cfg1|e]; [|discriminate].
      injection Hu as _ <-. rewrite union_In. split.
      - intros [[]|Hz]. apply in_map_iff in Hz. destruct Hz as ([k v] & <- & Hi).
        apply in_flat_map in Hi. destruct Hi as (nl & Hnl & Hi). apply in_map_iff in Hnl.
        destruct Hnl as ([ln li] & <- & Hli). exists ln, li. split; [exact Hli|]. apply in_map_iff. exists (k, v). auto.
      - intros (ln & li & Hli & Hz). right. apply in_map_iff in Hz. destruct Hz as ([k v] & <- & Hi).
        apply in_map_iff. exists (k, v). split; [reflexivity|]. apply in_flat_map.
        exists (ln, mk_linstr (li_copy li) (keys (li_components li))). split; [|exact Hi].
        apply in_map_iff. exists (ln, li). auto. }
    rewrite Hc. reflexivity.
  Qed.
End Whole.
