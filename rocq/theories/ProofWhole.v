(** Lemmas about a whole context. *)
From Coq Require Import Reals Lra Lia.
From Verif Require Import Base BaseFacts ModelFloat ModelHist ModelShare ModelConfig ModelComponent ModelCompile
  ModelParameter ModelLikelihood ModelBinning ModelLit ModelContext ModelWhole
  SpecHist SpecLikelihood SpecComponent SpecConfig SpecCompile SpecParameter SpecContext SpecWeighted SpecBinning SpecWhole
  ProofFloat ProofHist ProofConfig ProofConfig2 ProofWorkflow ProofComponent ProofSim ProofComponentTop
  ProofHistory ProofCompile ProofLikelihood ProofLikelihood2 ProofWeighted ProofWeighted2 ProofBinning
  ProofContext ProofLikelihood3.
Local Open Scope string_scope.
Local Open Scope list_scope.

(** [contains] is being a part of the name. *)
Section Names.
Local Open Scope string_scope.
Lemma name_prefix : forall sub s, substring 0 (String.length sub) s = sub -> exists c, s = sub ++ c.
Proof.
  induction sub as [|a sub IH]; intros s H; [exists s; reflexivity|].
  destruct s as [|b s]; [discriminate|]. cbn in H. injection H as -> H.
  destruct (IH s) as [c ->]; [destruct s; exact H|]. exists c. reflexivity.
Qed.
Lemma name_substring : forall m sub s, sub <> "" ->
  substring m (String.length sub) s = sub -> exists a c, s = a ++ sub ++ c.
Proof.
  induction m as [|m IH]; intros sub s Hs H.
  - destruct (name_prefix sub s H) as [c ->]. exists "", c. reflexivity.
  - destruct s as [|b s]; [cbn in H; congruence|]. cbn in H. destruct (IH sub s Hs H) as (a & c & ->).
    exists (String b a), c. reflexivity.
Qed.
Lemma name_append : forall a sub c, substring (String.length a) (String.length sub) (a ++ sub ++ c) = sub.
Proof.
  induction a as [|x a IH]; intros sub c; cbn [String.length append substring]; [|apply IH].
  induction sub as [|y sub IH]; cbn; [destruct c; reflexivity|]. f_equal.
  destruct sub; cbn in *; [destruct c; reflexivity|exact IH].
Qed.
Lemma contains_spec s : contains "Bootstrap" s = true <-> exists a c, s = a ++ "Bootstrap" ++ c.
Proof.
  unfold contains. destruct (index 0 "Bootstrap" s) as [m|] eqn:E.
  - split; [intros _|reflexivity]. apply index_correct1 in E.
    apply (name_substring m "Bootstrap" s); [discriminate|exact E].
  - split; [discriminate|]. intros (a & c & ->). exfalso.
    refine (index_correct3 0 (String.length a) _ _ E _ _ _); [discriminate|apply Nat.le_0_l|].
    apply name_append.
Qed.
End Names.

(* ------------------------------------------------------------------ *)
(** * What construction leaves alone *)

Definition wgrows (w w' : world) : Prop := grows (contents (w_cache w)) (contents (w_cache w')).

Lemma wgrows_refl w : wgrows w w.
Proof. apply grows_refl. Qed.
Lemma wgrows_trans a b c : wgrows a b -> wgrows b c -> wgrows a c.
Proof. apply grows_trans. Qed.

Lemma build_all_grows f llh cfs : forall c, grows (contents c) (contents (fst (fst (build_all f cfs llh c)))).
Proof.
  induction cfs as [|cf cfs IH]; intros c; cbn [build_all]; [apply grows_refl|].
  pose proof (build_grows f cf llh c) as G.
  destruct (config_build f cf llh c) as [c1 [b|e]]; cbn [fst] in *; [|exact G].
  specialize (IH c1). destruct (build_all f cfs llh c1) as [[c2 bs] r]. cbn [fst] in *.
  eapply grows_trans; eassumption.
Qed.

Lemma plugin_init_all_grows f p llh c : grows (contents c) (contents (fst (fst (plugin_init f p llh c)))).
Proof.
  unfold plugin_init. destruct (p_depends p); [apply grows_refl|]. destruct (p_provides p); [apply grows_refl|].
  pose proof (build_all_grows f llh (map snd (p_configs p)) c) as G.
  destruct (build_all f (map snd (p_configs p)) llh c) as [[c1 bs] [u|e]]; exact G.
Qed.

Lemma instantiate_grows f plugins llh insts : forall acc w,
  wgrows w (fst (instantiate f plugins llh insts acc w)).
Proof.
  induction insts as [|[n pn] rest IH]; intros acc w; cbn [instantiate]; [apply wgrows_refl|].
  destruct (plugins pn) as [p|]; [|apply wgrows_refl].
  pose proof (plugin_init_all_grows f p (Some llh) (w_cache w)) as G.
  destruct (plugin_init f p (Some llh) (w_cache w)) as [[c1 bs] [i|e]]; cbn [fst] in *; [|exact G].
  eapply wgrows_trans; [|apply IH]. exact G.
Qed.

Lemma compile_grows f plugins k w : wgrows w (fst (fst (compile f plugins k w))).
Proof.
  unfold compile. destruct (k_compile k) as [[pr a]|]; [|apply wgrows_refl].
  destruct (imports_ok plugins (pr_imports pr)); [|apply wgrows_refl].
  pose proof (instantiate_grows f plugins (pr_llh pr) (pr_insts pr) [] w) as G.
  destruct (instantiate f plugins (pr_llh pr) (pr_insts pr) [] w) as [w1 [insts|e]]; cbn [fst] in G; [|exact G].
  cbn [w_fn]. destruct (get (k_llh k) (w_fn w1)) as [a'|]; [|exact G].
  destruct (get (k_func k) _) as [cl|]; exact G.
Qed.

Lemma build_component_grows limit dn func nodep noeff f plugins k w :
  wgrows w (fst (fst (build_component limit dn func nodep noeff f plugins k w))).
Proof.
  unfold build_component. destruct (deduce limit dn func nodep noeff k w) as [[w1 k1] r] eqn:Hd.
  pose proof (deduce_cache_grows _ _ _ _ _ _ _ _ _ _ Hd) as G.
  destruct r as [u|e]; [|exact G]. eapply wgrows_trans; [exact G|apply compile_grows].
Qed.

Section Build.
  Context {K : Type}.
  Variable E : ModelWhole.env K.

  Lemma load_data_contents fname w : contents (w_cache (fst (load_data K E fname w))) = contents (w_cache w).
  Proof.
    unfold load_data. pose proof (get_file_path_contents (e_fs E) fname (w_cache w)) as G.
    destruct (get_file_path (e_fs E) fname (w_cache w)) as [c r]. cbn in *. exact G.
  Qed.

  Lemma load_data_grows fname w : wgrows w (fst (load_data K E fname w)).
  Proof. unfold wgrows. rewrite load_data_contents. apply grows_refl. Qed.

  Lemma construct_grows lname on b cname cls file w :
    wgrows w (fst (construct_component K E lname on b cname cls file w)).
  Proof.
    unfold construct_component. destruct cls as [ps nt ae|nt ae|]; [| |apply wgrows_refl].
    - destruct (register ps []) as [reg [u|e]]; [|apply wgrows_refl].
      match goal with |- context [build_component ?a ?b ?c ?d ?e ?f ?g ?h ?i] =>
        pose proof (build_component_grows a b c d e f g h i) as G;
        destruct (build_component a b c d e f g h i) as [[w' k'] r] end.
      cbn [fst] in *. exact G.
    - destruct file as [[|a s]|]; [apply wgrows_refl| |apply wgrows_refl].
      pose proof (load_data_grows (String a s) w) as G.
      destruct (load_data K E (String a s) w) as [w' r]. cbn [fst] in *. exact G.
  Qed.

  (** How a component and a likelihood of a context came about; [w1] is the process after the configs. *)
  Definition made_comp (w1 : world) (lname : string) (m : mtype)
      (ci : string * (string * option string)) (cc : string * lcomp K) : Prop :=
    fst ci = fst cc /\ exists k wa wb sim, e_classes E (fst (snd ci)) = Some k /\ wgrows w1 wa /\
      construct_component K E lname (m_on m) (m_bins m) (fst ci) k (snd (snd ci)) wa = (wb, Ok (snd cc, sim)).

  Definition made_sim (w1 : world) (lname : string) (m : mtype)
      (ci : string * (string * option string)) (cc : string * simulate_fun K) : Prop :=
    fst ci = fst cc /\ exists k wa wb lc, e_classes E (fst (snd ci)) = Some k /\ wgrows w1 wa /\
      construct_component K E lname (m_on m) (m_bins m) (fst ci) k (snd (snd ci)) wa = (wb, Ok (lc, snd cc)).

  Definition made_type (w1 : world) (t : ltype) (m : mtype) : Prop :=
    exists wa wb, wgrows w1 wa /\ make_type K E t wa = (wb, Ok m).

  Definition made_llh (w1 : world) (il : string * linstruct) (cl : string * wlik K) : Prop :=
    fst il = fst cl /\ made_type w1 (li_type (snd il)) (wl_type (snd cl)) /\
    ll_data (wl_llh (snd cl)) = m_hist (wl_type (snd cl)) /\
    ll_alias (wl_llh (snd cl)) = li_alias (snd il) /\
    Forall2 (made_comp w1 (fst il) (wl_type (snd cl))) (li_components (snd il)) (ll_components (wl_llh (snd cl))) /\
    Forall2 (made_sim w1 (fst il) (wl_type (snd cl))) (li_components (snd il)) (wl_sims (snd cl)).

  Lemma make_type_grows t w : wgrows w (fst (make_type K E t w)).
  Proof.
    unfold make_type. destruct t as [cfg file|vt on names values]; [|apply wgrows_refl].
    pose proof (load_data_grows file w) as G. destruct (load_data K E file w) as [w' d]. exact G.
  Qed.

  Lemma made_same_keys w1 lname m cis ccs css :
    Forall2 (made_comp w1 lname m) cis ccs -> Forall2 (made_sim w1 lname m) cis css -> keys ccs = keys css.
  Proof.
    intros H. revert css. induction H as [|ci cc cis ccs Hc H IH]; intros css Hs; inversion Hs as [|? cs ? css' Hs1 Hs2]; subst.
    - reflexivity.
    - cbn. f_equal; [|apply IH; assumption]. destruct Hc as [<- _], Hs1 as [<- _]. reflexivity.
  Qed.

  Lemma same_keys_has {A B} (a : dict A) (b : dict B) k : keys a = keys b -> has k a = has k b.
  Proof.
    intros H. destruct (has k a) eqn:Ea, (has k b) eqn:Eb; try reflexivity.
    - apply has_keys in Ea. rewrite H in Ea. apply has_keys in Ea. congruence.
    - apply has_keys in Eb. rewrite <- H in Eb. apply has_keys in Eb. congruence.
  Qed.

  Lemma set_new {V} k (v : V) d : has k d = false -> set k v d = d ++ [(k, v)].
  Proof.
    unfold has. induction d as [|[k' v'] d IH]; cbn; [reflexivity|].
    destruct (String.eqb k k'); [discriminate|]. intros H. f_equal. exact (IH H).
  Qed.

  Lemma set_last {V} k (v v' : V) d : has k d = false -> set k v (d ++ [(k, v')]) = d ++ [(k, v)].
  Proof.
    unfold has. induction d as [|[k0 v0] d IH]; cbn.
    - rewrite String.eqb_refl. reflexivity.
    - destruct (String.eqb k k0); [discriminate|]. intros H. f_equal. exact (IH H).
  Qed.

  Lemma get_last {V} k (v : V) d : has k d = false -> get k (d ++ [(k, v)]) = Some v.
  Proof.
    unfold has. induction d as [|[k0 v0] d IH]; cbn.
    - rewrite String.eqb_refl. reflexivity.
    - destruct (String.eqb k k0); [discriminate|]. exact IH.
  Qed.

  Lemma components_made w1 lname cs : forall done D (L : wlik K) pars needed w w' c' ,
    wgrows w1 w -> has lname D = false ->
    Forall2 (made_comp w1 lname (wl_type L)) done (ll_components (wl_llh L)) ->
    Forall2 (made_sim w1 lname (wl_type L)) done (wl_sims L) ->
    context_components K E lname cs (mk_context pars (D ++ [(lname, L)]) needed) w = (w', c', Ok tt) ->
    exists L' needed', c' = mk_context pars (D ++ [(lname, L')]) needed' /\ wgrows w1 w' /\
      wl_type L' = wl_type L /\ ll_data (wl_llh L') = ll_data (wl_llh L) /\
      ll_alias (wl_llh L') = ll_alias (wl_llh L) /\
      Forall2 (made_comp w1 lname (wl_type L)) (done ++ cs) (ll_components (wl_llh L')) /\
      Forall2 (made_sim w1 lname (wl_type L)) (done ++ cs) (wl_sims L').
  Proof.
    induction cs as [|[cname [cls file]] rest IH]; intros done D L pars needed w w' c' G Hh HF HS H;
      cbn [context_components] in H.
    - injection H as <- <-. rewrite app_nil_r. exists L, needed. auto 10.
    - destruct (e_classes E cls) as [k|] eqn:Hc; [|discriminate].
      unfold context_component in H. cbn [cx_llhs cx_pars cx_needed] in H. rewrite (get_last _ _ _ Hh) in H.
      unfold add_component in H. destruct (full L) eqn:Hfull; [discriminate|].
      destruct (has cname (ll_components (wl_llh L))) eqn:Hn; [discriminate|].
      pose proof (construct_grows lname (m_on (wl_type L)) (m_bins (wl_type L)) cname k file w) as G1.
      destruct (construct_component K E lname (m_on (wl_type L)) (m_bins (wl_type L)) cname k file w)
        as [w2 [[lc sim]|e]] eqn:Hcc; unfold register_component in H; rewrite ?Hn in H; [|discriminate].
      cbn [fst] in G1. rewrite set_last in H by exact Hh.
      assert (Hn' : has cname (wl_sims L) = false)
        by (rewrite <- (same_keys_has _ _ cname (made_same_keys _ _ _ _ _ _ HF HS)); exact Hn).
      rewrite (set_new cname lc) in H by exact Hn. rewrite (set_new cname sim) in H by exact Hn'.
      match type of H with context [mk_wlik ?a ?b ?c] => set (L2 := mk_wlik a b c) in H end.
      edestruct (fun HF HS => IH (done ++ [(cname, (cls, file))]) D L2 pars _ w2 w' c' (wgrows_trans _ _ _ G G1) Hh HF HS H)
        as (L' & needed' & H1 & H2 & H3 & H4 & H5 & H6 & H7).
      + unfold L2. cbn [wl_llh wl_type ll_components]. apply Forall2_app; [exact HF|]. constructor; [|constructor].
        split; [reflexivity|]. exists k, w, w2, sim. cbn [fst snd]. auto.
      + unfold L2. cbn [wl_sims wl_type]. apply Forall2_app; [exact HS|]. constructor; [|constructor].
        split; [reflexivity|]. exists k, w, w2, lc. cbn [fst snd]. auto.
      + exists L', needed'. rewrite <- app_assoc in H6, H7. auto 10.
  Qed.

  Lemma likelihoods_made w1 ls : forall done c w w' c',
    wgrows w1 w -> Forall2 (made_llh w1) done (cx_llhs c) ->
    context_likelihoods K E ls c w = (w', c', Ok tt) ->
    cx_pars c' = cx_pars c /\ wgrows w1 w' /\ Forall2 (made_llh w1) (done ++ ls) (cx_llhs c').
  Proof.
    induction ls as [|[lname li] rest IH]; intros done c w w' c' G HF H; cbn [context_likelihoods] in H.
    - injection H as <- <-. rewrite app_nil_r. auto.
    - unfold context_likelihood in H. destruct (has lname (cx_llhs c)) eqn:Hh; [discriminate|].
      pose proof (make_type_grows (li_type li) w) as G1.
      destruct (make_type K E (li_type li) w) as [w2 [m|e]] eqn:Hm; [|discriminate]. cbn [fst] in G1.
      rewrite set_new in H by exact Hh.
      match type of H with context [context_components _ _ _ _ ?c0 _] => destruct (context_components K E lname (li_components li) c0 w2)
        as [[w3 c3] [u|e]] eqn:Hcs end; [|discriminate]. destruct u.
      destruct (components_made w1 lname (li_components li) [] (cx_llhs c)
                  (mk_wlik m (mk_llh [] [] (li_alias li) (m_hist m)) []) _ _ _ _ _ (wgrows_trans _ _ _ G G1) Hh
                  (Forall2_nil _) (Forall2_nil _) Hcs)
        as (L' & needed' & -> & G3 & H3 & H4 & H5 & H6 & H7). cbn [app wl_type wl_llh ll_data ll_alias] in *.
      edestruct (fun HF => IH (done ++ [(lname, li)]) _ w3 w' c' G3 HF H) as (I1 & I2 & I3).
      + cbn [cx_llhs]. apply Forall2_app; [exact HF|]. constructor; [|constructor].
        split; [reflexivity|]. cbn [snd fst]. rewrite H3. split; [|auto].
        exists w, w2. auto.
      + rewrite <- app_assoc in I3. auto.
  Qed.

  Lemma context_made manager ins par w w' c :
    new_context K E manager ins par w = (w', Ok c) ->
    exists w1, context_configs K E ins w = (w1, Ok tt) /\ wgrows w1 w' /\
      Forall2 (made_llh w1) (in_llhs ins) (cx_llhs c).
  Proof.
    unfold new_context. intros H.
    destruct (context_configs K E ins w) as [w1 [u|e]]; [|discriminate].
    destruct par as [cfg|e]; [|discriminate].
    destruct (update_parameter_config _ cfg) as [[cfg' needed]|e]; [|discriminate].
    destruct (manager cfg') as [st|e]; [|discriminate].
    destruct (context_likelihoods K E (in_llhs ins) (mk_context st [] needed) w1) as [[w2 c2] r] eqn:Hl.
    destruct r as [u2|e]; [|discriminate]. injection H as <- <-. destruct u, u2.
    destruct (likelihoods_made w1 (in_llhs ins) [] (mk_context st [] needed) _ _ _ (wgrows_refl _) (Forall2_nil _) Hl) as (H1 & H2 & H3).
    exists w1. auto.
  Qed.

  (* ------------------------------------------------------------------ *)
  (** * The configs of the instruction *)

  Lemma set_config_inv f configs w w' : set_config f configs w = (w', Ok tt) ->
    exists c, set_global_config f configs (w_cache w) = (c, Ok tt) /\ w_cache w' = c.
  Proof.
    unfold set_config. intros H. destruct (set_global_config f configs (w_cache w)) as [c r].
    injection H as <- ->. exists c. auto.
  Qed.

  Lemma asked_explicit ins n lname v w w1 :
    NoDup (keys (in_configs ins)) -> ~ In "url_base" (keys (in_configs ins)) ->
    context_configs K E ins w = (w1, Ok tt) -> asked ins n lname v ->
    explicit_value (contents (w_cache w1)) n lname v.
  Proof.
    intros Hnd Hu Hc (Hp & Ha). unfold context_configs in Hc.
    destruct (match in_url ins with None => _ | Some u => _ end) as [w0 [u0|e]]; [|discriminate].
    destruct (set_config_inv _ _ _ _ Hc) as (c & H1 & ->).
    destruct Ha as [Hg|(d & Hg & Hd & Hl)].
    - left. split; [exact (set_global_plain _ _ _ _ _ _ _ Hnd H1 Hg Hp)|]. intros d ->. discriminate.
    - right. destruct (set_global_table _ _ _ _ _ _ _ Hnd Hd H1 Hg Hu) as (d' & Hg' & Hd').
      exists d'. split; [exact Hg'|]. rewrite Hd', Hl. destruct v; cbn in Hp |- *; try discriminate; reflexivity.
  Qed.

  Lemma path_join_abs a b : starts_with_slash b = true -> path_join a b = b.
  Proof. unfold path_join. intros ->. reflexivity. Qed.

  (** An existing absolute path is found as itself. *)
  Lemma absolute_found f u c p : starts_with_slash u = true -> path_exists f u = true ->
    snd (get_file_path f u c) = Ok p -> p = u.
  Proof.
    intros Hs He. unfold get_file_path. destruct (isfile f u); [intros H; injection H as <-; reflexivity|].
    assert (H345 : get_file_path_345 f u = Ok u).
    { unfold get_file_path_345, get_abspath, sub_dirs. cbn [get_abspath_in].
      rewrite path_join_abs by exact Hs. rewrite He. reflexivity. }
    destruct (rd_in "url_base" c).
    - unfold rd_getitem. destruct (get "url_base" (contents c)) as [v|]; [|discriminate].
      destruct v; try discriminate. rewrite path_join_abs by exact Hs. rewrite He.
      destruct (starts_with_slash s); cbn; rewrite ?H345; intros H; injection H as <-; reflexivity.
    - cbn. rewrite H345. intros H. injection H as <-. reflexivity.
  Qed.

  Lemma base_after ins w w1 w2 u : ~ In "url_base" (keys (in_configs ins)) ->
    context_configs K E ins w = (w1, Ok tt) -> wgrows w1 w2 ->
    in_url ins = Some u -> exists p, get "url_base" (contents (w_cache w2)) = Some (VStr p) /\
      (starts_with_slash u = true -> path_exists (e_fs E) u = true -> p = u).
  Proof.
    intros Hu Hc Hg Hi. unfold context_configs in Hc. rewrite Hi in Hc.
    destruct (set_config (e_fs E) [("url_base", VStr u)] w) as [w0 [[]|e]] eqn:Hs; [|discriminate].
    destruct (set_config_inv _ _ _ _ Hs) as (c0 & H0 & E0).
    destruct (set_config_inv _ _ _ _ Hc) as (c1 & H1 & E1).
    pose proof (set_global_other (e_fs E) (in_configs ins) "url_base" (w_cache w0) Hu) as Ho.
    rewrite H1 in Ho. cbn [fst] in Ho. subst c1.
    cbn in H0. unfold set_global_config1 in H0. cbn in H0.
    pose proof (get_file_path_contents (e_fs E) u (w_cache w)) as Hcc.
    destruct (get_file_path (e_fs E) u (w_cache w)) as [cx [p|e]] eqn:Hf; [|discriminate].
    injection H0 as <-. rewrite E0 in Ho. cbn in Ho. rewrite get_set_eq in Ho.
    destruct (Hg _ _ Ho) as (v' & Hv & Hx). cbn in Hx. subst v'. exists p. split; [exact Hv|].
    intros Ha Hb. apply (absolute_found (e_fs E) u (w_cache w) p Ha Hb). rewrite Hf. reflexivity.
  Qed.

  Lemma load_data_file ins w w1 w2 w3 fname t :
    ~ In "url_base" (keys (in_configs ins)) ->
    context_configs K E ins w = (w1, Ok tt) -> wgrows w1 w2 ->
    load_data K E fname w2 = (w3, Ok t) ->
    exists path, file_at E ins fname path /\ e_read E path = Ok t.
  Proof.
    intros Hu Hc Hg Hl. unfold load_data in Hl.
    destruct (get_file_path (e_fs E) fname (w_cache w2)) as [c r] eqn:Hf.
    destruct r as [path|e]; [|discriminate]. injection Hl as _ Hr. exists path. split; [|exact Hr].
    assert (Hs : snd (get_file_path (e_fs E) fname (w_cache w2)) = Ok path) by (rewrite Hf; reflexivity).
    destruct (in_url ins) as [u|] eqn:Hi.
    - destruct (base_after ins w w1 w2 u Hu Hc Hg Hi) as (p & Hp & Hpu).
      exists (Some p). split.
      + rewrite file_path_spec in Hs by (intros v Hv; exists p; congruence).
        unfold base_of in Hs. rewrite Hp in Hs. destruct (first_found _); congruence.
      + intros u' Hu' Ha Hb. rewrite Hi in Hu'. injection Hu' as <-. rewrite (Hpu Ha Hb). reflexivity.
    - destruct (get "url_base" (contents (w_cache w2))) as [v|] eqn:Hv.
      + destruct (isfile (e_fs E) fname) eqn:Hif.
        * exists None. split; [|intros; congruence]. unfold get_file_path in Hf. rewrite Hif in Hf.
          injection Hf as _ <-. unfold candidates, first_found. cbn. rewrite Hif. reflexivity.
        * destruct v as [| | |b| |];
            try (rewrite (file_path_bad_base _ _ _ _ Hv) in Hs; [discriminate|intros b' Hb'; discriminate|exact Hif]).
          exists (Some b). split; [|intros; congruence].
          rewrite file_path_spec in Hs by (intros v Hv'; exists b; congruence).
          unfold base_of in Hs. rewrite Hv in Hs. destruct (first_found _); congruence.
      + exists None. split; [|intros; congruence].
        rewrite file_path_spec in Hs by (intros v Hv'; congruence).
        unfold base_of in Hs. rewrite Hv in Hs. destruct (first_found _); congruence.
  Qed.
  (* ------------------------------------------------------------------ *)
  (** * Running a component *)

  Lemma registry_after_one ps reg r : register ps [] = (reg, r) -> reg = registry_after [ps].
  Proof. unfold registry_after. cbn. intros ->. reflexivity. Qed.

  Lemma build_noeff limit dn func nodep noeff f plugins k w w' k' :
    build_component limit dn func nodep noeff f plugins k w = (w', k', Ok tt) ->
    k_noeff k' = (noeff || k_noeff k)%bool.
  Proof.
    unfold build_component. intros H.
    destruct (deduce limit dn func nodep noeff k w) as [[w1 k1] [[]|e]] eqn:Hd; [|discriminate].
    destruct (deduce_ok_inv _ _ _ _ _ _ _ _ _ Hd) as
      (deps & c1 & needed & H1 & H2 & H3 & H4 & H5 & H6 & H7 & H8 & H9 & H10 & H11 & _).
    rewrite <- H11. unfold compile in H. destruct (k_compile k1) as [[pr a]|]; [|discriminate].
    destruct (imports_ok plugins (pr_imports pr)); [|discriminate].
    destruct (instantiate f plugins (pr_llh pr) (pr_insts pr) [] w1) as [w2 [insts|e]]; [|discriminate].
    cbn [w_fn] in H. destruct (get (k_llh k1) (w_fn w2)) as [a'|]; [|discriminate].
    destruct (get (k_func k1) _) as [cl|]; [|discriminate]. injection H as <- <-. reflexivity.
  Qed.

  Lemma outputs_eff on : ~ In "eff" on -> output_names (on ++ ["eff"]) false = on ++ ["eff"].
  Proof.
    intros H. unfold output_names.
    assert (Hm : mem "eff" (on ++ ["eff"]) = true) by (apply mem_In, in_or_app; right; left; reflexivity).
    rewrite Hm. f_equal. clear Hm. induction on as [|x on IH]; [reflexivity|].
    cbn [app remove_first]. destruct (String.eqb "eff" x) eqn:Ex.
    { apply String.eqb_eq in Ex. destruct H. left. symmetry. exact Ex. }
    f_equal. apply IH. intros Hi. apply H. right. exact Hi.
  Qed.

  Lemma made_weaken f plugins llh c0 c1 c9 pn i : grows c0 c1 -> made f plugins llh c1 c9 pn i ->
    made f plugins llh c0 c9 pn i.
  Proof.
    intros G (p & ca & cb & H1 & H2 & H3 & H4 & H5 & H6). exists p, ca, cb. repeat split; auto.
    eapply grows_trans; eassumption.
  Qed.

  Lemma made_configured ins w w1 lname c9 pn i :
    NoDup (keys (in_configs ins)) -> ~ In "url_base" (keys (in_configs ins)) ->
    context_configs K E ins w = (w1, Ok tt) ->
    made (e_fs E) (e_plugins E) lname (contents (w_cache w1)) c9 pn i -> configured ins lname i.
  Proof.
    intros Hnd Hu Hc Hm cf vs v Hk Hd Hv Ha.
    apply (instance_config_explicit _ _ _ _ _ _ _ cf vs v Hm Hk Hd Hv).
    eapply asked_explicit; eassumption.
  Qed.

  Lemma solves_calls ins lname p insts cname val qs : forall key key',
    (forall q, In q qs -> exists i, get (p_name q ++ "_" ++ cname)%string insts = Some i /\ own_instance E ins lname q i) ->
    Solves (call_instance (sval K) (e_isem E) insts) val (SParams p) key (body_of cname qs) key' ->
    calls E ins lname p (fun n => get (n ++ "_" ++ cname)%string insts) val key qs key'.
  Proof.
    induction qs as [|q qs IH]; intros key key' Hi H.
    - inversion H; subst. constructor.
    - unfold body_of in H. cbn [map] in H. inversion H as [|a b c o n m argv vs bd Ha Hs Ho Hr]; subst.
      destruct (Hi q (or_introl eq_refl)) as (i & Hg & Hown).
      change (String "_" cname) with ("_" ++ cname)%string in *.
      unfold call_instance in Hs. rewrite Hg in Hs.
      econstructor; eauto. apply IH; [|exact Hr]. intros q' Hq'. apply Hi. right. exact Hq'.
  Qed.

  Lemma component_graph ins w w1 lname on cname ps wa wb k' cl key batch p key' outs reg u func :
    NoDup (keys (in_configs ins)) -> ~ In "url_base" (keys (in_configs ins)) ->
    context_configs K E ins w = (w1, Ok tt) -> wgrows w1 wa -> ~ In "eff" on ->
    register ps [] = (reg, Ok u) -> unique_names reg -> consistent reg "batch_size" (on ++ ["eff"]) ->
    build_component (e_limit E) (on ++ ["eff"]) func "batch_size" false (e_fs E) (e_plugins E)
      (mk_component cname lname (cname ++ "_rate")%string reg false [] [] "" None None None) wa = (wb, k', Ok tt) ->
    k_simulate k' = Some cl ->
    run_closure (sval K) (e_isem E) cl (SKey key) (SBatch batch) (SParams p) = Ok (SKey key', outs) ->
    exists val, graph_run E ins lname ps on batch p (fun n => get (n ++ "_" ++ cname)%string (cl_insts cl)) val key key' /\
      map val (on ++ ["eff"]) = map Some outs.
  Proof.
    intros Hnd Hub Hc Hg He Hr Hu Hcons Hb Hcl Hrun.
    pose proof (registry_after_one _ _ _ Hr) as Hreg.
    set (k := mk_component cname lname (cname ++ "_rate")%string reg false [] [] "" None None None) in *.
    pose proof (compiled_made _ _ _ _ _ _ _ _ _ _ _ _ Hb Hcl) as Hmade.
    assert (Hu' : unique_names (k_registry k)) by exact Hu.
    destruct (compiled_instances _ _ _ _ _ _ _ _ _ _ _ Hu' Hb) as (pr & cl' & Hcode & Hsim & Hpr & Hinst).
    assert (cl' = cl) by congruence. subst cl'.
    destruct (build_component_ok _ _ _ _ _ _ _ _ _ _ _ Hb) as
      (deps & wx & k1 & insts & w2 & Hd & Hdd & Hrest). cbn zeta in Hrest.
    destruct Hrest as (_ & _ & Hcode2 & _). rewrite Hcode in Hcode2.
    assert (Hq : forall x y : prog, Some x = Some y -> x = y) by (intros x y Hxy; congruence).
    apply Hq in Hcode2. rewrite Hcode2 in Hpr. clear Hcode Hcode2 Hq.
    rewrite outputs_eff in * by exact He.
    unfold run_closure in Hrun. rewrite Hpr in Hrun.
    assert (Hp : provides_ok (k_registry k)) by (cbn; rewrite Hreg; apply provides_ok_after).
    destruct (simulation_values _ _ _ _ _ _ _ _ _ _ _ _ _ _ Hp Hu' Hcons Hdd Hrun) as (val & V1 & V2 & V3).
    exists val. split; [|exact V3]. exists (selected deps).
    split; [apply first_by_name_NoDup|]. split.
    { intros q. rewrite <- Hreg. apply (used_selected _ _ _ _ _ Hu' Hdd). }
    split; [exact V1|]. apply solves_calls; [|exact V2].
    intros q Hq. apply (used_selected _ _ _ _ _ Hu' Hdd) in Hq. destruct Hq as (d & Hd1 & Hd2).
    destruct (Hinst d q Hd1 Hd2) as (i & I1 & I2 & I3). exists i. split; [exact I1|].
    split; [exact I2|]. split; [exact I3|].
    destruct (Hmade _ _ I1) as (pn & Hm).
    eapply (made_configured ins w w1 lname); [exact Hnd|exact Hub|exact Hc|].
    eapply made_weaken; [exact Hg|exact Hm].
  Qed.

  (** Arrays and rows. *)
  Lemma arrays_ok vs : forall cols, arrays K vs = Ok cols -> vs = map SCol cols.
  Proof.
    induction vs as [|v vs IH]; intros cols H; cbn in H; [injection H as <-; reflexivity|].
    destruct v as [|n|q|c]; try discriminate. destruct (arrays K vs) as [cs|e]; [|discriminate].
    injection H as <-. cbn. f_equal. exact (IH cs eq_refl).
  Qed.

  Lemma rows_of_ok cols eff rows : rows_of (cols ++ [eff]) = Ok rows ->
    (forall c, In c cols -> List.length c = List.length eff) /\
    map event rows = map (fun i => (map (fun c => nth i c NaN) cols, nth i eff NaN)) (seq 0 (List.length eff)).
  Proof.
    intros H. assert (Hl : exists n, (forall c, In c (cols ++ [eff]) -> List.length c = n) /\
              rows = map (fun i => map (fun c' => nth i c' NaN) (cols ++ [eff])) (seq 0 n)).
    { unfold rows_of in H. destruct (cols ++ [eff]) as [|c0 cs] eqn:E0; [destruct cols; discriminate|].
      destruct (forallb _ _) eqn:Hf in H; [|discriminate]. injection H as <-.
      exists (List.length c0). split; [|reflexivity]. intros c Hc. rewrite forallb_forall in Hf.
      apply Nat.eqb_eq, Hf, Hc. }
    destruct Hl as (n & Hn & ->).
    assert (He : List.length eff = n) by (apply Hn, in_or_app; right; left; reflexivity).
    split; [intros c Hc; rewrite He; apply Hn, in_or_app; left; exact Hc|].
    rewrite map_map, He. apply map_ext. intros i. rewrite map_app. cbn [map].
    unfold event, observables, weight. rewrite removelast_last, last_last. reflexivity.
  Qed.

  Lemma last_split {A} (l : list A) : l <> [] -> exists a x, l = a ++ [x].
  Proof. intros H. destruct (exists_last H) as (a & x & ->). eauto. Qed.

  Lemma map_app_inv {A B} (f : A -> B) l a b : map f l = a ++ b ->
    exists l1 l2, l = l1 ++ l2 /\ map f l1 = a /\ map f l2 = b.
  Proof.
    revert l. induction a as [|x a IH]; intros l H; [exists [], l; auto|].
    destruct l as [|y l]; [discriminate|]. injection H as <- H.
    destruct (IH l H) as (l1 & l2 & -> & <- & <-). exists (y :: l1), l2. auto.
  Qed.

  Lemma sim_rows_ok cl key batch p key' rows on val :
    ModelWhole.sim_rows K E cl key batch p = Ok (key', rows) ->
    (forall outs, run_closure (sval K) (e_isem E) cl (SKey key) (SBatch batch) (SParams p) = Ok (SKey key', outs) ->
       map val (on ++ ["eff"]) = map Some outs) ->
    events_of val on (map event rows).
  Proof.
    unfold ModelWhole.sim_rows. intros H Hv.
    destruct (run_closure (sval K) (e_isem E) cl (SKey key) (SBatch batch) (SParams p)) as [[k0 outs]|e]; [|discriminate].
    destruct k0 as [k0| | |]; try discriminate.
    destruct (arrays K outs) as [cols|e] eqn:Ha; [|discriminate].
    destruct (rows_of cols) as [rows'|e] eqn:Hr; [|discriminate].
    injection H as -> ->. specialize (Hv outs eq_refl). apply arrays_ok in Ha. subst outs.
    rewrite map_app in Hv. symmetry in Hv. rewrite map_map in Hv.
    apply map_app_inv in Hv. destruct Hv as (c1 & c2 & -> & H1 & H2).
    cbn [map] in H2. destruct c2 as [|eff [|? ?]]; try discriminate. cbn in H2. injection H2 as H2.
    destruct (rows_of_ok _ _ _ Hr) as (R1 & R2).
    exists c1, eff. split; [symmetry; exact H1|]. split; [symmetry; exact H2|]. split; [exact R1|exact R2].
  Qed.
  Lemma fclip_inf x lo : fclip x lo PInf = fmax x lo.
  Proof.
    unfold fclip, fmin. destruct (fmax x lo) eqn:Hm; cbn; try reflexivity.
  Qed.

  Lemma implement_events oor ae b rows : binning_ok b ->
    implement_binning oor ae b (map fst rows) (map snd rows) = Ok (event_hist b ae rows).
  Proof.
    intros Hb. unfold implement_binning. rewrite plain_hist_binned by exact Hb.
    assert (Hc : combine (map fst rows) (map snd rows) = rows).
    { rewrite combine_maps. rewrite <- (map_id rows) at 2. apply map_ext. intros r. symmetry. apply surjective_pairing. }
    rewrite Hc. unfold event_hist. destruct ae; [|reflexivity]. unfold floor_hist. f_equal.
    apply map_ext. intros x. apply fclip_inf.
  Qed.

  Lemma find_mcinput_ok ps reg u cname cl batch m : register ps [] = (reg, Ok u) ->
    find_mcinput K E reg cname cl = Ok m ->
    simulated E ps (fun n => get (n ++ "_" ++ cname)%string (cl_insts cl)) batch
      (match m with Some n => n | None => Fin (INR batch) end).
  Proof.
    intros Hr H. unfold find_mcinput in H. destruct (get "energy" reg) as [q|] eqn:Hq; [|discriminate].
    exists q. split; [rewrite <- (registry_after_one _ _ _ Hr); exact Hq|].
    destruct (contains "Bootstrap" (p_name q)) eqn:Eb.
    - left. split; [apply contains_spec, Eb|]. destruct (get (p_name q ++ "_" ++ cname)%string (cl_insts cl)) as [i|] eqn:Hi; [|discriminate].
      destruct (e_selected E i) as [n|e] eqn:Hn; [|discriminate]. injection H as <-. exists i. auto.
    - right. split; [|injection H as <-; reflexivity]. intros a c Hn.
      assert (contains "Bootstrap" (p_name q) = true) by (apply contains_spec; eauto). congruence.
  Qed.

  Lemma scale_map f h : scale f h = map (fun x => fmul x f) h.
  Proof. reflexivity. Qed.

  (** One component of a context, evaluated. *)
  Lemma component_value ins w w1 lname lk ci cc key batch p key' h li :
    NoDup (keys (in_configs ins)) -> ~ In "url_base" (keys (in_configs ins)) ->
    context_configs K E ins w = (w1, Ok tt) -> sound_llh E li (MDefault lk) -> In ci (li_components li) ->
    made_comp w1 lname (MDefault lk) ci cc ->
    match l_kind (snd cc) with
    | LSim f => f key batch p
    | LFixed f => match f p with Ok x => Ok (key, x) | Err e => Err e end
    | LOther => Err TypeError
    end = Ok (key', h) ->
    exists k, e_classes E (fst (snd ci)) = Some k /\
      comp_hist E ins lname (k_on lk) (k_bins lk) batch p (fst ci) k (snd (snd ci)) key h key'.
  Proof.
    intros Hnd Hub Hc (Hb & He & _ & _ & Hcls) Hin (Hname & k & wa & wb & sim & Hk & Hg & Hcc) Hv.
    destruct ci as [cname [cls file]], cc as [cname' lc]. cbn [fst snd m_on m_bins] in *. subst cname'.
    exists k. split; [exact Hk|]. unfold construct_component in Hcc.
    destruct k as [ps nt ae|nt ae|]; [| |discriminate].
    - destruct (register ps []) as [reg [u|e]] eqn:Hr; [|discriminate].
      match type of Hcc with context [build_component ?a ?b ?c ?d ?e ?f ?g ?h ?i] =>
        destruct (build_component a b c d e f g h i) as [[w' k'] r] eqn:Hbc end.
      destruct r as [[]|e]; [|discriminate].
      destruct (k_simulate k') as [cl|] eqn:Hcl; [|discriminate]. injection Hcc as _ <- _. cbn [l_kind] in Hv.
      pose proof (build_noeff _ _ _ _ _ _ _ _ _ _ _ Hbc) as Hne. cbn in Hne.
      unfold sim_hist in Hv. cbn [n_no_eff n_bins n_add_eps n_norm n_rate n_mcinput] in Hv. rewrite Hne in Hv.
      destruct (ModelWhole.sim_rows K E cl key batch p) as [[k2 rows]|e] eqn:Hs; [|discriminate].
      unfold split_rows in Hv. destruct (forallb _ _) eqn:Hl in Hv; [|discriminate].
      assert (Hm : forall rs : list (list fl), map (@removelast fl) rs = map fst (map event rs) /\ map (fun r => last r NaN) rs = map snd (map event rs)).
      { intros rs. rewrite !map_map. split; reflexivity. }
      destruct (Hm rows) as [M1 M2]. rewrite M1, M2, implement_events in Hv by exact Hb.
      destruct (get_normalization _ _ _ _ _ _) as [f|e] eqn:Hn in Hv; [|discriminate].
      injection Hv as -> <-.
      destruct (Hcls cname cls file ps nt ae Hin Hk) as [Hu Hcons].
      rewrite <- (registry_after_one _ _ _ Hr) in Hu, Hcons.
      assert (Hrun : exists outs, run_closure (sval K) (e_isem E) cl (SKey key) (SBatch batch) (SParams p) = Ok (SKey key', outs)).
      { unfold ModelWhole.sim_rows in Hs. destruct (run_closure _ _ _ _ _ _) as [[k0 outs]|e]; [|discriminate].
        destruct k0 as [k0| | |]; try discriminate. destruct (arrays K outs) as [cols|]; [|discriminate].
        destruct (rows_of cols); [|discriminate]. injection Hs as -> _. exists outs. reflexivity. }
      destruct Hrun as (outs & Hrun).
      destruct (component_graph ins w w1 lname (k_on lk) cname ps wa w' k' cl key batch p key' outs reg u _
                  Hnd Hub Hc Hg He Hr Hu Hcons Hbc Hcl Hrun) as (val & V1 & V2).
      assert (Hev : events_of val (k_on lk) (map event rows)).
      { eapply sim_rows_ok; [exact Hs|]. intros outs' Ho. rewrite Hrun in Ho. injection Ho as <-. exact V2. }
      rewrite scale_map. unfold get_normalization in Hn. destruct nt; [| |discriminate].
      + destruct (get (cname ++ "_rate")%string p) as [rate|] eqn:Hrate; [|discriminate]. injection Hn as <-.
        eapply ch_sim; eauto.
      + destruct (find_mcinput K E reg cname cl) as [m|e] eqn:Hmc; [|discriminate].
        destruct (get (cname ++ "_rate")%string p) as [rate|] eqn:Hrate; [|discriminate]. injection Hn as <-.
        eapply ch_sim; eauto. right. split; [reflexivity|]. eapply find_mcinput_ok; eassumption.
    - destruct file as [[|a s]|]; try discriminate.
      destruct (load_data K E (String a s) wa) as [w' r] eqn:Hld. destruct r as [t|e]; [|discriminate].
      destruct (positions (k_on lk) (t_columns t)) as [is|e] eqn:Hp; [|discriminate].
      destruct (fixed_deduce _ _ _) as [h0|e] eqn:Hfd; [|discriminate]. injection Hcc as _ <- _. cbn [l_kind] in Hv.
      unfold fixed_hist in Hv. rewrite Hfd in Hv. cbn [n_norm n_rate] in Hv.
      destruct (get_normalization _ _ _ _ _ _) as [f|e] eqn:Hn in Hv; [|discriminate].
      injection Hv as <- <-.
      unfold fixed_deduce in Hfd. cbn [n_bins n_add_eps] in Hfd.
      assert (Hm : map (select is) (t_rows t) = map fst (map (fun r => (select is r, Fin 1)) (t_rows t)) /\
                   map (fun _ => Fin 1) (map (select is) (t_rows t)) = map snd (map (fun r => (select is r, Fin 1)) (t_rows t))).
      { rewrite !map_map. split; reflexivity. }
      destruct Hm as [M1 M2]. rewrite M2, M1, implement_events in Hfd by exact Hb. injection Hfd as <-.
      destruct (load_data_file ins w w1 wa w' (String a s) t Hub Hc Hg Hld) as (path & P1 & P2).
      unfold get_normalization in Hn. destruct nt; try discriminate.
      destruct (get (cname ++ "_rate")%string p) as [rate|] eqn:Hrate; [|discriminate]. injection Hn as <-.
      rewrite scale_map. eapply ch_fixed; eauto.
      intros r. apply select_values, positions_ok, Hp.
  Qed.

  (** The sum of the components, in the order of the instruction. *)
  Lemma components_sum ins w w1 lname lk li batch p cis : forall ccs key h key' h',
    NoDup (keys (in_configs ins)) -> ~ In "url_base" (keys (in_configs ins)) ->
    context_configs K E ins w = (w1, Ok tt) -> sound_llh E li (MDefault lk) -> incl cis (li_components li) ->
    Forall2 (made_comp w1 lname (MDefault lk)) cis ccs ->
    sum_components ccs key batch p h = Ok (key', h') ->
    exists hs, comp_hists E ins lname (k_on lk) (k_bins lk) batch p cis key hs key' /\
      List.length h' = List.length h /\
      forall i, i < List.length h -> entry h' i = fadd (entry h i) (fsum (map (fun x => entry x i) hs)).
  Proof.
    induction cis as [|ci cis IH]; intros ccs key h key' h' Hnd Hub Hc Hs Hi HF H.
    - inversion HF; subst. cbn in H. injection H as <- <-. exists []. split; [constructor|]. split; [reflexivity|].
      intros i _. cbn. rewrite fadd_0_r. reflexivity.
    - inversion HF as [|? cc ? ccs' Hm HF']; subst. destruct cc as [cn lc]. cbn [sum_components] in H.
      match type of H with match ?r with Ok _ => _ | Err _ => _ end = _ => destruct r as [[k1 x]|e] eqn:Hr end; [|discriminate].
      destruct (iadd h x) as [h2|e] eqn:Hia; [|discriminate].
      destruct (component_value ins w w1 lname lk ci (cn, lc) key batch p k1 x li Hnd Hub Hc Hs (Hi _ (or_introl eq_refl)) Hm Hr)
        as (k & Hk & Hch).
      assert (Hi' : incl cis (li_components li)) by (intros y Hy; apply Hi; right; exact Hy).
      destruct (IH ccs' k1 h2 key' h' Hnd Hub Hc Hs Hi' HF' H) as (hs & Hhs & Hlen & Hent).
      unfold iadd in Hia. destruct (Nat.eqb (List.length h) (List.length x)) eqn:Hl; [|discriminate].
      apply Nat.eqb_eq in Hl. injection Hia as <-.
      assert (Hl2 : List.length (map (fun q : fl * fl => fadd (fst q) (snd q)) (combine h x)) = List.length h).
      { rewrite map_length, combine_length. lia. }
      exists (x :: hs). destruct ci as [cname [cls file]]. split; [econstructor; eassumption|].
      split; [congruence|]. intros i Hlt. rewrite Hent by (rewrite Hl2; exact Hlt). cbn [map]. rewrite fsum_cons.
      rewrite <- fadd_assoc. f_equal. unfold entry.
      rewrite (nth_indep _ NaN (fadd (fst (NaN, NaN)) (snd (NaN, NaN)))) by (rewrite Hl2; exact Hlt).
      rewrite (map_nth (fun q : fl * fl => fadd (fst q) (snd q))), combine_nth by exact Hl. reflexivity.
  Qed.

  Lemma counts_fin b data : counts b data = map Fin (map (fun P => INR (List.length (filter P data))) (bins_of b)).
  Proof. unfold counts, number. rewrite map_map. reflexivity. Qed.

  Lemma default_value_ok ins w w1 lname cfg file alias cs lk (L : llh K) batch p key x key' li :
    NoDup (keys (in_configs ins)) -> ~ In "url_base" (keys (in_configs ins)) ->
    context_configs K E ins w = (w1, Ok tt) -> NoDup (keys p) ->
    li_alias li = alias -> li_components li = cs ->
    made_type w1 (TDefault cfg file) (MDefault lk) -> ll_data L = k_hist lk -> ll_alias L = alias ->
    Forall2 (made_comp w1 lname (MDefault lk)) cs (ll_components L) -> sound_llh E li (MDefault lk) ->
    get_log_likelihood L key batch p = Ok (key', x) ->
    default_value E ins lname cfg file alias cs batch p key x key'.
  Proof.
    intros Hnd Hub Hc Hp Eal Ecs (wa & wb & Hg & Hld) Hdata Hal HF Hs H. subst alias cs. cbn [make_type] in Hld.
    destruct (load_data K E file wa) as [wb' tr] eqn:Hl.
    destruct (new_likelihood (e_row E) (e_gof_1d E) (e_gof_2d E) cfg tr) as [lk'|e] eqn:Hnew; [|discriminate].
    injection Hld as -> ->.
    pose proof Hs as (Hb & He & Ha & Hsep & _).
    destruct (new_data _ _ _ _ _ _ Hnew) as (t & sel & -> & S1 & _ & S3).
    pose proof (new_counts _ _ _ _ _ _ Hnew Hb) as Hcnt.
    destruct (load_data_file ins w w1 wa wb file t Hub Hc Hg Hl) as (path & P1 & P2).
    set (ds := map (fun P => INR (List.length (filter P (k_data lk)))) (bins_of (k_bins lk))).
    assert (Hds : ll_data L = map Fin ds) by (rewrite Hdata, Hcnt; apply counts_fin).
    pose proof (get_llh_cases L key batch p ds Hds) as Hcase.
    rewrite Hal in Hcase.
    destruct (simulate_model_hist L key batch (replace_alias (li_alias li) p)) as [[k2 m]|e] eqn:Hm; [|congruence].
    unfold simulate_model_hist in Hm. rewrite Hal, replace_alias_idem in Hm by assumption.
    destruct (components_sum ins w w1 lname lk li batch (replace_alias (li_alias li) p) (li_components li)
                (ll_components L) key _ k2 m Hnd Hub Hc Hs (incl_refl _) HF Hm) as (hs & H1 & H2 & H3).
    rewrite map_length in H2, H3.
    assert (Hlen : List.length (ll_data L) = List.length (bins_of (k_bins lk))).
    { rewrite Hds. unfold ds. rewrite !map_length. reflexivity. }
    assert (Hent : forall i, i < List.length m -> entry m i = fsum (map (fun h => entry h i) hs)).
    { intros i Hi. rewrite H3 by lia. unfold entry at 1.
      rewrite (nth_indep _ NaN (Fin 0)) by (rewrite map_length; lia).
      rewrite (map_nth (fun _ : fl => Fin 0) (ll_data L) (Fin 0)). apply fadd_0_l. }
    assert (Hkey : k2 = key') by (destruct Hcase as [[_ Hq]|(ms & _ & _ & _ & Hq)]; congruence). subst k2.
    exists lk, path, t, sel, (k_data lk), (replace_alias (li_alias li) p), hs, m.
    split; [exact P1|]. split; [exact P2|]. split; [exact Hnew|]. split; [exact S1|]. split; [exact S3|].
    split; [intros nm; apply replace_alias_get; assumption|]. split; [exact H1|]. split; [lia|]. split; [exact Hent|].
    destruct Hcase as [[Hbad Hq]|(ms & M1 & M2 & M3 & Hq)]; rewrite Hq in H; injection H as <-.
    - left. auto.
    - right. exists ms. auto.
  Qed.

  Lemma new_lit_two vt on args L : new_lit vt on args = Some (Ok L) -> List.length on = 2.
  Proof.
    unfold new_lit. destruct (negb (existsb _ _)); [discriminate|].
    destruct (Nat.eqb (List.length on) 2) eqn:Eq; [|discriminate]. intros _. apply Nat.eqb_eq, Eq.
  Qed.

  Lemma lit_value_ok ins w w1 lname vt on names values alias cs on' l sims batch p key x key' li :
    NoDup (keys (in_configs ins)) -> ~ In "url_base" (keys (in_configs ins)) ->
    context_configs K E ins w = (w1, Ok tt) -> NoDup (keys p) ->
    li_alias li = alias -> li_components li = cs ->
    made_type w1 (TLit vt on names values) (MLit on' l) ->
    Forall2 (made_sim w1 lname (MLit on' l)) cs sims -> sound_llh E li (MLit on' l) ->
    lit_log_likelihood l alias sims key batch p = Ok (key', x) ->
    lit_value E ins lname vt on names values alias cs p key x key'.
  Proof.
    intros Hnd Hub Hc Hp Eal Ecs (wa & wb & _ & Hmk) HF Hs H. subst alias cs. cbn [make_type] in Hmk.
    destruct (new_lit vt on (logpdf_args names values)) as [[L|e]|] eqn:Hnew; [|discriminate|discriminate].
    injection Hmk as _ <- <-.
    pose proof Hs as (_ & He & Ha & Hsep & Hcls). cbn [m_on] in He, Hcls.
    unfold lit_log_likelihood, simulate_yields in H.
    destruct sims as [|[cname sim] [|? ?]]; try discriminate H.
    inversion HF as [|ci ? cis ? Hm HF' Eci]; subst. inversion HF'; subst.
    destruct ci as [cname' [cls file]]. destruct Hm as (Hn & k & wc & wd & lc & Hk & Hg & Hcc). cbn [fst snd m_on m_bins] in *. subst cname'.
    rewrite (replace_alias_idem (li_alias li) p) in H by assumption.
    destruct (sim key 1 (replace_alias (li_alias li) p)) as [[k1 cols]|e] eqn:Hsim; [|discriminate H].
    destruct cols as [|en [|ys [|eff [|? ?]]]]; try discriminate H.
    destruct (logpdf L en ys) as [ll|e] eqn:Hll; [|discriminate H].
    destruct (weigh ll eff) as [sx|e] eqn:Hw; [|discriminate H]. injection H as -> ->.
    unfold construct_component in Hcc. destruct k as [ps nt ae|nt ae|]; [| |discriminate Hcc].
    2: { destruct file as [[|a s]|]; try discriminate Hcc.
      destruct (load_data K E (String a s) wc) as [w' r]. destruct r as [t|e]; [|discriminate Hcc].
      destruct (positions on (t_columns t)) as [is|e]; [|discriminate Hcc].
      destruct (fixed_deduce _ _ _) as [h0|e]; [|discriminate Hcc].
      apply (f_equal snd) in Hcc. cbn [snd] in Hcc. injection Hcc as _ <-. discriminate Hsim. }
    destruct (register ps []) as [reg [u|e]] eqn:Hr; [|discriminate Hcc].
    match type of Hcc with context [build_component ?a ?b ?c ?d ?e ?f ?g ?h ?i] =>
      destruct (build_component a b c d e f g h i) as [[w' k'] r] eqn:Hbc end.
    destruct r as [[]|e]; [|discriminate Hcc].
    destruct (k_simulate k') as [cl|] eqn:Hcl; [|discriminate Hcc].
    apply (f_equal snd) in Hcc. cbn [snd] in Hcc. injection Hcc as _ <-.
    unfold sim_cols in Hsim.
    destruct (run_closure (sval K) (e_isem E) cl (SKey key) (SBatch 1) (SParams (replace_alias (li_alias li) p)))
      as [[k0 outs]|e] eqn:Hrun; [|discriminate Hsim].
    destruct k0 as [k0| | |]; try discriminate Hsim.
    destruct (arrays K outs) as [cols|e] eqn:Har; [|discriminate Hsim]. injection Hsim as -> ->.
    apply arrays_ok in Har. subst outs.
    assert (Hin : In (cname, (cls, file)) (li_components li)) by (rewrite <- Eci; left; reflexivity).
    destruct (Hcls cname cls file ps nt ae Hin Hk) as [Hu Hcons].
    rewrite <- (registry_after_one _ _ _ Hr) in Hu, Hcons.
    destruct (component_graph ins w w1 lname on cname ps wc w' k' cl key 1 _ key' _ reg u _
                Hnd Hub Hc Hg He Hr Hu Hcons Hbc Hcl Hrun) as (val & V1 & V2).
    pose proof (new_lit_two _ _ _ _ Hnew) as Hlen.
    destruct on as [|o1 [|o2 [|? ?]]]; try discriminate Hlen. cbn [app map] in V2. injection V2 as V2 V3 V4.
    exists cname, cls, file, ps, nt, ae, (replace_alias (li_alias li) p), (fun n => get (n ++ "_" ++ cname)%string (cl_insts cl)), val, en, ys, eff, L.
    split; [reflexivity|]. split; [exact Hk|]. split; [intros nm; apply replace_alias_get; assumption|].
    split; [exact V1|]. split; [cbn [map]; rewrite V2, V3; reflexivity|]. split; [exact V4|]. split; [exact Hnew|].
    intros name k b q. unfold lit_log_likelihood, simulate_yields. rewrite Hll, Hw. reflexivity.
  Qed.

  Lemma likelihood_value ins w w1 il cl batch p key x key' :
    NoDup (keys (in_configs ins)) -> ~ In "url_base" (keys (in_configs ins)) ->
    context_configs K E ins w = (w1, Ok tt) -> NoDup (keys p) ->
    made_llh w1 il cl -> sound_llh E (snd il) (wl_type (snd cl)) ->
    wl_log_likelihood (snd cl) key batch p = Ok (key', x) ->
    llh_value E ins (fst il) (snd il) batch p key x key'.
  Proof.
    intros Hnd Hub Hc Hp (Hn & Hty & Hdata & Hal & HF & HS) Hs H. unfold wl_log_likelihood in H.
    destruct il as [lname li], cl as [n L]. cbn [fst snd] in *. subst n. unfold llh_value.
    destruct (li_type li) as [cfg file|vt on names values], (wl_type L) as [lk|on' l].
    - eapply default_value_ok; eauto.
    - destruct Hty as (wa & wb & _ & Hty). cbn [make_type] in Hty. destruct (load_data K E file wa) as [wc r].
      destruct (new_likelihood _ _ _ _ _); discriminate Hty.
    - destruct Hty as (wa & wb & _ & Hty). cbn [make_type] in Hty.
      destruct (new_lit vt on (logpdf_args names values)) as [[?|?]|]; discriminate Hty.
    - rewrite Hal in H. eapply lit_value_ok; eauto.
  Qed.

  Lemma values_chain ins w w1 batch p ils : forall cls key cs xs,
    NoDup (keys (in_configs ins)) -> ~ In "url_base" (keys (in_configs ins)) ->
    context_configs K E ins w = (w1, Ok tt) -> NoDup (keys p) ->
    Forall2 (made_llh w1) ils cls ->
    (forall n li L, In (n, li) ils -> In (n, L) cls -> sound_llh E li (wl_type L)) ->
    llh_chain batch p (map (fun nl => (fst nl, wl_log_likelihood (snd nl))) cls) key cs xs ->
    exists key', llh_values E ins batch p ils key xs key'.
  Proof.
    induction ils as [|[n li] ils IH]; intros cls key cs xs Hnd Hub Hc Hp HF Hs H.
    - inversion HF; subst. cbn in H. inversion H; subst. exists key. constructor.
    - inversion HF as [|? cl ? cls' Hm HF']; subst. destruct cl as [n' L]. cbn [map fst snd] in H.
      inversion H as [|n0 f rest k0 k1 x cs' xs' Hf Hr]; subst.
      pose proof (proj1 Hm) as Hn. cbn in Hn. subst n'.
      edestruct (fun S => IH cls' k1 cs' xs' Hnd Hub Hc Hp HF' S Hr) as (key' & Hv).
      { intros n2 li2 L2 I1 I2. apply (Hs n2); right; assumption. }
      exists key'. econstructor; [|exact Hv].
      apply (likelihood_value ins w w1 (n, li) (n, L)); try assumption.
      apply (Hs n); left; reflexivity.
  Qed.
  Lemma posterior_keys manager ins par w w' c fresh pars batch times st' cs y prior :
    new_context K E manager ins par w = (w', Ok c) ->
    NoDup (keys (p_values (cx_pars c))) -> NoDup (keys pars) ->
    context_posterior K E c fresh pars batch times = (st', cs, Ok (y, Fin prior)) ->
    (forall n, In n (keys pars) -> In n (keys (p_values (cx_pars c)))) /\
    log_prior (e_sigmas E) st' = Ok (Fin prior) /\ NoDup (keys (p_values st')).
  Proof.
    intros _ Hv Hn H. unfold context_posterior in H.
    assert (Hk : forall n, In n (keys pars) -> In n (keys (p_values (cx_pars c)))).
    { intros n Hi. destruct (in_dec string_dec n (keys (p_values (cx_pars c)))) as [Hy|Hno]; [exact Hy|].
      rewrite (posterior_unknown K _ _ _ _ _ _ _ _ Hi Hno) in H. discriminate. }
    split; [exact Hk|]. destruct (posterior_frame K _ _ _ _ _ _ _ _ _ _ H) as (_ & _ & _ & Hkeys & _).
    split; [|rewrite Hkeys; exact Hv].
    destruct (posterior_overwritten _ _ _ _ _ _ _ _ _ _ Hn Hk H) as [_ P].
    destruct (log_prior (e_sigmas E) st') as [pr|e]; [|destruct P; discriminate].
    destruct (is_fin pr) eqn:Hf.
    - destruct (Nat.ltb 1 times).
      + destruct (repeat_once _ _ _ _ _ _ _ _) as [cs1 r1]. injection P as _ P. destruct r1; [|discriminate].
        cbn in P. congruence.
      + destruct (posterior_once _ _ _ _ _ _) as [cs1 r1]. injection P as _ P. destruct r1; [|discriminate].
        cbn in P. congruence.
    - destruct P as [_ P]. injection P as _ <-. discriminate.
  Qed.
End Build.

Lemma posterior_value {K} (E : ModelWhole.env K) manager ins par w w' c fresh pars batch times st' cs y prior :
  new_context K E manager ins par w = (w', Ok c) ->
  NoDup (keys (in_configs ins)) -> ~ In "url_base" (keys (in_configs ins)) ->
  (forall n li L, In (n, li) (in_llhs ins) -> In (n, L) (cx_llhs c) -> sound_llh E li (wl_type L)) ->
  NoDup (keys (p_values (cx_pars c))) -> NoDup (keys pars) -> times <= 1 ->
  context_posterior K E c fresh pars batch times = (st', cs, Ok (y, Fin prior)) ->
  overwritten (cx_pars c) pars st' /\ log_prior (e_sigmas E) st' = Ok (Fin prior) /\
  exists xs key', llh_values E ins batch (p_values st') (in_llhs ins) (fresh 0) xs key' /\
    y = fadd (fsum xs) (Fin prior).
Proof.
  intros Hnew Hnd Hub Hs Hv Hn Ht H.
  destruct (posterior_keys E _ _ _ _ _ _ _ _ _ _ _ _ _ _ Hnew Hv Hn H) as (Hk & Hp & Hv').
  destruct (context_made E _ _ _ _ _ _ Hnew) as (w1 & Hc & _ & HF). unfold context_posterior in H.
  destruct (posterior_overwritten _ _ _ _ _ _ _ _ _ _ Hn Hk H) as [O P].
  split; [exact O|]. split; [exact Hp|]. rewrite Hp in P. cbn [is_fin] in P.
  replace (Nat.ltb 1 times) with false in P by (symmetry; apply Nat.ltb_ge; exact Ht).
  destruct (posterior_once _ _ _ _ _ _) as [cs1 r1] eqn:E1. injection P as -> P.
  destruct (once_inv _ _ _ _ _ _ _ _ E1) as [_ I]. destruct r1 as [z|e]; [|discriminate].
  cbn in P. injection P as ->. destruct I as (xs & Hch & ->).
  destruct (values_chain E ins w w1 batch (p_values st') (in_llhs ins) (cx_llhs c) (fresh 0) cs1 xs
              Hnd Hub Hc Hv' HF Hs Hch) as (key' & Hval).
  exists xs, key'. auto.
Qed.

Lemma repeats_nth {K} batch p (ls : dict (llh_fun K)) fresh t : forall j cs xss, llh_repeats batch p ls fresh t j cs xss ->
  forall i xs, nth_error xss i = Some xs -> exists cs', llh_chain batch p ls (fresh (j + i)) cs' xs.
Proof.
  induction t as [|t IH]; intros j cs xss H i xs Hi; inversion H as [|t' j' cs1 xs1 cs2 xss2 Hch Hr]; subst.
  - destruct i; discriminate.
  - destruct i as [|i].
    + injection Hi as <-. rewrite Nat.add_0_r. eauto.
    + cbn in Hi. destruct (IH _ _ _ Hr i xs Hi) as (cs' & Hc). exists cs'. rewrite Nat.add_succ_r. exact Hc.
Qed.

Lemma posterior_repeated {K} (E : ModelWhole.env K) manager ins par w w' c fresh pars batch times st' cs y prior :
  new_context K E manager ins par w = (w', Ok c) ->
  NoDup (keys (in_configs ins)) -> ~ In "url_base" (keys (in_configs ins)) ->
  (forall n li L, In (n, li) (in_llhs ins) -> In (n, L) (cx_llhs c) -> sound_llh E li (wl_type L)) ->
  NoDup (keys (p_values (cx_pars c))) -> NoDup (keys pars) -> 1 < times ->
  context_posterior K E c fresh pars batch times = (st', cs, Ok (y, Fin prior)) ->
  overwritten (cx_pars c) pars st' /\ log_prior (e_sigmas E) st' = Ok (Fin prior) /\
  exists xss, List.length xss = times /\
    (forall i xs, nth_error xss i = Some xs ->
       exists key', llh_values E ins batch (p_values st') (in_llhs ins) (fresh i) xs key') /\
    y = fadd (fmean (map fsum xss)) (Fin prior).
Proof.
  intros Hnew Hnd Hub Hs Hv Hn Ht H.
  destruct (posterior_keys E _ _ _ _ _ _ _ _ _ _ _ _ _ _ Hnew Hv Hn H) as (Hk & Hp & Hv').
  destruct (context_made E _ _ _ _ _ _ Hnew) as (w1 & Hc & _ & HF). unfold context_posterior in H.
  destruct (posterior_overwritten _ _ _ _ _ _ _ _ _ _ Hn Hk H) as [O P].
  split; [exact O|]. split; [exact Hp|]. rewrite Hp in P. cbn [is_fin] in P.
  replace (Nat.ltb 1 times) with true in P by (symmetry; apply Nat.ltb_lt; exact Ht).
  destruct (repeat_once _ _ _ _ _ _ _ _) as [cs1 r1] eqn:E1. injection P as -> P.
  destruct (repeat_inv _ _ _ _ _ _ _ _ _ _ E1) as [_ I]. destruct r1 as [z|e]; [|discriminate].
  destruct I as (xss & Hch & ->). pose proof (repeats_length _ _ _ _ _ _ _ _ _ Hch) as El.
  exists xss. split; [exact El|]. split.
  - intros i xs Hi. destruct (repeats_nth _ _ _ _ _ _ _ _ Hch i xs Hi) as (cs' & Hc').
    exact (values_chain E ins w w1 batch (p_values st') (in_llhs ins) (cx_llhs c) (fresh i) cs' xs
              Hnd Hub Hc Hv' HF Hs Hc').
  - cbn [bind] in P. injection P as ->. rewrite <- (map_map fsum (fun x => fadd x (Fin prior))).
    apply fmean_add_const. destruct xss; [cbn in El; lia|discriminate].
Qed.
