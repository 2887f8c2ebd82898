(** Property C89: when a context can be constructed.
    The vocabulary is in SpecConstruct.v, the proofs in ProofConstruct.v. *)
From Coq Require Import Reals Lra Lia.
From Verif Require Import Base BaseFacts ModelFloat ModelHist ModelShare ModelConfig ModelComponent ModelCompile
  ModelParameter ModelLikelihood ModelBinning ModelLit ModelContext ModelWhole
  SpecHist SpecLikelihood SpecComponent SpecConfig SpecCompile SpecParameter SpecContext SpecBinning SpecBuild SpecWhole SpecConstruct
  ProofConfig ProofConfig2 ProofContext ProofCompile ProofBuild ProofWhole ProofShipped ProofConstruct PropWhole.
Local Open Scope string_scope.
Local Open Scope list_scope.

Lemma entries_ok f es : forall out c,
  (exists r, snd (resolve_entries f es out c) = Ok r) <-> forall l s, In (l, VStr s) es -> found f (contents c) s.
Proof.
  induction es as [|[k v] es IH]; intros out c; cbn [resolve_entries].
  { split; [intros _ l s []|]. intros _. cbn. eauto. }
  assert (Hskip : forall out, is_plain v = true \/ (forall s, v <> VStr s) ->
    ((exists r, snd (resolve_entries f es out c) = Ok r) <-> (forall l s, In (l, VStr s) ((k, v) :: es) -> found f (contents c) s))).
  { intros out' Hv. rewrite (IH out' c). split; intros H l s Hi.
    - destruct Hi as [Hi|Hi]; [|eauto]. injection Hi as _ ->. destruct Hv as [Hv|Hv]; [discriminate Hv|destruct (Hv s eq_refl)].
    - apply (H l s). right. exact Hi. }
  destruct v as [|b|z|s|vs|d]; cbn [is_plain]; try (apply Hskip; auto; right; discriminate).
  pose proof (get_file_path_contents f s c) as Hc.
  assert (Hf : found f (contents c) s <-> exists p, snd (get_file_path f s c) = Ok p).
  { unfold found, path_of. rewrite (gfp_ext f s _ c) by reflexivity. reflexivity. }
  destruct (get_file_path f s c) as [c1 [p|e]] eqn:Hg; cbn [fst snd] in *.
  - rewrite (IH (set k (VStr p) out) c1), Hc. split; intros H l t Hi.
    + destruct Hi as [Hi|Hi]; [|eauto]. injection Hi as _ <-. apply Hf. eauto.
    + apply (H l t). right. exact Hi.
  - split; [intros [r Hr]; discriminate Hr|]. intros H. exfalso. destruct (proj1 Hf) as [p Hp]; [|discriminate Hp].
    apply (H k s). left. reflexivity.
Qed.

Lemma set1_ok f k v c : snd (set_global_config1 f k v c) = Ok tt <-> settable f (contents c) v.
Proof.
  unfold set_global_config1, settable.
  destruct v as [|b|z|s|vs|d]; cbn [is_plain snd]; try (split; auto; discriminate || contradiction); try tauto.
  - unfold found, path_of. rewrite <- (gfp_ext f s c) by reflexivity.
    destruct (get_file_path f s c) as [c1 [p|e]]; cbn [snd]; split; eauto; [discriminate|]. intros [p Hp]. discriminate Hp.
  - rewrite <- (entries_ok f d [] c).
    destruct (resolve_entries f d [] c) as [c1 [p|e]]; cbn [snd]; split; eauto; [discriminate|]. intros [p Hp]. discriminate Hp.
Qed.

Lemma settable_ext f d d' v : get "url_base" d = get "url_base" d' -> settable f d v -> settable f d' v.
Proof. intros H. destruct v; cbn; eauto using found_ext. Qed.

(** set_config accepts a dictionary if and only if it accepts every entry. *)
Theorem C89_settable f configs : forall c, ~ In "url_base" (keys configs) ->
  (snd (set_global_config f configs c) = Ok tt <->
   forall k v, In (k, v) configs -> settable f (contents c) v).
Proof.
  induction configs as [|[k v] rest IH]; cbn [set_global_config keys map fst]; intros c Hu.
  { split; [intros _ k v []|reflexivity]. }
  assert (Hk : "url_base" <> k) by (intros H; apply Hu; left; auto).
  pose proof (set1_other f k v c "url_base" Hk) as Ho. pose proof (set1_ok f k v c) as H1.
  destruct (set_global_config1 f k v c) as [c1 [[]|e]]; cbn [fst snd] in *.
  - rewrite IH by (intros H; apply Hu; right; exact H). split; intros H n x Hi.
    + destruct Hi as [Hi|Hi]; [injection Hi as <- <-; tauto|]. eapply settable_ext; [exact Ho|eauto].
    + eapply settable_ext; [symmetry; exact Ho|]. apply (H n x). right. exact Hi.
  - split; [discriminate|]. intros H. apply H1. apply (H k v). left. reflexivity.
Qed.

(** And the configuration then has the entries. *)
Theorem C89_configured f configs c c1 : ~ In "url_base" (keys configs) -> NoDup (keys configs) ->
  (forall n es, In (n, VDict es) configs -> NoDup (keys es)) ->
  set_global_config f configs c = (c1, Ok tt) -> configured f configs (contents c) (contents c1).
Proof.
  intros Hu Hnd Hes Hs. split.
  - intros n Hn. pose proof (set_global_other f configs n c Hn) as H. rewrite Hs in H. exact H.
  - intros n v Hv. destruct v as [|b|z|s|vs|es]; try (eexists; split; [eapply set_global_plain; eauto|reflexivity]).
    + exfalso. assert (H : settable f (contents c) ModelShare.VNone); [|exact H].
      eapply (proj1 (C89_settable f configs c Hu)); [rewrite Hs; reflexivity|]. apply get_In. exact Hv.
    + destruct (set_global_string f configs c c1 tt n s Hnd Hs Hv Hu) as (p & Hp & Hg).
      exists (VStr p). split; [exact Hg|]. exists p. split; [|reflexivity]. unfold path_of. rewrite <- Hp. apply gfp_ext. reflexivity.
    + assert (Hin : In (n, VDict es) configs) by (apply get_In; exact Hv).
      destruct (set_global_table f configs c c1 tt n es Hnd (Hes _ _ Hin) Hs Hv Hu) as (es' & Hg & Hl).
      exists (VDict es'). split; [exact Hg|]. exists es'. split; [reflexivity|]. intros l. specialize (Hl l).
      destruct (get l es) as [[| | |s| |]|] eqn:El; cbn [stored] in Hl; try exact Hl.
      assert (Hf : settable f (contents c) (VDict es)).
      { eapply (proj1 (C89_settable f configs c Hu)); [rewrite Hs; reflexivity|exact Hin]. }
      destruct (Hf l s (get_In _ _ _ El)) as [p Hp]. exists p. split; [exact Hp|].
      rewrite (gfp_ext f s c (mk_rdict (contents c) [])) in Hl by reflexivity. rewrite Hp in Hl. exact Hl.
Qed.

Lemma configs_succeed {K} (E : ModelWhole.env K) ins w d0 :
  with_base (e_fs E) (in_url ins) (contents (w_cache w)) d0 ->
  NoDup (keys (in_configs ins)) -> ~ In "url_base" (keys (in_configs ins)) ->
  (forall n es, In (n, VDict es) (in_configs ins) -> NoDup (keys es)) ->
  (forall k v, In (k, v) (in_configs ins) -> settable (e_fs E) d0 v) ->
  exists w1, context_configs K E ins w = (w1, Ok tt) /\ w_fn w1 = w_fn w /\
    configured (e_fs E) (in_configs ins) d0 (contents (w_cache w1)).
Proof.
  intros Hb Hnd Hu Hes Hset. unfold context_configs.
  assert (H0 : exists w0, match in_url ins with
                 | None => (w, Ok tt)
                 | Some u => set_config (e_fs E) [("url_base", VStr u)] w
                 end = (w0, Ok tt) /\ w_fn w0 = w_fn w /\ contents (w_cache w0) = d0).
  { unfold with_base in Hb. destruct (in_url ins) as [u|].
    - destruct Hb as (p & Hp & ->). destruct (path_get (e_fs E) u p (w_cache w) Hp) as (c1 & Hg & Hc).
      unfold set_config. cbn [set_global_config]. unfold set_global_config1. cbn [is_plain]. rewrite Hg.
      eexists. split; [reflexivity|]. split; [reflexivity|]. cbn [with_cache w_cache rd_update contents]. rewrite Hc. reflexivity.
    - subst d0. exists w. auto. }
  destruct H0 as (w0 & -> & Hfn & Hc). rewrite set_config_eq.
  assert (Hok : snd (set_global_config (e_fs E) (in_configs ins) (w_cache w0)) = Ok tt).
  { apply C89_settable; [exact Hu|]. rewrite Hc. exact Hset. }
  destruct (set_global_config (e_fs E) (in_configs ins) (w_cache w0)) as [c1 r] eqn:Hs. cbn [fst snd] in *. subst r.
  eexists. split; [reflexivity|]. split; [exact Hfn|]. cbn [with_cache w_cache]. rewrite <- Hc.
  eapply C89_configured; eauto.
Qed.

(** A context is constructed whenever its url_base and the files in its configs are found, the
    parameters that it copies are configured and form no chains, the parameter manager accepts what
    is configured then, and with these configs the likelihoods and components are ready. All
    likelihoods of the instruction are in it, the parameters are the manager's, and what the
    configuration gives to the configs in use is what it gave before. *)
Theorem C89_constructs {K} (E : ModelWhole.env K) manager ins cfg w d0 :
  with_base (e_fs E) (in_url ins) (contents (w_cache w)) d0 ->
  NoDup (keys (in_configs ins)) -> ~ In "url_base" (keys (in_configs ins)) ->
  (forall n es, In (n, VDict es) (in_configs ins) -> NoDup (keys es)) ->
  (forall k v, In (k, v) (in_configs ins) -> settable (e_fs E) d0 v) ->
  (forall n, In n (map fst (all_copies (copying ins))) -> ~ In n (map snd (all_copies (copying ins)))) ->
  (forall v, In v (map snd (all_copies (copying ins))) -> In v (keys cfg)) ->
  (forall cfg' needed, update_parameter_config (copying ins) cfg = Ok (cfg', needed) -> exists st, manager cfg' = Ok st) ->
  (forall d1, configured (e_fs E) (in_configs ins) d0 d1 -> ready E d1 (w_fn w) ins) ->
  exists w' c d1, new_context K E manager ins (Ok cfg) w = (w', Ok c) /\
    keys (cx_llhs c) = keys (in_llhs ins) /\
    (exists cfg' needed, update_parameter_config (copying ins) cfg = Ok (cfg', needed) /\ manager cfg' = Ok (cx_pars c)) /\
    configured (e_fs E) (in_configs ins) d0 d1 /\
    get "url_base" (contents (w_cache w')) = get "url_base" d1 /\
    forall l cf, uses E d1 ins l cf -> c_kind cf <> KMap ->
      effective_value (contents (w_cache w')) cf l = effective_value d1 cf l.
Proof.
  intros Hb Hnd Hu Hes Hset Hch Hsrc Hman Hready.
  destruct (configs_succeed E ins w d0 Hb Hnd Hu Hes Hset) as (w1 & H1 & Hfn & Hc).
  destruct (update_config_total (copying ins) cfg Hch Hsrc) as (cfg' & needed & Hupd).
  destruct (Hman cfg' needed Hupd) as [st Hst].
  specialize (Hready _ Hc). rewrite <- Hfn in Hready.
  destruct (context_constructs E manager ins cfg w w1 cfg' needed st H1 Hupd Hst Hready) as (w' & c & G1 & G2 & G3 & G4).
  exists w', c, (contents (w_cache w1)). split; [exact G1|]. split; [exact G2|]. split; [exists cfg', needed; rewrite G3; auto|].
  split; [exact Hc|]. destruct G4 as [G4 G5]. split; [congruence|].
  intros l cf Huse Hk. destruct (G5 l cf Huse) as [_ G6]. { destruct Hready as (_ & _ & _ & R4). exact (R4 l cf Huse). }
  auto.
Qed.

(* ------------------------------------------------------------------ *)
(** The instruction of PropWhole.v meets the conditions: a url_base, a config with a table, a copied
    parameter, and a simulated and a fixed component. *)
Lemma w_registered d p : get d w_reg = Some p -> (d = "energy" /\ p = pEn) \/ (d = "eff" /\ p = pEf).
Proof. intros H. apply get_In in H. destruct H as [H|[H|[]]]; injection H as <- <-; auto. Qed.

Lemma w_ready d1 : configured w_files (in_configs w_ins) [("url_base", VStr "/d")] d1 -> ready w_env d1 [] w_ins.
Proof.
  intros [H1 H2].
  assert (Hu : get "url_base" [("url_base", VStr "/d")] = get "url_base" d1).
  { symmetry. apply H1. intros [H|[]]. discriminate H. }
  destruct (H2 "gain" _ eq_refl) as (v & Hg & es & -> & Hes). specialize (Hes "rn"). cbn in Hes.
  assert (Huse : forall l cf, uses w_env d1 w_ins l cf -> l = "rn" /\ cf = gain_cf).
  { intros l cf (li & on & cname & cls & file & ps & nt & ae & Hin & _ & Hc & Hk & d & p & _ & Hp & Hcf).
    destruct Hin as [Hin|[]]. injection Hin as <- <-. split; [reflexivity|].
    destruct Hc as [Hc|[Hc|[]]]; injection Hc as <- <- <-; [|discriminate Hk]. injection Hk as <- <- <-.
    change (registry_after [[pEn; pEf]]) with w_reg in Hp.
    destruct (w_registered d p Hp) as [[-> ->]|[-> ->]]; cbn in Hcf; [destruct Hcf as [<-|[]]; reflexivity|destruct Hcf]. }
  split; [repeat constructor; intros []|]. split; [|split].
  - intros lname li [Hin|[]]. injection Hin as <- <-. split; [|split; [|split; [|split]]].
    + repeat constructor; cbn; intuition discriminate.
    + exists ["energy"]. split.
      * exists "/d/data.csv", w_data, w_lk. split; [|split; [reflexivity|split; [exact w_lk_made|reflexivity]]].
        eapply path_ext; [exact Hu|]. reflexivity.
      * intros c [<-|[<-|[]]]; unfold comp_ready; cbn [fst snd e_classes w_env String.eqb Ascii.eqb Bool.eqb].
        -- unfold sim_ready. change (registry_after [[pEn; pEf]]) with w_reg.
           split; [reflexivity|]. split; [|split; [|split; [|split; [|split]]]].
           ++ intros d p d' q Hp Hq Hn. apply w_registered in Hp, Hq.
              destruct Hp as [[-> ->]|[-> ->]], Hq as [[-> ->]|[-> ->]]; reflexivity || discriminate Hn.
           ++ apply (ranked_acyclic w_reg [("energy", 0); ("eff", 1)]). reflexivity.
           ++ intros d Hd. eapply (reach_in w_reg); [reflexivity| |exact Hd]. intros x [<-|[<-|[]]] _; reflexivity.
           ++ cbn. lia.
           ++ intros d p _ Hp. apply w_registered in Hp. destruct Hp as [[-> ->]|[-> ->]]; reflexivity.
           ++ intros d p _ Hp. apply w_registered in Hp.
              destruct Hp as [[-> ->]|[-> ->]]; (split; [discriminate|split; [discriminate|]]);
                [exists "self", []|exists "self", []]; reflexivity.
        -- exists "ac.csv", "/d/ac.csv", w_ac. split; [reflexivity|]. split; [discriminate|]. split; [|split; [reflexivity|]].
           ++ eapply path_ext; [exact Hu|]. reflexivity.
           ++ intros c [<-|[]]. left. reflexivity.
    + intros a b [<-|[<-|[]]] [<-|[<-|[]]] (ps & nt & ae & Ha) (ps' & nt' & ae' & Hb); reflexivity || discriminate Ha || discriminate Hb.
    + intros vt on names values H. discriminate H.
    + reflexivity.
  - split.
    + intros a b [l Ha] [l' Hb]. apply Huse in Ha, Hb. left. destruct Ha as [_ ->], Hb as [_ ->]. reflexivity.
    + intros a [l Ha] Hi. apply Huse in Ha. destruct Ha as [_ ->]. cbn in Hi. destruct Hi as [Hi|[]]. discriminate Hi.
  - intros l cf H. apply Huse in H. destruct H as [-> ->]. exists (ModelShare.VNum 3).
    unfold effective_value. change (ModelConfig.c_name gain_cf) with "gain". rewrite Hg. exact Hes.
Qed.

Example C89_case : exists w' c, new_context nat w_env w_manager w_ins (Ok w_par) init_world = (w', Ok c) /\
  keys (cx_llhs c) = ["rn"] /\ get "url_base" (contents (w_cache w')) = Some (VStr "/d").
Proof.
  destruct (C89_constructs w_env w_manager w_ins w_par init_world [("url_base", VStr "/d")])
    as (w' & c & d1 & H1 & H2 & _ & [H3 _] & H4 & _).
  - exists "/d". split; reflexivity.
  - repeat constructor. intros [].
  - intros [H|[]]. discriminate H.
  - intros n es [H|[]]. injection H as <- <-. repeat constructor. intros [].
  - intros k v [H|[]]. injection H as <- <-. intros l s [H|[]]. discriminate H.
  - intros n [<-|[]] [H|[]]. discriminate H.
  - intros v [<-|[]]. left. reflexivity.
  - intros cfg' needed H. injection H as <- _. exists (w_state 1). exact w_manager_ok.
  - exact w_ready.
  - exists w', c. split; [exact H1|]. split; [exact H2|]. rewrite H4, H3; [reflexivity|].
    intros [H|[]]. discriminate H.
Qed.

Print Assumptions C89_settable.
Print Assumptions C89_configured.
Print Assumptions C89_constructs.
