(** Lemmas about the global configuration. *)
From Verif Require Import Base BaseFacts ModelShare ModelConfig ModelComponent SpecComponent SpecConfig
  ProofComponent ProofWorkflow ProofSim.
Local Open Scope string_scope.

(* ------------------------------------------------------------------ *)
(** * value equality is transitive *)

Lemma value_eqb_trans a b c : value_eqb a b = true -> value_eqb b c = true -> value_eqb a c = true.
Proof.
  revert b c. induction a as [ |x|x|x|l IH|d IH] using value_ind'; intros b c Hab Hbc.
  - destruct b; try discriminate. exact Hbc.
  - destruct b as [ |y|y|y|?|?]; try discriminate; destruct c as [ |z|z|z|?|?]; try discriminate;
      cbn in *; try (apply Z.eqb_eq in Hab); try (apply Z.eqb_eq in Hbc);
      try (apply Z.eqb_eq); destruct x; try destruct y; try destruct z; cbn in *; congruence || lia || auto.
  - destruct b as [ |y|y|y|?|?]; try discriminate; destruct c as [ |z|z|z|?|?]; try discriminate;
      cbn in *; try (apply Z.eqb_eq in Hab); try (apply Z.eqb_eq in Hbc);
      try (apply Z.eqb_eq); try destruct y; try destruct z; cbn in *; congruence || lia || auto.
  - destruct b as [ |y|y|y|?|?]; try discriminate; destruct c as [ |z|z|z|?|?]; try discriminate.
    cbn in *. apply String.eqb_eq in Hab, Hbc. subst. apply String.eqb_refl.
  - destruct b as [ |?|?|?|l2|?]; try discriminate; destruct c as [ |?|?|?|l3|?]; try discriminate.
    cbn in *. revert l2 l3 Hab Hbc. induction l as [|x l IHl]; intros [|y l2] [|z l3] Hab Hbc;
      try discriminate; [reflexivity|].
    apply andb_true_iff in Hab, Hbc. destruct Hab as [H1 H2], Hbc as [H3 H4].
    rewrite (IH x (or_introl eq_refl) y z H1 H3). simpl.
    apply (IHl (fun v Hv => IH v (or_intror Hv)) l2 l3 H2 H4).
  - destruct b as [ |?|?|?|?|d2]; try discriminate; destruct c as [ |?|?|?|?|d3]; try discriminate.
    cbn in *. revert d2 d3 Hab Hbc.
    induction d as [|[k x] d IHd]; intros [|[k2 y] d2] [|[k3 z] d3] Hab Hbc;
      try discriminate; [reflexivity|].
    apply andb_true_iff in Hab, Hbc. destruct Hab as [H1 H2], Hbc as [H3 H4].
    apply andb_true_iff in H1, H3. destruct H1 as [Hk1 H1], H3 as [Hk3 H3].
    apply String.eqb_eq in Hk1, Hk3. subst.
    rewrite String.eqb_refl, (IH k3 x (or_introl eq_refl) y z H1 H3). simpl.
    apply (IHd (fun k0 v Hv => IH k0 v (or_intror Hv)) d2 d3 H2 H4).
Qed.

(* ------------------------------------------------------------------ *)
(** * What building leaves alone *)

Definition grows (c c' : dict value) : Prop :=
  forall n v, get n c = Some v -> exists v', get n c' = Some v' /\ ext v v'.

Lemma ext_refl v : ext v v.
Proof.
  destruct v; simpl; auto. eexists. split; [reflexivity|]. intros l x H. exists x.
  split; [exact H|apply value_eqb_refl].
Qed.

Lemma ext_trans a b c : ext a b -> ext b c -> ext a c.
Proof.
  destruct a; simpl; intros Hab Hbc; try (subst b; exact Hbc).
  destruct Hab as (d' & -> & H1). simpl in Hbc. destruct Hbc as (d'' & -> & H2).
  exists d''. split; [reflexivity|]. intros l x Hx. destruct (H1 l x Hx) as (y & Hy & Hxy).
  destruct (H2 l y Hy) as (z & Hz & Hyz). exists z. split; [exact Hz|].
  eapply value_eqb_trans; eauto.
Qed.

Lemma grows_refl c : grows c c.
Proof. intros n v H. exists v. split; [exact H|apply ext_refl]. Qed.

Lemma grows_trans a b c : grows a b -> grows b c -> grows a c.
Proof.
  intros H1 H2 n v H. destruct (H1 n v H) as (v1 & Hv1 & E1).
  destruct (H2 n v1 Hv1) as (v2 & Hv2 & E2). exists v2. split; [exact Hv2|].
  eapply ext_trans; eauto.
Qed.

Lemma grows_set_new n v c : get n c = None -> grows c (set n v c).
Proof.
  intros Hn m x Hx. exists x. split; [|apply ext_refl].
  rewrite get_set_neq; [exact Hx|]. intros ->. congruence.
Qed.

Lemma get_file_path_contents f s c : contents (fst (get_file_path f s c)) = contents c.
Proof.
  unfold get_file_path. destruct (isfile f s); [reflexivity|].
  destruct (rd_in "url_base" c); [|reflexivity].
  unfold rd_getitem. destruct (get "url_base" (contents c)) as [[ |b|z|s0|l|d]|]; try reflexivity.
  destruct (starts_with_slash s0); [|reflexivity].
  destruct (path_exists f (path_join s0 s)); reflexivity.
Qed.

Lemma transform_contents f tr v c : contents (fst (transform_value f tr v c)) = contents c.
Proof.
  unfold transform_value. destruct tr; [|reflexivity].
  destruct v; try reflexivity. pose proof (get_file_path_contents f s c) as H.
  destruct (get_file_path f s c) as [c1 r]. exact H.
Qed.

Lemma resolve_contents f tr cf llh c :
  contents (fst (resolve_cached_config f tr cf llh c)) = contents c \/
  (get (c_name cf) (contents c) = None /\
   exists v, contents (fst (resolve_cached_config f tr cf llh c)) = set (c_name cf) v (contents c)).
Proof.
  unfold resolve_cached_config, rd_in, has.
  destruct (get (c_name cf) (contents c)) as [v|] eqn:Hg.
  - left. unfold rd_getitem. rewrite Hg. destruct v; reflexivity.
  - unfold get_default. destruct (c_default cf) as [v|]; [|left; reflexivity].
    pose proof (transform_contents f tr v c) as Ht.
    destruct (transform_value f tr v c) as [c1 r]. simpl in Ht. destruct r as [v'|e].
    + right. split; [reflexivity|]. exists v'. destruct v'; simpl; rewrite Ht; reflexivity.
    + left. exact Ht.
Qed.

Lemma resolve_grows f tr cf llh c :
  grows (contents c) (contents (fst (resolve_cached_config f tr cf llh c))).
Proof.
  destruct (resolve_contents f tr cf llh c) as [->|(Hn & v & ->)];
    [apply grows_refl|apply grows_set_new, Hn].
Qed.

Lemma get_configs_contents cf llh c :
  contents (fst (get_configs cf llh c)) = contents c \/
  (get (c_name cf) (contents c) = None /\
   exists v, c_default cf = Some v /\
     contents (fst (get_configs cf llh c)) = set (c_name cf) v (contents c)).
Proof.
  unfold get_configs, rd_in, has.
  destruct (get (c_name cf) (contents c)) as [v|] eqn:Hg.
  - left. unfold rd_getitem. rewrite Hg. destruct v; reflexivity.
  - unfold get_default. destruct (c_default cf) as [v|]; [|left; reflexivity].
    right. split; [reflexivity|]. exists v. split; [reflexivity|]. destruct v; reflexivity.
Qed.

Lemma get_configs_grows cf llh c :
  grows (contents c) (contents (fst (get_configs cf llh c))).
Proof.
  destruct (get_configs_contents cf llh c) as [->|(Hn & v & _ & ->)];
    [apply grows_refl|apply grows_set_new, Hn].
Qed.

Lemma required_grows cf llh c :
  grows (contents c) (contents (fst (required_parameter cf llh c))).
Proof.
  unfold required_parameter. destruct (c_kind cf); try apply grows_refl.
  pose proof (get_configs_grows cf llh c) as H. destruct (get_configs cf llh c) as [c1 r]. exact H.
Qed.

Lemma update_sigma_grows l n v c :
  grows (contents c) (contents (fst (update_sigma_cache l n v c))).
Proof.
  unfold update_sigma_cache.
  set (c0 := if rd_in n c then c else rd_setitem n (VDict []) c).
  assert (H0 : grows (contents c) (contents c0)).
  { unfold c0, rd_in. destruct (has n (contents c)) eqn:Hh; [apply grows_refl|].
    apply grows_set_new. apply has_false, Hh. }
  eapply grows_trans; [exact H0|].
  unfold rd_getitem. destruct (get n (contents c0)) as [[ |b|z|s|l0|d]|] eqn:Hg;
    try apply grows_refl.
  destruct (value_eqb (match get l d with Some x => x | None => v end) v) eqn:He;
    [|apply grows_refl].
  simpl. intros m x Hx. destruct (string_dec m n) as [->|Hne].
  - rewrite Hg in Hx. injection Hx as <-. exists (VDict (set l v d)).
    split; [apply get_set_eq|]. simpl. eexists. split; [reflexivity|].
    intros l' y Hy. destruct (string_dec l' l) as [->|Hl].
    + rewrite Hy in He. exists v. split; [apply get_set_eq|exact He].
    + exists y. split; [rewrite get_set_neq by exact Hl; exact Hy|apply value_eqb_refl].
  - exists x. split; [rewrite get_set_neq by exact Hne; exact Hx|apply ext_refl].
Qed.

Lemma sigma_loop_grows llh name cfgs dflt sigmas : forall i c,
  grows (contents c) (contents (fst (sigma_loop llh name cfgs dflt i sigmas c))).
Proof.
  induction sigmas as [|sg rest IH]; cbn [sigma_loop]; intros i c; [apply grows_refl|].
  destruct (resolve_sigma_value dflt i) as [d|e]; [|apply grows_refl].
  destruct (config_init KMap (name ++ "_" ++ sg) (Some d)) as [m|e]; [|apply grows_refl].
  destruct llh as [l|].
  - destruct (resolve_sigma_value cfgs i) as [v|e]; [|apply grows_refl].
    pose proof (update_sigma_grows l (c_name m) v c) as Hu.
    destruct (update_sigma_cache l (c_name m) v c) as [c1 r1]. simpl in Hu.
    destruct r1 as [u|e]; [|exact Hu].
    specialize (IH (S i) c1). destruct (sigma_loop (Some l) name cfgs dflt (S i) rest c1) as [c2 r2].
    simpl in IH |- *. eapply grows_trans; eauto.
  - specialize (IH (S i) c). destruct (sigma_loop None name cfgs dflt (S i) rest c) as [c2 r2].
    exact IH.
Qed.

Lemma map_build_contents f m llh c :
  contents (fst (map_build f m llh c)) = contents (fst (resolve_cached_config f true m llh c)).
Proof.
  unfold map_build. destruct (resolve_cached_config f true m llh c) as [c1 [v|e]]; [|reflexivity].
  pose proof (transform_contents f true v c1) as H.
  destruct (transform_value f true v c1) as [c2 r2]. exact H.
Qed.

Lemma resolve_maps_grows f ms llh : forall c,
  grows (contents c) (contents (fst (resolve_maps f ms llh c))).
Proof.
  induction ms as [|m ms IH]; cbn [resolve_maps]; intros c; [apply grows_refl|].
  pose proof (resolve_grows f true m llh c) as Hr. rewrite <- map_build_contents in Hr.
  destruct (map_build f m llh c) as [c1 [v|e]]; [|exact Hr].
  specialize (IH c1). destruct (resolve_maps f ms llh c1) as [c2 r2]. simpl in *.
  eapply grows_trans; eauto.
Qed.

Lemma sigma_build_grows f cf llh c :
  grows (contents c) (contents (fst (sigma_build f cf llh c))).
Proof.
  unfold sigma_build. set (cf' := mk_config (c_kind cf) (c_name cf) (c_default cf) llh).
  pose proof (get_configs_grows cf' None c) as H1.
  destruct (get_configs cf' None c) as [c1 [cfgs|e]]; [|exact H1]. simpl in H1.
  destruct (get_default cf') as [dflt|e]; [|exact H1].
  destruct (too_long cfgs || too_long dflt)%bool; [exact H1|].
  pose proof (sigma_loop_grows llh (c_name cf) cfgs dflt sigma_names 0 c1) as H2.
  destruct (sigma_loop llh (c_name cf) cfgs dflt 0 sigma_names c1) as [c2 [ms|e]];
    simpl in H2; [|simpl; eapply grows_trans; eauto].
  pose proof (resolve_maps_grows f ms llh c2) as H3.
  destruct (resolve_maps f ms llh c2) as [c3 r3]. simpl in *.
  eapply grows_trans; [exact H1|]. eapply grows_trans; eauto.
Qed.

Lemma build_grows f cf llh c :
  grows (contents c) (contents (fst (config_build f cf llh c))).
Proof.
  unfold config_build. destruct (c_kind cf).
  - pose proof (resolve_grows f false cf llh c) as H.
    destruct (resolve_cached_config f false cf llh c) as [c1 r]. exact H.
  - pose proof (resolve_grows f true cf llh c) as H. rewrite <- map_build_contents in H.
    destruct (map_build f cf llh c) as [c1 r]. exact H.
  - pose proof (sigma_build_grows f cf llh c) as H.
    destruct (sigma_build f cf llh c) as [c1 [[cf' vs]|e]]; exact H.
  - pose proof (resolve_grows f false cf llh c) as H.
    destruct (resolve_cached_config f false cf llh c) as [c1 r]. exact H.
Qed.

Lemma resolve_entries_contents f d : forall out c,
  contents (fst (resolve_entries f d out c)) = contents c.
Proof.
  induction d as [|[kk vv] d IH]; simpl; intros out c; [reflexivity|].
  destruct (is_plain vv); [apply IH|].
  destruct vv; try apply IH.
  pose proof (get_file_path_contents f s c) as H. destruct (get_file_path f s c) as [c1 [p|e]];
    simpl in H; [rewrite IH; exact H|exact H].
Qed.

Lemma set1_other f k v c n : n <> k ->
  get n (contents (fst (set_global_config1 f k v c))) = get n (contents c).
Proof.
  intros Hn. unfold set_global_config1. destruct (is_plain v).
  { simpl. apply get_set_neq, Hn. }
  destruct v; try reflexivity.
  - pose proof (get_file_path_contents f s c) as H. destruct (get_file_path f s c) as [c1 [p|e]];
      simpl in *; rewrite <- H; [apply get_set_neq, Hn|reflexivity].
  - pose proof (resolve_entries_contents f d [] c) as H.
    destruct (resolve_entries f d [] c) as [c1 [p|e]];
      simpl in *; rewrite <- H; [apply get_set_neq, Hn|reflexivity].
Qed.

Lemma set_global_other f configs n : forall c, ~ In n (keys configs) ->
  get n (contents (fst (set_global_config f configs c))) = get n (contents c).
Proof.
  induction configs as [|[k v] rest IH]; simpl; intros c Hn; [reflexivity|].
  pose proof (set1_other f k v c n (fun H => Hn (or_introl (eq_sym H)))) as H1.
  destruct (set_global_config1 f k v c) as [c1 [u|e]]; simpl in H1; [|exact H1].
  rewrite IH; [exact H1|tauto].
Qed.

Lemma cstep_keeps n v o c :
  leaves n o -> get n (contents c) = Some v ->
  exists v', get n (contents (cstep o c)) = Some v' /\ ext v v'.
Proof.
  intros Hl Hg. destruct o as [f cf llh|cf llh|f configs|]; simpl in *.
  - exact (build_grows f cf llh c n v Hg).
  - exact (required_grows cf llh c n v Hg).
  - rewrite set_global_other by exact Hl. exists v. split; [exact Hg|apply ext_refl].
  - destruct Hl.
Qed.

Lemma crun_keeps n os : forall c v,
  (forall o, In o os -> leaves n o) -> get n (contents c) = Some v ->
  exists v', get n (contents (crun os c)) = Some v' /\ ext v v'.
Proof.
  unfold crun. induction os as [|o os IH]; simpl; intros c v Hl Hg.
  { exists v. split; [exact Hg|apply ext_refl]. }
  destruct (cstep_keeps n v o c (Hl o (or_introl eq_refl)) Hg) as (v1 & Hv1 & E1).
  destruct (IH _ v1 (fun o' Ho => Hl o' (or_intror Ho)) Hv1) as (v2 & Hv2 & E2).
  exists v2. split; [exact Hv2|]. eapply ext_trans; eauto.
Qed.

Lemma ext_not_dict v v' : not_dict v -> ext v v' -> v' = v.
Proof. intros Hn. destruct v; simpl; auto. destruct (Hn d eq_refl). Qed.

(* ------------------------------------------------------------------ *)
(** * Resolution *)

Lemma build_explicit f cf llh c v :
  plain_kind (c_kind cf) -> get (c_name cf) (contents c) = Some v -> not_dict v ->
  snd (config_build f cf llh c) = Ok (mk_built cf [v]) /\
  contents (fst (config_build f cf llh c)) = contents c.
Proof.
  intros Hk Hg Hn. unfold config_build, resolve_cached_config, rd_in, has, rd_getitem.
  destruct Hk as [-> | ->]; rewrite Hg; destruct v; try (split; reflexivity);
    destruct (Hn d eq_refl).
Qed.

Lemma build_default f cf llh c v :
  plain_kind (c_kind cf) -> get (c_name cf) (contents c) = None -> c_default cf = Some v ->
  not_dict v ->
  snd (config_build f cf llh c) = Ok (mk_built cf [v]) /\
  contents (fst (config_build f cf llh c)) = set (c_name cf) v (contents c).
Proof.
  intros Hk Hg Hd Hn. unfold config_build, resolve_cached_config, rd_in, has, get_default.
  destruct Hk as [-> | ->]; rewrite Hg, Hd; simpl; destruct v; try (split; reflexivity);
    destruct (Hn d eq_refl).
Qed.

Lemma build_missing f cf llh c :
  get (c_name cf) (contents c) = None -> c_default cf = None ->
  config_build f cf llh c = (c, Err ValueError).
Proof.
  intros Hg Hd. unfold config_build.
  assert (Hr : forall tr, resolve_cached_config f tr cf llh c = (c, Err ValueError)).
  { intros tr. unfold resolve_cached_config, rd_in, has, get_default. rewrite Hg, Hd. reflexivity. }
  destruct (c_kind cf); try (rewrite Hr; reflexivity).
  - unfold map_build. rewrite Hr. reflexivity.
  - unfold sigma_build, get_configs, rd_in, has, get_default. simpl. rewrite Hg, Hd. reflexivity.
Qed.

Lemma map_explicit f cf llh c v :
  c_kind cf = KMap -> get (c_name cf) (contents c) = Some v -> not_dict v ->
  (forall b, snd (config_build f cf llh c) = Ok b -> b_values b = [v]) /\
  contents (fst (config_build f cf llh c)) = contents c.
Proof.
  intros Hk Hg Hn. unfold config_build. rewrite Hk.
  assert (Hr : resolve_cached_config f true cf llh c
               = (mk_rdict (contents c) (add1 (c_name cf) (accessed c)), Ok v)).
  { unfold resolve_cached_config, rd_in, has, rd_getitem. rewrite Hg. destruct v; try reflexivity.
    destruct (Hn d eq_refl). }
  unfold map_build. rewrite Hr.
  pose proof (transform_contents f true v (mk_rdict (contents c) (add1 (c_name cf) (accessed c)))) as Ht.
  destruct (transform_value f true v _) as [c2 [v2|e]]; simpl in *.
  - split; [|exact Ht]. intros b Hb. injection Hb as <-. reflexivity.
  - split; [|exact Ht]. intros b Hb. discriminate.
Qed.

Lemma sticky_default f cf llh c v os f2 cf2 llh2 :
  plain_kind (c_kind cf) -> get (c_name cf) (contents c) = None -> c_default cf = Some v ->
  not_dict v ->
  (forall o, In o os -> leaves (c_name cf) o) ->
  plain_kind (c_kind cf2) -> c_name cf2 = c_name cf ->
  snd (config_build f2 cf2 llh2 (crun (CBuild f cf llh :: os) c)) = Ok (mk_built cf2 [v]).
Proof.
  intros Hk Hg Hd Hn Hl Hk2 Hnm. unfold crun. simpl.
  destruct (build_default f cf llh c v Hk Hg Hd Hn) as [_ Hc].
  assert (Hg1 : get (c_name cf) (contents (fst (config_build f cf llh c))) = Some v).
  { rewrite Hc. apply get_set_eq. }
  destruct (crun_keeps (c_name cf) os _ v Hl Hg1) as (v' & Hv' & E).
  apply (ext_not_dict v v' Hn) in E. subst v'.
  apply build_explicit; [exact Hk2| |exact Hn]. rewrite Hnm. exact Hv'.
Qed.

Lemma explicit_until_changed f cf llh c v os :
  plain_kind (c_kind cf) -> get (c_name cf) (contents c) = Some v -> not_dict v ->
  (forall o, In o os -> leaves (c_name cf) o) ->
  snd (config_build f cf llh (crun os c)) = Ok (mk_built cf [v]).
Proof.
  intros Hk Hg Hn Hl. destruct (crun_keeps (c_name cf) os _ v Hl Hg) as (v' & Hv' & E).
  apply (ext_not_dict v v' Hn) in E. subst v'.
  apply build_explicit; assumption.
Qed.

(* ------------------------------------------------------------------ *)
(** * Per-likelihood isolation *)

Lemma same_for_opt_refl L a : same_for_opt L a a.
Proof. destruct a as [[]|]; simpl; reflexivity. Qed.

Lemma same_for_set L n v v' c c' a a' :
  a = a' -> (forall m, same_for_opt L (get m c) (get m c')) ->
  same_for_opt L (Some v) (Some v') ->
  same_for L (mk_rdict (set n v c) a) (mk_rdict (set n v' c') a').
Proof.
  intros Ha Hc Hv. split; [exact Ha|]. intros m. simpl. rewrite !get_set.
  destruct (String.eqb m n); [exact Hv|apply Hc].
Qed.

Lemma same_for_has L n c c' : same_for L c c' -> rd_in n c = rd_in n c'.
Proof.
  intros [_ H]. unfold rd_in, has. specialize (H n). unfold same_for_opt in H.
  destruct (get n (contents c)) as [[]|], (get n (contents c')) as [[]|];
    congruence || reflexivity.
Qed.

Lemma same_file_path L f s c c' :
  same_for L c c' ->
  same_for L (fst (get_file_path f s c)) (fst (get_file_path f s c')) /\
  snd (get_file_path f s c) = snd (get_file_path f s c').
Proof.
  intros Hs. pose proof Hs as [Ha Hc]. unfold get_file_path.
  destruct (isfile f s); [auto|]. rewrite <- (same_for_has L _ _ _ Hs).
  destruct (rd_in "url_base" c); [|auto].
  unfold rd_getitem. pose proof (Hc "url_base") as Hu. unfold same_for_opt in Hu.
  assert (Hacc : same_for L (mk_rdict (contents c) (add1 "url_base" (accessed c)))
                            (mk_rdict (contents c') (add1 "url_base" (accessed c')))).
  { split; [simpl; rewrite Ha; reflexivity|exact Hc]. }
  destruct (get "url_base" (contents c)) as [[ |b|z|s0|l|d]|],
    (get "url_base" (contents c')) as [[ |b'|z'|s0'|l'|d']|]; try discriminate;
    try (injection Hu as <-); simpl; auto.
  destruct (starts_with_slash s0); [|auto].
  destruct (path_exists f (path_join s0 s)); auto.
Qed.

Lemma same_transform L f tr v c c' :
  same_for L c c' ->
  same_for L (fst (transform_value f tr v c)) (fst (transform_value f tr v c')) /\
  snd (transform_value f tr v c) = snd (transform_value f tr v c').
Proof.
  intros Hs. unfold transform_value. destruct tr; [|auto]. destruct v; auto.
  destruct (same_file_path L f s c c' Hs) as [H1 H2].
  destruct (get_file_path f s c) as [c1 r], (get_file_path f s c') as [c1' r']. simpl in *.
  subst r'. split; [exact H1|reflexivity].
Qed.

Lemma same_resolve L f tr cf c c' :
  same_for L c c' ->
  same_for L (fst (resolve_cached_config f tr cf (Some L) c))
             (fst (resolve_cached_config f tr cf (Some L) c')) /\
  snd (resolve_cached_config f tr cf (Some L) c) = snd (resolve_cached_config f tr cf (Some L) c').
Proof.
  intros Hs. pose proof Hs as [Ha Hc]. unfold resolve_cached_config.
  rewrite <- (same_for_has L _ _ _ Hs). destruct (rd_in (c_name cf) c) eqn:Hin.
  - unfold rd_getitem. pose proof (Hc (c_name cf)) as Hu. unfold same_for_opt in Hu.
    assert (Hacc : same_for L (mk_rdict (contents c) (add1 (c_name cf) (accessed c)))
                              (mk_rdict (contents c') (add1 (c_name cf) (accessed c')))).
    { split; [simpl; rewrite Ha; reflexivity|exact Hc]. }
    destruct (get (c_name cf) (contents c)) as [[ |b|z|s0|l|d]|],
      (get (c_name cf) (contents c')) as [[ |b'|z'|s0'|l'|d']|]; try discriminate;
      try (injection Hu as <-); simpl; auto.
    rewrite Hu. auto.
  - destruct (get_default cf) as [v|e]; [|simpl; auto].
    destruct (same_transform L f tr v c c' Hs) as [H1 H2].
    destruct (transform_value f tr v c) as [c1 r], (transform_value f tr v c') as [c1' r'].
    simpl in H1, H2. subst r'. destruct r as [v'|e]; [|auto].
    assert (Hset : same_for L (rd_setitem (c_name cf) v' c1) (rd_setitem (c_name cf) v' c1')).
    { destruct H1 as [H1a H1c]. apply same_for_set;
        [rewrite H1a; reflexivity|exact H1c|apply same_for_opt_refl]. }
    destruct v'; simpl; auto.
Qed.

Lemma same_map_build L f m c c' :
  same_for L c c' ->
  same_for L (fst (map_build f m (Some L) c)) (fst (map_build f m (Some L) c')) /\
  snd (map_build f m (Some L) c) = snd (map_build f m (Some L) c').
Proof.
  intros Hs. unfold map_build. destruct (same_resolve L f true m c c' Hs) as [H1 H2].
  destruct (resolve_cached_config f true m (Some L) c) as [c1 r],
    (resolve_cached_config f true m (Some L) c') as [c1' r']. simpl in H1, H2. subst r'.
  destruct r as [v|e]; [|auto].
  destruct (same_transform L f true v c1 c1' H1) as [H3 H4].
  destruct (transform_value f true v c1) as [c2 r2], (transform_value f true v c1') as [c2' r2'].
  simpl in *. subst r2'. auto.
Qed.

Lemma same_get_configs L cf llh c c' :
  (llh = Some L \/ (llh = None /\ c_llh cf = Some L)) -> same_for L c c' ->
  same_for L (fst (get_configs cf llh c)) (fst (get_configs cf llh c')) /\
  snd (get_configs cf llh c) = snd (get_configs cf llh c').
Proof.
  intros Hl Hs. pose proof Hs as [Ha Hc]. unfold get_configs.
  assert (Hll : match llh with Some l => Some l | None => c_llh cf end = Some L).
  { destruct Hl as [->|[-> ->]]; reflexivity. }
  rewrite Hll. rewrite <- (same_for_has L _ _ _ Hs). destruct (rd_in (c_name cf) c) eqn:Hin.
  - unfold rd_getitem. pose proof (Hc (c_name cf)) as Hu. unfold same_for_opt in Hu.
    assert (Hacc : same_for L (mk_rdict (contents c) (add1 (c_name cf) (accessed c)))
                              (mk_rdict (contents c') (add1 (c_name cf) (accessed c')))).
    { split; [simpl; rewrite Ha; reflexivity|exact Hc]. }
    destruct (get (c_name cf) (contents c)) as [[ |b|z|s0|l|d]|],
      (get (c_name cf) (contents c')) as [[ |b'|z'|s0'|l'|d']|]; try discriminate;
      try (injection Hu as <-); simpl; auto.
    rewrite Hu. auto.
  - destruct (get_default cf) as [v|e]; [|simpl; auto].
    assert (Hset : same_for L (rd_setitem (c_name cf) v c) (rd_setitem (c_name cf) v c')).
    { apply same_for_set; [rewrite Ha; reflexivity|exact Hc|apply same_for_opt_refl]. }
    destruct v; simpl; auto.
Qed.

Lemma same_update_sigma L n v c c' :
  same_for L c c' ->
  same_for L (fst (update_sigma_cache L n v c)) (fst (update_sigma_cache L n v c')) /\
  snd (update_sigma_cache L n v c) = snd (update_sigma_cache L n v c').
Proof.
  intros Hs. unfold update_sigma_cache. rewrite <- (same_for_has L _ _ _ Hs).
  set (c0 := if rd_in n c then c else rd_setitem n (VDict []) c).
  set (c0' := if rd_in n c then c' else rd_setitem n (VDict []) c').
  assert (H0 : same_for L c0 c0').
  { unfold c0, c0'. destruct (rd_in n c); [exact Hs|]. destruct Hs as [Ha Hc].
    apply same_for_set; [rewrite Ha; reflexivity|exact Hc|reflexivity]. }
  pose proof H0 as [Ha Hc]. unfold rd_getitem. pose proof (Hc n) as Hu. unfold same_for_opt in Hu.
  assert (Hacc : same_for L (mk_rdict (contents c0) (add1 n (accessed c0)))
                            (mk_rdict (contents c0') (add1 n (accessed c0')))).
  { split; [simpl; rewrite Ha; reflexivity|exact Hc]. }
  destruct (get n (contents c0)) as [[ |b|z|s0|l|d]|],
    (get n (contents c0')) as [[ |b'|z'|s0'|l'|d']|]; try discriminate;
    try (injection Hu as <-); simpl; auto.
  rewrite <- Hu. destruct (value_eqb _ v); simpl; [|auto].
  split; [|reflexivity]. apply same_for_set; [rewrite Ha; reflexivity|exact Hc|].
  simpl. rewrite !get_set_eq. reflexivity.
Qed.

Lemma same_sigma_loop L name cfgs dflt sigmas : forall i c c',
  same_for L c c' ->
  same_for L (fst (sigma_loop (Some L) name cfgs dflt i sigmas c))
             (fst (sigma_loop (Some L) name cfgs dflt i sigmas c')) /\
  snd (sigma_loop (Some L) name cfgs dflt i sigmas c)
    = snd (sigma_loop (Some L) name cfgs dflt i sigmas c').
Proof.
  induction sigmas as [|sg rest IH]; cbn [sigma_loop]; intros i c c' Hs; [auto|].
  destruct (resolve_sigma_value dflt i) as [d|e]; [|auto].
  destruct (config_init KMap (name ++ "_" ++ sg) (Some d)) as [m|e]; [|auto].
  destruct (resolve_sigma_value cfgs i) as [v|e]; [|auto].
  destruct (same_update_sigma L (c_name m) v c c' Hs) as [H1 H2].
  destruct (update_sigma_cache L (c_name m) v c) as [c1 r1],
    (update_sigma_cache L (c_name m) v c') as [c1' r1']. simpl in H1, H2. subst r1'.
  destruct r1 as [u|e]; [|auto].
  destruct (IH (S i) c1 c1' H1) as [H3 H4].
  destruct (sigma_loop (Some L) name cfgs dflt (S i) rest c1) as [c2 r2],
    (sigma_loop (Some L) name cfgs dflt (S i) rest c1') as [c2' r2']. simpl in *. subst r2'. auto.
Qed.

Lemma same_resolve_maps L f ms : forall c c',
  same_for L c c' ->
  same_for L (fst (resolve_maps f ms (Some L) c)) (fst (resolve_maps f ms (Some L) c')) /\
  snd (resolve_maps f ms (Some L) c) = snd (resolve_maps f ms (Some L) c').
Proof.
  induction ms as [|m ms IH]; cbn [resolve_maps]; intros c c' Hs; [auto|].
  destruct (same_map_build L f m c c' Hs) as [H1 H2].
  destruct (map_build f m (Some L) c) as [c1 r1], (map_build f m (Some L) c') as [c1' r1'].
  simpl in H1, H2. subst r1'. destruct r1 as [v|e]; [|auto].
  destruct (IH c1 c1' H1) as [H3 H4].
  destruct (resolve_maps f ms (Some L) c1) as [c2 r2],
    (resolve_maps f ms (Some L) c1') as [c2' r2']. simpl in *. subst r2'. auto.
Qed.

Lemma same_build L f cf c c' :
  same_for L c c' ->
  same_for L (fst (config_build f cf (Some L) c)) (fst (config_build f cf (Some L) c')) /\
  snd (config_build f cf (Some L) c) = snd (config_build f cf (Some L) c').
Proof.
  intros Hs. unfold config_build. destruct (c_kind cf).
  - destruct (same_resolve L f false cf c c' Hs) as [H1 H2].
    destruct (resolve_cached_config f false cf (Some L) c) as [c1 r],
      (resolve_cached_config f false cf (Some L) c') as [c1' r']. simpl in *. subst r'. auto.
  - destruct (same_map_build L f cf c c' Hs) as [H1 H2].
    destruct (map_build f cf (Some L) c) as [c1 r],
      (map_build f cf (Some L) c') as [c1' r']. simpl in *. subst r'. auto.
  - unfold sigma_build. set (cf' := mk_config KSigmaMap (c_name cf) (c_default cf) (Some L)).
    destruct (same_get_configs L (mk_config (c_kind cf) (c_name cf) (c_default cf) (Some L)) None c c'
                (or_intror (conj eq_refl eq_refl)) Hs) as [H1 H2].
    destruct (get_configs _ None c) as [c1 r1], (get_configs _ None c') as [c1' r1'].
    simpl in H1, H2. subst r1'. destruct r1 as [cfgs|e]; [|auto].
    destruct (get_default _) as [dflt|e]; [|auto].
    destruct (too_long cfgs || too_long dflt)%bool; [auto|].
    destruct (same_sigma_loop L (c_name cf) cfgs dflt sigma_names 0 c1 c1' H1) as [H3 H4].
    destruct (sigma_loop (Some L) (c_name cf) cfgs dflt 0 sigma_names c1) as [c2 r2],
      (sigma_loop (Some L) (c_name cf) cfgs dflt 0 sigma_names c1') as [c2' r2'].
    simpl in H3, H4. subst r2'. destruct r2 as [ms|e]; [|auto].
    destruct (same_resolve_maps L f ms c2 c2' H3) as [H5 H6].
    destruct (resolve_maps f ms (Some L) c2) as [c3 r3],
      (resolve_maps f ms (Some L) c2') as [c3' r3']. simpl in *. subst r3'.
    destruct r3; auto.
  - destruct (same_resolve L f false cf c c' Hs) as [H1 H2].
    destruct (resolve_cached_config f false cf (Some L) c) as [c1 r],
      (resolve_cached_config f false cf (Some L) c') as [c1' r']. simpl in *. subst r'. auto.
Qed.

Lemma same_build_results L f cfs : forall c c',
  same_for L c c' -> build_results f L cfs c = build_results f L cfs c'.
Proof.
  induction cfs as [|cf cfs IH]; simpl; intros c c' Hs; [reflexivity|].
  destruct (same_build L f cf c c' Hs) as [H1 H2]. rewrite H2, (IH _ _ H1). reflexivity.
Qed.

Lemma build_table f cf L c d :
  plain_kind (c_kind cf) -> get (c_name cf) (contents c) = Some (VDict d) ->
  snd (config_build f cf (Some L) c) =
    match get L d with Some v => Ok (mk_built cf [v]) | None => Err ValueError end /\
  contents (fst (config_build f cf (Some L) c)) = contents c.
Proof.
  intros Hk Hg. unfold config_build, resolve_cached_config, rd_in, has, rd_getitem.
  destruct Hk as [-> | ->]; rewrite Hg; simpl; destruct (get L d); auto.
Qed.

Lemma build_table_missing f cf L c d :
  get (c_name cf) (contents c) = Some (VDict d) -> get L d = None ->
  snd (config_build f cf (Some L) c) = Err ValueError.
Proof.
  intros Hg Hm. unfold config_build.
  assert (Hr : forall tr, snd (resolve_cached_config f tr cf (Some L) c) = Err ValueError).
  { intros tr. unfold resolve_cached_config, rd_in, has, rd_getitem. rewrite Hg. simpl.
    rewrite Hm. reflexivity. }
  destruct (c_kind cf).
  - specialize (Hr false). destruct (resolve_cached_config f false cf (Some L) c) as [c1 r].
    simpl in *. subst r. reflexivity.
  - specialize (Hr true). unfold map_build.
    destruct (resolve_cached_config f true cf (Some L) c) as [c1 r].
    simpl in *. subst r. reflexivity.
  - unfold sigma_build, get_configs, rd_in, has, rd_getitem. simpl. rewrite Hg. simpl.
    rewrite Hm. reflexivity.
  - specialize (Hr false). destruct (resolve_cached_config f false cf (Some L) c) as [c1 r].
    simpl in *. subst r. reflexivity.
Qed.
