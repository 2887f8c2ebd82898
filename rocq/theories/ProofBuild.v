(** Lemmas: a component whose configs are usable can be built. *)
From Verif Require Import Base BaseFacts ModelShare ModelConfig ModelComponent ModelCompile
  SpecComponent SpecConfig SpecSigma SpecCompile SpecBuild ProofSim ProofConfig ProofSigma
  ProofComponent ProofComponentTop ProofWorkflow ProofHistory ProofCompile.
Local Open Scope string_scope.

Lemma gfp_ext f s c c' :
  get "url_base" (contents c) = get "url_base" (contents c') ->
  snd (get_file_path f s c) = snd (get_file_path f s c').
Proof.
  intros H. unfold get_file_path, rd_in, has, rd_getitem. rewrite <- H.
  destruct (isfile f s); [reflexivity|].
  destruct (get "url_base" (contents c)) as [[]|]; try reflexivity.
  destruct (starts_with_slash s0); [|reflexivity]. destruct (path_exists f _); reflexivity.
Qed.

Lemma path_ext f d d' s p : get "url_base" d = get "url_base" d' -> path_of f d s p -> path_of f d' s p.
Proof. unfold path_of. intros H <-. apply gfp_ext. cbn. symmetry. exact H. Qed.

Lemma found_ext f d d' s : get "url_base" d = get "url_base" d' -> found f d s -> found f d' s.
Proof. intros H (p & Hp). exists p. eapply path_ext; eauto. Qed.

Lemma path_get f s p c : path_of f (contents c) s p -> exists c1, get_file_path f s c = (c1, Ok p) /\
  contents c1 = contents c.
Proof.
  unfold path_of. intros H. rewrite (gfp_ext f s _ c) in H by reflexivity.
  pose proof (get_file_path_contents f s c) as Hc. destruct (get_file_path f s c) as [c1 r].
  cbn in *. subst r. eauto.
Qed.

Lemma part_ext f d d' llh n s : get "url_base" d = get "url_base" d' -> get n d = get n d' ->
  part_free f d llh n s -> part_free f d' llh n s.
Proof.
  unfold part_free. intros H1 <-. destruct (get n d) as [[]|]; auto. apply found_ext. exact H1.
Qed.

Lemma effective_ext d d' cf llh : get (c_name cf) d = get (c_name cf) d' ->
  effective_value d' cf llh = effective_value d cf llh.
Proof. unfold effective_value. intros <-. reflexivity. Qed.

Lemma usable_ext f d d' llh cf :
  get "url_base" d = get "url_base" d' -> (forall n, In n (owned cf) -> get n d = get n d') ->
  usable f d llh cf -> usable f d' llh cf.
Proof.
  intros Hu H. assert (Hn : get (c_name cf) d = get (c_name cf) d') by (apply H; left; reflexivity).
  unfold usable, owned, sub_maps in *. rewrite (effective_ext _ _ _ _ Hn), <- Hn.
  destruct (c_kind cf); auto.
  - destruct (get (c_name cf) d).
    + intros (s & H1 & H2). eauto using found_ext.
    + intros (s & p & H1 & H2 & H3). exists s, p. eauto using found_ext, path_ext.
  - intros ((v & m & l & u & H1 & H2 & H3 & H4 & H5 & H6 & H7 & H8) & H9). split; [|exact H9].
    exists v, m, l, u. split; [exact H1|]. split; [exact H2|].
    split; [eauto using found_ext|]. split; [eauto using found_ext|]. split; [eauto using found_ext|].
    split; [|split]; (eapply part_ext; [exact Hu| |eassumption]); apply H; cbn; auto.
Qed.

(** Constants. *)
Lemma plain_builds f cf llh c v :
  effective_value (contents c) cf llh = Some v ->
  exists c', resolve_cached_config f false cf (Some llh) c = (c', Ok v) /\
    (forall n, n <> c_name cf -> get n (contents c') = get n (contents c)) /\
    (forall l, effective_value (contents c') cf l = effective_value (contents c) cf l).
Proof.
  unfold resolve_cached_config, effective_value, rd_in, has, get_default, transform_value, rd_getitem.
  intros H. destruct (get (c_name cf) (contents c)) as [y|] eqn:Hg.
  - destruct y; try (injection H as <-; eexists; split; [reflexivity|]; cbn [contents];
      split; [reflexivity|]; rewrite Hg; reflexivity).
    unfold lookup_llh. rewrite H. eexists. split; [reflexivity|]. cbn [contents].
    split; [reflexivity|]. rewrite Hg. reflexivity.
  - destruct (c_default cf) as [y|]; [|discriminate].
    destruct y; try (injection H as <-; eexists; split; [reflexivity|]; cbn [contents rd_setitem];
      split; [intros n Hn; apply get_set_neq; exact Hn|]; rewrite get_set_eq; reflexivity).
    unfold lookup_llh. rewrite H. eexists. split; [reflexivity|]. cbn [contents rd_setitem].
    split; [intros n Hn; apply get_set_neq; exact Hn|]. rewrite get_set_eq. reflexivity.
Qed.

(** Maps. *)
Lemma map_set_builds f m llh c s :
  get (c_name m) (contents c) <> None -> effective_value (contents c) m llh = Some (VStr s) ->
  found f (contents c) s ->
  exists c', map_build f m (Some llh) c = (c', Ok (VStr s)) /\ contents c' = contents c.
Proof.
  unfold effective_value, map_build, resolve_cached_config, rd_in, has, rd_getitem.
  intros Hn H (p & Hp). destruct (get (c_name m) (contents c)) as [y|] eqn:Hg; [|congruence].
  destruct (path_get f s p (mk_rdict (contents c) (add1 (c_name m) (accessed c))) Hp) as (c1 & E & Ec).
  destruct y; try discriminate.
  - injection H as ->. unfold transform_value. rewrite E. eauto.
  - unfold lookup_llh. rewrite H. unfold transform_value. rewrite E. eauto.
Qed.

Lemma map_default_builds f m llh c s p :
  c_name m <> "url_base" ->
  get (c_name m) (contents c) = None -> c_default m = Some (VStr s) -> path_of f (contents c) s p ->
  found f (contents c) p ->
  exists c', map_build f m (Some llh) c = (c', Ok (VStr p)) /\
    contents c' = set (c_name m) (VStr p) (contents c).
Proof.
  intros Hu Hg Hd Hp (q & Hq).
  unfold map_build, resolve_cached_config, rd_in, has, get_default. rewrite Hg, Hd.
  unfold transform_value. destruct (path_get f s p c Hp) as (c1 & E & Ec). rewrite E.
  set (c2 := rd_setitem (c_name m) (VStr p) c1).
  assert (H2 : contents c2 = set (c_name m) (VStr p) (contents c)) by (cbn; rewrite Ec; reflexivity).
  destruct (path_get f p q c2) as (c3 & E3 & Ec3).
  { eapply path_ext; [|exact Hq]. rewrite H2. symmetry. apply get_set_neq. congruence. }
  rewrite E3. exists c3. split; [reflexivity|congruence].
Qed.

(** Maps with uncertainty. *)
Lemma sigma_value_0 v m l u : three_files v m l u -> resolve_sigma_value v 0 = Ok (VStr m).
Proof. intros []; reflexivity. Qed.
Lemma sigma_value_1 v m l u : three_files v m l u -> resolve_sigma_value v 1 = Ok (VStr l).
Proof. intros []; reflexivity. Qed.
Lemma sigma_value_2 v m l u : three_files v m l u -> resolve_sigma_value v 2 = Ok (VStr u).
Proof. intros []; reflexivity. Qed.
Lemma three_files_short v m l u : three_files v m l u -> too_long v = false.
Proof. intros []; reflexivity. Qed.
Lemma three_files_not_dict v m l u : three_files v m l u -> forall d, v <> VDict d.
Proof. intros []; discriminate. Qed.
Lemma three_files_required v m l u n : three_files v m l u -> exists r, required_of_value n v = Ok r.
Proof. intros []; cbn; eauto. Qed.

(** After a part has been written, building its map gives a found file. *)
Definition part_set (f : fs) (d : dict value) (llh n s : string) : Prop :=
  get n d <> None /\ (exists t, found f d t /\
    (get n d = Some (VStr t) \/ exists e, get n d = Some (VDict e) /\ get llh e = Some (VStr t) /\ t = s)).

Lemma update_part f llh n s c :
  n <> "url_base" -> found f (contents c) s -> part_free f (contents c) llh n s ->
  exists c', update_sigma_cache llh n (VStr s) c = (c', Ok tt) /\
    (forall m, m <> n -> get m (contents c') = get m (contents c)) /\
    part_set f (contents c') llh n s /\
    (forall l t, part_free f (contents c) l n t -> l <> llh -> part_free f (contents c') l n t).
Proof.
  intros Hu Hf. unfold part_free, update_sigma_cache, rd_in, has. intros Hp.
  destruct (get n (contents c)) as [y|] eqn:Hg.
  - unfold rd_getitem. rewrite Hg. destruct y as [| | |t| |d]; try contradiction.
    + eexists. split; [reflexivity|]. cbn [contents]. split; [reflexivity|]. unfold part_set.
      rewrite Hg. split; [split; [discriminate|]; exists t; auto|]. auto.
    + assert (E : value_eqb (match get llh d with Some x => x | None => VStr s end) (VStr s) = true).
      { destruct Hp as [-> | ->]; apply value_eqb_refl. }
      rewrite E. eexists. split; [reflexivity|]. cbn [contents accessed]. split.
      * intros m Hm. apply get_set_neq. exact Hm.
      * rewrite get_set_eq. split; [|intros l t H Hl; rewrite get_set_neq by exact Hl; exact H].
        unfold part_set. rewrite get_set_eq. split; [discriminate|]. exists s. split.
        { eapply found_ext; [|exact Hf]. symmetry. apply get_set_neq. congruence. }
        right. eexists. split; [reflexivity|]. split; [apply get_set_eq|reflexivity].
  - unfold rd_getitem, rd_setitem. cbn [contents accessed]. rewrite get_set_eq. cbn [get].
    rewrite value_eqb_refl. eexists. split; [reflexivity|]. cbn [contents]. split.
    + intros m Hm. rewrite !get_set_neq by exact Hm. reflexivity.
    + rewrite get_set_eq.
      split; [|intros l t _ Hl; left; rewrite get_set_neq by exact Hl; reflexivity].
      unfold part_set. rewrite get_set_eq. split; [discriminate|]. exists s. split.
      { eapply found_ext; [|exact Hf]. rewrite !get_set_neq by congruence. reflexivity. }
      right. eexists. split; [reflexivity|]. split; [apply get_set_eq|reflexivity].
Qed.

Lemma part_set_ext f d d' llh n s : get "url_base" d = get "url_base" d' -> get n d = get n d' ->
  part_set f d llh n s -> part_set f d' llh n s.
Proof.
  unfold part_set. intros H1 <- (H2 & t & H3 & H4). split; [exact H2|].
  exists t. split; [eauto using found_ext|exact H4].
Qed.

Lemma part_set_free f d llh n s : part_set f d llh n s -> part_free f d llh n s.
Proof.
  unfold part_set, part_free. intros (_ & t & Hf & [-> | (e & -> & He & ->)]); auto.
Qed.

Lemma part_builds f m llh s c : part_set f (contents c) llh (c_name m) s ->
  exists c' x, map_build f m (Some llh) c = (c', Ok x) /\ contents c' = contents c.
Proof.
  intros (Hn & t & Hf & H).
  destruct (map_set_builds f m llh c t Hn) as (c' & E & Ec); eauto.
  unfold effective_value. destruct H as [-> | (e & -> & -> & ->)]; reflexivity.
Qed.

Lemma get_configs_builds cf llh c v : effective_value (contents c) cf llh = Some v ->
  exists c', get_configs cf (Some llh) c = (c', Ok v) /\
    (forall n, n <> c_name cf -> get n (contents c') = get n (contents c)) /\
    (forall l, effective_value (contents c') cf l = effective_value (contents c) cf l).
Proof.
  unfold get_configs, effective_value, rd_in, has, get_default, rd_getitem.
  intros H. destruct (get (c_name cf) (contents c)) as [y|] eqn:Hg.
  - destruct y; try (injection H as <-; eexists; split; [reflexivity|]; cbn [contents];
      split; [reflexivity|]; rewrite Hg; reflexivity).
    unfold lookup_llh. rewrite H. eexists. split; [reflexivity|]. cbn [contents].
    split; [reflexivity|]. rewrite Hg. reflexivity.
  - destruct (c_default cf) as [y|]; [|discriminate].
    destruct y; try (injection H as <-; eexists; split; [reflexivity|]; cbn [contents rd_setitem];
      split; [intros n Hn; apply get_set_neq; exact Hn|]; rewrite get_set_eq; reflexivity).
    unfold lookup_llh. rewrite H. eexists. split; [reflexivity|]. cbn [contents rd_setitem].
    split; [intros n Hn; apply get_set_neq; exact Hn|]. rewrite get_set_eq. reflexivity.
Qed.

Lemma config_init_str n s : config_init KMap n (Some (VStr s)) = Ok (mk_config KMap n (Some (VStr s)) None).
Proof. reflexivity. Qed.

Lemma sigma_builds f cf llh c :
  c_kind cf = KSigmaMap -> ~ In "url_base" (owned cf) -> usable f (contents c) llh cf ->
  exists c' b, sigma_build f cf (Some llh) c = (c', Ok b) /\
    (forall n, ~ In n (owned cf) -> get n (contents c') = get n (contents c)) /\
    (forall l, usable f (contents c) l cf ->
       usable f (contents c') l cf /\ effective_value (contents c') cf l = effective_value (contents c) cf l).
Proof.
  intros Hk Hu H0. pose proof H0 as H. unfold usable in H. rewrite Hk in H.
  destruct H as ((v & m & l & u & H1 & H2 & Hm & Hl & Huu & P1 & P2 & P3) & dv & dm & dl & du & H3 & H4).
  unfold owned, sub_maps in Hu. rewrite Hk in Hu.
  set (n1 := c_name cf ++ "_median") in *. set (n2 := c_name cf ++ "_lower") in *.
  set (n3 := c_name cf ++ "_upper") in *. cbn [In] in Hu.
  assert (N : n1 <> n2 /\ n1 <> n3 /\ n2 <> n3 /\ c_name cf <> n1 /\ c_name cf <> n2 /\ c_name cf <> n3).
  { unfold n1, n2, n3. repeat split; intros E;
      try (apply append_inj_l in E; discriminate); symmetry in E; revert E; apply append_longer; discriminate. }
  destruct N as (N12 & N13 & N23 & N01 & N02 & N03).
  assert (U0 : c_name cf <> "url_base") by tauto.
  assert (U1 : n1 <> "url_base") by tauto. assert (U2 : n2 <> "url_base") by tauto.
  assert (U3 : n3 <> "url_base") by tauto.
  destruct (get_configs_builds cf llh c v H1) as (c1 & E1 & F1 & V1).
  assert (B1 : get "url_base" (contents c) = get "url_base" (contents c1)) by (symmetry; apply F1; congruence).
  destruct (update_part f llh n1 m c1 U1) as (c2 & E2 & F2 & Q1 & O1).
  { eapply found_ext; eauto. } { eapply part_ext; eauto. symmetry. apply F1. congruence. }
  assert (B2 : get "url_base" (contents c) = get "url_base" (contents c2))
    by (rewrite F2 by congruence; exact B1).
  destruct (update_part f llh n2 l c2 U2) as (c3 & E3 & F3 & Q2 & O2).
  { eapply found_ext; eauto. }
  { eapply part_ext; [exact B2| |exact P2]. rewrite F2, F1 by congruence. reflexivity. }
  assert (B3 : get "url_base" (contents c) = get "url_base" (contents c3))
    by (rewrite F3 by congruence; exact B2).
  destruct (update_part f llh n3 u c3 U3) as (c4 & E4 & F4 & Q3 & O3).
  { eapply found_ext; eauto. }
  { eapply part_ext; [exact B3| |exact P3]. rewrite F3, F2, F1 by congruence. reflexivity. }
  assert (B4 : get "url_base" (contents c) = get "url_base" (contents c4))
    by (rewrite F4 by congruence; exact B3).
  assert (Q1' : part_set f (contents c4) llh n1 m).
  { eapply part_set_ext; [| |exact Q1]; [congruence|]. rewrite F4, F3 by congruence. reflexivity. }
  assert (Q2' : part_set f (contents c4) llh n2 l).
  { eapply part_set_ext; [| |exact Q2]; [congruence|]. rewrite F4 by congruence. reflexivity. }
  set (mm := mk_config KMap n1 (Some (VStr dm)) None).
  set (ml := mk_config KMap n2 (Some (VStr dl)) None).
  set (mu := mk_config KMap n3 (Some (VStr du)) None).
  destruct (part_builds f mm llh m c4 Q1') as (c5 & x1 & E5 & C5).
  destruct (part_builds f ml llh l c5) as (c6 & x2 & E6 & C6). { rewrite C5. exact Q2'. }
  destruct (part_builds f mu llh u c6) as (c7 & x3 & E7 & C7). { rewrite C6, C5. exact Q3. }
  set (cf1 := mk_config (c_kind cf) (c_name cf) (c_default cf) (Some llh)).
  exists c7, (cf1, [x1; x2; x3]).
  assert (C74 : contents c7 = contents c4) by congruence.
  split; [|split].
  - unfold sigma_build. fold cf1.
    change (get_configs cf1 None c) with (get_configs cf (Some llh) c). rewrite E1.
    change (get_default cf1) with (get_default cf). unfold get_default. rewrite H3.
    rewrite (three_files_short _ _ _ _ H2), (three_files_short _ _ _ _ H4). cbn [orb].
    unfold sigma_names. cbn [sigma_loop].
    rewrite (sigma_value_0 _ _ _ _ H4), (sigma_value_1 _ _ _ _ H4), (sigma_value_2 _ _ _ _ H4),
      (sigma_value_0 _ _ _ _ H2), (sigma_value_1 _ _ _ _ H2), (sigma_value_2 _ _ _ _ H2).
    rewrite !config_init_str.
    change (c_name cf ++ "_" ++ "median") with n1. change (c_name cf ++ "_" ++ "lower") with n2.
    change (c_name cf ++ "_" ++ "upper") with n3. fold mm ml mu.
    cbn [c_name]. change (c_name mm) with n1. change (c_name ml) with n2. change (c_name mu) with n3.
    rewrite E2, E3, E4. cbn [resolve_maps]. rewrite E5, E6, E7. reflexivity.
  - intros n Hn. unfold owned, sub_maps in Hn. rewrite Hk in Hn. cbn [In] in Hn. fold n1 n2 n3 in Hn.
    rewrite C74, F4, F3, F2, F1 by (intros ->; tauto). reflexivity.
  - intros ll Hll. assert (EV : effective_value (contents c7) cf ll = effective_value (contents c) cf ll).
    { rewrite <- V1. apply effective_ext. rewrite C74, F4, F3, F2 by congruence. reflexivity. }
    split; [|exact EV].
    unfold usable in Hll |- *. rewrite Hk in Hll |- *. rewrite EV, C74. fold n1 n2 n3 in Hll |- *. split; [|eauto 8].
    destruct Hll as ((v' & m' & l' & u' & G1 & G2 & G3 & G4 & G5 & G6 & G7 & G8) & _).
    exists v', m', l', u'. split; [exact G1|]. split; [exact G2|].
    split; [eauto using found_ext|]. split; [eauto using found_ext|]. split; [eauto using found_ext|].
    destruct (string_dec ll llh) as [->|Hne].
    + rewrite H1 in G1. injection G1 as <-.
      assert (S : m' = m /\ l' = l /\ u' = u)
        by (destruct H2; inversion G2; subst; auto).
      destruct S as (-> & -> & ->). split; [|split]; apply part_set_free; assumption.
    + split; [|split].
      * eapply part_ext; [| |apply (O1 ll m')]; [congruence|rewrite F4, F3 by congruence; reflexivity| |exact Hne].
        eapply part_ext; [| |exact G6]; [congruence|]. rewrite F1 by congruence. reflexivity.
      * eapply part_ext; [| |apply (O2 ll l')]; [congruence|rewrite F4 by congruence; reflexivity| |exact Hne].
        eapply part_ext; [| |exact G7]; [congruence|]. rewrite F2, F1 by congruence. reflexivity.
      * apply (O3 ll u'); [|exact Hne].
        eapply part_ext; [| |exact G8]; [congruence|]. rewrite F3, F2, F1 by congruence. reflexivity.
Qed.

Lemma check_depends_app args pre deps extra :
  args = (pre ++ deps ++ extra)%list -> check_depends args (List.length pre) deps = Ok tt.
Proof.
  revert pre. induction deps as [|d deps IH]; intros pre ->; cbn [check_depends]; [reflexivity|].
  unfold arg_is. rewrite nth_error_app2 by lia. rewrite Nat.sub_diag. cbn [app nth_error].
  rewrite String.eqb_refl. cbn [bind].
  specialize (IH (pre ++ [d])%list). rewrite app_length in IH. cbn [List.length] in IH.
  rewrite Nat.add_1_r in IH. apply IH. rewrite <- app_assoc. reflexivity.
Qed.

Lemma proper_sane p : proper_class p -> sanity_check p = Ok tt.
Proof.
  intros (_ & _ & self & extra & H). unfold sanity_check, arg_is. rewrite H. cbn [nth_error].
  rewrite !String.eqb_refl. cbn [bind].
  apply (check_depends_app _ [self; "key"; "parameters"] (p_depends p) extra). reflexivity.
Qed.

(** What a build keeps for every likelihood: the value of a config that is not a Map, and being
    usable. *)
Definition keeps (f : fs) (d d' : dict value) (l : string) (cf : config) : Prop :=
  usable f d l cf -> usable f d' l cf /\
    (c_kind cf <> KMap -> effective_value d' cf l = effective_value d cf l).

Lemma config_builds f cf llh c :
  ~ In "url_base" (owned cf) -> usable f (contents c) llh cf ->
  exists c' b, config_build f cf (Some llh) c = (c', Ok b) /\
    (forall n, ~ In n (owned cf) -> get n (contents c') = get n (contents c)) /\
    (forall l, keeps f (contents c) (contents c') l cf).
Proof.
  intros Hu H.
  assert (Hplain : c_kind cf = KConstant \/ c_kind cf = KConstantSet ->
    exists c' b, config_build f cf (Some llh) c = (c', Ok b) /\
    (forall n, ~ In n (owned cf) -> get n (contents c') = get n (contents c)) /\
    (forall l, keeps f (contents c) (contents c') l cf)).
  { intros Hk. assert (He : exists v, effective_value (contents c) cf llh = Some v).
    { unfold usable in H. destruct Hk as [Hk|Hk]; rewrite Hk in H; exact H. }
    destruct He as (v & He). destruct (plain_builds f cf llh c v He) as (c' & E & F & V).
    exists c', (mk_built cf [v]). split; [|split].
    - unfold config_build. destruct Hk as [Hk|Hk]; rewrite Hk, E; reflexivity.
    - intros n Hn. apply F. intros ->. apply Hn. left. reflexivity.
    - intros l Hl. split; [|intros _; apply V].
      unfold usable in *. destruct Hk as [Hk|Hk]; rewrite Hk in *; rewrite V; exact Hl. }
  destruct (c_kind cf) eqn:Hk; [apply Hplain; auto| |destruct (sigma_builds f cf llh c Hk Hu H) as
    (c' & [cf' vs] & E & F & U)|apply Hplain; auto].
  - assert (U0 : c_name cf <> "url_base") by (intros E; apply Hu; left; congruence).
    unfold usable in H. rewrite Hk in H. unfold config_build. rewrite Hk.
    destruct (get (c_name cf) (contents c)) as [y|] eqn:Hg.
    + destruct H as (s & H1 & H2). destruct (map_set_builds f cf llh c s) as (c' & E & Ec); auto.
      { congruence. }
      rewrite E. exists c', (mk_built cf [VStr s]). split; [reflexivity|]. rewrite Ec.
      split; [reflexivity|]. intros l Hl. split; [exact Hl|reflexivity].
    + destruct H as (s & p & H1 & H2 & H3).
      destruct (map_default_builds f cf llh c s p U0 Hg H1 H2 H3) as (c' & E & Ec).
      rewrite E. exists c', (mk_built cf [VStr p]). split; [reflexivity|]. rewrite Ec.
      split; [intros n Hn; apply get_set_neq; intros ->; apply Hn; left; reflexivity|].
      intros l _. split; [|congruence].
      unfold usable. rewrite Hk. rewrite get_set_eq. exists p. split.
      { unfold effective_value. rewrite get_set_eq. reflexivity. }
      eapply found_ext; [|exact H3]. symmetry. apply get_set_neq. congruence.
  - exists c', (mk_built cf' vs). unfold config_build. rewrite Hk, E. split; [reflexivity|].
    split; [exact F|]. intros l Hl. destruct (U l Hl) as [U1 U2]. auto.
Qed.

(** * All configs in use *)

(** [U l cf]: likelihood [l] uses [cf]. *)
Definition all_usable (f : fs) (U : string -> config -> Prop) (d : dict value) : Prop :=
  forall l cf, U l cf -> usable f d l cf.
Definition all_kept (f : fs) (U : string -> config -> Prop) (d d' : dict value) : Prop :=
  get "url_base" d' = get "url_base" d /\ forall l cf, U l cf -> keeps f d d' l cf.
Definition in_use (U : string -> config -> Prop) (cf : config) : Prop := exists l, U l cf.

Lemma kept_refl f U d : all_kept f U d d.
Proof. split; [reflexivity|]. intros l cf _ H. auto. Qed.
Lemma kept_trans f U d d' d'' : all_kept f U d d' -> all_kept f U d' d'' -> all_kept f U d d''.
Proof.
  intros [A1 A2] [B1 B2]. split; [congruence|]. intros l cf Hu H.
  destruct (A2 l cf Hu H) as [H1 E1]. destruct (B2 l cf Hu H1) as [H2 E2]. split; [exact H2|].
  intros Hk. rewrite E2, E1 by exact Hk. reflexivity.
Qed.
Lemma kept_usable f U d d' : all_kept f U d d' -> all_usable f U d -> all_usable f U d'.
Proof. intros [_ A] H l cf Hu. apply (A l cf Hu). apply H. exact Hu. Qed.

Section Uses.
  Variables (f : fs) (U : string -> config -> Prop).
  Hypothesis Hsep : separate (in_use U).

  Lemma config_builds_all llh cf c : U llh cf -> all_usable f U (contents c) ->
    exists c' b, config_build f cf (Some llh) c = (c', Ok b) /\ all_kept f U (contents c) (contents c').
  Proof.
    destruct Hsep as [Hs Hu]. intros Hin H.
    destruct (config_builds f cf llh c (Hu _ (ex_intro _ _ Hin)) (H _ _ Hin)) as (c' & b & E & F & V).
    exists c', b. split; [exact E|]. split; [apply F, Hu; exists llh; exact Hin|]. intros l cf' Hin'.
    destruct (Hs cf' cf (ex_intro _ _ Hin') (ex_intro _ _ Hin)) as [->|Hd]; [apply V|].
    intros Hl. split.
    - eapply usable_ext; [| |exact Hl].
      + symmetry. apply F, Hu. exists llh. exact Hin.
      + intros n Hn. symmetry. apply F. apply Hd. exact Hn.
    - intros _. apply effective_ext. symmetry. apply F. apply Hd. left. reflexivity.
  Qed.

  Lemma build_all_usable llh : forall l c, (forall cf, In cf l -> U llh cf) -> all_usable f U (contents c) ->
    exists c' bs, build_all f l (Some llh) c = (c', bs, Ok tt) /\ all_kept f U (contents c) (contents c').
  Proof.
    induction l as [|cf l IH]; intros c Hi H; cbn [build_all].
    - eauto using kept_refl.
    - destruct (config_builds_all llh cf c (Hi _ (or_introl eq_refl)) H) as (c1 & b & E & H1).
      rewrite E. destruct (IH c1) as (c2 & bs & E2 & H2).
      { intros x Hx. apply Hi. right. exact Hx. } { eauto using kept_usable. }
      rewrite E2. eauto using kept_trans.
  Qed.

  Lemma plugin_inits p llh c : proper_class p -> (forall cf, In cf (map snd (p_configs p)) -> U llh cf) ->
    all_usable f U (contents c) ->
    exists c' bs i, plugin_init f p (Some llh) c = (c', bs, Ok i) /\ all_kept f U (contents c) (contents c').
  Proof.
    intros Hp Hi H. unfold plugin_init.
    destruct (build_all_usable llh _ c Hi H) as (c1 & bs & E & H1).
    rewrite E, (proper_sane p Hp). destruct Hp as (Hd & Hpr & _).
    destruct (p_depends p); [congruence|]. destruct (p_provides p); [congruence|]. eauto.
  Qed.

  Lemma instantiates plugins llh name : forall ps acc w,
    (forall p, In p ps -> plugins (p_name p) = Some p /\ proper_class p /\
       forall cf, In cf (map snd (p_configs p)) -> U llh cf) ->
    all_usable f U (contents (w_cache w)) ->
    exists w' insts, instantiate f plugins llh (inst_names name ps) acc w = (w', Ok insts) /\
      all_kept f U (contents (w_cache w)) (contents (w_cache w')).
  Proof.
    induction ps as [|p ps IH]; intros acc w Hp H; cbn [inst_names map instantiate].
    - eauto using kept_refl.
    - destruct (Hp p (or_introl eq_refl)) as (P1 & P2 & P3). rewrite P1.
      destruct (plugin_inits p llh (w_cache w) P2 P3 H) as (c1 & bs & i & E & H1). rewrite E.
      match goal with |- context [instantiate f plugins llh _ ?a ?w1] => destruct (IH a w1) as (w' & is & E2 & H2) end.
      { intros q Hq. apply Hp. right. exact Hq. } { cbn. eauto using kept_usable. }
      unfold inst_names in E2. rewrite E2. cbn in H2. eauto using kept_trans.
  Qed.

  Lemma required_usable llh cf c : U llh cf -> all_usable f U (contents c) ->
    exists c' r, required_parameter cf (Some llh) c = (c', Ok r) /\ all_kept f U (contents c) (contents c').
  Proof.
    destruct Hsep as [Hs Hu]. intros Hin H. unfold required_parameter. destruct (c_kind cf) eqn:Hk; eauto using kept_refl.
    pose proof (H _ _ Hin) as HU. unfold usable in HU. rewrite Hk in HU.
    destruct HU as ((v & m & l & u & H1 & H2 & _) & _).
    destruct (get_configs_builds cf llh c v H1) as (c1 & E & F & V). rewrite E.
    destruct (three_files_required v m l u (c_name cf) H2) as (r & Hr). rewrite Hr.
    exists c1, r. split; [reflexivity|].
    assert (B : get "url_base" (contents c) = get "url_base" (contents c1)).
    { symmetry. apply F. intros E0. apply (Hu cf); [exists llh; exact Hin|]. left. congruence. }
    split; [symmetry; exact B|]. intros ll cf' Hin' Hus.
    destruct (Hs cf' cf (ex_intro _ _ Hin') (ex_intro _ _ Hin)) as [->|Hd].
    - split; [|intros _; apply V]. unfold usable in Hus |- *. rewrite Hk in Hus |- *.
      destruct Hus as ((v' & m' & l' & u' & G1 & G2 & G3 & G4 & G5 & G6 & G7 & G8) & G9).
      split; [|exact G9]. exists v', m', l', u'.
      split; [rewrite V; exact G1|]. split; [exact G2|].
      split; [eauto using found_ext|]. split; [eauto using found_ext|]. split; [eauto using found_ext|].
      assert (L : forall s, s <> "" -> c_name cf ++ s <> c_name cf) by (intros; apply append_longer; assumption).
      split; [|split]; (eapply part_ext; [exact B| |eassumption]); symmetry; apply F; apply L; discriminate.
    - split.
      + eapply usable_ext; [exact B| |exact Hus].
        intros n Hn. symmetry. apply F. intros ->. apply (Hd _ Hn). left. reflexivity.
      + intros _. apply effective_ext. symmetry. apply F. intros E0. apply (Hd (c_name cf)); [|left; reflexivity].
        left. exact E0.
  Qed.

  Lemma config_params_usable llh : forall l needed c, (forall cf, In cf l -> U llh cf) ->
    all_usable f U (contents c) ->
    exists c' n', config_params l llh needed c = (c', n', Ok tt) /\ all_kept f U (contents c) (contents c').
  Proof.
    induction l as [|cf l IH]; intros needed c Hi H; cbn [config_params]; [eauto using kept_refl|].
    destruct (required_usable llh cf c (Hi _ (or_introl eq_refl)) H) as (c1 & r & E & H1).
    rewrite E. assert (Hi' : forall x, In x l -> U llh x) by (intros x Hx; apply Hi; right; exact Hx).
    assert (Ha : all_usable f U (contents c1)) by eauto using kept_usable.
    destruct r as [x|]; [destruct (IH (add1 x needed) c1 Hi' Ha) as (c2 & n2 & E2 & H2)
                       |destruct (IH needed c1 Hi' Ha) as (c2 & n2 & E2 & H2)];
      rewrite E2; eauto using kept_trans.
  Qed.

  Lemma simplify_usable llh : forall ps ws needed c,
    (forall p, In p ps -> forall cf, In cf (map snd (p_configs p)) -> U llh cf) ->
    all_usable f U (contents c) ->
    exists c' out, simplify_loop ps llh ws needed c = (c', out, Ok tt) /\ all_kept f U (contents c) (contents c').
  Proof.
    induction ps as [|p ps IH]; intros ws needed c Hp H; cbn [simplify_loop]; [eauto using kept_refl|].
    destruct (config_params_usable llh (map snd (p_configs p)) (Base.union needed (p_params p)) c
      (Hp _ (or_introl eq_refl)) H) as (c1 & n1 & E & H1).
    rewrite E. match goal with |- context [simplify_loop ps llh ?a ?b c1] => destruct (IH a b c1) as (c2 & out & E2 & H2) end.
    { intros q Hq. apply Hp. right. exact Hq. } { eauto using kept_usable. }
    rewrite E2. eauto using kept_trans.
  Qed.

  (** The whole component: it is built, and everything in use stays usable. *)
  Lemma component_builds_kept limit data_names func nodep noeff plugins k w :
    let reg := k_registry k in
    let names := output_names data_names noeff in
    unique_names reg ->
    acyclic reg nodep names -> complete reg nodep names -> List.length (keys reg) + 1 < limit ->
    published plugins reg nodep names ->
    (forall d p, Reach reg nodep names d -> get d reg = Some p ->
       proper_class p /\ forall cf, In cf (map snd (p_configs p)) -> U (k_llh k) cf) ->
    all_usable f U (contents (w_cache w)) ->
    get (k_llh k) (w_fn w) = None ->
    exists w' k', build_component limit data_names func nodep noeff f plugins k w = (w', k', Ok tt) /\
      all_kept f U (contents (w_cache w)) (contents (w_cache w')).
  Proof.
    intros reg names Hun Hac Hco Hlim Hpub Hcl Hus Hfn.
    destruct (top_valueerror reg nodep limit names Hac Hlim) as [_ [Hok _]].
    destruct Hok as (deps & Hdeps).
    { intros d Hd E. destruct (Hco d Hd) as (p & Hp). congruence. }
    pose proof (used_selected _ _ _ _ _ Hun Hdeps) as Hsel.
    unfold build_component, deduce. fold names. fold reg. rewrite Hdeps.
    unfold dependencies_simplify.
    destruct (simplify_usable (k_llh k) (selected deps) []
       (if String.eqb (k_rate k) "" then [] else [k_rate k]) (w_cache w)) as (c1 & [ws needed] & E & H1).
    { intros p Hp. apply Hsel in Hp. destruct Hp as (d & Hd & Hg). apply (Hcl d p Hd Hg). }
    { exact Hus. }
    rewrite E. unfold set_code. cbn [k_llh w_fn w_heap with_cache]. unfold sv_setitem, has. rewrite Hfn.
    unfold compile. cbn [k_compile].
    assert (Hws : ws = map work_of (selected deps)).
    { destruct (deduce_ok_inv limit data_names func nodep noeff k w
        (fst (fst (deduce limit data_names func nodep noeff k w)))
        (snd (fst (deduce limit data_names func nodep noeff k w)))) as
        (deps' & c1' & needed' & D1 & D2 & _).
      - unfold deduce. fold names. fold reg. rewrite Hdeps. unfold dependencies_simplify. rewrite E.
        unfold set_code. cbn [k_llh w_fn w_heap with_cache]. unfold sv_setitem, has. rewrite Hfn. reflexivity.
      - fold names reg in D1. rewrite Hdeps in D1. injection D1 as <-.
        unfold dependencies_simplify in D2. rewrite E in D2. injection D2 as _ <- _. reflexivity. }
    subst ws.
    set (w1 := mk_world _ _ _ _).
    assert (Himp : imports_ok plugins (pr_imports (gen_code (k_name k) (k_llh k) func nodep
       (map work_of (selected deps)) names)) = true).
    { unfold imports_ok, gen_code. cbn [pr_imports]. rewrite map_map. cbn. apply forallb_forall.
      intros x Hx. apply in_map_iff in Hx. destruct Hx as (p & <- & Hp). apply Hsel in Hp.
      destruct Hp as (d & Hd & Hg). rewrite (Hpub d p Hd Hg). reflexivity. }
    rewrite Himp. rewrite gen_insts.
    destruct (instantiates plugins (k_llh k) (k_name k) (selected deps) [] w1) as (w2 & insts & E2 & H2).
    { intros p Hp. apply Hsel in Hp. destruct Hp as (d & Hd & Hg).
      destruct (Hcl d p Hd Hg) as [C1 C2]. split; [exact (Hpub d p Hd Hg)|]. split; assumption. }
    { unfold w1. cbn [w_cache]. eauto using kept_usable. }
    change (pr_llh (gen_code (k_name k) (k_llh k) func nodep (map work_of (selected deps)) names))
      with (k_llh k). rewrite E2.
    pose proof (instantiate_fn f plugins (k_llh k) (inst_names (k_name k) (selected deps)) [] w1) as [F1 F2].
    rewrite E2 in F1, F2. cbn [fst] in F1, F2. cbn [k_llh w_fn]. rewrite F1. unfold w1 at 1. cbn [w_fn].
    rewrite get_set_eq. cbn [w_heap].
    rewrite nth_set_nth by (rewrite F2; unfold w1; cbn [w_heap]; rewrite app_length; cbn; lia).
    cbn [k_func].
    change (pr_func (gen_code (k_name k) (k_llh k) func nodep (map work_of (selected deps)) names)) with func.
    rewrite get_set_eq. eexists _, _. split; [reflexivity|]. cbn [w_cache].
    eapply kept_trans; [exact H1|exact H2].
  Qed.
End Uses.

Lemma component_builds limit data_names func nodep noeff f plugins k w :
  let reg := k_registry k in
  let names := output_names data_names noeff in
  unique_names reg ->
  acyclic reg nodep names -> complete reg nodep names -> List.length (keys reg) + 1 < limit ->
  published plugins reg nodep names ->
  (forall d p, Reach reg nodep names d -> get d reg = Some p -> proper_class p) ->
  separate (used_config reg nodep names) ->
  (forall cf, used_config reg nodep names cf -> usable f (contents (w_cache w)) (k_llh k) cf) ->
  get (k_llh k) (w_fn w) = None ->
  exists w' k', build_component limit data_names func nodep noeff f plugins k w = (w', k', Ok tt).
Proof.
  intros reg names Hun Hac Hco Hlim Hpub Hcl [Hs Hu] Hus Hfn.
  destruct (component_builds_kept f (fun l cf => l = k_llh k /\ used_config reg nodep names cf)) with
    (limit := limit) (data_names := data_names) (func := func) (nodep := nodep) (noeff := noeff)
    (plugins := plugins) (k := k) (w := w) as (w' & k' & E & _); eauto.
  - split.
    + intros a b (_ & _ & Ha) (_ & _ & Hb). apply Hs; assumption.
    + intros a (_ & _ & Ha). apply Hu. exact Ha.
  - intros d p Hd Hg. split; [eauto|]. intros cf Hi. split; [reflexivity|]. exists d, p. auto.
  - intros l cf [-> H]. apply Hus. exact H.
Qed.
