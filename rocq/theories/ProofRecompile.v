(** Compiling a second time. *)
From Verif Require Import Base BaseFacts ModelShare ModelConfig ModelComponent SpecComponent
  SpecConfig ModelCompile SpecCompile ProofComponent ProofWorkflow ProofSim ProofHistory
  ProofComponentTop ProofConfig ProofConfig2 ProofCompile.
Local Open Scope string_scope.

Lemma set_get_same {V} k (v : V) d : get k d = Some v -> set k v d = d.
Proof.
  induction d as [|[k' v'] d IH]; cbn; [discriminate|].
  destruct (String.eqb k k') eqn:E; intros H.
  - apply String.eqb_eq in E. subst k'. injection H as ->. reflexivity.
  - rewrite (IH H). reflexivity.
Qed.

(* ------------------------------------------------------------------ *)
(** * What a likelihood sees is never changed *)

Definition kept (L : string) (v v' : value) : Prop :=
  match v with
  | VDict d => exists d', v' = VDict d' /\ forall x, get L d = Some x -> get L d' = Some x
  | _ => v' = v
  end.
Definition xg (L : string) (c c' : dict value) : Prop :=
  forall n v, get n c = Some v -> exists v', get n c' = Some v' /\ kept L v v'.

Lemma kept_refl L v : kept L v v.
Proof. destruct v; cbn; eauto. Qed.

Lemma kept_trans L a b c : kept L a b -> kept L b c -> kept L a c.
Proof.
  destruct a; cbn; intros H1 H2; try (subst b; exact H2).
  destruct H1 as (d1 & -> & H1). cbn in H2. destruct H2 as (d2 & -> & H2). eauto.
Qed.

Lemma xg_refl L c : xg L c c.
Proof. intros n v H. exists v. split; [exact H|apply kept_refl]. Qed.

Lemma xg_trans L a b c : xg L a b -> xg L b c -> xg L a c.
Proof.
  intros H1 H2 n v H. destruct (H1 n v H) as (v1 & E1 & K1). destruct (H2 n v1 E1) as (v2 & E2 & K2).
  exists v2. split; [exact E2|eapply kept_trans; eauto].
Qed.

Lemma xg_new L n v c : get n c = None -> xg L c (set n v c).
Proof.
  intros Hn m x Hx. exists x. split; [|apply kept_refl].
  rewrite get_set_neq; [exact Hx|]. intros ->. congruence.
Qed.

Lemma xg_seen L n c c' v : xg L c c' -> seen_by n L c = Some v -> seen_by n L c' = Some v.
Proof.
  intros G H. unfold seen_by in *. destruct (get n c) as [x|] eqn:E; [|discriminate].
  destruct (G n x E) as (x' & E' & Kx). rewrite E'.
  destruct x; cbn in Kx; try (subst x'; exact H).
  destruct Kx as (d' & -> & Kx). apply Kx, H.
Qed.

(* ------------------------------------------------------------------ *)
(** * The directory consulted for files *)

Definition base_of (c : rdict) : option (option string) :=
  match get "url_base" (contents c) with
  | None => None
  | Some (VStr s) => Some (Some s)
  | Some _ => Some None
  end.

Lemma path_base f s c c' : base_of c = base_of c' -> snd (get_file_path f s c) = snd (get_file_path f s c').
Proof.
  unfold base_of, get_file_path, rd_in, has, rd_getitem. intros H.
  destruct (isfile f s); [reflexivity|].
  destruct (get "url_base" (contents c)) as [[ | | |u| | ]|], (get "url_base" (contents c')) as [[ | | |u'| | ]|];
    try discriminate H; try reflexivity.
  injection H as <-. destruct (starts_with_slash u); [|reflexivity].
  destruct (path_exists f (path_join u s)); reflexivity.
Qed.

Lemma base_between L c c0 c1 : xg L (contents c) (contents c0) -> xg L (contents c0) (contents c1) ->
  base_of c1 = base_of c -> base_of c0 = base_of c.
Proof.
  unfold base_of. intros H1 H2 H.
  destruct (get "url_base" (contents c)) as [v|] eqn:E.
  - destruct (H1 _ _ E) as (v' & E' & Kv). rewrite E'.
    destruct v; cbn in Kv; try (subst v'; reflexivity). destruct Kv as (d' & -> & _). reflexivity.
  - destruct (get "url_base" (contents c0)) as [v|] eqn:E0; [|reflexivity].
    destruct (H2 _ _ E0) as (v' & E' & _). rewrite E' in H. destruct v'; discriminate.
Qed.

Lemma transform_base f tr v c c' : base_of c = base_of c' ->
  snd (transform_value f tr v c) = snd (transform_value f tr v c').
Proof.
  intros H. unfold transform_value. destruct tr; [|reflexivity]. destruct v; try reflexivity.
  pose proof (path_base f s c c' H) as P.
  destruct (get_file_path f s c) as [? r], (get_file_path f s c') as [? r']. cbn in *. subst r'. reflexivity.
Qed.

(* ------------------------------------------------------------------ *)
(** * Resolving *)

Lemma resolve_xg L f tr cf llh c : xg L (contents c) (contents (fst (resolve_cached_config f tr cf llh c))).
Proof.
  destruct (resolve_contents f tr cf llh c) as [->|(Hn & v & ->)]; [apply xg_refl|apply xg_new, Hn].
Qed.

Lemma get_configs_xg L cf llh c : xg L (contents c) (contents (fst (get_configs cf llh c))).
Proof.
  destruct (get_configs_contents cf llh c) as [->|(Hn & v & _ & ->)]; [apply xg_refl|apply xg_new, Hn].
Qed.

Lemma resolve_first L f tr cf c c1 v : resolve_cached_config f tr cf (Some L) c = (c1, Ok v) ->
  seen_by (c_name cf) L (contents c1) = Some v.
Proof.
  unfold resolve_cached_config, rd_in, has, rd_getitem, seen_by.
  destruct (get (c_name cf) (contents c)) as [x|] eqn:E.
  - destruct x as [ |b|z|s|l|d]; intros H; injection H as <-; intros; subst; cbn; rewrite E; try reflexivity.
    cbn in H. destruct (get L d); [injection H as ->; reflexivity|discriminate].
  - unfold get_default. destruct (c_default cf) as [x|]; [|discriminate].
    destruct (transform_value f tr x c) as [c2 [x'|e]]; [|discriminate].
    destruct x' as [ |b|z|s|l|d]; intros H; injection H as <-; intros; subst; cbn; rewrite get_set_eq; try reflexivity.
    cbn in H. destruct (get L d); [injection H as ->; reflexivity|discriminate].
Qed.

Lemma resolve_second L f tr cf c v : seen_by (c_name cf) L (contents c) = Some v ->
  exists c1, resolve_cached_config f tr cf (Some L) c = (c1, Ok v) /\ contents c1 = contents c.
Proof.
  unfold resolve_cached_config, rd_in, has, rd_getitem, seen_by. intros H.
  destruct (get (c_name cf) (contents c)) as [x|] eqn:E; [|discriminate].
  destruct x as [ |b|z|s|l|d]; try (injection H as <-; eexists; split; reflexivity).
  cbn. rewrite H. eexists. split; reflexivity.
Qed.

Lemma configs_first L cf c c1 v : c_llh cf = Some L -> get_configs cf None c = (c1, Ok v) ->
  seen_by (c_name cf) L (contents c1) = Some v.
Proof.
  intros HL. unfold get_configs, rd_in, has, rd_getitem, seen_by. rewrite HL.
  destruct (get (c_name cf) (contents c)) as [x|] eqn:E.
  - destruct x as [ |b|z|s|l|d]; intros H; injection H as <-; intros; subst; cbn; rewrite E; try reflexivity.
    cbn in H. destruct (get L d); [injection H as ->; reflexivity|discriminate].
  - unfold get_default. destruct (c_default cf) as [x|]; [|discriminate].
    destruct x as [ |b|z|s|l|d]; intros H; injection H as <-; intros; subst; cbn; rewrite get_set_eq; try reflexivity.
    cbn in H. destruct (get L d); [injection H as ->; reflexivity|discriminate].
Qed.

Lemma configs_second L cf c v : c_llh cf = Some L -> seen_by (c_name cf) L (contents c) = Some v ->
  exists c1, get_configs cf None c = (c1, Ok v) /\ contents c1 = contents c.
Proof.
  intros HL. unfold get_configs, rd_in, has, rd_getitem, seen_by. rewrite HL. intros H.
  destruct (get (c_name cf) (contents c)) as [x|] eqn:E; [|discriminate].
  destruct x as [ |b|z|s|l|d]; try (injection H as <-; eexists; split; reflexivity).
  cbn. rewrite H. eexists. split; reflexivity.
Qed.

(* ------------------------------------------------------------------ *)
(** * Maps *)

Lemma map_xg L f m llh c : xg L (contents c) (contents (fst (map_build f m llh c))).
Proof. rewrite map_build_contents. apply resolve_xg. Qed.

Lemma map_first L f m c c1 v : map_build f m (Some L) c = (c1, Ok v) ->
  seen_by (c_name m) L (contents c1) = Some v /\ (exists s, v = VStr s) /\
  exists u, snd (transform_value f true v c1) = Ok u.
Proof.
  unfold map_build. destruct (resolve_cached_config f true m (Some L) c) as [c0 [x|e]] eqn:E; [|discriminate].
  pose proof (transform_contents f true x c0) as T.
  destruct (transform_value f true x c0) as [c2 [u|e]] eqn:E2; [|discriminate].
  intros H. injection H as <- <-. cbn in T.
  split; [rewrite T; exact (resolve_first _ _ _ _ _ _ _ E)|]. split.
  - destruct x; try discriminate E2. eauto.
  - exists u. transitivity (snd (transform_value f true x c0)); [|rewrite E2; reflexivity].
    apply transform_base. unfold base_of. rewrite T. reflexivity.
Qed.

Lemma map_second L f m c v u : seen_by (c_name m) L (contents c) = Some v ->
  snd (transform_value f true v c) = Ok u ->
  exists c1, map_build f m (Some L) c = (c1, Ok v) /\ contents c1 = contents c.
Proof.
  intros H Hu. unfold map_build. destruct (resolve_second L f true m c v H) as (c1 & -> & E).
  pose proof (transform_contents f true v c1) as T.
  assert (B : snd (transform_value f true v c1) = Ok u).
  { rewrite <- Hu. apply transform_base. unfold base_of. rewrite E. reflexivity. }
  destruct (transform_value f true v c1) as [c2 r]. cbn in *. subst r. exists c2. split; [reflexivity|congruence].
Qed.

Lemma maps_xg L f ms llh : forall c, xg L (contents c) (contents (fst (resolve_maps f ms llh c))).
Proof.
  induction ms as [|m ms IH]; intros c; cbn [resolve_maps]; [apply xg_refl|].
  pose proof (map_xg L f m llh c) as G. destruct (map_build f m llh c) as [c1 [v|e]]; [|exact G].
  specialize (IH c1). destruct (resolve_maps f ms llh c1) as [c2 r]. cbn in *. eapply xg_trans; eauto.
Qed.

Lemma maps_first L f ms : forall c c1 vs, resolve_maps f ms (Some L) c = (c1, Ok vs) ->
  Forall2 (fun m v => seen_by (c_name m) L (contents c1) = Some v /\ (exists s, v = VStr s)) ms vs /\
  (base_of c1 = base_of c -> Forall (fun v => exists u, snd (transform_value f true v c1) = Ok u) vs).
Proof.
  induction ms as [|m ms IH]; intros c c1 vs; cbn [resolve_maps].
  - intros H. injection H as <- <-. split; [constructor|]. constructor.
  - pose proof (map_xg L f m (Some L) c) as G1.
    destruct (map_build f m (Some L) c) as [c0 [v|e]] eqn:E; [|discriminate].
    pose proof (maps_xg L f ms (Some L) c0) as G2.
    destruct (resolve_maps f ms (Some L) c0) as [c2 [vs'|e]] eqn:E2; [|discriminate].
    intros H. injection H as <- <-. cbn in G1, G2. destruct (IH _ _ _ E2) as [I1 I2].
    destruct (map_first _ _ _ _ _ _ E) as (M1 & M2 & u & M3). split.
    + constructor; [|exact I1]. split; [exact (xg_seen _ _ _ _ _ G2 M1)|exact M2].
    + intros B. pose proof (base_between _ _ _ _ G1 G2 B) as B0.
      constructor; [|apply I2; congruence].
      exists u. rewrite <- M3. apply transform_base. congruence.
Qed.

Lemma maps_second L f ms : forall c vs,
  Forall2 (fun m v => seen_by (c_name m) L (contents c) = Some v /\ (exists s, v = VStr s)) ms vs ->
  Forall (fun v => exists u, snd (transform_value f true v c) = Ok u) vs ->
  exists c1, resolve_maps f ms (Some L) c = (c1, Ok vs) /\ contents c1 = contents c.
Proof.
  induction ms as [|m ms IH]; intros c vs H1 H2; inversion H1 as [|? v ? vs' [Hs _] H1']; subst; cbn [resolve_maps].
  - exists c. split; reflexivity.
  - inversion H2 as [|? ? [u Hu] H2']; subst.
    destruct (map_second L f m c v u Hs Hu) as (c1 & -> & E).
    destruct (IH c1 vs') as (c2 & -> & E2).
    + rewrite E. exact H1'.
    + eapply Forall_impl; [|exact H2']. intros x [y Hy]. exists y. rewrite <- Hy. apply transform_base.
      unfold base_of. rewrite E. reflexivity.
    + exists c2. split; [reflexivity|congruence].
Qed.

(* ------------------------------------------------------------------ *)
(** * The table of a SigmaMap *)

Definition entry_ok (L n : string) (v : value) (c : dict value) : Prop :=
  match get n c with
  | Some (VDict d) => get L d = Some v
  | Some _ => True
  | None => False
  end.

Lemma entry_xg L n v c c' : xg L c c' -> entry_ok L n v c -> entry_ok L n v c'.
Proof.
  intros G H. unfold entry_ok in *. destruct (get n c) as [x|] eqn:E; [|destruct H].
  destruct (G n x E) as (x' & -> & Kx). destruct x; cbn in Kx; try (subst x'; exact I).
  destruct Kx as (d' & -> & Kx). apply Kx, H.
Qed.

Lemma value_eqb_str x s : value_eqb x (VStr s) = true -> x = VStr s.
Proof. destruct x; try discriminate. cbn. intros H. apply String.eqb_eq in H. congruence. Qed.

Lemma update_first L n v c c1 : update_sigma_cache L n v c = (c1, Ok tt) ->
  entry_ok L n v (contents c1) /\ (forall m, m <> n -> get m (contents c1) = get m (contents c)) /\
  ((exists s, v = VStr s) \/ (exists x, get n (contents c1) = Some x /\ not_dict x) ->
   xg L (contents c) (contents c1)).
Proof.
  unfold update_sigma_cache, rd_in, has, rd_getitem.
  destruct (get n (contents c)) as [x|] eqn:E; cbn [contents accessed rd_setitem].
  - rewrite E. destruct x as [ |b|z|s|l|d];
      try (intros H; injection H as <-; cbn; unfold entry_ok; rewrite E;
           split; [exact I|]; split; [reflexivity|]; intros _; apply xg_refl).
    destruct (value_eqb _ v) eqn:Ev; [|discriminate]. intros H. injection H as <-. cbn.
    split; [unfold entry_ok; rewrite get_set_eq; apply get_set_eq|].
    split; [intros m Hm; apply get_set_neq; exact Hm|].
    intros [(s & ->)|(x & Hx & Hd)].
    + intros m y Hy. destruct (string_dec m n) as [->|Hm].
      * rewrite E in Hy. injection Hy as <-. eexists. split; [apply get_set_eq|]. cbn.
        eexists. split; [reflexivity|]. intros y Hy. rewrite Hy in Ev. apply value_eqb_str in Ev.
        subst y. apply get_set_eq.
      * exists y. split; [rewrite get_set_neq by exact Hm; exact Hy|apply kept_refl].
    + rewrite get_set_eq in Hx. injection Hx as <-. destruct (Hd _ eq_refl).
  - rewrite get_set_eq. cbn [get]. rewrite value_eqb_refl. intros H. injection H as <-. cbn.
    split; [unfold entry_ok; rewrite get_set_eq; cbn; rewrite String.eqb_refl; reflexivity|].
    split; [intros m Hm; rewrite !get_set_neq by exact Hm; reflexivity|].
    intros _ m y Hy. exists y. split; [|apply kept_refl].
    assert (m <> n) by congruence. rewrite !get_set_neq by assumption. exact Hy.
Qed.

Lemma update_second L n v c : entry_ok L n v (contents c) ->
  exists c1, update_sigma_cache L n v c = (c1, Ok tt) /\ contents c1 = contents c.
Proof.
  unfold entry_ok, update_sigma_cache, rd_in, has, rd_getitem. intros H.
  destruct (get n (contents c)) as [x|] eqn:E; [|destruct H]. rewrite E.
  destruct x as [ |b|z|s|l|d]; try (eexists; split; reflexivity).
  rewrite H, value_eqb_refl. eexists. split; [reflexivity|]. cbn.
  rewrite (set_get_same _ _ _ H). apply set_get_same, E.
Qed.

Lemma append_inj_l a b s : s ++ a = s ++ b -> a = b.
Proof. induction s as [|x s IH]; cbn; intros H; [exact H|]. injection H as H. exact (IH H). Qed.

Lemma sigma_names_diff name a b : name ++ "_" ++ a = name ++ "_" ++ b -> a = b.
Proof. intros H. apply append_inj_l in H. injection H as H. exact H. Qed.

Lemma loop_first L name cfgs dflt sgs : NoDup sgs -> forall i c c2 ms,
  sigma_loop (Some L) name cfgs dflt i sgs c = (c2, Ok ms) ->
  map ModelConfig.c_name ms = map (fun sg => name ++ "_" ++ sg) sgs /\
  (forall m, (forall sg, In sg sgs -> m <> name ++ "_" ++ sg) -> get m (contents c2) = get m (contents c)) /\
  (forall j sg, nth_error sgs j = Some sg -> exists v, resolve_sigma_value cfgs (i + j) = Ok v /\
     entry_ok L (name ++ "_" ++ sg) v (contents c2)) /\
  ((forall j sg v, nth_error sgs j = Some sg -> resolve_sigma_value cfgs (i + j) = Ok v ->
     (exists s, v = VStr s) \/ (exists x, get (name ++ "_" ++ sg) (contents c2) = Some x /\ not_dict x)) ->
   xg L (contents c) (contents c2)) /\
  (forall c', (forall j sg v, nth_error sgs j = Some sg -> resolve_sigma_value cfgs (i + j) = Ok v ->
      entry_ok L (name ++ "_" ++ sg) v (contents c')) ->
    exists c'', sigma_loop (Some L) name cfgs dflt i sgs c' = (c'', Ok ms) /\ contents c'' = contents c').
Proof.
  induction sgs as [|sg sgs IH]; intros Hnd i c c2 ms; cbn [sigma_loop].
  - intros H. injection H as <- <-. split; [reflexivity|]. split; [reflexivity|].
    split; [intros [|j] sg; discriminate|]. split; [intros _; apply xg_refl|].
    intros c' _. exists c'. split; reflexivity.
  - inversion Hnd as [|? ? Hni Hnd']; subst.
    destruct (resolve_sigma_value dflt i) as [d|e] eqn:Ed; [|discriminate].
    destruct (config_init KMap (name ++ "_" ++ sg) (Some d)) as [m|e] eqn:Em; [|discriminate].
    assert (Hm : c_name m = name ++ "_" ++ sg).
    { unfold config_init in Em. destruct d; try discriminate; injection Em as <-; reflexivity. }
    destruct (resolve_sigma_value cfgs i) as [v|e] eqn:Ev; [|discriminate].
    destruct (update_sigma_cache L (c_name m) v c) as [c1 [[]|e]] eqn:Eu; [|discriminate].
    destruct (sigma_loop (Some L) name cfgs dflt (S i) sgs c1) as [c3 [ms'|e]] eqn:El; [|discriminate].
    intros H. injection H as <- <-.
    destruct (update_first _ _ _ _ _ Eu) as (U1 & U2 & U3).
    destruct (IH Hnd' _ _ _ _ El) as (I1 & I2 & I3 & I4 & I5).
    rewrite Hm in *.
    assert (Hsame : get (name ++ "_" ++ sg) (contents c3) = get (name ++ "_" ++ sg) (contents c1)).
    { apply I2. intros sg' Hin Heq. apply sigma_names_diff in Heq. subst sg'. exact (Hni Hin). }
    split; [cbn [map]; rewrite Hm, I1; reflexivity|]. split; [|split; [|split]].
    + intros x Hx. rewrite I2 by (intros sg' Hin; apply Hx; right; exact Hin).
      apply U2. apply Hx. left. reflexivity.
    + intros [|j] sg' Hj; cbn [nth_error] in Hj.
      * injection Hj as <-. exists v. rewrite Nat.add_0_r. split; [exact Ev|].
        unfold entry_ok in *. rewrite Hsame. exact U1.
      * replace (i + S j) with (S i + j) by lia. apply I3, Hj.
    + intros HP. eapply xg_trans; [apply U3|apply I4].
      * destruct (HP 0 sg v eq_refl) as [Hs|(x & Hx & Hd)]; [rewrite Nat.add_0_r; exact Ev|left; exact Hs|].
        right. exists x. rewrite <- Hsame. auto.
      * intros j sg' v' Hj Hv'. apply (HP (S j) sg' v' Hj). replace (i + S j) with (S i + j) by lia. exact Hv'.
    + intros c' HE. destruct (update_second L (name ++ "_" ++ sg) v c') as (c4 & E4 & C4).
      { apply (HE 0 sg v eq_refl). rewrite Nat.add_0_r. exact Ev. }
      rewrite E4. destruct (I5 c4) as (c5 & E5 & C5).
      { intros j sg' v' Hj Hv'. rewrite C4. apply (HE (S j) sg' v' Hj).
        replace (i + S j) with (S i + j) by lia. exact Hv'. }
      rewrite E5. exists c5. split; [reflexivity|congruence].
Qed.

Lemma sigma_names_NoDup : NoDup sigma_names.
Proof. repeat constructor; cbn; intuition discriminate. Qed.

Lemma Forall2_nth {A B} (R : A -> B -> Prop) l l' : Forall2 R l l' -> forall n a, nth_error l n = Some a ->
  exists b, nth_error l' n = Some b /\ R a b.
Proof.
  induction 1 as [|a b l l' Hab H IH]; intros [|n] x Hx; cbn in Hx; try discriminate.
  - injection Hx as <-. exists b. auto.
  - destruct (IH n x Hx) as (y & Hy & Hr). exists y. auto.
Qed.

Lemma sigma_all L f cf c c3 cf' vs : sigma_build f cf (Some L) c = (c3, Ok (cf', vs)) ->
  xg L (contents c) (contents c3) /\
  (base_of c3 = base_of c -> forall c', xg L (contents c3) (contents c') -> base_of c' = base_of c3 ->
   exists c'', sigma_build f cf (Some L) c' = (c'', Ok (cf', vs)) /\ contents c'' = contents c').
Proof.
  unfold sigma_build. set (cf0 := mk_config (c_kind cf) (c_name cf) (c_default cf) (Some L)).
  pose proof (get_configs_xg L cf0 None c) as G1.
  destruct (get_configs cf0 None c) as [c1 [cfgs|e]] eqn:E1; [|discriminate].
  destruct (get_default cf0) as [dflt|e] eqn:Ed; [|discriminate].
  destruct (too_long cfgs || too_long dflt) eqn:Et; [discriminate|].
  destruct (sigma_loop (Some L) (c_name cf) cfgs dflt 0 sigma_names c1) as [c2 [ms|e]] eqn:El; [|discriminate].
  pose proof (maps_xg L f ms (Some L) c2) as G3.
  destruct (resolve_maps f ms (Some L) c2) as [c4 [vs'|e]] eqn:Er; [|discriminate].
  intros H. injection H as <- <- <-. cbn [fst] in G1, G3.
  destruct (loop_first _ _ _ _ _ sigma_names_NoDup _ _ _ _ El) as (L1 & _ & L3 & L4 & L5).
  destruct (maps_first _ _ _ _ _ _ Er) as (M1 & M2).
  assert (Hstr : forall j sg v, nth_error sigma_names j = Some sg ->
    resolve_sigma_value cfgs (0 + j) = Ok v -> (exists s, v = VStr s) \/
      (exists x, get (c_name cf ++ "_" ++ sg) (contents c2) = Some x /\ not_dict x)).
  { intros j sg v Hj Hv. destruct (L3 j sg Hj) as (v' & Hv' & He). rewrite Hv in Hv'. injection Hv' as <-.
    assert (Hmj : exists m, nth_error ms j = Some m /\ c_name m = c_name cf ++ "_" ++ sg).
    { pose proof (f_equal (fun l => nth_error l j) L1) as N. cbv beta in N. rewrite !nth_error_map, Hj in N.
      cbn in N. destruct (nth_error ms j) as [m|]; [|discriminate]. exists m. split; [reflexivity|].
      injection N as N. exact N. }
    destruct Hmj as (m & Hmj & Hmn). destruct (Forall2_nth _ _ _ M1 j m Hmj) as (y & _ & Hy & s & ->).
    rewrite Hmn in Hy. pose proof (entry_xg _ _ _ _ _ G3 He) as He4. unfold entry_ok in He, He4.
    unfold seen_by in Hy. destruct (get (c_name cf ++ "_" ++ sg) (contents c2)) as [x|] eqn:Ex; [|destruct He].
    destruct x as [ |b|z|s'|l|d]; try (right; eexists; split; [reflexivity|intros ? ?; discriminate]).
    left. destruct (G3 _ _ Ex) as (x' & Ex' & d' & -> & _). rewrite Ex' in Hy, He4. exists s. congruence. }
  pose proof (L4 Hstr) as G2.
  split; [eapply xg_trans; [exact G1|]; eapply xg_trans; eauto|].
  intros B c' Gc Bc.
  assert (B2 : base_of c4 = base_of c2).
  { rewrite B. symmetry. exact (base_between _ _ _ _ (xg_trans _ _ _ _ G1 G2) G3 B). }
  pose proof (configs_first L cf0 c c1 cfgs eq_refl E1) as S1.
  assert (Gall : xg L (contents c1) (contents c')) by (eapply xg_trans; [exact G2|]; eapply xg_trans; eauto).
  destruct (configs_second L cf0 c' cfgs eq_refl (xg_seen _ _ _ _ _ Gall S1)) as (a1 & -> & A1).
  rewrite Et. cbn [orb].
  destruct (L5 a1) as (a2 & -> & A2).
  { intros j sg v Hj Hv. destruct (L3 j sg Hj) as (v' & Hv' & He). rewrite Hv in Hv'. injection Hv' as <-.
    rewrite A1. eapply entry_xg; [|exact He]. eapply xg_trans; eauto. }
  destruct (maps_second L f ms a2 vs') as (a3 & -> & A3).
  { rewrite A2, A1. clear - M1 Gc. induction M1 as [|m v ms vs [Hs Hv] M IH]; constructor; auto.
    split; [exact (xg_seen _ _ _ _ _ Gc Hs)|exact Hv]. }
  { eapply Forall_impl; [|exact (M2 B2)]. intros x [u Hu]. exists u. rewrite <- Hu. apply transform_base.
    rewrite <- Bc. unfold base_of. rewrite A2, A1. reflexivity. }
  exists a3. split; [reflexivity|congruence].
Qed.

(* ------------------------------------------------------------------ *)
(** * Building, instantiating and compiling again *)

Lemma build_twice L f cf c c1 b : config_build f cf (Some L) c = (c1, Ok b) ->
  xg L (contents c) (contents c1) /\
  (base_of c1 = base_of c -> forall c', xg L (contents c1) (contents c') -> base_of c' = base_of c1 ->
   exists c'', config_build f cf (Some L) c' = (c'', Ok b) /\ contents c'' = contents c').
Proof.
  unfold config_build. destruct (c_kind cf).
  1, 4: pose proof (resolve_xg L f false cf (Some L) c) as G;
    destruct (resolve_cached_config f false cf (Some L) c) as [c0 [v|e]] eqn:E; [|discriminate];
    intros H; injection H as <- <-; split; [exact G|]; intros _ c' Gc _;
    destruct (resolve_second L f false cf c' v (xg_seen _ _ _ _ _ Gc (resolve_first _ _ _ _ _ _ _ E)))
      as (c2 & -> & C2); exists c2; split; [reflexivity|exact C2].
  - pose proof (map_xg L f cf (Some L) c) as G.
    destruct (map_build f cf (Some L) c) as [c0 [v|e]] eqn:E; [|discriminate].
    intros H. injection H as <- <-. split; [exact G|]. intros B c' Gc Bc.
    destruct (map_first _ _ _ _ _ _ E) as (M1 & _ & u & M3).
    destruct (map_second L f cf c' v u (xg_seen _ _ _ _ _ Gc M1)) as (c2 & -> & C2).
    { rewrite <- M3. apply transform_base. exact Bc. }
    exists c2. split; [reflexivity|exact C2].
  - destruct (sigma_build f cf (Some L) c) as [c0 [[cf' vs]|e]] eqn:E; [|discriminate].
    intros H. injection H as <- <-. destruct (sigma_all _ _ _ _ _ _ _ E) as [G H2].
    split; [exact G|]. intros B c' Gc Bc. destruct (H2 B c' Gc Bc) as (c2 & -> & C2).
    exists c2. split; [reflexivity|exact C2].
Qed.

Lemma build_all_twice L f cfs : forall c c1 bs, build_all f cfs (Some L) c = (c1, bs, Ok tt) ->
  xg L (contents c) (contents c1) /\
  (base_of c1 = base_of c -> forall c', xg L (contents c1) (contents c') -> base_of c' = base_of c1 ->
   exists c'', build_all f cfs (Some L) c' = (c'', bs, Ok tt) /\ contents c'' = contents c').
Proof.
  induction cfs as [|cf cfs IH]; intros c c1 bs; cbn [build_all].
  - intros H. injection H as <- <-. split; [apply xg_refl|]. intros _ c' _ _. exists c'. split; reflexivity.
  - destruct (config_build f cf (Some L) c) as [c0 [b|e]] eqn:E; [|discriminate].
    destruct (build_all f cfs (Some L) c0) as [[c2 bs'] r] eqn:E2. intros H. injection H as <- <- ->.
    destruct (build_twice _ _ _ _ _ _ E) as [G1 H1]. destruct (IH _ _ _ E2) as [G2 H2].
    split; [eapply xg_trans; eauto|]. intros B c' Gc Bc.
    pose proof (base_between _ _ _ _ G1 G2 B) as B0.
    destruct (H1 B0 c' (xg_trans _ _ _ _ G2 Gc)) as (c3 & -> & C3); [congruence|].
    destruct (H2 ltac:(congruence) c3) as (c4 & -> & C4).
    + rewrite C3. exact Gc.
    + rewrite <- Bc. unfold base_of. rewrite C3. reflexivity.
    + exists c4. split; [reflexivity|congruence].
Qed.

Lemma init_twice L f p c c1 bs i : plugin_init f p (Some L) c = (c1, bs, Ok i) ->
  xg L (contents c) (contents c1) /\
  (base_of c1 = base_of c -> forall c', xg L (contents c1) (contents c') -> base_of c' = base_of c1 ->
   exists c'', plugin_init f p (Some L) c' = (c'', bs, Ok i) /\ contents c'' = contents c').
Proof.
  intros H. destruct (plugin_init_ok _ _ _ _ _ _ _ H) as (-> & Hb & H1 & H2 & H3).
  destruct (build_all_twice _ _ _ _ _ _ Hb) as [G H4]. split; [exact G|]. intros B c' Gc Bc.
  destruct (H4 B c' Gc Bc) as (c2 & E & C). exists c2. split; [|exact C]. unfold plugin_init.
  destruct (p_depends p); [destruct (H1 eq_refl)|]. destruct (p_provides p); [destruct (H2 eq_refl)|].
  rewrite E, H3. reflexivity.
Qed.

Lemma instantiate_twice L f plugins insts : forall acc w w1 res,
  instantiate f plugins L insts acc w = (w1, Ok res) ->
  xg L (contents (w_cache w)) (contents (w_cache w1)) /\
  (base_of (w_cache w1) = base_of (w_cache w) ->
   forall w', xg L (contents (w_cache w1)) (contents (w_cache w')) ->
     base_of (w_cache w') = base_of (w_cache w1) ->
   exists w2, instantiate f plugins L insts acc w' = (w2, Ok res) /\
     contents (w_cache w2) = contents (w_cache w')).
Proof.
  induction insts as [|[n pn] insts IH]; intros acc w w1 res; cbn [instantiate].
  - intros H. injection H as <- <-. split; [apply xg_refl|]. intros _ w' _ _. exists w'. split; reflexivity.
  - destruct (plugins pn) as [p|]; [|discriminate].
    destruct (plugin_init f p (Some L) (w_cache w)) as [[c1 bs] [i|e]] eqn:E; [|discriminate].
    intros H. destruct (init_twice _ _ _ _ _ _ _ E) as [G1 H1]. destruct (IH _ _ _ _ H) as [G2 H2].
    cbn [w_cache] in G2, H2. split; [eapply xg_trans; eauto|]. intros B w' Gc Bc.
    pose proof (base_between _ _ _ _ G1 G2 B) as B0.
    destruct (H1 B0 (w_cache w') (xg_trans _ _ _ _ G2 Gc)) as (c3 & -> & C3); [congruence|].
    destruct (H2 ltac:(congruence) (mk_world c3 (w_fn w') (w_heap w') (set pn bs (w_class w')))) as (w4 & -> & C4);
      cbn [w_cache] in *.
    + rewrite C3. exact Gc.
    + rewrite <- Bc. unfold base_of. rewrite C3. reflexivity.
    + exists w4. split; [reflexivity|congruence].
Qed.

(** The component after compile: only [k_simulate] changes. *)
Lemma compile_fields f plugins k w w' k' : compile f plugins k w = (w', k', Ok tt) ->
  exists cl, k' = mk_component (k_name k) (k_llh k) (k_rate k) (k_registry k) (k_noeff k)
    (k_worksheet k) (k_needed k) (k_func k) (k_code k) (k_compile k) (Some cl).
Proof.
  unfold compile. destruct (k_compile k) as [[pr a]|]; [|discriminate].
  destruct (imports_ok _ _); [|discriminate].
  destruct (instantiate _ _ _ _ _ w) as [w1 [insts|e]]; [|discriminate].
  destruct (get (k_llh k) _) as [a'|]; [|discriminate].
  destruct (get (k_func k) _) as [cl|]; [|discriminate].
  intros H. injection H as <- <-. exists cl. reflexivity.
Qed.

(** The namespace of a compiled component. *)
Definition bound (k : component) (w : world) : Prop :=
  exists pr a, k_compile k = Some (pr, a) /\ get (k_llh k) (w_fn w) = Some a /\
    a < List.length (w_heap w) /\ k_func k = pr_func pr /\ pr_llh pr = k_llh k.

Lemma compile_bound f plugins k w : bound k w -> bound k (fst (fst (compile f plugins k w))).
Proof.
  intros (pr & a & H1 & H2 & H3 & H4 & H5). exists pr, a.
  pose proof (compile_fn f plugins k w) as [F1 F2].
  split; [exact H1|]. rewrite F1, F2. auto.
Qed.

Lemma compile_twice f plugins k w w1 k1 w' :
  bound k w -> compile f plugins k w = (w1, k1, Ok tt) ->
  base_of (w_cache w1) = base_of (w_cache w) ->
  bound k w' -> contents (w_cache w') = contents (w_cache w1) ->
  exists w2, compile f plugins k1 w' = (w2, k1, Ok tt) /\ contents (w_cache w2) = contents (w_cache w1) /\
    bound k1 w2.
Proof.
  intros Hb H B Hb' C.
  destruct (compile_fields _ _ _ _ _ _ H) as (cl0 & Ek1).
  destruct (compile_ok _ _ _ _ _ _ H) as
    (pr & a & w3 & insts & cl & a' & E1 & E2 & E3 & E4 & E5 & E6 & E7 & _).
  destruct Hb as (pr0 & a0 & B1 & B2 & B3 & B4 & B5). rewrite E1 in B1. injection B1 as <- <-.
  destruct Hb' as (pr0 & a0 & D1 & D2 & D3 & _ & _). rewrite E1 in D1. injection D1 as <- <-.
  pose proof (instantiate_fn f plugins (pr_llh pr) (pr_insts pr) [] w) as [F1 F2].
  rewrite E3 in F1, F2. cbn [fst] in F1, F2.
  rewrite F1, B2 in E5. injection E5 as <-. rewrite E4 in E6. cbn [w_heap] in E6.
  rewrite nth_set_nth in E6 by (rewrite F2; exact B3). rewrite B4, get_set_eq in E6. injection E6 as <-.
  assert (Ecl : cl0 = mk_closure pr insts) by (rewrite Ek1 in E7; cbn in E7; congruence). subst cl0.
  assert (Cw : w_cache w1 = w_cache w3) by (rewrite E4; reflexivity).
  destruct (instantiate_twice _ _ _ _ _ _ _ _ E3) as [G Hag]. rewrite <- Cw in Hag.
  destruct (Hag B w') as (w2 & I1 & I2).
  { rewrite C. apply xg_refl. }
  { unfold base_of. rewrite C. reflexivity. }
  pose proof (instantiate_fn f plugins (pr_llh pr) (pr_insts pr) [] w') as [F3 F4].
  rewrite I1 in F3, F4. cbn [fst] in F3, F4.
  set (w9 := mk_world (w_cache w2) (w_fn w2)
       (set_nth a (set (pr_func pr) (mk_closure pr insts) (nth a (w_heap w2) [])) (w_heap w2)) (w_class w2)).
  assert (Hc : compile f plugins k1 w' = (w9, k1, Ok tt)).
  { subst k1. unfold compile. cbn [k_compile k_llh k_func]. rewrite E1, E2, I1. cbn [w_fn w_heap].
    rewrite F3, D2, nth_set_nth by (rewrite F4; exact D3).
    rewrite B4, get_set_eq. unfold w9. rewrite F3. reflexivity. }
  exists w9. split; [exact Hc|]. split; [cbn; congruence|].
  exists pr, a. rewrite Ek1. cbn. rewrite F3.
  assert (Hlen : forall {A} n (x : A) l, List.length (set_nth n x l) = List.length l).
  { clear. intros A n x l. revert n. induction l as [|y l IH]; intros [|n]; cbn; auto. }
  rewrite Hlen, F4. auto.
Qed.
