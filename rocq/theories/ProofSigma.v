(** Lemmas about maps with uncertainty. *)
From Verif Require Import Base BaseFacts ModelShare ModelConfig SpecComponent SpecConfig SpecSigma
  ProofSim ProofConfig.
Local Open Scope string_scope.

Lemma append_inj_l a b c : a ++ b = a ++ c -> b = c.
Proof. induction a as [|x a IH]; simpl; intros H; [exact H|]. injection H as H. exact (IH H). Qed.

Lemma append_longer a b : b <> "" -> a ++ b <> a.
Proof.
  intros Hb. induction a as [|x a IH]; simpl; [exact Hb|]. intros H. injection H as H. exact (IH H).
Qed.

(** What the configuration says about a part after the value [v] has been recorded for [L]. *)
Definition recorded (L : string) (c : dict value) (n : string) (v : value) (c' : dict value) : Prop :=
  (exists y, get n c = Some y /\ not_dict y /\ get n c' = Some y) \/
  (match get n c with None | Some (VDict _) => True | _ => False end /\
   exists d, get n c' = Some (VDict d) /\ get L d = Some v).

Lemma update_sigma_ok L n v c c' :
  update_sigma_cache L n v c = (c', Ok tt) ->
  recorded L (contents c) n v (contents c') /\
  forall m, m <> n -> get m (contents c') = get m (contents c).
Proof.
  unfold update_sigma_cache, rd_in, has. intros H.
  destruct (get n (contents c)) as [y|] eqn:Hg.
  - unfold rd_getitem in H. rewrite Hg in H. unfold recorded. rewrite Hg.
    destruct y as [| | | | |d];
      try (injection H as <-; split; [|reflexivity]; left; eexists; split; [reflexivity|];
           split; [intros ? ?; discriminate|exact Hg]).
    destruct (value_eqb _ v) in H; [|discriminate]. injection H as <-. cbn [contents accessed]. split.
    + right. split; [exact I|]. eexists. split; apply get_set_eq.
    + intros m Hm. apply get_set_neq. exact Hm.
  - unfold rd_getitem, rd_setitem in H. cbn [contents accessed] in H. rewrite get_set_eq in H.
    cbn [get] in H. rewrite value_eqb_refl in H. injection H as <-. cbn [contents]. unfold recorded.
    rewrite Hg. split.
    + right. split; [exact I|]. exists [(L, v)]. split; [apply get_set_eq|].
      cbn. rewrite String.eqb_refl. reflexivity.
    + intros m Hm. rewrite !get_set_neq by exact Hm. reflexivity.
Qed.

(** Building a map whose value is known. *)
Lemma map_build_known f m L c c' v :
  map_build f m (Some L) c = (c', Ok v) -> forall y, get (c_name m) (contents c) = Some y ->
  contents c' = contents c /\
  (not_dict y /\ v = y \/ exists d, y = VDict d /\ get L d = Some v).
Proof.
  intros H y Hy. pose proof (map_build_contents f m (Some L) c) as Hc. rewrite H in Hc. cbn [fst] in Hc.
  destruct (resolve_contents f true m (Some L) c) as [Hr|(Hn & _)]; [|congruence].
  split; [congruence|]. unfold map_build in H.
  destruct (resolve_cached_config f true m (Some L) c) as [c1 [v1|e]] eqn:E; [|discriminate].
  destruct (transform_value f true v1 c1) as [c2 [v2|e]]; [|discriminate]. injection H as _ <-.
  unfold resolve_cached_config, rd_in, has in E. rewrite Hy in E. unfold rd_getitem in E. rewrite Hy in E.
  destruct y as [| | | | |d]; try (injection E as _ <-; left; split; [intros ? ?; discriminate|reflexivity]).
  right. exists d. split; [reflexivity|]. unfold lookup_llh in E. destruct (get L d); [|discriminate].
  injection E as _ <-. reflexivity.
Qed.

Lemma resolve_sigma_three v m l u :
  too_long v = false -> resolve_sigma_value v 0 = Ok m -> resolve_sigma_value v 1 = Ok l ->
  resolve_sigma_value v 2 = Ok u -> documented v /\ entry v 0 m /\ entry v 1 l /\ entry v 2 u.
Proof.
  intros Ht H0 H1 H2. destruct v as [| | |s|xs|]; try discriminate; cbn in *.
  - injection H0 as <-. injection H1 as <-. injection H2 as <-.
    split; [constructor|]. repeat split; constructor; lia.
  - destruct xs as [|a [|b [|c rest]]]; try discriminate.
    cbn in H0, H1, H2. injection H0 as <-. injection H1 as <-. injection H2 as <-.
    destruct rest as [|s rest].
    + split; [constructor|]. repeat split; apply entry_three; reflexivity.
    + destruct rest; [|discriminate]. split; [constructor|]. repeat split; apply entry_four; reflexivity.
Qed.

Lemma config_init_name kd n d cf : config_init kd n d = Ok cf -> c_name cf = n.
Proof. unfold config_init. destruct d as [[]|]; intros H; try discriminate; injection H as <-; reflexivity. Qed.

Lemma sigma_loop_ok L name cfgs dflt c c' ms :
  sigma_loop (Some L) name cfgs dflt 0 sigma_names c = (c', Ok ms) ->
  exists m1 m2 m3 v1 v2 v3,
    ms = [m1; m2; m3] /\ c_name m1 = name ++ "_median" /\ c_name m2 = name ++ "_lower" /\
    c_name m3 = name ++ "_upper" /\
    resolve_sigma_value cfgs 0 = Ok v1 /\ resolve_sigma_value cfgs 1 = Ok v2 /\
    resolve_sigma_value cfgs 2 = Ok v3 /\
    (exists d1 d2 d3, resolve_sigma_value dflt 0 = Ok d1 /\ resolve_sigma_value dflt 1 = Ok d2 /\
      resolve_sigma_value dflt 2 = Ok d3) /\
    recorded L (contents c) (name ++ "_median") v1 (contents c') /\
    recorded L (contents c) (name ++ "_lower") v2 (contents c') /\
    recorded L (contents c) (name ++ "_upper") v3 (contents c').
Proof.
  unfold sigma_names. cbn [sigma_loop]. intros H.
  change ("_" ++ "median") with "_median" in H. change ("_" ++ "lower") with "_lower" in H.
  change ("_" ++ "upper") with "_upper" in H.
  assert (N1 : name ++ "_median" <> name ++ "_lower") by (intros E; apply append_inj_l in E; discriminate).
  assert (N2 : name ++ "_median" <> name ++ "_upper") by (intros E; apply append_inj_l in E; discriminate).
  assert (N3 : name ++ "_lower" <> name ++ "_upper") by (intros E; apply append_inj_l in E; discriminate).
  destruct (resolve_sigma_value dflt 0) as [d1|e] eqn:D1; [|discriminate].
  destruct (config_init KMap (name ++ "_median") (Some d1)) as [m1|e] eqn:M1; [|discriminate].
  destruct (resolve_sigma_value cfgs 0) as [v1|e] eqn:V1; [|discriminate].
  rewrite (config_init_name _ _ _ _ M1) in H.
  destruct (update_sigma_cache L (name ++ "_median") v1 c) as [c1 [[]|e]] eqn:U1; [|discriminate].
  destruct (resolve_sigma_value dflt 1) as [d2|e] eqn:D2; [|discriminate].
  destruct (config_init KMap (name ++ "_lower") (Some d2)) as [m2|e] eqn:M2; [|discriminate].
  destruct (resolve_sigma_value cfgs 1) as [v2|e] eqn:V2; [|discriminate].
  rewrite (config_init_name _ _ _ _ M2) in H.
  destruct (update_sigma_cache L (name ++ "_lower") v2 c1) as [c2 [[]|e]] eqn:U2; [|discriminate].
  destruct (resolve_sigma_value dflt 2) as [d3|e] eqn:D3; [|discriminate].
  destruct (config_init KMap (name ++ "_upper") (Some d3)) as [m3|e] eqn:M3; [|discriminate].
  destruct (resolve_sigma_value cfgs 2) as [v3|e] eqn:V3; [|discriminate].
  rewrite (config_init_name _ _ _ _ M3) in H.
  destruct (update_sigma_cache L (name ++ "_upper") v3 c2) as [c3 [[]|e]] eqn:U3; [|discriminate].
  injection H as <- <-.
  destruct (update_sigma_ok _ _ _ _ _ U1) as [R1 F1].
  destruct (update_sigma_ok _ _ _ _ _ U2) as [R2 F2].
  destruct (update_sigma_ok _ _ _ _ _ U3) as [R3 F3].
  exists m1, m2, m3, v1, v2, v3. split; [reflexivity|].
  split; [exact (config_init_name _ _ _ _ M1)|]. split; [exact (config_init_name _ _ _ _ M2)|].
  split; [exact (config_init_name _ _ _ _ M3)|]. split; [reflexivity|]. split; [reflexivity|].
  split; [reflexivity|]. split; [exists d1, d2, d3; auto|].
  unfold recorded in *. split; [|split].
  - rewrite F3, F2 by congruence. exact R1.
  - rewrite F1 in R2 by congruence. rewrite F3 by congruence. exact R2.
  - rewrite F2, F1 in R3 by congruence. exact R3.
Qed.

Lemma recorded_part L c n v c' : recorded L c n v c' ->
  exists y, get n c' = Some y /\
    forall x, (not_dict y /\ x = y \/ exists d, y = VDict d /\ get L d = Some x) ->
      (exists z, get n c = Some z /\ not_dict z /\ x = z) \/
      (match get n c with None | Some (VDict _) => True | _ => False end /\ x = v).
Proof.
  intros [(y & H1 & H2 & H3)|(H1 & d & H2 & H3)].
  - exists y. split; [exact H3|]. intros x [[_ ->]|(d & -> & _)]; [left; eauto|].
    destruct (H2 d eq_refl).
  - exists (VDict d). split; [exact H2|]. intros x [[Hn _]|(d' & E & Hx)]; [destruct (Hn d eq_refl)|].
    injection E as <-. right. split; [exact H1|congruence].
Qed.

Lemma resolve_three f m1 m2 m3 L c c' vs y1 y2 y3 :
  resolve_maps f [m1; m2; m3] (Some L) c = (c', Ok vs) ->
  get (c_name m1) (contents c) = Some y1 -> get (c_name m2) (contents c) = Some y2 ->
  get (c_name m3) (contents c) = Some y3 ->
  exists x1 x2 x3, vs = [x1; x2; x3] /\
    (not_dict y1 /\ x1 = y1 \/ exists d, y1 = VDict d /\ get L d = Some x1) /\
    (not_dict y2 /\ x2 = y2 \/ exists d, y2 = VDict d /\ get L d = Some x2) /\
    (not_dict y3 /\ x3 = y3 \/ exists d, y3 = VDict d /\ get L d = Some x3).
Proof.
  cbn [resolve_maps]. intros H H1 H2 H3.
  destruct (map_build f m1 (Some L) c) as [c1 [x1|e]] eqn:B1; [|discriminate].
  destruct (map_build_known _ _ _ _ _ _ B1 _ H1) as [C1 P1].
  destruct (map_build f m2 (Some L) c1) as [c2 [x2|e]] eqn:B2; [|discriminate].
  rewrite <- C1 in H2. destruct (map_build_known _ _ _ _ _ _ B2 _ H2) as [C2 P2].
  destruct (map_build f m3 (Some L) c2) as [c3 [x3|e]] eqn:B3; [|discriminate].
  rewrite <- C1, <- C2 in H3. destruct (map_build_known _ _ _ _ _ _ B3 _ H3) as [C3 P3].
  injection H as <- <-. exists x1, x2, x3. auto.
Qed.

Lemma get_configs_ok cf L c c' v :
  get_configs cf (Some L) c = (c', Ok v) -> (forall d, c_default cf <> Some (VDict d)) ->
  value_for (contents c) cf L v /\
  (contents c' = contents c \/ exists y, contents c' = set (c_name cf) y (contents c)).
Proof.
  intros H Hd. split.
  - unfold get_configs, rd_in, has, value_for in *.
    destruct (get (c_name cf) (contents c)) as [y|] eqn:Hg.
    + unfold rd_getitem in H. rewrite Hg in H. destruct y; try (injection H as _ <-; reflexivity).
      unfold lookup_llh in H. destruct (get L d); [|discriminate]. injection H as _ <-. reflexivity.
    + unfold get_default in H. destruct (c_default cf) as [y|] eqn:E; [|discriminate].
      destruct y; try (injection H as _ <-; reflexivity). destruct (Hd d eq_refl).
  - pose proof (get_configs_contents cf (Some L) c) as Hc. rewrite H in Hc. cbn [fst] in Hc.
    destruct Hc as [->|(_ & y & _ & ->)]; eauto.
Qed.

Lemma sigma_build_files f cf L c c' cf' vs :
  (forall d, c_default cf <> Some (VDict d)) ->
  sigma_build f cf (Some L) c = (c', Ok (cf', vs)) ->
  exists v m l u, value_for (contents c) cf L v /\ documented v /\ vs = [m; l; u] /\
    part_file (contents c) (c_name cf ++ "_median") v 0 m /\
    part_file (contents c) (c_name cf ++ "_lower") v 1 l /\
    part_file (contents c) (c_name cf ++ "_upper") v 2 u.
Proof.
  intros Hd H. unfold sigma_build in H.
  set (cf1 := mk_config (c_kind cf) (c_name cf) (c_default cf) (Some L)) in *.
  change (get_configs cf1 None c) with (get_configs cf (Some L) c) in H.
  destruct (get_configs cf (Some L) c) as [c1 [cfgs|e]] eqn:G; [|discriminate].
  destruct (get_configs_ok _ _ _ _ _ G Hd) as [Hv Hc1].
  destruct (get_default cf1) as [dflt|e]; [|discriminate].
  destruct (too_long cfgs) eqn:T1; [discriminate|]. destruct (too_long dflt); [discriminate|].
  cbn [orb] in H.
  destruct (sigma_loop (Some L) (c_name cf) cfgs dflt 0 sigma_names c1) as [c2 [ms|e]] eqn:Lp;
    [|discriminate].
  destruct (resolve_maps f ms (Some L) c2) as [c3 [ws|e]] eqn:Rm; [|discriminate].
  injection H as <- <- <-.
  destruct (sigma_loop_ok _ _ _ _ _ _ _ Lp) as
    (m1 & m2 & m3 & v1 & v2 & v3 & -> & N1 & N2 & N3 & V1 & V2 & V3 & _ & R1 & R2 & R3).
  destruct (recorded_part _ _ _ _ _ R1) as (y1 & Y1 & K1).
  destruct (recorded_part _ _ _ _ _ R2) as (y2 & Y2 & K2).
  destruct (recorded_part _ _ _ _ _ R3) as (y3 & Y3 & K3).
  rewrite <- N1 in Y1. rewrite <- N2 in Y2. rewrite <- N3 in Y3.
  destruct (resolve_three _ _ _ _ _ _ _ _ _ _ _ Rm Y1 Y2 Y3) as (x1 & x2 & x3 & -> & X1 & X2 & X3).
  destruct (resolve_sigma_three _ _ _ _ T1 V1 V2 V3) as (Doc & E1 & E2 & E3).
  assert (Hother : forall s, s <> "" -> get (c_name cf ++ s) (contents c1) = get (c_name cf ++ s) (contents c)).
  { intros s Hs. destruct Hc1 as [->|(y & ->)]; [reflexivity|]. apply get_set_neq.
    apply append_longer. exact Hs. }
  exists cfgs, x1, x2, x3. split; [exact Hv|]. split; [exact Doc|]. split; [reflexivity|].
  unfold part_file.
  specialize (K1 _ X1). specialize (K2 _ X2). specialize (K3 _ X3).
  rewrite Hother in K1, K2, K3 by discriminate.
  split; [|split].
  - destruct K1 as [K1|[K1 ->]]; [left; exact K1|right; auto].
  - destruct K2 as [K2|[K2 ->]]; [left; exact K2|right; auto].
  - destruct K3 as [K3|[K3 ->]]; [left; exact K3|right; auto].
Qed.

(** Undocumented values never build. *)
Lemma sigma_build_refuses f cf L c v :
  (forall d, c_default cf <> Some (VDict d)) ->
  value_for (contents c) cf L v -> ~ documented v ->
  exists e, snd (sigma_build f cf (Some L) c) = Err e.
Proof.
  intros Hd Hv Hn. destruct (sigma_build f cf (Some L) c) as [c' [[cf' vs]|e]] eqn:H; [|eexists; reflexivity].
  exfalso. destruct (sigma_build_files _ _ _ _ _ _ _ Hd H) as (v' & m & l & u & Hv' & Hdoc & _).
  apply Hn. replace v with v'; [exact Hdoc|]. unfold value_for in *.
  destruct (get (c_name cf) (contents c)) as [[]|]; congruence.
Qed.

(** Another file recorded for the same part and likelihood. *)
Lemma sigma_build_conflict f cf L c v i s x d y :
  (forall d, c_default cf <> Some (VDict d)) ->
  value_for (contents c) cf L v -> entry v i x ->
  nth_error ["_median"; "_lower"; "_upper"] i = Some s ->
  get (c_name cf ++ s) (contents c) = Some (VDict d) -> get L d = Some y -> value_eqb y x = false ->
  exists e, snd (sigma_build f cf (Some L) c) = Err e.
Proof.
  intros Hd Hv He Hi Hg Hl Hne. pose proof (sigma_build_grows f cf (Some L) c) as G.
  destruct (sigma_build f cf (Some L) c) as [c' [[cf' vs]|e]] eqn:H; [|eexists; reflexivity]. exfalso.
  cbn [fst] in G. unfold sigma_build in H.
  set (cf1 := mk_config (c_kind cf) (c_name cf) (c_default cf) (Some L)) in *.
  change (get_configs cf1 None c) with (get_configs cf (Some L) c) in H.
  destruct (get_configs cf (Some L) c) as [c1 [cfgs|e]] eqn:G1; [|discriminate].
  destruct (get_configs_ok _ _ _ _ _ G1 Hd) as [Hv1 Hc1].
  assert (cfgs = v) as ->.
  { unfold value_for in *. destruct (get (c_name cf) (contents c)) as [[]|]; congruence. }
  destruct (get_default cf1) as [dflt|e]; [|discriminate].
  destruct (too_long v) eqn:T1; [discriminate|]. destruct (too_long dflt); [discriminate|].
  cbn [orb] in H.
  destruct (sigma_loop (Some L) (c_name cf) v dflt 0 sigma_names c1) as [c2 [ms|e]] eqn:Lp;
    [|discriminate].
  pose proof (sigma_loop_grows (Some L) (c_name cf) v dflt sigma_names 0 c1) as G2.
  rewrite Lp in G2. cbn [fst] in G2.
  destruct (sigma_loop_ok _ _ _ _ _ _ _ Lp) as
    (m1 & m2 & m3 & v1 & v2 & v3 & _ & _ & _ & _ & V1 & V2 & V3 & _ & R1 & R2 & R3).
  assert (Hg1 : get (c_name cf ++ s) (contents c1) = Some (VDict d)).
  { destruct Hc1 as [->|(z & ->)]; [exact Hg|]. rewrite get_set_neq; [exact Hg|].
    apply append_longer. intros ->. destruct i as [|[|[|i]]]; try discriminate. destruct i; discriminate. }
  assert (Hrec : exists xi, resolve_sigma_value v i = Ok xi /\
    recorded L (contents c1) (c_name cf ++ s) xi (contents c2)).
  { destruct i as [|[|[|i]]]; cbn in Hi.
    - injection Hi as <-. eauto.
    - injection Hi as <-. eauto.
    - injection Hi as <-. eauto.
    - destruct i; discriminate. }
  destruct Hrec as (xi & Hxi & Hrec).
  assert (xi = x) as ->.
  { inversion He; subst; cbn in Hxi.
    - injection Hxi as <-. reflexivity.
    - rewrite H0 in Hxi. injection Hxi as <-. reflexivity.
    - destruct i as [|[|[|i]]]; cbn in *; try congruence. destruct i; discriminate. }
  destruct (G2 _ _ Hg1) as (z & Hz & E). cbn in E. destruct E as (d' & -> & E).
  destruct (E L y Hl) as (y' & Hy' & Hyy).
  destruct Hrec as [(w & W1 & W2 & W3)|(_ & d2 & W2 & W3)].
  - rewrite Hg1 in W1. injection W1 as <-. destruct (W2 d eq_refl).
  - rewrite Hz in W2. injection W2 as <-. rewrite Hy' in W3. injection W3 as ->. congruence.
Qed.
