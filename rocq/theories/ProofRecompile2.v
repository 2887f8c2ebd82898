(** Compilation does not depend on which configs have been accessed. *)
From Verif Require Import Base BaseFacts ModelShare ModelConfig ModelComponent ModelCompile ProofConfig
  ProofCompile ProofHistory ProofRecompile.
Local Open Scope string_scope.

Definition alike {A} (x y : rdict * A) : Prop := contents (fst x) = contents (fst y) /\ snd x = snd y.

Lemma path_alike f s c c' : contents c = contents c' -> alike (get_file_path f s c) (get_file_path f s c').
Proof.
  intros H. split; [rewrite !get_file_path_contents; exact H|].
  apply path_base. unfold base_of. rewrite H. reflexivity.
Qed.

Lemma transform_alike f tr v c c' : contents c = contents c' ->
  alike (transform_value f tr v c) (transform_value f tr v c').
Proof.
  intros H. split; [rewrite !transform_contents; exact H|].
  apply transform_base. unfold base_of. rewrite H. reflexivity.
Qed.

Lemma resolve_alike f tr cf llh c c' : contents c = contents c' ->
  alike (resolve_cached_config f tr cf llh c) (resolve_cached_config f tr cf llh c').
Proof.
  intros H. unfold resolve_cached_config, rd_in, rd_getitem. rewrite H.
  destruct (has (c_name cf) (contents c')).
  - destruct (get (c_name cf) (contents c')) as [[ | | | | |d]|]; split; cbn; auto.
  - destruct (get_default cf) as [v|e]; [|split; cbn; auto].
    destruct (transform_alike f tr v c c' H) as [T1 T2].
    destruct (transform_value f tr v c) as [c1 r1], (transform_value f tr v c') as [c2 r2]. cbn in T1, T2.
    subst r2. destruct r1 as [[ | | | | |d]|e]; split; cbn; auto; rewrite T1; reflexivity.
Qed.

Lemma configs_alike cf llh c c' : contents c = contents c' ->
  alike (get_configs cf llh c) (get_configs cf llh c').
Proof.
  intros H. unfold get_configs, rd_in, rd_getitem. rewrite H.
  destruct (has (c_name cf) (contents c')).
  - destruct (get (c_name cf) (contents c')) as [[ | | | | |d]|]; split; cbn; auto.
  - destruct (get_default cf) as [[ | | | | |d]|e]; split; cbn; auto; rewrite H; reflexivity.
Qed.

Lemma update_alike L n v c c' : contents c = contents c' ->
  alike (update_sigma_cache L n v c) (update_sigma_cache L n v c').
Proof.
  intros H. unfold update_sigma_cache, rd_in. rewrite H.
  destruct (has n (contents c')); cbn [rd_getitem rd_setitem contents accessed]; rewrite H.
  - destruct (get n (contents c')) as [[ | | | | |d]|]; try solve [split; cbn; auto].
    destruct (value_eqb _ v); split; cbn; congruence.
  - rewrite !get_set_eq. cbn [get]. destruct (value_eqb v v); split; cbn; congruence.
Qed.

Lemma loop_alike llh name cfgs dflt sgs : forall i c c', contents c = contents c' ->
  alike (sigma_loop llh name cfgs dflt i sgs c) (sigma_loop llh name cfgs dflt i sgs c').
Proof.
  induction sgs as [|sg sgs IH]; intros i c c' H; cbn [sigma_loop]; [split; cbn; auto|].
  destruct (resolve_sigma_value dflt i) as [d|e]; [|split; cbn; auto].
  destruct (config_init _ _ _) as [m|e]; [|split; cbn; auto].
  assert (U : alike (match llh with
                     | None => (c, Ok tt)
                     | Some l => match resolve_sigma_value cfgs i with
                                 | Err e => (c, Err e)
                                 | Ok v => update_sigma_cache l (c_name m) v c end end)
                    (match llh with
                     | None => (c', Ok tt)
                     | Some l => match resolve_sigma_value cfgs i with
                                 | Err e => (c', Err e)
                                 | Ok v => update_sigma_cache l (c_name m) v c' end end)).
  { destruct llh as [l|]; [|split; cbn; auto]. destruct (resolve_sigma_value cfgs i); [|split; cbn; auto].
    apply update_alike, H. }
  destruct U as [U1 U2].
  destruct (match llh with
     | None => (c, Ok tt)
     | Some l => match resolve_sigma_value cfgs i with
                 | Err e => (c, Err e)
                 | Ok v => update_sigma_cache l (c_name m) v c end end) as [c1 r1].
  destruct (match llh with
     | None => (c', Ok tt)
     | Some l => match resolve_sigma_value cfgs i with
                 | Err e => (c', Err e)
                 | Ok v => update_sigma_cache l (c_name m) v c' end end) as [c2 r2].
  cbn in U1, U2. subst r2. destruct r1 as [[]|e]; [|split; cbn; auto].
  destruct (IH (S i) c1 c2 U1) as [I1 I2].
  destruct (sigma_loop llh name cfgs dflt (S i) sgs c1), (sigma_loop llh name cfgs dflt (S i) sgs c2).
  cbn in I1, I2. subst. split; cbn; auto.
Qed.

Lemma map_alike f m llh c c' : contents c = contents c' -> alike (map_build f m llh c) (map_build f m llh c').
Proof.
  intros H. unfold map_build. destruct (resolve_alike f true m llh c c' H) as [R1 R2].
  destruct (resolve_cached_config f true m llh c) as [c1 r1], (resolve_cached_config f true m llh c') as [c2 r2].
  cbn in R1, R2. subst r2. destruct r1 as [v|e]; [|split; cbn; auto].
  destruct (transform_alike f true v c1 c2 R1) as [T1 T2].
  destruct (transform_value f true v c1), (transform_value f true v c2). cbn in T1, T2. subst. split; cbn; auto.
Qed.

Lemma maps_alike f ms llh : forall c c', contents c = contents c' ->
  alike (resolve_maps f ms llh c) (resolve_maps f ms llh c').
Proof.
  induction ms as [|m ms IH]; intros c c' H; cbn [resolve_maps]; [split; cbn; auto|].
  destruct (map_alike f m llh c c' H) as [R1 R2].
  destruct (map_build f m llh c) as [c1 r1], (map_build f m llh c') as [c2 r2].
  cbn in R1, R2. subst r2. destruct r1 as [v|e]; [|split; cbn; auto].
  destruct (IH c1 c2 R1) as [I1 I2].
  destruct (resolve_maps f ms llh c1), (resolve_maps f ms llh c2). cbn in I1, I2. subst. split; cbn; auto.
Qed.

Lemma sigma_alike f cf llh c c' : contents c = contents c' ->
  alike (sigma_build f cf llh c) (sigma_build f cf llh c').
Proof.
  intros H. unfold sigma_build. set (cf0 := mk_config _ _ _ _).
  destruct (configs_alike cf0 None c c' H) as [R1 R2].
  destruct (get_configs cf0 None c) as [c1 r1], (get_configs cf0 None c') as [c2 r2].
  cbn in R1, R2. subst r2. destruct r1 as [v|e]; [|split; cbn; auto].
  destruct (get_default cf0) as [d|e]; [|split; cbn; auto].
  destruct (too_long v || too_long d); [split; cbn; auto|].
  destruct (loop_alike llh (c_name cf) v d sigma_names 0 c1 c2 R1) as [L1 L2].
  destruct (sigma_loop llh (c_name cf) v d 0 sigma_names c1) as [c3 r3],
    (sigma_loop llh (c_name cf) v d 0 sigma_names c2) as [c4 r4].
  cbn in L1, L2. subst r4. destruct r3 as [ms|e]; [|split; cbn; auto].
  destruct (maps_alike f ms llh c3 c4 L1) as [I1 I2].
  destruct (resolve_maps f ms llh c3), (resolve_maps f ms llh c4). cbn in I1, I2. subst. split; cbn; auto.
Qed.

Lemma build_alike f cf llh c c' : contents c = contents c' ->
  alike (config_build f cf llh c) (config_build f cf llh c').
Proof.
  intros H. unfold config_build. destruct (c_kind cf).
  1, 4: destruct (resolve_alike f false cf llh c c' H) as [I1 I2];
    destruct (resolve_cached_config f false cf llh c), (resolve_cached_config f false cf llh c');
    cbn in I1, I2; subst; split; cbn; auto.
  - destruct (map_alike f cf llh c c' H) as [I1 I2].
    destruct (map_build f cf llh c), (map_build f cf llh c'). cbn in I1, I2. subst. split; cbn; auto.
  - destruct (sigma_alike f cf llh c c' H) as [I1 I2].
    destruct (sigma_build f cf llh c), (sigma_build f cf llh c'). cbn in I1, I2. subst. split; cbn; auto.
Qed.

Lemma build_all_alike f cfs llh : forall c c', contents c = contents c' ->
  contents (fst (fst (build_all f cfs llh c))) = contents (fst (fst (build_all f cfs llh c'))) /\
  snd (fst (build_all f cfs llh c)) = snd (fst (build_all f cfs llh c')) /\
  snd (build_all f cfs llh c) = snd (build_all f cfs llh c').
Proof.
  induction cfs as [|cf cfs IH]; intros c c' H; cbn [build_all]; [cbn; auto|].
  destruct (build_alike f cf llh c c' H) as [R1 R2].
  destruct (config_build f cf llh c) as [c1 r1], (config_build f cf llh c') as [c2 r2].
  cbn in R1, R2. subst r2. destruct r1 as [v|e]; [|cbn; auto].
  destruct (IH c1 c2 R1) as (I1 & I2 & I3).
  destruct (build_all f cfs llh c1) as [[? ?] ?], (build_all f cfs llh c2) as [[? ?] ?]. cbn in *.
  repeat split; congruence.
Qed.

Lemma init_alike f p llh c c' : contents c = contents c' ->
  contents (fst (fst (plugin_init f p llh c))) = contents (fst (fst (plugin_init f p llh c'))) /\
  snd (fst (plugin_init f p llh c)) = snd (fst (plugin_init f p llh c')) /\
  snd (plugin_init f p llh c) = snd (plugin_init f p llh c').
Proof.
  intros H. unfold plugin_init. destruct (p_depends p); [cbn; auto|]. destruct (p_provides p); [cbn; auto|].
  destruct (build_all_alike f (map snd (p_configs p)) llh c c' H) as (I1 & I2 & I3).
  destruct (build_all f _ llh c) as [[? ?] r1], (build_all f _ llh c') as [[? ?] r2]. cbn in *. subst.
  destruct r2 as [[]|e]; cbn; auto.
Qed.

Lemma instantiate_alike f plugins llh insts : forall acc w w',
  contents (w_cache w) = contents (w_cache w') ->
  contents (w_cache (fst (instantiate f plugins llh insts acc w))) =
    contents (w_cache (fst (instantiate f plugins llh insts acc w'))) /\
  snd (instantiate f plugins llh insts acc w) = snd (instantiate f plugins llh insts acc w').
Proof.
  induction insts as [|[n pn] insts IH]; intros acc w w' H; cbn [instantiate]; [cbn; auto|].
  destruct (plugins pn) as [p|]; [|cbn; auto].
  destruct (init_alike f p (Some llh) (w_cache w) (w_cache w') H) as (I1 & I2 & I3).
  destruct (plugin_init f p (Some llh) (w_cache w)) as [[c1 b1] r1].
  destruct (plugin_init f p (Some llh) (w_cache w')) as [[c2 b2] r2]. cbn in I1, I2, I3. subst.
  destruct r2 as [i|e]; [|cbn; auto]. apply IH. exact I1.
Qed.

(** Compiling from a state with the same configs and the same functions. *)
Lemma compile_alike f plugins k w w' w1 k1 :
  bound k w -> bound k w' -> contents (w_cache w) = contents (w_cache w') ->
  compile f plugins k w = (w1, k1, Ok tt) ->
  exists w2, compile f plugins k w' = (w2, k1, Ok tt) /\ contents (w_cache w2) = contents (w_cache w1).
Proof.
  intros (pr & a & B1 & B2 & B3 & B4 & B5) (pr' & a' & B1' & B2' & B3' & _) H Hc.
  rewrite B1 in B1'. injection B1' as <- <-.
  destruct (compile_fields _ _ _ _ _ _ Hc) as (cl0 & Ek1).
  destruct (compile_ok _ _ _ _ _ _ Hc) as
    (pr0 & a0 & w3 & insts & cl & a' & E1 & E2 & E3 & E4 & E5 & E6 & E7 & _).
  rewrite B1 in E1. injection E1 as <- <-.
  pose proof (instantiate_fn f plugins (pr_llh pr) (pr_insts pr) [] w) as [F1 F2].
  rewrite E3 in F1, F2. cbn [fst] in F1, F2.
  rewrite F1, B2 in E5. injection E5 as <-. rewrite E4 in E6. cbn [w_heap] in E6.
  rewrite nth_set_nth in E6 by (rewrite F2; exact B3). rewrite B4, get_set_eq in E6. injection E6 as <-.
  assert (Ecl : cl0 = mk_closure pr insts) by (rewrite Ek1 in E7; cbn in E7; congruence). subst cl0.
  destruct (instantiate_alike f plugins (pr_llh pr) (pr_insts pr) [] w w' H) as [I1 I2].
  pose proof (instantiate_fn f plugins (pr_llh pr) (pr_insts pr) [] w') as [F3 F4].
  rewrite E3 in I1, I2. cbn [fst snd] in I1, I2.
  destruct (instantiate f plugins (pr_llh pr) (pr_insts pr) [] w') as [w4 r4] eqn:I4. cbn [fst snd] in *. subst r4.
  eexists. split.
  - unfold compile. rewrite B1, E2, I4. cbn [w_fn w_heap].
    rewrite F3, B2', nth_set_nth by (rewrite F4; exact B3').
    rewrite B4, get_set_eq, Ek1, B4, B1. reflexivity.
  - cbn. rewrite E4. symmetry. exact I1.
Qed.
