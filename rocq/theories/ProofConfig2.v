(** Lemmas about unused configs, set_global_config, takes_config, the parameter a SigmaMap
    requires, and file lookup. *)
From Verif Require Import Base BaseFacts ModelShare ModelConfig ModelComponent SpecComponent SpecConfig
  ProofComponent ProofWorkflow ProofSim ProofConfig.
Local Open Scope string_scope.

(* ------------------------------------------------------------------ *)
(** * Which keys are recorded as looked up *)

Definition only_adds (ns : list string) (c c' : rdict) : Prop :=
  (forall n, In n (accessed c) -> In n (accessed c')) /\
  (forall n, In n (accessed c') -> In n (accessed c) \/ In n ns).

Lemma only_adds_refl ns c : only_adds ns c c.
Proof. split; auto. Qed.

Lemma only_adds_trans ns a b c : only_adds ns a b -> only_adds ns b c -> only_adds ns a c.
Proof.
  intros [H1 H2] [H3 H4]. split; [auto|]. intros n Hn. destruct (H4 n Hn) as [H|H]; auto.
Qed.

Lemma only_adds_weaken ns ns' c c' : only_adds ns c c' -> (forall n, In n ns -> In n ns') ->
  only_adds ns' c c'.
Proof. intros [H1 H2] Hi. split; [exact H1|]. intros n Hn. destruct (H2 n Hn); auto. Qed.

Lemma only_adds_add1 k ns cts cts' a : In k ns -> only_adds ns (mk_rdict cts a) (mk_rdict cts' (add1 k a)).
Proof.
  intros Hk. split; simpl; intros n Hn.
  - apply add1_In. auto.
  - apply add1_In in Hn. destruct Hn as [->|Hn]; auto.
Qed.

Lemma only_adds_add1' k ns c cts' : In k ns -> only_adds ns c (mk_rdict cts' (add1 k (accessed c))).
Proof. destruct c. apply only_adds_add1. Qed.

Lemma file_path_acc f s c : only_adds ["url_base"] c (fst (get_file_path f s c)).
Proof.
  unfold get_file_path. destruct (isfile f s); [apply only_adds_refl|].
  destruct (rd_in "url_base" c); [|apply only_adds_refl].
  unfold rd_getitem.
  destruct (get "url_base" (contents c)) as [[ |b|z|s0|l|d]|];
    try (simpl fst; apply only_adds_add1'; left; reflexivity).
  destruct (starts_with_slash s0); [|simpl fst; apply only_adds_add1'; left; reflexivity].
  destruct (path_exists f (path_join s0 s)); simpl fst; apply only_adds_add1'; left; reflexivity.
Qed.

Lemma transform_acc f tr v c : only_adds ["url_base"] c (fst (transform_value f tr v c)).
Proof.
  unfold transform_value. destruct tr; [|apply only_adds_refl].
  destruct v; try apply only_adds_refl. pose proof (file_path_acc f s c) as H.
  destruct (get_file_path f s c). exact H.
Qed.

Lemma resolve_acc f tr cf llh c :
  only_adds [c_name cf; "url_base"] c (fst (resolve_cached_config f tr cf llh c)) /\
  (is_ok (snd (resolve_cached_config f tr cf llh c)) = true ->
   In (c_name cf) (accessed (fst (resolve_cached_config f tr cf llh c)))).
Proof.
  unfold resolve_cached_config. destruct (rd_in (c_name cf) c) eqn:Hin.
  - unfold rd_getitem. destruct (get (c_name cf) (contents c)) as [v|].
    + assert (H : only_adds [c_name cf; "url_base"] c
                 (mk_rdict (contents c) (add1 (c_name cf) (accessed c))))
        by (apply only_adds_add1'; left; reflexivity).
      assert (H' : In (c_name cf) (add1 (c_name cf) (accessed c))) by (apply add1_In; auto).
      destruct v; simpl; auto.
    + split; [apply only_adds_add1'; left; reflexivity|discriminate].
  - destruct (get_default cf) as [v|e]; [|split; [apply only_adds_refl|discriminate]].
    pose proof (transform_acc f tr v c) as H.
    destruct (transform_value f tr v c) as [c1 r]. simpl in H.
    assert (H1 : only_adds [c_name cf; "url_base"] c c1).
    { eapply only_adds_weaken; [exact H|]. intros n [<-|[]]. right. left. reflexivity. }
    destruct r as [v'|e]; [|split; [exact H1|discriminate]].
    assert (H2 : only_adds [c_name cf; "url_base"] c (rd_setitem (c_name cf) v' c1)).
    { eapply only_adds_trans; [exact H1|]. apply only_adds_add1'. left. reflexivity. }
    assert (H' : In (c_name cf) (accessed (rd_setitem (c_name cf) v' c1)))
      by (simpl; apply add1_In; auto).
    destruct v'; simpl; auto.
Qed.

Lemma get_configs_acc cf llh c :
  only_adds [c_name cf] c (fst (get_configs cf llh c)) /\
  (is_ok (snd (get_configs cf llh c)) = true ->
   In (c_name cf) (accessed (fst (get_configs cf llh c)))).
Proof.
  unfold get_configs. destruct (rd_in (c_name cf) c) eqn:Hin.
  - unfold rd_getitem. destruct (get (c_name cf) (contents c)) as [v|].
    + assert (H : only_adds [c_name cf] c
                 (mk_rdict (contents c) (add1 (c_name cf) (accessed c))))
        by (apply only_adds_add1'; left; reflexivity).
      assert (H' : In (c_name cf) (add1 (c_name cf) (accessed c))) by (apply add1_In; auto).
      destruct v; simpl; auto.
    + split; [apply only_adds_add1'; left; reflexivity|discriminate].
  - destruct (get_default cf) as [v|e]; [|split; [apply only_adds_refl|discriminate]].
    assert (H2 : only_adds [c_name cf] c (rd_setitem (c_name cf) v c)).
    { apply only_adds_add1'. left. reflexivity. }
    assert (H' : In (c_name cf) (accessed (rd_setitem (c_name cf) v c)))
      by (simpl; apply add1_In; auto).
    destruct v; simpl; auto.
Qed.

Lemma required_acc cf llh c :
  only_adds [c_name cf] c (fst (required_parameter cf llh c)) /\
  (c_kind cf = KSigmaMap -> is_ok (snd (required_parameter cf llh c)) = true ->
   In (c_name cf) (accessed (fst (required_parameter cf llh c)))).
Proof.
  unfold required_parameter. destruct (c_kind cf); try (split; [apply only_adds_refl|discriminate]).
  destruct (get_configs_acc cf llh c) as [H1 H2]. destruct (get_configs cf llh c) as [c1 r].
  split; [exact H1|]. intros _ Hok. apply H2. simpl in *. destruct r; [reflexivity|discriminate].
Qed.

Lemma update_sigma_acc l n v c : only_adds [n] c (fst (update_sigma_cache l n v c)).
Proof.
  unfold update_sigma_cache.
  set (c0 := if rd_in n c then c else rd_setitem n (VDict []) c).
  assert (H0 : only_adds [n] c c0).
  { unfold c0. destruct (rd_in n c); [apply only_adds_refl|].
    apply only_adds_add1'. left. reflexivity. }
  eapply only_adds_trans; [exact H0|]. unfold rd_getitem.
  destruct (get n (contents c0)) as [[ |b|z|s|l0|d]|];
    try (simpl fst; apply only_adds_add1'; left; reflexivity).
  destruct (value_eqb _ v); simpl fst; apply only_adds_add1'; left; reflexivity.
Qed.

Lemma sigma_loop_acc llh name cfgs dflt sigmas ns : forall i c,
  (forall sg, In sg sigmas -> In (name ++ "_" ++ sg) ns) ->
  only_adds ns c (fst (sigma_loop llh name cfgs dflt i sigmas c)) /\
  (forall ms, snd (sigma_loop llh name cfgs dflt i sigmas c) = Ok ms ->
     forall m, In m ms -> In (c_name m) ns).
Proof.
  induction sigmas as [|sg rest IH]; cbn [sigma_loop]; intros i c Hs.
  { split; [apply only_adds_refl|]. intros ms H. injection H as <-. intros m []. }
  destruct (resolve_sigma_value dflt i) as [d|e]; [|split; [apply only_adds_refl|discriminate]].
  destruct (config_init KMap (name ++ "_" ++ sg) (Some d)) as [m|e] eqn:Hm;
    [|split; [apply only_adds_refl|discriminate]].
  assert (Hmn : c_name m = name ++ "_" ++ sg).
  { unfold config_init in Hm. destruct d; try discriminate; injection Hm as <-; reflexivity. }
  assert (Hin : In (c_name m) ns) by (rewrite Hmn; apply Hs; left; reflexivity).
  assert (Hrest : forall sg0, In sg0 rest -> In (name ++ "_" ++ sg0) ns)
    by (intros; apply Hs; right; assumption).
  assert (Hgo : forall c1, only_adds ns c c1 ->
    only_adds ns c (fst (let '(c2, r2) := sigma_loop llh name cfgs dflt (S i) rest c1 in
       (c2, match r2 with Ok ms => Ok (m :: ms) | Err e => Err e end))) /\
    (forall ms, snd (let '(c2, r2) := sigma_loop llh name cfgs dflt (S i) rest c1 in
       (c2, match r2 with Ok ms => Ok (m :: ms) | Err e => Err e end)) = Ok ms ->
       forall m0, In m0 ms -> In (c_name m0) ns)).
  { intros c1 H1. destruct (IH (S i) c1 Hrest) as [H2 H3].
    destruct (sigma_loop llh name cfgs dflt (S i) rest c1) as [c2 r2]. simpl in *. split.
    - eapply only_adds_trans; eauto.
    - intros ms H. destruct r2 as [ms2|e]; [|discriminate]. injection H as <-.
      intros m0 [<-|Hm0]; [exact Hin|]. exact (H3 ms2 eq_refl m0 Hm0). }
  destruct llh as [l|]; [|apply Hgo, only_adds_refl].
  destruct (resolve_sigma_value cfgs i) as [v|e]; [|split; [apply only_adds_refl|discriminate]].
  pose proof (update_sigma_acc l (c_name m) v c) as Hu.
  destruct (update_sigma_cache l (c_name m) v c) as [c1 r1]. simpl in Hu.
  assert (Hu' : only_adds ns c c1).
  { eapply only_adds_weaken; [exact Hu|]. intros n [<-|[]]. exact Hin. }
  destruct r1 as [u|e]; [apply Hgo, Hu'|split; [exact Hu'|discriminate]].
Qed.

Lemma map_build_acc f m llh c :
  only_adds [c_name m; "url_base"] c (fst (map_build f m llh c)) /\
  (is_ok (snd (map_build f m llh c)) = true ->
   In (c_name m) (accessed (fst (map_build f m llh c)))).
Proof.
  unfold map_build. destruct (resolve_acc f true m llh c) as [H1 H2].
  destruct (resolve_cached_config f true m llh c) as [c1 [v|e]]; simpl in H1, H2;
    [|split; [exact H1|discriminate]].
  pose proof (transform_acc f true v c1) as H3.
  destruct (transform_value f true v c1) as [c2 r2]. simpl in *.
  split.
  - eapply only_adds_trans; [exact H1|]. eapply only_adds_weaken; [exact H3|].
    intros n [<-|[]]. right. left. reflexivity.
  - intros _. apply (proj1 H3). apply H2. reflexivity.
Qed.

Lemma resolve_maps_acc f ms llh ns : forall c,
  (forall m, In m ms -> In (c_name m) ns) -> In "url_base" ns ->
  only_adds ns c (fst (resolve_maps f ms llh c)).
Proof.
  induction ms as [|m ms IH]; cbn [resolve_maps]; intros c Hm Hu; [apply only_adds_refl|].
  destruct (map_build_acc f m llh c) as [H1 _].
  destruct (map_build f m llh c) as [c1 r]. simpl in H1.
  assert (H1' : only_adds ns c c1).
  { eapply only_adds_weaken; [exact H1|]. intros n [<-|[<-|[]]]; [|exact Hu].
    apply Hm. left. reflexivity. }
  destruct r as [v|e]; [|exact H1'].
  specialize (IH c1 (fun m0 H => Hm m0 (or_intror H)) Hu).
  destruct (resolve_maps f ms llh c1) as [c2 r2]. simpl in *. eapply only_adds_trans; eauto.
Qed.

Lemma build_acc f cf llh c :
  only_adds (may_read cf) c (fst (config_build f cf llh c)) /\
  (is_ok (snd (config_build f cf llh c)) = true ->
   In (c_name cf) (accessed (fst (config_build f cf llh c)))).
Proof.
  assert (Hw : forall n, In n [c_name cf; "url_base"] -> In n (may_read cf)).
  { intros n [<-|[<-|[]]]; unfold may_read; [left|right; left]; reflexivity. }
  unfold config_build. destruct (c_kind cf) eqn:Hk.
  - destruct (resolve_acc f false cf llh c) as [H1 H2].
    destruct (resolve_cached_config f false cf llh c) as [c1 r]. simpl in *. split.
    + eapply only_adds_weaken; eauto.
    + intros H. apply H2. destruct r; [reflexivity|discriminate].
  - destruct (map_build_acc f cf llh c) as [H1 H2].
    destruct (map_build f cf llh c) as [c1 r]. simpl in *. split.
    + eapply only_adds_weaken; eauto.
    + intros H. apply H2. destruct r; [reflexivity|discriminate].
  - unfold sigma_build. set (cf' := mk_config (c_kind cf) (c_name cf) (c_default cf) llh).
    destruct (get_configs_acc cf' None c) as [H1 H2].
    assert (Hnm : c_name cf' = c_name cf) by reflexivity. rewrite Hnm in H1, H2.
    destruct (get_configs cf' None c) as [c1 r1]. simpl in H1, H2.
    assert (H1' : only_adds (may_read cf) c c1).
    { eapply only_adds_weaken; [exact H1|]. intros n [<-|[]]. left. reflexivity. }
    destruct r1 as [cfgs|e]; [|split; [exact H1'|discriminate]]. simpl in H2.
    specialize (H2 eq_refl).
    destruct (get_default cf') as [dflt|e]; [|split; [exact H1'|discriminate]].
    destruct (too_long cfgs || too_long dflt)%bool; [split; [exact H1'|discriminate]|].
    assert (Hsub : forall sg, In sg sigma_names -> In (c_name cf ++ "_" ++ sg) (may_read cf)).
    { unfold may_read, sub_maps. rewrite Hk. intros sg Hsg.
      destruct Hsg as [<-|[<-|[<-|[]]]]; simpl; auto 10. }
    destruct (sigma_loop_acc llh (c_name cf) cfgs dflt sigma_names (may_read cf) 0 c1 Hsub)
      as [H3 H4].
    destruct (sigma_loop llh (c_name cf) cfgs dflt 0 sigma_names c1) as [c2 r2]. simpl in H3, H4.
    assert (H3' : only_adds (may_read cf) c c2) by (eapply only_adds_trans; eauto).
    destruct r2 as [ms|e]; [|split; [exact H3'|discriminate]].
    pose proof (resolve_maps_acc f ms llh (may_read cf) c2 (H4 ms eq_refl)
                  (or_intror (or_introl eq_refl))) as H5.
    destruct (resolve_maps f ms llh c2) as [c3 r3]. simpl in H5 |- *.
    assert (H5' : only_adds (may_read cf) c c3) by (eapply only_adds_trans; eauto).
    destruct r3 as [vs|e]; simpl; [|split; [exact H5'|discriminate]].
    split; [exact H5'|]. intros _. apply (proj1 H5), (proj1 H3), H2.
  - destruct (resolve_acc f false cf llh c) as [H1 H2].
    destruct (resolve_cached_config f false cf llh c) as [c1 r]. simpl in *. split.
    + eapply only_adds_weaken; eauto.
    + intros H. apply H2. destruct r; [reflexivity|discriminate].
Qed.

Lemma resolve_entries_acc f d : forall out c,
  only_adds ["url_base"] c (fst (resolve_entries f d out c)).
Proof.
  induction d as [|[kk vv] d IH]; simpl; intros out c; [apply only_adds_refl|].
  destruct (is_plain vv); [apply IH|]. destruct vv; try apply IH.
  pose proof (file_path_acc f s c) as H. destruct (get_file_path f s c) as [c1 [p|e]];
    simpl in H; [|exact H]. eapply only_adds_trans; [exact H|apply IH].
Qed.

Lemma set1_acc f k v c : only_adds ["url_base"] c (fst (set_global_config1 f k v c)).
Proof.
  unfold set_global_config1. destruct (is_plain v); [split; simpl; auto|].
  destruct v; try apply only_adds_refl.
  - pose proof (file_path_acc f s c) as H.
    destruct (get_file_path f s c) as [c1 [p|e]]; destruct H; split; simpl; auto.
  - pose proof (resolve_entries_acc f d [] c) as H.
    destruct (resolve_entries f d [] c) as [c1 [p|e]]; destruct H; split; simpl; auto.
Qed.

Lemma set_global_acc f configs : forall c,
  only_adds ["url_base"] c (fst (set_global_config f configs c)).
Proof.
  induction configs as [|[k v] rest IH]; simpl; intros c; [apply only_adds_refl|].
  pose proof (set1_acc f k v c) as H.
  destruct (set_global_config1 f k v c) as [c1 [u|e]]; simpl in H; [|exact H].
  eapply only_adds_trans; [exact H|apply IH].
Qed.

Lemma cstep_acc o c n : In n (accessed (cstep o c)) -> In n (accessed c) \/ In n (op_reads o).
Proof.
  destruct o as [f cf llh|cf llh|f configs|]; simpl; intros Hn.
  - exact (proj2 (proj1 (build_acc f cf llh c)) n Hn).
  - unfold required_parameter in Hn. destruct (c_kind cf) eqn:Hk; try (left; exact Hn).
    assert (Hr : fst (required_parameter cf llh c) = fst (get_configs cf llh c)).
    { unfold required_parameter. rewrite Hk. destruct (get_configs cf llh c). reflexivity. }
    pose proof (proj1 (required_acc cf llh c)) as H. rewrite Hr in H.
    destruct (get_configs cf llh c) as [c1 r]. exact (proj2 H n Hn).
  - exact (proj2 (set_global_acc f configs c) n Hn).
  - destruct Hn.
Qed.

Lemma cstep_acc_mono o c n : o <> CClear -> In n (accessed c) -> In n (accessed (cstep o c)).
Proof.
  destruct o as [f cf llh|cf llh|f configs|]; simpl; intros Hc Hn.
  - exact (proj1 (proj1 (build_acc f cf llh c)) n Hn).
  - exact (proj1 (proj1 (required_acc cf llh c)) n Hn).
  - exact (proj1 (set_global_acc f configs c) n Hn).
  - congruence.
Qed.

Lemma unused_In n c : In n (unused_configs c) <-> In n (keys (contents c)) /\ ~ In n (accessed c).
Proof.
  unfold unused_configs. rewrite filter_In, negb_true_iff, mem_false. tauto.
Qed.

Lemma crun_acc os : forall c n, In n (accessed (crun os c)) ->
  In n (accessed c) \/ exists o, In o os /\ In n (op_reads o).
Proof.
  unfold crun. induction os as [|o os IH]; simpl; intros c n Hn; [auto|].
  destruct (IH _ n Hn) as [H|(o' & Ho & Hr)].
  - destruct (cstep_acc o c n H) as [H'|H']; [auto|]. right. exists o. auto.
  - right. exists o'. auto.
Qed.

Lemma crun_acc_mono os : forall c n, ~ In CClear os -> In n (accessed c) ->
  In n (accessed (crun os c)).
Proof.
  unfold crun. induction os as [|o os IH]; simpl; intros c n Hc Hn; [exact Hn|].
  apply IH; [tauto|]. apply cstep_acc_mono; [|exact Hn]. intros ->. tauto.
Qed.

Lemma looked_up_not_unused os1 o os2 c n :
  looks_up n o (crun os1 c) -> ~ In CClear os2 ->
  ~ In n (unused_configs (crun (os1 ++ o :: os2) c)).
Proof.
  intros Hl Hc Hu. apply unused_In in Hu. destruct Hu as [_ Hu]. apply Hu.
  unfold crun. rewrite fold_left_app. simpl. fold (crun os1 c).
  apply (crun_acc_mono os2); [exact Hc|].
  destruct o as [f cf llh|cf llh|f configs|]; simpl in *; try contradiction.
  - destruct Hl as [<- Hok]. exact (proj2 (build_acc f cf llh _) Hok).
  - destruct Hl as [<- [Hk Hok]]. exact (proj2 (required_acc cf llh _) Hk Hok).
Qed.

Lemma never_read_unused os1 os2 c n :
  (forall o, In o os2 -> ~ In n (op_reads o)) ->
  In n (keys (contents (crun (os1 ++ CClear :: os2) c))) ->
  In n (unused_configs (crun (os1 ++ CClear :: os2) c)).
Proof.
  intros Hr Hk. apply unused_In. split; [exact Hk|]. intros Ha.
  unfold crun in Ha. rewrite fold_left_app in Ha. simpl in Ha.
  destruct (crun_acc os2 _ n Ha) as [[]|(o & Ho & Hin)]. exact (Hr o Ho Hin).
Qed.

Lemma unused_were_set c n : In n (unused_configs c) -> exists v, get n (contents c) = Some v.
Proof. intros H. apply unused_In in H. destruct H as [H _]. apply get_In_keys, H. Qed.

(* ------------------------------------------------------------------ *)
(** * set_global_config *)

Lemma set1_plain f k v c : is_plain v = true ->
  set_global_config1 f k v c = (rd_update k v c, Ok tt).
Proof. intros H. unfold set_global_config1. rewrite H. reflexivity. Qed.

Lemma set_global_app f a b : forall c,
  set_global_config f (a ++ b)%list c =
  match set_global_config f a c with
  | (c1, Ok _) => set_global_config f b c1
  | (c1, Err e) => (c1, Err e)
  end.
Proof.
  induction a as [|[k v] a IH]; simpl; intros c; [reflexivity|].
  destruct (set_global_config1 f k v c) as [c1 [u|e]]; [apply IH|reflexivity].
Qed.

Lemma set_global_stops f a k b c c1 u :
  set_global_config f a c = (c1, Ok u) ->
  set_global_config f (a ++ (k, VNone) :: b)%list c = (c1, Err NotImplementedError).
Proof. intros H. rewrite set_global_app, H. reflexivity. Qed.

Lemma file_path_url f s c c' :
  get "url_base" (contents c) = get "url_base" (contents c') ->
  snd (get_file_path f s c) = snd (get_file_path f s c').
Proof.
  intros H. unfold get_file_path, rd_in, has, rd_getitem. rewrite <- H.
  destruct (isfile f s); [reflexivity|].
  destruct (get "url_base" (contents c)) as [[ |b|z|s0|l|d]|]; try reflexivity.
  destruct (starts_with_slash s0); [|reflexivity]. destruct (path_exists f (path_join s0 s)); reflexivity.
Qed.

Lemma resolve_entries_get f d : forall out c c1 d',
  NoDup (keys d) ->
  resolve_entries f d out c = (c1, Ok d') ->
  forall l, get l d' =
    match get l d with
    | Some v => match stored f v c with Some w => Some w | None => get l out end
    | None => get l out
    end.
Proof.
  induction d as [|[kk vv] d IH]; simpl; intros out c c1 d' Hnd Hr l.
  { injection Hr as <- <-. reflexivity. }
  inversion Hnd as [|? ? Hni Hnd']; subst.
  assert (Hkk : get kk d = None) by (apply get_None_keys; exact Hni).
  destruct (is_plain vv) eqn:Hp.
  - rewrite (IH _ _ _ _ Hnd' Hr l). rewrite get_set.
    destruct (String.eqb l kk) eqn:El.
    + apply String.eqb_eq in El. subst l. rewrite Hkk.
      destruct vv; simpl in Hp |- *; try discriminate; reflexivity.
    + reflexivity.
  - destruct vv as [ |b|z|s|l0|d0]; try discriminate.
    + rewrite (IH _ _ _ _ Hnd' Hr l). destruct (String.eqb l kk) eqn:El; [|reflexivity].
      apply String.eqb_eq in El. subst l. rewrite Hkk. reflexivity.
    + pose proof (get_file_path_contents f s c) as Hc.
      simpl stored. destruct (get_file_path f s c) as [c2 [p|e]] eqn:Hf; [|discriminate].
      simpl in Hc. rewrite (IH _ _ _ _ Hnd' Hr l). rewrite get_set.
      destruct (String.eqb l kk) eqn:El.
      * apply String.eqb_eq in El. subst l. rewrite Hkk. simpl. rewrite Hf. reflexivity.
      * destruct (get l d) as [v|]; [|reflexivity].
        assert (Hs : stored f v c2 = stored f v c).
        { destruct v; try reflexivity. simpl. rewrite (file_path_url f s0 c2 c);
            [reflexivity|]. rewrite Hc. reflexivity. }
        rewrite Hs. reflexivity.
    + rewrite (IH _ _ _ _ Hnd' Hr l). destruct (String.eqb l kk) eqn:El; [|reflexivity].
      apply String.eqb_eq in El. subst l. rewrite Hkk. reflexivity.
Qed.

Lemma set_global_step f k v rest c c2 u :
  set_global_config f ((k, v) :: rest) c = (c2, Ok u) ->
  exists c1, set_global_config1 f k v c = (c1, Ok tt) /\ set_global_config f rest c1 = (c2, Ok u).
Proof.
  simpl. destruct (set_global_config1 f k v c) as [c1 [[]|e]]; [|discriminate]. eauto.
Qed.

(** Number, boolean, list: stored unchanged. *)
Lemma set_global_plain f configs : forall c c2 u k v,
  NoDup (keys configs) ->
  set_global_config f configs c = (c2, Ok u) -> get k configs = Some v -> is_plain v = true ->
  get k (contents c2) = Some v.
Proof.
  induction configs as [|[k0 v0] rest IH]; intros c c2 u k v Hnd Hs Hg Hp; [discriminate|].
  inversion Hnd as [|? ? Hni Hnd']; subst.
  destruct (set_global_step f k0 v0 rest c c2 u Hs) as (c1 & H1 & H2).
  simpl in Hg. destruct (String.eqb k k0) eqn:E.
  - apply String.eqb_eq in E. subst k0. injection Hg as ->.
    pose proof (set_global_other f rest k c1 Hni) as Ho. rewrite H2 in Ho. simpl in Ho.
    rewrite Ho. rewrite (set1_plain f k v c Hp) in H1. injection H1 as <-. simpl. apply get_set_eq.
  - exact (IH c1 c2 u k v Hnd' H2 Hg Hp).
Qed.

(** String: stored as the path found with the url_base in force when its turn came. *)
Lemma set_global_string f configs : forall c c2 u k s,
  NoDup (keys configs) ->
  set_global_config f configs c = (c2, Ok u) -> get k configs = Some (VStr s) ->
  ~ In "url_base" (keys configs) ->
  exists p, snd (get_file_path f s c) = Ok p /\ get k (contents c2) = Some (VStr p).
Proof.
  induction configs as [|[k0 v0] rest IH]; intros c c2 u k s Hnd Hs Hg Hu; [discriminate|].
  inversion Hnd as [|? ? Hni Hnd']; subst.
  destruct (set_global_step f k0 v0 rest c c2 u Hs) as (c1 & H1 & H2).
  simpl in Hg. destruct (String.eqb k k0) eqn:E.
  - apply String.eqb_eq in E. subst k0. injection Hg as ->.
    pose proof (set_global_other f rest k c1 Hni) as Ho. rewrite H2 in Ho. simpl in Ho.
    rewrite Ho. unfold set_global_config1 in H1. simpl in H1.
    destruct (get_file_path f s c) as [c3 [p|e]]; [|discriminate]. injection H1 as <-.
    exists p. split; [reflexivity|]. simpl. apply get_set_eq.
  - destruct (IH c1 c2 u k s Hnd' H2 Hg) as (p & Hp & Hk).
    { intros H. apply Hu. right. exact H. }
    exists p. split; [|exact Hk]. rewrite <- Hp. apply file_path_url.
    pose proof (set1_other f k0 v0 c "url_base" (fun H => Hu (or_introl (eq_sym H)))) as Ho.
    rewrite H1 in Ho. symmetry. exact Ho.
Qed.

Lemma set_global_table f configs : forall c c2 u k d,
  NoDup (keys configs) -> NoDup (keys d) ->
  set_global_config f configs c = (c2, Ok u) -> get k configs = Some (VDict d) ->
  ~ In "url_base" (keys configs) ->
  exists d', get k (contents c2) = Some (VDict d') /\
    forall l, get l d' = match get l d with Some v => stored f v c | None => None end.
Proof.
  induction configs as [|[k0 v0] rest IH]; intros c c2 u k d Hnd Hndd Hs Hg Hu; [discriminate|].
  inversion Hnd as [|? ? Hni Hnd']; subst.
  destruct (set_global_step f k0 v0 rest c c2 u Hs) as (c1 & H1 & H2).
  simpl in Hg. destruct (String.eqb k k0) eqn:E.
  - apply String.eqb_eq in E. subst k0. injection Hg as ->.
    pose proof (set_global_other f rest k c1 Hni) as Ho. rewrite H2 in Ho. simpl in Ho.
    rewrite Ho. unfold set_global_config1 in H1. simpl in H1.
    destruct (resolve_entries f d [] c) as [c3 [d'|e]] eqn:Hr; [|discriminate].
    injection H1 as <-. exists d'. split; [simpl; apply get_set_eq|].
    intros l. rewrite (resolve_entries_get f d [] c c3 d' Hndd Hr l).
    destruct (get l d) as [v|]; [|reflexivity]. destruct (stored f v c); reflexivity.
  - destruct (IH c1 c2 u k d Hnd' Hndd H2 Hg) as (d' & Hk & Hd).
    { intros H. apply Hu. right. exact H. }
    exists d'. split; [exact Hk|]. intros l. rewrite Hd.
    destruct (get l d) as [v|]; [|reflexivity]. destruct v; try reflexivity. simpl.
    rewrite (file_path_url f s c1 c); [reflexivity|].
    pose proof (set1_other f k0 v0 c "url_base" (fun H => Hu (or_introl (eq_sym H)))) as Ho.
    rewrite H1 in Ho. exact Ho.
Qed.

(** Failing: exactly the entries before the offending one have been applied. *)
Lemma set_global_fails f configs : forall c c2 e,
  set_global_config f configs c = (c2, Err e) ->
  exists a k v b c1 u, configs = (a ++ (k, v) :: b)%list /\ set_global_config f a c = (c1, Ok u) /\
    snd (set_global_config1 f k v c1) = Err e /\ contents c2 = contents c1.
Proof.
  induction configs as [|[k0 v0] rest IH]; intros c c2 e Hs; [discriminate|].
  simpl in Hs. destruct (set_global_config1 f k0 v0 c) as [c1 [[]|e1]] eqn:H1.
  - destruct (IH c1 c2 e Hs) as (a & k & v & b & c3 & u & -> & Ha & Hf & Hc).
    exists ((k0, v0) :: a), k, v, b, c3, u. split; [reflexivity|].
    split; [|split; assumption]. simpl. rewrite H1. exact Ha.
  - injection Hs as <- <-. exists [], k0, v0, rest, c, tt.
    split; [reflexivity|]. split; [reflexivity|]. rewrite H1. split; [reflexivity|].
    unfold set_global_config1 in H1. destruct (is_plain v0); [discriminate|].
    destruct v0 as [ |b|z|s|l0|d0].
    + injection H1 as <- _. reflexivity.
    + injection H1 as <- _. reflexivity.
    + injection H1 as <- _. reflexivity.
    + pose proof (get_file_path_contents f s c) as H.
      destruct (get_file_path f s c) as [c3 [p|e3]]; [discriminate|].
      injection H1 as <- _. exact H.
    + injection H1 as <- _. reflexivity.
    + pose proof (resolve_entries_contents f d0 [] c) as H.
      destruct (resolve_entries f d0 [] c) as [c3 [p|e3]]; [discriminate|].
      injection H1 as <- _. exact H.
Qed.

(* ------------------------------------------------------------------ *)
(** * takes_config *)

Definition is_config (a : tc_arg) : bool := match a with TCConfig _ => true | TCOther => false end.
Definition arg_name (a : tc_arg) : list string :=
  match a with TCConfig cf => [c_name cf] | TCOther => [] end.

Lemma collect_spec args : forall out,
  match collect_configs args out with
  | Ok res => forallb is_config args = true /\ forall n, get n res = last_named n args (get n out)
  | Err e => e = RuntimeError /\ forallb is_config args = false
  end.
Proof.
  induction args as [|[cf|] args IH]; simpl; intros out.
  - split; reflexivity.
  - specialize (IH (set (c_name cf) cf out)). destruct (collect_configs args _) as [res|e]; [|exact IH].
    destruct IH as [H1 H2]. split; [exact H1|]. intros n. rewrite H2, get_set. reflexivity.
  - auto.
Qed.

Lemma collect_NoDup args : forall out res,
  NoDup (keys out) -> collect_configs args out = Ok res -> NoDup (keys res).
Proof.
  induction args as [|[cf|] args IH]; simpl; intros out res Hnd H; [|eapply IH; [|exact H]|discriminate].
  - injection H as <-. exact Hnd.
  - apply NoDup_set, Hnd.
Qed.

Lemma last_named_some n args : forall acc cf,
  last_named n args acc = Some cf -> acc = Some cf \/ (In (TCConfig cf) args /\ c_name cf = n).
Proof.
  induction args as [|[cf0|] args IH]; simpl; intros acc cf H; [auto| |].
  - destruct (IH _ _ H) as [H1|[H1 H2]]; [|auto].
    destruct (String.eqb n (c_name cf0)) eqn:E; [|auto].
    injection H1 as <-. apply String.eqb_eq in E. auto.
  - destruct (IH _ _ H) as [H1|[H1 H2]]; auto.
Qed.

Lemma last_named_none n args : forall acc,
  last_named n args acc = None <->
  acc = None /\ forall cf, In (TCConfig cf) args -> c_name cf <> n.
Proof.
  induction args as [|[cf0|] args IH]; simpl; intros acc.
  - split; [intros ->; split; [reflexivity|intros ? []]|tauto].
  - rewrite IH. destruct (String.eqb n (c_name cf0)) eqn:E.
    + apply String.eqb_eq in E. split; [intros [H _]; discriminate|].
      intros [_ H]. exfalso. apply (H cf0); auto.
    + apply String.eqb_neq in E. split.
      * intros [H1 H2]. split; [exact H1|]. intros cf [Hc|Hc]; [|auto].
        injection Hc as <-. auto.
      * intros [H1 H2]. split; [exact H1|]. intros cf Hc. apply H2. auto.
  - rewrite IH. split; intros [H1 H2]; (split; [exact H1|]).
    + intros cf [Hc|Hc]; [discriminate|auto].
    + intros cf Hc. apply H2. auto.
Qed.

Lemma takes_config_ok args old res :
  takes_config args old = Ok res ->
  (forall n cf, get n old = Some cf -> get n res = Some cf) /\
  (forall n, get n old = None -> get n res = last_named n args None) /\
  (forall cf, In (TCConfig cf) args -> get (c_name cf) old = None).
Proof.
  unfold takes_config. pose proof (collect_spec args []) as Hs.
  pose proof (collect_NoDup args []) as Hnd.
  destruct (collect_configs args []) as [r|e]; [|discriminate].
  specialize (Hnd r (NoDup_nil _) eq_refl).
  destruct Hs as [Hall Hr]. destruct (existsb (fun k => has k old) (keys r)) eqn:Hex; [discriminate|].
  intros H. injection H as <-.
  assert (Hdis : forall n cf, get n r = Some cf -> get n old = None).
  { intros n cf Hn. destruct (get n old) as [x|] eqn:Ho; [|reflexivity]. exfalso.
    assert (existsb (fun k => has k old) (keys r) = true); [|congruence].
    apply existsb_exists. exists n. split; [apply get_In_keys; eauto|].
    unfold has. rewrite Ho. reflexivity. }
  assert (Hup : forall n, get n (update old r) = match get n r with Some x => Some x | None => get n old end).
  { intros n. apply get_update, Hnd. }
  split; [|split].
  - intros n cf Hn. rewrite Hup. destruct (get n r) as [x|] eqn:Hx; [|exact Hn].
    rewrite (Hdis n x Hx) in Hn. discriminate.
  - intros n Hn. rewrite Hup, Hn, Hr. simpl. destruct (last_named n args None); reflexivity.
  - intros cf Hin. destruct (get (c_name cf) r) as [x|] eqn:Hx; [exact (Hdis _ _ Hx)|].
    rewrite Hr in Hx. simpl in Hx. apply last_named_none in Hx. destruct Hx as [_ Hx].
    destruct (Hx cf Hin eq_refl).
Qed.

Lemma takes_config_err args old e :
  takes_config args old = Err e <->
  e = RuntimeError /\
  (In TCOther args \/ exists cf, In (TCConfig cf) args /\ In (c_name cf) (keys old)).
Proof.
  unfold takes_config. pose proof (collect_spec args []) as Hs.
  destruct (collect_configs args []) as [r|e1] eqn:Hc.
  - destruct Hs as [Hall Hr].
    assert (Hno : ~ In TCOther args).
    { intros H. rewrite forallb_forall in Hall. specialize (Hall _ H). discriminate. }
    destruct (existsb (fun k => has k old) (keys r)) eqn:Hex.
    + split; [intros H; injection H as <-|intros [-> _]; reflexivity].
      split; [reflexivity|]. right. apply existsb_exists in Hex. destruct Hex as (n & Hn & Hh).
      apply get_In_keys in Hn. destruct Hn as [cf Hn]. rewrite Hr in Hn.
      destruct (last_named_some n args None cf Hn) as [H|[H1 H2]]; [discriminate|].
      exists cf. split; [exact H1|]. rewrite H2. apply has_keys, Hh.
    + split; [discriminate|]. intros [-> [H|(cf & H1 & H2)]]; [tauto|].
      exfalso. assert (existsb (fun k => has k old) (keys r) = true); [|congruence].
      apply existsb_exists. exists (c_name cf). split; [|apply has_keys, H2].
      apply get_In_keys. rewrite Hr. simpl.
      destruct (last_named (c_name cf) args None) as [x|] eqn:Hl; [eauto|].
      apply last_named_none in Hl. destruct Hl as [_ Hl]. destruct (Hl cf H1 eq_refl).
  - destruct Hs as [-> Hall]. split; [intros H; injection H as <-|intros [-> _]; reflexivity].
    split; [reflexivity|]. left.
    assert (exists a, In a args /\ is_config a = false) as (a & Ha & Hf).
    { clear -Hall. induction args as [|a args IH]; simpl in Hall; [discriminate|].
      destruct (is_config a) eqn:E; [|exists a; simpl; auto].
      destruct (IH Hall) as (b & Hb & Hf). exists b. simpl. auto. }
    destruct a; [discriminate|exact Ha].
Qed.

Lemma class_configs_keyed d : class_configs d ->
  forall n cf, get n d = Some cf -> c_name cf = n.
Proof.
  induction 1 as [|args old res Hold IH Ht]; intros n cf Hg; [discriminate|].
  destruct (takes_config_ok args old res Ht) as (H1 & H2 & H3).
  destruct (get n old) as [x|] eqn:Ho.
  - rewrite (H1 n x Ho) in Hg. injection Hg as <-. exact (IH n x Ho).
  - rewrite (H2 n Ho) in Hg. destruct (last_named_some n args None cf Hg) as [H|[_ H]];
      [discriminate|exact H].
Qed.

Lemma class_configs_NoDup d : class_configs d -> NoDup (keys d).
Proof.
  induction 1 as [|args old res Hold IH Ht]; [constructor|].
  unfold takes_config in Ht. destruct (collect_configs args []) as [r|e] eqn:Hc; [|discriminate].
  destruct (existsb _ _); [discriminate|]. injection Ht as <-. apply NoDup_update. exact IH.
Qed.

(* ------------------------------------------------------------------ *)
(** * The parameter required by a SigmaMap *)

Lemma get_configs_seen cf llh L c :
  (llh = Some L \/ (llh = None /\ c_llh cf = Some L)) ->
  forall v, seen_by (c_name cf) L (contents c) = Some v ->
  snd (get_configs cf llh c) = Ok v.
Proof.
  intros Hl v Hv. unfold get_configs, rd_in, has, rd_getitem.
  assert (Hll : match llh with Some l => Some l | None => c_llh cf end = Some L).
  { destruct Hl as [->|[-> ->]]; reflexivity. }
  rewrite Hll. unfold seen_by in Hv.
  destruct (get (c_name cf) (contents c)) as [[ |b|z|s|l|d]|]; simpl;
    try (injection Hv as <-; reflexivity); [|discriminate].
  rewrite Hv. reflexivity.
Qed.

Lemma get_configs_store cf llh L c v :
  (llh = Some L \/ (llh = None /\ c_llh cf = Some L)) ->
  snd (get_configs cf llh c) = Ok v -> (forall d, c_default cf <> Some (VDict d)) ->
  seen_by (c_name cf) L (contents (fst (get_configs cf llh c))) = Some v.
Proof.
  intros Hl Hv Hnd. unfold get_configs, rd_in, has, rd_getitem in *.
  assert (Hll : match llh with Some l => Some l | None => c_llh cf end = Some L).
  { destruct Hl as [->|[-> ->]]; reflexivity. }
  rewrite Hll in *. unfold seen_by.
  destruct (get (c_name cf) (contents c)) as [x|] eqn:Hg.
  - destruct x as [ |b|z|s|l|d]; simpl in *; rewrite Hg; try (injection Hv as <-; reflexivity).
    destruct (get L d); [injection Hv as <-; reflexivity|discriminate].
  - unfold get_default in *. destruct (c_default cf) as [x|]; [|discriminate].
    destruct x as [ |b|z|s|l|d]; simpl in *; try (rewrite get_set_eq; injection Hv as <-; reflexivity).
    destruct (Hnd d eq_refl).
Qed.

Lemma seen_grows n L c c' v : grows c c' -> seen_by n L c = Some v ->
  exists v', seen_by n L c' = Some v' /\ value_eqb v v' = true.
Proof.
  intros Hg Hs. unfold seen_by in *. destruct (get n c) as [x|] eqn:Hx; [|discriminate].
  destruct (Hg n x Hx) as (x' & Hx' & He). rewrite Hx'.
  destruct x as [ |b|z|s|l|d]; simpl in He;
    try (subst x'; injection Hs as <-; eexists; split; [reflexivity|apply value_eqb_refl]).
  destruct He as (d' & -> & He). exact (He L v Hs).
Qed.

Lemma required_stable cf llh L c v os cf' r :
  c_kind cf = KSigmaMap -> llh = Some L ->
  (forall d, c_default cf <> Some (VDict d)) ->
  snd (get_configs cf llh c) = Ok v ->
  required_of_value (c_name cf) v = Ok r ->
  (forall o, In o os -> leaves (c_name cf) o) ->
  c_kind cf' = KSigmaMap -> c_name cf' = c_name cf -> c_llh cf' = Some L ->
  snd (required_parameter cf' None (crun os (fst (required_parameter cf llh c)))) = Ok r.
Proof.
  intros Hk Hl Hnd Hv Hr Hos Hk' Hn' Hl'.
  pose proof (get_configs_store cf llh L c v (or_introl Hl) Hv Hnd) as Hs.
  assert (Hf : fst (required_parameter cf llh c) = fst (get_configs cf llh c)).
  { unfold required_parameter. rewrite Hk. destruct (get_configs cf llh c); reflexivity. }
  rewrite Hf. set (c1 := fst (get_configs cf llh c)) in *.
  assert (Hsn : exists v', seen_by (c_name cf) L (contents (crun os c1)) = Some v' /\
                           value_eqb v v' = true).
  { unfold seen_by in Hs. destruct (get (c_name cf) (contents c1)) as [x|] eqn:Hx; [|discriminate].
    destruct (crun_keeps (c_name cf) os c1 x Hos Hx) as (x' & Hx' & He).
    unfold seen_by. rewrite Hx'.
    destruct x as [ |b|z|s|l|d]; simpl in He;
      try (subst x'; injection Hs as <-; eexists; split; [reflexivity|apply value_eqb_refl]).
    destruct He as (d' & -> & He). exact (He L v Hs). }
  destruct Hsn as (v' & Hv' & Heq).
  unfold required_parameter. rewrite Hk'.
  pose proof (get_configs_seen cf' None L (crun os c1) (or_intror (conj eq_refl Hl')) v') as Hg.
  rewrite Hn' in Hg. specialize (Hg Hv').
  destruct (get_configs cf' None (crun os c1)) as [c2 r2]. simpl in *. subst r2.
  rewrite Hn'. rewrite <- Hr. symmetry. apply required_of_value_eqb. exact Heq.
Qed.

(* ------------------------------------------------------------------ *)
(** * File lookup *)

Lemma get_abspath_in_spec f fname dirs :
  get_abspath_in f dirs fname =
  first_found (map (fun d => (path_exists f (path_join (package_path f d) fname),
                              path_join (package_path f d) fname)) dirs).
Proof.
  induction dirs as [|d dirs IH]; simpl; [reflexivity|]. unfold first_found in *. simpl.
  destruct (path_exists f (path_join (package_path f d) fname)); [reflexivity|exact IH].
Qed.

Lemma first_found_app a b :
  first_found (a ++ b) = match first_found a with Some p => Some p | None => first_found b end.
Proof.
  unfold first_found. induction a as [|[t p] a IH]; simpl; [reflexivity|].
  destruct t; [reflexivity|exact IH].
Qed.

Lemma file_path_spec f fname c :
  (forall v, get "url_base" (contents c) = Some v -> exists b, v = VStr b) ->
  snd (get_file_path f fname c) =
  match first_found (candidates f (base_of c) fname) with
  | Some p => Ok p
  | None => Err RuntimeError
  end.
Proof.
  intros Hb. unfold candidates, get_file_path.
  rewrite first_found_app. cbn [first_found find fst].
  destruct (isfile f fname) eqn:Hi; [unfold first_found; simpl; rewrite ?Hi; reflexivity|].
  replace (first_found [(false, fname)]) with (@None string) by reflexivity.
  assert (H345 : get_file_path_345 f fname =
    match first_found (map (fun d => (path_exists f (path_join (package_path f d) fname),
                    path_join (package_path f d) fname)) ["maps"; "data"; "parameters"; "instructs"]
      ++ [((nt_aux_installed f && mem fname (nt_aux_files f))%bool, nt_aux_path f fname)]
      ++ match mongo f fname with Some p => [(negb (skip_mongo_db f), p)] | None => [] end)
    with Some p => Ok p | None => Err RuntimeError end).
  { unfold get_file_path_345, get_abspath. rewrite get_abspath_in_spec. rewrite first_found_app.
    fold sub_dirs. destruct (first_found (map _ sub_dirs)) as [p|]; [reflexivity|].
    rewrite first_found_app. unfold first_found at 1. simpl.
    destruct (nt_aux_installed f && mem fname (nt_aux_files f))%bool; [reflexivity|].
    unfold first_found. destruct (skip_mongo_db f), (mongo f fname); reflexivity. }
  unfold rd_in, has, rd_getitem, base_of.
  destruct (get "url_base" (contents c)) as [v|] eqn:Hg.
  - destruct (Hb v eq_refl) as [b ->]. rewrite first_found_app. unfold first_found at 1. simpl.
    destruct (starts_with_slash b); simpl; [|exact H345].
    destruct (path_exists f (path_join b fname)); simpl; [reflexivity|exact H345].
  - exact H345.
Qed.

Lemma file_path_idem f c fname p c2 :
  snd (get_file_path f fname c) = Ok p -> isfile f p = true ->
  get_file_path f p c2 = (c2, Ok p).
Proof. intros _ H. unfold get_file_path. rewrite H. reflexivity. Qed.

Lemma file_path_bad_base f fname c v :
  get "url_base" (contents c) = Some v -> (forall b, v <> VStr b) -> isfile f fname = false ->
  snd (get_file_path f fname c) = Err AttributeError.
Proof.
  intros Hg Hv Hi. unfold get_file_path, rd_in, has, rd_getitem. rewrite Hi, Hg.
  destruct v; try reflexivity. destruct (Hv s eq_refl).
Qed.

Lemma url_base_not_found f u c :
  first_found (candidates f (base_of c) u) = None ->
  (forall v, get "url_base" (contents c) = Some v -> exists b, v = VStr b) ->
  snd (set_global_config f [("url_base", VStr u)] c) = Err RuntimeError /\
  contents (fst (set_global_config f [("url_base", VStr u)] c)) = contents c.
Proof.
  intros H Hb. simpl. unfold set_global_config1. simpl.
  pose proof (file_path_spec f u c Hb) as Hs. rewrite H in Hs.
  pose proof (get_file_path_contents f u c) as Hc.
  destruct (get_file_path f u c) as [c1 r]. simpl in *. subst r. auto.
Qed.
