(** C133: a SigmaMap reads exactly the parameter it reported. *)
From Coq Require Import Reals Lra Lia.
From Verif Require Import Base BaseFacts ModelShare ModelConfig ModelInterp ModelMaps ModelSigma SpecConfig ModelComponent
  ModelCompile SpecCompile SpecSigma ProofConfig ProofConfig2 ProofSigma ProofCompile PropConfig PropCompile PropSigma SpecInterp PropMapFile.
Local Open Scope string_scope.
Local Open Scope list_scope.

Lemma map_build_name f m llh c c' v : map_build f m llh c = (c', Ok v) -> exists s, v = VStr s.
Proof.
  unfold map_build. destruct (resolve_cached_config f true m llh c) as [c1 [x|e]]; [|discriminate].
  destruct x; cbn [transform_value]; try discriminate. destruct (get_file_path f s c1) as [c2 [q|e]]; [|discriminate].
  intros H. injection H as _ <-. eauto.
Qed.
Lemma maps_names f llh : forall ms c c' vs, resolve_maps f ms llh c = (c', Ok vs) -> exists ss, vs = map VStr ss.
Proof.
  induction ms as [|m ms IH]; intros c c' vs H; cbn [resolve_maps] in H.
  - injection H as _ <-. exists []. reflexivity.
  - destruct (map_build f m llh c) as [c1 [v|e]] eqn:Hm; [|discriminate].
    destruct (resolve_maps f ms llh c1) as [c2 [vs'|e]] eqn:Hr; [|discriminate]. injection H as _ <-.
    destruct (map_build_name _ _ _ _ _ _ Hm) as [s ->]. destruct (IH _ _ _ Hr) as [ss ->]. exists (s :: ss). reflexivity.
Qed.

(** Whatever was configured, a SigmaMap that builds has three file names, and a Map one: numbers, lists and other things
    in the place of a file name are refused. *)
Theorem C133_names f cf llh c c' b : config_build f cf llh c = (c', Ok b) -> c_kind cf = KMap \/ c_kind cf = KSigmaMap ->
  exists ss, b_values b = map VStr ss /\ b_config b = (if match c_kind cf with KSigmaMap => true | _ => false end
    then mk_config (c_kind cf) (c_name cf) (c_default cf) llh else cf).
Proof.
  unfold config_build. intros H [Hk|Hk]; rewrite Hk in *.
  - destruct (map_build f cf llh c) as [c1 [v|e]] eqn:Hm; [|discriminate]. injection H as _ <-.
    destruct (map_build_name _ _ _ _ _ _ Hm) as [s ->]. exists [s]. split; reflexivity.
  - destruct (sigma_build f cf llh c) as [c1 [[cf' vs]|e]] eqn:Hs; [|discriminate]. injection H as _ <-. cbn [b_values b_config].
    unfold sigma_build in Hs. rewrite Hk in Hs. destruct (get_configs _ None c) as [d1 [cfgs|e]]; [|discriminate].
    destruct (get_default _) as [dflt|e]; [|discriminate]. destruct (too_long cfgs || too_long dflt)%bool; [discriminate|].
    destruct (sigma_loop _ _ _ _ _ _ _) as [d2 [ms|e]]; [|discriminate].
    destruct (resolve_maps f ms llh d2) as [d3 [us|e]] eqn:Hr; [|discriminate]. injection Hs as _ <- <-.
    destruct (maps_names _ _ _ _ _ _ Hr) as [ss ->]. exists ss. split; reflexivity.
Qed.

(** A SigmaMap reports a parameter when the workflow is deduced; anything that leaves its config alone happens, it is
    built for the likelihood, anything else happens, and it is applied. *)
Theorem C133_apply f cf L c r os1 os2 c2 b m read :
  constructed cf -> c_kind cf = KSigmaMap -> snd (required_parameter cf (Some L) c) = Ok r ->
  (forall o, In o os1 -> leaves (c_name cf) o) -> (forall o, In o os2 -> leaves (c_name cf) o) ->
  config_build f cf (Some L) (crun os1 (fst (required_parameter cf (Some L) c))) = (c2, Ok b) ->
  exists med low up, b_values b = [VStr med; VStr low; VStr up] /\
  forall p pos a l u, apply_file m (read med) pos = Ok a -> apply_file m (read low) pos = Ok l -> apply_file m (read up) pos = Ok u ->
    match r with
    | None => sigma_map_apply m read b (crun os2 c2) p pos = Ok u
    | Some x =>
        match get x p with
        | None => sigma_map_apply m read b (crun os2 c2) p pos = Err KeyError
        | Some t => exists y, sigma_map_apply m read b (crun os2 c2) p pos = Ok y /\
            (0 <= t -> y = a + (u - a) * t)%R /\ (t <= 0 -> y = a + (a - l) * t)%R
        end
    end.
Proof.
  intros Hc Hk Hr Ho1 Ho2 Hb.
  assert (Hbs : snd (config_build f cf (Some L) (crun os1 (fst (required_parameter cf (Some L) c)))) = Ok b) by (rewrite Hb; reflexivity).
  destruct (C75_files _ _ _ _ _ Hc Hk Hbs) as (v & x0 & x1 & x2 & _ & _ & Hv & _).
  destruct (C133_names _ _ _ _ _ _ Hb (or_intror Hk)) as (ss & Hss & Hcf). rewrite Hk in Hcf. cbn in Hcf.
  rewrite Hv in Hss. destruct ss as [|med [|low [|up [|]]]]; try discriminate Hss. injection Hss as -> -> ->.
  exists med, low, up. split; [exact Hv|]. intros p pos a l u Ha Hl Hu.
  assert (Hst : snd (required_parameter (b_config b) None (crun os2 c2)) = Ok r).
  { assert (E : crun os2 c2 = crun (os1 ++ CBuild f cf (Some L) :: os2) (fst (required_parameter cf (Some L) c))).
    { unfold crun. rewrite fold_left_app. cbn [fold_left cstep]. fold (crun os1 (fst (required_parameter cf (Some L) c))). rewrite Hb. reflexivity. }
    rewrite E. unfold required_parameter in Hr at 1. rewrite Hk in Hr.
    destruct (get_configs cf (Some L) c) as [c1 [w|e]] eqn:Hg; [|discriminate Hr]. cbn [snd] in Hr.
    refine (C32_reported_is_read cf L c w _ (b_config b) r Hk (constructed_default _ Hc) _ Hr _ _ _ _).
    - rewrite Hg. reflexivity.
    - intros o Ho. apply in_app_or in Ho. destruct Ho as [Ho|[<-|Ho]]; [auto|exact I|auto].
    - rewrite Hcf. reflexivity.
    - rewrite Hcf. reflexivity.
    - rewrite Hcf. reflexivity. }
  unfold sigma_map_apply. rewrite Hv, Ha, Hl, Hu. unfold sigma_scaler.
  destruct (required_parameter (b_config b) None (crun os2 c2)) as [c3 r'] eqn:Hq. cbn [snd] in Hst. subst r'. destruct r as [x|].
  - destruct (get x p) as [t|]; cbn [snd].
    + eexists. split; [reflexivity|]. unfold sigma_apply. destruct (Rlt_dec 0 t) as [Ht|Ht]; split; intros; try lra.
      assert (t = 0%R) by lra. subst t. lra.
    + reflexivity.
  - cbn [snd]. f_equal. unfold sigma_apply. destruct (Rlt_dec 0 1); lra.
Qed.

(** Only the reported parameter is looked at. *)
Theorem C133_only f cf L c r os1 os2 c2 b m read p p' pos :
  constructed cf -> c_kind cf = KSigmaMap -> snd (required_parameter cf (Some L) c) = Ok r ->
  (forall o, In o os1 -> leaves (c_name cf) o) -> (forall o, In o os2 -> leaves (c_name cf) o) ->
  config_build f cf (Some L) (crun os1 (fst (required_parameter cf (Some L) c))) = (c2, Ok b) ->
  (forall x, r = Some x -> get x p = get x p') ->
  sigma_map_apply m read b (crun os2 c2) p pos = sigma_map_apply m read b (crun os2 c2) p' pos.
Proof.
  intros Hc Hk Hr Ho1 Ho2 Hb Hp.
  destruct (C133_names _ _ _ _ _ _ Hb (or_intror Hk)) as (ss & Hss & Hcf). rewrite Hk in Hcf. cbn in Hcf.
  assert (Hst : snd (required_parameter (b_config b) None (crun os2 c2)) = Ok r).
  { assert (E : crun os2 c2 = crun (os1 ++ CBuild f cf (Some L) :: os2) (fst (required_parameter cf (Some L) c))).
    { unfold crun. rewrite fold_left_app. cbn [fold_left cstep]. fold (crun os1 (fst (required_parameter cf (Some L) c))). rewrite Hb. reflexivity. }
    rewrite E. unfold required_parameter in Hr at 1. rewrite Hk in Hr.
    destruct (get_configs cf (Some L) c) as [c1 [w|e]] eqn:Hg; [|discriminate Hr]. cbn [snd] in Hr.
    refine (C32_reported_is_read cf L c w _ (b_config b) r Hk (constructed_default _ Hc) _ Hr _ _ _ _).
    - rewrite Hg. reflexivity.
    - intros o Ho. apply in_app_or in Ho. destruct Ho as [Ho|[<-|Ho]]; [auto|exact I|auto].
    - rewrite Hcf. reflexivity.
    - rewrite Hcf. reflexivity.
    - rewrite Hcf. reflexivity. }
  unfold sigma_map_apply, sigma_scaler. destruct (required_parameter (b_config b) None (crun os2 c2)) as [c3 r']. cbn [snd] in Hst. subst r'.
  destruct r as [x|]; [|reflexivity]. cbn [snd]. rewrite (Hp x eq_refl). reflexivity.
Qed.

(** Without a scaler the upper map is what comes out: a median configured on its own is read and not used. *)
Theorem C133_median_unused_refuted : exists cf c c2 b,
  constructed cf /\ c_kind cf = KSigmaMap /\ get (c_name cf ++ "_median") (contents c) = Some (VStr "own.json") /\
  get (c_name cf) (contents c) = Some (VStr "one.json") /\
  config_build all_files cf (Some "a") c = (c2, Ok b) /\ b_values b = [VStr "own.json"; VStr "one.json"; VStr "one.json"] /\
  forall m read p pos a u, apply_file m (read "own.json") pos = Ok a -> apply_file m (read "one.json") pos = Ok u ->
    sigma_map_apply m read b c2 p pos = Ok u.
Proof.
  set (c0 := fst (set_global_config all_files [("cut", VStr "one.json"); ("cut_median", VStr "own.json")] empty_rdict)).
  set (c := fst (required_parameter cut_cf (Some "a") c0)).
  destruct (config_build all_files cut_cf (Some "a") c) as [c2 [b|e]] eqn:Hb; [|vm_compute in Hb; discriminate Hb].
  exists cut_cf, c, c2, b. split; [exact cut_constructed|]. split; [reflexivity|]. split; [reflexivity|]. split; [reflexivity|].
  split; [exact Hb|].
  assert (Hv : b_values b = [VStr "own.json"; VStr "one.json"; VStr "one.json"]).
  { vm_compute in Hb. injection Hb as _ <-. reflexivity. }
  split; [exact Hv|]. intros m read p pos a u Ha Hu.
  assert (Hr : snd (required_parameter cut_cf (Some "a") c0) = Ok None) by reflexivity.
  destruct (C133_apply all_files cut_cf "a" c0 None [] [] c2 b m read cut_constructed eq_refl Hr (fun o H => match H with end) (fun o H => match H with end) Hb)
    as (med & low & up & Hvv & H).
  rewrite Hv in Hvv. injection Hvv as <- <- <-. exact (H p pos a u u Ha Hu Hu).
Qed.

(** A map with a scaler of its own name, built after another likelihood. *)
Example C133_case m read : let c := cut_set in let os1 := [CBuild all_files cut_cf (Some "b")] in
  exists c2 b, snd (required_parameter cut_cf (Some "a") c) = Ok (Some "s") /\
  config_build all_files cut_cf (Some "a") (crun os1 (fst (required_parameter cut_cf (Some "a") c))) = (c2, Ok b) /\
  forall pos a l u, apply_file m (read "m2.json") pos = Ok a -> apply_file m (read "own.json") pos = Ok l -> apply_file m (read "u2.json") pos = Ok u ->
    exists y, sigma_map_apply m read b (crun [CBuild all_files cut_cf (Some "b")] c2) [("s", 2%R)] pos = Ok y /\ (y = a + (u - a) * 2)%R.
Proof.
  intros c os1. destruct (config_build all_files cut_cf (Some "a") (crun os1 (fst (required_parameter cut_cf (Some "a") c)))) as [c2 [b|e]] eqn:Hb; [|vm_compute in Hb; discriminate Hb].
  exists c2, b. assert (Hr : snd (required_parameter cut_cf (Some "a") c) = Ok (Some "s")) by (vm_compute; reflexivity).
  split; [exact Hr|]. split; [reflexivity|]. intros pos a l u Ha Hl Hu.
  destruct (C133_apply all_files cut_cf "a" c (Some "s") os1 [CBuild all_files cut_cf (Some "b")] c2 b m read cut_constructed eq_refl Hr) as (med & low & up & Hvv & H).
  - intros o [<-|[]]. exact I.
  - intros o [<-|[]]. exact I.
  - exact Hb.
  - assert (Hv : b_values b = [VStr "m2.json"; VStr "own.json"; VStr "u2.json"]) by (vm_compute in Hb; injection Hb as _ <-; reflexivity).
    rewrite Hv in Hvv. injection Hvv as <- <- <-. destruct (H [("s", 2%R)] pos a l u Ha Hl Hu) as (y & Hy & Hpos & _).
    exists y. split; [exact Hy|]. apply Hpos. lra.
Qed.

(** The same for the map functions that the plugins are given: the files keep their roles. *)
Theorem C133_at m med low up x a l u : apply_file m med [x] = Ok a -> apply_file m low [x] = Ok l -> apply_file m up [x] = Ok u ->
  sigma_at m med low up None (ModelFloat.Fin x) = ModelFloat.Fin u /\
  (forall t, (0 <= t)%R -> sigma_at m med low up (Some t) (ModelFloat.Fin x) = ModelFloat.Fin (a + (u - a) * t)%R) /\
  (forall t, (t <= 0)%R -> sigma_at m med low up (Some t) (ModelFloat.Fin x) = ModelFloat.Fin (a + (a - l) * t)%R).
Proof.
  intros Ha Hl Hu. unfold sigma_at, at1. rewrite Ha, Hl, Hu. unfold sigma_apply.
  split; [|split]; intros; f_equal; match goal with |- context [Rlt_dec ?p ?q] => destruct (Rlt_dec p q) end; try lra.
  assert (t = 0)%R by lra. subst t. lra.
Qed.
(** Maps that answer 1/4, 0 and 1 there. *)
Example C133_case_at :
  let curve z1 z2 := mk_map_file (TypeOne "point") (NameOne "hit") (Points [0; 1]%R [z1; z2]) in
  sigma_at LERP (curve 0 (/ 2))%R (curve 0 0)%R (curve 0 2)%R (Some (-1)%R) (ModelFloat.Fin (/ 2)) = ModelFloat.Fin 0%R /\
  sigma_at LERP (curve 0 (/ 2))%R (curve 0 0)%R (curve 0 2)%R (Some 2%R) (ModelFloat.Fin (/ 2)) = ModelFloat.Fin (7 / 4)%R.
Proof.
  intros curve.
  assert (V : forall z1 z2, apply_file LERP (curve z1 z2) [(/ 2)%R] = Ok ((z1 + z2) / 2)%R).
  { intros z1 z2. assert (I : increasing [0; 1]%R).
    { intros p q Hpq. cbn in Hpq. assert (p = 0 /\ q = 1)%nat as [-> ->] by lia. unfold ent. cbn. lra. }
    destruct (C128_points LERP (curve z1 z2) "hit" [0; 1]%R [z1; z2] (/ 2)%R (or_intror eq_refl) eq_refl eq_refl ltac:(discriminate) eq_refl ltac:(cbn; lia) I)
      as (_ & _ & H).
    rewrite (H 0%nat) by (unfold ent; cbn; first [lia | lra]). unfold ent, line. cbn. f_equal. field. }
  destruct (C133_at LERP _ _ _ (/ 2)%R _ _ _ (V 0 (/ 2))%R (V 0 0)%R (V 0 2)%R) as (_ & P & N).
  split; [rewrite N by lra|rewrite P by lra]; f_equal; lra.
Qed.

Print Assumptions C133_names.
Print Assumptions C133_apply.
Print Assumptions C133_only.
Print Assumptions C133_median_unused_refuted.
Print Assumptions C133_at.
