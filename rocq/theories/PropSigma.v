(** Property C75: the files of a map with uncertainty. Only theorem statements closed by lemmas,
    their assumptions, and concrete instances. *)
From Verif Require Import Base BaseFacts ModelShare ModelConfig SpecConfig ModelComponent
  ModelCompile SpecCompile SpecSigma ProofConfig ProofSigma ProofCompile PropConfig PropCompile.
Local Open Scope string_scope.

(** A map that builds for a likelihood has a value of one of the documented forms, and its median,
    lower and upper files are, in this order, the entries of that value (the single file for all
    three), except for a part for which a file of its own is configured. *)
Theorem C75_files :
  forall f cf L c b, constructed cf -> c_kind cf = KSigmaMap ->
  snd (config_build f cf (Some L) c) = Ok b ->
  exists v m l u, value_for (contents c) cf L v /\ documented v /\ b_values b = [m; l; u] /\
    part_file (contents c) (c_name cf ++ "_median") v 0 m /\
    part_file (contents c) (c_name cf ++ "_lower") v 1 l /\
    part_file (contents c) (c_name cf ++ "_upper") v 2 u.
Proof.
  intros f cf L c b Hc Hk H. unfold config_build in H. rewrite Hk in H.
  destruct (sigma_build f cf (Some L) c) as [c' [[cf' vs]|e]] eqn:E; [|discriminate].
  cbn in H. injection H as <-. exact (sigma_build_files _ _ _ _ _ _ _ (constructed_default _ Hc) E).
Qed.

(** A value of any other form (fewer than three or more than four entries, a number, ...) is
    refused. *)
Theorem C75_undocumented :
  forall f cf L c v, constructed cf -> c_kind cf = KSigmaMap ->
  value_for (contents c) cf L v -> ~ documented v ->
  exists e, snd (config_build f cf (Some L) c) = Err e.
Proof.
  intros f cf L c v Hc Hk Hv Hn. unfold config_build. rewrite Hk.
  destruct (sigma_build_refuses f cf L c v (constructed_default _ Hc) Hv Hn) as (e & He).
  destruct (sigma_build f cf (Some L) c) as [c' [[cf' vs]|e']]; [discriminate|]. exists e'. reflexivity.
Qed.

(** A file that differs from the one on record for the same part and likelihood is refused. *)
Theorem C75_conflict :
  forall f cf L c v i s x d y, constructed cf -> c_kind cf = KSigmaMap ->
  value_for (contents c) cf L v -> entry v i x ->
  nth_error ["_median"; "_lower"; "_upper"] i = Some s ->
  get (c_name cf ++ s) (contents c) = Some (VDict d) -> get L d = Some y -> value_eqb y x = false ->
  exists e, snd (config_build f cf (Some L) c) = Err e.
Proof.
  intros f cf L c v i s x d y Hc Hk Hv He Hi Hg Hl Hne. unfold config_build. rewrite Hk.
  destruct (sigma_build_conflict f cf L c v i s x d y (constructed_default _ Hc) Hv He Hi Hg Hl Hne) as (e & H).
  destruct (sigma_build f cf (Some L) c) as [c' [[cf' vs]|e']]; [discriminate|]. exists e'. reflexivity.
Qed.

Definition cut_cf : config :=
  mk_config KSigmaMap "cut" (Some (VList [VStr "m.json"; VStr "l.json"; VStr "u.json"])) None.
Example cut_constructed : constructed cut_cf.
Proof. exists KSigmaMap, "cut", (c_default cut_cf). reflexivity. Qed.
Definition cut_set : rdict :=
  fst (set_global_config all_files
         [("cut", VDict [("a", VList [VStr "m2.json"; VStr "l2.json"; VStr "u2.json"; VStr "s"]);
                         ("b", VStr "one.json")]);
          ("cut_lower", VStr "own.json")] empty_rdict).
Example C75_instance :
  snd (config_build all_files cut_cf (Some "a") cut_set) =
    Ok (mk_built (mk_config KSigmaMap "cut" (c_default cut_cf) (Some "a"))
          [VStr "m2.json"; VStr "own.json"; VStr "u2.json"]) /\
  snd (config_build all_files cut_cf (Some "b") cut_set) =
    Ok (mk_built (mk_config KSigmaMap "cut" (c_default cut_cf) (Some "b"))
          [VStr "one.json"; VStr "own.json"; VStr "one.json"]) /\
  (exists e, snd (config_build all_files cut_cf (Some "a")
     (fst (set_global_config all_files [("cut", VList [VStr "m"; VStr "l"; VStr "u"; VStr "s"; VStr "t"])]
             empty_rdict))) = Err e).
Proof. vm_compute. eauto. Qed.

(** Built without a likelihood name (as in a plugin made by hand) the map ignores the configured
    files and takes those of its default ... *)
Theorem C75_no_likelihood_refuted : exists c b,
  get "cut" (contents c) = Some (VList [VStr "m2.json"; VStr "l2.json"; VStr "u2.json"]) /\
  snd (config_build all_files cut_cf None c) = Ok b /\
  b_values b = [VStr "m.json"; VStr "l.json"; VStr "u.json"].
Proof.
  exists (fst (set_global_config all_files
            [("cut", VList [VStr "m2.json"; VStr "l2.json"; VStr "u2.json"])] empty_rdict)).
  eexists. split; [reflexivity|]. split; [vm_compute; reflexivity|reflexivity].
Qed.

(** ... and from then on every likelihood gets the files of the default, too, even for a value
    configured later. *)
Theorem C75_default_sticks_refuted : exists c1 c2 b,
  c1 = fst (config_build all_files cut_cf None empty_rdict) /\
  c2 = fst (set_global_config all_files
              [("cut", VList [VStr "m2.json"; VStr "l2.json"; VStr "u2.json"])] c1) /\
  snd (config_build all_files cut_cf (Some "a") c2) = Ok b /\
  b_values b = [VStr "m.json"; VStr "l.json"; VStr "u.json"].
Proof.
  do 3 eexists. split; [reflexivity|]. split; [reflexivity|]. split; [vm_compute; reflexivity|reflexivity].
Qed.

Print Assumptions C75_files.
Print Assumptions C75_undocumented.
Print Assumptions C75_conflict.
Print Assumptions C75_no_likelihood_refuted.
Print Assumptions C75_default_sticks_refuted.
