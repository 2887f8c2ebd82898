(** Vocabulary for what a lineage says. *)
From Verif Require Import Base ModelShare ModelConfig ModelComponent ModelCompile ModelLineage.
Local Open Scope string_scope.

(** The hash function is trusted: different files have different hashes. *)
Definition no_collision (sha : string -> string) : Prop := forall a b, sha a = sha b -> a = b.

(** Python dictionaries are equal if they have the same entries, in any order. *)
Definition same_entries {A} (d d' : dict A) : Prop := forall n, get n d = get n d'.

Definition same_plugin (l l' : plugin_lineage) : Prop :=
  pl_depends l = pl_depends l' /\ pl_provides l = pl_provides l' /\ pl_params l = pl_params l' /\
  same_entries (pl_configs l) (pl_configs l').

(** Equality of two lineages. *)
Definition same_lineage (l l' : comp_lineage) : Prop :=
  l_rate l = l_rate l' /\ l_norm l = l_norm l' /\ l_code l = l_code l' /\ l_bins l = l_bins l' /\
  forall n, match get n (l_insts l), get n (l_insts l') with
            | Some p, Some p' => same_plugin p p'
            | None, None => True
            | _, _ => False
            end.

(** The configs of a class are listed under their own names, once each (config.py:40-63). *)
Definition declared (plugins : string -> option plugin) : Prop :=
  forall n p, plugins n = Some p ->
    keys (p_configs p) = map c_name (map snd (p_configs p)) /\ NoDup (keys (p_configs p)).

(** Classes of the same name have the same method simulate and the same kinds of configs. *)
Definition same_classes {code} (plugins plugins' : string -> option plugin)
    (src src' : string -> source code) : Prop :=
  forall n p p', plugins n = Some p -> plugins' n = Some p' ->
    s_code (src n) = s_code (src' n) /\
    forall c cf cf', In cf (map snd (p_configs p)) -> In cf' (map snd (p_configs p')) ->
      c_name cf = c -> c_name cf' = c -> c_kind cf = c_kind cf'.

(** The configs of the two components that are maps with a scaler name the same scaler. *)
Definition same_scalers (plugins plugins' : string -> option plugin) (names : list string)
    (llh : string) (c c' : rdict) : Prop :=
  forall n p p' cf cf', In n names -> plugins n = Some p -> plugins' n = Some p' ->
    In cf (map snd (p_configs p)) -> In cf' (map snd (p_configs p')) ->
    c_name cf = c_name cf' ->
    snd (required_parameter cf (Some llh) c) = snd (required_parameter cf' (Some llh) c').

(** Running source code cannot tell two attribute tables with the same entries apart. *)
Definition reads_attributes {code V : Type}
    (call : code -> option string -> (string -> option held) -> list V -> result (list V)) : Prop :=
  forall co llh h h' args, (forall n, h n = h' n) -> call co llh h args = call co llh h' args.

(** The file name of a path: what follows its last slash. *)
Definition no_slash (b : string) : Prop := forall l r, b <> l ++ "/" ++ r.
Definition file_part (s b : string) : Prop :=
  no_slash b /\ (s = b \/ exists dir, s = dir ++ "/" ++ b).

(** Two config values name files with the same name and the same content, whatever directories
    they are in; other values are the same. *)
Definition same_file (d d' : disk) (c c' : rdict) (v v' : value) : Prop :=
  exists s s' b p p' bytes, v = VStr s /\ v' = VStr s' /\ file_part s b /\ file_part s' b /\
    snd (get_file_path (d_fs d) s c) = Ok p /\ snd (get_file_path (d_fs d') s' c') = Ok p' /\
    d_bytes d p = Some bytes /\ d_bytes d' p' = Some bytes.

(** The same config, except that the files it names may have been moved. *)
Definition moved (d d' : disk) (c c' : rdict) (b b' : built) : Prop :=
  b_config b = b_config b' /\
  match c_kind (b_config b) with
  | KMap | KSigmaMap => Forall2 (same_file d d' c c') (b_values b) (b_values b')
  | _ => b_values b = b_values b'
  end.

(** Two compiled components that differ only in where their files are. *)
Definition moved_component (d d' : disk) (c c' : rdict) (s s' : csim) : Prop :=
  k_rate (cs_k s) = k_rate (cs_k s') /\ cs_norm s = cs_norm s' /\ cs_bins s = cs_bins s' /\
  exists cl cl', k_simulate (cs_k s) = Some cl /\ k_simulate (cs_k s') = Some cl' /\
    cl_prog cl = cl_prog cl' /\
    forall n i i', get n (cl_insts cl) = Some i -> get n (cl_insts cl') = Some i' ->
      i_class i = i_class i' /\ Forall2 (moved d d' c c') (i_built i) (i_built i').

(** What a map has in a lineage: the name of its file and the hash of what is in it now. *)
Definition map_entry (sha : string -> string) (d : disk) (c : rdict) (llh : option string)
    (meth : string) (v : value) (m : map_lineage) : Prop :=
  exists s p bytes, v = VStr s /\ snd (get_file_path (d_fs d) s c) = Ok p /\
    d_bytes d p = Some bytes /\
    ml_llh m = llh /\ ml_method m = meth /\ file_part s (ml_file m) /\ ml_sha m = sha bytes.

(** The value that goes with a name in the two lists of a constant set: the last one. *)
Definition named_value (names vals : list value) (n : string) (v : value) : Prop :=
  exists i, nth_error names i = Some (VStr n) /\ nth_error vals i = Some v /\
    forall j, i < j -> nth_error names j = Some (VStr n) -> nth_error vals j = None.

(** What a config has in a lineage. *)
Definition config_entry (sha : string -> string) (d : disk) (c : rdict) (meth : string)
    (b : built) (e : config_lineage) : Prop :=
  match c_kind (b_config b) with
  | KConstant => exists v, b_values b = [v] /\ e = LValue (c_llh (b_config b)) v
  | KConstantSet => exists v, b_values b = [v] /\
      forall names vals, v = VList [VList names; VList vals] ->
      exists t, e = LValue (c_llh (b_config b)) (VDict t) /\
        forall n x, get n t = Some x <-> named_value names vals n x
  | KMap => exists v m, b_values b = [v] /\ e = LMap m /\
      map_entry sha d c (c_llh (b_config b)) meth v m
  | KSigmaMap => exists ms, e = LSigma (c_llh (b_config b)) meth ms /\
      Forall2 (map_entry sha d c None meth) (b_values b) ms
  end.
