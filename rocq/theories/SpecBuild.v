(** Vocabulary for when a component can be built (C85). No proofs. *)
From Verif Require Import Base ModelShare ModelConfig ModelComponent SpecComponent SpecConfig.
Local Open Scope string_scope.

(** What get_file_path answers for a name under a configuration. *)
Definition path_of (f : fs) (contents : dict value) (s p : string) : Prop :=
  snd (get_file_path f s (mk_rdict contents [])) = Ok p.

Definition found (f : fs) (contents : dict value) (s : string) : Prop :=
  exists p, path_of f contents s p.

(** A map with uncertainty given by files: one for everything, three, or three and the name of the
    scaler. *)
Inductive three_files : value -> string -> string -> string -> Prop :=
| tf_one s : three_files (VStr s) s s s
| tf_three m l u : three_files (VList [VStr m; VStr l; VStr u]) m l u
| tf_four m l u x : three_files (VList [VStr m; VStr l; VStr u; VStr x]) m l u.

(** The entry of a part of such a map leaves room for the file [s]: unset, a table that says
    nothing else for this likelihood, or a file of its own. *)
Definition part_free (f : fs) (contents : dict value) (llh n s : string) : Prop :=
  match get n contents with
  | None => True
  | Some (VDict d) => get llh d = None \/ get llh d = Some (VStr s)
  | Some (VStr t) => found f contents t
  | Some _ => False
  end.

(** The configuration gives [cf] a value of the right form for likelihood [llh], and the files it
    names are found. A default file of a Map is looked up twice: the path found the first time is
    stored, and looked up again. *)
Definition usable (f : fs) (contents : dict value) (llh : string) (cf : config) : Prop :=
  match c_kind cf with
  | KConstant | KConstantSet => exists v, effective_value contents cf llh = Some v
  | KMap =>
      match get (c_name cf) contents with
      | None => exists s p, c_default cf = Some (VStr s) /\ path_of f contents s p /\
                  found f contents p
      | Some _ => exists s, effective_value contents cf llh = Some (VStr s) /\ found f contents s
      end
  | KSigmaMap =>
      (exists v m l u, effective_value contents cf llh = Some v /\ three_files v m l u /\
         found f contents m /\ found f contents l /\ found f contents u /\
         part_free f contents llh (c_name cf ++ "_median") m /\
         part_free f contents llh (c_name cf ++ "_lower") l /\
         part_free f contents llh (c_name cf ++ "_upper") u) /\
      (exists v m l u, c_default cf = Some v /\ three_files v m l u)
  end.

(** The keys of the configuration that a build of [cf] may write. *)
Definition owned (cf : config) : list string := c_name cf :: sub_maps cf.

(** Any two of the configs are the same or write different keys, and none writes url_base. *)
Definition separate (P : config -> Prop) : Prop :=
  (forall a b, P a -> P b -> a = b \/ forall n, In n (owned a) -> ~ In n (owned b)) /\
  (forall a, P a -> ~ In "url_base" (owned a)).

(** A class that can be instantiated: the arguments of simulate after self are key, parameters and
    the dependencies in order, and there is at least one dependency and one output. *)
Definition proper_class (p : plugin) : Prop :=
  p_depends p <> [] /\ p_provides p <> [] /\
  exists self extra, p_args p = (self :: "key" :: "parameters" :: p_depends p ++ extra)%list.

(** The configs of the plugins that a workflow uses. *)
Definition used_config (reg : registry) (nodep : string) (names : list string) (cf : config) : Prop :=
  exists d p, Reach reg nodep names d /\ get d reg = Some p /\ In cf (map snd (p_configs p)).
