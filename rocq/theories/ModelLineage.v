(** Model of the lineage of a component (appletree/component.py, plugin.py, config.py) and of what
    the compiled component works with. No proofs in this file. *)
From Verif Require Import Base ModelShare ModelConfig ModelComponent ModelCompile.
Local Open Scope string_scope.

(** The files: how a name is found (utils.py:147-204) and the bytes at a path. *)
Record disk := mk_disk { d_fs : fs; d_bytes : string -> option string }.

(** The part of a path after the last slash ([os.path.basename]). *)
Fixpoint has_slash (s : string) : bool :=
  match s with
  | EmptyString => false
  | String c s' => Ascii.eqb c "/"%char || has_slash s'
  end.
Fixpoint base_name (s : string) : string :=
  match s with
  | EmptyString => EmptyString
  | String _ s' => if has_slash s then base_name s' else s
  end.

(** Opening the file a config value names: config.py:211-213 (building a map) and config.py:388
    with utils.py:208-214 (hashing it). The name is looked up again each time. *)
Definition read_file (d : disk) (c : rdict) (v : value) : result string :=
  match v with
  | VStr s =>
      match snd (get_file_path (d_fs d) s c) with
      | Err e => Err e
      | Ok p => match d_bytes d p with Some b => Ok b | None => Err FileNotFoundError end
      end
  | _ => Err TypeError
  end.

(** config.py:583: the names and the values are zipped into a dictionary of arrays; a repeated name keeps the last
    value. The checks of config.py:585-593 are not repeated here. *)
Fixpoint zip_values (names vals : list value) (acc : dict value) : dict value :=
  match names, vals with
  | VStr n :: names', v :: vals' => zip_values names' vals' (set n v acc)
  | _ :: names', _ :: vals' => zip_values names' vals' acc
  | _, _ => acc
  end.
Definition set_values (v : value) : value :=
  match v with
  | VList [VList names; VList vals] => VDict (zip_values names vals [])
  | _ => v
  end.

(** The entries of the lineage of a map (config.py:379-389, FULL_PATH_LINEAGE is False). *)
Record map_lineage := mk_ml {
  ml_llh : option string; ml_method : string; ml_file : string; ml_sha : string }.

(** config.py:165-170, 379-389, 555-563, 595-600 lineage of the four kinds of configs. A Constant
    and a ConstantSet have the same entries. *)
Inductive config_lineage :=
| LValue (llh : option string) (v : value)
| LMap (m : map_lineage)
| LSigma (llh : option string) (method : string) (maps : list map_lineage).

(** plugin.py:94-106 *)
Record plugin_lineage := mk_pl {
  pl_depends : list string; pl_provides : list string; pl_params : list string;
  pl_configs : dict config_lineage }.

(** component.py:571-593 *)
Record comp_lineage := mk_cl {
  l_rate : string; l_norm : string; l_code : prog; l_insts : dict plugin_lineage;
  l_bins : option (value * value) }.

(** A ComponentSim with the attributes that only matter for its histogram: norm_type, bins and
    bins_type (None before set_binning), add_eps_to_hist (component.py:26-32, 57-69). *)
Record csim := mk_csim {
  cs_k : component; cs_norm : string; cs_bins : option (value * value); cs_eps : bool }.

(** Collecting results in order; the first exception is raised. *)
Fixpoint all_ok {A} (l : list (result A)) : result (list A) :=
  match l with
  | [] => Ok []
  | Err e :: _ => Err e
  | Ok x :: l' => match all_ok l' with Ok xs => Ok (x :: xs) | Err e => Err e end
  end.

Section Lineage.
  Variable sha : string -> string.          (* utils.py:208-214 calculate_sha256 of the bytes *)

  (** The Python source of a plugin class: the body of its method simulate, and the interpolation
      method given to each of its maps (config.py:199-201, 413-415). *)
  Variable code : Type.
  Record source := mk_source { s_code : code; s_method : string -> string }.

  Definition one_map_lineage (d : disk) (c : rdict) (llh : option string) (meth : string)
      (v : value) : result map_lineage :=
    match v with
    | VStr s => bind (read_file d c v) (fun b => Ok (mk_ml llh meth (base_name s) (sha b)))
    | _ => Err TypeError
    end.

  Definition config_lineage_of (d : disk) (c : rdict) (src : source) (b : built)
    : result config_lineage :=
    let cf := b_config b in
    match c_kind cf, b_values b with
    | KConstant, [v] => Ok (LValue (c_llh cf) v)
    | KConstantSet, [v] => Ok (LValue (c_llh cf) (set_values v))
    | KMap, [v] =>
        bind (one_map_lineage d c (c_llh cf) (s_method src (c_name cf)) v) (fun m => Ok (LMap m))
    | KSigmaMap, vs =>
        (* the three maps are new objects, whose llh_name is never set (config.py:471-476) *)
        bind (all_ok (map (one_map_lineage d c None (s_method src (c_name cf))) vs)) (fun ms =>
        Ok (LSigma (c_llh cf) (s_method src (c_name cf)) ms))
    | _, _ => Err AttributeError
    end.

  (** plugin.py:94-106: the configs are those of the class. *)
  Definition plugin_lineage_of (d : disk) (src : string -> source) (w : world) (i : instance)
    : result plugin_lineage :=
    let p := i_class i in
    let bs := match get (p_name p) (w_class w) with Some bs => bs | None => [] end in
    bind (all_ok (map (config_lineage_of d (w_cache w) (src (p_name p))) bs)) (fun ls =>
    Ok (mk_pl (p_depends p) (p_provides p) (p_params p) (combine (keys (p_configs p)) ls))).

  (** component.py:571-593; [self.instances] are the names in the generated code. *)
  Definition lineage (d : disk) (src : string -> source) (s : csim) (w : world)
    : result comp_lineage :=
    let k := cs_k s in
    match k_code k with
    | None => Err AttributeError
    | Some pr =>
        match get (k_llh k) (w_fn w) with
        | None => Err KeyError
        | Some a =>
            match get (k_func k) (nth a (w_heap w) []) with
            | None => Err KeyError
            | Some cl =>
                bind (all_ok (map (fun n =>
                        match get n (cl_insts cl) with
                        | None => Err KeyError
                        | Some i => bind (plugin_lineage_of d src w i) (fun l => Ok (n, l))
                        end) (map fst (pr_insts pr)))) (fun ls =>
                Ok (mk_cl (k_rate k) (cs_norm s) pr ls (cs_bins s)))
            end
        end
    end.

  (** utils.py:217-222 dump_lineage: json cannot write the arrays of a ConstantSet (TypeError). *)
  Definition has_array (b : built) : bool :=
    match c_kind (b_config b) with KConstantSet => true | _ => false end.
  Definition dump_lineage (d : disk) (src : string -> source) (s : csim) (w : world)
    : result comp_lineage :=
    bind (lineage d src s w) (fun l =>
    match k_simulate (cs_k s) with
    | Some cl =>
        if existsb (fun ni => existsb has_array
             (match get (p_name (i_class (snd ni))) (w_class w) with Some bs => bs | None => [] end))
             (cl_insts cl)
        then Err TypeError else Ok l
    | None => Ok l
    end).

  (** What a call of a plugin sees of one of its configs: the value, the bytes of the map with the
      interpolation method, or those of three maps with the name of the scaler (config.py:543-553). *)
  Inductive held :=
  | HValue (v : value)
  | HSet (v : value)
  | HMap (method bytes : string)
  | HSigma (scaler : option string) (method : string) (maps : list string).

  Definition held_of (d : disk) (c : rdict) (src : source) (b : built) : result held :=
    let cf := b_config b in
    match c_kind cf, b_values b with
    | KConstant, [v] => Ok (HValue v)
    | KConstantSet, [v] => Ok (HSet (set_values v))
    | KMap, [v] => bind (read_file d c v) (fun x => Ok (HMap (s_method src (c_name cf)) x))
    | KSigmaMap, vs =>
        bind (all_ok (map (read_file d c) vs)) (fun xs =>
        bind (snd (required_parameter cf None c)) (fun sc =>
        Ok (HSigma sc (s_method src (c_name cf)) xs)))
    | _, _ => Err AttributeError
    end.

  (** plugin.py:49-51: the configs are attributes of the instance, by name. *)
  Definition holds (d : disk) (src : string -> source) (c : rdict) (i : instance) (n : string)
    : option held :=
    match List.find (fun b => String.eqb (c_name (b_config b)) n) (i_built i) with
    | None => None
    | Some b =>
        match held_of d c (src (p_name (i_class i))) b with Ok h => Some h | Err _ => None end
    end.

  Section Run.
    Variable V : Type.
    (** Running the source of simulate on an instance: it can use the likelihood name, the
        attributes and the arguments. *)
    Variable call : code -> option string -> (string -> option held) -> list V -> result (list V).

    (** plugin.py:53-55. [d] and [c] are the files and the configuration when the component was
        compiled and first run. *)
    Definition instance_call (d : disk) (src : string -> source) (c : rdict) (i : instance)
        (args : list V) : result (list V) :=
      call (s_code (src (p_name (i_class i)))) (i_llh i) (holds d src c i) args.

    Definition sim (d : disk) (src : string -> source) (c : rdict) (s : csim)
        (key batch params : V) : result (V * list V) :=
      simulate V (instance_call d src c) (cs_k s) key batch params.

    (** Binning and normalisation (component.py:71-158, 457-465). *)
    Variable ones : list V -> V.
    Variable post : string -> string -> value * value -> bool -> list V -> V -> V -> V -> result V.

    Definition n_bins (v : value) : nat :=
      match v with VList l => List.length l | _ => 0 end.

    (** component.py:440-465 simulate_hist *)
    Definition simulate_hist (d : disk) (src : string -> source) (c : rdict) (s : csim)
        (key batch params : V) : result (V * V) :=
      bind (sim d src c s key batch params) (fun kr =>
      let '(key', res) := kr in
      bind (if k_noeff (cs_k s) then Ok (res, ones res)
            else match rev res with
                 | [] => Err IndexError
                 | e :: _ => Ok (removelast res, e)
                 end) (fun me =>
      match cs_bins s with
      | None => Err AttributeError
      | Some b =>
          if Nat.eqb (List.length (fst me)) (n_bins (fst b)) then
            bind (post (cs_norm s) (k_rate (cs_k s)) b (cs_eps s) (fst me) (snd me) params batch)
                 (fun h => Ok (key', h))
          else Err AssertionError
      end)).
  End Run.
End Lineage.

Arguments s_code {code} _.
Arguments s_method {code} _ _.
Arguments mk_source {code} _ _.
