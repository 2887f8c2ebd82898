(** Model of the resolution logic of appletree/config.py (not the numerical maps, which are in
    ModelInterp.v / ModelMaps.v). No proofs in this file. *)
From Verif Require Import Base ModelShare.
Local Open Scope string_scope.

(** The concrete subclasses of Config, config.py:155-600. *)
Inductive ckind := KConstant | KMap | KSigmaMap | KConstantSet.

(** config.py:69-99 a Config object. [c_default = None] is OMITTED. [c_llh] is the attribute
    llh_name (set only by SigmaMap.build). *)
Record config := mk_config {
  c_kind : ckind;
  c_name : string;
  c_default : option value;
  c_llh : option string
}.

(** config.py:74-99 Config.__init__: a dict default is rejected. *)
Definition config_init (kd : ckind) (name : string) (default : option value) : result config :=
  match default with
  | Some (VDict _) => Err ValueError
  | _ => Ok (mk_config kd name default None)
  end.

(** config.py:101-106 get_default *)
Definition get_default (cf : config) : result value :=
  match c_default cf with Some v => Ok v | None => Err ValueError end.

(** Lookup in a per-likelihood dictionary: config.py:132-141 and 512-526. A [None]
    likelihood name is never a key. *)
Definition lookup_llh (d : dict value) (llh : option string) : result value :=
  match llh with
  | None => Err ValueError
  | Some l => match get l d with Some v => Ok v | None => Err ValueError end
  end.

(** The [transform] argument of _resolve_cached_config: nothing, or get_file_path (Map.build,
    config.py:205-208). get_file_path of something that is not a string is a TypeError. *)
Definition transform_value (f : fs) (tr : bool) (v : value) (c : rdict) : rdict * result value :=
  if tr then
    match v with
    | VStr s =>
        let '(c1, r) := get_file_path f s c in
        (c1, match r with Ok p => Ok (VStr p) | Err e => Err e end)
    | _ => (c, Err TypeError)
    end
  else (c, Ok v).

(** config.py:112-141 _resolve_cached_config *)
Definition resolve_cached_config (f : fs) (tr : bool) (cf : config) (llh : option string)
    (c : rdict) : rdict * result value :=
  let '(c1, r) :=
    if rd_in (c_name cf) c then rd_getitem (c_name cf) c
    else match get_default cf with
         | Err e => (c, Err e)
         | Ok v =>
             let '(c1, r) := transform_value f tr v c in
             match r with
             | Ok v' => (rd_setitem (c_name cf) v' c1, Ok v')
             | Err e => (c1, Err e)
             end
         end in
  match r with
  | Ok (VDict d) => (c1, lookup_llh d llh)
  | Ok v => (c1, Ok v)
  | Err e => (c1, Err e)
  end.

(** config.py:499-528 SigmaMap.get_configs. [llh] is the argument; if it is None the attribute
    is used. *)
Definition get_configs (cf : config) (llh : option string) (c : rdict) : rdict * result value :=
  let llh' := match llh with Some l => Some l | None => c_llh cf end in
  let '(c1, r) :=
    if rd_in (c_name cf) c then rd_getitem (c_name cf) c
    else match get_default cf with
         | Err e => (c, Err e)
         | Ok v => (rd_setitem (c_name cf) v c, Ok v)
         end in
  match r with
  | Ok (VDict d) => (c1, lookup_llh d llh')
  | Ok v => (c1, Ok v)
  | Err e => (c1, Err e)
  end.

(** config.py:530-540 SigmaMap.required_parameter: which parameter a config value requires.
    Simplified: a fourth list entry that is not a string is a TypeError here (in the code it is
    stored as is, and fails when used as a parameter name). *)
Definition required_of_value (name : string) (v : value) : result (option string) :=
  match v with
  | VList l =>
      if Nat.eqb (List.length l) 4 then
        match nth_error l 3 with
        | Some (VStr s) => Ok (Some s)
        | _ => Err TypeError
        end
      else Ok (Some (name ++ "_sigma"))
  | _ => Ok None
  end.

(** config.py:143-144 Config.required_parameter (None) and 530-540 for SigmaMap. *)
Definition required_parameter (cf : config) (llh : option string) (c : rdict)
  : rdict * result (option string) :=
  match c_kind cf with
  | KSigmaMap =>
      let '(c1, r) := get_configs cf llh c in
      (c1, match r with Ok v => required_of_value (c_name cf) v | Err e => Err e end)
  | _ => (c, Ok None)
  end.

(** config.py:418-433 _resolve_sigma_value *)
Definition resolve_sigma_value (v : value) (index : nat) : result value :=
  match v with
  | VList l => match nth_error l index with Some x => Ok x | None => Err IndexError end
  | VStr s => Ok (VStr s)
  | _ => Err ValueError
  end.

(** config.py:435-451 _update_sigma_cache. Lines 439, 441 and 451 access the entry through
    [__getitem__]/[__setitem__], so it is recorded; the nested dictionary is a plain dict. *)
Definition update_sigma_cache (llh : string) (map_name : string) (v : value) (c : rdict)
  : rdict * result unit :=
  let c0 := if rd_in map_name c then c else rd_setitem map_name (VDict []) c in
  let '(c1, r) := rd_getitem map_name c0 in
  match r with
  | Ok (VDict d) =>
      let existing := match get llh d with Some x => x | None => v end in
      if value_eqb existing v
      then (mk_rdict (set map_name (VDict (set llh v d)) (contents c1)) (accessed c1), Ok tt)
      else (c1, Err ValueError)
  | Ok _ => (c1, Ok tt)
  | Err e => (c1, Err e)
  end.

(** config.py:459-462 *)
Definition too_long (v : value) : bool :=
  match v with VList l => Nat.ltb 4 (List.length l) | _ => false end.

Definition sigma_names : list string := ["median"; "lower"; "upper"].

(** config.py:464-484, the loop over median/lower/upper. *)
Fixpoint sigma_loop (llh : option string) (name : string) (cfgs dflt : value)
    (i : nat) (sigmas : list string) (c : rdict) : rdict * result (list config) :=
  match sigmas with
  | [] => (c, Ok [])
  | sg :: rest =>
      match resolve_sigma_value dflt i with
      | Err e => (c, Err e)
      | Ok d =>
          match config_init KMap (name ++ "_" ++ sg) (Some d) with
          | Err e => (c, Err e)
          | Ok m =>
              let '(c1, r) :=
                match llh with
                | None => (c, Ok tt)
                | Some l =>
                    match resolve_sigma_value cfgs i with
                    | Err e => (c, Err e)
                    | Ok v => update_sigma_cache l (c_name m) v c
                    end
                end in
              match r with
              | Err e => (c1, Err e)
              | Ok _ =>
                  let '(c2, r2) := sigma_loop llh name cfgs dflt (S i) rest c1 in
                  (c2, match r2 with Ok ms => Ok (m :: ms) | Err e => Err e end)
              end
          end
      end
  end.

(** config.py:203-211 Map.build up to finding the file: the attribute file_path is the resolved
    config value, and get_file_path of it must succeed (line 211). Reading the file's content
    (lines 212-231) is in ModelMaps.v. *)
Definition map_build (f : fs) (m : config) (llh : option string) (c : rdict)
  : rdict * result value :=
  let '(c1, r) := resolve_cached_config f true m llh c in
  match r with
  | Err e => (c1, Err e)
  | Ok v =>
      let '(c2, r2) := transform_value f true v c1 in
      (c2, match r2 with Ok _ => Ok v | Err e => Err e end)
  end.

(** config.py:486-488 building the three maps in turn. *)
Fixpoint resolve_maps (f : fs) (ms : list config) (llh : option string) (c : rdict)
  : rdict * result (list value) :=
  match ms with
  | [] => (c, Ok [])
  | m :: ms' =>
      let '(c1, r) := map_build f m llh c in
      match r with
      | Err e => (c1, Err e)
      | Ok v =>
          let '(c2, r2) := resolve_maps f ms' llh c1 in
          (c2, match r2 with Ok vs => Ok (v :: vs) | Err e => Err e end)
      end
  end.

(** config.py:453-488; the calls of required_parameter at lines 490-497 only print (and repeat a
    lookup that already succeeded). *)
Definition sigma_build (f : fs) (cf : config) (llh : option string) (c : rdict)
  : rdict * result (config * list value) :=
  let cf' := mk_config (c_kind cf) (c_name cf) (c_default cf) llh in
  let '(c1, r) := get_configs cf' None c in
  match r with
  | Err e => (c1, Err e)
  | Ok cfgs =>
      match get_default cf' with
      | Err e => (c1, Err e)
      | Ok dflt =>
          if too_long cfgs || too_long dflt then (c1, Err ValueError)
          else
            let '(c2, r2) := sigma_loop llh (c_name cf) cfgs dflt 0 sigma_names c1 in
            match r2 with
            | Err e => (c2, Err e)
            | Ok ms =>
                let '(c3, r3) := resolve_maps f ms llh c2 in
                (c3, match r3 with Ok vs => Ok (cf', vs) | Err e => Err e end)
            end
      end
  end.

(** What a built config object holds: its values (one for Constant, Map and ConstantSet, three
    file paths for SigmaMap). *)
Record built := mk_built { b_config : config; b_values : list value }.

(** config.py:161-163, 203-208, 453-488, 577-583 [build] for the four kinds.
    Simplified: the checks on the content of map files and of constant sets (config.py:210-231,
    585-593) are in ModelMaps.v; here a build fails only in resolving the value. *)
Definition config_build (f : fs) (cf : config) (llh : option string) (c : rdict)
  : rdict * result built :=
  match c_kind cf with
  | KSigmaMap =>
      let '(c1, r) := sigma_build f cf llh c in
      (c1, match r with Ok (cf', vs) => Ok (mk_built cf' vs) | Err e => Err e end)
  | KMap =>
      let '(c1, r) := map_build f cf llh c in
      (c1, match r with Ok v => Ok (mk_built cf [v]) | Err e => Err e end)
  | _ =>
      let '(c1, r) := resolve_cached_config f false cf llh c in
      (c1, match r with Ok v => Ok (mk_built cf [v]) | Err e => Err e end)
  end.

(** config.py:544-547: the scaler that apply of a built SigmaMap reads from the parameters;
    [None] is the constant 1.0. The configuration [c] is the one at the time of the call. *)
Definition sigma_scaler {P} (cf : config) (c : rdict) (params : dict P)
  : rdict * result (option P) :=
  let '(c1, r) := required_parameter cf None c in
  match r with
  | Err e => (c1, Err e)
  | Ok None => (c1, Ok None)
  | Ok (Some x) => (c1, match get x params with Some v => Ok (Some v) | None => Err KeyError end)
  end.

(** Argument of takes_config: a Config object or something else (config.py:46-48). *)
Inductive tc_arg := TCConfig (cf : config) | TCOther.

(** config.py:45-50: collecting the decorator's arguments; a repeated name keeps the last. *)
Fixpoint collect_configs (args : list tc_arg) (out : dict config) : result (dict config) :=
  match args with
  | [] => Ok out
  | TCConfig cf :: rest => collect_configs rest (set (c_name cf) cf out)
  | TCOther :: _ => Err RuntimeError
  end.

(** config.py:40-63 [wrapped]: [old] is the class's (possibly inherited) takes_config; the
    result is the new one. On an error the class keeps [old]. *)
Definition takes_config (args : list tc_arg) (old : dict config) : result (dict config) :=
  match collect_configs args [] with
  | Err e => Err e
  | Ok res =>
      if existsb (fun k => has k old) (keys res) then Err RuntimeError
      else Ok (update old res)
  end.

(** Operations on the process-wide configuration: building a config (config.py), asking for its
    required parameter (component.py:330), set_global_config and clear_cache (share.py). *)
Inductive cop :=
| CBuild (f : fs) (cf : config) (llh : option string)
| CRequired (cf : config) (llh : option string)
| CSet (f : fs) (configs : dict value)
| CClear.

Definition cstep (o : cop) (c : rdict) : rdict :=
  match o with
  | CBuild f cf llh => fst (config_build f cf llh c)
  | CRequired cf llh => fst (required_parameter cf llh c)
  | CSet f configs => fst (set_global_config f configs c)
  | CClear => rd_clear c
  end.

Definition crun (os : list cop) (c : rdict) : rdict := fold_left (fun c o => cstep o c) os c.
