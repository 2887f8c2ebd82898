(** Model of appletree/share.py and of the file lookup in appletree/utils.py.
    No proofs in this file. *)
From Verif Require Import Base.
Local Open Scope string_scope.

(** Python values that occur in configuration dictionaries (JSON values).
    Simplified: floats and ints are both [VNum] with an opaque integer payload; the modelled
    code never computes with them here. *)
Inductive value :=
| VNone
| VBool (b : bool)
| VNum (z : Z)
| VStr (s : string)
| VList (l : list value)
| VDict (d : list (string * value)).

(** Python [==] on these values. [True == 1] and [False == 0] as in Python.
    Simplified: dictionaries are compared in insertion order. *)
Fixpoint value_eqb (a b : value) {struct a} : bool :=
  match a, b with
  | VNone, VNone => true
  | VBool x, VBool y => Bool.eqb x y
  | VBool x, VNum z => Z.eqb (if x then 1 else 0)%Z z
  | VNum z, VBool x => Z.eqb z (if x then 1 else 0)%Z
  | VNum x, VNum y => Z.eqb x y
  | VStr x, VStr y => String.eqb x y
  | VList l1, VList l2 =>
      (fix go l1 l2 {struct l1} :=
         match l1, l2 with
         | [], [] => true
         | x :: l1', y :: l2' => value_eqb x y && go l1' l2'
         | _, _ => false
         end) l1 l2
  | VDict l1, VDict l2 =>
      (fix go l1 l2 {struct l1} :=
         match l1, l2 with
         | [], [] => true
         | (k1, x) :: l1', (k2, y) :: l2' => String.eqb k1 k2 && value_eqb x y && go l1' l2'
         | _, _ => false
         end) l1 l2
  | _, _ => false
  end.

(** share.py:4-25 RecordingDict: a dictionary plus the set of keys accessed by
    [__getitem__] or [__setitem__]. *)
Record rdict := mk_rdict { contents : dict value; accessed : list string }.

(** share.py:38 [_cached_configs = RecordingDict()] *)
Definition empty_rdict : rdict := mk_rdict [] [].

(** share.py:9-11 [__getitem__]: the key is recorded even if the lookup then fails. *)
Definition rd_getitem (k : string) (c : rdict) : rdict * result value :=
  (mk_rdict (contents c) (add1 k (accessed c)),
   match get k (contents c) with Some v => Ok v | None => Err KeyError end).

(** share.py:13-15 [__setitem__] *)
Definition rd_setitem (k : string) (v : value) (c : rdict) : rdict :=
  mk_rdict (set k v (contents c)) (add1 k (accessed c)).

(** [dict.update({k: v})], inherited, hence not recorded. *)
Definition rd_update (k : string) (v : value) (c : rdict) : rdict :=
  mk_rdict (set k v (contents c)) (accessed c).

(** [k in d] / [k in d.keys()], inherited, hence not recorded. *)
Definition rd_in (k : string) (c : rdict) : bool := has k (contents c).

(** share.py:23-25 [clear] *)
Definition rd_clear (c : rdict) : rdict := empty_rdict.

(** share.py:28-35 StaticValueDict [__setitem__]: a key can be set only once. *)
Definition sv_setitem {V} (k : string) (v : V) (d : dict V) : result (dict V) :=
  if has k d then Err RuntimeError else Ok (set k v d).

(** The environment that [get_file_path] consults (os, package data, ntauxfiles, MongoDB).
    [mongo f = None] stands for one of the exceptions caught at utils.py:200. *)
Record fs := mk_fs {
  isfile : string -> bool;           (* os.path.isfile *)
  path_exists : string -> bool;      (* os.path.exists *)
  package_path : string -> string;   (* utils.py:141-143 _package_path *)
  nt_aux_installed : bool;           (* utils.py:21-27 *)
  nt_aux_files : list string;        (* ntauxfiles.list_private_files() *)
  nt_aux_path : string -> string;    (* ntauxfiles.get_abspath *)
  skip_mongo_db : bool;              (* utils.py:29 *)
  mongo : string -> option string    (* downloader.download_single *)
}.

Definition starts_with_slash (s : string) : bool :=
  match s with
  | String c _ => Ascii.eqb c "/"%char
  | EmptyString => false
  end.

Fixpoint ends_with_slash (s : string) : bool :=
  match s with
  | EmptyString => false
  | String c EmptyString => Ascii.eqb c "/"%char
  | String _ s' => ends_with_slash s'
  end.

(** [os.path.join(a, b)] on POSIX. *)
Definition path_join (a b : string) : string :=
  if starts_with_slash b then b
  else if String.eqb a "" then b
  else if ends_with_slash a then a ++ b
  else a ++ "/" ++ b.

(** utils.py:134 the order of the package sub-directories. *)
Definition sub_dirs : list string := ["maps"; "data"; "parameters"; "instructs"].

(** utils.py:128-138 _get_abspath; [None] is FileNotFoundError. *)
Fixpoint get_abspath_in (f : fs) (dirs : list string) (fname : string) : option string :=
  match dirs with
  | [] => None
  | d :: dirs' =>
      let p := path_join (package_path f d) fname in
      if path_exists f p then Some p else get_abspath_in f dirs' fname
  end.
Definition get_abspath (f : fs) (fname : string) : option string :=
  get_abspath_in f sub_dirs fname.

(** utils.py:174-204, steps 3 to 5 of get_file_path. *)
Definition get_file_path_345 (f : fs) (fname : string) : result string :=
  match get_abspath f fname with
  | Some p => Ok p
  | None =>
      if nt_aux_installed f && mem fname (nt_aux_files f) then Ok (nt_aux_path f fname)
      else if skip_mongo_db f then Err RuntimeError
      else match mongo f fname with
           | Some p => Ok p
           | None => Err RuntimeError
           end
  end.

(** utils.py:147-204 get_file_path. Reading url_base is recorded in the cache (line 166).
    A url_base that is not a string fails at line 168 (no attribute startswith). *)
Definition get_file_path (f : fs) (fname : string) (c : rdict) : rdict * result string :=
  if isfile f fname then (c, Ok fname)
  else if rd_in "url_base" c then
    let '(c1, r) := rd_getitem "url_base" c in
    match r with
    | Ok (VStr url_base) =>
        if starts_with_slash url_base then
          let fpath := path_join url_base fname in
          if path_exists f fpath then (c1, Ok fpath)
          else (c1, get_file_path_345 f fname)
        else (c1, get_file_path_345 f fname)
    | Ok _ => (c1, Err AttributeError)
    | Err e => (c1, Err e)
    end
  else (c, get_file_path_345 f fname).

(** [isinstance(v, (float, int, list))], share.py:57 and 65 (bool is an int). *)
Definition is_plain (v : value) : bool :=
  match v with
  | VBool _ | VNum _ | VList _ => true
  | _ => false
  end.

(** share.py:63-68: resolving a per-likelihood dictionary; entries of other types are
    silently skipped. *)
Fixpoint resolve_entries (f : fs) (d : list (string * value)) (out : dict value) (c : rdict)
  : rdict * result (dict value) :=
  match d with
  | [] => (c, Ok out)
  | (kk, vv) :: d' =>
      if is_plain vv then resolve_entries f d' (set kk vv out) c
      else match vv with
           | VStr s =>
               let '(c1, r) := get_file_path f s c in
               match r with
               | Ok p => resolve_entries f d' (set kk (VStr p) out) c1
               | Err e => (c1, Err e)
               end
           | _ => resolve_entries f d' out c
           end
  end.

(** share.py:57-71, the body of the loop for one entry. *)
Definition set_global_config1 (f : fs) (k : string) (v : value) (c : rdict)
  : rdict * result unit :=
  if is_plain v then (rd_update k v c, Ok tt)
  else match v with
       | VStr s =>
           let '(c1, r) := get_file_path f s c in
           match r with
           | Ok p => (rd_update k (VStr p) c1, Ok tt)
           | Err e => (c1, Err e)
           end
       | VDict d =>
           let '(c1, r) := resolve_entries f d [] c in
           match r with
           | Ok d' => (rd_update k (VDict d') c1, Ok tt)
           | Err e => (c1, Err e)
           end
       | _ => (c, Err NotImplementedError)
       end.

(** share.py:47-71 set_global_config: entries are applied in order; on an exception the ones
    already applied stay. *)
Fixpoint set_global_config (f : fs) (configs : dict value) (c : rdict) : rdict * result unit :=
  match configs with
  | [] => (c, Ok tt)
  | (k, v) :: rest =>
      let '(c1, r) := set_global_config1 f k v c in
      match r with
      | Ok _ => set_global_config f rest c1
      | Err e => (c1, Err e)
      end
  end.

(** utils.py:645-649 check_unused_configs: the set it warns about. *)
Definition unused_configs (c : rdict) : list string :=
  filter (fun k => negb (mem k (accessed c))) (keys (contents c)).
