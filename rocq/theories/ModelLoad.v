(** Model of utils.py:101-116 load_data as far as the name of the file decides, and of component.py:486-489
    save_code. No proofs in this file. *)
From Verif Require Import Base ModelShare ModelUtils ModelText ModelDump.
Local Open Scope string_scope.

(** pandas.read_csv and pandas.read_pickle. *)
Inductive reader := Csv | Pickle.

(** utils.py:109-115: what follows the last dot of the path decides. *)
Definition reader_of (path : string) : result reader :=
  let fmt := last_part path in
  if String.eqb fmt "csv" then Ok Csv
  else if String.eqb fmt "pkl" then Ok Pickle
  else Err ValueError.

(** utils.py:109-116 with the path that was found; [read]: what pandas makes of the file. *)
Definition read_path {T} (read : reader -> string -> result T) (path : string) : result T :=
  match reader_of path with Ok r => read r path | Err e => Err e end.

(** utils.py:101-116 load_data: the file is looked for first. *)
Definition load_table {T} (read : reader -> string -> result T) (f : fs) (fname : string) (c : rdict) : rdict * result T :=
  let '(c1, r) := get_file_path f fname c in
  (c1, match r with Ok path => read_path read path | Err e => Err e end).

(** component.py:486-489 save_code: the file is opened for writing (which empties it) before the attribute
    _code is looked up; [code = None] is a component without it (nothing was deduced): AttributeError. *)
Definition save_code (opens : string -> option exc) (f : files) (path : string) (code : option string)
  : files * result unit :=
  match opens path with
  | Some e => (f, Err e)
  | None =>
      let f0 := write f path [] in
      match code with
      | None => (f0, Err AttributeError)
      | Some s => (write f0 path (txt s), Ok tt)
      end
  end.
