(** Model of utils.py:217-221 dump_lineage as far as the file is concerned: which text ends up in which
    file. How the lineage is made of a component or context is in ModelLineage.v and ModelCtxLineage.v, the
    text of a JSON object in ModelText.v. No proofs in this file. *)
From Verif Require Import Base ModelText.
Local Open Scope list_scope.

(** The files by path, with their contents. *)
Definition files := string -> option text.
Definition write (f : files) (path : string) (t : text) : files :=
  fun p => if String.eqb p path then Some t else f p.

(** What entity.lineage gives: an exception, an object that json can write, or one that it cannot (an array
    of a ConstantSet, for example: TypeError). *)
Inductive made := Raises (e : exc) | Object (v : json) | NotJson.

(** utils.py:218-221: the file is opened for writing (which empties it) before the lineage is asked for;
    json.dumps makes the whole text before anything of it is written. [opens] tells whether a file can
    be opened for writing at the path, otherwise open raises (an exception of its own, for example FileNotFoundError). Paths that lead
    to the same file by different names are not modelled. *)
Definition dump_file (opens : string -> option exc) (f : files) (path : string) (entity : made)
  : files * result unit :=
  match opens path with
  | Some e => (f, Err e)
  | None =>
      let f0 := write f path [] in
      match entity with
      | Raises e => (f0, Err e)
      | NotJson => (f0, Err TypeError)
      | Object v => (write f0 path (dumps 0 v), Ok tt)
      end
  end.
