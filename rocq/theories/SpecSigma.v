(** Vocabulary for the files of maps with uncertainty (C75). No proofs. *)
From Verif Require Import Base ModelShare ModelConfig.
Local Open Scope string_scope.

(** The documented forms of a value: [median; lower; upper], [median; lower; upper; scaler], or a
    single file for all three. [entry v i] is the file number [i]. *)
Inductive entry : value -> nat -> value -> Prop :=
| entry_file s i : i < 3 -> entry (VStr s) i (VStr s)
| entry_three m l u i x : nth_error [m; l; u] i = Some x -> entry (VList [m; l; u]) i x
| entry_four m l u s i x : nth_error [m; l; u] i = Some x -> entry (VList [m; l; u; s]) i x.

(** A value of one of these forms. *)
Inductive documented : value -> Prop :=
| doc_file s : documented (VStr s)
| doc_three m l u : documented (VList [m; l; u])
| doc_four m l u s : documented (VList [m; l; u; s]).

(** [x] is the file used for the part called [name] of a map whose value is [v]: a value set for
    the part itself (for everybody) comes first. *)
Definition part_file (contents : dict value) (name : string) (v : value) (i : nat) (x : value) : Prop :=
  (exists y, get name contents = Some y /\ (forall d, y <> VDict d) /\ x = y) \/
  (match get name contents with None | Some (VDict _) => True | _ => False end /\ entry v i x).

(** The current value of a config for a likelihood: the configured one, else the default. *)
Definition value_for (contents : dict value) (cf : config) (llh : string) (v : value) : Prop :=
  match get (c_name cf) contents with
  | None => c_default cf = Some v
  | Some (VDict d) => get llh d = Some v
  | Some y => v = y
  end.
