(** Shared vocabulary of the model: Python exceptions as values, insertion-ordered
    dictionaries with string keys, and a few list functions. No source lines are modelled
    here; these are the data types the model files are written in. *)
From Coq Require Export List String Ascii Bool Arith ZArith Lia.
Export ListNotations.
Local Open Scope string_scope.

(** Python exception classes that the modelled code raises. *)
Inductive exc :=
| ValueError | RuntimeError | KeyError | IndexError | AssertionError | TypeError
| AttributeError | NameError | ImportError | NotImplementedError | RecursionError
| FileNotFoundError | UnboundLocalError | SyntaxError | ZeroDivisionError.

(** Result of a Python call: a value or a raised exception. *)
Inductive result (A : Type) :=
| Ok (a : A)
| Err (e : exc).
Arguments Ok {A} _.
Arguments Err {A} _.

Definition is_ok {A} (r : result A) : bool :=
  match r with Ok _ => true | Err _ => false end.

Definition bind {A B} (r : result A) (f : A -> result B) : result B :=
  match r with Ok a => f a | Err e => Err e end.

(** Python [x in l] on a list (or set) of strings. *)
Fixpoint mem (x : string) (l : list string) : bool :=
  match l with
  | [] => false
  | y :: l' => if String.eqb x y then true else mem x l'
  end.

(** Set union used for Python's [set |= set], sets being lists up to membership. *)
Definition add1 (x : string) (l : list string) : list string :=
  if mem x l then l else l ++ [x].

Fixpoint union (l1 l2 : list string) : list string :=
  match l2 with
  | [] => l1
  | x :: l2' => union (add1 x l1) l2'
  end.

(** Python [set.remove] / all occurrences (sets have at most one). *)
Definition del_name (x : string) (l : list string) : list string :=
  filter (fun y => negb (String.eqb x y)) l.

(** Python dictionaries: association lists in insertion order. *)
Definition dict (V : Type) := list (string * V).

Fixpoint get {V} (k : string) (d : dict V) : option V :=
  match d with
  | [] => None
  | (k', v) :: d' => if String.eqb k k' then Some v else get k d'
  end.

(** [d[k] = v]: an existing key keeps its position, a new one goes last. *)
Fixpoint set {V} (k : string) (v : V) (d : dict V) : dict V :=
  match d with
  | [] => [(k, v)]
  | (k', v') :: d' => if String.eqb k k' then (k, v) :: d' else (k', v') :: set k v d'
  end.

(** [d.pop(k)] / [del d[k]]. *)
Fixpoint del {V} (k : string) (d : dict V) : dict V :=
  match d with
  | [] => []
  | (k', v') :: d' => if String.eqb k k' then d' else (k', v') :: del k d'
  end.

Definition keys {V} (d : dict V) : list string := map fst d.

Definition has {V} (k : string) (d : dict V) : bool :=
  match get k d with Some _ => true | None => false end.

(** [d.update(d2)] *)
Definition update {V} (d d2 : dict V) : dict V :=
  fold_left (fun acc kv => set (fst kv) (snd kv) acc) d2 d.

(** Index of the first element satisfying [f]. *)
Fixpoint find_index {A} (f : A -> bool) (l : list A) : option nat :=
  match l with
  | [] => None
  | x :: l' => if f x then Some 0 else option_map S (find_index f l')
  end.
