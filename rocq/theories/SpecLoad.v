(** Vocabulary for names of data files (C130). No proofs. *)
From Verif Require Import Base.
Local Open Scope string_scope.

(** The name ends in a dot and [ext], or is [ext]. *)
Definition ends_in (ext path : string) : Prop := path = ext \/ exists a, path = (a ++ "." ++ ext)%string.

(** There is no dot in it. *)
Fixpoint no_dot (s : string) : bool :=
  match s with EmptyString => true | String c s' => negb (Ascii.eqb c ".") && no_dot s' end.
