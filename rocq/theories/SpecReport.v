(** Vocabulary for the reports of the profiler (C120). No proofs. *)
From Coq Require Import Reals.
From Verif Require Import Base ModelFloat ModelProfiler.
Local Open Scope list_scope.

(** All entries of all components. *)
Definition entries (all : dict (list prof)) : list (string * prof) := flat_map (fun kr => map (fun r => (fst kr, r)) (snd kr)) all.
Definition shown (e : string * prof) : string * fl * string := (f_plugin (snd e), f_mean (snd e), fst e).
Definition time_of (x : string * fl * string) : fl := snd (fst x).
(** Every time is a number. *)
Definition measured_all (all : dict (list prof)) : Prop := forall e, In e (entries all) -> exists r, f_mean (snd e) = Fin r.
(** From slow to fast. *)
Fixpoint descending (l : list fl) : Prop :=
  match l with
  | [] => True
  | x :: l' => (forall y, In y l' -> fle y x = true) /\ descending l'
  end.
(** The entries with one time, in the order in which they are. *)
Definition at_time (t : fl) (l : list (string * fl * string)) : list (string * fl * string) := filter (fun x => feq (time_of x) t) l.
