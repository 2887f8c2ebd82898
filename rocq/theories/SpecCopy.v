(** Vocabulary for copies of components. *)
From Verif Require Import Base ModelShare ModelConfig ModelComponent ModelCompile SpecCompile ModelLineage.
Local Open Scope string_scope.

(** Likelihood [b] finds in configuration [c'] under [n] what [a] finds in [c]. *)
Definition passes_value (c : dict value) (a : string) (c' : dict value) (b n : string) : Prop :=
  exists v, explicit_value c n a v /\ explicit_value c' n b v.

(** A table of values per likelihood, without an entry for [b]. *)
Definition table (c : dict value) (n : string) : Prop := exists d, get n c = Some (VDict d).
Definition open_table (c : dict value) (n b : string) : Prop := exists d, get n c = Some (VDict d) /\ get b d = None.

(** The same for a config. Maps with uncertainty keep their three files per likelihood, in tables that a
    new likelihood has no entry in. *)
Definition passes (c : dict value) (a : string) (c' : dict value) (b : string) (cf : config) : Prop :=
  passes_value c a c' b (c_name cf) /\
  (c_kind cf = KSigmaMap -> forall sg, In sg ["median"; "lower"; "upper"] ->
     passes_value c a c' b (c_name cf ++ "_" ++ sg) \/
     (table c (c_name cf ++ "_" ++ sg) /\ open_table c' (c_name cf ++ "_" ++ sg) b)).

(** The source code of the plugins does not use the name of the likelihood. *)
Definition ignores_llh {code V : Type}
    (call : code -> option string -> (string -> option held) -> list V -> result (list V)) : Prop :=
  forall co l l' h args, call co l h args = call co l' h args.

(** No table has an entry for likelihood [b]. *)
Definition newcomer (b : string) (c : dict value) : Prop :=
  forall n d, get n c = Some (VDict d) -> get b d = None.

(** The config is not given per likelihood. *)
Definition shared_config (c : dict value) (cf : config) : Prop := forall d, get (c_name cf) c <> Some (VDict d).
