(** Vocabulary for the property about simulating with a new compilation before every run. *)
From Verif Require Import Base ModelShare ModelConfig ModelComponent ModelCompile ModelFloat
  ModelLikelihood SpecCompile SpecConfig.
Local Open Scope string_scope.

(** [n] runs, each from the key the previous one returned, each with a function of its own that
    suits the key it starts from. *)
Inductive fresh_runs {K} (csem : closure -> K -> nat -> params -> result (K * list (list fl)))
    (suits : K -> closure -> Prop) (b : nat) (p : params)
  : nat -> K -> list (list (list fl)) -> K -> Prop :=
| fr_nil key : fresh_runs csem suits b p 0 key [] key
| fr_cons n key cl key1 cols runs key2 :
    suits key cl -> csem cl key b p = Ok (key1, cols) ->
    fresh_runs csem suits b p n key1 runs key2 ->
    fresh_runs csem suits b p (S n) key (cols :: runs) key2.

(** Every plugin instance of the function that takes the config [name] has the value [v] for it. *)
Definition reads (name : string) (v : value) (cl : closure) : Prop :=
  forall n i cf vs, get n (cl_insts cl) = Some i -> plain_kind (c_kind cf) -> constructed cf ->
    c_name cf = name -> config_value i cf vs -> exists v', vs = [v'] /\ value_eqb v v' = true.

(** The first item of what the user gave as g4: of a list its first entry, of a string its first
    letter. *)
Inductive file_of : value -> value -> Prop :=
| fo_list x l : file_of (VList (x :: l)) x
| fo_string a s : file_of (VStr (String a s)) (VStr (String a "")).

(** What Python takes for false. *)
Inductive py_false : value -> Prop :=
| pf_none : py_false VNone
| pf_bool : py_false (VBool false)
| pf_zero : py_false (VNum 0)
| pf_str : py_false (VStr "")
| pf_list : py_false (VList [])
| pf_dict : py_false (VDict []).

(** The energy comes from a class with "Bootstrap" in its name, or from another class. *)
Definition bootstrap_energy (k : component) : Prop :=
  exists p a c, get "energy" (k_registry k) = Some p /\ p_name p = a ++ "Bootstrap" ++ c.
Definition other_energy (k : component) : Prop :=
  exists p, get "energy" (k_registry k) = Some p /\ forall a c, p_name p <> a ++ "Bootstrap" ++ c.
