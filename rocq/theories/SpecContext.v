(** Vocabulary for the context properties (C25, C46-C49, C54). No proofs. *)
From Coq Require Import Reals ZArith.
From Verif Require Import Base ModelFloat ModelParameter ModelLikelihood ModelContext ModelJson.
Local Open Scope list_scope.

(** Evaluating the likelihoods one after the other, each from the key the previous one returned:
    the calls made and the values obtained. *)
Inductive llh_chain {K} (batch : nat) (p : params) : dict (llh_fun K) -> K -> list (call K) -> list fl -> Prop :=
| lc_nil k : llh_chain batch p [] k [] []
| lc_cons n f rest k k' x cs xs :
    f k batch p = Ok (k', x) -> llh_chain batch p rest k' cs xs ->
    llh_chain batch p ((n, f) :: rest) k (mk_call n k batch p :: cs) (x :: xs).

(** [times] evaluations, the i-th one starting from the key [fresh i]. *)
Inductive llh_repeats {K} (batch : nat) (p : params) (ls : dict (llh_fun K)) (fresh : nat -> K)
  : nat -> nat -> list (call K) -> list (list fl) -> Prop :=
| lr_nil i : llh_repeats batch p ls fresh 0 i [] []
| lr_cons t i cs xs cs' xss :
    llh_chain batch p ls (fresh i) cs xs -> llh_repeats batch p ls fresh t (S i) cs' xss ->
    llh_repeats batch p ls fresh (S t) i (cs ++ cs') (xs :: xss).

(** Neither NaN nor +inf. *)
Definition proper_llh (x : fl) : Prop := x = NInf \/ exists r, x = Fin r.

(** All copies of all likelihoods in order, and the names of all component rates. *)
Definition all_copies (ls : dict linstr) : list (string * string) := flat_map (fun nl => i_copy (snd nl)) ls.
Definition is_rate (ls : dict linstr) (n : string) : Prop :=
  exists nl c, In nl ls /\ In c (i_components (snd nl)) /\ n = (c ++ "_rate")%string.

(** A history of registrations in a context. *)
Inductive xop (K : Type) :=
| XLlh (name : string) (build : result (dict string * list fl))
| XComp (lname name : string) (construct : result (lcomp K)).
Arguments XLlh {K} _ _.
Arguments XComp {K} _ _ _.
Definition xstep {K} (c : ctx K) (o : xop K) : ctx K :=
  match o with
  | XLlh n b => fst (ctx_register_likelihood n
      (match b with Ok (al, d) => Ok (mk_llh [] [] al d) | Err e => Err e end) c)
  | XComp l n k => fst (ctx_register_component l n k c)
  end.
Definition xrun {K} (copied : list string) (ops : list (xop K)) : ctx K :=
  fold_left xstep ops (mk_ctx [] copied).

(** [i] is a sample with the largest log probability. *)
Definition best_sample (c : chain) (i : nat) : Prop :=
  exists v lp, nth_error c i = Some (v, lp) /\ forall v' lp', In (v', lp') c -> fle lp' lp = true.

(* ------------------------------------------------------------------ *)
(** * Stored instructions *)

(** A code point, and one that needs no surrogate pair. *)
Definition code_point (c : Z) : Prop := (0 <= c < 1114112)%Z.
Definition bmp (c : Z) : Prop := (0 <= c < 65536)%Z.

Fixpoint size (v : value) : nat :=
  match v with
  | VArr l => S (fold_right (fun x n => size x + n) 0 l)
  | VObj l => S (fold_right (fun x n => size (snd x) + n) 0 l)
  | _ => 1
  end.

(** Nothing in the value is a boolean, null, NaN or an infinity. *)
Inductive nameless : value -> Prop :=
| nl_num n : nameless (VFinite n)
| nl_text s : nameless (VText s)
| nl_arr l : (forall x, In x l -> nameless x) -> nameless (VArr l)
| nl_obj l : (forall k x, In (k, x) l -> nameless x) -> nameless (VObj l).

(** All characters of all strings satisfy P, and keys of a dictionary are distinct. *)
Inductive chars (P : Z -> Prop) : value -> Prop :=
| ch_null : chars P VNull
| ch_bool b : chars P (VBool b)
| ch_nan : chars P VNanInf
| ch_num n : chars P (VFinite n)
| ch_text s : Forall P s -> chars P (VText s)
| ch_arr l : (forall x, In x l -> chars P x) -> chars P (VArr l)
| ch_obj l : NoDup (map fst l) -> (forall k x, In (k, x) l -> Forall P k /\ chars P x) -> chars P (VObj l).

(** Equal up to the order of the entries of dictionaries: Python's == on such values. *)
Inductive same : value -> value -> Prop :=
| same_refl v : same v v
| same_arr l l' : Forall2 same l l' -> same (VArr l) (VArr l')
| same_obj l l' : NoDup (map fst l) -> NoDup (map fst l') ->
    (forall k, In k (map fst l) <-> In k (map fst l')) ->
    (forall k x x', In (k, x) l -> In (k, x') l' -> same x x') -> same (VObj l) (VObj l').

(* ------------------------------------------------------------------ *)

(** [st'] is [st] with the values of [pars] written over. *)
Definition overwritten (st : pstate) (pars : dict fl) (st' : pstate) : Prop :=
  p_config st' = p_config st /\ p_fit st' = p_fit st /\ p_fixed st' = p_fixed st /\
  keys (p_values st') = keys (p_values st) /\
  forall n, get n (p_values st') = match get n pars with Some x => Some x | None => get n (p_values st) end.
