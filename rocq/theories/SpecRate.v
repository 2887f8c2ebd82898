(** Vocabulary for the dependence of a likelihood on the rates (C118). No proofs. *)
From Coq Require Import Reals.
From Verif Require Import Base ModelFloat ModelShare ModelConfig ModelComponent ModelBinning ModelWhole ModelLikelihood
  SpecLikelihood SpecComponent SpecBinning SpecWhole.
Local Open Scope string_scope.
Local Open Scope list_scope.

(** The names of the rates of the components. *)
Definition rate_names {K} (cs : dict (lcomp K)) : list string := map (fun nc => (fst nc ++ "_rate")%string) cs.

(** Parameters that differ only in rates. *)
Definition off_rates {K} (cs : dict (lcomp K)) (p p' : params) : Prop :=
  forall n, ~ In n (rate_names cs) -> get n p = get n p'.

(** The rates of [p2] are [t] times those of [p] plus [s] times those of [p1]. *)
Definition combined {K} (cs : dict (lcomp K)) (t s : R) (p p1 p2 : params) : Prop :=
  off_rates cs p p1 /\ off_rates cs p p2 /\
  forall n, In n (rate_names cs) -> exists r r1, get n p = Some (Fin r) /\ get n p1 = Some (Fin r1) /\
    get n p2 = Some (Fin (t * r + s * r1)%R).

(** Components as a likelihood registers them, whose simulations do not look at rates. *)
Inductive rate_blind {K} (oor : list (list fl) -> nat -> list fl) (cs : dict (lcomp K)) (b : nat) : string * lcomp K -> Prop :=
| blind_sim name needed c sim : n_rate c = (name ++ "_rate")%string ->
    (forall key p p', off_rates cs p p' -> sim key b p = sim key b p') ->
    rate_blind oor cs b (name, mk_lcomp needed (LSim (sim_hist oor c sim)))
| blind_fixed name needed c data : n_rate c = (name ++ "_rate")%string ->
    rate_blind oor cs b (name, mk_lcomp needed (LFixed (fixed_hist oor c data))).

(** A plugin in the workflow of a simulated component declares the parameter [x], or a map of it is scaled by it. *)
Definition plugin_reads (cs : dict value) (lname : string) (on : list string) (ps : list plugin) (x : string) : Prop :=
  exists d q, Reach (registry_after [ps]) "batch_size" (on ++ ["eff"]) d /\ get d (registry_after [ps]) = Some q /\
    (In x (p_params q) \/ exists n cf, In (n, cf) (p_configs q) /\ requires cs lname cf x).

(** No plugin of the likelihood reads the rate of a component. *)
Definition rates_unread {K} (E : env K) (cs : dict value) (lname : string) (li : linstruct) : Prop :=
  forall on cname cls file ps nt add_eps x,
    match li_type li with
    | TDefault cfg _ => exists bs, wanted cfg on bs
    | TLit _ on' _ _ => on = on'
    end ->
    In (cname, (cls, file)) (li_components li) -> e_classes E cls = Some (ClsSim ps nt add_eps) ->
    plugin_reads cs lname on ps x -> forall n, In n (keys (li_components li)) -> x <> (n ++ "_rate")%string.
