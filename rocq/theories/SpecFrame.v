(** Vocabulary for what the parameters of a context can change (C117). No proofs. *)
From Coq Require Import Reals.
From Verif Require Import Base ModelFloat ModelShare ModelConfig ModelComponent ModelLikelihood ModelParameter ModelWhole
  SpecComponent SpecCompile SpecNeeded.
Local Open Scope string_scope.
Local Open Scope list_scope.

Section Frame.
  Context {K : Type}.
  Variable E : env K.

  (** Two sets of parameters agree on the names in [N]. *)
  Definition agree (N : string -> Prop) (p p' : params) : Prop := forall z, N z -> get z p = get z p'.

  (** The same arguments of a plugin, up to parameters outside of [N]. *)
  Definition same_arg (N : string -> Prop) (v v' : sval K) : Prop :=
    v = v' \/ exists p p', v = SParams p /\ v' = SParams p' /\ agree N p p'.

  (** The parameters an instance says it uses: those of takes_params, and the scalers of its maps in the
      configuration [cs]. *)
  Definition declared (cs : dict value) (i : instance) (x : string) : Prop :=
    In x (p_params (i_class i)) \/
    exists lname n cf, i_llh i = Some lname /\ In (n, cf) (p_configs (i_class i)) /\ requires cs lname cf x.

  (** The code of the plugins reads no parameter that it has not declared. *)
  Definition reads_declared (cs : dict value) : Prop :=
    forall i args args', Forall2 (same_arg (declared cs i)) args args' -> e_isem E i args = e_isem E i args'.

  (** The classes named by the plugins of a likelihood are the registered ones. *)
  Definition published_llh (li : linstruct) : Prop :=
    forall cname cls file ps nt add_eps, In (cname, (cls, file)) (li_components li) ->
      e_classes E cls = Some (ClsSim ps nt add_eps) ->
      forall d q, get d (registry_after [ps]) = Some q -> e_plugins E (p_name q) = Some q.

  (** Components of the instruction read [z]; copied parameters do not count. *)
  Definition ins_reads (cs : dict value) (ins : instruct) (z : string) : Prop :=
    exists lname li x, In (lname, li) (in_llhs ins) /\ llh_needs E cs lname li x /\ given_as (li_alias li) x z.

  (** Plugins that declare what they read, aliases without chains and without two names for one parameter. *)
  Definition declaring (cs : dict value) (ins : instruct) : Prop :=
    reads_declared cs /\ NoDup (keys (in_llhs ins)) /\
    forall lname li, In (lname, li) (in_llhs ins) -> plain_llh E li /\ NoDup (keys (li_alias li)) /\ published_llh li.
End Frame.

(** The value that log_posterior uses for [n]. *)
Definition effective (st : pstate) (pars : dict fl) (n : string) : option fl :=
  match get n pars with Some x => Some x | None => get n (p_values st) end.
