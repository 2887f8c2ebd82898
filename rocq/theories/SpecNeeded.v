(** Vocabulary for the parameters that a context needs (C87, C88). No proofs. *)
From Coq Require Import Reals.
From Verif Require Import Base ModelFloat ModelShare ModelConfig ModelComponent ModelLikelihood ModelBinning ModelWhole
  SpecLikelihood SpecComponent SpecBinning SpecWhole.
Local Open Scope string_scope.
Local Open Scope list_scope.

Section Needed.
  Context {K : Type}.
  Variable E : env K.

  (** A component of class [k] needs the parameter [x]: its rate, a parameter of one of the plugins
      in its workflow, or the parameter that scales one of their maps in the configuration [cs]. *)
  Definition comp_needs (cs : dict value) (lname : string) (on : list string) (cname : string)
      (k : comp_class) (x : string) : Prop :=
    x = (cname ++ "_rate")%string \/
    match k with
    | ClsSim ps _ _ =>
        exists d q, Reach (registry_after [ps]) "batch_size" (on ++ ["eff"]) d /\
          get d (registry_after [ps]) = Some q /\
          (In x (p_params q) \/ exists n cf, In (n, cf) (p_configs q) /\ requires cs lname cf x)
    | _ => False
    end.

  (** One of the components of the likelihood needs [x]. *)
  Definition llh_needs (cs : dict value) (lname : string) (li : linstruct) (x : string) : Prop :=
    exists on cname cls file k,
      match li_type li with
      | TDefault cfg _ => exists bs, wanted cfg on bs
      | TLit _ on' _ _ => on = on'
      end /\
      In (cname, (cls, file)) (li_components li) /\ e_classes E cls = Some k /\
      comp_needs cs lname on cname k x.

  (** The name under which the parameter [x] of a component has to be given. *)
  Definition given_as (alias : dict string) (x z : string) : Prop :=
    (~ In x (targets alias) /\ z = x) \/ In (z, x) alias.

  (** What the instruction needs. *)
  Definition ins_needs (cs : dict value) (ins : instruct) (z : string) : Prop :=
    (exists lname li, In (lname, li) (in_llhs ins) /\ In z (keys (li_copy li))) \/
    (exists lname li x, In (lname, li) (in_llhs ins) /\ llh_needs cs lname li x /\ given_as (li_alias li) x z).

  (** Aliases without chains and without two names for one parameter; unambiguous plugins. *)
  Definition plain_llh (li : linstruct) : Prop :=
    separate (li_alias li) /\ NoDup (targets (li_alias li)) /\
    forall cname cls file ps nt add_eps, In (cname, (cls, file)) (li_components li) ->
      e_classes E cls = Some (ClsSim ps nt add_eps) -> unique_names (registry_after [ps]).
End Needed.
