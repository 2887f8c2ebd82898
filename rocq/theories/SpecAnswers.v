(** Vocabulary for when a context answers with a number (C129). No proofs. *)
From Coq Require Import Reals.
From Verif Require Import Base ModelFloat ModelShare ModelConfig ModelComponent ModelLikelihood ModelParameter ModelBinning ModelLit
  ModelWhole SpecComponent SpecCompile SpecNeeded SpecFrame.
Local Open Scope string_scope.
Local Open Scope list_scope.

Section Answers.
  Context {K : Type}.
  Variable E : env K.

  (** An argument of a plugin in a simulation of [n] events: the number of events or a column. *)
  Definition fits (n : nat) (v : sval K) : Prop :=
    v = SBatch n \/ exists c, v = SCol c /\ List.length c = n.

  (** The published plugins do what they declare: called with a key, parameters among which are those
      they declare, and one column for every name in depends_on, they return a key and one column of the
      same length for every name in provides. *)
  Definition well_behaved (cs : dict value) : Prop :=
    forall i n key p args, e_plugins E (p_name (i_class i)) = Some (i_class i) ->
      args <> [] -> List.length args = List.length (p_depends (i_class i)) -> Forall (fits n) args ->
      (forall x, declared cs i x -> In x (keys p)) ->
      exists key' cols, e_isem E i (SKey key :: SParams p :: args) = Ok (SKey key' :: map SCol cols) /\
        List.length cols = List.length (p_provides (i_class i)) /\ Forall (fun c => List.length c = n) cols.

  (** The normalisation of a simulated component can be computed. *)
  Definition normalises (ps : list plugin) (on : list string) (nt : norm_type) : Prop :=
    match nt with
    | OnPdf => True
    | OnSim =>
        exists q, get "energy" (registry_after [ps]) = Some q /\
          forall a b, p_name q = (a ++ "Bootstrap" ++ b)%string ->
            (exists d, Reach (registry_after [ps]) "batch_size" (on ++ ["eff"]) d /\ get d (registry_after [ps]) = Some q) /\
            forall i, i_class i = q -> exists n, e_selected E i = Ok n
    | NormOther => False
    end.

  (** What is asked of the components of a likelihood. *)
  Definition answering (cs : dict value) (lname : string) (li : linstruct) (m : mtype) : Prop :=
    ~ In "batch_size" (m_on m) /\
    match m with
    | MDefault _ => True
    | MLit _ L => List.length (li_components li) = 1 /\ forall e y, exists l, logpdf L [e] [y] = Ok l
    end /\
    (forall x, llh_needs E cs lname li x -> ~ In x (keys (li_alias li))) /\
    forall cname cls file k, In (cname, (cls, file)) (li_components li) -> e_classes E cls = Some k ->
      match k with
      | ClsSim ps nt _ =>
          (forall d q, Reach (registry_after [ps]) "batch_size" (m_on m ++ ["eff"]) d ->
             get d (registry_after [ps]) = Some q -> p_depends q <> []) /\
          normalises ps (m_on m) nt
      | ClsFixed nt _ => nt = OnPdf
      | ClsOther => True
      end.
End Answers.
