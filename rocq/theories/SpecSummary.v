(** Vocabulary for the number of accepted events and the summary of a context (C124). No proofs. *)
From Coq Require Import Reals.
From Verif Require Import Base ModelFloat ModelHist ModelLikelihood ModelBinning ModelWhole ModelSummary
  SpecHist SpecLikelihood SpecWeighted SpecBinning SpecWhole.
Local Open Scope string_scope.
Local Open Scope list_scope.

Section Accepted.
  Context {K : Type}.
  Variable E : env K.
  Variable ins : instruct.

  (** [m] is the model histogram of a likelihood of the default type: bin by bin the sum of the histograms of its
      components, from the parameters [p] and the key [key]. *)
  Definition default_model (lname : string) (cfg : lconfig) (file : string) (alias : dict string)
      (cs : dict (string * option string)) (batch : nat) (p : params) (key : K) (m : list fl) : Prop :=
    exists lk path t p' hs key',
      file_at E ins file path /\ e_read E path = Ok t /\
      new_likelihood (e_row E) (e_gof_1d E) (e_gof_2d E) cfg (Ok t) = Ok lk /\
      renamed alias p p' /\ comp_hists E ins lname (k_on lk) (k_bins lk) batch p' cs key hs key' /\
      List.length m = List.length (bins_of (k_bins lk)) /\
      forall i, i < List.length m -> entry m i = fsum (map (fun h => entry h i) hs).

  (** The expected numbers of the likelihoods of the default type, in order, each from a new key; [j] keys were drawn
      before. *)
  Inductive accepted (batch : nat) (p : params) (fresh : nat -> K) : nat -> dict linstruct -> list fl -> Prop :=
  | acc_nil j : accepted batch p fresh j [] []
  | acc_default j lname li rest cfg file m xs : li_type li = TDefault cfg file ->
      default_model lname cfg file (li_alias li) (li_components li) batch p (fresh j) m ->
      accepted batch p fresh (S j) rest xs -> accepted batch p fresh j ((lname, li) :: rest) (fsum m :: xs)
  | acc_lit j lname li rest vt on names values xs : li_type li = TLit vt on names values ->
      accepted batch p fresh j rest xs -> accepted batch p fresh j ((lname, li) :: rest) xs.

  (** The likelihoods from literature. *)
  Definition is_lit (li : linstruct) : bool := match li_type li with TLit _ _ _ _ => true | TDefault _ _ => false end.
  Definition lits (ls : dict linstruct) : list string := map fst (filter (fun nl => is_lit (snd nl)) ls).

  (** The line of the i-th component of a likelihood: its type is that of its class. *)
  Definition line_of (ci : string * (string * option string)) (i : nat) (l : cline) : Prop :=
    cl_number l = i /\ cl_name l = fst ci /\
    exists ty pars, cl_rest l = Some (ty, (fst ci ++ "_rate")%string, pars) /\ In (fst ci ++ "_rate")%string pars /\
      match e_classes E (fst (snd ci)) with
      | Some (ClsSim _ _ _) => ty = TypeSim
      | Some (ClsFixed _ _) => ty = TypeFixed
      | _ => False
      end.

  (** The section of a likelihood: the events of its file that are in the clip and in a bin are counted. *)
  Definition section_of (il : string * linstruct) (s : lsection) : Prop :=
    ls_name s = fst il /\ List.length (ls_components s) = List.length (li_components (snd il)) /\
    (forall i ci l, nth_error (li_components (snd il)) i = Some ci -> nth_error (ls_components s) i = Some l -> line_of ci i l) /\
    match li_type (snd il) with
    | TLit _ on _ _ => ls_on s = on /\ ls_rate s = None
    | TDefault cfg file =>
        exists lk path t, file_at E ins file path /\ e_read E path = Ok t /\
          new_likelihood (e_row E) (e_gof_1d E) (e_gof_2d E) cfg (Ok t) = Ok lk /\ ls_on s = k_on lk /\
          (binning_ok (k_bins lk) ->
           ls_rate s = Some (Fin (INR (List.length (filter (fun r => existsb (fun P => P r) (bins_of (k_bins lk))) (k_data lk))))))
    end.
End Accepted.
