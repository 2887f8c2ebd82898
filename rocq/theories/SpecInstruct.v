(** Vocabulary for the instructions that appletree ships (C90). No proofs. *)
From Coq Require Import Reals.
From Verif Require Import Base ModelFloat ModelShare ModelConfig ModelComponent ModelShipped ModelLikelihood ModelBinning
  ModelLit ModelContext ModelWhole ModelInstruct SpecComponent SpecBuild.
Local Open Scope string_scope.
Local Open Scope list_scope.

(** The plugins and components that appletree ships, and Python's recursion limit. *)
Definition shipped_env {K} (E : env K) : Prop :=
  (forall n, e_plugins E n = appletree_plugins n) /\ (forall n, e_classes E n = appletree_components n) /\
  60 < e_limit E.

(** The files named in a config: the value, or the first three entries of a list. *)
Definition files_in (v : value) : list string :=
  match v with
  | VStr s => [s]
  | VList l => flat_map (fun x => match x with VStr s => [s] | _ => [] end) (firstn 3 l)
  | _ => []
  end.

(** The files for maps: those named in the configs of the instruction, and those named in the
    defaults of the shipped plugins. *)
Definition default_file (s : string) : Prop :=
  exists n p cf v, appletree_plugins n = Some p /\ In cf (map snd (p_configs p)) /\
    (c_kind cf = KMap \/ c_kind cf = KSigmaMap) /\ c_default cf = Some v /\ In s (files_in v).
Definition map_file (ins : instruct) (s : string) : Prop :=
  default_file s \/ exists k v, In (k, v) (in_configs ins) /\ In s (files_in v).

(** The files with data can be read and have the observables; where equiprobable bins are asked
    for, the binning of the data succeeds. *)
Definition data_there {K} (E : env K) (li : linstruct) : Prop :=
  match li_type li with
  | TLit _ _ _ _ => True
  | TDefault cfg file =>
      exists on, lc_bins_on cfg = OnList on /\
      (exists path t, path_of (e_fs E) [] file path /\ e_read E path = Ok t /\
         (forall c, In c on -> In c (t_columns t)) /\
         (lc_bins_type cfg = "equiprob" ->
            exists lk, new_likelihood (e_row E) (e_gof_1d E) (e_gof_2d E) cfg (Ok t) = Ok lk)) /\
      forall cname cls fname, In (cname, (cls, Some fname)) (li_components li) ->
        exists path t, path_of (e_fs E) [] fname path /\ e_read E path = Ok t /\
          forall c, In c on -> In c (t_columns t)
  end.
