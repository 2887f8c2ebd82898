(** Vocabulary for the property of the shipped maps (C115). No proofs. *)
From Coq Require Import Reals List String.
From Verif Require Import Base ModelFloat ModelInterp ModelMaps ModelShare ModelConfig ModelComponent ModelShipped.
Local Open Scope R_scope.
Local Open Scope list_scope.

(** The methods a user may choose for a map. *)
Definition a_method (m : method) : Prop := m = IDW \/ m = LERP \/ m = NN.
(** The two that join the points of a table by straight lines. *)
Definition a_curve (m : method) : Prop := m = IDW \/ m = LERP.

(** How many numbers make a position: the number of coordinate names. *)
Definition axes (f : map_file) : nat := match f_name f with NameOne _ => 1 | NameList l => List.length l end.
(** The map has a value at every position, whatever the method. *)
Definition usable (f : map_file) : Prop :=
  forall m pos, a_method m -> List.length pos = axes f -> exists v, apply_file m f pos = Ok v.
(** The map has the same value at all positions, whatever the method. *)
Definition everywhere (f : map_file) (v : R) : Prop :=
  forall m pos, a_method m -> List.length pos = axes f -> apply_file m f pos = Ok v.

(** The files that a config of a plugin names: the default of a Map, and the first three of the list of
    a SigmaMap or its only file. *)
Definition files_of (cf : config) : list string :=
  match c_kind cf, c_default cf with
  | KMap, Some (VStr s) => [s]
  | KSigmaMap, Some (VStr s) => [s]
  | KSigmaMap, Some (VList l) => flat_map (fun v => match v with VStr s => [s] | _ => [] end) (firstn 3 l)
  | _, _ => []
  end.

(** A position with finite coordinates. *)
Definition finite (x : fl) : Prop := exists r, x = Fin r.

(** All strings in a config value, and those that name a JSON file. *)
Fixpoint strings (v : value) : list string :=
  match v with
  | VStr s => [s]
  | VList l => flat_map strings l
  | VDict d => flat_map (fun kv => strings (snd kv)) d
  | _ => []
  end.
Definition names_json (s : string) : Prop := exists p, s = (p ++ ".json")%string.
