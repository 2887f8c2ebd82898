(** Vocabulary for the plots of maps (C93, C94, C95). No proofs. *)
From Coq Require Import Reals.
From Verif Require Import Base ModelShare ModelConfig ModelComponent ModelInterp SpecInterp ModelPlotMap.
Local Open Scope R_scope.

(** Bounds of an axis that can be drawn: positive if logarithmic. *)
Definition drawable (is_log : bool) (lo hi : R) : Prop :=
  is_log = true -> 0 < lo /\ 0 < hi.

(** Position of node [i] on the scale of the axis (its base-10 logarithm on a logarithmic axis). *)
Definition on_scale (is_log : bool) (x : R) : R := if is_log then ln x / ln 10 else x.

(** Distance of neighbouring nodes on the scale; a single node gets a bin of width one. *)
Definition step (is_log : bool) (lo hi : R) (n : nat) : R :=
  if Nat.eqb n 1 then 1 else (on_scale is_log hi - on_scale is_log lo) / (INR n - 1).

(** [sel] are the nodes of an axis that a range asks for: those inside, or all if there is none. *)
Definition wanted (range : option (R * R)) (is_log : bool) (lo hi : R) (n : nat) (sel : list nat) : Prop :=
  NoDup sel /\
  let inside i := match range with
                  | None => True
                  | Some (a, b) => a <= scaled_place is_log lo hi n (Z.of_nat i) <= b
                  end in
  forall i, In i sel <-> (i < n)%nat /\ (inside i \/ forall j, (j < n)%nat -> ~ inside j).

(** Average over the selected entries of some axes ([None]: the axis is kept). *)
Fixpoint averaged (axes : list (option (list nat))) (f : list nat -> R) (idx : list nat) : R :=
  match axes with
  | [] => f []
  | None :: axes' =>
      match idx with
      | i :: idx' => averaged axes' (fun js => f (i :: js)) idx'
      | [] => 0
      end
  | Some sel :: axes' =>
      sumR (map (fun i => averaged axes' (fun js => f (i :: js)) idx) sel) / INR (List.length sel)
  end.

(** What belongs to the axes that are not named by the collapse argument. *)
Definition remaining {A C} (collapse : dict C) (names : list string) (l : list A) : list A :=
  map snd (filter (fun nx => negb (has (fst nx) collapse)) (combine names l)).

(** A grid with as many nodes and bounds as axes, with different names. *)
Record proper_grid (g : grid) : Prop := {
  pg_names : NoDup (g_names g);
  pg_shape : List.length (a_shape (g_data g)) = List.length (g_names g);
  pg_lowers : List.length (g_lowers g) = List.length (g_names g);
  pg_uppers : List.length (g_uppers g) = List.length (g_names g);
  pg_logs : List.length (g_logs g) = List.length (g_names g);
  pg_nodes : forall n, In n (a_shape (g_data g)) -> (0 < n)%nat;
  pg_bounds : forall i l lo hi, nth_error (g_logs g) i = Some l -> nth_error (g_lowers g) i = Some lo ->
    nth_error (g_uppers g) i = Some hi -> drawable l lo hi
}.

(** The middle of pixel [i] of [n] equal pixels between two ends. *)
Definition pixel_middle (x0 x1 : R) (n i : nat) : R := x0 + (INR i + 1 / 2) * ((x1 - x0) / INR n).

(** Indices inside of a shape. *)
Definition within (shape idx : list nat) : Prop := Forall2 (fun n i => (i < n)%nat) shape idx.

(** Config [b] is a map or sigma map read from the files [key]. *)
Definition uses_files (b : built) (key : list value) : Prop :=
  (c_kind (b_config b) = KMap \/ c_kind (b_config b) = KSigmaMap) /\ key = b_values b.

(** The same files, compared as Python does. *)
Definition same_files (a b : list value) : Prop := Forall2 (fun x y => value_eqb x y = true) a b.

(** [out] lists the files used by the configs in [L], each once, with a config that uses them and with
    the names of all such configs. *)
Record lists_files (L : built -> Prop) (out : list (list value * (built * list string))) : Prop := {
  lf_once : forall i j ki kj ei ej, nth_error out i = Some (ki, ei) -> nth_error out j = Some (kj, ej) ->
    same_files ki kj -> i = j;
  lf_sound : forall key b names, In (key, (b, names)) out -> L b /\ uses_files b key;
  lf_names : forall key b names, In (key, (b, names)) out -> NoDup names /\
    forall n, In n names <-> exists b' key', L b' /\ uses_files b' key' /\ same_files key' key /\ c_name (b_config b') = n;
  lf_complete : forall b key, L b -> uses_files b key ->
    exists key' b' names, In (key', (b', names)) out /\ same_files key key'
}.

(** The class objects of a plugin class have been built. *)
Definition class_built (w : world) (p : plugin) (bs : list built) : Prop :=
  get (p_name p) (w_class w) = Some bs /\ List.length bs = List.length (p_configs p).

(** Where the plot of a map with file [path] is saved. *)
Definition target (save_path path fmt : string) : string :=
  path_join save_path (stem_of (basename path) ++ "." ++ fmt)%string.

(** Character [c] does not occur in [s]. *)
Fixpoint lacks (c : Ascii.ascii) (s : string) : Prop :=
  match s with
  | EmptyString => True
  | String d s' => d <> c /\ lacks c s'
  end.
