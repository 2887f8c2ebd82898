(** Vocabulary for the construction of a likelihood (C80, C81). No proofs. *)
From Coq Require Import Reals ZArith.
From Verif Require Import Base ModelFloat ModelHist ModelLikelihood ModelBinning SpecHist SpecWeighted.
Local Open Scope string_scope.
Local Open Scope list_scope.

(** [x] is the value of row [r] in a column named [c]. *)
Definition value_in (t : table) (r : list fl) (c : string) (x : fl) : Prop :=
  exists i, nth_error (t_columns t) i = Some c /\ x = nth i r NaN.

(** [x] is strictly between the two ends of a clip. *)
Definition clipped (c : fl * fl) (x : fl) : Prop := flt (fst c) x = true /\ flt x (snd c) = true.

(** The event is strictly inside the clip of the config. *)
Definition in_clip (cfg : lconfig) (r : list fl) : Prop :=
  match r with
  | [x] => exists c, lc_clip cfg = Some c /\ clipped c x
  | x :: y :: _ => exists cx cy, lc_x_clip cfg = Some cx /\ lc_y_clip cfg = Some cy /\ clipped cx x /\ clipped cy y
  | [] => False
  end.

(** The number of events that satisfy [P], as a histogram entry. *)
Definition number (P : list fl -> bool) (events : list (list fl)) : fl :=
  Fin (INR (List.length (filter P events))).
Definition counts (b : binning) (events : list (list fl)) : list fl :=
  map (fun P => number P events) (bins_of b).

(** The edges reach over the clip. *)
Definition reaches (c : fl * fl) (e : list fl) : Prop :=
  fle (edge e 0) (fst c) = true /\ fle (snd c) (edge e (List.length e - 1)) = true.
Definition spans (cfg : lconfig) (b : binning) : Prop :=
  match b with
  | BIrreg1 e | BMesh1 e => exists c, lc_clip cfg = Some c /\ reaches c e
  | BIrreg2 ex ry => exists cx cy, lc_x_clip cfg = Some cx /\ lc_y_clip cfg = Some cy /\
                       reaches cx ex /\ forall r, In r ry -> reaches cy r
  | BMesh2 ex ey => exists cx cy, lc_x_clip cfg = Some cx /\ lc_y_clip cfg = Some cy /\
                      reaches cx ex /\ reaches cy ey
  | BUnsupported => False
  end.

(** [n] bins of equal width from [lo] to [hi]. *)
Definition evenly (lo hi : R) (n : nat) (e : list fl) : Prop :=
  List.length e = S n /\
  forall i, i <= n -> edge e i = Fin (lo + (hi - lo) * (INR i / INR n))%R.

(** The edges of a meshgrid axis are what the config asks for: [n] equal bins over the clip for an
    int, the given edges otherwise. *)
Definition mesh_axis (s : bin_spec) (c : fl * fl) (e : list fl) : Prop :=
  match s with
  | AInt n => forall lo hi, c = (Fin lo, Fin hi) -> (1 <= n)%Z -> evenly lo hi (Z.to_nat n) e
  | AArr a => a = Arr1 e
  end.

(** A config with one or two observables, with the clips. *)
Definition wanted (cfg : lconfig) (on : list string) (bs : list bin_spec) : Prop :=
  (lc_bins_on cfg = OnList on /\ lc_bins cfg = PList bs) \/
  (exists s, lc_bins_on cfg = OnStr s /\ on = [s] /\
             (lc_bins cfg = PList bs \/ exists n, lc_bins cfg = PInt n /\ bs = [AInt n])).
Definition readable (load : result table) (on : list string) : Prop :=
  exists t, load = Ok t /\ forall c, In c on -> In c (t_columns t).
Definition has_clips (cfg : lconfig) (dim : nat) : Prop :=
  match dim with
  | 1 => exists c, lc_clip cfg = Some c
  | _ => exists cx cy, lc_x_clip cfg = Some cx /\ lc_y_clip cfg = Some cy
  end.

(** What is asked of the equiprobable bins: edges in order that reach over the clip (the library
    returns edges from -inf to +inf). *)
Definition good_equiprob_1d (c : fl * fl) (e : list fl) : Prop := edges_ok e /\ reaches c e.
Definition good_equiprob_2d (cx cy : fl * fl) (ex : list fl) (ry : list (list fl)) : Prop :=
  binning_ok (BIrreg2 ex ry) /\ reaches cx ex /\ forall r, In r ry -> reaches cy r.
