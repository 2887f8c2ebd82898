(** Spectra drawn from maps: what the plugin FixedEnergySpectra gets from the map "energy_spectrum".
    No proofs. *)
From Coq Require Import Reals.
From Verif Require Import Base ModelFloat ModelInterp.

(** plugins/common.py 58-60 with config.py 264-270 (map_point): the map applied to one random number;
    a map that cannot be built ends the program before any number is drawn, which is written as NaN.
    [cdf], [x]: coordinate_system and map of a file whose coordinate_name is "cdf" and whose
    coordinate_type is "point". *)
Definition cdf_spectrum (m : method) (cdf x : list R) (p : fl) : fl :=
  match p with
  | Fin u => match map_point m true false cdf x u with Ok y => Fin y | Err _ => NaN end
  | _ => NaN
  end.

(** The same for a file whose coordinate_name is "pdf" (config.py 242-247): [x], [pdf] are
    coordinate_system and map, build_point turns them into a table of cdf and x. *)
Definition pdf_spectrum (m : method) (x pdf : list R) (p : fl) : fl :=
  match p with
  | Fin u => match map_pdf m x pdf u with Ok y => Fin y | Err _ => NaN end
  | _ => NaN
  end.
