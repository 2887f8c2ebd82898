(** Model of appletree/interpolation.py, of Map.map_point / map_regbin / preprocess / pdf_to_cdf and
    SigmaMap.apply (config.py) and of the midpoint integrals (utils.py). No proofs in this file.
    Numbers are real numbers: rounding, overflow, infinities and NaN are not modelled here. All
    functions work on arrays of query points elementwise; here they take one point. *)
From Coq Require Import Reals ZArith Lra.
From Verif Require Import Base.
Local Open Scope R_scope.

(** interpolation.py 10-11: smallest positive normal and largest single precision number. *)
Definition float_pos_min : R := / 2 ^ 126.
Definition float_pos_max : R := (2 - / 2 ^ 23) * 2 ^ 127.

(** jnp.clip *)
Definition clipR (x lo hi : R) : R := Rmin (Rmax x lo) hi.
Definition clipZ (x lo hi : Z) : Z := Z.min (Z.max x lo) hi.

(* ------------------------------------------------------------------ *)
(** * Points *)

(** jnp.searchsorted on a sorted array, side left and side right. *)
Fixpoint ss_left (refs : list R) (x : R) : nat :=
  match refs with
  | [] => 0
  | r :: rs => if Rlt_dec r x then S (ss_left rs x) else 0
  end.
Fixpoint ss_right (refs : list R) (x : R) : nat :=
  match refs with
  | [] => 0
  | r :: rs => if Rle_dec r x then S (ss_right rs x) else 0
  end.

(** interpolation.py 60-94: curve_interpolator. Truncated subtraction is the clip at 0. *)
Definition curve (refs vals : list R) (x : R) : R :=
  let n := List.length refs in
  let r := ss_left refs x in
  let right := Nat.min r (n - 1) in
  let left := Nat.min (r - 1) (n - 1) in
  let vr := nth right vals 0 in
  let vl := nth left vals 0 in
  let dr := Rabs (x - nth right refs 0) in
  let dl := Rabs (x - nth left refs 0) in
  if Rlt_dec 0 (dr + dl) then (vr * dl + vl * dr) / (dr + dl) else vr.

(** interpolation.py 340-354: jnp.interp(pos, ref_pos, ref_val), from the source of jax.numpy.interp
    (for at least one reference point). *)
Definition interp (refs vals : list R) (x : R) : R :=
  let n := List.length refs in
  let i := Nat.min (Nat.max (ss_right refs x) 1) (n - 1) in
  let dx := nth i refs 0 - nth (i - 1) refs 0 in
  let df := nth i vals 0 - nth (i - 1) vals 0 in
  let f := if Req_EM_T dx 0 then nth i vals 0
           else nth (i - 1) vals 0 + (x - nth (i - 1) refs 0) / dx * df in
  if Rlt_dec (nth (n - 1) refs 0) x then nth (n - 1) vals 0
  else if Rlt_dec x (nth 0 refs 0) then nth 0 vals 0
  else f.

(** interpolation.py 332-337: jnp.argmin of the distances, the first minimum. *)
Fixpoint argmin_from (i best : nat) (bd : R) (ds : list R) : nat :=
  match ds with
  | [] => best
  | d :: rest => if Rlt_dec d bd then argmin_from (S i) i d rest else argmin_from (S i) best bd rest
  end.
Definition nearest (refs : list R) (x : R) : nat :=
  match map (fun r => Rabs (x - r)) refs with
  | [] => 0
  | d :: ds => argmin_from 1 0 d ds
  end.

(** interpolation.py 357-374 *)
Definition nn_1d (refs vals : list R) (x : R) : R := nth (nearest refs x) vals 0.

(** Squared distance of two points, interpolation.py 14-27. *)
Fixpoint dist2 (p q : list R) : R :=
  match p, q with
  | a :: p', b :: q' => (a - b) * (a - b) + dist2 p' q'
  | _, _ => 0
  end.

(** Stable sort by distance, for lax.top_k of the negated distances. *)
Fixpoint insert_near (a : R * R) (l : list (R * R)) : list (R * R) :=
  match l with
  | [] => [a]
  | b :: l' => if Rle_dec (fst a) (fst b) then a :: l else b :: insert_near a l'
  end.
Definition by_distance (l : list (R * R)) : list (R * R) := fold_right insert_near [] l.

Fixpoint sumR (l : list R) : R := match l with [] => 0 | x :: l' => x + sumR l' end.

(** Weighted average with the inverse distances as weights: (distance, value) pairs. *)
Definition idw (l : list (R * R)) : R :=
  sumR (map (fun dv => snd dv / fst dv) l) / sumR (map (fun dv => 1 / fst dv) l).

(** interpolation.py 30-57: map_interpolator_knn. k may not exceed the number of points. *)
Definition knn (k : nat) (refs : list (list R)) (vals : list R) (x : list R) : result R :=
  if Nat.ltb (List.length refs) k then Err ValueError
  else let near := firstn k (by_distance (combine (map (dist2 x) refs) vals)) in
       Ok (idw (map (fun dv => (Rmax (sqrt (fst dv)) (/ 1000000), snd dv)) near)).

(* ------------------------------------------------------------------ *)
(** * Regular grids *)

(** One axis: lower and upper bound and number of nodes. *)
Record axis := mk_axis { a_lo : R; a_hi : R; a_n : nat }.

(** interpolation.py 136, 185, 266, 303 *)
Definition bin_size (a : axis) : R := (a_hi a - a_lo a) / (INR (a_n a) - 1).
Definition frac (a : axis) (x : R) : R := (x - a_lo a) / bin_size a.

(** interpolation.py 269-272: index of the lower corner and offset in the cell. *)
Definition lerp_index (a : axis) (x : R) : Z := clipZ (Int_part (frac a x)) 0 (Z.of_nat (a_n a) - 2).
Definition lerp_offset (a : axis) (x : R) : R := clipR (frac a x - IZR (lerp_index a x)) 0 1.

(** interpolation.py 248-281; [look i j] is ref_val[i, j]. *)
Definition bilinear (ax ay : axis) (look : Z -> Z -> R) (x y : R) : R :=
  let i0 := lerp_index ax x in
  let j0 := lerp_index ay y in
  let t := lerp_offset ax x in
  let u := lerp_offset ay y in
  let v00 := look i0 j0 in
  let v10 := look (i0 + 1)%Z j0 in
  let v01 := look i0 (j0 + 1)%Z in
  let v11 := look (i0 + 1)%Z (j0 + 1)%Z in
  (1 - t) * (1 - u) * v00 + t * (1 - u) * v10 + (1 - t) * u * v01 + t * u * v11.

(** interpolation.py 284-329 *)
Definition trilinear (ax ay az : axis) (look : Z -> Z -> Z -> R) (x y z : R) : R :=
  let i0 := lerp_index ax x in
  let j0 := lerp_index ay y in
  let k0 := lerp_index az z in
  let t := lerp_offset ax x in
  let u := lerp_offset ay y in
  let w := lerp_offset az z in
  let v000 := look i0 j0 k0 in
  let v100 := look (i0 + 1)%Z j0 k0 in
  let v010 := look i0 (j0 + 1)%Z k0 in
  let v110 := look (i0 + 1)%Z (j0 + 1)%Z k0 in
  let v001 := look i0 j0 (k0 + 1)%Z in
  let v101 := look (i0 + 1)%Z j0 (k0 + 1)%Z in
  let v011 := look i0 (j0 + 1)%Z (k0 + 1)%Z in
  let v111 := look (i0 + 1)%Z (j0 + 1)%Z (k0 + 1)%Z in
  let c00 := (1 - t) * v000 + t * v100 in
  let c10 := (1 - t) * v010 + t * v110 in
  let c01 := (1 - t) * v001 + t * v101 in
  let c11 := (1 - t) * v011 + t * v111 in
  let c0 := (1 - u) * c00 + u * c10 in
  let c1 := (1 - u) * c01 + u * c11 in
  (1 - w) * c0 + w * c1.

(** jax indexing moves an index outside the array to the nearest one inside. *)
Definition jax_index (n : nat) (i : Z) : Z := clipZ i 0 (Z.of_nat n - 1).
Definition jax_look2 (ax ay : axis) (look : Z -> Z -> R) (i j : Z) : R := look (jax_index (a_n ax) i) (jax_index (a_n ay) j).
Definition jax_look3 (ax ay az : axis) (look : Z -> Z -> Z -> R) (i j k : Z) : R :=
  look (jax_index (a_n ax) i) (jax_index (a_n ay) j) (jax_index (a_n az) k).

(** interpolation.py 140-142, 189-191: the index used by the IDW maps goes up to the last node. *)
Definition idw_index (a : axis) (x : R) : Z := clipZ (Int_part (frac a x)) 0 (Z.of_nat (a_n a) - 1).
Definition node (a : axis) (i : Z) : R := a_lo a + bin_size a * IZR i.
Definition clip_dist (d : R) : R := clipR d float_pos_min float_pos_max.

(** interpolation.py 118-163 *)
Definition idw_2d (ax ay : axis) (look : Z -> Z -> R) (x y : R) : R :=
  let i := idw_index ax x in
  let j := idw_index ay y in
  let corner := fun ij : Z * Z =>
    (clip_dist (sqrt ((node ax (fst ij) - x) ^ 2 + (node ay (snd ij) - y) ^ 2)), look (fst ij) (snd ij)) in
  idw (map corner [(i, j); ((i + 1)%Z, j); (i, (j + 1)%Z); ((i + 1)%Z, (j + 1)%Z)]).

(** interpolation.py 166-245 *)
Definition idw_3d (ax ay az : axis) (look : Z -> Z -> Z -> R) (x y z : R) : R :=
  let i := idw_index ax x in
  let j := idw_index ay y in
  let k := idw_index az z in
  let corner := fun ijk : Z * Z * Z =>
    let '(i, j, k) := ijk in
    (clip_dist (sqrt ((node ax i - x) ^ 2 + (node ay j - y) ^ 2 + (node az k - z) ^ 2)), look i j k) in
  idw (map corner [(i, j, k); ((i + 1)%Z, j, k); (i, (j + 1)%Z, k); (i, j, (k + 1)%Z);
                   ((i + 1)%Z, (j + 1)%Z, k); (i, (j + 1)%Z, (k + 1)%Z); ((i + 1)%Z, j, (k + 1)%Z);
                   ((i + 1)%Z, (j + 1)%Z, (k + 1)%Z)]).

(** jnp.linspace(lo, hi, n) *)
Definition linspace (a : axis) : list R :=
  match a_n a with
  | 1%nat => [a_lo a]
  | n => map (fun i => a_lo a + bin_size a * INR i) (seq 0 n)
  end.

(** interpolation.py 377-403 and 406-434 *)
Definition nn_2d (ax ay : axis) (look : Z -> Z -> R) (x y : R) : R :=
  look (Z.of_nat (nearest (linspace ax) x)) (Z.of_nat (nearest (linspace ay) y)).
Definition nn_3d (ax ay az : axis) (look : Z -> Z -> Z -> R) (x y z : R) : R :=
  look (Z.of_nat (nearest (linspace ax) x)) (Z.of_nat (nearest (linspace ay) y))
       (Z.of_nat (nearest (linspace az) z)).

(** interpolation.py 97-115: for bounds of shape (1,), as Map passes them, jnp.linspace has shape
    (M, 1) and jnp.searchsorted refuses it; for scalar bounds it is the curve. *)
Inductive bound1 := Scalar1 (lo hi : R) | Array1 (lo hi : R).
Definition regbin_1d (b : bound1) (vals : list R) (x : R) : result R :=
  match b with
  | Scalar1 lo hi => Ok (curve (linspace (mk_axis lo hi (List.length vals))) vals x)
  | Array1 _ _ => Err ValueError
  end.

(* ------------------------------------------------------------------ *)
(** * Map *)

Definition log10 (x : R) : R := ln x / ln 10.

(** config.py 362-369: preprocess, for a point with one mask entry per coordinate. *)
Definition preprocess1 (is_log : bool) (x : R) : R :=
  let safe := if is_log then x else 1 in
  let log_val := log10 (clipR safe float_pos_min float_pos_max) in
  if is_log then log_val else x.
Definition preprocess (mask : list bool) (pos : list R) : list R :=
  map (fun mx => preprocess1 (fst mx) (snd mx)) (combine mask pos).

(** config.py 320-341: _validate_log_coords for regular grids. *)
Definition validate_bounds (mask : list bool) (bounds : list R) : result unit :=
  if existsb (fun mb => fst mb && (if Rle_dec (snd mb) 0 then true else false)) (combine mask bounds)
  then Err ValueError else Ok tt.
(** The same for a point map: the mask is a single flag. *)
Definition validate_points (is_log : bool) (refs : list R) : result unit :=
  if is_log && existsb (fun r => if Rle_dec r 0 then true else false) refs then Err ValueError else Ok tt.

Inductive method := IDW | LERP | NN | OtherMethod.

(** config.py 184-188 *)
Definition point_interpolator (m : method) : result (list R -> list R -> R -> R) :=
  match m with
  | IDW => Ok curve
  | NN => Ok nn_1d
  | LERP => Ok interp
  | OtherMethod => Err ValueError
  end.

(** config.py 233-270: build_point and map_point; the log is applied to coordinates and to the map
    values. [prob]: the coordinate is a pdf or cdf. *)
Definition map_point (m : method) (prob is_log : bool) (refs vals : list R) (x : R) : result R :=
  if prob && is_log then Err ValueError else
  match point_interpolator m with
  | Err e => Err e
  | Ok f =>
      match validate_points is_log refs with
      | Err e => Err e
      | Ok _ => Ok (f (map (preprocess1 is_log) refs) (map (preprocess1 is_log) vals) (preprocess1 is_log x))
      end
  end.

(** config.py 272-318, 343-360: building and applying a regular grid map in two and three
    dimensions; [mask] is the list of flags "log_regbin" per axis. *)
Definition axes_of (mask : list bool) (lowers uppers : list R) (shape : list nat) : list axis :=
  map (fun p => mk_axis (fst (fst p)) (snd (fst p)) (snd p))
      (combine (combine (preprocess mask lowers) (preprocess mask uppers)) shape).

(** [probs]: which axes are called pdf or cdf. *)
Definition build_regbin (probs mask : list bool) (lowers uppers : list R) (m : method) : result unit :=
  if negb (Nat.eqb (List.length mask) (List.length lowers)) then Err ValueError
  else if existsb (fun pm => fst pm && snd pm) (combine probs mask) then Err ValueError
  else match List.length lowers, m with
       | 1%nat, _ | 2%nat, IDW | 2%nat, LERP | 2%nat, NN | 3%nat, IDW | 3%nat, LERP | 3%nat, NN =>
           match validate_bounds mask lowers with
           | Err e => Err e
           | Ok _ => validate_bounds mask uppers
           end
       | _, _ => Err ValueError
       end.

(** The one-dimensional case: coordinate_lowers and coordinate_uppers are arrays of shape (1,). *)
Definition map_regbin_1d (m : method) (prob is_log : bool) (lower upper : R) (vals : list R) (x : R) : result R :=
  match build_regbin [prob] [is_log] [lower] [upper] m with
  | Err e => Err e
  | Ok _ => regbin_1d (Array1 (preprocess1 is_log lower) (preprocess1 is_log upper)) vals (preprocess1 is_log x)
  end.

Definition map_regbin_2d (m : method) (probs mask : list bool) (lowers uppers : list R) (shape : list nat)
    (look : Z -> Z -> R) (pos : list R) : result R :=
  match build_regbin probs mask lowers uppers m with
  | Err e => Err e
  | Ok _ =>
      match axes_of mask lowers uppers shape, preprocess mask pos with
      | [ax; ay], [x; y] =>
          Ok (match m with
              | IDW => idw_2d ax ay look x y
              | LERP => bilinear ax ay look x y
              | _ => nn_2d ax ay look x y
              end)
      | _, _ => Err AssertionError
      end
  end.

Definition map_regbin_3d (m : method) (probs mask : list bool) (lowers uppers : list R) (shape : list nat)
    (look : Z -> Z -> Z -> R) (pos : list R) : result R :=
  match build_regbin probs mask lowers uppers m with
  | Err e => Err e
  | Ok _ =>
      match axes_of mask lowers uppers shape, preprocess mask pos with
      | [ax; ay; az], [x; y; z] =>
          Ok (match m with
              | IDW => idw_3d ax ay az look x y z
              | LERP => trilinear ax ay az look x y z
              | _ => nn_3d ax ay az look x y z
              end)
      | _, _ => Err AssertionError
      end
  end.

(* ------------------------------------------------------------------ *)
(** * pdf to cdf *)

(** utils.py 628-641: cumulative_integrate_midpoint. *)
Fixpoint mids (x : list R) : list R :=
  match x with
  | a :: (b :: _) as x' => / 2 * (b + a) :: mids x'
  | _ => []
  end.
Fixpoint diffs (x : list R) : list R :=
  match x with
  | a :: (b :: _) as x' => (b - a) :: diffs x'
  | _ => []
  end.
Fixpoint cumsum (acc : R) (l : list R) : list R :=
  match l with
  | [] => []
  | x :: l' => (acc + x) :: cumsum (acc + x) l'
  end.
Definition cumulative_integrate (x y : list R) : list R * list R :=
  (mids x, cumsum 0 (map (fun p => fst p * snd p) (combine (diffs x) (mids y)))).

(** utils.py 616-625: integrate_midpoint; res[-1] of an empty array is an IndexError. *)
Definition integrate (x y : list R) : result R :=
  match snd (cumulative_integrate x y) with
  | [] => Err IndexError
  | c :: cs => Ok (last (c :: cs) 0)
  end.

(** config.py 371-376: pdf_to_cdf. *)
Definition pdf_to_cdf (x pdf : list R) : result (list R * list R) :=
  match integrate x pdf with
  | Err e => Err e
  | Ok norm => let '(xm, c) := cumulative_integrate x pdf in Ok (xm, map (fun v => v / norm) c)
  end.

(** config.py 245-252 and 264-270: a pdf map is applied as the map from cdf to x. *)
Definition map_pdf (m : method) (x pdf : list R) (u : R) : result R :=
  match pdf_to_cdf x pdf with
  | Err e => Err e
  | Ok (xm, cdf) => map_point m true false cdf xm u
  end.

(* ------------------------------------------------------------------ *)
(** * SigmaMap *)

(** config.py 542-554: apply, from the three maps' values at the position; [sigma] is None if no
    parameter is required. *)
Definition sigma_apply (sigma : option R) (median lower upper : R) : R :=
  let s := match sigma with Some s => s | None => 1 end in
  let add_pos := (upper - median) * s in
  let add_neg := (median - lower) * s in
  median + (if Rlt_dec 0 s then add_pos else add_neg).
