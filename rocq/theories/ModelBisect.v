(** The search of jax.numpy.searchsorted as it is made: by bisection. The other model files use the number
    of entries below the sample instead (ModelHist.searchsorted, ModelInterp.ss_left). jax is not part of
    /repo; this follows the default method ("scan") of jax.numpy.searchsorted. No proofs in this file. *)
From Coq Require Import Reals.
From Verif Require Import Base ModelFloat ModelHist ModelInterp.
Local Open Scope list_scope.

Section Bisect.
  Variable A : Type.
  Variable d : A.
  Variable go_left : A -> bool.
  Definition bisect_step (l : list A) (s : nat * nat) : nat * nat :=
    let mid := Nat.div2 (fst s + snd s) in
    if go_left (nth mid l d) then (fst s, mid) else (mid, snd s).
  (** ceil(log2(n + 1)) steps from (0, n); the upper end is the result. *)
  Definition bisect (l : list A) : nat :=
    snd (Nat.iter (Nat.log2_up (S (List.length l))) (bisect_step l) (0, List.length l)).
End Bisect.

(** side="left": go left if the sample is not above the entry; side="right": if it is below. *)
Definition search_left (bins : list fl) (x : fl) : nat := bisect fl NaN (fun e => negb (below x e)) bins.
Definition search_right (bins : list fl) (x : fl) : nat := bisect fl NaN (fun e => below e x) bins.

(** hist.py:17-34 *)
Definition search_hist_1d (bins : list fl) (events : list (fl * fl)) : list fl :=
  trim (fold_left (fun h e => at_add (search_left bins (fst e)) (snd e) h) events
          (repeat (Fin 0) (List.length bins + 1))).
(** hist.py:37-61; a row that does not exist is the last one: [bins_y[-1]] wraps, and jax clamps an index
    that is too large. *)
Definition last_row (bins_y : list (list fl)) (_ : nat) : list fl := last bins_y [].
Definition search_hist_2d (bins_x : list fl) (bins_y : list (list fl)) (events : list (fl * fl * fl)) : list (list fl) :=
  let step h (e : fl * fl * fl) :=
    let ix := search_left bins_x (fst (fst e)) in
    let iy := search_left (row last_row bins_y ix) (snd (fst e)) in
    at_add2 ix iy (snd e) h in
  map trim (trim (fold_left step events
    (repeat (repeat (Fin 0) (row_length bins_y + 1)) (List.length bins_x + 1)))).
(** hist.py:9-14: jnp.histogramdd searches to the right. *)
Definition search_index_dd (edges : list fl) (x : fl) : nat :=
  let i := search_right edges x in
  match rev edges with
  | e :: _ => if feq x e then i - 1 else i
  | [] => i
  end.
Definition search_hist_mesh_1d (bins : list fl) (events : list (fl * fl)) : list fl :=
  trim (fold_left (fun h e => at_add (search_index_dd bins (fst e)) (snd e) h) events
          (repeat (Fin 0) (List.length bins + 1))).
Definition search_hist_mesh_2d (bins_x bins_y : list fl) (events : list (fl * fl * fl)) : list (list fl) :=
  map trim (trim (fold_left
    (fun h e => at_add2 (search_index_dd bins_x (fst (fst e))) (search_index_dd bins_y (snd (fst e))) (snd e) h)
    events (repeat (repeat (Fin 0) (List.length bins_y + 1)) (List.length bins_x + 1)))).

(** interpolation.py:60-94 curve_interpolator, as ModelInterp.curve. *)
Definition search_curve (refs vals : list R) (x : R) : R :=
  let n := List.length refs in
  let r := bisect R 0%R (fun e => if Rle_dec x e then true else false) refs in
  let right := Nat.min r (n - 1) in
  let left := Nat.min (r - 1) (n - 1) in
  let vr := nth right vals 0%R in
  let vl := nth left vals 0%R in
  let dr := Rabs (x - nth right refs 0%R) in
  let dl := Rabs (x - nth left refs 0%R) in
  if Rlt_dec 0 (dr + dl) then ((vr * dl + vl * dr) / (dr + dl))%R else vr.

(** interpolation.py:340-354 jnp.interp, as ModelInterp.interp: the search is to the right. *)
Definition search_interp (refs vals : list R) (x : R) : R :=
  let n := List.length refs in
  let i := Nat.min (Nat.max (bisect R 0%R (fun e => if Rlt_dec x e then true else false) refs) 1) (n - 1) in
  let dx := (nth i refs 0 - nth (i - 1) refs 0)%R in
  let df := (nth i vals 0 - nth (i - 1) vals 0)%R in
  let f := if Req_EM_T dx 0 then nth i vals 0%R
           else (nth (i - 1) vals 0 + (x - nth (i - 1) refs 0) / dx * df)%R in
  if Rlt_dec (nth (n - 1) refs 0%R) x then nth (n - 1) vals 0%R
  else if Rlt_dec x (nth 0 refs 0%R) then nth 0 vals 0%R
  else f.
