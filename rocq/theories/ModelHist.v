(** Model of appletree/hist.py. No proofs in this file. *)
From Coq Require Import Reals.
From Verif Require Import Base ModelFloat.
Local Open Scope list_scope.

(** [e < x] in the order used by searchsorted, where NaN is the largest value. *)
Definition below (x e : fl) : bool :=
  match e, x with
  | NaN, _ => false
  | _, NaN => true
  | _, _ => flt e x
  end.

(** hist.py:30, 52-53 jnp.searchsorted(bins, x), side left: the number of edges strictly below.
    (The library searches by bisection, which gives this number for sorted edges.) *)
Definition searchsorted (bins : list fl) (x : fl) : nat := List.length (filter (below x) bins).

(** hist.py:33 [hist.at[ind].add(w)] for one index; an index out of range is dropped. *)
Fixpoint at_add (i : nat) (w : fl) (h : list fl) : list fl :=
  match h, i with
  | [], _ => []
  | x :: h', 0 => fadd x w :: h'
  | x :: h', S i' => x :: at_add i' w h'
  end.

Fixpoint at_add2 (i j : nat) (w : fl) (h : list (list fl)) : list (list fl) :=
  match h, i with
  | [], _ => []
  | r :: h', 0 => at_add j w r :: h'
  | r :: h', S i' => r :: at_add2 i' j w h'
  end.

(** [h[1:-1]] *)
Definition trim {A} (l : list A) : list A := removelast (tl l).

(** hist.py:17-34 make_hist_irreg_bin_1d; [events] pairs each sample with its weight. *)
Definition hist_1d (bins : list fl) (events : list (fl * fl)) : list fl :=
  trim (fold_left (fun h e => at_add (searchsorted bins (fst e)) (snd e) h) events
          (repeat (Fin 0) (List.length bins + 1))).

Section Hist2d.
  (** hist.py:53 [bins_y[ind_x - 1]] for an ind_x without a row (below the first or above the
      last x edge). The library wraps or clamps the index; the model allows any row. *)
  Variable out_of_range_row : list (list fl) -> nat -> list fl.

  Definition row (bins_y : list (list fl)) (ind_x : nat) : list fl :=
    match ind_x with
    | 0 => out_of_range_row bins_y 0
    | S i => match nth_error bins_y i with
             | Some r => r
             | None => out_of_range_row bins_y (S i)
             end
    end.

  (** bins_y.shape[-1]; all rows have the same length. *)
  Definition row_length (bins_y : list (list fl)) : nat :=
    match bins_y with r :: _ => List.length r | [] => 0 end.

  (** hist.py:37-61 make_hist_irreg_bin_2d; an event is ((x, y), weight). *)
  Definition hist_2d (bins_x : list fl) (bins_y : list (list fl)) (events : list (fl * fl * fl))
    : list (list fl) :=
    let step h (e : fl * fl * fl) :=
      let ix := searchsorted bins_x (fst (fst e)) in
      let iy := searchsorted (row bins_y ix) (snd (fst e)) in
      at_add2 ix iy (snd e) h in
    map trim (trim (fold_left step events
      (repeat (repeat (Fin 0) (row_length bins_y + 1)) (List.length bins_x + 1)))).
End Hist2d.

(** hist.py:9-14: jnp.histogramdd. The index of a sample along one axis: bisection to the right,
    and the last edge belongs to the last bin. *)
Definition index_dd (edges : list fl) (x : fl) : nat :=
  let i := List.length (filter (fun e => negb (below e x)) edges) in
  match rev edges with
  | last :: _ => if feq x last then i - 1 else i
  | [] => i
  end.

Definition hist_mesh_1d (bins : list fl) (events : list (fl * fl)) : list fl :=
  trim (fold_left (fun h e => at_add (index_dd bins (fst e)) (snd e) h) events
          (repeat (Fin 0) (List.length bins + 1))).

Definition hist_mesh_2d (bins_x bins_y : list fl) (events : list (fl * fl * fl)) : list (list fl) :=
  map trim (trim (fold_left
    (fun h e => at_add2 (index_dd bins_x (fst (fst e))) (index_dd bins_y (snd (fst e))) (snd e) h)
    events (repeat (repeat (Fin 0) (List.length bins_y + 1)) (List.length bins_x + 1)))).
