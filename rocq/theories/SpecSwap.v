(** Vocabulary for the order of the two axes of a likelihood (C123). No proofs. *)
From Coq Require Import Reals.
From Verif Require Import Base ModelFloat ModelLikelihood ModelBinning.
Local Open Scope string_scope.
Local Open Scope list_scope.

(** The entries [f i j] of a table with [n] rows and [m] columns, row by row. *)
Definition by_rows {A} (n m : nat) (f : nat -> nat -> A) : list A :=
  flat_map (fun i => map (f i) (seq 0 m)) (seq 0 n).

(** [l'] is the table [l] with rows and columns exchanged. *)
Definition exchanged {A} (n m : nat) (l l' : list A) : Prop :=
  exists f, l = by_rows n m f /\ l' = by_rows m n (fun j i => f i j).

(** The first two numbers of an event in the other order. *)
Definition swap_row (r : list fl) : list fl :=
  match r with x :: y :: rest => y :: x :: rest | _ => r end.

(** The same meshgrid with the axes in the other order: bins_on, bins and the clips. *)
Definition swapped_config (cfg cfg' : lconfig) : Prop :=
  lc_bins_type cfg = "meshgrid" /\ lc_bins_type cfg' = "meshgrid" /\
  (exists a b, lc_bins_on cfg = OnList [a; b] /\ lc_bins_on cfg' = OnList [b; a]) /\
  (exists p q, lc_bins cfg = PList [p; q] /\ lc_bins cfg' = PList [q; p]) /\
  lc_x_clip cfg' = lc_y_clip cfg /\ lc_y_clip cfg' = lc_x_clip cfg.

(** The same component for the axes in the other order. *)
Definition swapped_cnum (c c' : cnum) (ex ey : list fl) : Prop :=
  n_bins c = BMesh2 ex ey /\ n_bins c' = BMesh2 ey ex /\
  n_rate c' = n_rate c /\ n_norm c' = n_norm c /\ n_add_eps c' = n_add_eps c /\
  n_no_eff c' = n_no_eff c /\ n_mcinput c' = n_mcinput c.

(** The same simulated events, with the first two columns exchanged. *)
Definition swapped_sim {K} (sim sim' : K -> nat -> params -> result (K * list (list fl))) : Prop :=
  forall key n p, sim' key n p =
    match sim key n p with Ok (k, rows) => Ok (k, map swap_row rows) | Err e => Err e end.

(** Both fail in the same way, or both give a histogram and these are exchanged. *)
Definition same_hist {A} (n m : nat) (r r' : result (A * list fl)) : Prop :=
  match r, r' with
  | Ok (k, h), Ok (k', h') => k' = k /\ exchanged n m h h'
  | Err e, Err e' => e' = e
  | _, _ => False
  end.

Definition with_unit {B} (r : result B) : result (unit * B) := match r with Ok h => Ok (tt, h) | Err e => Err e end.

(** Two components of the same kind with exchanged histograms. *)
Definition same_comp {K} (n m : nat) (c c' : lcomp K) : Prop :=
  l_needed c' = l_needed c /\
  match l_kind c, l_kind c' with
  | LSim f, LSim f' => forall key b p, same_hist n m (f key b p) (f' key b p)
  | LFixed f, LFixed f' => forall p,
      same_hist n m (with_unit (f p)) (with_unit (f' p))
  | LOther, LOther => True
  | _, _ => False
  end.

(** Two likelihoods that differ in the order of the axes. *)
Definition same_llh {K} (n m : nat) (L L' : llh K) : Prop :=
  ll_alias L' = ll_alias L /\ exchanged n m (ll_data L) (ll_data L') /\
  Forall2 (fun x x' => fst x' = fst x /\ same_comp n m (snd x) (snd x')) (ll_components L) (ll_components L').

(** Two constructed likelihoods that differ in the order of the axes. *)
Definition swapped_likelihood (k k' : likelihood) : Prop :=
  exists ex ey a b, k_on k = [a; b] /\ k_on k' = [b; a] /\ k_bins k = BMesh2 ex ey /\ k_bins k' = BMesh2 ey ex /\
    k_data k' = map swap_row (k_data k) /\ exchanged (List.length ex - 1) (List.length ey - 1) (k_hist k) (k_hist k').

(** The same component of a likelihood for the axes in the other order: simulated from the same events, or from
    the same given data. *)
Definition exchanged_component {K} oor (ex ey : list fl) (c c' : lcomp K) : Prop :=
  l_needed c' = l_needed c /\
  exists n n', swapped_cnum n n' ex ey /\
    ((exists sim sim', swapped_sim sim sim' /\ l_kind c = LSim (sim_hist oor n sim) /\ l_kind c' = LSim (sim_hist oor n' sim')) \/
     (exists data, (forall r, In r data -> 2 <= List.length r) /\
        l_kind c = LFixed (fixed_hist oor n data) /\ l_kind c' = LFixed (fixed_hist oor n' (map swap_row data)))).

(** The same likelihood with the axes in the other order: the counts exchanged, the components one by one. *)
Definition exchanged_llh {K} oor (ex ey : list fl) (L L' : llh K) : Prop :=
  ll_alias L' = ll_alias L /\ exchanged (List.length ex - 1) (List.length ey - 1) (ll_data L) (ll_data L') /\
  Forall2 (fun x x' => fst x' = fst x /\ exchanged_component oor ex ey (snd x) (snd x')) (ll_components L) (ll_components L').
