(** Vocabulary for the properties of weighted data (C76, C77). No proofs. *)
From Coq Require Import Reals.
From Verif Require Import Base ModelFloat ModelHist ModelLikelihood SpecHist.
Local Open Scope list_scope.

(** The edges of a binning are in order and without NaN, and there are at least two on an axis;
    irregular bins have one row of y edges for each x bin, all of one length. *)
Definition edges_ok (e : list fl) : Prop := sorted e /\ 2 <= List.length e.
Definition binning_ok (b : binning) : Prop :=
  match b with
  | BIrreg1 e | BMesh1 e => edges_ok e
  | BIrreg2 ex ry =>
      edges_ok ex /\ List.length ex = List.length ry + 1 /\
      (forall r, In r ry -> edges_ok r /\ List.length r = row_length ry)
  | BMesh2 ex ey => edges_ok ex /\ edges_ok ey
  | BUnsupported => False
  end.

(** The bins, in the order of the flattened histogram: each tells which events are in it.
    Irregular bins are open on the left and closed on the right; meshgrid bins are closed on the
    left and open on the right, except that the last one is closed. *)
Definition left_bin (e : list fl) (i : nat) (x : fl) : bool :=
  in_bin_left (Nat.eqb (S (S i)) (List.length e)) (edge e i) (edge e (S i)) x.
Definition right_bin (e : list fl) (i : nat) (x : fl) : bool := in_bin (edge e i) (edge e (S i)) x.
Definition bin_numbers (e : list fl) : list nat := seq 0 (List.length e - 1).

Definition bins_of (b : binning) : list (list fl -> bool) :=
  match b with
  | BIrreg1 e => map (fun i r => right_bin e i (obs 0 r)) (bin_numbers e)
  | BMesh1 e => map (fun i r => left_bin e i (obs 0 r)) (bin_numbers e)
  | BIrreg2 ex ry =>
      List.concat (map (fun i => map (fun j r => right_bin ex i (obs 0 r) &&
                                                 right_bin (nth i ry []) j (obs 1 r))
                                     (bin_numbers (nth i ry []))) (bin_numbers ex))
  | BMesh2 ex ey =>
      List.concat (map (fun i => map (fun j r => left_bin ex i (obs 0 r) && left_bin ey j (obs 1 r))
                                     (bin_numbers ey)) (bin_numbers ex))
  | BUnsupported => []
  end.

(** The histogram of weighted events: the weights of the events of each bin. *)
Definition binned (b : binning) (events : list (list fl * fl)) : list fl :=
  map (fun P => weight_of snd (fun e => P (fst e)) events) (bins_of b).

(** An event as simulate_weighted_data returns it: the observables and the weight. *)
Definition observables (r : list fl) : list fl := removelast r.
Definition weight (r : list fl) : fl := last r NaN.
Definition event (r : list fl) : list fl * fl := (observables r, weight r).

(** A simulated event: without efficiency (force_no_eff) every column is an observable and the
    weight is 1, otherwise the last column is the efficiency. *)
Definition sim_event (no_eff : bool) (r : list fl) : list fl * fl :=
  if no_eff then (r, Fin 1) else event r.

(** [x] lies strictly between two of the edges. *)
Definition between (edges : list fl) (x : fl) : Prop :=
  (exists e, In e edges /\ flt e x = true) /\ (exists e, In e edges /\ flt x e = true).

(** The event is in the region of interest: strictly inside the range of the edges of each axis. *)
Definition in_roi (b : binning) (r : list fl) : Prop :=
  match b with
  | BIrreg1 e | BMesh1 e => between e (obs 0 r)
  | BIrreg2 ex ry => between ex (obs 0 r) /\ between (List.concat ry) (obs 1 r)
  | BMesh2 ex ey => between ex (obs 0 r) /\ between ey (obs 1 r)
  | BUnsupported => True
  end.

(** [out] is what is left of [rows] when the events that do not satisfy [P] are dropped and [f] is
    applied to the others. *)
Inductive keep (P : list fl -> Prop) (f : list fl -> list fl)
  : list (list fl) -> list (list fl) -> Prop :=
| keep_nil : keep P f [] []
| keep_yes r rows out : P r -> keep P f rows out -> keep P f (r :: rows) (f r :: out)
| keep_no r rows out : ~ P r -> keep P f rows out -> keep P f (r :: rows) out.

(** The event is in some bin. *)
Definition in_some_bin (b : binning) (r : list fl) : Prop := exists P, In P (bins_of b) /\ P r = true.

(** No observable of the event is an outermost edge (of any row, for irregular bins). *)
Definition off_ends (e : list fl) (x : fl) : Prop :=
  feq x (edge e 0) = false /\ feq x (edge e (List.length e - 1)) = false.
Definition off_boundary (b : binning) (r : list fl) : Prop :=
  match b with
  | BIrreg1 e | BMesh1 e => off_ends e (obs 0 r)
  | BIrreg2 ex ry => off_ends ex (obs 0 r) /\ forall row, In row ry -> off_ends row (obs 1 r)
  | BMesh2 ex ey => off_ends ex (obs 0 r) /\ off_ends ey (obs 1 r)
  | BUnsupported => True
  end.

(** The total weight. *)
Definition total_weight (out : list (list fl)) : fl := fsum (map weight out).

(** The chain of the components of a likelihood: what each returns, the simulated ones each
    starting from the key the previous one returned. *)
Inductive parts_from {K} (batch : nat) (p : params)
  : dict (wkind K) -> K -> list (list (list fl)) -> K -> Prop :=
| pf_nil key : parts_from batch p [] key [] key
| pf_sim n f rest key key1 x xs key2 :
    f key batch p = Ok (key1, x) -> parts_from batch p rest key1 xs key2 ->
    parts_from batch p ((n, WSim f) :: rest) key (x :: xs) key2
| pf_fixed n f rest key x xs key2 :
    f p = Ok x -> parts_from batch p rest key xs key2 ->
    parts_from batch p ((n, WFixed f) :: rest) key (x :: xs) key2.

(** A registered component: a compiled simulation or a fixed sample, with its settings. *)
Inductive component (K : Type) :=
| Simulated (c : cnum) (sim : K -> nat -> params -> result (K * list (list fl)))
| Sample (c : cnum) (data : list (list fl)).
Arguments Simulated {K} _ _.
Arguments Sample {K} _ _.

Section Views.
  Variable oor : list (list fl) -> nat -> list fl.
  (** The histogram and the weighted data of a component. *)
  Definition hist_view {K} (x : component K) : lcomp K :=
    mk_lcomp [] match x with
                | Simulated c sim => LSim (sim_hist oor c sim)
                | Sample c data => LFixed (fixed_hist oor c data)
                end.
  Definition data_view {K} (x : component K) : wkind K :=
    match x with
    | Simulated c sim => WSim (sim_weighted oor c sim)
    | Sample c data => WFixed (fixed_weighted oor c data)
    end.
  Definition views {K B} (v : component K -> B) (cs : dict (component K)) : dict B :=
    map (fun nc => (fst nc, v (snd nc))) cs.

  (** What is asked of a component so that its weighted data agree with its histogram: the binning
      [b], no floor, efficiencies used, and events with finite efficiency that are on no outermost
      edge. *)
  Definition agreeing {K} (b : binning) (batch : nat) (p : params) (x : component K) : Prop :=
    match x with
    | Simulated c sim =>
        n_bins c = b /\ n_add_eps c = false /\ n_no_eff c = false /\
        (forall key key' rows, sim key batch p = Ok (key', rows) -> forall r, In r rows ->
           off_boundary b (observables r) /\ exists e, weight r = Fin e)
    | Sample c data =>
        n_bins c = b /\ n_add_eps c = false /\
        (forall r, In r data -> List.length r = ndim b /\ off_boundary b r)
    end.
End Views.

(** A finite number. *)
Definition finite (x : fl) : Prop := exists r, x = Fin r.
