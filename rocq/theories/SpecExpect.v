(** Vocabulary for the averages of simulated histograms (C114): batches of independent events.
    No reference to how histograms are made. *)
From Coq Require Import Reals.
From Verif Require Import Base ModelFloat ModelHist ModelLikelihood SpecHist SpecWeighted SpecSignals SpecSamplers.
Local Open Scope R_scope.

(** The rows that a simulation gives for a key. *)
Definition rows_at {K : Type} (sim : K -> nat -> params -> result (K * list (list fl))) (batch : nat) (p : params) (key : K) : list (list fl) :=
  match sim key batch p with Ok (_, rows) => rows | Err _ => [] end.

(** A random key gives a batch of [batch] independent events, each distributed as [events]. *)
Record independent {K : Type} (sim : K -> nat -> params -> result (K * list (list fl))) (batch : nat) (p : params)
    (keys : SpecSignals.dist K) (events : SpecSignals.dist (list fl)) : Prop := {
  i_keys : total keys;
  i_events : total events;
  i_rows : forall w key, In (w, key) keys -> exists key' rows, sim key batch p = Ok (key', rows) /\
             List.length rows = batch /\ forall r, In r rows -> exists v, In (v, r) events;
  i_law : forall f, average keys (fun key => f (rows_at sim batch p key)) = average (draws events batch) f }.

(** The events have one column for each observable and one for the efficiency, which is a number
    between 0 and 1 (no such column without efficiency). *)
Definition proper (no_eff : bool) (b : binning) (events : SpecSignals.dist (list fl)) : Prop :=
  forall w r, In (w, r) events ->
    List.length r = (ndim b + if no_eff then 0 else 1)%nat /\
    exists e, snd (sim_event no_eff r) = Fin e /\ 0 <= e <= 1.

(** What an event adds to the events that satisfy [P]: its efficiency. *)
Definition share (no_eff : bool) (P : list fl -> bool) (r : list fl) : R :=
  if P (fst (sim_event no_eff r)) then number (snd (sim_event no_eff r)) else 0.
Definition variance {A} (d : SpecSignals.dist A) (f : A -> R) : R := average d (fun x => (f x - average d f) ^ 2).

(** Bin [i] of the histogram of a key, and what is in any bin. *)
Definition bin_at {K : Type} (hist : K -> result (K * list fl)) (i : nat) (key : K) : R :=
  match hist key with Ok (_, h) => number (nth i h NaN) | Err _ => 0 end.
Definition total_at {K : Type} (hist : K -> result (K * list fl)) (key : K) : R :=
  match hist key with Ok (_, h) => number (fsum h) | Err _ => 0 end.
Definition in_bins (b : binning) (o : list fl) : bool := existsb (fun P => P o) (bins_of b).
Definition bin_of (b : binning) (i : nat) : list fl -> bool := nth i (bins_of b) (fun _ => false).
(** The log likelihood of a key. *)
Definition value_at {K : Type} (llh : K -> result (K * fl)) (key : K) : R :=
  match llh key with Ok (_, x) => number x | Err _ => 0 end.
Definition minus_infinity {K : Type} (llh : K -> result (K * fl)) (key : K) : bool :=
  match llh key with Ok (_, NInf) => true | _ => false end.
Definition not_a_number {K : Type} (hist : K -> result (K * list fl)) (key : K) : bool :=
  match hist key with Ok (_, h) => forallb is_nan h | Err _ => false end.
