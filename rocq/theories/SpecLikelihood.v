(** Vocabulary for the likelihood properties (C09, C14-C20, C52). No proofs. *)
From Coq Require Import Reals.
From Verif Require Import Base ModelFloat ModelHist ModelLikelihood.
Local Open Scope list_scope.

(** The value that the last alias of [n] present in [p] gives to [n]. *)
Fixpoint alias_value {V} (alias : dict string) (p : dict V) (n : string) : option V :=
  match alias with
  | [] => None
  | (k, v) :: rest =>
      match alias_value rest p n with
      | Some x => Some x
      | None => if String.eqb v n then get k p else None
      end
  end.

Definition targets (alias : dict string) : list string := map snd alias.

(** No alias name is also a target. *)
Definition separate (alias : dict string) : Prop :=
  forall k, In k (keys alias) -> ~ In k (targets alias).

(** A history of register_component calls: name and outcome of constructing the component. *)
Definition register_all {K} (regs : list (string * result (lcomp K))) (L : llh K) : llh K :=
  fold_left (fun L r => fst (register_component (fst r) (snd r) L)) regs L.

Definition new_llh {K} (alias : dict string) (data : list fl) : llh K := mk_llh [] [] alias data.

(** The simulated components one after the other, each from the key the previous one returned,
    with the histograms they return; other components are passed over. *)
Inductive sim_chain {K} (batch : nat) (p : params) : dict (lcomp K) -> K -> list (list fl) -> K -> Prop :=
| sc_nil key : sim_chain batch p [] key [] key
| sc_sim n c f rest key key1 x xs key2 :
    l_kind c = LSim f -> f key batch p = Ok (key1, x) -> sim_chain batch p rest key1 xs key2 ->
    sim_chain batch p ((n, c) :: rest) key (x :: xs) key2
| sc_skip n c rest key xs key2 :
    (forall f, l_kind c <> LSim f) -> sim_chain batch p rest key xs key2 ->
    sim_chain batch p ((n, c) :: rest) key xs key2.

(** The histograms of the fixed components; other components are passed over. *)
Inductive fixed_hists {K} (p : params) : dict (lcomp K) -> list (list fl) -> Prop :=
| fh_nil : fixed_hists p [] []
| fh_fixed n c f rest x xs :
    l_kind c = LFixed f -> f p = Ok x -> fixed_hists p rest xs ->
    fixed_hists p ((n, c) :: rest) (x :: xs)
| fh_skip n c rest xs :
    (forall f, l_kind c <> LFixed f) -> fixed_hists p rest xs ->
    fixed_hists p ((n, c) :: rest) xs.

Definition is_sim {K} (c : string * lcomp K) : bool :=
  match l_kind (snd c) with LSim _ => true | _ => false end.
Definition is_other {K} (c : string * lcomp K) : bool :=
  match l_kind (snd c) with LOther => true | _ => false end.

(** A usable model bin. *)
Definition good_bin (x : fl) : Prop := exists r, x = Fin r /\ (0 < r)%R.

Local Open Scope R_scope.

(** The Poisson sum over finite bins. *)
Fixpoint poisson_R (data model : list R) : R :=
  match data, model with
  | d :: data', m :: model' => (d * ln m - m) + poisson_R data' model'
  | _, _ => 0
  end.

(** Its value if the model equals the data, with 0 ln 0 = 0. *)
Fixpoint poisson_best (data : list R) : R :=
  match data with
  | [] => 0
  | d :: data' => (if Rlt_dec 0 d then d * ln d - d else 0) + poisson_best data'
  end.

(** [n] runs of [sim], each from the key the previous one returned. *)
Inductive runs_from {K} (sim : K -> nat -> params -> result (K * list (list fl))) (batch : nat)
    (p : params) : nat -> K -> list (list (list fl)) -> K -> Prop :=
| rf_nil key : runs_from sim batch p 0 key [] key
| rf_cons n key key1 cols runs key2 :
    sim key batch p = Ok (key1, cols) -> runs_from sim batch p n key1 runs key2 ->
    runs_from sim batch p (S n) key (cols :: runs) key2.

(** The events with positive efficiency: entries of [col] whose partner in [eff] is positive. *)
Fixpoint positive_only (eff col : list fl) : list fl :=
  match eff, col with
  | e :: eff', x :: col' =>
      if flt (Fin 0) e then x :: positive_only eff' col' else positive_only eff' col'
  | _, _ => []
  end.

(** A finite number that is not negative. *)
Definition nonneg (x : fl) : Prop := exists r, x = Fin r /\ 0 <= r.

(** The arithmetic mean of a list of numbers. *)
Definition mean (es : list R) : R := fold_right Rplus 0 es / INR (List.length es).

Section Built.
  Variable oor : list (list fl) -> nat -> list fl.

  (** A component as registered by a likelihood: a simulation or a fixed sample, histogrammed and
      normalised; its rate parameter is called after it. [P] is what is required of its settings. *)
  Inductive built {K} (P : cnum -> Prop) : string * lcomp K -> Prop :=
  | built_sim name needed c sim :
      P c -> n_rate c = (name ++ "_rate")%string ->
      built P (name, mk_lcomp needed (LSim (sim_hist oor c sim)))
  | built_fixed name needed c data :
      P c -> n_rate c = (name ++ "_rate")%string ->
      built P (name, mk_lcomp needed (LFixed (fixed_hist oor c data))).

  (** A component whose simulations (of batch size [b]) and samples are not empty and have
      efficiencies that are finite and not negative, with the floor switched on. *)
  Inductive floored {K} (b : nat) : string * lcomp K -> Prop :=
  | floored_sim name needed c sim :
      n_norm c = OnPdf -> n_add_eps c = true -> n_rate c = (name ++ "_rate")%string ->
      (forall key p key' rows, sim key b p = Ok (key', rows) ->
         rows <> [] /\ forall e, In e (snd (split_rows (n_no_eff c) rows)) -> nonneg e) ->
      floored b (name, mk_lcomp needed (LSim (sim_hist oor c sim)))
  | floored_fixed name needed c data :
      n_norm c = OnPdf -> n_add_eps c = true -> n_rate c = (name ++ "_rate")%string ->
      data <> [] ->
      floored b (name, mk_lcomp needed (LFixed (fixed_hist oor c data))).
End Built.

(** The rate parameters of the components. *)
Definition rates {K} (cs : dict (lcomp K)) (p : params) : list (option fl) :=
  map (fun n => get (n ++ "_rate")%string p) (keys cs).
