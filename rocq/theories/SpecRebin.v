(** Vocabulary for histograms with coarser bins (C119). No proofs. *)
From Coq Require Import Reals Permutation.
From Verif Require Import Base ModelFloat ModelHist ModelLikelihood SpecHist SpecLikelihood.
Local Open Scope list_scope.

(** The contents of groups of bins. *)
Definition merged (gs : list (list nat)) (h : list fl) : list fl := map (fun g => fsum (map (entry h) g)) gs.

(** Every one of [n] bins is in one group, and no group is empty. *)
Definition grouping (gs : list (list nat)) (n : nat) : Prop := Permutation (List.concat gs) (seq 0 n) /\ ~ In [] gs.

(** Some of the edges: those with the numbers 0 and [rest], where [rest] climbs to [top]. *)
Fixpoint climbs (a : nat) (rest : list nat) (top : nat) : Prop :=
  match rest with
  | [] => a = top
  | b :: rest' => a < b /\ climbs b rest' top
  end.
Definition pick (fine : list fl) (rest : list nat) : list fl := map (edge fine) (0 :: rest).

(** The bins between edges [a] and [b], between [b] and the next, ... *)
Fixpoint ranges (a : nat) (rest : list nat) : list (list nat) :=
  match rest with
  | [] => []
  | b :: rest' => seq a (b - a) :: ranges b rest'
  end.

(** Rows and columns of a histogram that is stored row after row, [m] entries each. *)
Definition block (m : nat) (rows cols : list nat) : list nat := flat_map (fun i => map (fun j => i * m + j) cols) rows.
Definition blocks (m : nat) (rs cs : list (list nat)) : list (list nat) := flat_map (fun r => map (block m r) cs) rs.

(** Leaving out inner edges. *)
Inductive coarsening : binning -> binning -> list (list nat) -> Prop :=
| coarse_irreg fine rest : sorted fine -> fine <> [] -> climbs 0 rest (List.length fine - 1) ->
    coarsening (BIrreg1 fine) (BIrreg1 (pick fine rest)) (ranges 0 rest)
| coarse_mesh fine rest : sorted fine -> fine <> [] -> climbs 0 rest (List.length fine - 1) ->
    coarsening (BMesh1 fine) (BMesh1 (pick fine rest)) (ranges 0 rest)
| coarse_mesh2 fx rx fy ry : sorted fx -> fx <> [] -> climbs 0 rx (List.length fx - 1) ->
    sorted fy -> fy <> [] -> climbs 0 ry (List.length fy - 1) ->
    coarsening (BMesh2 fx fy) (BMesh2 (pick fx rx) (pick fy ry)) (blocks (List.length fy - 1) (ranges 0 rx) (ranges 0 ry)).

(** The floor of component.py:155-157 changes nothing: it is not used, or every bin has at least that much. *)
Definition filled (add_eps : bool) (eff h : list fl) : Prop :=
  add_eps = true -> fle (Fin 0) (fadd (Fin eps) (fmean eff)) = true /\
    forall x, In x h -> fle (fadd (Fin eps) (fmean eff)) x = true.

(** The same component with other bins. *)
Definition with_bins (c : cnum) (b : binning) : cnum :=
  mk_cnum (n_rate c) (n_norm c) (n_add_eps c) (n_no_eff c) b (n_mcinput c).
Inductive rebinned {K} (oor : list (list fl) -> nat -> list fl) (n : nat) (p : params) (gs : list (list nat)) :
  string * lcomp K -> string * lcomp K -> Prop :=
| rebinned_sim name needed c bins sim : coarsening (n_bins c) bins gs ->
    (forall key key' rows h, sim key n p = Ok (key', rows) ->
       plain_hist oor (n_bins c) (fst (split_rows (n_no_eff c) rows)) (snd (split_rows (n_no_eff c) rows)) = Ok h ->
       filled (n_add_eps c) (snd (split_rows (n_no_eff c) rows)) h) ->
    rebinned oor n p gs (name, mk_lcomp needed (LSim (sim_hist oor c sim)))
      (name, mk_lcomp needed (LSim (sim_hist oor (with_bins c bins) sim)))
| rebinned_fixed name needed c bins data : coarsening (n_bins c) bins gs ->
    (forall h, plain_hist oor (n_bins c) data (map (fun _ => Fin 1) data) = Ok h ->
       filled (n_add_eps c) (map (fun _ => Fin 1) data) h) ->
    rebinned oor n p gs (name, mk_lcomp needed (LFixed (fixed_hist oor c data)))
      (name, mk_lcomp needed (LFixed (fixed_hist oor (with_bins c bins) data))).

(** How far a log likelihood is below the one of a model that equals the data. *)
Definition deviance (ds : list R) (v : R) : R := (poisson_best ds - v)%R.
