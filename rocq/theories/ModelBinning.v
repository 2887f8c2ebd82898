(** Model of the construction of a likelihood (appletree/likelihood.py:49-237) and of the
    equiprobable bins (appletree/utils.py:277-355). No proofs in this file. *)
From Coq Require Import Reals ZArith.
From Verif Require Import Base ModelFloat ModelHist ModelLikelihood.
Local Open Scope string_scope.
Local Open Scope list_scope.

(** Arrays made by np.array: of zero, one or two dimensions. *)
Inductive arr := Arr0 (x : fl) | Arr1 (l : list fl) | Arr2 (rows : list (list fl)).

(** The bins of one axis as given in the config: a Python int, or something np.array can read (a
    number that is no int, a list of edges, a list of lists of edges). *)
Inductive bin_spec := AInt (n : Z) | AArr (a : arr).

(** config["bins"]: an int, a list, or something else. *)
Inductive bins_value := PInt (n : Z) | PList (l : list bin_spec) | POther.
(** config["bins_on"]: a string, a list of strings, or something else. *)
Inductive bins_on_value := OnStr (s : string) | OnList (l : list string) | OnOther.

(** The config of a likelihood. The keys data_file_name, bins_type, bins_on and bins are taken to
    be present (KeyError otherwise); a clip is taken to have two entries. *)
Record lconfig := mk_lconfig {
  lc_bins_type : string;
  lc_bins_on : bins_on_value;
  lc_bins : bins_value;
  lc_clip : option (fl * fl);
  lc_x_clip : option (fl * fl);
  lc_y_clip : option (fl * fl)
}.

(** What load_data returns: a table with named columns (utils.py:101-116). *)
Record table := mk_table { t_columns : list string; t_rows : list (list fl) }.

(** likelihood.py:85 [data[bins_on].to_numpy()]: the position of each wanted column. *)
Fixpoint position (c : string) (cols : list string) : option nat :=
  match cols with
  | [] => None
  | c' :: cols' => if String.eqb c c' then Some 0
                   else match position c cols' with Some i => Some (S i) | None => None end
  end.

Fixpoint positions (wanted cols : list string) : result (list nat) :=
  match wanted with
  | [] => Ok []
  | c :: wanted' =>
      match position c cols with
      | None => Err KeyError
      | Some i => match positions wanted' cols with Ok is => Ok (i :: is) | Err e => Err e end
      end
  end.

Definition select (is : list nat) (r : list fl) : list fl := map (fun i => obs i r) is.

(** likelihood.py:66-81: the dimension, and bins_on and bins as lists. *)
Definition normalise_bins (on : bins_on_value) (b : bins_value) : result (list string * list bin_spec) :=
  match on with
  | OnStr s =>
      match b with
      | PInt n => Ok ([s], [AInt n])
      | PList l => Ok ([s], l)
      | POther => Err TypeError          (* len() of _sanity_check, likelihood.py:295 *)
      end
  | OnList l =>
      match b with
      | PList bs => Ok (l, bs)
      | _ => Err AssertionError
      end
  | OnOther => Err ValueError
  end.

(** [lo < x < hi], likelihood.py:87-93, utils.py:299-300, 333-336. *)
Definition strictly (c : fl * fl) (x : fl) : bool := flt (fst c) x && flt x (snd c).

(** likelihood.py:86-94: the events inside the clip. With no column at all, data[:, 0] is an
    IndexError. *)
Definition mask_data (cfg : lconfig) (dim : nat) (rows : list (list fl)) : result (list (list fl)) :=
  match dim with
  | 0 => Err IndexError
  | 1 => match lc_clip cfg with
         | None => Err KeyError
         | Some c => Ok (filter (fun r => strictly c (obs 0 r)) rows)
         end
  | _ => match lc_x_clip cfg, lc_y_clip cfg with
         | Some cx, Some cy => Ok (filter (fun r => strictly cx (obs 0 r) && strictly cy (obs 1 r)) rows)
         | _, _ => Err KeyError
         end
  end.

(** np.array(b) of likelihood.py:119, 228: rows of different lengths are a ValueError. *)
Definition rectangular (rows : list (list fl)) : bool :=
  match rows with
  | [] => true
  | r :: _ => forallb (fun r' => Nat.eqb (List.length r') (List.length r)) rows
  end.
Definition np_array (b : bin_spec) : result arr :=
  match b with
  | AInt n => Ok (Arr0 (Fin (IZR n)))
  | AArr (Arr2 rows) => if rectangular rows then Ok (Arr2 rows) else Err ValueError
  | AArr a => Ok a
  end.

(** np.linspace(lo, hi, n + 1): the last point is hi itself, unless it is the only one. *)
Definition linspace_point (lo hi : fl) (n i : nat) : fl :=
  if Nat.eqb i n && negb (Nat.eqb n 0) then hi
  else fadd (fmul (Fin (INR i)) (fdiv (fsub hi lo) (Fin (INR n)))) lo.
Definition np_linspace (c : fl * fl) (n : Z) : result arr :=
  if (n + 1 <? 0)%Z then Err ValueError
  else let k := Z.to_nat (n + 1) in
       Ok (Arr1 (if Nat.eqb k 1 then [fst c]
                 else map (linspace_point (fst c) (snd c) (k - 1)) (seq 0 k))).

(** likelihood.py:106-125; the clip is looked up by the caller even if it is not used. *)
Definition resolve_bin_edges (b : bin_spec) (clip : option (fl * fl)) : result arr :=
  match clip with
  | None => Err KeyError
  | Some c => match b with AInt n => np_linspace c n | AArr a => np_array (AArr a) end
  end.

(** likelihood.py:127-150; [bs] has as many entries as the likelihood has dimensions. *)
Definition resolve_explicit_bins (cfg : lconfig) (dim : nat) (bs : list bin_spec) : result (list arr) :=
  match dim, bs with
  | 1, b :: _ => match resolve_bin_edges b (lc_clip cfg) with Ok a => Ok [a] | Err e => Err e end
  | _, bx :: by_ :: _ =>
      match resolve_bin_edges bx (lc_x_clip cfg) with
      | Err e => Err e
      | Ok x => match resolve_bin_edges by_ (lc_y_clip cfg) with Ok y => Ok [x; y] | Err e => Err e end
      end
  | _, _ => Err IndexError
  end.

(** likelihood.py:228 [[np.array(b) for b in self._bins]]: afterwards no entry is an int. *)
Fixpoint to_arrays (bs : list bin_spec) : result (list bin_spec) :=
  match bs with
  | [] => Ok []
  | b :: bs' =>
      match np_array b with
      | Err e => Err e
      | Ok a => match to_arrays bs' with Ok l => Ok (AArr a :: l) | Err e => Err e end
      end
  end.

(** len(a) *)
Definition np_len (a : arr) : result nat :=
  match a with
  | Arr0 _ => Err TypeError
  | Arr1 l => Ok (List.length l)
  | Arr2 rows => Ok (List.length rows)
  end.

(** likelihood.py:175-186 _validate_irreg_bins_2d. The entries of a one-dimensional array have no
    len. *)
Definition validate_irreg (x y : arr) : result unit :=
  match np_len x with
  | Err e => Err e
  | Ok nx =>
      match np_len y with
      | Err e => Err e
      | Ok ny =>
          if negb (Nat.eqb nx (ny + 1)) then Err ValueError
          else match y with
               | Arr1 (_ :: _) => Err TypeError
               | Arr2 rows => if rectangular rows then Ok tt else Err ValueError
               | _ => Ok tt
               end
      end
  end.

(** The binning handed to components (bins and component_bins_type), or the exception raised by the
    histogram functions for arrays of the wrong dimension: likelihood.py:152-173. jnp.histogramdd
    takes anything but one-dimensional edges for a number of bins, which an array is not. *)
Definition mesh_binning (bins : list arr) : result binning :=
  match bins with
  | [Arr1 e] => Ok (BMesh1 e)
  | [Arr1 ex; Arr1 ey] => Ok (BMesh2 ex ey)
  | _ => Err TypeError
  end.
Definition irreg_binning (bins : list arr) : result binning :=
  match bins with
  | [Arr1 e] => Ok (BIrreg1 e)
  | [Arr1 ex; Arr2 ry] => Ok (BIrreg2 ex ry)
  | _ => Err ValueError
  end.

Fixpoint all_int (bs : list bin_spec) : option (list Z) :=
  match bs with
  | [] => Some []
  | AInt n :: bs' => match all_int bs' with Some ns => Some (n :: ns) | None => None end
  | AArr _ :: _ => None
  end.

Section Binning.
  Variable out_of_range_row : list (list fl) -> nat -> list fl.

  (** GOFevaluation.utils.get_equiprobable_binning in one and two dimensions, whatever it does; the
      config entries integer and left are handed to it. *)
  Variable gof_1d : list fl -> Z -> result (list fl).
  Variable gof_2d : list (list fl) -> list Z -> result (list fl * list (list fl)).

  (** utils.py:277-312 get_equiprob_bins_1d *)
  Definition equiprob_1d (data : list fl) (n : Z) (c : fl * fl) : result (list fl) :=
    match gof_1d (filter (strictly c) data) n with
    | Err e => Err e
    | Ok bins => Ok (map (fun x => fclip x (fst c) (snd c)) bins)
    end.

  (** utils.py:315-355 get_equiprob_bins_2d *)
  Definition equiprob_2d (data : list (list fl)) (ns : list Z) (cx cy : fl * fl)
    : result (list fl * list (list fl)) :=
    match gof_2d (filter (fun r => strictly cx (obs 0 r) && strictly cy (obs 1 r)) data) ns with
    | Err e => Err e
    | Ok (bx, by_) => Ok (map (fun x => fclip x (fst cx) (snd cx)) bx,
                          map (map (fun y => fclip y (fst cy) (snd cy))) by_)
    end.

  (** likelihood.py:188-237 set_binning: the bins. *)
  Definition set_bins (cfg : lconfig) (dim : nat) (bs : list bin_spec) (data : list (list fl))
    : result binning :=
    if negb (Nat.eqb dim 1 || Nat.eqb dim 2) then Err ValueError
    else if String.eqb (lc_bins_type cfg) "meshgrid" then
      match resolve_explicit_bins cfg dim bs with
      | Err e => Err e
      | Ok bins => mesh_binning bins
      end
    else if String.eqb (lc_bins_type cfg) "equiprob" then
      match all_int bs with
      | None => Err RuntimeError
      | Some ns =>
          if Nat.eqb dim 1 then
            match lc_clip cfg, ns with
            | Some c, n :: _ =>
                match equiprob_1d (map (obs 0) data) n c with Ok e => Ok (BIrreg1 e) | Err e => Err e end
            | None, _ => Err KeyError
            | _, [] => Err IndexError
            end
          else
            match lc_x_clip cfg, lc_y_clip cfg with
            | Some cx, Some cy =>
                match equiprob_2d data ns cx cy with Ok (ex, ry) => Ok (BIrreg2 ex ry) | Err e => Err e end
            | _, _ => Err KeyError
            end
      end
    else if String.eqb (lc_bins_type cfg) "irreg" then
      match to_arrays bs with
      | Err e => Err e
      | Ok bs' =>
          match resolve_explicit_bins cfg dim bs' with
          | Err e => Err e
          | Ok bins =>
              match bins with
              | [x; y] => match validate_irreg x y with Err e => Err e | Ok _ => irreg_binning bins end
              | _ => irreg_binning bins
              end
          end
      end
    else Err ValueError.

  (** likelihood.py:152-173 _make_data_hist: every event of the data has weight one. *)
  Definition make_data_hist (b : binning) (data : list (list fl)) : list fl :=
    let weights := map (fun _ => Fin 1) data in
    match b with
    | BMesh1 e => hist_mesh_1d e (combine (map (obs 0) data) weights)
    | BMesh2 ex ey =>
        List.concat (hist_mesh_2d ex ey (combine (map (fun r => (obs 0 r, obs 1 r)) data) weights))
    | BIrreg1 e => hist_1d e (combine (map (obs 0) data) weights)
    | BIrreg2 ex ry =>
        List.concat (hist_2d out_of_range_row ex ry
          (combine (map (fun r => (obs 0 r, obs 1 r)) data) weights))
    | BUnsupported => []
    end.

  (** A constructed likelihood: data, bins with component_bins_type, data_hist. *)
  Record likelihood := mk_likelihood {
    k_on : list string;
    k_data : list (list fl);
    k_bins : binning;
    k_hist : list fl
  }.

  (** likelihood.py:49-96 Likelihood.__init__; [load] is what load_data gives for the file. *)
  Definition new_likelihood (cfg : lconfig) (load : result table) : result likelihood :=
    match normalise_bins (lc_bins_on cfg) (lc_bins cfg) with
    | Err e => Err e
    | Ok (on, bs) =>
        if negb (Nat.eqb (List.length on) (List.length bs)) then Err RuntimeError else
        match load with
        | Err e => Err e
        | Ok t =>
            match positions on (t_columns t) with
            | Err e => Err e
            | Ok is =>
                match mask_data cfg (List.length on) (map (select is) (t_rows t)) with
                | Err e => Err e
                | Ok data =>
                    match set_bins cfg (List.length on) bs data with
                    | Err e => Err e
                    | Ok b => Ok (mk_likelihood on data b (make_data_hist b data))
                    end
                end
            end
        end
    end.
End Binning.
