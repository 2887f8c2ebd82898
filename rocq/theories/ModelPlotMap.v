(** Model of the plotting of maps (appletree/plot.py, lines 454 to 1014): which maps are collected,
    how axes are collapsed, what is drawn where, and which files are written. No proofs in this
    file. Numbers are real numbers. *)
From Coq Require Import Reals Ascii.
From Verif Require Import Base ModelShare ModelConfig ModelComponent ModelInterp.
Local Open Scope string_scope.
Local Open Scope list_scope.

(* ------------------------------------------------------------------ *)
(** * Bins of an axis *)

(** [10**x] *)
Definition pow10 (x : R) : R := Rpower 10 x.

(** [(c[:-1] + c[1:]) / 2] *)
Fixpoint midpoints (c : list R) : list R :=
  match c with
  | x :: ((y :: _) as c') => ((x + y) / 2)%R :: midpoints c'
  | _ => []
  end.

(** plot.py:517-528 and 532-543: edges for equally spaced centers; [centers[0]] of no center is an
    IndexError. *)
Definition edges_of (c : list R) : result (list R) :=
  match c with
  | [] => Err IndexError
  | [x] => Ok [(x - 1 / 2)%R; (x + 1 / 2)%R]
  | x :: y :: _ =>
      let half := ((y - x) / 2)%R in
      Ok ((x - half)%R :: midpoints c ++ [(last c 0 + half)%R])
  end.

(** plot.py:496-544 _regbin_edges_centers *)
Definition edges_centers (lower upper : R) (n : nat) (is_log : bool) : result (list R * list R) :=
  let c := if is_log then linspace (mk_axis (log10 lower) (log10 upper) n)
           else linspace (mk_axis lower upper n) in
  match edges_of c with
  | Err e => Err e
  | Ok e => Ok (if is_log then (map pow10 e, map pow10 c) else (e, c))
  end.

(* ------------------------------------------------------------------ *)
(** * Collapsing axes *)

(** An array: its shape and its entries (the entries outside of the shape are never used). *)
Record arr := mk_arr { a_shape : list nat; a_at : list nat -> R }.

(** A map on a regular grid with the description of its axes. *)
Record grid := mk_grid {
  g_data : arr;
  g_names : list string;
  g_lowers : list R;
  g_uppers : list R;
  g_logs : list bool
}.

(** [list.pop(i)] *)
Fixpoint remove_at {A} (i : nat) (l : list A) : list A :=
  match l, i with
  | [], _ => []
  | _ :: l', O => l'
  | x :: l', S i' => x :: remove_at i' l'
  end.

Fixpoint insert_at {A} (i : nat) (x : A) (l : list A) : list A :=
  match i, l with
  | O, _ => x :: l
  | S i', y :: l' => y :: insert_at i' x l'
  | S _, [] => [x]
  end.

(** [np.mean] of some numbers *)
Definition mean (l : list R) : R := (sumR l / INR (List.length l))%R.

(** plot.py:601 [(centers >= lo) & (centers <= hi)] *)
Definition in_range (lo hi c : R) : bool :=
  if Rle_dec lo c then if Rle_dec c hi then true else false else false.

(** plot.py:599-611: the bins that are averaged; all of them if none is in the range. *)
Definition bins_in (range : option (R * R)) (centers : list R) : list nat :=
  let all := seq 0 (List.length centers) in
  match range with
  | None => all
  | Some (lo, hi) =>
      match filter (fun i => in_range lo hi (nth i centers 0%R)) all with
      | [] => all
      | sel => sel
      end
  end.

(** plot.py:590-617, one axis. *)
Definition collapse_axis (k : nat) (range : option (R * R)) (g : grid) : result grid :=
  match nth_error (a_shape (g_data g)) k, nth_error (g_lowers g) k, nth_error (g_uppers g) k,
        nth_error (g_logs g) k with
  | Some n, Some lo, Some hi, Some is_log =>
      match edges_centers lo hi n is_log with
      | Err e => Err e
      | Ok (_, centers) =>
          let sel := bins_in range centers in
          Ok (mk_grid
                (mk_arr (remove_at k (a_shape (g_data g)))
                        (fun idx => mean (map (fun i => a_at (g_data g) (insert_at k i idx)) sel)))
                (remove_at k (g_names g)) (remove_at k (g_lowers g)) (remove_at k (g_uppers g))
                (remove_at k (g_logs g)))
      end
  | _, _, _, _ => Err IndexError
  end.

(** [list.index] *)
Fixpoint index_of (x : string) (l : list string) : option nat :=
  match l with
  | [] => None
  | y :: l' => if String.eqb x y then Some 0
               else match index_of x l' with Some i => Some (S i) | None => None end
  end.

(** plot.py:578-582 *)
Definition to_collapse (names : list string) (collapse : dict (option (R * R)))
  : list (nat * option (R * R)) :=
  flat_map (fun nr => match index_of (fst nr) names with Some i => [(i, snd nr)] | None => [] end)
           collapse.

(** plot.py:584 [sort(key=lambda x: x[0], reverse=True)] (stable) *)
Fixpoint insert_desc (a : nat * option (R * R)) (l : list (nat * option (R * R)))
  : list (nat * option (R * R)) :=
  match l with
  | [] => [a]
  | b :: l' => if Nat.leb (fst b) (fst a) then a :: l else b :: insert_desc a l'
  end.
Definition sort_desc (l : list (nat * option (R * R))) := fold_right insert_desc [] l.

Fixpoint collapse_loop (todo : list (nat * option (R * R))) (g : grid) : result grid :=
  match todo with
  | [] => Ok g
  | (k, range) :: todo' =>
      match collapse_axis k range g with
      | Err e => Err e
      | Ok g' => collapse_loop todo' g'
      end
  end.

(** plot.py:547-619 _collapse_regbin_map with one flag per axis. *)
Definition collapse_map (collapse : option (dict (option (R * R)))) (g : grid) : result grid :=
  match collapse with
  | None => Ok g
  | Some c => collapse_loop (sort_desc (to_collapse (g_names g) c)) g
  end.

(* ------------------------------------------------------------------ *)
(** * What is drawn *)

(** What a figure shows: a curve, bars (left end, right end, height), a curve with a band
    (position, median, lower, upper), or an image with its extent along both axes, its numbers of
    columns and rows, its pixels and its label. Simplified: a band of points shows its three curves
    only. *)
Inductive figure :=
| FCurve (name : string) (points : list (R * R))
| FBars (name coord : string) (bars : list (R * R * R))
| FThree (name : string) (median lower upper : list (R * R))
| FBand (name coord : string) (points : list (R * R * R * R))
| FImage (label xlabel ylabel : string) (x0 x1 y0 y1 : R) (nx ny : nat) (pixel : nat -> nat -> R).

(** plot.py:643-650: [ax.bar] with widths [edges[1:] - edges[:-1]] around the centers. *)
Fixpoint bars (edges centers heights : list R) : list (R * R * R) :=
  match edges, centers, heights with
  | e0 :: ((e1 :: _) as es), c :: cs, h :: hs =>
      ((c - (e1 - e0) / 2)%R, (c + (e1 - e0) / 2)%R, h) :: bars es cs hs
  | _, _, _ => []
  end.

(** The entries of a one-dimensional array. *)
Definition entries1 (a : arr) : list R :=
  map (fun i => a_at a [i]) (seq 0 (nth 0 (a_shape a) 0)).

(** plot.py:633-655 _plot_map_1d_regbin *)
Definition plot_bars (name coord : string) (a : arr) (lower upper : R) (is_log : bool) : result figure :=
  match edges_centers lower upper (nth 0 (a_shape a) 0) is_log with
  | Err e => Err e
  | Ok (edges, centers) => Ok (FBars name coord (bars edges centers (entries1 a)))
  end.

(** plot.py:694-699 *)
Definition extent1 (edges : list R) (is_log : bool) : R * R :=
  let a := hd 0%R edges in let b := last edges 0%R in
  if is_log then (log10 a, log10 b) else (a, b).

(** plot.py:700-701 *)
Definition axis_label (name : string) (is_log : bool) : string :=
  if is_log then "log10(" ++ name ++ ")" else name.

(** plot.py:658-711 _plot_map_2d_regbin: [imshow(map_data.T, origin="lower", extent=...)]; the column
    is the index along the first axis. *)
Definition plot_image (label : string) (names : list string) (a : arr) (lowers uppers : list R)
    (logs : list bool) : result figure :=
  match a_shape a, names, lowers, uppers, logs with
  | [n0; n1], x :: y :: _, lo0 :: lo1 :: _, hi0 :: hi1 :: _, l0 :: l1 :: _ =>
      match edges_centers lo0 hi0 n0 l0 with
      | Err e => Err e
      | Ok (e0, _) =>
          match edges_centers lo1 hi1 n1 l1 with
          | Err e => Err e
          | Ok (e1, _) =>
              let '(x0, x1) := extent1 e0 l0 in
              let '(y0, y1) := extent1 e1 l1 in
              Ok (FImage label (axis_label x l0) (axis_label y l1) x0 x1 y0 y1 n0 n1
                    (fun i j => a_at a [i; j]))
          end
      end
  | _, _, _, _, _ => Err ValueError
  end.

(** plot.py:739-761 _plot_sigma_map_1d_regbin *)
Fixpoint zip4 (cs ms ls us : list R) : list (R * R * R * R) :=
  match cs, ms, ls, us with
  | c :: cs', m :: ms', l :: ls', u :: us' => (c, m, l, u) :: zip4 cs' ms' ls' us'
  | _, _, _, _ => []
  end.
Definition plot_band (name coord : string) (m l u : arr) (lower upper : R) (is_log : bool) : result figure :=
  match edges_centers lower upper (nth 0 (a_shape m) 0) is_log with
  | Err e => Err e
  | Ok (_, centers) =>
      if Nat.eqb (nth 0 (a_shape l) 0) (nth 0 (a_shape m) 0)
         && Nat.eqb (nth 0 (a_shape u) 0) (nth 0 (a_shape m) 0)
      then Ok (FBand name coord (zip4 centers (entries1 m) (entries1 l) (entries1 u)))
      else Err ValueError
  end.

(** What a built map holds (config.py:249-252, 300-304): points, or a grid. *)
Inductive content :=
| MPoints (refs vals : list R)
| MGrid (g : grid).

(** plot.py:885-912: a figure, or none (with a warning) unless one or two axes are left. *)
Definition plot_regular (name : string) (m : content) (collapse : option (dict (option (R * R))))
  : result (list figure) :=
  match m with
  | MPoints refs vals => Ok [FCurve name (combine refs vals)]
  | MGrid g0 =>
      match collapse_map collapse g0 with
      | Err e => Err e
      | Ok g =>
          match g_names g, g_lowers g, g_uppers g, g_logs g with
          | x :: _, [lo], hi :: _, l :: _ =>
              match plot_bars name x (g_data g) lo hi l with Ok f => Ok [f] | Err e => Err e end
          | _, [_; _], _, _ =>
              match plot_image name (g_names g) (g_data g) (g_lowers g) (g_uppers g) (g_logs g) with
              | Ok f => Ok [f]
              | Err e => Err e
              end
          | _, [_], _, _ => Err IndexError
          | _, _, _, _ => Ok []
          end
      end
  end.

(** plot.py:936-967: the lower and upper maps are collapsed with the axes of the median map. *)
Definition with_axes (g : grid) (m : content) : result grid :=
  match m with
  | MGrid g' => Ok (mk_grid (g_data g') (g_names g) (g_lowers g) (g_uppers g) (g_logs g))
  | MPoints _ vals =>
      Ok (mk_grid (mk_arr [List.length vals] (fun idx => nth (hd 0 idx) vals 0%R))
            (g_names g) (g_lowers g) (g_uppers g) (g_logs g))
  end.

(** plot.py:917-1014 _plot_sigma_map. Simplified: a median given by points with a lower or upper map
    that is a grid is an AttributeError. *)
Definition plot_sigma (name : string) (median lower upper : content)
    (collapse : option (dict (option (R * R)))) : result (list figure) :=
  match median with
  | MPoints rm vm =>
      match lower, upper with
      | MPoints rl vl, MPoints ru vu =>
          Ok [FThree name (combine rm vm) (combine rl vl) (combine ru vu)]
      | _, _ => Err AttributeError
      end
  | MGrid gm =>
      match collapse_map collapse gm, with_axes gm lower, with_axes gm upper with
      | Ok g, Ok gl0, Ok gu0 =>
          match collapse_map collapse gl0, collapse_map collapse gu0 with
          | Ok gl, Ok gu =>
              match g_names g, g_lowers g, g_uppers g, g_logs g with
              | x :: _, [lo], hi :: _, l :: _ =>
                  match plot_band name x (g_data g) (g_data gl) (g_data gu) lo hi l with
                  | Ok f => Ok [f]
                  | Err e => Err e
                  end
              | _, [_; _], _, _ =>
                  let image label a :=
                    plot_image (name ++ " (" ++ label ++ ")") (g_names g) a (g_lowers g) (g_uppers g) (g_logs g) in
                  match image "lower" (g_data gl), image "median" (g_data g), image "upper" (g_data gu) with
                  | Ok f1, Ok f2, Ok f3 => Ok [f1; f2; f3]
                  | Err e, _, _ | _, Err e, _ | _, _, Err e => Err e
                  end
              | _, [_], _, _ => Err IndexError
              | _, _, _, _ => Ok []
              end
          | Err e, _ | _, Err e => Err e
          end
      | Err e, _, _ | _, Err e, _ | _, _, Err e => Err e
      end
  end.

(* ------------------------------------------------------------------ *)
(** * Which maps *)

(** plot.py:472-487: the key under which a built config of a class is collected: the paths of its
    files; [None] for a config that is not a map. *)
Definition map_key (b : built) : option (list value) :=
  match c_kind (b_config b) with
  | KMap | KSigmaMap => Some (b_values b)
  | _ => None
  end.

Definition is_map (cf : config) : bool :=
  match c_kind cf with KMap | KSigmaMap => true | _ => false end.

(** Keys are compared as (tuples of) strings. *)
Fixpoint keys_eqb (a b : list value) : bool :=
  match a, b with
  | [], [] => true
  | x :: a', y :: b' => value_eqb x y && keys_eqb a' b'
  | _, _ => false
  end.

(** plot.py:488-491. The config kept is the first one; the names are a set. *)
Fixpoint collect1 (key : list value) (b : built) (out : list (list value * (built * list string)))
  : list (list value * (built * list string)) :=
  match out with
  | [] => [(key, (b, [c_name (b_config b)]))]
  | (key', (b', names)) :: out' =>
      if keys_eqb key key' then (key', (b', add1 (c_name (b_config b)) names)) :: out'
      else (key', (b', names)) :: collect1 key b out'
  end.

(** plot.py:476-491 the configs of one class. [bs] is what the class-level config objects hold: one
    that was never built has no attribute file_path. *)
Fixpoint collect_class (cfs : list config) (bs : list built)
    (out : list (list value * (built * list string)))
  : result (list (list value * (built * list string))) :=
  match cfs with
  | [] => Ok out
  | cf :: cfs' =>
      match bs with
      | b :: bs' =>
          match map_key b with
          | Some key => collect_class cfs' bs' (collect1 key b out)
          | None => collect_class cfs' bs' out
          end
      | [] => if is_map cf then Err AttributeError else collect_class cfs' [] out
      end
  end.

(** plot.py:471-491 the worksheet of one component. *)
Fixpoint collect_works (w : world) (reg : registry) (ws : list work)
    (out : list (list value * (built * list string)))
  : result (list (list value * (built * list string))) :=
  match ws with
  | [] => Ok out
  | wk :: ws' =>
      match w_provides wk with
      | [] => Err IndexError
      | d :: _ =>
          match get d reg with
          | None => Err KeyError
          | Some p =>
              match collect_class (map snd (p_configs p))
                      (match get (p_name p) (w_class w) with Some bs => bs | None => [] end) out with
              | Err e => Err e
              | Ok out' => collect_works w reg ws' out'
              end
          end
      end
  end.

(** plot.py:454-493 _collect_maps: the simulated components of all likelihoods, in order ([None] is a
    component of another kind). *)
Fixpoint collect_maps (w : world) (ks : list (option component))
    (out : list (list value * (built * list string)))
  : result (list (list value * (built * list string))) :=
  match ks with
  | [] => Ok out
  | None :: ks' => collect_maps w ks' out
  | Some k :: ks' =>
      match collect_works w (k_registry k) (k_worksheet k) out with
      | Err e => Err e
      | Ok out' => collect_maps w ks' out'
      end
  end.

(* ------------------------------------------------------------------ *)
(** * Files *)

(** plot.py:764-770 _lookup_collapse; the order in which a set of names is gone through is not
    determined, [names] is any such order. *)
Fixpoint lookup_collapse {A} (collapse : dict A) (names : list string) : option A :=
  match names with
  | [] => None
  | n :: names' => match get n collapse with Some c => Some c | None => lookup_collapse collapse names' end
  end.

(** [os.path.basename] on POSIX: what follows the last slash. *)
Fixpoint basename_acc (acc s : string) : string :=
  match s with
  | EmptyString => acc
  | String c s' =>
      if Ascii.eqb c "/"%char then basename_acc "" s' else basename_acc (acc ++ String c EmptyString) s'
  end.
Definition basename (s : string) : string := basename_acc "" s.

(** The part before the last dot, if there is one. *)
Fixpoint before_last_dot (s : string) : option string :=
  match s with
  | EmptyString => None
  | String c s' =>
      match before_last_dot s' with
      | Some r => Some (String c r)
      | None => if Ascii.eqb c "."%char then Some EmptyString else None
      end
  end.
Fixpoint only_dots (s : string) : bool :=
  match s with
  | EmptyString => true
  | String c s' => Ascii.eqb c "."%char && only_dots s'
  end.
(** [os.path.splitext(s)[0]] of a name without slashes: dots at the start do not count. *)
Definition stem_of (s : string) : string :=
  match before_last_dot s with
  | Some r => if only_dots r then s else r
  | None => s
  end.

(** plot.py:788-796 _save_figure: the files written, by name. The path is that of the map, or of the
    median map. *)
Definition save_figure (fig : figure) (key : list value) (save_path : string) (fmt : list string)
    (disk : dict figure) : dict figure :=
  match key with
  | VStr path :: _ =>
      fold_left (fun d f => set (path_join save_path (stem_of (basename path) ++ "." ++ f)%string) fig d)
                fmt disk
  | _ => disk
  end.

Section PlotMaps.
  (** What the files contain. *)
  Variable read : value -> content.

  (** plot.py:773-785 _plot_config *)
  Definition plot_config (b : built) (collapse : option (dict (option (R * R)))) : result (list figure) :=
    match c_kind (b_config b), b_values b with
    | KSigmaMap, [m; l; u] => plot_sigma (c_name (b_config b)) (read m) (read l) (read u) collapse
    | KMap, [m] => plot_regular (c_name (b_config b)) (read m) collapse
    | _, _ => Ok []
    end.

  (** plot.py:843-853 the loop of plot_maps. *)
  Fixpoint plot_collected (collapse : dict (dict (option (R * R)))) (save : bool) (save_path : string)
      (fmt : list string) (collected : list (list value * (built * list string)))
      (figures : list figure) (disk : dict figure) : result (list figure * dict figure) :=
    match collected with
    | [] => Ok (figures, disk)
    | (key, (b, names)) :: rest =>
        match plot_config b (lookup_collapse collapse names) with
        | Err e => Err e
        | Ok fs =>
            plot_collected collapse save save_path fmt rest (figures ++ fs)
              (if save then fold_left (fun d fig => save_figure fig key save_path fmt d) fs disk else disk)
        end
    end.

  (** plot.py:799-853 plot_maps; [collapse = None] and an empty dictionary are the same here. *)
  Definition plot_maps (w : world) (ks : list (option component)) (collapse : dict (dict (option (R * R))))
      (save : bool) (save_path : string) (fmt : list string) : result (list figure * dict figure) :=
    match collect_maps w ks [] with
    | Err e => Err e
    | Ok collected => plot_collected collapse save save_path fmt collected [] []
    end.
End PlotMaps.
