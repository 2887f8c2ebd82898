(** Model of plot_irreg_histogram_2d (appletree/utils.py:359-435). No proofs in this file. *)
From Coq Require Import Reals.
From Verif Require Import Base ModelFloat ModelParameter.

(** A rectangle of the picture (utils.py:413-421): lower left corner, width, height, the number its
    colour stands for (line 412) and that number on the scale of the colour map (line 417). *)
Record rectangle := mk_rect {
  r_x : fl; r_y : fl; r_w : fl; r_h : fl; r_value : fl; r_color : fl
}.

(** What is drawn: the rectangles in order, the ends of the colour scale, the limits of the axes. *)
Record picture := mk_picture {
  pc_rects : list rectangle;
  pc_vmin : fl; pc_vmax : fl;
  pc_xlim : fl * fl; pc_ylim : fl * fl
}.

(** [for i, x in enumerate(l)] collecting results; the first exception ends the loop. *)
Fixpoint each {A B} (f : nat -> A -> result B) (i : nat) (l : list A) : result (list B) :=
  match l with
  | [] => Ok []
  | x :: l' =>
      match f i x with
      | Err e => Err e
      | Ok y => match each f (S i) l' with Ok ys => Ok (y :: ys) | Err e => Err e end
      end
  end.

(** Indexing an array; negative indices do not occur. *)
Definition item {A} (l : list A) (i : nat) : result A :=
  match nth_error l i with Some x => Ok x | None => Err IndexError end.

(** np.asarray of a list of rows: rows of different lengths are a ValueError. *)
Definition asarray2 (rows : list (list fl)) : result (list (list fl)) :=
  match rows with
  | [] => Ok []
  | r :: rows' =>
      if forallb (fun r' => Nat.eqb (List.length r') (List.length r)) rows' then Ok rows
      else Err ValueError
  end.

(** np.min, np.max: of nothing a ValueError; NaN propagates. *)
Definition np_min (l : list fl) : result fl :=
  match l with [] => Err ValueError | x :: l' => Ok (fold_right fmin x l') end.
Definition np_max (l : list fl) : result fl :=
  match l with [] => Err ValueError | x :: l' => Ok (fold_right fmax x l') end.

(** matplotlib's Normalize(vmin, vmax, clip=False) called with a number. *)
Definition normalize (vmin vmax c : fl) : result fl :=
  if feq vmin vmax then Ok (Fin 0)
  else if flt vmax vmin then Err ValueError
  else Ok (fdiv (fsub c vmin) (fsub vmax vmin)).

(** utils.py:384-397: corner, width, height, area and content of the bin (i, j). *)
Definition cell (bins_x : list fl) (bins_y : list (list fl)) (i j : nat) (n : fl)
  : result (fl * fl * fl * fl * fl * fl) :=
  do x_lower <- item bins_x i;
  do x_upper <- item bins_x (i + 1);
  do row <- item bins_y i;
  do y_lower <- item row j;
  do y_upper <- item row (j + 1);
  let w := fsub x_upper x_lower in
  let h := fsub y_upper y_lower in
  Ok (x_lower, y_lower, w, h, fmul w h, n).

(** utils.py:359-435. [vmin], [vmax] are the keyword arguments; the default is computed in any case
    (lines 401-402, 406-407). The colour map itself and the edges of the rectangles are left out. *)
Definition plot_irreg_histogram_2d (density : bool) (vmin vmax : option fl) (bins_x : list fl)
    (bins_y hist : list (list fl)) : result picture :=
  do hist' <- asarray2 hist;
  do bins_y' <- asarray2 bins_y;
  do rows <- each (fun i row => each (cell bins_x bins_y' i) 0 row) 0 hist';
  let cells := List.concat rows in
  let value := fun c : fl * fl * fl * fl * fl * fl =>
    let '(_, _, _, _, area, n) := c in if density then fdiv n area else n in
  do lo <- np_min (map value cells);
  do hi <- np_max (map value cells);
  let v0 := match vmin with Some v => v | None => lo end in
  let v1 := match vmax with Some v => v | None => hi end in
  do rects <- each (fun _ c =>
      let '(x, y, w, h, _, _) := c in
      do q <- normalize v0 v1 (value c);
      Ok (mk_rect x y w h (value c) q)) 0 cells;
  do x0 <- np_min bins_x;
  do x1 <- np_max bins_x;
  do y0 <- np_min (List.concat bins_y');
  do y1 <- np_max (List.concat bins_y');
  Ok (mk_picture rects v0 v1 (x0, x1) (y0, y1)).
