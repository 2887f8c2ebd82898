(** Lemmas about the picture of a histogram with irregular bins. *)
From Coq Require Import Reals Lra.
From Verif Require Import Base BaseFacts ModelFloat ModelParameter ModelIrregPlot SpecHist SpecIrregPlot.

(* ------------------------------------------------------------------ *)
(** * Loops *)

Lemma each_ok {A B} (f : nat -> A -> result B) : forall l i,
  (forall k a, nth_error l k = Some a -> exists b, f (i + k) a = Ok b) ->
  exists out, each f i l = Ok out.
Proof.
  induction l as [|x l IH]; intros i H; cbn [each]; [eauto|].
  destruct (H 0 x eq_refl) as (y & Hy). rewrite Nat.add_0_r in Hy. rewrite Hy.
  destruct (IH (S i)) as (out & ->); [|eauto].
  intros k a Hk. replace (S i + k) with (i + S k) by lia. apply H. exact Hk.
Qed.

Lemma each_nth {A B} (f : nat -> A -> result B) : forall l i out, each f i l = Ok out ->
  List.length out = List.length l /\
  forall k a, nth_error l k = Some a -> exists b, nth_error out k = Some b /\ f (i + k) a = Ok b.
Proof.
  induction l as [|x l IH]; intros i out; cbn [each].
  - intros H. injection H as <-. split; [reflexivity|]. intros [|k] a; discriminate.
  - destruct (f i x) as [y|e] eqn:E; [|discriminate].
    destruct (each f (S i) l) as [ys|e] eqn:E2; [|discriminate].
    intros H. injection H as <-. destruct (IH _ _ E2) as [L N]. split; [cbn; congruence|].
    intros [|k] a Hk; cbn in Hk.
    + injection Hk as <-. exists y. rewrite Nat.add_0_r. auto.
    + destruct (N k a Hk) as (b & Hb & Hf). exists b. split; [exact Hb|].
      replace (i + S k) with (S i + k) by lia. exact Hf.
Qed.

Lemma each_err {A B} (f : nat -> A -> result B) e : forall l i,
  (exists k a, nth_error l k = Some a /\ f (i + k) a = Err e /\
     forall k' a', k' < k -> nth_error l k' = Some a' -> exists b, f (i + k') a' = Ok b) ->
  each f i l = Err e.
Proof.
  induction l as [|x l IH]; intros i (k & a & Hk & He & Hb); [destruct k; discriminate|]. cbn [each].
  destruct k as [|k]; cbn in Hk.
  - injection Hk as <-. rewrite Nat.add_0_r in He. rewrite He. reflexivity.
  - destruct (Hb 0 x) as (b & E); [lia|reflexivity|]. rewrite Nat.add_0_r in E. rewrite E.
    rewrite (IH (S i)); [reflexivity|]. exists k, a. split; [exact Hk|].
    split; [replace (S i + k) with (i + S k) by lia; exact He|].
    intros k' a' Hlt Hk'. replace (S i + k') with (i + S k') by lia. apply (Hb (S k') a'); [lia|exact Hk'].
Qed.

Lemma concat_nth {A} m : forall (ll : list (list A)) i j, (forall l, In l ll -> List.length l = m) ->
  j < m -> nth_error (List.concat ll) (i * m + j) =
  match nth_error ll i with Some l => nth_error l j | None => None end.
Proof.
  induction ll as [|l ll IH]; intros i j H Hj; cbn [List.concat].
  - destruct (i * m + j), i; reflexivity.
  - pose proof (H l (or_introl eq_refl)) as Hl. destruct i as [|i]; cbn [nth_error].
    + rewrite nth_error_app1 by lia. f_equal.
    + rewrite nth_error_app2 by lia. replace (S i * m + j - List.length l) with (i * m + j) by lia.
      apply IH; [|exact Hj]. intros l' Hl'. apply H. right. exact Hl'.
Qed.

Lemma concat_length {A} m : forall (ll : list (list A)), (forall l, In l ll -> List.length l = m) ->
  List.length (List.concat ll) = List.length ll * m.
Proof.
  induction ll as [|l ll IH]; intros H; cbn; [reflexivity|].
  rewrite app_length, (H l (or_introl eq_refl)), IH by (intros; apply H; right; assumption). reflexivity.
Qed.

Lemma asarray_ok m rows : (forall r, In r rows -> List.length r = m) -> asarray2 rows = Ok rows.
Proof.
  unfold asarray2. destruct rows as [|r rows]; [reflexivity|]. intros H.
  replace (forallb _ rows) with true; [reflexivity|]. symmetry. apply forallb_forall. intros x Hx.
  apply Nat.eqb_eq. rewrite (H x (or_intror Hx)), (H r (or_introl eq_refl)). reflexivity.
Qed.

Lemma asarray_same rows out : asarray2 rows = Ok out -> out = rows.
Proof.
  unfold asarray2. destruct rows as [|r rows]; [congruence|]. destruct (forallb _ rows); congruence.
Qed.

Lemma item_nth {A} (l : list A) i d : i < List.length l -> item l i = Ok (nth i l d).
Proof. intros H. unfold item. rewrite (nth_error_nth' l d H). reflexivity. Qed.

(* ------------------------------------------------------------------ *)
(** * The cells *)

Definition cell_of (bins_x : list fl) (bins_y hist : list (list fl)) (i j : nat)
  : fl * fl * fl * fl * fl * fl :=
  let r := nth i bins_y [] in
  let w := fsub (edge bins_x (S i)) (edge bins_x i) in
  let h := fsub (edge r (S j)) (edge r j) in
  (edge bins_x i, edge r j, w, h, fmul w h, entry2 hist i j).

Lemma cells_shaped n m bins_x bins_y hist : shaped n m bins_x bins_y hist ->
  exists rows, each (fun i row => each (cell bins_x bins_y i) 0 row) 0 hist = Ok rows /\
    List.length (List.concat rows) = n * m /\
    forall i j, i < n -> j < m ->
      nth_error (List.concat rows) (i * m + j) = Some (cell_of bins_x bins_y hist i j).
Proof.
  intros (Hx & Hy & Hry & Hh & Hrh).
  assert (Hcell : forall i j, i < n -> j < m ->
    cell bins_x bins_y i j (entry2 hist i j) = Ok (cell_of bins_x bins_y hist i j)).
  { intros i j Hi Hj. unfold cell, cell_of, bind.
    assert (Hr : List.length (nth i bins_y []) = m + 1) by (apply Hry, nth_In; lia).
    rewrite (item_nth bins_x i NaN), (item_nth bins_x (i + 1) NaN), (item_nth bins_y i []) by lia.
    rewrite (item_nth _ j NaN), (item_nth _ (j + 1) NaN) by lia.
    unfold edge. rewrite !Nat.add_1_r. reflexivity. }
  assert (Hrow : forall i row, nth_error hist i = Some row ->
    i < n /\ nth i hist [] = row /\ List.length row = m).
  { intros i row Hi. assert (i < List.length hist) by (apply nth_error_Some; congruence).
    split; [lia|]. split; [apply nth_error_nth; exact Hi|]. apply Hrh. eapply nth_error_In. exact Hi. }
  assert (Hent : forall i j row v, nth_error hist i = Some row -> nth_error row j = Some v ->
    j < m /\ entry2 hist i j = v).
  { intros i j row v Hi Hj. destruct (Hrow i row Hi) as (_ & Hn & Hl).
    assert (j < List.length row) by (apply nth_error_Some; congruence).
    split; [lia|]. unfold entry2, entry. rewrite Hn. apply nth_error_nth. exact Hj. }
  destruct (each_ok (fun i row => each (cell bins_x bins_y i) 0 row) hist 0) as (rows & Hrows).
  { intros i row Hi. cbn [Nat.add]. apply each_ok. intros j v Hj. cbn [Nat.add].
    destruct (Hent i j row v Hi Hj) as [Hjm <-]. eexists. apply Hcell; [|exact Hjm]. apply (Hrow i row Hi). }
  exists rows. split; [exact Hrows|]. destruct (each_nth _ _ _ _ Hrows) as [HL HN].
  assert (Hlen : forall l, In l rows -> List.length l = m).
  { intros l Hl. apply In_nth_error in Hl. destruct Hl as (i & Hi).
    destruct (nth_error hist i) as [row|] eqn:E.
    - destruct (HN i row E) as (l' & Hl' & He). rewrite Hi in Hl'. injection Hl' as <-.
      destruct (each_nth _ _ _ _ He) as [HL' _]. rewrite HL'. apply (Hrow i row E).
    - apply nth_error_None in E. assert (i < List.length rows) by (apply nth_error_Some; congruence). lia. }
  split; [rewrite (concat_length m) by exact Hlen; congruence|].
  intros i j Hi Hj. rewrite concat_nth by assumption.
  destruct (nth_error hist i) as [row|] eqn:E; [|apply nth_error_None in E; lia].
  destruct (HN i row E) as (l & -> & He). destruct (each_nth _ _ _ _ He) as [_ HN'].
  destruct (Hrow i row E) as (_ & Hn & Hl).
  destruct (nth_error row j) as [v|] eqn:Ev; [|apply nth_error_None in Ev; lia].
  destruct (HN' j v Ev) as (c & Hc & Hf). rewrite Hc. f_equal. cbn [Nat.add] in Hf.
  destruct (Hent i j row v E Ev) as [_ Hv]. rewrite <- Hv, Hcell in Hf by assumption. congruence.
Qed.

(* ------------------------------------------------------------------ *)
(** * Minimum and maximum *)

Lemma fold_min_finite l : forall x, finite_list (Fin x :: l) ->
  exists y, fold_right fmin (Fin x) l = Fin y /\ In (Fin y) (Fin x :: l) /\
    forall z, In (Fin z) (Fin x :: l) -> (y <= z)%R.
Proof.
  induction l as [|a l IH]; intros x Hf.
  - exists x. split; [reflexivity|]. split; [left; reflexivity|]. intros z [E|[]]. injection E as ->. lra.
  - destruct (Hf a) as (ra & ->); [right; left; reflexivity|].
    destruct (IH x) as (y & E & Hin & Hle). { intros z Hz. apply Hf. destruct Hz; [left|right; right]; assumption. }
    cbn [fold_right]. rewrite E. unfold fmin. cbn [is_nan orb fle].
    destruct (Rle_dec ra y) as [Hr|Hr].
    + exists ra. split; [reflexivity|]. split; [right; left; reflexivity|].
      intros z [Hz|[Hz|Hz]].
      * injection Hz as ->. pose proof (Hle z (or_introl eq_refl)). lra.
      * injection Hz as ->. lra.
      * pose proof (Hle z (or_intror Hz)). lra.
    + exists y. split; [reflexivity|]. split; [destruct Hin; [left|right; right]; assumption|].
      intros z [Hz|[Hz|Hz]]; [apply Hle; left; exact Hz| |apply Hle; right; exact Hz]. injection Hz as ->. lra.
Qed.

Lemma fold_max_finite l : forall x, finite_list (Fin x :: l) ->
  exists y, fold_right fmax (Fin x) l = Fin y /\ In (Fin y) (Fin x :: l) /\
    forall z, In (Fin z) (Fin x :: l) -> (z <= y)%R.
Proof.
  induction l as [|a l IH]; intros x Hf.
  - exists x. split; [reflexivity|]. split; [left; reflexivity|]. intros z [E|[]]. injection E as ->. lra.
  - destruct (Hf a) as (ra & ->); [right; left; reflexivity|].
    destruct (IH x) as (y & E & Hin & Hle). { intros z Hz. apply Hf. destruct Hz; [left|right; right]; assumption. }
    cbn [fold_right]. rewrite E. unfold fmax. cbn [is_nan orb fle].
    destruct (Rle_dec ra y) as [Hr|Hr].
    + exists y. split; [reflexivity|]. split; [destruct Hin; [left|right; right]; assumption|].
      intros z [Hz|[Hz|Hz]]; [apply Hle; left; exact Hz| |apply Hle; right; exact Hz]. injection Hz as ->. lra.
    + exists ra. split; [reflexivity|]. split; [right; left; reflexivity|].
      intros z [Hz|[Hz|Hz]].
      * injection Hz as ->. pose proof (Hle z (or_introl eq_refl)). lra.
      * injection Hz as ->. lra.
      * pose proof (Hle z (or_intror Hz)). lra.
Qed.

Lemma np_min_finite l : l <> [] -> finite_list l ->
  exists y, np_min l = Ok (Fin y) /\ In (Fin y) l /\ forall z, In (Fin z) l -> (y <= z)%R.
Proof.
  destruct l as [|a l]; intros Hn Hf; [contradiction|]. destruct (Hf a (or_introl eq_refl)) as (x & ->).
  destruct (fold_min_finite l x Hf) as (y & E & H). exists y. cbn. rewrite E. auto.
Qed.

Lemma np_max_finite l : l <> [] -> finite_list l ->
  exists y, np_max l = Ok (Fin y) /\ In (Fin y) l /\ forall z, In (Fin z) l -> (z <= y)%R.
Proof.
  destruct l as [|a l]; intros Hn Hf; [contradiction|]. destruct (Hf a (or_introl eq_refl)) as (x & ->).
  destruct (fold_max_finite l x Hf) as (y & E & H). exists y. cbn. rewrite E. auto.
Qed.

Lemma np_min_some l : l <> [] -> exists y, np_min l = Ok y.
Proof. destruct l; [contradiction|]. cbn. eauto. Qed.
Lemma np_max_some l : l <> [] -> exists y, np_max l = Ok y.
Proof. destruct l; [contradiction|]. cbn. eauto. Qed.

(* ------------------------------------------------------------------ *)
(** * The picture *)

Definition value_of (density : bool) (c : fl * fl * fl * fl * fl * fl) : fl :=
  let '(_, _, _, _, area, n) := c in if density then fdiv n area else n.

(** The ends of the colour scale. *)
Definition scale_of (vmin vmax : option fl) (vals : list fl) : result (fl * fl) :=
  do lo <- np_min vals; do hi <- np_max vals;
  Ok (match vmin with Some v => v | None => lo end, match vmax with Some v => v | None => hi end).

Lemma plot_parts density vmin vmax bins_x bins_y hist n m v0 v1 :
  shaped n m bins_x bins_y hist -> 0 < n -> 0 < m ->
  (forall cells, List.length cells = n * m ->
     (forall i j, i < n -> j < m -> nth_error cells (i * m + j) = Some (cell_of bins_x bins_y hist i j)) ->
     scale_of vmin vmax (map (value_of density) cells) = Ok (v0, v1)) ->
  (feq v0 v1 = true \/ flt v1 v0 = false) ->
  exists pic, plot_irreg_histogram_2d density vmin vmax bins_x bins_y hist = Ok pic /\
    List.length (pc_rects pic) = n * m /\ pc_vmin pic = v0 /\ pc_vmax pic = v1 /\
    (exists x0 x1 y0 y1, np_min bins_x = Ok x0 /\ np_max bins_x = Ok x1 /\
       np_min (List.concat bins_y) = Ok y0 /\ np_max (List.concat bins_y) = Ok y1 /\
       pc_xlim pic = (x0, x1) /\ pc_ylim pic = (y0, y1)) /\
    forall i j, i < n -> j < m -> exists r, nth_error (pc_rects pic) (i * m + j) = Some r /\
      let c := cell_of bins_x bins_y hist i j in
      c = (r_x r, r_y r, r_w r, r_h r, fmul (r_w r) (r_h r), entry2 hist i j) /\
      r_value r = value_of density c /\ normalize v0 v1 (r_value r) = Ok (r_color r).
Proof.
  intros Hs Hn Hm Hscale Hord. destruct (cells_shaped _ _ _ _ _ Hs) as (rows & Hrows & Hlen & Hnth).
  pose proof Hs as (Hx & Hy & Hry & Hh & Hrh).
  specialize (Hscale _ Hlen Hnth). unfold plot_irreg_histogram_2d, bind.
  rewrite (asarray_ok m hist Hrh), (asarray_ok (m + 1) bins_y Hry), Hrows.
  fold (value_of density).
  change (fun c : fl * fl * fl * fl * fl * fl =>
    let '(_, _, _, _, area, n0) := c in if density then fdiv n0 area else n0) with (value_of density).
  unfold scale_of, bind in Hscale.
  destruct (np_min (map (value_of density) (List.concat rows))) as [lo|e]; [|discriminate].
  destruct (np_max (map (value_of density) (List.concat rows))) as [hi|e]; [|discriminate].
  injection Hscale as Hv0 Hv1. rewrite Hv0, Hv1.
  assert (Hnorm : forall c, exists q, normalize v0 v1 c = Ok q).
  { intros c. unfold normalize. destruct (feq v0 v1); [eauto|].
    destruct Hord as [Hord|Hord]; [discriminate|]. rewrite Hord. eauto. }
  match goal with |- context [each ?g 0 (List.concat rows)] => set (draw := g) end.
  destruct (each_ok draw (List.concat rows) 0) as (rects & Hrects).
  { intros k c _. destruct c as [[[[[x y] w] h] a] z]. cbn.
    destruct (Hnorm (if density then fdiv z a else z)) as (q & ->). eauto. }
  rewrite Hrects.
  assert (Hnx : bins_x <> []) by (intros ->; cbn in Hx; lia).
  assert (Hny : List.concat bins_y <> []).
  { intros E. apply (f_equal (@List.length fl)) in E. rewrite (concat_length (m + 1)) in E by exact Hry.
    cbn in E. nia. }
  destruct (np_min_some _ Hnx) as (x0 & E1). destruct (np_max_some _ Hnx) as (x1 & E2).
  destruct (np_min_some _ Hny) as (y0 & E3). destruct (np_max_some _ Hny) as (y1 & E4).
  rewrite E1, E2, E3, E4. eexists. split; [reflexivity|]. cbn [pc_rects pc_vmin pc_vmax pc_xlim pc_ylim].
  destruct (each_nth _ _ _ _ Hrects) as [HL HN].
  split; [congruence|]. split; [reflexivity|]. split; [reflexivity|]. split; [eauto 12|].
  intros i j Hi Hj. destruct (HN _ _ (Hnth i j Hi Hj)) as (r & Hr & Hd). exists r. split; [exact Hr|].
  unfold draw, cell_of in Hd. cbn -[normalize fsub fmul fdiv Nat.mul] in Hd.
  match type of Hd with context [normalize v0 v1 ?c] => destruct (normalize v0 v1 c) as [q|e] eqn:Eq; [|discriminate] end.
  injection Hd as <-. cbn [r_x r_y r_w r_h r_value r_color]. split; [reflexivity|]. split; [reflexivity|exact Eq].
Qed.

(* ------------------------------------------------------------------ *)
(** * Every outcome *)

Lemma list_ext {A} : forall l l' : list A, (forall k, nth_error l k = nth_error l' k) -> l = l'.
Proof.
  induction l as [|x l IH]; intros [|y l'] H; [reflexivity|discriminate (H 0)|discriminate (H 0)|].
  pose proof (H 0) as E. cbn in E. injection E as ->. f_equal. apply IH. intros k. exact (H (S k)).
Qed.

Lemma cut_index m k n : 0 < m -> k < n * m -> exists i j, k = i * m + j /\ i < n /\ j < m.
Proof.
  intros Hm Hk. exists (k / m), (k mod m).
  pose proof (Nat.div_mod k m). pose proof (Nat.mod_upper_bound k m).
  split; [nia|]. split; [apply Nat.div_lt_upper_bound; nia|lia].
Qed.

Lemma fin_flt_false_le a b : flt (Fin a) (Fin b) = false -> (b <= a)%R.
Proof. cbn. destruct (Rlt_dec a b); [discriminate|lra]. Qed.

Lemma min_below l : forall x, flt x (fold_right fmin x l) = false.
Proof.
  induction l as [|a l IH]; intros x; cbn [fold_right].
  - destruct x; cbn; try reflexivity. destruct (Rlt_dec r r); [lra|reflexivity].
  - specialize (IH x). revert IH. generalize (fold_right fmin x l). intros b IH.
    destruct a as [a| | |], b as [b| | |], x as [x| | |]; cbn in *; try reflexivity; try discriminate;
    repeat match goal with
      | |- context [Rle_dec ?p ?q] => destruct (Rle_dec p q); cbn in *
      | |- context [Rlt_dec ?p ?q] => destruct (Rlt_dec p q); cbn in *
      | H : context [Rlt_dec ?p ?q] |- _ => destruct (Rlt_dec p q); cbn in *
    end; try reflexivity; try discriminate; lra.
Qed.

Lemma max_above l : forall x, flt (fold_right fmax x l) x = false.
Proof.
  induction l as [|a l IH]; intros x; cbn [fold_right].
  - destruct x; cbn; try reflexivity. destruct (Rlt_dec r r); [lra|reflexivity].
  - specialize (IH x). revert IH. generalize (fold_right fmax x l). intros b IH.
    destruct a as [a| | |], b as [b| | |], x as [x| | |]; cbn in *; try reflexivity; try discriminate;
    repeat match goal with
      | |- context [Rle_dec ?p ?q] => destruct (Rle_dec p q); cbn in *
      | |- context [Rlt_dec ?p ?q] => destruct (Rlt_dec p q); cbn in *
      | H : context [Rlt_dec ?p ?q] |- _ => destruct (Rlt_dec p q); cbn in *
    end; try reflexivity; try discriminate; lra.
Qed.

Lemma is_nan_min_head l : is_nan (fold_right fmin NaN l) = true.
Proof. induction l as [|a l IH]; [reflexivity|]. cbn. destruct (fold_right fmin NaN l); try discriminate. destruct a; reflexivity. Qed.

Lemma min_max_order l lo hi : np_min l = Ok lo -> np_max l = Ok hi -> flt hi lo = false.
Proof.
  destruct l as [|x l]; [discriminate|]. cbn. intros E1 E2. injection E1 as <-. injection E2 as <-.
  pose proof (min_below l x) as H1. pose proof (max_above l x) as H2.
  pose proof (is_nan_min_head l) as H3.
  destruct x as [x| | |];
    [| | | destruct (fold_right fmin NaN l); try discriminate;
           destruct (fold_right fmax NaN l); reflexivity];
    [set (a := fold_right fmin (Fin x) l) in *; set (b := fold_right fmax (Fin x) l) in *
    |set (a := fold_right fmin PInf l) in *; set (b := fold_right fmax PInf l) in *
    |set (a := fold_right fmin NInf l) in *; set (b := fold_right fmax NInf l) in *];
    clearbody a b; destruct a, b; cbn in *; try reflexivity; try discriminate;
    repeat match goal with
      | |- context [Rlt_dec ?p ?q] => destruct (Rlt_dec p q); cbn in *
      | H : context [Rlt_dec ?p ?q] |- _ => destruct (Rlt_dec p q); cbn in *
    end; try reflexivity; try discriminate; lra.
Qed.

(** The values of the bins, column by column. *)
Definition values_of (density : bool) n m bins_x bins_y hist : list fl :=
  flat_map (fun i => map (fun j => value_of density (cell_of bins_x bins_y hist i j)) (seq 0 m)) (seq 0 n).

Lemma values_nth density n m bins_x bins_y hist i j : i < n -> j < m ->
  nth_error (values_of density n m bins_x bins_y hist) (i * m + j)
  = Some (value_of density (cell_of bins_x bins_y hist i j)).
Proof.
  intros Hi Hj. unfold values_of. rewrite flat_map_concat_map, concat_nth.
  - rewrite nth_error_map, (nth_error_nth' _ 0) by (rewrite seq_length; lia). cbn [option_map].
    rewrite nth_error_map, (nth_error_nth' _ 0) by (rewrite seq_length; lia). cbn [option_map].
    rewrite !seq_nth by lia. reflexivity.
  - intros l Hl. apply in_map_iff in Hl. destruct Hl as (k & <- & _). rewrite map_length, seq_length. reflexivity.
  - exact Hj.
Qed.

Lemma values_length density n m bins_x bins_y hist :
  List.length (values_of density n m bins_x bins_y hist) = n * m.
Proof.
  unfold values_of. rewrite flat_map_concat_map, (concat_length m), map_length, seq_length; [reflexivity|].
  intros l Hl. apply in_map_iff in Hl. destruct Hl as (k & <- & _). rewrite map_length, seq_length. reflexivity.
Qed.

Lemma values_In density n m bins_x bins_y hist v : 0 < m ->
  In v (values_of density n m bins_x bins_y hist) <->
  exists i j, i < n /\ j < m /\ v = value_of density (cell_of bins_x bins_y hist i j).
Proof.
  intros Hm. split.
  - intros H. apply In_nth_error in H. destruct H as (k & Hk).
    assert (Hlt : k < n * m) by (rewrite <- (values_length density n m bins_x bins_y hist); apply nth_error_Some; congruence).
    destruct (cut_index m k n Hm Hlt) as (i & j & -> & Hi & Hj).
    rewrite values_nth in Hk by assumption. injection Hk as <-. eauto.
  - intros (i & j & Hi & Hj & ->). eapply nth_error_In. apply values_nth; eassumption.
Qed.

Lemma cells_values density n m bins_x bins_y hist cells : 0 < m -> List.length cells = n * m ->
  (forall i j, i < n -> j < m -> nth_error cells (i * m + j) = Some (cell_of bins_x bins_y hist i j)) ->
  map (value_of density) cells = values_of density n m bins_x bins_y hist.
Proof.
  intros Hm HL HN. apply list_ext. intros k. destruct (Nat.lt_ge_cases k (n * m)) as [Hk|Hk].
  - destruct (cut_index m k n Hm Hk) as (i & j & -> & Hi & Hj).
    rewrite nth_error_map, HN, values_nth by assumption. reflexivity.
  - rewrite (proj2 (nth_error_None _ _)) by (rewrite map_length; lia). symmetry.
    apply nth_error_None. rewrite values_length. exact Hk.
Qed.

Lemma scale_some density vmin vmax n m bins_x bins_y hist : 0 < n -> 0 < m ->
  exists v0 v1, scale_of vmin vmax (values_of density n m bins_x bins_y hist) = Ok (v0, v1).
Proof.
  intros Hn Hm. assert (H : values_of density n m bins_x bins_y hist <> []).
  { intros E. pose proof (values_length density n m bins_x bins_y hist) as L. rewrite E in L. cbn in L. nia. }
  unfold scale_of, bind. destruct (np_min_some _ H) as (lo & ->). destruct (np_max_some _ H) as (hi & ->). eauto.
Qed.

Lemma plot_fails density vmin vmax bins_x bins_y hist n m v0 v1 :
  shaped n m bins_x bins_y hist -> 0 < n -> 0 < m ->
  scale_of vmin vmax (values_of density n m bins_x bins_y hist) = Ok (v0, v1) ->
  feq v0 v1 = false -> flt v1 v0 = true ->
  plot_irreg_histogram_2d density vmin vmax bins_x bins_y hist = Err ValueError.
Proof.
  intros Hs Hn Hm Hscale He Hl. destruct (cells_shaped _ _ _ _ _ Hs) as (rows & Hrows & Hlen & Hnth).
  pose proof Hs as (Hx & Hy & Hry & Hh & Hrh). unfold plot_irreg_histogram_2d, bind.
  rewrite (asarray_ok m hist Hrh), (asarray_ok (m + 1) bins_y Hry), Hrows.
  change (fun c : fl * fl * fl * fl * fl * fl =>
    let '(_, _, _, _, area, n0) := c in if density then fdiv n0 area else n0) with (value_of density).
  rewrite (cells_values density n m bins_x bins_y hist _ Hm Hlen Hnth).
  unfold scale_of, bind in Hscale.
  destruct (np_min (values_of density n m bins_x bins_y hist)) as [lo|e]; [|discriminate].
  destruct (np_max (values_of density n m bins_x bins_y hist)) as [hi|e]; [|discriminate].
  injection Hscale as Hv0 Hv1. rewrite Hv0, Hv1.
  match goal with |- context [each ?g 0 (List.concat rows)] => set (draw := g) end.
  rewrite (each_err draw ValueError); [reflexivity|].
  exists 0. pose proof (Hnth 0 0 Hn Hm) as H0. eexists. split; [exact H0|]. split; [|intros; lia].
  unfold draw, cell_of. cbn -[normalize fsub fmul fdiv]. unfold normalize. rewrite He, Hl. reflexivity.
Qed.

Lemma plot_done density vmin vmax bins_x bins_y hist n m :
  shaped n m bins_x bins_y hist -> 0 < n -> 0 < m ->
  exists v0 v1, scale_of vmin vmax (values_of density n m bins_x bins_y hist) = Ok (v0, v1) /\
  ((feq v0 v1 = false /\ flt v1 v0 = true /\
    plot_irreg_histogram_2d density vmin vmax bins_x bins_y hist = Err ValueError) \/
   ((feq v0 v1 = true \/ flt v1 v0 = false) /\
   exists pic, plot_irreg_histogram_2d density vmin vmax bins_x bins_y hist = Ok pic /\
    List.length (pc_rects pic) = n * m /\ pc_vmin pic = v0 /\ pc_vmax pic = v1 /\
    (exists x0 x1 y0 y1, np_min bins_x = Ok x0 /\ np_max bins_x = Ok x1 /\
       np_min (List.concat bins_y) = Ok y0 /\ np_max (List.concat bins_y) = Ok y1 /\
       pc_xlim pic = (x0, x1) /\ pc_ylim pic = (y0, y1)) /\
    forall i j, i < n -> j < m -> exists r, nth_error (pc_rects pic) (i * m + j) = Some r /\
      let c := cell_of bins_x bins_y hist i j in
      c = (r_x r, r_y r, r_w r, r_h r, fmul (r_w r) (r_h r), entry2 hist i j) /\
      r_value r = value_of density c /\ normalize v0 v1 (r_value r) = Ok (r_color r))).
Proof.
  intros Hs Hn Hm. destruct (scale_some density vmin vmax n m bins_x bins_y hist Hn Hm) as (v0 & v1 & E).
  exists v0, v1. split; [exact E|].
  assert (G : (feq v0 v1 = true \/ flt v1 v0 = false) \/ (feq v0 v1 = false /\ flt v1 v0 = true)).
  { destruct (feq v0 v1), (flt v1 v0); auto. }
  destruct G as [G|[G1 G2]].
  - right. split; [exact G|]. apply plot_parts; try assumption. intros cells HL HN.
    rewrite (cells_values density n m bins_x bins_y hist) by assumption. exact E.
  - left. split; [exact G1|]. split; [exact G2|]. eapply plot_fails; eassumption.
Qed.
