(** Lemmas about weighted data. *)
From Coq Require Import Reals Lra Permutation.
From Verif Require Import Base BaseFacts ModelFloat ModelHist ModelLikelihood
  SpecHist SpecLikelihood SpecWeighted ProofFloat ProofHist ProofLikelihood ProofLikelihood2.
Local Open Scope list_scope.

(* ------------------------------------------------------------------ *)
(** * The range of the edges *)

Lemma fmin_lt a b x : a <> NaN -> b <> NaN -> flt (fmin a b) x = flt a x || flt b x.
Proof.
  intros Ha Hb. unfold fmin. destruct a as [a| | |], b as [b| | |]; try congruence; simpl;
    destruct x as [x| | |]; simpl; try reflexivity;
    repeat (match goal with
            | |- context [Rle_dec ?u ?v] => destruct (Rle_dec u v)
            | |- context [Rlt_dec ?u ?v] => destruct (Rlt_dec u v)
            end; simpl; try reflexivity; try lra).
Qed.

Lemma fmax_lt a b x : a <> NaN -> b <> NaN -> flt x (fmax a b) = flt x a || flt x b.
Proof.
  intros Ha Hb. unfold fmax. destruct a as [a| | |], b as [b| | |]; try congruence; simpl;
    destruct x as [x| | |]; simpl; try reflexivity;
    repeat (match goal with
            | |- context [Rle_dec ?u ?v] => destruct (Rle_dec u v)
            | |- context [Rlt_dec ?u ?v] => destruct (Rlt_dec u v)
            end; simpl; try reflexivity; try lra).
Qed.

Lemma fmin_not_nan a b : a <> NaN -> b <> NaN -> fmin a b <> NaN.
Proof.
  intros Ha Hb. unfold fmin. destruct a, b; try congruence; simpl;
    try (match goal with |- context [Rle_dec ?u ?v] => destruct (Rle_dec u v) end); discriminate.
Qed.
Lemma fmax_not_nan a b : a <> NaN -> b <> NaN -> fmax a b <> NaN.
Proof.
  intros Ha Hb. unfold fmax. destruct a, b; try congruence; simpl;
    try (match goal with |- context [Rle_dec ?u ?v] => destruct (Rle_dec u v) end); discriminate.
Qed.

Lemma list_min_not_nan l : (forall e, In e l -> e <> NaN) -> list_min l <> NaN.
Proof.
  induction l as [|e l IH]; intros H; [discriminate|]. cbn. apply fmin_not_nan.
  - apply H. left; reflexivity.
  - apply IH. intros x Hx. apply H. right; exact Hx.
Qed.
Lemma list_max_not_nan l : (forall e, In e l -> e <> NaN) -> list_max l <> NaN.
Proof.
  induction l as [|e l IH]; intros H; [discriminate|]. cbn. apply fmax_not_nan.
  - apply H. left; reflexivity.
  - apply IH. intros x Hx. apply H. right; exact Hx.
Qed.

Lemma list_min_lt l x : (forall e, In e l -> e <> NaN) -> flt (list_min l) x = existsb (fun e => flt e x) l.
Proof.
  induction l as [|e l IH]; intros H.
  - cbn. destruct x; reflexivity.
  - change (list_min (e :: l)) with (fmin e (list_min l)). cbn [existsb].
    rewrite fmin_lt, IH; [reflexivity|intros y Hy; apply H; right; exact Hy|apply H; left; reflexivity|].
    apply list_min_not_nan. intros y Hy. apply H. right; exact Hy.
Qed.
Lemma list_max_lt l x : (forall e, In e l -> e <> NaN) -> flt x (list_max l) = existsb (fun e => flt x e) l.
Proof.
  induction l as [|e l IH]; intros H.
  - cbn. destruct x; reflexivity.
  - change (list_max (e :: l)) with (fmax e (list_max l)). cbn [existsb].
    rewrite fmax_lt, IH; [reflexivity|intros y Hy; apply H; right; exact Hy|apply H; left; reflexivity|].
    apply list_max_not_nan. intros y Hy. apply H. right; exact Hy.
Qed.

Lemma between_dec l x : (forall e, In e l -> e <> NaN) ->
  flt (list_min l) x && flt x (list_max l) = true <-> between l x.
Proof.
  intros H. rewrite list_min_lt, list_max_lt, andb_true_iff, !existsb_exists by exact H.
  unfold between. tauto.
Qed.

Lemma sorted_all e : sorted e -> forall x, In x e -> x <> NaN.
Proof.
  induction e as [|a e IH]; intros Hs x Hx; [destruct Hx|]. destruct Hs as [Ha [_ Hs]].
  destruct Hx as [<-|Hx]; [exact Ha|]. exact (IH Hs x Hx).
Qed.

Lemma concat_all ry : (forall r, In r ry -> sorted r) -> forall x, In x (List.concat ry) -> x <> NaN.
Proof.
  intros H x Hx. apply in_concat in Hx. destruct Hx as (r & Hr & Hx). exact (sorted_all r (H r Hr) x Hx).
Qed.

Lemma inside_roi b r : binning_ok b -> (inside b r = true <-> in_roi b r).
Proof.
  intros Hb. destruct b as [e|ex ry|e|ex ey|]; [| | | |destruct Hb]; unfold inside; cbn [ndim seq forallb bin_values in_roi].
  - rewrite andb_true_r. apply between_dec, sorted_all, Hb.
  - rewrite andb_true_r, andb_true_iff. destruct Hb as (Hx & _ & Hr).
    rewrite (between_dec ex _ (sorted_all ex (proj1 Hx))).
    rewrite (between_dec (List.concat ry) _ (concat_all ry (fun r H => proj1 (proj1 (Hr r H))))). tauto.
  - rewrite andb_true_r. apply between_dec, sorted_all, Hb.
  - rewrite andb_true_r, andb_true_iff. destruct Hb as (Hx & Hy).
    rewrite (between_dec ex _ (sorted_all ex (proj1 Hx))).
    rewrite (between_dec ey _ (sorted_all ey (proj1 Hy))). tauto.
Qed.

Lemma keep_filter b f rows : binning_ok b -> keep (in_roi b) f rows (map f (filter (inside b) rows)).
Proof.
  intros Hb. induction rows as [|r rows IH]; cbn [filter]; [constructor|].
  destruct (inside b r) eqn:Hi.
  - cbn [map]. constructor; [|exact IH]. apply (inside_roi b r Hb), Hi.
  - constructor; [|exact IH]. intros H. apply (inside_roi b r Hb) in H. congruence.
Qed.

Lemma keep_unique P f rows out out' : keep P f rows out -> keep P f rows out' -> out = out'.
Proof.
  intros H. revert out'. induction H; intros out' H'; inversion H'; subst; try contradiction;
    try reflexivity; f_equal; apply IHkeep; assumption.
Qed.

(* ------------------------------------------------------------------ *)
(** * The histogram by its bins *)

Lemma concat_grid {A} (h : list (list A)) : h = map (fun i => nth i h []) (seq 0 (List.length h)).
Proof.
  induction h as [|r h IH]; [reflexivity|]. cbn [List.length seq map nth]. f_equal.
  rewrite <- seq_shift, map_map. exact IH.
Qed.

Lemma map_seq_ext {A} (f g : nat -> A) n : (forall i, i < n -> f i = g i) -> map f (seq 0 n) = map g (seq 0 n).
Proof. intros H. apply map_ext_in. intros i Hi. apply in_seq in Hi. apply H. lia. Qed.

Lemma weight_pairs {A} (f : list fl -> A) (P : A -> bool) (Q : list fl -> bool) mc eff :
  (forall r, P (f r) = Q r) ->
  weight_of snd (fun e => P (fst e)) (combine (map f mc) eff)
  = weight_of snd (fun e => Q (fst e)) (combine mc eff).
Proof.
  intros H. unfold weight_of. f_equal. revert eff. induction mc as [|r mc IH]; intros [|w eff]; try reflexivity.
  cbn [map combine filter fst]. rewrite H. destruct (Q r); cbn [map snd]; rewrite IH; reflexivity.
Qed.

Lemma entries_eq (h : list fl) g : (forall i, i < List.length h -> entry h i = g i) ->
  h = map g (seq 0 (List.length h)).
Proof. intros H. rewrite (list_as_entries h) at 1. apply map_seq_ext, H. Qed.

Lemma grid_eq (h : list (list fl)) n (m : nat -> nat) g :
  List.length h = n -> (forall i, i < n -> List.length (nth i h []) = m i) ->
  (forall i j, i < n -> j < m i -> entry2 h i j = g i j) ->
  List.concat h = List.concat (map (fun i => map (g i) (seq 0 (m i))) (seq 0 n)).
Proof.
  intros Hn Hm Hg. rewrite (concat_grid h), Hn. f_equal. apply map_seq_ext. intros i Hi.
  rewrite <- (Hm i Hi). apply entries_eq. intros j Hj. rewrite (Hm i Hi) in Hj. exact (Hg i j Hi Hj).
Qed.

Lemma map_concat_map {A B C} (f : B -> C) (g : A -> list B) l :
  map f (List.concat (map g l)) = List.concat (map (fun a => map f (g a)) l).
Proof. rewrite concat_map, map_map. reflexivity. Qed.

Section Bins.
  Variable oor : list (list fl) -> nat -> list fl.

  Lemma plain_hist_binned b mc eff : binning_ok b ->
    plain_hist oor b mc eff = Ok (binned b (combine mc eff)).
  Proof.
    intros Hb. destruct b as [e|ex ry|e|ex ey|]; [| | | |destruct Hb]; cbn [plain_hist]; f_equal;
      unfold binned, bins_of.
    - destruct Hb as [Hs _]. rewrite map_map. unfold bin_numbers.
      rewrite (entries_eq (hist_1d e _)
        (fun i => weight_of snd (fun ev => right_bin e i (obs 0 (fst ev))) (combine mc eff)));
        rewrite hist_1d_length; [reflexivity|].
      intros i Hi. rewrite hist_1d_entry by (exact Hs || lia).
      exact (weight_pairs (obs 0) (right_bin e i) (fun r => right_bin e i (obs 0 r)) mc eff (fun r => eq_refl)).
    - destruct Hb as (Hx & Hl & Hr). rewrite map_concat_map.
      rewrite (grid_eq (hist_2d oor ex ry _) (List.length ex - 1) (fun i => List.length (nth i ry []) - 1)
        (fun i j => weight_of snd (fun ev => right_bin ex i (obs 0 (fst ev)) &&
                     right_bin (nth i ry []) j (obs 1 (fst ev))) (combine mc eff))).
      + unfold bin_numbers. f_equal. apply map_seq_ext. intros i Hi. rewrite map_map. reflexivity.
      + apply (hist_2d_shape oor ex ry).
      + intros i Hi. destruct (Hr (nth i ry []) ltac:(apply nth_In; lia)) as [_ ->].
        destruct (hist_2d_shape oor ex ry (combine (map (fun r => (obs 0 r, obs 1 r)) mc) eff)) as [S1 S2].
        apply S2, nth_In. rewrite S1. exact Hi.
      + intros i j Hi Hj. destruct (Hr (nth i ry []) ltac:(apply nth_In; lia)) as [_ Hlr].
        rewrite Hlr in Hj. rewrite hist_2d_entry; [|apply Hx|exact Hl| |lia|lia].
        * exact (weight_pairs (fun r => (obs 0 r, obs 1 r))
                  (fun xy => right_bin ex i (fst xy) && right_bin (nth i ry []) j (snd xy))
                  (fun r => right_bin ex i (obs 0 r) && right_bin (nth i ry []) j (obs 1 r)) mc eff
                  (fun r => eq_refl)).
        * intros r H. destruct (Hr r H) as [[? _] ?]. split; assumption.
    - destruct Hb as [Hs _]. rewrite map_map. unfold bin_numbers.
      rewrite (entries_eq (hist_mesh_1d e _)
        (fun i => weight_of snd (fun ev => left_bin e i (obs 0 (fst ev))) (combine mc eff)));
        rewrite hist_mesh_1d_length; [reflexivity|].
      intros i Hi. rewrite hist_mesh_1d_entry by (exact Hs || lia).
      exact (weight_pairs (obs 0) (left_bin e i) (fun r => left_bin e i (obs 0 r)) mc eff (fun r => eq_refl)).
    - destruct Hb as (Hx & Hy). rewrite map_concat_map.
      destruct (trim2_scatter (List.length ex) (List.length ey)
                  (fun e : fl * fl * fl => index_dd ex (fst (fst e)))
                  (fun e => index_dd ey (snd (fst e))) snd
                  (combine (map (fun r => (obs 0 r, obs 1 r)) mc) eff)) as (H1 & H2 & _).
      rewrite (grid_eq (hist_mesh_2d ex ey _) (List.length ex - 1) (fun i => List.length ey - 1)
        (fun i j => weight_of snd (fun ev => left_bin ex i (obs 0 (fst ev)) &&
                     left_bin ey j (obs 1 (fst ev))) (combine mc eff))).
      + unfold bin_numbers. f_equal. apply map_seq_ext. intros i Hi. rewrite map_map. reflexivity.
      + exact H1.
      + exact H2.
      + intros i j Hi Hj. rewrite hist_mesh_2d_entry; [|apply Hx|apply Hy|lia|lia].
        exact (weight_pairs (fun r => (obs 0 r, obs 1 r))
                  (fun xy => left_bin ex i (fst xy) && left_bin ey j (snd xy))
                  (fun r => left_bin ex i (obs 0 r) && left_bin ey j (obs 1 r)) mc eff (fun r => eq_refl)).
  Qed.
End Bins.

(* ------------------------------------------------------------------ *)
(** * Each event is in at most one bin *)

Definition hits {E} (Ps : list (E -> bool)) (e : E) : nat := List.length (filter (fun P => P e) Ps).

Lemma hits_app {E} (P Q : list (E -> bool)) e : hits (P ++ Q) e = hits P e + hits Q e.
Proof. unfold hits. rewrite filter_app, app_length. reflexivity. Qed.

Lemma one_hit_fsum {E} (Ps : list (E -> bool)) (e : E) w : hits Ps e <= 1 ->
  fsum (map (fun P : E -> bool => if P e then w else Fin 0) Ps) = if Nat.eqb (hits Ps e) 1 then w else Fin 0.
Proof.
  unfold hits. induction Ps as [|P Ps IH]; cbn [filter map]; intros H; [reflexivity|].
  destruct (P e); rewrite fsum_cons.
  - cbn [List.length] in *. assert (H0 : List.length (filter (fun P : E -> bool => P e) Ps) = 0) by lia.
    rewrite IH by lia. rewrite H0. cbn [Nat.eqb]. apply fadd_0_r.
  - rewrite fadd_0_l. apply IH, H.
Qed.

Lemma fsum_map_add {A} (f g : A -> fl) l :
  fsum (map (fun a => fadd (f a) (g a)) l) = fadd (fsum (map f l)) (fsum (map g l)).
Proof.
  induction l as [|a l IH]; cbn [map]; [symmetry; apply fadd_0_l|]. rewrite !fsum_cons, IH.
  rewrite <- !fadd_assoc. f_equal. rewrite !fadd_assoc. f_equal. apply fadd_comm.
Qed.

Lemma weight_of_cons {E} (w : E -> fl) P e events :
  weight_of w P (e :: events) = fadd (if P e then w e else Fin 0) (weight_of w P events).
Proof.
  unfold weight_of. cbn [filter]. destruct (P e); [reflexivity|]. rewrite fadd_0_l. reflexivity.
Qed.

Lemma sum_hits {A} (Ps : list (A -> bool)) (events : list (A * fl)) :
  (forall e, In e events -> hits Ps (fst e) <= 1) ->
  fsum (map (fun P => weight_of snd (fun e => P (fst e)) events) Ps)
  = weight_of snd (fun e => Nat.eqb (hits Ps (fst e)) 1) events.
Proof.
  induction events as [|e events IH]; intros H.
  - unfold weight_of. cbn [filter map]. clear H. induction Ps as [|P Ps IHP]; [reflexivity|].
    cbn [map]. rewrite fsum_cons, IHP. apply fadd_0_l.
  - rewrite (map_ext _ (fun P : A -> bool => fadd (if P (fst e) then snd e else Fin 0)
                                  (weight_of snd (fun e => P (fst e)) events)) (fun P => weight_of_cons _ _ e events)).
    rewrite fsum_map_add, IH by (intros x Hx; apply H; right; exact Hx).
    rewrite one_hit_fsum by (apply H; left; reflexivity).
    rewrite weight_of_cons. reflexivity.
Qed.

Lemma hits_index {E} (idx : E -> nat) (P : nat -> E -> bool) e n :
  (forall i, i < n -> P i e = Nat.eqb (idx e) (S i)) ->
  hits (map P (seq 0 n)) e = if Nat.leb 1 (idx e) && Nat.leb (idx e) n then 1 else 0.
Proof.
  intros H. unfold hits. induction n as [|n IH].
  - cbn. destruct (idx e); reflexivity.
  - rewrite seq_S, map_app, filter_app, app_length, IH by (intros i Hi; apply H; lia).
    cbn [map filter plus]. rewrite (H n) by lia.
    destruct (Nat.eqb_spec (idx e) (S n)) as [E0|E0]; cbn [List.length].
    + destruct (Nat.leb_spec 1 (idx e)), (Nat.leb_spec (idx e) n), (Nat.leb_spec (idx e) (S n)); cbn; lia.
    + destruct (Nat.leb_spec 1 (idx e)), (Nat.leb_spec (idx e) n), (Nat.leb_spec (idx e) (S n)); cbn; lia.
Qed.

Lemma hits_and {E} (c : E -> bool) (Ps : list (E -> bool)) e :
  hits (map (fun P e => c e && P e) Ps) e = if c e then hits Ps e else 0.
Proof.
  unfold hits. induction Ps as [|P Ps IH]; cbn [map filter]; [destruct (c e); reflexivity|].
  destruct (c e); cbn [andb] in *.
  - destruct (P e); cbn [List.length]; rewrite IH; reflexivity.
  - exact IH.
Qed.

Lemma hits_concat {E} (c : nat -> E -> bool) (Ps : nat -> list (E -> bool)) e n :
  hits (map c (seq 0 n)) e <= 1 -> (forall i, i < n -> hits (Ps i) e <= 1) ->
  hits (List.concat (map (fun i => map (fun P e => c i e && P e) (Ps i)) (seq 0 n))) e <= hits (map c (seq 0 n)) e.
Proof.
  induction n as [|n IH]; intros Hc HP; [cbn; lia|].
  rewrite seq_S, map_app, concat_app, hits_app in *. rewrite map_app, hits_app in *.
  cbn [map List.concat plus] in *. rewrite app_nil_r, hits_and.
  assert (H1 : hits [c n] e = if c n e then 1 else 0) by (unfold hits; cbn; destruct (c n e); reflexivity).
  rewrite H1 in *. specialize (HP n ltac:(lia)) as Hn.
  destruct (c n e); [|rewrite !Nat.add_0_r; apply IH; [lia|intros i Hi; apply HP; lia]].
  assert (hits (List.concat (map (fun i => map (fun P e => c i e && P e) (Ps i)) (seq 0 n))) e
          <= hits (map c (seq 0 n)) e) by (apply IH; [lia|intros i Hi; apply HP; lia]). lia.
Qed.

Lemma hits_pos {E} (Ps : list (E -> bool)) e : (exists P, In P Ps /\ P e = true) <-> 1 <= hits Ps e.
Proof.
  unfold hits. split.
  - intros (P & HP & H). destruct (filter (fun P : E -> bool => P e) Ps) as [|Q l] eqn:Hf; [|cbn; lia].
    assert (HI : In P (filter (fun P : E -> bool => P e) Ps)) by (apply filter_In; auto). rewrite Hf in HI. destruct HI.
  - intros H. destruct (filter (fun P : E -> bool => P e) Ps) as [|Q l] eqn:Hf; [cbn in H; lia|].
    assert (HI : In Q (filter (fun P : E -> bool => P e) Ps)) by (rewrite Hf; left; reflexivity).
    apply filter_In in HI. exists Q. exact HI.
Qed.

Lemma right_hits e x : edges_ok e ->
  hits (map (right_bin e) (bin_numbers e)) x = if in_bin (edge e 0) (edge e (List.length e - 1)) x then 1 else 0.
Proof.
  intros [Hs Hl]. unfold bin_numbers.
  rewrite (hits_index (searchsorted e) (right_bin e) x).
  - rewrite <- (searchsorted_inside e x Hs) by (intros ->; cbn in Hl; lia).
    replace (Nat.leb (searchsorted e x) (List.length e - 1)) with (Nat.ltb (searchsorted e x) (List.length e));
      [reflexivity|].
    destruct (Nat.ltb_spec (searchsorted e x) (List.length e)), (Nat.leb_spec (searchsorted e x) (List.length e - 1)); try reflexivity; lia.
  - intros i Hi. symmetry. apply searchsorted_bin; [exact Hs|lia].
Qed.

Lemma left_hits_le e x : edges_ok e -> hits (map (left_bin e) (bin_numbers e)) x <= 1.
Proof.
  intros [Hs Hl]. unfold bin_numbers. rewrite (hits_index (index_dd e) (left_bin e) x).
  - destruct (_ && _); lia.
  - intros i Hi. symmetry. apply index_dd_bin; [exact Hs|lia].
Qed.

Lemma right_hits_le e x : edges_ok e -> hits (map (right_bin e) (bin_numbers e)) x <= 1.
Proof. intros H. rewrite right_hits by exact H. destruct (in_bin _ _ _); lia. Qed.

Lemma hits_map {A E} (g : E -> A) (Ps : list (A -> bool)) e :
  hits (map (fun P e => P (g e)) Ps) e = hits Ps (g e).
Proof.
  unfold hits. induction Ps as [|P Ps IH]; cbn [map filter]; [reflexivity|].
  destruct (P (g e)); cbn [List.length]; rewrite IH; reflexivity.
Qed.

Lemma hits_obs (B : nat -> fl -> bool) i ns r :
  hits (map (fun j r => B j (obs i r)) ns) r = hits (map B ns) (obs i r).
Proof. rewrite <- (hits_map (obs i)), map_map. reflexivity. Qed.

Lemma bins_disjoint b r : binning_ok b -> hits (bins_of b) r <= 1.
Proof.
  intros Hb. destruct b as [e|ex ry|e|ex ey|]; [| | | |destruct Hb]; unfold bins_of.
  - rewrite (hits_obs (right_bin e) 0). apply right_hits_le, Hb.
  - destruct Hb as (Hx & Hl & Hr).
    pose proof (hits_concat (fun i r => right_bin ex i (obs 0 r))
      (fun i => map (fun j r => right_bin (nth i ry []) j (obs 1 r)) (bin_numbers (nth i ry []))) r (List.length ex - 1)) as H.
    rewrite (hits_obs (right_bin ex) 0) in H. pose proof (right_hits_le ex (obs 0 r) Hx) as Hx1.
    unfold bin_numbers in Hx1. specialize (H Hx1).
    assert (Hle : forall i, i < List.length ex - 1 ->
      hits (map (fun j r => right_bin (nth i ry []) j (obs 1 r)) (bin_numbers (nth i ry []))) r <= 1).
    { intros i Hi. rewrite (hits_obs (right_bin (nth i ry [])) 1). apply right_hits_le.
      apply Hr, nth_In. lia. }
    specialize (H Hle). unfold bin_numbers at 2.
    erewrite map_ext in H; [|intros i; apply map_map]. lia.
  - rewrite (hits_obs (left_bin e) 0). apply left_hits_le, Hb.
  - destruct Hb as (Hx & Hy).
    pose proof (hits_concat (fun i r => left_bin ex i (obs 0 r))
      (fun i => map (fun j r => left_bin ey j (obs 1 r)) (bin_numbers ey)) r (List.length ex - 1)) as H.
    rewrite (hits_obs (left_bin ex) 0) in H. pose proof (left_hits_le ex (obs 0 r) Hx) as Hx1.
    unfold bin_numbers in Hx1. specialize (H Hx1).
    assert (Hle : forall i, i < List.length ex - 1 ->
      hits (map (fun j r => left_bin ey j (obs 1 r)) (bin_numbers ey)) r <= 1).
    { intros i Hi. rewrite (hits_obs (left_bin ey) 1). apply left_hits_le, Hy. }
    specialize (H Hle). unfold bin_numbers at 2.
    erewrite map_ext in H; [|intros i; apply map_map]. lia.
Qed.

(** The sum of the histogram is the weight of the events that are in a bin. *)
Lemma binned_total b events : binning_ok b ->
  fsum (binned b events) = weight_of snd (fun e => Nat.eqb (hits (bins_of b) (fst e)) 1) events.
Proof. intros Hb. apply sum_hits. intros e _. apply bins_disjoint, Hb. Qed.

Lemma binned_all b events : binning_ok b -> (forall e, In e events -> in_some_bin b (fst e)) ->
  fsum (binned b events) = fsum (map snd events).
Proof.
  intros Hb H. rewrite binned_total by exact Hb. unfold weight_of. f_equal. f_equal.
  induction events as [|e events IH]; [reflexivity|]. cbn [filter].
  pose proof (proj1 (hits_pos _ _) (H e (or_introl eq_refl))) as H1.
  pose proof (bins_disjoint b (fst e) Hb) as H2.
  replace (hits (bins_of b) (fst e)) with 1 by lia. cbn [Nat.eqb].
  rewrite IH by (intros x Hx; apply H; right; exact Hx). reflexivity.
Qed.

(* ------------------------------------------------------------------ *)
(** * Bins and the region of interest *)

Lemma edge_first_le e x : sorted e -> In x e -> fle (edge e 0) x = true.
Proof.
  intros Hs Hx. destruct (In_nth e x NaN Hx) as (i & Hi & <-). exact (sorted_le e 0 i Hs ltac:(lia) Hi).
Qed.
Lemma edge_last_ge e x : sorted e -> In x e -> fle x (edge e (List.length e - 1)) = true.
Proof.
  intros Hs Hx. destruct (In_nth e x NaN Hx) as (i & Hi & <-).
  exact (sorted_le e i (List.length e - 1) Hs ltac:(lia) ltac:(lia)).
Qed.

Lemma between_right_bin e x : edges_ok e -> between e x -> exists i, In i (bin_numbers e) /\ right_bin e i x = true.
Proof.
  intros Hok [(a & Ha & Hax) (z & Hz & Hxz)]. destruct Hok as [Hs Hl].
  assert (H : 1 <= hits (map (right_bin e) (bin_numbers e)) x).
  { rewrite right_hits by (split; assumption). unfold in_bin.
    rewrite (fle_lt_trans _ _ _ (edge_first_le e a Hs Ha) Hax).
    rewrite (flt_weak _ _ (flt_le_trans _ _ _ Hxz (edge_last_ge e z Hs Hz))). cbn. lia. }
  apply hits_pos in H. destruct H as (P & HP & HPx). apply in_map_iff in HP. destruct HP as (i & <- & Hi).
  exists i. split; assumption.
Qed.

Lemma between_left_bin e x : edges_ok e -> between e x -> exists i, In i (bin_numbers e) /\ left_bin e i x = true.
Proof.
  intros [Hs Hl] [(a & Ha & Hax) (z & Hz & Hxz)].
  assert (Hxn : x <> NaN) by (intros ->; rewrite flt_nan_r in Hax; discriminate).
  assert (Hisn : is_nan x = false) by (destruct x; congruence || reflexivity).
  pose proof (count_le_ge e x Hs 0 ltac:(lia)) as H0.
  rewrite (above_char x _ (sorted_not_nan e 0 Hs ltac:(lia))) in H0.
  rewrite (flt_weak _ _ (fle_lt_trans _ _ _ (edge_first_le e a Hs Ha) Hax)), orb_true_r in H0.
  apply Nat.ltb_lt in H0.
  pose proof (count_le_ge e x Hs (List.length e - 1) ltac:(lia)) as H1.
  pose proof (sorted_not_nan e (List.length e - 1) Hs ltac:(lia)) as Hln.
  rewrite (above_char x _ Hln), Hisn in H1.
  pose proof (flt_le_trans _ _ _ Hxz (edge_last_ge e z Hs Hz)) as Hlt.
  rewrite (flt_fle x _ Hxn Hln) in Hlt. apply negb_true_iff in Hlt. rewrite Hlt in H1.
  apply Nat.ltb_ge in H1.
  set (k := count_le e x) in *. exists (k - 1). split.
  { unfold bin_numbers. apply in_seq. lia. }
  unfold left_bin, in_bin_left. replace (S (k - 1)) with k by lia.
  pose proof (count_le_ge e x Hs (k - 1) ltac:(lia)) as H2.
  pose proof (count_le_ge e x Hs k ltac:(lia)) as H3. fold k in H2, H3.
  rewrite (above_char x _ (sorted_not_nan e (k - 1) Hs ltac:(lia))), Hisn in H2.
  rewrite (above_char x _ (sorted_not_nan e k Hs ltac:(lia))), Hisn in H3.
  cbn [orb] in H2, H3. rewrite <- H2. rewrite (flt_fle x _ Hxn (sorted_not_nan e k Hs ltac:(lia))), <- H3.
  destruct (Nat.ltb_spec (k - 1) k); [|lia]. destruct (Nat.ltb_spec k k); [lia|]. reflexivity.
Qed.

(** Only the rows of an irregular two-dimensional binning leave gaps. *)
Definition no_rows (b : binning) : Prop := match b with BIrreg2 _ _ => False | _ => True end.

Lemma roi_in_bin b r : binning_ok b -> no_rows b -> in_roi b r -> in_some_bin b r.
Proof.
  intros Hb Hn Hr. destruct b as [e|ex ry|e|ex ey|]; [|destruct Hn| | |destruct Hb]; unfold in_some_bin, bins_of.
  - destruct (between_right_bin e (obs 0 r) Hb Hr) as (i & Hi & H).
    exists (fun r => right_bin e i (obs 0 r)). split; [|exact H].
    apply (in_map (fun i r => right_bin e i (obs 0 r))), Hi.
  - destruct (between_left_bin e (obs 0 r) Hb Hr) as (i & Hi & H).
    exists (fun r => left_bin e i (obs 0 r)). split; [|exact H].
    apply (in_map (fun i r => left_bin e i (obs 0 r))), Hi.
  - destruct Hb as [Hx Hy], Hr as [Hrx Hry].
    destruct (between_left_bin ex (obs 0 r) Hx Hrx) as (i & Hi & H).
    destruct (between_left_bin ey (obs 1 r) Hy Hry) as (j & Hj & H').
    exists (fun r => left_bin ex i (obs 0 r) && left_bin ey j (obs 1 r)).
    split; [|rewrite H, H'; reflexivity]. apply in_concat.
    exists (map (fun j r => left_bin ex i (obs 0 r) && left_bin ey j (obs 1 r)) (bin_numbers ey)). split.
    + apply (in_map (fun i => map (fun j r => left_bin ex i (obs 0 r) && left_bin ey j (obs 1 r)) (bin_numbers ey))), Hi.
    + apply (in_map (fun j r => left_bin ex i (obs 0 r) && left_bin ey j (obs 1 r))), Hj.
Qed.

Lemma feq_le_lt a b : fle a b = true -> feq a b = false -> flt a b = true.
Proof.
  destruct a as [x| | |], b as [y| | |]; cbn; try congruence; auto.
  destruct (Rle_dec x y), (Req_EM_T x y), (Rlt_dec x y); try congruence; lra.
Qed.
Lemma feq_sym a b : feq a b = feq b a.
Proof.
  destruct a as [x| | |], b as [y| | |]; cbn; try reflexivity.
  destruct (Req_EM_T x y), (Req_EM_T y x); try reflexivity; congruence.
Qed.

Lemma right_bin_between e i x : edges_ok e -> In i (bin_numbers e) -> right_bin e i x = true ->
  off_ends e x -> flt (edge e 0) x = true /\ flt x (edge e (List.length e - 1)) = true.
Proof.
  intros [Hs Hl] Hi H [_ Hoff]. apply in_seq in Hi. unfold right_bin, in_bin in H.
  apply andb_true_iff in H. destruct H as [H1 H2]. split.
  - exact (fle_lt_trans _ _ _ (sorted_le e 0 i Hs ltac:(lia) ltac:(lia)) H1).
  - apply feq_le_lt; [|exact Hoff].
    exact (fle_trans _ _ _ H2 (sorted_le e (S i) (List.length e - 1) Hs ltac:(lia) ltac:(lia))).
Qed.

Lemma left_bin_between e i x : edges_ok e -> In i (bin_numbers e) -> left_bin e i x = true ->
  off_ends e x -> flt (edge e 0) x = true /\ flt x (edge e (List.length e - 1)) = true.
Proof.
  intros [Hs Hl] Hi H [Ho1 Ho2]. apply in_seq in Hi. unfold left_bin, in_bin_left in H.
  apply andb_true_iff in H. destruct H as [H1 H2]. split.
  - apply feq_le_lt; [|rewrite feq_sym; exact Ho1].
    exact (fle_trans _ _ _ (sorted_le e 0 i Hs ltac:(lia) ltac:(lia)) H1).
  - apply feq_le_lt; [|exact Ho2].
    assert (Hle : fle x (edge e (S i)) = true).
    { apply orb_true_iff in H2. destruct H2 as [H2|H2]; [apply flt_weak, H2|].
      apply andb_true_iff in H2. apply H2. }
    exact (fle_trans _ _ _ Hle (sorted_le e (S i) (List.length e - 1) Hs ltac:(lia) ltac:(lia))).
Qed.

Lemma ends_between e x : 2 <= List.length e ->
  flt (edge e 0) x = true /\ flt x (edge e (List.length e - 1)) = true -> between e x.
Proof.
  intros Hl [H1 H2]. split.
  - exists (edge e 0). split; [apply nth_In; lia|exact H1].
  - exists (edge e (List.length e - 1)). split; [apply nth_In; lia|exact H2].
Qed.

Lemma bin_in_roi b r : binning_ok b -> off_boundary b r -> in_some_bin b r -> in_roi b r.
Proof.
  intros Hb Ho (P & HP & HPr). destruct b as [e|ex ry|e|ex ey|]; [| | | |destruct Hb]; unfold bins_of in HP.
  - apply in_map_iff in HP. destruct HP as (i & <- & Hi).
    apply ends_between; [apply Hb|]. exact (right_bin_between e i _ Hb Hi HPr Ho).
  - destruct Hb as (Hx & Hl & Hr), Ho as [Hox Hoy].
    apply in_concat in HP. destruct HP as (l & Hl' & HP). apply in_map_iff in Hl'. destruct Hl' as (i & <- & Hi).
    apply in_map_iff in HP. destruct HP as (j & <- & Hj). apply andb_true_iff in HPr. destruct HPr as [H1 H2].
    assert (Hin : In (nth i ry []) ry) by (apply nth_In; apply in_seq in Hi; lia).
    split.
    + apply ends_between; [apply Hx|]. exact (right_bin_between ex i _ Hx Hi H1 Hox).
    + assert (Hbt : between (nth i ry []) (obs 1 r)).
      { apply ends_between; [apply (Hr _ Hin)|].
        exact (right_bin_between _ j _ (proj1 (Hr _ Hin)) Hj H2 (Hoy _ Hin)). }
      destruct Hbt as [(a & Ha & Hax) (z & Hz & Hxz)]. split.
      * exists a. split; [apply in_concat; eauto|exact Hax].
      * exists z. split; [apply in_concat; eauto|exact Hxz].
  - apply in_map_iff in HP. destruct HP as (i & <- & Hi).
    apply ends_between; [apply Hb|]. exact (left_bin_between e i _ Hb Hi HPr Ho).
  - destruct Hb as (Hx & Hy), Ho as [Hox Hoy].
    apply in_concat in HP. destruct HP as (l & Hl' & HP). apply in_map_iff in Hl'. destruct Hl' as (i & <- & Hi).
    apply in_map_iff in HP. destruct HP as (j & <- & Hj). apply andb_true_iff in HPr. destruct HPr as [H1 H2].
    split.
    + apply ends_between; [apply Hx|]. exact (left_bin_between ex i _ Hx Hi H1 Hox).
    + apply ends_between; [apply Hy|]. exact (left_bin_between ey j _ Hy Hj H2 Hoy).
Qed.

(** Dropping the events outside the region of interest leaves the histogram as it is. *)
Lemma binned_filter {R} b (g : R -> list fl * fl) (keepb : R -> bool) rows :
  (forall r, In r rows -> in_some_bin b (fst (g r)) -> keepb r = true) ->
  binned b (map g (filter keepb rows)) = binned b (map g rows).
Proof.
  intros H. unfold binned. apply map_ext_in. intros P HP. unfold weight_of. f_equal.
  induction rows as [|r rows IH]; [reflexivity|]. cbn [filter map].
  specialize (IH (fun x Hx => H x (or_intror Hx))).
  destruct (keepb r) eqn:Hk; cbn [map filter].
  - destruct (P (fst (g r))); cbn [map]; rewrite IH; reflexivity.
  - destruct (P (fst (g r))) eqn:HPr; [|exact IH].
    rewrite (H r (or_introl eq_refl)) in Hk; [discriminate|]. exists P. split; assumption.
Qed.

Lemma bins_nonempty b : binning_ok b -> bins_of b <> [].
Proof.
  assert (Hn : forall e, edges_ok e -> exists n, bin_numbers e = 0 :: seq 1 n).
  { intros e [_ Hl]. unfold bin_numbers. destruct (List.length e) as [|[|n]]; try lia. exists n.
    replace (S (S n) - 1) with (S n) by lia. reflexivity. }
  intros Hb. destruct b as [e|ex ry|e|ex ey|]; [| | | |destruct Hb]; unfold bins_of.
  - destruct (Hn e Hb) as [n ->]. discriminate.
  - destruct Hb as (Hx & Hl & Hr). destruct (Hn ex Hx) as [n ->]. cbn [map List.concat].
    destruct Hx as [_ Hx]. destruct (Hn (nth 0 ry [])) as [m ->]; [apply Hr, nth_In; lia|]. discriminate.
  - destruct (Hn e Hb) as [n ->]. discriminate.
  - destruct Hb as (Hx & Hy). destruct (Hn ex Hx) as [n ->]. destruct (Hn ey Hy) as [m ->]. discriminate.
Qed.

(* ------------------------------------------------------------------ *)
(** * Scaling the weights *)

Lemma fmul_Fin_inv a f r : fmul a f = Fin r -> exists x y, a = Fin x /\ f = Fin y.
Proof.
  destruct a as [x| | |], f as [y| | |]; cbn; try discriminate; intros H;
    try (exists x, y; split; reflexivity); exfalso; revert H; unfold inf_times;
    match goal with |- context [total_order_T ?u 0] => destruct (total_order_T u 0) as [[?|?]|?] end; discriminate.
Qed.

Lemma weight_of_scaled {R} b (g : R -> list fl * fl) f rows : (forall r, In r rows -> finite (snd (g r))) ->
  binned b (map (fun r => (fst (g r), fmul (snd (g r)) (Fin f))) rows) = scale (Fin f) (binned b (map g rows)).
Proof.
  intros H. unfold binned, scale. rewrite map_map. apply map_ext. intros P. unfold weight_of.
  assert (He : exists s, fsum (map snd (filter (fun e => P (fst e)) (map g rows))) = Fin s /\
     fsum (map snd (filter (fun e => P (fst e)) (map (fun r => (fst (g r), fmul (snd (g r)) (Fin f))) rows)))
     = Fin (s * f)%R).
  { induction rows as [|r rows IH].
    - exists 0%R. split; [reflexivity|]. cbn. f_equal. ring.
    - destruct (IH (fun x Hx => H x (or_intror Hx))) as (s & H1 & H2).
      destruct (H r (or_introl eq_refl)) as [w Hw]. cbn [map filter fst].
      destruct (P (fst (g r))); [|exists s; split; assumption].
      exists (w + s)%R. cbn [map snd]. rewrite !fsum_cons, H1, H2, Hw. split; [reflexivity|].
      rewrite fmul_Fin, fadd_Fin. f_equal. ring. }
  destruct He as (s & -> & ->). reflexivity.
Qed.

Lemma event_weighted r w : event (observables r ++ [w]) = (observables r, w).
Proof. unfold event, observables, weight. rewrite removelast_last, last_last. reflexivity. Qed.

Lemma combine_maps {R A B} (f : R -> A) (g : R -> B) rows :
  combine (map f rows) (map g rows) = map (fun r => (f r, g r)) rows.
Proof. induction rows as [|r rows IH]; [reflexivity|]. cbn. rewrite IH. reflexivity. Qed.

Lemma obs_observables i r : i < List.length r - 1 -> obs i (observables r) = obs i r.
Proof. intros H. unfold obs, observables. apply removelast_nth, H. Qed.

Lemma inside_observables b r : List.length r - 1 = ndim b -> inside b (observables r) = inside b r.
Proof.
  intros H. unfold inside. rewrite <- H.
  assert (He : forall l, (forall i, In i l -> i < List.length r - 1) ->
    forallb (fun i => flt (list_min (bin_values b i)) (obs i (observables r)) && flt (obs i (observables r)) (list_max (bin_values b i))) l
    = forallb (fun i => flt (list_min (bin_values b i)) (obs i r) && flt (obs i r) (list_max (bin_values b i))) l).
  { induction l as [|i l IH]; intros Hl; [reflexivity|]. cbn [forallb].
    rewrite IH by (intros j Hj; apply Hl; right; exact Hj).
    rewrite obs_observables by (apply Hl; left; reflexivity). reflexivity. }
  apply He. intros i Hi. apply in_seq in Hi. lia.
Qed.

Lemma filter_map_ext {A} (P Q : A -> bool) l : (forall x, In x l -> P x = Q x) -> filter P l = filter Q l.
Proof. intros H. apply filter_ext_in, H. Qed.

Section Sim.
  Variable oor : list (list fl) -> nat -> list fl.

  (** What simulate_weighted_data did when it did not fail. *)
  Lemma sim_weighted_ok {K} c sim (key : K) batch p key' out :
    binning_ok (n_bins c) -> sim_weighted oor c sim key batch p = Ok (key', out) ->
    exists rows h f, sim key batch p = Ok (key', rows) /\
      (forall r, In r rows -> List.length r = ndim (n_bins c) + 1) /\
      let kept := filter (fun r => inside (n_bins c) (observables r)) rows in
      implement_binning oor (n_add_eps c) (n_bins c) (map observables kept) (map weight kept) = Ok h /\
      get_normalization (n_norm c) (n_rate c) (n_mcinput c) h p batch = Ok f /\
      out = map (fun r => observables r ++ [fmul (weight r) f]) kept.
  Proof.
    intros Hb H. unfold sim_weighted in H. destruct (sim key batch p) as [[k rows]|e]; [|discriminate].
    destruct (existsb _ rows); [discriminate|].
    destruct (forallb (fun r => Nat.eqb (List.length r - 1) (ndim (n_bins c))) rows) eqn:Hl; [|discriminate].
    assert (Hlen : forall r, In r rows -> List.length r - 1 = ndim (n_bins c)).
    { intros r Hr. rewrite forallb_forall in Hl. apply Nat.eqb_eq, Hl, Hr. }
    assert (Hf : filter (inside (n_bins c)) rows = filter (fun r => inside (n_bins c) (observables r)) rows).
    { apply filter_ext_in. intros r Hr. symmetry. apply inside_observables, Hlen, Hr. }
    rewrite Hf in H.
    destruct (implement_binning _ _ _ _ _) as [h|e] eqn:Hi; [|discriminate].
    destruct (get_normalization _ _ _ _ _ _) as [f|e] eqn:Hg; [|discriminate].
    injection H as <- <-. exists rows, h, f. split; [reflexivity|]. split.
    - intros r Hr. specialize (Hlen r Hr). assert (1 <= ndim (n_bins c)).
      { destruct (n_bins c); cbn; try lia. destruct Hb. } lia.
    - split; [exact Hi|]. split; [exact Hg|]. rewrite combine_maps, map_map. reflexivity.
  Qed.

  Lemma sim_rows {K} c sim (key : K) batch p key' out :
    binning_ok (n_bins c) -> sim_weighted oor c sim key batch p = Ok (key', out) ->
    exists rows f, sim key batch p = Ok (key', rows) /\
      (forall r, In r rows -> List.length r = ndim (n_bins c) + 1) /\
      keep (fun r => in_roi (n_bins c) (observables r)) (fun r => observables r ++ [fmul (weight r) f]) rows out.
  Proof.
    intros Hb H. destruct (sim_weighted_ok c sim key batch p key' out Hb H) as (rows & h & f & Hs & Hl & _ & _ & Ho).
    exists rows, f. split; [exact Hs|]. split; [exact Hl|]. rewrite Ho. clear -Hb.
    induction rows as [|r rows IH]; cbn [filter]; [constructor|].
    destruct (inside (n_bins c) (observables r)) eqn:Hi.
    - cbn [map]. refine (keep_yes _ (fun r => observables r ++ [fmul (weight r) f]) r rows _ _ IH).
      apply (inside_roi _ _ Hb), Hi.
    - constructor; [|exact IH]. intros H. apply (inside_roi _ _ Hb) in H. congruence.
  Qed.

  Lemma total_scaled rows f :
    total_weight (map (fun r => observables r ++ [fmul (weight r) f]) rows) = fsum (scale f (map weight rows)).
  Proof.
    unfold total_weight, scale. f_equal. rewrite !map_map. apply map_ext. intros r.
    unfold weight at 1. rewrite last_last. reflexivity.
  Qed.

  Lemma kept_in_bin b f rows : 
    (forall o, In o (map (fun r => observables r ++ [fmul (weight r) f]) rows) -> in_some_bin b (observables o)) ->
    forall r, In r rows -> in_some_bin b (observables r).
  Proof.
    intros H r Hr. specialize (H _ (in_map _ _ _ Hr)). unfold observables at 1 in H.
    rewrite removelast_last in H. exact H.
  Qed.

  Lemma sim_total {K} c sim (key : K) batch p key' out r t :
    binning_ok (n_bins c) -> n_norm c = OnPdf -> n_add_eps c = false -> get (n_rate c) p = Some (Fin r) ->
    sim_weighted oor c sim key batch p = Ok (key', out) ->
    (forall o, In o out -> in_some_bin (n_bins c) (observables o)) ->
    out <> [] -> total_weight out = Fin t -> t = r.
  Proof.
    intros Hb Hn He Hr H Hin Hne Ht.
    destruct (sim_weighted_ok c sim key batch p key' out Hb H) as (rows & h & f & Hs & Hl & Hi & Hg & Ho).
    rewrite Hn in Hg. cbn [get_normalization] in Hg. rewrite Hr in Hg. injection Hg as <-.
    unfold implement_binning in Hi. rewrite He, plain_hist_binned in Hi by exact Hb. injection Hi as <-.
    set (kept := filter (fun r => inside (n_bins c) (observables r)) rows) in *.
    rewrite Ho in Hin.
    assert (Hb' : forall r, In r kept -> in_some_bin (n_bins c) (observables r)) by (exact (kept_in_bin _ _ _ Hin)).
    rewrite Ho, total_scaled in Ht.
    rewrite combine_maps, binned_all in Ht; [|exact Hb|].
    - rewrite map_map in Ht. cbn [snd] in Ht. refine (scaled_total (map weight kept) r t _ Ht).
      intros H0. apply Hne. rewrite Ho. destruct kept; [reflexivity|discriminate].
    - intros e He'. apply in_map_iff in He'. destruct He' as (x & <- & Hx). apply Hb', Hx.
  Qed.

  (** The same with a result: the total is the rate. *)
  Lemma sim_total_nz {K} c sim (key : K) batch p key' out r s :
    binning_ok (n_bins c) -> n_norm c = OnPdf -> n_add_eps c = false -> get (n_rate c) p = Some (Fin r) ->
    sim_weighted oor c sim key batch p = Ok (key', out) ->
    (forall o, In o out -> in_some_bin (n_bins c) (observables o)) ->
    (forall rows, sim key batch p = Ok (key', rows) ->
       fsum (map weight (filter (fun r => inside (n_bins c) (observables r)) rows)) = Fin s) -> s <> 0%R ->
    total_weight out = Fin r.
  Proof.
    intros Hb Hn He Hr H Hin Hsum Hs0.
    destruct (sim_weighted_ok c sim key batch p key' out Hb H) as (rows & h & f & Hs & Hl & Hi & Hg & Ho).
    rewrite Hn in Hg. cbn [get_normalization] in Hg. rewrite Hr in Hg. injection Hg as <-.
    unfold implement_binning in Hi. rewrite He, plain_hist_binned in Hi by exact Hb. injection Hi as <-.
    specialize (Hsum rows Hs).
    set (kept := filter (fun r => inside (n_bins c) (observables r)) rows) in *.
    rewrite Ho in Hin.
    assert (Hb' : forall r, In r kept -> in_some_bin (n_bins c) (observables r)) by (exact (kept_in_bin _ _ _ Hin)).
    rewrite Ho, total_scaled. rewrite combine_maps, binned_all; [|exact Hb|].
    - rewrite map_map. cbn [snd]. exact (scaled_total_nz (map weight kept) s r Hsum Hs0).
    - intros e He'. apply in_map_iff in He'. destruct He' as (x & <- & Hx). apply Hb', Hx.
  Qed.
End Sim.
