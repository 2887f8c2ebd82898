(** C121: binary search finds the bin. *)
From Coq Require Import Reals Lra Lia.
From Verif Require Import Base ModelFloat ModelHist ModelInterp ModelBisect SpecHist SpecInterp ProofFloat ProofHist ProofInterp ProofBisect PropHist PropInterp.
Local Open Scope list_scope.

(** The histogram with irregular edges, by bisection. *)
Theorem C121_hist_1d bins events i : sorted bins -> S i < List.length bins ->
  entry (search_hist_1d bins events) i = weight_of snd (fun e => in_bin (edge bins i) (edge bins (S i)) (fst e)) events.
Proof. intros Hs Hi. rewrite search_hist_1d_eq by exact Hs. exact (C11_entry bins events i Hs Hi). Qed.

Theorem C121_hist_2d bins_x bins_y events i j :
  sorted bins_x -> List.length bins_x = List.length bins_y + 1 ->
  (forall r, In r bins_y -> sorted r /\ List.length r = row_length bins_y) ->
  i < List.length bins_y -> S j < row_length bins_y ->
  entry2 (search_hist_2d bins_x bins_y events) i j
  = weight_of snd (fun e =>
      in_bin (edge bins_x i) (edge bins_x (S i)) (fst (fst e)) &&
      in_bin (edge (nth i bins_y []) j) (edge (nth i bins_y []) (S j)) (snd (fst e))) events.
Proof. intros Hx Hl Hy Hi Hj. rewrite search_hist_2d_eq by (try assumption; intros r Hr; apply Hy; exact Hr). exact (C13_entry _ bins_x bins_y events i j Hx Hl Hy Hi Hj). Qed.

(** jnp.histogramdd *)
Theorem C121_mesh_1d bins events i : sorted bins -> S i < List.length bins ->
  entry (search_hist_mesh_1d bins events) i
  = weight_of snd (fun e => in_bin_left (Nat.eqb (S (S i)) (List.length bins)) (edge bins i) (edge bins (S i)) (fst e)) events.
Proof. intros Hs Hi. rewrite search_mesh_1d_eq by exact Hs. exact (C53_entry bins events i Hs Hi). Qed.

Theorem C121_mesh_2d bins_x bins_y events i j :
  sorted bins_x -> sorted bins_y -> S i < List.length bins_x -> S j < List.length bins_y ->
  entry2 (search_hist_mesh_2d bins_x bins_y events) i j
  = weight_of snd (fun e =>
      in_bin_left (Nat.eqb (S (S i)) (List.length bins_x)) (edge bins_x i) (edge bins_x (S i)) (fst (fst e)) &&
      in_bin_left (Nat.eqb (S (S j)) (List.length bins_y)) (edge bins_y j) (edge bins_y (S j)) (snd (fst e))) events.
Proof. intros Hx Hy Hi Hj. rewrite search_mesh_2d_eq by assumption. exact (C53_entry_2d bins_x bins_y events i j Hx Hy Hi Hj). Qed.

(** The whole histograms are those that the other properties are about. *)
Theorem C121_same bins bins_x bins_y rows events events2 :
  sorted bins -> sorted bins_x -> sorted bins_y -> (forall r, In r rows -> sorted r) ->
  search_hist_1d bins events = hist_1d bins events /\
  search_hist_mesh_1d bins events = hist_mesh_1d bins events /\
  search_hist_mesh_2d bins_x bins_y events2 = hist_mesh_2d bins_x bins_y events2 /\
  search_hist_2d bins_x rows events2 = hist_2d last_row bins_x rows events2.
Proof.
  intros H Hx Hy Hr. split; [exact (search_hist_1d_eq _ _ H)|]. split; [exact (search_mesh_1d_eq _ _ H)|]. split; [exact (search_mesh_2d_eq _ _ _ Hx Hy)|].
  exact (search_hist_2d_eq _ _ _ Hx Hr).
Qed.

(** Interpolation: repeated reference points included, the values are those of the other properties. *)
Theorem C121_interp refs vals x : non_decreasing refs ->
  search_curve refs vals x = curve refs vals x /\ search_interp refs vals x = interp refs vals x.
Proof. intros H. split; [exact (search_curve_eq refs vals x H)|exact (search_interp_eq refs vals x H)]. Qed.

Theorem C121_curve refs vals x : (1 <= List.length refs)%nat -> increasing refs ->
  ((x <= ent refs 0)%R -> search_curve refs vals x = ent vals 0) /\
  ((ent refs (List.length refs - 1) <= x)%R -> search_curve refs vals x = ent vals (List.length refs - 1)) /\
  (forall i, (S i < List.length refs)%nat -> (ent refs i <= x <= ent refs (S i))%R ->
     search_curve refs vals x = line (ent refs i) (ent vals i) (ent refs (S i)) (ent vals (S i)) x).
Proof.
  intros Hn Hi.
  assert (Hd : non_decreasing refs). { intros i j Hij. destruct (Nat.eq_dec i j) as [->|]; [lra|]. apply Rlt_le. apply Hi. lia. }
  rewrite (search_curve_eq refs vals x Hd).
  split; [intros H; apply curve_low; assumption|]. split; [intros H; apply curve_high; assumption|]. intros i H1 H2. apply curve_between; assumption.
Qed.

(** Five edges, one of them repeated, and events on edges, outside, and NaN. *)
Definition edges5 : list fl := [Fin 0; Fin 1; Fin 1; Fin 4; PInf].
Example C121_case : sorted edges5 /\
  map (search_left edges5) [Fin 0; Fin (1/2); Fin 1; Fin 2; Fin 4; Fin 9; PInf; NInf; NaN] = [0; 1; 1; 3; 3; 4; 4; 0; 5] /\
  map (search_right edges5) [Fin 0; Fin (1/2); Fin 1; Fin 2; Fin 4; Fin 9; PInf; NInf; NaN] = [1; 1; 3; 3; 4; 4; 5; 0; 5].
Proof.
  assert (Hs : sorted edges5).
  { unfold edges5; cbn; repeat split; try discriminate; intros x Hx; repeat (destruct Hx as [<-|Hx]; [fl_eval; try reflexivity|]); destruct Hx. }
  split; [exact Hs|]. split.
  - rewrite (map_ext _ (searchsorted edges5)) by (intros x; apply search_left_count, Hs). unfold searchsorted, edges5. cbn [map filter below]. fl_eval. reflexivity.
  - rewrite (map_ext _ _ (fun x => search_right_count edges5 x Hs)). unfold edges5. cbn [map filter below]. fl_eval. reflexivity.
Qed.

(** For edges in any order, without NaN: the sample is between the two edges that are found. *)
Theorem C121_between bins x : x <> NaN -> (forall e, In e bins -> e <> NaN) ->
  search_left bins x <= List.length bins /\
  (0 < search_left bins x < List.length bins -> in_bin (edge bins (search_left bins x - 1)) (edge bins (search_left bins x)) x = true) /\
  (search_left bins x = 0 -> bins <> [] -> fle x (edge bins 0) = true) /\
  (search_left bins x = List.length bins -> bins <> [] -> flt (edge bins (List.length bins - 1)) x = true).
Proof.
  intros Hx Hb. unfold search_left. destruct (bisect_between NaN (fun e => negb (below x e)) bins) as (F1 & F2 & F3). set (i := bisect _ _ _ _) in *.
  assert (L : forall j, j < List.length bins -> negb (below x (nth j bins NaN)) = fle x (nth j bins NaN)).
  { intros j Hj. rewrite below_not by (apply Hb, nth_In; exact Hj). apply negb_involutive. }
  assert (G : forall j, j < List.length bins -> negb (below x (nth j bins NaN)) = false -> flt (nth j bins NaN) x = true).
  { intros j Hj H. rewrite L in H by exact Hj. rewrite flt_fle by (try exact Hx; apply Hb, nth_In; exact Hj). rewrite H. reflexivity. }
  split; [exact F1|]. unfold in_bin, edge. split; [|split].
  - intros Hi. rewrite (G (i - 1)) by (try apply F3; lia). rewrite <- L by lia. rewrite F2 by lia. reflexivity.
  - intros Hi Hn. assert (0 < List.length bins) by (destruct bins; [congruence|cbn; lia]). rewrite <- L by lia. rewrite Hi in F2. apply F2. lia.
  - intros Hi Hn. assert (0 < List.length bins) by (destruct bins; [congruence|cbn; lia]). apply G; [lia|]. rewrite <- Hi. apply F3. lia.
Qed.

(** Edges that are not in order: an event inside two bins is counted in one of them (here 7, in (5, 20] and
    not in (0, 10]), and the number of edges below it is not its bin. *)
Theorem C121_unsorted_refuted : let bins := [Fin 0; Fin 10; Fin 5; Fin 20] in
  in_bin (edge bins 0) (edge bins 1) (Fin 7) = true /\ in_bin (edge bins 2) (edge bins 3) (Fin 7) = true /\
  search_hist_1d bins [(Fin 7, Fin 1)] = [Fin 0; Fin 0; Fin 1] /\ hist_1d bins [(Fin 7, Fin 1)] = [Fin 0; Fin 1; Fin 0].
Proof.
  assert (B1 : flt (Fin 0) (Fin 7) = true) by (apply flt_Fin; lra). assert (B2 : flt (Fin 5) (Fin 7) = true) by (apply flt_Fin; lra).
  assert (B3 : flt (Fin 10) (Fin 7) = false) by (destruct (flt (Fin 10) (Fin 7)) eqn:E; [apply flt_Fin in E; lra|reflexivity]).
  assert (B4 : flt (Fin 20) (Fin 7) = false) by (destruct (flt (Fin 20) (Fin 7)) eqn:E; [apply flt_Fin in E; lra|reflexivity]).
  assert (C1 : fle (Fin 7) (Fin 10) = true) by (apply fle_Fin; lra). assert (C2 : fle (Fin 7) (Fin 20) = true) by (apply fle_Fin; lra).
  assert (S1 : search_left [Fin 0; Fin 10; Fin 5; Fin 20] (Fin 7) = 3).
  { unfold search_left, bisect. cbn [List.length]. change (Nat.log2_up 5) with 3. unfold Nat.iter. cbn [nat_rect].
    unfold bisect_step at 3. cbn [fst snd Nat.add Nat.div2 nth below]. rewrite B2. cbn [negb].
    unfold bisect_step at 2. cbn [fst snd Nat.add Nat.div2 nth below]. rewrite B4. cbn [negb].
    unfold bisect_step. cbn [fst snd Nat.add Nat.div2 nth below]. rewrite B2. reflexivity. }
  assert (S2 : searchsorted [Fin 0; Fin 10; Fin 5; Fin 20] (Fin 7) = 2).
  { unfold searchsorted. cbn [filter below]. rewrite B1, B2, B3, B4. reflexivity. }
  assert (A0 : fadd (Fin 0) (Fin 1) = Fin 1) by (rewrite fadd_Fin; f_equal; lra).
  cbv zeta. unfold in_bin, edge. cbn [nth]. rewrite B1, B2, C1, C2. split; [reflexivity|]. split; [reflexivity|].
  unfold search_hist_1d, hist_1d. cbn [fold_left fst snd]. rewrite S1, S2. cbn. change (Fin (IZR Z0)) with (Fin 0). rewrite A0. split; reflexivity.
Qed.

Print Assumptions C121_hist_1d.
Print Assumptions C121_hist_2d.
Print Assumptions C121_mesh_1d.
Print Assumptions C121_mesh_2d.
Print Assumptions C121_same.
Print Assumptions C121_interp.
Print Assumptions C121_curve.
Print Assumptions C121_between.
Print Assumptions C121_unsorted_refuted.
