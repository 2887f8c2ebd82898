(** C135: the order of the axes of a map does not matter, nor does an axis along which nothing changes. *)
From Coq Require Import Reals List String Lra Lia ZArith.
From Verif Require Import Base ModelFloat ModelInterp SpecInterp ProofInterp ProofInterp2 PropInterp ModelMaps SpecMaps SpecMapFile PropMapFile.
Local Open Scope R_scope.
Local Open Scope list_scope.

Lemma index_range n i : (1 <= n)%nat -> (Z.to_nat (jax_index n i) < n)%nat.
Proof. intros H. unfold jax_index, clipZ. lia. Qed.

(** The same numbers with the two axes exchanged, and with neighbouring axes of three exchanged. *)
Definition exchanged (n1 n2 : nat) (rows cols : list (list R)) : Prop :=
  forall i j, (i < n1)%nat -> (j < n2)%nat -> nth j (nth i rows []) 0 = nth i (nth j cols []) 0.
Definition exchanged_outer (n1 n2 n3 : nat) (s s' : list (list (list R))) : Prop :=
  forall i j k, (i < n1)%nat -> (j < n2)%nat -> (k < n3)%nat -> nth k (nth j (nth i s []) []) 0 = nth k (nth i (nth j s' []) []) 0.
Definition exchanged_inner (n1 n2 n3 : nat) (s s' : list (list (list R))) : Prop :=
  forall i j k, (i < n1)%nat -> (j < n2)%nat -> (k < n3)%nat -> nth k (nth j (nth i s []) []) 0 = nth j (nth k (nth i s' []) []) 0.

Lemma look2_rows n1 n2 rows i j : rows_of n1 n2 rows -> (1 <= n1)%nat -> (1 <= n2)%nat ->
  look2 n1 n2 (List.concat rows) i j = nth (Z.to_nat (jax_index n2 j)) (nth (Z.to_nat (jax_index n1 i)) rows []) 0.
Proof.
  intros [H1 H2] N1 N2. unfold look2. apply nth_rows; [exact H2| |]; [rewrite H1|]; apply index_range; assumption.
Qed.
Lemma look3_slices n1 n2 n3 s i j k : slices_of n1 n2 n3 s -> (1 <= n1)%nat -> (1 <= n2)%nat -> (1 <= n3)%nat ->
  look3 n1 n2 n3 (List.concat (map (@List.concat R) s)) i j k =
    nth (Z.to_nat (jax_index n3 k)) (nth (Z.to_nat (jax_index n2 j)) (nth (Z.to_nat (jax_index n1 i)) s []) []) 0.
Proof.
  intros [H1 H2] N1 N2 N3. unfold look3.
  pose proof (index_range n1 i N1) as I. pose proof (index_range n2 j N2) as J. pose proof (index_range n3 k N3) as K.
  set (i' := Z.to_nat (jax_index n1 i)) in *. set (j' := Z.to_nat (jax_index n2 j)) in *. set (k' := Z.to_nat (jax_index n3 k)) in *.
  replace ((i' * n2 + j') * n3 + k')%nat with (i' * (n2 * n3) + (j' * n3 + k'))%nat by lia.
  rewrite (nth_rows 0 (map (@List.concat R) s) (n2 * n3) i' (j' * n3 + k')).
  - change (@nil R) with (@List.concat R []) at 1. rewrite map_nth. assert (Hi : (i' < List.length s)%nat) by lia.
    rewrite Forall_forall in H2. destruct (H2 (nth i' s []) (nth_In _ _ Hi)) as [A B]. apply nth_rows; [exact B|lia|exact K].
  - apply concat_slices. exact H2.
  - rewrite map_length. lia.
  - nia.
Qed.

(** Building: which files are refused does not depend on the order. *)
Lemma build_ok m bs n lowers uppers : (forall i, nth_error (probs_of n) i = Some true -> nth_error bs i <> Some true) ->
  List.length bs = List.length lowers -> build_regbin (probs_of n) bs lowers uppers m =
    match List.length lowers, m with
    | 1%nat, _ | 2%nat, IDW | 2%nat, LERP | 2%nat, NN | 3%nat, IDW | 3%nat, LERP | 3%nat, NN =>
        match validate_bounds bs lowers with Err e => Err e | Ok _ => validate_bounds bs uppers end
    | _, _ => Err ValueError
    end.
Proof.
  intros H Hl. unfold build_regbin. rewrite Hl, Nat.eqb_refl. cbn [negb].
  replace (existsb _ (combine (probs_of n) bs)) with false; [reflexivity|]. symmetry. clear Hl.
  revert bs H. induction (probs_of n) as [|p ps IH]; intros bs H; [reflexivity|]. destruct bs as [|b bs]; [reflexivity|]. cbn [combine existsb fst snd].
  rewrite (IH bs (fun i => H (S i))), Bool.orb_false_r. specialize (H 0%nat). cbn in H. destruct p, b; try reflexivity. exfalso. apply H; reflexivity.
Qed.

Definition low (b : bool) (x : R) : bool := b && (if Rle_dec x 0 then true else false).
Lemma validate2 l1 l2 a b : validate_bounds [l1; l2] [a; b] = if low l1 a || low l2 b then Err ValueError else Ok tt.
Proof. unfold validate_bounds. cbn [combine existsb fst snd]. fold (low l1 a) (low l2 b). rewrite Bool.orb_false_r. reflexivity. Qed.
Lemma validate3 l1 l2 l3 a b c : validate_bounds [l1; l2; l3] [a; b; c] = if low l1 a || low l2 b || low l3 c then Err ValueError else Ok tt.
Proof. unfold validate_bounds. cbn [combine existsb fst snd]. fold (low l1 a) (low l2 b) (low l3 c). rewrite Bool.orb_false_r, Bool.orb_assoc. reflexivity. Qed.

(** ** Interpolation on exchanged axes *)
Lemma idw_2d_exchange ax ay look look' x y : (forall i j, look i j = look' j i) -> idw_2d ax ay look x y = idw_2d ay ax look' y x.
Proof.
  intros H. unfold idw_2d, idw. cbn [map fst snd sumR]. rewrite !H.
  replace ((node ax (idw_index ax x) - x) ^ 2 + (node ay (idw_index ay y) - y) ^ 2) with ((node ay (idw_index ay y) - y) ^ 2 + (node ax (idw_index ax x) - x) ^ 2) by ring.
  replace ((node ax (idw_index ax x + 1) - x) ^ 2 + (node ay (idw_index ay y) - y) ^ 2) with ((node ay (idw_index ay y) - y) ^ 2 + (node ax (idw_index ax x + 1) - x) ^ 2) by ring.
  replace ((node ax (idw_index ax x) - x) ^ 2 + (node ay (idw_index ay y + 1) - y) ^ 2) with ((node ay (idw_index ay y + 1) - y) ^ 2 + (node ax (idw_index ax x) - x) ^ 2) by ring.
  replace ((node ax (idw_index ax x + 1) - x) ^ 2 + (node ay (idw_index ay y + 1) - y) ^ 2) with ((node ay (idw_index ay y + 1) - y) ^ 2 + (node ax (idw_index ax x + 1) - x) ^ 2) by ring.
  f_equal; [|f_equal]; ring.
Qed.

Theorem C135_exchanged m f f' l1 l2 lo1 lo2 hi1 hi2 n1 n2 rows cols x y :
  scales (f_type f) [l1; l2] -> probabilities_linear (f_name f) [l1; l2] ->
  f_content f = Grid [lo1; lo2] [hi1; hi2] [n1; n2] (List.concat rows) -> rows_of n1 n2 rows ->
  scales (f_type f') [l2; l1] -> probabilities_linear (f_name f') [l2; l1] ->
  f_content f' = Grid [lo2; lo1] [hi2; hi1] [n2; n1] (List.concat cols) -> rows_of n2 n1 cols ->
  exchanged n1 n2 rows cols -> (1 <= n1)%nat -> (1 <= n2)%nat ->
  apply_file m f [x; y] = apply_file m f' [y; x].
Proof.
  intros S P C Rw S' P' C' Rw' Ex N1 N2. rewrite (scales_apply _ _ _ _ _ _ _ _ S C eq_refl), (scales_apply _ _ _ _ _ _ _ _ S' C' eq_refl).
  unfold apply_grid. rewrite C, C'. unfold map_regbin_2d.
  rewrite build_ok by first [exact (probs_linear _ _ P) | reflexivity]. rewrite build_ok by first [exact (probs_linear _ _ P') | reflexivity]. cbn [List.length].
  assert (L : forall i j, look2 n1 n2 (List.concat rows) i j = look2 n2 n1 (List.concat cols) j i).
  { intros i j. rewrite (look2_rows _ _ _ _ _ Rw N1 N2), (look2_rows _ _ _ _ _ Rw' N2 N1). apply Ex; apply index_range; assumption. }
  rewrite !validate2, (Bool.orb_comm (low l2 lo2)), (Bool.orb_comm (low l2 hi2)).
  destruct m; try reflexivity; (destruct (low l1 lo1 || low l2 lo2); [reflexivity|]; destruct (low l1 hi1 || low l2 hi2); [reflexivity|]);
    unfold axes_of, preprocess; cbn [combine map fst snd]; f_equal.
  - apply idw_2d_exchange. exact L.
  - unfold bilinear. rewrite !L. ring.
  - unfold nn_2d. apply L.
Qed.

Lemma trilinear_outer ax ay az look look' x y z : (forall i j k, look i j k = look' j i k) ->
  trilinear ax ay az look x y z = trilinear ay ax az look' y x z.
Proof. intros H. unfold trilinear. rewrite !H. ring. Qed.
Lemma trilinear_inner ax ay az look look' x y z : (forall i j k, look i j k = look' i k j) ->
  trilinear ax ay az look x y z = trilinear ax az ay look' x z y.
Proof. intros H. unfold trilinear. rewrite !H. ring. Qed.
Definition corner3 ax ay az x y z i j k := clip_dist (sqrt ((node ax i - x) ^ 2 + (node ay j - y) ^ 2 + (node az k - z) ^ 2)).
Lemma corner3_outer ax ay az x y z i j k : corner3 ax ay az x y z i j k = corner3 ay ax az y x z j i k.
Proof. unfold corner3. do 2 f_equal. ring. Qed.
Lemma corner3_inner ax ay az x y z i j k : corner3 ax ay az x y z i j k = corner3 ax az ay x z y i k j.
Proof. unfold corner3. do 2 f_equal. ring. Qed.
Lemma idw_outer ax ay az look look' x y z : (forall i j k, look i j k = look' j i k) -> idw_3d ax ay az look x y z = idw_3d ay ax az look' y x z.
Proof.
  intros H. unfold idw_3d, idw. cbn [map fst snd sumR].
  repeat match goal with |- context[clip_dist (sqrt ((node ax ?i - x) ^ 2 + (node ay ?j - y) ^ 2 + (node az ?k - z) ^ 2))] =>
    change (clip_dist (sqrt ((node ax i - x) ^ 2 + (node ay j - y) ^ 2 + (node az k - z) ^ 2))) with (corner3 ax ay az x y z i j k); rewrite (corner3_outer ax ay az x y z i j k) end.
  repeat match goal with |- context[clip_dist (sqrt ((node ay ?i - y) ^ 2 + (node ax ?j - x) ^ 2 + (node az ?k - z) ^ 2))] =>
    change (clip_dist (sqrt ((node ay i - y) ^ 2 + (node ax j - x) ^ 2 + (node az k - z) ^ 2))) with (corner3 ay ax az y x z i j k) end.
  rewrite !H. unfold Rdiv. f_equal; [|f_equal]; ring.
Qed.
Lemma idw_inner ax ay az look look' x y z : (forall i j k, look i j k = look' i k j) -> idw_3d ax ay az look x y z = idw_3d ax az ay look' x z y.
Proof.
  intros H. unfold idw_3d, idw. cbn [map fst snd sumR].
  repeat match goal with |- context[clip_dist (sqrt ((node ax ?i - x) ^ 2 + (node ay ?j - y) ^ 2 + (node az ?k - z) ^ 2))] =>
    change (clip_dist (sqrt ((node ax i - x) ^ 2 + (node ay j - y) ^ 2 + (node az k - z) ^ 2))) with (corner3 ax ay az x y z i j k); rewrite (corner3_inner ax ay az x y z i j k) end.
  repeat match goal with |- context[clip_dist (sqrt ((node ax ?i - x) ^ 2 + (node az ?j - z) ^ 2 + (node ay ?k - y) ^ 2))] =>
    change (clip_dist (sqrt ((node ax i - x) ^ 2 + (node az j - z) ^ 2 + (node ay k - y) ^ 2))) with (corner3 ax az ay x z y i j k) end.
  rewrite !H. unfold Rdiv. f_equal; [|f_equal]; ring.
Qed.

Theorem C135_exchanged_outer m f f' l1 l2 l3 lo1 lo2 lo3 hi1 hi2 hi3 n1 n2 n3 s s' x y z :
  scales (f_type f) [l1; l2; l3] -> probabilities_linear (f_name f) [l1; l2; l3] ->
  f_content f = Grid [lo1; lo2; lo3] [hi1; hi2; hi3] [n1; n2; n3] (List.concat (map (@List.concat R) s)) -> slices_of n1 n2 n3 s ->
  scales (f_type f') [l2; l1; l3] -> probabilities_linear (f_name f') [l2; l1; l3] ->
  f_content f' = Grid [lo2; lo1; lo3] [hi2; hi1; hi3] [n2; n1; n3] (List.concat (map (@List.concat R) s')) -> slices_of n2 n1 n3 s' ->
  exchanged_outer n1 n2 n3 s s' -> (1 <= n1)%nat -> (1 <= n2)%nat -> (1 <= n3)%nat ->
  apply_file m f [x; y; z] = apply_file m f' [y; x; z].
Proof.
  intros S P C Rw S' P' C' Rw' Ex N1 N2 N3. rewrite (scales_apply _ _ _ _ _ _ _ _ S C eq_refl), (scales_apply _ _ _ _ _ _ _ _ S' C' eq_refl).
  unfold apply_grid. rewrite C, C'. unfold map_regbin_3d.
  rewrite build_ok by first [exact (probs_linear _ _ P) | reflexivity]. rewrite build_ok by first [exact (probs_linear _ _ P') | reflexivity]. cbn [List.length].
  set (look := look3 n1 n2 n3 _). set (look' := look3 n2 n1 n3 _).
  assert (L : forall i j k, look i j k = look' j i k).
  { intros i j k. unfold look, look'. rewrite (look3_slices _ _ _ _ _ _ _ Rw N1 N2 N3), (look3_slices _ _ _ _ _ _ _ Rw' N2 N1 N3). apply Ex; apply index_range; assumption. }
  clearbody look look'. rewrite !validate3, (Bool.orb_comm (low l2 lo2)), (Bool.orb_comm (low l2 hi2)).
  destruct m; try reflexivity; (destruct (low l1 lo1 || low l2 lo2 || low l3 lo3); [reflexivity|]; destruct (low l1 hi1 || low l2 hi2 || low l3 hi3); [reflexivity|]);
    unfold axes_of, preprocess; cbn [combine map fst snd]; f_equal.
  - apply idw_outer. exact L.
  - apply trilinear_outer. exact L.
  - unfold nn_3d. apply L.
Qed.

Theorem C135_exchanged_inner m f f' l1 l2 l3 lo1 lo2 lo3 hi1 hi2 hi3 n1 n2 n3 s s' x y z :
  scales (f_type f) [l1; l2; l3] -> probabilities_linear (f_name f) [l1; l2; l3] ->
  f_content f = Grid [lo1; lo2; lo3] [hi1; hi2; hi3] [n1; n2; n3] (List.concat (map (@List.concat R) s)) -> slices_of n1 n2 n3 s ->
  scales (f_type f') [l1; l3; l2] -> probabilities_linear (f_name f') [l1; l3; l2] ->
  f_content f' = Grid [lo1; lo3; lo2] [hi1; hi3; hi2] [n1; n3; n2] (List.concat (map (@List.concat R) s')) -> slices_of n1 n3 n2 s' ->
  exchanged_inner n1 n2 n3 s s' -> (1 <= n1)%nat -> (1 <= n2)%nat -> (1 <= n3)%nat ->
  apply_file m f [x; y; z] = apply_file m f' [x; z; y].
Proof.
  intros S P C Rw S' P' C' Rw' Ex N1 N2 N3. rewrite (scales_apply _ _ _ _ _ _ _ _ S C eq_refl), (scales_apply _ _ _ _ _ _ _ _ S' C' eq_refl).
  unfold apply_grid. rewrite C, C'. unfold map_regbin_3d.
  rewrite build_ok by first [exact (probs_linear _ _ P) | reflexivity]. rewrite build_ok by first [exact (probs_linear _ _ P') | reflexivity]. cbn [List.length].
  set (look := look3 n1 n2 n3 _). set (look' := look3 n1 n3 n2 _).
  assert (L : forall i j k, look i j k = look' i k j).
  { intros i j k. unfold look, look'. rewrite (look3_slices _ _ _ _ _ _ _ Rw N1 N2 N3), (look3_slices _ _ _ _ _ _ _ Rw' N1 N3 N2). apply Ex; apply index_range; assumption. }
  clearbody look look'. rewrite !validate3.
  replace (low l1 lo1 || low l3 lo3 || low l2 lo2)%bool with (low l1 lo1 || low l2 lo2 || low l3 lo3)%bool by (destruct (low l1 lo1), (low l2 lo2), (low l3 lo3); reflexivity).
  replace (low l1 hi1 || low l3 hi3 || low l2 hi2)%bool with (low l1 hi1 || low l2 hi2 || low l3 hi3)%bool by (destruct (low l1 hi1), (low l2 hi2), (low l3 hi3); reflexivity).
  destruct m; try reflexivity; (destruct (low l1 lo1 || low l2 lo2 || low l3 lo3)%bool; [reflexivity|]; destruct (low l1 hi1 || low l2 hi2 || low l3 hi3)%bool; [reflexivity|]);
    unfold axes_of, preprocess; cbn [combine map fst snd]; f_equal.
  - apply idw_inner. exact L.
  - apply trilinear_inner. exact L.
  - unfold nn_3d. apply L.
Qed.

(** An axis along which nothing changes can be left out, for the two methods that have no distances. With the theorems above it may
    be any of the three. *)
Definition same_along (n1 n2 n3 : nat) (s : list (list (list R))) (rows : list (list R)) : Prop :=
  forall i j k, (i < n1)%nat -> (j < n2)%nat -> (k < n3)%nat -> nth k (nth j (nth i s []) []) 0 = nth j (nth i rows []) 0.
Theorem C135_constant m f f' l1 l2 l3 lo1 lo2 lo3 hi1 hi2 hi3 n1 n2 n3 s rows x y z : m = LERP \/ m = NN ->
  scales (f_type f) [l1; l2; l3] -> probabilities_linear (f_name f) [l1; l2; l3] ->
  f_content f = Grid [lo1; lo2; lo3] [hi1; hi2; hi3] [n1; n2; n3] (List.concat (map (@List.concat R) s)) -> slices_of n1 n2 n3 s ->
  scales (f_type f') [l1; l2] -> probabilities_linear (f_name f') [l1; l2] ->
  f_content f' = Grid [lo1; lo2] [hi1; hi2] [n1; n2] (List.concat rows) -> rows_of n1 n2 rows ->
  same_along n1 n2 n3 s rows -> proper_bounds l3 lo3 hi3 -> (1 <= n1)%nat -> (1 <= n2)%nat -> (1 <= n3)%nat ->
  apply_file m f [x; y; z] = apply_file m f' [x; y].
Proof.
  intros Hm S P C Rw S' P' C' Rw' Ex [B3 B3'] N1 N2 N3. rewrite (scales_apply _ _ _ _ _ _ _ _ S C eq_refl), (scales_apply _ _ _ _ _ _ _ _ S' C' eq_refl).
  unfold apply_grid. rewrite C, C'. unfold map_regbin_3d, map_regbin_2d.
  rewrite build_ok by first [exact (probs_linear _ _ P) | reflexivity]. rewrite build_ok by first [exact (probs_linear _ _ P') | reflexivity]. cbn [List.length].
  set (look := look3 n1 n2 n3 _). set (look' := look2 n1 n2 _).
  assert (L : forall i j k, look i j k = look' i j).
  { intros i j k. unfold look, look'. rewrite (look3_slices _ _ _ _ _ _ _ Rw N1 N2 N3), (look2_rows _ _ _ _ _ Rw' N1 N2). apply Ex; apply index_range; assumption. }
  clearbody look look'. rewrite !validate3, !validate2.
  assert (H3 : low l3 lo3 = false /\ low l3 hi3 = false).
  { unfold low. destruct l3; [|split; reflexivity]. specialize (B3' eq_refl). pose proof float_bounds. cbn [andb]. destruct (Rle_dec lo3 0), (Rle_dec hi3 0); try (exfalso; lra). split; reflexivity. }
  destruct H3 as [-> ->]. rewrite !Bool.orb_false_r.
  destruct Hm as [-> | ->]; (destruct (low l1 lo1 || low l2 lo2)%bool; [reflexivity|]; destruct (low l1 hi1 || low l2 hi2)%bool; [reflexivity|]);
    unfold axes_of, preprocess; cbn [combine map fst snd]; f_equal.
  - unfold trilinear, bilinear. rewrite !L. ring.
  - unfold nn_3d, nn_2d. apply L.
Qed.

(** ** Cases *)

Definition ax_file (t : coordinate_type) (names : list string) lowers uppers shape vals : map_file := mk_map_file t (NameList names) (Grid lowers uppers shape vals).
Definition ax_rows : list (list R) := [[1; 2; 3]; [4; 5; 7]].
Definition ax_cols : list (list R) := [[1; 4]; [2; 5]; [3; 7]].
Example C135_case m x y :
  apply_file m (ax_file (TypeList ["log_regbin"; "regbin"]%string) ["energy"; "z"]%string [1; 0] [10; 5] [2; 3]%nat (List.concat ax_rows)) [x; y] =
  apply_file m (ax_file (TypeList ["regbin"; "log_regbin"]%string) ["z"; "energy"]%string [0; 1] [5; 10] [3; 2]%nat (List.concat ax_cols)) [y; x].
Proof.
  assert (Q : forall a b l1 l2, ~ is_prob a = true -> ~ is_prob b = true -> probabilities_linear (NameList [a; b]) [l1; l2]).
  { intros a b l1 l2 Ha Hb l i s E Hi Hs. injection E as <-. assert (G : is_prob s = true) by (destruct Hs as [-> | ->]; reflexivity).
    destruct i as [|[|i]]; cbn in Hi; [injection Hi as <-; contradiction|injection Hi as <-; contradiction|destruct i; discriminate]. }
  eapply (C135_exchanged m _ _ true false 1 0 10 5 2 3 ax_rows ax_cols); try reflexivity; try lia.
  - constructor. repeat constructor.
  - apply Q; discriminate.
  - split; [reflexivity|repeat constructor].
  - constructor. repeat constructor.
  - apply Q; discriminate.
  - split; [reflexivity|repeat constructor].
  - intros i j Hi Hj. destruct i as [|[|i]]; [| |lia]; destruct j as [|[|[|j]]]; try lia; reflexivity.
Qed.

(** With inverse distances the axis matters although nothing changes along it. *)
Definition flat3 : map_file := ax_file (TypeOne "regbin") ["x"; "y"; "z"]%string [0; 0; 0] [1; 1; 1] [2; 2; 2]%nat (List.concat (map (@List.concat R) [[[0; 0]; [1; 1]]; [[1; 1]; [1; 1]]])).
Definition flat2 : map_file := ax_file (TypeOne "regbin") ["x"; "y"]%string [0; 0] [1; 1] [2; 2]%nat (List.concat [[0; 1]; [1; 1]]).
Example C135_flat : same_along 2 2 2 [[[0; 0]; [1; 1]]; [[1; 1]; [1; 1]]] [[0; 1]; [1; 1]].
Proof. intros i j k Hi Hj Hk. destruct i as [|[|i]]; [| |lia]; (destruct j as [|[|j]]; [| |lia]); (destruct k as [|[|k]]; [| |lia]); reflexivity. Qed.

Definition unit_axis := mk_axis 0 1 2.
Lemma unit_size : bin_size unit_axis = 1.
Proof. unfold bin_size. cbn. field. Qed.
Lemma unit_index x : 0 <= x < 1 -> idw_index unit_axis x = 0%Z.
Proof.
  intros H. unfold idw_index, frac. rewrite unit_size. cbn [a_lo unit_axis]. rewrite (Int_part_is _ 0); [reflexivity|]. replace ((x - 0) / 1) with x by field. cbn. lra.
Qed.
Lemma unit_node0 : node unit_axis 0 = 0.
Proof. unfold node. rewrite unit_size. cbn. ring. Qed.
Lemma unit_node1 : node unit_axis 1 = 1.
Proof. unfold node. rewrite unit_size. cbn. ring. Qed.
Lemma min_small : 0 < float_pos_min <= / 16.
Proof.
  split; [apply float_bounds|]. unfold float_pos_min. apply Rinv_le_contravar; [lra|]. replace (2 ^ 126) with (16 * 2 ^ 122); [|rewrite <- (pow_add 2 4 122) || idtac; replace 126%nat with (4 + 122)%nat by reflexivity; rewrite pow_add; ring].
  assert (1 <= 2 ^ 122) by (apply pow_R1_Rle; lra). lra.
Qed.
Lemma max_large : 2 <= float_pos_max.
Proof.
  unfold float_pos_max. assert (D : / 2 ^ 23 <= / 2). { apply Rinv_le_contravar; [lra|]. replace (2 ^ 23) with (2 * 2 ^ 22) by (cbn; ring). assert (1 <= 2 ^ 22) by (apply pow_R1_Rle; lra). lra. }
  assert (C : 2 <= 2 ^ 127). { replace (2 ^ 127) with (2 * 2 ^ 126) by (cbn; ring). assert (1 <= 2 ^ 126) by (apply pow_R1_Rle; lra). lra. }
  assert (/ 2 = 1 / 2) by lra. nra.
Qed.
Lemma clip_id d : / 16 <= d <= 2 -> clip_dist d = d.
Proof. intros H. pose proof min_small. pose proof max_large. unfold clip_dist, clipR. rewrite Rmax_left by lra. apply Rmin_left. lra. Qed.
Lemma clip_zero : clip_dist 0 = float_pos_min.
Proof. pose proof min_small. pose proof max_large. unfold clip_dist, clipR. rewrite Rmax_right by lra. apply Rmin_left. lra. Qed.
Lemma weight a : 1 <= a <= 9 / 4 -> 2 / 3 <= / clip_dist (sqrt a) <= 1.
Proof.
  intros H. assert (A : 1 <= sqrt a) by (rewrite <- sqrt_1; apply sqrt_le_1; lra).
  assert (B : sqrt a <= 3 / 2). { rewrite <- (sqrt_square (3 / 2)) by lra. apply sqrt_le_1; lra. }
  rewrite clip_id by lra. split; [replace (2 / 3) with (/ (3 / 2)) by field; apply Rinv_le_contravar; lra|rewrite <- Rinv_1; apply Rinv_le_contravar; lra].
Qed.
Lemma half_weight : / clip_dist (sqrt (/ 4)) = 2.
Proof. replace (/ 4) with (/ 2 * / 2) by field. rewrite sqrt_square by lra. rewrite clip_id by lra. field. Qed.

Theorem C135_idw_refuted : exists v3 v2, apply_file IDW flat3 [0; 0; / 2] = Ok v3 /\ apply_file IDW flat2 [0; 0] = Ok v2 /\ v2 < / 4 /\ / 2 <= v3.
Proof.
  exists (idw_3d unit_axis unit_axis unit_axis (look3 2 2 2 [0; 0; 1; 1; 1; 1; 1; 1]) 0 0 (/ 2)), (idw_2d unit_axis unit_axis (look2 2 2 [0; 1; 1; 1]) 0 0).
  split; [reflexivity|]. split; [reflexivity|]. split.
  - unfold idw_2d. rewrite !unit_index by lra. cbn [map fst snd Z.add]. rewrite unit_node0, unit_node1. unfold idw. cbn [map fst snd sumR].
    change (look2 2 2 [0; 1; 1; 1] 0 0) with 0. change (look2 2 2 [0; 1; 1; 1] 1 0) with 1. change (look2 2 2 [0; 1; 1; 1] 0 1) with 1. change (look2 2 2 [0; 1; 1; 1] 1 1) with 1.
    replace ((0 - 0) ^ 2 + (0 - 0) ^ 2) with 0 by ring. rewrite sqrt_0, clip_zero. unfold Rdiv. rewrite !Rmult_1_l, Rmult_0_l.
    pose proof (weight ((1 - 0) ^ 2 + (0 - 0) ^ 2) ltac:(lra)) as W1. pose proof (weight ((0 - 0) ^ 2 + (1 - 0) ^ 2) ltac:(lra)) as W2. pose proof (weight ((1 - 0) ^ 2 + (1 - 0) ^ 2) ltac:(lra)) as W3.
    assert (W0 : 16 <= / float_pos_min). { pose proof min_small. rewrite <- (Rinv_inv 16). apply Rinv_le_contravar; lra. }
    revert W0 W1 W2 W3. generalize (/ float_pos_min). 
    generalize (/ clip_dist (sqrt ((1 - 0) ^ 2 + (0 - 0) ^ 2))), (/ clip_dist (sqrt ((0 - 0) ^ 2 + (1 - 0) ^ 2))), (/ clip_dist (sqrt ((1 - 0) ^ 2 + (1 - 0) ^ 2))).
    intros a b c d Hd Ha Hb Hc. apply (Rmult_lt_reg_r (d + (a + (b + (c + 0))))); [lra|]. rewrite Rmult_assoc, Rinv_l by lra. lra.
  - unfold idw_3d. rewrite !unit_index by lra. cbn [map fst snd Z.add]. rewrite unit_node0, unit_node1. unfold idw. cbn [map fst snd sumR].
    set (l := look3 2 2 2 _). change (l 0 0 0)%Z with 0. change (l 0 0 1)%Z with 0. change (l 1 0 0)%Z with 1. change (l 0 1 0)%Z with 1. change (l 1 1 0)%Z with 1.
    change (l 0 1 1)%Z with 1. change (l 1 0 1)%Z with 1. change (l 1 1 1)%Z with 1. clear l. unfold Rdiv. rewrite !Rmult_1_l, !Rmult_0_l.
    replace ((0 - 0) ^ 2 + (0 - 0) ^ 2 + (0 - / 2) ^ 2) with (/ 4) by field. replace ((0 - 0) ^ 2 + (0 - 0) ^ 2 + (1 - / 2) ^ 2) with (/ 4) by field. rewrite half_weight.
    pose proof (weight ((1 - 0) ^ 2 + (0 - 0) ^ 2 + (0 - / 2) ^ 2) ltac:(lra)) as W1. pose proof (weight ((0 - 0) ^ 2 + (1 - 0) ^ 2 + (0 - / 2) ^ 2) ltac:(lra)) as W2.
    pose proof (weight ((1 - 0) ^ 2 + (1 - 0) ^ 2 + (0 - / 2) ^ 2) ltac:(lra)) as W3. pose proof (weight ((0 - 0) ^ 2 + (1 - 0) ^ 2 + (1 - / 2) ^ 2) ltac:(lra)) as W4.
    pose proof (weight ((1 - 0) ^ 2 + (0 - 0) ^ 2 + (1 - / 2) ^ 2) ltac:(lra)) as W5. pose proof (weight ((1 - 0) ^ 2 + (1 - 0) ^ 2 + (1 - / 2) ^ 2) ltac:(lra)) as W6.
    revert W1 W2 W3 W4 W5 W6. repeat match goal with |- context[/ clip_dist (sqrt ?a)] => generalize (/ clip_dist (sqrt a)); intros ? end.
    intros. match goal with |- _ <= ?n * / ?d => apply (Rmult_le_reg_r d); [lra|]; rewrite (Rmult_assoc n), Rinv_l by lra end. lra.
Qed.

Print Assumptions C135_exchanged.
Print Assumptions C135_exchanged_outer.
Print Assumptions C135_exchanged_inner.
Print Assumptions C135_constant.
Print Assumptions C135_idw_refuted.
