(** C128: a map file means what its entries say. *)
From Coq Require Import Reals List String Lra Lia ZArith.
From Verif Require Import Base ModelFloat ModelInterp SpecInterp ProofInterp ProofInterp2 PropInterp ModelMaps SpecMaps SpecMapFile.
Local Open Scope R_scope.
Local Open Scope list_scope.

Lemma nth_rows {A} (d : A) : forall rows n2 i j, Forall (fun r => List.length r = n2) rows ->
  (i < List.length rows)%nat -> (j < n2)%nat -> nth (i * n2 + j) (List.concat rows) d = nth j (nth i rows []) d.
Proof.
  induction rows as [|r rows IH]; intros n2 i j F Hi Hj; [cbn in Hi; lia|]. inversion F; subst. cbn [List.concat].
  destruct i as [|i]; cbn [nth].
  - rewrite app_nth1 by lia. reflexivity.
  - rewrite app_nth2 by (cbn; lia). rewrite <- (IH (List.length r)) by (try assumption; cbn in Hi; lia). f_equal. cbn. lia.
Qed.
Lemma concat_slices {A} : forall (s : list (list (list A))) n2 n3,
  Forall (fun rows => List.length rows = n2 /\ Forall (fun r => List.length r = n3) rows) s ->
  Forall (fun r => List.length r = (n2 * n3)%nat) (map (@List.concat A) s).
Proof.
  intros s n2 n3. induction 1 as [|rows s [H1 H2] _ IH]; cbn; constructor; [|exact IH]. clear IH. subst n2.
  induction H2 as [|r rows H _ IH]; [reflexivity|]. cbn. rewrite app_length, IH. lia.
Qed.
Lemma Forall2_len {A B} {P : A -> B -> Prop} {l l'} : Forall2 P l l' -> List.length l = List.length l'.
Proof. induction 1; cbn; congruence. Qed.
Lemma index_in n i : (i < n)%nat -> Z.to_nat (jax_index n (Z.of_nat i)) = i.
Proof. intros H. unfold jax_index, clipZ. rewrite Z.max_l, Z.min_l by lia || idtac. lia. Qed.

Lemma scales_apply m f bs pos lowers uppers shape vals : scales (f_type f) bs ->
  f_content f = Grid lowers uppers shape vals -> List.length bs = List.length lowers ->
  apply_file m f pos = apply_grid m (fun _ => bs) f pos.
Proof.
  intros H Hc Hl. unfold apply_file. destruct (f_type f) as [s|l] eqn:T; inversion H as [? b n Hs|? ? F]; subst.
  - rewrite repeat_length in Hl. subst n. inversion Hs; subst; unfold apply_grid; rewrite Hc; reflexivity.
  - assert (E : forallb (fun s => (String.eqb s "regbin" || String.eqb s "log_regbin")%bool) l = true /\
      map (String.eqb "log_regbin") l = bs).
    { clear - F. induction F as [|s b l bs Hs _ [I1 I2]]; [split; reflexivity|]. cbn [forallb map].
      rewrite I1, I2. inversion Hs; subst; split; reflexivity. }
    destruct E as [-> ->]. reflexivity.
Qed.
Lemma probs_linear n bs : probabilities_linear n bs ->
  forall i, nth_error (probs_of n) i = Some true -> nth_error bs i <> Some true.
Proof.
  intros H i Hi. destruct n as [s|l]; cbn [probs_of] in Hi; [destruct i; discriminate|].
  rewrite nth_error_map in Hi. destruct (nth_error l i) as [s|] eqn:E; [|discriminate]. injection Hi as Hi.
  apply (H l i s eq_refl E). unfold is_prob in Hi. apply Bool.orb_true_iff in Hi as [Hi|Hi]; apply String.eqb_eq in Hi; auto.
Qed.

(** A table of points: straight lines between the points, the value of the last point outside. *)
Theorem C128_points m f name refs vals x : a_curve m ->
  f_type f = TypeOne "point" -> f_name f = NameOne name -> name <> "pdf"%string -> f_content f = Points refs vals ->
  (1 <= List.length refs)%nat -> increasing refs ->
  (x <= ent refs 0 -> apply_file m f [x] = Ok (ent vals 0)) /\
  (ent refs (List.length refs - 1) <= x -> apply_file m f [x] = Ok (ent vals (List.length refs - 1))) /\
  (forall i, (S i < List.length refs)%nat -> ent refs i <= x <= ent refs (S i) ->
     apply_file m f [x] = Ok (line (ent refs i) (ent vals i) (ent refs (S i)) (ent vals (S i)) x)).
Proof.
  intros Hm Ht Hn Np Hc Hl Hi.
  assert (E : exists b, apply_file m f [x] = map_point m b false refs vals x).
  { unfold apply_file. rewrite Ht. unfold apply_points. rewrite Hc, Hn.
    repeat match goal with
    | |- context[match ?s with EmptyString => _ | String _ _ => _ end] => destruct s; try (eexists; reflexivity)
    | |- context[match ?a with Ascii.Ascii _ _ _ _ _ _ _ _ => _ end] => destruct a
    | |- context[if ?b then _ else _] => is_var b; destruct b; try (eexists; reflexivity)
    end; try (eexists; reflexivity). destruct (Np eq_refl). }
  destruct E as [b E]. rewrite E. apply C33_linear; assumption.
Qed.

(** A density (coordinate_name pdf) is turned into the map from the cumulative probability to the coordinate: the
    probability that lies below the k-th point (by trapezoids) is mapped to the middle of the interval before it, and nothing outside the
    middles of the first and the last interval is returned. *)
Theorem C128_pdf m f refs vals : a_curve m ->
  f_type f = TypeOne "point" -> f_name f = NameOne "pdf" -> f_content f = Points refs vals ->
  List.length refs = List.length vals -> (2 <= List.length refs)%nat -> increasing refs -> (forall v, In v vals -> 0 < v) ->
  (forall k, (S k < List.length refs)%nat ->
     apply_file m f [area refs vals (S k) / area refs vals (List.length refs - 1)] = Ok ((ent refs k + ent refs (S k)) / 2)) /\
  forall u, exists s, apply_file m f [u] = Ok s /\
    (ent refs 0 + ent refs 1) / 2 <= s <= (ent refs (List.length refs - 2) + ent refs (List.length refs - 1)) / 2.
Proof.
  intros Hm Ht Hn Hc Hl H2 Hi Hp.
  assert (E : forall u, apply_file m f [u] = map_pdf m refs vals u).
  { intros u. unfold apply_file. rewrite Ht. unfold apply_points. rewrite Hc, Hn. reflexivity. }
  split; [intros k Hk|intros u]; rewrite E || setoid_rewrite E.
  - apply C37_half_bin_low; assumption.
  - apply C37_sample_range; assumption.
Qed.

(** A grid of two axes, each with its own scale: at the nodes, equally spaced on linear axes and geometrically on
    logarithmic ones, the map has the number that is written in the nested list. *)
Theorem C128_grid2 m f l1 l2 lo1 lo2 hi1 hi2 n1 n2 rows i j : m = LERP \/ m = NN ->
  scales (f_type f) [l1; l2] -> probabilities_linear (f_name f) [l1; l2] ->
  f_content f = Grid [lo1; lo2] [hi1; hi2] [n1; n2] (List.concat rows) -> rows_of n1 n2 rows ->
  proper_bounds l1 lo1 hi1 -> proper_bounds l2 lo2 hi2 -> (2 <= n1)%nat -> (2 <= n2)%nat -> (i < n1)%nat -> (j < n2)%nat ->
  apply_file m f [scaled_place l1 lo1 hi1 n1 (Z.of_nat i); scaled_place l2 lo2 hi2 n2 (Z.of_nat j)] =
    Ok (nth j (nth i rows []) 0).
Proof.
  intros Hm Hs Hp Hc [R1 R2] P1 P2 N1 N2 Hi Hj. rewrite (scales_apply _ _ _ _ _ _ _ _ Hs Hc eq_refl).
  unfold apply_grid. rewrite Hc.
  assert (E : Ok (nth j (nth i rows []) 0) = Ok (look2 n1 n2 (List.concat rows) (Z.of_nat i) (Z.of_nat j))).
  { unfold look2. rewrite !index_in by assumption. rewrite nth_rows by (try assumption; lia). reflexivity. }
  rewrite E. pose proof (probs_linear _ _ Hp) as Q.
  destruct Hm as [-> | ->]; [apply C38_lerp_nodes|apply C38_nn_nodes]; try assumption; lia.
Qed.

Lemma nn3_nodes ax ay az look i j k : proper_axis ax -> proper_axis ay -> proper_axis az ->
  on_axis ax i -> on_axis ay j -> on_axis az k ->
  nn_3d ax ay az look (place ax i) (place ay j) (place az k) = look i j k.
Proof.
  intros Hx Hy Hz Hi Hj Hk.
  assert (G : forall a k, proper_axis a -> on_axis a k -> Z.of_nat (nearest (linspace a) (place a k)) = k).
  { intros a q Ha Hq. pose proof (C36_nodes a a (fun i _ => IZR i) q q Ha Ha Hq Hq) as E. unfold nn_2d in E.
    apply eq_IZR in E. exact E. }
  unfold nn_3d. rewrite !G by assumption. reflexivity.
Qed.

(** A grid of three axes likewise. *)
Theorem C128_grid3 m f l1 l2 l3 lo1 lo2 lo3 hi1 hi2 hi3 n1 n2 n3 s i j k : m = LERP \/ m = NN ->
  scales (f_type f) [l1; l2; l3] -> probabilities_linear (f_name f) [l1; l2; l3] ->
  f_content f = Grid [lo1; lo2; lo3] [hi1; hi2; hi3] [n1; n2; n3] (List.concat (List.concat s)) -> slices_of n1 n2 n3 s ->
  proper_bounds l1 lo1 hi1 -> proper_bounds l2 lo2 hi2 -> proper_bounds l3 lo3 hi3 ->
  (2 <= n1)%nat -> (2 <= n2)%nat -> (2 <= n3)%nat -> (i < n1)%nat -> (j < n2)%nat -> (k < n3)%nat ->
  apply_file m f [scaled_place l1 lo1 hi1 n1 (Z.of_nat i); scaled_place l2 lo2 hi2 n2 (Z.of_nat j); scaled_place l3 lo3 hi3 n3 (Z.of_nat k)] =
    Ok (nth k (nth j (nth i s []) []) 0).
Proof.
  intros Hm Hs Hp Hc [R1 R2] P1 P2 P3 N1 N2 N3 Hi Hj Hk. rewrite (scales_apply _ _ _ _ _ _ _ _ Hs Hc eq_refl).
  unfold apply_grid. rewrite Hc. cbn [List.length].
  assert (F2 : Forall (fun rows => List.length rows = n2) s).
  { revert R2. apply Forall_impl. intros rows [H _]. exact H. }
  assert (F3 : Forall (fun r => List.length r = n3) (List.concat s)).
  { clear - R2. induction R2 as [|rows s [_ H] _ IH]; cbn; [constructor|]. apply Forall_app. split; assumption. }
  assert (L : List.length (List.concat s) = (n1 * n2)%nat).
  { clear - R1 F2. subst n1. induction F2 as [|rows s H _ IH]; [reflexivity|]. cbn. rewrite app_length, IH, H. reflexivity. }
  assert (E : Ok (nth k (nth j (nth i s []) []) 0) = Ok (look3 n1 n2 n3 (List.concat (List.concat s)) (Z.of_nat i) (Z.of_nat j) (Z.of_nat k))).
  { unfold look3. rewrite !index_in by assumption. rewrite (nth_rows 0 (List.concat s)) by (try assumption; nia).
    rewrite (nth_rows [] s) by (try assumption; lia). reflexivity. }
  rewrite E. pose proof (probs_linear _ _ Hp) as Q. clear E.
  destruct (scaled_node l1 lo1 hi1 n1 (Z.of_nat i) P1 N1 ltac:(lia)) as [A1 E1].
  destruct (scaled_node l2 lo2 hi2 n2 (Z.of_nat j) P2 N2 ltac:(lia)) as [A2 E2].
  destruct (scaled_node l3 lo3 hi3 n3 (Z.of_nat k) P3 N3 ltac:(lia)) as [A3 E3].
  unfold map_regbin_3d. rewrite C38_accepted; [|tauto|right; reflexivity|reflexivity|exact Q|].
  - cbn [axes_of preprocess combine map fst snd]. rewrite E1, E2, E3.
    assert (O : on_axis (mk_axis (preprocess1 l1 lo1) (preprocess1 l1 hi1) n1) (Z.of_nat i) /\
                on_axis (mk_axis (preprocess1 l2 lo2) (preprocess1 l2 hi2) n2) (Z.of_nat j) /\
                on_axis (mk_axis (preprocess1 l3 lo3) (preprocess1 l3 hi3) n3) (Z.of_nat k)).
    { unfold on_axis. cbn. lia. }
    destruct O as (O1 & O2 & O3).
    destruct Hm as [-> | ->]; f_equal; [apply C34_trilinear_nodes|apply nn3_nodes]; assumption.
  - intros q b Hq Hb. pose proof float_bounds. destruct P1 as [L1 P1], P2 as [L2 P2], P3 as [L3 P3].
    destruct q as [|[|[|q]]]; cbn in Hq, Hb; [| | |destruct q; discriminate].
    + injection Hq as ->. destruct (P1 eq_refl). destruct Hb as [Hb|Hb]; injection Hb as <-; lra.
    + injection Hq as ->. destruct (P2 eq_refl). destruct Hb as [Hb|Hb]; injection Hb as <-; lra.
    + injection Hq as ->. destruct (P3 eq_refl). destruct Hb as [Hb|Hb]; injection Hb as <-; lra.
Qed.

Lemma look2_entry n1 n2 rows i j : rows_of n1 n2 rows -> (0 <= i < Z.of_nat n1)%Z -> (0 <= j < Z.of_nat n2)%Z ->
  look2 n1 n2 (List.concat rows) i j = entry2 rows i j.
Proof.
  intros [R1 R2] Hi Hj. unfold look2, entry2. rewrite <- (Z2Nat.id i) at 1 by lia. rewrite <- (Z2Nat.id j) at 1 by lia.
  rewrite !index_in by lia. apply nth_rows; [assumption|lia|lia].
Qed.
Lemma look3_entry n1 n2 n3 s i j k : slices_of n1 n2 n3 s ->
  (0 <= i < Z.of_nat n1)%Z -> (0 <= j < Z.of_nat n2)%Z -> (0 <= k < Z.of_nat n3)%Z ->
  look3 n1 n2 n3 (List.concat (List.concat s)) i j k = entry3 s i j k.
Proof.
  intros [R1 R2] Hi Hj Hk. unfold look3, entry3.
  rewrite <- (Z2Nat.id i) at 1 by lia. rewrite <- (Z2Nat.id j) at 1 by lia. rewrite <- (Z2Nat.id k) at 1 by lia.
  rewrite !index_in by lia.
  assert (F2 : Forall (fun rows => List.length rows = n2) s).
  { revert R2. apply Forall_impl. intros rows [H _]. exact H. }
  assert (F3 : Forall (fun r => List.length r = n3) (List.concat s)).
  { clear - R2. induction R2 as [|rows s [_ H] _ IH]; cbn; [constructor|]. apply Forall_app. split; assumption. }
  assert (L : List.length (List.concat s) = (n1 * n2)%nat).
  { clear - R1 F2. subst n1. induction F2 as [|rows s H _ IH]; [reflexivity|]. cbn. rewrite app_length, IH, H. reflexivity. }
  rewrite (nth_rows 0 (List.concat s)) by (try assumption; nia). rewrite (nth_rows [] s) by (try assumption; lia). reflexivity.
Qed.
(** Inverse-distance weighting on linear axes: inside the grid the map is the average of the numbers written at the corners of the cell,
    weighted with the inverse of the distances to them. *)
Theorem C128_idw2 f lo1 lo2 hi1 hi2 n1 n2 rows x y :
  scales (f_type f) [false; false] ->
  f_content f = Grid [lo1; lo2] [hi1; hi2] [n1; n2] (List.concat rows) -> rows_of n1 n2 rows ->
  (2 <= n1)%nat -> (2 <= n2)%nat -> lo1 <= x < hi1 -> lo2 <= y < hi2 ->
  let ax := mk_axis lo1 hi1 n1 in let ay := mk_axis lo2 hi2 n2 in
  exists i j v, on_axis ax i /\ on_axis ax (i + 1) /\ on_axis ay j /\ on_axis ay (j + 1) /\
    place ax i <= x < place ax (i + 1) /\ place ay j <= y < place ay (j + 1) /\ apply_file IDW f [x; y] = Ok v /\
    inverse_weighted
      [away2 ax ay x y i j; away2 ax ay x y (i + 1) j; away2 ax ay x y i (j + 1); away2 ax ay x y (i + 1) (j + 1)]
      [entry2 rows i j; entry2 rows (i + 1) j; entry2 rows i (j + 1); entry2 rows (i + 1) (j + 1)] v.
Proof.
  intros Hs Hc Hr N1 N2 Hx Hy ax ay. rewrite (scales_apply _ _ _ _ _ _ _ _ Hs Hc eq_refl). unfold apply_grid. rewrite Hc.
  destruct (C35_2d ax ay (look2 n1 n2 (List.concat rows)) x y) as (i & j & O1 & O2 & I1 & I2 & U1 & U2 & W).
  1,2: split; cbn; [assumption|lra].
  cbn [ax ay a_lo a_hi] in I1, I2, U1, U2. specialize (I1 Hx). specialize (I2 Hy). specialize (U1 (proj2 Hx)). specialize (U2 (proj2 Hy)).
  exists i, j, (idw_2d ax ay (look2 n1 n2 (List.concat rows)) x y).
  do 6 (split; [assumption|]). unfold on_axis in O1, O2, U1, U2. cbn in O1, O2, U1, U2. split.
  - unfold map_regbin_2d. rewrite C38_accepted; [reflexivity|tauto|left; reflexivity|reflexivity| |].
    + intros [|[|[|q]]] _; discriminate.
    + intros [|[|[|q]]] b Hq; discriminate.
  - rewrite !(look2_entry n1 n2 rows) in W by (assumption || lia). exact W.
Qed.
Theorem C128_idw3 f lo1 lo2 lo3 hi1 hi2 hi3 n1 n2 n3 s x y z :
  scales (f_type f) [false; false; false] ->
  f_content f = Grid [lo1; lo2; lo3] [hi1; hi2; hi3] [n1; n2; n3] (List.concat (List.concat s)) -> slices_of n1 n2 n3 s ->
  (2 <= n1)%nat -> (2 <= n2)%nat -> (2 <= n3)%nat -> lo1 <= x < hi1 -> lo2 <= y < hi2 -> lo3 <= z < hi3 ->
  let ax := mk_axis lo1 hi1 n1 in let ay := mk_axis lo2 hi2 n2 in let az := mk_axis lo3 hi3 n3 in
  exists i j k v, on_axis ax i /\ on_axis ax (i + 1) /\ on_axis ay j /\ on_axis ay (j + 1) /\ on_axis az k /\ on_axis az (k + 1) /\
    place ax i <= x < place ax (i + 1) /\ place ay j <= y < place ay (j + 1) /\ place az k <= z < place az (k + 1) /\
    apply_file IDW f [x; y; z] = Ok v /\
    let d := away3 ax ay az x y z in let e := entry3 s in
    inverse_weighted
      [d i j k; d (i + 1)%Z j k; d i (j + 1)%Z k; d i j (k + 1)%Z;
       d (i + 1)%Z (j + 1)%Z k; d i (j + 1)%Z (k + 1)%Z; d (i + 1)%Z j (k + 1)%Z; d (i + 1)%Z (j + 1)%Z (k + 1)%Z]
      [e i j k; e (i + 1)%Z j k; e i (j + 1)%Z k; e i j (k + 1)%Z;
       e (i + 1)%Z (j + 1)%Z k; e i (j + 1)%Z (k + 1)%Z; e (i + 1)%Z j (k + 1)%Z; e (i + 1)%Z (j + 1)%Z (k + 1)%Z] v.
Proof.
  intros Hs Hc Hr N1 N2 N3 Hx Hy Hz ax ay az. rewrite (scales_apply _ _ _ _ _ _ _ _ Hs Hc eq_refl). unfold apply_grid. rewrite Hc.
  destruct (C35_3d ax ay az (look3 n1 n2 n3 (List.concat (List.concat s))) x y z) as (i & j & k & O1 & O2 & O3 & I1 & I2 & I3 & U1 & U2 & U3 & W).
  1,2,3: split; cbn; [assumption|lra].
  cbn [ax ay az a_lo a_hi] in I1, I2, I3, U1, U2, U3. specialize (I1 Hx). specialize (I2 Hy). specialize (I3 Hz).
  specialize (U1 (proj2 Hx)). specialize (U2 (proj2 Hy)). specialize (U3 (proj2 Hz)).
  exists i, j, k, (idw_3d ax ay az (look3 n1 n2 n3 (List.concat (List.concat s))) x y z).
  do 9 (split; [assumption|]). unfold on_axis in O1, O2, O3, U1, U2, U3. cbn in O1, O2, O3, U1, U2, U3. split.
  - unfold map_regbin_3d. rewrite C38_accepted; [reflexivity|tauto|right; reflexivity|reflexivity| |].
    + intros [|[|[|[|q]]]] _; discriminate.
    + intros [|[|[|[|q]]]] b Hq; discriminate.
  - cbv zeta in W |- *. rewrite !(look3_entry n1 n2 n3 s) in W by (assumption || lia). exact W.
Qed.
Example C128_case_idw : exists v, apply_file IDW (mk_map_file (TypeOne "regbin") (NameList ["x"; "y"]%string)
  (Grid [0; 0] [1; 1] [2; 2]%nat (List.concat [[1; 2]; [3; 4]]))) [1 / 2; 1 / 2] = Ok v.
Proof.
  edestruct (C128_idw2 (mk_map_file (TypeOne "regbin") (NameList ["x"; "y"]%string)
    (Grid [0; 0] [1; 1] [2; 2]%nat (List.concat [[1; 2]; [3; 4]]))) 0 0 1 1 2 2 [[1; 2]; [3; 4]] (1 / 2) (1 / 2))
    as (i & j & v & _ & _ & _ & _ & _ & _ & E & _); try lia; try lra.
  - apply (scales_all "regbin" false 2). constructor.
  - reflexivity.
  - split; [reflexivity|repeat constructor].
  - exists v. exact E.
Qed.

(** Files that are refused, whatever the position. *)
Theorem C128_refused m f pos :
  (* a type that is none of the four *)
  (forall s, f_type f = TypeOne s -> s <> "point"%string -> s <> "log_point"%string -> (forall b, ~ scale_of s b) ->
     apply_file m f pos = Err ValueError) /\
  (* a type in a list that is not one of a grid *)
  (forall l s, f_type f = TypeList l -> In s l -> (forall b, ~ scale_of s b) -> apply_file m f pos = Err ValueError) /\
  (* the entries of a table of points with the type of a grid, and conversely *)
  (forall bs refs vals, scales (f_type f) bs -> f_content f = Points refs vals -> apply_file m f pos = Err KeyError) /\
  (forall lowers uppers shape vals, f_type f = TypeOne "point" \/ f_type f = TypeOne "log_point" ->
     f_content f = Grid lowers uppers shape vals -> apply_file m f pos = Err KeyError) /\
  (* logarithms of probabilities *)
  (forall x name refs vals, pos = [x] -> f_type f = TypeOne "log_point" -> f_name f = NameOne name ->
     name = "pdf"%string \/ name = "cdf"%string -> f_content f = Points refs vals -> apply_file m f pos = Err ValueError).
Proof.
  assert (N1 : ~ (forall b, ~ scale_of "regbin" b)) by (intros H; apply (H false); constructor).
  assert (N2 : ~ (forall b, ~ scale_of "log_regbin" b)) by (intros H; apply (H true); constructor).
  split; [|split; [|split; [|split]]].
  - intros s T H1 H2 H3. unfold apply_file. rewrite T.
    assert (H4 : s <> "regbin"%string) by (intros ->; auto). assert (H5 : s <> "log_regbin"%string) by (intros ->; auto).
    clear - H1 H2 H4 H5.
    repeat match goal with
    | |- context[match ?s with EmptyString => _ | String _ _ => _ end] => destruct s; try reflexivity
    | |- context[match ?a with Ascii.Ascii _ _ _ _ _ _ _ _ => _ end] => destruct a
    | |- context[if ?b then _ else _] => is_var b; destruct b; try reflexivity
    end; try reflexivity; congruence.
  - intros l s T H1 H2. unfold apply_file. rewrite T.
    destruct (forallb _ l) eqn:E; [|reflexivity]. rewrite forallb_forall in E. specialize (E s H1).
    apply Bool.orb_true_iff in E as [E|E]; apply String.eqb_eq in E; subst; tauto.
  - intros bs refs vals H Hc. unfold apply_file. destruct (f_type f) as [s|l] eqn:T; inversion H as [? b n Hs|? ? F]; subst.
    + inversion Hs; subst; unfold apply_grid; rewrite Hc; reflexivity.
    + assert (E : forallb (fun s => (String.eqb s "regbin" || String.eqb s "log_regbin")%bool) l = true).
      { clear - F. induction F as [|s b l bs Hs _ I1]; [reflexivity|]. cbn [forallb]. rewrite I1. inversion Hs; reflexivity. }
      rewrite E. unfold apply_grid. rewrite Hc. reflexivity.
  - intros lowers uppers shape vals T Hc. unfold apply_file. destruct T as [-> | ->]; unfold apply_points; rewrite Hc; reflexivity.
  - intros x name refs vals -> T Hn Hp Hc. unfold apply_file. rewrite T. unfold apply_points. rewrite Hc, Hn.
    destruct Hp as [-> | ->]; reflexivity.
Qed.

(** Grids that are refused: an axis called pdf or cdf that is logarithmic, a bound of a logarithmic axis that is not positive,
    types for another number of axes, and every grid with one axis (C55). *)
Theorem C128_refused_grid m f lowers uppers shape vals pos bs : scales (f_type f) bs ->
  f_content f = Grid lowers uppers shape vals -> (List.length shape = 2 \/ List.length shape = 3)%nat ->
  List.length lowers = List.length shape ->
  (exists l i s, f_name f = NameList l /\ nth_error l i = Some s /\ (s = "pdf" \/ s = "cdf")%string /\
     List.length bs = List.length lowers /\ nth_error bs i = Some true) \/
  (exists i b, List.length bs = List.length lowers /\ nth_error bs i = Some true /\ b <= 0 /\
     (nth_error lowers i = Some b \/ nth_error uppers i = Some b)) \/
  (exists l, f_type f = TypeList l /\ List.length l <> List.length lowers) ->
  apply_file m f pos = Err ValueError.
Proof.
  intros Hs Hc Hd Hl H.
  assert (B : build_regbin (probs_of (f_name f)) bs lowers uppers m = Err ValueError /\ apply_file m f pos = apply_grid m (fun _ => bs) f pos).
  { destruct H as [(l & i & s & Hn & Hi & Hp & Hb & Ht)|[(i & b & Hb & Hi & Hle & Hbd)|(l & Ht & Hne)]].
    - split; [|exact (scales_apply _ _ _ _ _ _ _ _ Hs Hc Hb)]. unfold build_regbin. rewrite Hb, Nat.eqb_refl. cbn [negb].
      replace (existsb _ _) with true; [reflexivity|]. symmetry. apply existsb_exists. exists (true, true). split; [|reflexivity].
      rewrite Hn. cbn [probs_of].
      assert (E : nth_error (map is_prob l) i = Some true).
      { rewrite nth_error_map, Hi. cbn. destruct Hp as [-> | ->]; reflexivity. }
      revert Ht E. generalize (map is_prob l). clear. revert bs. induction i as [|i IH]; intros [|b bs] [|p ps] H1 H2; try discriminate.
      + injection H1 as ->. injection H2 as ->. left. reflexivity.
      + right. exact (IH _ _ H1 H2).
    - split; [|exact (scales_apply _ _ _ _ _ _ _ _ Hs Hc Hb)]. exact (C38_rejected _ _ _ _ _ _ _ Hi Hbd Hle).
    - rewrite Ht in Hs. inversion Hs as [|? ? F]; subst. pose proof (Forall2_len F) as L. split.
      + unfold build_regbin. replace (Nat.eqb (List.length bs) (List.length lowers)) with false; [reflexivity|].
        symmetry. apply Nat.eqb_neq. lia.
      + assert (E : forallb (fun s => (String.eqb s "regbin" || String.eqb s "log_regbin")%bool) l = true /\
          map (String.eqb "log_regbin") l = bs).
        { clear - F. induction F as [|s b l bs Hs _ [I1 I2]]; [split; reflexivity|]. cbn [forallb map].
          rewrite I1, I2. inversion Hs; subst; split; reflexivity. }
        unfold apply_file. rewrite Ht. destruct E as [-> ->]. reflexivity. }
  destruct B as [B ->]. unfold apply_grid. rewrite Hc.
  destruct shape as [|n1 [|n2 [|n3 [|n4 shape]]]]; cbn in Hd; try lia.
  - unfold map_regbin_2d. rewrite B. reflexivity.
  - unfold map_regbin_3d. rewrite B. reflexivity.
Qed.
Theorem C128_one_axis_refuted m f b lo hi n vals x : scales (f_type f) [b] ->
  f_content f = Grid [lo] [hi] [n] vals -> apply_file m f [x] = Err ValueError.
Proof.
  intros Hs Hc. rewrite (scales_apply _ _ _ _ _ _ _ _ Hs Hc eq_refl). unfold apply_grid. rewrite Hc. unfold map_regbin_1d.
  destruct (build_regbin _ _ _ _ m) as [|e] eqn:E; [reflexivity|]. unfold build_regbin, validate_bounds in E. cbn in E.
  repeat match type of E with
  | context[match ?c with _ => _ end] => match type of c with result _ => fail 1 | _ => destruct c; cbn in E; try congruence end
  end.
Qed.

(** A file with a logarithmic and a linear axis, one with a density, and one with one axis. *)
Definition mf_grid : map_file := mk_map_file (TypeList ["log_regbin"; "regbin"]%string) (NameList ["energy"; "z"]%string)
  (Grid [1; -3] [100; 3] [3; 2]%nat [1; 2; 3; 4; 5; 6]).
Example C128_case_grid : apply_file LERP mf_grid [scaled_place true 1 100 3 1; scaled_place false (-3) 3 2 0] = Ok 3.
Proof.
  pose proof (C128_grid2 LERP mf_grid true false 1 (-3) 100 3 3 2 [[1; 2]; [3; 4]; [5; 6]] 1 0 (or_introl eq_refl)) as H.
  apply H; try lia.
  - cbn. constructor. repeat constructor.
  - intros l i s Hn Hi Hp. cbn in Hn. injection Hn as <-. destruct i as [|[|[|i]]]; cbn in Hi; try discriminate;
      injection Hi as <-; destruct Hp; discriminate.
  - reflexivity.
  - split; [reflexivity|repeat constructor].
  - apply one_hundred.
  - split; [lra|discriminate].
Qed.
(** The place of this node: ten, and the lower end. *)
Example C128_case_place : scaled_place true 1 100 3 1 = 10 /\ scaled_place false (-3) 3 2 0 = -3.
Proof.
  split; unfold scaled_place; cbn [INR].
  - replace (1 + 1 + 1 - 1) with (1 + 1) by ring. rewrite Rmult_1_l. replace (100 / 1) with (10 * 10) by field.
    replace (IZR 1 / (1 + 1)) with (/ 2) by (cbn; field). rewrite Rpower_sqrt by lra. apply sqrt_square. lra.
  - cbn. field.
Qed.
Definition mf_pdf : map_file := mk_map_file (TypeOne "point") (NameOne "pdf") (Points [0; 1; 2] [1; 1; 1]).
Example C128_case_pdf : exists u, 0 < u < 1 /\ apply_file LERP mf_pdf [u] = Ok (1 / 2).
Proof.
  assert (I3 : increasing [0; 1; 2]).
  { intros p q Hpq. cbn in Hpq. assert (p = 0 /\ q = 1 \/ p = 0 /\ q = 2 \/ p = 1 /\ q = 2)%nat as [[-> ->]|[[-> ->]|[-> ->]]] by lia;
      unfold ent; cbn; lra. }
  destruct (C128_pdf LERP mf_pdf [0; 1; 2] [1; 1; 1]) as [H _]; try reflexivity; try (cbn; lia); [right; reflexivity|exact I3| |].
  - intros v Hv. cbn in Hv. destruct Hv as [<-|[<-|[<-|[]]]]; lra.
  - eexists. split; [|rewrite (H 0%nat) by (cbn; lia); f_equal; unfold ent; cbn; field].
    unfold area. cbn. unfold ent. cbn. lra.
Qed.
Example C128_case_refused x : apply_file LERP (mk_map_file (TypeOne "regbin") (NameOne "cs1") (Grid [0] [100] [2]%nat [1; 2])) [x] = Err ValueError /\
  apply_file LERP (mk_map_file (TypeOne "bins") (NameOne "cs1") (Points [0; 100] [1; 2])) [x] = Err ValueError.
Proof.
  split.
  - eapply (C128_one_axis_refuted LERP _ false); [apply (scales_all "regbin" false 1); constructor|reflexivity].
  - destruct (C128_refused LERP (mk_map_file (TypeOne "bins") (NameOne "cs1") (Points [0; 100] [1; 2])) [x]) as [H _].
    apply (H "bins"%string); try discriminate; [reflexivity|]. intros b Hb. inversion Hb.
Qed.

Print Assumptions C128_points.
Print Assumptions C128_pdf.
Print Assumptions C128_grid2.
Print Assumptions C128_grid3.
Print Assumptions C128_idw2.
Print Assumptions C128_idw3.
Print Assumptions C128_refused.
Print Assumptions C128_refused_grid.
Print Assumptions C128_one_axis_refuted.
