(** Properties of interpolation, maps and sigma maps: C31, C33-C38, C55-C57. *)
From Coq Require Import Reals ZArith Lra Lia Permutation.
From Verif Require Import Base ModelInterp SpecInterp ProofInterp ProofInterp2.
Local Open Scope R_scope.

(* ------------------------------------------------------------------ *)
(** * C31: SigmaMap *)

Theorem C31_values : forall median lower upper,
  sigma_apply (Some 0) median lower upper = median /\
  sigma_apply (Some 1) median lower upper = upper /\
  sigma_apply (Some (-1)) median lower upper = lower.
Proof.
  intros. unfold sigma_apply. repeat split.
  - destruct (Rlt_dec 0 0); lra.
  - destruct (Rlt_dec 0 1); lra.
  - destruct (Rlt_dec 0 (-1)); lra.
Qed.

(** A map given as a single file (no parameter, three times the same map) returns that map. *)
Theorem C31_static : forall v, sigma_apply None v v v = v.
Proof. intros. unfold sigma_apply. destruct (Rlt_dec 0 1); lra. Qed.

(** Linear interpolation on either side of the median. *)
Theorem C31_straight : forall median lower upper s,
  (0 <= s -> sigma_apply (Some s) median lower upper = line 0 median 1 upper s) /\
  (s <= 0 -> sigma_apply (Some s) median lower upper = line (-1) lower 0 median s).
Proof.
  intros. unfold sigma_apply, line. split; intros H; destruct (Rlt_dec 0 s); try (replace s with 0 by lra); field.
Qed.

Theorem C31_monotone : forall median lower upper s s', lower <= median <= upper -> s <= s' ->
  sigma_apply (Some s) median lower upper <= sigma_apply (Some s') median lower upper.
Proof.
  intros median lower upper s s' H L. unfold sigma_apply. destruct (Rlt_dec 0 s), (Rlt_dec 0 s'); nra.
Qed.

Theorem C31_between : forall median lower upper s, lower <= median <= upper -> -1 <= s <= 1 ->
  lower <= sigma_apply (Some s) median lower upper <= upper.
Proof. intros median lower upper s H L. unfold sigma_apply. destruct (Rlt_dec 0 s); nra. Qed.

Theorem C31_continuous : forall median lower upper K s s',
  Rabs (upper - median) <= K -> Rabs (median - lower) <= K ->
  Rabs (sigma_apply (Some s') median lower upper - sigma_apply (Some s) median lower upper) <= K * Rabs (s' - s).
Proof.
  intros median lower upper K s s' H1 H2.
  assert (B1 : - K <= upper - median <= K) by (unfold Rabs in H1; destruct (Rcase_abs (upper - median)); lra).
  assert (B2 : - K <= median - lower <= K) by (unfold Rabs in H2; destruct (Rcase_abs (median - lower)); lra).
  unfold sigma_apply. apply Rabs_le.
  destruct (Rlt_dec 0 s), (Rlt_dec 0 s'); unfold Rabs; destruct (Rcase_abs (s' - s)); split; nra.
Qed.

Example C31_case : sigma_apply (Some (/ 2)) 3 1 7 = 5 /\ sigma_apply (Some (- / 2)) 3 1 7 = 2.
Proof. unfold sigma_apply. split; [destruct (Rlt_dec 0 (/ 2))|destruct (Rlt_dec 0 (- / 2))]; lra. Qed.

(* ------------------------------------------------------------------ *)
(** * C33: point maps *)

(** Below the first, above the last, and between two neighbouring points; for both the IDW and the
    LERP method of a point map. *)
Theorem C33_linear : forall m prob refs vals x, m = IDW \/ m = LERP -> (1 <= List.length refs)%nat -> increasing refs ->
  (x <= ent refs 0 -> map_point m prob false refs vals x = Ok (ent vals 0)) /\
  (ent refs (List.length refs - 1) <= x -> map_point m prob false refs vals x = Ok (ent vals (List.length refs - 1))) /\
  (forall i, (S i < List.length refs)%nat -> ent refs i <= x <= ent refs (S i) ->
     map_point m prob false refs vals x = Ok (line (ent refs i) (ent vals i) (ent refs (S i)) (ent vals (S i)) x)).
Proof.
  intros m prob refs vals x Hm Hn Hinc.
  assert (E : map_point m prob false refs vals x = Ok (curve refs vals x)).
  { unfold map_point. rewrite andb_false_r.
    assert (P : forall l, map (preprocess1 false) l = l) by (intros l; unfold preprocess1; apply map_id).
    destruct Hm as [-> | ->]; cbn [point_interpolator validate_points andb]; rewrite !P; unfold preprocess1; [reflexivity|].
    rewrite interp_curve by assumption. reflexivity. }
  rewrite E. repeat split; intros; f_equal.
  - apply curve_low; assumption.
  - apply curve_high; assumption.
  - apply curve_between; assumption.
Qed.

(** Every query falls in one of the three cases. *)
Theorem C33_covers : forall refs x, (1 <= List.length refs)%nat ->
  x <= ent refs 0 \/ ent refs (List.length refs - 1) <= x \/
  exists i, (S i < List.length refs)%nat /\ ent refs i <= x <= ent refs (S i).
Proof. intros. apply locate. assumption. Qed.

Theorem C33_nodes : forall m prob refs vals i, m = IDW \/ m = LERP -> (i < List.length refs)%nat -> increasing refs ->
  map_point m prob false refs vals (ent refs i) = Ok (ent vals i).
Proof.
  intros m prob refs vals i Hm Hi Hinc.
  destruct (C33_linear m prob refs vals (ent refs i) Hm ltac:(lia) Hinc) as (_ & A & B).
  destruct (Nat.eq_dec i (List.length refs - 1)) as [E|N].
  - subst i. apply A. lra.
  - pose proof (Hinc i (S i) ltac:(lia)). rewrite (B i) by (lia || lra). f_equal. unfold line. field. lra.
Qed.

Theorem C33_bounded : forall m prob refs vals x, m = IDW \/ m = LERP -> (1 <= List.length refs)%nat ->
  List.length vals = List.length refs -> increasing refs ->
  exists y, map_point m prob false refs vals x = Ok y /\ among y vals.
Proof.
  intros m prob refs vals x Hm Hn Hl Hinc.
  destruct (C33_linear m prob refs vals x Hm Hn Hinc) as (A & B & C).
  assert (HI : forall i, (i < List.length refs)%nat -> In (ent vals i) vals) by (intros i Hi; apply nth_In; lia).
  destruct (locate refs Hn x) as [L|[L|(i & Hi & L)]].
  - exists (ent vals 0). split; [auto|]. intros lo hi H. apply H, HI. lia.
  - exists (ent vals (List.length refs - 1)). split; [auto|]. intros lo hi H. apply H, HI. lia.
  - eexists. split; [apply (C i Hi L)|]. intros lo hi H.
    destruct (line_between (ent refs i) (ent vals i) (ent refs (S i)) (ent vals (S i)) x (Hinc i (S i) ltac:(lia)) L) as (t & Ht & _ & ->).
    pose proof (H _ (HI i ltac:(lia))). pose proof (H _ (HI (S i) ltac:(lia))). nra.
Qed.

Theorem C33_monotone : forall m prob refs vals x x' y y', m = IDW \/ m = LERP -> (1 <= List.length refs)%nat ->
  List.length vals = List.length refs -> increasing refs -> non_decreasing vals -> x <= x' ->
  map_point m prob false refs vals x = Ok y -> map_point m prob false refs vals x' = Ok y' -> y <= y'.
Proof.
  intros m prob refs vals x x' y y' Hm Hn Hl Hinc Hv L.
  assert (P : forall l, map (preprocess1 false) l = l) by (intros l; unfold preprocess1; apply map_id).
  unfold map_point. rewrite andb_false_r.
  destruct Hm as [-> | ->]; cbn [point_interpolator validate_points andb]; rewrite !P; unfold preprocess1; intros E1 E2; injection E1 as <-; injection E2 as <-.
  - apply curve_mono; assumption.
  - rewrite !interp_curve by assumption. apply curve_mono; assumption.
Qed.

(** Continuous, with the steepest segment as Lipschitz constant. *)
Theorem C33_continuous : forall m prob refs vals x x' y y' K, m = IDW \/ m = LERP -> (1 <= List.length refs)%nat ->
  increasing refs -> 0 <= K ->
  (forall i, (S i < List.length refs)%nat -> Rabs (ent vals (S i) - ent vals i) <= K * (ent refs (S i) - ent refs i)) ->
  map_point m prob false refs vals x = Ok y -> map_point m prob false refs vals x' = Ok y' ->
  Rabs (y' - y) <= K * Rabs (x' - x).
Proof.
  intros m prob refs vals x x' y y' K Hm Hn Hinc HK0 HK.
  assert (P : forall l, map (preprocess1 false) l = l) by (intros l; unfold preprocess1; apply map_id).
  unfold map_point. rewrite andb_false_r.
  destruct Hm as [-> | ->]; cbn [point_interpolator validate_points andb]; rewrite !P; unfold preprocess1; intros E1 E2; injection E1 as <-; injection E2 as <-.
  - apply curve_lipschitz; assumption.
  - rewrite !interp_curve by assumption. apply curve_lipschitz; assumption.
Qed.

Example C33_case : map_point IDW false false [0; 1; 3] [5; 7; 1] 2 = Ok 4.
Proof.
  destruct (C33_linear IDW false [0; 1; 3] [5; 7; 1] 2 (or_introl eq_refl)) as (_ & _ & A).
  - cbn. lia.
  - intros i j H. cbn in H. assert (Hc : (i = 0 /\ j = 1 \/ i = 0 /\ j = 2 \/ i = 1 /\ j = 2)%nat) by lia.
    unfold ent. destruct Hc as [[-> ->]|[[-> ->]|[-> ->]]]; cbn; lra.
  - rewrite (A 1%nat); [|cbn; lia|unfold ent; cbn; lra]. f_equal. unfold line, ent. cbn. field.
Qed.

(* ------------------------------------------------------------------ *)
(** * C34: bilinear and trilinear maps *)

Theorem C34_bilinear_nodes : forall ax ay look i j, proper_axis ax -> proper_axis ay -> on_axis ax i -> on_axis ay j ->
  bilinear ax ay look (place ax i) (place ay j) = look i j.
Proof. intros. rewrite bilinear_lerp, lerp1_node, lerp1_node by assumption. reflexivity. Qed.
Theorem C34_trilinear_nodes : forall ax ay az look i j k, proper_axis ax -> proper_axis ay -> proper_axis az ->
  on_axis ax i -> on_axis ay j -> on_axis az k ->
  trilinear ax ay az look (place ax i) (place ay j) (place az k) = look i j k.
Proof. intros. rewrite trilinear_lerp, lerp1_node, lerp1_node, lerp1_node by assumption. reflexivity. Qed.

(** Maps that are linear in each coordinate are reproduced; outside, at the nearest point of the box. *)
Theorem C34_bilinear_reproduces : forall ax ay look x y a b c d, proper_axis ax -> proper_axis ay ->
  (forall i j, on_axis ax i -> on_axis ay j ->
     look i j = a + b * place ax i + c * place ay j + d * place ax i * place ay j) ->
  bilinear ax ay look x y = a + b * into ax x + c * into ay y + d * into ax x * into ay y.
Proof.
  intros ax ay look x y a b c d Hx Hy H. rewrite bilinear_lerp.
  rewrite (lerp1_ext ay _ (fun j => (a + b * into ax x) + (c + d * into ax x) * place ay j)); [|exact Hy|].
  - rewrite lerp1_affine by exact Hy. ring.
  - intros j Hj. rewrite (lerp1_ext ax _ (fun i => (a + c * place ay j) + (b + d * place ay j) * place ax i)); [|exact Hx|].
    + rewrite lerp1_affine by exact Hx. ring.
    + intros i Hi. rewrite H by assumption. ring.
Qed.
Theorem C34_trilinear_reproduces : forall ax ay az look x y z a b c d e f g h,
  proper_axis ax -> proper_axis ay -> proper_axis az ->
  (forall i j k, on_axis ax i -> on_axis ay j -> on_axis az k ->
     look i j k = a + b * place ax i + c * place ay j + d * place az k + e * place ax i * place ay j +
       f * place ax i * place az k + g * place ay j * place az k + h * place ax i * place ay j * place az k) ->
  trilinear ax ay az look x y z =
    a + b * into ax x + c * into ay y + d * into az z + e * into ax x * into ay y +
    f * into ax x * into az z + g * into ay y * into az z + h * into ax x * into ay y * into az z.
Proof.
  intros ax ay az look x y z a b c d e f g h Hx Hy Hz H. rewrite trilinear_lerp. set (X := into ax x). set (Y := into ay y).
  rewrite (lerp1_ext az _ (fun k => (a + b * X + c * Y + e * X * Y) + (d + f * X + g * Y + h * X * Y) * place az k)); [|exact Hz|].
  - rewrite lerp1_affine by exact Hz. ring.
  - intros k Hk. rewrite (lerp1_ext ay _ (fun j => (a + b * X + d * place az k + f * X * place az k) + (c + e * X + g * place az k + h * X * place az k) * place ay j)); [|exact Hy|].
    + rewrite lerp1_affine by exact Hy. fold Y. ring.
    + intros j Hj. rewrite (lerp1_ext ax _ (fun i => (a + c * place ay j + d * place az k + g * place ay j * place az k) + (b + e * place ay j + f * place az k + h * place ay j * place az k) * place ax i)); [|exact Hx|].
      * rewrite lerp1_affine by exact Hx. fold X. ring.
      * intros i Hi. rewrite H by assumption. ring.
Qed.

(** The cell used contains the query (moved into the box). *)
Lemma cell_contains a x : proper_axis a ->
  place a (lerp_index a x) <= into a x <= place a (lerp_index a x + 1).
Proof.
  intros H. assert (Hlh : a_lo a < a_hi a) by (destruct H; assumption).
  pose proof (lerp_index_range a x H) as [R1 R2].
  pose proof (place_lt a (lerp_index a x) (lerp_index a x + 1) H ltac:(lia)) as Hlt.
  unfold into. destruct (Rlt_dec x (a_lo a)) as [L|L].
  - destruct (lerp_cases a x H) as [(A & E & _)|[(A & _)|(i & t & Hi & Hn & Ht & E & _ & Ex)]].
    + rewrite E in *. cbn [Z.add] in *. rewrite place_first in *. lra.
    + lra.
    + pose proof (place_le a 0 i H ltac:(lia)) as Hz. rewrite place_first in Hz. rewrite E in *. nra.
  - destruct (Rlt_dec (a_hi a) x) as [U|U].
    + destruct (lerp_cases a x H) as [(A & _)|[(A & E & _)|(i & t & Hi & Hn & Ht & E & _ & Ex)]].
      * lra.
      * rewrite E in *. replace (Z.of_nat (a_n a) - 2 + 1)%Z with (Z.of_nat (a_n a) - 1)%Z in * by lia. rewrite place_last in * by exact H. lra.
      * pose proof (place_le a (i + 1) (Z.of_nat (a_n a) - 1) H ltac:(lia)) as Hz. rewrite place_last in Hz by exact H. rewrite E in *. nra.
    + destruct (lerp_cases a x H) as [(A & E & _)|[(A & E & _)|(i & t & Hi & Hn & Ht & E & _ & Ex)]].
      * rewrite E in *. cbn [Z.add] in *. rewrite place_first in *. lra.
      * rewrite E in *. replace (Z.of_nat (a_n a) - 2 + 1)%Z with (Z.of_nat (a_n a) - 1)%Z in * by lia. rewrite place_last in * by exact H. lra.
      * rewrite E in *. nra.
Qed.

Theorem C34_bilinear_bounded : forall ax ay look x y, proper_axis ax -> proper_axis ay ->
  exists i j, on_axis ax i /\ on_axis ax (i + 1) /\ on_axis ay j /\ on_axis ay (j + 1) /\
    place ax i <= into ax x <= place ax (i + 1) /\ place ay j <= into ay y <= place ay (j + 1) /\
    among (bilinear ax ay look x y) [look i j; look (i + 1)%Z j; look i (j + 1)%Z; look (i + 1)%Z (j + 1)%Z].
Proof.
  intros ax ay look x y Hx Hy. exists (lerp_index ax x), (lerp_index ay y).
  pose proof (lerp_index_range ax x Hx). pose proof (lerp_index_range ay y Hy).
  repeat (split; [unfold on_axis; lia|]). split; [apply cell_contains, Hx|]. split; [apply cell_contains, Hy|].
  intros lo hi HB. rewrite bilinear_lerp. apply lerp1_cell_bounds; apply lerp1_cell_bounds; apply HB; cbn [In]; tauto.
Qed.
Theorem C34_trilinear_bounded : forall ax ay az look x y z, proper_axis ax -> proper_axis ay -> proper_axis az ->
  exists i j k, on_axis ax i /\ on_axis ax (i + 1) /\ on_axis ay j /\ on_axis ay (j + 1) /\ on_axis az k /\ on_axis az (k + 1) /\
    place ax i <= into ax x <= place ax (i + 1) /\ place ay j <= into ay y <= place ay (j + 1) /\
    place az k <= into az z <= place az (k + 1) /\
    among (trilinear ax ay az look x y z)
      [look i j k; look (i + 1)%Z j k; look i (j + 1)%Z k; look (i + 1)%Z (j + 1)%Z k;
       look i j (k + 1)%Z; look (i + 1)%Z j (k + 1)%Z; look i (j + 1)%Z (k + 1)%Z; look (i + 1)%Z (j + 1)%Z (k + 1)%Z].
Proof.
  intros ax ay az look x y z Hx Hy Hz. exists (lerp_index ax x), (lerp_index ay y), (lerp_index az z).
  pose proof (lerp_index_range ax x Hx). pose proof (lerp_index_range ay y Hy). pose proof (lerp_index_range az z Hz).
  repeat (split; [unfold on_axis; lia|]). split; [apply cell_contains, Hx|]. split; [apply cell_contains, Hy|]. split; [apply cell_contains, Hz|].
  intros lo hi HB. rewrite trilinear_lerp.
  apply lerp1_cell_bounds; apply lerp1_cell_bounds; apply lerp1_cell_bounds; apply HB; cbn [In]; tauto.
Qed.

Theorem C34_bilinear_clamps : forall ax ay look x y, proper_axis ax -> proper_axis ay ->
  bilinear ax ay look x y = bilinear ax ay look (into ax x) (into ay y).
Proof.
  intros ax ay look x y Hx Hy. rewrite !bilinear_lerp, (lerp1_into ay _ y Hy). apply lerp1_ext; [exact Hy|].
  intros j Hj. apply lerp1_into, Hx.
Qed.
Theorem C34_trilinear_clamps : forall ax ay az look x y z, proper_axis ax -> proper_axis ay -> proper_axis az ->
  trilinear ax ay az look x y z = trilinear ax ay az look (into ax x) (into ay y) (into az z).
Proof.
  intros ax ay az look x y z Hx Hy Hz. rewrite !trilinear_lerp, (lerp1_into az _ z Hz). apply lerp1_ext; [exact Hz|].
  intros k Hk. rewrite (lerp1_into ay _ y Hy). apply lerp1_ext; [exact Hy|]. intros j Hj. apply lerp1_into, Hx.
Qed.

(** No value outside the array is used. *)
Theorem C34_in_range : forall ax ay az look look' x y, proper_axis ax -> proper_axis ay ->
  (forall i j, on_axis ax i -> on_axis ay j -> look i j = look' i j) ->
  bilinear ax ay look x y = bilinear ax ay look' x y /\
  forall look3 look3' z, proper_axis az ->
    (forall i j k, on_axis ax i -> on_axis ay j -> on_axis az k -> look3 i j k = look3' i j k) ->
    trilinear ax ay az look3 x y z = trilinear ax ay az look3' x y z.
Proof.
  intros ax ay az look look' x y Hx Hy H. split.
  - rewrite !bilinear_lerp. apply lerp1_ext; [exact Hy|]. intros j Hj. apply lerp1_ext; [exact Hx|]. intros i Hi. auto.
  - intros look3 look3' z Hz H3. rewrite !trilinear_lerp. apply lerp1_ext; [exact Hz|]. intros k Hk. apply lerp1_ext; [exact Hy|]. intros j Hj.
    apply lerp1_ext; [exact Hx|]. intros i Hi. auto.
Qed.

(** Non-decreasing maps give non-decreasing functions. *)
Theorem C34_bilinear_monotone : forall ax ay look x y x' y', proper_axis ax -> proper_axis ay ->
  (forall i j i' j', on_axis ax i -> on_axis ay j -> on_axis ax i' -> on_axis ay j' -> (i <= i')%Z -> (j <= j')%Z -> look i j <= look i' j') ->
  x <= x' -> y <= y' -> bilinear ax ay look x y <= bilinear ax ay look x' y'.
Proof.
  intros ax ay look x y x' y' Hx Hy H Lx Ly. rewrite !bilinear_lerp.
  apply Rle_trans with (lerp1 ay (fun j => lerp1 ax (fun i => look i j) x) y').
  - apply lerp1_mono; [exact Hy| |exact Ly]. intros j j' Hj Hj' L. apply lerp1_mono_vals; [exact Hx|].
    intros i Hi. apply H; auto. lia.
  - apply lerp1_mono_vals; [exact Hy|]. intros j Hj. apply lerp1_mono; [exact Hx| |exact Lx].
    intros i i' Hi Hi' L. apply H; auto. lia.
Qed.

Example C34_case : bilinear (mk_axis 0 2 3) (mk_axis 0 1 2) (fun i j => IZR (i * i + j)) (3 / 2) (/ 2) = 3.
Proof.
  rewrite bilinear_lerp.
  assert (Hx : proper_axis (mk_axis 0 2 3)) by (split; cbn; [lia|lra]).
  assert (Hy : proper_axis (mk_axis 0 1 2)) by (split; cbn; [lia|lra]).
  rewrite (lerp1_between _ _ _ 0 Hy); [|lia|cbn; lia|unfold place; cbn; lra].
  rewrite !(lerp1_between _ _ (3 / 2) 1 Hx); [|lia|cbn; lia|unfold place; cbn; lra|lia|cbn; lia|unfold place; cbn; lra].
  unfold line, place. cbn. field.
Qed.

(* ------------------------------------------------------------------ *)
(** * C57: continuity *)

(** LERP maps are continuous: Lipschitz with the steepest cell slopes. *)
Theorem C57_bilinear_continuous : forall ax ay look K L x y x' y', proper_axis ax -> proper_axis ay -> 0 <= K -> 0 <= L ->
  (forall i j, on_axis ax i -> on_axis ax (i + 1) -> on_axis ay j ->
     Rabs (look (i + 1)%Z j - look i j) <= K * (place ax (i + 1) - place ax i)) ->
  (forall i j, on_axis ax i -> on_axis ay j -> on_axis ay (j + 1) ->
     Rabs (look i (j + 1)%Z - look i j) <= L * (place ay (j + 1) - place ay j)) ->
  Rabs (bilinear ax ay look x' y' - bilinear ax ay look x y) <= K * Rabs (x' - x) + L * Rabs (y' - y).
Proof.
  intros ax ay look K L x y x' y' Hx Hy HK HL H1 H2. rewrite !bilinear_lerp.
  replace (_ - _) with ((lerp1 ay (fun j => lerp1 ax (fun i => look i j) x') y' - lerp1 ay (fun j => lerp1 ax (fun i => look i j) x) y') +
    (lerp1 ay (fun j => lerp1 ax (fun i => look i j) x) y' - lerp1 ay (fun j => lerp1 ax (fun i => look i j) x) y)) by lra.
  eapply Rle_trans; [apply Rabs_triang|]. apply Rplus_le_compat.
  - apply lerp1_diff; [exact Hy|]. intros j Hj. apply lerp1_lipschitz; auto.
  - apply lerp1_lipschitz; auto. intros j Hj Hj1. apply lerp1_diff; auto.
Qed.

Theorem C57_trilinear_continuous : forall ax ay az look K L M x y z x' y' z',
  proper_axis ax -> proper_axis ay -> proper_axis az -> 0 <= K -> 0 <= L -> 0 <= M ->
  (forall i j k, on_axis ax i -> on_axis ax (i + 1) -> on_axis ay j -> on_axis az k ->
     Rabs (look (i + 1)%Z j k - look i j k) <= K * (place ax (i + 1) - place ax i)) ->
  (forall i j k, on_axis ax i -> on_axis ay j -> on_axis ay (j + 1) -> on_axis az k ->
     Rabs (look i (j + 1)%Z k - look i j k) <= L * (place ay (j + 1) - place ay j)) ->
  (forall i j k, on_axis ax i -> on_axis ay j -> on_axis az k -> on_axis az (k + 1) ->
     Rabs (look i j (k + 1)%Z - look i j k) <= M * (place az (k + 1) - place az k)) ->
  Rabs (trilinear ax ay az look x' y' z' - trilinear ax ay az look x y z) <=
    K * Rabs (x' - x) + L * Rabs (y' - y) + M * Rabs (z' - z).
Proof.
  intros ax ay az look K L M x y z x' y' z' Hx Hy Hz HK HL HM H1 H2 H3.
  assert (A : Rabs (trilinear ax ay az look x' y' z' - trilinear ax ay az look x y z') <= K * Rabs (x' - x) + L * Rabs (y' - y)).
  { rewrite !trilinear_lerp. apply lerp1_diff; [exact Hz|]. intros k Hk.
    rewrite <- !(bilinear_lerp ax ay (fun i j => look i j k)). apply C57_bilinear_continuous; auto. }
  assert (B : Rabs (trilinear ax ay az look x y z' - trilinear ax ay az look x y z) <= M * Rabs (z' - z)).
  { rewrite !trilinear_lerp. apply lerp1_lipschitz; auto. intros k Hk Hk1. apply lerp1_diff; [exact Hy|]. intros j Hj.
    apply lerp1_diff; [exact Hx|]. intros i Hi. auto. }
  replace (trilinear ax ay az look x' y' z' - trilinear ax ay az look x y z) with
    ((trilinear ax ay az look x' y' z' - trilinear ax ay az look x y z') + (trilinear ax ay az look x y z' - trilinear ax ay az look x y z)) by ring.
  eapply Rle_trans; [apply Rabs_triang|]. lra.
Qed.

(** IDW maps jump at the border between two cells: the map is the index along x, the query moves along
    y = 1/2 through the node at x = 1. *)
Theorem C57_idw_jumps_refuted : forall x, 0 <= x < 1 ->
  idw_2d (mk_axis 0 2 3) (mk_axis 0 1 2) (fun i j => IZR i) x (/ 2) <= 1 /\
  5 / 4 < idw_2d (mk_axis 0 2 3) (mk_axis 0 1 2) (fun i j => IZR i) 1 (/ 2).
Proof.
  assert (Hx : proper_axis (mk_axis 0 2 3)) by (split; cbn; [lia|lra]).
  assert (Hy : proper_axis (mk_axis 0 1 2)) by (split; cbn; [lia|lra]).
  assert (F : forall v, frac (mk_axis 0 2 3) v = v) by (intros v; unfold frac, bin_size; cbn; field).
  assert (G : frac (mk_axis 0 1 2) (/ 2) = / 2) by (unfold frac, bin_size; cbn; field).
  assert (J : idw_index (mk_axis 0 1 2) (/ 2) = 0%Z).
  { unfold idw_index. rewrite G, (Int_part_is _ 0) by lra. reflexivity. }
  intros x H. split.
  - assert (I : idw_index (mk_axis 0 2 3) x = 0%Z).
    { unfold idw_index. rewrite F, (Int_part_is _ 0) by lra. reflexivity. }
    unfold idw_2d. rewrite I, J.
    set (l := map _ _).
    assert (W : inverse_weighted (map fst l) (map snd l) (idw l)).
    { apply idw_weights; [discriminate|]. intros d v Hd. apply in_map_iff in Hd. destruct Hd as ([i j] & E & _). injection E as <- _. apply clip_dist_pos. }
    apply inverse_weighted_among in W; [|rewrite !map_length; reflexivity].
    apply (W 0 1). subst l. cbn. intros v [<-|[<-|[<-|[<-|[]]]]]; lra.
  - assert (I : idw_index (mk_axis 0 2 3) 1 = 1%Z).
    { unfold idw_index. rewrite F, (Int_part_is _ 1) by lra. reflexivity. }
    unfold idw_2d. rewrite I, J.
    assert (N : forall i, node (mk_axis 0 2 3) i = IZR i) by (intros i; unfold node, bin_size; cbn; field).
    assert (M : forall i, node (mk_axis 0 1 2) i = IZR i) by (intros i; unfold node, bin_size; cbn; field).
    cbn [map fst snd]. rewrite !N, !M. cbn [Z.add Pos.add].
    assert (D : forall d, / 4 <= d <= 4 -> exists r, clip_dist (sqrt d) = r /\ 0 < r /\ r * r = d).
    { intros d Hd. exists (sqrt d). assert (0 < sqrt d) by (apply sqrt_lt_R0; lra). split; [|split; [assumption|apply sqrt_sqrt; lra]].
      assert (S1 : / 2 <= sqrt d). { rewrite <- (sqrt_Rsqr (/ 2)) by lra. apply sqrt_le_1; unfold Rsqr; lra. }
      assert (S2 : sqrt d <= 2). { rewrite <- (sqrt_Rsqr 2) by lra. apply sqrt_le_1; unfold Rsqr; lra. }
      unfold clip_dist. apply clipR_mid. unfold float_pos_min, float_pos_max.
      assert (A : 2 <= 2 ^ 126). { replace (2 ^ 126) with (2 * 2 ^ 125) by (cbn; ring). assert (1 <= 2 ^ 125) by (apply pow_R1_Rle; lra). lra. }
      assert (B : 1 <= 2 ^ 23) by (apply pow_R1_Rle; lra). assert (/ 2 ^ 23 <= 1) by (rewrite <- Rinv_1; apply Rinv_le_contravar; lra).
      assert (C : 2 ^ 127 = 2 * 2 ^ 126) by (cbn; ring).
      assert (/ 2 ^ 126 <= / 2) by (apply Rinv_le_contravar; lra). nra. }
    destruct (D ((1 - 1) ^ 2 + (0 - / 2) ^ 2) ltac:(lra)) as (r1 & -> & P1 & Q1).
    destruct (D ((2 - 1) ^ 2 + (0 - / 2) ^ 2) ltac:(lra)) as (r2 & -> & P2 & Q2).
    destruct (D ((1 - 1) ^ 2 + (1 - / 2) ^ 2) ltac:(lra)) as (r3 & -> & P3 & Q3).
    destruct (D ((2 - 1) ^ 2 + (1 - / 2) ^ 2) ltac:(lra)) as (r4 & -> & P4 & Q4).
    assert (E1 : r1 = / 2) by nra. assert (E3 : r3 = / 2) by nra. assert (E4 : r4 = r2) by nra. subst r1 r3 r4.
    assert (U : r2 < 5 / 4) by nra. unfold idw. cbn [map sumR fst snd].
    match goal with |- _ < ?t => replace t with ((2 * r2 + 2) / (2 * r2 + 1)) by (field; repeat split; lra) end.
    apply (Rmult_lt_reg_r (2 * r2 + 1)); [lra|]. unfold Rdiv at 2. rewrite Rmult_assoc, Rinv_l by lra. lra.
Qed.

(* ------------------------------------------------------------------ *)
(** * C35: inverse-distance maps *)

Lemma limited_clip d : clip_dist d = limited d.
Proof. reflexivity. Qed.

(** The corners of one cell, with weights proportional to the inverse distances; the cell contains the
    query when the query lies in the box. *)
Theorem C35_2d : forall ax ay look x y, proper_axis ax -> proper_axis ay ->
  exists i j, on_axis ax i /\ on_axis ay j /\
    (a_lo ax <= x < a_hi ax -> place ax i <= x < place ax (i + 1)) /\
    (a_lo ay <= y < a_hi ay -> place ay j <= y < place ay (j + 1)) /\
    (x < a_hi ax -> on_axis ax (i + 1)) /\ (y < a_hi ay -> on_axis ay (j + 1)) /\
    inverse_weighted
      [away2 ax ay x y i j; away2 ax ay x y (i + 1) j; away2 ax ay x y i (j + 1); away2 ax ay x y (i + 1) (j + 1)]
      [look i j; look (i + 1)%Z j; look i (j + 1)%Z; look (i + 1)%Z (j + 1)%Z]
      (idw_2d ax ay look x y).
Proof.
  intros ax ay look x y Hx Hy. exists (idw_index ax x), (idw_index ay y).
  split; [apply idw_index_range; destruct Hx; lia|]. split; [apply idw_index_range; destruct Hy; lia|].
  split; [apply idw_index_inside, Hx|]. split; [apply idw_index_inside, Hy|].
  split; [intros L; apply idw_index_below; assumption|]. split; [intros L; apply idw_index_below; assumption|].
  unfold idw_2d. set (i := idw_index ax x). set (j := idw_index ay y). set (l := map _ _).
  assert (W : inverse_weighted (map fst l) (map snd l) (idw l)).
  { apply idw_weights; [discriminate|]. intros d v Hd. apply in_map_iff in Hd. destruct Hd as ([i' j'] & E & _). injection E as <- _. apply clip_dist_pos. }
  unfold away2. rewrite <- !limited_clip, <- !place_node. exact W.
Qed.

Theorem C35_3d : forall ax ay az look x y z, proper_axis ax -> proper_axis ay -> proper_axis az ->
  exists i j k, on_axis ax i /\ on_axis ay j /\ on_axis az k /\
    (a_lo ax <= x < a_hi ax -> place ax i <= x < place ax (i + 1)) /\
    (a_lo ay <= y < a_hi ay -> place ay j <= y < place ay (j + 1)) /\
    (a_lo az <= z < a_hi az -> place az k <= z < place az (k + 1)) /\
    (x < a_hi ax -> on_axis ax (i + 1)) /\ (y < a_hi ay -> on_axis ay (j + 1)) /\ (z < a_hi az -> on_axis az (k + 1)) /\
    let d := away3 ax ay az x y z in
    inverse_weighted
      [d i j k; d (i + 1)%Z j k; d i (j + 1)%Z k; d i j (k + 1)%Z;
       d (i + 1)%Z (j + 1)%Z k; d i (j + 1)%Z (k + 1)%Z; d (i + 1)%Z j (k + 1)%Z; d (i + 1)%Z (j + 1)%Z (k + 1)%Z]
      [look i j k; look (i + 1)%Z j k; look i (j + 1)%Z k; look i j (k + 1)%Z;
       look (i + 1)%Z (j + 1)%Z k; look i (j + 1)%Z (k + 1)%Z; look (i + 1)%Z j (k + 1)%Z; look (i + 1)%Z (j + 1)%Z (k + 1)%Z]
      (idw_3d ax ay az look x y z).
Proof.
  intros ax ay az look x y z Hx Hy Hz. exists (idw_index ax x), (idw_index ay y), (idw_index az z).
  split; [apply idw_index_range; destruct Hx; lia|]. split; [apply idw_index_range; destruct Hy; lia|]. split; [apply idw_index_range; destruct Hz; lia|].
  split; [apply idw_index_inside, Hx|]. split; [apply idw_index_inside, Hy|]. split; [apply idw_index_inside, Hz|].
  split; [intros L; apply idw_index_below; assumption|]. split; [intros L; apply idw_index_below; assumption|]. split; [intros L; apply idw_index_below; assumption|].
  cbn zeta. unfold idw_3d. set (i := idw_index ax x). set (j := idw_index ay y). set (k := idw_index az z). set (l := map _ _).
  assert (W : inverse_weighted (map fst l) (map snd l) (idw l)).
  { apply idw_weights; [discriminate|]. intros d v Hd. apply in_map_iff in Hd. destruct Hd as ([[i' j'] k'] & E & _). injection E as <- _. apply clip_dist_pos. }
  unfold away3. rewrite <- !limited_clip, <- !place_node. exact W.
Qed.

(** Weighted averages stay between the smallest and largest value, and closer points weigh more. *)
Theorem C35_average : forall ds vs y, List.length ds = List.length vs -> (forall d, In d ds -> 0 < d) ->
  inverse_weighted ds vs y ->
  among y vs /\
  exists ws, y = sumR (map (fun p => fst p * snd p) (combine ws vs)) /\ sumR ws = 1 /\
    forall i j, (i < List.length ds)%nat -> (j < List.length ds)%nat -> ent ds i <= ent ds j -> ent ws j <= ent ws i.
Proof.
  intros ds vs y Hl Hd W. split; [apply (inverse_weighted_among ds); assumption|].
  destruct W as (ws & L & P & S & -> & Q). exists ws. split; [reflexivity|]. split; [exact S|].
  intros i j Hi Hj Le. specialize (Q i j Hi Hj).
  assert (0 < ent ds i) by (apply Hd, nth_In, Hi). assert (0 < ent ws i) by (apply P, nth_In; lia). assert (0 < ent ws j) by (apply P, nth_In; lia). nra.
Qed.

(** With the indexing rule of jax, also outside the box. *)
Lemma jax_index_on a i : (1 <= a_n a)%nat -> on_axis a (jax_index (a_n a) i).
Proof. intros H. unfold on_axis, jax_index, clipZ. lia. Qed.
Theorem C35_bounded : forall ax ay look lo hi x y, proper_axis ax -> proper_axis ay ->
  (forall i j, on_axis ax i -> on_axis ay j -> lo <= look i j <= hi) ->
  lo <= idw_2d ax ay (jax_look2 ax ay look) x y <= hi.
Proof.
  intros ax ay look lo hi x y Hx Hy HB. destruct (C35_2d ax ay (jax_look2 ax ay look) x y Hx Hy) as (i & j & _ & _ & _ & _ & _ & _ & W).
  apply inverse_weighted_among in W; [|reflexivity]. apply W. intros v Hv.
  assert (E : exists i' j', v = jax_look2 ax ay look i' j') by (cbn in Hv; destruct Hv as [<-|[<-|[<-|[<-|[]]]]]; eauto).
  destruct E as (i' & j' & ->). apply HB; apply jax_index_on; [destruct Hx|destruct Hy]; lia.
Qed.
Theorem C35_bounded_3d : forall ax ay az look lo hi x y z, proper_axis ax -> proper_axis ay -> proper_axis az ->
  (forall i j k, on_axis ax i -> on_axis ay j -> on_axis az k -> lo <= look i j k <= hi) ->
  lo <= idw_3d ax ay az (jax_look3 ax ay az look) x y z <= hi.
Proof.
  intros ax ay az look lo hi x y z Hx Hy Hz HB.
  destruct (C35_3d ax ay az (jax_look3 ax ay az look) x y z Hx Hy Hz) as (i & j & k & _ & _ & _ & _ & _ & _ & _ & _ & _ & W).
  cbn zeta in W. apply inverse_weighted_among in W; [|reflexivity]. apply W. intros v Hv.
  assert (E : exists i' j' k', v = jax_look3 ax ay az look i' j' k')
    by (cbn in Hv; destruct Hv as [<-|[<-|[<-|[<-|[<-|[<-|[<-|[<-|[]]]]]]]]]; eauto).
  destruct E as (i' & j' & k' & ->). apply HB; apply jax_index_on; [destruct Hx|destruct Hy|destruct Hz]; lia.
Qed.

(** Several nearest points: the selection holds k points, none farther than one left out. The distance is the Euclidean
    one. *)
Definition squares (x r : list R) : R := fold_right Rplus 0 (map (fun ab => (fst ab - snd ab) ^ 2) (combine x r)).
Lemma dist2_squares : forall x r, dist2 x r = squares x r.
Proof.
  unfold squares. induction x as [|a x IH]; intros [|b r]; try reflexivity. cbn [dist2 combine map fold_right fst snd].
  rewrite IH. ring.
Qed.
Theorem C35_knn : forall k refs vals x, (1 <= k <= List.length refs)%nat -> List.length vals = List.length refs ->
  exists near rest y, knn k refs vals x = Ok y /\ List.length near = k /\
    Permutation (near ++ rest) (combine (map (squares x) refs) vals) /\
    (forall a b, In a near -> In b rest -> fst a <= fst b) /\
    inverse_weighted (map (fun p => Rmax (sqrt (fst p)) (/ 1000000)) near) (map snd near) y.
Proof.
  intros k refs vals x Hk Hl. rewrite <- (map_ext (dist2 x) (squares x) (dist2_squares x)). set (all := combine (map (dist2 x) refs) vals).
  assert (Hla : List.length all = List.length refs) by (subst all; rewrite combine_length, map_length; lia).
  assert (Hls : List.length (by_distance all) = List.length refs) by (rewrite <- (Permutation_length (by_distance_perm all)); exact Hla).
  exists (firstn k (by_distance all)), (skipn k (by_distance all)). eexists.
  split; [unfold knn; destruct (Nat.ltb_spec (List.length refs) k); [lia|reflexivity]|].
  split; [rewrite firstn_length; lia|].
  split; [rewrite firstn_skipn; apply Permutation_sym, by_distance_perm|].
  split; [apply by_dist_split, by_distance_sorted|].
  fold all. set (near := firstn k (by_distance all)).
  pose proof (idw_weights (map (fun dv => (Rmax (sqrt (fst dv)) (/ 1000000), snd dv)) near)) as W.
  rewrite !map_map in W. cbn [fst snd] in W. apply W.
  - intros E. apply (f_equal (@List.length _)) in E. rewrite map_length in E. subst near. rewrite firstn_length in E. cbn in E. lia.
  - intros d v Hd. apply in_map_iff in Hd. destruct Hd as (p & E & _). injection E as <- _. pose proof (Rmax_r (sqrt (fst p)) (/ 1000000)). lra.
Qed.
(** Asking for more neighbours than points is an error. *)
Theorem C35_knn_too_many : forall k refs vals x, (List.length refs < k)%nat -> knn k refs vals x = Err ValueError.
Proof. intros k refs vals x H. unfold knn. destruct (Nat.ltb_spec (List.length refs) k); [reflexivity|lia]. Qed.

Example C35_case : among (idw_2d (mk_axis 0 2 3) (mk_axis 0 1 2) (fun i j => IZR (i + j)) (3 / 2) (/ 2)) [1; 3].
Proof.
  assert (Hx : proper_axis (mk_axis 0 2 3)) by (split; cbn; [lia|lra]).
  assert (Hy : proper_axis (mk_axis 0 1 2)) by (split; cbn; [lia|lra]).
  destruct (C35_2d _ _ (fun i j => IZR (i + j)) (3 / 2) (/ 2) Hx Hy) as (i & j & [I1 I2] & [J1 J2] & A & B & C & D & W).
  specialize (A ltac:(cbn; lra)). specialize (B ltac:(cbn; lra)). destruct (C ltac:(cbn; lra)) as [C1 C2]. destruct (D ltac:(cbn; lra)) as [D1 D2].
  cbn [a_n] in *. assert (Hj : j = 0%Z) by lia.
  assert (Hi : i = 1%Z). { assert (Ho : i = 0%Z \/ i = 1%Z) by lia. destruct Ho as [-> | ->]; [|reflexivity]. unfold place in A. cbn in A. lra. }
  subst i j. apply inverse_weighted_among in W; [|reflexivity]. intros lo hi H. apply W. pose proof (H 1 ltac:(cbn; auto)). pose proof (H 3 ltac:(cbn; auto)).
  cbn. intros v [<-|[<-|[<-|[<-|[]]]]]; lra.
Qed.

(* ------------------------------------------------------------------ *)
(** * C36: nearest neighbour *)

Theorem C36_1d : forall refs vals x, refs <> [] ->
  exists k, nn_1d refs vals x = ent vals k /\ (k < List.length refs)%nat /\
    (forall j, (j < List.length refs)%nat -> Rabs (x - ent refs k) <= Rabs (x - ent refs j)) /\
    (forall j, (j < k)%nat -> Rabs (x - ent refs k) < Rabs (x - ent refs j)).
Proof. intros refs vals x H. exists (nearest refs x). split; [reflexivity|]. apply nearest_spec, H. Qed.

Theorem C36_2d : forall ax ay look x y, (1 <= a_n ax)%nat -> (1 <= a_n ay)%nat ->
  exists i j, nn_2d ax ay look x y = look i j /\ on_axis ax i /\ on_axis ay j /\
    forall i' j', on_axis ax i' -> on_axis ay j' ->
      (x - place ax i) ^ 2 + (y - place ay j) ^ 2 <= (x - place ax i') ^ 2 + (y - place ay j') ^ 2.
Proof.
  intros ax ay look x y Hx Hy. destruct (nearest_axis ax x Hx) as [A1 A2]. destruct (nearest_axis ay y Hy) as [B1 B2].
  eexists _, _. split; [reflexivity|]. split; [exact A1|]. split; [exact B1|]. intros i' j' Hi Hj.
  apply Rplus_le_compat; apply Rabs_sq; auto.
Qed.
Theorem C36_3d : forall ax ay az look x y z, (1 <= a_n ax)%nat -> (1 <= a_n ay)%nat -> (1 <= a_n az)%nat ->
  exists i j k, nn_3d ax ay az look x y z = look i j k /\ on_axis ax i /\ on_axis ay j /\ on_axis az k /\
    forall i' j' k', on_axis ax i' -> on_axis ay j' -> on_axis az k' ->
      (x - place ax i) ^ 2 + (y - place ay j) ^ 2 + (z - place az k) ^ 2 <=
      (x - place ax i') ^ 2 + (y - place ay j') ^ 2 + (z - place az k') ^ 2.
Proof.
  intros ax ay az look x y z Hx Hy Hz. destruct (nearest_axis ax x Hx) as [A1 A2]. destruct (nearest_axis ay y Hy) as [B1 B2]. destruct (nearest_axis az z Hz) as [D1 D2].
  eexists _, _, _. split; [reflexivity|]. split; [exact A1|]. split; [exact B1|]. split; [exact D1|]. intros i' j' k' Hi Hj Hk.
  apply Rplus_le_compat; [apply Rplus_le_compat|]; apply Rabs_sq; auto.
Qed.

(** At a node, that node's value. *)
Theorem C36_nodes : forall ax ay look i j, proper_axis ax -> proper_axis ay -> on_axis ax i -> on_axis ay j ->
  nn_2d ax ay look (place ax i) (place ay j) = look i j.
Proof.
  intros ax ay look i j Hx Hy Hi Hj.
  assert (G : forall a k, proper_axis a -> on_axis a k -> Z.of_nat (nearest (linspace a) (place a k)) = k).
  { intros a k Ha Hk. destruct (nearest_axis a (place a k) ltac:(destruct Ha; lia)) as [A1 A2]. specialize (A2 k Hk).
    replace (place a k - place a k) with 0 in A2 by ring. rewrite Rabs_R0 in A2. set (m := Z.of_nat _) in *.
    destruct (Ztrichotomy m k) as [L|[E|L]]; [|exact E|].
    - pose proof (place_lt a m k Ha L). rewrite Rabs_right in A2 by lra. lra.
    - pose proof (place_lt a k m Ha ltac:(lia)). rewrite Rabs_left in A2 by lra. lra. }
  unfold nn_2d. rewrite !G by assumption. reflexivity.
Qed.

Example C36_case : nn_1d [0; 1; 3] [10; 20; 30] 2 = 20.
Proof.
  destruct (C36_1d [0; 1; 3] [10; 20; 30] 2) as (k & -> & Hk & A & B); [discriminate|]. cbn in Hk.
  assert (Hc : k = 0%nat \/ k = 1%nat \/ k = 2%nat) by lia. destruct Hc as [-> |[-> | ->]].
  - specialize (A 1%nat ltac:(cbn; lia)). unfold ent in A. cbn in A. rewrite !Rabs_right in A by lra. lra.
  - reflexivity.
  - specialize (B 1%nat ltac:(lia)). unfold ent in B. cbn in B. rewrite (Rabs_left (2 - 3)), Rabs_right in B by lra. lra.
Qed.

(* ------------------------------------------------------------------ *)
(** * C37: pdf to cdf *)

Lemma area_sum x p k : List.length x = List.length p -> (k < List.length x)%nat ->
  sumR (firstn k (map (fun q => fst q * snd q) (combine (diffs x) (mids p)))) = area x p k.
Proof.
  intros Hl. induction k as [|k IH]; intros Hk; [reflexivity|]. cbn [area]. rewrite <- IH by lia.
  assert (Hc : List.length (combine (diffs x) (mids p)) = (List.length x - 1)%nat) by (rewrite combine_length, diffs_length, mids_length; lia).
  rewrite sumR_firstn_S by (rewrite map_length, Hc; lia). f_equal.
  unfold ent at 1. rewrite nth_indep with (d' := (fun q => fst q * snd q) (0, 0)) by (rewrite map_length, Hc; lia).
  rewrite (map_nth (fun q => fst q * snd q)), combine_nth by (rewrite diffs_length, mids_length; lia). cbn [fst snd].
  fold (ent (diffs x) k). fold (ent (mids p) k). rewrite diffs_ent, mids_ent by lia. reflexivity.
Qed.

Lemma area_step x p k : increasing x -> (forall v, In v p -> 0 <= v) -> List.length x = List.length p -> (S k < List.length x)%nat ->
  area x p k <= area x p (S k).
Proof.
  intros Hinc Hp Hl Hk. cbn [area]. pose proof (Hinc k (S k) ltac:(lia)).
  pose proof (Hp (ent p k) ltac:(apply nth_In; lia)). pose proof (Hp (ent p (S k)) ltac:(apply nth_In; lia)). nra.
Qed.
Lemma area_step_pos x p k : increasing x -> (forall v, In v p -> 0 < v) -> List.length x = List.length p -> (S k < List.length x)%nat ->
  area x p k < area x p (S k).
Proof.
  intros Hinc Hp Hl Hk. cbn [area]. pose proof (Hinc k (S k) ltac:(lia)).
  pose proof (Hp (ent p k) ltac:(apply nth_In; lia)). pose proof (Hp (ent p (S k)) ltac:(apply nth_In; lia)). nra.
Qed.
Lemma area_mono x p i j : increasing x -> (forall v, In v p -> 0 <= v) -> List.length x = List.length p -> (i <= j < List.length x)%nat ->
  area x p i <= area x p j.
Proof.
  intros Hinc Hp Hl [H1 H2]. induction H1 as [|j H1 IH]; [lra|]. eapply Rle_trans; [apply IH; lia|apply area_step; auto; lia].
Qed.

Lemma pdf_to_cdf_is x p : List.length x = List.length p -> (2 <= List.length x)%nat -> area x p (List.length x - 1) <> 0 ->
  exists cdf, pdf_to_cdf x p = Ok (mids x, cdf) /\ List.length cdf = (List.length x - 1)%nat /\
    forall k, (S k < List.length x)%nat -> ent cdf k = area x p (S k) / area x p (List.length x - 1).
Proof.
  intros Hl Hn Ha. unfold pdf_to_cdf, integrate, cumulative_integrate. cbn [snd fst].
  set (l := map _ _). assert (Hll : List.length l = (List.length x - 1)%nat) by (subst l; rewrite map_length, combine_length, diffs_length, mids_length; lia).
  assert (Hcs : forall k, (k < List.length l)%nat -> ent (cumsum 0 l) k = area x p (S k)).
  { intros k Hk. rewrite cumsum_ent by exact Hk. rewrite Rplus_0_l. apply area_sum; [exact Hl|lia]. }
  destruct (cumsum 0 l) as [|c cs] eqn:E; [apply (f_equal (@List.length R)) in E; rewrite cumsum_length in E; cbn in E; lia|].
  rewrite <- E in *. exists (map (fun v => v / last (cumsum 0 l) 0) (cumsum 0 l)). rewrite map_length, cumsum_length.
  split; [reflexivity|]. split; [exact Hll|]. intros k Hk.
  rewrite last_ent by congruence. rewrite cumsum_length, Hll, (Hcs (List.length x - 1 - 1)%nat) by lia.
  replace (S (List.length x - 1 - 1)) with (List.length x - 1)%nat by lia.
  unfold ent at 1. rewrite nth_indep with (d' := 0 / area x p (List.length x - 1)) by (rewrite map_length, cumsum_length; lia).
  rewrite (map_nth (fun v => v / area x p (List.length x - 1))). fold (ent (cumsum 0 l) k). rewrite Hcs by lia. reflexivity.
Qed.

(** The result: midpoints of the intervals with the share of the area up to the END of the interval. *)
Theorem C37_cdf : forall x p, List.length x = List.length p -> (2 <= List.length x)%nat -> increasing x ->
  (forall v, In v p -> 0 <= v) -> 0 < area x p (List.length x - 1) ->
  exists xs cdf, pdf_to_cdf x p = Ok (xs, cdf) /\ List.length xs = (List.length x - 1)%nat /\ List.length cdf = (List.length x - 1)%nat /\
    (forall k, (S k < List.length x)%nat ->
       ent xs k = (ent x k + ent x (S k)) / 2 /\ ent cdf k = area x p (S k) / area x p (List.length x - 1)) /\
    non_decreasing cdf /\ (forall v, In v cdf -> 0 <= v <= 1) /\ ent cdf (List.length cdf - 1) = 1.
Proof.
  intros x p Hl Hn Hinc Hp Ha. destruct (pdf_to_cdf_is x p Hl Hn ltac:(lra)) as (cdf & E & Hc & Hk).
  set (A := area x p (List.length x - 1)) in *.
  assert (HA : 0 < / A) by (apply Rinv_0_lt_compat, Ha).
  exists (mids x), cdf. split; [exact E|]. split; [apply mids_length|]. split; [exact Hc|].
  split; [intros k H; split; [apply mids_ent, H|apply Hk, H]|].
  assert (H0 : forall k, (k < List.length x)%nat -> 0 <= area x p k) by (intros k H; change 0 with (area x p 0); apply area_mono; auto; lia).
  split; [|split].
  - intros i j Hij. rewrite Hc in Hij. rewrite !Hk by lia. unfold Rdiv. apply Rmult_le_compat_r; [lra|]. apply area_mono; auto; lia.
  - intros v Hv. destruct (In_nth _ _ 0 Hv) as (k & Hk1 & <-). rewrite Hc in Hk1. fold (ent cdf k). rewrite Hk by lia. unfold Rdiv. split.
    + apply Rmult_le_pos; [apply H0; lia|lra].
    + apply (Rmult_le_reg_r A); [exact Ha|]. rewrite Rmult_assoc, Rinv_l by lra. rewrite Rmult_1_l, Rmult_1_r. apply area_mono; auto; lia.
  - rewrite Hc, Hk by lia. replace (S (List.length x - 1 - 1)) with (List.length x - 1)%nat by lia. fold A. unfold Rdiv. apply Rinv_r. lra.
Qed.

Lemma cdf_increasing x p cdf : List.length x = List.length p -> increasing x -> (forall v, In v p -> 0 < v) ->
  0 < area x p (List.length x - 1) -> List.length cdf = (List.length x - 1)%nat ->
  (forall k, (S k < List.length x)%nat -> ent cdf k = area x p (S k) / area x p (List.length x - 1)) -> increasing cdf.
Proof.
  intros Hl Hinc Hp Ha Hc Hk i j Hij. rewrite Hc in Hij. rewrite !Hk by lia. unfold Rdiv. apply Rmult_lt_compat_r; [apply Rinv_0_lt_compat, Ha|].
  eapply Rlt_le_trans; [apply area_step_pos; auto; lia|]. apply area_mono; auto; [intros v Hv; apply Rlt_le, Hp, Hv|lia].
Qed.
Lemma area_pos x p : List.length x = List.length p -> (2 <= List.length x)%nat -> increasing x -> (forall v, In v p -> 0 < v) ->
  0 < area x p (List.length x - 1).
Proof.
  intros Hl Hn Hinc Hp. apply Rlt_le_trans with (area x p 1).
  - change 0 with (area x p 0). apply area_step_pos; auto; lia.
  - apply area_mono; auto; [intros v Hv; apply Rlt_le, Hp, Hv|lia].
Qed.

(** Sampling with a pdf map (positive density): the quantile of the distribution's value at x_{k+1} is
    the middle of the interval before it, half a bin too low. *)
Theorem C37_half_bin_low : forall m x p k, m = IDW \/ m = LERP -> List.length x = List.length p -> increasing x ->
  (forall v, In v p -> 0 < v) -> (S k < List.length x)%nat ->
  map_pdf m x p (area x p (S k) / area x p (List.length x - 1)) = Ok ((ent x k + ent x (S k)) / 2).
Proof.
  intros m x p k Hm Hl Hinc Hp Hk. pose proof (area_pos x p Hl ltac:(lia) Hinc Hp) as Ha.
  destruct (pdf_to_cdf_is x p Hl ltac:(lia) ltac:(lra)) as (cdf & E & Hc & HK). unfold map_pdf. rewrite E, <- (HK k Hk).
  rewrite C33_nodes; [rewrite mids_ent by exact Hk; reflexivity|exact Hm|lia|].
  apply (cdf_increasing x p); auto.
Qed.

(** Hence the claim that a pdf map samples its density is false: for the density 1/2 on [0,2] the
    median is returned as 1/2. *)
Theorem C37_quantile_refuted :
  map_pdf LERP [0; 1; 2] [/ 2; / 2; / 2] (/ 2) = Ok (/ 2).
Proof.
  assert (Hinc : increasing [0; 1; 2]).
  { intros i j H. cbn in H. assert (Hc : (i = 0 /\ j = 1 \/ i = 0 /\ j = 2 \/ i = 1 /\ j = 2)%nat) by lia.
    unfold ent. destruct Hc as [[-> ->]|[[-> ->]|[-> ->]]]; cbn; lra. }
  pose proof (C37_half_bin_low LERP [0; 1; 2] [/ 2; / 2; / 2] 0 (or_intror eq_refl) eq_refl Hinc) as H.
  replace (area [0; 1; 2] [/ 2; / 2; / 2] 1 / area [0; 1; 2] [/ 2; / 2; / 2] (List.length [0; 1; 2] - 1)) with (/ 2) in H
    by (unfold ent; cbn; field).
  rewrite H; [f_equal; unfold ent; cbn; field| |cbn; lia]. intros v Hv. cbn in Hv. destruct Hv as [<-|[<-|[<-|[]]]]; lra.
Qed.

(** No sample falls in the first or last half interval. *)
Theorem C37_sample_range : forall m x p u, m = IDW \/ m = LERP -> List.length x = List.length p -> (2 <= List.length x)%nat ->
  increasing x -> (forall v, In v p -> 0 < v) ->
  exists s, map_pdf m x p u = Ok s /\
    (ent x 0 + ent x 1) / 2 <= s <= (ent x (List.length x - 2) + ent x (List.length x - 1)) / 2.
Proof.
  intros m x p u Hm Hl Hn Hinc Hp. pose proof (area_pos x p Hl Hn Hinc Hp) as Ha.
  destruct (pdf_to_cdf_is x p Hl Hn ltac:(lra)) as (cdf & E & Hc & HK).
  pose proof (cdf_increasing x p cdf Hl Hinc Hp Ha Hc HK) as Hci.
  destruct (C33_bounded m true cdf (mids x) u Hm) as (s & Es & Hs); [lia|rewrite mids_length; lia|exact Hci|].
  exists s. split; [unfold map_pdf; rewrite E; exact Es|]. apply Hs. intros v Hv. destruct (In_nth _ _ 0 Hv) as (k & Hk & <-).
  rewrite mids_length in Hk. fold (ent (mids x) k). rewrite mids_ent by lia.
  pose proof (increasing_le x 0 k Hinc ltac:(lia)). pose proof (increasing_le x 1 (S k) Hinc ltac:(lia)).
  pose proof (increasing_le x k (List.length x - 2) Hinc ltac:(lia)). pose proof (increasing_le x (S k) (List.length x - 1) Hinc ltac:(lia)). lra.
Qed.

Example C37_case : exists xs cdf, pdf_to_cdf [0; 1; 3] [0; 1; 1] = Ok (xs, cdf) /\ ent cdf 0 = / 5 /\ ent cdf 1 = 1 /\ ent xs 1 = 2.
Proof.
  destruct (C37_cdf [0; 1; 3] [0; 1; 1] eq_refl) as (xs & cdf & E & _ & _ & K & _).
  - cbn; lia.
  - intros i j H. cbn in H. assert (Hc : (i = 0 /\ j = 1 \/ i = 0 /\ j = 2 \/ i = 1 /\ j = 2)%nat) by lia.
    unfold ent. destruct Hc as [[-> ->]|[[-> ->]|[-> ->]]]; cbn; lra.
  - intros v Hv. cbn in Hv. destruct Hv as [<-|[<-|[<-|[]]]]; lra.
  - unfold ent. cbn. lra.
  - exists xs, cdf. split; [exact E|]. destruct (K 0%nat ltac:(cbn; lia)) as [_ A]. destruct (K 1%nat ltac:(cbn; lia)) as [B C].
    rewrite A, B, C. unfold ent. cbn. repeat split; field.
Qed.

(* ------------------------------------------------------------------ *)
(** * C38: logarithmic axes *)

Lemma ln10_pos : 0 < ln 10.
Proof. rewrite <- ln_1. apply ln_increasing; lra. Qed.

(** Coordinates: linear axes unchanged whatever their sign; on log axes the base-10 logarithm, with
    everything below the smallest positive number treated as that number. *)
Theorem C38_coordinates : forall x,
  preprocess1 false x = x /\
  (float_pos_min <= x <= float_pos_max -> 10 <> 0 /\ Rpower 10 (preprocess1 true x) = x) /\
  (x <= float_pos_min -> Rpower 10 (preprocess1 true x) = float_pos_min).
Proof.
  intros x. pose proof float_bounds. pose proof ln10_pos.
  assert (E : forall v, 0 < v -> Rpower 10 (log10 v) = v).
  { intros v Hv. unfold Rpower, log10. replace (ln v / ln 10 * ln 10) with (ln v) by (field; lra). apply exp_ln, Hv. }
  split; [reflexivity|]. split; intros H1; [split; [lra|]|]; unfold preprocess1.
  - rewrite clipR_mid by exact H1. apply E. lra.
  - rewrite clipR_low by lra. apply E. lra.
Qed.

(** Rejection at build time: exactly when a log axis has a non-positive bound, a log axis is a pdf or
    cdf axis, the flags do not match the axes, or the method or dimension is unknown. *)
Theorem C38_rejected : forall probs mask lowers uppers m i lo, nth_error mask i = Some true ->
  (nth_error lowers i = Some lo \/ nth_error uppers i = Some lo) -> lo <= 0 ->
  build_regbin probs mask lowers uppers m = Err ValueError.
Proof.
  intros probs mask lowers uppers m i lo Hm Hb Hlo.
  assert (V : forall bs, nth_error bs i = Some lo -> validate_bounds mask bs = Err ValueError).
  { intros bs H. unfold validate_bounds. rewrite (proj2 (existsb_exists _ _)); [reflexivity|]. exists (true, lo). split.
    - clear - Hm H. revert bs i Hm H. induction mask as [|b mask IH]; intros [|c bs] [|i] Hm H; cbn in *; try discriminate.
      + injection Hm as ->. injection H as ->. left. reflexivity.
      + right. apply (IH bs i); assumption.
    - cbn. destruct (Rle_dec lo 0); [reflexivity|lra]. }
  assert (Vo : forall bs, validate_bounds mask bs = Err ValueError \/ validate_bounds mask bs = Ok tt)
    by (intros bs; unfold validate_bounds; destruct (existsb _ _); auto).
  assert (B : match validate_bounds mask lowers with Err e => Err e | Ok _ => validate_bounds mask uppers end = Err ValueError).
  { destruct Hb as [Hb|Hb]; [rewrite (V _ Hb); reflexivity|]. destruct (Vo lowers) as [-> | ->]; [reflexivity|apply V, Hb]. }
  unfold build_regbin. destruct (negb _); [reflexivity|]. destruct (existsb _ _); [reflexivity|].
  destruct (List.length lowers) as [|[|[|[|n]]]]; destruct m; (exact B || reflexivity).
Qed.
Theorem C38_accepted : forall probs mask lowers uppers m, (m = IDW \/ m = LERP \/ m = NN) ->
  (List.length lowers = 2 \/ List.length lowers = 3)%nat -> List.length mask = List.length lowers ->
  (forall i, nth_error probs i = Some true -> nth_error mask i <> Some true) ->
  (forall i b, nth_error mask i = Some true -> nth_error lowers i = Some b \/ nth_error uppers i = Some b -> 0 < b) ->
  build_regbin probs mask lowers uppers m = Ok tt.
Proof.
  intros probs mask lowers uppers m Hm Hn Hl Hp Hb.
  assert (Z : forall (l : list bool) bs (f : bool * R -> bool), (forall i q, nth_error l i = Some true -> nth_error bs i = Some q -> f (true, q) = false) ->
     (forall q, f (false, q) = false) -> existsb f (combine l bs) = false).
  { induction l as [|b l IH]; intros [|c bs] f H1 H2; try reflexivity. cbn. apply orb_false_iff. split.
    - destruct b; [apply (H1 0%nat); reflexivity|apply H2].
    - apply IH; [intros i q A B; apply (H1 (S i) q A B)|exact H2]. }
  assert (P : existsb (fun pm : bool * bool => fst pm && snd pm) (combine probs mask) = false).
  { clear - Hp. revert mask Hp. induction probs as [|b probs IH]; intros [|c mask] H; try reflexivity. cbn. apply orb_false_iff. split.
    - destruct b; [|reflexivity]. destruct c; [|reflexivity]. exfalso. apply (H 0%nat); reflexivity.
    - apply IH. intros i A. apply (H (S i) A). }
  assert (V : forall bs, (forall i b, nth_error mask i = Some true -> nth_error bs i = Some b -> 0 < b) -> validate_bounds mask bs = Ok tt).
  { intros bs H. unfold validate_bounds. rewrite Z; [reflexivity| |reflexivity]. intros i q A B. cbn. specialize (H i q A B). destruct (Rle_dec q 0); [lra|reflexivity]. }
  unfold build_regbin. rewrite Hl, Nat.eqb_refl, P. cbn [negb].
  rewrite (V lowers), (V uppers); [|intros i b A B; apply (Hb i b A); auto|intros i b A B; apply (Hb i b A); auto].
  destruct Hn as [-> | ->], Hm as [-> |[-> | ->]]; reflexivity.
Qed.

(** A map with any mixture of linear and logarithmic axes returns its node values at the nodes of its
    own scale (equally spaced or geometrically spaced). *)
Lemma scaled_node is_log lo hi n i : proper_bounds is_log lo hi -> (2 <= n)%nat -> (0 <= i < Z.of_nat n)%Z ->
  proper_axis (mk_axis (preprocess1 is_log lo) (preprocess1 is_log hi) n) /\
  preprocess1 is_log (scaled_place is_log lo hi n i) = place (mk_axis (preprocess1 is_log lo) (preprocess1 is_log hi) n) i.
Proof.
  intros [Hlt Hlog] Hn Hi. assert (Hn1 : 1 <= INR n - 1) by (apply le_INR in Hn; simpl in Hn; lra).
  destruct is_log; [|split; [split; cbn; assumption|reflexivity]].
  destruct (Hlog eq_refl) as [L1 L2]. pose proof float_bounds. pose proof ln10_pos.
  unfold preprocess1. rewrite (clipR_mid lo), (clipR_mid hi) by lra.
  assert (Hln : ln lo < ln hi) by (apply ln_increasing; lra).
  assert (Hi1 : 0 <= IZR i) by (apply IZR_le; lia). assert (Hi2 : IZR i <= INR n - 1).
  { rewrite INR_IZR_INZ, <- minus_IZR. apply IZR_le. lia. }
  assert (H10 : 0 < / ln 10) by (apply Rinv_0_lt_compat; lra). assert (Hn10 : 0 < / (INR n - 1)) by (apply Rinv_0_lt_compat; lra).
  set (t := IZR i / (INR n - 1)). assert (Ht : 0 <= t <= 1).
  { unfold t, Rdiv. split; [apply Rmult_le_pos; lra|]. apply (Rmult_le_reg_r (INR n - 1)); [lra|]. rewrite Rmult_assoc, Rinv_l; lra. }
  assert (Hr : 0 < Rpower (hi / lo) t) by (unfold Rpower; apply exp_pos).
  assert (Eln : ln (lo * Rpower (hi / lo) t) = ln lo + t * (ln hi - ln lo)).
  { rewrite ln_mult by lra. unfold Rpower. rewrite ln_exp. unfold Rdiv. rewrite ln_mult, ln_Rinv by (try apply Rinv_0_lt_compat; lra). ring. }
  assert (Hpos : 0 < lo * Rpower (hi / lo) t) by (apply Rmult_lt_0_compat; lra).
  assert (B1 : lo <= lo * Rpower (hi / lo) t). { apply Rnot_lt_le. intros C. apply ln_increasing in C; [|lra]. nra. }
  assert (B2 : lo * Rpower (hi / lo) t <= hi). { apply Rnot_lt_le. intros C. apply ln_increasing in C; [|lra]. nra. }
  split.
  - split; cbn [a_n a_lo a_hi]; [exact Hn|]. unfold log10, Rdiv. apply Rmult_lt_compat_r; assumption.
  - unfold scaled_place. fold t. rewrite clipR_mid by lra. unfold place, log10. cbn [a_lo a_hi a_n]. rewrite Eln. unfold t. field. lra.
Qed.

Theorem C38_lerp_nodes : forall probs l1 l2 lo1 lo2 hi1 hi2 n1 n2 look i j,
  proper_bounds l1 lo1 hi1 -> proper_bounds l2 lo2 hi2 -> (2 <= n1)%nat -> (2 <= n2)%nat ->
  (0 <= i < Z.of_nat n1)%Z -> (0 <= j < Z.of_nat n2)%Z ->
  (forall i, nth_error probs i = Some true -> nth_error [l1; l2] i <> Some true) ->
  map_regbin_2d LERP probs [l1; l2] [lo1; lo2] [hi1; hi2] [n1; n2] look
    [scaled_place l1 lo1 hi1 n1 i; scaled_place l2 lo2 hi2 n2 j] = Ok (look i j).
Proof.
  intros probs l1 l2 lo1 lo2 hi1 hi2 n1 n2 look i j H1 H2 N1 N2 Hi Hj Hp.
  destruct (scaled_node l1 lo1 hi1 n1 i H1 N1 Hi) as [A1 E1]. destruct (scaled_node l2 lo2 hi2 n2 j H2 N2 Hj) as [A2 E2].
  unfold map_regbin_2d. rewrite C38_accepted; [|tauto|left; reflexivity|reflexivity|exact Hp|].
  - cbn [axes_of preprocess combine map fst snd]. rewrite E1, E2. f_equal. apply C34_bilinear_nodes; auto.
  - intros k b Hk Hb. pose proof float_bounds. destruct H1 as [L1 P1], H2 as [L2 P2].
    destruct k as [|[|k]]; cbn in Hk, Hb; [| |destruct k; discriminate].
    + injection Hk as ->. destruct (P1 eq_refl). destruct Hb as [Hb|Hb]; injection Hb as <-; lra.
    + injection Hk as ->. destruct (P2 eq_refl). destruct Hb as [Hb|Hb]; injection Hb as <-; lra.
Qed.
(** Nearest neighbour maps likewise. *)
Theorem C38_nn_nodes : forall probs l1 l2 lo1 lo2 hi1 hi2 n1 n2 look i j,
  proper_bounds l1 lo1 hi1 -> proper_bounds l2 lo2 hi2 -> (2 <= n1)%nat -> (2 <= n2)%nat ->
  (0 <= i < Z.of_nat n1)%Z -> (0 <= j < Z.of_nat n2)%Z ->
  (forall i, nth_error probs i = Some true -> nth_error [l1; l2] i <> Some true) ->
  map_regbin_2d NN probs [l1; l2] [lo1; lo2] [hi1; hi2] [n1; n2] look
    [scaled_place l1 lo1 hi1 n1 i; scaled_place l2 lo2 hi2 n2 j] = Ok (look i j).
Proof.
  intros probs l1 l2 lo1 lo2 hi1 hi2 n1 n2 look i j H1 H2 N1 N2 Hi Hj Hp.
  destruct (scaled_node l1 lo1 hi1 n1 i H1 N1 Hi) as [A1 E1]. destruct (scaled_node l2 lo2 hi2 n2 j H2 N2 Hj) as [A2 E2].
  unfold map_regbin_2d. rewrite C38_accepted; [|tauto|left; reflexivity|reflexivity|exact Hp|].
  - cbn [axes_of preprocess combine map fst snd]. rewrite E1, E2. f_equal. apply C36_nodes; auto.
  - intros k b Hk Hb. pose proof float_bounds. destruct H1 as [L1 P1], H2 as [L2 P2].
    destruct k as [|[|k]]; cbn in Hk, Hb; [| |destruct k; discriminate].
    + injection Hk as ->. destruct (P1 eq_refl). destruct Hb as [Hb|Hb]; injection Hb as <-; lra.
    + injection Hk as ->. destruct (P2 eq_refl). destruct Hb as [Hb|Hb]; injection Hb as <-; lra.
Qed.

Lemma one_hundred : proper_bounds true 1 100.
Proof.
  split; [lra|]. intros _. unfold float_pos_min, float_pos_max.
  assert (1 <= 2 ^ 126) by (apply pow_R1_Rle; lra). assert (B : 1 <= 2 ^ 23) by (apply pow_R1_Rle; lra).
  assert (/ 2 ^ 126 <= 1) by (rewrite <- Rinv_1; apply Rinv_le_contravar; lra).
  assert (/ 2 ^ 23 <= 1) by (rewrite <- Rinv_1; apply Rinv_le_contravar; lra).
  assert (C : 2 ^ 127 = 128 * 2 ^ 120) by (cbn; ring). assert (1 <= 2 ^ 120) by (apply pow_R1_Rle; lra). split; [lra|nra].
Qed.
Example C38_case : forall look, map_regbin_2d LERP [] [false; true] [-3; 1] [3; 100] [4%nat; 3%nat] look
  [scaled_place false (-3) 3 4 2; scaled_place true 1 100 3 1] = Ok (look 2%Z 1%Z).
Proof.
  intros look. apply C38_lerp_nodes; [split; [lra|discriminate]|apply one_hundred|lia|lia|lia|lia|]. intros [|i]; discriminate.
Qed.

(* ------------------------------------------------------------------ *)
(** * C55: one-dimensional regular maps *)

(** Such a map builds, whatever the method, and can never be applied. *)
Theorem C55_never_applies_refuted : forall m lower upper vals x,
  build_regbin [false] [false] [lower] [upper] m = Ok tt /\
  map_regbin_1d m false false lower upper vals x = Err ValueError.
Proof. intros. split; [reflexivity|]. unfold map_regbin_1d. reflexivity. Qed.
(** With scalar bounds the interpolator itself works: it is the curve through the equally spaced
    nodes. *)
Theorem C55_scalar_bounds : forall lo hi vals i, (2 <= List.length vals)%nat -> lo < hi -> (i < List.length vals)%nat ->
  regbin_1d (Scalar1 lo hi) vals (place (mk_axis lo hi (List.length vals)) (Z.of_nat i)) = Ok (ent vals i).
Proof.
  intros lo hi vals i Hn Hlt Hi. cbn [regbin_1d]. f_equal. set (a := mk_axis lo hi (List.length vals)).
  assert (Ha : proper_axis a) by (split; assumption).
  assert (Hinc : increasing (linspace a)).
  { intros p q Hpq. rewrite linspace_length in Hpq. rewrite !linspace_ent by lia. apply place_lt; [exact Ha|lia]. }
  pose proof (C33_nodes IDW false (linspace a) vals i (or_introl eq_refl) ltac:(rewrite linspace_length; exact Hi) Hinc) as H.
  rewrite linspace_ent in H by exact Hi. unfold map_point in H. cbn in H.
  assert (P : forall l, map (preprocess1 false) l = l) by (intros l; unfold preprocess1; apply map_id). rewrite !P in H.
  injection H as H. exact H.
Qed.

(* ------------------------------------------------------------------ *)
(** * C56: values of logarithmic point maps *)

(** A linear point map returns its values (C33_nodes). A log_point map returns the logarithms of its
    values: preprocess is applied to the values too. *)
Theorem C56_log_point : forall m refs vals i, m = IDW \/ m = LERP -> (i < List.length refs)%nat ->
  List.length vals = List.length refs -> increasing refs ->
  (forall r, In r refs -> float_pos_min <= r <= float_pos_max) ->
  float_pos_min <= ent vals i <= float_pos_max ->
  map_point m false true refs vals (ent refs i) = Ok (ln (ent vals i) / ln 10).
Proof.
  intros m refs vals i Hm Hi Hl Hinc Hr Hv. pose proof float_bounds as FB. pose proof ln10_pos as LP.
  assert (Hent : forall l k, (k < List.length l)%nat -> ent (map (preprocess1 true) l) k = preprocess1 true (ent l k)).
  { intros l k Hk. unfold ent. rewrite nth_indep with (d' := preprocess1 true 0) by (rewrite map_length; exact Hk). apply map_nth. }
  assert (Hi' : increasing (map (preprocess1 true) refs)).
  { intros p q Hpq. rewrite map_length in Hpq. rewrite !Hent by lia. specialize (Hinc p q Hpq).
    pose proof (Hr (ent refs p) ltac:(apply nth_In; lia)). pose proof (Hr (ent refs q) ltac:(apply nth_In; lia)).
    unfold preprocess1. rewrite !clipR_mid by lra. unfold log10, Rdiv. apply Rmult_lt_compat_r; [apply Rinv_0_lt_compat, LP|]. apply ln_increasing; lra. }
  pose proof (C33_nodes m false (map (preprocess1 true) refs) (map (preprocess1 true) vals) i Hm ltac:(rewrite map_length; exact Hi) Hi') as N.
  rewrite !Hent in N by lia.
  assert (V : validate_points true refs = Ok tt).
  { unfold validate_points. cbn [andb]. replace (existsb _ refs) with false; [reflexivity|]. symmetry. apply not_true_is_false. intros C.
    apply existsb_exists in C. destruct C as (r & Hin & C). specialize (Hr r Hin). destruct (Rle_dec r 0); [lra|discriminate]. }
  assert (E : preprocess1 true (ent vals i) = ln (ent vals i) / ln 10) by (unfold preprocess1; rewrite clipR_mid by lra; reflexivity).
  rewrite E in N. unfold map_point in *. cbn [andb] in *.
  assert (P : forall l, map (preprocess1 false) l = l) by (intros l; unfold preprocess1; apply map_id).
  destruct Hm as [-> | ->]; cbn [point_interpolator] in *; rewrite V; cbn [validate_points andb] in N; rewrite !P in N; exact N.
Qed.

(** So the value at a node is not the map's value. *)
Theorem C56_log_point_refuted : map_point IDW false true [1; 100] [1; 100] 100 = Ok 2.
Proof.
  pose proof one_hundred as [_ OH]. destruct (OH eq_refl) as [O1 O2]. pose proof ln10_pos as LP.
  pose proof (C56_log_point IDW [1; 100] [1; 100] 1 (or_introl eq_refl)) as H. unfold ent in H. cbn [nth List.length] in H.
  rewrite H; [|lia|reflexivity| | |lra].
  - f_equal. replace 100 with (10 * 10) by lra. rewrite ln_mult by lra. field. lra.
  - intros i j Hij. cbn in Hij. assert (i = 0 /\ j = 1)%nat as [-> ->] by lia. unfold ent. cbn. lra.
  - intros r Hr. cbn in Hr. destruct Hr as [<-|[<-|[]]]; lra.
Qed.

Print Assumptions C31_values.
Print Assumptions C31_static.
Print Assumptions C31_straight.
Print Assumptions C31_monotone.
Print Assumptions C31_between.
Print Assumptions C31_continuous.
Print Assumptions C33_linear.
Print Assumptions C33_covers.
Print Assumptions C33_nodes.
Print Assumptions C33_bounded.
Print Assumptions C33_monotone.
Print Assumptions C33_continuous.
Print Assumptions C34_bilinear_nodes.
Print Assumptions C34_trilinear_nodes.
Print Assumptions C34_bilinear_reproduces.
Print Assumptions C34_trilinear_reproduces.
Print Assumptions C34_bilinear_bounded.
Print Assumptions C34_trilinear_bounded.
Print Assumptions C34_bilinear_clamps.
Print Assumptions C34_trilinear_clamps.
Print Assumptions C34_in_range.
Print Assumptions C34_bilinear_monotone.
Print Assumptions C57_bilinear_continuous.
Print Assumptions C57_trilinear_continuous.
Print Assumptions C57_idw_jumps_refuted.
Print Assumptions C35_2d.
Print Assumptions C35_3d.
Print Assumptions C35_average.
Print Assumptions C35_bounded.
Print Assumptions C35_bounded_3d.
Print Assumptions C35_knn.
Print Assumptions C35_knn_too_many.
Print Assumptions C36_1d.
Print Assumptions C36_2d.
Print Assumptions C36_3d.
Print Assumptions C36_nodes.
Print Assumptions C37_cdf.
Print Assumptions C37_half_bin_low.
Print Assumptions C37_quantile_refuted.
Print Assumptions C37_sample_range.
Print Assumptions C38_coordinates.
Print Assumptions C38_rejected.
Print Assumptions C38_accepted.
Print Assumptions C38_lerp_nodes.
Print Assumptions C38_nn_nodes.
Print Assumptions C55_never_applies_refuted.
Print Assumptions C55_scalar_bounds.
Print Assumptions C56_log_point.
Print Assumptions C56_log_point_refuted.
