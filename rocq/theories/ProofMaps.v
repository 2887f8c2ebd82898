(** Reading the shipped maps: tables of decimals. *)
From Coq Require Import Reals ZArith Lra Lia List String.
From Verif Require Import Base ModelFloat ModelInterp ModelMaps SpecInterp ProofInterp ProofInterp2 PropInterp.
Local Open Scope R_scope.

(** ** Decimals *)
Lemma pow10_pos k : 0 < IZR (10 ^ Z.of_nat k).
Proof. apply IZR_lt. apply Z.pow_pos_nonneg; lia. Qed.
Lemma dec_lt k a b : (a < b)%Z -> dec k a < dec k b.
Proof. intros H. unfold dec, Rdiv. apply Rmult_lt_compat_r; [apply Rinv_0_lt_compat, pow10_pos|apply IZR_lt, H]. Qed.
Lemma dec_le k a b : (a <= b)%Z -> dec k a <= dec k b.
Proof. intros H. unfold dec, Rdiv. apply Rmult_le_compat_r; [left; apply Rinv_0_lt_compat, pow10_pos|apply IZR_le, H]. Qed.
Lemma dec_0 k : dec k 0 = 0.
Proof. unfold dec. field. apply Rgt_not_eq, pow10_pos. Qed.
Lemma decs_length k l : List.length (decs k l) = List.length l.
Proof. apply map_length. Qed.
Lemma ent_decs k l i : ent (decs k l) i = dec k (nth i l 0%Z).
Proof. unfold ent, decs. rewrite <- (dec_0 k) at 1. apply map_nth. Qed.

(** ** Orders, decided on the integers *)
Fixpoint zsorted (r : Z -> Z -> bool) (l : list Z) : bool :=
  match l with a :: (b :: _) as l' => r a b && zsorted r l' | _ => true end.
Lemma zsorted_step r l : zsorted r l = true -> forall i, (S i < List.length l)%nat -> r (nth i l 0%Z) (nth (S i) l 0%Z) = true.
Proof.
  induction l as [|a l IH]; [cbn; lia|]. intros H i Hi. destruct l as [|b l]; [cbn in Hi; lia|].
  apply andb_prop in H. destruct H as [H1 H2]. destruct i; [exact H1|]. apply (IH H2). cbn in *. lia.
Qed.
Lemma zsorted_lt l : zsorted Z.ltb l = true -> forall i j, (i < j < List.length l)%nat -> (nth i l 0 < nth j l 0)%Z.
Proof.
  intros H i j [Hij Hj]. induction Hij as [|j Hij IH].
  - apply Z.ltb_lt, (zsorted_step Z.ltb l H i Hj).
  - pose proof (zsorted_step Z.ltb l H j Hj) as E. apply Z.ltb_lt in E. specialize (IH ltac:(lia)). lia.
Qed.
Lemma zsorted_le l : zsorted Z.leb l = true -> forall i j, (i <= j < List.length l)%nat -> (nth i l 0 <= nth j l 0)%Z.
Proof.
  intros H i j [Hij Hj]. induction Hij as [|j Hij IH]; [lia|].
  pose proof (zsorted_step Z.leb l H j Hj) as E. apply Z.leb_le in E. specialize (IH ltac:(lia)). lia.
Qed.
Lemma zsorted_ge l : zsorted Z.geb l = true -> forall i j, (i <= j < List.length l)%nat -> (nth j l 0 <= nth i l 0)%Z.
Proof.
  intros H i j [Hij Hj]. induction Hij as [|j Hij IH]; [lia|].
  pose proof (zsorted_step Z.geb l H j Hj) as E. apply Z.geb_le in E. specialize (IH ltac:(lia)). lia.
Qed.
Lemma decs_increasing k l : zsorted Z.ltb l = true -> increasing (decs k l).
Proof. intros H i j Hij. rewrite decs_length in Hij. rewrite !ent_decs. apply dec_lt, zsorted_lt; assumption. Qed.
Lemma decs_non_decreasing k l : zsorted Z.leb l = true -> non_decreasing (decs k l).
Proof. intros H i j Hij. rewrite decs_length in Hij. rewrite !ent_decs. apply dec_le, zsorted_le; assumption. Qed.

(** ** Tables *)
(** A table in a file: coordinates in increasing order, one value for each. *)
Definition table_ok (c v : list Z) : bool := zsorted Z.ltb c && Nat.eqb (List.length c) (List.length v) && Nat.leb 1 (List.length c).

Section Table.
  Context (m : method) (prob : bool) (kc kv : nat) (c v : list Z).
  Context (Hm : m = IDW \/ m = LERP) (Hok : table_ok c v = true).
  Let f x := map_point m prob false (decs kc c) (decs kv v) x.

  Lemma table_facts : increasing (decs kc c) /\ List.length (decs kv v) = List.length (decs kc c) /\ (1 <= List.length (decs kc c))%nat.
  Proof.
    apply andb_prop in Hok. destruct Hok as [H H3]. apply andb_prop in H. destruct H as [H1 H2].
    rewrite !decs_length. split; [apply decs_increasing, H1|]. split; [symmetry; apply Nat.eqb_eq, H2|apply Nat.leb_le, H3].
  Qed.

  Lemma table_within lo hi : forallb (fun z => Z.leb lo z && Z.leb z hi) v = true ->
    forall x, exists y, f x = Ok y /\ dec kv lo <= y <= dec kv hi.
  Proof.
    destruct table_facts as (A & B & D). intros H x.
    destruct (C33_bounded m prob (decs kc c) (decs kv v) x Hm D B A) as (y & E & Hy). exists y. split; [exact E|].
    apply Hy. intros w Hw. apply in_map_iff in Hw. destruct Hw as (z & <- & Hz).
    rewrite forallb_forall in H. specialize (H z Hz). apply andb_prop in H. destruct H as [H1 H2].
    apply Z.leb_le in H1, H2. split; apply dec_le; assumption.
  Qed.

  Lemma table_constant w : forallb (Z.eqb w) v = true -> forall x, f x = Ok (dec kv w).
  Proof.
    intros H x. destruct (table_within w w) with (x := x) as (y & E & Hy).
    - rewrite forallb_forall in *. intros z Hz. specialize (H z Hz). apply Z.eqb_eq in H. subst z. rewrite Z.leb_refl. reflexivity.
    - rewrite E. f_equal. lra.
  Qed.

  Lemma table_rising : zsorted Z.leb v = true -> forall x x' y y', x <= x' -> f x = Ok y -> f x' = Ok y' -> y <= y'.
  Proof.
    destruct table_facts as (A & B & D). intros H x x' y y'.
    apply (C33_monotone m prob (decs kc c) (decs kv v) x x' y y' Hm D B A). apply decs_non_decreasing, H.
  Qed.

  (** The first [n] values are the same, and so is the map up to the place of the last of them. *)
  Lemma table_prefix n w : (n < List.length c)%nat -> (forall i, (i <= n)%nat -> nth i v 0%Z = w) ->
    forall x, x <= dec kc (nth n c 0%Z) -> f x = Ok (dec kv w).
  Proof.
    destruct table_facts as (A & B & D). intros Hn Hw x Hx.
    destruct (C33_linear m prob (decs kc c) (decs kv v) x Hm D A) as (L1 & L2 & L3).
    rewrite !decs_length in *.
    assert (E : forall i, (i <= n)%nat -> ent (decs kv v) i = dec kv w) by (intros i Hi; rewrite ent_decs, Hw by exact Hi; reflexivity).
    destruct (locate (decs kc c) ltac:(rewrite decs_length; exact D) x) as [L|[L|(i & Hi & L)]].
    - unfold f. rewrite L1 by exact L. rewrite E by lia. reflexivity.
    - rewrite decs_length in L. unfold f. destruct (Nat.eq_dec n (List.length c - 1)) as [->|N].
      + rewrite L2 by exact L. rewrite E by lia. reflexivity.
      + exfalso. pose proof (A n (List.length c - 1)%nat ltac:(rewrite decs_length; lia)) as Q. rewrite ent_decs in Q. lra.
    - rewrite decs_length in Hi. destruct (le_lt_dec (S i) n) as [Li|Gi].
      + unfold f. rewrite (L3 i Hi L), !E by lia. f_equal. unfold line. pose proof (A i (S i) ltac:(rewrite decs_length; lia)). field. lra.
      + assert (Ei : i = n). { destruct (Nat.eq_dec i n) as [Q|Q]; [exact Q|]. exfalso. pose proof (A n i ltac:(rewrite decs_length; lia)) as P. rewrite ent_decs in P. lra. }
        subst i. unfold f. rewrite (L3 n Hi L), E by lia. f_equal. rewrite <- ent_decs in Hx. unfold line.
        replace x with (ent (decs kc c) n) by lra. field. pose proof (A n (S n) ltac:(rewrite decs_length; lia)). lra.
  Qed.

  Lemma table_node i : (i < List.length c)%nat -> f (dec kc (nth i c 0%Z)) = Ok (dec kv (nth i v 0%Z)).
  Proof.
    destruct table_facts as (A & B & D). intros Hi. unfold f. rewrite <- !ent_decs. apply C33_nodes; [exact Hm|rewrite decs_length; exact Hi|exact A].
  Qed.
End Table.

(** Falling values: the rising table of the opposite values. *)
Lemma dec_opp k z : dec k (- z) = - dec k z.
Proof. unfold dec. rewrite opp_IZR. field. apply Rgt_not_eq, pow10_pos. Qed.
Lemma table_opposite m prob kc kv c v x : m = IDW \/ m = LERP -> table_ok c v = true ->
  exists y, map_point m prob false (decs kc c) (decs kv v) x = Ok y /\
    map_point m prob false (decs kc c) (decs kv (map Z.opp v)) x = Ok (- y).
Proof.
  intros Hm Hok. destruct (table_facts kc kv c v Hok) as (A & B & D).
  destruct (C33_linear m prob (decs kc c) (decs kv v) x Hm D A) as (L1 & L2 & L3).
  destruct (C33_linear m prob (decs kc c) (decs kv (map Z.opp v)) x Hm D A) as (M1 & M2 & M3).
  assert (O : forall i, ent (decs kv (map Z.opp v)) i = - ent (decs kv v) i).
  { intros i. rewrite !ent_decs. change 0%Z with (Z.opp 0)%Z at 1. rewrite map_nth. apply dec_opp. }
  destruct (locate (decs kc c) D x) as [L|[L|(i & Hi & L)]].
  - eexists. split; [apply L1, L|]. rewrite M1 by exact L. rewrite O. reflexivity.
  - eexists. split; [apply L2, L|]. rewrite M2 by exact L. rewrite O. reflexivity.
  - eexists. split; [apply (L3 i Hi L)|]. rewrite (M3 i Hi L), !O. f_equal. unfold line. pose proof (A i (S i) ltac:(lia)). field. lra.
Qed.
Lemma table_falling m prob kc kv c v : m = IDW \/ m = LERP -> table_ok c v = true -> zsorted Z.leb (map Z.opp v) = true ->
  forall x x' y y', x <= x' -> map_point m prob false (decs kc c) (decs kv v) x = Ok y ->
    map_point m prob false (decs kc c) (decs kv v) x' = Ok y' -> y' <= y.
Proof.
  intros Hm Hok Hs x x' y y' L E E'.
  destruct (table_opposite m prob kc kv c v x Hm Hok) as (z & Z1 & Z2). destruct (table_opposite m prob kc kv c v x' Hm Hok) as (z' & Z1' & Z2').
  rewrite E in Z1. injection Z1 as <-. rewrite E' in Z1'. injection Z1' as <-.
  assert (Hok' : table_ok c (map Z.opp v) = true) by (unfold table_ok; rewrite map_length; exact Hok).
  pose proof (table_rising m prob kc kv c (map Z.opp v) Hm Hok' Hs x x' (- y) (- y') L Z2 Z2'). lra.
Qed.

(** ** Grids of one value *)
Lemma look2_constant n1 n2 k v w : (0 < n1)%nat -> (0 < n2)%nat -> List.length v = (n1 * n2)%nat -> forallb (Z.eqb w) v = true ->
  forall i j, look2 n1 n2 (decs k v) i j = dec k w.
Proof.
  intros H1 H2 HL H i j. unfold look2.
  assert (A : (Z.to_nat (jax_index n1 i) < n1)%nat) by (unfold jax_index, clipZ; lia).
  assert (B : (Z.to_nat (jax_index n2 j) < n2)%nat) by (unfold jax_index, clipZ; lia).
  fold (ent (decs k v) (Z.to_nat (jax_index n1 i) * n2 + Z.to_nat (jax_index n2 j))). rewrite ent_decs. f_equal. symmetry.
  apply Z.eqb_eq. rewrite forallb_forall in H. apply H, nth_In. rewrite HL. nia.
Qed.
Lemma look3_constant n1 n2 n3 k v w : (0 < n1)%nat -> (0 < n2)%nat -> (0 < n3)%nat -> List.length v = (n1 * n2 * n3)%nat ->
  forallb (Z.eqb w) v = true -> forall i j l, look3 n1 n2 n3 (decs k v) i j l = dec k w.
Proof.
  intros H1 H2 H3 HL H i j l. unfold look3.
  assert (A : (Z.to_nat (jax_index n1 i) < n1)%nat) by (unfold jax_index, clipZ; lia).
  assert (B : (Z.to_nat (jax_index n2 j) < n2)%nat) by (unfold jax_index, clipZ; lia).
  assert (C : (Z.to_nat (jax_index n3 l) < n3)%nat) by (unfold jax_index, clipZ; lia).
  set (a := Z.to_nat (jax_index n1 i)) in *. set (b := Z.to_nat (jax_index n2 j)) in *. set (d := Z.to_nat (jax_index n3 l)) in *.
  fold (ent (decs k v) ((a * n2 + b) * n3 + d)). rewrite ent_decs. f_equal. symmetry.
  apply Z.eqb_eq. rewrite forallb_forall in H. apply H, nth_In. rewrite HL. assert (a * n2 + b < n1 * n2)%nat by nia. nia.
Qed.
Lemma among_constant y v l : among y l -> (forall u, In u l -> u = v) -> y = v.
Proof. intros A H. destruct (A v v) as [P Q]; [intros u Hu; rewrite (H u Hu); lra|lra]. Qed.

Lemma constant_2d m probs lo1 hi1 lo2 hi2 n1 n2 look v x y : m = IDW \/ m = LERP \/ m = NN -> lo1 < hi1 -> lo2 < hi2 ->
  (2 <= n1)%nat -> (2 <= n2)%nat -> (forall i j, look i j = v) ->
  map_regbin_2d m probs [false; false] [lo1; lo2] [hi1; hi2] [n1; n2] look [x; y] = Ok v.
Proof.
  intros Hm L1 L2 N1 N2 Hv. unfold map_regbin_2d.
  assert (B : build_regbin probs [false; false] [lo1; lo2] [hi1; hi2] m = Ok tt).
  { unfold build_regbin. cbn [List.length Nat.eqb negb].
    replace (existsb _ (combine probs [false; false])) with false by (destruct probs as [|a [|b [|]]]; cbn; rewrite ?andb_false_r; reflexivity).
    destruct Hm as [->|[->| ->]]; reflexivity. }
  rewrite B. cbn [axes_of preprocess preprocess1 combine map fst snd]. set (ax := mk_axis lo1 hi1 n1). set (ay := mk_axis lo2 hi2 n2).
  assert (Px : proper_axis ax) by (split; assumption). assert (Py : proper_axis ay) by (split; assumption).
  f_equal. destruct Hm as [->|[->| ->]].
  - destruct (C35_2d ax ay look x y Px Py) as (i & j & _ & _ & _ & _ & _ & _ & W).
    apply inverse_weighted_among in W; [|reflexivity]. apply (among_constant _ _ _ W). intros u Hu. cbn in Hu. intuition subst; apply Hv.
  - destruct (C34_bilinear_bounded ax ay look x y Px Py) as (i & j & _ & _ & _ & _ & _ & _ & W).
    apply (among_constant _ _ _ W). intros u Hu. cbn in Hu. intuition subst; apply Hv.
  - destruct (C36_2d ax ay look x y) as (i & j & -> & _); [cbn; lia|cbn; lia|]. apply Hv.
Qed.
Lemma constant_3d m probs lo1 hi1 lo2 hi2 lo3 hi3 n1 n2 n3 look v x y z : m = IDW \/ m = LERP \/ m = NN -> lo1 < hi1 -> lo2 < hi2 -> lo3 < hi3 ->
  (2 <= n1)%nat -> (2 <= n2)%nat -> (2 <= n3)%nat -> (forall i j k, look i j k = v) ->
  map_regbin_3d m probs [false; false; false] [lo1; lo2; lo3] [hi1; hi2; hi3] [n1; n2; n3] look [x; y; z] = Ok v.
Proof.
  intros Hm L1 L2 L3 N1 N2 N3 Hv. unfold map_regbin_3d.
  assert (B : build_regbin probs [false; false; false] [lo1; lo2; lo3] [hi1; hi2; hi3] m = Ok tt).
  { unfold build_regbin. cbn [List.length Nat.eqb negb].
    replace (existsb _ (combine probs [false; false; false])) with false
      by (destruct probs as [|a [|b [|c [|]]]]; cbn; rewrite ?andb_false_r; reflexivity).
    destruct Hm as [->|[->| ->]]; reflexivity. }
  rewrite B. cbn [axes_of preprocess preprocess1 combine map fst snd].
  set (ax := mk_axis lo1 hi1 n1). set (ay := mk_axis lo2 hi2 n2). set (az := mk_axis lo3 hi3 n3).
  assert (Px : proper_axis ax) by (split; assumption). assert (Py : proper_axis ay) by (split; assumption). assert (Pz : proper_axis az) by (split; assumption).
  f_equal. destruct Hm as [->|[->| ->]].
  - destruct (C35_3d ax ay az look x y z Px Py Pz) as (i & j & k & _ & _ & _ & _ & _ & _ & _ & _ & _ & W).
    cbn zeta in W. apply inverse_weighted_among in W; [|reflexivity]. apply (among_constant _ _ _ W). intros u Hu. cbn in Hu. intuition subst; apply Hv.
  - destruct (C34_trilinear_bounded ax ay az look x y z Px Py Pz) as (i & j & k & _ & _ & _ & _ & _ & _ & _ & _ & _ & W).
    apply (among_constant _ _ _ W). intros u Hu. cbn in Hu. intuition subst; apply Hv.
  - destruct (C36_3d ax ay az look x y z) as (i & j & k & -> & _); [cbn; lia|cbn; lia|cbn; lia|]. apply Hv.
Qed.

(** The values from number [n] on bound the map from the place of that one on. *)
Lemma table_from m prob kc kv c v n lo hi : m = IDW \/ m = LERP -> table_ok c v = true -> (n < List.length c)%nat ->
  forallb (fun z => Z.leb lo z && Z.leb z hi) (skipn n v) = true ->
  forall x, dec kc (nth n c 0%Z) <= x ->
  exists y, map_point m prob false (decs kc c) (decs kv v) x = Ok y /\ dec kv lo <= y <= dec kv hi.
Proof.
  intros Hm Hok Hn H x Hx. destruct (table_facts kc kv c v Hok) as (A & B & D).
  destruct (C33_linear m prob (decs kc c) (decs kv v) x Hm D A) as (L1 & L2 & L3). rewrite !decs_length in *.
  assert (E : forall i, (n <= i < List.length c)%nat -> dec kv lo <= ent (decs kv v) i <= dec kv hi).
  { intros i Hi. rewrite ent_decs. rewrite forallb_forall in H.
    assert (Q : In (nth i v 0%Z) (skipn n v)).
    { replace (nth i v 0%Z) with (nth (i - n) (skipn n v) 0%Z).
      - apply nth_In. rewrite skipn_length. lia.
      - rewrite <- (firstn_skipn n v) at 2. rewrite app_nth2; rewrite firstn_length; [f_equal|]; lia. }
    specialize (H _ Q). apply andb_prop in H. destruct H as [H1 H2]. apply Z.leb_le in H1, H2. split; apply dec_le; assumption. }
  rewrite <- (ent_decs kc) in Hx.
  destruct (locate (decs kc c) ltac:(rewrite decs_length; exact D) x) as [L|[L|(i & Hi & L)]]; rewrite ?decs_length in *.
  - assert (n = 0)%nat as ->. { destruct n; [reflexivity|]. exfalso. pose proof (A 0%nat (S n) ltac:(rewrite decs_length; lia)). lra. }
    eexists. split; [apply L1, L|]. apply E. lia.
  - eexists. split; [apply L2, L|]. apply E. lia.
  - destruct (le_lt_dec n i) as [Li|Gi].
    + eexists. split; [apply (L3 i Hi L)|].
      destruct (line_between (ent (decs kc c) i) (ent (decs kv v) i) (ent (decs kc c) (S i)) (ent (decs kv v) (S i)) x (A i (S i) ltac:(rewrite decs_length; lia)) L) as (t & Ht & _ & ->).
      pose proof (E i ltac:(lia)). pose proof (E (S i) ltac:(lia)). nra.
    + assert (Ei : S i = n). { destruct (Nat.eq_dec (S i) n) as [Q|Q]; [exact Q|]. exfalso. pose proof (A (S i) n ltac:(rewrite decs_length; lia)). lra. }
      eexists. split; [apply (L3 i Hi L)|]. pose proof (E (S i) ltac:(lia)). subst n. pose proof (A i (S i) ltac:(rewrite decs_length; lia)).
      replace (line _ _ _ _ x) with (ent (decs kv v) (S i)); [assumption|]. unfold line. replace x with (ent (decs kc c) (S i)) by lra. field. lra.
Qed.

(** Nearest neighbour: some value of the table. *)
Lemma table_nearest prob kc kv c v x : table_ok c v = true ->
  exists k, map_point NN prob false (decs kc c) (decs kv v) x = Ok (dec kv (nth k v 0%Z)) /\ (k < List.length c)%nat /\
    (forall j, (j < List.length c)%nat -> Rabs (x - dec kc (nth k c 0%Z)) <= Rabs (x - dec kc (nth j c 0%Z))) /\
    (forall j, (j < k)%nat -> Rabs (x - dec kc (nth k c 0%Z)) < Rabs (x - dec kc (nth j c 0%Z))).
Proof.
  intros Hok. destruct (table_facts kc kv c v Hok) as (_ & _ & D).
  assert (P : forall l, map (preprocess1 false) l = l) by (intros l; unfold preprocess1; apply map_id).
  destruct (C36_1d (decs kc c) (decs kv v) x) as (k & E & Hk & H1 & H2). { intros E. rewrite E in D. cbn in D. lia. }
  exists k. unfold map_point. rewrite andb_false_r. cbn [point_interpolator validate_points andb]. rewrite !P. unfold preprocess1.
  rewrite E, ent_decs. rewrite decs_length in *. split; [reflexivity|]. split; [exact Hk|].
  split; intros j Hj; rewrite <- !(ent_decs kc); auto.
Qed.
Lemma table_constant_any m prob kc kv c v w : m = IDW \/ m = LERP \/ m = NN -> table_ok c v = true -> forallb (Z.eqb w) v = true ->
  forall x, map_point m prob false (decs kc c) (decs kv v) x = Ok (dec kv w).
Proof.
  intros Hm Hok H x. destruct Hm as [Hm|[Hm|Hm]]; [apply table_constant; auto|apply table_constant; auto|subst m].
  destruct (table_nearest prob kc kv c v x Hok) as (k & E & Hk & _). rewrite E. f_equal. f_equal. symmetry. apply Z.eqb_eq.
  rewrite forallb_forall in H. apply H, nth_In. apply andb_prop in Hok. destruct Hok as [Hok _]. apply andb_prop in Hok. destruct Hok as [_ Hl]. apply Nat.eqb_eq in Hl. lia.
Qed.
