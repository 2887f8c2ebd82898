(** Proofs about the regular grids. *)
From Coq Require Import Reals ZArith Lra Lia Permutation.
From Verif Require Import Base ModelInterp SpecInterp ProofInterp.
Local Open Scope R_scope.

Lemma INR_axis a : proper_axis a -> 1 <= INR (a_n a) - 1.
Proof. intros [H _]. apply le_INR in H. simpl in H. lra. Qed.

Lemma bin_pos a : proper_axis a -> 0 < bin_size a.
Proof.
  intros H. pose proof (INR_axis a H) as Hn. destruct H as [_ H]. unfold bin_size, Rdiv.
  apply Rmult_lt_0_compat; [lra|]. apply Rinv_0_lt_compat. lra.
Qed.

Lemma place_node a i : node a i = place a i.
Proof. unfold node, place, bin_size. ring. Qed.

Lemma place_last a : proper_axis a -> place a (Z.of_nat (a_n a) - 1) = a_hi a.
Proof.
  intros H. pose proof (INR_axis a H). unfold place. rewrite minus_IZR, <- INR_IZR_INZ. field. lra.
Qed.
Lemma place_first a : place a 0 = a_lo a.
Proof. unfold place. ring. Qed.

Lemma frac_place a x : proper_axis a -> x = a_lo a + frac a x * bin_size a.
Proof. intros H. pose proof (bin_pos a H). unfold frac. field. lra. Qed.
Lemma frac_at a i : proper_axis a -> frac a (place a i) = IZR i.
Proof. intros H. pose proof (bin_pos a H). rewrite <- place_node. unfold frac, node. field. lra. Qed.
Lemma place_lt a i j : proper_axis a -> (i < j)%Z -> place a i < place a j.
Proof.
  intros H L. pose proof (bin_pos a H). rewrite <- !place_node. unfold node. apply IZR_lt in L. nra.
Qed.
Lemma place_le a i j : proper_axis a -> (i <= j)%Z -> place a i <= place a j.
Proof.
  intros H L. pose proof (bin_pos a H). rewrite <- !place_node. unfold node. apply IZR_le in L. nra.
Qed.

Lemma Int_part_is r k : IZR k <= r < IZR k + 1 -> Int_part r = k.
Proof.
  intros [H1 H2]. unfold Int_part. replace (up r) with (k + 1)%Z; [lia|].
  apply tech_up; rewrite plus_IZR; lra.
Qed.
Lemma Int_part_bounds r : IZR (Int_part r) <= r < IZR (Int_part r) + 1.
Proof. pose proof (base_Int_part r). lra. Qed.

(** The cell and offset used for a query: three cases. *)
Lemma lerp_cases a x : proper_axis a ->
  (x <= a_lo a /\ lerp_index a x = 0%Z /\ lerp_offset a x = 0) \/
  (a_hi a <= x /\ lerp_index a x = (Z.of_nat (a_n a) - 2)%Z /\ lerp_offset a x = 1) \/
  (exists i t, (0 <= i)%Z /\ (i + 1 < Z.of_nat (a_n a))%Z /\ 0 <= t < 1 /\ lerp_index a x = i /\ lerp_offset a x = t /\
     x = place a i + t * (place a (i + 1) - place a i)).
Proof.
  intros H. pose proof (bin_pos a H) as Hb. pose proof (frac_place a x H) as Hx.
  pose proof (Int_part_bounds (frac a x)) as HI. destruct H as [Hn Hlo].
  assert (Hhi : a_hi a = a_lo a + (INR (a_n a) - 1) * bin_size a).
  { unfold bin_size. field. apply le_INR in Hn. simpl in Hn. lra. }
  set (f := frac a x) in *.
  destruct (Rlt_dec f 0) as [L|L].
  { left. assert (Int_part f < 0)%Z by (apply lt_IZR; lra).
    assert (E : lerp_index a x = 0%Z) by (unfold lerp_index, clipZ; fold f; lia).
    split; [nra|]. split; [exact E|]. unfold lerp_offset. rewrite E. fold f. apply clipR_low; lra. }
  assert (0 <= Int_part f)%Z. { apply Z.lt_succ_r, lt_IZR. rewrite succ_IZR. lra. }
  destruct (Rle_lt_dec (INR (a_n a) - 1) f) as [U|U].
  { right; left. assert (Z.of_nat (a_n a) - 1 <= Int_part f)%Z.
    { apply Z.lt_succ_r, lt_IZR. rewrite succ_IZR, minus_IZR, <- INR_IZR_INZ. lra. }
    assert (E : lerp_index a x = (Z.of_nat (a_n a) - 2)%Z) by (unfold lerp_index, clipZ; fold f; lia).
    split; [nra|]. split; [exact E|]. unfold lerp_offset. rewrite E. fold f. apply clipR_high; [|lra].
    rewrite minus_IZR, <- INR_IZR_INZ. lra. }
  right; right. assert (Int_part f + 1 < Z.of_nat (a_n a))%Z.
  { cut (Int_part f < Z.of_nat (a_n a) - 1)%Z; [lia|]. apply lt_IZR. rewrite minus_IZR, <- INR_IZR_INZ. lra. }
  assert (E : lerp_index a x = Int_part f) by (unfold lerp_index, clipZ; fold f; lia).
  exists (Int_part f), (f - IZR (Int_part f)). split; [lia|]. split; [lia|]. split; [lra|]. split; [exact E|]. split.
  - unfold lerp_offset. rewrite E. fold f. apply clipR_mid. lra.
  - rewrite <- !place_node. unfold node. rewrite plus_IZR. lra.
Qed.

Lemma lerp_index_range a x : proper_axis a -> (0 <= lerp_index a x)%Z /\ (lerp_index a x + 1 < Z.of_nat (a_n a))%Z.
Proof. intros [H _]. unfold lerp_index, clipZ. lia. Qed.
Lemma lerp_offset_range a x : 0 <= lerp_offset a x <= 1.
Proof. unfold lerp_offset. apply clipR_range. lra. Qed.

(** Interpolation along one axis. *)
Definition lerp1 (a : axis) (g : Z -> R) (x : R) : R :=
  (1 - lerp_offset a x) * g (lerp_index a x) + lerp_offset a x * g (lerp_index a x + 1)%Z.

Lemma bilinear_lerp ax ay look x y :
  bilinear ax ay look x y = lerp1 ay (fun j => lerp1 ax (fun i => look i j) x) y.
Proof. unfold bilinear, lerp1. ring. Qed.
Lemma trilinear_lerp ax ay az look x y z :
  trilinear ax ay az look x y z = lerp1 az (fun k => lerp1 ay (fun j => lerp1 ax (fun i => look i j k) x) y) z.
Proof. unfold trilinear, lerp1. ring. Qed.

(** The grid as lists of points. *)
Definition places (a : axis) : list R := map (fun k => place a (Z.of_nat k)) (seq 0 (a_n a)).
Definition values (a : axis) (g : Z -> R) : list R := map (fun k => g (Z.of_nat k)) (seq 0 (a_n a)).

Lemma ent_map_seq (f : nat -> R) n k : (k < n)%nat -> ent (map f (seq 0 n)) k = f k.
Proof.
  intros H. unfold ent. rewrite nth_indep with (d' := f 0%nat) by (rewrite map_length, seq_length; exact H).
  rewrite map_nth, seq_nth by exact H. reflexivity.
Qed.
Lemma places_length a : List.length (places a) = a_n a.
Proof. unfold places. rewrite map_length, seq_length. reflexivity. Qed.
Lemma values_length a g : List.length (values a g) = a_n a.
Proof. unfold values. rewrite map_length, seq_length. reflexivity. Qed.
Lemma places_ent a k : (k < a_n a)%nat -> ent (places a) k = place a (Z.of_nat k).
Proof. intros H. unfold places. rewrite ent_map_seq by exact H. reflexivity. Qed.
Lemma values_ent a g k : (k < a_n a)%nat -> ent (values a g) k = g (Z.of_nat k).
Proof. intros H. unfold values. rewrite ent_map_seq by exact H. reflexivity. Qed.
Lemma places_increasing a : proper_axis a -> increasing (places a).
Proof.
  intros H i j Hij. rewrite places_length in Hij. rewrite !places_ent by lia. apply place_lt; [exact H|lia].
Qed.

Lemma lerp1_low a g x : proper_axis a -> x <= a_lo a -> lerp1 a g x = g 0%Z.
Proof.
  intros H Hx. unfold lerp1. destruct (lerp_cases a x H) as [(A & -> & ->)|[(A & _)|(i & t & Hi & Hn & Ht & -> & -> & E)]].
  - cbn [Z.add]. lra.
  - destruct H. lra.
  - pose proof (place_lt a i (i + 1) H ltac:(lia)). pose proof (place_le a 0 i H ltac:(lia)) as Hz. rewrite place_first in Hz.
    assert (t = 0) by nra. subst t. assert (E0 : place a i = place a 0) by (rewrite place_first; nra).
    assert (i = 0%Z). { destruct (Z.eq_dec i 0) as [E1|E1]; [exact E1|]. pose proof (place_lt a 0 i H ltac:(lia)). lra. }
    subst i. cbn [Z.add]. lra.
Qed.
Lemma lerp1_high a g x : proper_axis a -> a_hi a <= x -> lerp1 a g x = g (Z.of_nat (a_n a) - 1)%Z.
Proof.
  intros H Hx. unfold lerp1. destruct (lerp_cases a x H) as [(A & _)|[(A & -> & ->)|(i & t & Hi & Hn & Ht & -> & -> & E)]].
  - destruct H. lra.
  - replace (Z.of_nat (a_n a) - 2 + 1)%Z with (Z.of_nat (a_n a) - 1)%Z by lia. lra.
  - pose proof (place_lt a i (i + 1) H ltac:(lia)). pose proof (place_le a (i + 1) (Z.of_nat (a_n a) - 1) H ltac:(lia)) as Hz.
    rewrite place_last in Hz by exact H. nra.
Qed.
Lemma lerp1_between a g x i : proper_axis a -> (0 <= i)%Z -> (i + 1 < Z.of_nat (a_n a))%Z -> place a i <= x <= place a (i + 1) ->
  lerp1 a g x = line (place a i) (g i) (place a (i + 1)) (g (i + 1)%Z) x.
Proof.
  intros H Hi Hn Hx. pose proof (place_lt a i (i + 1) H ltac:(lia)) as Hlt.
  destruct (lerp_cases a x H) as [(A & _)|[(A & _)|(k & t & Hk & Hkn & Ht & Ek & Et & E)]].
  - rewrite lerp1_low by assumption. pose proof (place_le a 0 i H ltac:(lia)) as Hz. rewrite place_first in Hz.
    assert (i = 0%Z). { destruct (Z.eq_dec i 0) as [E1|E1]; [exact E1|]. pose proof (place_lt a 0 i H ltac:(lia)). rewrite place_first in *. lra. }
    subst i. replace x with (place a 0) by lra. unfold line. field. lra.
  - rewrite lerp1_high by assumption. pose proof (place_le a (i + 1) (Z.of_nat (a_n a) - 1) H ltac:(lia)) as Hz. rewrite place_last in Hz by exact H.
    assert (E1 : (i + 1)%Z = (Z.of_nat (a_n a) - 1)%Z).
    { destruct (Z.eq_dec (i + 1) (Z.of_nat (a_n a) - 1)) as [E1|E1]; [exact E1|]. pose proof (place_lt a (i + 1) (Z.of_nat (a_n a) - 1) H ltac:(lia)) as Hy. rewrite place_last in Hy by exact H. lra. }
    rewrite <- E1. replace x with (place a (i + 1)) by lra. unfold line. field. lra.
  - unfold lerp1. rewrite Ek, Et. pose proof (place_lt a k (k + 1) H ltac:(lia)) as Hlk.
    assert (Hk1 : (i <= k <= i + 1)%Z).
    { split; apply Z.nlt_ge; intros L.
      - pose proof (place_le a (k + 1) i H ltac:(lia)). nra.
      - pose proof (place_lt a (i + 1) k H ltac:(lia)). nra. }
    assert (Ho : k = i \/ k = (i + 1)%Z) by lia. destruct Ho as [-> | ->].
    + rewrite E at 1. unfold line. field. lra.
    + assert (T0 : t = 0) by nra. rewrite T0 in *. assert (Ex : x = place a (i + 1)) by lra. rewrite Ex. unfold line. field. lra.
Qed.

Lemma lerp1_curve a g x : proper_axis a -> lerp1 a g x = curve (places a) (values a g) x.
Proof.
  intros H. assert (Hn : (1 <= List.length (places a))%nat) by (rewrite places_length; destruct H; lia).
  pose proof (places_increasing a H) as Hinc. assert (H2 : (2 <= a_n a)%nat) by (destruct H; assumption).
  destruct (locate (places a) Hn x) as [L|[L|(i & Hi & L)]].
  - rewrite (curve_low _ _ Hn x L). rewrite places_ent in L by lia. cbn [Z.of_nat] in L. rewrite place_first in L.
    rewrite lerp1_low by assumption. rewrite values_ent by lia. reflexivity.
  - rewrite (curve_high _ _ Hn Hinc x L). rewrite places_length in *. rewrite places_ent in L by lia.
    rewrite values_ent by lia. replace (Z.of_nat (a_n a - 1)) with (Z.of_nat (a_n a) - 1)%Z in * by lia.
    rewrite place_last in L by exact H. apply lerp1_high; assumption.
  - rewrite (curve_between _ _ Hn Hinc x i Hi L). rewrite places_length in Hi.
    rewrite !places_ent, !values_ent in * by lia. rewrite Nat2Z.inj_succ in *. unfold Z.succ in *.
    apply lerp1_between; [exact H|lia|lia|exact L].
Qed.

Lemma lerp1_node a g i : proper_axis a -> on_axis a i -> lerp1 a g (place a i) = g i.
Proof.
  intros H [H1 H2]. destruct (Z.eq_dec i (Z.of_nat (a_n a) - 1)) as [->|N].
  - apply lerp1_high; [exact H|]. rewrite place_last by exact H. lra.
  - pose proof (place_lt a i (i + 1) H ltac:(lia)).
    rewrite (lerp1_between a g _ i H) by (lia || lra). unfold line. field. lra.
Qed.

Lemma lerp1_ext a g h x : proper_axis a -> (forall i, on_axis a i -> g i = h i) -> lerp1 a g x = lerp1 a h x.
Proof.
  intros H E. destruct (lerp_index_range a x H). unfold lerp1. rewrite !E by (unfold on_axis; lia). reflexivity.
Qed.

Lemma lerp1_affine a x p q : proper_axis a -> lerp1 a (fun i => p + q * place a i) x = p + q * into a x.
Proof.
  intros H. unfold into. destruct (Rlt_dec x (a_lo a)) as [L|L]; [rewrite lerp1_low, place_first by (assumption || lra); reflexivity|].
  destruct (Rlt_dec (a_hi a) x) as [U|U]; [rewrite lerp1_high, place_last by (assumption || lra); reflexivity|].
  unfold lerp1. destruct (lerp_cases a x H) as [(A & -> & ->)|[(A & -> & ->)|(i & t & _ & _ & _ & -> & -> & E)]].
  - cbn [Z.add]. rewrite place_first. replace x with (a_lo a) by lra. lra.
  - replace (Z.of_nat (a_n a) - 2 + 1)%Z with (Z.of_nat (a_n a) - 1)%Z by lia. rewrite place_last by exact H. replace x with (a_hi a) by lra. lra.
  - rewrite E. ring.
Qed.

Lemma lerp1_into a g x : proper_axis a -> lerp1 a g x = lerp1 a g (into a x).
Proof.
  intros H. unfold into. destruct (Rlt_dec x (a_lo a)) as [L|L]; [rewrite !lerp1_low by (assumption || lra); reflexivity|].
  destruct (Rlt_dec (a_hi a) x) as [U|U]; [rewrite !lerp1_high by (assumption || lra); reflexivity|]. reflexivity.
Qed.

(** Linear in the values. *)
Lemma lerp1_lin a g h p q x : lerp1 a (fun i => p * g i + q * h i) x = p * lerp1 a g x + q * lerp1 a h x.
Proof. unfold lerp1. ring. Qed.

Lemma lerp1_bounds a g lo hi x : proper_axis a -> (forall i, on_axis a i -> lo <= g i <= hi) -> lo <= lerp1 a g x <= hi.
Proof.
  intros H Hg. unfold lerp1. pose proof (lerp_index_range a x H). pose proof (lerp_offset_range a x) as Ht.
  pose proof (Hg (lerp_index a x) ltac:(unfold on_axis; lia)). pose proof (Hg (lerp_index a x + 1)%Z ltac:(unfold on_axis; lia)). nra.
Qed.

Lemma lerp1_cell_bounds a g lo hi x : lo <= g (lerp_index a x) <= hi -> lo <= g (lerp_index a x + 1)%Z <= hi -> lo <= lerp1 a g x <= hi.
Proof. intros H1 H2. unfold lerp1. pose proof (lerp_offset_range a x) as Ht. nra. Qed.

Lemma lerp1_mono_vals a g h x : proper_axis a -> (forall i, on_axis a i -> g i <= h i) -> lerp1 a g x <= lerp1 a h x.
Proof.
  intros H Hg. unfold lerp1. pose proof (lerp_index_range a x H). pose proof (lerp_offset_range a x) as Ht.
  pose proof (Hg (lerp_index a x) ltac:(unfold on_axis; lia)). pose proof (Hg (lerp_index a x + 1)%Z ltac:(unfold on_axis; lia)). nra.
Qed.

Lemma lerp1_mono a g x x' : proper_axis a -> (forall i j, on_axis a i -> on_axis a j -> (i <= j)%Z -> g i <= g j) -> x <= x' ->
  lerp1 a g x <= lerp1 a g x'.
Proof.
  intros H Hg L. rewrite !lerp1_curve by exact H. apply curve_mono; auto using places_increasing.
  - rewrite places_length. destruct H; lia.
  - intros i j Hij. rewrite values_length in Hij. rewrite !values_ent by lia. apply Hg; unfold on_axis; lia.
  - rewrite values_length, places_length. reflexivity.
Qed.

Lemma lerp1_lipschitz a g K x x' : proper_axis a -> 0 <= K ->
  (forall i, on_axis a i -> on_axis a (i + 1) -> Rabs (g (i + 1)%Z - g i) <= K * (place a (i + 1) - place a i)) ->
  Rabs (lerp1 a g x' - lerp1 a g x) <= K * Rabs (x' - x).
Proof.
  intros H HK Hg. rewrite !lerp1_curve by exact H. apply curve_lipschitz; auto using places_increasing.
  - rewrite places_length. destruct H; lia.
  - intros i Hi. rewrite places_length in Hi. rewrite !values_ent, !places_ent by lia. rewrite Nat2Z.inj_succ. apply Hg; unfold on_axis; lia.
Qed.

Lemma lerp1_diff a g h K x : proper_axis a -> (forall i, on_axis a i -> Rabs (g i - h i) <= K) -> Rabs (lerp1 a g x - lerp1 a h x) <= K.
Proof.
  intros H Hg. apply Rabs_le.
  assert (B : - K <= lerp1 a (fun i => 1 * g i + -1 * h i) x <= K).
  { apply lerp1_bounds; [exact H|]. intros i Hi. specialize (Hg i Hi).
    pose proof (Rabs_def2 (g i - h i) (K + 1) ltac:(lra)). unfold Rabs in Hg. destruct (Rcase_abs (g i - h i)); lra. }
  rewrite lerp1_lin in B. lra.
Qed.

(* ------------------------------------------------------------------ *)
(** * Inverse distance weights *)

Lemma sumR_pos l : l <> [] -> (forall x, In x l -> 0 < x) -> 0 < sumR l.
Proof.
  destruct l as [|a l]; [congruence|]. intros _. revert a. induction l as [|b l IH]; intros a H.
  - cbn. specialize (H a (or_introl eq_refl)). lra.
  - cbn [sumR]. pose proof (H a (or_introl eq_refl)). pose proof (IH b ltac:(intros x Hx; apply H; right; exact Hx)) as G. cbn [sumR] in G. lra.
Qed.
Lemma sumR_scale c l : sumR (map (fun x => c * x) l) = c * sumR l.
Proof. induction l as [|a l IH]; cbn; [ring|rewrite IH; ring]. Qed.

Lemma weighted_bounds lo hi (l : list (R * R)) : (forall w v, In (w, v) l -> 0 <= w /\ lo <= v <= hi) ->
  lo * sumR (map fst l) <= sumR (map (fun p => fst p * snd p) l) <= hi * sumR (map fst l).
Proof.
  induction l as [|[w v] l IH]; intros H; cbn; [lra|].
  specialize (IH ltac:(intros w' v' Hw; apply H; right; exact Hw)). pose proof (H w v (or_introl eq_refl)). nra.
Qed.

Lemma idw_weights l : l <> [] -> (forall d v, In (d, v) l -> 0 < d) ->
  inverse_weighted (map fst l) (map snd l) (idw l).
Proof.
  intros Hne Hpos. set (S := sumR (map (fun dv => 1 / fst dv) l)).
  assert (HS : 0 < S).
  { apply sumR_pos; [destruct l; [congruence|discriminate]|]. intros x Hx. apply in_map_iff in Hx. destruct Hx as ([d v] & <- & Hx).
    cbn. apply Hpos in Hx. unfold Rdiv. rewrite Rmult_1_l. apply Rinv_0_lt_compat, Hx. }
  exists (map (fun dv => / S * (1 / fst dv)) l).
  assert (Hent : forall i, (i < List.length l)%nat -> ent (map (fun dv => / S * (1 / fst dv)) l) i * ent (map fst l) i = / S).
  { clear Hne. revert HS. generalize S. clear S. intros S HS. unfold ent. induction l as [|[d v] l IH]; intros i Hi; cbn in Hi; [lia|].
    destruct i as [|i]; cbn [map nth fst].
    - pose proof (Hpos d v (or_introl eq_refl)). field. lra.
    - apply IH; [|lia]. intros d' v' Hd. apply (Hpos d' v'). right. exact Hd. }
  repeat split.
  - rewrite !map_length. reflexivity.
  - intros w Hw. apply in_map_iff in Hw. destruct Hw as ([d v] & <- & Hw). apply Hpos in Hw. cbn [fst].
    unfold Rdiv. rewrite Rmult_1_l. apply Rmult_lt_0_compat; apply Rinv_0_lt_compat; assumption.
  - rewrite <- (map_map (fun dv : R * R => 1 / fst dv) (fun x => / S * x)), sumR_scale. fold S. field. lra.
  - unfold idw. fold S. unfold Rdiv at 1. rewrite Rmult_comm, <- sumR_scale, map_map. clear. generalize (/ S). intros c.
    induction l as [|[d v] l IH]; [reflexivity|]. cbn [map combine sumR fst snd]. rewrite <- IH. f_equal. unfold Rdiv. ring.
  - intros i j Hi Hj. rewrite map_length in Hi, Hj. rewrite !Hent by assumption. reflexivity.
Qed.

Lemma inverse_weighted_among ds vs y : List.length ds = List.length vs -> inverse_weighted ds vs y -> among y vs.
Proof.
  intros Hl (ws & Hlw & Hpos & Hs & -> & _) lo hi Hb.
  pose proof (weighted_bounds lo hi (combine ws vs)) as W.
  assert (E : map fst (combine ws vs) = ws).
  { assert (Hle : List.length ws = List.length vs) by congruence. clear - Hle. revert vs Hle.
    induction ws as [|w ws IH]; intros [|v vs] H; cbn in *; try discriminate; [reflexivity|]. f_equal. apply IH. lia. }
  rewrite E, Hs, !Rmult_1_r in W. apply W. intros w v Hwv. split; [apply Rlt_le, Hpos, (in_combine_l _ _ _ _ Hwv)|apply Hb, (in_combine_r _ _ _ _ Hwv)].
Qed.

Lemma float_bounds : 0 < float_pos_min < float_pos_max.
Proof.
  unfold float_pos_min, float_pos_max. split; [apply Rinv_0_lt_compat, pow_lt; lra|].
  assert (A : 1 <= 2 ^ 126) by (apply pow_R1_Rle; lra). assert (B : 1 <= 2 ^ 23) by (apply pow_R1_Rle; lra).
  assert (C : 1 <= 2 ^ 127) by (apply pow_R1_Rle; lra).
  assert (/ 2 ^ 126 <= 1) by (rewrite <- Rinv_1; apply Rinv_le_contravar; lra).
  assert (D : / 2 ^ 23 <= / 2). { apply Rinv_le_contravar; [lra|]. replace (2 ^ 23) with (2 * 2 ^ 22) by (cbn; ring). assert (1 <= 2 ^ 22) by (apply pow_R1_Rle; lra). lra. }
  assert (/ 2 = 1 / 2) by lra. nra.
Qed.
Lemma clip_dist_pos d : 0 < clip_dist d.
Proof.
  unfold clip_dist. pose proof float_bounds. pose proof (clipR_range d float_pos_min float_pos_max ltac:(lra)). lra.
Qed.

Lemma idw_index_range a x : (1 <= a_n a)%nat -> on_axis a (idw_index a x).
Proof. intros H. unfold on_axis, idw_index, clipZ. lia. Qed.

(** The cell used by the inverse distance maps. *)
Lemma idw_index_below a x : proper_axis a -> x < a_hi a -> on_axis a (idw_index a x) /\ on_axis a (idw_index a x + 1).
Proof.
  intros H Hx. split; [apply idw_index_range; destruct H; lia|].
  pose proof (bin_pos a H) as Hb. pose proof (frac_place a x H) as Ex. pose proof (Int_part_bounds (frac a x)) as HI.
  assert (Hhi : a_hi a = a_lo a + (INR (a_n a) - 1) * bin_size a).
  { pose proof (INR_axis a H). unfold bin_size. field. lra. }
  assert (frac a x < INR (a_n a) - 1) by nra.
  assert (Int_part (frac a x) < Z.of_nat (a_n a) - 1)%Z by (apply lt_IZR; rewrite minus_IZR, <- INR_IZR_INZ; lra).
  destruct H. unfold on_axis, idw_index, clipZ. lia.
Qed.

Lemma idw_index_inside a x : proper_axis a -> a_lo a <= x < a_hi a ->
  place a (idw_index a x) <= x < place a (idw_index a x + 1).
Proof.
  intros H Hx. pose proof (bin_pos a H) as Hb. pose proof (frac_place a x H) as Ex. pose proof (Int_part_bounds (frac a x)) as HI.
  assert (Hhi : a_hi a = a_lo a + (INR (a_n a) - 1) * bin_size a).
  { pose proof (INR_axis a H). unfold bin_size. field. lra. }
  assert (frac a x < INR (a_n a) - 1) by nra. assert (0 <= frac a x) by nra.
  assert (Int_part (frac a x) < Z.of_nat (a_n a) - 1)%Z by (apply lt_IZR; rewrite minus_IZR, <- INR_IZR_INZ; lra).
  assert (0 <= Int_part (frac a x))%Z. { apply Z.lt_succ_r, lt_IZR. rewrite succ_IZR. lra. }
  assert (E : idw_index a x = Int_part (frac a x)) by (destruct H; unfold idw_index, clipZ; lia).
  rewrite E, <- !place_node. unfold node. rewrite plus_IZR. nra.
Qed.

Lemma idw_index_above a x : proper_axis a -> a_hi a <= x -> idw_index a x = (Z.of_nat (a_n a) - 1)%Z.
Proof.
  intros H Hx. pose proof (bin_pos a H) as Hb. pose proof (frac_place a x H) as Ex. pose proof (Int_part_bounds (frac a x)) as HI.
  assert (Hhi : a_hi a = a_lo a + (INR (a_n a) - 1) * bin_size a).
  { pose proof (INR_axis a H). unfold bin_size. field. lra. }
  assert (INR (a_n a) - 1 <= frac a x) by nra.
  assert (Z.of_nat (a_n a) - 1 <= Int_part (frac a x))%Z. { apply Z.lt_succ_r, lt_IZR. rewrite succ_IZR, minus_IZR, <- INR_IZR_INZ. lra. }
  destruct H. unfold idw_index, clipZ. lia.
Qed.

(* ------------------------------------------------------------------ *)
(** * Nearest neighbour *)

Lemma argmin_spec (f : nat -> R) : forall ds i best, (best < i)%nat ->
  (forall j, (j < List.length ds)%nat -> nth j ds 0 = f (i + j)%nat) ->
  (forall j, (j < best)%nat -> f best < f j) -> (forall j, (best < j < i)%nat -> f best <= f j) ->
  let k := argmin_from i best (f best) ds in
  (k < i + List.length ds)%nat /\ (forall j, (j < k)%nat -> f k < f j) /\ (forall j, (k < j < i + List.length ds)%nat -> f k <= f j).
Proof.
  induction ds as [|d ds IH]; intros i best Hb Hd H1 H2; cbn zeta.
  - cbn. rewrite Nat.add_0_r. split; [lia|]. split; [exact H1|exact H2].
  - cbn [argmin_from List.length]. pose proof (Hd 0%nat ltac:(cbn; lia)) as E. cbn in E. rewrite Nat.add_0_r in E. subst d.
    rewrite <- Nat.add_succ_comm.
    assert (Hd' : forall j, (j < List.length ds)%nat -> nth j ds 0 = f (S i + j)%nat).
    { intros j Hj. specialize (Hd (S j) ltac:(cbn; lia)). cbn [nth] in Hd. rewrite Hd. f_equal. lia. }
    destruct (Rlt_dec (f i) (f best)) as [L|L].
    + apply (IH (S i) i); [lia|exact Hd'| |].
      * intros j Hj. destruct (lt_eq_lt_dec j best) as [[A| ->]|A]; [specialize (H1 j A); lra|exact L|specialize (H2 j ltac:(lia)); lra].
      * intros j Hj. lia.
    + apply (IH (S i) best); [lia|exact Hd'|exact H1|].
      intros j Hj. destruct (Nat.eq_dec j i) as [->|N]; [lra|apply H2; lia].
Qed.

Lemma nearest_spec refs x : refs <> [] ->
  let k := nearest refs x in
  (k < List.length refs)%nat /\
  (forall j, (j < List.length refs)%nat -> Rabs (x - ent refs k) <= Rabs (x - ent refs j)) /\
  (forall j, (j < k)%nat -> Rabs (x - ent refs k) < Rabs (x - ent refs j)).
Proof.
  intros Hne k. destruct refs as [|r refs]; [congruence|].
  pose proof (argmin_spec (fun j => Rabs (x - ent (r :: refs) j)) (map (fun r => Rabs (x - r)) refs) 1 0 ltac:(lia)) as A.
  assert (Hk : k = argmin_from 1 0 (Rabs (x - r)) (map (fun r => Rabs (x - r)) refs)) by reflexivity.
  unfold ent in A at 3 5. cbn [nth] in A. cbn zeta in A.
  destruct A as (A1 & A2 & A3).
  - intros j Hj. rewrite map_length in Hj. rewrite nth_indep with (d' := Rabs (x - 0)) by (rewrite map_length; exact Hj).
    rewrite (map_nth (fun r => Rabs (x - r))). reflexivity.
  - intros j Hj. lia.
  - intros j Hj. lia.
  - unfold ent in A1, A2, A3. cbn [nth] in A1, A2, A3. rewrite <- Hk in A1, A2, A3. fold (ent (r :: refs) k) in *. rewrite map_length in *.
    split; [exact A1|]. split; [|exact A2]. intros j Hj. destruct (lt_eq_lt_dec j k) as [[L| ->]|L].
    + apply Rlt_le, A2, L.
    + lra.
    + apply A3. cbn in Hj. lia.
Qed.

Lemma linspace_ent a k : (k < a_n a)%nat -> ent (linspace a) k = place a (Z.of_nat k).
Proof.
  intros H. unfold linspace. destruct (a_n a) as [|[|n]] eqn:E; [lia| |].
  - replace k with 0%nat by lia. cbn. rewrite place_first. reflexivity.
  - rewrite ent_map_seq by lia. rewrite <- place_node. unfold node. rewrite <- INR_IZR_INZ. reflexivity.
Qed.
Lemma linspace_length a : List.length (linspace a) = a_n a.
Proof.
  unfold linspace. destruct (a_n a) as [|[|n]]; [reflexivity|reflexivity|rewrite map_length, seq_length; reflexivity].
Qed.

Lemma nearest_axis a x : (1 <= a_n a)%nat ->
  on_axis a (Z.of_nat (nearest (linspace a) x)) /\
  forall i, on_axis a i -> Rabs (x - place a (Z.of_nat (nearest (linspace a) x))) <= Rabs (x - place a i).
Proof.
  intros H. pose proof (nearest_spec (linspace a) x) as N. cbn zeta in N. rewrite linspace_length in N.
  destruct N as (N1 & N2 & _); [intros E; pose proof (linspace_length a) as L; rewrite E in L; cbn in L; lia|].
  split; [unfold on_axis; lia|]. intros i [Hi1 Hi2]. specialize (N2 (Z.to_nat i) ltac:(lia)).
  rewrite !linspace_ent in N2 by lia. rewrite Z2Nat.id in N2 by lia. exact N2.
Qed.

Lemma Rabs_sq x y : Rabs x <= Rabs y -> x ^ 2 <= y ^ 2.
Proof. intros H. rewrite <- (pow2_abs x), <- (pow2_abs y). pose proof (Rabs_pos x). nra. Qed.

(* ------------------------------------------------------------------ *)
(** * knn *)

Lemma insert_near_perm a l : Permutation (a :: l) (insert_near a l).
Proof.
  induction l as [|b l IH]; cbn; [apply Permutation_refl|]. destruct (Rle_dec (fst a) (fst b)); [apply Permutation_refl|].
  eapply perm_trans; [apply perm_swap|]. apply perm_skip, IH.
Qed.
Lemma by_distance_perm l : Permutation l (by_distance l).
Proof. induction l as [|a l IH]; cbn; [apply perm_nil|]. eapply perm_trans; [apply perm_skip, IH|apply insert_near_perm]. Qed.

Inductive by_dist : list (R * R) -> Prop :=
| bd_nil : by_dist []
| bd_cons a l : (forall b, In b l -> fst a <= fst b) -> by_dist l -> by_dist (a :: l).

Lemma insert_near_sorted a l : by_dist l -> by_dist (insert_near a l).
Proof.
  induction 1 as [|b l Hb Hl IH]; cbn.
  - apply bd_cons; [intros b []|apply bd_nil].
  - destruct (Rle_dec (fst a) (fst b)) as [L|L].
    + apply bd_cons; [|apply bd_cons; assumption]. intros c [<-|Hc]; [exact L|]. specialize (Hb c Hc). lra.
    + apply bd_cons; [|exact IH]. intros c Hc. apply (Permutation_in _ (Permutation_sym (insert_near_perm a l))) in Hc.
      destruct Hc as [<-|Hc]; [lra|apply Hb, Hc].
Qed.
Lemma by_distance_sorted l : by_dist (by_distance l).
Proof. induction l as [|a l IH]; cbn; [apply bd_nil|apply insert_near_sorted, IH]. Qed.

Lemma by_dist_split k : forall l, by_dist l -> forall a b, In a (firstn k l) -> In b (skipn k l) -> fst a <= fst b.
Proof.
  induction k as [|k IH]; intros l H a b Ha Hb; [destruct Ha|].
  destruct H as [|c l Hc Hl]; [destruct Ha|]. cbn in Ha, Hb. destruct Ha as [<-|Ha].
  - apply Hc. rewrite <- (firstn_skipn k l). apply in_or_app. right. exact Hb.
  - apply (IH l); assumption.
Qed.

(* ------------------------------------------------------------------ *)
(** * pdf to cdf *)

Lemma mids_length x : List.length (mids x) = (List.length x - 1)%nat.
Proof. induction x as [|a [|b x] IH]; [reflexivity|reflexivity|]. change (mids (a :: b :: x)) with (/ 2 * (b + a) :: mids (b :: x)). cbn [List.length] in *. rewrite IH. lia. Qed.
Lemma diffs_length x : List.length (diffs x) = (List.length x - 1)%nat.
Proof. induction x as [|a [|b x] IH]; [reflexivity|reflexivity|]. change (diffs (a :: b :: x)) with ((b - a) :: diffs (b :: x)). cbn [List.length] in *. rewrite IH. lia. Qed.
Lemma mids_ent x : forall k, (S k < List.length x)%nat -> ent (mids x) k = (ent x k + ent x (S k)) / 2.
Proof.
  induction x as [|a [|b x] IH]; intros k Hk; cbn [List.length] in *; [lia|lia|].
  change (mids (a :: b :: x)) with (/ 2 * (b + a) :: mids (b :: x)). destruct k as [|k]; unfold ent in *.
  - cbn. lra.
  - cbn [nth]. apply (IH k). lia.
Qed.
Lemma diffs_ent x : forall k, (S k < List.length x)%nat -> ent (diffs x) k = ent x (S k) - ent x k.
Proof.
  induction x as [|a [|b x] IH]; intros k Hk; cbn [List.length] in *; [lia|lia|].
  change (diffs (a :: b :: x)) with ((b - a) :: diffs (b :: x)). destruct k as [|k]; unfold ent in *.
  - cbn. lra.
  - cbn [nth]. apply (IH k). lia.
Qed.
Lemma cumsum_length acc l : List.length (cumsum acc l) = List.length l.
Proof. revert acc. induction l as [|a l IH]; intros acc; cbn; [reflexivity|rewrite IH; reflexivity]. Qed.
Lemma cumsum_ent l : forall acc k, (k < List.length l)%nat -> ent (cumsum acc l) k = acc + sumR (firstn (S k) l).
Proof.
  unfold ent. induction l as [|a l IH]; intros acc k Hk; cbn [List.length] in *; [lia|].
  destruct k as [|k]; cbn [cumsum nth].
  - cbn. lra.
  - rewrite IH by lia. cbn [firstn sumR]. destruct l; cbn [firstn sumR]; lra.
Qed.
Lemma last_ent l d : l <> [] -> last l d = ent l (List.length l - 1).
Proof.
  unfold ent. induction l as [|a [|b l] IH]; intros H; [congruence|reflexivity|].
  change (last (a :: b :: l) d) with (last (b :: l) d). rewrite IH by discriminate. cbn [List.length Nat.sub]. rewrite !Nat.sub_0_r. reflexivity.
Qed.
Lemma sumR_firstn_S l k : (k < List.length l)%nat -> sumR (firstn (S k) l) = sumR (firstn k l) + ent l k.
Proof.
  unfold ent. revert k. induction l as [|a l IH]; intros k Hk; cbn [List.length] in *; [lia|].
  destruct k as [|k].
  - cbn. lra.
  - change (firstn (S (S k)) (a :: l)) with (a :: firstn (S k) l). specialize (IH k ltac:(lia)). change (firstn (S k) (a :: l)) with (a :: firstn k l). cbn [sumR nth]. rewrite IH. lra.
Qed.
