(** Lemmas about bins, edges and collapsing (C94). *)
From Coq Require Import Reals Lra Lia Permutation Sorted.
From Verif Require Import Base BaseFacts ModelInterp SpecInterp ProofInterp2 ModelPlotMap SpecPlotMap.
Local Open Scope R_scope.

(* ------------------------------------------------------------------ *)
(** * Edges and centers *)

Lemma ln10_gt0 : 0 < ln 10.
Proof. rewrite <- ln_1. apply ln_increasing; lra. Qed.

Lemma pow10_log10 x : 0 < x -> pow10 (log10 x) = x.
Proof.
  intros H. unfold pow10, Rpower, log10. pose proof ln10_gt0.
  replace (ln x / ln 10 * ln 10) with (ln x) by (field; lra). apply exp_ln, H.
Qed.
Lemma log10_pow10 x : log10 (pow10 x) = x.
Proof. unfold pow10, Rpower, log10. rewrite ln_exp. pose proof ln10_gt0. field. lra. Qed.
Lemma pow10_pos x : 0 < pow10 x.
Proof. apply exp_pos. Qed.
Lemma pow10_lt x y : x < y -> pow10 x < pow10 y.
Proof. intros H. apply exp_increasing. apply Rmult_lt_compat_r; [apply ln10_gt0|exact H]. Qed.
Lemma pow10_plus x y : pow10 (x + y) = pow10 x * pow10 y.
Proof. apply Rpower_plus. Qed.

Lemma midpoints_length : forall c, List.length (midpoints c) = Nat.pred (List.length c).
Proof.
  induction c as [|x [|y c] IH]; [reflexivity|reflexivity|].
  change (midpoints (x :: y :: c)) with ((x + y) / 2 :: midpoints (y :: c)). cbn [List.length] in *. rewrite IH. reflexivity.
Qed.

Lemma midpoints_ent : forall c i, (S i < List.length c)%nat ->
  ent (midpoints c) i = (ent c i + ent c (S i)) / 2.
Proof.
  induction c as [|x [|y c] IH]; intros i H; [cbn in H; lia|cbn in H; lia|].
  change (midpoints (x :: y :: c)) with ((x + y) / 2 :: midpoints (y :: c)).
  destruct i as [|i]; [reflexivity|]. apply (IH i). cbn [List.length] in *. lia.
Qed.

Lemma last_ent : forall c d, c <> [] -> last c d = ent c (Nat.pred (List.length c)).
Proof.
  induction c as [|x [|y c] IH]; intros d H; [congruence|reflexivity|].
  change (last (x :: y :: c) d) with (last (y :: c) d). rewrite IH by discriminate. reflexivity.
Qed.

Lemma linspace_place a i : (i < a_n a)%nat -> ent (linspace a) i = place a (Z.of_nat i).
Proof. apply linspace_ent. Qed.

(** The width of a bin on an axis. *)
Definition width (a : axis) : R := if Nat.eqb (a_n a) 1 then 1 else (a_hi a - a_lo a) / (INR (a_n a) - 1).

Lemma edges_of_axis a : (0 < a_n a)%nat ->
  exists e, edges_of (linspace a) = Ok e /\ List.length e = S (a_n a) /\
    forall i, (i <= a_n a)%nat -> ent e i = a_lo a + (INR i - 1 / 2) * width a.
Proof.
  intros Hn. pose proof (linspace_length a) as Hl.
  destruct (linspace a) as [|x [|y c]] eqn:E; [cbn in Hl; lia| |].
  - cbn [edges_of]. cbn in Hl.
    assert (Hx : x = a_lo a).
    { pose proof (linspace_place a 0 Hn) as H0. rewrite E in H0. unfold ent, place in H0. cbn in H0. lra. }
    eexists. split; [reflexivity|]. split; [cbn; lia|]. intros i Hi. unfold width. rewrite <- Hl. cbn [Nat.eqb].
    destruct i as [|[|i]]; [| |lia]; unfold ent; cbn [nth INR]; lra.
  - assert (HE : forall k, (k < a_n a)%nat -> ent (x :: y :: c) k = place a (Z.of_nat k))
      by (intros k Hk; rewrite <- E; apply linspace_place, Hk).
    assert (Hn2 : (2 <= a_n a)%nat) by (cbn in Hl; lia).
    assert (HP : forall k, place a (Z.of_nat k) = a_lo a + INR k * width a).
    { intros k. unfold place, width. replace (Nat.eqb (a_n a) 1) with false by (symmetry; apply Nat.eqb_neq; lia).
      rewrite <- INR_IZR_INZ. reflexivity. }
    pose proof (HE 0%nat ltac:(lia)) as H0. pose proof (HE 1%nat ltac:(lia)) as H1.
    change (ent (x :: y :: c) 0) with x in H0. change (ent (x :: y :: c) 1) with y in H1.
    rewrite HP in H0, H1. cbn [INR] in H0, H1.
    cbn [edges_of].
    eexists. split; [reflexivity|]. split.
    { cbn [List.length]. rewrite app_length, midpoints_length. cbn [List.length]. cbn in Hl. lia. }
    intros i Hi. destruct i as [|i].
    { unfold ent. cbn [nth INR]. lra. }
    change (ent (x - (y - x) / 2 :: midpoints (x :: y :: c) ++ [last (x :: y :: c) 0 + (y - x) / 2]) (S i))
      with (nth i (midpoints (x :: y :: c) ++ [last (x :: y :: c) 0 + (y - x) / 2]) 0).
    rewrite S_INR. destruct (Nat.eq_dec (S i) (a_n a)) as [Hlast|Hlast].
    + rewrite app_nth2; rewrite midpoints_length, Hl; [|lia]. replace (i - Nat.pred (a_n a))%nat with 0%nat by lia.
      change (nth 0 [last (x :: y :: c) 0 + (y - x) / 2] 0) with (last (x :: y :: c) 0 + (y - x) / 2).
      rewrite last_ent by discriminate. rewrite Hl, HE by lia. rewrite HP.
      replace (Nat.pred (a_n a)) with i by lia. lra.
    + rewrite app_nth1 by (rewrite midpoints_length, Hl; lia).
      change (nth i (midpoints (x :: y :: c)) 0) with (ent (midpoints (x :: y :: c)) i).
      rewrite midpoints_ent by (rewrite Hl; lia). rewrite !HE by lia. rewrite !HP, S_INR. lra.
Qed.

(** The axis on its scale. *)
Definition scale_axis (is_log : bool) (lo hi : R) (n : nat) : axis :=
  if is_log then mk_axis (log10 lo) (log10 hi) n else mk_axis lo hi n.
Definition unscale (is_log : bool) (x : R) : R := if is_log then pow10 x else x.

Lemma scale_axis_n is_log lo hi n : a_n (scale_axis is_log lo hi n) = n.
Proof. destruct is_log; reflexivity. Qed.
Lemma width_step is_log lo hi n : width (scale_axis is_log lo hi n) = step is_log lo hi n.
Proof. destruct is_log; reflexivity. Qed.
Lemma scale_axis_lo is_log lo hi n : a_lo (scale_axis is_log lo hi n) = on_scale is_log lo.
Proof. destruct is_log; reflexivity. Qed.

Lemma ent_map f l i : (i < List.length l)%nat -> ent (map f l) i = f (ent l i).
Proof.
  intros H. unfold ent. rewrite (nth_indep (map f l) 0 (f 0)) by (rewrite map_length; exact H). apply map_nth.
Qed.

Lemma unscaled_place is_log lo hi n i : drawable is_log lo hi ->
  unscale is_log (place (scale_axis is_log lo hi n) i) = scaled_place is_log lo hi n i.
Proof.
  intros Hd. destruct is_log; [|reflexivity]. destruct (Hd eq_refl) as [H1 H2].
  unfold unscale, scale_axis, place, scaled_place. cbn [a_lo a_hi a_n].
  rewrite pow10_plus, pow10_log10 by exact H1. f_equal. unfold pow10, Rpower. f_equal.
  unfold log10, Rdiv. rewrite (ln_mult hi (/ lo)), ln_Rinv by (try apply Rinv_0_lt_compat; lra).
  pose proof ln10_gt0. replace (/ (INR n - 1)) with (/ (INR n - 1) * 1) by ring.
  transitivity (IZR i * / (INR n - 1) * (ln hi - ln lo) * (/ ln 10 * ln 10)); [ring|].
  rewrite Rinv_l by lra. ring.
Qed.

Lemma on_scale_place is_log lo hi n i : drawable is_log lo hi ->
  on_scale is_log (scaled_place is_log lo hi n i) = place (scale_axis is_log lo hi n) i.
Proof.
  intros Hd. rewrite <- unscaled_place by exact Hd. destruct is_log; [|reflexivity].
  unfold on_scale, unscale. apply log10_pow10.
Qed.

Lemma edges_centers_eq lo hi n is_log : edges_centers lo hi n is_log =
  match edges_of (linspace (scale_axis is_log lo hi n)) with
  | Err e => Err e
  | Ok e => Ok (map (unscale is_log) e, map (unscale is_log) (linspace (scale_axis is_log lo hi n)))
  end.
Proof.
  unfold edges_centers. destruct is_log; cbn [scale_axis].
  - destruct (edges_of _); reflexivity.
  - destruct (edges_of _); [|reflexivity]. unfold unscale. rewrite !map_id. reflexivity.
Qed.

(** The bins: [n] centers at the nodes, edges half a step to either side on the scale. *)
Lemma edges_centers_ok lo hi n is_log : (0 < n)%nat -> drawable is_log lo hi ->
  exists e c, edges_centers lo hi n is_log = Ok (e, c) /\
    List.length e = S n /\ List.length c = n /\
    (forall i, (i < n)%nat -> ent c i = scaled_place is_log lo hi n (Z.of_nat i)) /\
    (forall i, (i <= n)%nat ->
       ent e i = unscale is_log (on_scale is_log lo + (INR i - 1 / 2) * step is_log lo hi n)) /\
    (forall i, (i < n)%nat ->
       ent c i = unscale is_log (on_scale is_log lo + INR i * step is_log lo hi n)).
Proof.
  intros Hn Hd. set (a := scale_axis is_log lo hi n).
  assert (Han : a_n a = n) by apply scale_axis_n.
  destruct (edges_of_axis a ltac:(lia)) as (e & E & L & H).
  exists (map (unscale is_log) e), (map (unscale is_log) (linspace a)).
  rewrite edges_centers_eq. fold a. rewrite E. split; [reflexivity|].
  rewrite !map_length, linspace_length. rewrite Han in *. split; [exact L|]. split; [reflexivity|].
  split; [|split].
  - intros i Hi. rewrite ent_map by (rewrite linspace_length; lia). rewrite linspace_place by lia.
    apply unscaled_place, Hd.
  - intros i Hi. rewrite ent_map by lia. rewrite H by exact Hi. unfold a. rewrite width_step, scale_axis_lo. reflexivity.
  - intros i Hi. rewrite ent_map by (rewrite linspace_length; lia). rewrite linspace_place by lia.
    f_equal. unfold place. rewrite <- INR_IZR_INZ. unfold a at 1. rewrite scale_axis_lo. f_equal.
    rewrite <- width_step. fold a. unfold width. rewrite Han.
    destruct (Nat.eqb n 1) eqn:E1; [|reflexivity]. apply Nat.eqb_eq in E1.
    assert (i = 0)%nat by lia. subst i. cbn [INR]. ring.
Qed.

(* ------------------------------------------------------------------ *)
(** * The bins in a range *)

Lemma in_range_iff lo hi c : in_range lo hi c = true <-> lo <= c <= hi.
Proof.
  unfold in_range. destruct (Rle_dec lo c), (Rle_dec c hi); split; intros H; try discriminate H; try reflexivity; lra.
Qed.

Lemma bins_in_wanted range is_log lo hi n c : List.length c = n ->
  (forall i, (i < n)%nat -> ent c i = scaled_place is_log lo hi n (Z.of_nat i)) ->
  wanted range is_log lo hi n (bins_in range c).
Proof.
  intros Hl Hc. unfold wanted, bins_in. rewrite Hl. destruct range as [[a b]|].
  - set (sel := filter _ _).
    assert (HS : forall i, In i sel <-> (i < n)%nat /\ a <= scaled_place is_log lo hi n (Z.of_nat i) <= b).
    { intros i. unfold sel. rewrite filter_In, in_seq, in_range_iff. split.
      - intros [H1 H2]. assert (Hi : (i < n)%nat) by lia. rewrite <- Hc by exact Hi. split; [exact Hi|exact H2].
      - intros [H1 H2]. rewrite <- Hc in H2 by exact H1. split; [lia|exact H2]. }
    assert (HN : NoDup sel) by (apply NoDup_filter, seq_NoDup).
    destruct sel as [|s0 sel'] eqn:Es.
    + split; [apply seq_NoDup|]. intros i. rewrite in_seq. split.
      * intros H. split; [lia|]. right. intros j Hj Hin. apply (proj2 (HS j) (conj Hj Hin)).
      * intros [H _]. lia.
    + split; [exact HN|]. intros i. rewrite HS. split; [tauto|]. intros [H1 [H2|H2]]; [tauto|].
      exfalso. pose proof (proj1 (HS s0) (or_introl eq_refl)) as [A B]. apply (H2 s0 A B).
  - split; [apply seq_NoDup|]. intros i. rewrite in_seq. split; [intros H; split; [lia|left; exact I]|intros [H _]; lia].
Qed.

(* ------------------------------------------------------------------ *)
(** * The axes to collapse *)

(** The chosen axes, highest first. *)
Fixpoint picks {A} (os : list (option A)) : list (nat * A) :=
  match os with
  | [] => []
  | o :: os' => map (fun p => (S (fst p), snd p)) (picks os') ++ match o with Some a => [(0%nat, a)] | None => [] end
  end.

Definition before {A} (p q : nat * A) : Prop := (fst q < fst p)%nat.

Lemma picks_in {A} : forall (os : list (option A)) i a, In (i, a) (picks os) <-> nth_error os i = Some (Some a).
Proof.
  induction os as [|o os IH]; intros i a; cbn [picks].
  - destruct i; cbn; split; (tauto || discriminate).
  - rewrite in_app_iff, in_map_iff. split.
    + intros [([j b] & E & H)|H].
      * cbn in E. injection E as <- <-. apply IH in H. exact H.
      * destruct o as [b|]; [|destruct H]. destruct H as [H|[]]. injection H as <- <-. reflexivity.
    + destruct i as [|i]; cbn [nth_error]; intros H.
      * injection H as ->. right. left. reflexivity.
      * left. exists (i, a). split; [reflexivity|]. apply IH, H.
Qed.

Lemma sorted_app {A} (P : A -> A -> Prop) : forall l1 l2, StronglySorted P l1 -> StronglySorted P l2 ->
  (forall x y, In x l1 -> In y l2 -> P x y) -> StronglySorted P (l1 ++ l2).
Proof.
  induction l1 as [|x l1 IH]; intros l2 H1 H2 H; [exact H2|]. inversion H1 as [|? ? Hs Hf]; subst. cbn [app]. constructor.
  - apply IH; [exact Hs|exact H2|]. intros a b Ha Hb. apply H; [right; exact Ha|exact Hb].
  - apply Forall_app. split; [exact Hf|]. apply Forall_forall. intros y Hy. apply H; [left; reflexivity|exact Hy].
Qed.

Lemma picks_sorted {A} : forall os : list (option A), StronglySorted before (picks os).
Proof.
  induction os as [|o os IH]; cbn [picks]; [constructor|]. apply sorted_app.
  - induction IH as [|x l Hs IH' Hf]; cbn [map]; constructor; [exact IH'|].
    apply Forall_forall. intros y Hy. apply in_map_iff in Hy. destruct Hy as (z & <- & Hz).
    rewrite Forall_forall in Hf. specialize (Hf z Hz). unfold before in *. cbn [fst]. lia.
  - destruct o as [a|]; [constructor; constructor|constructor].
  - intros x y Hx Hy. apply in_map_iff in Hx. destruct Hx as (z & <- & Hz).
    destruct o as [a|]; [|destruct Hy]. destruct Hy as [<-|[]]. unfold before. cbn [fst]. lia.
Qed.

Lemma sorted_unique {A} : forall l1 l2 : list (nat * A), StronglySorted before l1 -> StronglySorted before l2 ->
  (forall x, In x l1 <-> In x l2) -> l1 = l2.
Proof.
  induction l1 as [|x l1 IH]; intros l2 H1 H2 H.
  - destruct l2 as [|y l2]; [reflexivity|]. exfalso. apply (proj2 (H y)). left. reflexivity.
  - destruct l2 as [|y l2]; [exfalso; apply (proj1 (H x)); left; reflexivity|].
    inversion H1 as [|? ? S1 F1]; subst. inversion H2 as [|? ? S2 F2]; subst.
    rewrite Forall_forall in F1, F2.
    assert (Exy : x = y).
    { pose proof (proj1 (H x) (or_introl eq_refl)) as [E|Hx]; [congruence|].
      pose proof (proj2 (H y) (or_introl eq_refl)) as [E|Hy]; [congruence|].
      specialize (F1 _ Hy). specialize (F2 _ Hx). unfold before in *. lia. }
    subst y. f_equal. apply IH; [exact S1|exact S2|]. intros z. split; intros Hz.
    + pose proof (proj1 (H z) (or_intror Hz)) as [E|Hz']; [|exact Hz']. subst z.
      specialize (F1 _ Hz). unfold before in F1. lia.
    + pose proof (proj2 (H z) (or_intror Hz)) as [E|Hz']; [|exact Hz']. subst z.
      specialize (F2 _ Hz). unfold before in F2. lia.
Qed.

Lemma insert_desc_perm a : forall l, Permutation (a :: l) (insert_desc a l).
Proof.
  induction l as [|b l IH]; cbn [insert_desc]; [apply Permutation_refl|].
  destruct (Nat.leb (fst b) (fst a)); [apply Permutation_refl|].
  eapply perm_trans; [apply perm_swap|]. apply perm_skip, IH.
Qed.
Lemma sort_desc_perm : forall l, Permutation l (sort_desc l).
Proof.
  induction l as [|a l IH]; cbn [sort_desc fold_right]; [constructor|].
  eapply perm_trans; [apply perm_skip, IH|]. apply insert_desc_perm.
Qed.
Lemma insert_desc_sorted a : forall l, StronglySorted before l -> ~ In (fst a) (map fst l) ->
  StronglySorted before (insert_desc a l).
Proof.
  induction l as [|b l IH]; intros H Hn; cbn [insert_desc]; [constructor; constructor|].
  inversion H as [|? ? Hs Hf]; subst. cbn in Hn. destruct (Nat.leb (fst b) (fst a)) eqn:E.
  - apply Nat.leb_le in E. constructor; [exact H|]. assert (fst b < fst a)%nat by lia.
    constructor; [exact H0|]. rewrite Forall_forall in *. intros c Hc. specialize (Hf c Hc). unfold before in *. lia.
  - apply Nat.leb_gt in E. constructor; [apply IH; [exact Hs|tauto]|].
    apply Forall_forall. intros c Hc. apply (Permutation_in _ (Permutation_sym (insert_desc_perm a l))) in Hc.
    destruct Hc as [<-|Hc]; [exact E|]. rewrite Forall_forall in Hf. apply Hf, Hc.
Qed.
Lemma sort_desc_sorted : forall l, NoDup (map fst l) -> StronglySorted before (sort_desc l).
Proof.
  induction l as [|a l IH]; intros H; cbn [sort_desc fold_right]; [constructor|].
  inversion H as [|? ? Hn Hd]; subst. apply insert_desc_sorted; [apply IH, Hd|].
  intros Hin. apply Hn. apply in_map_iff in Hin. destruct Hin as (c & E & Hc).
  apply (Permutation_in _ (Permutation_sym (sort_desc_perm l))) in Hc. apply in_map_iff. exists c. auto.
Qed.

Lemma index_of_nth : forall names x i, index_of x names = Some i -> nth_error names i = Some x.
Proof.
  induction names as [|y names IH]; intros x i H; cbn [index_of] in H; [discriminate H|].
  destruct (String.eqb_spec x y) as [->|N]; [injection H as <-; reflexivity|].
  destruct (index_of x names) as [j|] eqn:E; [|discriminate H]. injection H as <-. apply IH, E.
Qed.
Lemma nth_index_of : forall names x i, NoDup names -> nth_error names i = Some x -> index_of x names = Some i.
Proof.
  induction names as [|y names IH]; intros x i Hd H; [destruct i; discriminate H|].
  inversion Hd as [|? ? Hn Hd']; subst. cbn [index_of]. destruct i as [|i]; cbn in H.
  - injection H as ->. rewrite String.eqb_refl. reflexivity.
  - destruct (String.eqb_spec x y) as [->|N]; [apply nth_error_In in H; contradiction|].
    rewrite (IH x i Hd' H). reflexivity.
Qed.

Lemma to_collapse_in names c i r : NoDup names -> NoDup (keys c) ->
  (In (i, r) (to_collapse names c) <-> exists n, nth_error names i = Some n /\ get n c = Some r).
Proof.
  intros Hn Hc. unfold to_collapse. rewrite in_flat_map. split.
  - intros ([n r'] & H & Hi). cbn [fst snd] in Hi. destruct (index_of n names) as [j|] eqn:E; [|destruct Hi].
    destruct Hi as [Hi|[]]. injection Hi as -> ->. exists n. split; [apply index_of_nth, E|]. apply In_get; assumption.
  - intros (n & H & Hg). exists (n, r). split; [apply get_In, Hg|]. cbn [fst snd].
    rewrite (nth_index_of _ _ _ Hn H). left. reflexivity.
Qed.

Lemma to_collapse_NoDup names : forall c, NoDup (keys c) -> NoDup (map fst (to_collapse names c)).
Proof.
  induction c as [|[n r] c IH]; intros H; [constructor|]. inversion H as [|? ? Hn Hd]; subst.
  unfold to_collapse. cbn [flat_map]. fold (to_collapse names c). rewrite map_app. cbn [fst snd].
  destruct (index_of n names) as [i|] eqn:E; [|apply IH, Hd]. cbn [map app fst]. constructor; [|apply IH, Hd].
  intros Hin. apply in_map_iff in Hin. destruct Hin as ([j r'] & Ej & Hj). cbn in Ej. subst j.
  unfold to_collapse in Hj. apply in_flat_map in Hj. destruct Hj as ([n' r''] & H1 & H2). cbn [fst snd] in H2.
  destruct (index_of n' names) as [j|] eqn:E'; [|destruct H2]. destruct H2 as [H2|[]]. injection H2 as Ej Er. subst j.
  apply index_of_nth in E, E'. assert (n = n') by congruence. subst n'.
  apply Hn. apply in_map_iff. eexists. split; [|exact H1]. reflexivity.
Qed.

Definition asked (c : dict (option (R * R))) (names : list string) : list (option (option (R * R))) :=
  map (fun n => get n c) names.

Lemma sort_picks names c : NoDup names -> NoDup (keys c) ->
  sort_desc (to_collapse names c) = picks (asked c names).
Proof.
  intros Hn Hc. apply sorted_unique.
  - apply sort_desc_sorted, to_collapse_NoDup, Hc.
  - apply picks_sorted.
  - intros [i r]. rewrite picks_in. transitivity (In (i, r) (to_collapse names c)).
    + split; apply Permutation_in; [apply Permutation_sym|]; apply sort_desc_perm.
    + rewrite to_collapse_in by assumption. unfold asked. rewrite nth_error_map. split.
      * intros (n & H & Hg). rewrite H. cbn. f_equal. exact Hg.
      * destruct (nth_error names i) as [n|]; cbn; intros H; [|discriminate H]. injection H as H. exists n. auto.
Qed.

(* ------------------------------------------------------------------ *)
(** * Collapsing *)

Definition drop_axes {A} (ks : list nat) (l : list A) : list A := fold_left (fun l k => remove_at k l) ks l.

Fixpoint average_axes (l : list (nat * list nat)) (f : list nat -> R) : list nat -> R :=
  match l with
  | [] => f
  | (k, sel) :: l' => average_axes l' (fun idx => mean (map (fun i => f (insert_at k i idx)) sel))
  end.

Lemma remove_at_nth {A} : forall (l : list A) k j, (j < k)%nat -> nth_error (remove_at k l) j = nth_error l j.
Proof.
  induction l as [|x l IH]; intros [|k] [|j] H; cbn; try reflexivity; try lia. apply IH. lia.
Qed.

(** The bins that are averaged along axis [k] of a grid. *)
Definition sel_of (g : grid) (k : nat) (range : option (R * R)) : list nat :=
  match nth_error (a_shape (g_data g)) k, nth_error (g_lowers g) k, nth_error (g_uppers g) k,
        nth_error (g_logs g) k with
  | Some n, Some lo, Some hi, Some l =>
      match edges_centers lo hi n l with Ok (_, c) => bins_in range c | Err _ => [] end
  | _, _, _, _ => []
  end.

Definition axis_ok (g : grid) (k : nat) : Prop :=
  exists n lo hi l, nth_error (a_shape (g_data g)) k = Some n /\ nth_error (g_lowers g) k = Some lo /\
    nth_error (g_uppers g) k = Some hi /\ nth_error (g_logs g) k = Some l /\ (0 < n)%nat /\ drawable l lo hi.

Lemma collapse_loop_eq : forall todo g, StronglySorted before todo -> (forall k r, In (k, r) todo -> axis_ok g k) ->
  collapse_loop todo g =
  Ok (mk_grid
        (mk_arr (drop_axes (map fst todo) (a_shape (g_data g)))
                (average_axes (map (fun kr => (fst kr, sel_of g (fst kr) (snd kr))) todo) (a_at (g_data g))))
        (drop_axes (map fst todo) (g_names g)) (drop_axes (map fst todo) (g_lowers g))
        (drop_axes (map fst todo) (g_uppers g)) (drop_axes (map fst todo) (g_logs g))).
Proof.
  induction todo as [|[k r] todo IH]; intros g Hs Hok.
  - destruct g as [[sh f] ns los his lgs]. reflexivity.
  - inversion Hs as [|? ? Hs' Hf]; subst. cbn [collapse_loop].
    destruct (Hok k r (or_introl eq_refl)) as (n & lo & hi & l & E1 & E2 & E3 & E4 & Hn & Hd).
    assert (Es : sel_of g k r = match edges_centers lo hi n l with Ok (_, c) => bins_in r c | Err _ => [] end)
      by (unfold sel_of; rewrite E1, E2, E3, E4; reflexivity).
    unfold collapse_axis. rewrite E1, E2, E3, E4.
    destruct (edges_centers_ok lo hi n l Hn Hd) as (e & c & Ee & _). rewrite Ee in *.
    rewrite Forall_forall in Hf.
    assert (Hlow : forall j, (j < k)%nat -> forall A (x : list A), nth_error (remove_at k x) j = nth_error x j)
      by (intros j Hj A x; apply remove_at_nth, Hj).
    rewrite IH.
    + cbn [g_data g_names g_lowers g_uppers g_logs a_shape a_at map fst snd drop_axes fold_left average_axes].
      f_equal. f_equal. f_equal. rewrite Es. f_equal.
      apply map_ext_in. intros [j rj] Hj. cbn [fst snd]. f_equal. unfold sel_of. cbn [g_data g_lowers g_uppers g_logs a_shape].
      specialize (Hf _ Hj). unfold before in Hf. cbn [fst] in Hf. rewrite !Hlow by exact Hf. reflexivity.
    + exact Hs'.
    + intros j rj Hj. destruct (Hok j rj (or_intror Hj)) as (n' & lo' & hi' & l' & A1 & A2 & A3 & A4 & A5 & A6).
      specialize (Hf _ Hj). unfold before in Hf. cbn [fst] in Hf. exists n', lo', hi', l'.
      cbn [g_data g_lowers g_uppers g_logs a_shape]. rewrite !Hlow by exact Hf. auto 8.
Qed.

Lemma drop_shift {A} : forall ks (x : A) l, drop_axes (map S ks) (x :: l) = x :: drop_axes ks l.
Proof. induction ks as [|k ks IH]; intros x l; [reflexivity|]. cbn [map drop_axes fold_left remove_at]. apply IH. Qed.

Lemma drop_picks {A B} : forall (os : list (option B)) (l : list A), List.length l = List.length os ->
  drop_axes (map fst (picks os)) l =
  map snd (filter (fun ox => match fst ox with None => true | Some _ => false end) (combine os l)).
Proof.
  induction os as [|o os IH]; intros [|x l] H; try discriminate H; [reflexivity|]. cbn [picks combine filter fst].
  rewrite map_app, map_map. cbn [fst]. unfold drop_axes. rewrite fold_left_app.
  rewrite <- (map_map fst S (picks os)).
  change (fold_left (fun (l0 : list A) k => remove_at k l0) (map S (map fst (picks os))) (x :: l))
    with (drop_axes (map S (map fst (picks os))) (x :: l)).
  rewrite drop_shift. rewrite IH by (cbn in H; lia).
  destruct o as [b|]; reflexivity.
Qed.

Lemma average_shift : forall l f i idx,
  average_axes (map (fun p => (S (fst p), snd p)) l) f (i :: idx) = average_axes l (fun js => f (i :: js)) idx.
Proof. induction l as [|[k sel] l IH]; intros f i idx; [reflexivity|]. cbn [map average_axes fst snd]. rewrite IH. reflexivity. Qed.

Lemma average_app : forall l1 l2 f, average_axes (l1 ++ l2) f = average_axes l2 (average_axes l1 f).
Proof. induction l1 as [|[k sel] l1 IH]; intros l2 f; [reflexivity|]. cbn [app average_axes]. apply IH. Qed.

Fixpoint free_axes {A} (os : list (option A)) : nat :=
  match os with [] => 0 | None :: os' => S (free_axes os') | Some _ :: os' => free_axes os' end.

Lemma average_picks : forall os f idx, List.length idx = free_axes os ->
  average_axes (picks os) f idx = averaged os f idx.
Proof.
  induction os as [|o os IH]; intros f idx H; cbn [picks averaged free_axes] in *.
  - destruct idx; [reflexivity|discriminate H].
  - rewrite average_app. destruct o as [sel|]; cbn [average_axes].
    + unfold mean. rewrite map_length. f_equal. f_equal. apply map_ext. intros i. cbn [insert_at].
      rewrite average_shift. apply IH, H.
    + destruct idx as [|i idx]; [discriminate H|]. rewrite average_shift. apply IH. cbn in H. lia.
Qed.

Fixpoint imap {A B} (F : nat -> A -> B) (os : list (option A)) : list (option B) :=
  match os with
  | [] => []
  | o :: os' => option_map (F 0%nat) o :: imap (fun k => F (S k)) os'
  end.

Lemma picks_imap {A B} : forall (os : list (option A)) (F : nat -> A -> B),
  map (fun kr => (fst kr, F (fst kr) (snd kr))) (picks os) = picks (imap F os).
Proof.
  induction os as [|o os IH]; intros F; [reflexivity|]. cbn [picks imap]. rewrite map_app, map_map. cbn [fst snd].
  f_equal; [|destruct o; reflexivity].
  rewrite <- (IH (fun k => F (S k))), map_map. reflexivity.
Qed.
Lemma imap_nth {A B} : forall (os : list (option A)) (F : nat -> A -> B) k,
  nth_error (imap F os) k = option_map (option_map (F k)) (nth_error os k).
Proof. induction os as [|o os IH]; intros F [|k]; try reflexivity. cbn [imap nth_error]. apply (IH (fun k => F (S k))). Qed.
Lemma imap_length {A B} : forall (os : list (option A)) (F : nat -> A -> B), List.length (imap F os) = List.length os.
Proof. induction os as [|o os IH]; intros F; [reflexivity|]. cbn. f_equal. apply IH. Qed.
Lemma imap_free {A B} : forall (os : list (option A)) (F : nat -> A -> B), free_axes (imap F os) = free_axes os.
Proof. induction os as [|o os IH]; intros F; [reflexivity|]. destruct o; cbn; rewrite IH; reflexivity. Qed.

Lemma remaining_asked {A} c : forall names (l : list A), 
  map snd (filter (fun ox => match fst ox with None => true | Some _ => false end) (combine (asked c names) l)) =
  remaining c names l.
Proof.
  unfold remaining, asked. induction names as [|n names IH]; intros [|x l]; try reflexivity.
  cbn [map combine filter fst]. unfold has. destruct (get n c); cbn [negb]; [apply IH|]. cbn [map snd]. f_equal. apply IH.
Qed.

Lemma free_remaining {A} c : forall names (l : list A), List.length l = List.length names ->
  free_axes (asked c names) = List.length (remaining c names l).
Proof.
  unfold remaining, asked. induction names as [|n names IH]; intros [|x l] H; try discriminate H; [reflexivity|].
  cbn [map combine filter fst free_axes]. unfold has. destruct (get n c) as [v|]; cbn [negb].
  - apply IH. cbn in H. lia.
  - cbn [map List.length]. f_equal. apply IH. cbn in H. lia.
Qed.

Lemma length_nth {A} : forall (l : list A) k n, List.length l = n -> (k < n)%nat -> exists x, nth_error l k = Some x.
Proof.
  intros l k n Hl Hk. destruct (nth_error l k) as [x|] eqn:E; [exists x; reflexivity|].
  apply nth_error_None in E. lia.
Qed.

Lemma proper_axis_ok g k : proper_grid g -> (k < List.length (g_names g))%nat -> axis_ok g k.
Proof.
  intros H Hk. destruct H as [_ H2 H3 H4 H5 H6 H7].
  destruct (length_nth _ k _ H2 Hk) as (n & E1). destruct (length_nth _ k _ H3 Hk) as (lo & E2).
  destruct (length_nth _ k _ H4 Hk) as (hi & E3). destruct (length_nth _ k _ H5 Hk) as (l & E4).
  exists n, lo, hi, l. repeat split; try assumption.
  - apply H6. eapply nth_error_In, E1.
  - apply (H7 k l lo hi E4 E2 E3); assumption.
  - apply (H7 k l lo hi E4 E2 E3); assumption.
Qed.

Lemma collapse_ok c g : proper_grid g -> NoDup (keys c) ->
  exists g' sels, collapse_map (Some c) g = Ok g' /\
    g_names g' = remaining c (g_names g) (g_names g) /\
    g_lowers g' = remaining c (g_names g) (g_lowers g) /\
    g_uppers g' = remaining c (g_names g) (g_uppers g) /\
    g_logs g' = remaining c (g_names g) (g_logs g) /\
    a_shape (g_data g') = remaining c (g_names g) (a_shape (g_data g)) /\
    List.length sels = List.length (g_names g) /\
    (forall k n nm lo hi l, nth_error (g_names g) k = Some nm -> nth_error (a_shape (g_data g)) k = Some n ->
       nth_error (g_lowers g) k = Some lo -> nth_error (g_uppers g) k = Some hi -> nth_error (g_logs g) k = Some l ->
       match get nm c with
       | None => nth_error sels k = Some None
       | Some range => exists sel, nth_error sels k = Some (Some sel) /\ wanted range l lo hi n sel
       end) /\
    forall idx, List.length idx = List.length (g_names g') ->
      a_at (g_data g') idx = averaged sels (a_at (g_data g)) idx.
Proof.
  intros Hg Hc. pose proof Hg as [H1 H2 H3 H4 H5 H6 H7].
  unfold collapse_map. rewrite sort_picks by assumption.
  assert (Hal : List.length (asked c (g_names g)) = List.length (g_names g)) by (unfold asked; apply map_length).
  assert (Hrem : forall A (l : list A), List.length l = List.length (g_names g) ->
    drop_axes (map fst (picks (asked c (g_names g)))) l = remaining c (g_names g) l).
  { intros A l Hl. rewrite drop_picks by congruence. apply remaining_asked. }
  rewrite collapse_loop_eq.
  - set (sels := imap (sel_of g) (asked c (g_names g))).
    exists (mk_grid (mk_arr (drop_axes (map fst (picks (asked c (g_names g)))) (a_shape (g_data g)))
        (average_axes (map (fun kr => (fst kr, sel_of g (fst kr) (snd kr))) (picks (asked c (g_names g)))) (a_at (g_data g))))
        (drop_axes (map fst (picks (asked c (g_names g)))) (g_names g)) (drop_axes (map fst (picks (asked c (g_names g)))) (g_lowers g))
        (drop_axes (map fst (picks (asked c (g_names g)))) (g_uppers g)) (drop_axes (map fst (picks (asked c (g_names g)))) (g_logs g))), sels.
    cbn [g_data g_names g_lowers g_uppers g_logs a_shape a_at].
    rewrite !Hrem by assumption || reflexivity.
    split; [reflexivity|]. split; [reflexivity|]. split; [reflexivity|]. split; [reflexivity|]. split; [reflexivity|].
    split; [reflexivity|]. split; [unfold sels; rewrite imap_length; exact Hal|]. split.
    + intros k n nm lo hi l E0 E1 E2 E3 E4. unfold sels. rewrite imap_nth. unfold asked. rewrite nth_error_map, E0.
      cbn [option_map]. destruct (get nm c) as [range|]; [|reflexivity]. cbn [option_map].
      exists (sel_of g k range). split; [reflexivity|]. unfold sel_of. rewrite E1, E2, E3, E4.
      assert (Hn : (0 < n)%nat) by (apply H6; eapply nth_error_In, E1).
      destruct (edges_centers_ok lo hi n l Hn (H7 k l lo hi E4 E2 E3)) as (e & ct & Ee & _ & Lc & Hct & _).
      rewrite Ee. apply bins_in_wanted; assumption.
    + intros idx Hidx. rewrite picks_imap. apply average_picks. unfold sels.
      rewrite imap_free, (free_remaining c (g_names g) (g_names g)) by reflexivity. exact Hidx.
  - apply picks_sorted.
  - intros k r Hk. apply picks_in in Hk. apply proper_axis_ok; [exact Hg|]. rewrite <- Hal.
    apply nth_error_Some. rewrite Hk. discriminate.
Qed.

(** What is drawn depends on the collapse argument only through the names of the axes. *)
Lemma asked_ext c1 c2 names : (forall n, In n names -> get n c1 = get n c2) -> asked c1 names = asked c2 names.
Proof. intros H. unfold asked. apply map_ext_in. exact H. Qed.

Lemma bars_nth : forall e c h i, List.length e = S (List.length c) -> List.length h = List.length c ->
  (i < List.length c)%nat ->
  nth_error (bars e c h) i =
  Some (ent c i - (ent e (S i) - ent e i) / 2, ent c i + (ent e (S i) - ent e i) / 2, ent h i).
Proof.
  induction e as [|e0 e IH]; intros c h i He Hh Hi; [discriminate He|].
  destruct c as [|c0 c]; [cbn in Hi; lia|]. destruct h as [|h0 h]; [discriminate Hh|].
  destruct e as [|e1 e]; [discriminate He|].
  change (bars (e0 :: e1 :: e) (c0 :: c) (h0 :: h)) with
    ((c0 - (e1 - e0) / 2, c0 + (e1 - e0) / 2, h0) :: bars (e1 :: e) c h).
  destruct i as [|i]; [reflexivity|]. cbn [nth_error]. rewrite IH; [reflexivity| | |]; cbn in *; lia.
Qed.
Lemma bars_length : forall e c h, List.length e = S (List.length c) -> List.length h = List.length c ->
  List.length (bars e c h) = List.length c.
Proof.
  induction e as [|e0 e IH]; intros c h He Hh; [discriminate He|].
  destruct c as [|c0 c]; [destruct e; reflexivity|]. destruct h as [|h0 h]; [discriminate Hh|].
  destruct e as [|e1 e]; [discriminate He|].
  change (bars (e0 :: e1 :: e) (c0 :: c) (h0 :: h)) with
    ((c0 - (e1 - e0) / 2, c0 + (e1 - e0) / 2, h0) :: bars (e1 :: e) c h).
  cbn [List.length]. rewrite IH; [reflexivity| |]; cbn in *; lia.
Qed.

Lemma entries1_length a : List.length (entries1 a) = nth 0 (a_shape a) 0%nat.
Proof. unfold entries1. rewrite map_length, seq_length. reflexivity. Qed.
Lemma entries1_ent a i : (i < nth 0 (a_shape a) 0)%nat -> ent (entries1 a) i = a_at a [i].
Proof.
  intros H. unfold ent. apply nth_error_nth. unfold entries1. apply (map_nth_error (fun i => a_at a [i])).
  rewrite (nth_error_nth' _ 0%nat) by (rewrite seq_length; exact H). f_equal. apply seq_nth, H.
Qed.

Lemma on_unscale is_log x : on_scale is_log (unscale is_log x) = x.
Proof. destruct is_log; [apply log10_pow10|reflexivity]. Qed.

Lemma unscale_lt is_log x y : x < y -> unscale is_log x < unscale is_log y.
Proof. destruct is_log; [apply pow10_lt|auto]. Qed.

Lemma step_pos is_log lo hi n : (0 < n)%nat -> drawable is_log lo hi -> (n = 1%nat \/ lo < hi) ->
  0 < step is_log lo hi n.
Proof.
  intros Hn Hd H. unfold step. destruct (Nat.eqb_spec n 1) as [E|N]; [lra|]. destruct H as [H|H]; [lia|].
  assert (1 < INR n) by (apply (lt_INR 1); lia).
  assert (on_scale is_log lo < on_scale is_log hi).
  { unfold on_scale. destruct is_log; [|exact H]. destruct (Hd eq_refl). pose proof ln10_gt0.
    apply Rmult_lt_compat_r; [apply Rinv_0_lt_compat; lra|]. apply ln_increasing; lra. }
  apply Rmult_lt_0_compat; [lra|]. apply Rinv_0_lt_compat. lra.
Qed.

Lemma extent_ok lo hi n is_log e c : (0 < n)%nat -> drawable is_log lo hi -> edges_centers lo hi n is_log = Ok (e, c) ->
  extent1 e is_log = (on_scale is_log lo - 1 / 2 * step is_log lo hi n,
                      on_scale is_log lo + (INR n - 1 / 2) * step is_log lo hi n).
Proof.
  intros Hn Hd E. destruct (edges_centers_ok lo hi n is_log Hn Hd) as (e' & c' & E' & Le & _ & _ & He & _).
  rewrite E in E'. injection E' as <- <-.
  assert (H0 : hd 0 e = ent e 0) by (destruct e; reflexivity).
  assert (H1 : last e 0 = ent e n) by (rewrite last_ent by (destruct e; discriminate); rewrite Le; reflexivity).
  unfold extent1. rewrite H0, H1, !He by lia.
  assert (Hx : forall x, (if is_log then log10 (unscale is_log x) else unscale is_log x) = x)
    by (intros x; destruct is_log; [apply log10_pow10|reflexivity]).
  destruct is_log; rewrite ?log10_pow10; unfold unscale; rewrite ?log10_pow10; f_equal; cbn [INR]; lra.
Qed.

Lemma pixel_node lo hi n is_log i : (i < n)%nat -> drawable is_log lo hi ->
  pixel_middle (on_scale is_log lo - 1 / 2 * step is_log lo hi n)
               (on_scale is_log lo + (INR n - 1 / 2) * step is_log lo hi n) n i =
  on_scale is_log (scaled_place is_log lo hi n (Z.of_nat i)).
Proof.
  intros Hi Hd. destruct (edges_centers_ok lo hi n is_log ltac:(lia) Hd) as (e & c & _ & _ & _ & H1 & _ & H2).
  rewrite <- H1, H2, on_unscale by exact Hi. unfold pixel_middle.
  assert (0 < INR n) by (apply lt_0_INR; lia). field. lra.
Qed.

(** Averages stay between bounds of the entries. *)
Lemma sum_between lo hi : forall l, (forall v, In v l -> lo <= v <= hi) ->
  lo * INR (List.length l) <= sumR l <= hi * INR (List.length l).
Proof.
  induction l as [|x l IH]; intros H; [cbn; lra|]. cbn [List.length sumR fold_right]. rewrite S_INR.
  pose proof (H x (or_introl eq_refl)). pose proof (IH (fun v Hv => H v (or_intror Hv))). unfold sumR in *. cbn [fold_right] in *. lra.
Qed.
Lemma mean_between lo hi l : l <> [] -> (forall v, In v l -> lo <= v <= hi) -> lo <= sumR l / INR (List.length l) <= hi.
Proof.
  intros Hl H. pose proof (sum_between lo hi l H) as [A B].
  assert (0 < INR (List.length l)) by (apply lt_0_INR; destruct l; [congruence|cbn; lia]).
  split; apply (Rmult_le_reg_r (INR (List.length l))); try lra; unfold Rdiv; rewrite Rmult_assoc, Rinv_l; lra.
Qed.

Lemma averaged_between lo hi : forall sels shape f idx,
  Forall2 (fun n o => match o with Some sel => sel <> [] /\ (forall i, In i sel -> (i < n)%nat) | None => True end) shape sels ->
  Forall2 (fun n i => (i < n)%nat)
    (map snd (filter (fun on => match fst on with None => true | Some _ => false end) (combine sels shape))) idx ->
  (forall js, within shape js -> lo <= f js <= hi) ->
  lo <= averaged sels f idx <= hi.
Proof.
  induction sels as [|o sels IH]; intros shape f idx Hs Hi Hf; inversion Hs as [|n ? shape' ? Ho Hs']; subst.
  - cbn [averaged]. apply Hf. constructor.
  - cbn [combine filter fst] in Hi. destruct o as [sel|]; cbn [averaged].
    + destruct Ho as [Hne Hsel]. rewrite <- (map_length (fun i => averaged sels (fun js => f (i :: js)) idx) sel).
      apply mean_between; [destruct sel; [congruence|discriminate]|].
      intros v Hv. apply in_map_iff in Hv. destruct Hv as (i & <- & Hii).
      apply (IH shape'); [exact Hs'|exact Hi|]. intros js Hjs. apply Hf. constructor; [apply Hsel, Hii|exact Hjs].
    + cbn [map snd] in Hi. inversion Hi as [|? i ? idx' Hin Hi']; subst.
      apply (IH shape'); [exact Hs'|exact Hi'|]. intros js Hjs. apply Hf. constructor; [exact Hin|exact Hjs].
Qed.

Lemma wanted_nonempty range is_log lo hi n sel : (0 < n)%nat -> wanted range is_log lo hi n sel -> sel <> [].
Proof.
  intros Hn [_ H] E. subst sel. cbn zeta in H.
  assert (F : forall i, (i < n)%nat -> ~ match range with
    | None => True | Some (a, b) => a <= scaled_place is_log lo hi n (Z.of_nat i) <= b end).
  { intros i Hi Hin. apply (proj2 (H i)). split; [exact Hi|left; exact Hin]. }
  apply (proj2 (H 0%nat)). split; [exact Hn|right; exact F].
Qed.
