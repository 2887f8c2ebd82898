(** Lemmas about histograms with coarser bins. *)
From Coq Require Import Reals Lra Lia Permutation.
From Verif Require Import Base BaseFacts ModelFloat ModelHist ModelLikelihood SpecHist SpecLikelihood SpecRate SpecRebin
  ProofFloat ProofHist ProofLikelihood ProofLikelihood2 ProofLikelihood3 ProofBinning ProofRate.
Local Open Scope list_scope.

(** ** The edges that are kept *)

Lemma climbs_le a rest top : climbs a rest top -> a <= top.
Proof. revert a. induction rest as [|b rest IH]; intros a H; cbn in H; [lia|]. destruct H as [H H']. apply IH in H'. lia. Qed.
Lemma climbs_nth a rest top : climbs a rest top -> forall i, i < List.length rest ->
  nth i (a :: rest) 0 < nth (S i) (a :: rest) 0 /\ nth (S i) (a :: rest) 0 <= top /\ (nth (S i) (a :: rest) 0 = top <-> S i = List.length rest).
Proof.
  revert a. induction rest as [|b rest IH]; intros a H i Hi; cbn [List.length] in Hi; [lia|]. cbn in H. destruct H as [H H']. destruct i as [|i].
  - cbn [nth]. pose proof (climbs_le _ _ _ H') as Hle. split; [exact H|]. split; [exact Hle|].
    destruct rest as [|b' rest]; cbn [List.length]; [cbn in H'; lia|]. cbn in H'. destruct H' as [H1 H2]. apply climbs_le in H2. lia.
  - cbn [nth]. destruct (IH b H' i ltac:(lia)) as (A & B & C). cbn [nth] in A, B, C. cbn [List.length]. repeat split; try assumption; intros D; [apply C in D; lia|apply C; lia].
Qed.
Lemma ranges_as a rest : ranges a rest = map (fun i => seq (nth i (a :: rest) 0) (nth (S i) (a :: rest) 0 - nth i (a :: rest) 0)) (seq 0 (List.length rest)).
Proof.
  revert a. induction rest as [|b rest IH]; intros a; [reflexivity|]. cbn [ranges List.length seq map nth]. f_equal. rewrite IH, <- seq_shift, map_map. reflexivity.
Qed.
Lemma ranges_concat a rest top : climbs a rest top -> List.concat (ranges a rest) = seq a (top - a).
Proof.
  revert a. induction rest as [|b rest IH]; intros a H; cbn in H.
  - subst. rewrite Nat.sub_diag. reflexivity.
  - destruct H as [H H']. cbn [ranges List.concat]. rewrite (IH b H'). pose proof (climbs_le _ _ _ H').
    replace (seq b (top - b)) with (seq (a + (b - a)) (top - b)) by (f_equal; lia). rewrite <- seq_app. f_equal. lia.
Qed.
Lemma ranges_no_nil a rest top : climbs a rest top -> ~ In [] (ranges a rest).
Proof.
  revert a. induction rest as [|b rest IH]; intros a H; cbn in H; [intros []|]. destruct H as [H H']. intros [E|E]; [|exact (IH b H' E)].
  destruct (b - a) eqn:Eb; [lia|discriminate].
Qed.
Lemma pick_length fine rest : List.length (pick fine rest) = S (List.length rest).
Proof. unfold pick. rewrite map_length. reflexivity. Qed.
Lemma pick_edge fine rest i : i <= List.length rest -> edge (pick fine rest) i = edge fine (nth i (0 :: rest) 0).
Proof.
  intros Hi. unfold edge at 1, pick. rewrite (nth_indep _ NaN (edge fine 0)) by (rewrite map_length; cbn; lia). apply map_nth.
Qed.
Lemma climbs_mono a rest top : climbs a rest top -> forall i j, i <= j -> j <= List.length rest -> nth i (a :: rest) 0 <= nth j (a :: rest) 0.
Proof.
  intros H i j Hij Hj. induction Hij as [|j Hij IH]; [lia|]. destruct (climbs_nth _ _ _ H j ltac:(lia)) as (A & _). specialize (IH ltac:(lia)). lia.
Qed.
Lemma sorted_from_edges l : (forall i, i < List.length l -> edge l i <> NaN) ->
  (forall i j, i <= j -> j < List.length l -> fle (edge l i) (edge l j) = true) -> sorted l.
Proof.
  induction l as [|e l IH]; intros Hn Hle; [exact I|]. split; [apply (Hn 0); cbn; lia|]. split.
  - intros x Hx. apply (In_nth _ _ NaN) in Hx. destruct Hx as (j & Hj & <-). apply (Hle 0 (S j)); cbn; lia.
  - apply IH; [intros i Hi; apply (Hn (S i)); cbn; lia|]. intros i j Hij Hj. apply (Hle (S i) (S j)); cbn; lia.
Qed.
Lemma pick_sorted fine rest : sorted fine -> fine <> [] -> climbs 0 rest (List.length fine - 1) -> sorted (pick fine rest).
Proof.
  intros Hs Hne Hc. assert (0 < List.length fine) by (destruct fine; [congruence|cbn; lia]).
  assert (B : forall i, i <= List.length rest -> nth i (0 :: rest) 0 < List.length fine).
  { intros i Hi. destruct i as [|i]; [cbn; lia|]. destruct (climbs_nth _ _ _ Hc i ltac:(lia)) as (_ & B & _). lia. }
  apply sorted_from_edges.
  - intros i Hi. rewrite pick_length in Hi. rewrite pick_edge by lia. apply sorted_not_nan; [exact Hs|]. apply B. lia.
  - intros i j Hij Hj. rewrite pick_length in Hj. rewrite !pick_edge by lia. apply sorted_le; [exact Hs| |apply B; lia]. apply (climbs_mono _ _ _ Hc); lia.
Qed.

(** ** Cells between two edges *)

Section Cells.
  Variable cell : nat -> nat -> fl -> bool.
  Variable top : nat.
  Hypothesis split : forall a b x, a < b -> b < top -> cell a (S b) x = cell a b x || cell b (S b) x.
  Hypothesis apart : forall a b x, a < b -> b < top -> cell a b x && cell b (S b) x = false.

  Lemma cell_sum {E} (w : E -> fl) (f : E -> fl) (P : E -> bool) events a b : a < b -> b <= top ->
    weight_of w (fun e => cell a b (f e) && P e) events = fsum (map (fun i => weight_of w (fun e => cell i (S i) (f e) && P e) events) (seq a (b - a))).
  Proof.
    intros Hab. remember (b - a) as n eqn:En. revert b Hab En. induction n as [|n IH]; intros b Hab En Hb; [lia|].
    destruct b as [|b]; [lia|]. rewrite seq_S, map_app, fsum_app. cbn [map]. rewrite fsum_cons. cbn [fsum]. change (fsum []) with (Fin 0). rewrite fadd_0_r.
    replace (a + n) with b by lia. destruct n as [|n].
    - replace b with a by lia. cbn [seq map]. change (fsum []) with (Fin 0). rewrite fadd_0_l. reflexivity.
    - rewrite <- (IH b ltac:(lia) ltac:(lia) ltac:(lia)). symmetry. apply weight_of_disjoint; intros e.
      + rewrite (split a b (f e) ltac:(lia) ltac:(lia)). destruct (cell a b (f e)), (cell b (S b) (f e)), (P e); reflexivity.
      + pose proof (apart a b (f e) ltac:(lia) ltac:(lia)) as A. destruct (cell a b (f e)), (cell b (S b) (f e)), (P e); try reflexivity; discriminate A.
  Qed.
End Cells.

Lemma in_bin_split lo mid hi x : lo <> NaN -> mid <> NaN -> hi <> NaN -> fle lo mid = true -> fle mid hi = true ->
  in_bin lo hi x = in_bin lo mid x || in_bin mid hi x /\ in_bin lo mid x && in_bin mid hi x = false.
Proof.
  intros N1 N2 N3 A B. unfold in_bin. destruct (is_nan x) eqn:Ex.
  { destruct x; try discriminate. rewrite !flt_nan_r. auto. }
  assert (Nx : x <> NaN) by (intros ->; discriminate). rewrite (flt_fle mid x N2 Nx).
  destruct (fle x mid) eqn:E; cbn [negb andb].
  - rewrite (fle_trans _ _ _ E B). rewrite !andb_true_r, orb_false_r, andb_false_r. auto.
  - assert (F : flt mid x = true) by (rewrite (flt_fle mid x N2 Nx), E; reflexivity). rewrite (fle_lt_trans _ _ _ A F). cbn. auto.
Qed.
Lemma in_bin_left_split l lo mid hi x : lo <> NaN -> mid <> NaN -> hi <> NaN -> fle lo mid = true -> fle mid hi = true ->
  in_bin_left l lo hi x = in_bin_left false lo mid x || in_bin_left l mid hi x /\ in_bin_left false lo mid x && in_bin_left l mid hi x = false.
Proof.
  intros N1 N2 N3 A B. unfold in_bin_left. cbn [andb]. rewrite orb_false_r. destruct (is_nan x) eqn:Ex.
  { destruct x; try discriminate. rewrite !fle_nan_r. auto. }
  assert (Nx : x <> NaN) by (intros ->; discriminate). rewrite (flt_fle x mid Nx N2).
  destruct (fle mid x) eqn:E; cbn [negb andb].
  - rewrite (fle_trans _ _ _ A E). rewrite andb_false_r. cbn. auto.
  - assert (F : flt x mid = true) by (rewrite (flt_fle x mid Nx N2), E; reflexivity). rewrite (flt_le_trans _ _ _ F B). cbn [orb andb].
    rewrite andb_true_r, orb_false_r, andb_false_r. auto.
Qed.

Definition cell_right (fine : list fl) (a b : nat) (x : fl) : bool := in_bin (edge fine a) (edge fine b) x.
Definition cell_left (fine : list fl) (a b : nat) (x : fl) : bool := in_bin_left (Nat.eqb (S b) (List.length fine)) (edge fine a) (edge fine b) x.
Section Axis.
  Variable fine : list fl.
  Hypothesis Hs : sorted fine.
  Hypothesis Hne : fine <> [].

  Lemma cell_right_split a b x : a < b -> b < List.length fine - 1 ->
    cell_right fine a (S b) x = cell_right fine a b x || cell_right fine b (S b) x.
  Proof.
    intros. unfold cell_right. apply in_bin_split; try (apply sorted_not_nan; [exact Hs|lia]); apply sorted_le; try exact Hs; lia.
  Qed.
  Lemma cell_right_apart a b x : a < b -> b < List.length fine - 1 -> cell_right fine a b x && cell_right fine b (S b) x = false.
  Proof.
    intros. unfold cell_right. apply in_bin_split; try (apply sorted_not_nan; [exact Hs|lia]); apply sorted_le; try exact Hs; lia.
  Qed.
  Lemma cell_left_split a b x : a < b -> b < List.length fine - 1 ->
    cell_left fine a (S b) x = cell_left fine a b x || cell_left fine b (S b) x.
  Proof.
    intros. unfold cell_left. replace (Nat.eqb (S b) (List.length fine)) with false by (symmetry; apply Nat.eqb_neq; lia).
    apply in_bin_left_split; try (apply sorted_not_nan; [exact Hs|lia]); apply sorted_le; try exact Hs; lia.
  Qed.
  Lemma cell_left_apart a b x : a < b -> b < List.length fine - 1 -> cell_left fine a b x && cell_left fine b (S b) x = false.
  Proof.
    intros. unfold cell_left. replace (Nat.eqb (S b) (List.length fine)) with false by (symmetry; apply Nat.eqb_neq; lia).
    apply in_bin_left_split; try (apply sorted_not_nan; [exact Hs|lia]); apply sorted_le; try exact Hs; lia.
  Qed.

  Variable rest : list nat.
  Hypothesis Hc : climbs 0 rest (List.length fine - 1).
  Let lo i := nth i (0 :: rest) 0.
  Lemma pick_right i x : i < List.length rest -> in_bin (edge (pick fine rest) i) (edge (pick fine rest) (S i)) x = cell_right fine (lo i) (lo (S i)) x.
  Proof. intros Hi. rewrite !pick_edge by lia. reflexivity. Qed.
  Lemma pick_left i x : i < List.length rest -> in_bin_left (Nat.eqb (S (S i)) (List.length (pick fine rest))) (edge (pick fine rest) i) (edge (pick fine rest) (S i)) x
    = cell_left fine (lo i) (lo (S i)) x.
  Proof.
    intros Hi. rewrite !pick_edge by lia. unfold cell_left. f_equal. rewrite pick_length. destruct (climbs_nth _ _ _ Hc i Hi) as (A & B & C). fold (lo i) (lo (S i)) in A, B, C.
    assert (0 < List.length fine) by (destruct fine; [congruence|cbn; lia]).
    destruct (Nat.eqb (S (S i)) (S (List.length rest))) eqn:E; symmetry; [apply Nat.eqb_eq in E; apply Nat.eqb_eq; destruct C as [_ C]; specialize (C ltac:(lia)); lia|].
    apply Nat.eqb_neq in E. apply Nat.eqb_neq. intros D. apply E. destruct C as [C _]. specialize (C ltac:(lia)). lia.
  Qed.
  Lemma lo_bounds i : i < List.length rest -> lo i < lo (S i) /\ lo (S i) <= List.length fine - 1.
  Proof. intros Hi. destruct (climbs_nth _ _ _ Hc i Hi) as (A & B & _). auto. Qed.
End Axis.

Lemma weight_and_true {E} (w : E -> fl) P events : weight_of w P events = weight_of w (fun e => P e && true) events.
Proof. apply weight_of_ext. intros e _. rewrite andb_true_r. reflexivity. Qed.

Lemma merge_1d fine rest events : sorted fine -> fine <> [] -> climbs 0 rest (List.length fine - 1) ->
  hist_1d (pick fine rest) events = merged (ranges 0 rest) (hist_1d fine events).
Proof.
  intros Hs Hne Hc. rewrite (list_as_entries (hist_1d (pick fine rest) events)), hist_1d_length, pick_length. cbn [Nat.sub]. rewrite Nat.sub_0_r.
  unfold merged. rewrite ranges_as, map_map. apply map_ext_in. intros i Hi. apply in_seq in Hi.
  rewrite hist_1d_entry by (try (rewrite pick_length; lia); apply pick_sorted; assumption).
  destruct (lo_bounds fine rest Hc i ltac:(lia)) as [A B].
  transitivity (weight_of snd (fun e => cell_right fine (nth i (0 :: rest) 0) (nth (S i) (0 :: rest) 0) (fst e) && true) events).
  { apply weight_of_ext. intros e _. rewrite andb_true_r. apply pick_right. lia. }
  rewrite (cell_sum (cell_right fine) (List.length fine - 1) (cell_right_split fine Hs) (cell_right_apart fine Hs) snd fst (fun _ => true) events _ _ A B).
  f_equal. apply map_ext_in. intros j Hj. apply in_seq in Hj. rewrite hist_1d_entry by (try exact Hs; lia). apply weight_of_ext. intros e _. rewrite andb_true_r. reflexivity.
Qed.
Lemma merge_mesh_1d fine rest events : sorted fine -> fine <> [] -> climbs 0 rest (List.length fine - 1) ->
  hist_mesh_1d (pick fine rest) events = merged (ranges 0 rest) (hist_mesh_1d fine events).
Proof.
  intros Hs Hne Hc. rewrite (list_as_entries (hist_mesh_1d (pick fine rest) events)), hist_mesh_1d_length, pick_length. cbn [Nat.sub]. rewrite Nat.sub_0_r.
  unfold merged. rewrite ranges_as, map_map. apply map_ext_in. intros i Hi. apply in_seq in Hi.
  rewrite hist_mesh_1d_entry by (try (rewrite pick_length; lia); apply pick_sorted; assumption).
  destruct (lo_bounds fine rest Hc i ltac:(lia)) as [A B].
  transitivity (weight_of snd (fun e => cell_left fine (nth i (0 :: rest) 0) (nth (S i) (0 :: rest) 0) (fst e) && true) events).
  { apply weight_of_ext. intros e _. rewrite andb_true_r. apply pick_left; try assumption. lia. }
  rewrite (cell_sum (cell_left fine) (List.length fine - 1) (cell_left_split fine Hs) (cell_left_apart fine Hs) snd fst (fun _ => true) events _ _ A B).
  f_equal. apply map_ext_in. intros j Hj. apply in_seq in Hj. rewrite hist_mesh_1d_entry by (try exact Hs; lia). apply weight_of_ext. intros e _. rewrite andb_true_r. reflexivity.
Qed.

(** ** Two dimensions *)

Lemma entry_concat (rows : list (list fl)) m : (forall r, In r rows -> List.length r = m) -> forall i j, i < List.length rows -> j < m ->
  entry (List.concat rows) (i * m + j) = entry2 rows i j.
Proof.
  unfold entry2, entry. induction rows as [|r rows IH]; intros H i j Hi Hj; cbn [List.length] in Hi; [lia|]. pose proof (H r (or_introl eq_refl)) as Hr.
  cbn [List.concat]. destruct i as [|i].
  - cbn [nth Nat.mul Nat.add]. apply app_nth1. lia.
  - cbn [nth]. rewrite app_nth2 by (rewrite Hr; cbn; lia). rewrite Hr. replace (S i * m + j - m) with (i * m + j) by (cbn; lia). apply IH; [|lia|exact Hj].
    intros r' Hr'. apply H. right. exact Hr'.
Qed.
Lemma mesh_2d_shape fx fy events : List.length (hist_mesh_2d fx fy events) = List.length fx - 1 /\
  (forall i, i < List.length fx - 1 -> List.length (nth i (hist_mesh_2d fx fy events) []) = List.length fy - 1) /\
  forall r, In r (hist_mesh_2d fx fy events) -> List.length r = List.length fy - 1.
Proof.
  pose proof (trim2_scatter (List.length fx) (List.length fy) (fun e : fl * fl * fl => index_dd fx (fst (fst e))) (fun e => index_dd fy (snd (fst e))) snd events) as (A & B & _).
  unfold hist_mesh_2d. change (fold_left _ events ?h) with (scatter2 _ (fun e : fl * fl * fl => index_dd fx (fst (fst e))) (fun e => index_dd fy (snd (fst e))) snd events h).
  unfold zeros2 in A, B. split; [exact A|]. split; [exact B|]. intros r Hr. apply (In_nth _ _ []) in Hr. destruct Hr as (i & Hi & <-). apply B. rewrite <- A. exact Hi.
Qed.
Lemma rows_as_entries (h : list (list fl)) n m : List.length h = n -> (forall r, In r h -> List.length r = m) ->
  h = map (fun i => map (entry2 h i) (seq 0 m)) (seq 0 n).
Proof.
  intros <-. induction h as [|r h IH]; intros H; [reflexivity|]. cbn [List.length seq map]. f_equal.
  - rewrite <- (H r (or_introl eq_refl)). apply list_as_entries.
  - rewrite <- seq_shift, map_map. apply IH. intros r' Hr'. apply H. right. exact Hr'.
Qed.
Lemma fsum_flat {A} (F : A -> fl) (gs : list (list A)) : fsum (map F (List.concat gs)) = fsum (map (fun g => fsum (map F g)) gs).
Proof. induction gs as [|g gs IH]; [reflexivity|]. cbn [List.concat map]. rewrite map_app, fsum_app, fsum_cons, IH. reflexivity. Qed.

Lemma merge_mesh_2d fx rx fy ry events : sorted fx -> fx <> [] -> climbs 0 rx (List.length fx - 1) ->
  sorted fy -> fy <> [] -> climbs 0 ry (List.length fy - 1) ->
  List.concat (hist_mesh_2d (pick fx rx) (pick fy ry) events)
  = merged (blocks (List.length fy - 1) (ranges 0 rx) (ranges 0 ry)) (List.concat (hist_mesh_2d fx fy events)).
Proof.
  intros Hsx Hnx Hcx Hsy Hny Hcy. destruct (mesh_2d_shape (pick fx rx) (pick fy ry) events) as (C1 & _ & C2). destruct (mesh_2d_shape fx fy events) as (F1 & _ & F2).
  rewrite (rows_as_entries _ _ _ C1 C2), !pick_length. cbn [Nat.sub]. rewrite !Nat.sub_0_r. unfold merged, blocks.
  rewrite flat_map_concat_map, concat_map, map_map. f_equal. rewrite (ranges_as 0 rx), map_map. apply map_ext_in. intros i Hi. apply in_seq in Hi.
  rewrite map_map. rewrite (ranges_as 0 ry), map_map. apply map_ext_in. intros j Hj. apply in_seq in Hj.
  rewrite hist_mesh_2d_entry by (try (rewrite pick_length; lia); apply pick_sorted; assumption).
  destruct (lo_bounds fx rx Hcx i ltac:(lia)) as [A B]. destruct (lo_bounds fy ry Hcy j ltac:(lia)) as [A' B'].
  set (a := nth i (0 :: rx) 0) in *. set (b := nth (S i) (0 :: rx) 0) in *. set (a' := nth j (0 :: ry) 0) in *. set (b' := nth (S j) (0 :: ry) 0) in *.
  transitivity (weight_of snd (fun e : fl * fl * fl => cell_left fx a b (fst (fst e)) && cell_left fy a' b' (snd (fst e))) events).
  { apply weight_of_ext. intros e _. f_equal; apply pick_left; try assumption; lia. }
  rewrite (cell_sum (cell_left fx) (List.length fx - 1) (cell_left_split fx Hsx) (cell_left_apart fx Hsx) snd (fun e : fl * fl * fl => fst (fst e)) _ events _ _ A B).
  unfold block. rewrite flat_map_concat_map, fsum_flat, map_map. f_equal. apply map_ext_in. intros u Hu. apply in_seq in Hu.
  transitivity (weight_of snd (fun e : fl * fl * fl => cell_left fy a' b' (snd (fst e)) && cell_left fx u (S u) (fst (fst e))) events).
  { apply weight_of_ext. intros e _. apply andb_comm. }
  rewrite (cell_sum (cell_left fy) (List.length fy - 1) (cell_left_split fy Hsy) (cell_left_apart fy Hsy) snd (fun e : fl * fl * fl => snd (fst e)) _ events _ _ A' B').
  f_equal. rewrite map_map. apply map_ext_in. intros v Hv. apply in_seq in Hv.
  rewrite (entry_concat _ (List.length fy - 1) F2) by (try rewrite F1; lia). rewrite hist_mesh_2d_entry by (try assumption; lia).
  apply weight_of_ext. intros e _. apply andb_comm.
Qed.

(** Summing over one axis. *)
Lemma cell_left_whole fy e : sorted fy -> 2 <= List.length fy ->
  cell_left fy 0 (List.length fy - 1) e = fle (edge fy 0) e && fle e (edge fy (List.length fy - 1)).
Proof.
  intros Hs Hl. unfold cell_left, in_bin_left. replace (Nat.eqb (S (List.length fy - 1)) (List.length fy)) with true by (symmetry; apply Nat.eqb_eq; lia).
  cbn [andb]. f_equal. destruct (flt e (edge fy (List.length fy - 1))) eqn:F; [|reflexivity]. cbn. symmetry. apply flt_weak. exact F.
Qed.
Lemma weight_filter {E} (w : E -> fl) P Q events : weight_of w P (filter Q events) = weight_of w (fun e => P e && Q e) events.
Proof.
  unfold weight_of. f_equal. f_equal. induction events as [|e events IH]; [reflexivity|]. cbn. destruct (Q e); cbn; [destruct (P e); cbn; rewrite IH; reflexivity|].
  rewrite andb_false_r. exact IH.
Qed.
Lemma weight_map {E F} (g : E -> F) (w : F -> fl) P events : weight_of w P (map g events) = weight_of (fun e => w (g e)) (fun e => P (g e)) events.
Proof. unfold weight_of. f_equal. induction events as [|e events IH]; [reflexivity|]. cbn. destruct (P (g e)); cbn; rewrite IH; reflexivity. Qed.

(** ** Groups *)

Lemma concat_blocks m rs cs : List.concat (blocks m rs cs) = List.concat (map (fun r => List.concat (map (block m r) cs)) rs).
Proof.
  unfold blocks. induction rs as [|r rs IH]; [reflexivity|]. cbn [flat_map map List.concat]. rewrite concat_app. f_equal. exact IH.
Qed.
Lemma block_cols m r : forall cs, Permutation (List.concat (map (block m r) cs)) (block m r (List.concat cs)).
Proof.
  unfold block. induction r as [|i r IH]; intros cs; cbn [flat_map].
  - replace (List.concat (map (fun _ => []) cs)) with (@nil nat); [constructor|]. induction cs; cbn; [reflexivity|assumption].
  - rewrite <- (IH cs). clear IH. induction cs as [|c cs IH]; [constructor|]. cbn [map List.concat]. rewrite map_app, IH. rewrite <- !app_assoc. apply Permutation_app_head.
    rewrite !app_assoc. apply Permutation_app_tail. apply Permutation_app_comm.
Qed.
Lemma block_rows m cols : forall rs, List.concat (map (fun r => block m r cols) rs) = block m (List.concat rs) cols.
Proof. unfold block. induction rs as [|r rs IH]; [reflexivity|]. cbn [map List.concat]. rewrite flat_map_app, IH. reflexivity. Qed.
Lemma block_all m n : block m (seq 0 n) (seq 0 m) = seq 0 (n * m).
Proof.
  induction n as [|n IH]; [reflexivity|]. rewrite seq_S. unfold block in *. rewrite flat_map_app, IH. cbn [flat_map]. rewrite app_nil_r.
  replace (S n * m) with (n * m + m) by (cbn; lia). rewrite seq_app. f_equal. cbn [Nat.add]. generalize (n * m). intros a. clear. induction m as [|m IHm] using nat_ind; [reflexivity|].
  rewrite !seq_S, map_app, IHm. reflexivity.
Qed.

Lemma coarsening_grouping b b' gs : coarsening b b' gs -> grouping gs (entries_of b).
Proof.
  intros H. destruct H as [fine rest Hs Hne Hc|fine rest Hs Hne Hc|fx rx fy ry Hsx Hnx Hcx Hsy Hny Hcy]; cbn [entries_of].
  - split; [|exact (ranges_no_nil _ _ _ Hc)]. rewrite (ranges_concat _ _ _ Hc), Nat.sub_0_r. apply Permutation_refl.
  - split; [|exact (ranges_no_nil _ _ _ Hc)]. rewrite (ranges_concat _ _ _ Hc), Nat.sub_0_r. apply Permutation_refl.
  - split.
    + rewrite concat_blocks. rewrite <- block_all. set (m := List.length fy - 1).
      transitivity (List.concat (map (fun r => block m r (List.concat (ranges 0 ry))) (ranges 0 rx))).
      { generalize (ranges 0 rx). intros l. induction l as [|r l IH]; [constructor|]. cbn. apply Permutation_app; [apply block_cols|exact IH]. }
      rewrite block_rows, (ranges_concat _ _ _ Hcx), (ranges_concat _ _ _ Hcy), !Nat.sub_0_r. apply Permutation_refl.
    + intros H. unfold blocks in H. apply in_flat_map in H. destruct H as (r & Hr & H). apply in_map_iff in H. destruct H as (c & E & Hc).
      destruct r as [|u r]; [exact (ranges_no_nil _ _ _ Hcx Hr)|]. destruct c as [|v c]; [exact (ranges_no_nil _ _ _ Hcy Hc)|]. discriminate E.
Qed.
Lemma coarsening_hist oor b b' gs mc eff h : coarsening b b' gs -> plain_hist oor b mc eff = Ok h -> plain_hist oor b' mc eff = Ok (merged gs h).
Proof.
  intros H. destruct H as [fine rest Hs Hne Hc|fine rest Hs Hne Hc|fx rx fy ry Hsx Hnx Hcx Hsy Hny Hcy]; cbn [plain_hist]; intros E;
    match type of E with Ok ?x = _ => assert (E' : h = x) by congruence end; rewrite E'; f_equal.
  - apply merge_1d; assumption.
  - apply merge_mesh_1d; assumption.
  - apply merge_mesh_2d; assumption.
Qed.

(** ** Sums over groups *)

Definition rget (hs : list R) (i : nat) : R := nth i hs 0%R.
Definition gsum (hs : list R) (g : list nat) : R := fold_right Rplus 0%R (map (rget hs) g).
Definition in_range (gs : list (list nat)) (n : nat) : Prop := forall g i, In g gs -> In i g -> i < n.
Lemma grouping_range gs n : grouping gs n -> in_range gs n.
Proof.
  intros [P _] g i Hg Hi. assert (H : In i (List.concat gs)) by (apply in_concat; eauto). apply (Permutation_in _ P) in H. apply in_seq in H. lia.
Qed.
Lemma entry_Fin hs i : i < List.length hs -> entry (map Fin hs) i = Fin (rget hs i).
Proof. intros H. unfold entry, rget. rewrite (nth_indep _ NaN (Fin 0)) by (rewrite map_length; exact H). apply map_nth. Qed.
Lemma merged_Fin gs hs : in_range gs (List.length hs) -> merged gs (map Fin hs) = map Fin (map (gsum hs) gs).
Proof.
  intros H. unfold merged. rewrite map_map. apply map_ext_in. intros g Hg. unfold gsum.
  change (fold_right Rplus 0%R (map (rget hs) g)) with (rsum (map (rget hs) g)). rewrite <- fsum_Fin, map_map. f_equal. apply map_ext_in. intros i Hi. apply entry_Fin. exact (H g i Hg Hi).
Qed.
Lemma fin_list l : Forall fin l -> exists rs, l = map Fin rs.
Proof. induction 1 as [|x l [r ->] _ [rs ->]]; [exists []; reflexivity|]. exists (r :: rs). reflexivity. Qed.

Lemma merged_scale gs f h : Forall fin (scale f h) -> grouping gs (List.length h) -> merged gs (scale f h) = scale f (merged gs h).
Proof.
  intros F G. destruct h as [|x h].
  - destruct G as [P E]. destruct gs as [|g gs]; [reflexivity|]. exfalso. apply E. left. cbn in P. apply Permutation_sym, Permutation_nil in P.
    destruct g; [reflexivity|discriminate].
  - assert (Hf : fin f /\ Forall fin (x :: h)).
    { cbn [scale map] in F. inversion F as [|? ? A B]; subst. apply fmul_fin in A. destruct A as [A1 A2]. split; [exact A2|]. constructor; [exact A1|].
      clear - B. induction h as [|y h IH]; [constructor|]. cbn [map] in B. inversion B as [|? ? C D]; subst. apply fmul_fin in C. constructor; [apply C|apply IH, D]. }
    destruct Hf as [[c ->] Hh]. destruct (fin_list _ Hh) as [hs Eh]. rewrite Eh in *. rewrite map_length in G. apply grouping_range in G.
    assert (Es : scale (Fin c) (map Fin hs) = map Fin (map (fun r => (r * c)%R) hs)).
    { unfold scale. rewrite !map_map. apply map_ext. intros r. apply fmul_Fin. }
    rewrite Es, !merged_Fin by (rewrite ?map_length; exact G). unfold scale. rewrite !map_map. apply map_ext_in. intros g Hg. rewrite fmul_Fin. f_equal.
    unfold gsum. pose proof (fun i Hi => G g i Hg Hi) as Hr. clear - Hr. induction g as [|i g IH]; cbn [map fold_right]; [lra|].
    rewrite IH by (intros j Hj; apply Hr; right; exact Hj).
    replace (rget (map (fun r => (r * c)%R) hs) i) with (rget hs i * c)%R; [lra|]. unfold rget.
    rewrite (nth_indep (map (fun r => (r * c)%R) hs) 0%R (0 * c)%R) by (rewrite map_length; apply Hr; left; reflexivity).
    rewrite (map_nth (fun r => (r * c)%R)). reflexivity.
Qed.

Lemma merged_iadd gs h x y : iadd h x = Ok y -> Forall fin y -> in_range gs (List.length h) -> iadd (merged gs h) (merged gs x) = Ok (merged gs y).
Proof.
  intros E F R. destruct (iadd_fin _ _ _ E F) as [Fh Fx]. destruct (fin_list _ Fh) as [hs ->]. destruct (fin_list _ Fx) as [xs ->].
  unfold iadd in *. rewrite !map_length in *. destruct (Nat.eqb (List.length hs) (List.length xs)) eqn:El; [|discriminate]. apply Nat.eqb_eq in El. injection E as <-.
  unfold merged at 1 2. rewrite !map_length, Nat.eqb_refl. f_equal.
  assert (Ey : map (fun p => fadd (fst p) (snd p)) (combine (map Fin hs) (map Fin xs)) = map Fin (map (fun p => (fst p + snd p)%R) (combine hs xs))).
  { clear. revert xs. induction hs as [|a hs IH]; intros [|b xs]; try reflexivity. cbn [map combine fst snd]. rewrite fadd_Fin, IH. reflexivity. }
  rewrite Ey. assert (Lc : List.length (map (fun p => (fst p + snd p)%R) (combine hs xs)) = List.length hs) by (rewrite map_length, combine_length; lia).
  rewrite !merged_Fin by (rewrite ?Lc, <- ?El; exact R). clear Ey.
  induction gs as [|g gs IH]; [reflexivity|]. cbn [map combine fst snd]. rewrite fadd_Fin. f_equal; [|apply IH; intros g' i Hg Hi; apply (R g' i); [right; exact Hg|exact Hi]].
  f_equal. unfold gsum. pose proof (fun i Hi => R g i (or_introl eq_refl) Hi) as Hr. clear - Hr El. induction g as [|i g IHg]; cbn [map fold_right]; [lra|].
  rewrite <- IHg by (intros j Hj; apply Hr; right; exact Hj). specialize (Hr i (or_introl eq_refl)).
  replace (rget (map (fun p => (fst p + snd p)%R) (combine hs xs)) i) with (rget hs i + rget xs i)%R; [lra|].
  unfold rget. rewrite (nth_indep (map (fun p => (fst p + snd p)%R) (combine hs xs)) 0%R ((fun p => (fst p + snd p)%R) (0%R, 0%R))) by (rewrite map_length, combine_length; lia).
  rewrite (map_nth (fun p => (fst p + snd p)%R)), combine_nth by exact El. reflexivity.
Qed.
Lemma merged_total gs h : grouping gs (List.length h) -> fsum (merged gs h) = fsum h.
Proof.
  intros [P _]. unfold merged. rewrite <- fsum_flat. rewrite (fsum_perm _ _ (Permutation_map (entry h) P)), <- list_as_entries. reflexivity.
Qed.
Lemma merged_zero {A} gs (l l' : list A) : in_range gs (List.length l) -> List.length l' = List.length gs ->
  map (fun _ => Fin 0) l' = merged gs (map (fun _ => Fin 0) l).
Proof.
  intros R Hl. replace (map (fun _ : A => Fin 0) l) with (map Fin (map (fun _ => 0%R) l)) by (rewrite map_map; reflexivity).
  rewrite merged_Fin by (rewrite map_length; exact R).
  assert (Z : forall g, gsum (map (fun _ => 0%R) l) g = 0%R).
  { intros g. unfold gsum. induction g as [|i g IH]; [reflexivity|]. cbn [map fold_right]. rewrite IH. unfold rget.
    replace (nth i (map (fun _ : A => 0%R) l) 0%R) with 0%R; [lra|]. clear. revert i. induction l as [|x l IH]; intros [|i]; cbn; auto. }
  clear R. revert l' Hl. induction gs as [|g gs IH]; intros [|y l'] Hl; try discriminate; [reflexivity|]. cbn [map]. rewrite Z. f_equal. apply IH. injection Hl as Hl. exact Hl.
Qed.

(** ** The floor *)

Lemma clip_same lo x : fle lo x = true -> fclip x lo PInf = x.
Proof.
  intros H. unfold fclip, fmax, fmin. destruct lo as [l| | |], x as [r| | |]; cbn in *; try discriminate; try reflexivity.
  destruct (Rle_dec l r); [|discriminate]. destruct (Rle_dec r l); cbn; [|reflexivity]. f_equal. lra.
Qed.
Lemma filled_floor add eff h : filled add eff h -> (if add then floor_hist eff h else h) = h.
Proof.
  intros H. destruct add; [|reflexivity]. destruct (H eq_refl) as [_ Hx]. unfold floor_hist. rewrite <- (map_id h) at 2. apply map_ext_in. intros x Hin. apply clip_same, Hx, Hin.
Qed.
Lemma fle_fadd lo x y : fle (Fin 0) lo = true -> fle lo x = true -> fle (Fin 0) y = true -> fle lo (fadd x y) = true.
Proof.
  intros A B C. destruct lo as [l| | |], x as [r| | |], y as [s| | |]; try discriminate; try reflexivity.
  rewrite fadd_Fin. apply fle_Fin. apply fle_Fin in A. apply fle_Fin in B. apply fle_Fin in C. lra.
Qed.
Lemma filled_merged add eff gs h : filled add eff h -> grouping gs (List.length h) -> filled add eff (merged gs h).
Proof.
  intros H G E. destruct (H E) as [H0 Hx]. split; [exact H0|]. intros y Hy. unfold merged in Hy. apply in_map_iff in Hy. destruct Hy as (g & <- & Hg).
  pose proof (grouping_range _ _ G g) as Hr. destruct G as [_ Hn]. destruct g as [|i g]; [contradiction|].
  assert (En : forall j, In j (i :: g) -> fle (fadd (Fin eps) (fmean eff)) (entry h j) = true).
  { intros j Hj. apply Hx. unfold entry. apply nth_In. apply (Hr j Hg Hj). }
  cbn [map]. rewrite fsum_cons. apply fle_fadd; [exact H0|apply En; left; reflexivity|].
  assert (En' : forall j, In j g -> fle (fadd (Fin eps) (fmean eff)) (entry h j) = true) by (intros j Hj; apply En; right; exact Hj).
  clear - En' H0. induction g as [|j g IH]; [apply fle_Fin; lra|]. cbn [map]. rewrite fsum_cons.
  apply fle_fadd; [apply fle_Fin; lra| |apply IH; intros k Hk; apply En'; right; exact Hk]. exact (fle_trans _ _ _ H0 (En' j (or_introl eq_refl))).
Qed.

(** ** Components and likelihoods *)

Lemma coarsening_ndim b b' gs : coarsening b b' gs -> ndim b' = ndim b.
Proof. intros []; reflexivity. Qed.
Lemma binning_merged oor add b b' gs mc eff h : coarsening b b' gs -> (forall h, plain_hist oor b mc eff = Ok h -> filled add eff h) ->
  implement_binning oor add b mc eff = Ok h -> implement_binning oor add b' mc eff = Ok (merged gs h) /\ grouping gs (List.length h).
Proof.
  unfold implement_binning. intros Hc Hf H. destruct (plain_hist oor b mc eff) as [h0|e] eqn:E; [|discriminate]. injection H as <-.
  rewrite (coarsening_hist _ _ _ _ _ _ _ Hc E). specialize (Hf h0 eq_refl). pose proof (coarsening_grouping _ _ _ Hc) as G. rewrite <- (plain_hist_length _ _ _ _ _ E) in G.
  rewrite (filled_floor _ _ _ Hf), (filled_floor _ _ _ (filled_merged _ _ _ _ Hf G)). auto.
Qed.
Lemma norm_merged nt rn mc h gs p b : grouping gs (List.length h) -> get_normalization nt rn mc (merged gs h) p b = get_normalization nt rn mc h p b.
Proof. intros G. unfold get_normalization. rewrite (merged_total gs h G). reflexivity. Qed.

Section Rebin.
  Variable oor : list (list fl) -> nat -> list fl.
  Context {K : Type}.

  Lemma component_rebinned b p gs (nc nc' : string * lcomp K) key k x : rebinned oor b p gs nc nc' ->
    outcome (snd nc) key b p = Ok (k, x) -> Forall fin x -> outcome (snd nc') key b p = Ok (k, merged gs x).
  Proof.
    intros H. destruct H as [name needed c bins sim Hc Hf|name needed c bins data Hc Hf]; cbn [snd]; unfold outcome; cbn [l_kind].
    - unfold sim_hist. cbn [with_bins n_bins n_no_eff n_add_eps n_norm n_rate n_mcinput]. destruct (sim key b p) as [[key' rows]|e] eqn:Es; [|discriminate].
      specialize (Hf key key' rows). destruct (split_rows (n_no_eff c) rows) as [mc eff] eqn:Hsp. cbn [fst snd] in Hf. rewrite (coarsening_ndim _ _ _ Hc).
      destruct (forallb (fun r => Nat.eqb (List.length r) (ndim (n_bins c))) mc); [|discriminate].
      destruct (implement_binning oor (n_add_eps c) (n_bins c) mc eff) as [h|e] eqn:Hi; [|discriminate].
      destruct (binning_merged _ _ _ _ _ _ _ _ Hc (fun h => Hf h Es) Hi) as [Hi' G]. rewrite Hi', (norm_merged _ _ _ _ _ _ _ G).
      destruct (get_normalization (n_norm c) (n_rate c) (n_mcinput c) h p b) as [f|e]; [|discriminate]. intros E F. injection E as <- <-. rewrite merged_scale; [reflexivity|exact F|exact G].
    - unfold fixed_hist, fixed_deduce. cbn [with_bins n_bins n_no_eff n_add_eps n_norm n_rate n_mcinput].
      destruct (implement_binning oor (n_add_eps c) (n_bins c) data (map (fun _ => Fin 1) data)) as [h|e] eqn:Hi; [|discriminate].
      destruct (binning_merged _ _ _ _ _ _ _ _ Hc Hf Hi) as [Hi' G]. rewrite Hi', (norm_merged _ _ _ _ _ _ _ G).
      destruct (get_normalization (n_norm c) (n_rate c) (Err AttributeError) h p (List.length data)) as [f|e]; [|discriminate]. intros E F. injection E as <- <-.
      rewrite merged_scale; [reflexivity|exact F|exact G].
  Qed.

  Lemma sum_rebinned b p gs (cs cs' : dict (lcomp K)) : Forall2 (rebinned oor b p gs) cs cs' -> forall key h k y, in_range gs (List.length h) ->
    sum_components cs key b p h = Ok (k, y) -> Forall fin y -> sum_components cs' key b p (merged gs h) = Ok (k, merged gs y).
  Proof.
    induction 1 as [|[n c] [n' c'] cs cs' Hc _ IH]; intros key h k y R E F; cbn [sum_components] in E |- *.
    - injection E as <- <-. reflexivity.
    - cbv zeta in E |- *. fold (outcome c key b p) in E. fold (outcome c' key b p).
      destruct (outcome c key b p) as [[k1 x]|e] eqn:Ec; [|discriminate]. destruct (iadd h x) as [h'|e] eqn:Ei; [|discriminate].
      pose proof (sum_fin _ _ _ _ _ _ _ E F) as F'. destruct (iadd_fin _ _ _ Ei F') as [_ Fx].
      pose proof (component_rebinned b p gs (n, c) (n', c') key k1 x Hc Ec Fx) as Ec'. cbn [snd] in Ec'. rewrite Ec'. rewrite (merged_iadd gs h x h' Ei F' R).
      apply IH; [|exact E|exact F]. unfold iadd in Ei. destruct (Nat.eqb (List.length h) (List.length x)) eqn:El; [|discriminate]. injection Ei as <-. apply Nat.eqb_eq in El.
      rewrite map_length, combine_length, <- El, Nat.min_id. exact R.
  Qed.
End Rebin.

(** ** The deviance *)
Local Open Scope R_scope.

Definition dev1 (d m : R) : R := (if Rlt_dec 0 d then d * ln d - d else 0) - (d * ln m - m).
Lemma dev1_alt d m : 0 <= d -> dev1 d m = (if Rlt_dec 0 d then d * (ln d - ln m) else 0) - d + m.
Proof. intros H. unfold dev1. destruct (Rlt_dec 0 d); [ring|]. assert (d = 0) by lra. subst. ring. Qed.
Lemma deviance_terms ds : forall ms, List.length ms = List.length ds ->
  poisson_best ds - poisson_R ds ms = fold_right Rplus 0 (map (fun i => dev1 (rget ds i) (rget ms i)) (seq 0 (List.length ds))).
Proof.
  induction ds as [|d ds IH]; intros [|m ms] H; try discriminate; [cbn; ring|]. cbn [poisson_best poisson_R List.length seq map fold_right]. injection H as H.
  rewrite <- seq_shift, map_map. specialize (IH ms H). unfold rget in *. cbn [nth]. rewrite <- IH. unfold dev1. ring.
Qed.
(** The log sum inequality. *)
Lemma dev1_group (l : list (R * R)) : (forall x, In x l -> 0 <= fst x /\ 0 < snd x) ->
  dev1 (fold_right Rplus 0 (map fst l)) (fold_right Rplus 0 (map snd l)) <= fold_right Rplus 0 (map (fun x => dev1 (fst x) (snd x)) l).
Proof.
  intros H. set (D := fold_right Rplus 0 (map fst l)). set (M := fold_right Rplus 0 (map snd l)).
  assert (HD : 0 <= D /\ 0 <= M /\ (l <> [] -> 0 < M)).
  { unfold D, M. clear D M. induction l as [|x l IH]; [cbn; split; [lra|split; [lra|congruence]]|]. cbn [map fold_right]. destruct (H x (or_introl eq_refl)).
    destruct (IH (fun y Hy => H y (or_intror Hy))) as (A & B & _). repeat split; intros; lra. }
  destruct HD as (HD & HM & HM'). rewrite (dev1_alt D M HD). destruct (Rlt_dec 0 D) as [P|P].
  - assert (Hl : l <> []) by (intros ->; unfold D in P; cbn in P; lra). specialize (HM' Hl).
    (* every term against the tangent of the logarithm at D / M *)
    assert (T : forall x, In x l -> fst x * (ln D - ln M) + snd x - snd x * (D / M) <= dev1 (fst x) (snd x)).
    { intros [d m] Hx. destruct (H _ Hx) as [Hd Hm]. cbn [fst snd] in *. rewrite (dev1_alt d m Hd). destruct (Rlt_dec 0 d) as [Pd|Pd].
      - assert (Q : 0 < m * (D / M) / d) by (apply Rdiv_lt_0_compat; [apply Rmult_lt_0_compat; [exact Hm|apply Rdiv_lt_0_compat; assumption]|exact Pd]).
        pose proof (ln_le_sub _ Q) as L. assert (E : ln (m * (D / M) / d) = ln m + (ln D - ln M) - ln d).
        { unfold Rdiv. rewrite !ln_mult; try assumption; try (apply Rinv_0_lt_compat; assumption); try (apply Rmult_lt_0_compat; try assumption; apply Rinv_0_lt_compat; assumption);
            try (apply Rmult_lt_0_compat; [assumption|apply Rmult_lt_0_compat; [assumption|apply Rinv_0_lt_compat; assumption]]).
          rewrite !ln_Rinv by assumption. ring. }
        rewrite E in L. assert (L' : d * (ln m + (ln D - ln M) - ln d) <= m * (D / M) - d).
        { replace (m * (D / M) - d) with (d * (m * (D / M) / d - 1)) by (field; lra). apply Rmult_le_compat_l; lra. }
        lra.
      - assert (d = 0) by lra. subst. assert (0 < m * (D / M)) by (apply Rmult_lt_0_compat; [exact Hm|apply Rdiv_lt_0_compat; assumption]). lra. }
    assert (S : forall k, (forall x, In x k -> In x l) ->
      fold_right Rplus 0 (map fst k) * (ln D - ln M) + fold_right Rplus 0 (map snd k) - fold_right Rplus 0 (map snd k) * (D / M)
      <= fold_right Rplus 0 (map (fun x => dev1 (fst x) (snd x)) k)).
    { induction k as [|x k IH]; intros Hk; cbn [map fold_right]; [lra|]. pose proof (T x (Hk x (or_introl eq_refl))). pose proof (IH (fun y Hy => Hk y (or_intror Hy))). lra. }
    specialize (S l (fun x Hx => Hx)). fold D M in S. replace (M * (D / M)) with D in S by (field; lra). lra.
  - assert (D0 : D = 0) by lra. rewrite D0.
    assert (Z : forall k, (forall x, In x k -> In x l) -> fold_right Rplus 0 (map (fun x => dev1 (fst x) (snd x)) k) = fold_right Rplus 0 (map snd k)).
    { assert (A : forall x, In x l -> fst x = 0).
      { unfold D in D0. clear - D0 H. induction l as [|y l IH]; [intros x []|]. cbn in D0. destruct (H y (or_introl eq_refl)) as [Hy _].
        assert (0 <= fold_right Rplus 0 (map fst l)).
        { clear - H. induction l as [|z l IH]; cbn; [lra|]. destruct (H z (or_intror (or_introl eq_refl))). assert (0 <= fold_right Rplus 0 (map fst l)); [|lra].
          apply IH. intros x [<-|Hx]; apply H; [left; reflexivity|right; right; exact Hx]. }
        intros x [<-|Hx]; [lra|]. apply IH; [intros z Hz; apply H; right; exact Hz|lra|exact Hx]. }
      induction k as [|x k IH]; intros Hk; [reflexivity|]. cbn [map fold_right]. rewrite IH by (intros y Hy; apply Hk; right; exact Hy). f_equal.
      rewrite (A x (Hk x (or_introl eq_refl))). unfold dev1. destruct (Rlt_dec 0 0); lra. }
    rewrite (Z l (fun x Hx => Hx)). fold M. lra.
Qed.
Lemma sum_perm (F : nat -> R) a b : Permutation a b -> fold_right Rplus 0 (map F a) = fold_right Rplus 0 (map F b).
Proof. induction 1; cbn; lra. Qed.
Lemma sum_concat (F : nat -> R) gs : fold_right Rplus 0 (map F (List.concat gs)) = fold_right Rplus 0 (map (fun g => fold_right Rplus 0 (map F g)) gs).
Proof.
  induction gs as [|g gs IH]; [reflexivity|]. cbn [List.concat map fold_right]. rewrite <- IH, map_app. generalize (map F (List.concat gs)). intros l. induction (map F g) as [|x k IHk]; cbn; lra.
Qed.
Lemma deviance_merged gs ds ms : grouping gs (List.length ds) -> List.length ms = List.length ds -> (forall d, In d ds -> 0 <= d) -> (forall m, In m ms -> 0 < m) ->
  poisson_best (map (gsum ds) gs) - poisson_R (map (gsum ds) gs) (map (gsum ms) gs) <= poisson_best ds - poisson_R ds ms.
Proof.
  intros G Hl Hd Hm. rewrite (deviance_terms ds ms Hl), (deviance_terms (map (gsum ds) gs) (map (gsum ms) gs)) by (rewrite !map_length; reflexivity).
  pose proof (grouping_range _ _ G) as R. destruct G as [P _]. rewrite <- (sum_perm _ _ _ P), sum_concat. rewrite map_length.
  assert (E : map (fun i => dev1 (rget (map (gsum ds) gs) i) (rget (map (gsum ms) gs) i)) (seq 0 (List.length gs)) = map (fun g => dev1 (gsum ds g) (gsum ms g)) gs).
  { clear. unfold rget. induction gs as [|g gs IH]; [reflexivity|]. cbn [List.length seq map nth]. f_equal. rewrite <- seq_shift, map_map. exact IH. }
  rewrite E. clear E P. induction gs as [|g gs IH]; [cbn; lra|]. cbn [map fold_right].
  assert (A : dev1 (gsum ds g) (gsum ms g) <= fold_right Rplus 0 (map (fun i => dev1 (rget ds i) (rget ms i)) g)).
  { pose proof (dev1_group (map (fun i => (rget ds i, rget ms i)) g)) as A. rewrite !map_map in A. cbn [fst snd] in A. apply A. intros x Hx. apply in_map_iff in Hx.
    destruct Hx as (i & <- & Hi). pose proof (R g i (or_introl eq_refl) Hi) as Hi'. cbn [fst snd]. split; [apply Hd|apply Hm]; apply nth_In; lia. }
  assert (B : fold_right Rplus 0 (map (fun g => dev1 (gsum ds g) (gsum ms g)) gs) <= fold_right Rplus 0 (map (fun g => fold_right Rplus 0 (map (fun i => dev1 (rget ds i) (rget ms i)) g)) gs)).
  { apply IH. intros g' i Hg Hi. apply (R g' i); [right; exact Hg|exact Hi]. }
  lra.
Qed.
Lemma sum_components_length {K} (cs : dict (lcomp K)) : forall key b p h k y, sum_components cs key b p h = Ok (k, y) -> List.length y = List.length h.
Proof.
  induction cs as [|[n c] cs IH]; intros key b p h k y E; cbn [sum_components] in E; [injection E as _ <-; reflexivity|].
  cbv zeta in E. fold (outcome c key b p) in E. destruct (outcome c key b p) as [[k1 x]|e]; [|discriminate]. destruct (iadd h x) as [h'|e] eqn:Ei; [|discriminate].
  apply IH in E. rewrite E. unfold iadd in Ei. destruct (Nat.eqb (List.length h) (List.length x)) eqn:El; [|discriminate]. injection Ei as <-. apply Nat.eqb_eq in El.
  rewrite map_length, combine_length, <- El, Nat.min_id. reflexivity.
Qed.
