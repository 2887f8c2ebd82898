(** Lemmas for the plots of a chain (C96): what is read and kept, and the best sample. *)
From Coq Require Import Reals Lra Lia.
From Verif Require Import Base BaseFacts ModelFloat ProofFloat ModelTwoHalf ModelParameter ModelContext SpecContext
  ProofContext ModelPlotter SpecPlotter.
Local Open Scope string_scope.
Local Open Scope list_scope.

(* ------------------------------------------------------------------ *)
(** * Slices and masks *)

Definition hits (s t i : nat) : bool := Nat.leb s i && Nat.eqb (Nat.modulo (i - s) t) 0.

Lemma hits_zero t i : 0 < t -> hits 0 t (S i) = hits (t - 1) t i.
Proof.
  intros Ht. unfold hits. cbn [Nat.leb andb]. rewrite Nat.sub_0_r.
  destruct (Nat.leb (t - 1) i) eqn:E; cbn [andb].
  - apply Nat.leb_le in E. replace (S i) with ((i - (t - 1)) + 1 * t) by lia. rewrite Nat.mod_add by lia. reflexivity.
  - apply Nat.leb_gt in E. rewrite Nat.mod_small by lia. reflexivity.
Qed.

Lemma filter_map_S (P : nat -> bool) l : filter P (map S l) = map S (filter (fun i => P (S i)) l).
Proof. induction l as [|x l IH]; cbn; [reflexivity|]. destruct (P (S x)); cbn; rewrite IH; reflexivity. Qed.

Lemma filter_cond_ext (P Q : nat -> bool) l : (forall i, In i l -> P i = Q i) -> filter P l = filter Q l.
Proof.
  induction l as [|x l IH]; intros H; cbn; [reflexivity|]. rewrite (H x) by (left; reflexivity).
  rewrite IH by (intros i Hi; apply H; right; exact Hi). reflexivity.
Qed.

Lemma slice_spec {A} (d : A) t : 0 < t -> forall l s,
  slice s t l = map (fun i => nth i l d) (filter (hits s t) (seq 0 (List.length l))).
Proof.
  intros Ht. induction l as [|x l IH]; intros s; cbn [slice List.length seq]; [reflexivity|].
  rewrite <- seq_shift. cbn [filter]. rewrite filter_map_S. destruct s as [|s].
  - replace (hits 0 t 0) with true by (unfold hits; cbn [Nat.leb andb Nat.sub]; rewrite Nat.mod_0_l by lia; reflexivity).
    cbn [map nth]. rewrite map_map. f_equal. rewrite IH.
    rewrite (filter_cond_ext (fun i => hits 0 t (S i)) (hits (t - 1) t)) by (intros i _; apply hits_zero, Ht). reflexivity.
  - replace (hits (S s) t 0) with false by reflexivity. rewrite map_map. rewrite IH.
    reflexivity.
Qed.

Lemma hits_recorded d t i : 0 < t -> hits (d + t - 1) t i = recorded d t i.
Proof.
  intros Ht. unfold hits, recorded. destruct (Nat.leb (d + t) (i + 1)) eqn:E.
  - apply Nat.leb_le in E. replace (Nat.leb (d + t - 1) i) with true by (symmetry; apply Nat.leb_le; lia).
    cbn [andb]. replace (i + 1 - d) with ((i - (d + t - 1)) + 1 * t) by lia. rewrite Nat.mod_add by lia. reflexivity.
  - apply Nat.leb_gt in E. replace (Nat.leb (d + t - 1) i) with false by (symmetry; apply Nat.leb_gt; lia). reflexivity.
Qed.

Lemma get_value_ok {A} (field : walker -> A) b d t v : get_value field b d t = Ok v ->
  0 < t /\ bk_iters b <> [] /\ v = map (fun i => map field (iteration b i)) (read_iterations b d t).
Proof.
  unfold get_value. destruct (bk_iters b) as [|it its] eqn:E; [discriminate|]. destruct t as [|t]; [discriminate|].
  intros H. split; [lia|]. split; [discriminate|].
  assert (K : forall l, slice (d + S t - 1) (S t) l =
    map (fun i => nth i l (map field [])) (filter (recorded d (S t)) (seq 0 (List.length l)))).
  { intros l. rewrite (slice_spec (map field [])) by lia. f_equal. apply filter_cond_ext. intros i _. apply hits_recorded. lia. }
  assert (H' : v = slice (d + S t - 1) (S t) (map (map field) (it :: its))) by (injection H as H; symmetry; exact H).
  clear H.
  rewrite H', K. unfold read_iterations. rewrite map_length, E.
  apply map_ext. intros i. unfold iteration. rewrite E. exact (map_nth (map field) (it :: its) [] i).
Qed.

Lemma get_value_total {A} (field : walker -> A) b d t : 0 < t -> bk_iters b <> [] ->
  get_value field b d t = Ok (map (fun i => map field (iteration b i)) (read_iterations b d t)).
Proof.
  intros Ht Hb. destruct (get_value field b d t) as [v|e] eqn:E.
  - apply get_value_ok in E. destruct E as (_ & _ & ->). reflexivity.
  - exfalso. unfold get_value in E. destruct (bk_iters b); [congruence|]. destruct t; [lia|discriminate E].
Qed.

Lemma concat_map_map {A B} (f : A -> B) (l : list (list A)) : List.concat (map (map f) l) = map f (List.concat l).
Proof. symmetry. apply concat_map. Qed.

Lemma get_flat_total {A} (field : walker -> A) b d t : 0 < t -> bk_iters b <> [] ->
  get_flat field b d t = Ok (map field (samples b d t)).
Proof.
  intros Ht Hb. unfold get_flat. rewrite get_value_total by assumption. cbn [bind]. unfold samples.
  rewrite <- concat_map_map, map_map. reflexivity.
Qed.

Lemma compress_filter {A B} (P : A -> bool) (g : A -> B) l : compress (map P l) (map g l) = map g (filter P l).
Proof. induction l as [|x l IH]; cbn; [reflexivity|]. destruct (P x); cbn; rewrite IH; reflexivity. Qed.

(* ------------------------------------------------------------------ *)
(** * The first maximum *)

Definition first_max (l : list fl) (i : nat) : Prop :=
  exists pre v post, l = pre ++ v :: post /\ List.length pre = i /\
    (forall x, In x pre -> flt x v = true) /\ (forall x, In x post -> fle x v = true).

Lemma argmax_from_first : forall l pre best bv, (forall x, In x (pre ++ l) -> x <> NaN) ->
  nth_error pre best = Some bv -> first_max pre best ->
  first_max (pre ++ l) (argmax_from (List.length pre) best bv l).
Proof.
  induction l as [|x l IH]; intros pre best bv Hn Hb Hm; cbn [argmax_from].
  - rewrite app_nil_r. exact Hm.
  - assert (Happ : pre ++ x :: l = (pre ++ [x]) ++ l) by (rewrite <- app_assoc; reflexivity).
    assert (Hx : x <> NaN) by (apply Hn, in_or_app; right; left; reflexivity).
    assert (Hbv : bv <> NaN) by (apply Hn, in_or_app; left; eapply nth_error_In; exact Hb).
    rewrite Happ in *. replace (S (List.length pre)) with (List.length (pre ++ [x])) by (rewrite app_length; cbn; lia).
    destruct Hm as (p1 & v & p2 & E & L & H1 & H2).
    assert (v = bv).
    { rewrite E, <- L, nth_error_app2, Nat.sub_diag in Hb by lia. injection Hb as <-. reflexivity. }
    subst v. destruct (beats x bv) eqn:Eb.
    + apply IH; [exact Hn| |].
      * rewrite nth_error_app2 by lia. rewrite Nat.sub_diag. reflexivity.
      * pose proof (beats_true x bv Hx Hbv Eb) as Hlt. exists pre, x, []. split; [reflexivity|]. split; [reflexivity|].
        split; [|intros y []]. intros y Hy. rewrite E in Hy. apply in_app_or in Hy. destruct Hy as [Hy|[<-|Hy]].
        -- eapply flt_le_trans; [apply H1, Hy|apply flt_weak, Hlt].
        -- exact Hlt.
        -- eapply fle_lt_trans; [apply H2, Hy|exact Hlt].
    + apply IH; [exact Hn| |].
      * rewrite nth_error_app1; [exact Hb|]. apply nth_error_Some. congruence.
      * exists p1, bv, (p2 ++ [x]). split; [rewrite E, <- app_assoc; reflexivity|]. split; [exact L|]. split; [exact H1|].
        intros y Hy. apply in_app_or in Hy. destruct Hy as [Hy|[<-|[]]]; [apply H2, Hy|]. apply beats_false; assumption.
Qed.

Lemma argmax_first l : l <> [] -> (forall x, In x l -> x <> NaN) -> exists i, argmax l = Ok i /\ first_max l i.
Proof.
  destruct l as [|x l]; intros Hl Hn; [congruence|]. cbn [argmax]. eexists. split; [reflexivity|].
  apply (argmax_from_first l [x] 0 x); [exact Hn|reflexivity|].
  exists [], x, []. split; [reflexivity|]. split; [reflexivity|]. split; intros y [].
Qed.

Lemma first_max_unique l i j : first_max l i -> first_max l j -> i = j.
Proof.
  assert (K : forall i j, first_max l i -> first_max l j -> ~ i < j).
  { clear. intros i j (p1 & v1 & q1 & E1 & L1 & A1 & B1) (p2 & v2 & q2 & E2 & L2 & A2 & B2) Hlt.
    assert (H1 : nth_error p2 i = Some v1).
    { rewrite <- (nth_error_app1 p2 (v2 :: q2)) by lia. rewrite <- E2, E1, nth_error_app2 by lia. subst i. rewrite Nat.sub_diag. reflexivity. }
    assert (H2 : In v2 q1).
    { assert (N : nth_error (v1 :: q1) (j - i) = Some v2).
      { subst i. rewrite <- (nth_error_app2 p1) by lia. rewrite <- E1, E2. rewrite nth_error_app2 by lia. subst j.
        rewrite Nat.sub_diag. reflexivity. }
      destruct (j - i) as [|m] eqn:Em; [lia|]. cbn in N. eapply nth_error_In; exact N. }
    apply nth_error_In in H1. specialize (A2 _ H1). specialize (B1 _ H2).
    pose proof (flt_le_trans _ _ _ A2 B1) as Hc. clear -Hc. destruct v1; cbn in Hc; try discriminate.
    destruct (Rlt_dec r r); [lra|discriminate]. }
  intros Hi Hj. destruct (Nat.lt_trichotomy i j) as [H|[H|H]]; [|exact H|]; exfalso; [apply (K i j)|apply (K j i)]; assumption.
Qed.

(** The sample chosen is the same if samples with log posterior -inf are left out. *)
Lemma argmax_filtered (l : list walker) : filter (fun s => is_fin (log_post s)) l <> [] ->
  (forall s, In s l -> log_post s <> NaN /\ log_post s <> PInf) ->
  exists i j s, argmax (map log_post l) = Ok i /\
    argmax (map log_post (filter (fun s => is_fin (log_post s)) l)) = Ok j /\
    nth_error l i = Some s /\ nth_error (filter (fun s => is_fin (log_post s)) l) j = Some s.
Proof.
  intros Hne Hl. set (P := fun s => is_fin (log_post s)) in *.
  destruct (argmax_first (map log_post l)) as (i & Ei & Fi).
  { intros E. apply map_eq_nil in E. subst l. apply Hne. reflexivity. }
  { intros x Hx. apply in_map_iff in Hx. destruct Hx as (s & <- & Hs). apply Hl, Hs. }
  destruct (argmax_first (map log_post (filter P l))) as (j & Ej & Fj).
  { intros E. apply map_eq_nil in E. contradiction. }
  { intros x Hx. apply in_map_iff in Hx. destruct Hx as (s & <- & Hs). apply filter_In in Hs. apply Hl, Hs. }
  destruct Fi as (pre & v & post & E & L & H1 & H2).
  assert (Hd : exists l1 s l2, l = l1 ++ s :: l2 /\ map log_post l1 = pre /\ log_post s = v /\ map log_post l2 = post).
  { clear -E. revert pre E. induction l as [|s l IH]; intros [|x pre] E; cbn in E; try discriminate.
    - injection E as <- <-. exists [], s, l. auto.
    - injection E as <- E. destruct (IH pre E) as (l1 & s' & l2 & -> & <- & <- & <-). exists (s :: l1), s', l2. auto. }
  destruct Hd as (l1 & s & l2 & El & E1 & E2 & E3).
  assert (Hs : P s = true).
  { destruct (filter P l) as [|s0 r] eqn:Ef; [congruence|].
    assert (H0 : In s0 (filter P l)) by (rewrite Ef; left; reflexivity). apply filter_In in H0. destruct H0 as [H0 H0'].
    unfold P in *. destruct (Hl s) as [N1 N2]; [rewrite El; apply in_or_app; right; left; reflexivity|].
    destruct (log_post s) as [r0| | |] eqn:Es; [reflexivity|congruence| |congruence].
    exfalso. rewrite El in H0. apply in_app_or in H0.
    assert (Hle : fle (log_post s0) NInf = true).
    { destruct H0 as [H0|[<-|H0]].
      - apply flt_weak. rewrite E2. apply H1. rewrite <- E1. apply in_map, H0.
      - rewrite Es. reflexivity.
      - rewrite E2. apply H2. rewrite <- E3. apply in_map, H0. }
    destruct (log_post s0); cbn in H0', Hle; discriminate. }
  assert (Fj' : first_max (map log_post (filter P l)) (List.length (filter P l1))).
  { exists (map log_post (filter P l1)), v, (map log_post (filter P l2)). split.
    - rewrite El, filter_app. cbn [filter]. rewrite Hs, map_app. cbn [map]. rewrite E2. reflexivity.
    - split; [apply map_length|]. split.
      + intros x Hx. apply H1. rewrite <- E1. apply in_map_iff in Hx. destruct Hx as (s1 & <- & Hx). apply filter_In in Hx. apply in_map, Hx.
      + intros x Hx. apply H2. rewrite <- E3. apply in_map_iff in Hx. destruct Hx as (s1 & <- & Hx). apply filter_In in Hx. apply in_map, Hx. }
  exists i, j, s. split; [exact Ei|]. split; [exact Ej|]. split.
  - rewrite El, <- L, <- E1, map_length, nth_error_app2, Nat.sub_diag by lia. reflexivity.
  - rewrite (first_max_unique _ _ _ Fj Fj'). rewrite El, filter_app. cbn [filter]. rewrite Hs.
    rewrite nth_error_app2, Nat.sub_diag by lia. reflexivity.
Qed.

(* ------------------------------------------------------------------ *)
(** * Names and values *)

Lemma name_values_ok : forall names v d, NoDup names -> (forall n, In n names -> ~ In n (keys d)) ->
  List.length names <= List.length v ->
  exists d', name_values names v d = Ok d' /\ keys d' = keys d ++ names /\
    (forall j n, nth_error names j = Some n -> get n d' = nth_error v j) /\
    (forall n, ~ In n names -> get n d' = get n d).
Proof.
  induction names as [|n names IH]; intros v d Hnd Hd Hl; cbn [name_values].
  - exists d. split; [reflexivity|]. rewrite app_nil_r. split; [reflexivity|]. split; [intros [|j] m; discriminate|auto].
  - destruct v as [|x v]; [cbn in Hl; lia|]. cbn [List.length] in Hl. inversion Hnd as [|? ? Hn Hnd']; subst.
    assert (Hk : keys (set n x d) = keys d ++ [n]).
    { rewrite keys_set. destruct (mem n (keys d)) eqn:E; [|reflexivity]. apply mem_In in E. exfalso. apply (Hd n); [left; reflexivity|exact E]. }
    destruct (IH v (set n x d) Hnd') as (d' & E & K & G1 & G2); [| |].
    { intros m Hm Hi. rewrite Hk in Hi. apply in_app_or in Hi. destruct Hi as [Hi|[<-|[]]]; [|contradiction].
      apply (Hd m); [right; exact Hm|exact Hi]. }
    { lia. }
    exists d'. split; [exact E|]. split; [rewrite K, Hk, <- app_assoc; reflexivity|]. split.
    + intros [|j] m Hj; cbn in Hj.
      * injection Hj as <-. rewrite (G2 n Hn), get_set_eq. reflexivity.
      * apply G1, Hj.
    + intros m Hm. cbn [In] in Hm. rewrite G2 by tauto. apply get_set_neq. intros ->. tauto.
Qed.

Lemma name_values_len names : forall v d d', name_values names v d = Ok d' -> List.length names <= List.length v.
Proof.
  induction names as [|n names IH]; intros [|x v] d d' H; cbn in *; try lia; try discriminate. apply IH in H. lia.
Qed.

(* ------------------------------------------------------------------ *)
(** * The constructor *)

Definition plotter_of (b : backend) (names : list string) (config : dict setting) (d t : nat) (mpe : dict R) : plotter :=
  mk_plotter d t (map (fun i => map coords (iteration b i)) (kept b d t))
    (map (fun i => map log_post (iteration b i)) (kept b d t))
    (map (fun i => map log_prior_of (iteration b i)) (kept b d t))
    (map coords (finite_samples b d t)) (map log_post (finite_samples b d t))
    (map log_prior_of (finite_samples b d t)) names config mpe (bk_walkers b) (bk_params b).

Lemma new_plotter_eq b names config d t : 0 < t -> bk_iters b <> [] ->
  new_plotter b names config d t =
    (do i <- argmax (map log_post (finite_samples b d t));
     do best <- match nth_error (map coords (finite_samples b d t)) i with Some v => Ok v | None => Err IndexError end;
     do mpe <- name_values names best [];
     Ok (plotter_of b names config d t mpe)).
Proof.
  intros Ht Hb. unfold new_plotter. rewrite !get_value_total by assumption. cbn [bind].
  rewrite !get_flat_total by assumption. cbn [bind].
  rewrite !map_map.
  assert (M : map (fun i => forallb is_fin (map (fun s : walker => fst (snd s)) (iteration b i))) (read_iterations b d t)
    = map (clean b) (read_iterations b d t)).
  { apply map_ext. intros i. unfold clean. induction (iteration b i) as [|s l IH]; cbn; [reflexivity|]. rewrite IH. reflexivity. }
  rewrite M. rewrite !compress_filter. fold (kept b d t).
  reflexivity.
Qed.

Lemma new_plotter_inv b names config d t p : new_plotter b names config d t = Ok p ->
  0 < t /\ bk_iters b <> [] /\ finite_samples b d t <> [] /\ exists i s mpe,
    argmax (map log_post (finite_samples b d t)) = Ok i /\ nth_error (finite_samples b d t) i = Some s /\
    name_values names (coords s) [] = Ok mpe /\ p = plotter_of b names config d t mpe.
Proof.
  intros H. assert (Hb : 0 < t /\ bk_iters b <> []).
  { unfold new_plotter in H. destruct (get_value fst b d t) as [v|e] eqn:E; [|discriminate H].
    apply get_value_ok in E. tauto. }
  destruct Hb as [Ht Hb]. split; [exact Ht|]. split; [exact Hb|]. rewrite new_plotter_eq in H by assumption.
  destruct (argmax (map log_post (finite_samples b d t))) as [i|e] eqn:Ei; [|discriminate H]. cbn [bind] in H.
  split. { intros E. rewrite E in Ei. discriminate Ei. }
  rewrite nth_error_map in H. destruct (nth_error (finite_samples b d t) i) as [s|] eqn:Es; [|discriminate H].
  cbn [option_map bind] in H. destruct (name_values names (coords s) []) as [mpe|e] eqn:En; [|discriminate H].
  injection H as <-. exists i, s, mpe. auto.
Qed.
