(** Lemmas for the autocorrelation of a chain (C98): the numbers of iterations and the plot. *)
From Coq Require Import Reals Lra Lia.
From Verif Require Import Base BaseFacts ModelFloat ProofFloat ModelTwoHalf ModelParameter ModelContext
  ModelPlotter SpecPlotter ProofPlotter ProofPlotter2 ProofAccept ProofAutocorr ProofAutocorr2.
Local Open Scope list_scope.
Local Open Scope R_scope.

(* ------------------------------------------------------------------ *)
(** * The numbers of iterations *)

Lemma cut_mono x y : x <= y -> (Z.to_nat (Int_part x) <= Z.to_nat (Int_part y))%nat.
Proof.
  intros H. destruct (base_Int_part x) as [A B]. destruct (base_Int_part y) as [C D].
  assert (K : (Int_part x < Int_part y + 1)%Z) by (apply lt_IZR; rewrite plus_IZR; lra).
  lia.
Qed.

Lemma cut_INR n : Z.to_nat (Int_part (INR n)) = n.
Proof.
  destruct (base_Int_part (INR n)) as [A B]. rewrite INR_IZR_INZ in *.
  assert (K1 : (Int_part (IZR (Z.of_nat n)) < Z.of_nat n + 1)%Z) by (apply lt_IZR; rewrite plus_IZR; lra).
  assert (K2 : (Z.of_nat n < Int_part (IZR (Z.of_nat n)) + 1)%Z) by (apply lt_IZR; rewrite plus_IZR; lra).
  lia.
Qed.

Definition geom (lo hi : nat) (j : nat) : R := INR lo * exp (INR j / 9 * ln (INR hi / INR lo)).

Lemma exp_mono x y : x <= y -> exp x <= exp y.
Proof. intros [H| ->]; [left; apply exp_increasing, H|right; reflexivity]. Qed.

Lemma geom_ends lo hi : (0 < lo)%nat -> (0 < hi)%nat -> geom lo hi 0 = INR lo /\ geom lo hi 9 = INR hi.
Proof.
  intros Hl Hh. assert (A : 0 < INR lo) by (apply lt_0_INR, Hl). assert (B : 0 < INR hi) by (apply lt_0_INR, Hh).
  unfold geom. split.
  - cbn [INR]. replace (0 / 9 * ln (INR hi / INR lo)) with 0 by lra. rewrite exp_0. lra.
  - replace (INR 9) with 9 by (cbn [INR]; lra). replace (9 / 9 * ln (INR hi / INR lo)) with (ln (INR hi / INR lo)) by lra.
    rewrite exp_ln; [field; lra|]. apply Rmult_lt_0_compat; [exact B|]. apply Rinv_0_lt_compat, A.
Qed.

Lemma geom_int_cut lo hi j : (0 < lo)%nat -> (0 < hi)%nat -> (j <= 9)%nat -> geom_int lo hi j = Z.to_nat (Int_part (geom lo hi j)).
Proof.
  intros Hl Hh Hj. destruct (geom_ends lo hi Hl Hh) as [E0 E9]. unfold geom_int.
  destruct (Nat.eqb_spec j 0) as [->|H0]; [rewrite E0, cut_INR; reflexivity|].
  destruct (Nat.eqb_spec j 9) as [->|H9]; [rewrite E9, cut_INR; reflexivity|]. reflexivity.
Qed.

Lemma ln_ratio lo hi : (0 < lo)%nat -> (0 < hi)%nat ->
  ((lo <= hi)%nat -> 0 <= ln (INR hi / INR lo)) /\ ((hi <= lo)%nat -> ln (INR hi / INR lo) <= 0).
Proof.
  intros Hl Hh. assert (A : 0 < INR lo) by (apply lt_0_INR, Hl). assert (B : 0 < INR hi) by (apply lt_0_INR, Hh).
  assert (M : forall x y, 0 < x -> x <= y -> ln x <= ln y).
  { intros x y Hx [H| ->]; [left; apply ln_increasing; assumption|right; reflexivity]. }
  assert (Q : 0 < INR hi / INR lo) by (apply Rmult_lt_0_compat; [exact B|apply Rinv_0_lt_compat, A]).
  split; intros H; apply le_INR in H; rewrite <- ln_1; apply M; try lra.
  - apply Rmult_le_reg_r with (INR lo); [exact A|]. unfold Rdiv. rewrite Rmult_assoc, Rinv_l by lra. lra.
  - apply Rmult_le_reg_r with (INR lo); [exact A|]. unfold Rdiv. rewrite Rmult_assoc, Rinv_l by lra. lra.
Qed.

Lemma geom_mono lo hi i j : (0 < lo)%nat -> (0 < hi)%nat -> (i <= j)%nat ->
  ((lo <= hi)%nat -> geom lo hi i <= geom lo hi j) /\ ((hi <= lo)%nat -> geom lo hi j <= geom lo hi i).
Proof.
  intros Hl Hh Hij. assert (A : 0 < INR lo) by (apply lt_0_INR, Hl). apply le_INR in Hij.
  destruct (ln_ratio lo hi Hl Hh) as [R1 R2]. unfold geom. split; intros H.
  - specialize (R1 H). apply Rmult_le_compat_l; [lra|]. apply exp_mono. apply Rmult_le_compat_r; [exact R1|]. lra.
  - specialize (R2 H). apply Rmult_le_compat_l; [lra|]. apply exp_mono. nra.
Qed.

Lemma geom_int_mono lo hi i j : (0 < lo)%nat -> (0 < hi)%nat -> (i <= j)%nat -> (j <= 9)%nat ->
  ((lo <= hi)%nat -> (geom_int lo hi i <= geom_int lo hi j)%nat) /\ ((hi <= lo)%nat -> (geom_int lo hi j <= geom_int lo hi i)%nat).
Proof.
  intros Hl Hh Hij Hj. rewrite !geom_int_cut by (try assumption; lia). destruct (geom_mono lo hi i j Hl Hh Hij) as [A B].
  split; intros H; apply cut_mono; auto.
Qed.

Lemma geom_int_9 lo hi : geom_int lo hi 9 = hi. Proof. reflexivity. Qed.
Lemma geom_int_0 lo hi : geom_int lo hi 0 = lo. Proof. reflexivity. Qed.

Lemma geom_int_pos lo hi j : (0 < lo)%nat -> (0 < hi)%nat -> (j <= 9)%nat -> (0 < geom_int lo hi j)%nat.
Proof.
  intros Hl Hh Hj. destruct (le_lt_dec lo hi) as [H|H].
  - destruct (geom_int_mono lo hi 0 j Hl Hh ltac:(lia) Hj) as [A _]. specialize (A H). rewrite geom_int_0 in A. lia.
  - destruct (geom_int_mono lo hi j 9 Hl Hh Hj ltac:(lia)) as [_ A]. specialize (A ltac:(lia)). rewrite geom_int_9 in A. lia.
Qed.

(* ------------------------------------------------------------------ *)
(** * The series *)

Lemma firstn_seq : forall n m s, firstn n (seq s m) = seq s (Nat.min n m).
Proof. induction n as [|n IH]; intros [|m] s; cbn; try reflexivity. rewrite IH. reflexivity. Qed.

Lemma walker_samples_series p i n :
  walker_samples p i n = map (series (pl_chain p) i n) (seq 0 (pl_walkers p)).
Proof.
  unfold walker_samples. apply map_ext. intros j. unfold series, column, param_rows. rewrite map_map.
  rewrite (list_as_nth [] (pl_chain p)) at 1. rewrite map_map, firstn_map, firstn_seq. apply map_ext. intros k.
  unfold column.
  rewrite <- (map_nth (fun r => nth i r 0) (nth k (pl_chain p) []) [] j). cbn beta. destruct i; reflexivity.
Qed.

Lemma series_length chain i n j : List.length (series chain i n j) = Nat.min n (List.length chain).
Proof. unfold series. rewrite map_length, seq_length. reflexivity. Qed.

Lemma varies_dec x : {varies x} + {~ varies x}.
Proof.
  destruct x as [|a l]; [right; intros (u & v & [] & _)|].
  destruct (Forall_dec (fun v => v = a) (fun v => Req_EM_T v a) l) as [H|H].
  - right. intros (u & v & Hu & Hv & Huv). apply Huv. rewrite Forall_forall in H.
    transitivity a; [destruct Hu as [<-|Hu]; [reflexivity|apply H, Hu]|destruct Hv as [<-|Hv]; [reflexivity|symmetry; apply H, Hv]].
  - left. apply neg_Forall_Exists_neg in H; [|intros v; apply Req_EM_T]. apply Exists_exists in H. destruct H as (v & Hv & Hn).
    exists v, a. split; [right; exact Hv|]. split; [left; reflexivity|exact Hn].
Defined.

Lemma all_vary_dec (y : list (list R)) : (forall x, In x y -> varies x) \/ exists x, In x y /\ ~ varies x.
Proof.
  destruct (Forall_dec _ varies_dec y) as [H|H].
  - left. apply Forall_forall, H.
  - right. apply neg_Forall_Exists_neg in H; [|intros v; apply varies_dec]. apply Exists_exists in H. exact H.
Qed.

Lemma one_entry_constant x : List.length x = 1%nat -> ~ varies x.
Proof.
  destruct x as [|a [|]]; intros H; try discriminate H. intros (u & v & [<-|[]] & [<-|[]] & Hn). apply Hn. reflexivity.
Qed.

Lemma autocorr_new_total n y : y <> [] -> (1 <= n)%nat -> (forall x, In x y -> List.length x = n) ->
  exists t, autocorr_new n y = Ok t.
Proof.
  intros Hy Hn Hl. destruct (all_vary_dec y) as [Hv|(x & Hx & Hv)].
  - destruct (le_lt_dec 2 n) as [H2|H2].
    + destruct (autocorr_new_ok y n Hy H2) as (M & E & _); [intros x Hx; split; [apply Hv, Hx|apply Hl, Hx]|]. eexists. exact E.
    + exfalso. destruct y as [|x y]; [congruence|]. apply (one_entry_constant x).
      * rewrite (Hl x (or_introl eq_refl)). lia.
      * apply Hv. left. reflexivity.
  - exists NaN. apply (autocorr_new_nan y n x); assumption.
Qed.

Lemma taus_at_total p i : forall ns, (0 < pl_walkers p)%nat -> (0 < n_iter p)%nat -> (forall n, In n ns -> (0 < n)%nat) ->
  exists l, taus_at p i ns = Ok l.
Proof.
  induction ns as [|n ns IH]; intros HW Hn Hns; cbn [taus_at]; [eexists; reflexivity|].
  destruct (autocorr_new_total (Nat.min n (n_iter p)) (walker_samples p i n)) as (t & E).
  - rewrite walker_samples_series. destruct (pl_walkers p); [lia|discriminate].
  - pose proof (Hns n (or_introl eq_refl)). lia.
  - intros x Hx. rewrite walker_samples_series in Hx. apply in_map_iff in Hx. destruct Hx as (j & <- & _). apply series_length.
  - rewrite E. cbn [bind]. destruct IH as (l & El); [exact HW|exact Hn|intros m Hm; apply Hns; right; exact Hm|].
    rewrite El. cbn [bind]. eexists. reflexivity.
Qed.

Lemma taus_at_ok p i : forall ns l, taus_at p i ns = Ok l ->
  List.length l = List.length ns /\
  forall q n, nth_error ns q = Some n -> exists t, nth_error l q = Some ((n * pl_thin p)%nat, t) /\
    autocorr_new (Nat.min n (n_iter p)) (map (series (pl_chain p) i n) (seq 0 (pl_walkers p))) = Ok t.
Proof.
  induction ns as [|n ns IH]; intros l H; cbn [taus_at] in H.
  - injection H as <-. split; [reflexivity|]. intros [|q] n Hq; discriminate Hq.
  - rewrite walker_samples_series in H.
    destruct (autocorr_new _ _) as [t|] eqn:E in H; [|discriminate H]. cbn [bind] in H.
    destruct (taus_at p i ns) as [l'|] eqn:El; [|discriminate H]. cbn [bind] in H. injection H as <-.
    destruct (IH l' eq_refl) as [L Q]. split; [cbn; rewrite L; reflexivity|].
    intros [|q] m Hq; cbn in Hq.
    + injection Hq as <-. exists t. split; [reflexivity|exact E].
    + apply Q, Hq.
Qed.

Lemma plot_autocorr_total lo p : (0 < lo)%nat -> (0 < n_iter p)%nat -> (0 < pl_walkers p)%nat -> (2 <= pl_params p)%nat ->
  List.length (pl_names p) = pl_params p -> exists l, plot_autocorr lo p = Ok l.
Proof.
  intros Hlo Hn HW HP Hnm. unfold plot_autocorr. destruct (n_iter p) as [|n'] eqn:En; [lia|].
  destruct (per_param_total (half_up (pl_params p))
    (fun i => do t <- taus_at p i (map (geom_int lo (S n')) (seq 0 10)); do n <- name_at p i; Ok (n, t)) (seq 0 (pl_params p))) as (l & El & Ll).
  { intros i Hi. apply in_seq in Hi. pose proof (half_up_enough (pl_params p)). split; [lia|].
    destruct (taus_at_total p i (map (geom_int lo (S n')) (seq 0 10)) HW) as (t & Et); [lia| |].
    { intros n Hin. apply in_map_iff in Hin. destruct Hin as (j & <- & Hj). apply in_seq in Hj. apply geom_int_pos; lia. }
    rewrite Et. cbn [bind]. unfold name_at. destruct (nth_error (pl_names p) i) eqn:E; [|apply nth_error_None in E; lia].
    cbn [bind]. eexists. reflexivity. }
  rewrite El. cbn [bind]. rewrite seq_length in Ll. destruct l as [|a [|b l]]; cbn in Ll; try lia. cbn [last_one last_two bind]. eexists. reflexivity.
Qed.

Lemma plot_autocorr_at lo p l : plot_autocorr lo p = Ok l ->
  (0 < n_iter p)%nat /\ (2 <= pl_params p)%nat /\ List.length l = pl_params p /\
  forall i n pts, nth_error l i = Some (n, pts) -> nth_error (pl_names p) i = Some n /\ List.length pts = 10%nat /\
    forall q, (q < 10)%nat -> exists t, nth_error pts q = Some ((geom_int lo (n_iter p) q * pl_thin p)%nat, t) /\
      autocorr_new (Nat.min (geom_int lo (n_iter p) q) (n_iter p))
        (map (series (pl_chain p) i (geom_int lo (n_iter p) q)) (seq 0 (pl_walkers p))) = Ok t.
Proof.
  unfold plot_autocorr. destruct (n_iter p) as [|n'] eqn:En; [discriminate|]. intros H. split; [lia|].
  destruct (per_param _ _ _) as [l0|] eqn:E0 in H; [|discriminate H]. cbn [bind] in H.
  destruct (last_one l0) as [[]|]; [|discriminate H]. cbn [bind] in H.
  destruct l0 as [|a [|b l0]]; cbn [last_two bind] in H; [discriminate H|discriminate H|]. injection H as <-.
  apply per_param_ok in E0. destruct E0 as [L A]. rewrite seq_length in L. split; [cbn in L; lia|]. split; [exact L|].
  intros i n pts Hi. destruct (A i _ Hi) as (i' & Hi' & Hd & _).
  assert (Hp : (i < pl_params p)%nat) by (rewrite <- L; apply nth_error_Some; congruence).
  rewrite nth_error_seq in Hi' by exact Hp. injection Hi' as <-. cbn [Nat.add] in Hd.
  destruct (taus_at p i (map (geom_int lo (S n')) (seq 0 10))) as [ts|] eqn:Et; [|discriminate Hd]. cbn [bind] in Hd.
  unfold name_at in Hd. destruct (nth_error (pl_names p) i) as [m|] eqn:Em; [|discriminate Hd]. cbn [bind] in Hd. injection Hd as -> ->.
  apply taus_at_ok in Et. destruct Et as [Lt Q]. split; [reflexivity|]. split; [rewrite Lt, map_length, seq_length; reflexivity|].
  intros q Hq. destruct (Q q (geom_int lo (S n') q)) as (t & E1 & E2); [rewrite nth_error_map, nth_error_seq by exact Hq; reflexivity|].
  exists t. rewrite En in E2. auto.
Qed.
