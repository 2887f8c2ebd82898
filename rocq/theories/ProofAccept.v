(** Lemmas for the acceptance fractions of a chain (C97). *)
From Coq Require Import Reals Lra Lia.
From Verif Require Import Base BaseFacts ModelFloat ProofFloat ModelTwoHalf ModelParameter ModelContext SpecContext
  ProofContext ModelPlotter SpecPlotter ProofPlotter ProofPlotter2.
Local Open Scope list_scope.

Lemma list_as_nth {A} (d : A) l : l = map (fun j => nth j l d) (seq 0 (List.length l)).
Proof.
  induction l as [|x l IH]; [reflexivity|]. cbn [List.length seq map nth]. rewrite <- seq_shift, map_map. f_equal. exact IH.
Qed.

Lemma zip_map {A B C D} (f : A -> B -> C) (g : D -> A) (h : D -> B) l :
  zip_with f (map g l) (map h l) = map (fun x => f (g x) (h x)) l.
Proof. induction l as [|x l IH]; cbn; [reflexivity|]. rewrite IH. reflexivity. Qed.

Lemma zip_repeat {A B C} (f : A -> B -> C) a (h : nat -> B) s n :
  zip_with f (repeat a n) (map h (seq s n)) = map (fun x => f a (h x)) (seq s n).
Proof. revert s. induction n as [|n IH]; intros s; cbn; [reflexivity|]. rewrite IH. reflexivity. Qed.

(* ------------------------------------------------------------------ *)
(** * Which walkers moved *)

Lemma differs_spec : forall a b, List.length a = List.length b ->
  differs a b = if list_eq_dec Req_EM_T a b then false else true.
Proof.
  induction a as [|x a IH]; intros [|y b] H; cbn in H; try discriminate.
  - destruct (list_eq_dec Req_EM_T [] []); [reflexivity|congruence].
  - cbn [differs]. unfold Rneqb. rewrite IH by lia. destruct (Req_EM_T x y) as [->|Hxy].
    + cbn [orb]. destruct (list_eq_dec Req_EM_T a b) as [->|Hab]; destruct (list_eq_dec Req_EM_T _ _); try reflexivity; congruence.
    + cbn [orb]. destruct (list_eq_dec Req_EM_T _ _); [congruence|reflexivity].
Qed.

Definition shaped_chain (W P : nat) (chain : list (list (list R))) : Prop :=
  forall it, In it chain -> List.length it = W /\ forall x, In x it -> List.length x = P.

Lemma kept_chain_shaped b d t : shaped b -> shaped_chain (bk_walkers b) (bk_params b) (kept_chain b d t).
Proof.
  intros Hs it Hit. apply in_map_iff in Hit. destruct Hit as (i & <- & Hi). apply kept_in in Hi. destruct Hi as [Hi _].
  pose proof (Hs _ (iteration_in _ _ Hi)) as [H1 H2]. split; [rewrite map_length; exact H1|].
  intros x Hx. apply in_map_iff in Hx. destruct Hx as (s & <- & Hx). apply H2, Hx.
Qed.

Lemma accepted_rows W P : forall chain, shaped_chain W P chain ->
  accepted chain = map (fun i => map (moved chain i) (seq 0 W)) (seq 0 (List.length chain - 1)).
Proof.
  induction chain as [|it0 chain IH]; intros Hs; [reflexivity|]. destruct chain as [|it1 chain]; [reflexivity|].
  change (accepted (it0 :: it1 :: chain)) with (zip_with differs it1 it0 :: accepted (it1 :: chain)).
  rewrite IH by (intros it Hit; apply Hs; right; exact Hit).
  cbn [List.length Nat.sub]. rewrite Nat.sub_0_r. cbn [seq map]. rewrite <- seq_shift, map_map. f_equal.
  destruct (Hs it0) as [L0 P0]; [left; reflexivity|]. destruct (Hs it1) as [L1 P1]; [right; left; reflexivity|].
  rewrite (list_as_nth [] it1), (list_as_nth [] it0), L0, L1 at 1. rewrite zip_map. apply map_ext_in. intros j Hj.
  apply in_seq in Hj. unfold moved. cbn [nth]. apply differs_spec.
  rewrite (P1 (nth j it1 [])), (P0 (nth j it0 [])) by (apply nth_In; lia). reflexivity.
Qed.

Lemma moves_S chain n j : moves chain 0 (S n) j = (moves chain 0 n j + (if moved chain n j then 1 else 0))%nat.
Proof.
  unfold moves. rewrite seq_S, filter_app, app_length. cbn [Nat.add filter]. destruct (moved chain n j); reflexivity.
Qed.

Lemma moves_le chain a n j : moves chain a n j <= n.
Proof.
  unfold moves. revert a. induction n as [|n IH]; intros a; cbn [seq filter]; [cbn; lia|].
  specialize (IH (S a)). destruct (moved chain a j); cbn [List.length]; lia.
Qed.

Lemma list_sum_le l c : (forall x, In x l -> x <= c) -> list_sum l <= c * List.length l.
Proof.
  induction l as [|x l IH]; intros H; cbn; [lia|]. pose proof (H x (or_introl eq_refl)).
  assert (list_sum l <= c * List.length l) by (apply IH; intros y Hy; apply H; right; exact Hy). unfold list_sum in *. lia.
Qed.

Lemma all_moves_le chain W a n : all_moves chain W a n <= n * W.
Proof.
  unfold all_moves. etransitivity; [apply (list_sum_le _ n)|rewrite map_length, seq_length; lia].
  intros x Hx. apply in_map_iff in Hx. destruct Hx as (j & <- & _). apply moves_le.
Qed.

Lemma b2r_sum chain j : forall n a,
  fold_right Rplus 0%R (map (fun i => b2r (moved chain i j)) (seq a n)) = INR (moves chain a n j).
Proof.
  unfold moves. induction n as [|n IH]; intros a; cbn [seq map fold_right filter]; [reflexivity|].
  rewrite IH. destruct (moved chain a j); cbn [b2r]; [|lra]. cbn [List.length]. rewrite S_INR. lra.
Qed.

(* ------------------------------------------------------------------ *)
(** * Fractions *)

Lemma fdiv_pos x y : y <> 0%R -> fdiv (Fin x) (Fin y) = Fin (x / y).
Proof. intros H. unfold fdiv, finv. destruct (Req_EM_T y 0); [contradiction|]. reflexivity. Qed.

Lemma fmean_rsum l : l <> [] -> fmean (map Fin l) = Fin (rsum l / INR (List.length l)).
Proof.
  intros H. unfold fmean. rewrite fsum_Fin, map_length. apply fdiv_pos. apply not_0_INR. destruct l; [congruence|discriminate].
Qed.

Lemma rsum_frac (m : nat -> nat) c l : rsum (map (fun j => INR (m j) / c)%R l) = (INR (list_sum (map m l)) / c)%R.
Proof.
  induction l as [|x l IH]; cbn [map list_sum fold_right rsum]; [cbn; unfold Rdiv; ring|].
  change (fold_right Nat.add 0 (map m l)) with (list_sum (map m l)). rewrite plus_INR.
  replace (rsum (INR (m x) / c :: map (fun j => INR (m j) / c) l))%R with (INR (m x) / c + rsum (map (fun j => INR (m j) / c)%R l))%R by reflexivity.
  rewrite IH. unfold Rdiv. ring.
Qed.

Lemma cum_rows chain W : forall m s,
  cum_fraction (map (fun j => INR (moves chain 0 s j)) (seq 0 W)) s (map (fun i => map (moved chain i) (seq 0 W)) (seq s m))
  = map (fun k => map Fin (map (fun j => INR (moves chain 0 k j) / INR k)%R (seq 0 W))) (seq (S s) m).
Proof.
  induction m as [|m IH]; intros s; cbn [seq map cum_fraction]; [reflexivity|].
  rewrite zip_map.
  assert (E : map (fun x => (INR (moves chain 0 s x) + b2r (moved chain s x))%R) (seq 0 W)
    = map (fun j => INR (moves chain 0 (S s) j)) (seq 0 W)).
  { apply map_ext. intros j. rewrite moves_S, plus_INR. destruct (moved chain s j); reflexivity. }
  rewrite E, IH. f_equal. rewrite !map_map. apply map_ext. intros j. apply fdiv_pos. apply not_0_INR. discriminate.
Qed.

Lemma firstn_skipn_seq {A} (f : nat -> A) n a w : a + w <= n ->
  firstn w (skipn a (map f (seq 0 n))) = map f (seq a w).
Proof.
  intros H. rewrite skipn_map, firstn_map. f_equal.
  replace n with (a + (w + (n - a - w))) by lia. rewrite seq_app. cbn [Nat.add].
  rewrite skipn_app, skipn_all2 by (rewrite seq_length; lia). rewrite seq_length, Nat.sub_diag. cbn [app skipn].
  rewrite seq_app, firstn_app, firstn_all2 by (rewrite seq_length; lia). rewrite seq_length, Nat.sub_diag. cbn [firstn].
  apply app_nil_r.
Qed.

Lemma window_value chain W w a : 0 < W -> 0 < w ->
  window_mean W w (map (fun i => map (moved chain i) (seq 0 W)) (seq a w))
  = Fin (INR (all_moves chain W a w) / (INR w * INR W)).
Proof.
  intros HW Hw. unfold window_mean.
  assert (E : map (fun j => fdiv (Fin (fold_right Rplus 0%R (map (fun r => b2r (nth j r false))
      (map (fun i => map (moved chain i) (seq 0 W)) (seq a w))))) (Fin (INR w))) (seq 0 W)
    = map Fin (map (fun j => INR (moves chain a w j) / INR w)%R (seq 0 W))).
  { rewrite map_map. apply map_ext_in. intros j Hj. apply in_seq in Hj. rewrite map_map.
    rewrite (map_ext _ (fun i => b2r (moved chain i j))).
    - rewrite b2r_sum. apply fdiv_pos, not_0_INR. lia.
    - intros i. f_equal. apply nth_error_nth. rewrite nth_error_map, nth_error_seq by lia. reflexivity. }
  rewrite E, fmean_rsum by (destruct W; [lia|discriminate]). rewrite map_length, seq_length, rsum_frac.
  unfold all_moves.
  f_equal. field. split; apply not_0_INR; lia.
Qed.

Lemma cumulative_value chain W k : 0 < W -> 0 < k ->
  fmean (map Fin (map (fun j => INR (moves chain 0 k j) / INR k)%R (seq 0 W)))
  = Fin (INR (all_moves chain W 0 k) / (INR k * INR W)).
Proof.
  intros HW Hk. rewrite fmean_rsum by (destruct W; [lia|discriminate]). rewrite map_length, seq_length, rsum_frac.
  unfold all_moves.
  f_equal. field. split; apply not_0_INR; lia.
Qed.

Lemma fraction_bounds a b : a <= b -> 0 < b -> (0 <= INR a / INR b <= 1)%R.
Proof.
  intros H Hb. assert (0 < INR b)%R by (apply lt_0_INR; exact Hb). split.
  - apply Rmult_le_pos; [apply pos_INR|]. left. apply Rinv_0_lt_compat. assumption.
  - apply Rmult_le_reg_r with (INR b); [assumption|]. unfold Rdiv. rewrite Rmult_assoc, Rinv_l by lra.
    rewrite Rmult_1_r, Rmult_1_l. apply le_INR, H.
Qed.

(* ------------------------------------------------------------------ *)
(** * The plot *)

Definition window_of (n wl : nat) : nat := if Nat.leb n wl then n - 1 else wl.

Lemma plot_acceptance_eq W P p wl : pl_walkers p = W -> shaped_chain W P (pl_chain p) -> 0 < W -> 0 < n_iter p ->
  let n := n_iter p in let w := window_of n wl in let at_ i := Fin (INR (i * pl_thin p + pl_discard p)) in
  exists moving,
  plot_acceptance p wl = Ok (mk_acceptance
    (map (fun k => (at_ k, Fin (INR (all_moves (pl_chain p) W 0 k) / (INR k * INR W)))) (seq 1 (n - 1)))
    moving
    (map (fun j => fmean (map (fun k => Fin (INR (moves (pl_chain p) 0 k j) / INR k)%R) (seq 1 (n - 1)))) (seq 0 W))) /\
  List.length moving = n - w /\
  (0 < w -> moving = map (fun i => (at_ i, Fin (INR (all_moves (pl_chain p) W (i - w) w) / (INR w * INR W)))) (seq w (n - w))).
Proof.
  intros HW Hs HW0 Hn n w at_. unfold plot_acceptance. fold n. destruct n as [|n'] eqn:En; [lia|].
  assert (Hln : List.length (pl_chain p) = S n') by exact En.
  rewrite (accepted_rows W P _ Hs), Hln, HW. replace (S n' - 1) with n' by lia.
  assert (H0 : repeat 0%R W = map (fun j => INR (moves (pl_chain p) 0 0 j)) (seq 0 W)).
  { change (fun j => INR (moves (pl_chain p) 0 0 j)) with (fun _ : nat => 0%R). clear. generalize 0%nat.
    induction W as [|W IH]; intros s; cbn; [reflexivity|]. rewrite <- IH. reflexivity. }
  rewrite H0, cum_rows. clear H0.
  assert (Ew : (if Nat.leb (S n') wl then n' else wl) = w).
  { unfold w, window_of. destruct (Nat.leb (S n') wl); lia. }
  rewrite Ew. eexists. split; [|split].
  - f_equal. f_equal.
    + rewrite map_map.
      assert (C : forall l, (forall k, In k l -> 0 < k) ->
        combine (map at_ l) (map (fun k => fmean (map Fin (map (fun j => INR (moves (pl_chain p) 0 k j) / INR k)%R (seq 0 W)))) l)
        = map (fun k => (at_ k, Fin (INR (all_moves (pl_chain p) W 0 k) / (INR k * INR W)))) l).
      { induction l as [|k l IH]; intros Hl; cbn [map combine]; [reflexivity|].
        rewrite IH by (intros k' Hk'; apply Hl; right; exact Hk').
        rewrite cumulative_value; [reflexivity|exact HW0|apply Hl; left; reflexivity]. }
      apply C. intros k Hk. apply in_seq in Hk. lia.
    + apply map_ext_in. intros j Hj. apply in_seq in Hj. f_equal. unfold column. rewrite map_map. apply map_ext. intros k.
      apply nth_error_nth. rewrite !nth_error_map, nth_error_seq by lia. reflexivity.
  - rewrite map_length, seq_length. reflexivity.
  - intros Hw. apply map_ext_in. intros i Hi. apply in_seq in Hi. f_equal. rewrite firstn_skipn_seq by lia. apply window_value; lia.
Qed.
