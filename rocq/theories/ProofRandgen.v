(** Lemmas on the samplers. *)
From Coq Require Import Reals ZArith Lra Lia.
From Verif Require Import Base BaseFacts ModelFloat ModelRandgen SpecRandgen ProofFloat ProofLikelihood2 ProofInterp2.
Local Open Scope R_scope.
Arguments fadd : simpl never.

(* ------------------------------------------------------------------ *)
(** * Arithmetic on finite floats *)

Lemma fsub_Fin x y : fsub (Fin x) (Fin y) = Fin (x - y).
Proof. reflexivity. Qed.
Lemma fdiv_Fin x y : y <> 0 -> fdiv (Fin x) (Fin y) = Fin (x / y).
Proof. intros H. unfold fdiv. rewrite finv_Fin by assumption. reflexivity. Qed.
Lemma fneg_Fin x : fneg (Fin x) = Fin (- x).
Proof. reflexivity. Qed.
Lemma fexp_Fin x : fexp (Fin x) = Fin (exp x).
Proof. reflexivity. Qed.
Lemma fabsf_Fin x : fabsf (Fin x) = Fin (Rabs x).
Proof. reflexivity. Qed.
Ltac farith := repeat first [rewrite fsub_Fin | rewrite fmul_Fin | rewrite fadd_Fin | rewrite fneg_Fin | rewrite fexp_Fin | rewrite fabsf_Fin].
Lemma fsqrt_Fin x : 0 <= x -> fsqrt (Fin x) = Fin (sqrt x).
Proof. intros H. unfold fsqrt. destruct (Rlt_dec x 0); [lra|reflexivity]. Qed.
Lemma fmax_Fin x y : fmax (Fin x) (Fin y) = Fin (Rmax x y).
Proof.
  unfold fmax. cbn [is_nan orb fle]. unfold Rmax. destruct (Rle_dec x y); reflexivity.
Qed.
Lemma fmin_Fin x y : fmin (Fin x) (Fin y) = Fin (Rmin x y).
Proof.
  unfold fmin. cbn [is_nan orb fle]. unfold Rmin. destruct (Rle_dec x y); reflexivity.
Qed.
Lemma fclip_Fin x lo hi : fclip (Fin x) (Fin lo) (Fin hi) = Fin (Rmin (Rmax x lo) hi).
Proof. unfold fclip. rewrite fmax_Fin, fmin_Fin. reflexivity. Qed.
Lemma fclip_inf x lo : fclip (Fin x) (Fin lo) PInf = Fin (Rmax x lo).
Proof. unfold fclip. rewrite fmax_Fin. reflexivity. Qed.
Lemma fpow_pos o x y : 0 < x -> fpow o (Fin x) (Fin y) = Fin (Rpower x y).
Proof. intros H. unfold fpow. destruct (Rlt_dec 0 x); [reflexivity|lra]. Qed.
Lemma fle_Fin_false x y : fle (Fin x) (Fin y) = false <-> y < x.
Proof. unfold fle. destruct (Rle_dec x y); split; intros; try discriminate; try lra; reflexivity. Qed.
Lemma flt_Fin_no x y : flt (Fin x) (Fin y) = false <-> y <= x.
Proof. unfold flt. destruct (Rlt_dec x y); split; intros; try discriminate; try lra; reflexivity. Qed.

(* ------------------------------------------------------------------ *)
(** * Rounding and casting *)

Lemma truncZ_IZR n : truncZ (IZR n) = n.
Proof.
  unfold truncZ. destruct (Rle_dec 0 (IZR n)).
  - apply Int_part_is. lra.
  - rewrite <- opp_IZR. rewrite (Int_part_is _ (- n)); [lia|lra].
Qed.
Lemma to_int_of_int o n : to_int o (of_int n) = n.
Proof. apply truncZ_IZR. Qed.
Lemma to_int_Fin_IZR o n : to_int o (Fin (IZR n)) = n.
Proof. apply truncZ_IZR. Qed.

Lemma roundZ_near r : Rabs (IZR (roundZ r) - r) <= / 2.
Proof.
  unfold roundZ. pose proof (Int_part_bounds r) as B. set (n := Int_part r) in *.
  destruct (Rlt_dec (r - IZR n) (/ 2)); [|destruct (Rlt_dec (/ 2) (r - IZR n)); [|destruct (Z.even n)]];
    try rewrite plus_IZR; apply Rabs_le; lra.
Qed.
Lemma roundZ_IZR n : roundZ (IZR n) = n.
Proof.
  unfold roundZ. rewrite (Int_part_is _ n) by lra. destruct (Rlt_dec (IZR n - IZR n) (/ 2)); [reflexivity|lra].
Qed.
Lemma roundZ_ge a r : IZR a <= r -> (a <= roundZ r)%Z.
Proof.
  intros H. pose proof (roundZ_near r) as N. apply Rabs_le_inv in N || (unfold Rabs in N; destruct (Rcase_abs _) in N).
  all: apply Z.lt_succ_r, lt_IZR; rewrite succ_IZR; lra.
Qed.
Lemma roundZ_le r b : r <= IZR b -> (roundZ r <= b)%Z.
Proof.
  intros H. pose proof (roundZ_near r) as N. unfold Rabs in N; destruct (Rcase_abs _) in N.
  all: apply Z.lt_succ_r, lt_IZR; rewrite succ_IZR; lra.
Qed.
Lemma round_to_int o r : to_int o (fround (Fin r)) = roundZ r.
Proof. cbn [fround]. apply to_int_Fin_IZR. Qed.

Lemma Rmax_IZR a b : Rmax (IZR a) (IZR b) = IZR (Z.max a b).
Proof.
  unfold Rmax. destruct (Rle_dec (IZR a) (IZR b)) as [H|H].
  - rewrite Z.max_r; [reflexivity|]. apply le_IZR; assumption.
  - rewrite Z.max_l; [reflexivity|]. apply le_IZR; lra.
Qed.
Lemma Rmin_IZR a b : Rmin (IZR a) (IZR b) = IZR (Z.min a b).
Proof.
  unfold Rmin. destruct (Rle_dec (IZR a) (IZR b)) as [H|H].
  - rewrite Z.min_l; [reflexivity|]. apply le_IZR; assumption.
  - rewrite Z.min_r; [reflexivity|]. apply le_IZR; lra.
Qed.

(* ------------------------------------------------------------------ *)
(** * The hybrid binomial sampler *)

Lemma tiny_pos : 0 < / 1000000000000.
Proof. apply Rinv_0_lt_compat. lra. Qed.

Lemma cornish_fisher_range z p n : 0 < p < 1 -> (0 <= n)%Z ->
  exists m, (0 <= m <= n)%Z /\ cornish_fisher (Fin z) (Fin p) (of_int n) = of_int m.
Proof.
  intros Hp Hn. pose proof (IZR_le _ _ Hn) as Hn'. pose proof tiny_pos as T.
  assert (G : forall p0, 0 < p0 < 1 -> forall flip : bool,
    let q0 := 1 - p0 in
    exists m, (0 <= m <= n)%Z /\
    (let q0 := (#1 - #p0)%fl in
     let mu := (of_int n * #p0)%fl in
     let var := (of_int n * #p0 * q0)%fl in
     let sigma := fsqrt (var + tiny)%fl in
     let var_safe := (var + tiny)%fl in
     let gamma1 := ((q0 - #p0) / (sigma + tiny))%fl in
     let gamma2 := ((#1 - #6 * #p0 * q0) / var_safe)%fl in
     let z2 := (#z * #z)%fl in
     let z3 := (z2 * #z)%fl in
     let gamma1_sq := (gamma1 * gamma1)%fl in
     let z_cf := (#z + (gamma1 / #6) * (z2 - #1) + (gamma2 / #24) * (z3 - #3 * #z)
               - (gamma1_sq / #36) * (#2 * z3 - #5 * #z))%fl in
     let x_cf := fround (mu + sigma * z_cf)%fl in
     let x_cf := fclip x_cf #0%fl (of_int n) in
     where_ flip (of_int n - x_cf)%fl x_cf) = of_int m).
  { intros p0 Hp0 flip q. cbv zeta.
    assert (V : 0 <= IZR n * p0 * (1 - p0)). { apply Rmult_le_pos; [apply Rmult_le_pos|]; lra. }
    unfold of_int, tiny. farith. rewrite fsqrt_Fin by lra.
    pose proof (sqrt_pos (IZR n * p0 * (1 - p0) + / 1000000000000)) as S.
    farith. rewrite (fdiv_Fin _ (sqrt _ + _)) by lra.
    rewrite (fdiv_Fin _ (IZR n * p0 * (1 - p0) + / 1000000000000)) by lra.
    farith. rewrite !(fdiv_Fin _ 6), !(fdiv_Fin _ 24), !(fdiv_Fin _ 36) by lra. farith.
    cbn [fround]. match goal with |- context [roundZ ?t] => generalize (roundZ t) end. intros r.
    rewrite fclip_Fin, Rmax_IZR, Rmin_IZR. unfold where_. destruct flip.
    - rewrite fsub_Fin, <- minus_IZR. eexists. split; [|reflexivity]. lia.
    - eexists. split; [|reflexivity]. lia. }
  unfold cornish_fisher. destruct (flt #(/ 2) #p)%fl eqn:F.
  - unfold where_ at 1 2 3 4 5 6 7 8 9 10 11 12 13 14. cbv zeta.
    destruct (G (1 - p) ltac:(lra) true) as (m & Hm & E). exists m. split; [assumption|].
    rewrite fsub_Fin. exact E.
  - destruct (G p ltac:(lra) false) as (m & Hm & E). exists m. split; [assumption|]. exact E.
Qed.

Lemma filter_length_le {A} (f : A -> bool) l : (List.length (filter f l) <= List.length l)%nat.
Proof. induction l; simpl; [lia|]. destruct (f a); simpl; lia. Qed.

Lemma filter_seq_tally f n : List.length (filter f (seq 0 n)) = tally f n.
Proof.
  induction n; [reflexivity|]. rewrite seq_S, filter_app, app_length, IHn. cbn [tally filter Nat.add].
  destruct (f n); reflexivity.
Qed.
Lemma tally_le f n : (tally f n <= n)%nat.
Proof. induction n; simpl; [lia|]. destruct (f n); lia. Qed.
Lemma tally_stop f n m : (n <= m)%nat -> (forall t, (n <= t)%nat -> f t = false) -> tally f m = tally f n.
Proof.
  intros L H. induction L; [reflexivity|]. cbn [tally]. rewrite IHL, H by lia. lia.
Qed.
Lemma tally_ext f g n : (forall t, (t < n)%nat -> f t = g t) -> tally f n = tally g n.
Proof. induction n; intros H; [reflexivity|]. cbn [tally]. rewrite IHn, H by auto with arith. reflexivity. Qed.

Lemma INR_Zof t : INR t = IZR (Z.of_nat t).
Proof. apply INR_IZR_INZ. Qed.

(** The sum over the trials is the number of successes among the first n. *)
Lemma bernoulli_sum_tally u T p n : (0 <= n <= Z.of_nat T)%Z ->
  bernoulli_sum u T (Fin p) (of_int n) = Z.of_nat (tally (fun t => if Rlt_dec (u t) p then true else false) (Z.to_nat n)).
Proof.
  intros H. unfold bernoulli_sum. rewrite filter_seq_tally. f_equal.
  rewrite (tally_stop _ (Z.to_nat n)).
  - apply tally_ext. intros t Ht. unfold of_int. cbn [flt].
    destruct (Rlt_dec (INR t) (IZR n)) as [_|C]; [apply andb_true_r|].
    exfalso. apply C. rewrite INR_Zof. apply IZR_lt. lia.
  - lia.
  - intros t Ht. apply andb_false_iff. right. apply flt_Fin_no. rewrite INR_Zof. apply IZR_le. lia.
Qed.


Lemma hybrid_result o T k p n e :
  result (binomial_hybrid o T p n) k e =
  to_int o (let n := of_int (n e) in
       let p := p e in
       let x_cf := cornish_fisher (Fin (o_norm o (child k 1) e)) p n in
       let x_bernoulli := of_int (bernoulli_sum (fun t => o_unif o (child k 2) (e * T + t)) T p n) in
       let x := where_ (fle n (Fin (INR T))) x_bernoulli x_cf in
       let x := where_ (fle p (Fin 0)) (Fin 0) x in
       let x := where_ (fle (Fin 1) p) n x in
       where_ (fle n (Fin 0)) (Fin 0) x).
Proof. reflexivity. Qed.

Lemma to_int_0 o : to_int o (Fin 0) = 0%Z.
Proof. apply (to_int_Fin_IZR o 0). Qed.

(** No element, a certain miss and a certain hit. *)
Lemma hybrid_none o T k p n e : (n e <= 0)%Z -> result (binomial_hybrid o T p n) k e = 0%Z.
Proof.
  intros H. rewrite hybrid_result. cbv zeta. apply IZR_le in H.
  assert (F : fle (of_int (n e)) (Fin 0) = true) by (apply fle_Fin; exact H). rewrite F. apply to_int_0.
Qed.
Lemma hybrid_miss o T k p n e r : p e = Fin r -> r <= 0 -> result (binomial_hybrid o T p n) k e = 0%Z.
Proof.
  intros E H. rewrite hybrid_result. cbv zeta. rewrite E. rewrite (proj2 (fle_Fin r 0) H).
  rewrite (proj2 (fle_Fin_false 1 r)) by lra. cbn [where_].
  unfold where_. destruct (fle _ _); apply to_int_0.
Qed.
Lemma hybrid_hit o T k p n e r : p e = Fin r -> 1 <= r -> (0 <= n e)%Z -> result (binomial_hybrid o T p n) k e = n e.
Proof.
  intros E H Hn. destruct (Z.eq_dec (n e) 0) as [Z|Z]. { rewrite hybrid_none by lia. lia. }
  rewrite hybrid_result. cbv zeta. rewrite E. rewrite (proj2 (fle_Fin 1 r) H). 
  assert (F : fle (of_int (n e)) (Fin 0) = false). { apply fle_Fin_false. apply (IZR_lt 0). lia. }
  rewrite F. apply to_int_of_int.
Qed.
Lemma hybrid_middle o T k p n e r : p e = Fin r -> 0 < r < 1 -> (0 < n e)%Z ->
  result (binomial_hybrid o T p n) k e =
  to_int o (where_ (fle (of_int (n e)) (Fin (INR T)))
     (of_int (bernoulli_sum (fun t => o_unif o (child k 2) (e * T + t)) T (Fin r) (of_int (n e))))
     (cornish_fisher (Fin (o_norm o (child k 1) e)) (Fin r) (of_int (n e)))).
Proof.
  intros E H Hn. rewrite hybrid_result. cbv zeta. rewrite E.
  rewrite (proj2 (fle_Fin_false 1 r)) by lra. rewrite (proj2 (fle_Fin_false r 0)) by lra.
  assert (F : fle (of_int (n e)) (Fin 0) = false). { apply fle_Fin_false. apply (IZR_lt 0). lia. }
  rewrite F. reflexivity.
Qed.

Lemma hybrid_range o T k p n e r : p e = Fin r -> (0 <= n e)%Z ->
  (0 <= result (binomial_hybrid o T p n) k e <= n e)%Z.
Proof.
  intros E Hn. destruct (Z.eq_dec (n e) 0) as [Z|Z]. { rewrite hybrid_none by lia. lia. }
  destruct (Rle_dec r 0). { rewrite (hybrid_miss o T k p n e r) by assumption. lia. }
  destruct (Rle_dec 1 r). { rewrite (hybrid_hit o T k p n e r) by assumption. lia. }
  rewrite (hybrid_middle o T k p n e r) by (assumption || lra || lia).
  destruct (fle (of_int (n e)) (Fin (INR T))) eqn:F; unfold where_.
  - rewrite to_int_of_int. apply fle_Fin in F. rewrite INR_Zof in F. apply le_IZR in F.
    rewrite bernoulli_sum_tally by lia.
    match goal with |- context [tally ?f ?m] => pose proof (tally_le f m) end. lia.
  - destruct (cornish_fisher_range (o_norm o (child k 1) e) r (n e)) as (m & Hm & ->); [lra|lia|].
    rewrite to_int_of_int. assumption.
Qed.

(** Few trials: the exact number of successes, also for p outside (0, 1). *)
Lemma hybrid_exact o T k p n e r : lawful o -> p e = Fin r -> (0 <= n e <= Z.of_nat T)%Z ->
  result (binomial_hybrid o T p n) k e =
  Z.of_nat (tally (fun t => if Rlt_dec (o_unif o (child k 2) (e * T + t)) r then true else false) (Z.to_nat (n e))).
Proof.
  intros L E Hn. destruct (Z.eq_dec (n e) 0) as [Z|Z].
  { rewrite hybrid_none by lia. replace (Z.to_nat (n e)) with 0%nat by lia. reflexivity. }
  assert (U : forall t, 0 <= o_unif o (child k 2) t < 1) by (intros; apply (law_unif o L)).
  destruct (Rle_dec r 0).
  { rewrite (hybrid_miss o T k p n e r) by assumption. rewrite (tally_stop _ 0); [reflexivity|lia|].
    intros t _. destruct (Rlt_dec _ r); [|reflexivity]. specialize (U (e * T + t)%nat). lra. }
  destruct (Rle_dec 1 r).
  { rewrite (hybrid_hit o T k p n e r) by (assumption || lia).
    rewrite (tally_ext _ (fun _ => true)).
    - assert (A : forall m, tally (fun _ => true) m = m) by (induction m; simpl; lia). rewrite A. lia.
    - intros t _. destruct (Rlt_dec _ r); [reflexivity|]. specialize (U (e * T + t)%nat). lra. }
  rewrite (hybrid_middle o T k p n e r) by (assumption || lra || lia).
  assert (F : fle (of_int (n e)) (Fin (INR T)) = true).
  { apply fle_Fin. rewrite INR_Zof. apply IZR_le. lia. }
  rewrite F.
  - cbn [where_]. unfold where_. rewrite to_int_of_int. apply bernoulli_sum_tally. lia.
Qed.

(* ------------------------------------------------------------------ *)
(** * The normal approximation *)

Lemma normal_approx_range o s p n : 0 <= p <= 1 -> (0 <= n)%Z -> (0 <= binomial_normal_approx o s (Fin p) n <= n)%Z.
Proof.
  intros Hp Hn. pose proof (IZR_le _ _ Hn) as Hn'. unfold binomial_normal_approx, of_int. cbv zeta. farith.
  rewrite fsqrt_Fin.
  2: { apply Rmult_le_pos; [apply Rmult_le_pos|]; lra. }
  farith. rewrite fclip_Fin, round_to_int.
  match goal with |- context [Rmin (Rmax ?t 0) _] => generalize t end. intros t.
  split; [apply roundZ_ge|apply roundZ_le].
  - apply Rmin_glb; [apply Rmax_r|assumption].
  - apply Rmin_r.
Qed.

(** Any of the three samplers behind randgen.binomial. *)
Lemma binomial_range o mode size k p n e r : lawful o -> p e = Fin r -> 0 <= r <= 1 -> (0 <= n e)%Z ->
  (0 <= result (binomial o mode size p n) k e <= n e)%Z.
Proof.
  intros L E Hr Hn. destruct mode as [| |b]; unfold binomial.
  - apply hybrid_range with (r := r); assumption.
  - change (0 <= o_binom o (child k 1) e (n e) (p e) <= n e)%Z. rewrite E. apply (law_binom o L); assumption.
  - change (0 <= (if b || fle #5%fl (of_int (n e) * p e)%fl
      then binomial_normal_approx o (child (child k 1) e) (p e) (n e)
      else o_binom o (child (child k 1) e) 0 (n e) (p e)) <= n e)%Z.
    rewrite E. destruct (b || _); [apply normal_approx_range|apply (law_binom o L)]; assumption.
Qed.

(* ------------------------------------------------------------------ *)
(** * Keys *)

Lemma descends_refl k : descends k k.
Proof. exists []. symmetry. apply app_nil_r. Qed.
Lemma descends_trans a b c : descends a b -> descends b c -> descends a c.
Proof. intros [p ->] [q ->]. exists (p ++ q)%list. symmetry. apply app_assoc. Qed.
Lemma descends_child k i : descends k (child k i).
Proof. exists [i]. reflexivity. Qed.
Lemma child_up k i u : descends (child k i) u -> u <> k.
Proof.
  intros [p E] ->. unfold child in E. apply (f_equal (@List.length nat)) in E.
  rewrite !app_length in E. cbn [List.length] in E. lia.
Qed.
Lemma child_apart k i j u : descends (child k i) u -> descends (child k j) u -> i = j.
Proof.
  intros [p E] [q F]. unfold child in *. rewrite E in F. rewrite <- !app_assoc in F.
  apply app_inv_head in F. injection F. auto.
Qed.

Lemma NoDup_app_intro {A} (a b : list A) : NoDup a -> NoDup b -> (forall x, In x a -> ~ In x b) -> NoDup (a ++ b).
Proof.
  intros Ha Hb H. induction a as [|x a IH]; [assumption|]. inversion Ha; subst. cbn. constructor.
  - rewrite in_app_iff. intros [?|?]; [contradiction|]. apply (H x); [now left|assumption].
  - apply IH; [assumption|]. intros y Hy. apply H. now right.
Qed.

Lemma well_keyed_ret {A} (a : A) : well_keyed (ret a).
Proof.
  intros k. cbn. split; [constructor|]. split; [contradiction|]. split; [apply descends_refl|contradiction].
Qed.
Lemma bind_next {A B} (m : M A) (f : A -> M B) k :
  next_key (bind m f) k = next_key (f (result m k)) (next_key m k).
Proof. unfold next_key, result, bind. destruct (m k) as [[a k1] u1]. cbn. destruct (f a k1) as [[b k2] u2]. reflexivity. Qed.
Lemma bind_consumed {A B} (m : M A) (f : A -> M B) k :
  consumed (bind m f) k = (consumed m k ++ consumed (f (result m k)) (next_key m k))%list.
Proof. unfold next_key, result, consumed, bind. destruct (m k) as [[a k1] u1]. cbn. destruct (f a k1) as [[b k2] u2]. reflexivity. Qed.
Lemma bind_result {A B} (m : M A) (f : A -> M B) k :
  result (bind m f) k = result (f (result m k)) (next_key m k).
Proof. unfold next_key, result, bind. destruct (m k) as [[a k1] u1]. cbn. destruct (f a k1) as [[b k2] u2]. reflexivity. Qed.

Lemma well_keyed_bind {A B} (m : M A) (f : A -> M B) :
  well_keyed m -> (forall a, well_keyed (f a)) -> well_keyed (bind m f).
Proof.
  intros Hm Hf k. rewrite bind_consumed, bind_next.
  destruct (Hm k) as (N1 & D1 & K1 & F1). destruct (Hf (result m k) (next_key m k)) as (N2 & D2 & K2 & F2).
  split; [|split; [|split]].
  - apply NoDup_app_intro; [assumption|assumption|]. intros u H1 H2. apply (F1 u H1). apply D2. assumption.
  - intros u Hu. apply in_app_or in Hu. destruct Hu as [Hu|Hu]; [auto|]. apply (descends_trans _ _ _ K1). auto.
  - apply (descends_trans _ _ _ K1 K2).
  - intros u Hu. apply in_app_or in Hu. destruct Hu as [Hu|Hu]; [|auto].
    intros C. apply (F1 u Hu). apply (descends_trans _ _ _ K2 C).
Qed.

(** A split into a fixed number of children, each but the first drawn from once. *)
Lemma well_keyed_split {A} (m : M A) (js : list nat) :
  (forall k, consumed m k = k :: map (child k) js) -> NoDup js -> ~ In 0%nat js -> (forall k, next_key m k = child k 0) ->
  well_keyed m.
Proof.
  intros HC ND N0 HN k. rewrite HC, HN.
  assert (CH : forall u, In u (map (child k) js) -> exists j, In j js /\ u = child k j).
  { intros u Hu. apply in_map_iff in Hu. destruct Hu as (j & <- & Hj). exists j. auto. }
  split; [|split; [|split]].
  - constructor.
    + intros Hu. destruct (CH k Hu) as (j & _ & E). symmetry in E. revert E. apply (child_up k j), descends_refl.
    + apply FinFun.Injective_map_NoDup; [|assumption]. intros a b E. unfold child in E.
      apply app_inv_head in E. injection E. auto.
  - intros u [<-|Hu]; [apply descends_refl|]. destruct (CH u Hu) as (j & _ & ->). apply descends_child.
  - apply descends_child.
  - intros u [<-|Hu] C; [apply (child_up k 0 k C); reflexivity|]. destruct (CH u Hu) as (j & Hj & ->).
    apply N0. replace 0%nat with j; [assumption|]. apply (child_apart k j 0 (child k j)); [apply descends_refl|assumption].
Qed.

Lemma well_keyed_one {A} (m : M A) : (forall k, consumed m k = [k; child k 1]) -> (forall k, next_key m k = child k 0) -> well_keyed m.
Proof.
  intros H1 H2. apply (well_keyed_split m [1%nat]); [assumption| |intros [?|[]]; discriminate|assumption].
  repeat constructor. intros [].
Qed.

Section Samplers.
  Variable o : oracle.
  Lemma wk_uniform a b : well_keyed (uniform o a b).
  Proof. apply well_keyed_one; reflexivity. Qed.
  Lemma wk_poisson a : well_keyed (poisson o a).
  Proof. apply well_keyed_one; reflexivity. Qed.
  Lemma wk_gamma a b : well_keyed (gamma o a b).
  Proof. apply well_keyed_one; reflexivity. Qed.
  Lemma wk_normal a b : well_keyed (normal o a b).
  Proof. apply well_keyed_one; reflexivity. Qed.
  Lemma wk_truncate_normal a b c d : well_keyed (truncate_normal o a b c d).
  Proof. apply well_keyed_bind; [apply wk_normal|intros; apply well_keyed_ret]. Qed.
  Lemma wk_bernoulli a : well_keyed (bernoulli o a).
  Proof. apply well_keyed_one; reflexivity. Qed.
  Lemma wk_draw : well_keyed (seed <- split2;; _ <- use seed;; ret seed).
  Proof. apply well_keyed_one; reflexivity. Qed.
  Lemma wk_skewnormal a b c : well_keyed (skewnormal o a b c).
  Proof.
    intros k.
    pose proof (well_keyed_bind (seed <- split2;; _ <- use seed;; ret seed)
      (fun s0 => s1 <- (seed <- split2;; _ <- use seed;; ret seed);; ret (s0, s1)) wk_draw
      (fun s0 => well_keyed_bind _ _ wk_draw (fun s1 => well_keyed_ret (s0, s1))) k) as H.
    exact H.
  Qed.
  Lemma wk_hybrid T a b : well_keyed (binomial_hybrid o T a b).
  Proof.
    apply (well_keyed_split _ [1%nat; 2%nat]); [reflexivity| |intros [?|[?|[]]]; discriminate|reflexivity].
    repeat constructor; cbn; intuition discriminate.
  Qed.
  Lemma wk_binomial_jax a b : well_keyed (binomial_jax o a b).
  Proof. apply well_keyed_one; reflexivity. Qed.
  Lemma wk_numpyro b size p n : well_keyed (binomial_numpyro o b size p n).
  Proof.
    intros k. change (consumed (binomial_numpyro o b size p n) k) with (k :: child k 1 :: map (child (child k 1)) (seq 0 size)).
    change (next_key (binomial_numpyro o b size p n) k) with (child k 0).
    assert (IN : forall u, In u (child k 1 :: map (child (child k 1)) (seq 0 size)) -> descends (child k 1) u).
    { intros u [<-|Hu]; [apply descends_refl|]. apply in_map_iff in Hu. destruct Hu as (j & <- & _). apply descends_child. }
    split; [|split; [|split]].
    - constructor; [|constructor].
      + intros Hu. apply IN, child_up in Hu. now apply Hu.
      + intros Hu. apply in_map_iff in Hu. destruct Hu as (j & E & _). symmetry in E. revert E.
        intros E. apply (child_up (child k 1) j (child k 1)); [rewrite E at 2; apply descends_refl|reflexivity].
      + apply FinFun.Injective_map_NoDup; [|apply seq_NoDup]. intros i j E. unfold child in E at 1 3.
        apply app_inv_head in E. injection E. auto.
    - intros u [<-|Hu]; [apply descends_refl|]. apply IN in Hu. apply (descends_trans _ _ _ (descends_child k 1) Hu).
    - apply descends_child.
    - intros u [<-|Hu] C; [apply (child_up k 0 k C); reflexivity|]. apply IN in Hu.
      discriminate (child_apart k 0 1 u C Hu).
  Qed.
  Lemma wk_binomial mode size p n : well_keyed (binomial o mode size p n).
  Proof. destruct mode; [apply wk_hybrid|apply wk_binomial_jax|apply wk_numpyro]. Qed.
  Lemma wk_negative_binomial p n : well_keyed (negative_binomial o p n).
  Proof. apply well_keyed_bind; [apply wk_gamma|intros; apply wk_poisson]. Qed.
  Lemma wk_gp_loop size fuel : forall eta a b, well_keyed (gp_loop o size fuel eta a b).
  Proof.
    induction fuel; intros eta a b; cbn [gp_loop]; destruct (existsb _ _); try apply well_keyed_ret.
    apply well_keyed_bind; [apply wk_poisson|]. intros. apply IHfuel.
  Qed.
  Lemma wk_generalized_poisson size fuel lam eta : well_keyed (generalized_poisson o size fuel lam eta).
  Proof. apply well_keyed_bind; [apply wk_poisson|intros; apply wk_gp_loop]. Qed.
End Samplers.
