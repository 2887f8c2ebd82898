(** C126: the keys that get_key makes. *)
From Coq Require Import Reals ZArith List Lra Lia.
From Verif Require Import ModelKeys SpecKeys.
Import ListNotations.
Local Open Scope R_scope.

(** Two seeds give the same key exactly if they are the same, or differ by a multiple of 2^32 and x64 is off. *)
Theorem C126_seeds rnd x64 s s' t t' : (- 2 ^ 63 <= s < 2 ^ 63)%Z -> (- 2 ^ 63 <= s' < 2 ^ 63)%Z ->
  (get_key rnd x64 (Some s) t = get_key rnd x64 (Some s') t' <->
   if x64 then s = s' else exists k, (s' = s + k * 2 ^ 32)%Z) /\
  (exists a b, get_key rnd x64 (Some s) t = Some (a, b) /\ (0 <= a < 2 ^ 32)%Z /\ (0 <= b < 2 ^ 32)%Z).
Proof.
  intros H H'. unfold get_key, prng_key.
  assert (B : forall z, (- 2 ^ 63 <= z < 2 ^ 63)%Z -> ((- 2 ^ 63 <=? z) && (z <? 2 ^ 63))%bool%Z = true).
  { intros z Hz. apply andb_true_intro. split; [apply Z.leb_le|apply Z.ltb_lt]; lia. }
  rewrite (B s H), (B s' H'). split.
  - destruct x64.
    + split; [|intros ->; reflexivity]. change (2 ^ 64)%Z with 18446744073709551616%Z in *.
      change (2 ^ 32)%Z with 4294967296%Z in *. change (2 ^ 63)%Z with 9223372036854775808%Z in *. intros [= E1 E2].
      pose proof (Z.div_mod (s mod 18446744073709551616) 4294967296 ltac:(lia)) as D.
      pose proof (Z.div_mod (s' mod 18446744073709551616) 4294967296 ltac:(lia)) as D'.
      assert (M : forall z, ((z mod 18446744073709551616) mod 4294967296 = z mod 4294967296)%Z).
      { intros z. change 18446744073709551616%Z with (4294967296 * 4294967296)%Z.
        rewrite Z.rem_mul_r by lia. rewrite Z.mul_comm, Z_mod_plus_full. apply Z.mod_mod. lia. }
      rewrite M in D, D'. rewrite E1, E2 in D. assert (E : (s mod 18446744073709551616 = s' mod 18446744073709551616)%Z) by lia.
      pose proof (Z.div_mod s 18446744073709551616 ltac:(lia)). pose proof (Z.div_mod s' 18446744073709551616 ltac:(lia)).
      pose proof (Z.mod_pos_bound s 18446744073709551616 ltac:(lia)). nia.
    + change (2 ^ 32)%Z with 4294967296%Z in *. split.
      * intros [= E]. exists (s' / 4294967296 - s / 4294967296)%Z.
        pose proof (Z.div_mod s 4294967296 ltac:(lia)). pose proof (Z.div_mod s' 4294967296 ltac:(lia)). nia.
      * intros (k & ->). rewrite Z_mod_plus_full. reflexivity.
  - change (2 ^ 64)%Z with (4294967296 * 4294967296)%Z. change (2 ^ 32)%Z with 4294967296%Z. destruct x64.
    + do 2 eexists. split; [reflexivity|]. split; [|apply Z.mod_pos_bound; lia].
      pose proof (Z.mod_pos_bound s (4294967296 * 4294967296) ltac:(lia)).
      split; [apply Z.div_pos; lia|apply Z.div_lt_upper_bound; lia].
    + do 2 eexists. split; [reflexivity|]. split; [lia|apply Z.mod_pos_bound; lia].
Qed.

Lemma int_part_is x n : IZR n <= x < IZR n + 1 -> Int_part x = n.
Proof.
  intros [H1 H2]. pose proof (base_Int_part x) as [B1 B2].
  assert (A : (Int_part x < n + 1)%Z) by (apply lt_IZR; rewrite plus_IZR; lra).
  assert (B : (n < Int_part x + 1)%Z) by (apply lt_IZR; rewrite plus_IZR; lra). lia.
Qed.
Lemma Rabs_def2b x a : Rabs x <= a -> - a <= x <= a.
Proof. unfold Rabs. destruct (Rcase_abs x); lra. Qed.
Lemma time_seed_bounds rnd t : rounds rnd -> clock_time t ->
  t * 1000000 - / 8 - 1 < IZR (time_seed rnd t) <= t * 1000000 + / 8.
Proof.
  intros Hr [H1 H2]. unfold time_seed. pose proof (base_Int_part (rnd (t * 1000000))) as [B1 B2].
  assert (R : Rabs (rnd (t * 1000000) - t * 1000000) <= / 8).
  { apply Hr. split; [lra|]. apply Rlt_trans with (IZR (2 ^ 31) * 1000000); [lra|]. rewrite <- mult_IZR. apply IZR_lt. reflexivity. }
  apply Rabs_def2b in R. lra.
Qed.
Lemma time_seed_range rnd t : rounds rnd -> clock_time t -> (- 2 ^ 63 <= time_seed rnd t < 2 ^ 63)%Z.
Proof.
  intros Hr Ht. pose proof (time_seed_bounds rnd t Hr Ht) as [B1 B2]. destruct Ht as [H1 H2].
  split; [apply le_IZR|apply lt_IZR]. 
  - change (- 2 ^ 63)%Z with (-9223372036854775808)%Z. lra.
  - change (2 ^ 31)%Z with 2147483648%Z in H2. change (2 ^ 63)%Z with 9223372036854775808%Z. lra.
Qed.

(** Two calls at least 1.25 microseconds and less than 2^32 microseconds (71.5 minutes) apart give different keys; with x64 on
    there is no upper limit. *)
Lemma later_seed rnd t t' : rounds rnd -> clock_time t -> clock_time t' -> t' - t >= 5 / 4 * micro ->
  (time_seed rnd t < time_seed rnd t')%Z /\
  (t' - t <= (IZR (2 ^ 32) - 5 / 4) * micro -> (time_seed rnd t' - time_seed rnd t < 2 ^ 32)%Z).
Proof.
  intros Hr Ht Ht' Hd.
  assert (R : forall u, clock_time u -> Rabs (rnd (u * 1000000) - u * 1000000) <= / 8).
  { intros u [H1 H2]. apply Hr. split; [lra|]. apply Rlt_trans with (IZR (2 ^ 31) * 1000000); [lra|]. rewrite <- mult_IZR. apply IZR_lt. reflexivity. }
  pose proof (Rabs_def2b _ _ (R t Ht)) as [A1 A2]. pose proof (Rabs_def2b _ _ (R t' Ht')) as [A3 A4].
  unfold time_seed. pose proof (base_Int_part (rnd (t * 1000000))) as [B1 B2]. pose proof (base_Int_part (rnd (t' * 1000000))) as [B3 B4].
  unfold micro in *. split.
  - apply lt_IZR. lra.
  - intros Hu. apply lt_IZR. rewrite minus_IZR. change (2 ^ 32)%Z with 4294967296%Z in *. lra.
Qed.
Theorem C126_two_calls rnd x64 t t' : rounds rnd -> clock_time t -> clock_time t' -> t' - t >= 5 / 4 * micro ->
  (x64 = true \/ t' - t <= (IZR (2 ^ 32) - 5 / 4) * micro) -> get_key rnd x64 None t <> get_key rnd x64 None t'.
Proof.
  intros Hr Ht Ht' Hd Hu E. destruct (later_seed rnd t t' Hr Ht Ht' Hd) as [L U].
  change (get_key rnd x64 (Some (time_seed rnd t)) t = get_key rnd x64 (Some (time_seed rnd t')) t') in E.
  apply C126_seeds in E; try (apply time_seed_range; assumption). destruct x64; [lia|].
  destruct Hu as [Hu|Hu]; [discriminate|]. specialize (U Hu). destruct E as (k & E). change (2 ^ 32)%Z with 4294967296%Z in *. nia.
Qed.

(** So in a run of at most 71.5 minutes, or of any length with x64, no key is made twice. *)
Theorem C126_run rnd x64 ts : rounds rnd -> Forall clock_time ts -> apart ts ->
  (x64 = true \/ forall t t', In t ts -> In t' ts -> t' - t <= (IZR (2 ^ 32) - 5 / 4) * micro) ->
  NoDup (map (get_key rnd x64 None) ts).
Proof.
  intros Hr. induction ts as [|t ts IH]; intros Hf Ha Hu; cbn [map]; constructor.
  - rewrite in_map_iff. intros (t' & E & Hin). inversion Hf as [|? ? Ht Hts]; subst.
    assert (D : t' - t >= 5 / 4 * micro).
    { clear - Ha Hin. revert t Ha. induction ts as [|u ts IH]; intros t Ha; [destruct Hin|]. destruct Ha as [D Ha]. destruct Hin as [<-|Hin]; [exact D|].
      assert (D' : t' - u >= 5 / 4 * micro) by (apply (IH Hin u); exact Ha). unfold micro in *. lra. }
    refine (C126_two_calls rnd x64 t t' Hr Ht _ D _ (eq_sym E)).
    + rewrite Forall_forall in Hts. apply Hts, Hin.
    + destruct Hu as [Hu|Hu]; [left; exact Hu|right]. apply Hu; [left; reflexivity|right; exact Hin].
  - apply IH; [inversion Hf; assumption|destruct ts; [exact I|apply Ha]|]. destruct Hu as [Hu|Hu]; [left; exact Hu|right].
    intros u u' H H'. apply Hu; right; assumption.
Qed.

(** After 2^32 microseconds the keys come again, unless x64 is on, *)
Theorem C126_period_refuted t : clock_time t -> clock_time (t + IZR (2 ^ 32) * micro) ->
  get_key (fun x => x) false None t = get_key (fun x => x) false None (t + IZR (2 ^ 32) * micro).
Proof.
  intros Ht Ht'. change (get_key (fun x => x) false (Some (time_seed (fun x => x) t)) t =
    get_key (fun x => x) false (Some (time_seed (fun x => x) (t + IZR (2 ^ 32) * micro))) (t + IZR (2 ^ 32) * micro)).
  assert (Hr : rounds (fun x => x)) by (intros x _; rewrite Rminus_diag_eq by reflexivity; rewrite Rabs_R0; lra).
  apply C126_seeds; try (apply time_seed_range; assumption). exists 1%Z. unfold time_seed, micro.
  replace ((t + IZR (2 ^ 32) * / 1000000) * 1000000) with (t * 1000000 + IZR (2 ^ 32)) by lra.
  rewrite Z.mul_1_l. apply int_part_is. pose proof (base_Int_part (t * 1000000)). rewrite plus_IZR. lra.
Qed.
(** and two calls within one microsecond have the same key. *)
Theorem C126_same_tick_refuted x64 : exists t t', clock_time t /\ clock_time t' /\ t < t' /\
  get_key (fun x => x) x64 None t = get_key (fun x => x) x64 None t'.
Proof.
  exists 1, (1 + / 2 * micro). unfold clock_time, micro, get_key, time_seed. change (2 ^ 31)%Z with 2147483648%Z.
  split; [lra|]. split; [lra|]. split; [lra|].
  replace ((1 + / 2 * / 1000000) * 1000000) with (1000000 + / 2) by lra. rewrite Rmult_1_l.
  rewrite (int_part_is 1000000 1000000), (int_part_is (1000000 + / 2) 1000000) by lra. reflexivity.
Qed.

(** Three calls a second and an hour apart, with exact products. *)
Example C126_case : exists ts, rounds (fun x => x) /\ Forall clock_time ts /\ apart ts /\
  (forall t t', In t ts -> In t' ts -> t' - t <= (IZR (2 ^ 32) - 5 / 4) * micro) /\ List.length ts = 3%nat.
Proof.
  exists [1700000000; 1700000001; 1700003601]. unfold clock_time, micro. change (2 ^ 31)%Z with 2147483648%Z. change (2 ^ 32)%Z with 4294967296%Z.
  split; [intros x _; rewrite Rminus_diag_eq by reflexivity; rewrite Rabs_R0; lra|]. split; [repeat constructor; lra|].
  split; [cbn; unfold micro; repeat split; lra|]. split; [|reflexivity].
  intros t t' H H'. cbn in H, H'. repeat (destruct H as [<-|H]; [repeat (destruct H' as [<-|H']; [lra|]); destruct H'|]). destruct H.
Qed.
Example C126_case_seed : get_key (fun x => x) false (Some 4294967299%Z) 0 = Some (0, 3)%Z /\
  get_key (fun x => x) true (Some 4294967299%Z) 0 = Some (1, 3)%Z /\ get_key (fun x => x) false (Some (-1)%Z) 0 = Some (0, 4294967295)%Z.
Proof. repeat split. Qed.

Print Assumptions C126_seeds.
Print Assumptions C126_two_calls.
Print Assumptions C126_run.
Print Assumptions C126_period_refuted.
Print Assumptions C126_same_tick_refuted.
