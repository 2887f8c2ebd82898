(** C110: the distribution of generated energies and positions. *)
From Coq Require Import Reals ZArith Lra Lia.
From Verif Require Import Base ModelFloat ModelInterp ModelRandgen ModelPlugins ModelSpectra SpecRandgen SpecInterp SpecSpectra
  ProofFloat ProofLikelihood2 ProofLikelihood3 ProofRandgen ProofPlugins ProofInterp ProofInterp2 PropRandgen PropPlugins PropInterp.
Local Open Scope R_scope.

(** ** The number a uniform sampler returns *)
Lemma uniform_value o vmin vmax k e a b : lawful o -> vmin e = Fin a -> vmax e = Fin b -> a <= b ->
  result (uniform o vmin vmax) k e = Fin (o_unif o (child k 1) e * (b - a) + a).
Proof.
  intros L Ha Hb H.
  change (result (uniform o vmin vmax) k e) with (fmax (vmin e) (#(o_unif o (child k 1) e) * (vmax e - vmin e) + vmin e)%fl).
  rewrite Ha, Hb. farith. rewrite fmax_Fin. f_equal.
  pose proof (law_unif o L (child k 1) e) as U. apply Rmax_right. nra.
Qed.

(** ** A table read backwards *)
Section Table.
  Context (m : method) (F xs : list R).
  Context (Hm : m = IDW \/ m = LERP) (Hn : (1 <= List.length F)%nat) (Hl : List.length xs = List.length F).
  Context (HF : increasing F) (Hx : increasing xs).

  Lemma line_back x0 y0 x1 y1 c : x0 < x1 -> y0 < y1 -> line x0 y0 x1 y1 (line y0 x0 y1 x1 c) = c.
  Proof. intros. unfold line. field. lra. Qed.

  Lemma line_less x0 y0 x1 y1 a b : x0 < x1 -> y0 < y1 -> a < b -> line x0 y0 x1 y1 a < line x0 y0 x1 y1 b.
  Proof.
    intros H1 H2 H3. unfold line.
    assert (0 < / (x1 - x0)) by (apply Rinv_0_lt_compat; lra).
    unfold Rdiv. assert ((a - x0) * / (x1 - x0) < (b - x0) * / (x1 - x0)) by (apply Rmult_lt_compat_r; lra). nra.
  Qed.

  Lemma line_at_0 x0 y0 x1 y1 : x0 < x1 -> line x0 y0 x1 y1 x0 = y0.
  Proof. intros. unfold line. field. lra. Qed.
  Lemma line_at_1 x0 y0 x1 y1 : x0 < x1 -> line x0 y0 x1 y1 x1 = y1.
  Proof. intros. unfold line. field. lra. Qed.

  Lemma line_range x0 y0 x1 y1 a : x0 < x1 -> y0 < y1 -> x0 <= a < x1 -> y0 <= line x0 y0 x1 y1 a < y1.
  Proof.
    intros H1 H2 H3. split.
    - destruct (Req_dec a x0) as [->|N]; [rewrite line_at_0; lra|].
      rewrite <- (line_at_0 x0 y0 x1 y1) at 1 by assumption. apply Rlt_le, line_less; lra.
    - rewrite <- (line_at_1 x0 y0 x1 y1) at 2 by assumption. apply line_less; lra.
  Qed.

  Lemma table_value u : exists y, map_point m true false F xs u = Ok y /\ table_distribution F xs y u.
  Proof.
    destruct (C33_linear m true F xs u Hm Hn HF) as (A & B & C).
    destruct (C33_bounded m true F xs u Hm Hn Hl HF) as (y & Ey & Hy). exists y. split; [exact Ey|].
    assert (Hr : ent xs 0 <= y <= ent xs (List.length xs - 1)).
    { apply Hy. intros v Hv. destruct (In_nth _ _ 0 Hv) as (j & Hj & <-). fold (ent xs j).
      split; apply increasing_le; auto; lia. }
    split; [intros c Hc; lra|]. split; [intros c Hc; lra|].
    intros i c Hi Hc. unfold at_most. rewrite Hl in Hi.
    pose proof (HF i (S i) ltac:(lia)) as HFi. pose proof (Hx i (S i) ltac:(lia)) as Hxi.
    set (g := line (ent xs i) (ent F i) (ent xs (S i)) (ent F (S i)) c).
    assert (Hg : ent F i <= g < ent F (S i)) by (apply line_range; assumption).
    destruct (C33_linear m true F xs g Hm Hn HF) as (_ & _ & Cg).
    assert (Eg : map_point m true false F xs g = Ok c).
    { rewrite (Cg i) by (assumption || lra). f_equal. apply line_back; assumption. }
    split.
    - intros Hyc. destruct (Rle_lt_dec u g) as [|Hu]; [assumption|exfalso].
      assert (y > c); [|lra].
      destruct (locate F Hn u) as [L|[L|(j & Hj & L)]].
      + pose proof (increasing_le F 0 i HF ltac:(lia)). lra.
      + rewrite (B L) in Ey. injection Ey as <-. pose proof (increasing_le xs (S i) (List.length F - 1) Hx ltac:(lia)). lra.
      + rewrite (C j Hj L) in Ey. injection Ey as <-.
        pose proof (HF j (S j) ltac:(lia)) as HFj. pose proof (Hx j (S j) ltac:(lia)) as Hxj.
        destruct (Nat.lt_trichotomy j i) as [Hji|[->|Hij]].
        * pose proof (increasing_le F (S j) i HF ltac:(lia)). lra.
        * assert (Ec : c = line (ent F i) (ent xs i) (ent F (S i)) (ent xs (S i)) g) by (symmetry; apply line_back; assumption).
          rewrite Ec. apply line_less; assumption.
        * pose proof (increasing_le xs (S i) j Hx ltac:(lia)).
          assert (ent xs j <= line (ent F j) (ent xs j) (ent F (S j)) (ent xs (S j)) u); [|lra].
          destruct (Req_dec u (ent F j)) as [->|N]; [rewrite line_at_0; lra|].
          rewrite <- (line_at_0 (ent F j) (ent xs j) (ent F (S j)) (ent xs (S j))) at 1 by assumption.
          apply Rlt_le, line_less; lra.
    - intros Hu. refine (C33_monotone m true F xs u g y c Hm Hn Hl HF _ Hu Ey Eg).
      intros a b Hab. apply increasing_le; assumption.
  Qed.
End Table.

(* ------------------------------------------------------------------ *)
(** * C110 *)

(** Energies between two bounds are uniform. *)
Theorem C110_uniform_energy : forall o lo hi k e, lawful o -> lo < hi ->
  let u := o_unif o (child k 1) e in
  exists x, result (UniformEnergySpectra o (Fin lo) (Fin hi)) k e = Fin x /\
    forall c, at_most x c u ((c - lo) / (hi - lo)).
Proof.
  intros o lo hi k e L H u. unfold UniformEnergySpectra. rewrite (uniform_value o _ _ k e lo hi) by (auto; lra). fold u.
  eexists. split; [reflexivity|]. intros c. unfold at_most.
  assert (E : (c - lo) / (hi - lo) * (hi - lo) = c - lo) by (field; lra). split; intros Hc.
  - apply (Rmult_le_reg_r (hi - lo)); lra.
  - assert (u * (hi - lo) <= (c - lo) / (hi - lo) * (hi - lo)) by (apply Rmult_le_compat_r; lra). lra.
Qed.

(** Energies from a table of cdf and energy follow that table. *)
Theorem C110_cdf_spectrum : forall o m cdf xs k e, lawful o -> m = IDW \/ m = LERP ->
  (1 <= List.length cdf)%nat -> List.length xs = List.length cdf -> increasing cdf -> increasing xs ->
  exists x, result (FixedEnergySpectra o (cdf_spectrum m cdf xs)) k e = Fin x /\
    table_distribution cdf xs x (o_unif o (child k 1) e).
Proof.
  intros o m F xs k e L Hm Hn Hl HF Hx. unfold FixedEnergySpectra. rewrite bind_result. ret_result. cbv beta.
  rewrite (uniform_value o _ _ k e 0 1) by (auto; lra). rewrite Rminus_0_r, Rmult_1_r, Rplus_0_r.
  destruct (table_value m F xs Hm Hn Hl HF Hx (o_unif o (child k 1) e)) as (y & Ey & Hy).
  exists y. split; [unfold cdf_spectrum; rewrite Ey; reflexivity|exact Hy].
Qed.

(** Energies from a table of energy and pdf: the energy is at most the middle of interval i with the
    probability of everything up to the END of that interval, and between two middles the
    distribution function is the straight line. *)
Theorem C110_pdf_spectrum : forall o m x pdf k e, lawful o -> m = IDW \/ m = LERP ->
  List.length x = List.length pdf -> (2 <= List.length x)%nat -> increasing x -> (forall v, In v pdf -> 0 < v) ->
  let u := o_unif o (child k 1) e in
  exists y, result (FixedEnergySpectra o (pdf_spectrum m x pdf)) k e = Fin y /\
    middle x 0 <= y <= middle x (List.length x - 2) /\
    at_most y (middle x 0) u (share x pdf 1) /\
    (forall i c, (S (S i) < List.length x)%nat -> middle x i <= c < middle x (S i) ->
       at_most y c u (line (middle x i) (share x pdf (S i)) (middle x (S i)) (share x pdf (S (S i))) c)).
Proof.
  intros o m x p k e L Hm Hl Hn Hinc Hp u. unfold FixedEnergySpectra. rewrite bind_result. ret_result. cbv beta.
  rewrite (uniform_value o _ _ k e 0 1) by (auto; lra). rewrite Rminus_0_r, Rmult_1_r, Rplus_0_r. fold u.
  pose proof (area_pos x p Hl Hn Hinc Hp) as Ha.
  destruct (pdf_to_cdf_is x p Hl Hn ltac:(lra)) as (cdf & E & Hc & HK).
  pose proof (cdf_increasing x p cdf Hl Hinc Hp Ha Hc HK) as Hci.
  assert (Hml : List.length (mids x) = (List.length x - 1)%nat) by apply mids_length.
  assert (Hmi : increasing (mids x)).
  { intros i j Hij. rewrite !mids_ent by lia.
    pose proof (Hinc i j ltac:(lia)). pose proof (Hinc (S i) (S j) ltac:(lia)). lra. }
  destruct (table_value m cdf (mids x) Hm ltac:(lia) ltac:(lia) Hci Hmi u) as (y & Ey & T1 & T2 & T3).
  exists y. split; [unfold pdf_spectrum, map_pdf; rewrite E, Ey; reflexivity|].
  assert (Hu : 0 <= u < 1) by apply (law_unif o L).
  assert (E0 : ent (mids x) 0 = middle x 0) by (rewrite mids_ent by lia; reflexivity).
  assert (E1 : ent (mids x) (List.length (mids x) - 1) = middle x (List.length x - 2)).
  { rewrite Hml. replace (List.length x - 1 - 1)%nat with (List.length x - 2)%nat by lia. rewrite mids_ent by lia. reflexivity. }
  split.
  { split.
    - rewrite <- E0. destruct (Rle_lt_dec (ent (mids x) 0) y) as [|N]; [assumption|exfalso; apply (T1 y); lra].
    - rewrite <- E1. apply T2. lra. }
  split.
  - destruct (Nat.eq_dec (List.length x) 2) as [E2|N2].
    + unfold at_most, share. replace (List.length x - 1)%nat with 1%nat in * by lia.
      replace (area x p 1 / area x p 1) with 1 by (field; lra). split; [lra|]. intros _. rewrite <- E0.
      apply T2. rewrite Hml. cbn. lra.
    + pose proof (Hmi 0%nat 1%nat ltac:(lia)).
      pose proof (T3 0%nat (ent (mids x) 0) ltac:(lia) ltac:(lra)) as T. rewrite line_at_0 in T by assumption.
      rewrite E0 in T. rewrite HK in T by lia. exact T.
  - intros i c Hi Hcc. pose proof (T3 i c ltac:(lia)) as T. rewrite !mids_ent in T by lia. rewrite !HK in T by lia. apply T. exact Hcc.
Qed.

(** What that means for the user: a positive part of all events has exactly the same energy, the
    middle of the first interval, although the table describes a density. *)
Theorem C110_pdf_atom_refuted : forall o m x pdf k e, lawful o -> m = IDW \/ m = LERP ->
  List.length x = List.length pdf -> (2 <= List.length x)%nat -> increasing x -> (forall v, In v pdf -> 0 < v) ->
  0 < share x pdf 1 /\
  (result (FixedEnergySpectra o (pdf_spectrum m x pdf)) k e = Fin (middle x 0) <-> o_unif o (child k 1) e <= share x pdf 1).
Proof.
  intros o m x p k e L Hm Hl Hn Hinc Hp. pose proof (area_pos x p Hl Hn Hinc Hp) as Ha.
  destruct (C110_pdf_spectrum o m x p k e L Hm Hl Hn Hinc Hp) as (y & Ey & Hr & H0 & _). split.
  - unfold share. apply Rdiv_lt_0_compat; [|exact Ha]. cbn [area].
    pose proof (Hinc 0%nat 1%nat ltac:(lia)).
    assert (0 < ent p 0) by (apply Hp, nth_In; lia). assert (0 < ent p 1) by (apply Hp, nth_In; lia).
    rewrite Rplus_0_l. apply Rmult_lt_0_compat; lra.
  - unfold at_most in H0. rewrite Ey, <- H0. split; [intros [= ->]; lra|intros; f_equal; lra].
Qed.

(** Positions are uniform in the cylinder: azimuth, radius and height lie in a sector exactly if the
    three random numbers lie in a box, and the volume of the box is the part of the cylinder that the
    sector makes up. *)
Theorem C110_positions : forall o z0 z1 rmax k e, lawful o -> z0 < z1 -> 0 < rmax ->
  let u1 := o_unif o (child k 1) e in
  let u2 := o_unif o (child (child k 0) 1) e in
  let u3 := o_unif o (child (child (child k 0) 0) 1) e in
  let '(x, y, z) := result (PositionSpectra o (Fin z0) (Fin z1) (Fin rmax)) k in
  exists c rho theta, x e = Fin (rho * cos theta) /\ y e = Fin (rho * sin theta) /\ z e = Fin c /\
    z0 <= c < z1 /\ 0 <= rho < rmax /\ 0 <= theta < 2 * PI /\
    forall a b r1 r2 t1 t2, z0 <= a <= b -> b <= z1 -> 0 <= r1 <= r2 -> r2 <= rmax -> 0 <= t1 <= t2 -> t2 <= 2 * PI ->
      exists a' b' r1' r2' t1' t2',
        (between a b c /\ between r1 r2 rho /\ between t1 t2 theta <-> between a' b' u1 /\ between r1' r2' u2 /\ between t1' t2' u3) /\
        0 <= a' <= b' /\ b' <= 1 /\ 0 <= r1' <= r2' /\ r2' <= 1 /\ 0 <= t1' <= t2' /\ t2' <= 1 /\
        (b' - a') * (r2' - r1') * (t2' - t1') = sector a b r1 r2 t1 t2 / cylinder z0 z1 rmax.
Proof.
  intros o z0 z1 R k e L Hz HR u1 u2 u3. unfold PositionSpectra. rewrite !bind_result. ret_result. cbv beta iota zeta.
  pose proof PI_RGT_0 as PIP.
  rewrite (uniform_value o (fun _ => Fin z0) (fun _ => Fin z1) k e z0 z1) by (auto; lra).
  change (next_key (uniform o (fun _ => Fin z0) (fun _ => Fin z1)) k) with (child k 0).
  rewrite (uniform_value o (fun _ => #0%fl) (fun _ => (Fin R * Fin R)%fl) (child k 0) e 0 (R * R)) by (auto; nra).
  change (next_key (uniform o (fun _ => #0%fl) (fun _ => (Fin R * Fin R)%fl)) (child k 0)) with (child (child k 0) 0).
  rewrite (uniform_value o (fun _ => #0%fl) (fun _ => #(2 * PI)%R%fl) (child (child k 0) 0) e 0 (2 * PI)) by (auto; lra).
  fold u1 u2 u3.
  assert (H1 : 0 <= u1 < 1) by apply (law_unif o L). assert (H2 : 0 <= u2 < 1) by apply (law_unif o L).
  assert (H3 : 0 <= u3 < 1) by apply (law_unif o L).
  exists (u1 * (z1 - z0) + z0), (sqrt (u2 * (R * R - 0) + 0)), (u3 * (2 * PI - 0) + 0).
  assert (Hs0 : 0 <= u2 * (R * R)) by nra.
  rewrite !Rminus_0_r, !Rplus_0_r. rewrite fsqrt_Fin by assumption. cbn [on_fin]. farith.
  set (rho := sqrt (u2 * (R * R))).
  assert (Hrho : 0 <= rho) by apply sqrt_pos.
  assert (Hsq : rho * rho = u2 * (R * R)) by (apply sqrt_sqrt; assumption).
  assert (HRR : 0 < R * R) by nra.
  split; [reflexivity|]. split; [reflexivity|]. split; [reflexivity|].
  split; [nra|]. split; [split; [exact Hrho|]; nra|]. split; [nra|].
  intros a b r1 r2 t1 t2 Ha Hb Hr1 Hr2 Ht1 Ht2.
  exists ((a - z0) / (z1 - z0)), ((b - z0) / (z1 - z0)), (r1 * r1 / (R * R)), (r2 * r2 / (R * R)), (t1 / (2 * PI)), (t2 / (2 * PI)).
  assert (D : forall s p q, 0 < s -> (p / s < q <-> p < q * s) /\ (q <= p / s <-> q * s <= p)).
  { intros s p q Hs. assert (E : p / s * s = p) by (field; lra). split; split; intros H.
    - rewrite <- E. apply Rmult_lt_compat_r; assumption.
    - apply (Rmult_lt_reg_r s); [assumption|rewrite E; assumption].
    - rewrite <- E. apply Rmult_le_compat_r; lra.
    - apply (Rmult_le_reg_r s); [assumption|rewrite E; assumption]. }
  assert (DM : forall s p q, 0 < s -> p <= q -> p / s <= q / s).
  { intros s p q Hs H. apply (proj2 (D s q (p / s) Hs)). replace (p / s * s) with p by (field; lra). exact H. }
  assert (D1 : forall s, 0 < s -> s / s = 1 /\ 0 / s = 0) by (intros; split; field; lra).
  split; [|repeat split].
  - unfold between.
    rewrite (proj1 (D (z1 - z0) (a - z0) u1 ltac:(lra))), (proj2 (D (z1 - z0) (b - z0) u1 ltac:(lra))).
    rewrite (proj1 (D (R * R) (r1 * r1) u2 HRR)), (proj2 (D (R * R) (r2 * r2) u2 HRR)).
    rewrite (proj1 (D (2 * PI) t1 u3 ltac:(lra))), (proj2 (D (2 * PI) t2 u3 ltac:(lra))). rewrite <- Hsq.
    assert (Q1 : r1 < rho <-> r1 * r1 < rho * rho) by (split; nra).
    assert (Q2 : rho <= r2 <-> rho * rho <= r2 * r2) by (split; nra).
    rewrite Q1, Q2.
    assert (Q3 : a < u1 * (z1 - z0) + z0 <-> a - z0 < u1 * (z1 - z0)) by (split; lra).
    assert (Q4 : u1 * (z1 - z0) + z0 <= b <-> u1 * (z1 - z0) <= b - z0) by (split; lra).
    rewrite Q3, Q4. reflexivity.
  - rewrite <- (proj2 (D1 (z1 - z0) ltac:(lra))). apply DM; lra.
  - apply DM; lra.
  - rewrite <- (proj1 (D1 (z1 - z0) ltac:(lra))). apply DM; lra.
  - rewrite <- (proj2 (D1 (R * R) HRR)). apply DM; nra.
  - apply DM; nra.
  - rewrite <- (proj1 (D1 (R * R) HRR)). apply DM; nra.
  - rewrite <- (proj2 (D1 (2 * PI) ltac:(lra))). apply DM; lra.
  - apply DM; lra.
  - rewrite <- (proj1 (D1 (2 * PI) ltac:(lra))). apply DM; lra.
  - unfold sector, cylinder. field. repeat split; lra.
Qed.

(** A cdf table that starts above 0 or stops below 1 puts what is missing on its first and last
    energy. *)
Theorem C110_cdf_ends : forall o m cdf xs k e, lawful o -> m = IDW \/ m = LERP ->
  (2 <= List.length cdf)%nat -> List.length xs = List.length cdf -> increasing cdf -> increasing xs ->
  let u := o_unif o (child k 1) e in
  let energy := result (FixedEnergySpectra o (cdf_spectrum m cdf xs)) k e in
  (energy = Fin (ent xs 0) <-> u <= ent cdf 0) /\
  (energy = Fin (ent xs (List.length xs - 1)) <-> ent cdf (List.length cdf - 1) <= u).
Proof.
  intros o m F xs k e L Hm Hn Hl HF Hx u energy.
  destruct (C110_cdf_spectrum o m F xs k e L Hm ltac:(lia) Hl HF Hx) as (x & Ex & T1 & T2 & T3). fold u in T3.
  unfold energy. rewrite Ex.
  assert (Hlo : ent xs 0 <= x) by (destruct (Rle_lt_dec (ent xs 0) x) as [|N]; [assumption|exfalso; apply (T1 x); lra]).
  assert (Hhi : x <= ent xs (List.length xs - 1)) by (apply T2; lra).
  split.
  - pose proof (Hx 0%nat 1%nat ltac:(lia)). pose proof (T3 0%nat (ent xs 0) ltac:(lia) ltac:(lra)) as T.
    rewrite line_at_0 in T by assumption. unfold at_most in T. rewrite <- T. split; [intros [= ->]; lra|intros; f_equal; lra].
  - set (i := (List.length xs - 2)%nat). assert (Hi : (S i < List.length xs)%nat) by lia.
    replace (List.length F - 1)%nat with (S i) by lia. replace (List.length xs - 1)%nat with (S i) in * by lia.
    pose proof (HF i (S i) ltac:(lia)) as HFi. pose proof (Hx i (S i) ltac:(lia)) as Hxi. split.
    + intros [= ->]. destruct (Rle_lt_dec (ent F (S i)) u) as [|N]; [assumption|exfalso].
      set (w := Rmax u (ent F i)). assert (Hw : ent F i <= w < ent F (S i)) by (unfold w, Rmax; destruct (Rle_dec u (ent F i)); lra).
      pose proof (line_range (ent F i) (ent xs i) (ent F (S i)) (ent xs (S i)) w HFi Hxi Hw) as Hc.
      pose proof (T3 i _ Hi Hc) as T. rewrite line_back in T by assumption. unfold at_most in T.
      assert (u <= w) by apply Rmax_l. apply T in H. lra.
    + intros Hu. f_equal. destruct (Req_dec x (ent xs (S i))) as [|N]; [assumption|exfalso].
      set (c := Rmax x (ent xs i)).
      assert (Hc : ent xs i <= c < ent xs (S i)) by (unfold c, Rmax; destruct (Rle_dec x (ent xs i)); lra).
      pose proof (line_range (ent xs i) (ent F i) (ent xs (S i)) (ent F (S i)) c Hxi HFi Hc) as Hg.
      pose proof (T3 i c Hi Hc) as T. unfold at_most in T. assert (x <= c) by apply Rmax_l. apply T in H. lra.
Qed.

(** ** Instances *)
Lemma increasing3 a b c : a < b -> b < c -> increasing [a; b; c].
Proof.
  intros H1 H2 i j H. cbn in H. assert (Hc : (i = 0 /\ j = 1 \/ i = 0 /\ j = 2 \/ i = 1 /\ j = 2)%nat) by lia.
  unfold ent. destruct Hc as [[-> ->]|[[-> ->]|[-> ->]]]; cbn; lra.
Qed.

(** A table like the shipped one (maps/_nr_spectrum.json, cut down to three rows): with a random
    number of 1/4 the energy is at most 2/3 keV but not at most 1/2 keV. *)
Example C110_case_cdf : exists x, result (FixedEnergySpectra toy (cdf_spectrum LERP [0; / 2; 1] [/ 3; 1; 4])) [] 0%nat = Fin x /\
  x <= 2 / 3 /\ ~ x <= / 2.
Proof.
  destruct (C110_cdf_spectrum toy LERP [0; / 2; 1] [/ 3; 1; 4] [] 0%nat toy_lawful (or_intror eq_refl))
    as (x & Ex & _ & _ & T); [cbn; lia|reflexivity|apply increasing3; lra|apply increasing3; lra|].
  exists x. split; [exact Ex|]. unfold at_most in T. cbn [toy o_unif Nat.even] in T. split.
  - apply (T 0%nat); [cbn; lia|unfold ent; cbn; lra|]. unfold ent, line; cbn. lra.
  - rewrite (T 0%nat); [|cbn; lia|unfold ent; cbn; lra]. unfold ent, line; cbn. lra.
Qed.

(** A flat density between 0 and 2 keV: half of the events have exactly 0.5 keV. *)
Example C110_case_pdf : share [0; 1; 2] [/ 2; / 2; / 2] 1 = / 2 /\
  result (FixedEnergySpectra toy (pdf_spectrum LERP [0; 1; 2] [/ 2; / 2; / 2])) [] 0%nat = Fin (middle [0; 1; 2] 0) /\
  result (FixedEnergySpectra toy (pdf_spectrum LERP [0; 1; 2] [/ 2; / 2; / 2])) [] 1%nat <> Fin (middle [0; 1; 2] 0).
Proof.
  assert (E : share [0; 1; 2] [/ 2; / 2; / 2] 1 = / 2) by (unfold share, ent; cbn; field).
  assert (P : forall v, In v [/ 2; / 2; / 2] -> 0 < v) by (intros v Hv; cbn in Hv; destruct Hv as [<-|[<-|[<-|[]]]]; lra).
  assert (I : increasing [0; 1; 2]) by (apply increasing3; lra).
  destruct (C110_pdf_atom_refuted toy LERP [0; 1; 2] [/ 2; / 2; / 2] [] 0%nat toy_lawful (or_intror eq_refl) eq_refl ltac:(cbn; lia) I P) as (_ & H0).
  destruct (C110_pdf_atom_refuted toy LERP [0; 1; 2] [/ 2; / 2; / 2] [] 1%nat toy_lawful (or_intror eq_refl) eq_refl ltac:(cbn; lia) I P) as (_ & H1).
  rewrite E in *. cbn [toy o_unif Nat.even] in H0, H1. split; [reflexivity|]. rewrite H0, H1. split; lra.
Qed.

(** The upper half of the shipped detector volume, the inner half of its radius, a quarter turn: one
    part in 32. *)
Example C110_case_sector : sector (-75) 0 0 30 0 (PI / 2) / cylinder (-150) 0 60 = / 32.
Proof. unfold sector, cylinder. pose proof PI_RGT_0. field. lra. Qed.

Print Assumptions C110_uniform_energy.
Print Assumptions C110_cdf_spectrum.
Print Assumptions C110_pdf_spectrum.
Print Assumptions C110_pdf_atom_refuted.
Print Assumptions C110_positions.
Print Assumptions C110_cdf_ends.
