(** Property C114: simulated histograms and log likelihoods over the random keys.
    Theorems, their assumptions and concrete instances. *)
From Coq Require Import Reals Lra ZArith Lia.
From Verif Require Import Base BaseFacts ModelFloat ModelHist ModelLikelihood SpecHist SpecLikelihood SpecWeighted
  ProofFloat ProofHist ProofLikelihood ProofLikelihood2 ProofLikelihood3 ProofWeighted ProofWeighted2 PropWeighted SpecOnSim ProofOnSim
  SpecSignals PropSignals SpecSamplers PropSamplers SpecExpect.
Local Open Scope R_scope.

Lemma variance_parts {A} (d : SpecSignals.dist A) f : total d -> variance d f = average d (fun x => f x ^ 2) - average d f ^ 2.
Proof.
  intros T. unfold variance. set (m := average d f).
  rewrite (average_ext d _ (fun x => f x ^ 2 + ((- 2 * m) * f x + m ^ 2 * 1))) by (intros; ring).
  rewrite !average_add, (average_scal d f), (average_scal d (fun _ => 1)), (proj2 T). fold m. ring.
Qed.

Lemma average_le {A} (d : SpecSignals.dist A) f g : total d -> (forall w x, In (w, x) d -> f x <= g x) -> average d f <= average d g.
Proof.
  intros [P _] H. unfold average. induction d as [|[w x] d IH]; [cbn; lra|]. cbn [fold_right fst snd].
  assert (w * f x <= w * g x) by (apply Rmult_le_compat_l; [apply (P w x); left; reflexivity|apply (H w x); left; reflexivity]).
  assert (fold_right (fun wx s => fst wx * f (snd wx) + s) 0 d <= fold_right (fun wx s => fst wx * g (snd wx) + s) 0 d); [|lra].
  apply IH; intros v y I; [apply (P v y)|apply (H v y)]; right; exact I.
Qed.

Lemma draws_in {A} (d : SpecSignals.dist A) n : forall w l, In (w, l) (draws d n) -> List.length l = n /\ forall x, In x l -> exists v, In (v, x) d.
Proof.
  induction n as [|n IH]; intros w l I; cbn [draws] in I.
  - destruct I as [E|[]]. injection E as _ <-. split; [reflexivity|intros x []].
  - apply in_flat_map in I. destruct I as ([v a] & Ia & I). apply in_map_iff in I. destruct I as ([u m] & E & I). injection E as _ <-.
    destruct (IH u m I) as [L S]. cbn [List.length snd]. split; [f_equal; exact L|]. intros x [<-|Hx]; [exists v; exact Ia|apply S, Hx].
Qed.

Lemma average_pos {A} (d : SpecSignals.dist A) f : total d -> (forall w x, In (w, x) d -> 0 < f x) -> 0 < average d f.
Proof.
  intros [P T] H. destruct (Rle_or_lt (average d f) 0) as [N|N]; [exfalso|exact N].
  assert (Z : forall w x, In (w, x) d -> w = 0).
  { clear T. unfold average in N. induction d as [|[v y] d IH]; intros w x I; [destruct I|]. cbn [fold_right fst snd] in N.
    assert (Pv : 0 <= v) by (apply (P v y); left; reflexivity). assert (Hy : 0 < f y) by (apply (H v y); left; reflexivity).
    assert (0 <= fold_right (fun wx s => fst wx * f (snd wx) + s) 0 d).
    { assert (Q : forall w0 x0, In (w0, x0) d -> 0 <= w0 * f x0).
      { intros w0 x0 I0. apply Rmult_le_pos; [apply (P w0 x0); right; exact I0|left; apply (H w0 x0); right; exact I0]. }
      clear - Q. induction d as [|[w0 x0] d IH]; cbn [fold_right fst snd]; [lra|]. pose proof (Q w0 x0 (or_introl eq_refl)).
      assert (0 <= fold_right (fun wx s => fst wx * f (snd wx) + s) 0 d) by (apply IH; intros; apply Q; right; assumption). lra. }
    assert (0 <= v * f y) by (apply Rmult_le_pos; lra).
    destruct I as [E|I].
    - injection E as <- <-. apply (Rmult_eq_reg_r (f y)); lra.
    - apply (IH (fun a b J => P a b (or_intror J)) (fun a b J => H a b (or_intror J)) ltac:(lra) w x I). }
  clear - Z T. assert (average d (fun _ => 1) = 0); [|lra]. clear T. unfold average. induction d as [|[v y] d IH]; [reflexivity|].
  cbn [fold_right fst snd]. rewrite (Z v y (or_introl eq_refl)), IH by (intros; eapply Z; right; eassumption). ring.
Qed.

Definition zero (x : R) : bool := if Req_EM_T x 0 then true else false.

Definition sum_of (g : list fl -> R) (rows : list (list fl)) : R := fold_right Rplus 0 (map g rows).

Lemma sum_mean (d : SpecSignals.dist (list fl)) g n : total d -> average (draws d n) (sum_of g) = INR n * average d g.
Proof.
  intros T. induction n as [|n IH]; [cbn; ring|]. rewrite average_draws, S_INR.
  rewrite (average_ext d _ (fun x => 1 * g x + INR n * average d g)).
  - rewrite average_add, (average_scal d g), (average_const d _ T). ring.
  - intros w x _. unfold sum_of. cbn [map fold_right]. rewrite average_add, (average_const _ _ (draws_total d n T)).
    fold (sum_of g). rewrite <- IH. unfold sum_of. ring.
Qed.

Lemma sum_variance (d : SpecSignals.dist (list fl)) g n : total d -> variance (draws d n) (sum_of g) = INR n * variance d g.
Proof.
  intros T. unfold variance at 1. rewrite sum_mean by exact T. induction n as [|n IH].
  - cbn. ring.
  - rewrite average_draws, S_INR. set (m := average d g) in *.
    rewrite (average_ext d _ (fun x => (g x - m) ^ 2 + INR n * variance d g)).
    + rewrite average_add, (average_const d _ T). fold m. unfold variance. fold m. ring.
    + intros w x _.
      rewrite (average_ext _ _ (fun l => (sum_of g l - INR n * m) ^ 2 + (2 * (g x - m) * sum_of g l + ((g x - m) ^ 2 - 2 * (g x - m) * (INR n * m)) * 1))).
      2:{ intros v l _. unfold sum_of. cbn [map fold_right]. ring. }
      rewrite !average_add, IH, (average_scal _ (sum_of g)), (average_scal _ (fun _ => 1)), (proj2 (draws_total d n T)), sum_mean by exact T.
      fold m. ring.
Qed.

Lemma eff_sum_share no_eff P rows : eff_sum no_eff P rows = sum_of (share no_eff P) rows.
Proof.
  unfold eff_sum, sum_of, share, number. induction rows as [|r rows IH]; [reflexivity|]. cbn [filter map fold_right].
  destruct (P (fst (sim_event no_eff r))); cbn [map fold_right]; rewrite IH; ring.
Qed.

(** A sum of numbers that are not negative vanishes if all do: the events are independent. *)
Lemma sum_nonneg g rows : (forall x, In x rows -> 0 <= g x) -> 0 <= sum_of g rows.
Proof.
  unfold sum_of. induction rows as [|r rows IH]; cbn [map fold_right]; intros H; [lra|].
  pose proof (H r (or_introl eq_refl)). specialize (IH (fun x Hx => H x (or_intror Hx))). lra.
Qed.

Lemma chance_zero (d : SpecSignals.dist (list fl)) g n : (forall w x, In (w, x) d -> 0 <= g x) ->
  chance (draws d n) (fun rows => zero (sum_of g rows)) = chance d (fun x => zero (g x)) ^ n.
Proof.
  intros P. induction n as [|n IH].
  - unfold chance, sum_of, zero. cbn. destruct (Req_EM_T 0 0); [ring|lra].
  - unfold chance at 1. rewrite average_draws. cbn [pow]. rewrite <- IH.
    rewrite (average_ext d _ (fun x => chance (draws d n) (fun rows => zero (sum_of g rows)) * (if zero (g x) then 1 else 0))).
    + rewrite average_scal. unfold chance. ring.
    + intros w x I. unfold chance. rewrite (Rmult_comm _ (if zero (g x) then 1 else 0)). rewrite <- average_scal. apply average_ext. intros v l J.
      assert (0 <= g x) by exact (P w x I).
      assert (0 <= sum_of g l). { apply sum_nonneg. intros y Hy. destruct (proj2 (draws_in d n v l J) y Hy) as (u & U). exact (P u y U). }
      change (sum_of g (x :: l)) with (g x + sum_of g l). unfold zero.
      destruct (Req_EM_T (g x + sum_of g l) 0), (Req_EM_T (g x) 0), (Req_EM_T (sum_of g l) 0); lra.
Qed.

Lemma shares_total no_eff b rows : binning_ok b ->
  rsum (map (fun P => sum_of (share no_eff P) rows) (bins_of b)) = sum_of (share no_eff (in_bins b)) rows.
Proof.
  intros Hb. induction rows as [|r rows IH].
  - unfold sum_of. cbn [map fold_right]. induction (bins_of b); cbn; lra.
  - change (sum_of (share no_eff (in_bins b)) (r :: rows)) with (share no_eff (in_bins b) r + sum_of (share no_eff (in_bins b)) rows). rewrite <- IH. clear IH.
    pose proof (bins_disjoint b (fst (sim_event no_eff r)) Hb) as D. change (share no_eff (in_bins b) r) with (if existsb (fun P => P (fst (sim_event no_eff r))) (bins_of b) then number (snd (sim_event no_eff r)) else 0). unfold hits in D.
    set (o := fst (sim_event no_eff r)) in *. set (e := number (snd (sim_event no_eff r))).
    assert (G : forall Ps : list (list fl -> bool), (List.length (filter (fun P => P o) Ps) <= 1)%nat ->
      rsum (map (fun P => sum_of (share no_eff P) (r :: rows)) Ps) = (if existsb (fun P => P o) Ps then e else 0) + rsum (map (fun P => sum_of (share no_eff P) rows) Ps)).
    { clear D. induction Ps as [|P Ps IH]; intros L; [cbn; ring|]. cbn [map rsum existsb filter] in *.
      change (sum_of (share no_eff P) (r :: rows)) with (share no_eff P r + sum_of (share no_eff P) rows).
      unfold share at 1. fold o. fold e. destruct (P o) eqn:EP; cbn [orb].
      - cbn [List.length] in L. assert (existsb (fun Q => Q o) Ps = false) as N.
        { destruct (existsb (fun Q => Q o) Ps) eqn:X; [|reflexivity]. apply existsb_exists in X. destruct X as (Q & IQ & TQ).
          assert (In Q (filter (fun P => P o) Ps)) by (apply filter_In; split; assumption). destruct (filter (fun P => P o) Ps); [contradiction|cbn in L; lia]. }
        rewrite N in IH. rewrite IH by lia. ring.
      - rewrite IH by exact L. ring. }
    exact (G _ D).
Qed.

Section Expect.
  Context {K : Type}.
  Variable oor : list (list fl) -> nat -> list fl.
  Variable c : cnum.
  Variable sim : K -> nat -> params -> result (K * list (list fl)).
  Variables (batch : nat) (p : params) (keys : SpecSignals.dist K) (events : SpecSignals.dist (list fl)) (r : R).
  Hypothesis Hb : binning_ok (n_bins c).
  Hypothesis Hr : get (n_rate c) p = Some (Fin r).
  Hypothesis Hi : independent sim batch p keys events.
  Hypothesis Hp : proper (n_no_eff c) (n_bins c) events.
  Notation hist := (fun key => sim_hist oor c sim key batch p).
  Notation added := (share (n_no_eff c)).

  Lemma rows_facts w key : In (w, key) keys -> exists key' rows, sim key batch p = Ok (key', rows) /\ rows_at sim batch p key = rows /\
    List.length rows = batch /\ efficiency_ok (n_no_eff c) rows /\
    forall x, In x rows -> List.length x = (ndim (n_bins c) + if n_no_eff c then 0 else 1)%nat.
  Proof.
    intros I. destruct (i_rows _ _ _ _ _ Hi w key I) as (key' & rows & E & L & S). exists key', rows.
    unfold rows_at. rewrite E. repeat (split; [reflexivity || exact L|]). split; intros x Hx; destruct (S x Hx) as (v & V); destruct (Hp v x V) as [A B]; [exact B|exact A].
  Qed.

  Lemma share_bounds P w x : In (w, x) events -> 0 <= added P x <= 1.
  Proof.
    intros I. destruct (Hp w x I) as (_ & e & E & B). unfold share. rewrite E. cbn [number]. destruct (P _); lra.
  Qed.

  Lemma law f g : (forall w key, In (w, key) keys -> f key = g (rows_at sim batch p key)) -> average keys f = average (draws events batch) g.
  Proof. intros E. rewrite <- (i_law _ _ _ _ _ Hi g). apply average_ext. exact E. Qed.

  Section OnSim.
    Hypothesis Hn : n_norm c = OnSim.
    Hypothesis Hm : n_mcinput c = Ok None.
    Hypothesis Hpos : (0 < batch)%nat.

    Lemma INR_batch : 0 < INR batch. Proof. apply lt_0_INR, Hpos. Qed.

    Lemma on_sim_exists w key : In (w, key) keys -> exists key' h, sim_hist oor c sim key batch p = Ok (key', h).
    Proof.
      intros I. destruct (rows_facts w key I) as (key' & rows & E & _ & _ & _ & W).
      destruct (hist_decided oor c sim key batch p key' rows Hb E W) as (h0 & ->). rewrite Hn, Hm. cbn [get_normalization]. rewrite Hr. eauto.
    Qed.

    Lemma on_sim_value w key : n_add_eps c = false -> In (w, key) keys -> exists key' h,
      sim_hist oor c sim key batch p = Ok (key', h) /\
      h = map (fun P => Fin (r * sum_of (added P) (rows_at sim batch p key) / INR batch)) (bins_of (n_bins c)) /\
      fsum h = Fin (r * (sum_of (added (in_bins (n_bins c))) (rows_at sim batch p key) / INR batch)).
    Proof.
      intros He I. destruct (rows_facts w key I) as (key1 & rows & E & R & _ & Ok1 & W).
      destruct (on_sim_exists w key I) as (key' & h & H).
      assert (key1 = key') as ->.
      { destruct (on_sim_inv oor c sim key batch p key' h None r (INR batch) Hb Hn Hm eq_refl INR_batch Hr H) as (rows' & E' & _). congruence. }
      exists key', h. split; [exact H|]. rewrite R. split.
      - rewrite (on_sim_bins oor c sim key batch p key' h rows None r (INR batch) Hb Hn He Hm eq_refl INR_batch Hr H E Ok1).
        apply map_ext. intros P. rewrite eff_sum_share. reflexivity.
      - rewrite (on_sim_total oor c sim key batch p key' h rows None r (INR batch) Hb Hn He Hm eq_refl INR_batch Hr H E Ok1).
        unfold in_bins. rewrite eff_sum_share. reflexivity.
    Qed.

    Lemma bin_value w key i : n_add_eps c = false -> In (w, key) keys -> (i < List.length (bins_of (n_bins c)))%nat ->
      bin_at hist i key = r / INR batch * sum_of (added (bin_of (n_bins c) i)) (rows_at sim batch p key).
    Proof.
      intros He I Li. destruct (on_sim_value w key He I) as (key' & h & H & -> & _). unfold bin_at. rewrite H.
      rewrite (nth_indep _ NaN (Fin (r * sum_of (added (fun _ => false)) (rows_at sim batch p key) / INR batch))) by (rewrite map_length; exact Li).
      rewrite (map_nth (fun P => Fin (r * sum_of (added P) (rows_at sim batch p key) / INR batch))). cbn [number]. fold (bin_of (n_bins c) i). unfold Rdiv. ring.
    Qed.

    Lemma floor_value w key i : n_add_eps c = true -> In (w, key) keys -> (i < List.length (bins_of (n_bins c)))%nat ->
      bin_at hist i key = r / INR batch * Rmax (sum_of (added (bin_of (n_bins c) i)) (rows_at sim batch p key))
                                               (ModelLikelihood.eps + sum_of (added (fun _ => true)) (rows_at sim batch p key) / INR batch).
    Proof.
      intros He I Li. destruct (rows_facts w key I) as (key1 & rows & E & R & Lr & Ok1 & W).
      destruct (on_sim_exists w key I) as (key' & h & H).
      assert (key1 = key') as ->.
      { destruct (on_sim_inv oor c sim key batch p key' h None r (INR batch) Hb Hn Hm eq_refl INR_batch Hr H) as (rows' & E' & _). congruence. }
      assert (Ne : rows <> []) by (intros ->; cbn in Lr; lia).
      pose proof (on_sim_floor oor c sim key batch p key' h rows None r (INR batch) Hb Hn He Hm eq_refl INR_batch Hr H E Ne Ok1) as V.
      unfold bin_at. rewrite H, V, R, Lr.
      set (F := fun P => Fin (r * Rmax (eff_sum (n_no_eff c) P rows) (ModelLikelihood.eps + eff_sum (n_no_eff c) (fun _ => true) rows / INR batch) / INR batch)).
      rewrite (nth_indep _ NaN (F (fun _ => false))) by (rewrite map_length; exact Li).
      rewrite (map_nth F). unfold F. cbn [number]. fold (bin_of (n_bins c) i). rewrite !eff_sum_share. unfold Rdiv. ring.
    Qed.

    (** Normalised on the simulation and without floor, a bin is on average the rate times the mean
        efficiency of an event in it, whatever the batch size, and its variance falls as one over the
        batch size. *)
    Theorem C114_unbiased : n_add_eps c = false -> forall i, (i < List.length (bins_of (n_bins c)))%nat ->
      average keys (bin_at hist i) = r * average events (added (bin_of (n_bins c) i)) /\
      variance keys (bin_at hist i) = r ^ 2 * variance events (added (bin_of (n_bins c) i)) / INR batch /\
      variance keys (bin_at hist i) <= r * average keys (bin_at hist i) / INR batch.
    Proof.
      intros He i Li. set (g := added (bin_of (n_bins c) i)). pose proof INR_batch as Hpb. pose proof (i_events _ _ _ _ _ Hi) as Te.
      assert (V : forall w key, In (w, key) keys -> bin_at hist i key = r / INR batch * sum_of g (rows_at sim batch p key)).
      { intros w key I. exact (bin_value w key i He I Li). }
      assert (M : average keys (bin_at hist i) = r * average events g).
      { rewrite (law _ (fun rows => r / INR batch * sum_of g rows) V). rewrite average_scal, sum_mean by exact Te. field. lra. }
      assert (Q : variance keys (bin_at hist i) = r ^ 2 * variance events g / INR batch).
      { unfold variance at 1. rewrite M.
        rewrite (law _ (fun rows => (r / INR batch) ^ 2 * (sum_of g rows - INR batch * average events g) ^ 2)).
        - rewrite average_scal. pose proof (sum_variance events g batch Te) as S. unfold variance at 1 in S. rewrite sum_mean in S by exact Te. rewrite S. field. lra.
        - intros w key I. rewrite (V w key I). field. lra. }
      split; [exact M|]. split; [exact Q|]. rewrite Q, M.
      assert (B : variance events g <= average events g).
      { rewrite variance_parts by exact Te. assert (average events (fun x => g x ^ 2) <= average events g).
        - apply average_le; [exact Te|]. intros w x I. destruct (Hp w x I) as (_ & e & E & Be). unfold g, share. rewrite E. cbn [number].
          destruct (bin_of _ _ _); [|lra]. cbn [pow]. nra.
        - pose proof (pow2_ge_0 (average events g)). lra. }
      unfold Rdiv. apply Rmult_le_compat_r; [left; apply Rinv_0_lt_compat; exact Hpb|]. pose proof (pow2_ge_0 r). nra.
    Qed.

    (** So is the total, with the events in any bin. *)
    Theorem C114_total : n_add_eps c = false ->
      average keys (total_at hist) = r * average events (added (in_bins (n_bins c))) /\
      variance keys (total_at hist) = r ^ 2 * variance events (added (in_bins (n_bins c))) / INR batch.
    Proof.
      intros He. set (g := added (in_bins (n_bins c))). pose proof INR_batch as Hpb. pose proof (i_events _ _ _ _ _ Hi) as Te.
      assert (V : forall w key, In (w, key) keys -> total_at hist key = r / INR batch * sum_of g (rows_at sim batch p key)).
      { intros w key I. destruct (on_sim_value w key He I) as (key' & h & H & _ & T). unfold total_at. rewrite H, T. cbn [number]. fold g. unfold Rdiv. ring. }
      assert (M : average keys (total_at hist) = r * average events g).
      { rewrite (law _ (fun rows => r / INR batch * sum_of g rows) V). rewrite average_scal, sum_mean by exact Te. field. lra. }
      split; [exact M|]. unfold variance at 1. rewrite M.
      rewrite (law _ (fun rows => (r / INR batch) ^ 2 * (sum_of g rows - INR batch * average events g) ^ 2)).
      - rewrite average_scal. pose proof (sum_variance events g batch Te) as S. unfold variance at 1 in S. rewrite sum_mean in S by exact Te. rewrite S. field. lra.
      - intros w key I. rewrite (V w key I). field. lra.
    Qed.

    (** Without floor a bin stays empty with the chance that no event adds to it. *)
    Theorem C114_empty : n_add_eps c = false -> r <> 0 -> forall i, (i < List.length (bins_of (n_bins c)))%nat ->
      chance keys (fun key => zero (bin_at hist i key)) = chance events (fun x => zero (added (bin_of (n_bins c) i) x)) ^ batch.
    Proof.
      intros He R0 i Li. pose proof INR_batch as Hpb. rewrite <- chance_zero by (intros w x I; apply (share_bounds _ w x I)).
      unfold chance. apply law. intros w key I. rewrite (bin_value w key i He I Li). unfold zero.
      set (x := sum_of _ _). destruct (Req_EM_T (r / INR batch * x) 0) as [E|E], (Req_EM_T x 0) as [F|F]; try reflexivity; exfalso.
      - apply Rmult_integral in E. destruct E as [E|E]; [|contradiction]. unfold Rdiv in E. apply Rmult_integral in E.
        destruct E as [E|E]; [contradiction|]. pose proof (Rinv_0_lt_compat _ Hpb). lra.
      - apply E. rewrite F. ring.
    Qed.

    (** With the floor (the default) the average is too high, by no more than the rate over the batch
        size times the mean efficiency; *)
    Theorem C114_floor : n_add_eps c = true -> 0 <= r -> forall i, (i < List.length (bins_of (n_bins c)))%nat ->
      let excess := average keys (bin_at hist i) - r * average events (added (bin_of (n_bins c) i)) in
      0 <= excess <= r * (ModelLikelihood.eps + average events (added (fun _ => true))) / INR batch.
    Proof.
      intros He R0 i Li excess. pose proof INR_batch as Hpb. pose proof (i_events _ _ _ _ _ Hi) as Te. pose proof eps_pos as Pe.
      set (g := added (bin_of (n_bins c) i)) in *. set (t := added (fun _ => true)).
      assert (M : average keys (bin_at hist i) = average (draws events batch) (fun rows => r / INR batch * Rmax (sum_of g rows) (ModelLikelihood.eps + sum_of t rows / INR batch))).
      { apply law. intros w key I. apply (floor_value w key i He I Li). }
      assert (G : average (draws events batch) (fun rows => r / INR batch * sum_of g rows) = r * average events g).
      { rewrite average_scal, sum_mean by exact Te. field. lra. }
      assert (Q : 0 <= r / INR batch) by (apply Rmult_le_pos; [exact R0|left; apply Rinv_0_lt_compat; exact Hpb]).
      unfold excess. rewrite M, <- G. split.
      - apply Rge_le, Rge_minus, Rle_ge. apply average_le; [apply draws_total; exact Te|]. intros w l _. apply Rmult_le_compat_l; [exact Q|apply Rmax_l].
      - assert (U : average (draws events batch) (fun rows => r / INR batch * Rmax (sum_of g rows) (ModelLikelihood.eps + sum_of t rows / INR batch)) <=
                    average (draws events batch) (fun rows => r / INR batch * sum_of g rows + (r / INR batch * ModelLikelihood.eps + r / INR batch / INR batch * sum_of t rows))).
        { apply average_le; [apply draws_total; exact Te|]. intros w l J.
          assert (0 <= sum_of g l). { apply sum_nonneg. intros x Hx. destruct (proj2 (draws_in _ _ _ _ J) x Hx) as (v & V). apply (share_bounds _ v x V). }
          assert (0 <= sum_of t l). { apply sum_nonneg. intros x Hx. destruct (proj2 (draws_in _ _ _ _ J) x Hx) as (v & V). apply (share_bounds _ v x V). }
          assert (0 <= sum_of t l / INR batch) by (apply Rmult_le_pos; [assumption|left; apply Rinv_0_lt_compat; exact Hpb]).
          replace (r / INR batch * sum_of g l + (r / INR batch * ModelLikelihood.eps + r / INR batch / INR batch * sum_of t l))
            with (r / INR batch * (sum_of g l + (ModelLikelihood.eps + sum_of t l / INR batch))) by (unfold Rdiv; ring).
          apply Rmult_le_compat_l; [exact Q|]. apply Rmax_lub; lra. }
        rewrite !average_add, (average_const _ _ (draws_total _ _ Te)), (average_scal _ (sum_of t)), (sum_mean events t) in U by exact Te.
        fold t. replace (r * (ModelLikelihood.eps + average events t) / INR batch) with (r / INR batch * ModelLikelihood.eps + r / INR batch / INR batch * (INR batch * average events t)) by (field; lra). lra.
    Qed.

    (** and where no event can be, this is what is in the bin. *)
    Theorem C114_floor_impossible_refuted : n_add_eps c = true -> forall i, (i < List.length (bins_of (n_bins c)))%nat ->
      (forall w x, In (w, x) events -> bin_of (n_bins c) i (fst (sim_event (n_no_eff c) x)) = false) ->
      average events (added (bin_of (n_bins c) i)) = 0 /\
      average keys (bin_at hist i) = r * (ModelLikelihood.eps + average events (added (fun _ => true))) / INR batch.
    Proof.
      intros He i Li N. pose proof INR_batch as Hpb. pose proof (i_events _ _ _ _ _ Hi) as Te. pose proof eps_pos as Pe.
      set (t := added (fun _ => true)). split.
      { rewrite (average_ext events _ (fun _ => 0)); [apply average_const; exact Te|]. intros w x I. unfold share. rewrite (N w x I). reflexivity. }
      rewrite (law _ (fun rows => r / INR batch * Rmax (sum_of (added (bin_of (n_bins c) i)) rows) (ModelLikelihood.eps + sum_of t rows / INR batch))).
      2:{ intros w key I. apply (floor_value w key i He I Li). }
      rewrite (average_ext _ _ (fun rows => r / INR batch * ModelLikelihood.eps + r / INR batch / INR batch * sum_of t rows)).
      - rewrite average_add, (average_const _ _ (draws_total _ _ Te)), (average_scal _ (sum_of t)), (sum_mean events t) by exact Te. field. lra.
      - intros w l J.
        assert (Z : sum_of (added (bin_of (n_bins c) i)) l = 0).
        { destruct (draws_in _ _ _ _ J) as [_ S]. unfold sum_of. clear J. induction l as [|x l IH]; [reflexivity|]. cbn [map fold_right].
          rewrite IH by (intros y Hy; apply S; right; exact Hy). destruct (S x (or_introl eq_refl)) as (v & V). unfold share. rewrite (N v x V). ring. }
        assert (0 <= sum_of t l). { apply sum_nonneg. intros x Hx. destruct (proj2 (draws_in _ _ _ _ J) x Hx) as (v & V). apply (share_bounds _ v x V). }
        assert (0 <= sum_of t l / INR batch) by (apply Rmult_le_pos; [assumption|left; apply Rinv_0_lt_compat; exact Hpb]).
        rewrite Z, Rmax_right by lra. unfold Rdiv. ring.
    Qed.
  End OnSim.

  Section OnPdf.
    Hypothesis Hn : n_norm c = OnPdf.
    Hypothesis He : n_add_eps c = false.

    Lemma on_pdf_value w key : In (w, key) keys -> exists key',
      sim_hist oor c sim key batch p = Ok (key', scale (fmul (fdiv (Fin 1) (Fin (sum_of (added (in_bins (n_bins c))) (rows_at sim batch p key)))) (Fin r))
        (map (fun P => Fin (sum_of (added P) (rows_at sim batch p key))) (bins_of (n_bins c)))).
    Proof.
      intros I. destruct (rows_facts w key I) as (key' & rows & E & R & _ & Ok1 & W). exists key'. rewrite R.
      unfold sim_hist. rewrite E.
      assert (Hsp : split_rows (n_no_eff c) rows =
              (map (fun r => fst (sim_event (n_no_eff c) r)) rows, map (fun r => snd (sim_event (n_no_eff c) r)) rows)).
      { unfold split_rows, sim_event. destruct (n_no_eff c); cbn [fst snd]; [rewrite map_id|]; reflexivity. }
      rewrite Hsp. replace (forallb (fun x => Nat.eqb (List.length x) (ndim (n_bins c))) (map (fun r => fst (sim_event (n_no_eff c) r)) rows)) with true.
      2:{ symmetry. apply forallb_forall. intros o Ho. apply in_map_iff in Ho. destruct Ho as (x & <- & Hx). apply Nat.eqb_eq. pose proof (W x Hx) as L.
          unfold sim_event. destruct (n_no_eff c); cbn [fst]; [lia|]. unfold event, observables. cbn [fst]. rewrite removelast_length. lia. }
      unfold implement_binning. rewrite plain_hist_binned by exact Hb. rewrite combine_maps.
      assert (Hev : map (fun r => (fst (sim_event (n_no_eff c) r), snd (sim_event (n_no_eff c) r))) rows = map (sim_event (n_no_eff c)) rows).
      { apply map_ext. intros x. symmetry. apply surjective_pairing. }
      rewrite Hev, Hn, He. cbn [get_normalization]. rewrite Hr.
      assert (B : binned (n_bins c) (map (sim_event (n_no_eff c)) rows) = map Fin (map (fun P => sum_of (added P) rows) (bins_of (n_bins c)))).
      { unfold binned. rewrite map_map. apply map_ext. intros P. rewrite (eff_weight _ P) by exact Ok1. rewrite eff_sum_share. reflexivity. }
      rewrite B, fsum_Fin, shares_total, map_map by exact Hb. reflexivity.
    Qed.

    (** Normalised on the histogram there is nothing to divide by if no event adds to any bin: all bins
        are NaN, at every batch size with the chance that this happens. *)
    Theorem C114_on_pdf_nan :
      chance keys (not_a_number hist) = chance events (fun x => zero (added (in_bins (n_bins c)) x)) ^ batch.
    Proof.
      rewrite <- chance_zero by (intros w x I; apply (share_bounds _ w x I)). unfold chance. apply law.
      intros w key I. destruct (on_pdf_value w key I) as (key' & H). unfold not_a_number. rewrite H. unfold zero.
      set (rows := rows_at sim batch p key). destruct (Req_EM_T (sum_of (added (in_bins (n_bins c))) rows) 0) as [Z|Z].
      - rewrite Z. replace (forallb _ _) with true; [reflexivity|]. symmetry. apply forallb_forall. intros x Hx. unfold scale in Hx. rewrite map_map in Hx.
        apply in_map_iff in Hx. destruct Hx as (P & <- & HP).
        assert (ZP : sum_of (added P) rows = 0).
        { assert (N : forall Q, In Q (bins_of (n_bins c)) -> 0 <= sum_of (added Q) rows).
          { intros Q _. apply sum_nonneg. intros x Hx. destruct (rows_facts w key I) as (k1 & rs & E1 & R1 & _). unfold rows in Hx. rewrite R1 in Hx.
            destruct (i_rows _ _ _ _ _ Hi w key I) as (k2 & rs2 & E2 & _ & S2). rewrite E1 in E2. injection E2 as _ <-. destruct (S2 x Hx) as (v & V). apply (share_bounds _ v x V). }
          rewrite <- shares_total in Z by exact Hb. revert Z N HP. generalize (bins_of (n_bins c)) as Ps. clear.
          induction Ps as [|Q Ps IH]; intros Z N HP; [destruct HP|]. cbn [map rsum] in Z. pose proof (N Q (or_introl eq_refl)) as NQ.
          assert (NR : 0 <= rsum (map (fun P => sum_of (added P) rows) Ps)).
          { clear - N. induction Ps as [|Q' Ps IH]; cbn [map rsum]; [lra|]. pose proof (N Q' (or_intror (or_introl eq_refl))).
            assert (0 <= rsum (map (fun P => sum_of (added P) rows) Ps)); [|lra]. apply IH. intros Q2 [<-|H2]; [apply N; left; reflexivity|apply N; right; right; exact H2]. }
          destruct HP as [<-|HP]; [lra|]. apply IH; [lra|intros; apply N; right; assumption|exact HP]. }
        rewrite ZP. unfold fdiv. rewrite finv_0. cbn [fmul]. unfold inf_times. destruct (total_order_T 1 0) as [[?|?]|?]; try lra.
        cbn [fmul]. unfold inf_times. destruct (total_order_T r 0) as [[?|?]|?]; cbn [fmul fneg]; unfold inf_times; try (destruct (total_order_T 0 0) as [[?|?]|?]; try lra); reflexivity.
      - rewrite on_pdf_factor by exact Z. unfold scale. rewrite map_map. replace (forallb _ _) with false; [reflexivity|].
        symmetry. apply Bool.not_true_is_false. intros F. rewrite <- shares_total in Z by exact Hb. destruct (bins_of (n_bins c)) as [|P Ps]; [apply Z; reflexivity|].
        cbn [map forallb] in F. rewrite fmul_Fin in F. discriminate.
    Qed.

    (** If all events add the same to the bins together, the average of a bin is right. *)
    Theorem C114_on_pdf_same : (0 < batch)%nat -> forall e i, e <> 0 -> (i < List.length (bins_of (n_bins c)))%nat ->
      (forall w x, In (w, x) events -> added (in_bins (n_bins c)) x = e) ->
      average keys (bin_at hist i) = r * (average events (added (bin_of (n_bins c) i)) / average events (added (in_bins (n_bins c)))).
    Proof.
      intros Hpos e i E0 Li Sa. pose proof (lt_0_INR _ Hpos) as Hpb. pose proof (i_events _ _ _ _ _ Hi) as Te.
      assert (T : forall w key, In (w, key) keys -> sum_of (added (in_bins (n_bins c))) (rows_at sim batch p key) = INR batch * e).
      { intros w key I. destruct (i_rows _ _ _ _ _ Hi w key I) as (k & rows & E & L & Sp). unfold rows_at. rewrite E. rewrite <- L. clear - Sp Sa.
        unfold sum_of. induction rows as [|x rows IH]; [cbn; ring|]. cbn [map fold_right]. change (List.length (x :: rows)) with (S (List.length rows)). rewrite S_INR, IH by (intros; apply Sp; right; assumption).
        destruct (Sp x (or_introl eq_refl)) as (v & V). rewrite (Sa v x V). ring. }
      rewrite (law _ (fun rows => r / (INR batch * e) * sum_of (added (bin_of (n_bins c) i)) rows)).
      - rewrite average_scal, sum_mean by exact Te. replace (average events (added (in_bins (n_bins c)))) with e; [field; lra|].
        symmetry. rewrite (average_ext events _ (fun _ => e)) by exact Sa. apply average_const; exact Te.
      - intros w key I. destruct (on_pdf_value w key I) as (key' & H). unfold bin_at. rewrite H, (T w key I).
        assert (INR batch * e <> 0) by (apply Rmult_integral_contrapositive_currified; lra).
        rewrite on_pdf_factor by assumption. unfold scale. rewrite map_map.
        rewrite (nth_indep _ NaN (fmul (Fin (sum_of (added (fun _ => false)) (rows_at sim batch p key))) (Fin (/ (INR batch * e) * r)))) by (rewrite map_length; exact Li).
        rewrite (map_nth (fun P => fmul (Fin (sum_of (added P) (rows_at sim batch p key))) (Fin (/ (INR batch * e) * r)))). rewrite fmul_Fin. cbn [number]. fold (bin_of (n_bins c) i). unfold Rdiv. ring.
    Qed.
  End OnPdf.
End Expect.

(* ------------------------------------------------------------------ *)
(** * Log likelihoods *)

Lemma ln_tangent x m : 0 < x -> 0 < m -> ln x <= ln m + (x / m - 1).
Proof.
  intros Px Pm. assert (Q : 0 < x / m) by (apply Rmult_lt_0_compat; [exact Px|apply Rinv_0_lt_compat; exact Pm]).
  replace x with (m * (x / m)) at 1 by (field; lra). rewrite ln_mult by assumption.
  pose proof (exp_ineq1_le (ln (x / m))) as E. rewrite exp_ln in E by exact Q. lra.
Qed.

(** If every key gives positive bins, the log likelihood is on average at most the log likelihood of
    the average histogram: the noise of the simulation lowers it. *)
Theorem C114_log_likelihood {K} (L : llh K) batch p (keys : SpecSignals.dist K) ds means : total keys ->
  ll_data L = map Fin ds -> (forall d, In d ds -> 0 <= d) -> List.length means = List.length ds ->
  (forall w key, In (w, key) keys -> exists key' h, simulate_model_hist L key batch (replace_alias (ll_alias L) p) = Ok (key', h) /\
     List.length h = List.length ds /\ forall x, In x h -> good_bin x) ->
  (forall i, (i < List.length ds)%nat ->
     average keys (bin_at (fun key => simulate_model_hist L key batch (replace_alias (ll_alias L) p)) i) = nth i means 0) ->
  (forall w key, In (w, key) keys -> exists key' l, get_log_likelihood L key batch p = Ok (key', Fin l)) /\
  average keys (value_at (fun key => get_log_likelihood L key batch p)) <= poisson_R ds means.
Proof.
  intros T D P Lm H M.
  assert (V : forall w key, In (w, key) keys -> exists key' ms, simulate_model_hist L key batch (replace_alias (ll_alias L) p) = Ok (key', map Fin ms) /\
     List.length ms = List.length ds /\ (forall m, In m ms -> 0 < m) /\ get_log_likelihood L key batch p = Ok (key', Fin (poisson_R ds ms))).
  { intros w key I. destruct (H w key I) as (key' & h & E & Lh & G).
    assert (exists ms, h = map Fin ms /\ forall m, In m ms -> 0 < m) as (ms & -> & Pm).
    { clear - G. induction h as [|x h IH]; [exists []; split; [reflexivity|intros m []]|].
      destruct IH as (ms & -> & Pm); [intros; apply G; right; assumption|]. destruct (G x (or_introl eq_refl)) as (y & -> & Py).
      exists (y :: ms). split; [reflexivity|]. intros m [<-|Hm]; [exact Py|apply Pm, Hm]. }
    rewrite map_length in Lh. exists key', ms. repeat (split; [assumption|]). unfold get_log_likelihood. rewrite E. unfold log_likelihood_of.
    replace (existsb (fun x => fle x (Fin 0)) (map Fin ms)) with false.
    2:{ symmetry. apply existsb_false. intros x Hx. exact (proj1 (good_bin_ok x (G x Hx))). }
    replace (existsb is_nan (map Fin ms)) with false.
    2:{ symmetry. apply existsb_false. intros x Hx. exact (proj1 (proj2 (good_bin_ok x (G x Hx)))). }
    replace (existsb is_inf (map Fin ms)) with false.
    2:{ symmetry. apply existsb_false. intros x Hx. exact (proj2 (proj2 (good_bin_ok x (G x Hx)))). }
    cbn [orb]. rewrite D, poisson_sum_Fin by (exact (eq_sym Lh) || exact Pm). reflexivity. }
  split. { intros w key I. destruct (V w key I) as (key' & ms & _ & _ & _ & E). eauto. }
  (** the model bins as functions of the key *)
  set (m i key := bin_at (fun key => simulate_model_hist L key batch (replace_alias (ll_alias L) p)) i key) in *.
  assert (Vp : forall w key, In (w, key) keys -> value_at (fun key => get_log_likelihood L key batch p) key = poisson_R ds (map (fun i => m i key) (seq 0 (List.length ds))) /\
     forall i, (i < List.length ds)%nat -> 0 < m i key).
  { intros w key I. destruct (V w key I) as (key' & ms & E & Lh & Pm & G). unfold value_at. rewrite G. cbn [number].
    assert (Em : forall i, (i < List.length ds)%nat -> m i key = nth i ms 0).
    { intros i Li. unfold m, bin_at. rewrite E. rewrite (nth_indep _ NaN (Fin 0)) by (rewrite map_length, Lh; exact Li). rewrite (map_nth Fin). reflexivity. }
    split.
    - f_equal. apply (nth_ext _ _ 0 0); [rewrite Lh, map_length, seq_length; reflexivity|]. intros i Li. rewrite Lh in Li.
      rewrite (nth_indep (map (fun i => m i key) _) 0 (m 0%nat key)) by (rewrite map_length, seq_length; exact Li). rewrite (map_nth (fun i => m i key)), seq_nth by exact Li. symmetry. apply Em, Li.
    - intros i Li. rewrite (Em i Li). apply Pm, nth_In. rewrite Lh. exact Li. }
  assert (Mp : forall i, (i < List.length ds)%nat -> 0 < nth i means 0).
  { intros i Li. rewrite <- (M i Li). apply average_pos; [exact T|]. intros w key I. apply (proj2 (Vp w key I)), Li. }
  rewrite (average_ext keys _ (fun key => poisson_R ds (map (fun i => m i key) (seq 0 (List.length ds))))) by (intros w key I; exact (proj1 (Vp w key I))).
  assert (Vq : forall w key, In (w, key) keys -> forall i, (i < List.length ds)%nat -> 0 < m i key) by (intros w key I; exact (proj2 (Vp w key I))).
  clear V Vp D H. clearbody m. revert means Lm m M Mp Vq. induction ds as [|d ds IH]; intros means Lm m M Mp Vq.
  - destruct means; [|discriminate]. cbn [poisson_R List.length seq map]. right. apply average_const. exact T.
  - destruct means as [|mu means]; [discriminate|]. cbn [List.length seq map poisson_R].
    rewrite average_add. assert (B1 : average keys (fun key => d * ln (m 0%nat key) - m 0%nat key) <= d * ln mu - mu).
    + pose proof (Mp 0%nat ltac:(cbn; lia)) as Pmu. pose proof (M 0%nat ltac:(cbn; lia)) as Mmu. cbn [nth] in Pmu, Mmu.
      apply Rle_trans with (average keys (fun key => (d / mu - 1) * m 0%nat key + (d * ln mu - d) * 1)).
      * apply average_le; [exact T|]. intros w key I. pose proof (Vq w key I 0%nat ltac:(cbn; lia)) as Pk.
        pose proof (ln_tangent _ _ Pk Pmu) as Tn. pose proof (P d (or_introl eq_refl)) as Pd.
        assert (d * ln (m 0%nat key) <= d * (ln mu + (m 0%nat key / mu - 1))) by (apply Rmult_le_compat_l; assumption).
        unfold Rdiv in *. lra.
      * rewrite average_add, (average_scal keys (m 0%nat)), (average_scal keys (fun _ => 1)), Mmu, (proj2 T). right. field. lra.
    + assert (B2 : average keys (fun key => poisson_R ds (map (fun i => m i key) (seq 1 (List.length ds)))) <= poisson_R ds means); [|lra].
      rewrite (average_ext keys _ (fun key => poisson_R ds (map (fun i => m (S i) key) (seq 0 (List.length ds))))).
      * apply (IH (fun x Hx => P x (or_intror Hx)) means ltac:(cbn in Lm; lia) (fun i => m (S i))).
        -- intros i Li. apply (M (S i)). cbn. lia.
        -- intros i Li. apply (Mp (S i)). cbn. lia.
        -- intros w key I i Li. apply (Vq w key I). cbn. lia.
      * intros w key _. rewrite <- seq_shift, map_map. reflexivity.
Qed.

Lemma iadd_zeros h (data : list fl) : List.length h = List.length data -> iadd (map (fun _ => Fin 0) data) h = Ok (map (fun x => fadd (Fin 0) x) h).
Proof.
  intros E. unfold iadd. rewrite map_length, E, Nat.eqb_refl. f_equal. revert data E. induction h as [|x h IH]; intros [|d data] E; try discriminate; [reflexivity|].
  cbn [map combine fst snd]. f_equal. apply IH. injection E as E. exact E.
Qed.

Section Single.
  Context {K : Type}.
  Variable oor : list (list fl) -> nat -> list fl.
  Variable c : cnum.
  Variable sim : K -> nat -> params -> result (K * list (list fl)).
  Variables (batch : nat) (p : params) (keys : SpecSignals.dist K) (events : SpecSignals.dist (list fl)) (r : R).
  Variables (name : string) (needed all_needed : list string) (ds : list R).
  Hypothesis Hb : binning_ok (n_bins c).
  Hypothesis Hr : get (n_rate c) p = Some (Fin r).
  Hypothesis Hi : independent sim batch p keys events.
  Hypothesis Hp : proper (n_no_eff c) (n_bins c) events.
  Hypothesis Hn : n_norm c = OnSim.
  Hypothesis Hm : n_mcinput c = Ok None.
  Hypothesis He : n_add_eps c = false.
  Hypothesis Hpos : (0 < batch)%nat.
  Hypothesis Hd : List.length ds = List.length (bins_of (n_bins c)).
  Notation hist := (fun key => sim_hist oor c sim key batch p).
  Notation added := (share (n_no_eff c)).
  (** A likelihood with one simulated component and no aliases. *)
  Definition single : llh K := mk_llh [(name, mk_lcomp needed (LSim (sim_hist oor c sim)))] all_needed [] (map Fin ds).

  Lemma single_hist w key : In (w, key) keys -> exists key' h, hist key = Ok (key', map Fin h) /\ List.length h = List.length ds /\
    simulate_model_hist single key batch p = Ok (key', map Fin h).
  Proof.
    intros I. destruct (on_sim_value oor c sim batch p keys events r Hb Hr Hi Hp Hn Hm Hpos w key He I) as (key' & h & H & Eh & _).
    rewrite <- (map_map (fun P => r * sum_of (added P) (rows_at sim batch p key) / INR batch) Fin) in Eh.
    set (hs := map (fun P => r * sum_of (added P) (rows_at sim batch p key) / INR batch) (bins_of (n_bins c))) in Eh.
    exists key', hs. split; [rewrite <- Eh; exact H|]. assert (L : List.length hs = List.length ds) by (unfold hs; rewrite map_length, Hd; reflexivity). split; [exact L|].
    unfold simulate_model_hist, single. cbn [ll_components ll_alias ll_data replace_alias sum_components l_kind]. rewrite H, Eh.
    rewrite iadd_zeros by (rewrite !map_length; exact L). do 2 f_equal. rewrite map_map. apply map_ext. intros x. rewrite fadd_Fin. f_equal. lra.
  Qed.

  Lemma single_bin w key i : In (w, key) keys -> (i < List.length ds)%nat -> bin_at (fun key => simulate_model_hist single key batch p) i key = bin_at hist i key.
  Proof. intros I Li. destruct (single_hist w key I) as (key' & h & H & _ & M). unfold bin_at. rewrite H, M. reflexivity. Qed.

  (** Of one simulated component: the average log likelihood is at most that of the expected histogram
      if no key leaves a bin empty; *)
  Theorem C114_single : (forall d, In d ds -> 0 <= d) ->
    (forall w key i, In (w, key) keys -> (i < List.length ds)%nat -> 0 < bin_at hist i key) ->
    average keys (value_at (fun key => get_log_likelihood single key batch p)) <=
    poisson_R ds (map (fun P => r * average events (added P)) (bins_of (n_bins c))).
  Proof.
    intros Pd Pb. apply C114_log_likelihood.
    - exact (i_keys _ _ _ _ _ Hi).
    - reflexivity.
    - exact Pd.
    - rewrite map_length. symmetry. exact Hd.
    - intros w key I. destruct (single_hist w key I) as (key' & h & H & L & M). exists key', (map Fin h). split; [exact M|]. split; [rewrite map_length; exact L|].
      intros x Hx. destruct (In_nth _ _ NaN Hx) as (i & Li & <-). rewrite map_length, L in Li. specialize (Pb w key i I Li). unfold bin_at in Pb. rewrite H in Pb.
      rewrite (nth_indep _ NaN (Fin 0)) in * by (rewrite map_length, L; exact Li). rewrite (map_nth Fin) in *. exists (nth i h 0). split; [reflexivity|exact Pb].
    - intros i Li. cbn [ll_alias single replace_alias]. rewrite (average_ext keys _ (bin_at hist i)) by (intros w key I; apply (single_bin w key i I Li)).
      destruct (C114_unbiased oor c sim batch p keys events r Hb Hr Hi Hp Hn Hm Hpos He i ltac:(rewrite <- Hd; exact Li)) as (-> & _).
      rewrite (nth_indep _ 0 (r * average events (added (fun _ => false)))) by (rewrite map_length, <- Hd; exact Li).
      rewrite (map_nth (fun P => r * average events (added P))). reflexivity.
  Qed.

  (** and with at least the chance that no event adds to a bin the log likelihood is minus infinity,
      whatever the data. *)
  Theorem C114_minus_infinity_refuted : r <> 0 -> forall i, (i < List.length ds)%nat ->
    chance events (fun x => zero (added (bin_of (n_bins c) i) x)) ^ batch <= chance keys (minus_infinity (fun key => get_log_likelihood single key batch p)).
  Proof.
    intros R0 i Li. rewrite <- (C114_empty oor c sim batch p keys events r Hb Hr Hi Hp Hn Hm Hpos He R0 i) by (rewrite <- Hd; exact Li).
    unfold chance. apply average_le; [exact (i_keys _ _ _ _ _ Hi)|]. intros w key I. unfold zero. destruct (Req_EM_T (bin_at hist i key) 0) as [Z|Z].
    2:{ destruct (minus_infinity _ _); lra. }
    destruct (single_hist w key I) as (key' & h & H & L & M). unfold bin_at in Z. rewrite H in Z.
    unfold minus_infinity, get_log_likelihood. cbn [ll_alias single replace_alias]. fold single. rewrite M. unfold log_likelihood_of.
    replace (existsb (fun x => fle x (Fin 0)) (map Fin h)) with true; [lra|]. symmetry. apply existsb_exists. exists (nth i (map Fin h) NaN).
    split; [apply nth_In; rewrite map_length, L; exact Li|]. rewrite (nth_indep _ NaN (Fin 0)) in * by (rewrite map_length, L; exact Li). rewrite (map_nth Fin) in *.
    cbn [number] in Z. rewrite Z. cbn. destruct (Rle_dec 0 0); [reflexivity|lra].
  Qed.
End Single.

(* ------------------------------------------------------------------ *)
(** * Concrete instances *)

(** A simulation whose key is the batch itself, with independent events. *)
Definition batch_sim (key : list (list fl)) (_ : nat) (_ : params) : result (list (list fl) * list (list fl)) := Ok (key, key).
Lemma batch_independent events batch p : total events -> independent batch_sim batch p (draws events batch) events.
Proof.
  intros T. split; [apply draws_total; exact T|exact T| |reflexivity].
  intros w key I. destruct (draws_in _ _ _ _ I) as [L S]. exists key, key. split; [reflexivity|]. split; assumption.
Qed.

(** Half of the events are in the first bin, a quarter in the second with efficiency 1/2, the others in none. *)
Definition some_events : SpecSignals.dist (list fl) := [(1/2, [Fin (1/2); Fin 1]); (1/4, [Fin (3/2); Fin (1/2)]); (1/4, [Fin 5; Fin 1])].
Definition on_sim (eps : bool) : cnum := mk_cnum "r" OnSim eps false two_bins (Ok None).
Lemma some_total : total some_events.
Proof. split; [intros w x [E|[E|[E|[]]]]; injection E as <- _; lra|cbn; lra]. Qed.
Lemma some_proper : proper false two_bins some_events.
Proof. intros w x [E|[E|[E|[]]]]; injection E as _ <-; (split; [reflexivity|]); eexists; (split; [reflexivity|lra]). Qed.
Lemma in_first x : bin_of two_bins 0 [Fin x] = if Rlt_dec 0 x then if Rle_dec x 1 then true else false else false.
Proof. unfold bin_of. cbn. unfold right_bin, in_bin, edge. cbn. destruct (Rlt_dec 0 x), (Rle_dec x 1); reflexivity. Qed.
Lemma in_second x : bin_of two_bins 1 [Fin x] = if Rlt_dec 1 x then if Rle_dec x 2 then true else false else false.
Proof. unfold bin_of. cbn. unfold right_bin, in_bin, edge. cbn. destruct (Rlt_dec 1 x), (Rle_dec x 2); reflexivity. Qed.
Lemma two_in_bins o : in_bins two_bins o = (bin_of two_bins 0 o || bin_of two_bins 1 o)%bool.
Proof. unfold in_bins, bin_of, two_bins, bins_of, bin_numbers. cbn [List.length Nat.sub seq map existsb nth]. rewrite Bool.orb_false_r. reflexivity. Qed.
Ltac bin_cases := unfold share; cbn [sim_event event observables weight removelast last fst snd]; rewrite ?two_in_bins, ?in_first, ?in_second;
  repeat (match goal with |- context [Rlt_dec ?a ?b] => destruct (Rlt_dec a b); try lra | |- context [Rle_dec ?a ?b] => destruct (Rle_dec a b); try lra end); cbn [orb number].

(** Rate 10: at every batch size the bins are 5 and 5/4 on average, the first with variance 25 over the
    batch size; with probability (1/2)^batch it is empty. *)
Example C114_unbiased_case batch : (0 < batch)%nat ->
  let hist := fun key => sim_hist no_row (on_sim false) batch_sim key batch ten in
  average (draws some_events batch) (bin_at hist 0) = 5 /\ average (draws some_events batch) (bin_at hist 1) = 5 / 4 /\
  variance (draws some_events batch) (bin_at hist 0) = 25 / INR batch /\
  average (draws some_events batch) (total_at hist) = 25 / 4 /\
  chance (draws some_events batch) (fun key => zero (bin_at hist 0 key)) = (1 / 2) ^ batch.
Proof.
  intros Hpos hist. pose proof (lt_0_INR _ Hpos) as Hpb. pose proof (batch_independent some_events batch ten some_total) as Hi.
  pose proof (C114_unbiased no_row (on_sim false) batch_sim batch ten _ _ 10 two_bins_ok eq_refl Hi some_proper eq_refl eq_refl Hpos eq_refl) as U.
  destruct (U 0%nat ltac:(cbn; lia)) as (M0 & V0 & _). destruct (U 1%nat ltac:(cbn; lia)) as (M1 & _ & _).
  destruct (C114_total no_row (on_sim false) batch_sim batch ten _ _ 10 two_bins_ok eq_refl Hi some_proper eq_refl eq_refl Hpos eq_refl) as (MT & _).
  pose proof (C114_empty no_row (on_sim false) batch_sim batch ten _ _ 10 two_bins_ok eq_refl Hi some_proper eq_refl eq_refl Hpos eq_refl ltac:(lra) 0%nat ltac:(cbn; lia)) as Z.
  cbn [on_sim n_bins n_no_eff] in *.
  assert (A0 : average some_events (share false (bin_of two_bins 0)) = 1 / 2). { unfold average, some_events. cbn [fold_right fst snd]. bin_cases. lra. }
  assert (A1 : average some_events (share false (bin_of two_bins 1)) = 1 / 8). { unfold average, some_events. cbn [fold_right fst snd]. bin_cases. lra. }
  assert (AT : average some_events (share false (in_bins two_bins)) = 5 / 8). { unfold average, some_events. cbn [fold_right fst snd]. bin_cases. lra. }
  assert (AV : variance some_events (share false (bin_of two_bins 0)) = 1 / 4). { unfold variance. rewrite A0. unfold average, some_events. cbn [fold_right fst snd]. bin_cases. lra. }
  assert (AZ : chance some_events (fun x => zero (share false (bin_of two_bins 0) x)) = 1 / 2).
  { unfold chance, average, some_events. cbn [fold_right fst snd]. bin_cases. unfold zero. destruct (Req_EM_T 1 0), (Req_EM_T 0 0); lra. }
  split; [unfold hist; rewrite M0, A0; lra|]. split; [unfold hist; rewrite M1, A1; lra|]. split; [unfold hist; rewrite V0, AV; field; lra|].
  split; [unfold hist; rewrite MT, AT; lra|]. unfold hist. rewrite Z, AZ. reflexivity.
Qed.

(** Normalised on the histogram with a batch of one event the first bin is 5 on average if the event is
    as often in the first bin with efficiency 1 as in the second with efficiency 1/2; the expected
    share of the first bin is two thirds of 10. *)
Definition uneven_events : SpecSignals.dist (list fl) := [(1/2, [Fin (1/2); Fin 1]); (1/2, [Fin (3/2); Fin (1/2)])].
Lemma uneven_total : total uneven_events.
Proof. split; [intros w x [E|[E|[]]]; injection E as <- _; lra|cbn; lra]. Qed.
Lemma uneven_proper : proper false two_bins uneven_events.
Proof. intros w x [E|[E|[]]]; injection E as _ <-; (split; [reflexivity|]); eexists; (split; [reflexivity|lra]). Qed.

Theorem C114_on_pdf_refuted :
  independent batch_sim 1 ten (draws uneven_events 1) uneven_events /\ proper false two_bins uneven_events /\
  average (draws uneven_events 1) (bin_at (fun key => sim_hist no_row (plain false false two_bins) batch_sim key 1 ten) 0) = 5 /\
  10 * (average uneven_events (share false (bin_of two_bins 0)) / average uneven_events (share false (in_bins two_bins))) = 20 / 3.
Proof.
  pose proof (batch_independent uneven_events 1 ten uneven_total) as Hi.
  split; [exact Hi|]. split; [exact uneven_proper|]. split.
  - rewrite (law batch_sim 1 ten (draws uneven_events 1) uneven_events Hi _
      (fun rows => 10 * (sum_of (share false (bin_of two_bins 0)) rows / sum_of (share false (in_bins two_bins)) rows))).
    + unfold uneven_events, average, sum_of. cbn [draws flat_map map fst snd app fold_right]. bin_cases. field.
    + intros w key I. destruct (on_pdf_value no_row (plain false false two_bins) batch_sim 1 ten _ _ 10 two_bins_ok eq_refl Hi uneven_proper eq_refl eq_refl w key I) as (key' & H).
      unfold bin_at. rewrite H. cbn [plain n_bins n_no_eff]. set (s := sum_of (share false (in_bins two_bins)) (rows_at batch_sim 1 ten key)).
      assert (s <> 0).
      { unfold s. cbn [draws uneven_events flat_map map fst snd app] in I. destruct I as [E|[E|[]]]; injection E as _ <-; unfold sum_of, rows_at, batch_sim; cbn [map fold_right]; bin_cases; lra. }
      rewrite on_pdf_factor by assumption. cbn [bins_of two_bins bin_numbers List.length Nat.sub seq map scale nth]. rewrite fmul_Fin. cbn [number].
      change (fun r => right_bin [Fin 0; Fin 1; Fin 2] 0 (obs 0 r)) with (bin_of two_bins 0). field. assumption.
  - unfold average, uneven_events. cbn [fold_right fst snd]. bin_cases. field.
Qed.

(** Of [some_events] a quarter adds to no bin: two events are enough only in 15 of 16 cases. *)
Example C114_on_pdf_case :
  chance (draws some_events 2) (not_a_number (fun key => sim_hist no_row (plain false false two_bins) batch_sim key 2 ten)) = 1 / 16.
Proof.
  rewrite (C114_on_pdf_nan no_row (plain false false two_bins) batch_sim 2 ten _ _ 10 two_bins_ok eq_refl (batch_independent some_events 2 ten some_total) some_proper eq_refl eq_refl).
  cbn [plain n_bins n_no_eff]. unfold chance, average, some_events. cbn [fold_right fst snd]. bin_cases. unfold zero. destruct (Req_EM_T 1 0), (Req_EM_T (1/2) 0), (Req_EM_T 0 0); lra.
Qed.

(** Events of the first bin and of the second in the ratio 3 to 1, all with efficiency 1/2: a case for [C114_on_pdf_same]. *)
Definition same_events : SpecSignals.dist (list fl) := [(3/4, [Fin (1/2); Fin (1/2)]); (1/4, [Fin (3/2); Fin (1/2)])].
Example C114_on_pdf_same_case batch : (0 < batch)%nat ->
  average (draws same_events batch) (bin_at (fun key => sim_hist no_row (plain false false two_bins) batch_sim key batch ten) 0) = 15 / 2.
Proof.
  intros Hpos. assert (T : total same_events) by (split; [intros w x [E|[E|[]]]; injection E as <- _; lra|cbn; lra]).
  assert (P : proper false two_bins same_events) by (intros w x [E|[E|[]]]; injection E as _ <-; (split; [reflexivity|]); eexists; (split; [reflexivity|lra])).
  rewrite (C114_on_pdf_same no_row (plain false false two_bins) batch_sim batch ten _ _ 10 two_bins_ok eq_refl (batch_independent same_events batch ten T) P eq_refl eq_refl Hpos (1/2) 0%nat ltac:(lra) ltac:(cbn; lia)).
  - cbn [plain n_bins n_no_eff]. unfold average, same_events. cbn [fold_right fst snd]. bin_cases. field.
  - intros w x [E|[E|[]]]; injection E as _ <-; cbn [plain n_bins n_no_eff]; bin_cases; lra.
Qed.

(** No event of [first_events] is in the second bin: with the floor it holds more than 10 over the batch size. *)
Definition first_events : SpecSignals.dist (list fl) := [(1, [Fin (1/2); Fin 1])].
Example C114_floor_case batch : (0 < batch)%nat ->
  average (draws first_events batch) (bin_at (fun key => sim_hist no_row (on_sim true) batch_sim key batch ten) 1) = 10 * (ModelLikelihood.eps + 1) / INR batch.
Proof.
  intros Hpos. assert (T : total first_events) by (split; [intros w x [E|[]]; injection E as <- _; lra|cbn; lra]).
  assert (P : proper false two_bins first_events) by (intros w x [E|[]]; injection E as _ <-; (split; [reflexivity|]); eexists; (split; [reflexivity|lra])).
  destruct (C114_floor_impossible_refuted no_row (on_sim true) batch_sim batch ten _ _ 10 two_bins_ok eq_refl (batch_independent first_events batch ten T) P eq_refl eq_refl Hpos eq_refl 1%nat ltac:(cbn; lia)) as [_ E].
  - intros w x [F|[]]. injection F as _ <-. cbn [on_sim n_bins n_no_eff sim_event event observables removelast fst]. rewrite in_second. destruct (Rlt_dec 1 (1/2)); [lra|reflexivity].
  - rewrite E. cbn [on_sim n_bins n_no_eff]. replace (average first_events (share false (fun _ => true))) with 1; [reflexivity|].
    unfold average, first_events, share. cbn. lra.
Qed.

(** One bin and events that fill it with efficiency 1 or 1/2: no key leaves it empty. *)
Definition one_bin : binning := BMesh1 [Fin 0; Fin 2].
Lemma one_bin_ok : binning_ok one_bin.
Proof.
  split; [|cbn; lia]. cbn. repeat split; try discriminate; intros x Hx;
    repeat (destruct Hx as [<-|Hx]; [cbn; fl_dec; reflexivity|]); destruct Hx.
Qed.
Definition one_comp : cnum := mk_cnum "r" OnSim false false one_bin (Ok None).
Example C114_single_case :
  average (draws uneven_events 1) (value_at (fun key => get_log_likelihood (single no_row one_comp batch_sim "er" [] [] [8]) key 1 ten)) <= 8 * ln (15 / 2) - 15 / 2.
Proof.
  assert (S : forall x, 0 < x -> x < 2 -> bin_of one_bin 0 [Fin x] = true).
  { intros x A B. unfold bin_of. cbn. unfold left_bin, in_bin_left, edge. cbn. destruct (Rle_dec 0 x), (Rle_dec x 2); try lra; reflexivity. }
  assert (P : proper false one_bin uneven_events) by (intros w x [E|[E|[]]]; injection E as _ <-; (split; [reflexivity|]); eexists; (split; [reflexivity|lra])).
  pose proof (batch_independent uneven_events 1 ten uneven_total) as Hi.
  eapply Rle_trans; [apply (C114_single no_row one_comp batch_sim 1 ten (draws uneven_events 1) uneven_events 10 "er"%string [] [] [8] one_bin_ok eq_refl Hi P eq_refl eq_refl eq_refl (le_n 1) eq_refl)|].
  - intros d [<-|[]]. lra.
  - intros w key i I Li. assert (i = 0%nat) as -> by (cbn in Li; lia).
    rewrite (bin_value no_row one_comp batch_sim 1 ten (draws uneven_events 1) uneven_events 10 one_bin_ok eq_refl Hi P eq_refl eq_refl (le_n 1) w key 0 eq_refl I) by (cbn; lia).
    cbn [draws uneven_events flat_map map fst snd app] in I. destruct I as [E|[E|[]]]; injection E as _ <-; unfold sum_of, rows_at, batch_sim; cbn [map fold_right]; unfold share;
      cbn [one_comp n_bins n_no_eff sim_event event observables weight removelast last fst snd]; rewrite S by lra; cbn; lra.
  - cbn [one_comp n_bins n_no_eff one_bin bins_of bin_numbers List.length Nat.sub seq map poisson_R].
    change (fun r => left_bin [Fin 0; Fin 2] 0 (obs 0 r)) with (bin_of one_bin 0).
    replace (average uneven_events (share false (bin_of one_bin 0))) with (3 / 4).
    + right. replace (10 * (3 / 4)) with (15 / 2) by lra. lra.
    + unfold average, uneven_events, share. cbn [fold_right fst snd sim_event event observables weight removelast last]. rewrite !S by lra. cbn. lra.
Qed.

(** With [some_events] and one event per batch the log likelihood is minus infinity at least in half of the cases. *)
Example C114_minus_infinity_case :
  1 / 2 <= chance (draws some_events 1) (minus_infinity (fun key => get_log_likelihood (single no_row (on_sim false) batch_sim "er" [] [] [8; 3]) key 1 ten)).
Proof.
  eapply Rle_trans; [|apply (C114_minus_infinity_refuted no_row (on_sim false) batch_sim 1 ten (draws some_events 1) some_events 10 "er"%string [] [] [8; 3] two_bins_ok eq_refl
    (batch_independent some_events 1 ten some_total) some_proper eq_refl eq_refl eq_refl (le_n 1) eq_refl ltac:(lra) 0%nat ltac:(cbn; lia))].
  cbn [on_sim n_bins n_no_eff pow]. unfold chance, average, some_events. cbn [fold_right fst snd]. bin_cases. unfold zero. destruct (Req_EM_T 1 0), (Req_EM_T 0 0); lra.
Qed.

Print Assumptions C114_unbiased.
Print Assumptions C114_total.
Print Assumptions C114_empty.
Print Assumptions C114_floor.
Print Assumptions C114_floor_impossible_refuted.
Print Assumptions C114_on_pdf_nan.
Print Assumptions C114_on_pdf_same.
Print Assumptions C114_log_likelihood.
Print Assumptions C114_single.
Print Assumptions C114_minus_infinity_refuted.
Print Assumptions C114_on_pdf_refuted.
