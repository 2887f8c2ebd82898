(** C137: what of a simulation matters for its histogram. *)
From Coq Require Import Reals Lra Lia Permutation.
From Verif Require Import Base BaseFacts ModelFloat ModelHist ModelLikelihood ModelBinning
  SpecHist SpecLikelihood SpecWeighted SpecBinning
  ProofFloat ProofHist ProofLikelihood ProofLikelihood2 ProofWeighted ProofBinning PropHist PropBinning PropDataFile.
Local Open Scope string_scope.
Local Open Scope list_scope.

Lemma combine_maps {A B C} (f : A -> B) (g : A -> C) l : combine (map f l) (map g l) = map (fun a => (f a, g a)) l.
Proof. induction l as [|a l IH]; [reflexivity|]. cbn [map combine]. rewrite IH. reflexivity. Qed.
Definition ev (no_eff : bool) (r : list fl) : list fl := if no_eff then r else removelast r.
Definition wt (no_eff : bool) (r : list fl) : fl := if no_eff then Fin 1 else last r NaN.
Lemma split_maps no_eff rows : split_rows no_eff rows = (map (ev no_eff) rows, map (wt no_eff) rows).
Proof. unfold split_rows, ev, wt. destruct no_eff; [rewrite map_id|]; reflexivity. Qed.
Lemma binned_perm b l l' : Permutation l l' -> binned b l = binned b l'.
Proof. intros P. unfold binned. apply map_ext. intros Q. apply weight_of_perm, P. Qed.
Lemma forallb_perm {A} (f : A -> bool) l l' : Permutation l l' -> forallb f l = forallb f l'.
Proof.
  intros P. apply Bool.eq_true_iff_eq. rewrite !forallb_forall. split; intros H x Hx; apply H; [apply (Permutation_in x (Permutation_sym P))|apply (Permutation_in x P)]; exact Hx.
Qed.

(** The order of the simulated events does not matter. *)
Theorem C137_order {K} oor c (sim sim' : K -> nat -> params -> result (K * list (list fl))) key n p key' rows rows' : binning_ok (n_bins c) ->
  sim key n p = Ok (key', rows) -> sim' key n p = Ok (key', rows') -> Permutation rows rows' ->
  sim_hist oor c sim key n p = sim_hist oor c sim' key n p.
Proof.
  intros Hb H H' P. unfold sim_hist. rewrite H, H', !split_maps.
  rewrite (forallb_perm _ _ _ (Permutation_map (ev (n_no_eff c)) P)). destruct (forallb _ _); [|reflexivity].
  unfold implement_binning. rewrite !(plain_hist_binned oor _ _ _ Hb), !combine_maps.
  rewrite (binned_perm _ _ _ (Permutation_map (fun a => (ev (n_no_eff c) a, wt (n_no_eff c) a)) P)).
  assert (E : fmean (map (wt (n_no_eff c)) rows) = fmean (map (wt (n_no_eff c)) rows')).
  { unfold fmean. rewrite !map_length, (Permutation_length P), (fsum_perm _ _ (Permutation_map (wt (n_no_eff c)) P)). reflexivity. }
  unfold floor_hist. rewrite E. reflexivity.
Qed.

Lemma fadd_zero x : fadd (Fin 0) x = x.
Proof. destruct x; unfold fadd; try reflexivity. f_equal. apply Rplus_0_l. Qed.
Lemma weight_drop {E} (w : E -> fl) P f l : (forall e, In e l -> f e = false -> w e = Fin 0) -> weight_of w P (filter f l) = weight_of w P l.
Proof.
  unfold weight_of. induction l as [|e l IH]; intros H; [reflexivity|]. cbn [filter].
  specialize (IH (fun x Hx => H x (or_intror Hx))). destruct (f e) eqn:Hf; cbn [filter]; destruct (P e); cbn [map]; rewrite ?fsum_cons, ?IH; try reflexivity.
  rewrite (H e (or_introl eq_refl) Hf), fadd_zero. reflexivity.
Qed.

(** Events with efficiency zero may as well be removed, as multiple_simulations does, unless there is a floor. *)
Theorem C137_rejected {K} oor c (sim sim' : K -> nat -> params -> result (K * list (list fl))) key n p key' rows keep_it :
  binning_ok (n_bins c) -> n_add_eps c = false -> n_no_eff c = false ->
  (forall r, In r rows -> List.length r = S (ndim (n_bins c))) ->
  (forall r, In r rows -> keep_it r = false -> last r NaN = Fin 0) ->
  sim key n p = Ok (key', rows) -> sim' key n p = Ok (key', filter keep_it rows) ->
  sim_hist oor c sim' key n p = sim_hist oor c sim key n p.
Proof.
  intros Hb Ha Hn Hl Hk H H'. unfold sim_hist. rewrite H, H', !split_maps, Ha, Hn.
  assert (A : forall l, (forall r, In r l -> In r rows) -> forallb (fun r => Nat.eqb (List.length r) (ndim (n_bins c))) (map (ev false) l) = true).
  { intros l Hi. apply forallb_forall. intros r Hr. apply in_map_iff in Hr as (q & <- & Hq). apply Nat.eqb_eq. cbn [ev].
    specialize (Hl q (Hi q Hq)). destruct q as [|x q] using rev_ind; [discriminate|]. rewrite removelast_last. rewrite app_length in Hl. cbn in Hl. lia. }
  rewrite (A rows) by auto. rewrite (A (filter keep_it rows)) by (intros r Hr; apply filter_In in Hr; apply Hr).
  unfold implement_binning. rewrite !(plain_hist_binned oor _ _ _ Hb), !combine_maps.
  assert (E : binned (n_bins c) (map (fun a => (ev false a, wt false a)) (filter keep_it rows)) = binned (n_bins c) (map (fun a => (ev false a, wt false a)) rows)).
  { unfold binned. apply map_ext. intros Q. unfold weight_of. rewrite !filter_map_comm, !map_map. cbn [fst snd].
    exact (weight_drop (wt false) (fun r => Q (ev false r)) keep_it rows Hk). }
  rewrite E. reflexivity.
Qed.

(** The histogram of two batches is the sum of the two. *)
Theorem C137_joined oor b mc eff mc' eff' h h' : binning_ok b -> List.length mc = List.length eff ->
  plain_hist oor b mc eff = Ok h -> plain_hist oor b mc' eff' = Ok h' ->
  plain_hist oor b (mc ++ mc') (eff ++ eff') = Ok (map (fun e => fadd (fst e) (snd e)) (combine h h')).
Proof.
  intros Hb Hl H H'. rewrite (plain_hist_binned oor _ _ _ Hb) in H. rewrite (plain_hist_binned oor _ _ _ Hb) in H'. rewrite (plain_hist_binned oor _ _ _ Hb). injection H as <-. injection H' as <-. f_equal.
  assert (E : combine (mc ++ mc') (eff ++ eff') = combine mc eff ++ combine mc' eff').
  { revert eff Hl. induction mc as [|x l IH]; intros [|y m] Hl; try discriminate; [reflexivity|]. cbn [app combine]. f_equal. apply IH. injection Hl as Hl. exact Hl. }
  rewrite E. unfold binned. induction (bins_of b) as [|P l IH]; [reflexivity|]. cbn [map combine fst snd]. f_equal; [apply weight_of_app|exact IH].
Qed.

Lemma fsum_scaled a l : (forall x, In x l -> exists r, x = Fin r) -> fsum (map (fmul (Fin a)) l) = fmul (Fin a) (fsum l) /\ exists r, fsum l = Fin r.
Proof.
  induction l as [|x l IH]; intros H.
  - split; [cbn [map fsum fold_right fmul]; f_equal; symmetry; apply Rmult_0_r|exists 0%R; reflexivity].
  - destruct (IH (fun y Hy => H y (or_intror Hy))) as (E & r & Er). destruct (H x (or_introl eq_refl)) as (s & ->). cbn [map].
    rewrite !fsum_cons, E, Er. cbn [fmul]. rewrite !fadd_Fin. cbn [fmul]. split; [f_equal; ring|eauto].
Qed.

(** With on_pdf the unit of the efficiency does not matter. *)
Theorem C137_unit {K} oor c (sim sim' : K -> nat -> params -> result (K * list (list fl))) key n p key' rows rows' a q : binning_ok (n_bins c) ->
  n_add_eps c = false -> n_no_eff c = false -> n_norm c = OnPdf -> get (n_rate c) p = Some (Fin q) -> (a <> 0)%R ->
  Forall2 (fun r r' => exists x w, r = x ++ [Fin w] /\ r' = x ++ [Fin (a * w)]) rows rows' ->
  sim key n p = Ok (key', rows) -> sim' key n p = Ok (key', rows') ->
  (forall h, plain_hist oor (n_bins c) (map (@removelast fl) rows) (map (fun r => last r NaN) rows) = Ok h -> fsum h <> Fin 0) ->
  sim_hist oor c sim' key n p = sim_hist oor c sim key n p.
Proof.
  intros Hb Ha Hn Hnorm Hq Hpos Hr H H' Hz. unfold sim_hist. rewrite H, H', Ha, Hn. unfold split_rows.
  assert (E1 : map (@removelast fl) rows' = map (@removelast fl) rows).
  { clear - Hr. induction Hr as [|r r' l l' (x & w & -> & ->) _ IH]; [reflexivity|]. cbn [map]. rewrite !removelast_last, IH. reflexivity. }
  assert (E2 : map (fun r => last r NaN) rows' = map (fmul (Fin a)) (map (fun r => last r NaN) rows)).
  { clear - Hr. induction Hr as [|r r' l l' (x & w & -> & ->) _ IH]; [reflexivity|]. cbn [map]. rewrite !last_last, IH. reflexivity. }
  assert (Fw : forall x, In x (map (fun r => last r NaN) rows) -> exists r, x = Fin r).
  { clear - Hr. induction Hr as [|r r' l l' (x & w & -> & ->) _ IH]; cbn [map]; [intros x []|]. intros y [<-|Hy]; [rewrite last_last; eauto|auto]. }
  rewrite E1, E2. destruct (forallb _ _); [|reflexivity]. unfold implement_binning. rewrite !(plain_hist_binned oor _ _ _ Hb).
  pose proof (Hz _ (plain_hist_binned oor _ _ _ Hb)) as Hz'. rewrite Hnorm. cbn [get_normalization]. rewrite Hq.
  clear Hz. rename Hz' into Hz. set (eff := map (fun r => last r NaN) rows) in *. set (mc := map (@removelast fl) rows) in *.
  assert (B : binned (n_bins c) (combine mc (map (fmul (Fin a)) eff)) = map (fmul (Fin a)) (binned (n_bins c) (combine mc eff)) /\
    forall x, In x (binned (n_bins c) (combine mc eff)) -> exists r, x = Fin r).
  { assert (W : forall P : list fl -> bool, weight_of snd (fun e => P (fst e)) (combine mc (map (fmul (Fin a)) eff)) = fmul (Fin a) (weight_of snd (fun e => P (fst e)) (combine mc eff)) /\
      exists r, weight_of snd (fun e => P (fst e)) (combine mc eff) = Fin r).
    { intros P. unfold weight_of. 
      assert (M : map snd (filter (fun e => P (fst e)) (combine mc (map (fmul (Fin a)) eff))) = map (fmul (Fin a)) (map snd (filter (fun e => P (fst e)) (combine mc eff)))).
      { clear - mc. generalize mc. clear mc. revert eff. induction eff as [|w l IH]; intros [|x m]; cbn [map combine filter]; try reflexivity.
        cbn [fst]. destruct (P x); cbn [map snd]; rewrite IH; reflexivity. }
      rewrite M. apply fsum_scaled. intros x Hx. apply in_map_iff in Hx as ((u, v) & <- & Hx). apply filter_In in Hx as [Hx _].
      apply in_combine_r in Hx. cbn. apply Fw, Hx. }
    unfold binned. split.
    - rewrite map_map. apply map_ext. intros P. apply W.
    - intros x Hx. apply in_map_iff in Hx as (P & <- & _). apply W. }
  destruct B as [B1 B2]. rewrite B1. set (h := binned (n_bins c) (combine mc eff)) in *. destruct (fsum_scaled a h B2) as (S1 & s & S2). rewrite S1, S2 in *.
  f_equal. f_equal. unfold scale. rewrite map_map. apply map_ext_in. intros x Hx. destruct (B2 x Hx) as (r & ->).
  assert (Hs : s <> 0%R) by congruence.
  cbn [fmul]. unfold fdiv, finv. 
  destruct (Req_EM_T (a * s) 0) as [e|_]; [apply Rmult_integral in e; tauto|]. destruct (Req_EM_T s 0) as [e|_]; [tauto|].
  cbn [fmul]. f_equal. field. auto.
Qed.

(** ** Cases *)
Definition two_bins (add_eps : bool) : cnum := mk_cnum "rate" OnPdf add_eps false (BIrreg1 [Fin 0; Fin 1; Fin 2]) (Ok None).
Definition gives (rows : list (list fl)) : nat -> nat -> params -> result (nat * list (list fl)) := fun k _ _ => Ok (S k, rows).
Definition three_rows : list (list fl) := [[Fin (1 / 2); Fin 1]; [Fin (1 / 2); Fin 0]; [Fin (3 / 2); Fin (1 / 2)]].
Lemma two_ok : binning_ok (BIrreg1 [Fin 0; Fin 1; Fin 2]).
Proof.
  split; [|cbn; lia]. cbn. repeat split; try discriminate; intros x Hx;
    repeat (destruct Hx as [<-|Hx]; [fl_eval; reflexivity|]); destruct Hx.
Qed.
Lemma three_hist oor : plain_hist oor (BIrreg1 [Fin 0; Fin 1; Fin 2]) (map (@removelast fl) three_rows) (map (fun r => last r NaN) three_rows) = Ok [Fin 1; Fin (1 / 2)].
Proof.
  rewrite (plain_hist_binned oor _ _ _ two_ok). unfold binned, bins_of, bin_numbers, weight_of, right_bin, in_bin, three_rows, edge, obs. cbn. fl_eval. cbn.
  rewrite !fadd_Fin. f_equal. f_equal; [|f_equal]; f_equal; lra.
Qed.
Example C137_case oor : let p := [("rate", Fin 6)] in let c := two_bins false in
  sim_hist oor c (gives three_rows) 0 3 p = Ok (1, [Fin 4; Fin 2]) /\
  sim_hist oor c (gives (rev three_rows)) 0 3 p = Ok (1, [Fin 4; Fin 2]) /\
  sim_hist oor c (gives [[Fin (1 / 2); Fin 1]; [Fin (3 / 2); Fin (1 / 2)]]) 0 3 p = Ok (1, [Fin 4; Fin 2]) /\
  sim_hist oor c (gives [[Fin (1 / 2); Fin 10]; [Fin (1 / 2); Fin 0]; [Fin (3 / 2); Fin 5]]) 0 3 p = Ok (1, [Fin 4; Fin 2]).
Proof.
  intros p c.
  assert (E : sim_hist oor c (gives three_rows) 0 3 p = Ok (1, [Fin 4; Fin 2])).
  { unfold sim_hist, gives, split_rows. cbn [n_no_eff c two_bins]. change (forallb _ _) with true. unfold implement_binning. cbn [n_bins n_add_eps]. rewrite three_hist.
    assert (S : fsum [Fin 1; Fin (1 / 2)] = Fin (3 / 2)) by (rewrite !fsum_cons; cbn [fsum fold_right]; rewrite !fadd_Fin; f_equal; lra).
    cbn -[fsum fdiv fmul]. rewrite S. unfold fdiv, finv. destruct (Req_EM_T _ _) as [e|e]; [exfalso; lra|]. rewrite !fmul_Fin.
    f_equal. f_equal. f_equal; [|f_equal]; f_equal; field. }
  split; [exact E|]. rewrite <- E. split; [|split].
  - symmetry. exact (C137_order oor c (gives three_rows) (gives (rev three_rows)) 0 3 p 1 _ _ two_ok eq_refl eq_refl (Permutation_rev three_rows)).
  - apply (C137_rejected oor c (gives three_rows) _ 0 3 p 1 three_rows (fun r => flt (Fin 0) (last r NaN)) two_ok eq_refl eq_refl).
    + intros r Hr. repeat (destruct Hr as [<-|Hr]; [reflexivity|]). destruct Hr.
    + intros r Hr. repeat (destruct Hr as [<-|Hr]; [cbn; destruct (Rlt_dec _ _); intros; try discriminate; try reflexivity; exfalso; lra|]). destruct Hr.
    + reflexivity.
    + unfold gives, three_rows. f_equal. f_equal. cbn. repeat destruct Rlt_dec; try reflexivity; exfalso; lra.
  - apply (C137_unit oor c (gives three_rows) _ 0 3 p 1 three_rows [[Fin (1 / 2); Fin 10]; [Fin (1 / 2); Fin 0]; [Fin (3 / 2); Fin 5]] 10 6 two_ok eq_refl eq_refl eq_refl eq_refl ltac:(lra)); try reflexivity.
    + unfold three_rows. repeat (constructor; [eexists [_], _; split; [reflexivity|cbn; repeat f_equal; lra]|]). constructor.
    + intros h Hh. rewrite three_hist in Hh. injection Hh as <-. rewrite !fsum_cons. cbn [fsum fold_right]. rewrite !fadd_Fin. intros Hz. injection Hz. lra.
Qed.

(** With a floor the rejected events count: the floor is the mean of the efficiencies. *)
Theorem C137_floor_refuted : exists (c : cnum) (rows : list (list fl)) (keep_it : list fl -> bool),
  binning_ok (n_bins c) /\ n_no_eff c = false /\ (forall r, In r rows -> List.length r = S (ndim (n_bins c))) /\
  (forall r, In r rows -> keep_it r = false -> last r NaN = Fin 0) /\
  forall oor, exists h h', sim_hist oor c (gives rows) 0 3 [("rate", Fin 6)] = Ok (1, h) /\ sim_hist oor c (gives (filter keep_it rows)) 0 3 [("rate", Fin 6)] = Ok (1, h') /\
    exists x x', entry h 1 = Fin x /\ entry h' 1 = Fin x' /\ (x < x')%R.
Proof.
  exists (two_bins true), three_rows, (fun r => flt (Fin 0) (last r NaN)). split; [exact two_ok|]. split; [reflexivity|].
  split; [intros r Hr; repeat (destruct Hr as [<-|Hr]; [reflexivity|]); destruct Hr|].
  split; [intros r Hr; repeat (destruct Hr as [<-|Hr]; [cbn; destruct (Rlt_dec _ _); intros; try discriminate; try reflexivity; exfalso; lra|]); destruct Hr|].
  assert (F : filter (fun r => flt (Fin 0) (last r NaN)) three_rows = [[Fin (1 / 2); Fin 1]; [Fin (3 / 2); Fin (1 / 2)]]).
  { unfold three_rows. cbn. repeat destruct Rlt_dec; try reflexivity; exfalso; lra. }
  rewrite F. pose proof eps_pos as He. intros oor.
  assert (P2 : plain_hist oor (BIrreg1 [Fin 0; Fin 1; Fin 2]) [[Fin (1 / 2)]; [Fin (3 / 2)]] [Fin 1; Fin (1 / 2)] = Ok [Fin 1; Fin (1 / 2)]).
  { rewrite (plain_hist_binned oor _ _ _ two_ok). unfold binned, bins_of, bin_numbers, weight_of, right_bin, in_bin, edge, obs. cbn. fl_eval. cbn.
    rewrite !fadd_Fin. f_equal. f_equal; [|f_equal]; f_equal; lra. }
  assert (M1 : fmean (map (fun r => last r NaN) three_rows) = Fin (1 / 2)).
  { unfold fmean, three_rows. cbn [map last List.length]. rewrite !fsum_cons. cbn [fsum fold_right]. rewrite !fadd_Fin. unfold fdiv, finv. cbn [INR].
    destruct (Req_EM_T _ _); [exfalso; lra|]. rewrite fmul_Fin. f_equal. field. }
  assert (M2 : fmean [Fin 1; Fin (1 / 2)] = Fin (3 / 4)).
  { unfold fmean. cbn [List.length]. rewrite !fsum_cons. cbn [fsum fold_right]. rewrite !fadd_Fin. unfold fdiv, finv. cbn [INR].
    destruct (Req_EM_T _ _); [exfalso; lra|]. rewrite fmul_Fin. f_equal. field. }
  assert (E10 : (eps < / 8)%R) by (unfold eps; lra).
  assert (V1 : floor_hist (map (fun r => last r NaN) three_rows) [Fin 1; Fin (1 / 2)] = [Fin 1; Fin (eps + 1 / 2)]).
  { unfold floor_hist. rewrite M1, fadd_Fin. generalize dependent eps. intros e He E10. cbn [map]. unfold fclip, fmin, fmax. fl_eval. reflexivity. }
  assert (V2 : floor_hist [Fin 1; Fin (1 / 2)] [Fin 1; Fin (1 / 2)] = [Fin 1; Fin (eps + 3 / 4)]).
  { unfold floor_hist. rewrite M2, fadd_Fin. generalize dependent eps. intros e He E10. cbn [map]. unfold fclip, fmin, fmax. fl_eval. reflexivity. }
  unfold sim_hist, gives, split_rows. cbn [n_no_eff two_bins]. change (forallb _ (map _ three_rows)) with true. unfold implement_binning. cbn [n_bins n_add_eps n_norm n_rate n_mcinput].
  rewrite three_hist, V1. cbn [map removelast last forallb List.length two_bins n_bins n_add_eps n_norm n_rate n_mcinput ndim Nat.eqb andb]. rewrite P2, V2.
  clear V1 V2 M1 M2 P2. revert He E10. generalize eps. intros e He E10.
  cbn -[fsum fdiv fmul]. rewrite !fsum_cons. cbn [fsum fold_right]. rewrite !fadd_Fin. unfold fdiv, finv. repeat (destruct (Req_EM_T _ _); [exfalso; lra|]). rewrite !fmul_Fin.
  eexists _, _. split; [reflexivity|]. split; [reflexivity|]. cbn [entry nth]. eexists _, _. split; [reflexivity|]. split; [reflexivity|].
  assert (L : forall u : R, (0 < u)%R -> (u * (1 * / (1 + (u + 0)) * 6) = 6 - 6 * / (1 + u))%R) by (intros u Hu; field; lra).
  rewrite !L by lra. apply Rplus_lt_compat_l, Ropp_lt_contravar, Rmult_lt_compat_l; [lra|]. apply Rinv_lt_contravar; nra.
Qed.

Print Assumptions C137_order.
Print Assumptions C137_rejected.
Print Assumptions C137_joined.
Print Assumptions C137_unit.
Print Assumptions C137_floor_refuted.
