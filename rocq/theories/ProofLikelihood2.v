(** Lemmas about normalisation, the floor, the Poisson sum and repeated simulation. *)
From Coq Require Import Reals Lra Permutation.
From Verif Require Import Base BaseFacts ModelFloat ModelHist ModelLikelihood
  SpecHist SpecLikelihood ProofFloat ProofHist ProofLikelihood.
Local Open Scope list_scope.
Local Open Scope R_scope.

(* ------------------------------------------------------------------ *)
(** * Normalisation *)

Lemma fmul_Fin x y : fmul (Fin x) (Fin y) = Fin (x * y).
Proof. reflexivity. Qed.

Lemma finv_Fin x : x <> 0 -> finv (Fin x) = Fin (/ x).
Proof. intros H. unfold finv. destruct (Req_EM_T x 0); [contradiction|reflexivity]. Qed.

Lemma finv_0 : finv (Fin 0) = PInf.
Proof. unfold finv. destruct (Req_EM_T 0 0); [reflexivity|lra]. Qed.

Lemma inf_times_not_fin x r : inf_times x <> Fin r.
Proof. unfold inf_times. destruct (total_order_T x 0) as [[?|?]|?]; discriminate. Qed.

Lemma inf_times_0 : inf_times 0 = NaN.
Proof. unfold inf_times. destruct (total_order_T 0 0) as [[?|?]|?]; [lra|reflexivity|lra]. Qed.

Lemma scale_Fin f xs : scale (Fin f) (map Fin xs) = map Fin (map (fun x => x * f) xs).
Proof. unfold scale. rewrite !map_map. reflexivity. Qed.

Lemma on_pdf_factor s rate : s <> 0 ->
  fmul (fdiv (Fin 1) (Fin s)) (Fin rate) = Fin (/ s * rate).
Proof.
  intros Hs. unfold fdiv. rewrite finv_Fin by exact Hs. rewrite !fmul_Fin. f_equal. lra.
Qed.

Lemma scaled_total_nz h s rate : fsum h = Fin s -> s <> 0 ->
  fsum (scale (fmul (fdiv (Fin 1) (fsum h)) (Fin rate)) h) = Fin rate.
Proof.
  intros Hh Hs. rewrite Hh, on_pdf_factor by exact Hs.
  apply fsum_Fin_inv in Hh. destruct Hh as (rs & -> & Hr).
  rewrite scale_Fin, fsum_Fin, rsum_scale, Hr. f_equal. field. exact Hs.
Qed.

Lemma fsum_all_fin l t : fsum l = Fin t -> forall x, In x l -> exists r, x = Fin r.
Proof.
  intros H x Hx. apply fsum_Fin_inv in H. destruct H as (rs & -> & _).
  apply in_map_iff in Hx. destruct Hx as (r & <- & _). eauto.
Qed.

Lemma all_fin_fsum l : (forall x, In x l -> exists r, x = Fin r) -> exists rs, l = map Fin rs.
Proof.
  induction l as [|x l IH]; intros H; [exists []; reflexivity|].
  destruct (H x (or_introl eq_refl)) as [r ->].
  destruct IH as [rs ->]; [intros y Hy; apply H; right; exact Hy|]. exists (r :: rs). reflexivity.
Qed.

(** A finite total after normalisation is the rate. *)
Lemma scaled_total h rate t : h <> [] ->
  fsum (scale (fmul (fdiv (Fin 1) (fsum h)) (Fin rate)) h) = Fin t -> t = rate.
Proof.
  intros Hne H. destruct (fsum h) as [s| | |] eqn:Hh.
  - destruct (Req_EM_T s 0) as [->|Hs].
    + exfalso. unfold fdiv in H. rewrite finv_0 in H.
      destruct h as [|x h]; [contradiction|].
      destruct (fsum_all_fin _ _ Hh x (or_introl eq_refl)) as [y ->].
      destruct (fsum_all_fin _ _ H _ (or_introl eq_refl)) as [z Hz]. revert Hz.
      cbn [fmul]. unfold inf_times.
      repeat (destruct (total_order_T _ _) as [[?|?]|?]; cbn [fneg fmul]; try discriminate);
      unfold inf_times; repeat (destruct (total_order_T _ _) as [[?|?]|?]; cbn [fneg fmul]; try discriminate); lra.
    + pose proof (scaled_total_nz h s rate Hh Hs) as H2. rewrite Hh in H2. congruence.
  - exfalso. (* some entry is not finite; times zero *)
    unfold fdiv in H. cbn [finv] in H. rewrite !fmul_Fin in H.
    assert (Hz : 1 * 0 * rate = 0) by lra. rewrite Hz in H.
    assert (Hall : forall x, In x h -> exists r, x = Fin r).
    { intros x Hx. destruct (fsum_all_fin _ _ H (fmul x (Fin 0))) as [z Hzz].
      { unfold scale. apply in_map_iff. eauto. }
      destruct x; [eauto|..]; cbn [fmul] in Hzz; try rewrite inf_times_0 in Hzz; discriminate. }
    destruct (all_fin_fsum h Hall) as [rs ->]. rewrite fsum_Fin in Hh. discriminate.
  - exfalso.
    unfold fdiv in H. cbn [finv] in H. rewrite !fmul_Fin in H.
    assert (Hz : 1 * 0 * rate = 0) by lra. rewrite Hz in H.
    assert (Hall : forall x, In x h -> exists r, x = Fin r).
    { intros x Hx. destruct (fsum_all_fin _ _ H (fmul x (Fin 0))) as [z Hzz].
      { unfold scale. apply in_map_iff. eauto. }
      destruct x; [eauto|..]; cbn [fmul] in Hzz; try rewrite inf_times_0 in Hzz; discriminate. }
    destruct (all_fin_fsum h Hall) as [rs ->]. rewrite fsum_Fin in Hh. discriminate.
  - exfalso. destruct h as [|x h]; [contradiction|].
    destruct (fsum_all_fin _ _ H _ (or_introl eq_refl)) as [z Hz]. revert Hz.
    unfold fdiv. cbn. destruct x; discriminate.
Qed.

(* ------------------------------------------------------------------ *)
(** * Non-negative histograms and the floor *)

Lemma nonneg_add a b : nonneg a -> nonneg b -> nonneg (fadd a b).
Proof.
  intros (x & -> & Hx) (y & -> & Hy). exists (x + y). rewrite fadd_Fin. split; [reflexivity|lra].
Qed.

Lemma at_add_nonneg w : nonneg w -> forall h i, Forall nonneg h -> Forall nonneg (at_add i w h).
Proof.
  intros Hw. induction h as [|x h IH]; intros i Hh; [destruct i; exact Hh|].
  inversion Hh as [|? ? Hx Hr]; subst. destruct i; simpl; constructor; auto using nonneg_add.
Qed.

Lemma at_add2_nonneg w : nonneg w -> forall h i j,
  Forall (Forall nonneg) h -> Forall (Forall nonneg) (at_add2 i j w h).
Proof.
  intros Hw. induction h as [|x h IH]; intros i j Hh; [destruct i; exact Hh|].
  inversion Hh as [|? ? Hx Hr]; subst. destruct i; simpl; constructor; auto using at_add_nonneg.
Qed.

Lemma Forall_tl {A} (P : A -> Prop) l : Forall P l -> Forall P (tl l).
Proof. intros H. destruct H; simpl; auto. Qed.

Lemma Forall_removelast {A} (P : A -> Prop) l : Forall P l -> Forall P (removelast l).
Proof.
  induction 1 as [|x l Hx Hl IH]; simpl; [constructor|]. destruct l; [constructor|]. constructor; auto.
Qed.

Lemma Forall_trim {A} (P : A -> Prop) l : Forall P l -> Forall P (trim l).
Proof. intros H. apply Forall_removelast, Forall_tl, H. Qed.

Lemma Forall_repeat {A} (P : A -> Prop) x n : P x -> Forall P (repeat x n).
Proof. intros H. induction n; simpl; constructor; auto. Qed.

Lemma fold_nonneg {E} (idx : E -> nat) (w : E -> fl) events : forall h,
  (forall e, In e events -> nonneg (w e)) -> Forall nonneg h ->
  Forall nonneg (fold_left (fun h e => at_add (idx e) (w e) h) events h).
Proof.
  induction events as [|e events IH]; simpl; intros h Hw Hh; [exact Hh|].
  apply IH; [auto|]. apply at_add_nonneg; auto.
Qed.

Lemma fold2_nonneg {E} (ix iy : E -> nat) (w : E -> fl) events : forall h,
  (forall e, In e events -> nonneg (w e)) -> Forall (Forall nonneg) h ->
  Forall (Forall nonneg) (fold_left (fun h e => at_add2 (ix e) (iy e) (w e) h) events h).
Proof.
  induction events as [|e events IH]; simpl; intros h Hw Hh; [exact Hh|].
  apply IH; [auto|]. apply at_add2_nonneg; auto.
Qed.

Lemma Forall_concat {A} (P : A -> Prop) l : Forall (Forall P) l -> Forall P (List.concat l).
Proof.
  induction 1; simpl; [constructor|]. apply Forall_app. auto.
Qed.

Lemma nonneg_0 : nonneg (Fin 0).
Proof. exists 0. split; [reflexivity|lra]. Qed.

Lemma combine_snd_In {A} (xs : list A) (es : list fl) e :
  In e (combine xs es) -> In (snd e) es.
Proof. destruct e as [a b]. intros H. apply in_combine_r in H. exact H. Qed.

Section Floor.
  Variable oor : list (list fl) -> nat -> list fl.

  Lemma plain_hist_nonneg b mc eff h : (forall e, In e eff -> nonneg e) ->
    plain_hist oor b mc eff = Ok h -> Forall nonneg h.
  Proof.
    intros He H.
    assert (Hs : forall {A} (xs : list A) e, In e (combine xs eff) -> nonneg (snd e)).
    { intros A xs e Hin. apply He. exact (combine_snd_In xs eff e Hin). }
    destruct b; simpl in H; try discriminate; injection H as <-.
    - apply Forall_trim. apply fold_nonneg; [apply Hs|]. apply Forall_repeat, nonneg_0.
    - apply Forall_concat. unfold hist_2d. apply Forall_map. eapply Forall_impl; [|apply Forall_trim].
      + intros r Hr. apply Forall_trim. exact Hr.
      + apply fold2_nonneg; [apply Hs|]. apply Forall_repeat, Forall_repeat, nonneg_0.
    - apply Forall_trim. apply fold_nonneg; [apply Hs|]. apply Forall_repeat, nonneg_0.
    - apply Forall_concat. unfold hist_mesh_2d. apply Forall_map. eapply Forall_impl; [|apply Forall_trim].
      + intros r Hr. apply Forall_trim. exact Hr.
      + apply fold2_nonneg; [apply Hs|]. apply Forall_repeat, Forall_repeat, nonneg_0.
  Qed.

  Lemma fmean_Fin es : es <> [] -> fmean (map Fin es) = Fin (mean es).
  Proof.
    intros Hne. unfold fmean, fdiv, mean. rewrite fsum_Fin, map_length.
    rewrite finv_Fin; [reflexivity|]. apply not_0_INR. destruct es; [contradiction|discriminate].
  Qed.

  Lemma fclip_PInf x lo : fclip (Fin x) (Fin lo) PInf = Fin (Rmax x lo).
  Proof.
    unfold fclip, fmax, fmin. simpl. unfold Rmax. destruct (Rle_dec x lo); reflexivity.
  Qed.

  Lemma eps_pos : 0 < eps.
  Proof. unfold eps. apply Rdiv_lt_0_compat; [lra|]. apply pow_lt. lra. Qed.

  Lemma mean_nonneg es : (forall e, In e es -> 0 <= e) -> 0 <= mean es.
  Proof.
    intros H. unfold mean. destruct es as [|e es]; [simpl; unfold Rdiv; lra|].
    apply Rmult_le_pos; [apply (rsum_nonneg (e :: es)), H|]. left. apply Rinv_0_lt_compat.
    apply lt_0_INR. simpl. lia.
  Qed.

  Lemma nonneg_list l : (forall e, In e l -> nonneg e) ->
    exists es, l = map Fin es /\ forall e, In e es -> 0 <= e.
  Proof.
    induction l as [|x l IH]; intros H; [exists []; split; [reflexivity|intros ? []]|].
    destruct (H x (or_introl eq_refl)) as (r & -> & Hr).
    destruct IH as (es & -> & Hes); [intros; apply H; right; assumption|].
    exists (r :: es). split; [reflexivity|]. intros e [<-|He]; auto.
  Qed.

  Lemma floor_spec b mc es h : es <> [] -> (forall e, In e es -> 0 <= e) ->
    implement_binning oor true b mc (map Fin es) = Ok h ->
    exists h0, implement_binning oor false b mc (map Fin es) = Ok h0 /\
      List.length h = List.length h0 /\
      forall i, (i < List.length h)%nat ->
        exists v0, entry h0 i = Fin v0 /\ 0 <= v0 /\ entry h i = Fin (Rmax v0 (eps + mean es)).
  Proof.
    intros Hne Hpos. unfold implement_binning.
    destruct (plain_hist oor b mc (map Fin es)) as [h0|e] eqn:Hp; [|discriminate].
    intros H. injection H as <-. exists h0. split; [reflexivity|].
    unfold floor_hist. split; [apply map_length|]. rewrite map_length. intros i Hi.
    assert (Hnn : Forall nonneg h0).
    { eapply plain_hist_nonneg; [|exact Hp]. intros e He. apply in_map_iff in He.
      destruct He as (r & <- & Hr). exists r. auto. }
    rewrite Forall_forall in Hnn. destruct (Hnn (nth i h0 NaN) (nth_In _ _ Hi)) as (v0 & Hv & Hv0).
    exists v0. unfold entry. split; [exact Hv|]. split; [exact Hv0|].
    rewrite (nth_indep _ NaN (fclip NaN (fadd (Fin eps) (fmean (map Fin es))) PInf))
      by (rewrite map_length; exact Hi).
    rewrite (map_nth (fun x => fclip x (fadd (Fin eps) (fmean (map Fin es))) PInf)), Hv.
    rewrite fmean_Fin by exact Hne. rewrite fadd_Fin. apply fclip_PInf.
  Qed.

  Lemma floor_positive b mc eff h : eff <> [] -> (forall e, In e eff -> nonneg e) ->
    implement_binning oor true b mc eff = Ok h -> forall x, In x h -> good_bin x.
  Proof.
    intros Hne Hpos H x Hx. destruct (nonneg_list eff Hpos) as (es & -> & Hes).
    assert (Hne' : es <> []) by (intros ->; apply Hne; reflexivity).
    destruct (floor_spec b mc es h Hne' Hes H) as (h0 & _ & _ & He).
    apply (In_nth _ _ NaN) in Hx. destruct Hx as (i & Hi & <-).
    destruct (He i Hi) as (v0 & _ & Hv0 & Hv). unfold entry in Hv. exists (Rmax v0 (eps + mean es)).
    split; [exact Hv|]. pose proof eps_pos. pose proof (mean_nonneg es Hes).
    pose proof (Rmax_r v0 (eps + mean es)). lra.
  Qed.

  Lemma good_list l : (forall x, In x l -> good_bin x) ->
    exists xs, l = map Fin xs /\ forall x, In x xs -> 0 < x.
  Proof.
    induction l as [|x l IH]; intros H; [exists []; split; [reflexivity|intros ? []]|].
    destruct (H x (or_introl eq_refl)) as (r & -> & Hr).
    destruct IH as (es & -> & Hes); [intros; apply H; right; assumption|].
    exists (r :: es). split; [reflexivity|]. intros e [<-|He]; auto.
  Qed.

  Lemma rsum_pos xs : xs <> [] -> (forall x, In x xs -> 0 < x) -> 0 < rsum xs.
  Proof.
    intros Hne H. destruct xs as [|x xs]; [contradiction|]. simpl.
    assert (0 < x) by (apply H; left; reflexivity).
    assert (0 <= rsum xs); [|lra]. apply rsum_nonneg. intros y Hy. left. apply H. right. exact Hy.
  Qed.

  Lemma normalise_good h rate : (forall x, In x h -> good_bin x) ->
    (0 < rate -> forall x, In x (scale (fmul (fdiv (Fin 1) (fsum h)) (Fin rate)) h) -> good_bin x) /\
    (0 <= rate -> forall x, In x (scale (fmul (fdiv (Fin 1) (fsum h)) (Fin rate)) h) -> nonneg x).
  Proof.
    intros H. destruct (good_list h H) as (xs & -> & Hxs).
    destruct xs as [|x0 xs0]; [simpl; split; intros _ x []|]. set (xs := x0 :: xs0) in *.
    assert (Hs : 0 < rsum xs) by (apply rsum_pos; [discriminate|exact Hxs]).
    rewrite fsum_Fin, on_pdf_factor by lra. rewrite scale_Fin.
    assert (Hi : 0 < / rsum xs) by (apply Rinv_0_lt_compat, Hs).
    split; intros Hr x Hx; apply in_map_iff in Hx; destruct Hx as (y & <- & Hy);
      apply in_map_iff in Hy; destruct Hy as (z & <- & Hz); exists (z * (/ rsum xs * rate));
      (split; [reflexivity|]); specialize (Hxs z Hz).
    - apply Rmult_lt_0_compat; [exact Hxs|]. apply Rmult_lt_0_compat; assumption.
    - apply Rmult_le_pos; [lra|]. apply Rmult_le_pos; lra.
  Qed.

  (** Components of a likelihood. *)
  Lemma sim_hist_inv {K} c sim (key : K) b p key' h :
    n_norm c = OnPdf -> sim_hist oor c sim key b p = Ok (key', h) ->
    exists rows h0 r, sim key b p = Ok (key', rows) /\
      implement_binning oor (n_add_eps c) (n_bins c) (fst (split_rows (n_no_eff c) rows))
        (snd (split_rows (n_no_eff c) rows)) = Ok h0 /\
      get (n_rate c) p = Some r /\ h = scale (fmul (fdiv (Fin 1) (fsum h0)) r) h0.
  Proof.
    intros Hn. unfold sim_hist. destruct (sim key b p) as [[k rows]|e]; [|discriminate].
    destruct (split_rows (n_no_eff c) rows) as [mc eff] eqn:Hs.
    destruct (forallb _ mc); [|discriminate].
    destruct (implement_binning oor (n_add_eps c) (n_bins c) mc eff) as [h0|e] eqn:Hi; [|discriminate].
    rewrite Hn. unfold get_normalization. destruct (get (n_rate c) p) as [r|] eqn:Hr; [|discriminate].
    intros H. injection H as <- <-. exists rows, h0, r. rewrite Hs. auto.
  Qed.

  Lemma fixed_hist_inv c data p h :
    n_norm c = OnPdf -> fixed_hist oor c data p = Ok h ->
    exists h0 r,
      implement_binning oor (n_add_eps c) (n_bins c) data (map (fun _ => Fin 1) data) = Ok h0 /\
      get (n_rate c) p = Some r /\ h = scale (fmul (fdiv (Fin 1) (fsum h0)) r) h0.
  Proof.
    intros Hn. unfold fixed_hist, fixed_deduce.
    destruct (implement_binning oor (n_add_eps c) (n_bins c) data _) as [h0|e] eqn:Hi; [|discriminate].
    rewrite Hn. unfold get_normalization. destruct (get (n_rate c) p) as [r|] eqn:Hr; [|discriminate].
    intros H. injection H as <-. exists h0, r. auto.
  Qed.

  Lemma scale_nil f h : scale f h = [] -> h = [].
  Proof. unfold scale. destruct h; [auto|discriminate]. Qed.

  Lemma sim_hist_total {K} c sim (key : K) b p key' h r t :
    n_norm c = OnPdf -> get (n_rate c) p = Some (Fin r) ->
    sim_hist oor c sim key b p = Ok (key', h) -> h <> [] -> fsum h = Fin t -> t = r.
  Proof.
    intros Hn Hr H Hne Ht. destruct (sim_hist_inv c sim key b p key' h Hn H) as (rows & h0 & r' & _ & _ & Hr' & ->).
    rewrite Hr in Hr'. injection Hr' as <-. eapply scaled_total; [|exact Ht].
    intros ->. apply Hne. reflexivity.
  Qed.

  Lemma fixed_hist_total c data p h r t :
    n_norm c = OnPdf -> get (n_rate c) p = Some (Fin r) ->
    fixed_hist oor c data p = Ok h -> h <> [] -> fsum h = Fin t -> t = r.
  Proof.
    intros Hn Hr H Hne Ht. destruct (fixed_hist_inv c data p h Hn H) as (h0 & r' & _ & Hr' & ->).
    rewrite Hr in Hr'. injection Hr' as <-. eapply scaled_total; [|exact Ht].
    intros ->. apply Hne. reflexivity.
  Qed.

  Lemma sim_hist_total_nz {K} c sim (key : K) b p key' h r :
    n_norm c = OnPdf -> get (n_rate c) p = Some (Fin r) ->
    sim_hist oor c sim key b p = Ok (key', h) ->
    exists rows h0, sim key b p = Ok (key', rows) /\
      implement_binning oor (n_add_eps c) (n_bins c) (fst (split_rows (n_no_eff c) rows))
        (snd (split_rows (n_no_eff c) rows)) = Ok h0 /\
      (forall s, fsum h0 = Fin s -> s <> 0 -> fsum h = Fin r).
  Proof.
    intros Hn Hr H. destruct (sim_hist_inv c sim key b p key' h Hn H) as (rows & h0 & r' & H1 & H2 & Hr' & ->).
    rewrite Hr in Hr'. injection Hr' as <-. exists rows, h0. split; [exact H1|]. split; [exact H2|].
    intros s Hs Hnz. exact (scaled_total_nz h0 s r Hs Hnz).
  Qed.
End Floor.

(** The total of the model is the total of the components' totals. *)
Lemma fsum_add_pointwise {A} (f g : A -> fl) l :
  fsum (map (fun i => fadd (f i) (g i)) l) = fadd (fsum (map f l)) (fsum (map g l)).
Proof.
  induction l as [|a l IH]; simpl map.
  - unfold fsum. simpl. rewrite fadd_0_l. reflexivity.
  - rewrite !fsum_cons, IH. rewrite !fadd_assoc. f_equal. rewrite <- !fadd_assoc. f_equal. apply fadd_comm.
Qed.

Lemma fsum_zero {A} (l : list A) : fsum (map (fun _ => Fin 0) l) = Fin 0.
Proof. induction l as [|a l IH]; [reflexivity|]. simpl map. rewrite fsum_cons, IH. apply fadd_0_l. Qed.

Lemma column_sums_total xs n : (forall x, In x xs -> List.length x = n) ->
  fsum (map (column_sum xs) (seq 0 n)) = fsum (map fsum xs).
Proof.
  induction xs as [|x xs IH]; intros Hl.
  - unfold column_sum. simpl. apply fsum_zero.
  - simpl map at 2. rewrite fsum_cons, <- IH by (intros; apply Hl; right; assumption).
    rewrite (map_ext (column_sum (x :: xs)) (fun i => fadd (entry x i) (column_sum xs i))).
    2:{ intros i. unfold column_sum. simpl map. apply fsum_cons. }
    rewrite fsum_add_pointwise. f_equal. rewrite <- (Hl x (or_introl eq_refl)).
    rewrite <- list_as_entries. reflexivity.
Qed.

Lemma model_total {K} (L : llh K) key b p key' h :
  simulate_model_hist L key b p = Ok (key', h) ->
  exists xs ys, sim_chain b (replace_alias (ll_alias L) p) (ll_components L) key xs key' /\
    fixed_hists (replace_alias (ll_alias L) p) (ll_components L) ys /\
    (forall x, In x (xs ++ ys) -> List.length x = List.length (ll_data L)) /\
    fsum h = fsum (map fsum (xs ++ ys)).
Proof.
  intros H. destruct (model_hist_entries L key b p key' h H) as (xs & ys & H1 & H2 & H3 & H4 & H5).
  exists xs, ys. split; [exact H1|]. split; [exact H2|]. split; [exact H3|].
  rewrite <- (column_sums_total (xs ++ ys) (List.length (ll_data L)) H3).
  rewrite (list_as_entries h), H4. f_equal. apply map_ext_in. intros i Hi.
  apply in_seq in Hi. apply H5. lia.
Qed.
