(** C119: histograms with coarser bins. *)
From Coq Require Import Reals Lra Lia Permutation.
From Verif Require Import Base BaseFacts ModelFloat ModelHist ModelLikelihood SpecHist SpecLikelihood SpecRate SpecRebin
  ProofFloat ProofHist ProofLikelihood ProofLikelihood2 ProofLikelihood3 ProofParameter ProofBinning ProofRate ProofRebin PropHist.
Local Open Scope string_scope.
Local Open Scope list_scope.

(** Leaving out inner edges adds the contents of the bins between those that stay: for every events and weights. *)
Theorem C119_hist oor b b' gs mc eff h : coarsening b b' gs -> plain_hist oor b mc eff = Ok h ->
  plain_hist oor b' mc eff = Ok (merged gs h) /\ grouping gs (List.length h).
Proof.
  intros Hc H. split; [exact (coarsening_hist _ _ _ _ _ _ _ Hc H)|]. rewrite (plain_hist_length _ _ _ _ _ H). exact (coarsening_grouping _ _ _ Hc).
Qed.

(** Adding up a row of a histogram in two dimensions: the histogram in one dimension of the events inside the other axis. *)
Theorem C119_project fx fy events i : sorted fx -> sorted fy -> 2 <= List.length fy -> S i < List.length fx ->
  fsum (nth i (hist_mesh_2d fx fy events) [])
  = entry (hist_mesh_1d fx (map (fun e => (fst (fst e), snd e))
      (filter (fun e => fle (edge fy 0) (snd (fst e)) && fle (snd (fst e)) (edge fy (List.length fy - 1))) events))) i.
Proof.
  intros Hx Hy Hl Hi. destruct (mesh_2d_shape fx fy events) as (_ & Hr & _).
  rewrite hist_mesh_1d_entry by assumption. rewrite weight_map, weight_filter. cbn [fst snd].
  rewrite (list_as_entries (nth i (hist_mesh_2d fx fy events) [])), (Hr i ltac:(lia)).
  transitivity (weight_of snd (fun e : fl * fl * fl => cell_left fy 0 (List.length fy - 1) (snd (fst e)) && cell_left fx i (S i) (fst (fst e))) events).
  2:{ apply weight_of_ext. intros e _. rewrite (cell_left_whole fy _ Hy Hl). apply andb_comm. }
  rewrite (cell_sum (cell_left fy) (List.length fy - 1) (cell_left_split fy Hy) (cell_left_apart fy Hy) snd (fun e : fl * fl * fl => snd (fst e)) _ events 0 (List.length fy - 1)) by lia.
  rewrite Nat.sub_0_r. f_equal. apply map_ext_in. intros j Hj. apply in_seq in Hj.
  change (entry (nth i (hist_mesh_2d fx fy events) []) j) with (entry2 (hist_mesh_2d fx fy events) i j).
  rewrite hist_mesh_2d_entry by (try assumption; lia). apply weight_of_ext. intros e _. apply andb_comm.
Qed.

(** The same for rows with their own edges: the row keeps the events between its own first and last edge. *)
Theorem C119_project_irreg oor bx by_ events i : sorted bx -> List.length bx = List.length by_ + 1 ->
  (forall r, In r by_ -> sorted r /\ List.length r = row_length by_) -> 2 <= row_length by_ -> i < List.length by_ ->
  fsum (nth i (hist_2d oor bx by_ events) [])
  = entry (hist_1d bx (map (fun e => (fst (fst e), snd e))
      (filter (fun e => in_bin (edge (nth i by_ []) 0) (edge (nth i by_ []) (row_length by_ - 1)) (snd (fst e))) events))) i.
Proof.
  intros Hx Hl Hr H2 Hi. destruct (hist_2d_shape oor bx by_ events) as [S1 S2].
  rewrite hist_1d_entry by (try assumption; lia). rewrite weight_map, weight_filter. cbn [fst snd].
  assert (Hrow : In (nth i (hist_2d oor bx by_ events) []) (hist_2d oor bx by_ events)) by (apply nth_In; lia).
  rewrite (list_as_entries (nth i (hist_2d oor bx by_ events) [])), (S2 _ Hrow).
  destruct (Hr (nth i by_ []) ltac:(apply nth_In; exact Hi)) as [Hs Hlen].
  transitivity (weight_of snd (fun e : fl * fl * fl => cell_right (nth i by_ []) 0 (row_length by_ - 1) (snd (fst e)) && cell_right bx i (S i) (fst (fst e))) events).
  2:{ apply weight_of_ext. intros e _. apply andb_comm. }
  rewrite (cell_sum (cell_right (nth i by_ [])) (List.length (nth i by_ []) - 1) (cell_right_split _ Hs) (cell_right_apart _ Hs) snd (fun e : fl * fl * fl => snd (fst e)) _ events 0 (row_length by_ - 1)) by lia.
  rewrite Nat.sub_0_r. f_equal. apply map_ext_in. intros j Hj. apply in_seq in Hj.
  change (entry (nth i (hist_2d oor bx by_ events) []) j) with (entry2 (hist_2d oor bx by_ events) i j).
  rewrite (hist_2d_entry oor bx by_ events i j) by (try assumption; lia). apply weight_of_ext. intros e _. apply andb_comm.
Qed.

(** The model of a likelihood with coarser bins adds up the model with finer bins. *)
Theorem C119_model {K} oor (L L' : llh K) gs key b p k ms :
  ll_alias L' = ll_alias L -> Forall2 (rebinned oor b (replace_alias (ll_alias L) p) gs) (ll_components L) (ll_components L') ->
  grouping gs (List.length (ll_data L)) -> List.length (ll_data L') = List.length gs ->
  simulate_model_hist L key b p = Ok (k, map Fin ms) ->
  simulate_model_hist L' key b p = Ok (k, merged gs (map Fin ms)) /\ fsum (merged gs (map Fin ms)) = fsum (map Fin ms).
Proof.
  intros Ha Hc Hg Hl H. unfold simulate_model_hist in *. rewrite Ha.
  assert (F : Forall fin (map Fin ms)) by (apply Forall_forall; intros x Hx; apply in_map_iff in Hx; destruct Hx as (r & <- & _); eexists; reflexivity).
  pose proof (grouping_range _ _ Hg) as R. split.
  - rewrite (merged_zero gs (ll_data L) (ll_data L') R Hl). apply (sum_rebinned oor b _ gs _ _ Hc); [rewrite map_length; exact R|exact H|exact F].
  - apply merged_total. apply sum_components_length in H. rewrite H, map_length. exact Hg.
Qed.

(** Coarser bins fit no worse: the distance to the best conceivable log likelihood does not grow. *)
Theorem C119_deviance {K} oor (L L' : llh K) gs key b p ds ds' k v :
  separate (ll_alias L) -> NoDup (keys (ll_alias L)) -> NoDup (keys p) ->
  ll_alias L' = ll_alias L -> Forall2 (rebinned oor b (replace_alias (ll_alias L) p) gs) (ll_components L) (ll_components L') ->
  grouping gs (List.length ds) -> ll_data L = map Fin ds -> ll_data L' = map Fin ds' -> map Fin ds' = merged gs (map Fin ds) ->
  (forall d, In d ds -> 0 <= d)%R ->
  get_log_likelihood L key b p = Ok (k, Fin v) ->
  exists v', get_log_likelihood L' key b p = Ok (k, Fin v') /\ (0 <= deviance ds' v' <= deviance ds v)%R.
Proof.
  intros Hs Ha N Hal Hc Hg Hd Hd' Hm Hpos H. pose proof (grouping_range _ _ Hg) as R.
  pose proof (get_llh_cases L key b p ds Hd) as C. pose proof (get_llh_cases L' key b p ds' Hd') as C'. rewrite Hal in C'.
  destruct (simulate_model_hist L key b (replace_alias (ll_alias L) p)) as [[k0 h]|e] eqn:S0; [|rewrite C in H; discriminate].
  destruct C as [[_ C]|(ms & -> & Hms & Lm & C)]; rewrite C in H; [discriminate|]. injection H as <- <-.
  rewrite merged_Fin in Hm by exact R.
  assert (Eds : ds' = map (gsum ds) gs).
  { revert Hm. generalize (map (gsum ds) gs). clear. induction ds' as [|d ds' IH]; intros [|x l] E; try discriminate; [reflexivity|]. injection E as <- E. f_equal. apply IH, E. }
  destruct (C119_model oor L L' gs key b (replace_alias (ll_alias L) p) k0 ms) as [M _].
  - exact Hal.
  - rewrite replace_alias_idem by assumption. exact Hc.
  - rewrite Hd, map_length. exact Hg.
  - rewrite Hd', Eds, !map_length. reflexivity.
  - exact S0.
  - rewrite M in C'. rewrite merged_Fin in C' by (rewrite Lm; exact R).
    assert (Pm : forall m, In m (map (gsum ms) gs) -> (0 < m)%R).
    { intros m Hm'. apply in_map_iff in Hm'. destruct Hm' as (g & <- & Hg'). destruct Hg as [_ Hn]. unfold gsum.
      assert (Hr : forall i, In i g -> (0 < rget ms i)%R) by (intros i Hi; apply Hms, nth_In; rewrite Lm; exact (R g i Hg' Hi)).
      destruct g as [|i g]; [contradiction|]. cbn [map fold_right]. pose proof (Hr i (or_introl eq_refl)) as H0.
      assert (H1 : (0 <= fold_right Rplus 0 (map (rget ms) g))%R); [|lra]. assert (Hr' : forall j, In j g -> (0 < rget ms j)%R) by (intros j Hj; apply Hr; right; exact Hj).
      clear - Hr'. induction g as [|j g IH]; cbn; [lra|]. pose proof (Hr' j (or_introl eq_refl)). specialize (IH (fun z Hz => Hr' z (or_intror Hz))). lra. }
    destruct C' as [[(x & Hx & Hbad) _]|(ms' & E' & _ & _ & C')].
    + exfalso. apply Hbad. apply in_map_iff in Hx. destruct Hx as (m & <- & Hx). exists m. auto.
    + assert (Ems : ms' = map (gsum ms) gs).
      { revert E'. generalize (map (gsum ms) gs). clear. revert ms'. intros ms' l. revert ms'. induction l as [|d l IH]; intros [|x ms'] E; try discriminate; [reflexivity|]. injection E as <- E. f_equal. apply IH, E. }
      eexists. split; [exact C'|]. unfold deviance. rewrite Ems, Eds. split.
      * destruct (poisson_best_bound (map (gsum ds) gs) (map (gsum ms) gs)) as [B _]; [rewrite !map_length; reflexivity| |exact Pm|lra].
        intros d Hd0. apply in_map_iff in Hd0. destruct Hd0 as (g & <- & Hg'). unfold gsum. apply rsum_nonneg. intros x Hx. apply in_map_iff in Hx. destruct Hx as (i & <- & Hi).
        apply Hpos, nth_In. exact (R g i Hg' Hi).
      * apply deviance_merged; assumption.
Qed.

(** ** Cases *)

Definition fine3 : list fl := [Fin 0; Fin 1; Fin 2; Fin 3].
Lemma fine3_sorted : sorted fine3.
Proof.
  unfold fine3. cbn. repeat split; try discriminate; intros x Hx; repeat (destruct Hx as [<-|Hx]; [fl_eval; try reflexivity|]); destruct Hx.
Qed.
Lemma coarse3 : coarsening (BIrreg1 fine3) (BIrreg1 [Fin 0; Fin 1; Fin 3]) [[0]; [1; 2]].
Proof. apply (coarse_irreg fine3 [1; 3]); [exact fine3_sorted|discriminate|cbn; lia]. Qed.
Example C119_case_mesh2 : coarsening (BMesh2 fine3 fine3) (BMesh2 [Fin 0; Fin 1; Fin 3] [Fin 0; Fin 2; Fin 3]) [[0; 1]; [2]; [3; 4; 6; 7]; [5; 8]].
Proof. apply (coarse_mesh2 fine3 [1; 3] fine3 [2; 3]); try exact fine3_sorted; try discriminate; cbn; lia. Qed.

Definition rows3 : list (list fl) := [[Fin (1 / 2)%R]; [Fin (3 / 2)%R]; [Fin (3 / 2)%R]; [Fin (5 / 2)%R]].
Lemma hist3 : hist_1d fine3 [(Fin (1 / 2)%R, Fin 1); (Fin (3 / 2)%R, Fin 1); (Fin (3 / 2)%R, Fin 1); (Fin (5 / 2)%R, Fin 1)] = [Fin 1; Fin 2; Fin 1].
Proof. unfold hist_1d, searchsorted, fine3, trim. fl_eval. rewrite !fadd_Fin. repeat f_equal; lra. Qed.
Definition cnum3 (add : bool) (b : binning) : cnum := mk_cnum "ac_rate" OnPdf add false b (Err AttributeError).
Definition no_row : list (list fl) -> nat -> list fl := fun _ _ => [].
Definition llh3 (b : binning) (ds : list R) : llh nat :=
  mk_llh [("ac", mk_lcomp ["ac_rate"] (LFixed (fixed_hist no_row (cnum3 false b) rows3)))] ["ac_rate"] [] (map Fin ds).
Lemma value3 k n : get_log_likelihood (llh3 (BIrreg1 fine3) [1; 1; 2]%R) k n [("ac_rate", Fin 4)]
  = Ok (k, Fin (1 * ln 1 - 1 + (1 * ln 2 - 2 + (2 * ln 1 - 1)))%R).
Proof.
  unfold get_log_likelihood, simulate_model_hist. cbn [llh3 ll_alias replace_alias ll_components sum_components ll_data map l_kind].
  unfold fixed_hist, fixed_deduce, implement_binning, cnum3. cbn [n_add_eps n_bins n_norm n_rate plain_hist]. unfold rows3. cbn [map combine obs nth]. rewrite hist3.
  unfold get_normalization, scale. change (get "ac_rate" [("ac_rate", Fin 4)]) with (Some (Fin 4)). cbn -[fadd fdiv fmul].
  rewrite !fadd_Fin. rewrite fdiv_Fin by lra. rewrite !fmul_Fin. cbn -[fadd Rmult Rdiv Rplus fsub fmul flog fle]. rewrite !fadd_Fin.
  replace (0 + 1 * (1 / (1 + (2 + (1 + 0))) * 4))%R with 1%R by lra. replace (0 + 2 * (1 / (1 + (2 + (1 + 0))) * 4))%R with 2%R by lra.
  unfold log_likelihood_of, poisson_sum. cbn -[fadd fsub fmul flog fle Rplus Rmult].
  rewrite !flog_pos by lra. rewrite !fmul_Fin, !fsub_Fin, !fadd_Fin.
  replace (fle (Fin 1) (Fin 0)) with false by (symmetry; apply Bool.not_true_is_false; rewrite fle_Fin; lra).
  replace (fle (Fin 2) (Fin 0)) with false by (symmetry; apply Bool.not_true_is_false; rewrite fle_Fin; lra).
  cbn [orb is_nan]. do 3 f_equal. lra.
Qed.
Example C119_case_deviance k n : exists v', get_log_likelihood (llh3 (BIrreg1 [Fin 0; Fin 1; Fin 3]) [1; 3]%R) k n [("ac_rate", Fin 4)] = Ok (k, Fin v') /\
  (0 <= deviance [1; 3]%R v' <= deviance [1; 1; 2]%R (1 * ln 1 - 1 + (1 * ln 2 - 2 + (2 * ln 1 - 1))))%R.
Proof.
  apply (C119_deviance no_row (llh3 (BIrreg1 fine3) [1; 1; 2]%R) (llh3 (BIrreg1 [Fin 0; Fin 1; Fin 3]) [1; 3]%R) [[0]; [1; 2]] k n [("ac_rate", Fin 4)] [1; 1; 2]%R [1; 3]%R).
  - intros x [].
  - constructor.
  - repeat constructor. intros [].
  - reflexivity.
  - constructor; [|constructor]. apply (rebinned_fixed no_row n _ _ "ac" ["ac_rate"] (cnum3 false (BIrreg1 fine3)) (BIrreg1 [Fin 0; Fin 1; Fin 3]) rows3); [exact coarse3|].
    intros h _ E. discriminate E.
  - exact (coarsening_grouping _ _ _ coarse3).
  - reflexivity.
  - reflexivity.
  - rewrite merged_Fin; [|exact (grouping_range _ _ (coarsening_grouping _ _ _ coarse3))]. unfold gsum, rget. cbn. repeat f_equal; lra.
  - intros d Hd. repeat (destruct Hd as [<-|Hd]; [lra|]). destruct Hd.
  - apply value3.
Qed.

(** With the floor of component.py:155-157 and empty bins this fails: one event, in the first of three bins. A third of the rate is
    expected there, and half of it if the two empty bins are joined. *)
Theorem C119_floor_refuted : exists c c' gs data p h h', coarsening (n_bins c) (n_bins c') gs /\ c' = with_bins c (n_bins c') /\ n_add_eps c = true /\
  fixed_hist no_row c data p = Ok h /\ fixed_hist no_row c' data p = Ok h' /\ entry h 0 = Fin 1 /\ entry h' 0 = Fin (3 / 2)%R /\ entry (merged gs h) 0 = Fin 1.
Proof.
  exists (cnum3 true (BIrreg1 fine3)), (cnum3 true (BIrreg1 [Fin 0; Fin 1; Fin 3])), [[0]; [1; 2]], [[Fin (1 / 2)%R]], [("ac_rate", Fin 3)], [Fin 1; Fin 1; Fin 1], [Fin (3 / 2)%R; Fin (3 / 2)%R].
  assert (A : hist_1d fine3 [(Fin (1 / 2)%R, Fin 1)] = [Fin 1; Fin 0; Fin 0]).
  { unfold hist_1d, searchsorted, fine3, trim. fl_eval. rewrite !fadd_Fin. repeat f_equal; lra. }
  assert (B : hist_1d [Fin 0; Fin 1; Fin 3] [(Fin (1 / 2)%R, Fin 1)] = [Fin 1; Fin 0]).
  { unfold hist_1d, searchsorted, trim. fl_eval. rewrite !fadd_Fin. repeat f_equal; lra. }
  assert (E : (0 < eps < 1)%R) by (unfold eps; split; lra).
  assert (C : forall x, (x <= 1)%R -> fclip (Fin x) (Fin (eps + 1)) PInf = Fin (eps + 1)).
  { intros x Hx. unfold fclip, fmax, fmin. cbn. destruct (Rle_dec x (eps + 1)); [reflexivity|lra]. }
  assert (M : fadd (Fin eps) (fmean [Fin 1]) = Fin (eps + 1)).
  { unfold fmean. cbn -[fadd fdiv eps]. rewrite fadd_Fin. cbn [INR]. rewrite fdiv_Fin by lra. rewrite fadd_Fin. f_equal. lra. }
  split; [exact coarse3|]. split; [reflexivity|]. split; [reflexivity|].
  split; [|split; [|split; [reflexivity|split; [reflexivity|]]]].
  - unfold fixed_hist, fixed_deduce, implement_binning, cnum3. cbn [n_add_eps n_bins n_norm n_rate plain_hist map combine obs nth]. rewrite A.
    unfold floor_hist. rewrite M. cbn [map]. rewrite !C by lra. unfold get_normalization, scale. change (get "ac_rate" [("ac_rate", Fin 3)]) with (Some (Fin 3)). cbn -[fadd fdiv fmul eps].
    rewrite !fadd_Fin. rewrite fdiv_Fin by lra. rewrite !fmul_Fin. repeat f_equal; field; lra.
  - unfold fixed_hist, fixed_deduce, implement_binning, cnum3. cbn [n_add_eps n_bins n_norm n_rate plain_hist map combine obs nth]. rewrite B.
    unfold floor_hist. rewrite M. cbn [map]. rewrite !C by lra. unfold get_normalization, scale. change (get "ac_rate" [("ac_rate", Fin 3)]) with (Some (Fin 3)). cbn -[fadd fdiv fmul eps].
    rewrite !fadd_Fin. rewrite fdiv_Fin by lra. rewrite !fmul_Fin. f_equal. f_equal; [f_equal; field; lra|]. do 2 f_equal; field; lra.
  - cbn -[fadd]. rewrite fadd_Fin. f_equal. lra.
Qed.

(** Leaving out the last edge of a meshgrid binning is not a matter of dropping bins: the edge that becomes the last one now belongs to its bin. *)
Theorem C119_last_edge_refuted : exists fine events, sorted fine /\
  entry (hist_mesh_1d (removelast fine) events) 0 = Fin 1 /\ entry (hist_mesh_1d fine events) 0 = Fin 0.
Proof.
  exists [Fin 0; Fin 1; Fin 2], [(Fin 1, Fin 1)]. split.
  { cbn. repeat split; try discriminate; intros x Hx; repeat (destruct Hx as [<-|Hx]; [fl_eval; try reflexivity|]); destruct Hx. }
  split; unfold hist_mesh_1d, index_dd, entry, trim; fl_eval; rewrite ?fadd_Fin; f_equal; lra.
Qed.

Print Assumptions C119_hist.
Print Assumptions C119_project.
Print Assumptions C119_project_irreg.
Print Assumptions C119_model.
Print Assumptions C119_deviance.
Print Assumptions C119_floor_refuted.
Print Assumptions C119_last_edge_refuted.
