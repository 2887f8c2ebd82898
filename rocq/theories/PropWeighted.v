(** Properties of weighted data: C76 (components), C77 (likelihoods).
    The vocabulary is in SpecWeighted.v, the proofs in ProofWeighted.v and ProofWeighted2.v. *)
From Coq Require Import Reals Lra.
From Verif Require Import Base BaseFacts ModelFloat ModelHist ModelLikelihood
  SpecHist SpecLikelihood SpecWeighted ProofFloat ProofHist ProofLikelihood2 ProofWeighted ProofWeighted2.
Local Open Scope string_scope.
Local Open Scope list_scope.

(* ------------------------------------------------------------------ *)
(** * C76 components *)

(** The histogram of a component (without floor) is the histogram of its events, times one
    factor. *)
Theorem C76_histogram {K} oor c (sim : K -> nat -> params -> result (K * list (list fl))) key batch p key' h :
  binning_ok (n_bins c) -> n_add_eps c = false -> sim_hist oor c sim key batch p = Ok (key', h) ->
  exists rows f, sim key batch p = Ok (key', rows) /\
    (forall r, In r rows -> List.length r = ndim (n_bins c) + if n_no_eff c then 0 else 1) /\
    h = scale f (binned (n_bins c) (map (sim_event (n_no_eff c)) rows)).
Proof. exact (sim_hist_events oor c sim key batch p key' h). Qed.

(** The weighted data are the simulated events of the region of interest in their order, with
    unchanged observables; all weights are the efficiencies times one factor. *)
Theorem C76_rows {K} oor c (sim : K -> nat -> params -> result (K * list (list fl))) key batch p key' out :
  binning_ok (n_bins c) -> sim_weighted oor c sim key batch p = Ok (key', out) ->
  exists rows f, sim key batch p = Ok (key', rows) /\
    (forall r, In r rows -> List.length r = ndim (n_bins c) + 1) /\
    keep (fun r => in_roi (n_bins c) (observables r)) (fun r => observables r ++ [fmul (weight r) f]) rows out.
Proof. exact (sim_rows oor c sim key batch p key' out). Qed.

(** Normalised on the simulation, the factor is the rate per simulated event. *)
Theorem C76_on_sim {K} oor c (sim : K -> nat -> params -> result (K * list (list fl))) key batch p key' out r :
  binning_ok (n_bins c) -> n_norm c = OnSim -> n_mcinput c = Ok None -> get (n_rate c) p = Some (Fin r) ->
  0 < batch -> sim_weighted oor c sim key batch p = Ok (key', out) ->
  exists rows, sim key batch p = Ok (key', rows) /\
    keep (fun r => in_roi (n_bins c) (observables r))
         (fun x => observables x ++ [fmul (weight x) (Fin (r / INR batch))]) rows out.
Proof. exact (sim_total_on_sim oor c sim key batch p key' out r). Qed.

(** Normalised on the histogram, without floor: if every returned event is in a bin, a finite total
    weight is the rate, *)
Theorem C76_total {K} oor c (sim : K -> nat -> params -> result (K * list (list fl))) key batch p key' out r t :
  binning_ok (n_bins c) -> n_norm c = OnPdf -> n_add_eps c = false -> get (n_rate c) p = Some (Fin r) ->
  sim_weighted oor c sim key batch p = Ok (key', out) ->
  (forall o, In o out -> in_some_bin (n_bins c) (observables o)) ->
  out <> [] -> total_weight out = Fin t -> t = r.
Proof. exact (sim_total oor c sim key batch p key' out r t). Qed.

(** which is always so in one dimension and on a grid: there the region of interest has no gaps, *)
Theorem C76_no_gaps b r : binning_ok b -> (forall ex ry, b <> BIrreg2 ex ry) -> in_roi b r -> in_some_bin b r.
Proof.
  intros Hb Hn. apply roi_in_bin; [exact Hb|]. destruct b; try exact I. exact (Hn _ _ eq_refl).
Qed.

(** and with the floor the total is at most the rate. *)
Theorem C76_total_floored {K} oor c (sim : K -> nat -> params -> result (K * list (list fl))) key batch p key' out r :
  binning_ok (n_bins c) -> n_norm c = OnPdf -> n_add_eps c = true -> get (n_rate c) p = Some (Fin r) ->
  (0 <= r)%R -> sim_weighted oor c sim key batch p = Ok (key', out) -> out <> [] ->
  (forall o, In o out -> in_some_bin (n_bins c) (observables o)) ->
  (forall rows, sim key batch p = Ok (key', rows) -> forall x, In x rows -> nonneg (weight x)) ->
  exists t, total_weight out = Fin t /\ (0 <= t <= r)%R.
Proof. exact (sim_total_floored oor c sim key batch p key' out r). Qed.

(** Without floor and with no event on an outermost edge, binning the weighted data gives the
    histogram of the same simulation. *)
Theorem C76_same_histogram {K} oor c (sim : K -> nat -> params -> result (K * list (list fl))) key batch p key' h :
  binning_ok (n_bins c) -> agreeing (n_bins c) batch p (Simulated c sim) ->
  sim_hist oor c sim key batch p = Ok (key', h) -> Forall finite h ->
  exists out, sim_weighted oor c sim key batch p = Ok (key', out) /\ binned (n_bins c) (map event out) = h.
Proof. exact (sim_same oor c sim key batch p key' h). Qed.

Theorem C76_same_histogram_fixed {K} oor c data p h :
  binning_ok (n_bins c) -> agreeing (K := K) (n_bins c) 0 p (Sample c data) ->
  fixed_hist oor c data p = Ok h -> Forall finite h ->
  exists out, fixed_weighted oor c data p = Ok out /\ binned (n_bins c) (map event out) = h.
Proof. exact (sample_same oor c data p h). Qed.

(** A component without efficiency (force_no_eff) has a histogram but no weighted data. *)
Theorem C76_no_efficiency_refuted {K} oor c (sim : K -> nat -> params -> result (K * list (list fl))) key batch p key' h rows :
  n_no_eff c = true -> 1 <= ndim (n_bins c) -> sim key batch p = Ok (key', rows) -> rows <> [] ->
  sim_hist oor c sim key batch p = Ok (key', h) ->
  sim_weighted oor c sim key batch p = Err AssertionError.
Proof. exact (no_eff_fails oor c sim key batch p key' h rows). Qed.

Definition no_row (_ : list (list fl)) (_ : nat) : list fl := [].
Definition fixed_rows (rows : list (list fl)) (key : nat) (_ : nat) (_ : params)
  : result (nat * list (list fl)) := Ok (S key, rows).
Definition two_bins : binning := BIrreg1 [Fin 0; Fin 1; Fin 2].
Definition ten : params := [("r", Fin 10)].
Definition plain (eps no_eff : bool) (b : binning) : cnum := mk_cnum "r" OnPdf eps no_eff b (Ok None).

Ltac fl_dec :=
  repeat (match goal with
          | |- context [Rlt_dec ?a ?b] => destruct (Rlt_dec a b); try lra
          | |- context [Rle_dec ?a ?b] => destruct (Rle_dec a b); try lra
          | |- context [Req_EM_T ?a ?b] => destruct (Req_EM_T a b); try lra
          end; cbn).

Ltac fin_eq := rewrite ?fadd_Fin, ?fmul_Fin; repeat (first [reflexivity | lra | f_equal]; rewrite ?fadd_Fin, ?fmul_Fin).

Ltac bins_eval :=
  unfold binned, bins_of, bin_numbers, weight_of; cbn; unfold right_bin, left_bin, in_bin, in_bin_left, edge; cbn; fl_dec.

Lemma two_bins_ok : binning_ok two_bins.
Proof.
  split; [|cbn; lia]. cbn. repeat split; try discriminate; intros x Hx;
    repeat (destruct Hx as [<-|Hx]; [cbn; fl_dec; reflexivity|]); destruct Hx.
Qed.

(** Evaluation of a component whose simulation gives fixed rows. *)
Lemma hist_value c rows key batch p h f : n_no_eff c = false ->
  (forall r, In r rows -> List.length r - 1 = ndim (n_bins c)) ->
  implement_binning no_row (n_add_eps c) (n_bins c) (map observables rows) (map weight rows) = Ok h ->
  get_normalization (n_norm c) (n_rate c) (n_mcinput c) h p batch = Ok f ->
  sim_hist no_row c (fixed_rows rows) key batch p = Ok (S key, scale f h).
Proof.
  intros Hn Hl Hi Hg. unfold sim_hist, fixed_rows. rewrite Hn. unfold split_rows.
  replace (forallb (fun r => Nat.eqb (List.length r) (ndim (n_bins c))) (map (@removelast fl) rows)) with true.
  - change (map (@removelast fl) rows) with (map observables rows).
    change (map (fun r => last r NaN) rows) with (map weight rows). rewrite Hi, Hg. reflexivity.
  - symmetry. apply forallb_forall. intros r Hr. apply in_map_iff in Hr. destruct Hr as (x & <- & Hx).
    apply Nat.eqb_eq. rewrite removelast_length. apply Hl, Hx.
Qed.

Lemma data_value c rows kept key batch p h f :
  (forall r, In r rows -> List.length r - 1 = ndim (n_bins c)) ->
  filter (inside (n_bins c)) rows = kept ->
  implement_binning no_row (n_add_eps c) (n_bins c) (map observables kept) (map weight kept) = Ok h ->
  get_normalization (n_norm c) (n_rate c) (n_mcinput c) h p batch = Ok f ->
  sim_weighted no_row c (fixed_rows rows) key batch p
  = Ok (S key, map (fun r => observables r ++ [fmul (weight r) f]) kept).
Proof.
  intros Hl Hk Hi Hg. unfold sim_weighted, fixed_rows.
  rewrite existsb_false by (intros r Hr; apply too_wide_false, Hl, Hr).
  replace (forallb (fun r => Nat.eqb (List.length r - 1) (ndim (n_bins c))) rows) with true
    by (symmetry; apply forallb_forall; intros r Hr; apply Nat.eqb_eq, Hl, Hr).
  rewrite Hk. change (map (@removelast fl) kept) with (map observables kept).
  change (map (fun r => last r NaN) kept) with (map weight kept).
  rewrite Hi, Hg, combine_maps, map_map. reflexivity.
Qed.

Ltac two_cases := intros ? Hr; repeat (destruct Hr as [<-|Hr]; [reflexivity|]); destruct Hr.

(** Two events, one of them on the last edge: the histogram has both, the weighted data one. *)
Definition edge_rows : list (list fl) := [[Fin (1/2); Fin 1]; [Fin 2; Fin 1]].

Theorem C76_edge_refuted :
  binning_ok two_bins /\
  sim_hist no_row (plain false false two_bins) (fixed_rows edge_rows) 0 2 ten = Ok (1, [Fin 5; Fin 5]) /\
  exists out, sim_weighted no_row (plain false false two_bins) (fixed_rows edge_rows) 0 2 ten = Ok (1, out) /\
    out = [[Fin (1/2); Fin 10]] /\ binned two_bins (map event out) <> [Fin 5; Fin 5].
Proof.
  split; [exact two_bins_ok|]. split.
  - rewrite (hist_value (plain false false two_bins) edge_rows 0 2 ten [Fin 1; Fin 1] (Fin 5)).
    + cbn. fin_eq.
    + reflexivity.
    + two_cases.
    + unfold implement_binning, plain, n_add_eps, n_bins.
      rewrite plain_hist_binned by exact two_bins_ok. bins_eval. fin_eq.
    + cbn [get_normalization plain n_norm n_rate ten get String.eqb Ascii.eqb Bool.eqb].
      rewrite (fsum_Fin [1; 1]%R : fsum [Fin 1; Fin 1] = _). rewrite on_pdf_factor; cbn; fin_eq.
  - exists [[Fin (1/2); Fin 10]]. split; [|split; [reflexivity|]].
    + rewrite (data_value (plain false false two_bins) edge_rows [[Fin (1/2); Fin 1]] 0 2 ten [Fin 1; Fin 0] (Fin 10)).
      * cbn. fin_eq.
      * two_cases.
      * cbn. fl_dec. all: cbn; fl_dec; reflexivity.
      * unfold implement_binning, plain, n_add_eps, n_bins.
        rewrite plain_hist_binned by exact two_bins_ok. bins_eval. fin_eq.
      * cbn [get_normalization plain n_norm n_rate ten get String.eqb Ascii.eqb Bool.eqb].
        rewrite (fsum_Fin [1; 0]%R : fsum [Fin 1; Fin 0] = _). rewrite on_pdf_factor; cbn; fin_eq.
    + bins_eval. intros H. injection H as H _. lra.
Qed.

(** Irregular bins in two dimensions: an event above the last edge of its own row, but below that
    of another row, is in no bin, yet it is kept, and the weights add up to twice the rate. *)
Definition rows_binning : binning := BIrreg2 [Fin 0; Fin 1; Fin 2] [[Fin 0; Fin 1]; [Fin 2; Fin 3]].
Definition gap_rows : list (list fl) :=
  [[Fin (1/2); Fin (1/2); Fin 1]; [Fin (1/2); Fin (5/2); Fin 1]].

Lemma rows_binning_ok : binning_ok rows_binning.
Proof.
  assert (Hs : forall a b, (a <= b)%R -> edges_ok [Fin a; Fin b]).
  { intros a b Hab. split; [|cbn; lia]. cbn. repeat split; try discriminate; intros x Hx.
    - destruct Hx as [<-|[]]. cbn. destruct (Rle_dec a b); [reflexivity|contradiction].
    - destruct Hx. }
  split; [exact two_bins_ok|]. split; [reflexivity|].
  intros r [<-|[<-|[]]]; (split; [apply Hs; lra|reflexivity]).
Qed.

Theorem C76_gap_refuted :
  binning_ok rows_binning /\
  exists out, sim_weighted no_row (plain false false rows_binning) (fixed_rows gap_rows) 0 2 ten = Ok (1, out) /\
    List.length out = 2 /\ ~ in_some_bin rows_binning [Fin (1/2); Fin (5/2)] /\ total_weight out = Fin 20.
Proof.
  split; [exact rows_binning_ok|].
  exists [[Fin (1/2); Fin (1/2); Fin 10]; [Fin (1/2); Fin (5/2); Fin 10]]. split; [|split; [reflexivity|split]].
  - rewrite (data_value (plain false false rows_binning) gap_rows gap_rows 0 2 ten [Fin 1; Fin 0] (Fin 10)).
    + cbn. fin_eq.
    + two_cases.
    + cbn. fl_dec. all: cbn; fl_dec; reflexivity.
    + unfold implement_binning, plain, n_add_eps, n_bins.
      rewrite plain_hist_binned by exact rows_binning_ok. bins_eval. all: fin_eq.
    + cbn [get_normalization plain n_norm n_rate ten get String.eqb Ascii.eqb Bool.eqb].
      rewrite (fsum_Fin [1; 0]%R : fsum [Fin 1; Fin 0] = _). rewrite on_pdf_factor; cbn; fin_eq.
  - intros (P & HP & H). cbn in HP. destruct HP as [<-|[<-|[]]]; revert H;
      unfold right_bin, in_bin, edge; cbn; fl_dec; discriminate.
  - unfold total_weight. cbn. fin_eq.
Qed.

(** With the floor, empty bins take part of the rate: one event in one of two bins gets about half
    of it. *)
Definition one_row : list (list fl) := [[Fin (1/2); Fin 1]].

Theorem C76_floor_refuted :
  exists w, sim_weighted no_row (plain true false two_bins) (fixed_rows one_row) 0 1 ten
            = Ok (1, [[Fin (1/2); Fin w]]) /\ (w < 10)%R /\ (w = 10 / (2 + 2 * eps))%R.
Proof.
  pose proof eps_pos as He. exists (10 / (2 + 2 * eps))%R. split; [|split; [|reflexivity]].
  - rewrite (data_value (plain true false two_bins) one_row one_row 0 1 ten
               [Fin (eps + 1); Fin (eps + 1)] (Fin (10 / (2 + 2 * eps)))).
    + cbn. rewrite ?fmul_Fin. fin_eq.
    + two_cases.
    + cbn. fl_dec. all: cbn; fl_dec; reflexivity.
    + unfold implement_binning. cbn [plain n_add_eps n_bins]. rewrite plain_hist_binned by exact two_bins_ok.
      assert (Hb : binned two_bins (combine (map observables one_row) (map weight one_row)) = [Fin 1; Fin 0])
        by (bins_eval; fin_eq).
      rewrite Hb. unfold floor_hist. change (map weight one_row) with (map Fin [1%R]).
      rewrite fmean_Fin by discriminate. rewrite fadd_Fin. cbn [map]. rewrite !fclip_PInf.
      assert (Hm : mean [1%R] = 1%R) by (unfold mean; cbn; field). rewrite Hm.
      rewrite !Rmax_right by lra. reflexivity.
    + cbn [get_normalization plain n_norm n_rate ten get String.eqb Ascii.eqb Bool.eqb].
      rewrite (fsum_Fin [(eps + 1)%R; (eps + 1)%R] : fsum [Fin (eps + 1); Fin (eps + 1)] = _).
      rewrite on_pdf_factor by (cbn; lra). do 2 f_equal. cbn. field. lra.
  - apply (Rmult_lt_reg_r (2 + 2 * eps)); [lra|]. unfold Rdiv. rewrite Rmult_assoc, Rinv_l by lra. lra.
Qed.

(** A simulation to which the agreement applies: events below, inside and above the bins. *)
Definition good_rows : list (list fl) :=
  [[Fin (1/2); Fin 1]; [Fin 5; Fin 1]; [Fin (3/2); Fin (1/2)]; [Fin (-1); Fin 0]].

Example C76_case :
  agreeing two_bins 4 ten (Simulated (plain false false two_bins) (fixed_rows good_rows)) /\
  exists out, sim_weighted no_row (plain false false two_bins) (fixed_rows good_rows) 0 4 ten = Ok (1, out) /\
    out = [[Fin (1/2); Fin (20/3)]; [Fin (3/2); Fin (10/3)]] /\ total_weight out = Fin 10.
Proof.
  split.
  - split; [reflexivity|]. split; [reflexivity|]. split; [reflexivity|]. intros key key' rows Hs r Hr. injection Hs as <- <-.
    repeat (destruct Hr as [<-|Hr]; [split; [unfold off_boundary, off_ends, edge; cbn; fl_dec; split; reflexivity|eexists; reflexivity]|]).
    destruct Hr.
  - eexists. split; [|split; [reflexivity|]].
    + rewrite (data_value (plain false false two_bins) good_rows [[Fin (1/2); Fin 1]; [Fin (3/2); Fin (1/2)]] 0 4 ten
                 [Fin 1; Fin (1/2)] (Fin (20/3))).
      * cbn. fin_eq.
      * two_cases.
      * cbn. fl_dec. all: cbn; fl_dec; reflexivity.
      * unfold implement_binning, plain, n_add_eps, n_bins.
        rewrite plain_hist_binned by exact two_bins_ok. bins_eval. all: fin_eq.
      * cbn [get_normalization plain n_norm n_rate ten get String.eqb Ascii.eqb Bool.eqb].
        rewrite (fsum_Fin [1; 1/2]%R : fsum [Fin 1; Fin (1/2)] = _). rewrite on_pdf_factor; cbn; fin_eq.
    + unfold total_weight. cbn. fin_eq.
Qed.

(* ------------------------------------------------------------------ *)
(** * C77 likelihoods *)

(** The weighted data of a likelihood: those of its components one after the other, in the order of
    registration, each simulated component starting from the key the previous one returned; the
    parameters are those after replacing the aliases. *)
Theorem C77_parts {K} alias (cs : dict (wkind K)) key batch p key' out :
  simulate_weighted_data alias cs key batch p = Ok (key', out) <->
  cs <> [] /\ exists parts, parts_from batch (replace_alias alias p) cs key parts key' /\ out = List.concat parts.
Proof.
  unfold simulate_weighted_data. split.
  - destruct (weighted_components cs key batch (replace_alias alias p)) as [[k parts]|e] eqn:H; [|discriminate].
    intros Ho. destruct parts as [|x parts]; [discriminate|].
    assert (k = key') by congruence. assert (out = List.concat (x :: parts)) by congruence. subst k.
    apply weighted_parts in H. split.
    + intros ->. inversion H.
    + exists (x :: parts). split; assumption.
  - intros (Hne & parts & Hp & ->). apply weighted_parts in Hp. rewrite Hp.
    destruct parts as [|x parts]; [|reflexivity]. apply weighted_parts in Hp. inversion Hp; subst. contradiction.
Qed.

(** So the total weights of the components add up. *)
Theorem C77_total {K} alias (cs : dict (wkind K)) key batch p key' out :
  simulate_weighted_data alias cs key batch p = Ok (key', out) ->
  exists parts, parts_from batch (replace_alias alias p) cs key parts key' /\
    List.length parts = List.length cs /\ total_weight out = fsum (map total_weight parts).
Proof.
  intros H. apply C77_parts in H. destruct H as (_ & parts & Hp & ->). exists parts.
  split; [exact Hp|]. split; [|apply total_concat].
  clear -Hp. induction Hp; cbn; congruence.
Qed.

(** Weighted data and model histogram of the same key, batch size and parameters: the same next
    key, and binning the data gives the histogram. *)
Theorem C77_same_histogram {K} oor b batch p (cs : dict (component K)) alias data needed key key' h :
  binning_ok b -> cs <> [] -> List.length data = List.length (bins_of b) ->
  Forall (fun nc => agreeing b batch (replace_alias alias p) (snd nc)) cs ->
  simulate_model_hist (mk_llh (views (hist_view oor) cs) needed alias data) key batch p = Ok (key', h) ->
  Forall finite h ->
  exists out, simulate_weighted_data alias (views (data_view oor) cs) key batch p = Ok (key', out) /\
    binned b (map event out) = h.
Proof. exact (llh_same oor b batch p cs alias data needed key key' h). Qed.

(** A likelihood without a component has a model histogram (all zeros) but no weighted data. *)
Theorem C77_no_component_refuted {K} alias needed data (key : K) batch p :
  simulate_model_hist (mk_llh [] needed alias data) key batch p = Ok (key, map (fun _ => Fin 0) data) /\
  simulate_weighted_data (K := K) alias [] key batch p = Err ValueError.
Proof. split; reflexivity. Qed.

(** A likelihood of one simulated and one fixed component whose hypotheses hold. *)
Definition demo_cs : dict (component nat) :=
  [("a", Simulated (plain false false two_bins) (fixed_rows good_rows));
   ("b", Sample (mk_cnum "s" OnPdf false false two_bins (Ok None)) [[Fin (1/2)]; [Fin (3/2)]; [Fin 7]])].
Definition demo_p : params := [("alias_r", Fin 10); ("s", Fin 4)].

Example C77_case :
  Forall (fun nc => agreeing two_bins 4 (replace_alias [("alias_r", "r")] demo_p) (snd nc)) demo_cs /\
  exists h, simulate_model_hist (mk_llh (views (hist_view no_row) demo_cs) [] [("alias_r", "r")] [Fin 3; Fin 1])
              0 4 demo_p = Ok (1, h) /\ h = [Fin (20/3 + 2); Fin (10/3 + 2)].
Proof.
  split.
  - constructor; [|constructor; [|constructor]]; cbn [snd demo_cs].
    + split; [reflexivity|]. split; [reflexivity|]. split; [reflexivity|]. intros key key' rows Hs r Hr. injection Hs as <- <-.
      repeat (destruct Hr as [<-|Hr]; [split; [unfold off_boundary, off_ends, edge; cbn; fl_dec; split; reflexivity|eexists; reflexivity]|]).
      destruct Hr.
    + split; [reflexivity|]. split; [reflexivity|]. intros r Hr.
      repeat (destruct Hr as [<-|Hr]; [split; [reflexivity|unfold off_boundary, off_ends, edge; cbn; fl_dec; split; reflexivity]|]).
      destruct Hr.
  - exists [Fin (20/3 + 2); Fin (10/3 + 2)]. split; [|reflexivity].
    unfold simulate_model_hist. cbn [ll_components ll_alias ll_data views demo_cs map fst snd sum_components l_kind hist_view].
    set (p := replace_alias [("alias_r", "r")] demo_p).
    rewrite (hist_value (plain false false two_bins) good_rows 0 4 p [Fin 1; Fin (1/2)] (Fin (20/3))).
    + unfold iadd. cbn [List.length scale map Nat.eqb combine fst snd].
      assert (Hf : fixed_hist no_row (mk_cnum "s" OnPdf false false two_bins (Ok None)) [[Fin (1/2)]; [Fin (3/2)]; [Fin 7]] p
                   = Ok [Fin 2; Fin 2]).
      { unfold fixed_hist, fixed_deduce, implement_binning. cbn [n_add_eps n_bins n_norm n_rate].
        rewrite plain_hist_binned by exact two_bins_ok.
        assert (Hb : binned two_bins (combine [[Fin (1/2)]; [Fin (3/2)]; [Fin 7]]
                       (map (fun _ => Fin 1) [[Fin (1/2)]; [Fin (3/2)]; [Fin 7]])) = [Fin 1; Fin 1])
          by (bins_eval; fin_eq).
        rewrite Hb. cbn [get_normalization]. change (get "s" p) with (Some (Fin 4)). cbn [negb].
        rewrite (fsum_Fin [1; 1]%R : fsum [Fin 1; Fin 1] = _). rewrite on_pdf_factor by (cbn; lra).
        cbn. fin_eq. }
      rewrite Hf. cbn [List.length Nat.eqb combine map fst snd]. fin_eq.
    + reflexivity.
    + two_cases.
    + unfold implement_binning, plain, n_add_eps, n_bins.
      rewrite plain_hist_binned by exact two_bins_ok. bins_eval. all: fin_eq.
    + cbn [get_normalization plain n_norm n_rate]. change (get "r" p) with (Some (Fin 10)). cbn [negb].
      rewrite (fsum_Fin [1; 1/2]%R : fsum [Fin 1; Fin (1/2)] = _). rewrite on_pdf_factor; cbn; fin_eq.
Qed.

Print Assumptions C76_histogram.
Print Assumptions C76_rows.
Print Assumptions C76_on_sim.
Print Assumptions C76_total.
Print Assumptions C76_no_gaps.
Print Assumptions C76_total_floored.
Print Assumptions C76_same_histogram.
Print Assumptions C76_same_histogram_fixed.
Print Assumptions C76_no_efficiency_refuted.
Print Assumptions C76_edge_refuted.
Print Assumptions C76_gap_refuted.
Print Assumptions C76_floor_refuted.
Print Assumptions C77_parts.
Print Assumptions C77_total.
Print Assumptions C77_same_histogram.
Print Assumptions C77_no_component_refuted.
