(** Lemmas for the plots of a chain (C96): priors and marginal distributions. *)
From Coq Require Import Reals Lra Lia.
From Verif Require Import Base BaseFacts ModelFloat ProofFloat ModelTwoHalf ModelParameter ProofParameter ModelContext SpecContext
  ProofContext ModelPlotter SpecPlotter ProofPlotter ProofPlotter2 ProofAccept.
Local Open Scope string_scope.
Local Open Scope list_scope.

(* ------------------------------------------------------------------ *)
(** * The curves *)

Lemma length_2 {A} (l : list A) : List.length l = 2 -> exists a b, l = [a; b].
Proof. destruct l as [|a [|b [|]]]; intros H; try discriminate H. eauto. Qed.
Lemma length_3 {A} (l : list A) : List.length l = 3 -> exists a b c, l = [a; b; c].
Proof. destruct l as [|a [|b [|c [|]]]]; intros H; try discriminate H. eauto. Qed.

Lemma sqrt_2PI : (0 < sqrt (2 * PI))%R.
Proof. apply sqrt_lt_R0. pose proof PI_RGT_0. lra. Qed.

Lemma norm_pdf_Fin x m sd : (0 < sd)%R ->
  norm_pdf (Fin x) (Fin m) (Fin sd) = Fin (/ (sqrt (2 * PI) * sd) * exp (- ((x - m) * (x - m)) / 2 / (sd * sd)))%R.
Proof.
  intros Hs. pose proof sqrt_2PI as Hq. unfold norm_pdf, fsqr, fsub. cbn [fneg fmul]. rewrite fadd_Fin. cbn [fneg fmul].
  rewrite (fdiv_pos _ (sd * sd)) by nra. rewrite (fdiv_pos _ 2) by lra. cbn [fexp].
  rewrite (fdiv_pos _ (sqrt (2 * PI))) by lra. rewrite (fdiv_pos _ sd) by lra. f_equal.
  replace (- ((x + - m) * (x + - m)) / (sd * sd) / 2)%R with (- ((x - m) * (x - m)) / 2 / (sd * sd))%R by (field; lra).
  field. lra.
Qed.

Lemma drawn_prior sigmas s : drawable sigmas s -> s_type s <> Some "free" ->
  exists f c, prior_pdf sigmas s = Ok (Some f) /\ (0 < c)%R /\
    (forall v, exists y, f (Fin v) = Ok y) /\
    forall v q, prior_term sigmas s (Fin v) = Ok (Fin q) -> f (Fin v) = Ok (Fin (c * exp q)).
Proof.
  intros (ty & args & Hty & Ha & H) Hf. unfold prior_pdf, prior_term. rewrite Hty, Ha. cbn [key bind].
  destruct H as [->|[(-> & L & m & sd & Gm & Gs & Hs)|[(-> & L & lo & hi & Gl & Gh & Hs)|(-> & L & mu & ep & en & sp & sn & Gm & Gp & Gn & Es & Hp & Hn)]]].
  - congruence.
  - cbn [String.eqb Ascii.eqb Bool.eqb]. rewrite Gm, Gs. destruct (length_2 _ L) as (e1 & e2 & El). rewrite El.
    pose proof sqrt_2PI as Hq.
    eexists _, (/ (sqrt (2 * PI) * sd))%R. split; [reflexivity|]. split; [apply Rinv_0_lt_compat; nra|].
    split; [intros v; eexists; reflexivity|]. intros v q Hv. rewrite norm_pdf_Fin by exact Hs.
    destruct (key (s_range s)) as [r|]; [|discriminate Hv]. cbn [bind] in Hv.
    destruct (flt (Fin v) (fst r) || flt (snd r) (Fin v)); [discriminate Hv|]. cbn [bind key] in Hv.
    unfold fsqr, fsub in Hv. cbn [fneg fmul] in Hv. rewrite fadd_Fin in Hv. cbn [fneg fmul] in Hv.
    rewrite (fdiv_pos _ 2), (fdiv_pos _ (sd * sd)) in Hv by nra. injection Hv as <-. reflexivity.
  - cbn [String.eqb Ascii.eqb Bool.eqb]. rewrite Gl, Gh. destruct (length_2 _ L) as (e1 & e2 & El). rewrite El.
    assert (U : forall x, uniform_pdf x (Fin lo) (Fin hi) = Ok (Fin (/ (hi - lo)))).
    { intros x. unfold uniform_pdf, fsub. cbn [fneg]. rewrite fadd_Fin. destruct (Req_EM_T (hi + - lo) 0); [lra|]. reflexivity. }
    eexists _, (/ (hi - lo))%R. split; [reflexivity|]. split; [apply Rinv_0_lt_compat; lra|].
    split; [intros v; rewrite U; eexists; reflexivity|]. intros v q Hv. rewrite U.
    destruct (key (s_range s)) as [r|]; [|discriminate Hv]. cbn [bind] in Hv.
    destruct (flt (Fin v) (fst r) || flt (snd r) (Fin v)); [discriminate Hv|]. injection Hv as <-. rewrite exp_0, Rmult_1_r. reflexivity.
  - cbn [String.eqb Ascii.eqb Bool.eqb]. rewrite Gm, Gp, Gn. destruct (length_3 _ L) as (e1 & e2 & e3 & El). rewrite El.
    eexists _, 1%R. split; [reflexivity|]. split; [lra|]. unfold thn_pdf. rewrite Es. cbn [bind fst snd].
    split.
    { intros v. rewrite twohalf_logpdf_Fin by assumption. cbn [bind fexp]. eexists. reflexivity. }
    intros v q Hv. destruct (key (s_range s)) as [r|]; [|discriminate Hv]. cbn [bind] in Hv.
    destruct (flt (Fin v) (fst r) || flt (snd r) (Fin v)); [discriminate Hv|]. cbn [key bind] in Hv. rewrite Es in Hv. cbn [key bind fst snd] in Hv.
    rewrite Hv. cbn [bind fexp]. rewrite Rmult_1_l. reflexivity.
Qed.

Lemma over_ok f : forall xs ys, over f xs = Ok ys -> List.length ys = List.length xs /\
  forall x y, In (x, y) (combine xs ys) -> f x = Ok y.
Proof.
  induction xs as [|x xs IH]; intros ys H; cbn [over] in H.
  - injection H as <-. split; [reflexivity|]. intros x y [].
  - destruct (f x) as [y|] eqn:E; [|discriminate H]. cbn [bind] in H. destruct (over f xs) as [l|] eqn:El; [|discriminate H].
    cbn [bind] in H. injection H as <-. destruct (IH l eq_refl) as [L Q]. split; [cbn; rewrite L; reflexivity|].
    intros x' y' [H|H]; [injection H as <- <-; exact E|apply Q, H].
Qed.

Lemma over_total f : forall xs, (forall x, In x xs -> exists y, f x = Ok y) -> exists ys, over f xs = Ok ys.
Proof.
  induction xs as [|x xs IH]; intros H; cbn [over]; [eexists; reflexivity|].
  destruct (H x (or_introl eq_refl)) as (y & Ey). rewrite Ey. cbn [bind].
  destruct IH as (l & El); [intros z Hz; apply H; right; exact Hz|]. rewrite El. cbn [bind]. eexists. reflexivity.
Qed.

Lemma combine_fst {A B} : forall (a : list A) (b : list B), List.length b = List.length a -> map fst (combine a b) = a.
Proof. induction a as [|x a IH]; intros [|y b] H; try discriminate H; cbn; [reflexivity|]. f_equal. apply IH. cbn in H. lia. Qed.

Lemma curve_ok sigmas s vs : drawable sigmas s ->
  exists o, prior_curve sigmas s (map Fin vs) = Ok o /\
    ((s_type s = Some "free" /\ o = None) \/
     (s_type s <> Some "free" /\ exists pts c, o = Some pts /\ (0 < c)%R /\ map fst pts = map Fin vs /\
        forall v y q, In (Fin v, y) pts -> prior_term sigmas s (Fin v) = Ok (Fin q) -> y = Fin (c * exp q))).
Proof.
  intros Hd. unfold prior_curve. pose proof Hd as (ty & args & Hty & Ha & _).
  destruct (string_dec ty "free") as [->|Hn].
  - unfold prior_pdf. rewrite Hty, Ha. cbn [key bind String.eqb Ascii.eqb Bool.eqb]. eexists. split; [reflexivity|]. left. auto.
  - assert (Hf : s_type s <> Some "free") by congruence.
    destruct (drawn_prior sigmas s Hd Hf) as (f & c & Ef & Hc & Ht & Hv). rewrite Ef. cbn [bind].
    destruct (over_total f (map Fin vs)) as (ys & Ey).
    { intros x Hx. apply in_map_iff in Hx. destruct Hx as (v & <- & _). apply Ht. }
    rewrite Ey. cbn [bind]. eexists. split; [reflexivity|]. right. split; [exact Hf|]. apply over_ok in Ey. destruct Ey as [L Q].
    exists (combine (map Fin vs) ys), c. split; [reflexivity|]. split; [exact Hc|]. split; [apply combine_fst, L|].
    intros v y q Hin Hq. apply Q in Hin. rewrite (Hv v q Hq) in Hin. injection Hin as <-. reflexivity.
Qed.

(* ------------------------------------------------------------------ *)
(** * The marginal distributions *)

Definition samples_of (b : backend) (d t a : nat) : list R := map (fun s => nth a (coords s) 0%R) (finite_samples b d t).

Lemma flat_column b names config d t mpe a :
  column 0%R a (pl_flat (plotter_of b names config d t mpe)) = samples_of b d t a.
Proof. unfold column, plotter_of, samples_of. cbn [pl_flat]. apply map_map. Qed.

Lemma plot_marginal_total sigmas grid b names config d t mpe : 0 < bk_params b -> List.length names = bk_params b ->
  (forall l, exists vs, grid l = map Fin vs) ->
  (forall n, In n names -> exists s, get n config = Some s /\ drawable sigmas s) ->
  exists l, plot_marginal sigmas grid (plotter_of b names config d t mpe) = Ok l.
Proof.
  intros HP Hn Hg Hs. set (p := plotter_of b names config d t mpe). unfold plot_marginal.
  replace (pl_params p) with (bk_params b) by reflexivity. pose proof (half_up_enough (bk_params b)) as Hh.
  destruct (per_param_total (half_up (bk_params b))
    (fun i => do n <- name_at p i; do s <- key (get n (pl_config p)); do c <- prior_curve sigmas s (grid (column 0%R i (pl_flat p)));
              Ok (mk_panel n (column 0%R i (pl_flat p)) c)) (seq 0 (bk_params b))) as (l & El & Ll).
  { intros i Hi. apply in_seq in Hi. split; [lia|]. unfold name_at. change (pl_names p) with names. change (pl_config p) with config.
    destruct (nth_error names i) as [n|] eqn:E; [|apply nth_error_None in E; lia]. cbn [bind].
    destruct (Hs n) as (s & Gs & Ds); [eapply nth_error_In; exact E|]. rewrite Gs. cbn [key bind].
    unfold p. rewrite flat_column. destruct (Hg (samples_of b d t i)) as (vs & Ev). rewrite Ev.
    destruct (curve_ok sigmas s vs Ds) as (o & Eo & _). rewrite Eo. cbn [bind]. eexists. reflexivity. }
  rewrite El. cbn [bind]. rewrite seq_length in Ll. destruct l as [|a l]; [cbn in Ll; lia|]. cbn [last_one bind]. eexists. reflexivity.
Qed.

Lemma plot_marginal_at sigmas grid b names config d t mpe l : List.length names = bk_params b ->
  plot_marginal sigmas grid (plotter_of b names config d t mpe) = Ok l ->
  map pn_name l = names /\
  forall a pn, nth_error l a = Some pn -> exists s, get (pn_name pn) config = Some s /\
    pn_samples pn = samples_of b d t a /\ prior_curve sigmas s (grid (samples_of b d t a)) = Ok (pn_prior pn).
Proof.
  intros Hn H. set (p := plotter_of b names config d t mpe) in *. unfold plot_marginal in H.
  replace (pl_params p) with (bk_params b) in H by reflexivity.
  destruct (per_param _ _ _) as [l0|] eqn:E0 in H; [|discriminate H]. cbn [bind] in H.
  destruct (last_one l0) as [[]|]; [|discriminate H]. cbn [bind] in H. injection H as <-.
  apply per_param_ok in E0. destruct E0 as [L0 A0]. rewrite seq_length in L0.
  assert (A : forall i pn, nth_error l0 i = Some pn -> nth_error names i = Some (pn_name pn) /\ exists s, get (pn_name pn) config = Some s /\
    pn_samples pn = samples_of b d t i /\ prior_curve sigmas s (grid (samples_of b d t i)) = Ok (pn_prior pn)).
  { intros i pn Hi. destruct (A0 i pn Hi) as (i' & Hi' & Hd & _).
    assert (i < bk_params b) by (rewrite <- L0; apply nth_error_Some; congruence).
    rewrite nth_error_seq in Hi' by assumption. injection Hi' as <-. cbn [Nat.add] in Hd. unfold p in Hd. rewrite flat_column in Hd.
    unfold name_at in Hd. cbn [pl_names pl_config plotter_of] in Hd. destruct (nth_error names i) as [n|]; [|discriminate Hd]. cbn [bind] in Hd.
    destruct (get n config) as [s|] eqn:Gs; [|discriminate Hd]. cbn [key bind] in Hd.
    destruct (prior_curve sigmas s (grid (samples_of b d t i))) as [c|] eqn:Ec; [|discriminate Hd]. cbn [bind] in Hd. injection Hd as <-.
    cbn [pn_name pn_samples pn_prior]. split; [reflexivity|]. exists s. auto. }
  split.
  - assert (Hll : List.length l0 = List.length names) by (rewrite L0, Hn; reflexivity). clear -A Hll.
    assert (B : forall i pn, nth_error l0 i = Some pn -> nth_error names i = Some (pn_name pn)) by (intros i pn Hi; apply A, Hi).
    clear A. revert names Hll B. induction l0 as [|a l0 IH]; intros [|n names] Hll B; try discriminate; [reflexivity|].
    cbn. f_equal; [specialize (B 0 a eq_refl); cbn in B; congruence|]. apply IH; [cbn in Hll; lia|]. intros i ax Hi. exact (B (S i) ax Hi).
  - intros a pn Ha. apply A, Ha.
Qed.

(* ------------------------------------------------------------------ *)
(** * The constructor succeeds *)

Lemma finite_samples_iters b d t : finite_samples b d t <> [] -> bk_iters b <> [].
Proof. intros H E. apply H. unfold finite_samples, samples, read_iterations. rewrite E. reflexivity. Qed.

Lemma finite_sample_shape b d t s : shaped b -> In s (finite_samples b d t) -> List.length (coords s) = bk_params b.
Proof.
  intros Hs H. apply filter_In in H. destruct H as [H _]. apply in_concat in H. destruct H as (it & Hit & H).
  apply in_map_iff in Hit. destruct Hit as (i & <- & Hi). apply read_in in Hi. eapply Hs; [apply iteration_in, Hi|exact H].
Qed.

Lemma new_plotter_total b names config d t : 0 < t -> finite_samples b d t <> [] -> shaped b -> NoDup names ->
  List.length names = bk_params b ->
  exists mpe s, new_plotter b names config d t = Ok (plotter_of b names config d t mpe) /\
    In s (finite_samples b d t) /\ (forall s', In s' (finite_samples b d t) -> fle (log_post s') (log_post s) = true) /\
    keys mpe = names /\ forall j n, nth_error names j = Some n -> get n mpe = nth_error (coords s) j.
Proof.
  intros Ht Hf Hs Hnd Hl. rewrite new_plotter_eq by (try exact Ht; eapply finite_samples_iters, Hf).
  destruct (argmax_first (map log_post (finite_samples b d t))) as (i & Ei & Fi).
  { intros E. apply map_eq_nil in E. contradiction. }
  { intros x Hx. apply in_map_iff in Hx. destruct Hx as (s & <- & Hx). apply filter_In in Hx. destruct Hx as [_ Hx].
    intros E. rewrite E in Hx. discriminate Hx. }
  rewrite Ei. cbn [bind]. rewrite nth_error_map.
  destruct Fi as (pre & v & post & E & Lp & H1 & H2).
  assert (Ev : nth_error (map log_post (finite_samples b d t)) i = Some v).
  { rewrite E, nth_error_app2 by lia. rewrite Lp, Nat.sub_diag. reflexivity. }
  rewrite nth_error_map in Ev. destruct (nth_error (finite_samples b d t) i) as [s|] eqn:Es; [|discriminate Ev]. cbn [option_map] in *.
  injection Ev as Ev. assert (Hin : In s (finite_samples b d t)) by (eapply nth_error_In; exact Es).
  destruct (name_values_ok names (coords s) [] Hnd) as (mpe & Em & Km & Gm & _).
  { intros n _ []. } { rewrite (finite_sample_shape b d t s Hs Hin). lia. }
  cbn [bind]. rewrite Em. cbn [bind]. exists mpe, s. split; [reflexivity|]. split; [exact Hin|]. split; [|split; [exact Km|exact Gm]].
  intros s' Hs'. rewrite Ev. apply (in_map log_post) in Hs'. rewrite E in Hs'. apply in_app_or in Hs'. destruct Hs' as [H|[<-|H]].
  - apply flt_weak, H1, H.
  - apply fle_refl. rewrite <- Ev. apply filter_In in Hin. destruct Hin as [_ Hin]. intros En. rewrite En in Hin. discriminate Hin.
  - apply H2, H.
Qed.
