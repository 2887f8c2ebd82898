(** Property C117: what a parameter can change.
    The vocabulary is in SpecFrame.v, the proofs in ProofFrame.v. *)
From Coq Require Import Reals Lra Lia.
From Verif Require Import Base BaseFacts ModelFloat ModelHist ModelShare ModelConfig ModelComponent ModelCompile
  ModelParameter ModelLikelihood ModelBinning ModelLit ModelContext ModelWhole
  SpecHist SpecLikelihood SpecComponent SpecConfig SpecCompile SpecParameter SpecContext SpecWeighted SpecBinning SpecWhole SpecNeeded SpecFrame
  ProofFloat ProofHist ProofLikelihood ProofLikelihood2 ProofParameter ProofParameter2 ProofContext ProofWeighted ProofBinning ProofLikelihood3 ProofHistory ProofWhole ProofNeeded ProofFrame PropHist PropContext PropBinning PropWhole.
From Verif Require PropParameter.
Local Open Scope string_scope.
Local Open Scope list_scope.

(** A likelihood of a context: two sets of parameters that agree on what its own components read, under the names
    of its aliases, give the same value (or the same exception) and leave the same key. *)
Theorem C117_likelihood {K} (E : ModelWhole.env K) manager ins par w w' c lname li L key batch (p p' : params) :
  new_context K E manager ins par w = (w', Ok c) -> declaring E (contents (w_cache w')) ins ->
  In (lname, li) (in_llhs ins) -> In (lname, L) (cx_llhs c) -> NoDup (keys p) -> NoDup (keys p') ->
  (forall x z, llh_needs E (contents (w_cache w')) lname li x -> given_as (li_alias li) x z ->
     In z (keys p) /\ get z p = get z p') ->
  wl_log_likelihood L key batch p = wl_log_likelihood L key batch p'.
Proof.
  intros H (R & Hn & Hd) Hli HL Hp Hp' A. destruct (context_made E _ _ _ _ _ _ H) as (w1 & _ & _ & HF).
  destruct (Forall2_right _ _ _ _ HF HL) as ([ln li'] & Hin & Hm). pose proof Hm as [Hf _]. cbn [fst] in Hf. subst ln.
  assert (li' = li).
  { apply (In_get _ _ _ Hn) in Hin. apply (In_get _ _ _ Hn) in Hli. congruence. }
  subst li'. destruct (Hd lname li Hli) as (H1 & H2 & H3).
  apply (likelihood_same E (contents (w_cache w')) w1 lname li L p p' key batch R H1 H2 H3 Hm Hp Hp').
  - intros z (x & Hx & Hz). apply (A x z Hx Hz).
  - intros x z Hx Hz. apply (A x z Hx Hz).
Qed.

(** The posterior for two sets of parameters that agree on what the components read: the likelihoods add the same to
    the two priors, or raise the same exception, for every number of repetitions. *)
Theorem C117_posterior {K} (E : ModelWhole.env K) manager ins par w w' c fresh pars pars' batch times st1 cs1 r1 st2 cs2 r2 a b :
  new_context K E manager ins par w = (w', Ok c) -> declaring E (contents (w_cache w')) ins ->
  NoDup (keys (p_values (cx_pars c))) -> NoDup (keys pars) -> NoDup (keys pars') ->
  (forall n, In n (keys pars) \/ In n (keys pars') -> In n (keys (p_values (cx_pars c)))) ->
  (forall z, ins_reads E (contents (w_cache w')) ins z ->
     In z (keys (p_values (cx_pars c))) /\ effective (cx_pars c) pars z = effective (cx_pars c) pars' z) ->
  context_posterior K E c fresh pars batch times = (st1, cs1, r1) ->
  context_posterior K E c fresh pars' batch times = (st2, cs2, r2) ->
  log_prior (e_sigmas E) st1 = Ok (Fin a) -> log_prior (e_sigmas E) st2 = Ok (Fin b) ->
  exists r, r1 = bind r (fun s => Ok (fadd s (Fin a), Fin a)) /\ r2 = bind r (fun s => Ok (fadd s (Fin b), Fin b)).
Proof.
  intros H D Hv N1 N2 Hk A C1 C2 P1 P2. unfold context_posterior in C1, C2.
  assert (K1 : forall n, In n (keys pars) -> In n (keys (p_values (cx_pars c)))) by auto.
  assert (K2 : forall n, In n (keys pars') -> In n (keys (p_values (cx_pars c)))) by auto.
  destruct (posterior_overwritten _ _ _ _ _ _ _ _ _ _ N1 K1 C1) as [(_ & _ & _ & V1 & G1) _].
  destruct (posterior_overwritten _ _ _ _ _ _ _ _ _ _ N2 K2 C2) as [(_ & _ & _ & V2 & G2) _].
  apply (posterior_same _ _ _ _ _ _ _ _ _ _ _ _ _ _ _ _ N1 N2 K1 K2 C1 C2 P1 P2).
  intros n f Hin k. apply in_map_iff in Hin. destruct Hin as ([ln L] & Q & HL). injection Q as <- <-. cbn [fst snd].
  destruct (context_made E _ _ _ _ _ _ H) as (w1 & _ & _ & HF).
  destruct (Forall2_right _ _ _ _ HF HL) as ([ln' li] & Hin & [Hf _]). cbn [fst] in Hf. subst ln'.
  apply (C117_likelihood E manager ins par w w' c ln li L k batch _ _ H D Hin HL); [rewrite V1; exact Hv|rewrite V2; exact Hv|].
  intros x z Hx Hz. destruct (A z) as [A1 A2]; [exists ln, li, x; auto|]. rewrite V1, G1, G2. split; [exact A1|exact A2].
Qed.

(** A parameter that no component reads changes a finite posterior by the difference of its own prior terms, and not at
    all if it is not free. *)
Theorem C117_prior_only {K} (E : ModelWhole.env K) manager ins par w w' c fresh pars pars' batch times st1 cs1 st2 cs2 y a y' b z :
  new_context K E manager ins par w = (w', Ok c) -> declaring E (contents (w_cache w')) ins ->
  NoDup (keys (p_values (cx_pars c))) -> NoDup (p_fit (cx_pars c)) -> NoDup (keys pars) -> NoDup (keys pars') ->
  (forall x, ins_reads E (contents (w_cache w')) ins x -> In x (keys (p_values (cx_pars c)))) ->
  ~ ins_reads E (contents (w_cache w')) ins z ->
  (forall x, x <> z -> effective (cx_pars c) pars x = effective (cx_pars c) pars' x) ->
  context_posterior K E c fresh pars batch times = (st1, cs1, Ok (Fin y, Fin a)) ->
  context_posterior K E c fresh pars' batch times = (st2, cs2, Ok (Fin y', Fin b)) ->
  (y' - y = b - a)%R /\
  (~ In z (p_fit (cx_pars c)) -> y' = y) /\
  (In z (p_fit (cx_pars c)) -> exists x x' s t t',
     effective (cx_pars c) pars z = Some x /\ effective (cx_pars c) pars' z = Some x' /\
     get z (p_config (cx_pars c)) = Some s /\ prior_term (e_sigmas E) s x = Ok (Fin t) /\
     prior_term (e_sigmas E) s x' = Ok (Fin t') /\ (y' - y = t' - t)%R).
Proof.
  intros H D Hv Hfit N1 N2 Hpres Hz Heff C1 C2.
  destruct (posterior_keys E _ _ _ _ _ _ _ _ _ _ _ _ _ _ H Hv N1 C1) as (K1 & P1 & _).
  destruct (posterior_keys E _ _ _ _ _ _ _ _ _ _ _ _ _ _ H Hv N2 C2) as (K2 & P2 & _).
  destruct (C117_posterior E manager ins par w w' c fresh pars pars' batch times st1 cs1 (Ok (Fin y, Fin a)) st2 cs2 (Ok (Fin y', Fin b)) a b H D Hv N1 N2) as (r & R1 & R2); [| |eassumption..|].
  - intros n [Hn|Hn]; auto.
  - intros x Hx. split; [auto|]. apply Heff. intros ->. contradiction.
  - destruct r as [s|e]; [|discriminate]. cbn [bind] in R1, R2. injection R1 as R1. injection R2 as R2.
    symmetry in R1, R2. apply ProofFloat.fadd_Fin_inv in R1. destruct R1 as (s1 & a1 & -> & Q1 & ->). injection Q1 as <-.
    rewrite fadd_Fin in R2. injection R2 as <-.
    destruct (posterior_overwritten _ _ _ _ _ _ _ _ _ _ N1 K1 C1) as [(F1 & F2 & _ & _ & G1) _].
    destruct (posterior_overwritten _ _ _ _ _ _ _ _ _ _ N2 K2 C2) as [(F1' & F2' & _ & _ & G2) _].
    unfold log_prior in P1, P2. rewrite F1, F2 in P1. rewrite F1', F2' in P2.
    destruct (loop_terms _ _ _ _ _ _ P1) as (ts & T1 & ->). destruct (loop_terms _ _ _ _ _ _ P2) as (ts' & T2 & ->).
    destruct (terms_differ _ _ _ _ z _ ts ts' Hfit (fun x Hx => eq_trans (G1 x) (eq_trans (Heff x Hx) (eq_sym (G2 x)))) T1 T2) as [D1 D2].
    split; [lra|]. split; [intros Hn; rewrite (D1 Hn); reflexivity|]. intros Hi.
    destruct (D2 Hi) as (x & x' & cf & t & t' & Q1 & Q2 & Q3 & Q4 & Q5 & Q6). exists x, x', cf, t, t'.
    unfold effective. rewrite <- G1, <- G2. repeat split; try assumption. lra.
Qed.

(** ** A case *)

(** The context of PropWhole.v with plugins that read only what they declare, and with one more free parameter, which
    nothing reads. *)
Definition f_isem (i : instance) (args : list (sval nat)) : result (list (sval nat)) :=
  match args with
  | [SKey k; SParams p; SBatch n] => w_isem i args
  | _ => if mem "a" (p_params (i_class i)) then w_isem i args else Err TypeError
  end.
Definition f_env : ModelWhole.env nat :=
  mk_env w_files (e_read w_env) 20 (e_plugins w_env) (e_classes w_env) f_isem (fun _ => Err AttributeError) no_oor no_g1 no_g2 PropParameter.ex_sigmas.
Definition f_spare : setting := mk_setting (Some "norm") (Some [("mean", Fin 0); ("std", Fin 1)]) (Some (Fin (-9), Fin 9)) (Some (Fin 0)) None.
Definition f_par : dict setting := w_par ++ [("spare", f_spare)].
Definition f_state (x s : R) : pstate :=
  mk_pstate [("er_events", ex_free1); ("ac_rate", w_fixed 4); ("spare", f_spare); ("a", w_fixed (1 / 2))] ["ac_rate"; "a"] ["er_events"; "spare"]
    [("er_events", Fin x); ("ac_rate", Fin 4); ("spare", Fin s); ("a", Fin (1 / 2)%R)].
Lemma f_manager_ok : w_manager (p_config (f_state 1 0)) = Ok (f_state 1 0).
Proof. unfold w_manager, new_parameter. cbn -[fclip]. unfold fclip, fmin, fmax. fl_eval. reflexivity. Qed.
Definition f_er : lcomp nat := mk_lcomp ["er_rate"; "a"]
  (LSim (sim_hist no_oor w_cnum (ModelWhole.sim_rows nat f_env w_cl))).
Lemma f_er_made : construct_component nat f_env "rn" ["energy"] w_bins "er" (ClsSim [pEn; pEf] OnPdf false) None w_w2
  = (w_w3, Ok (f_er, sim_cols nat f_env w_cl)).
Proof. reflexivity. Qed.
Lemma f_acc_made : construct_component nat f_env "rn" ["energy"] w_bins "ac" (ClsFixed OnPdf false) (Some "ac.csv") w_w3
  = (w_w4, Ok (w_acc, fun _ _ _ => Err TypeError)).
Proof.
  unfold construct_component.
  assert (E : load_data nat f_env "ac.csv" w_w3 = (w_w4, Ok w_ac)) by reflexivity. rewrite E.
  change (positions ["energy"] (t_columns w_ac)) with (@Ok (list nat) [0]). cbv beta iota.
  change (map (select [0]) (t_rows w_ac)) with w_ac_rows.
  change ("ac" ++ "_rate")%string with "ac_rate". cbn [e_row f_env]. rewrite w_ac_made. reflexivity.
Qed.
Definition f_llh : wlik nat :=
  mk_wlik (MDefault w_lk)
    (mk_llh [("er", f_er); ("ac", w_acc)] ["a"; "er_events"; "ac_rate"] [("er_events", "er_rate")] [Fin 1; Fin 2])
    [("er", sim_cols nat f_env w_cl); ("ac", fun _ _ _ => Err TypeError)].
Definition f_context : context nat := mk_context (f_state 1 0) [("rn", f_llh)] ["a"; "er_events"; "ac_rate"].
Lemma f_context_made : new_context nat f_env w_manager w_ins (Ok f_par) init_world = (w_w4, Ok f_context).
Proof.
  unfold new_context.
  assert (Hc : context_configs nat f_env w_ins init_world = (w_w1, Ok tt)) by reflexivity. rewrite Hc.
  assert (Hp : update_parameter_config
         (map (fun nl => (fst nl, mk_linstr (li_copy (snd nl)) (keys (li_components (snd nl))))) (in_llhs w_ins)) f_par
         = Ok (p_config (f_state 1 0), ["a"])) by reflexivity.
  rewrite Hp, f_manager_ok. cbn [in_llhs w_ins context_likelihoods].
  unfold context_likelihood. cbn [has get cx_llhs keys mem map existsb li_type make_type].
  assert (E : load_data nat f_env "data.csv" w_w1 = (w_w2, Ok w_data)) by reflexivity. rewrite E.
  cbn [e_row e_gof_1d e_gof_2d f_env]. rewrite w_lk_made.
  cbn [li_components context_components e_classes f_env w_env String.eqb Ascii.eqb Bool.eqb].
  unfold context_component at 1. cbn [cx_llhs get set String.eqb Ascii.eqb Bool.eqb].
  unfold add_component at 1. cbn [has get keys mem existsb map ll_components wl_llh wl_type full m_on m_bins k_on k_bins w_lk].
  fold w_env. fold f_env. rewrite f_er_made. cbn -[construct_component f_er w_acc f_llh f_env w_state f_state w_bins w_rows].
  rewrite f_acc_made. reflexivity.
Qed.

Definition f_values (s : R) : params := [("ac_rate", Fin 4); ("spare", Fin s); ("a", Fin (1 / 2)%R); ("er_rate", Fin 4)].
Lemma f_er_hist k n s : sim_hist no_oor w_cnum (ModelWhole.sim_rows nat f_env w_cl) k n (f_values s) = Ok (2 + k, [Fin (2 * 1)%R; Fin (2 * 1)%R]).
Proof.
  rewrite <- (w_er_hist k n). unfold sim_hist.
  assert (E : ModelWhole.sim_rows nat f_env w_cl k n (f_values s) = ModelWhole.sim_rows nat w_env w_cl k n w_values) by reflexivity.
  rewrite E. reflexivity.
Qed.
Lemma f_ac_hist s : fixed_hist no_oor (mk_cnum "ac_rate" OnPdf false false w_bins (Err AttributeError)) w_ac_rows (f_values s)
  = Ok [Fin 3; Fin 1].
Proof.
  unfold fixed_hist. rewrite w_ac_made. unfold get_normalization, scale. cbn [n_norm n_rate].
  change (get "ac_rate" (f_values s)) with (Some (Fin 4)). cbn -[fadd fdiv fmul].
  rewrite !fadd_Fin. rewrite fdiv_Fin by lra. rewrite !fmul_Fin. f_equal. apply two_entries; lra.
Qed.
Lemma f_llh_value k n s : get_log_likelihood (wl_llh f_llh) k n (p_values (f_state 4 s))
  = Ok (2 + k, Fin (1 * ln 5 - 5 + (2 * ln 3 - 3))%R).
Proof.
  unfold get_log_likelihood, simulate_model_hist.
  assert (E : replace_alias (ll_alias (wl_llh f_llh)) (replace_alias (ll_alias (wl_llh f_llh)) (p_values (f_state 4 s)))
              = f_values s) by reflexivity.
  rewrite E. cbn [f_llh wl_llh ll_components sum_components f_er l_kind ll_data map].
  rewrite f_er_hist. cbn -[fadd w_acc Rmult]. unfold w_acc at 1. cbn [l_kind]. rewrite f_ac_hist. cbn -[fadd Rmult]. rewrite !fadd_Fin.
  unfold log_likelihood_of, poisson_sum. cbn -[fadd fsub fmul flog fle Rplus Rmult].
  replace (0 + 2 * 1 + 3)%R with 5%R by lra. replace (0 + 2 * 1 + 1)%R with 3%R by lra.
  rewrite !flog_pos by lra. rewrite !fmul_Fin, !fsub_Fin, !fadd_Fin.
  replace (fle (Fin 5) (Fin 0)) with false by (symmetry; apply Bool.not_true_is_false; rewrite fle_Fin; lra).
  replace (fle (Fin 3) (Fin 0)) with false by (symmetry; apply Bool.not_true_is_false; rewrite fle_Fin; lra).
  cbn [orb is_nan]. do 3 f_equal. lra.
Qed.
Lemma f_prior s : (-9 <= s <= 9)%R -> log_prior (e_sigmas f_env) (f_state 4 s) = Ok (Fin (- (s * s) / 2)%R).
Proof.
  intros Hs. unfold log_prior. cbn -[flt fadd fmul fsub fneg fdiv].
  replace (flt (Fin 4) (Fin 0)) with false by (symmetry; apply flt_Fin_false; lra).
  replace (flt (Fin 10) (Fin 4)) with false by (symmetry; apply flt_Fin_false; lra).
  replace (flt (Fin s) (Fin (-9))) with false by (symmetry; apply flt_Fin_false; lra).
  replace (flt (Fin 9) (Fin s)) with false by (symmetry; apply flt_Fin_false; lra).
  cbn -[flt fadd ModelTwoHalf.fsqr fsub fneg fdiv]. unfold ModelTwoHalf.fsqr. rewrite !fsub_Fin, !fmul_Fin. cbn [fneg].
  rewrite !fdiv_Fin by lra. rewrite !fadd_Fin. f_equal. f_equal. field.
Qed.
Lemma f_posterior s : (-9 <= s <= 9)%R ->
  context_posterior nat f_env f_context (fun i => i) [("er_events", Fin 4); ("spare", Fin s)] 3 1
    = (f_state 4 s, [mk_call "rn" 0 3 (p_values (f_state 4 s))],
       Ok (Fin (1 * ln 5 - 5 + (2 * ln 3 - 3) - s * s / 2)%R, Fin (- (s * s) / 2)%R)).
Proof.
  intros Hs. unfold context_posterior, log_posterior. rewrite posterior_state by (intros n [<-|[<-|[]]]; cbn; tauto).
  match goal with |- context [with_values ?x ?y] => change (with_values x y) with (f_state 4 s) end.
  rewrite f_prior by exact Hs. cbn [is_fin negb Nat.ltb Nat.leb]. cbn [map fst snd cx_llhs f_context].
  unfold posterior_once. cbn [llh_loop].
  change (wl_log_likelihood f_llh) with (get_log_likelihood (wl_llh f_llh)). rewrite f_llh_value. cbn -[fadd Rplus Rminus p_values Rdiv Ropp Rmult]. rewrite !fadd_Fin.
  do 3 f_equal. f_equal. lra.
Qed.

Lemma f_reads cs : reads_declared f_env cs.
Proof.
  assert (A : forall i (p p' : params), In "a" (p_params (i_class i)) -> agree (declared cs i) p p' -> get "a" p = get "a" p').
  { intros i p p' Hi A. apply A. left. exact Hi. }
  intros i args args' H. cbn [e_isem f_env].
  inversion H as [|a1 b1 l1 m1 H1 T1]; subst; [reflexivity|].
  inversion T1 as [|a2 b2 l2 m2 H2 T2]; subst.
  { destruct H1 as [->|(p & p' & -> & -> & _)]; [reflexivity|]. unfold f_isem, w_isem. reflexivity. }
  inversion T2 as [|a3 b3 l3 m3 H3 T3]; subst.
  { destruct H1 as [->|(p & p' & -> & -> & _)], H2 as [->|(q & q' & -> & -> & _)]; try reflexivity; unfold f_isem, w_isem.
    all: try destruct b1; try destruct b2; reflexivity. }
  inversion T3 as [|a4 b4 l4 m4 H4 T4]; subst.
  - destruct H1 as [->|(p & p' & -> & -> & _)]; [|reflexivity].
    destruct H3 as [->|(r & r' & -> & -> & _)].
    + destruct H2 as [->|(q & q' & -> & -> & Hq)]; [reflexivity|]. unfold f_isem, w_isem.
      destruct b1; try reflexivity. destruct b3; try reflexivity.
      destruct (mem "a" (p_params (i_class i))) eqn:M; [|reflexivity]. rewrite (A i q q'); [reflexivity| |exact Hq]. apply mem_In. exact M.
    + destruct H2 as [->|(q & q' & -> & -> & Hq)]; unfold f_isem, w_isem; [destruct b1; try reflexivity; destruct b2; reflexivity|destruct b1; reflexivity].
  - destruct H1 as [->|(p & p' & -> & -> & _)], H2 as [->|(q & q' & -> & -> & _)], H3 as [->|(r & r' & -> & -> & _)];
      unfold f_isem, w_isem; try reflexivity.
    all: repeat match goal with |- context [match ?b with SKey _ => _ | _ => _ end] => is_var b; destruct b; try reflexivity end.
    all: try (destruct (mem "a" _); reflexivity).
Qed.

Lemma f_declaring cs : declaring f_env cs w_ins.
Proof.
  split; [apply f_reads|]. split; [repeat constructor; intros []|].
  intros lname li [H|[]]. injection H as <- <-.
  assert (Hr : forall d p, get d w_reg = Some p -> (d = "energy" /\ p = pEn) \/ (d = "eff" /\ p = pEf)).
  { intros d p H. apply get_In in H. destruct H as [H|[H|[]]]; injection H as <- <-; auto. }
  assert (Hps : forall cname cls file ps nt ae, In (cname, (cls, file)) [("er", ("ER", None)); ("ac", ("AC", Some "ac.csv"))] ->
    e_classes f_env cls = Some (ClsSim ps nt ae) -> registry_after [ps] = w_reg).
  { intros cname cls file ps nt ae Hin Hk. destruct Hin as [Hin|[Hin|[]]]; injection Hin as <- <- <-; [|discriminate]. injection Hk as <- <- <-. reflexivity. }
  split; [|split].
  - split; [intros k [<-|[]] [H|[]]; discriminate|]. split; [repeat constructor; intros []|].
    intros cname cls file ps nt ae Hin Hk. rewrite (Hps _ _ _ _ _ _ Hin Hk).
    intros d p d' q Hp Hq Hn. apply Hr in Hp, Hq. destruct Hp as [[-> ->]|[-> ->]], Hq as [[-> ->]|[-> ->]]; reflexivity || discriminate.
  - repeat constructor. intros [].
  - intros cname cls file ps nt ae Hin Hk d q Hq. rewrite (Hps _ _ _ _ _ _ Hin Hk) in Hq. apply Hr in Hq.
    destruct Hq as [[-> ->]|[-> ->]]; reflexivity.
Qed.

(** The hypotheses hold for every two values of the additional parameter in its range, and the posterior changes with
    the square of the distance to the mean, from the prior alone. *)
Example C117_case (s s' : R) : (-9 <= s <= 9)%R -> (-9 <= s' <= 9)%R ->
  new_context nat f_env w_manager w_ins (Ok f_par) init_world = (w_w4, Ok f_context) /\
  declaring f_env (contents (w_cache w_w4)) w_ins /\
  NoDup (keys (p_values (cx_pars f_context))) /\ NoDup (p_fit (cx_pars f_context)) /\ In "spare" (p_fit (cx_pars f_context)) /\
  (forall x, ins_reads f_env (contents (w_cache w_w4)) w_ins x -> In x (keys (p_values (cx_pars f_context)))) /\
  ~ ins_reads f_env (contents (w_cache w_w4)) w_ins "spare" /\
  (forall x, x <> "spare" -> effective (cx_pars f_context) [("er_events", Fin 4); ("spare", Fin s)] x
     = effective (cx_pars f_context) [("er_events", Fin 4); ("spare", Fin s')] x) /\
  exists y y' cs cs', context_posterior nat f_env f_context (fun i => i) [("er_events", Fin 4); ("spare", Fin s)] 3 1
    = (f_state 4 s, cs, Ok (Fin y, Fin (- (s * s) / 2)%R)) /\
  context_posterior nat f_env f_context (fun i => i) [("er_events", Fin 4); ("spare", Fin s')] 3 1
    = (f_state 4 s', cs', Ok (Fin y', Fin (- (s' * s') / 2)%R)) /\ (y' - y = (s * s - s' * s') / 2)%R.
Proof.
  intros Hs Hs'. split; [exact f_context_made|]. split; [apply f_declaring|].
  assert (N : forall z, ins_reads f_env (contents (w_cache w_w4)) w_ins z -> In z ["a"; "er_events"; "ac_rate"]).
  { intros z (lname & li & x & H1 & H2 & H3). change ["a"; "er_events"; "ac_rate"] with (cx_needed f_context).
    apply (context_needed f_env _ _ _ _ _ _ f_context_made).
    - intros ln l Hl. destruct (f_declaring (contents (w_cache w_w4))) as (_ & _ & D). apply (D ln l Hl).
    - right. exists lname, li, x. auto. }
  split; [vm_compute; repeat constructor; intros H; repeat (destruct H as [H|H]; [discriminate|]); destruct H|].
  split; [vm_compute; repeat constructor; intros H; repeat (destruct H as [H|H]; [discriminate|]); destruct H|].
  split; [right; left; reflexivity|].
  split; [intros x Hx; apply N in Hx; destruct Hx as [<-|[<-|[<-|[]]]]; cbn; tauto|].
  split; [intros Hx; apply N in Hx; destruct Hx as [H|[H|[H|[]]]]; discriminate|].
  split. { intros x Hx. apply String.eqb_neq in Hx. unfold effective. cbn [get]. rewrite Hx. reflexivity. }
  eexists. eexists. eexists. eexists. split; [apply f_posterior; exact Hs|]. split; [apply f_posterior; exact Hs'|]. lra.
Qed.

(** The likelihood alone, for arbitrary values of the additional parameter and every key and batch size. *)
Example C117_case_likelihood key batch s s' :
  wl_log_likelihood f_llh key batch (p_values (f_state 4 s)) = wl_log_likelihood f_llh key batch (p_values (f_state 4 s')).
Proof.
  assert (ND : forall t, NoDup (keys (p_values (f_state 4 t)))).
  { intros t. cbn. repeat constructor; intros H; repeat (destruct H as [H|H]; [discriminate|]); destruct H. }
  apply (C117_likelihood f_env w_manager w_ins (Ok f_par) init_world w_w4 f_context "rn" _ f_llh key batch _ _ f_context_made (f_declaring _)
    (or_introl eq_refl) (or_introl eq_refl) (ND s) (ND s')).
  intros x z Hx Hz. assert (N : In z (cx_needed f_context)).
  { apply (context_needed f_env _ _ _ _ _ _ f_context_made).
    - intros ln l Hl. destruct (f_declaring (contents (w_cache w_w4))) as (_ & _ & D). apply (D ln l Hl).
    - right. eexists _, _, x. split; [left; reflexivity|]. auto. }
  destruct N as [<-|[<-|[<-|[]]]]; (split; [cbn; tauto|reflexivity]).
Qed.

Print Assumptions C117_likelihood.
Print Assumptions C117_posterior.
Print Assumptions C117_prior_only.
