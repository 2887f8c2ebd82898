(** Properties of Parameter and of the two-half-normal distribution: C21-C24, C41.
    The vocabulary is in SpecParameter.v, the proofs in ProofParameter.v and ProofParameter2.v. *)
From Coq Require Import Reals Lra Permutation Sorting.Sorted.
From Verif Require Import Base BaseFacts ModelFloat ModelTwoHalf ModelParameter SpecParameter
  ProofFloat ProofLikelihood2 ProofLikelihood3 ProofParameter ProofParameter2 PropHist.
Local Open Scope string_scope.
Local Open Scope R_scope.

(** A small configuration and a random generator returning the centre, for the examples. *)
Definition ex_sigmas (a b : fl) : result (fl * fl) := Ok (a, b).
Definition ex_normal (m sd : fl) (g : unit) : result (fl * unit) := Ok (m, g).
Definition ex_uniform (a b : fl) (g : unit) : result (fl * unit) := Ok (a, g).
Definition ex_norm : setting :=
  mk_setting (Some "norm") (Some [("mean", Fin 1); ("std", Fin 2)]) (Some (Fin 0, Fin 10)) (Some (Fin 1)) (Some (Fin 1)).
Definition ex_thn : setting :=
  mk_setting (Some "twohalfnorm") (Some [("mu", Fin 20); ("sigma_pos", Fin 1); ("sigma_neg", Fin 2)])
    (Some (Fin 0, Fin 10)) None None.
Definition ex_unif : setting :=
  mk_setting (Some "uniform") (Some [("lower", Fin 0); ("upper", Fin 1)]) (Some (NInf, Fin 10)) None None.
Definition ex_free : setting :=
  mk_setting (Some "free") (Some []) (Some (Fin 0, PInf)) (Some (Fin (-3))) (Some (Fin 1)).
Definition ex_fixed : setting := mk_setting (Some "fixed") (Some [("val", Fin 7)]) None None None.
Definition ex_cfg : dict setting :=
  [("w", ex_norm); ("gas", ex_thn); ("p", ex_unif); ("b", ex_free); ("field", ex_fixed)].
Definition ex_state : pstate :=
  mk_pstate ex_cfg ["field"] ["w"; "gas"; "p"; "b"]
    [("w", Fin 3); ("gas", Fin 10); ("p", Fin 5); ("b", Fin 0); ("field", Fin 7)].

Lemma ex_drawable n s : get n ex_cfg = Some s -> drawable ex_sigmas s.
Proof.
  unfold ex_cfg. cbn [get].
  repeat (match goal with |- context [String.eqb n ?m] => destruct (String.eqb n m) end;
          [intros H; injection H as <-|]); [..|discriminate].
  - eapply drawable_norm; try reflexivity; [lra|fl_eval; reflexivity].
  - eapply drawable_twohalf; try reflexivity; [lra|lra|fl_eval; reflexivity].
  - eapply drawable_uniform; reflexivity.
  - eapply drawable_free; try reflexivity. lra.
  - eapply drawable_fixed; reflexivity.
Qed.

Lemma ex_draws : draws_finite ex_normal ex_uniform.
Proof. split; intros; eexists _, _; reflexivity. Qed.

Lemma ex_evaluable : evaluable ex_sigmas ex_state.
Proof.
  intros n Hn. cbn in Hn.
  assert (H : forall m s ty, get m ex_cfg = Some s -> s_type s = Some ty -> ty <> "fixed" -> proper ex_sigmas s).
  { intros m s ty Es. apply drawable_proper, (ex_drawable m s Es). }
  destruct Hn as [<-|[<-|[<-|[<-|[]]]]].
  - exists ex_norm, 3. repeat split. eapply (H "w"); [reflexivity..|discriminate].
  - exists ex_thn, 10. repeat split. eapply (H "gas"); [reflexivity..|discriminate].
  - exists ex_unif, 5. repeat split. eapply (H "p"); [reflexivity..|discriminate].
  - exists ex_free, 0. repeat split. eapply (H "b"); [reflexivity..|discriminate].
Qed.

Lemma Forall2_weaken {A B} (P Q : A -> B -> Prop) l l' :
  (forall x y, P x y -> Q x y) -> Forall2 P l l' -> Forall2 Q l l'.
Proof. intros H. induction 1; constructor; auto. Qed.

(* ------------------------------------------------------------------ *)
(** * C21 log prior *)

Theorem C21_minus_infinity sigmas st : evaluable sigmas st ->
  (log_prior sigmas st = Ok NInf <-> exists n, In n (p_fit st) /\ outside st n).
Proof. exact (log_prior_iff sigmas st). Qed.

(** Inside the allowed ranges it is the sum of the log densities of the free parameters. *)
Theorem C21_value sigmas st : evaluable sigmas st -> (forall n, In n (p_fit st) -> ~ outside st n) ->
  exists rs, Forall2 (fun n r => exists s x, get n (p_config st) = Some s /\
               get n (p_values st) = Some (Fin x) /\ log_density sigmas s x r) (p_fit st) rs /\
    log_prior sigmas st = Ok (Fin (rsum rs)).
Proof.
  intros He Hi. destruct (log_prior_cases sigmas st He) as [(rs & F & E)|((n & Hn & Ho) & _)].
  - exists rs. split; [|exact E]. eapply Forall2_weaken; [|exact F].
    intros n r (s & x & ? & ? & _ & ?). exists s, x. auto.
  - exfalso. eapply Hi; eauto.
Qed.

(** Fixed parameters, and parameters that are not configured, have no influence. *)
Theorem C21_fixed_no_influence sigmas st st' :
  p_fit st = p_fit st' ->
  (forall n, In n (p_fit st) -> get n (p_values st) = get n (p_values st') /\
                                get n (p_config st) = get n (p_config st')) ->
  log_prior sigmas st = log_prior sigmas st'.
Proof. intros E H. unfold log_prior. rewrite <- E. apply log_prior_loop_ext, H. Qed.

(** Iterating over the set in another order gives the same sum. *)
Theorem C21_order sigmas cfg fixed fit fit' v t : Permutation fit fit' ->
  log_prior sigmas (mk_pstate cfg fixed fit v) = Ok t -> log_prior sigmas (mk_pstate cfg fixed fit' v) = Ok t.
Proof. exact (fun P => log_prior_loop_perm sigmas cfg v fit fit' P t). Qed.

Example C21_case :
  evaluable ex_sigmas ex_state /\ (forall n, In n (p_fit ex_state) -> ~ outside ex_state n) /\
  log_prior ex_sigmas ex_state
  = Ok (Fin (- (2 * 2) / (2 * (2 * 2))
             + ((- (-10 * -10) / (2 * (2 * 2)) + ln (2 / ((1 + 2) * sqrt (2 * PI)))) + (0 + (0 + 0))))).
Proof.
  assert (Hi : forall n, In n (p_fit ex_state) -> ~ outside ex_state n).
  { intros n Hn. cbn in Hn.
    destruct Hn as [<-|[<-|[<-|[<-|[]]]]]; intros (s & v & E1 & E2 & H); cbn in E1, E2;
      injection E1 as <-; injection E2 as <-; apply H; eexists _, _;
      (split; [reflexivity|split; fl_eval; reflexivity]). }
  split; [exact ex_evaluable|]. split; [exact Hi|].
  destruct (C21_value ex_sigmas ex_state ex_evaluable Hi) as (rs & F & ->). f_equal. f_equal.
  cbn [p_fit ex_state] in F.
  inversion F as [|? ? ? ? (s1 & x1 & A1 & B1 & D1) F1]; subst. inversion F1 as [|? ? ? ? (s2 & x2 & A2 & B2 & D2) F2]; subst.
  inversion F2 as [|? ? ? ? (s3 & x3 & A3 & B3 & D3) F3]; subst. inversion F3 as [|? ? ? ? (s4 & x4 & A4 & B4 & D4) F4]; subst.
  inversion F4; subst. cbn in A1, A2, A3, A4, B1, B2, B3, B4.
  injection A1 as <-. injection A2 as <-. injection A3 as <-. injection A4 as <-.
  injection B1 as <-. injection B2 as <-. injection B3 as <-. injection B4 as <-.
  cbn [rsum].
  inversion D1 as [args m sd T1 T2 T3 T4|? ? ? ? ? ? T1|ty T1 T2 T3]; cbn in T1; try discriminate; [|injection T1 as <-; congruence].
  cbn in T2. injection T2 as <-. cbn in T3, T4. injection T3 as <-. injection T4 as <-.
  inversion D2 as [? ? ? U1|args' ep en mu sp sn U1 U2 U3 U4 U5 U6|ty U1 U2 U3]; cbn in U1; try discriminate; [|injection U1 as <-; congruence].
  cbn in U2. injection U2 as <-. cbn in U3, U4, U5. injection U3 as <-. injection U4 as <-. injection U5 as <-.
  injection U6 as <- <-.
  inversion D3 as [? ? ? V1|? ? ? ? ? ? V1|? V1 ? ?]; cbn in V1; try discriminate.
  inversion D4 as [? ? ? W1|? ? ? ? ? ? W1|? W1 ? ?]; cbn in W1; try discriminate.
  destruct (Rlt_dec 10 20); [|lra].
  replace (3 - 1) with 2 by lra. replace (10 - 20) with (-10) by lra. lra.
Qed.

(** A uniform prior is not enforced: at 5, outside [0, 1] but inside the allowed range, the log
    prior is finite. *)
Theorem C21_uniform_support_refuted :
  exists st, evaluable ex_sigmas st /\ p_fit st = ["p"] /\ get "p" (p_config st) = Some ex_unif /\
    get "p" (p_values st) = Some (Fin 5) /\ log_prior ex_sigmas st = Ok (Fin 0).
Proof.
  exists (mk_pstate [("p", ex_unif)] [] ["p"] [("p", Fin 5)]). split.
  - intros n [<-|[]]. eexists _, _. split; [reflexivity|]. split; [reflexivity|].
    eapply (proper_flat _ _ "uniform"); try reflexivity; discriminate.
  - repeat split; try reflexivity. unfold log_prior. fl_eval. unfold fadd. f_equal. f_equal. lra.
Qed.

(** NaN is not rejected: a flat prior accepts it. *)
Theorem C21_nan_accepted_refuted :
  exists st, p_fit st = ["p"] /\ get "p" (p_config st) = Some ex_unif /\
    get "p" (p_values st) = Some NaN /\ log_prior ex_sigmas st = Ok (Fin 0).
Proof.
  exists (mk_pstate [("p", ex_unif)] [] ["p"] [("p", NaN)]).
  repeat split; try reflexivity. unfold log_prior. fl_eval. unfold fadd. f_equal. f_equal. lra.
Qed.

(* ------------------------------------------------------------------ *)
(** * C22 sampling *)

Section Sampling.
  Variable Rng : Type.
  Variables normal uniform : fl -> fl -> Rng -> result (fl * Rng).
  Variable sigmas : fl -> fl -> result (fl * fl).

  Theorem C22_sample_prior st g : draws_finite normal uniform ->
    NoDup (keys (p_values st)) ->
    (forall n, In n (keys (p_values st)) -> exists s, get n (p_config st) = Some s /\ drawable sigmas s) ->
    exists st' g', sample_prior Rng normal uniform sigmas st g = (st', Ok g') /\
      p_config st' = p_config st /\ p_fit st' = p_fit st /\ p_fixed st' = p_fixed st /\
      keys (p_values st') = keys (p_values st) /\
      forall n, In n (keys (p_values st)) -> exists s x,
        get n (p_config st) = Some s /\ get n (p_values st') = Some x /\ sampled_ok s x.
  Proof.
    intros D Hn Hd. apply (sample_all Rng _ (drawable sigmas) st g); [|exact Hn|exact Hd].
    intros s g0. apply (prior_value_ok Rng normal uniform sigmas D).
  Qed.

  Theorem C22_sample_init st g : draws_finite normal uniform ->
    NoDup (keys (p_values st)) ->
    (forall n, In n (keys (p_values st)) -> exists s, get n (p_config st) = Some s /\ startable s) ->
    exists st' g', sample_init Rng normal st g = (st', Ok g') /\
      p_config st' = p_config st /\ p_fit st' = p_fit st /\ p_fixed st' = p_fixed st /\
      keys (p_values st') = keys (p_values st) /\
      forall n, In n (keys (p_values st)) -> exists s x,
        get n (p_config st) = Some s /\ get n (p_values st') = Some x /\ sampled_ok s x.
  Proof.
    intros D Hn Hd. apply (sample_all Rng _ startable st g); [|exact Hn|exact Hd].
    intros s g0. apply (init_value_ok Rng normal uniform D).
  Qed.

  (** No parameter is added or removed, even if sampling fails half way. *)
  Theorem C22_no_parameter_added st g :
    keys (p_values (fst (sample_prior Rng normal uniform sigmas st g))) = keys (p_values st) /\
    keys (p_values (fst (sample_init Rng normal st g))) = keys (p_values st).
  Proof. split; apply sample_frame. Qed.

  (** Construction from a drawable configuration succeeds, in the ranges, with finite log prior. *)
  Theorem C22_construction cfg g : draws_finite normal uniform -> NoDup (keys cfg) ->
    (forall n s, get n cfg = Some s -> drawable sigmas s) ->
    exists st g', new_parameter Rng normal uniform sigmas cfg g = Ok (st, g') /\
      forall n s, get n cfg = Some s -> exists x, get n (p_values st) = Some x /\ sampled_ok s x.
  Proof. intros D. exact (new_ok Rng normal uniform sigmas D cfg g). Qed.

  Theorem C22_start_has_finite_prior cfg g : draws_finite normal uniform -> NoDup (keys cfg) ->
    (forall n s, get n cfg = Some s -> drawable sigmas s) ->
    (forall n, is_free cfg n -> exists s, get n cfg = Some s /\ reachable_range s) ->
    exists st g' r, new_parameter Rng normal uniform sigmas cfg g = Ok (st, g') /\
      log_prior sigmas st = Ok (Fin r).
  Proof. intros D. exact (new_log_prior Rng normal uniform sigmas D cfg g). Qed.
End Sampling.

Example C22_case : draws_finite ex_normal ex_uniform /\ NoDup (keys ex_cfg) /\
  (forall n s, get n ex_cfg = Some s -> drawable ex_sigmas s) /\
  (forall n, is_free ex_cfg n -> exists s, get n ex_cfg = Some s /\ reachable_range s) /\
  new_parameter unit ex_normal ex_uniform ex_sigmas [("b", ex_free); ("field", ex_fixed)] tt
  = Ok (mk_pstate [("b", ex_free); ("field", ex_fixed)] ["field"] ["b"] [("b", Fin 0); ("field", Fin 7)], tt).
Proof.
  split; [exact ex_draws|]. split; [|split; [exact ex_drawable|split]].
  - repeat constructor; cbn; intuition discriminate.
  - intros n (s & ty & Hi & Et & Hne). cbn in Hi.
    destruct Hi as [E|[E|[E|[E|[E|[]]]]]]; injection E as <- <-;
      try (eexists; split; [reflexivity|]; eexists _, _; repeat split; discriminate).
    injection Et as <-. congruence.
  - unfold new_parameter, init_parameter, sample_prior, sample. cbn.
    unfold clip_range, fclip, fmax, fmin, sample_loop. fl_eval. reflexivity.
Qed.

(** A parameter of unknown prior type is accepted, stays at 0 and counts as free: it can start
    outside its allowed range, where the log prior is -inf. *)
Theorem C22_unknown_type_refuted :
  exists cfg st, new_parameter unit ex_normal ex_uniform ex_sigmas cfg tt = Ok (st, tt) /\
    In "p" (p_fit st) /\ outside st "p" /\ log_prior ex_sigmas st = Ok NInf.
Proof.
  exists [("p", mk_setting (Some "gaus") (Some []) (Some (Fin 1, Fin 2)) None None)].
  eexists. split; [reflexivity|]. split; [left; reflexivity|]. split.
  - eexists _, _. split; [reflexivity|]. split; [reflexivity|].
    intros (lo & hi & E & H & _). cbn in E. injection E as <- <-. cbn in H. destruct (Rle_dec 1 0); [lra|discriminate].
  - unfold log_prior. fl_eval. reflexivity.
Qed.

(** Editing par_config and calling init_parameter again leaves the old classification behind: a
    parameter turned fixed is still fitted. *)
Theorem C22_reclassified_refuted :
  exists st st', p_config st = [("p", ex_fixed)] /\
    new_parameter unit ex_normal ex_uniform ex_sigmas [("p", ex_free)] tt
      = Ok (mk_pstate [("p", ex_free)] (p_fixed st) (p_fit st) (p_values st), tt) /\
    init_parameter unit ex_normal ex_uniform ex_sigmas st None tt = (st', Ok tt) /\
    In "p" (p_fixed st') /\ In "p" (p_fit st').
Proof.
  exists (mk_pstate [("p", ex_fixed)] [] ["p"] [("p", Fin 0)]). eexists. split; [reflexivity|]. split.
  - unfold new_parameter, init_parameter, sample_prior, sample. cbn.
    unfold clip_range, fclip, fmax, fmin, sample_loop. fl_eval. reflexivity.
  - split; [reflexivity|]. split; left; reflexivity.
Qed.

(* ------------------------------------------------------------------ *)
(** * C23 set_parameter *)

(** A valid assignment to known names: exactly these parameters change, the last value wins. *)
Theorem C23_assigns st k vals l xs : assignment k vals l xs ->
  (forall n, In n l -> In n (keys (p_values st))) ->
  exists st', set_parameter st k vals = (st', Ok tt) /\
    p_config st' = p_config st /\ p_fit st' = p_fit st /\ p_fixed st' = p_fixed st /\
    keys (p_values st') = keys (p_values st) /\
    forall n, get n (p_values st') = match last_value l xs n with Some x => Some x | None => get n (p_values st) end.
Proof.
  intros Ha Hk. eexists. split; [apply (set_valid st k vals l xs Ha Hk)|].
  repeat split; [apply assign_keys, Hk|intros n; apply assign_get].
Qed.

(** Anything else raises, and nothing changes. *)
Theorem C23_otherwise_nothing st k vals :
  (forall l xs, assignment k vals l xs -> exists n, In n l /\ ~ In n (keys (p_values st))) ->
  exists e, set_parameter st k vals = (st, Err e).
Proof.
  intros H. destruct (set_outcome st k vals) as [(l & xs & Ha & Hk & _)|(E & _)]; [|exact E].
  exfalso. destruct (H l xs Ha) as (n & Hn & Hx). apply Hx, Hk, Hn.
Qed.

(** Reading back what was written. *)
Theorem C23_read_back st k vals l xs n x : assignment k vals l xs ->
  (forall m, In m l -> In m (keys (p_values st))) -> last_value l xs n = Some x ->
  get_parameter (fst (set_parameter st k vals)) (KStr n) = Ok [x].
Proof.
  intros Ha Hk Hx. rewrite (set_valid st k vals l xs Ha Hk). cbn [fst].
  assert (E : get n (assign l xs (p_values st)) = Some x) by (rewrite assign_get, Hx; reflexivity).
  unfold get_parameter, check_exist, has, getitem. cbn [p_values with_values]. rewrite E. reflexivity.
Qed.

Example C23_case :
  fst (set_parameter ex_state (KList ["w"; "p"; "w"]) (VSeq [Fin 1; Fin 2; Fin 4]))
  = with_values ex_state [("w", Fin 4); ("gas", Fin 10); ("p", Fin 2); ("b", Fin 0); ("field", Fin 7)] /\
  set_parameter ex_state (KList ["w"; "q"]) (VSeq [Fin 1; Fin 2]) = (ex_state, Err AssertionError) /\
  set_parameter ex_state (KList ["w"; "p"]) (VSeq [Fin 1]) = (ex_state, Err AssertionError) /\
  set_parameter ex_state (KSet ["w"]) (VSeq [Fin 1]) = (ex_state, Err ValueError) /\
  set_parameter ex_state (KStr "w") VNone = (ex_state, Err AssertionError) /\
  set_parameter ex_state (KList ["w"]) VNone = (ex_state, Err TypeError).
Proof. repeat split. Qed.

(* ------------------------------------------------------------------ *)
(** * C24 the fit vector *)

Section Fit.
  Variable Rng : Type.
  Variables normal uniform : fl -> fl -> Rng -> result (fl * Rng).
  Variable sigmas : fl -> fl -> result (fl * fl).

  Theorem C24_lists_free_parameters cfg st n : reachable Rng normal uniform sigmas cfg st ->
    (In n (parameter_fit st) <-> is_free cfg n).
  Proof.
    intros H. destruct (reachable_wf _ _ _ _ _ _ H) as (_ & _ & _ & W & _). rewrite <- W.
    split; apply Permutation_in; [apply sorted_perm|apply Permutation_sym, sorted_perm].
  Qed.

  Theorem C24_increasing cfg st : reachable Rng normal uniform sigmas cfg st ->
    StronglySorted before (parameter_fit st).
  Proof. intros H. destruct (reachable_wf _ _ _ _ _ _ H) as (_ & _ & W & _). apply sorted_sorted, W. Qed.

  Theorem C24_configuration_order cfg cfg' st st' :
    reachable Rng normal uniform sigmas cfg st -> reachable Rng normal uniform sigmas cfg' st' ->
    Permutation cfg cfg' -> parameter_fit st = parameter_fit st'.
  Proof. exact (parameter_fit_order Rng normal uniform sigmas cfg cfg' st st'). Qed.

  Theorem C24_round_trip cfg st xs : reachable Rng normal uniform sigmas cfg st ->
    List.length xs = List.length (parameter_fit st) ->
    exists st', set_parameter st (KList (parameter_fit st)) (VSeq xs) = (st', Ok tt) /\
      parameter_fit st' = parameter_fit st /\ parameter_fit_array st' = Ok xs /\
      keys (p_values st') = keys (p_values st) /\
      forall n, ~ is_free cfg n -> get n (p_values st') = get n (p_values st).
  Proof. exact (reachable_round_trip Rng normal uniform sigmas cfg st xs). Qed.
End Fit.

(** The order of [before] is a strict total order. *)
Theorem C24_order_is_total a b c :
  (a = b \/ before a b \/ before b a) /\ ~ before a a /\ (before a b -> before b c -> before a c).
Proof. exact (conj (before_total a b) (conj (before_irrefl a) (before_trans a b c))). Qed.

Example C24_case : exists st, reachable unit ex_normal ex_uniform ex_sigmas ex_cfg st /\
  parameter_fit st = ["b"; "gas"; "p"; "w"] /\
  parameter_fit_array (fst (set_parameter st (KList (parameter_fit st)) (VSeq [Fin 1; Fin 2; Fin 3; Fin 4])))
  = Ok [Fin 1; Fin 2; Fin 3; Fin 4].
Proof.
  destruct (new_ok unit ex_normal ex_uniform ex_sigmas ex_draws ex_cfg tt) as (st & g & E & _).
  - repeat constructor; cbn; intuition discriminate.
  - exact ex_drawable.
  - assert (R : reachable unit ex_normal ex_uniform ex_sigmas ex_cfg st) by (eapply r_new; exact E).
    assert (F : parameter_fit st = ["b"; "gas"; "p"; "w"]).
    { apply sorted_unique.
      - eapply C24_increasing, R.
      - repeat constructor; cbn; lia.
      - intros x. rewrite (C24_lists_free_parameters _ _ _ _ _ _ x R). split.
        + intros (s & ty & Hi & Et & Hne). cbn in Hi.
          destruct Hi as [H|[H|[H|[H|[H|[]]]]]]; injection H as <- <-; cbn; auto 6.
          injection Et as <-. congruence.
        + intros [<-|[<-|[<-|[<-|[]]]]].
          * exists ex_free, "free". repeat split; [cbn; auto 6|discriminate].
          * exists ex_thn, "twohalfnorm". repeat split; [cbn; auto 6|discriminate].
          * exists ex_unif, "uniform". repeat split; [cbn; auto 6|discriminate].
          * exists ex_norm, "norm". repeat split; [cbn; auto 6|discriminate]. }
    exists st. split; [exact R|]. split; [exact F|].
    destruct (C24_round_trip _ _ _ _ _ _ [Fin 1; Fin 2; Fin 3; Fin 4] R) as (st' & -> & _ & H & _).
    + rewrite F. reflexivity.
    + exact H.
Qed.

(* ------------------------------------------------------------------ *)
(** * C41 two-half-normal *)

Definition thn (mu sp sn x y : R) : Prop := twohalf_logpdf (Fin x) (Fin mu) (Fin sp) (Fin sn) = Ok (Fin y).

Lemma thn_val mu sp sn x y : 0 < sp -> 0 < sn -> thn mu sp sn x y ->
  y = - ((x - mu) * (x - mu)) * / (2 * ((if Rlt_dec x mu then sn else sp) * (if Rlt_dec x mu then sn else sp)))
       + ln (2 / ((sp + sn) * sqrt (2 * PI))).
Proof. intros Hp Hn H. unfold thn in H. rewrite twohalf_logpdf_Fin in H by assumption. injection H as <-. reflexivity. Qed.

(** Defined for positive widths, an AssertionError otherwise. *)
Theorem C41_defined mu sp sn x :
  (0 < sp -> 0 < sn -> exists y, thn mu sp sn x y) /\
  (sp <= 0 \/ sn <= 0 -> twohalf_logpdf (Fin x) (Fin mu) (Fin sp) (Fin sn) = Err AssertionError).
Proof.
  split.
  - intros Hp Hn. eexists. unfold thn. apply twohalf_logpdf_Fin; assumption.
  - intros H. unfold twohalf_logpdf.
    assert (E : flt (Fin 0) (Fin sp) && flt (Fin 0) (Fin sn) = false).
    { cbn. destruct (Rlt_dec 0 sp), (Rlt_dec 0 sn); try reflexivity. lra. }
    rewrite E. reflexivity.
Qed.

(** Strictly increasing below mu, strictly decreasing above. *)
Theorem C41_unimodal mu sp sn x y lx ly : 0 < sp -> 0 < sn ->
  thn mu sp sn x lx -> thn mu sp sn y ly ->
  (x < y -> y <= mu -> lx < ly) /\ (mu <= x -> x < y -> ly < lx).
Proof.
  intros Hp Hn Hx Hy. rewrite (thn_val _ _ _ _ _ Hp Hn Hx), (thn_val _ _ _ _ _ Hp Hn Hy).
  assert (In : 0 < / (2 * (sn * sn))) by (apply Rinv_0_lt_compat; nra).
  assert (Ip : 0 < / (2 * (sp * sp))) by (apply Rinv_0_lt_compat; nra).
  split; intros H1 H2.
  - apply Rplus_lt_compat_r. destruct (Rlt_dec x mu); [|lra]. destruct (Rlt_dec y mu).
    + apply Rmult_lt_compat_r; [exact In|]. nra.
    + assert (y = mu) by lra. subst y. replace (mu - mu) with 0 by lra.
      assert (0 < (x - mu) * (x - mu)) by nra. nra.
  - apply Rplus_lt_compat_r. destruct (Rlt_dec x mu); [lra|]. destruct (Rlt_dec y mu); [lra|].
    apply Rmult_lt_compat_r; [exact Ip|]. nra.
Qed.

(** The mode is mu, and only mu. *)
Theorem C41_mode mu sp sn x lx lmu : 0 < sp -> 0 < sn ->
  thn mu sp sn x lx -> thn mu sp sn mu lmu -> lx <= lmu /\ (lx = lmu -> x = mu).
Proof.
  intros Hp Hn Hx Hm. destruct (C41_unimodal mu sp sn x mu lx lmu Hp Hn Hx Hm) as [A _].
  destruct (C41_unimodal mu sp sn mu x lmu lx Hp Hn Hm Hx) as [_ B].
  destruct (Rtotal_order x mu) as [H|[H|H]].
  - specialize (A H (Rle_refl _)). split; lra.
  - subst x. unfold thn in *. rewrite Hx in Hm. injection Hm as ->. split; lra.
  - specialize (B (Rle_refl _) H). split; lra.
Qed.

(** Continuous at mu, where the two halves meet. *)
Theorem C41_continuous mu sp sn lmu eps : 0 < sp -> 0 < sn -> 0 < eps -> thn mu sp sn mu lmu ->
  exists delta, 0 < delta /\ forall x lx, Rabs (x - mu) < delta -> thn mu sp sn x lx -> Rabs (lx - lmu) < eps.
Proof.
  intros Hp Hn He Hm.
  set (k := / (2 * (sn * sn)) + / (2 * (sp * sp))).
  assert (In : 0 < / (2 * (sn * sn))) by (apply Rinv_0_lt_compat; nra).
  assert (Ip : 0 < / (2 * (sp * sp))) by (apply Rinv_0_lt_compat; nra).
  assert (Hk : 0 < k) by (unfold k; lra).
  exists (Rmin 1 (eps / k)). split; [apply Rmin_glb_lt; [lra|apply Rdiv_lt_0_compat; lra]|].
  intros x lx Hd Hx. rewrite (thn_val _ _ _ _ _ Hp Hn Hx), (thn_val _ _ _ _ _ Hp Hn Hm).
  replace (mu - mu) with 0 by lra.
  set (d := Rabs (x - mu)) in *.
  assert (Hd1 : d < 1) by (eapply Rlt_le_trans; [exact Hd|apply Rmin_l]).
  assert (Hd2 : d < eps / k) by (eapply Rlt_le_trans; [exact Hd|apply Rmin_r]).
  assert (Hd0 : 0 <= d) by apply Rabs_pos.
  assert (Hsq : (x - mu) * (x - mu) = d * d).
  { unfold d. destruct (Rcase_abs (x - mu)) as [H|H];
      [rewrite Rabs_left by exact H|rewrite Rabs_right by exact H]; ring. }
  assert (Hke : d * k < eps).
  { apply (Rmult_lt_compat_r k) in Hd2; [|exact Hk]. unfold Rdiv in Hd2.
    rewrite Rmult_assoc, Rinv_l in Hd2 by lra. lra. }
  rewrite Hsq. set (L := ln _).
  assert (Hc : forall c, 0 < c -> c <= k -> Rabs (- (d * d) * c + L - L) < eps).
  { intros c Hc1 Hc2. replace (- (d * d) * c + L - L) with (- (d * d * c)) by lra.
    rewrite Rabs_Ropp, Rabs_right by nra.
    assert (d * d <= d) by nra. assert (d * d * c <= d * k) by nra. lra. }
  replace (- (0 * 0) * / (2 * ((if Rlt_dec mu mu then sn else sp) * (if Rlt_dec mu mu then sn else sp))) + L) with L by lra.
  destruct (Rlt_dec x mu); apply Hc; unfold k; lra.
Qed.

Theorem C41_symmetric mu s d l1 l2 : 0 < s ->
  thn mu s s (mu + d) l1 -> thn mu s s (mu - d) l2 -> l1 = l2.
Proof.
  intros Hs H1 H2. rewrite (thn_val _ _ _ _ _ Hs Hs H1), (thn_val _ _ _ _ _ Hs Hs H2). f_equal.
  replace (mu + d - mu) with d by lra. replace (mu - d - mu) with (- d) by lra.
  destruct (Rlt_dec (mu + d) mu), (Rlt_dec (mu - d) mu); f_equal; lra.
Qed.

(** Samples with numpy widths: above mu scaled by the upper width, below by the lower width, the
    upper half being chosen iff u < sp / (sp + sn). *)
Theorem C41_samples u z mu sp sn : 0 < sp -> 0 < sn ->
  (u < sp / (sp + sn) -> twohalf_rvs NumpyBool (Fin u) (Fin z) (Fin mu) (Fin sp) (Fin sn) = Ok (Fin (mu + Rabs z * sp))) /\
  (sp / (sp + sn) <= u -> twohalf_rvs NumpyBool (Fin u) (Fin z) (Fin mu) (Fin sp) (Fin sn) = Ok (Fin (mu - Rabs z * sn))).
Proof.
  intros Hp Hn. unfold twohalf_rvs.
  replace (flt (Fin 0) (Fin sp)) with true by (symmetry; apply flt_Fin; lra).
  replace (flt (Fin 0) (Fin sn)) with true by (symmetry; apply flt_Fin; lra). cbn [andb fabs].
  rewrite fadd_Fin, fdiv_Fin by lra.
  rewrite !fmul_Fin, fsub_Fin, fadd_Fin. cbn [flt].
  split; intros H; (destruct (Rlt_dec u (sp / (sp + sn))); [|]; try lra); cbn [invert_num bool_num negb];
    f_equal; f_equal; lra.
Qed.

(** With Python-number widths and no size the complement is taken of a Python bool: no sample is
    ever below mu, whatever the random numbers. *)
Theorem C41_python_scalars_refuted mu sp sn : 0 < sp -> 0 < sn -> forall u z, exists v,
  twohalf_rvs PythonBool (Fin u) (Fin z) (Fin mu) (Fin sp) (Fin sn) = Ok (Fin v) /\ mu <= v /\
  (sp / (sp + sn) <= u -> v = mu + Rabs z * sn) /\ (u < sp / (sp + sn) -> v = mu + Rabs z * (sp + 2 * sn)).
Proof.
  intros Hp Hn u z. unfold twohalf_rvs.
  replace (flt (Fin 0) (Fin sp)) with true by (symmetry; apply flt_Fin; lra).
  replace (flt (Fin 0) (Fin sn)) with true by (symmetry; apply flt_Fin; lra). cbn [andb fabs].
  rewrite fadd_Fin, fdiv_Fin by lra.
  rewrite !fmul_Fin, fsub_Fin, fadd_Fin. cbn [flt].
  pose proof (Rabs_pos z).
  destruct (Rlt_dec u (sp / (sp + sn))); cbn [invert_num bool_num negb];
    (eexists; split; [reflexivity|split; [nra|split; intros; try lra]]).
Qed.

Example C41_case :
  twohalf_rvs NumpyBool (Fin (1/2)) (Fin (-2)) (Fin 10) (Fin 1) (Fin 3) = Ok (Fin 4) /\
  twohalf_rvs PythonBool (Fin (1/2)) (Fin (-2)) (Fin 10) (Fin 1) (Fin 3) = Ok (Fin 16) /\
  exists l5 l7 l10, thn 10 1 3 5 l5 /\ thn 10 1 3 7 l7 /\ thn 10 1 3 10 l10 /\ l5 < l7 < l10.
Proof.
  split; [|split].
  - rewrite (proj2 (C41_samples (1/2) (-2) 10 1 3 ltac:(lra) ltac:(lra))) by lra.
    rewrite Rabs_left by lra. f_equal. f_equal. lra.
  - destruct (C41_python_scalars_refuted 10 1 3 ltac:(lra) ltac:(lra) (1/2) (-2)) as (v & -> & _ & H & _).
    rewrite H by lra. rewrite Rabs_left by lra. f_equal. f_equal. lra.
  - destruct (proj1 (C41_defined 10 1 3 5) ltac:(lra) ltac:(lra)) as (l5 & H5).
    destruct (proj1 (C41_defined 10 1 3 7) ltac:(lra) ltac:(lra)) as (l7 & H7).
    destruct (proj1 (C41_defined 10 1 3 10) ltac:(lra) ltac:(lra)) as (l10 & H10).
    exists l5, l7, l10. repeat split; auto.
    + apply (proj1 (C41_unimodal 10 1 3 5 7 l5 l7 ltac:(lra) ltac:(lra) H5 H7)); lra.
    + apply (proj1 (C41_unimodal 10 1 3 7 10 l7 l10 ltac:(lra) ltac:(lra) H7 H10)); lra.
Qed.

Print Assumptions C21_minus_infinity.
Print Assumptions C21_value.
Print Assumptions C21_fixed_no_influence.
Print Assumptions C21_order.
Print Assumptions C21_uniform_support_refuted.
Print Assumptions C21_nan_accepted_refuted.
Print Assumptions C22_sample_prior.
Print Assumptions C22_sample_init.
Print Assumptions C22_no_parameter_added.
Print Assumptions C22_construction.
Print Assumptions C22_start_has_finite_prior.
Print Assumptions C22_unknown_type_refuted.
Print Assumptions C22_reclassified_refuted.
Print Assumptions C23_assigns.
Print Assumptions C23_otherwise_nothing.
Print Assumptions C23_read_back.
Print Assumptions C24_lists_free_parameters.
Print Assumptions C24_increasing.
Print Assumptions C24_configuration_order.
Print Assumptions C24_round_trip.
Print Assumptions C24_order_is_total.
Print Assumptions C41_defined.
Print Assumptions C41_unimodal.
Print Assumptions C41_mode.
Print Assumptions C41_continuous.
Print Assumptions C41_symmetric.
Print Assumptions C41_samples.
Print Assumptions C41_python_scalars_refuted.
