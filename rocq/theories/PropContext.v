(** Properties of Context: C25, C46, C47, C48, C49, C54. *)
From Coq Require Import Reals Lra ZArith.
From Verif Require Import Base BaseFacts ModelFloat ModelParameter ModelLikelihood ModelContext ModelJson
  SpecParameter SpecLikelihood SpecContext ProofFloat ProofLikelihood2 ProofParameter ProofParameter2 ProofContext ProofJson
  PropHist PropLikelihood PropParameter.
Local Open Scope string_scope.
Local Open Scope list_scope.

(* ------------------------------------------------------------------ *)
(** * C25 log_posterior *)

(** Whatever happens, only values of parameters passed in change, and every likelihood is evaluated
    with the complete set of parameters after the change and the batch size asked for. *)
Theorem C25_frame {K} sigmas (ls : dict (llh_fun K)) fresh st pars batch times st' cs r :
  log_posterior K sigmas ls fresh st pars batch times = (st', cs, r) ->
  p_config st' = p_config st /\ p_fit st' = p_fit st /\ p_fixed st' = p_fixed st /\
  keys (p_values st') = keys (p_values st) /\
  (forall n, ~ In n (keys pars) -> get n (p_values st') = get n (p_values st)) /\
  (forall c, In c cs -> c_params c = p_values st' /\ c_batch c = batch).
Proof. apply posterior_frame. Qed.

(** An unknown parameter: nothing is evaluated and nothing changes. *)
Theorem C25_unknown {K} sigmas (ls : dict (llh_fun K)) fresh st pars batch times n :
  In n (keys pars) -> ~ In n (keys (p_values st)) ->
  log_posterior K sigmas ls fresh st pars batch times = (st, [], Err AssertionError).
Proof. apply posterior_unknown. Qed.

(** A parameter outside of its allowed range: -inf, and no likelihood is evaluated. *)
Theorem C25_outside {K} sigmas (ls : dict (llh_fun K)) fresh st pars batch times st' cs r :
  NoDup (keys pars) -> (forall n, In n (keys pars) -> In n (keys (p_values st))) ->
  log_posterior K sigmas ls fresh st pars batch times = (st', cs, r) ->
  evaluable sigmas st' -> (exists n, In n (p_fit st') /\ outside st' n) ->
  overwritten st pars st' /\ cs = [] /\ r = Ok (NInf, NInf).
Proof.
  intros Hn Hk H He Ho. destruct (posterior_overwritten _ _ _ _ _ _ _ _ _ _ Hn Hk H) as [O P].
  split; [exact O|]. apply (log_prior_iff sigmas st' He) in Ho. rewrite Ho in P. exact P.
Qed.

(** Any prior that is not finite (also NaN) prevents the simulation. *)
Theorem C25_prior_not_finite {K} sigmas (ls : dict (llh_fun K)) fresh st pars batch times st' cs r prior :
  NoDup (keys pars) -> (forall n, In n (keys pars) -> In n (keys (p_values st))) ->
  log_posterior K sigmas ls fresh st pars batch times = (st', cs, r) ->
  log_prior sigmas st' = Ok prior -> (forall x, prior <> Fin x) ->
  cs = [] /\ r = Ok (NInf, prior).
Proof.
  intros Hn Hk H Hp Hx. destruct (posterior_overwritten _ _ _ _ _ _ _ _ _ _ Hn Hk H) as [O P].
  rewrite Hp in P. destruct prior as [x| | |]; [exfalso; apply (Hx x); reflexivity|exact P..].
Qed.

(** Inside, with one repetition: the sum of all likelihoods plus the prior, each likelihood using
    the key left by the previous one. Every run is of one of these two forms. *)
Theorem C25_value {K} sigmas (ls : dict (llh_fun K)) fresh st pars batch times st' cs r prior :
  NoDup (keys pars) -> (forall n, In n (keys pars) -> In n (keys (p_values st))) -> times <= 1 ->
  log_posterior K sigmas ls fresh st pars batch times = (st', cs, r) ->
  log_prior sigmas st' = Ok (Fin prior) ->
  overwritten st pars st' /\
  ((exists xs, llh_chain batch (p_values st') ls (fresh 0) cs xs /\
      r = Ok (fadd (fsum xs) (Fin prior), Fin prior)) \/
   (exists e n f k, r = Err e /\ In (n, f) ls /\ f k batch (p_values st') = Err e)).
Proof.
  intros Hn Hk Ht H Hp. destruct (posterior_overwritten _ _ _ _ _ _ _ _ _ _ Hn Hk H) as [O P].
  split; [exact O|]. rewrite Hp in P. cbn [is_fin] in P.
  replace (Nat.ltb 1 times) with false in P by (symmetry; apply Nat.ltb_ge; exact Ht).
  destruct (posterior_once K ls (Fin prior) (fresh 0) batch (p_values st')) as [cs1 r1] eqn:E1.
  injection P as -> ->. destruct (once_inv _ _ _ _ _ _ _ _ E1) as [_ I].
  destruct r1 as [y|e].
  - destruct I as (xs & Hc & ->). left. exists xs. auto.
  - destruct I as (n & f & k & Hi & He). right. exists e, n, f, k. auto.
Qed.

(** With several repetitions: the mean over the repetitions of the sums, plus the prior; every
    repetition starts from a new key. *)
Theorem C25_repeated {K} sigmas (ls : dict (llh_fun K)) fresh st pars batch times st' cs r prior :
  NoDup (keys pars) -> (forall n, In n (keys pars) -> In n (keys (p_values st))) -> 1 < times ->
  log_posterior K sigmas ls fresh st pars batch times = (st', cs, r) ->
  log_prior sigmas st' = Ok (Fin prior) ->
  overwritten st pars st' /\
  ((exists xss, llh_repeats batch (p_values st') ls fresh times 0 cs xss /\ List.length xss = times /\
      r = Ok (fadd (fmean (map fsum xss)) (Fin prior), Fin prior)) \/
   (exists e n f k, r = Err e /\ In (n, f) ls /\ f k batch (p_values st') = Err e)).
Proof.
  intros Hn Hk Ht H Hp. destruct (posterior_overwritten _ _ _ _ _ _ _ _ _ _ Hn Hk H) as [O P].
  split; [exact O|]. rewrite Hp in P. cbn [is_fin] in P.
  replace (Nat.ltb 1 times) with true in P by (symmetry; apply Nat.ltb_lt; exact Ht).
  destruct (repeat_once K ls (Fin prior) fresh batch (p_values st') times 0) as [cs1 r1] eqn:E1.
  injection P as -> ->. destruct (repeat_inv _ _ _ _ _ _ _ _ _ _ E1) as [_ I].
  destruct r1 as [y|e].
  - destruct I as (xss & Hc & ->). left. exists xss. split; [exact Hc|].
    pose proof (repeats_length _ _ _ _ _ _ _ _ _ Hc) as El. split; [exact El|]. cbn [bind]. f_equal. f_equal.
    rewrite <- (map_map fsum (fun x => fadd x (Fin prior))).
    apply fmean_add_const. destruct xss; [cbn in El; lia|discriminate].
  - destruct I as (n & f & k & Hi & He). right. exists e, n, f, k. auto.
Qed.

(** And it does succeed if the likelihoods do. *)
Theorem C25_succeeds {K} sigmas (ls : dict (llh_fun K)) fresh st pars batch times st' cs r prior :
  NoDup (keys pars) -> (forall n, In n (keys pars) -> In n (keys (p_values st))) ->
  log_posterior K sigmas ls fresh st pars batch times = (st', cs, r) ->
  log_prior sigmas st' = Ok (Fin prior) ->
  (forall n f k, In (n, f) ls -> exists y, f k batch (p_values st') = Ok y) ->
  exists y, r = Ok (y, Fin prior).
Proof.
  intros Hn Hk H Hp Hf. destruct (le_lt_dec times 1) as [Ht|Ht].
  - destruct (C25_value _ _ _ _ _ _ _ _ _ _ _ Hn Hk Ht H Hp) as [_ [(xs & _ & ->)|(e & n & f & k & _ & Hi & E)]]; [eauto|].
    destruct (Hf n f k Hi). congruence.
  - destruct (C25_repeated _ _ _ _ _ _ _ _ _ _ _ Hn Hk Ht H Hp) as [_ [(xs & _ & _ & ->)|(e & n & f & k & _ & Hi & E)]]; [eauto|].
    destruct (Hf n f k Hi). congruence.
Qed.

(** For likelihoods of binned finite data the posterior is never NaN and never +inf. *)
Theorem C25_never_nan {K} sigmas (Ls : dict (llh K)) fresh st pars batch times st' cs y prior :
  NoDup (keys pars) -> (forall n, In n (keys pars) -> In n (keys (p_values st))) ->
  (forall n L, In (n, L) Ls -> exists ds, ll_data L = map Fin ds) ->
  log_posterior K sigmas (map (fun nL => (fst nL, get_log_likelihood (snd nL))) Ls) fresh st pars batch times
    = (st', cs, Ok (y, prior)) ->
  proper_llh y.
Proof.
  intros Hn Hk Hd H. destruct (posterior_overwritten _ _ _ _ _ _ _ _ _ _ Hn Hk H) as [_ P].
  set (ls := map (fun nL => (fst nL, get_log_likelihood (snd nL))) Ls) in *.
  assert (Hproper : forall n f k k' x, In (n, f) ls -> f k batch (p_values st') = Ok (k', x) -> proper_llh x).
  { intros n f k k' x Hi E. unfold ls in Hi. apply in_map_iff in Hi. destruct Hi as ([n1 L] & Ei & Hi).
    injection Ei as <- <-. destruct (Hd n1 L Hi) as (ds & Hds). cbn [snd] in E.
    destruct (C16_never_nan L k batch (p_values st') ds k' x Hds E) as [N1 N2].
    destruct x; [right; eexists; reflexivity|congruence|left; reflexivity|congruence]. }
  destruct (log_prior sigmas st') as [pr|e] eqn:Ep; [|destruct P; discriminate].
  destruct (is_fin pr) eqn:Ef; [|destruct P as [_ P]; injection P as -> _; left; reflexivity].
  destruct pr as [pr| | |]; try discriminate Ef. destruct (le_lt_dec times 1) as [Ht|Ht].
  - destruct (C25_value _ _ _ _ _ _ _ _ _ _ _ Hn Hk Ht H Ep) as [_ [(xs & Hc & E)|(e & n & f & k & E & _)]]; [|discriminate].
    injection E as -> ->. apply proper_add; [|right; eexists; reflexivity].
    apply proper_fsum. intros x Hx. eapply chain_values; [exact Hc|exact Hproper|exact Hx].
  - destruct (C25_repeated _ _ _ _ _ _ _ _ _ _ _ Hn Hk Ht H Ep) as [_ [(xss & Hc & El & E)|(e & n & f & k & E & _)]]; [|discriminate].
    injection E as -> ->. apply proper_add; [|right; eexists; reflexivity].
    apply proper_fmean; [destruct xss; [cbn in El; lia|discriminate]|].
    intros x Hx. apply in_map_iff in Hx. destruct Hx as (xs & <- & Hxs). apply proper_fsum.
    intros x Hx. eapply repeats_values; [exact Hc|exact Hproper|exact Hxs|exact Hx].
Qed.

(** A concrete case: two likelihoods with different behaviour, a free and a fixed parameter. *)
Definition ex_free1 : setting :=
  mk_setting (Some "free") (Some []) (Some (Fin 0, Fin 10)) (Some (Fin 1)) (Some (Fin 1)).
Definition ex_ctx_state : pstate :=
  mk_pstate [("a", ex_free1); ("field", ex_fixed)] ["field"] ["a"] [("a", Fin 3); ("field", Fin 7)].
Definition ex_llhs : dict (llh_fun nat) :=
  [("rn", fun k b p => match get "a" p with Some x => Ok (S k, x) | None => Err KeyError end);
   ("ar", fun k b p => Ok (S (S k), Fin (INR k)))].

Lemma ex_free1_prior (x : R) : (0 <= x <= 10)%R ->
  log_prior ex_sigmas (with_values ex_ctx_state [("a", Fin x); ("field", Fin 7)]) = Ok (Fin 0).
Proof.
  intros H. unfold log_prior. cbn -[flt fadd].
  replace (flt (Fin x) (Fin 0)) with false by (symmetry; apply flt_Fin_false; lra).
  replace (flt (Fin 10) (Fin x)) with false by (symmetry; apply flt_Fin_false; lra).
  cbn -[flt fadd]. rewrite fadd_Fin. f_equal. f_equal. lra.
Qed.

Example C25_case :
  (exists cs, log_posterior nat ex_sigmas ex_llhs (fun i => 10 * i) ex_ctx_state [("a", Fin 4)] 5 1
     = (with_values ex_ctx_state [("a", Fin 4); ("field", Fin 7)], cs, Ok (Fin 5, Fin 0)) /\
     map c_name cs = ["rn"; "ar"] /\ map c_key cs = [0; 1]) /\
  (exists cs, log_posterior nat ex_sigmas ex_llhs (fun i => 10 * i) ex_ctx_state [("a", Fin 4)] 5 2
     = (with_values ex_ctx_state [("a", Fin 4); ("field", Fin 7)], cs, Ok (Fin 10, Fin 0)) /\
     map c_key cs = [0; 1; 10; 11]) /\
  log_posterior nat ex_sigmas ex_llhs (fun i => 10 * i) ex_ctx_state [("a", Fin 11)] 5 1
     = (with_values ex_ctx_state [("a", Fin 11); ("field", Fin 7)], [], Ok (NInf, NInf)).
Proof.
  split; [|split].
  - eexists. split.
    { unfold log_posterior. rewrite posterior_state by (intros n [<-|[]]; left; reflexivity).
    cbn [assign keys map fst snd p_values ex_ctx_state set]. cbn [String.eqb Ascii.eqb Bool.eqb].
    match goal with |- context [log_prior _ ?s] => change s with (with_values ex_ctx_state [("a", Fin 4); ("field", Fin 7)]) end.
    rewrite (ex_free1_prior 4) by lra. cbn -[fadd INR]. rewrite !fadd_Fin. do 4 f_equal. cbn. lra. }
    split; reflexivity.
  - eexists. split.
    { unfold log_posterior. rewrite posterior_state by (intros n [<-|[]]; left; reflexivity).
    cbn [assign keys map fst snd p_values ex_ctx_state set]. cbn [String.eqb Ascii.eqb Bool.eqb].
    match goal with |- context [log_prior _ ?s] => change s with (with_values ex_ctx_state [("a", Fin 4); ("field", Fin 7)]) end.
    rewrite (ex_free1_prior 4) by lra. cbn -[fadd INR fmean]. rewrite !fadd_Fin. unfold fmean.
    cbn [List.length]. rewrite !fsum_cons. change (fsum []) with (Fin 0). rewrite ?fadd_Fin. rewrite fdiv_Fin by (cbn; lra).
    do 4 f_equal. cbn. lra. }
    reflexivity.
  - unfold log_posterior. rewrite posterior_state by (intros n [<-|[]]; left; reflexivity).
    cbn [assign keys map fst snd p_values ex_ctx_state set]. cbn [String.eqb Ascii.eqb Bool.eqb].
    assert (E : log_prior ex_sigmas (with_values ex_ctx_state [("a", Fin 11); ("field", Fin 7)]) = Ok NInf).
    { unfold log_prior. cbn -[flt fadd]. replace (flt (Fin 10) (Fin 11)) with true by (symmetry; apply flt_Fin; lra).
      rewrite orb_true_r. reflexivity. }
    match goal with |- context [log_prior _ ?s] => change s with (with_values ex_ctx_state [("a", Fin 11); ("field", Fin 7)]) end.
    rewrite E. reflexivity.
Qed.

(* ------------------------------------------------------------------ *)
(** * C46 the check before fitting *)

(** What the check does: it rejects exactly the superfluous parameters. *)
Theorem C46_superfluous needed provided :
  (sanity_check needed provided = Ok tt <-> forall p, In p provided -> In p needed) /\
  (sanity_check needed provided = Err RuntimeError <-> exists p, In p provided /\ ~ In p needed).
Proof.
  split; [apply sanity_ok|]. unfold sanity_check. destruct (forallb _ provided) eqn:E.
  - split; [discriminate|]. intros (p & Hp & Hn). rewrite forallb_forall in E. exfalso. apply Hn, mem_In, E, Hp.
  - split; [|reflexivity]. intros _. clear - E. induction provided as [|q l IH]; [discriminate|].
    cbn in E. destruct (mem q needed) eqn:Eq.
    + destruct (IH E) as (p & Hp & Hn). exists p. split; [right; exact Hp|exact Hn].
    + exists q. split; [left; reflexivity|]. apply mem_false, Eq.
Qed.

(** A missing parameter passes: the check does not imply that the needed parameters are there, and
    the first evaluation of the posterior fails with a KeyError. *)
Theorem C46_missing_refuted :
  exists (c : ctx nat) st p, In p (x_needed c) /\ ~ In p (keys (p_values st)) /\
    sanity_check (x_needed c) (keys (p_values st)) = Ok tt /\
    forall fresh batch, snd (log_posterior nat ex_sigmas
      (map (fun nL => (fst nL, get_log_likelihood (snd nL))) (x_llhs c)) fresh st [] batch 1) = Err KeyError.
Proof.
  exists (xrun [] [XLlh "rn" (Ok ([], [Fin 1]));
                   XComp "rn" "c" (Ok (mk_lcomp ["a"; "missing"]
                     (LSim (fun k b p => match get "missing" p with Some x => Ok (k, [x]) | None => Err KeyError end))))]),
    (mk_pstate [("a", ex_free1)] [] ["a"] [("a", Fin 3)]), "missing".
  split; [right; left; reflexivity|]. split; [intros [H|[]]; discriminate|]. split; [reflexivity|].
  intros fresh batch. unfold log_posterior. rewrite posterior_state by (intros n []).
  assert (E : log_prior ex_sigmas (mk_pstate [("a", ex_free1)] [] ["a"] [("a", Fin 3)]) = Ok (Fin 0)).
  { unfold log_prior. cbn -[flt fadd].
    replace (flt (Fin 3) (Fin 0)) with false by (symmetry; apply flt_Fin_false; lra).
    replace (flt (Fin 10) (Fin 3)) with false by (symmetry; apply flt_Fin_false; lra).
    cbn -[flt fadd]. rewrite fadd_Fin. f_equal. f_equal. lra. }
  match goal with |- context [log_prior _ ?s] => change s with (mk_pstate [("a", ex_free1)] [] ["a"] [("a", Fin 3)]) end.
  rewrite E. reflexivity.
Qed.

(* ------------------------------------------------------------------ *)
(** * C47 copied parameters *)

Theorem C47_copies {V} (ls : dict linstr) (cfg cfg' : dict V) needed :
  NoDup (keys cfg) -> NoDup (map fst (all_copies ls)) ->
  (forall n, In n (map fst (all_copies ls)) -> ~ In n (map snd (all_copies ls))) ->
  update_parameter_config ls cfg = Ok (cfg', needed) ->
  (forall k v, In (k, v) (all_copies ls) -> exists s, get v cfg = Some s /\ get k cfg' = Some s) /\
  (forall v, In v (map snd (all_copies ls)) -> ~ is_rate ls v -> get v cfg' = None) /\
  (forall v, In v (map snd (all_copies ls)) -> is_rate ls v -> get v cfg' = get v cfg) /\
  (forall n, ~ In n (map fst (all_copies ls)) -> ~ In n (map snd (all_copies ls)) -> get n cfg' = get n cfg) /\
  (forall n, In n needed <-> In n (map fst (all_copies ls))).
Proof. intros H1 H2 H3. apply update_config_ok; assumption. Qed.

(** It succeeds iff all sources are configured. *)
Theorem C47_fails {V} (ls : dict linstr) (cfg : dict V) :
  (forall n, In n (map fst (all_copies ls)) -> ~ In n (map snd (all_copies ls))) ->
  ((exists v, In v (map snd (all_copies ls)) /\ ~ In v (keys cfg)) <-> update_parameter_config ls cfg = Err KeyError) /\
  ((forall v, In v (map snd (all_copies ls)) -> In v (keys cfg)) ->
     exists cfg' needed, update_parameter_config ls cfg = Ok (cfg', needed)).
Proof. intros H. split; [apply update_config_err, H|apply update_config_total, H]. Qed.

Example C47_case :
  let ls := [("rn", mk_linstr [("g2_rn", "g2"); ("r1", "er_rate")] ["er"]); ("ar", mk_linstr [("g2_ar", "g2")] ["nr"])] in
  NoDup (map fst (all_copies ls)) /\
  (forall n, In n (map fst (all_copies ls)) -> ~ In n (map snd (all_copies ls))) /\
  update_parameter_config ls [("g2", 1); ("er_rate", 2); ("g1", 3)]
  = Ok ([("er_rate", 2); ("g1", 3); ("g2_rn", 1); ("r1", 2); ("g2_ar", 1)], ["g2_rn"; "r1"; "g2_ar"]).
Proof.
  cbn. split; [|split].
  - repeat constructor; cbn; intuition discriminate.
  - intros n [<-|[<-|[<-|[]]]] H; cbn in H; intuition discriminate.
  - reflexivity.
Qed.

(** Without the condition a copied parameter can be lost: b is copied from a and then dropped as the
    source of c, although it is needed. *)
Theorem C47_chain_refuted :
  exists ls (cfg cfg' : dict nat) needed n, NoDup (keys cfg) /\ NoDup (map fst (all_copies ls)) /\
    update_parameter_config ls cfg = Ok (cfg', needed) /\ In n needed /\ ~ In n (keys cfg').
Proof.
  exists [("rn", mk_linstr [("b", "a"); ("c", "b")] [])], [("a", 1)], [("c", 1)], ["b"; "c"], "b".
  split; [repeat constructor; intros []|]. split; [repeat constructor; cbn; intuition discriminate|].
  split; [reflexivity|]. split; [left; reflexivity|]. intros [H|[]]; discriminate.
Qed.

(** A copied parameter with the name of an unrelated source is overwritten before being copied from. *)
Theorem C47_order_refuted :
  exists ls (cfg cfg' : dict nat) needed k v, In (k, v) (all_copies ls) /\
    update_parameter_config ls cfg = Ok (cfg', needed) /\ get k cfg' <> get v cfg.
Proof.
  exists [("rn", mk_linstr [("b", "a"); ("c", "b")] [])], [("a", 1); ("b", 2)], [("c", 1)], ["b"; "c"], "c", "b".
  split; [right; left; reflexivity|]. split; [reflexivity|]. discriminate.
Qed.

(* ------------------------------------------------------------------ *)
(** * C48 reading the posterior parameters *)

(** The first reading gives a sample of largest probability in the chain, with the values of the
    other parameters of the manager. *)
Theorem C48_best names pars f c : f_cache f = None -> f_chain f = Some c -> c <> [] ->
  (forall v lp, In (v, lp) c -> lp <> NaN /\ List.length v = List.length names) ->
  NoDup names -> (forall n, In n names -> In n (keys pars)) ->
  exists i v lp f' d, best_sample c i /\ nth_error c i = Some (v, lp) /\
    get_post_parameters Mpe names pars f = Ok (f', d) /\ keys d = keys pars /\
    (forall j n, nth_error names j = Some n -> get n d = nth_error v j) /\
    (forall n, ~ In n names -> get n d = get n pars).
Proof.
  intros Hc Hch Hne Hl Hn Hk.
  destruct (argmax_chain c Hne) as (i & Ei & Hb); [intros v lp Hi; apply (Hl v lp Hi)|].
  pose proof Hb as (v & lp & Hi & _). exists i, v, lp. eexists _, _.
  split; [exact Hb|]. split; [exact Hi|]. rewrite (read_uncached _ _ _ _ _ Hc Hch). unfold chosen. rewrite Ei. cbn [bind]. unfold row. rewrite Hi. cbn [bind].
  split; [reflexivity|].
  assert (Hv : List.length v = List.length names) by (apply (Hl v lp), (nth_error_In _ _ Hi)).
  assert (Hkc : keys (combine names v) = names).
  { clear - Hv. revert v Hv. induction names as [|n l IH]; intros [|x v] H; try discriminate; [reflexivity|].
    cbn. f_equal. apply IH. cbn in H. lia. }
  assert (Hnd : NoDup (keys (combine names v))) by (rewrite Hkc; exact Hn).
  split; [|split].
  - apply update_same_keys. intros n Hin. rewrite Hkc in Hin. auto.
  - intros j n Hj. rewrite get_update by exact Hnd.
    assert (Hlt : j < List.length v) by (rewrite Hv; apply nth_error_Some; congruence).
    destruct (nth_error v j) as [x|] eqn:Ex; [|apply nth_error_None in Ex; lia].
    assert (Hin : In (n, x) (combine names v)).
    { clear - Hj Ex. revert v j Hj Ex. induction names as [|m l IH]; intros [|y v] [|j] H1 H2; try discriminate.
      - cbn in *. left. congruence.
      - cbn in *. right. eapply IH; eassumption. }
    rewrite (In_get _ _ _ Hnd Hin). reflexivity.
  - intros n Hin. rewrite get_update by exact Hnd.
    assert (Hnone : get n (combine names v) = None) by (apply get_None_keys; rewrite Hkc; exact Hin).
    rewrite Hnone. reflexivity.
Qed.

(** From then on the same chain is read, whatever happens to the context. *)
Theorem C48_first_chain_for_ever w names pars f c ops : f_cache f = Some c ->
  f_cache (frun f ops) = Some c /\
  forall f' d, get_post_parameters w names pars f = Ok (f', d) ->
    exists f'', get_post_parameters w names pars (frun f ops) = Ok (f'', d).
Proof.
  intros H. pose proof (cache_run ops f c H) as Hr. split; [exact Hr|]. intros f' d.
  rewrite (read_cached _ _ _ _ _ H), (read_cached _ _ _ _ _ Hr).
  destruct (chosen w c) as [v|e]; [|discriminate]. cbn [bind]. intros E. injection E as <- <-. eexists. reflexivity.
Qed.

(** So after a second fit or a continuation the parameters are not those of the current chain. *)
Theorem C48_stale_refuted :
  exists f ops c names pars d v lp f', f_cache f = None /\ f_chain (frun f ops) = Some c /\
    In (v, lp) c /\ (forall v' lp', In (v', lp') c -> fle lp' lp = true) /\
    get_post_parameters Mpe names pars (frun f ops) = Ok (f', d) /\
    d <> update pars (combine names v) /\ (forall v' lp', In (v', lp') c -> lp' = lp -> v' = v).
Proof.
  exists (mk_fitctx None None true), [Fit [([Fin 1], Fin 0)]; ContinueSelf [([Fin 2], Fin 5)]],
    [([Fin 1], Fin 0); ([Fin 2], Fin 5)], ["a"], [("a", Fin 9)].
  eexists _, [Fin 2], (Fin 5), _. cbn -[fle].
  split; [reflexivity|]. split; [reflexivity|]. split; [auto|]. split.
  { intros v' lp' [E|[E|[]]]; injection E as <- <-; apply fle_Fin; lra. }
  split; [reflexivity|]. split.
  - intros E. injection E as E. lra.
  - intros v' lp' [E|[E|[]]] H; injection E as <- <-; [injection H as H; lra|reflexivity].
Qed.

(** Without a backend file continue_fitting of a context on itself fails and loses the chain. *)
Theorem C48_continue_without_backend_refuted c c2 names pars w :
  let f := frun (mk_fitctx None None false) [Fit c; ContinueSelf c2] in
  snd (fstep (frun (mk_fitctx None None false) [Fit c]) (ContinueSelf c2)) = Err ValueError /\
  f_chain f = None /\ get_post_parameters w names pars f = Err AttributeError.
Proof. cbn. auto. Qed.

Example C48_case :
  exists f' d, get_post_parameters Mpe ["a"; "b"] [("a", Fin 0); ("k", Fin 3); ("b", Fin 0)]
    (mk_fitctx (Some [([Fin 1; Fin 2], Fin (-3)); ([Fin 4; Fin 5], Fin (-1)); ([Fin 6; Fin 7], NInf)]) None false) = Ok (f', d) /\
    d = [("a", Fin 4); ("k", Fin 3); ("b", Fin 5)].
Proof.
  eexists _, _. unfold get_post_parameters, read_cache. cbn -[flt].
  replace (flt (Fin (-3)) (Fin (-1))) with true by (symmetry; apply flt_Fin; lra). cbn -[flt].
  split; reflexivity.
Qed.

(* ------------------------------------------------------------------ *)
(** * C49 storing and restoring the instructions *)

(** Restoring gives an equal value exactly if there is no boolean, null or non-finite number in it
    and no character above 0xFFFF. *)
Theorem C49_restore v : chars code_point v ->
  (exists fuel v', restore fuel v = Ok v' /\ same v v') <-> nameless v /\ chars bmp v.
Proof.
  intros Hc. split.
  - intros (fuel & v' & H & Hs).
    assert (Hm : forall big, fuel <= big -> restore big v = Ok v').
    { intros big Hb. unfold restore, eval_text in *.
      destruct (eval_value fuel (dumps v)) as [[v1 r1]|e] eqn:E; [|discriminate].
      destruct r1; [|discriminate]. injection H as ->. rewrite (eval_value_mono _ _ _ _ _ E Hb). reflexivity. }
    set (big := max fuel (2 * size v)).
    destruct (eval_conv v Hc big []) as [E1 E2]; [apply Nat.le_max_r|]. rewrite app_nil_r in E1, E2.
    specialize (Hm big (Nat.le_max_l _ _)). unfold restore, eval_text in Hm.
    destruct (nameless_dec v) as [Hn|Hn].
    + rewrite (E1 Hn) in Hm. injection Hm as <-. split; [exact Hn|]. apply same_bmp; assumption.
    + rewrite (E2 Hn) in Hm. discriminate.
  - intros [Hn Hb]. exists (2 * size v), (conv v). split; [|apply conv_same, Hb].
    destruct (eval_conv v Hc (2 * size v) [] (le_n _)) as [E1 _]. rewrite app_nil_r in E1.
    unfold restore, eval_text. rewrite (E1 Hn). reflexivity.
Qed.

(** A boolean, null, NaN or infinity anywhere makes restoring fail with a NameError. *)
Theorem C49_name_error v : chars code_point v -> ~ nameless v ->
  forall fuel, 2 * size v <= fuel -> restore fuel v = Err NameError.
Proof.
  intros Hc Hn fuel Hf. destruct (eval_conv v Hc fuel [] Hf) as [_ E2]. rewrite app_nil_r in E2.
  unfold restore, eval_text. rewrite (E2 Hn). reflexivity.
Qed.

(** Instances: a flag in the configuration, and a name outside of the basic plane. *)
Theorem C49_flag_refuted : exists v, chars bmp v /\ forall fuel, 2 * size v <= fuel -> restore fuel v = Err NameError.
Proof.
  exists (VObj [([97], VBool true)])%Z. split.
  - apply ch_obj; [repeat constructor; intros []|]. intros k x [E|[]]. injection E as <- <-.
    split; [constructor; [unfold bmp; lia|constructor]|constructor].
  - apply C49_name_error.
    + apply ch_obj; [repeat constructor; intros []|]. intros k x [E|[]]. injection E as <- <-.
      split; [constructor; [unfold code_point; lia|constructor]|constructor].
    + intros H. inversion H as [| | |? Hl]; subst. specialize (Hl _ _ (or_introl eq_refl)). inversion Hl.
Qed.

Theorem C49_character_refuted : exists v v', nameless v /\ restore 2 v = Ok v' /\ ~ same v v'.
Proof.
  exists (VText [128512])%Z, (VText [55357; 56832])%Z. split; [constructor|]. split; [reflexivity|].
  intros H. inversion H.
Qed.

(** The order of dictionaries, and with it the order of likelihoods and components, is not kept. *)
Theorem C49_order_refuted : exists l v, restore 10 (VObj l) = Ok v /\ same (VObj l) v /\ v <> VObj l.
Proof.
  exists [([98], VFinite 1); ([97], VFinite 2)]%Z, (VObj [([97], VFinite 2); ([98], VFinite 1)])%Z.
  split; [reflexivity|]. split; [|discriminate].
  change (VObj [([97], VFinite 2); ([98], VFinite 1)])%Z with (conv (VObj [([98], VFinite 1); ([97], VFinite 2)]))%Z.
  apply conv_same. apply ch_obj; [repeat constructor; cbn; intuition discriminate|].
  intros k x [E|[E|[]]]; injection E as <- <-; (split; [constructor; [unfold bmp; lia|constructor]|constructor]).
Qed.

Example C49_case :
  let v := (VObj [([110; 34; 10; 233], VArr [VFinite 1; VText [92; 8364]; VObj []]); ([97], VArr [])])%Z in
  chars bmp v /\ nameless v /\
  restore 30 v = Ok (VObj [([97], VArr []); ([110; 34; 10; 233], VArr [VFinite 1; VText [92; 8364]; VObj []])])%Z.
Proof.
  cbn zeta. split; [|split].
  - apply ch_obj; [repeat constructor; cbn; intuition discriminate|].
    intros k x [E|[E|[]]]; injection E as <- <-.
    + split; [repeat (constructor; [unfold bmp; lia|]); constructor|]. apply ch_arr. intros x [<-|[<-|[<-|[]]]].
      * constructor.
      * constructor. repeat (constructor; [unfold bmp; lia|]). constructor.
      * apply ch_obj; [constructor|intros k x []].
    + split; [repeat (constructor; [unfold bmp; lia|]); constructor|]. apply ch_arr. intros x [].
  - apply nl_obj. intros k x [E|[E|[]]]; injection E as <- <-; apply nl_arr.
    + intros x [<-|[<-|[<-|[]]]]; [constructor|constructor|apply nl_obj; intros k x []].
    + intros x [].
  - reflexivity.
Qed.

(* ------------------------------------------------------------------ *)
(** * C54 needed parameters of the context *)

(** After any sequence of registrations, successful or not, the context's needed parameters contain
    the copied ones and those of all its likelihoods. *)
Theorem C54_covers {K} copied (ops : list (xop K)) :
  (forall n L p, get n (x_llhs (xrun copied ops)) = Some L -> In p (ll_needed L) -> In p (x_needed (xrun copied ops))) /\
  (forall p, In p copied -> In p (x_needed (xrun copied ops))).
Proof. apply ctx_needed_covers. Qed.

(** And nothing else, if alias names and their targets are apart in each likelihood. *)
Theorem C54_exact {K} copied (ops : list (xop K)) :
  (forall n al d, In (XLlh n (Ok (al, d))) ops -> separate al /\ NoDup (targets al)) ->
  forall p, In p (x_needed (xrun copied ops)) <->
    In p copied \/ exists n L, get n (x_llhs (xrun copied ops)) = Some L /\ In p (ll_needed L).
Proof.
  intros H p. split; [apply ctx_needed_exact, H|].
  destruct (ctx_needed_covers copied ops) as [A B]. intros [Hp|(n & L & Hg & Hp)]; eauto.
Qed.

(** With a chain of aliases a parameter that no likelihood needs any more stays needed. *)
Theorem C54_chain_refuted :
  exists (ops : list (xop nat)) p, In p (x_needed (xrun [] ops)) /\
    forall n L, get n (x_llhs (xrun [] ops)) = Some L -> ~ In p (ll_needed L).
Proof.
  exists [XLlh "rn" (Ok ([("a", "b"); ("b", "c")], []));
          XComp "rn" "x" (Ok (mk_lcomp ["c"] LOther)); XComp "rn" "y" (Ok (mk_lcomp ["q"] LOther))], "b".
  cbn. split; [auto|]. intros n L H. destruct (String.eqb n "rn"); [|discriminate]. injection H as <-. cbn.
  intros [H|[H|[]]]; discriminate.
Qed.

Example C54_case :
  let ops := [XLlh "rn" (Ok ([("my_rate", "s_rate")], []));
              XComp "rn" "s" (Ok (mk_lcomp ["s_rate"; "g1"] LOther));
              XComp "rn" "t" (Err FileNotFoundError); XLlh "ar" (Ok ([], []));
              XComp "ar" "u" (Ok (mk_lcomp ["g2"] LOther))] : list (xop nat) in
  (forall n al d, In (XLlh n (Ok (al, d))) ops -> separate al /\ NoDup (targets al)) /\
  x_needed (xrun ["g1_copy"] ops) = ["g1_copy"; "g1"; "my_rate"; "g2"].
Proof.
  cbn zeta. split; [|reflexivity]. intros n al d [E|[E|[E|[E|[E|[]]]]]]; try discriminate; injection E as <- <- <-.
  - split; [intros k [<-|[]] [H|[]]; discriminate|repeat constructor; intros []].
  - split; [intros k []|constructor].
Qed.

Print Assumptions C25_frame.
Print Assumptions C25_unknown.
Print Assumptions C25_outside.
Print Assumptions C25_prior_not_finite.
Print Assumptions C25_value.
Print Assumptions C25_repeated.
Print Assumptions C25_succeeds.
Print Assumptions C25_never_nan.
Print Assumptions C46_superfluous.
Print Assumptions C46_missing_refuted.
Print Assumptions C47_copies.
Print Assumptions C47_fails.
Print Assumptions C47_chain_refuted.
Print Assumptions C47_order_refuted.
Print Assumptions C48_best.
Print Assumptions C48_first_chain_for_ever.
Print Assumptions C48_stale_refuted.
Print Assumptions C48_continue_without_backend_refuted.
Print Assumptions C49_restore.
Print Assumptions C49_name_error.
Print Assumptions C49_flag_refuted.
Print Assumptions C49_character_refuted.
Print Assumptions C49_order_refuted.
Print Assumptions C54_covers.
Print Assumptions C54_exact.
Print Assumptions C54_chain_refuted.
