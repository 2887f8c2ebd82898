(** C129, what its hypotheses are for: an alias under the name of a parameter that a component of the same likelihood
    needs takes that parameter away. *)
From Coq Require Import Reals Lra Lia.
From Verif Require Import Base BaseFacts ModelFloat ModelHist ModelShare ModelConfig ModelComponent ModelCompile
  ModelParameter ModelLikelihood ModelBinning ModelLit ModelContext ModelWhole
  SpecHist SpecLikelihood SpecComponent SpecConfig SpecCompile SpecParameter SpecContext SpecWeighted SpecBinning SpecWhole SpecNeeded SpecFrame SpecAnswers
  ProofFloat ProofHist ProofLikelihood ProofLikelihood2 ProofLikelihood3 ProofParameter ProofContext ProofBinning ProofWhole ProofNeeded ProofFrame ProofAnswers
  PropHist PropContext PropBinning PropWhole PropNeeded PropAnswers.
From Verif Require PropParameter.
Local Open Scope string_scope.
Local Open Scope list_scope.

(** The rate of a component must not be a name that the aliases take away: every evaluation of such a context inside the
    prior raises, whatever the parameters, the key, the batch size and the number of repetitions. *)
Theorem C129_rate_taken {K} (E : ModelWhole.env K) manager ins par w w' c fresh pars batch times st' cs r prior lname li L lk cname cf :
  new_context K E manager ins par w = (w', Ok c) -> NoDup (keys (in_llhs ins)) ->
  NoDup (keys (p_values (cx_pars c))) -> NoDup (keys pars) ->
  In (lname, li) (in_llhs ins) -> In (lname, L) (cx_llhs c) -> wl_type L = MDefault lk -> In (cname, cf) (li_components li) ->
  NoDup (keys (li_alias li)) -> separate (li_alias li) -> In (cname ++ "_rate")%string (keys (li_alias li)) ->
  (forall n, In n (keys pars) -> In n (keys (p_values (cx_pars c)))) ->
  context_posterior K E c fresh pars batch times = (st', cs, r) -> log_prior (e_sigmas E) st' = Ok (Fin prior) ->
  exists e, r = Err e.
Proof.
  intros H Hnd Hv Hn Hli HL HT Hc Hal Hsep Hin Hk Hp Hpr. destruct r as [[y q]|e]; [exfalso|eauto].
  assert (Hq : q = Fin prior).
  { unfold context_posterior in Hp. destruct (le_lt_dec times 1) as [Ht|Ht].
    - destruct (C25_value _ _ _ _ _ _ _ _ _ _ _ Hn Hk Ht Hp Hpr) as [_ [(xs & _ & Eq)|(e & n & f & k & Eq & _)]]; [congruence|discriminate].
    - destruct (C25_repeated _ _ _ _ _ _ _ _ _ _ _ Hn Hk Ht Hp Hpr) as [_ [(xs & _ & _ & Eq)|(e & n & f & k & Eq & _)]]; [congruence|discriminate]. }
  subst q. destruct (posterior_keys E _ _ _ _ _ _ _ _ _ _ _ _ _ _ H Hv Hn Hp) as (_ & _ & Hv').
  destruct (C129_rates E manager ins par w w' c fresh pars batch times st' cs y prior lname li L lk cname cf
    (replace_alias (li_alias li) (p_values st')) H Hnd Hv Hn Hp Hli HL HT Hc Hal Hsep) as (v & Hg).
  - intros n. apply replace_alias_get; assumption.
  - rewrite replace_alias_get in Hg by assumption. apply mem_In in Hin. rewrite Hin in Hg. discriminate Hg.
Qed.

(** Two components that are to share one rate: er_rate is made an alias of the rate of the other component, ac_rate. *)
Definition t_ins : instruct :=
  mk_instruct (Some "/d") [("gain", VDict [("rn", ModelShare.VNum 3)])]
    [("rn", mk_linstruct (TDefault w_config "data.csv") [("ac_rate", "er_rate")] [("a", "g")]
              [("er", ("ER", None)); ("ac", ("AC", Some "ac.csv"))])].
Definition t_llh : wlik nat :=
  mk_wlik (MDefault w_lk)
    (mk_llh [("er", a_er); ("ac", w_acc)] ["a"; "ac_rate"] [("ac_rate", "er_rate")] [Fin 1; Fin 2])
    [("er", sim_cols nat a_env w_cl); ("ac", fun _ _ _ => Err TypeError)].
Definition t_context : context nat := mk_context (w_state 1) [("rn", t_llh)] ["a"; "ac_rate"].
Lemma t_context_made : new_context nat a_env w_manager t_ins (Ok w_par) init_world = (w_w4, Ok t_context).
Proof.
  unfold new_context.
  assert (Hc : context_configs nat a_env t_ins init_world = (w_w1, Ok tt)) by reflexivity. rewrite Hc.
  assert (Hp : update_parameter_config
         (map (fun nl => (fst nl, mk_linstr (li_copy (snd nl)) (keys (li_components (snd nl))))) (in_llhs t_ins)) w_par
         = Ok (p_config (w_state 1), ["a"])) by reflexivity.
  rewrite Hp, w_manager_ok. cbn [in_llhs t_ins context_likelihoods].
  unfold context_likelihood. cbn [has get cx_llhs keys mem map existsb li_type make_type].
  assert (E : load_data nat a_env "data.csv" w_w1 = (w_w2, Ok w_data)) by reflexivity. rewrite E.
  cbn [e_row e_gof_1d e_gof_2d a_env]. rewrite w_lk_made.
  cbn [li_components context_components e_classes a_env w_env String.eqb Ascii.eqb Bool.eqb].
  unfold context_component at 1. cbn [cx_llhs get set String.eqb Ascii.eqb Bool.eqb].
  unfold add_component at 1. cbn [has get keys mem existsb map ll_components wl_llh wl_type full m_on m_bins k_on k_bins w_lk].
  fold w_env. fold a_env. rewrite a_er_made. cbn -[construct_component a_er w_acc a_llh t_llh a_env w_state w_bins w_rows].
  rewrite a_acc_made. reflexivity.
Qed.

(** The context is constructed, its plugins do what they declare, every parameter it says it needs has a value (so that
    _sanity_check passes), and every evaluation raises. *)
Theorem C129_shared_rate_refuted : exists w' c,
  new_context nat a_env w_manager t_ins (Ok w_par) init_world = (w', Ok c) /\ well_behaved a_env (contents (w_cache w')) /\
  (forall z, In z (cx_needed c) -> In z (keys (p_values (cx_pars c)))) /\ NoDup (keys (p_values (cx_pars c))) /\
  forall fresh batch times, exists st' cs e,
    context_posterior nat a_env c fresh [("er_events", Fin 4)] batch times = (st', cs, Err e) /\ log_prior (e_sigmas a_env) st' = Ok (Fin 0).
Proof.
  exists w_w4, t_context. split; [exact t_context_made|]. split; [apply a_behaved|]. split.
  - intros z [<-|[<-|[]]]; cbn; tauto.
  - assert (Hv : NoDup (keys (p_values (cx_pars t_context)))).
    { cbn. repeat constructor; intros H; repeat (destruct H as [H|H]; [discriminate|]); destruct H. }
    split; [exact Hv|]. intros fresh batch times.
    assert (Hn : NoDup (keys [("er_events", Fin 4)])) by (repeat constructor; intros []).
    assert (Hk : forall n, In n (keys [("er_events", Fin 4)]) -> In n (keys (p_values (cx_pars t_context)))) by (intros n [<-|[]]; left; reflexivity).
    destruct (context_posterior nat a_env t_context fresh [("er_events", Fin 4)] batch times) as [[st' cs] r] eqn:Hp.
    assert (Hst : st' = w_state 4).
    { unfold context_posterior, log_posterior in Hp. rewrite posterior_state in Hp by exact Hk.
      match type of Hp with context [with_values ?x ?y] => change (with_values x y) with (w_state 4) in Hp end.
      destruct (log_prior _ _) as [x|e]; [|congruence]. destruct (is_fin x); cbn [negb] in Hp; [|congruence].
      destruct (Nat.ltb 1 times).
      - destruct (repeat_once _ _ _ _ _ _ _ _) as [a b]. destruct b; congruence.
      - destruct (posterior_once _ _ _ _ _ _) as [a b]. destruct b; congruence. }
    assert (Hpr : log_prior (e_sigmas a_env) st' = Ok (Fin 0)) by (rewrite Hst; exact w_prior).
    destruct (C129_rate_taken a_env w_manager t_ins (Ok w_par) init_world w_w4 t_context fresh [("er_events", Fin 4)] batch times st' cs r 0
      "rn" (snd (nth 0 (in_llhs t_ins) ("", mk_linstruct (TDefault w_config "") [] [] []))) t_llh w_lk "ac" ("AC", Some "ac.csv") t_context_made) as (e & ->).
    + repeat constructor; intros [].
    + exact Hv.
    + exact Hn.
    + left. reflexivity.
    + left. reflexivity.
    + reflexivity.
    + right. left. reflexivity.
    + repeat constructor; intros [].
    + intros k [<-|[]] [H|[]]. discriminate.
    + left. reflexivity.
    + exact Hk.
    + exact Hp.
    + exact Hpr.
    + exists st', cs, e. split; [reflexivity|exact Hpr].
Qed.

Print Assumptions C129_rate_taken.
Print Assumptions C129_shared_rate_refuted.
