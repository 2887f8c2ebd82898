(** C124: the expected number of events and the summary of a context. *)
From Coq Require Import Reals Lia Lra.
From Verif Require Import Base BaseFacts ModelFloat ModelHist ModelShare ModelConfig ModelComponent ModelCompile
  ModelParameter ModelLikelihood ModelBinning ModelLit ModelContext ModelWhole ModelSummary
  SpecHist SpecLikelihood SpecComponent SpecConfig SpecCompile SpecWeighted SpecBinning SpecWhole SpecSummary
  ProofFloat ProofHist ProofLikelihood ProofLikelihood2 ProofParameter ProofContext ProofWeighted ProofBinning ProofLikelihood3 ProofWhole ProofSummary
  PropHist PropContext PropLikelihood PropBinning PropWhole PropWholeLit.
Local Open Scope string_scope.
Local Open Scope list_scope.

(** The number is the sum over the likelihoods with binned data, each with a key of its own; those from literature are
    named in warnings and not run. *)
Theorem C124_number {K} (E : ModelWhole.env K) manager ins par w w' c fresh p batch drawn warned x :
  new_context K E manager ins par w = (w', Ok c) ->
  NoDup (keys (in_configs ins)) -> ~ In "url_base" (keys (in_configs ins)) ->
  (forall n li L, In (n, li) (in_llhs ins) -> In (n, L) (cx_llhs c) -> sound_llh E li (wl_type L)) ->
  NoDup (keys p) -> context_events c fresh p batch = (drawn, warned, Ok x) ->
  exists xs, accepted E ins batch p fresh 0 (in_llhs ins) xs /\ x = fsum xs /\ drawn = List.length xs /\
    warned = lits (in_llhs ins).
Proof.
  intros H Hnd Hub Hs Hp He. destruct (context_made E manager ins par w w' c H) as (w1 & Hc & _ & HF).
  destruct (events_made E ins w w1 batch p fresh (in_llhs ins) (cx_llhs c) 0 [] (Fin 0) drawn warned x Hnd Hub Hc Hp HF Hs He)
    as (xs & A & -> & -> & ->). exists xs. rewrite fadd_0_l. auto.
Qed.

(** It fails only if a likelihood does. *)
Theorem C124_failure {K} (c : context K) fresh p batch drawn warned e : context_events c fresh p batch = (drawn, warned, Err e) ->
  exists n L lk j, In (n, L) (cx_llhs c) /\ wl_type L = MDefault lk /\ get_num_events_accepted (wl_llh L) (fresh j) batch p = Err e.
Proof.
  unfold context_events. generalize 0, (@nil string), (Fin 0). induction (cx_llhs c) as [|[n L] ls IH]; intros j ws x H; [discriminate|].
  cbn [events_loop] in H. unfold has_hist in H. destruct (wl_type L) as [lk|on l] eqn:Et.
  - destruct (get_num_events_accepted (wl_llh L) (fresh j) batch p) as [y|e'] eqn:Ey.
    + destruct (IH _ _ _ H) as (n' & L' & lk' & j' & H1 & H2). exists n', L', lk', j'. split; [right; exact H1|exact H2].
    + injection H as _ _ <-. exists n, L, lk, j. split; [left; reflexivity|]. auto.
  - destruct (IH _ _ _ H) as (n' & L' & lk' & j' & H1 & H2). exists n', L', lk', j'. split; [right; exact H1|exact H2].
Qed.

(** With on_pdf everywhere a finite number is the sum of the rates of all components of the likelihoods with data,
    whatever is simulated. *)
Definition with_data {K} (c : context K) : list (llh K) :=
  map (fun nl => wl_llh (snd nl)) (filter (fun nl => match wl_type (snd nl) with MDefault _ => true | MLit _ _ => false end) (cx_llhs c)).
Theorem C124_rates {K} oor (c : context K) fresh p batch drawn warned t : NoDup (keys p) ->
  (forall L, In L (with_data c) -> separate (ll_alias L) /\ NoDup (keys (ll_alias L)) /\
     Forall (built oor (fun c => n_norm c = OnPdf)) (ll_components L) /\ ll_data L <> []) ->
  context_events c fresh p batch = (drawn, warned, Ok (Fin t)) ->
  exists rss, Forall2 (fun L rs => rates (ll_components L) (replace_alias (ll_alias L) p) = map (fun r => Some (Fin r)) rs) (with_data c) rss /\
    t = fold_right Rplus 0%R (List.concat rss).
Proof.
  intros Hp. unfold context_events, with_data.
  assert (G : forall ls j ws n d x,
    (forall L, In L (map (fun nl : string * wlik K => wl_llh (snd nl)) (filter (fun nl => match wl_type (snd nl) with MDefault _ => true | MLit _ _ => false end) ls)) ->
       separate (ll_alias L) /\ NoDup (keys (ll_alias L)) /\ Forall (built oor (fun c => n_norm c = OnPdf)) (ll_components L) /\ ll_data L <> []) ->
    events_loop ls fresh batch p j ws n = (d, warned, Ok (Fin x)) ->
    exists a rss, n = Fin a /\
      Forall2 (fun L rs => rates (ll_components L) (replace_alias (ll_alias L) p) = map (fun r => Some (Fin r)) rs)
        (map (fun nl : string * wlik K => wl_llh (snd nl)) (filter (fun nl => match wl_type (snd nl) with MDefault _ => true | MLit _ _ => false end) ls)) rss /\
      x = (a + fold_right Rplus 0 (List.concat rss))%R).
  { induction ls as [|[nm L] ls IH]; intros j ws n d x HL H.
    - cbn in H. injection H as _ _ ->. exists x, []. split; [reflexivity|]. split; [constructor|]. cbn. lra.
    - cbn [events_loop] in H. unfold has_hist in H. cbn [filter snd] in *. destruct (wl_type L) as [lk|on l] eqn:Et; cbn [map snd] in *.
      + destruct (get_num_events_accepted (wl_llh L) (fresh j) batch p) as [y|e'] eqn:Ey; [|discriminate].
        destruct (IH (S j) ws (fadd n y) d x (fun L' I => HL L' (or_intror I)) H) as (a & rss & Ea & HF & ->).
        destruct (HL (wl_llh L) (or_introl eq_refl)) as (A1 & A2 & A3 & A4).
        destruct n as [n| | |], y as [y| | |]; try discriminate Ea.
        destruct (C14_model_total oor (wl_llh L) (fresh j) batch p (Fin y) y A1 A2 Hp A3 A4 Ey eq_refl) as (rs & Hr & ->).
        exists n, (rs :: rss). split; [reflexivity|]. split; [constructor; assumption|]. rewrite fadd_Fin in Ea. injection Ea as <-.
        cbn [List.concat]. clear. rewrite fold_right_app. induction rs as [|r rs IHr]; cbn; [lra|]. lra.
      + exact (IH _ _ _ _ _ HL H). }
  intros HL H. destruct (G (cx_llhs c) 0 [] (Fin 0) drawn t HL H) as (a & rss & Ea & HF & ->). injection Ea as <-.
  exists rss. split; [exact HF|lra].
Qed.

(** The parameters are used as they are given: those that log_posterior takes (the free ones) are not enough. *)
Theorem C124_fixed_parameters_refuted : exists w' c st' cs y,
  new_context nat w_env w_manager w_ins (Ok w_par) init_world = (w', Ok c) /\
  context_posterior nat w_env c (fun i => i) [("er_events", Fin 4)] 3 1 = (st', cs, Ok (y, Fin 0)) /\
  (exists v, y = Fin v) /\
  context_events c (fun i => i) [("er_events", Fin 4)] 3 = (1, [], Err KeyError) /\
  context_events c (fun i => i) (p_values st') 3 = (1, [], Ok (Fin 8)).
Proof.
  destruct C82_case as (w' & c & st' & cs & H & _ & _ & _ & _ & Hp).
  rewrite w_context_made in H. injection H as <- <-.
  do 5 eexists. split; [exact w_context_made|]. split; [exact Hp|]. split; [eexists; reflexivity|]. split; [reflexivity|].
  assert (Es : st' = w_state 4).
  { unfold context_posterior, log_posterior in Hp. rewrite posterior_state in Hp by (intros n [<-|[]]; left; reflexivity).
    change (with_values (cx_pars w_context) (ModelParameter.assign (keys [("er_events", Fin 4)]) (map snd [("er_events", Fin 4)])
             (p_values (cx_pars w_context)))) with (w_state 4) in Hp.
    rewrite w_prior in Hp. cbn [is_fin negb Nat.ltb Nat.leb] in Hp. destruct (posterior_once _ _ _ _ _ _) as [? [?|?]]; injection Hp as <- _ _; reflexivity. }
  subst st'. unfold context_events. cbn [cx_llhs w_context events_loop has_hist wl_type w_llh].
  unfold get_num_events_accepted, simulate_model_hist.
  change (replace_alias (ll_alias (wl_llh w_llh)) (replace_alias (ll_alias (wl_llh w_llh)) (p_values (w_state 4)))) with w_values.
  fold w_llh. change (replace_alias (ll_alias (wl_llh w_llh)) (replace_alias (ll_alias (wl_llh w_llh)) (p_values (w_state 4)))) with w_values.
  cbn [w_llh wl_llh ll_components sum_components w_er l_kind ll_data map ll_alias].
  change (replace_alias [("er_events", "er_rate")] (replace_alias [("er_events", "er_rate")] (p_values (w_state 4)))) with w_values.
  rewrite w_er_hist. cbn -[fadd w_acc Rmult]. unfold w_acc at 1. cbn [l_kind]. rewrite w_ac_hist. cbn -[fadd Rmult]. rewrite !fadd_Fin.
  do 3 f_equal. lra.
Qed.

(** The summary: nothing but an error if a parameter is given that is not needed, otherwise the likelihoods and their
    components as they are in the instruction. *)
Theorem C124_summary {K} (E : ModelWhole.env K) manager ins par w w' c :
  new_context K E manager ins par w = (w', Ok c) -> ~ In "url_base" (keys (in_configs ins)) ->
  ((forall n, In n (keys (p_values (cx_pars c))) -> In n (cx_needed c)) ->
     exists secs, context_summary c = (secs, Ok tt) /\ Forall2 (section_of E ins) (in_llhs ins) secs) /\
  (~ (forall n, In n (keys (p_values (cx_pars c))) -> In n (cx_needed c)) -> context_summary c = ([], Err RuntimeError)).
Proof.
  intros H Hub. destruct (context_made E manager ins par w w' c H) as (w1 & Hc & _ & HF). unfold context_summary, sanity_check.
  destruct (forallb (fun p => mem p (cx_needed c)) (keys (p_values (cx_pars c)))) eqn:Es.
  - split; [intros _|].
    + eexists. split; [reflexivity|]. clear - HF Hub Hc. induction HF as [|il cl ils cls Hm HF IH]; constructor; [|exact IH].
      eapply section_made; eassumption.
    + intros Hn. destruct Hn. intros n Hin. rewrite forallb_forall in Es. apply mem_In, Es, Hin.
  - split; [|reflexivity]. intros Hn. exfalso. apply Bool.not_true_iff_false in Es. apply Es, forallb_forall.
    intros n Hin. apply mem_In, Hn, Hin.
Qed.

(** The pars printed for a component are its own names: where an alias is defined the parameter to give has another name,
    and giving the printed one as well makes the summary fail. *)
Theorem C124_pars_refuted : exists w' c secs s l ty pars,
  new_context nat w_env w_manager w_ins (Ok w_par) init_world = (w', Ok c) /\ context_summary c = (secs, Ok tt) /\
  In s secs /\ In l (ls_components s) /\ cl_rest l = Some (ty, "er_rate", pars) /\ In "er_rate" pars /\
  ~ In "er_rate" (cx_needed c) /\ In "er_events" (cx_needed c).
Proof.
  do 7 eexists. split; [exact w_context_made|]. split; [reflexivity|]. split; [left; reflexivity|]. split; [left; reflexivity|].
  split; [reflexivity|]. split; [left; reflexivity|]. split; [intros H; repeat (destruct H as [H|H]; [discriminate|]); destruct H|].
  right. left. reflexivity.
Qed.

(** A context with a fit to literature only: zero events, one warning, no key. *)
Example C124_case_lit : context_events l_context (fun i => i) [] 3 = (0, ["lux"], Ok (Fin 0)).
Proof. reflexivity. Qed.
(** The hypotheses of C124_number, C124_rates and C124_summary hold of the context of C82. *)
Example C124_case : exists w' c secs,
  new_context nat w_env w_manager w_ins (Ok w_par) init_world = (w', Ok c) /\
  NoDup (keys (in_configs w_ins)) /\ ~ In "url_base" (keys (in_configs w_ins)) /\
  (forall n li L, In (n, li) (in_llhs w_ins) -> In (n, L) (cx_llhs c) -> sound_llh w_env li (wl_type L)) /\
  context_summary c = (secs, Ok tt) /\
  map ls_name secs = ["rn"] /\ map ls_rate secs = [Some (Fin 3)] /\
  map (fun s => map (fun l => (cl_number l, cl_name l)) (ls_components s)) secs = [[(0, "er"); (1, "ac")]].
Proof.
  destruct C82_case as (w' & c & st' & cs & H & H1 & H2 & H3 & _).
  rewrite w_context_made in H. injection H as <- <-. do 3 eexists. split; [exact w_context_made|]. split; [exact H1|]. split; [exact H2|].
  split; [exact H3|]. split; [reflexivity|]. split; [reflexivity|]. split; [|reflexivity].
  cbn [map ls_rate likelihood_section w_llh wl_type wl_llh ll_data fst snd cx_llhs w_context]. unfold fsum. cbn [fold_right]. rewrite !fadd_Fin.
  do 3 f_equal. lra.
Qed.

Print Assumptions C124_number.
Print Assumptions C124_failure.
Print Assumptions C124_rates.
Print Assumptions C124_fixed_parameters_refuted.
Print Assumptions C124_summary.
Print Assumptions C124_pars_refuted.
