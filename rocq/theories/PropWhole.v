(** Properties of a whole context: C82, C83.
    The vocabulary is in SpecWhole.v, the proofs in ProofWhole.v. *)
From Coq Require Import Reals Lra Lia.
From Verif Require Import Base BaseFacts ModelFloat ModelHist ModelShare ModelConfig ModelComponent ModelCompile
  ModelParameter ModelLikelihood ModelBinning ModelLit ModelContext ModelWhole
  SpecHist SpecLikelihood SpecComponent SpecConfig SpecCompile SpecParameter SpecContext SpecWeighted SpecBinning SpecWhole
  ProofFloat ProofHist ProofLikelihood2 ProofParameter ProofParameter2 ProofContext ProofWeighted ProofBinning ProofLikelihood3 ProofHistory ProofWhole ProofWhole2
  PropHist PropContext PropBinning.
From Verif Require PropParameter.
Local Open Scope string_scope.
Local Open Scope list_scope.

(* ------------------------------------------------------------------ *)
(** * C82 the posterior from the instruction *)

(** [E] is what the context finds outside of the modelled code, [manager] makes the parameter
    manager, [w] is the state of the process; all are arbitrary. The value of the posterior is the
    prior plus the sum of the values of the likelihoods, as described by [llh_values]. *)
Theorem C82_posterior {K} (E : ModelWhole.env K) manager ins par w w' c fresh pars batch times st' cs y prior :
  new_context K E manager ins par w = (w', Ok c) ->
  NoDup (keys (in_configs ins)) -> ~ In "url_base" (keys (in_configs ins)) ->
  (forall n li L, In (n, li) (in_llhs ins) -> In (n, L) (cx_llhs c) -> sound_llh E li (wl_type L)) ->
  NoDup (keys (p_values (cx_pars c))) -> NoDup (keys pars) -> times <= 1 ->
  context_posterior K E c fresh pars batch times = (st', cs, Ok (y, Fin prior)) ->
  overwritten (cx_pars c) pars st' /\ log_prior (e_sigmas E) st' = Ok (Fin prior) /\
  exists xs key', llh_values E ins batch (p_values st') (in_llhs ins) (fresh 0) xs key' /\
    y = fadd (fsum xs) (Fin prior).
Proof. apply posterior_value. Qed.

(** With several repetitions it is the mean over evaluations that start from new keys. *)
Theorem C82_repeated {K} (E : ModelWhole.env K) manager ins par w w' c fresh pars batch times st' cs y prior :
  new_context K E manager ins par w = (w', Ok c) ->
  NoDup (keys (in_configs ins)) -> ~ In "url_base" (keys (in_configs ins)) ->
  (forall n li L, In (n, li) (in_llhs ins) -> In (n, L) (cx_llhs c) -> sound_llh E li (wl_type L)) ->
  NoDup (keys (p_values (cx_pars c))) -> NoDup (keys pars) -> 1 < times ->
  context_posterior K E c fresh pars batch times = (st', cs, Ok (y, Fin prior)) ->
  overwritten (cx_pars c) pars st' /\ log_prior (e_sigmas E) st' = Ok (Fin prior) /\
  exists xss, List.length xss = times /\
    (forall i xs, nth_error xss i = Some xs ->
       exists key', llh_values E ins batch (p_values st') (in_llhs ins) (fresh i) xs key') /\
    y = fadd (fmean (map fsum xss)) (Fin prior).
Proof. apply posterior_repeated. Qed.

(** ** A case *)

(** A likelihood with a simulated and a fixed component; a config, an alias and a copied parameter
    in the instruction. *)
Definition gain_cf : config := mk_config KConstant "gain" (Some (ModelShare.VNum 1)) None.
Definition pEn := mk_plugin "Energy" ["energy"] ["batch_size"] [] [("gain", gain_cf)]
                    ["self"; "key"; "parameters"; "batch_size"].
Definition pEf := mk_plugin "Eff" ["eff"] ["energy"] ["a"] [] ["self"; "key"; "parameters"; "energy"].
Definition w_isem (i : instance) (args : list (sval nat)) : result (list (sval nat)) :=
  match args with
  | [SKey k; SParams p; SBatch n] =>
      match map b_values (i_built i) with
      | [[ModelShare.VNum g]] => Ok [SKey (S k); SCol [Fin (1 / 2); Fin (IZR g / 2)%R; Fin (IZR g / 2)%R]]
      | _ => Err KeyError
      end
  | [SKey k; SParams p; SCol _] =>
      match get "a" p with
      | Some a => Ok [SKey (S k); SCol [Fin 1; a; a]]
      | None => Err KeyError
      end
  | _ => Err TypeError
  end.
Definition w_data : table := mk_table ["x"; "energy"] [[Fin 0; Fin (1 / 2)]; [Fin 0; Fin (3 / 2)%R]; [Fin 0; Fin (3 / 2)%R]; [Fin 0; Fin 7]].
Definition w_ac : table := mk_table ["energy"] [[Fin (1 / 2)]; [Fin (1 / 2)%R]; [Fin (3 / 2)%R]; [Fin (1 / 2)%R]].
Definition w_files : fs :=
  mk_fs starts_with_slash starts_with_slash (fun d => "/pkg/" ++ d)%string false [] (fun _ => "") true (fun _ => None).
Definition w_env : ModelWhole.env nat :=
  mk_env w_files
    (fun s => if String.eqb s "/d/data.csv" then Ok w_data else if String.eqb s "/d/ac.csv" then Ok w_ac else Err FileNotFoundError)
    20 (fun n => if String.eqb n "Energy" then Some pEn else if String.eqb n "Eff" then Some pEf else None)
    (fun n => if String.eqb n "ER" then Some (ClsSim [pEn; pEf] OnPdf false)
              else if String.eqb n "AC" then Some (ClsFixed OnPdf false) else None)
    w_isem (fun _ => Err AttributeError) no_oor no_g1 no_g2 PropParameter.ex_sigmas.
Definition w_config : lconfig :=
  mk_lconfig "irreg" (OnStr "energy") (PList [AArr (Arr1 [Fin 0; Fin 1; Fin 2])]) (Some (Fin 0, Fin 2)) None None.
Definition w_ins : instruct :=
  mk_instruct (Some "/d") [("gain", VDict [("rn", ModelShare.VNum 3)])]
    [("rn", mk_linstruct (TDefault w_config "data.csv") [("er_events", "er_rate")] [("a", "g")]
              [("er", ("ER", None)); ("ac", ("AC", Some "ac.csv"))])].
Definition w_fixed (x : R) : setting := mk_setting (Some "fixed") (Some [("val", Fin x)]) None None None.
Definition w_par : dict setting := [("g", w_fixed (1 / 2)); ("er_events", ex_free1); ("ac_rate", w_fixed 4)].
Definition w_manager (cfg : dict setting) : result pstate :=
  do sg <- new_parameter unit (fun m sd g => Ok (m, g)) (fun a b g => Ok (a, g)) PropParameter.ex_sigmas cfg tt;
  Ok (fst sg).

Definition w_bins : binning := BIrreg1 [Fin 0; Fin 1; Fin 2].
Definition w_rows : list (list fl) := [[Fin (1 / 2)%R]; [Fin (3 / 2)%R]; [Fin (3 / 2)%R]].
Definition w_lk : likelihood := mk_likelihood ["energy"] w_rows w_bins [Fin 1; Fin 2].
Lemma w_bins_ok : binning_ok w_bins.
Proof. split; [|cbn; lia]. cbn. repeat split; try discriminate; intros x Hx;
      repeat (destruct Hx as [<-|Hx]; [fl_eval; try reflexivity|]); destruct Hx. Qed.
Lemma w_bins_of : bins_of w_bins =
  [fun r => in_bin (Fin 0) (Fin 1) (obs 0 r); fun r => in_bin (Fin 1) (Fin 2) (obs 0 r)].
Proof. reflexivity. Qed.
Lemma w_lk_made : new_likelihood no_oor no_g1 no_g2 w_config (Ok w_data) = Ok w_lk.
Proof.
  rewrite (new_intro no_oor no_g1 no_g2 w_config w_data ["energy"] [AArr (Arr1 [Fin 0; Fin 1; Fin 2])] [1] w_rows w_bins).
  - unfold w_lk. f_equal. f_equal. rewrite data_hist_counts by exact w_bins_ok.
    unfold counts. rewrite w_bins_of. cbn [map]. unfold number, w_rows, in_bin.
    f_equal; [|f_equal]; f_equal; cbn [filter obs nth INR]; fl_eval; cbn; lra.
  - right. exists "energy". split; [reflexivity|]. split; [reflexivity|]. left. reflexivity.
  - reflexivity.
  - reflexivity.
  - unfold mask_data, w_config, w_data, strictly. fl_eval. reflexivity.
  - unfold set_bins. cbn. reflexivity.
Qed.

Definition w_state (x : R) : pstate :=
  mk_pstate [("er_events", ex_free1); ("ac_rate", w_fixed 4); ("a", w_fixed (1 / 2))] ["ac_rate"; "a"] ["er_events"]
    [("er_events", Fin x); ("ac_rate", Fin 4); ("a", Fin (1 / 2)%R)].
Lemma w_manager_ok : w_manager (p_config (w_state 1)) = Ok (w_state 1).
Proof. unfold w_manager, new_parameter. cbn -[fclip]. unfold fclip, fmin, fmax. fl_eval. reflexivity. Qed.
Definition w_ac_rows : list (list fl) := [[Fin (1 / 2)%R]; [Fin (1 / 2)%R]; [Fin (3 / 2)%R]; [Fin (1 / 2)%R]].
Lemma w_ac_made m : fixed_deduce no_oor (mk_cnum "ac_rate" OnPdf false false w_bins m) w_ac_rows = Ok [Fin 3; Fin 1].
Proof.
  unfold fixed_deduce, implement_binning. cbn [n_add_eps n_bins].
  rewrite make_data_hist_plain by discriminate. f_equal.
  rewrite data_hist_counts by exact w_bins_ok. unfold counts. rewrite w_bins_of. cbn [map]. unfold number, w_ac_rows, in_bin.
  f_equal; [|f_equal]; f_equal; cbn [filter obs nth INR]; fl_eval; cbn; lra.
Qed.

(** The states of the process: after the configs, the data file, the simulated and the fixed
    component. *)
Definition w_w1 : world := Eval vm_compute in fst (context_configs nat w_env w_ins init_world).
Definition w_w2 : world := Eval vm_compute in fst (load_data nat w_env "data.csv" w_w1).
Definition w_reg : registry := Eval vm_compute in fst (register [pEn; pEf] []).
Definition w_built : world * ModelComponent.component * result unit := Eval vm_compute in
  build_component 20 ["energy"; "eff"] "rn_er_sim" "batch_size" false w_files (e_plugins w_env)
    (mk_component "er" "rn" "er_rate" w_reg false [] [] "" None None None) w_w2.
Definition w_w3 : world := Eval vm_compute in fst (fst w_built).
Definition w_cl : closure := Eval vm_compute in
  match ModelComponent.k_simulate (snd (fst w_built)) with Some cl => cl | None => mk_closure (mk_prog [] [] "" "" "" [] []) [] end.
Definition w_w4 : world := Eval vm_compute in fst (load_data nat w_env "ac.csv" w_w3).
Definition w_cnum : cnum := mk_cnum "er_rate" OnPdf false false w_bins (Ok None).
Definition w_er : lcomp nat := mk_lcomp ["er_rate"; "a"]
  (LSim (sim_hist no_oor w_cnum (ModelWhole.sim_rows nat w_env w_cl))).
Definition w_acc : lcomp nat := mk_lcomp ["ac_rate"]
  (LFixed (fixed_hist no_oor (mk_cnum "ac_rate" OnPdf false false w_bins (Err AttributeError)) w_ac_rows)).
Lemma w_er_made : construct_component nat w_env "rn" ["energy"] w_bins "er" (ClsSim [pEn; pEf] OnPdf false) None w_w2
  = (w_w3, Ok (w_er, sim_cols nat w_env w_cl)).
Proof. reflexivity. Qed.
Lemma w_acc_made : construct_component nat w_env "rn" ["energy"] w_bins "ac" (ClsFixed OnPdf false) (Some "ac.csv") w_w3
  = (w_w4, Ok (w_acc, fun _ _ _ => Err TypeError)).
Proof.
  unfold construct_component.
  assert (E : load_data nat w_env "ac.csv" w_w3 = (w_w4, Ok w_ac)) by reflexivity. rewrite E.
  change (positions ["energy"] (t_columns w_ac)) with (@Ok (list nat) [0]). cbv beta iota.
  change (map (select [0]) (t_rows w_ac)) with w_ac_rows.
  change ("ac" ++ "_rate")%string with "ac_rate". cbn [e_row w_env]. rewrite w_ac_made. reflexivity.
Qed.
Definition w_llh : wlik nat :=
  mk_wlik (MDefault w_lk)
    (mk_llh [("er", w_er); ("ac", w_acc)] ["a"; "er_events"; "ac_rate"] [("er_events", "er_rate")] [Fin 1; Fin 2])
    [("er", sim_cols nat w_env w_cl); ("ac", fun _ _ _ => Err TypeError)].
Definition w_context : context nat := mk_context (w_state 1) [("rn", w_llh)] ["a"; "er_events"; "ac_rate"].
Lemma w_context_made : new_context nat w_env w_manager w_ins (Ok w_par) init_world = (w_w4, Ok w_context).
Proof.
  unfold new_context.
  assert (Hc : context_configs nat w_env w_ins init_world = (w_w1, Ok tt)) by reflexivity. rewrite Hc.
  assert (Hp : update_parameter_config
         (map (fun nl => (fst nl, mk_linstr (li_copy (snd nl)) (keys (li_components (snd nl))))) (in_llhs w_ins)) w_par
         = Ok (p_config (w_state 1), ["a"])) by reflexivity.
  rewrite Hp, w_manager_ok. cbn [in_llhs w_ins context_likelihoods].
  unfold context_likelihood. cbn [has get cx_llhs keys mem map existsb li_type make_type].
  assert (E : load_data nat w_env "data.csv" w_w1 = (w_w2, Ok w_data)) by reflexivity. rewrite E.
  cbn [e_row e_gof_1d e_gof_2d w_env]. rewrite w_lk_made.
  cbn [li_components context_components e_classes w_env String.eqb Ascii.eqb Bool.eqb].
  unfold context_component at 1. cbn [cx_llhs get set String.eqb Ascii.eqb Bool.eqb].
  unfold add_component at 1. cbn [has get keys mem existsb map ll_components wl_llh wl_type full m_on m_bins k_on k_bins w_lk].
  fold w_env. rewrite w_er_made. cbn -[construct_component w_er w_acc w_llh w_env w_state w_bins w_rows].
rewrite w_acc_made. reflexivity.
Qed.

Definition w_values : params := [("ac_rate", Fin 4); ("a", Fin (1 / 2)%R); ("er_rate", Fin 4)].
Lemma two_entries a b c d : a = c -> b = d -> [Fin a; Fin b] = [Fin c; Fin d].
Proof. intros -> ->. reflexivity. Qed.
Lemma w_sim_hist cl k n k' x y (h1 h2 : R) :
  ModelWhole.sim_rows nat w_env cl k n w_values = Ok (k', [[Fin x; Fin 1]; [Fin y; Fin (1 / 2)%R]; [Fin y; Fin (1 / 2)%R]]) ->
  event_hist w_bins false [([Fin x], Fin 1); ([Fin y], Fin (1 / 2)%R); ([Fin y], Fin (1 / 2)%R)] = [Fin h1; Fin h2] ->
  (h1 + h2 = 2)%R ->
  sim_hist no_oor w_cnum (ModelWhole.sim_rows nat w_env cl) k n w_values = Ok (k', [Fin (2 * h1)%R; Fin (2 * h2)%R]).
Proof.
  intros Hs Hh H2. unfold sim_hist. rewrite Hs. cbv beta iota. cbn [split_rows n_no_eff w_cnum].
  set (evs := [([Fin x], Fin 1); ([Fin y], Fin (1 / 2)%R); ([Fin y], Fin (1 / 2)%R)]) in *.
  match goal with |- context [implement_binning ?o ?a ?b ?m ?e] =>
    change (implement_binning o a b m e) with (implement_binning no_oor false w_bins (map fst evs) (map snd evs)) end.
  rewrite implement_events by exact w_bins_ok.
  rewrite Hh. cbn [forallb]. unfold get_normalization, scale. cbn [n_norm n_rate].
  change (get "er_rate" w_values) with (Some (Fin 4)). cbn -[fadd fdiv fmul].
  rewrite !fadd_Fin. replace (h1 + (h2 + 0))%R with 2%R by lra. rewrite fdiv_Fin by lra. rewrite !fmul_Fin. do 2 f_equal.
  apply two_entries; lra.
Qed.
Lemma w_rows_31 : event_hist w_bins false [([Fin (1 / 2)%R], Fin 1); ([Fin (3 / 2)%R], Fin (1 / 2)%R); ([Fin (3 / 2)%R], Fin (1 / 2)%R)] = [Fin 1; Fin 1].
Proof.
  unfold event_hist, binned. rewrite w_bins_of. unfold weight_of, in_bin. cbn [map].
  f_equal; [|f_equal]; cbn [filter fst snd obs nth]; fl_eval; rewrite ?fadd_Fin; f_equal; lra.
Qed.
Lemma w_rows_11 : event_hist w_bins false [([Fin (1 / 2)%R], Fin 1); ([Fin (1 / 2)%R], Fin (1 / 2)%R); ([Fin (1 / 2)%R], Fin (1 / 2)%R)] = [Fin 2; Fin 0].
Proof.
  unfold event_hist, binned. rewrite w_bins_of. unfold weight_of, in_bin. cbn [map].
  f_equal; [|f_equal]; cbn [filter fst snd obs nth]; fl_eval; rewrite ?fadd_Fin; f_equal; lra.
Qed.
Lemma w_er_hist k n : sim_hist no_oor w_cnum (ModelWhole.sim_rows nat w_env w_cl) k n w_values = Ok (2 + k, [Fin (2 * 1)%R; Fin (2 * 1)%R]).
Proof. eapply w_sim_hist; [reflexivity|exact w_rows_31|lra]. Qed.
Lemma w_ac_hist : fixed_hist no_oor (mk_cnum "ac_rate" OnPdf false false w_bins (Err AttributeError)) w_ac_rows w_values
  = Ok [Fin 3; Fin 1].
Proof.
  unfold fixed_hist. rewrite w_ac_made. unfold get_normalization, scale. cbn [n_norm n_rate].
  change (get "ac_rate" w_values) with (Some (Fin 4)). cbn -[fadd fdiv fmul].
  rewrite !fadd_Fin. rewrite fdiv_Fin by lra. rewrite !fmul_Fin. f_equal. apply two_entries; lra.
Qed.
Lemma w_llh_value k n : get_log_likelihood (wl_llh w_llh) k n (p_values (w_state 4))
  = Ok (2 + k, Fin (1 * ln 5 - 5 + (2 * ln 3 - 3))%R).
Proof.
  unfold get_log_likelihood, simulate_model_hist.
  assert (E : replace_alias (ll_alias (wl_llh w_llh)) (replace_alias (ll_alias (wl_llh w_llh)) (p_values (w_state 4)))
              = w_values) by reflexivity.
  rewrite E. cbn [w_llh wl_llh ll_components sum_components w_er l_kind ll_data map].
  rewrite w_er_hist. cbn -[fadd w_acc Rmult]. unfold w_acc at 1. cbn [l_kind]. rewrite w_ac_hist. cbn -[fadd Rmult]. rewrite !fadd_Fin.
  unfold log_likelihood_of, poisson_sum. cbn -[fadd fsub fmul flog fle Rplus Rmult].
  replace (0 + 2 * 1 + 3)%R with 5%R by lra. replace (0 + 2 * 1 + 1)%R with 3%R by lra.
  rewrite !flog_pos by lra. rewrite !fmul_Fin, !fsub_Fin, !fadd_Fin.
  replace (fle (Fin 5) (Fin 0)) with false by (symmetry; apply Bool.not_true_is_false; rewrite fle_Fin; lra).
  replace (fle (Fin 3) (Fin 0)) with false by (symmetry; apply Bool.not_true_is_false; rewrite fle_Fin; lra).
  cbn [orb is_nan]. do 3 f_equal. lra.
Qed.

Lemma w_prior : log_prior (e_sigmas w_env) (w_state 4) = Ok (Fin 0).
Proof.
  unfold log_prior. cbn -[flt fadd].
  replace (flt (Fin 4) (Fin 0)) with false by (symmetry; apply flt_Fin_false; lra).
  replace (flt (Fin 10) (Fin 4)) with false by (symmetry; apply flt_Fin_false; lra).
  cbn -[flt fadd]. rewrite fadd_Fin. f_equal. f_equal. lra.
Qed.

(** The hypotheses hold, and the value is the one computed by hand: the simulated component gives
    (2, 2), the fixed one (3, 1), and the data are (1, 2). *)
Example C82_case : exists w' c st' cs,
  new_context nat w_env w_manager w_ins (Ok w_par) init_world = (w', Ok c) /\
  NoDup (keys (in_configs w_ins)) /\ ~ In "url_base" (keys (in_configs w_ins)) /\
  (forall n li L, In (n, li) (in_llhs w_ins) -> In (n, L) (cx_llhs c) -> sound_llh w_env li (wl_type L)) /\
  NoDup (keys (p_values (cx_pars c))) /\
  context_posterior nat w_env c (fun i => i) [("er_events", Fin 4)] 3 1
    = (st', cs, Ok (Fin (1 * ln 5 - 5 + (2 * ln 3 - 3))%R, Fin 0)).
Proof.
  exists w_w4, w_context, (w_state 4), [mk_call "rn" 0 3 (p_values (w_state 4))]. split; [exact w_context_made|].
  split; [repeat constructor; intros []|]. split; [intros [H|[]]; discriminate|]. split; [|split].
  - intros n li L [H|[]] [H'|[]]. injection H as <- <-. injection H' as <-.
    split; [exact w_bins_ok|]. split; [intros [H|[]]; discriminate|].
    split; [repeat constructor; intros []|]. split.
    { intros k [<-|[]] [H|[]]. discriminate. }
    intros cname cls file ps nt ae Hin Hk.
    assert (Hps : ps = [pEn; pEf]).
    { destruct Hin as [Hin|[Hin|[]]]; injection Hin as <- <- <-; [|discriminate]. injection Hk as <- <- <-. reflexivity. }
    subst ps. assert (Hr : forall d p, get d w_reg = Some p -> (d = "energy" /\ p = pEn) \/ (d = "eff" /\ p = pEf)).
    { intros d p H. apply get_In in H. destruct H as [H|[H|[]]]; injection H as <- <-; auto. }
    change (registry_after [[pEn; pEf]]) with w_reg. split.
    { intros d p d' q Hp Hq Hn. apply Hr in Hp, Hq. destruct Hp as [[-> ->]|[-> ->]], Hq as [[-> ->]|[-> ->]]; reflexivity || discriminate. }
    intros d p _ Hp. apply Hr in Hp.
    destruct Hp as [[-> ->]|[-> ->]]; (split; [repeat constructor; intros []|]); intros x [<-|[]];
      (split; [reflexivity|]); (split; [discriminate|]); split; discriminate.
  - vm_compute. repeat constructor; intros H; repeat (destruct H as [H|H]; [discriminate|]); destruct H.
  - unfold context_posterior, log_posterior. rewrite posterior_state by (intros n [<-|[]]; left; reflexivity).
    change (with_values (cx_pars w_context) (ModelParameter.assign (keys [("er_events", Fin 4)]) (map snd [("er_events", Fin 4)])
             (p_values (cx_pars w_context)))) with (w_state 4).
    rewrite w_prior. cbn [is_fin negb Nat.ltb Nat.leb]. cbn [posterior_once llh_loop map fst snd cx_llhs w_context].
    unfold posterior_once. cbn [llh_loop].
    change (wl_log_likelihood w_llh) with (get_log_likelihood (wl_llh w_llh)). rewrite w_llh_value. cbn -[fadd Rplus Rminus p_values]. rewrite !fadd_Fin.
    do 3 f_equal. f_equal. lra.
Qed.

(** Two repetitions of it: the keys are 0 and 10, and the mean is the same. *)
Example C82_case_repeated : exists cs,
  context_posterior nat w_env w_context (fun i => 10 * i) [("er_events", Fin 4)] 3 2
    = (w_state 4, cs, Ok (Fin (1 * ln 5 - 5 + (2 * ln 3 - 3))%R, Fin 0)) /\ map c_key cs = [0; 10].
Proof.
  eexists. split.
  - unfold context_posterior, log_posterior. rewrite posterior_state by (intros n [<-|[]]; left; reflexivity).
    change (with_values (cx_pars w_context) (ModelParameter.assign (keys [("er_events", Fin 4)]) (map snd [("er_events", Fin 4)])
             (p_values (cx_pars w_context)))) with (w_state 4).
    rewrite w_prior. cbn [is_fin negb Nat.ltb Nat.leb]. cbn [map fst snd cx_llhs w_context].
    unfold repeat_once, posterior_once. cbn [llh_loop].
    change (wl_log_likelihood w_llh) with (get_log_likelihood (wl_llh w_llh)). rewrite !w_llh_value.
    cbn [app bind]. unfold fmean. cbn [fsum fold_right List.length]. rewrite !fadd_Fin. rewrite fdiv_Fin by (cbn; lra).
    do 3 f_equal. f_equal. cbn [INR]. lra.
  - reflexivity.
Qed.

(* ------------------------------------------------------------------ *)
(** * C83 several contexts in one process *)

(** Only the configs and the likelihood names in use matter: whatever else the process has done
    (which classes were instantiated, what was compiled), the same context, or the same exception,
    comes out. *)
Theorem C83_state {K} (E : ModelWhole.env K) manager ins par w v : alike w v ->
  snd (new_context K E manager ins par w) = snd (new_context K E manager ins par v) /\
  alike (fst (new_context K E manager ins par w)) (fst (new_context K E manager ins par v)).
Proof. intros H. destruct (context_alike E manager ins par w v H). auto. Qed.

(** After clear_cache a context is as in a new process. *)
Theorem C83_after_clear {K} (E : ModelWhole.env K) manager ins par w :
  snd (new_context K E manager ins par (clear_cache w)) = snd (new_context K E manager ins par init_world).
Proof. apply context_after_clear. Qed.

(** Without it, no second context can have a likelihood of the same name with a simulated
    component, whatever happens in between and whatever its instruction says. *)
Theorem C83_name_taken {K} (E : ModelWhole.env K) manager ins par w w' c lname li ci os
    {K2} (E2 : ModelWhole.env K2) manager2 ins2 par2 li2 ci2 :
  new_context K E manager ins par w = (w', Ok c) ->
  In (lname, li) (in_llhs ins) -> In ci (li_components li) -> is_sim E ci ->
  ~ In OClear os ->
  In (lname, li2) (in_llhs ins2) -> In ci2 (li_components li2) -> is_sim E2 ci2 ->
  exists e, snd (new_context K2 E2 manager2 ins2 par2 (wrun os w')) = Err e.
Proof.
  intros H Hi Hc Hs Ho Hi2 Hc2 Hs2.
  destruct (context_keeps E manager ins par w w' (Ok c) H) as [_ G].
  destruct (proj1 (G c eq_refl) lname li ci Hi Hc Hs) as [_ Ht].
  destruct (new_context K2 E2 manager2 ins2 par2 (wrun os w')) as [w2 [c2|e]] eqn:H2; [|exists e; reflexivity].
  destruct (context_keeps E2 manager2 ins2 par2 _ w2 (Ok c2) H2) as [_ G2].
  destruct (proj1 (G2 c2 eq_refl) lname li2 ci2 Hi2 Hc2 Hs2) as [Hf _].
  rewrite (wrun_fn_keeps os w' lname Ho Ht) in Hf. discriminate.
Qed.

(** For the same reason no likelihood has two simulated components. *)
Theorem C83_one_simulated {K} (E : ModelWhole.env K) manager ins par w lname li a x b y d :
  In (lname, li) (in_llhs ins) -> li_components li = a ++ x :: b ++ y :: d -> is_sim E x -> is_sim E y ->
  exists e, snd (new_context K E manager ins par w) = Err e.
Proof.
  intros Hi He Hx Hy. destruct (new_context K E manager ins par w) as [w' [c|e]] eqn:H; [|exists e; reflexivity].
  destruct (context_keeps E manager ins par w w' (Ok c) H) as [_ G].
  destruct (proj2 (G c eq_refl) lname li a x b y d Hi He Hx Hy).
Qed.

(** ** Cases *)

Definition w_alias : dict string := [("er_events", "er_rate")].
Definition w_only (lname : string) (cs : dict (string * option string)) : dict linstruct :=
  [(lname, mk_linstruct (TDefault w_config "/d/data.csv") w_alias [("a", "g")] cs)].
Lemma w_only_made lname cs u cf w w1 w2 :
  update_parameter_config
    (map (fun nl => (fst nl, mk_linstr (li_copy (snd nl)) (keys (li_components (snd nl))))) (w_only lname cs)) w_par
    = Ok (p_config (w_state 1), ["a"]) ->
  context_configs nat w_env (mk_instruct u cf (w_only lname cs)) w = (w1, Ok tt) ->
  load_data nat w_env "/d/data.csv" w1 = (w2, Ok w_data) ->
  new_context nat w_env w_manager (mk_instruct u cf (w_only lname cs)) (Ok w_par) w =
    let '(w3, c, r) := context_components nat w_env lname cs
      (mk_context (w_state 1) [(lname, mk_wlik (MDefault w_lk) (mk_llh [] [] w_alias [Fin 1; Fin 2]) [])] ["a"]) w2 in
    (w3, match r with Ok _ => Ok c | Err e => Err e end).
Proof.
  intros Hp Hc Hl. unfold new_context. rewrite Hc. cbn [in_llhs]. rewrite Hp, w_manager_ok.
  cbn [w_only context_likelihoods]. unfold context_likelihood. cbn [has get cx_llhs li_type make_type]. rewrite Hl.
  cbn [e_row e_gof_1d e_gof_2d w_env]. rewrite w_lk_made. cbn [li_components set cx_pars cx_needed m_hist k_hist w_lk li_alias].
  match goal with |- context [context_components ?x1 ?x2 ?x3 ?x4 ?x5 ?x6] =>
    destruct (context_components x1 x2 x3 x4 x5 x6) as [[w3 c3] [x|e]] end; reflexivity.
Qed.

(** Making the context of [C82_case] a second time. *)
Example C83_case :
  snd (new_context nat w_env w_manager w_ins (Ok w_par) w_w4) = Err RuntimeError /\
  snd (new_context nat w_env w_manager w_ins (Ok w_par) (clear_cache w_w4)) = Ok w_context /\
  is_sim w_env ("er", ("ER", None)).
Proof.
  split; [|split].
  - unfold new_context.
    assert (Hc : context_configs nat w_env w_ins w_w4 = (w_w4, Ok tt)) by reflexivity. rewrite Hc.
    assert (Hp : update_parameter_config
           (map (fun nl => (fst nl, mk_linstr (li_copy (snd nl)) (keys (li_components (snd nl))))) (in_llhs w_ins)) w_par
           = Ok (p_config (w_state 1), ["a"])) by reflexivity.
    rewrite Hp, w_manager_ok. cbn [in_llhs w_ins context_likelihoods].
    unfold context_likelihood. cbn [has get cx_llhs keys mem map existsb li_type make_type].
    assert (E : load_data nat w_env "data.csv" w_w4 = (w_w4, Ok w_data)) by reflexivity. rewrite E.
    cbn [e_row e_gof_1d e_gof_2d w_env]. rewrite w_lk_made. reflexivity.
  - rewrite C83_after_clear, w_context_made. reflexivity.
  - exists [pEn; pEf], OnPdf, false. reflexivity.
Qed.

Definition w_sim (cl : closure) : lcomp nat := mk_lcomp ["er_rate"; "a"]
  (LSim (sim_hist no_oor w_cnum (ModelWhole.sim_rows nat w_env cl))).
Definition w_one (lname : string) (cl : closure) : context nat :=
  mk_context (w_state 1) [(lname, mk_wlik (MDefault w_lk) (mk_llh [("er", w_sim cl)] ["a"; "er_events"] w_alias [Fin 1; Fin 2])
     [("er", sim_cols nat w_env cl)])]
    ["a"; "er_events"].
Lemma w_one_made lname cf w w1 w2 w3 cl :
  context_configs nat w_env (mk_instruct None cf (w_only lname [("er", ("ER", None))])) w = (w1, Ok tt) ->
  load_data nat w_env "/d/data.csv" w1 = (w2, Ok w_data) ->
  construct_component nat w_env lname ["energy"] w_bins "er" (ClsSim [pEn; pEf] OnPdf false) None w2 = (w3, Ok (w_sim cl, sim_cols nat w_env cl)) ->
  new_context nat w_env w_manager (mk_instruct None cf (w_only lname [("er", ("ER", None))])) (Ok w_par) w
    = (w3, Ok (w_one lname cl)).
Proof.
  intros Hc Hl Hb. rewrite (w_only_made lname [("er", ("ER", None))] None cf w w1 w2 eq_refl Hc Hl).
  cbn [context_components e_classes w_env String.eqb Ascii.eqb Bool.eqb]. unfold context_component. cbn [cx_llhs get].
  rewrite String.eqb_refl. unfold add_component. cbn [has get ll_components wl_llh wl_type full m_on m_bins k_on k_bins w_lk]. fold w_env.
  rewrite Hb. cbn -[w_sim w_state w_lk]. rewrite String.eqb_refl. reflexivity.
Qed.

Definition w_build (lname : string) (w : world) : world * ModelComponent.component * result unit :=
  build_component 20 ["energy"; "eff"] (lname ++ "_er_sim")%string "batch_size" false w_files (e_plugins w_env)
    (mk_component "er" lname "er_rate" w_reg false [] [] "" None None None) w.
Definition w_closure (lname : string) (w : world) : closure :=
  match ModelComponent.k_simulate (snd (fst (w_build lname w))) with
  | Some cl => cl
  | None => mk_closure (mk_prog [] [] "" "" "" [] []) []
  end.
Definition gain3 : dict value := [("gain", ModelShare.VNum 3)].
Definition w_f1 : world := Eval vm_compute in fst (set_config w_files gain3 init_world).
Definition w_f2 : world := Eval vm_compute in fst (fst (w_build "rn" w_f1)).
Definition w_first : closure := Eval vm_compute in w_closure "rn" w_f1.

(** A failed construction uses the name up as well: the file of the fixed component is missing, and
    without that component the next attempt fails too. *)
Theorem C83_failed_first_refuted : exists ins1 ins2 w1 c,
  new_context nat w_env w_manager ins1 (Ok w_par) init_world = (w1, Err FileNotFoundError) /\
  snd (new_context nat w_env w_manager ins2 (Ok w_par) w1) = Err RuntimeError /\
  snd (new_context nat w_env w_manager ins2 (Ok w_par) init_world) = Ok c.
Proof.
  exists (mk_instruct None gain3 (w_only "rn" [("er", ("ER", None)); ("ac", ("AC", Some "/d/no.csv"))])).
  exists (mk_instruct None gain3 (w_only "rn" [("er", ("ER", None))])).
  exists w_f2, (w_one "rn" w_first).
  assert (Hb : construct_component nat w_env "rn" ["energy"] w_bins "er" (ClsSim [pEn; pEf] OnPdf false) None w_f1
               = (w_f2, Ok (w_sim w_first, sim_cols nat w_env w_first))) by reflexivity.
  split; [|split].
  - rewrite (w_only_made "rn" [("er", ("ER", None)); ("ac", ("AC", Some "/d/no.csv"))] None gain3 init_world w_f1 w_f1
               eq_refl eq_refl eq_refl).
    cbn [context_components e_classes w_env String.eqb Ascii.eqb Bool.eqb]. unfold context_component at 1. cbn [cx_llhs get].
    rewrite String.eqb_refl. unfold add_component at 1. cbn [has get ll_components wl_llh wl_type full m_on m_bins k_on k_bins w_lk]. fold w_env.
    rewrite Hb. reflexivity.
  - rewrite (w_only_made "rn" [("er", ("ER", None))] None gain3 w_f2 w_f2 w_f2 eq_refl eq_refl eq_refl). reflexivity.
  - rewrite (w_one_made "rn" gain3 init_world w_f1 w_f1 w_f2 w_first eq_refl eq_refl Hb). reflexivity.
Qed.

(** The configs of one context stay in effect for the next: the second instruction does not mention
    gain, but in the same process its likelihood is computed with the gain of the first one, and has
    a different value. *)
Definition w_g3 : world := Eval vm_compute in fst (fst (w_build "ar" w_f2)).
Definition w_leaked : closure := Eval vm_compute in w_closure "ar" w_f2.
Definition w_h3 : world := Eval vm_compute in fst (fst (w_build "ar" init_world)).
Definition w_default : closure := Eval vm_compute in w_closure "ar" init_world.
Theorem C83_configs_stay_refuted : exists ins1 ins2 w1 c1 w2 c2 w2' c2' st cs cs' x,
  new_context nat w_env w_manager ins1 (Ok w_par) init_world = (w1, Ok c1) /\ in_configs ins2 = [] /\
  new_context nat w_env w_manager ins2 (Ok w_par) w1 = (w2, Ok c2) /\
  new_context nat w_env w_manager ins2 (Ok w_par) init_world = (w2', Ok c2') /\
  context_posterior nat w_env c2 (fun i => i) [("er_events", Fin 4)] 3 1 = (st, cs, Ok (Fin x, Fin 0)) /\
  context_posterior nat w_env c2' (fun i => i) [("er_events", Fin 4)] 3 1 = (st, cs', Ok (NInf, Fin 0)).
Proof.
  exists (mk_instruct None gain3 (w_only "rn" [("er", ("ER", None))])), (mk_instruct None [] (w_only "ar" [("er", ("ER", None))])).
  exists w_f2, (w_one "rn" w_first), w_g3, (w_one "ar" w_leaked), w_h3, (w_one "ar" w_default), (w_state 4).
  assert (Hb : construct_component nat w_env "rn" ["energy"] w_bins "er" (ClsSim [pEn; pEf] OnPdf false) None w_f1
               = (w_f2, Ok (w_sim w_first, sim_cols nat w_env w_first))) by reflexivity.
  assert (Hb' : construct_component nat w_env "ar" ["energy"] w_bins "er" (ClsSim [pEn; pEf] OnPdf false) None w_f2
               = (w_g3, Ok (w_sim w_leaked, sim_cols nat w_env w_leaked))) by reflexivity.
  assert (Hb'' : construct_component nat w_env "ar" ["energy"] w_bins "er" (ClsSim [pEn; pEf] OnPdf false) None init_world
               = (w_h3, Ok (w_sim w_default, sim_cols nat w_env w_default))) by reflexivity.
  do 3 eexists.
  split; [exact (w_one_made "rn" gain3 init_world w_f1 w_f1 w_f2 w_first eq_refl eq_refl Hb)|]. split; [reflexivity|].
  split; [exact (w_one_made "ar" [] w_f2 w_f2 w_f2 w_g3 w_leaked eq_refl eq_refl Hb')|].
  split; [exact (w_one_made "ar" [] init_world init_world init_world w_h3 w_default eq_refl eq_refl Hb'')|].
  assert (HP : forall cl k x, 
    get_log_likelihood (mk_llh [("er", w_sim cl)] ["a"; "er_events"] w_alias [Fin 1; Fin 2]) 0 3 (p_values (w_state 4)) = Ok (k, x) ->
    context_posterior nat w_env (w_one "ar" cl) (fun i => i) [("er_events", Fin 4)] 3 1
      = (w_state 4, [mk_call "ar" 0 3 (p_values (w_state 4))], Ok (fadd (fadd (Fin 0) x) (Fin 0), Fin 0))).
  { intros cl k x Hx. unfold context_posterior, log_posterior. rewrite posterior_state by (intros n [<-|[]]; left; reflexivity).
    match goal with |- context [log_prior _ ?s] => change s with (w_state 4) end.
    rewrite w_prior. cbn [is_fin negb Nat.ltb Nat.leb]. unfold posterior_once.
    cbn [map fst snd cx_llhs w_one llh_loop wl_llh wl_log_likelihood wl_type]. rewrite Hx. cbn -[fadd Rplus Rminus p_values]. reflexivity. }
  assert (HL : forall cl h1 h2,
    sim_hist no_oor w_cnum (ModelWhole.sim_rows nat w_env cl) 0 3 w_values = Ok (2, [Fin h1; Fin h2]) ->
    get_log_likelihood (mk_llh [("er", w_sim cl)] ["a"; "er_events"] w_alias [Fin 1; Fin 2]) 0 3 (p_values (w_state 4))
    = log_likelihood_of [Fin 1; Fin 2] 2 [Fin (0 + h1)%R; Fin (0 + h2)%R]).
  { intros cl h1 h2 Hh. unfold get_log_likelihood, simulate_model_hist.
    assert (E : forall m, replace_alias w_alias (replace_alias w_alias (p_values (w_state 4))) = m -> m = w_values)
      by (intros m <-; reflexivity).
    cbn [ll_alias ll_components ll_data]. rewrite (E _ eq_refl). cbn [sum_components w_sim l_kind map]. rewrite Hh.
    cbn -[fadd log_likelihood_of Rplus]. rewrite !fadd_Fin. reflexivity. }
  split.
  - erewrite HP. 2: { rewrite (HL w_leaked (2 * 1)%R (2 * 1)%R) by (eapply w_sim_hist; [reflexivity|exact w_rows_31|lra]).
      unfold log_likelihood_of, poisson_sum. cbn -[fadd fsub fmul flog fle Rplus Rmult].
      replace (0 + 2 * 1)%R with 2%R by lra.
      replace (fle (Fin 2) (Fin 0)) with false by (symmetry; apply Bool.not_true_is_false; rewrite fle_Fin; lra).
      rewrite !flog_pos by lra. rewrite !fmul_Fin, !fsub_Fin, !fadd_Fin. cbn [orb is_nan]. reflexivity. }
    rewrite !fadd_Fin. reflexivity.
  - erewrite HP. 2: { rewrite (HL w_default (2 * 2)%R (2 * 0)%R).
      2: { eapply w_sim_hist; [reflexivity|exact w_rows_11|lra]. }
      unfold log_likelihood_of. cbn -[fle Rplus Rmult].
      replace (fle (Fin (0 + 2 * 0)) (Fin 0)) with true by (symmetry; rewrite fle_Fin; lra).
      rewrite !Bool.orb_true_r. reflexivity. }
    reflexivity.
Qed.

Print Assumptions C82_posterior.
Print Assumptions C82_repeated.
Print Assumptions C83_state.
Print Assumptions C83_after_clear.
Print Assumptions C83_name_taken.
Print Assumptions C83_one_simulated.
Print Assumptions C83_failed_first_refuted.
Print Assumptions C83_configs_stay_refuted.
