(** Lemmas about the normalisation on the number of simulated events. *)
From Coq Require Import Reals Lra.
From Verif Require Import Base BaseFacts ModelFloat ModelHist ModelLikelihood
  SpecHist SpecLikelihood SpecWeighted ProofFloat ProofHist ProofLikelihood2 ProofWeighted ProofWeighted2
  ModelShare ModelConfig ModelComponent SpecComponent
  ModelCompile ProofComponent ProofWorkflow ProofHistory ProofCompile
  ModelRecompile SpecRecompile ProofRecompile ProofRecompile3 ModelOnSim SpecOnSim.
Local Open Scope string_scope.

(* ------------------------------------------------------------------ *)
(** * The namespace of a component *)

(** The namespace of the component holds its function and nothing else. *)
Definition alone (k : component) (w : world) : Prop :=
  exists pr a cl, k_compile k = Some (pr, a) /\ get (k_llh k) (w_fn w) = Some a /\
    a < List.length (w_heap w) /\ k_func k = pr_func pr /\
    nth a (w_heap w) [] = [(k_func k, cl)] /\ k_simulate k = Some cl.

Lemma nth_set_other {A} (l : list A) a b x d : a <> b -> nth a (set_nth b x l) d = nth a l d.
Proof.
  revert a b. induction l as [|y l IH]; intros [|a] [|b] H; simpl; auto; try contradiction.
Qed.

Lemma build_alone limit data_names func nodep noeff f plugins k w w' k' :
  build_component limit data_names func nodep noeff f plugins k w = (w', k', Ok tt) -> alone k' w'.
Proof.
  intros H.
  destruct (build_compile_state _ _ _ _ _ _ _ _ _ _ _ H) as
    (pr & cl & B1 & B2 & B3 & B4 & B5 & B6 & B7 & B8 & B9).
  destruct (built_before _ _ _ _ _ _ _ _ _ _ _ H) as (w1 & k1 & Hc & _ & Hd).
  destruct (deduce_ok_inv _ _ _ _ _ _ _ _ _ Hd) as
    (deps & c1 & needed & D1 & D2 & D3 & D4 & D5 & D6 & D7 & D8 & D9 & D10 & D11 & D12 & D13 & D14
     & D15 & D16 & D17 & D18).
  destruct (compile_ok _ _ _ _ _ _ Hc) as
    (pr' & a1 & w3 & insts' & cl' & a' & E1 & E2 & E3 & E4 & E5 & E6 & E7 & E8 & E9 & E10 & E11 & E12 & E13 & E14).
  rewrite E14, E1 in B1. injection B1 as -> ->.
  pose proof (instantiate_fn f plugins (pr_llh pr) (pr_insts pr) [] w1) as [F1 F2].
  rewrite E3 in F1, F2. cbn [fst] in F1, F2.
  assert (Hns : nth (List.length (w_heap w)) (w_heap w') [] = [(pr_func pr, mk_closure pr insts')]).
  { rewrite E4. cbn [w_heap]. rewrite nth_set_nth by (rewrite F2, D16, app_length; cbn; lia).
    rewrite F2, D16, app_nth2, Nat.sub_diag by lia. reflexivity. }
  exists pr, (List.length (w_heap w)), (mk_closure pr insts').
  split; [rewrite E14; exact E1|]. split; [exact B7|]. split; [exact B8|]. split; [exact B4|].
  split; [rewrite Hns, B4; reflexivity|].
  rewrite B6, <- D8, E4 in B7. cbn [w_fn] in B7. rewrite B7 in E5. injection E5 as <-.
  rewrite Hns, <- E11, B4 in E6. cbn in E6. rewrite String.eqb_refl in E6. congruence.
Qed.

Lemma step_alone o k w : of_another k o -> alone k w -> alone k (fst (wstep o w)).
Proof.
  intros Ho (pr & a & cl & A1 & A2 & A3 & A4 & A5 & A6).
  assert (Hn : o <> OClear) by (intros ->; exact Ho).
  destruct (step_keeps o w _ _ Hn A2 A3) as [S1 S2].
  exists pr, a, cl. split; [exact A1|]. split; [exact S1|]. split; [exact S2|]. split; [exact A4|].
  split; [|exact A6]. rewrite <- A5.
  destruct o as [limit dn func nodep noeff k2|f plugins k2| |f configs]; cbn [wstep] in *.
  - unfold deduce. destruct (dependencies_deduce _ _ _ _ _) as [deps|e]; [|reflexivity].
    destruct (dependencies_simplify _ _ _ _) as [[c1 [ws needed]] [u|e]]; [|reflexivity].
    unfold set_code, sv_setitem. cbn [w_fn with_cache k_llh].
    destruct (has (k_llh k2) (w_fn w)); [reflexivity|]. cbn. apply app_nth1, A3.
  - unfold compile. destruct (k_compile k2) as [[pr2 a2]|] eqn:Hk2; [|reflexivity].
    destruct (imports_ok plugins (pr_imports pr2)); [|reflexivity].
    pose proof (instantiate_fn f plugins (pr_llh pr2) (pr_insts pr2) [] w) as [F1 F2].
    destruct (instantiate f plugins (pr_llh pr2) (pr_insts pr2) [] w) as [w1 [insts|e]]; cbn [fst] in F1, F2;
      [|cbn; rewrite F2; reflexivity].
    assert (Hs : nth a (set_nth a2 (set (pr_func pr2) (mk_closure pr2 insts) (nth a2 (w_heap w1) [])) (w_heap w1)) []
                 = nth a (w_heap w) []).
    { rewrite nth_set_other, F2; [reflexivity|]. intros <-. exact (Ho _ _ _ _ A1 Hk2 eq_refl). }
    cbn [w_fn w_heap]. destruct (get (k_llh k2) (w_fn w1)); [|exact Hs].
    destruct (get (k_func k2) _); exact Hs.
  - contradiction.
  - destruct (set_global_config f configs (w_cache w)) as [c' r]. reflexivity.
Qed.

Lemma wrun_alone os : forall k w, Forall (of_another k) os -> alone k w -> alone k (wrun os w).
Proof.
  unfold wrun. induction os as [|o os IH]; cbn [fold_left]; intros k w Ho H; [exact H|].
  inversion Ho; subst. apply IH; [assumption|]. apply step_alone; assumption.
Qed.

Lemma compile_alone f plugins k w w' k' : alone k w -> compile f plugins k w = (w', k', Ok tt) -> alone k' w'.
Proof.
  intros (pr & a & cl & A1 & A2 & A3 & A4 & A5 & A6) H.
  destruct (compile_fields _ _ _ _ _ _ H) as (cl0 & Ek).
  destruct (compile_ok _ _ _ _ _ _ H) as
    (pr' & a1 & w3 & insts & cl' & a' & E1 & E2 & E3 & E4 & E5 & E6 & E7 & E8 & E9 & E10 & E11 & E12 & E13 & E14).
  rewrite A1 in E1. injection E1 as <- <-.
  pose proof (instantiate_fn f plugins (pr_llh pr) (pr_insts pr) [] w) as [F1 F2].
  rewrite E3 in F1, F2. cbn [fst] in F1, F2. rewrite F1, A2 in E5. injection E5 as <-.
  assert (Hns : nth a (w_heap w') [] = [(pr_func pr, mk_closure pr insts)]).
  { rewrite E4. cbn [w_heap]. rewrite nth_set_nth by (rewrite F2; exact A3). rewrite F2, A5, A4. cbn.
    rewrite String.eqb_refl. reflexivity. }
  exists pr, a, (mk_closure pr insts). rewrite E11, E14, E10, Hns.
  rewrite Hns, A4 in E6. cbn in E6. rewrite String.eqb_refl in E6. injection E6 as <-.
  split; [exact A1|]. split; [rewrite E4; cbn [w_fn]; rewrite F1; exact A2|].
  split; [|split; [exact A4|split; [rewrite A4; reflexivity|exact E7]]].
  pose proof (compile_fn f plugins k w) as [_ G]. rewrite H in G. cbn [fst] in G. lia.
Qed.

Section Number.
  Variable selected : instance -> result fl.

  Lemma alone_number k w p i : alone k w -> get "energy" (k_registry k) = Some p ->
    (exists a c, p_name p = a ++ "Bootstrap" ++ c) -> calls_instance k p i ->
    mcinput_of selected k w = match selected i with Ok n => Ok (Some n) | Err e => Err e end.
  Proof.
    intros (pr & a & cl & A1 & A2 & A3 & A4 & A5 & A6) Hp Hb (cl' & C1 & C2).
    rewrite A6 in C1. injection C1 as <-. unfold mcinput_of. rewrite Hp.
    apply has_bootstrap_spec in Hb. rewrite Hb, A2, A5. cbn [ns_instance]. rewrite C2. reflexivity.
  Qed.

  Lemma alone_unused k w p : alone k w -> get "energy" (k_registry k) = Some p ->
    (exists a c, p_name p = a ++ "Bootstrap" ++ c) -> (forall i, ~ calls_instance k p i) ->
    mcinput_of selected k w = Err KeyError.
  Proof.
    intros (pr & a & cl & A1 & A2 & A3 & A4 & A5 & A6) Hp Hb Hn.
    unfold mcinput_of. rewrite Hp. apply has_bootstrap_spec in Hb. rewrite Hb, A2, A5. cbn [ns_instance].
    destruct (get (p_name p ++ "_" ++ k_name k) (cl_insts cl)) as [i|] eqn:E; [|reflexivity].
    exfalso. apply (Hn i). exists cl. auto.
  Qed.

  Lemma other_number k w : other_energy k -> mcinput_of selected k w = Ok None.
  Proof.
    intros H. apply use_mcinput_false in H. unfold use_mcinput in H. unfold mcinput_of.
    destruct (get "energy" (k_registry k)) as [p|]; [|discriminate]. injection H as ->. reflexivity.
  Qed.
End Number.

Lemma later_alone k w k2 w2 : alone k w -> later k w k2 w2 ->
  alone k2 w2 /\ k_registry k2 = k_registry k /\ k_rate k2 = k_rate k /\ k_noeff k2 = k_noeff k /\
  k_name k2 = k_name k /\ k_llh k2 = k_llh k.
Proof.
  intros Ha H. induction H as [|k2 w2 o H IH Ho|k2 w2 f plugins w3 k3 H IH Hc]; [auto 10| |].
  - destruct IH as (IH & R). split; [apply step_alone; assumption|exact R].
  - destruct IH as (IH & R). split; [exact (compile_alone _ _ _ _ _ _ IH Hc)|].
    destruct (compile_fields _ _ _ _ _ _ Hc) as (cl & ->). exact R.
Qed.

(* ------------------------------------------------------------------ *)
(** * Sums of efficiencies *)
Local Open Scope R_scope.

Definition eff_value (no_eff : bool) (r : list fl) : R :=
  match snd (sim_event no_eff r) with Fin e => e | _ => 0 end.

Lemma eff_sum_rsum ne P rows :
  eff_sum ne P rows = rsum (map (eff_value ne) (filter (fun r => P (fst (sim_event ne r))) rows)).
Proof. reflexivity. Qed.

Lemma eff_weight ne P rows : efficiency_ok ne rows ->
  weight_of snd (fun e => P (fst e)) (map (sim_event ne) rows) = Fin (eff_sum ne P rows).
Proof.
  intros H. rewrite eff_sum_rsum, <- fsum_Fin. unfold weight_of. f_equal.
  induction rows as [|r rows IH]; [reflexivity|]. cbn [map filter].
  assert (IH' := IH (fun x Hx => H x (or_intror Hx))).
  destruct (P (fst (sim_event ne r))); cbn [map]; [|exact IH']. rewrite IH'. f_equal.
  destruct (H r (or_introl eq_refl)) as (e & He & _). unfold eff_value. rewrite He. reflexivity.
Qed.

Lemma eff_sum_bounds ne P rows : efficiency_ok ne rows ->
  0 <= eff_sum ne P rows <= INR (List.length rows).
Proof.
  intros H. rewrite eff_sum_rsum. induction rows as [|r rows IH]; [cbn; lra|].
  cbn [filter]. change (List.length (r :: rows)) with (S (List.length rows)). rewrite S_INR.
  assert (IH' := IH (fun x Hx => H x (or_intror Hx))).
  destruct (H r (or_introl eq_refl)) as (e & He & He1).
  destruct (P (fst (sim_event ne r))); cbn [map rsum]; [|lra].
  unfold eff_value at 1 3. rewrite He. lra.
Qed.

Section Hist.
  Variable oor : list (list fl) -> nat -> list fl.

  (** The divisor. *)
  Definition number_of (m : option fl) (batch : nat) : fl :=
    match m with Some n => n | None => Fin (INR batch) end.

  Lemma on_sim_inv {K} c (sim : K -> nat -> params -> result (K * list (list fl))) key batch p key' h m r N :
    binning_ok (n_bins c) -> n_norm c = OnSim ->
    n_mcinput c = Ok m -> number_of m batch = Fin N -> 0 < N -> get (n_rate c) p = Some (Fin r) ->
    sim_hist oor c sim key batch p = Ok (key', h) ->
    exists rows, sim key batch p = Ok (key', rows) /\
      h = scale (Fin (r / N))
            (let h0 := binned (n_bins c) (map (sim_event (n_no_eff c)) rows) in
             if n_add_eps c then floor_hist (map (fun x => snd (sim_event (n_no_eff c) x)) rows) h0 else h0).
  Proof.
    intros Hb Hn Hm HN HN0 Hr H. unfold sim_hist in H.
    destruct (sim key batch p) as [[k rows]|e] eqn:Hs; [|discriminate].
    assert (Hsp : split_rows (n_no_eff c) rows =
              (map (fun r => fst (sim_event (n_no_eff c) r)) rows, map (fun r => snd (sim_event (n_no_eff c) r)) rows)).
    { unfold split_rows, sim_event. destruct (n_no_eff c); cbn [fst snd]; [rewrite map_id|]; reflexivity. }
    rewrite Hsp in H. destruct (forallb _ _) eqn:Hl in H; [|discriminate].
    unfold implement_binning in H. rewrite plain_hist_binned in H by exact Hb.
    rewrite combine_maps in H.
    assert (Hev : map (fun r => (fst (sim_event (n_no_eff c) r), snd (sim_event (n_no_eff c) r))) rows =
                  map (sim_event (n_no_eff c)) rows).
    { apply map_ext. intros x. symmetry. apply surjective_pairing. }
    rewrite Hev, Hn, Hm in H. cbn [get_normalization] in H. rewrite Hr in H.
    unfold number_of in HN. rewrite HN, on_pdf_factor in H by lra. injection H as <- <-.
    exists rows. split; [reflexivity|]. cbn zeta. f_equal. f_equal. unfold Rdiv. apply Rmult_comm.
  Qed.

  Lemma on_sim_bins {K} c (sim : K -> nat -> params -> result (K * list (list fl))) key batch p key' h rows m r N :
    binning_ok (n_bins c) -> n_norm c = OnSim -> n_add_eps c = false ->
    n_mcinput c = Ok m -> number_of m batch = Fin N -> 0 < N -> get (n_rate c) p = Some (Fin r) ->
    sim_hist oor c sim key batch p = Ok (key', h) -> sim key batch p = Ok (key', rows) ->
    efficiency_ok (n_no_eff c) rows ->
    h = map (fun P => Fin (r * eff_sum (n_no_eff c) P rows / N)) (bins_of (n_bins c)).
  Proof.
    intros Hb Hn He Hm HN HN0 Hr H Hs Hok.
    destruct (on_sim_inv c sim key batch p key' h m r N Hb Hn Hm HN HN0 Hr H) as (rows' & Hs' & ->).
    rewrite Hs in Hs'. injection Hs' as <-. cbn zeta. rewrite He. unfold binned, scale. rewrite map_map.
    apply map_ext. intros P. rewrite eff_weight by exact Hok. rewrite fmul_Fin. f_equal. unfold Rdiv. ring.
  Qed.

  Lemma on_sim_floor {K} c (sim : K -> nat -> params -> result (K * list (list fl))) key batch p key' h rows m r N :
    binning_ok (n_bins c) -> n_norm c = OnSim -> n_add_eps c = true ->
    n_mcinput c = Ok m -> number_of m batch = Fin N -> 0 < N -> get (n_rate c) p = Some (Fin r) ->
    sim_hist oor c sim key batch p = Ok (key', h) -> sim key batch p = Ok (key', rows) ->
    rows <> [] -> efficiency_ok (n_no_eff c) rows ->
    h = map (fun P => Fin (r * Rmax (eff_sum (n_no_eff c) P rows)
                                (eps + eff_sum (n_no_eff c) (fun _ => true) rows / INR (List.length rows)) / N))
            (bins_of (n_bins c)).
  Proof.
    intros Hb Hn He Hm HN HN0 Hr H Hs Hne Hok.
    destruct (on_sim_inv c sim key batch p key' h m r N Hb Hn Hm HN HN0 Hr H) as (rows' & Hs' & ->).
    rewrite Hs in Hs'. injection Hs' as <-. cbn zeta. rewrite He. unfold floor_hist, binned, scale. rewrite !map_map.
    assert (Hm' : fmean (map (fun x => snd (sim_event (n_no_eff c) x)) rows) =
                  Fin (eff_sum (n_no_eff c) (fun _ => true) rows / INR (List.length rows))).
    { replace (map (fun x => snd (sim_event (n_no_eff c) x)) rows) with (map Fin (map (eff_value (n_no_eff c)) rows)).
      - rewrite fmean_Fin by (destruct rows; [contradiction|discriminate]). unfold mean. rewrite map_length.
        f_equal. rewrite eff_sum_rsum. f_equal. f_equal. f_equal.
        clear. induction rows as [|x rows IH]; [reflexivity|]. cbn. congruence.
      - rewrite map_map. apply map_ext_in. intros x Hx. destruct (Hok x Hx) as (e & E & _).
        unfold eff_value. rewrite E. reflexivity. }
    rewrite Hm'. apply map_ext. intros P. rewrite eff_weight by exact Hok.
    rewrite fadd_Fin, fclip_PInf, fmul_Fin. f_equal. unfold Rdiv. ring.
  Qed.

  Lemma on_sim_total {K} c (sim : K -> nat -> params -> result (K * list (list fl))) key batch p key' h rows m r N :
    binning_ok (n_bins c) -> n_norm c = OnSim -> n_add_eps c = false ->
    n_mcinput c = Ok m -> number_of m batch = Fin N -> 0 < N -> get (n_rate c) p = Some (Fin r) ->
    sim_hist oor c sim key batch p = Ok (key', h) -> sim key batch p = Ok (key', rows) ->
    efficiency_ok (n_no_eff c) rows ->
    fsum h = Fin (r * (eff_sum (n_no_eff c) (fun o => existsb (fun P => P o) (bins_of (n_bins c))) rows / N)).
  Proof.
    intros Hb Hn He Hm HN HN0 Hr H Hs Hok.
    rewrite (on_sim_bins c sim key batch p key' h rows m r N Hb Hn He Hm HN HN0 Hr H Hs Hok).
    assert (T := binned_total (n_bins c) (map (sim_event (n_no_eff c)) rows) Hb).
    replace (weight_of snd (fun e => Nat.eqb (hits (bins_of (n_bins c)) (fst e)) 1) (map (sim_event (n_no_eff c)) rows))
      with (weight_of snd (fun e => (fun o => existsb (fun P => P o) (bins_of (n_bins c))) (fst e)) (map (sim_event (n_no_eff c)) rows)) in T.
    - rewrite (eff_weight _ (fun o => existsb (fun P => P o) (bins_of (n_bins c)))) in T by exact Hok.
      assert (B : binned (n_bins c) (map (sim_event (n_no_eff c)) rows) =
                  map Fin (map (fun P => eff_sum (n_no_eff c) P rows) (bins_of (n_bins c)))).
      { unfold binned. rewrite map_map. apply map_ext. intros P. apply eff_weight, Hok. }
      rewrite B, fsum_Fin in T. injection T as T. rewrite <- T.
      rewrite <- (map_map (fun P => r * eff_sum (n_no_eff c) P rows / N) Fin), fsum_Fin. f_equal.
      rewrite (map_ext _ (fun P => eff_sum (n_no_eff c) P rows * (r / N))) by (intros; unfold Rdiv; ring).
      rewrite <- (map_map (fun P => eff_sum (n_no_eff c) P rows) (fun x => x * (r / N))), rsum_scale.
      unfold Rdiv. ring.
    - unfold weight_of. f_equal. f_equal. apply filter_ext. intros e.
      pose proof (bins_disjoint (n_bins c) (fst e) Hb) as D.
      pose proof (hits_pos (bins_of (n_bins c)) (fst e)) as Q.
      destruct (existsb (fun P => P (fst e)) (bins_of (n_bins c))) eqn:Ex.
      + apply existsb_exists in Ex. apply Q in Ex. symmetry. apply Nat.eqb_eq. lia.
      + symmetry. apply Nat.eqb_neq. intros H1. assert (H2 : (1 <= hits (bins_of (n_bins c)) (fst e))%nat) by lia.
        apply Q in H2. apply existsb_exists in H2. congruence.
  Qed.
End Hist.

Lemma counted_number selected k w batch N : alone k w -> counted selected k batch N ->
  exists m, mcinput_of selected k w = Ok m /\ number_of m batch = Fin N.
Proof.
  intros Ha H. destruct H as [Ho|p a c i n Hp Hn Hc Hs].
  - exists None. split; [apply other_number, Ho|reflexivity].
  - exists (Some (Fin n)). split; [|reflexivity]. rewrite (alone_number selected k w p i Ha Hp); eauto.
    rewrite Hs. reflexivity.
Qed.

(** A simulation that suits the binning: get_normalization decides. *)
Lemma hist_decided {K} oor c (sim : K -> nat -> params -> result (K * list (list fl))) key batch p key' rows :
  binning_ok (n_bins c) -> sim key batch p = Ok (key', rows) ->
  (forall r, In r rows -> List.length r = (ndim (n_bins c) + if n_no_eff c then 0 else 1)%nat) ->
  exists h0, sim_hist oor c sim key batch p =
    match get_normalization (n_norm c) (n_rate c) (n_mcinput c) h0 p batch with
    | Err e => Err e | Ok f => Ok (key', scale f h0) end.
Proof.
  intros Hb Hs Hl. unfold sim_hist. rewrite Hs. unfold split_rows, implement_binning.
  destruct (n_no_eff c).
  - replace (forallb (fun r => Nat.eqb (List.length r) (ndim (n_bins c))) rows) with true.
    + rewrite plain_hist_binned by exact Hb. eauto.
    + symmetry. apply forallb_forall; intros r Hr; apply Nat.eqb_eq. rewrite (Hl r Hr). lia.
  - replace (forallb (fun r => Nat.eqb (List.length r) (ndim (n_bins c))) (map (@removelast fl) rows)) with true.
    + rewrite plain_hist_binned by exact Hb. eauto.
    + symmetry. apply forallb_forall; intros r Hr; apply Nat.eqb_eq.
      apply in_map_iff in Hr. destruct Hr as (x & <- & Hx). rewrite removelast_length, (Hl x Hx). lia.
Qed.
