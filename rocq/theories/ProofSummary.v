(** Lemmas for the number of accepted events and the summary of a context (C124). *)
From Coq Require Import Reals Lia Lra.
From Verif Require Import Base BaseFacts ModelFloat ModelHist ModelShare ModelConfig ModelComponent ModelCompile
  ModelParameter ModelLikelihood ModelBinning ModelLit ModelContext ModelWhole ModelSummary
  SpecHist SpecLikelihood SpecComponent SpecConfig SpecCompile SpecWeighted SpecBinning SpecWhole SpecSummary
  ProofFloat ProofHist ProofLikelihood ProofWeighted ProofBinning ProofLikelihood3 ProofCompile ProofWhole.
Local Open Scope string_scope.
Local Open Scope list_scope.

(* ------------------------------------------------------------------ *)
(** * The loop *)


Section Events.
  Context {K : Type}.
  Variable E : env K.

  Lemma default_model_ok ins w w1 lname cfg file lk (L : llh K) batch p key x li :
    NoDup (keys (in_configs ins)) -> ~ In "url_base" (keys (in_configs ins)) ->
    context_configs K E ins w = (w1, Ok tt) -> NoDup (keys p) ->
    made_type E w1 (TDefault cfg file) (MDefault lk) -> ll_data L = k_hist lk -> ll_alias L = li_alias li ->
    Forall2 (made_comp E w1 lname (MDefault lk)) (li_components li) (ll_components L) -> sound_llh E li (MDefault lk) ->
    get_num_events_accepted L key batch p = Ok x ->
    exists m, default_model E ins lname cfg file (li_alias li) (li_components li) batch p key m /\ x = fsum m.
  Proof.
    intros Hnd Hub Hc Hp (wa & wb & Hg & Hld) Hdata Hal HF Hs H. cbn [make_type] in Hld.
    destruct (load_data K E file wa) as [wb' tr] eqn:Hl.
    destruct (new_likelihood (e_row E) (e_gof_1d E) (e_gof_2d E) cfg tr) as [lk'|e] eqn:Hnew; [|discriminate].
    injection Hld as -> ->.
    pose proof Hs as (Hb & He & Ha & Hsep & _).
    destruct (new_data _ _ _ _ _ _ Hnew) as (t & sel & -> & S1 & _ & S3).
    pose proof (new_counts _ _ _ _ _ _ Hnew Hb) as Hcnt.
    destruct (load_data_file E ins w w1 wa wb file t Hub Hc Hg Hl) as (path & P1 & P2).
    unfold get_num_events_accepted in H. rewrite Hal in H.
    destruct (simulate_model_hist L key batch (replace_alias (li_alias li) p)) as [[k2 m]|e] eqn:Hm; [|discriminate].
    injection H as <-.
    unfold simulate_model_hist in Hm. rewrite Hal, replace_alias_idem in Hm by assumption.
    destruct (components_sum E ins w w1 lname lk li batch (replace_alias (li_alias li) p) (li_components li)
                (ll_components L) key _ k2 m Hnd Hub Hc Hs (incl_refl _) HF Hm) as (hs & H1 & H2 & H3).
    rewrite map_length in H2, H3.
    assert (Hlen : List.length (ll_data L) = List.length (bins_of (k_bins lk))).
    { rewrite Hdata, Hcnt. unfold counts. rewrite map_length. reflexivity. }
    exists m. split; [|reflexivity]. exists lk, path, t, (replace_alias (li_alias li) p), hs, k2.
    split; [exact P1|]. split; [exact P2|]. split; [exact Hnew|].
    split; [intros nm; apply replace_alias_get; assumption|]. split; [exact H1|]. split; [lia|].
    intros i Hi. rewrite H3 by lia. unfold entry at 1.
    rewrite (nth_indep _ NaN (Fin 0)) by (rewrite map_length; lia).
    rewrite (map_nth (fun _ : fl => Fin 0) (ll_data L) (Fin 0)). apply fadd_0_l.
  Qed.

  Lemma type_match w1 t m : made_type E w1 t m ->
    match t, m with TDefault _ _, MDefault _ => True | TLit _ on _ _, MLit on' _ => on' = on | _, _ => False end.
  Proof.
    intros (wa & wb & _ & H). destruct t as [cfg file|vt on names values]; cbn [make_type] in H.
    - destruct (load_data K E file wa) as [wc r]. destruct (new_likelihood _ _ _ _ _); [|discriminate]. injection H as _ <-. exact I.
    - destruct (new_lit vt on (logpdf_args names values)) as [[?|?]|]; try discriminate. injection H as _ <-. reflexivity.
  Qed.

  Lemma events_made ins w w1 batch p fresh ils : forall cls j warned n d ws x,
    NoDup (keys (in_configs ins)) -> ~ In "url_base" (keys (in_configs ins)) ->
    context_configs K E ins w = (w1, Ok tt) -> NoDup (keys p) ->
    Forall2 (made_llh E w1) ils cls ->
    (forall n li L, In (n, li) ils -> In (n, L) cls -> sound_llh E li (wl_type L)) ->
    events_loop cls fresh batch p j warned n = (d, ws, Ok x) ->
    exists xs, accepted E ins batch p fresh j ils xs /\ x = fadd n (fsum xs) /\ d = j + List.length xs /\
      ws = warned ++ lits ils.
  Proof.
    induction ils as [|[lname li] ils IH]; intros cls j warned n d ws x Hnd Hub Hc Hp HF Hs H.
    - inversion HF; subst. cbn in H. injection H as <- <- <-. exists []. split; [constructor|]. cbn. rewrite fadd_0_r, app_nil_r.
      split; [reflexivity|]. split; [lia|reflexivity].
    - inversion HF as [|? cl ? cls' Hm HF']; subst. destruct cl as [n' L].
      assert (Hs' : forall n li L, In (n, li) ils -> In (n, L) cls' -> sound_llh E li (wl_type L)).
      { intros n2 li2 L2 I1 I2. apply (Hs n2); right; assumption. }
      pose proof Hm as (Hn & Hty & Hdata & Hal & HFc & HFs). cbn in Hn. subst n'. cbn [fst snd] in *. cbn [events_loop] in H.
      pose proof (Hs lname li L (or_introl eq_refl) (or_introl eq_refl)) as Hso. unfold has_hist in H.
      pose proof (type_match _ _ _ Hty) as T. unfold lits. cbn [filter snd]. unfold is_lit at 1.
      destruct (li_type li) as [cfg file|vt on names values] eqn:Et, (wl_type L) as [lk|on' l] eqn:Em; try contradiction.
      + destruct (get_num_events_accepted (wl_llh L) (fresh j) batch p) as [y|e] eqn:Ey; [|discriminate].
        destruct (default_model_ok ins w w1 lname cfg file lk (wl_llh L) batch p (fresh j) y li Hnd Hub Hc Hp Hty Hdata Hal HFc Hso Ey) as (m & Hmod & ->).
        destruct (IH cls' (S j) warned (fadd n (fsum m)) d ws x Hnd Hub Hc Hp HF' Hs' H) as (xs & A & -> & -> & ->).
        exists (fsum m :: xs). split; [econstructor; eassumption|]. rewrite fsum_cons, fadd_assoc. split; [reflexivity|]. cbn. split; [lia|reflexivity].
      + destruct (IH cls' j (warned ++ [lname]) n d ws x Hnd Hub Hc Hp HF' Hs' H) as (xs & A & -> & -> & ->).
        exists xs. split; [econstructor; eassumption|]. split; [reflexivity|]. split; [reflexivity|]. cbn [map fst]. rewrite <- app_assoc. reflexivity.
  Qed.

  (* ------------------------------------------------------------------ *)
  (** * The summary *)

  Lemma component_lines_nth (cs : dict (lcomp K)) : forall j i c, nth_error cs i = Some c ->
    nth_error (component_lines j cs) i = Some (component_line (j + i) (fst c) (snd c)).
  Proof.
    induction cs as [|[n c0] cs IH]; intros j [|i] c H; try discriminate; cbn [component_lines nth_error] in *.
    - injection H as <-. rewrite Nat.add_0_r. reflexivity.
    - rewrite (IH (S j) i c H). do 2 f_equal. lia.
  Qed.
  Lemma component_lines_length (cs : dict (lcomp K)) : forall j, List.length (component_lines j cs) = List.length cs.
  Proof. induction cs as [|[n c0] cs IH]; intros j; cbn; [reflexivity|]. rewrite IH. reflexivity. Qed.

  Lemma Forall2_nth {A B} (P : A -> B -> Prop) l l' : Forall2 P l l' -> forall i a, nth_error l i = Some a ->
    exists b, nth_error l' i = Some b /\ P a b.
  Proof. induction 1 as [|x y l l' Hxy H IH]; intros [|i] a Ha; try discriminate; cbn in *; [injection Ha as <-; eauto|eauto]. Qed.
  Lemma Forall2_len {A B} (P : A -> B -> Prop) l l' : Forall2 P l l' -> List.length l' = List.length l.
  Proof. induction 1; cbn; congruence. Qed.

  Lemma config_params_keep llh cfs x : forall needed c c' needed' r, config_params cfs llh needed c = (c', needed', r) ->
    In x needed -> In x needed'.
  Proof.
    induction cfs as [|cf cfs IH]; intros needed c c' needed' r H Hx; cbn [config_params] in H.
    - injection H as _ <- _. exact Hx.
    - destruct (required_parameter cf (Some llh) c) as [c1 [[s|]|e]].
      + eapply IH; [exact H|]. apply add1_In. auto.
      + eapply IH; eassumption.
      + injection H as _ <- _. exact Hx.
  Qed.
  Lemma simplify_keep llh ps x : forall ws needed c c' ws' needed' r, simplify_loop ps llh ws needed c = (c', (ws', needed'), r) ->
    In x needed -> In x needed'.
  Proof.
    induction ps as [|p ps IH]; intros ws needed c c' ws' needed' r H Hx; cbn [simplify_loop] in H.
    - injection H as _ _ <- _. exact Hx.
    - destruct (config_params (map snd (p_configs p)) llh (union needed (p_params p)) c) as [[c1 n1] r1] eqn:Ec.
      assert (In x n1) by (eapply config_params_keep; [exact Ec|]; apply union_In; auto).
      destruct r1; [eapply IH; eassumption|]. injection H as _ _ <- _. assumption.
  Qed.
  Lemma build_rate limit dn func nodep noeff f plugins k w w' k' : k_rate k <> "" ->
    build_component limit dn func nodep noeff f plugins k w = (w', k', Ok tt) -> In (k_rate k) (k_needed k').
  Proof.
    intros Hr H. unfold build_component in H. destruct (deduce limit dn func nodep noeff k w) as [[w1 k1] [u|e]] eqn:Hd; [|discriminate].
    assert (In (k_rate k) (k_needed k1)).
    { unfold deduce in Hd. destruct (dependencies_deduce _ _ _ _ _) as [deps|e]; [|discriminate].
      destruct (dependencies_simplify (k_rate k) (k_llh k) deps (w_cache w)) as [[c1 [ws needed]] r] eqn:Es.
      unfold dependencies_simplify in Es. apply String.eqb_neq in Hr. rewrite Hr in Es.
      pose proof (simplify_keep _ _ (k_rate k) _ _ _ _ _ _ _ Es (or_introl eq_refl)) as Hin.
      destruct r; [|discriminate]. unfold set_code in Hd. cbn [k_llh k_needed] in Hd. destruct (sv_setitem _ _ _); [|discriminate].
      injection Hd as _ <- _. exact Hin. }
    unfold compile in H. destruct (k_compile k1) as [[pr a]|]; [|discriminate].
    destruct (imports_ok _ _); [|discriminate]. destruct (instantiate _ _ _ _ _ _) as [w2 [insts|e2]]; [|discriminate].
    destruct (get (k_llh k1) _) as [a'|]; [|discriminate]. destruct (get (k_func k1) _) as [cl|]; [|discriminate]. injection H as _ <-. exact H0.
  Qed.

  Lemma line_made w1 lname m i ci cc : made_comp E w1 lname m ci cc ->
    line_of E ci i (component_line i (fst cc) (snd cc)).
  Proof.
    intros (Hn & k & wa & wb & sim & Hk & _ & H). rewrite <- Hn. split; [reflexivity|]. split; [reflexivity|]. cbn [component_line cl_rest].
    rewrite Hk. destruct ci as [cname [cls file]]. cbn [fst snd] in *. unfold construct_component in H. destruct k as [ps nt eps|nt eps|].
    - destruct (register ps []) as [reg [u|e]]; [|discriminate].
      match type of H with (let '(_, _) := ?b in _) = _ => destruct b as [[w2 k'] r'] eqn:Hb end. destruct r' as [[]|e]; [|discriminate].
      destruct (k_simulate k') as [cl|]; [|discriminate]. injection H as _ Hl _. rewrite <- Hl. cbn [l_kind l_needed].
      do 2 eexists. split; [reflexivity|]. split; [|reflexivity].
      refine (build_rate _ _ _ _ _ _ _ _ _ _ _ _ Hb). cbn. destruct cname; discriminate.
    - destruct file as [[|ch fname]|]; try discriminate. destruct (load_data K E (String ch fname) wa) as [w2 [t|e]]; [|discriminate].
      destruct (positions _ (t_columns t)) as [is|e]; [|discriminate]. destruct (fixed_deduce _ _ _) as [h|e]; [|discriminate].
      injection H as _ Hl _. rewrite <- Hl. cbn [l_kind l_needed]. do 2 eexists. split; [reflexivity|]. split; [left; reflexivity|reflexivity].
    - discriminate.
  Qed.

  Lemma hits_existsb {A} (Ps : list (A -> bool)) r : 1 <= hits Ps r <-> existsb (fun P => P r) Ps = true.
  Proof. rewrite <- hits_pos, existsb_exists. reflexivity. Qed.

  Lemma counts_sum b data : binning_ok b ->
    fsum (counts b data) = Fin (INR (List.length (filter (fun r => existsb (fun P => P r) (bins_of b)) data))).
  Proof.
    intros Hb. rewrite <- binned_ones, binned_total by exact Hb. unfold weight_of.
    induction data as [|r data IH]; [reflexivity|]. cbn [map combine filter fst].
    pose proof (bins_disjoint b r Hb) as H2. pose proof (hits_existsb (bins_of b) r) as H3.
    destruct (existsb (fun P => P r) (bins_of b)).
    - replace (hits (bins_of b) r) with 1 by (destruct H3 as [_ H3]; specialize (H3 eq_refl); lia). cbn [Nat.eqb map].
      rewrite fsum_cons, IH. cbn [snd List.length]. rewrite S_INR, fadd_Fin. f_equal. lra.
    - replace (hits (bins_of b) r) with 0; [exact IH|]. destruct (hits (bins_of b) r); [reflexivity|]. destruct H3 as [H3 _].
      discriminate H3. lia.
  Qed.

  Lemma section_made ins w w1 il cl : ~ In "url_base" (keys (in_configs ins)) ->
    context_configs K E ins w = (w1, Ok tt) -> made_llh E w1 il cl ->
    section_of E ins il (likelihood_section (fst cl) (snd cl)).
  Proof.
    intros Hub Hc (Hn & Hty & Hdata & Hal & HFc & HFs). destruct il as [lname li], cl as [n L]. cbn [fst snd] in *. subst n.
    split; [reflexivity|]. cbn [likelihood_section ls_components ls_on ls_rate ls_name snd]. split; [|split].
    - rewrite component_lines_length. exact (Forall2_len _ _ _ HFc).
    - intros i ci l Hi Hl. destruct (Forall2_nth _ _ _ HFc i ci Hi) as (cc & Hcc & Hm).
      rewrite (component_lines_nth _ 0 i cc Hcc) in Hl. injection Hl as <-. exact (line_made _ _ _ _ _ _ Hm).
    - pose proof (type_match _ _ _ Hty) as T.
      destruct (li_type li) as [cfg file|vt on names values], (wl_type L) as [lk|on' l]; try contradiction; [|split; [exact T|reflexivity]].
      destruct Hty as (wa & wb & Hg & Hld). cbn [make_type] in Hld. destruct (load_data K E file wa) as [wb' tr] eqn:Hl.
      destruct (new_likelihood (e_row E) (e_gof_1d E) (e_gof_2d E) cfg tr) as [lk'|e] eqn:Hnew; [|discriminate].
      injection Hld as -> ->. destruct (new_data _ _ _ _ _ _ Hnew) as (t & sel & -> & _).
      destruct (load_data_file E ins w w1 wa wb file t Hub Hc Hg Hl) as (path & P1 & P2).
      exists lk, path, t. split; [exact P1|]. split; [exact P2|]. split; [exact Hnew|]. split; [reflexivity|].
      intros Hb. rewrite Hdata. cbn [m_hist]. rewrite (new_counts _ _ _ _ _ _ Hnew Hb). f_equal. apply counts_sum, Hb.
  Qed.
End Events.
