(** Lemmas about templates (C103): the histogram and the simulate method of a component belong together. *)
From Coq Require Import Reals Lia.
From Verif Require Import Base BaseFacts ModelFloat ModelHist ModelShare ModelConfig ModelComponent ModelCompile ModelParameter ModelLikelihood ModelBinning
  ModelLit ModelContext ModelWhole SpecPost ProofWhole.
Local Open Scope string_scope.
Local Open Scope list_scope.

Section Pairs.
  Variable K : Type.
  Variable E : ModelWhole.env K.

  Definition paired (a : string * lcomp K) (b : string * simulate_fun K) : Prop :=
    fst a = fst b /\ exists lname on bins k file wa wb,
      construct_component K E lname on bins (fst a) k file wa = (wb, Ok (snd a, snd b)).
  Definition llh_paired (L : wlik K) : Prop := Forall2 paired (ll_components (wl_llh L)) (wl_sims L).
  Definition ctx_paired (c : context K) : Prop := Forall (fun nl => llh_paired (snd nl)) (cx_llhs c).

  Lemma paired_keys a b : Forall2 paired a b -> keys a = keys b.
  Proof. induction 1 as [|x y a b [H _] _ IH]; [reflexivity|]. cbn. f_equal; assumption. Qed.

  Lemma Forall_set {V} (P : string * V -> Prop) k v (d : dict V) : (forall k', P (k', v)) -> Forall P d -> Forall P (set k v d).
  Proof.
    intros Hv H. induction H as [|[k' v'] d H1 H2 IH]; cbn; [constructor; [apply Hv|constructor]|].
    destruct (String.eqb k k'); constructor; auto.
  Qed.

  Lemma add_paired lname cname cls file L w w' L' r : llh_paired L -> add_component K E lname cname cls file L w = (w', L', r) -> llh_paired L'.
  Proof.
    intros H. unfold add_component. destruct (full L); [intros X; injection X as _ <- _; exact H|].
    destruct (has cname (ll_components (wl_llh L))) eqn:Hn; [intros X; injection X as _ <- _; exact H|].
    destruct (construct_component K E lname (m_on (wl_type L)) (m_bins (wl_type L)) cname cls file w) as [w2 [[lc sim]|e]] eqn:Hc;
      [|intros X; injection X as _ <- _; exact H].
    unfold register_component. rewrite Hn. intros X. injection X as _ <- _. unfold llh_paired. cbn [wl_llh wl_sims ll_components].
    assert (Hn' : has cname (wl_sims L) = false) by (rewrite <- (same_keys_has _ _ cname (paired_keys _ _ H)); exact Hn).
    rewrite (set_new cname lc) by exact Hn. rewrite (set_new cname sim) by exact Hn'. apply Forall2_app; [exact H|]. constructor; [|constructor].
    split; [reflexivity|]. do 7 eexists. exact Hc.
  Qed.

  Lemma get_Forall {V} (P : string * V -> Prop) k v (d : dict V) : Forall P d -> get k d = Some v -> exists k', P (k', v).
  Proof. intros H G. apply get_In in G. rewrite Forall_forall in H. exists k. apply H, G. Qed.

  Lemma components_paired lname cs : forall c w w' c' r, ctx_paired c -> context_components K E lname cs c w = (w', c', r) -> ctx_paired c'.
  Proof.
    induction cs as [|[cname [cls file]] cs IH]; intros c w w' c' r H X; cbn [context_components] in X; [injection X as _ <- _; exact H|].
    destruct (e_classes E cls) as [k|]; [|injection X as _ <- _; exact H].
    destruct (context_component K E lname cname k file c w) as [[w1 c1] r1] eqn:Hc.
    assert (P1 : ctx_paired c1).
    { unfold context_component in Hc. destruct (get lname (cx_llhs c)) as [L|] eqn:Hg; [|injection Hc as _ <- _; exact H].
      destruct (add_component K E lname cname k file L w) as [[w2 L2] r2] eqn:Ha. destruct (get_Forall _ _ _ _ H Hg) as [k' HL]. cbn [snd] in HL.
      pose proof (add_paired _ _ _ _ _ _ _ _ _ HL Ha) as P2. destruct r2; injection Hc as _ <- _; unfold ctx_paired; cbn [cx_llhs]; apply Forall_set; try exact H; intros k0; exact P2. }
    destruct r1 as [[]|e]; [apply (IH _ _ _ _ _ P1 X)|]. injection X as _ <- _. exact P1.
  Qed.

  Lemma likelihoods_paired ls : forall c w w' c' r, ctx_paired c -> context_likelihoods K E ls c w = (w', c', r) -> ctx_paired c'.
  Proof.
    induction ls as [|[lname li] ls IH]; intros c w w' c' r H X; cbn [context_likelihoods] in X; [injection X as _ <- _; exact H|].
    destruct (context_likelihood K E lname li c w) as [[w1 c1] r1] eqn:Hl.
    assert (P1 : ctx_paired c1).
    { unfold context_likelihood in Hl. destruct (has lname (cx_llhs c)); [injection Hl as _ <- _; exact H|].
      destruct (make_type K E (li_type li) w) as [w2 [m|e]]; injection Hl as _ <- _; [|exact H]. unfold ctx_paired. cbn [cx_llhs]. apply Forall_set; [|exact H].
      intros k'. constructor. }
    destruct r1 as [[]|e]; [|injection X as _ <- _; exact P1].
    destruct (context_components K E lname (li_components li) c1 w1) as [[w2 c2] r2] eqn:Hc. pose proof (components_paired _ _ _ _ _ _ _ P1 Hc) as P2.
    destruct r2 as [[]|e]; [|injection X as _ <- _; exact P2]. apply (IH _ _ _ _ _ P2 X).
  Qed.

  Lemma context_paired manager ins par w w' c : new_context K E manager ins par w = (w', Ok c) -> ctx_paired c.
  Proof.
    unfold new_context. destruct (context_configs K E ins w) as [w1 [u|e]]; [|discriminate]. destruct par as [cfg|e]; [|discriminate].
    destruct (update_parameter_config _ cfg) as [[cfg' needed]|e]; [|discriminate]. destruct (manager cfg') as [st|e]; [|discriminate].
    destruct (context_likelihoods K E (in_llhs ins) (mk_context st [] needed) w1) as [[w2 c2] r] eqn:Hl. destruct r as [u2|e]; [|discriminate].
    intros H. injection H as _ <-. eapply likelihoods_paired; [|exact Hl]. constructor.
  Qed.

  Lemma paired_get a b : Forall2 paired a b -> forall n lc sim, get n a = Some lc -> get n b = Some sim -> paired (n, lc) (n, sim).
  Proof.
    induction 1 as [|[n1 c1] [n2 s2] a b [H1 H2] _ IH]; intros n lc sim Ha Hb; [discriminate Ha|]. cbn [fst snd] in *. subst n2. cbn [get] in Ha, Hb.
    destruct (String.eqb n n1) eqn:En; [|apply IH; assumption]. injection Ha as <-. injection Hb as <-. apply String.eqb_eq in En. subst n1. split; [reflexivity|exact H2].
  Qed.

  Lemma rows_events cols rows : cols <> [] -> rows_of cols = Ok rows -> events cols rows.
  Proof.
    intros Hne. unfold rows_of. destruct cols as [|c0 cs] eqn:Ec; [congruence|]. rewrite <- Ec. intros H. destruct (forallb _ cols) eqn:Hf in H; [|discriminate H].
    injection H as <-. rewrite forallb_forall in Hf. split.
    - intros c Hc. rewrite map_length, seq_length. apply Nat.eqb_eq, Hf, Hc.
    - intros i r Hr. rewrite nth_error_map in Hr. assert (Hi : i < List.length c0).
      { destruct (nth_error (seq 0 (List.length c0)) i) eqn:En; [|discriminate Hr]. pose proof (proj1 (nth_error_Some (seq 0 (List.length c0)) i) ltac:(congruence)) as X. rewrite seq_length in X. exact X. }
      rewrite (nth_error_nth' _ 0) in Hr by (rewrite seq_length; exact Hi). rewrite seq_nth in Hr by exact Hi. cbn [option_map plus] in Hr. injection Hr as <-.
      rewrite map_map. apply map_ext_in. intros c Hc. apply nth_error_nth'. rewrite (proj1 (Nat.eqb_eq _ _) (Hf c Hc)). exact Hi.
  Qed.

  Lemma rows_total cols n : (forall c, In c cols -> List.length c = n) -> exists rows, rows_of cols = Ok rows.
  Proof.
    intros H. unfold rows_of. destruct cols as [|c0 cs] eqn:Ec; [eexists; reflexivity|]. rewrite <- Ec in *.
    assert (Hf : forallb (fun c' => Nat.eqb (List.length c') (List.length c0)) cols = true).
    { apply forallb_forall. intros c Hc. apply Nat.eqb_eq. rewrite (H c Hc), (H c0); [reflexivity|rewrite Ec; left; reflexivity]. }
    rewrite Hf. eexists. reflexivity.
  Qed.

  (** Both use the same compiled function. *)
  Lemma construct_pair lname on bins cname k file wa wb lc sim hist :
    construct_component K E lname on bins cname k file wa = (wb, Ok (lc, sim)) -> l_kind lc = LSim hist ->
    exists cl cn, hist = sim_hist (e_row E) cn (sim_rows K E cl) /\ sim = sim_cols K E cl.
  Proof.
    unfold construct_component. destruct k as [ps nt eps|nt eps|].
    - destruct (register ps []) as [reg [u|e]]; [|discriminate]. destruct (build_component _ _ _ _ _ _ _ _ _) as [[w1 k1] [u1|e]]; [|discriminate].
      destruct (ModelComponent.k_simulate k1) as [cl|]; [|discriminate]. intros H Hk. injection H as _ <- <-. cbn [l_kind] in Hk. injection Hk as <-. eexists _, _. split; reflexivity.
    - destruct file as [[|]|]; try discriminate. destruct (load_data _ _ _ _) as [w1 [t|e]]; [|discriminate]. destruct (positions _ _) as [is|e]; [|discriminate].
      destruct (fixed_deduce _ _ _) as [h|e]; [|discriminate]. intros H Hk. injection H as _ <- <-. discriminate Hk.
    - discriminate.
  Qed.
  Lemma construct_fixed lname on bins cname k file wa wb lc sim hist :
    construct_component K E lname on bins cname k file wa = (wb, Ok (lc, sim)) -> l_kind lc = LFixed hist -> forall key b p, sim key b p = Err TypeError.
  Proof.
    unfold construct_component. destruct k as [ps nt eps|nt eps|].
    - destruct (register ps []) as [reg [u|e]]; [|discriminate]. destruct (build_component _ _ _ _ _ _ _ _ _) as [[w1 k1] [u1|e]]; [|discriminate].
      destruct (ModelComponent.k_simulate k1) as [cl|]; [|discriminate]. intros H Hk. injection H as _ <- <-. discriminate Hk.
    - destruct file as [[|]|]; try discriminate. destruct (load_data _ _ _ _) as [w1 [t|e]]; [|discriminate]. destruct (positions _ _) as [is|e]; [|discriminate].
      destruct (fixed_deduce _ _ _) as [h|e]; [|discriminate]. intros H Hk. injection H as _ <- <-. reflexivity.
    - discriminate.
  Qed.
End Pairs.
