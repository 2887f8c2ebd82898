(** Lemmas about what the parameters of a context can change. *)
From Coq Require Import Reals Lra Lia.
From Verif Require Import Base BaseFacts ModelFloat ModelHist ModelShare ModelConfig ModelComponent ModelCompile
  ModelParameter ModelLikelihood ModelBinning ModelLit ModelContext ModelWhole
  SpecHist SpecLikelihood SpecComponent SpecConfig SpecCompile SpecParameter SpecContext SpecWeighted SpecBinning SpecWhole SpecNeeded SpecFrame
  ProofWorkflow ProofComponent ProofSim ProofCompile ProofLikelihood ProofLikelihood2 ProofContext ProofBinning ProofWhole ProofNeeded ProofFit.
Local Open Scope string_scope.
Local Open Scope list_scope.

Section Frame.
  Context {K : Type}.
  Variable E : ModelWhole.env K.

  (** Runs of a program from environments that are the same up to the parameters. *)
  Definition same_env (N : string -> Prop) (e e' : dict (sval K)) : Prop :=
    forall x, match get x e, get x e' with
              | None, None => True
              | Some v, Some v' => same_arg N v v'
              | _, _ => False
              end.
  Definition same_result {A : Type} (R : A -> A -> Prop) (r r' : result A) : Prop :=
    match r, r' with Ok a, Ok b => R a b | Err e, Err e' => e = e' | _, _ => False end.

  Lemma same_arg_mono (N M : string -> Prop) (v v' : sval K) : (forall x, M x -> N x) -> same_arg N v v' -> same_arg M v v'.
  Proof. intros H [->|(p & p' & -> & -> & A)]; [left; reflexivity|]. right. exists p, p'. repeat split. intros z Hz. apply A, H, Hz. Qed.

  Lemma lookups_same (N : string -> Prop) (e e' : dict (sval K)) ns : same_env N e e' -> same_result (Forall2 (same_arg N)) (lookups (sval K) e ns) (lookups (sval K) e' ns).
  Proof.
    intros S. induction ns as [|x ns IH]; cbn [lookups]; [constructor|]. specialize (S x).
    destruct (get x e) as [v|], (get x e') as [v'|]; try contradiction; [|reflexivity].
    destruct (lookups (sval K) e ns) as [vs|er], (lookups (sval K) e' ns) as [vs'|er']; cbn in *; try contradiction; [|exact IH].
    constructor; assumption.
  Qed.
  Lemma set_same (N : string -> Prop) (e e' : dict (sval K)) x v : same_env N e e' -> same_env N (set x v e) (set x v e').
  Proof.
    intros S y. destruct (String.eqb x y) eqn:Exy.
    - apply String.eqb_eq in Exy. subst y. rewrite !get_set_eq. left. reflexivity.
    - apply String.eqb_neq in Exy. rewrite !get_set_neq by congruence. apply S.
  Qed.
  Lemma assign_same (N : string -> Prop) ns : forall (e e' : dict (sval K)) vs, same_env N e e' ->
    same_result (same_env N) (ModelComponent.assign (sval K) e ns vs) (ModelComponent.assign (sval K) e' ns vs).
  Proof.
    induction ns as [|x ns IH]; intros e e' [|v vs] S; cbn [ModelComponent.assign]; try reflexivity; [exact S|].
    apply IH, set_same, S.
  Qed.
  Lemma exec_same (N : string -> Prop) cs insts body : forall e e', reads_declared E cs ->
    (forall o n a i, In (o, n, a) body -> get n insts = Some i -> forall x, declared cs i x -> N x) ->
    same_env N e e' ->
    same_result (same_env N) (exec (sval K) (call_instance (sval K) (e_isem E) insts) e body)
                             (exec (sval K) (call_instance (sval K) (e_isem E) insts) e' body).
  Proof.
    induction body as [|[[o n] a] body IH]; intros e e' R D S; cbn [exec]; [exact S|].
    assert (X : same_result (same_env N) (exec1 (sval K) (call_instance (sval K) (e_isem E) insts) e (o, n, a))
                                         (exec1 (sval K) (call_instance (sval K) (e_isem E) insts) e' (o, n, a))).
    { unfold exec1. pose proof (lookups_same N e e' ("key" :: "parameters" :: a) S) as L.
      destruct (lookups (sval K) e _) as [vs|er], (lookups (sval K) e' _) as [vs'|er']; cbn in L; try contradiction; [|exact L].
      cbn [bind]. unfold call_instance. destruct (get n insts) as [i|] eqn:Hi; [|reflexivity].
      rewrite (R i vs vs').
      - destruct (e_isem E i vs') as [outs|er]; cbn [bind]; [|reflexivity]. apply assign_same, S.
      - clear - L D Hi. induction L as [|v v' l l' H L IH]; constructor; [|exact IH].
        eapply same_arg_mono; [|exact H]. exact (D o n a i (or_introl eq_refl) Hi). }
    destruct (exec1 _ _ e _) as [e1|er], (exec1 _ _ e' _) as [e1'|er']; cbn in X; try contradiction; [|exact X].
    cbn [bind]. apply IH; [exact R| |exact X]. intros o' n' a' i Hin. apply (D o' n' a' i). right. exact Hin.
  Qed.

  Lemma closure_same (N : string -> Prop) cs cl k b p p' : reads_declared E cs ->
    (forall o n a i, In (o, n, a) (pr_body (cl_prog cl)) -> get n (cl_insts cl) = Some i -> forall x, declared cs i x -> N x) ->
    agree N p p' ->
    same_result (fun r r' => same_arg N (fst r) (fst r') /\ Forall2 (same_arg N) (snd r) (snd r'))
      (run_closure (sval K) (e_isem E) cl (SKey k) (SBatch b) (SParams p))
      (run_closure (sval K) (e_isem E) cl (SKey k) (SBatch b) (SParams p')).
  Proof.
    intros R D A. unfold run_closure, run_prog. destruct (mem _ _); [reflexivity|].
    match goal with |- context [exec _ _ ?x _] => set (e0 := x) end.
    match goal with |- same_result _ _ (bind (exec _ _ ?x _) _) => set (e0' := x) end.
    assert (S : same_env N e0 e0').
    { intros x. unfold e0, e0'. cbn [get]. destruct (String.eqb x "key"); [left; reflexivity|].
      destruct (String.eqb x _); [left; reflexivity|]. destruct (String.eqb x "parameters"); [|exact I].
      right. exists p, p'. auto. }
    pose proof (exec_same N cs (cl_insts cl) (pr_body (cl_prog cl)) e0 e0' R D S) as X.
    destruct (exec _ _ e0 _) as [e|er], (exec _ _ e0' _) as [e'|er']; cbn in X; try contradiction; [|exact X].
    cbn [bind]. pose proof (lookups_same N e e' ("key" :: pr_return (cl_prog cl)) X) as L.
    destruct (lookups (sval K) e _) as [vs|er], (lookups (sval K) e' _) as [vs'|er']; cbn in L; try contradiction; [|exact L].
    destruct L as [|v v' l l' Hv L]; [reflexivity|]. cbn. auto.
  Qed.

  Lemma arrays_same (N : string -> Prop) (vs vs' : list (sval K)) : Forall2 (same_arg N) vs vs' -> arrays K vs = arrays K vs'.
  Proof.
    intros H. induction H as [|v v' l l' Hv H IH]; [reflexivity|]. cbn [arrays].
    destruct Hv as [->|(p & p' & -> & -> & _)]; [|reflexivity]. rewrite IH. reflexivity.
  Qed.
  Lemma sim_rows_same (N : string -> Prop) cs cl k b p p' : reads_declared E cs ->
    (forall o n a i, In (o, n, a) (pr_body (cl_prog cl)) -> get n (cl_insts cl) = Some i -> forall x, declared cs i x -> N x) ->
    agree N p p' -> sim_rows K E cl k b p = sim_rows K E cl k b p' /\ sim_cols K E cl k b p = sim_cols K E cl k b p'.
  Proof.
    intros R D A. unfold sim_rows, sim_cols. pose proof (closure_same N cs cl k b p p' R D A) as X.
    destruct (run_closure _ _ _ _ _ (SParams p)) as [[v vs]|e], (run_closure _ _ _ _ _ (SParams p')) as [[v' vs']|e']; cbn in X; try contradiction.
    - destruct X as [[->|(q & q' & -> & -> & _)] X2]; [|split; reflexivity]. rewrite (arrays_same N vs vs' X2). split; reflexivity.
    - subst e'. split; reflexivity.
  Qed.

  (** A component as constructed. *)
  Lemma component_same cs lname on b cname k file wa wb lc sim p p' key batch : reads_declared E cs ->
    (forall ps nt ae, k = ClsSim ps nt ae -> unique_names (registry_after [ps]) /\
       forall d q, get d (registry_after [ps]) = Some q -> e_plugins E (p_name q) = Some q) ->
    construct_component K E lname on b cname k file wa = (wb, Ok (lc, sim)) ->
    agree (comp_needs cs lname on cname k) p p' ->
    match l_kind lc with
    | LSim f => f key batch p = f key batch p'
    | LFixed f => f p = f p'
    | LOther => True
    end /\ sim key batch p = sim key batch p'.
  Proof.
    intros R Hk H A. unfold construct_component in H. destruct k as [ps nt ae|nt ae|]; [| |discriminate].
    - destruct (register ps []) as [reg [u|e]] eqn:Hr; [|discriminate].
      pose proof (registry_after_one _ _ _ Hr) as Hreg. destruct (Hk ps nt ae eq_refl) as [Hu Hp].
      match type of H with context [build_component ?a ?bb ?c ?d ?ee ?f ?g ?h ?i] =>
        destruct (build_component a bb c d ee f g h i) as [[w1 k'] [u'|e]] eqn:Hb end; [|discriminate].
      destruct u'. destruct (k_simulate k') as [cl|] eqn:Hcl; [|discriminate]. injection H as <- <- <-.
      match type of Hb with build_component _ _ _ _ _ _ _ ?h _ = _ => set (kk := h) in * end.
      assert (Hu' : unique_names (k_registry kk)) by (cbn; rewrite Hreg; exact Hu).
      destruct (compiled_instances _ _ _ _ _ _ _ _ _ _ _ Hu' Hb) as (pr & cl' & Hcode & Hsim & Hpr & Hinst).
      assert (cl' = cl) by congruence. subst cl'.
      destruct (build_component_ok _ _ _ _ _ _ _ _ _ _ _ Hb) as (deps & wx & k1 & insts & w2 & Hd & Hdd & Hrest). cbn zeta in Hrest.
      destruct Hrest as (_ & Hs2 & _).
      assert (Hbody : pr_body (cl_prog cl) = body_of cname (selected deps)).
      { rewrite Hcl in Hs2. injection Hs2 as ->. cbn [cl_prog]. rewrite gen_body. reflexivity. }
      clear Hs2. unfold kk in *. cbn [k_registry k_name k_llh] in *. clear kk.
      assert (D : forall o n a i, In (o, n, a) (pr_body (cl_prog cl)) ->
                get n (cl_insts cl) = Some i -> forall x, declared cs i x -> comp_needs cs lname on cname (ClsSim ps nt ae) x).
      { intros o n a i Hin Hi x Hx. rewrite Hbody in Hin. unfold body_of in Hin. apply in_map_iff in Hin.
        destruct Hin as (q & Eq & Hq). injection Eq as _ <- _. apply (used_selected _ _ _ _ _ Hu' Hdd) in Hq. destruct Hq as (d & Hd1 & Hd2).
        destruct (Hinst d q Hd1 Hd2) as (i' & I1 & I2 & I3). assert (Ei : Some i' = Some i) by (rewrite <- I1, <- Hi; reflexivity). injection Ei as ->.
        rewrite (Hp d q) in I2 by (rewrite <- Hreg; exact Hd2). injection I2 as I2. right. exists d, q.
        split; [|split; [rewrite <- Hreg; exact Hd2|]].
        { rewrite <- Hreg. eapply reach_same; [|exact Hd1]. intros y. symmetry. apply outputs_same. }
        destruct Hx as [Hx|(ln & m & cf & Hl & Hc & Hq)]; [left; rewrite I2; exact Hx|]. right. exists m, cf.
        rewrite I2. split; [exact Hc|]. rewrite I3 in Hl. injection Hl as <-. exact Hq. }
      destruct (sim_rows_same _ cs _ key batch p p' R D A) as [S1 S2]. cbn [l_kind]. split; [|exact S2].
      unfold sim_hist. rewrite S1. cbn [n_rate n_norm n_mcinput].
      assert (G : forall h n, get_normalization nt (cname ++ "_rate") n h p batch = get_normalization nt (cname ++ "_rate") n h p' batch).
      { intros h n. unfold get_normalization. rewrite (A (cname ++ "_rate")%string (or_introl eq_refl)). reflexivity. }
      destruct (sim_rows K E _ key batch p') as [[key' rows]|e]; [|reflexivity]. destruct (split_rows _ rows) as [mc eff].
      destruct (forallb _ mc); [|reflexivity]. destruct (implement_binning _ _ _ mc eff) as [h|e]; [|reflexivity]. rewrite G. reflexivity.
    - destruct file as [[|ch fname]|]; try discriminate. destruct (load_data K E (String ch fname) wa) as [w1 [t|e]]; [|discriminate].
      destruct (positions on (t_columns t)) as [is|e]; [|discriminate].
      destruct (fixed_deduce _ _ _) as [h|e] eqn:Hf; [|discriminate]. injection H as <- <- <-. cbn [l_kind]. split; [|reflexivity].
      unfold fixed_hist. rewrite Hf. cbn [n_rate n_norm]. unfold get_normalization.
      rewrite (A (cname ++ "_rate")%string (or_introl eq_refl)). reflexivity.
  Qed.

  (** Aliases. *)
  Lemma alias_value_none {V} al (p : dict V) x : ~ In x (targets al) -> alias_value al p x = None.
  Proof.
    induction al as [|[k t] al IH]; [reflexivity|]. cbn [alias_value targets map snd]. intros H.
    rewrite IH by (intros C; apply H; right; exact C). destruct (String.eqb t x) eqn:Et; [|reflexivity].
    apply String.eqb_eq in Et. exfalso. apply H. left. exact Et.
  Qed.
  Lemma alias_agree (N : string -> Prop) al (p p' : params) : NoDup (keys p) -> NoDup (keys p') -> NoDup (keys al) -> separate al ->
    NoDup (targets al) -> agree (fun z => exists x, N x /\ given_as al x z) p p' ->
    (forall x z, N x -> given_as al x z -> In z (keys p)) ->
    agree N (replace_alias al p) (replace_alias al p').
  Proof.
    intros Hp Hp' Ha Hs Ht A P x Hx. rewrite !replace_alias_get by assumption. destruct (mem x (keys al)); [reflexivity|].
    destruct (in_dec string_dec x (targets al)) as [Hi|Hi].
    - unfold targets in Hi. apply in_map_iff in Hi. destruct Hi as ([z t] & Et & Hi). cbn [snd] in Et. subst t.
      rewrite !(alias_value_distinct al _ z x Ht Hi). assert (G : given_as al x z) by (right; exact Hi).
      rewrite (A z (ex_intro _ x (conj Hx G))). specialize (P x z Hx G). apply get_In_keys in P. destruct P as [v Hv].
      rewrite (A z (ex_intro _ x (conj Hx G))) in Hv. rewrite Hv. reflexivity.
    - rewrite !alias_value_none by exact Hi. apply A. exists x. split; [exact Hx|]. left. auto.
  Qed.

  Lemma sum_same (comps : dict (lcomp K)) batch p p' :
    (forall n lc, In (n, lc) comps -> forall key, match l_kind lc with
       | LSim f => f key batch p = f key batch p' | LFixed f => f p = f p' | LOther => True end) ->
    forall key h, sum_components comps key batch p h = sum_components comps key batch p' h.
  Proof.
    induction comps as [|[n lc] comps IH]; intros H key h; cbn [sum_components]; [reflexivity|].
    pose proof (H n lc (or_introl eq_refl) key) as Hl.
    destruct (l_kind lc) as [f|f|]; [rewrite Hl|rewrite Hl|]; cbn zeta.
    - destruct (f key batch p') as [[key' x]|e]; [|reflexivity]. destruct (iadd h x); [|reflexivity]. apply IH. intros m l Hm. apply (H m l). right. exact Hm.
    - destruct (f p') as [x|e]; [|reflexivity]. destruct (iadd h x); [|reflexivity]. apply IH. intros m l Hm. apply (H m l). right. exact Hm.
    - reflexivity.
  Qed.

  Lemma Forall2_right {A B} (R : A -> B -> Prop) l l' y : Forall2 R l l' -> In y l' -> exists x, In x l /\ R x y.
  Proof. intros H. induction H as [|a b l l' Hr H IH]; [intros []|]. intros [<-|Hy]; [exists a; split; [left; reflexivity|exact Hr]|]. destruct (IH Hy) as (x & Hx & Hr'). exists x. split; [right; exact Hx|exact Hr']. Qed.

  (** A likelihood. *)
  Lemma likelihood_same cs w1 lname li L p p' key batch : reads_declared E cs ->
    plain_llh E li -> NoDup (keys (li_alias li)) -> published_llh E li ->
    made_llh E w1 (lname, li) (lname, L) -> NoDup (keys p) -> NoDup (keys p') ->
    agree (fun z => exists x, llh_needs E cs lname li x /\ given_as (li_alias li) x z) p p' ->
    (forall x z, llh_needs E cs lname li x -> given_as (li_alias li) x z -> In z (keys p)) ->
    wl_log_likelihood L key batch p = wl_log_likelihood L key batch p'.
  Proof.
    intros R (Hs & Ht & Hu) Hal Hpub (_ & (wa & wb & _ & Hmk) & _ & HA & HC & HS) Hp Hp' A P. cbn [fst snd] in *.
    pose proof (alias_agree _ _ p p' Hp Hp' Hal Hs Ht A P) as A2.
    assert (C : forall ci k wa wb lc sim key batch, In ci (li_components li) -> e_classes E (fst (snd ci)) = Some k ->
      construct_component K E lname (m_on (wl_type L)) (m_bins (wl_type L)) (fst ci) k (snd (snd ci)) wa = (wb, Ok (lc, sim)) ->
      match l_kind lc with
      | LSim f => f key batch (replace_alias (li_alias li) p) = f key batch (replace_alias (li_alias li) p')
      | LFixed f => f (replace_alias (li_alias li) p) = f (replace_alias (li_alias li) p') | LOther => True
      end /\ sim key batch (replace_alias (li_alias li) p) = sim key batch (replace_alias (li_alias li) p')).
    { intros [cname [cls file]] k wa' wb' lc sim ky bt Hi Hk Hc. cbn [fst snd] in *.
      apply (component_same cs lname (m_on (wl_type L)) (m_bins (wl_type L)) cname k file wa' wb' lc sim _ _ ky bt R); [|exact Hc|].
      - intros ps nt ae ->. split; [eapply Hu; eassumption|]. intros d q Hq. eapply Hpub; eassumption.
      - intros x Hx. apply A2. exists (m_on (wl_type L)), cname, cls, file, k. split; [apply (make_on E _ _ _ _ Hmk); reflexivity|]. auto. }
    unfold wl_log_likelihood. destruct (wl_type L) as [lk|on l] eqn:HT.
    - unfold get_log_likelihood, simulate_model_hist. rewrite HA, !replace_alias_idem by assumption.
      rewrite (sum_same _ batch (replace_alias (li_alias li) p) (replace_alias (li_alias li) p')); [reflexivity|].
      intros n lc Hin ky. destruct (Forall2_right _ _ _ _ HC Hin) as (ci & Hci & Hn & k & wa' & wb' & sim & Hk & _ & Hc). cbn [fst snd] in *.
      apply (C ci k wa' wb' lc sim ky batch Hci Hk Hc).
    - unfold lit_log_likelihood, simulate_yields. rewrite HA, !replace_alias_idem by assumption.
      destruct (wl_sims L) as [|[n sim] [|? ?]] eqn:Hsm; try reflexivity.
      destruct (Forall2_right _ _ _ (n, sim) HS (or_introl eq_refl)) as (ci & Hci & Hn & k & wa' & wb' & lc & Hk & _ & Hc). cbn [fst snd] in *.
      destruct (C ci k wa' wb' lc sim key 1 Hci Hk Hc) as [_ ->]. reflexivity.
  Qed.

  Lemma loop_same (ls : dict (llh_fun K)) batch p p' : (forall n f, In (n, f) ls -> forall k, f k batch p = f k batch p') ->
    forall k acc, snd (llh_loop K ls k batch p acc) = snd (llh_loop K ls k batch p' acc).
  Proof.
    induction ls as [|[n f] ls IH]; intros H k acc; cbn [llh_loop]; [reflexivity|]. rewrite (H n f (or_introl eq_refl) k).
    destruct (f k batch p') as [[k' x]|e]; [|reflexivity]. specialize (IH (fun m g Hm => H m g (or_intror Hm)) k' (fadd acc x)).
    destruct (llh_loop K ls k' batch p (fadd acc x)), (llh_loop K ls k' batch p' (fadd acc x)). exact IH.
  Qed.
  Lemma repeats_same (ls : dict (llh_fun K)) batch p p' fresh a b : (forall n f, In (n, f) ls -> forall k, f k batch p = f k batch p') ->
    forall t j, exists r : result (list fl),
      snd (repeat_once K ls a fresh batch p t j) = bind r (fun ss => Ok (map (fun s => fadd s a) ss)) /\
      snd (repeat_once K ls b fresh batch p' t j) = bind r (fun ss => Ok (map (fun s => fadd s b) ss)) /\
      forall ss, r = Ok ss -> List.length ss = t.
  Proof.
    intros H. induction t as [|t IH]; intros j; cbn [repeat_once].
    - exists (Ok []). repeat split. intros ss Q. injection Q as <-. reflexivity.
    - unfold posterior_once. pose proof (loop_same ls batch p p' H (fresh j) (Fin 0)) as Q.
      destruct (llh_loop K ls (fresh j) batch p (Fin 0)) as [c1 r1], (llh_loop K ls (fresh j) batch p' (Fin 0)) as [c2 r2]. cbn [snd] in Q. subst r2.
      destruct r1 as [s|e]; [|exists (Err e); repeat split; discriminate]. cbn [bind]. destruct (IH (S j)) as (r & I1 & I2 & I3).
      destruct (repeat_once K ls a fresh batch p t (S j)) as [d1 q1], (repeat_once K ls b fresh batch p' t (S j)) as [d2 q2]. cbn [snd] in *. subst q1 q2.
      destruct r as [ss|e]; [|exists (Err e); repeat split; discriminate]. exists (Ok (s :: ss)). repeat split. intros ss' Q. injection Q as <-. cbn. rewrite (I3 ss eq_refl). reflexivity.
  Qed.

  Lemma posterior_same (ls : dict (llh_fun K)) sigmas fresh st pars pars' batch times st1 cs1 r1 st2 cs2 r2 a b :
    NoDup (keys pars) -> NoDup (keys pars') ->
    (forall n, In n (keys pars) -> In n (keys (p_values st))) -> (forall n, In n (keys pars') -> In n (keys (p_values st))) ->
    log_posterior K sigmas ls fresh st pars batch times = (st1, cs1, r1) ->
    log_posterior K sigmas ls fresh st pars' batch times = (st2, cs2, r2) ->
    log_prior sigmas st1 = Ok (Fin a) -> log_prior sigmas st2 = Ok (Fin b) ->
    (forall n f, In (n, f) ls -> forall k, f k batch (p_values st1) = f k batch (p_values st2)) ->
    exists r, r1 = bind r (fun s => Ok (fadd s (Fin a), Fin a)) /\ r2 = bind r (fun s => Ok (fadd s (Fin b), Fin b)).
  Proof.
    intros N1 N2 K1 K2 H1 H2 P1 P2 S. destruct (posterior_overwritten _ _ _ _ _ _ _ _ _ _ N1 K1 H1) as [_ Q1].
    destruct (posterior_overwritten _ _ _ _ _ _ _ _ _ _ N2 K2 H2) as [_ Q2]. rewrite P1 in Q1. rewrite P2 in Q2. cbn [is_fin] in *.
    destruct (Nat.ltb 1 times) eqn:T.
    - destruct (repeats_same ls batch (p_values st1) (p_values st2) fresh (Fin a) (Fin b) S times 0) as (r & R1 & R2 & R3).
      destruct (repeat_once K ls (Fin a) fresh batch (p_values st1) times 0) as [d1 q1], (repeat_once K ls (Fin b) fresh batch (p_values st2) times 0) as [d2 q2].
      cbn [snd] in *. injection Q1 as _ ->. injection Q2 as _ ->. subst q1 q2.
      destruct r as [ss|e]; [|exists (Err e); auto]. exists (Ok (fmean ss)). cbn [bind].
      assert (ss <> []) by (specialize (R3 ss eq_refl); apply Nat.ltb_lt in T; destruct ss; [cbn in R3; lia|discriminate]).
      rewrite !fmean_add_const by assumption. auto.
    - unfold posterior_once in *. pose proof (loop_same ls batch _ _ S (fresh 0) (Fin 0)) as Q.
      destruct (llh_loop K ls (fresh 0) batch (p_values st1) (Fin 0)) as [d1 q1], (llh_loop K ls (fresh 0) batch (p_values st2) (Fin 0)) as [d2 q2].
      cbn [snd] in Q. subst q2. injection Q1 as _ ->. injection Q2 as _ ->. exists q1. destruct q1; auto.
  Qed.
End Frame.

(** The prior. *)
Lemma loop_terms sigmas cfg v names : forall s a, log_prior_loop sigmas cfg v names (Fin s) = Ok (Fin a) ->
  exists ts, Forall2 (fun n t => exists x c, get n v = Some x /\ get n cfg = Some c /\ prior_term sigmas c x = Ok (Fin t)) names ts /\
    (a = s + fold_right Rplus 0 ts)%R.
Proof.
  induction names as [|n names IH]; intros s a H; cbn [log_prior_loop] in H.
  - injection H as <-. exists []. split; [constructor|]. cbn. ring.
  - unfold key in H. destruct (get n v) as [x|] eqn:Gx; [|discriminate]. destruct (get n cfg) as [c|] eqn:Gc; [|discriminate]. cbn [bind] in H.
    destruct (prior_term sigmas c x) as [t|e] eqn:Pt; [|discriminate]. cbn [bind] in H.
    assert (Ft : exists r, t = Fin r).
    { destruct (ProofFit.loop_Fin _ _ _ _ _ _ H) as [[r Hr] _]. apply ProofFit.fadd_Fin_inv in Hr. apply Hr. }
    destruct Ft as [r ->]. destruct (IH (s + r)%R a H) as (ts & HF & ->). exists (r :: ts). split; [constructor; [|exact HF]; eauto|]. cbn. ring.
Qed.
Lemma terms_differ sigmas cfg v v' z names : forall ts ts', NoDup names -> (forall x, x <> z -> get x v = get x v') ->
  Forall2 (fun n t => exists x c, get n v = Some x /\ get n cfg = Some c /\ prior_term sigmas c x = Ok (Fin t)) names ts ->
  Forall2 (fun n t => exists x c, get n v' = Some x /\ get n cfg = Some c /\ prior_term sigmas c x = Ok (Fin t)) names ts' ->
  (~ In z names -> ts = ts') /\
  (In z names -> exists x x' c t t', get z v = Some x /\ get z v' = Some x' /\ get z cfg = Some c /\ prior_term sigmas c x = Ok (Fin t) /\
     prior_term sigmas c x' = Ok (Fin t') /\ (fold_right Rplus 0 ts' - fold_right Rplus 0 ts = t' - t)%R).
Proof.
  induction names as [|n names IH]; intros ts ts' Hn Hv H H'; inversion H as [|? t0 ? ts0 H1 H2]; subst; inversion H' as [|? t0' ? ts0' H1' H2']; subst.
  - split; [reflexivity|intros []].
  - inversion Hn as [|? ? Hni Hnd]; subst. destruct (IH ts0 ts0' Hnd Hv H2 H2') as [I1 I2].
    destruct H1 as (x & c & G1 & G2 & G3), H1' as (x' & c' & G1' & G2' & G3'). rewrite G2 in G2'. injection G2' as <-.
    destruct (string_dec n z) as [->|Nz].
    + split; [intros C; exfalso; apply C; left; reflexivity|]. intros _. exists x, x', c, t0, t0'. repeat split; try assumption.
      rewrite (I1 Hni). cbn. ring.
    + assert (t0 = t0') by (rewrite (Hv n Nz), G1' in G1; congruence). subst t0'. split.
      * intros C. rewrite I1; [reflexivity|]. intros D. apply C. right. exact D.
      * intros [->|Hz]; [contradiction|]. destruct (I2 Hz) as (y & y' & d & t & t' & Q1 & Q2 & Q3 & Q4 & Q5 & Q6).
        exists y, y', d, t, t'. repeat split; try assumption. cbn. lra.
Qed.
