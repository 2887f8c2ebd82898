(** Lemmas about the dependence of a likelihood on the rates. *)
From Coq Require Import Reals Lra Lia.
From Verif Require Import Base BaseFacts ModelFloat ModelHist ModelShare ModelConfig ModelComponent ModelCompile
  ModelParameter ModelLikelihood ModelBinning ModelLit ModelContext ModelWhole
  SpecHist SpecLikelihood SpecComponent SpecConfig SpecCompile SpecParameter SpecContext SpecWeighted SpecBinning SpecWhole SpecNeeded SpecFrame SpecRate
  ProofFloat ProofWorkflow ProofComponent ProofSim ProofCompile ProofLikelihood ProofLikelihood2 ProofLikelihood3 ProofContext ProofBinning ProofWhole ProofNeeded ProofFrame.
Local Open Scope string_scope.
Local Open Scope list_scope.
Local Open Scope R_scope.

Definition fin (x : fl) : Prop := exists r, x = Fin r.

Lemma fmul_fin a b : fin (fmul a b) -> fin a /\ fin b.
Proof.
  intros [r H]. destruct a, b; try (split; eexists; reflexivity); unfold fmul, inf_times, fneg in H;
    try discriminate H; match type of H with context [total_order_T ?x 0] => destruct (total_order_T x 0) as [[|]|] end; discriminate H.
Qed.

(** [h2] is [t] times [h] plus [s] times [h1]. *)
Inductive lin (t s : R) : list fl -> list fl -> list fl -> Prop :=
| lin_nil : lin t s [] [] []
| lin_cons a b h h1 h2 : lin t s h h1 h2 -> lin t s (Fin a :: h) (Fin b :: h1) (Fin (t * a + s * b) :: h2).

Lemma lin_lengths t s h h1 h2 : lin t s h h1 h2 -> List.length h1 = List.length h /\ List.length h2 = List.length h.
Proof. intros H. induction H as [|a b h h1 h2 H [I1 I2]]; cbn; [auto|]. split; congruence. Qed.

Lemma lin_scale t s c r r1 raw : Forall fin (scale (fmul c (Fin r)) raw) -> Forall fin (scale (fmul c (Fin r1)) raw) ->
  lin t s (scale (fmul c (Fin r)) raw) (scale (fmul c (Fin r1)) raw) (scale (fmul c (Fin (t * r + s * r1))) raw).
Proof.
  induction raw as [|x raw IH]; cbn [scale map]; intros H H1; [constructor|].
  inversion H as [|? ? A B]; subst. inversion H1 as [|? ? A1 B1]; subst.
  apply fmul_fin in A. destruct A as [[x0 ->] A]. apply fmul_fin in A. destruct A as [[c0 ->] _].
  rewrite !fmul_Fin. replace (x0 * (c0 * (t * r + s * r1))) with (t * (x0 * (c0 * r)) + s * (x0 * (c0 * r1))) by ring.
  constructor. apply IH; assumption.
Qed.

Lemma iadd_fin h x h' : iadd h x = Ok h' -> Forall fin h' -> Forall fin h /\ Forall fin x.
Proof.
  unfold iadd. destruct (Nat.eqb _ _) eqn:E; [|discriminate]. intros H. injection H as <-. apply Nat.eqb_eq in E.
  revert x E. induction h as [|a h IH]; intros [|y x] E; try discriminate; [auto|]. cbn. intros F. inversion F as [|? ? [r A] B]; subst.
  apply ProofFloat.fadd_Fin_inv in A. destruct A as (u & v & -> & -> & _). injection E as E. destruct (IH x E B).
  split; constructor; try assumption; eexists; reflexivity.
Qed.
Lemma iadd_lin t s h h1 h2 x x1 x2 y y1 : lin t s h h1 h2 -> lin t s x x1 x2 -> iadd h x = Ok y -> iadd h1 x1 = Ok y1 ->
  exists y2, iadd h2 x2 = Ok y2 /\ lin t s y y1 y2.
Proof.
  intros A B. pose proof (lin_lengths _ _ _ _ _ A) as [A1 A2]. pose proof (lin_lengths _ _ _ _ _ B) as [B1 B2].
  unfold iadd. rewrite A1, A2, B1, B2. destruct (Nat.eqb _ _) eqn:E; [|discriminate]. intros H H1. injection H as <-. injection H1 as <-.
  eexists. split; [reflexivity|]. apply Nat.eqb_eq in E. clear A1 A2 B1 B2. revert x x1 x2 B E.
  induction A as [|a b h h1 h2 A IH]; intros x x1 x2 B E; destruct B as [|c d x x1 x2 B]; try discriminate; [constructor|].
  cbn [combine map fst snd]. rewrite !fadd_Fin. replace (t * a + s * b + (t * c + s * d)) with (t * (a + c) + s * (b + d)) by ring.
  constructor. apply IH; [exact B|]. injection E as E. exact E.
Qed.

Section Rate.
  Variable oor : list (list fl) -> nat -> list fl.
  Context {K : Type}.

  Definition outcome (c : lcomp K) (key : K) (b : nat) (p : params) : result (K * list fl) :=
    match l_kind c with
    | LSim f => f key b p
    | LFixed f => match f p with Ok x => Ok (key, x) | Err e => Err e end
    | LOther => Err TypeError
    end.

  (** Every component is a rate times a shape. *)
  Lemma norm_shape nt rn mc h b : (exists e, forall p r, get rn p = Some (Fin r) -> get_normalization nt rn mc h p b = Err e) \/
    exists c, forall p r, get rn p = Some (Fin r) -> get_normalization nt rn mc h p b = Ok (fmul c (Fin r)).
  Proof.
    destruct nt; cbn [get_normalization].
    - right. exists (fdiv (Fin 1) (fsum h)). intros p r ->. reflexivity.
    - destruct mc as [m|e]; [|left; exists e; reflexivity]. right. eexists. intros p r ->. reflexivity.
    - left. exists ValueError. reflexivity.
  Qed.
  Lemma shape cs b nc key p0 : rate_blind oor cs b nc ->
    (exists e, forall p r, off_rates cs p0 p -> get (fst nc ++ "_rate")%string p = Some (Fin r) -> outcome (snd nc) key b p = Err e) \/
    exists key' c raw, forall p r, off_rates cs p0 p -> get (fst nc ++ "_rate")%string p = Some (Fin r) ->
      outcome (snd nc) key b p = Ok (key', scale (fmul c (Fin r)) raw).
  Proof.
    intros H. destruct H as [name needed c sim Hr Hb|name needed c data Hr]; cbn [fst snd l_kind outcome].
    - unfold outcome, sim_hist. cbn [l_kind]. destruct (sim key b p0) as [[key' rows]|e] eqn:Hs.
      2:{ left. exists e. intros p r Ho _. rewrite <- (Hb key p0 p Ho), Hs. reflexivity. }
      destruct (split_rows (n_no_eff c) rows) as [mc eff] eqn:Hsp.
      destruct (forallb (fun r => Nat.eqb (List.length r) (ndim (n_bins c))) mc) eqn:Hf.
      2:{ left. exists AssertionError. intros p r Ho _. rewrite <- (Hb key p0 p Ho), Hs, Hsp, Hf. reflexivity. }
      destruct (implement_binning oor (n_add_eps c) (n_bins c) mc eff) as [h|e] eqn:Hi.
      2:{ left. exists e. intros p r Ho _. rewrite <- (Hb key p0 p Ho), Hs, Hsp, Hf, Hi. reflexivity. }
      destruct (norm_shape (n_norm c) (n_rate c) (n_mcinput c) h b) as [[e He]|[c0 Hc]].
      + left. exists e. intros p r Ho Hg. rewrite <- (Hb key p0 p Ho), Hs, Hsp, Hf, Hi. rewrite <- Hr in Hg. rewrite (He p r Hg). reflexivity.
      + right. exists key', c0, h. intros p r Ho Hg. rewrite <- (Hb key p0 p Ho), Hs, Hsp, Hf, Hi. rewrite <- Hr in Hg. rewrite (Hc p r Hg). reflexivity.
    - unfold outcome, fixed_hist. cbn [l_kind]. destruct (fixed_deduce oor c data) as [h|e]; [|left; exists e; reflexivity].
      destruct (norm_shape (n_norm c) (n_rate c) (Err AttributeError) h (List.length data)) as [[e He]|[c0 Hc]].
      + left. exists e. intros p r _ Hg. rewrite <- Hr in Hg. rewrite (He p r Hg). reflexivity.
      + right. exists key, c0, h. intros p r _ Hg. rewrite <- Hr in Hg. rewrite (Hc p r Hg). reflexivity.
  Qed.

  Lemma sum_fin comps : forall key b p h key' H, @sum_components K comps key b p h = Ok (key', H) -> Forall fin H -> Forall fin h.
  Proof.
    induction comps as [|[n c] comps IH]; intros key b p h key' H E F; cbn [sum_components] in E.
    - injection E as _ <-. exact F.
    - cbv zeta in E. fold (outcome c key b p) in E. destruct (outcome c key b p) as [[k1 x]|e]; [|discriminate].
      destruct (iadd h x) as [h'|e] eqn:Ei; [|discriminate]. pose proof (IH _ _ _ _ _ _ E F) as F'. apply (iadd_fin _ _ _ Ei F').
  Qed.

  Lemma sum_lin (cs : dict (lcomp K)) b t s p p1 p2 : combined cs t s p p1 p2 -> forall comps : dict (lcomp K), incl comps cs -> Forall (rate_blind oor cs b) comps ->
    forall key h h1 h2 k' H k1' H1, lin t s h h1 h2 ->
    sum_components comps key b p h = Ok (k', H) -> Forall fin H -> sum_components comps key b p1 h1 = Ok (k1', H1) -> Forall fin H1 ->
    k1' = k' /\ exists H2, sum_components comps key b p2 h2 = Ok (k', H2) /\ lin t s H H1 H2.
  Proof.
    intros (O1 & O2 & Hc). induction comps as [|[n c] comps IH]; intros Hi Hb key h h1 h2 k' H k1' H1 HL E F E1 F1; cbn [sum_components] in E, E1.
    - injection E as <- <-. injection E1 as <- <-. split; [reflexivity|]. exists h2. auto.
    - cbv zeta in E, E1. fold (outcome c key b p) in E. fold (outcome c key b p1) in E1. cbn [sum_components]. cbv zeta. fold (outcome c key b p2).
      inversion Hb as [|? ? Hb1 Hb2]; subst.
      assert (Hn : In (n ++ "_rate")%string (rate_names cs)).
      { unfold rate_names. apply in_map_iff. exists (n, c). split; [reflexivity|]. apply Hi. left. reflexivity. }
      destruct (Hc _ Hn) as (r & r1 & G & G1 & G2).
      assert (O : off_rates cs p p) by (intros z _; reflexivity).
      destruct (shape cs b (n, c) key p Hb1) as [[e He]|(kx & c0 & raw & Hs)]; cbn [fst snd] in *.
      + rewrite (He p r O G) in E. discriminate.
      + rewrite (Hs p r O G) in E. rewrite (Hs p1 r1 O1 G1) in E1. rewrite (Hs p2 _ O2 G2).
        destruct (iadd h (scale (fmul c0 (Fin r)) raw)) as [y|e] eqn:Ei; [|discriminate].
        destruct (iadd h1 (scale (fmul c0 (Fin r1)) raw)) as [y1|e] eqn:Ei1; [|discriminate].
        pose proof (sum_fin _ _ _ _ _ _ _ E F) as Fy. pose proof (sum_fin _ _ _ _ _ _ _ E1 F1) as Fy1.
        destruct (iadd_fin _ _ _ Ei Fy) as [_ Fx]. destruct (iadd_fin _ _ _ Ei1 Fy1) as [_ Fx1].
        destruct (iadd_lin t s _ _ _ _ _ _ _ _ HL (lin_scale t s c0 r r1 raw Fx Fx1) Ei Ei1) as (y2 & Ei2 & HL2).
        rewrite Ei2. apply (IH (fun z Hz => Hi z (or_intror Hz)) Hb2 kx y y1 y2 k' H k1' H1 HL2 E F E1 F1).
  Qed.

  Lemma lin_zero t s (ds : list fl) : lin t s (map (fun _ => Fin 0) ds) (map (fun _ => Fin 0) ds) (map (fun _ => Fin 0) ds).
  Proof. induction ds as [|d ds IH]; cbn; [constructor|]. replace (Fin 0) with (Fin (t * 0 + s * 0)) at 3 by (f_equal; ring). constructor. exact IH. Qed.

  Lemma lin_Fin t s H2 : forall ms ms1, lin t s (map Fin ms) (map Fin ms1) H2 ->
    H2 = map Fin (map (fun mm => t * fst mm + s * snd mm) (combine ms ms1)) /\ List.length ms1 = List.length ms.
  Proof.
    induction H2 as [|x H2 IH]; intros [|m ms] [|m1 ms1] H; inversion H; subst; [auto|].
    destruct (IH ms ms1 ltac:(assumption)) as [-> L]. split; [reflexivity|]. cbn. rewrite L. reflexivity.
  Qed.
End Rate.

Lemma ln_concave a b t : 0 < a -> 0 < b -> 0 <= t <= 1 -> t * ln a + (1 - t) * ln b <= ln (t * a + (1 - t) * b).
Proof.
  intros Ha Hb Ht. set (m := t * a + (1 - t) * b). assert (Hm : 0 < m) by (unfold m; destruct (Rle_lt_dec t (1 / 2)); nra).
  assert (T : forall x, 0 < x -> ln x <= ln m + (x / m - 1)).
  { intros x Hx. replace (ln x) with (ln m + ln (x / m)) by (rewrite <- ln_mult by (try apply Rdiv_lt_0_compat; assumption); f_equal; field; lra).
    pose proof (ln_le_sub (x / m) ltac:(apply Rdiv_lt_0_compat; assumption)). lra. }
  pose proof (T a Ha) as A. pose proof (T b Hb) as B.
  assert (C : t * (a / m - 1) + (1 - t) * (b / m - 1) = 0) by (unfold m; field; fold m; lra).
  assert (t * ln a <= t * (ln m + (a / m - 1))) by (apply Rmult_le_compat_l; lra).
  assert ((1 - t) * ln b <= (1 - t) * (ln m + (b / m - 1))) by (apply Rmult_le_compat_l; lra). lra.
Qed.
Lemma poisson_concave t ds : forall ms ms1, List.length ms1 = List.length ms -> 0 <= t <= 1 -> (forall d, In d ds -> 0 <= d) ->
  (forall m, In m ms -> 0 < m) -> (forall m, In m ms1 -> 0 < m) ->
  t * poisson_R ds ms + (1 - t) * poisson_R ds ms1 <= poisson_R ds (map (fun mm => t * fst mm + (1 - t) * snd mm) (combine ms ms1)).
Proof.
  induction ds as [|d ds IH]; intros [|m ms] [|m1 ms1] L Ht Hd Hm Hm1; try discriminate; cbn; try lra.
  injection L as L. pose proof (ln_concave m m1 t (Hm m (or_introl eq_refl)) (Hm1 m1 (or_introl eq_refl)) Ht) as C.
  pose proof (Hd d (or_introl eq_refl)) as D.
  pose proof (IH ms ms1 L Ht (fun x Hx => Hd x (or_intror Hx)) (fun x Hx => Hm x (or_intror Hx)) (fun x Hx => Hm1 x (or_intror Hx))) as I.
  pose proof (Rmult_le_compat_l d _ _ D C) as C'. cbn in I. lra.
Qed.

(** The components of a context. *)
Section Context.
  Context {K : Type}.
  Variable E : ModelWhole.env K.

  Lemma component_blind (all : dict (lcomp K)) cs lname on b cname k file wa wb lc sim batch : reads_declared E cs ->
    (forall ps nt ae, k = ClsSim ps nt ae -> unique_names (registry_after [ps]) /\
       (forall d q, get d (registry_after [ps]) = Some q -> e_plugins E (p_name q) = Some q) /\
       forall x, plugin_reads cs lname on ps x -> ~ In x (rate_names all)) ->
    construct_component K E lname on b cname k file wa = (wb, Ok (lc, sim)) ->
    rate_blind (e_row E) all batch (cname, lc).
  Proof.
    intros R Hk H. unfold construct_component in H. destruct k as [ps nt ae|nt ae|]; [| |discriminate].
    - destruct (register ps []) as [reg [u|e]] eqn:Hr; [|discriminate].
      pose proof (registry_after_one _ _ _ Hr) as Hreg. destruct (Hk ps nt ae eq_refl) as (Hu & Hp & Hx0).
      match type of H with context [build_component ?a ?bb ?c ?d ?ee ?f ?g ?h ?i] =>
        destruct (build_component a bb c d ee f g h i) as [[w1 k'] [u'|e]] eqn:Hb end; [|discriminate].
      destruct u'. destruct (k_simulate k') as [cl|] eqn:Hcl; [|discriminate]. injection H as <- <- <-.
      match type of Hb with build_component _ _ _ _ _ _ _ ?h _ = _ => set (kk := h) in * end.
      assert (Hu' : unique_names (k_registry kk)) by (cbn; rewrite Hreg; exact Hu).
      destruct (compiled_instances _ _ _ _ _ _ _ _ _ _ _ Hu' Hb) as (pr & cl' & Hcode & Hsim & Hpr & Hinst).
      assert (cl' = cl) by congruence. subst cl'.
      destruct (build_component_ok _ _ _ _ _ _ _ _ _ _ _ Hb) as (deps & wx & k1 & insts & w2 & Hd & Hdd & Hrest). cbn zeta in Hrest.
      destruct Hrest as (_ & Hs2 & _).
      assert (Hbody : pr_body (cl_prog cl) = body_of cname (selected deps)).
      { rewrite Hcl in Hs2. injection Hs2 as ->. cbn [cl_prog]. rewrite gen_body. reflexivity. }
      clear Hs2. unfold kk in *. cbn [k_registry k_name k_llh] in *. clear kk.
      assert (D : forall o n a i, In (o, n, a) (pr_body (cl_prog cl)) ->
                get n (cl_insts cl) = Some i -> forall x, declared cs i x -> plugin_reads cs lname on ps x).
      { intros o n a i Hin Hi x Hx. rewrite Hbody in Hin. unfold body_of in Hin. apply in_map_iff in Hin.
        destruct Hin as (q & Eq & Hq). injection Eq as _ <- _. apply (used_selected _ _ _ _ _ Hu' Hdd) in Hq. destruct Hq as (d & Hd1 & Hd2).
        destruct (Hinst d q Hd1 Hd2) as (i' & I1 & I2 & I3). assert (Ei : Some i' = Some i) by (rewrite <- I1, <- Hi; reflexivity). injection Ei as ->.
        rewrite (Hp d q) in I2 by (rewrite <- Hreg; exact Hd2). injection I2 as I2. exists d, q.
        split; [|split; [rewrite <- Hreg; exact Hd2|]].
        { rewrite <- Hreg. eapply reach_same; [|exact Hd1]. intros y. symmetry. apply outputs_same. }
        destruct Hx as [Hx|(ln & m & cf & Hl & Hc & Hq)]; [left; rewrite I2; exact Hx|]. right. exists m, cf.
        rewrite I2. split; [exact Hc|]. rewrite I3 in Hl. injection Hl as <-. exact Hq. }
      apply blind_sim; [reflexivity|]. intros key p p' O.
      apply (sim_rows_same E (plugin_reads cs lname on ps) cs cl key batch p p' R D).
      intros z Hz. apply O. apply Hx0. exact Hz.
    - destruct file as [[|ch fname]|]; try discriminate. destruct (load_data K E (String ch fname) wa) as [w1 [t|e]]; [|discriminate].
      destruct (positions on (t_columns t)) as [is|e]; [|discriminate].
      destruct (fixed_deduce _ _ _) as [h|e] eqn:Hf; [|discriminate]. injection H as <- <- <-. apply blind_fixed. reflexivity.
  Qed.

  Lemma likelihood_blind cs w1 lname li L batch : reads_declared E cs -> plain_llh E li -> published_llh E li ->
    rates_unread E cs lname li -> made_llh E w1 (lname, li) (lname, L) ->
    Forall (rate_blind (e_row E) (ll_components (wl_llh L)) batch) (ll_components (wl_llh L)).
  Proof.
    intros R (_ & _ & Hu) Hpub Hr (_ & (wa & wb & _ & Hmk) & _ & _ & HC & _). cbn [fst snd] in *.
    apply Forall_forall. intros [n lc] Hin. destruct (Forall2_right _ _ _ _ HC Hin) as ([cname [cls file]] & Hci & Hn & k & wa' & wb' & sim & Hk & _ & Hc).
    cbn [fst snd] in *. subst n.
    refine (component_blind _ cs lname _ _ cname k file wa' wb' lc sim batch R _ Hc).
    intros ps nt ae ->. split; [eapply Hu; eassumption|]. split; [intros d q Hq; eapply Hpub; eassumption|].
    intros x Hx Hin2. unfold rate_names in Hin2. apply in_map_iff in Hin2. destruct Hin2 as ([m lm] & Em & Hm). cbn [fst] in Em.
    destruct (Forall2_right _ _ _ _ HC Hm) as ([m' cf] & Hm' & Hn' & _). cbn [fst] in Hn'. subst m'.
    refine (Hr (m_on (wl_type L)) cname cls file ps nt ae x _ Hci Hk Hx m _ (eq_sym Em)); [apply (make_on E _ _ _ _ Hmk); reflexivity|].
    unfold keys. apply in_map_iff. exists (m, cf). auto.
  Qed.
End Context.
