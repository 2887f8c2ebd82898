(** Lemmas about when a context answers with a number. *)
From Coq Require Import Reals Lra Lia.
From Verif Require Import Base BaseFacts ModelFloat ModelHist ModelShare ModelConfig ModelComponent ModelCompile
  ModelParameter ModelLikelihood ModelBinning ModelLit ModelContext ModelWhole
  SpecHist SpecLikelihood SpecComponent SpecConfig SpecCompile SpecParameter SpecContext SpecWeighted SpecBinning SpecWhole SpecNeeded SpecFrame SpecAnswers
  ProofHist ProofWorkflow ProofComponent ProofSim ProofCompile ProofLikelihood ProofLikelihood2 ProofLikelihood3 ProofContext ProofBinning ProofWhole ProofNeeded ProofFit ProofFrame PropNeeded PropContext.
Local Open Scope string_scope.
Local Open Scope list_scope.

Section Answers.
  Context {K : Type}.
  Variable E : ModelWhole.env K.
  Variable n : nat.

  (** The values while the generated function runs. *)
  Definition holds (nodep x : string) (v : sval K) : Prop :=
    (x = nodep /\ v = SBatch n) \/ exists c, v = SCol c /\ List.length c = n.
  Definition running (nodep : string) (p : params) (e : dict (sval K)) (D : list string) : Prop :=
    (exists k, get "key" e = Some (SKey k)) /\ get "parameters" e = Some (SParams p) /\
    forall x, In x D -> exists v, get x e = Some v /\ holds nodep x v.

  Lemma lookups_running nodep p e D : running nodep p e D -> forall a, (forall x, In x a -> In x D) ->
    exists vs, lookups (sval K) e a = Ok vs /\ Forall2 (holds nodep) a vs.
  Proof.
    intros (_ & _ & R). induction a as [|x a IH]; intros H; [exists []; split; [reflexivity|constructor]|].
    destruct (R x (H x (or_introl eq_refl))) as (v & Hv & Hh). destruct IH as (vs & Hl & HF); [intros y Hy; apply H; right; exact Hy|].
    exists (v :: vs). cbn [lookups]. rewrite Hv, Hl. split; [reflexivity|]. constructor; assumption.
  Qed.

  Lemma assign_running nodep p o : forall e D cols, ~ In "key" o -> ~ In "parameters" o ->
    running nodep p e D -> List.length cols = List.length o -> Forall (fun c => List.length c = n) cols ->
    exists e', ModelComponent.assign (sval K) e o (map SCol cols) = Ok e' /\ running nodep p e' (o ++ D).
  Proof.
    induction o as [|x o IH]; intros e D cols Hk Hp R L F; destruct cols as [|c cols]; try discriminate.
    - exists e. split; [reflexivity|exact R].
    - inversion F as [|? ? F1 F2]; subst. cbn [map ModelComponent.assign]. destruct R as ((k & Rk) & Rp & RD).
      destruct (IH (set x (SCol c) e) (x :: D) cols) as (e' & He & Hr).
      + intros Hi. apply Hk. right. exact Hi.
      + intros Hi. apply Hp. right. exact Hi.
      + split; [|split].
        * exists k. rewrite get_set_neq; [exact Rk|]. intros <-. apply Hk. left. reflexivity.
        * rewrite get_set_neq; [exact Rp|]. intros <-. apply Hp. left. reflexivity.
        * intros y Hy. destruct (string_dec y x) as [->|Hn].
          -- exists (SCol c). split; [apply get_set_eq|]. right. exists c. auto.
          -- rewrite get_set_neq by exact Hn. apply RD. destruct Hy as [->|Hy]; [congruence|exact Hy].
      + cbn in L. lia.
      + exact F2.
      + exists e'. split; [exact He|]. destruct Hr as (A & B & C). split; [exact A|]. split; [exact B|].
        intros y Hy. apply C. cbn [app In] in Hy. apply in_or_app. destruct Hy as [->|Hy]; [right; left; reflexivity|].
        apply in_app_or in Hy. destruct Hy as [Hy|Hy]; [left; exact Hy|right; right; exact Hy].
  Qed.

  (** One line of the generated function can be run. *)
  Definition line_runs (sem : string -> list (sval K) -> result (list (sval K))) (p : params) (st : list string * string * list string) : Prop :=
    let '(o, inst, a) := st in
    ~ In "key" o /\ ~ In "parameters" o /\
    forall k args, List.length args = List.length a -> Forall (fits n) args ->
      exists k' cols, sem inst (SKey k :: SParams p :: args) = Ok (SKey k' :: map SCol cols) /\
        List.length cols = List.length o /\ Forall (fun c => List.length c = n) cols.

  Lemma holds_fits nodep a vs : Forall2 (holds nodep) a vs -> List.length vs = List.length a /\ Forall (fits n) vs.
  Proof.
    intros H. induction H as [|x v a vs Hh H IH]; [split; [reflexivity|constructor]|]. destruct IH as [I1 I2].
    split; [cbn; congruence|]. constructor; [|exact I2]. destruct Hh as [[_ ->]|Hc]; [left; reflexivity|right; exact Hc].
  Qed.

  Lemma exec_runs sem nodep p body : forall e D, Forall (line_runs sem p) body -> reads_defined D body ->
    running nodep p e D -> exists e', exec (sval K) sem e body = Ok e' /\ running nodep p e' (assigned body ++ D).
  Proof.
    induction body as [|[[o inst] a] body IH]; intros e D F Rd R; [exists e; split; [reflexivity|exact R]|].
    inversion F as [|? ? F1 F2]; subst. destruct F1 as (Hk & Hp & Hs). cbn [reads_defined] in Rd. destruct Rd as [Ra Rd].
    destruct (lookups_running _ _ _ _ R a Ra) as (vs & Hl & HF). destruct (holds_fits _ _ _ HF) as [L1 L2].
    pose proof R as ((k & Rk) & Rp & _). destruct (Hs k vs L1 L2) as (k' & cols & Hsem & Lc & Fc).
    assert (R1 : running nodep p (set "key" (SKey k') e) D \/ In "key" D).
    { destruct (in_dec string_dec "key" D) as [Hi|Hi]; [right; exact Hi|left]. destruct R as (_ & B & C). split; [|split].
      - exists k'. apply get_set_eq.
      - rewrite get_set_neq by discriminate. exact B.
      - intros x Hx. rewrite get_set_neq by (intros ->; contradiction). apply C, Hx. }
    destruct R1 as [R1|Hi].
    2:{ exfalso. destruct R as (_ & _ & C). destruct (C "key" Hi) as (v & Hv & Hh). rewrite Rk in Hv. injection Hv as <-.
        destruct Hh as [[_ Hh]|(c & Hh & _)]; discriminate Hh. }
    destruct (assign_running nodep p o _ D cols Hk Hp R1 Lc Fc) as (e1 & He1 & R2).
    destruct (IH e1 (o ++ D) F2 Rd R2) as (e2 & He2 & R3). exists e2. split.
    - cbn [exec exec1]. unfold exec1. cbn [lookups]. rewrite Rk, Rp, Hl. cbn [bind]. rewrite Hsem. cbn [bind ModelComponent.assign].
      rewrite He1. cbn [bind]. exact He2.
    - destruct R3 as (A & B & C). split; [exact A|]. split; [exact B|]. intros x Hx. apply C.
      cbn [assigned flat_map fst] in Hx. rewrite !in_app_iff in *. tauto.
  Qed.

  Lemma holds_cols nodep a vs : Forall2 (holds nodep) a vs -> ~ In nodep a ->
    exists cols, vs = map SCol cols /\ Forall (fun c => List.length c = n) cols.
  Proof.
    intros H. induction H as [|x v a vs Hh H IH]; intros Hn; [exists []; split; [reflexivity|constructor]|].
    destruct IH as (cols & -> & F); [intros Hi; apply Hn; right; exact Hi|].
    destruct Hh as [[-> _]|(c & -> & Hc)]; [destruct Hn; left; reflexivity|]. exists (c :: cols). split; [reflexivity|]. constructor; assumption.
  Qed.

  (** The compiled function of a component. *)
  Lemma closure_runs cs lname on cname ps wa wb k' cl key p reg u func :
    well_behaved E cs -> ~ In "eff" on -> ~ In "batch_size" on ->
    register ps [] = (reg, Ok u) -> unique_names reg -> consistent reg "batch_size" (on ++ ["eff"]) ->
    (forall d q, get d reg = Some q -> e_plugins E (p_name q) = Some q) ->
    (forall d q, Reach reg "batch_size" (on ++ ["eff"]) d -> get d reg = Some q -> p_depends q <> []) ->
    (forall d q x, Reach reg "batch_size" (on ++ ["eff"]) d -> get d reg = Some q ->
       In x (p_params q) \/ (exists m cf, In (m, cf) (p_configs q) /\ requires cs lname cf x) -> In x (keys p)) ->
    build_component (e_limit E) (on ++ ["eff"]) func "batch_size" false (e_fs E) (e_plugins E)
      (mk_component cname lname (cname ++ "_rate")%string reg false [] [] "" None None None) wa = (wb, k', Ok tt) ->
    k_simulate k' = Some cl ->
    exists key' cols, run_closure (sval K) (e_isem E) cl (SKey key) (SBatch n) (SParams p) = Ok (SKey key', map SCol cols) /\
      List.length cols = List.length (on ++ ["eff"]) /\ Forall (fun c => List.length c = n) cols.
  Proof.
    intros W He Hbs Hr Hu Hcons Hpub Hdep Hpar Hb Hcl.
    pose proof (registry_after_one _ _ _ Hr) as Hreg.
    set (k := mk_component cname lname (cname ++ "_rate")%string reg false [] [] "" None None None) in *.
    assert (Hu' : unique_names (k_registry k)) by exact Hu.
    destruct (compiled_instances _ _ _ _ _ _ _ _ _ _ _ Hu' Hb) as (pr & cl' & Hcode & Hsim & Hpr & Hinst).
    assert (cl' = cl) by congruence. subst cl'.
    destruct (build_component_ok _ _ _ _ _ _ _ _ _ _ _ Hb) as (deps & wx & k1 & insts & w2 & Hd & Hdd & Hrest). cbn zeta in Hrest.
    destruct Hrest as (_ & _ & Hcode2 & _). rewrite Hcode in Hcode2.
    assert (Hq : forall x y : prog, Some x = Some y -> x = y) by (intros x y Hxy; congruence).
    apply Hq in Hcode2. rewrite Hcode2 in Hpr. clear Hcode Hcode2 Hq.
    rewrite outputs_eff in * by exact He.
    unfold run_closure. rewrite Hpr. unfold run_prog. rewrite gen_body. unfold gen_code. cbn [pr_nodep pr_return].
    change (mem "batch_size" ["key"; "parameters"]) with false. cbn iota.
    assert (Hp : provides_ok (k_registry k)) by (cbn; rewrite Hreg; apply provides_ok_after).
    destruct (deduced_code_defined _ _ _ _ _ (k_name k) Hp Hu' Hdd) as [Hread Hret].
    match goal with |- context [exec _ _ ?x _] => set (e0 := x) end.
    destruct (exec_runs (call_instance (sval K) (e_isem E) (cl_insts cl)) "batch_size" p (body_of (k_name k) (selected deps)) e0 ["batch_size"]) as (e & -> & R).
    - apply Forall_forall. intros [[o inst] a] Hin. unfold body_of in Hin. apply in_map_iff in Hin. destruct Hin as (q & Eq & Hq).
      injection Eq as <- <- <-. apply (used_selected _ _ _ _ _ Hu' Hdd) in Hq. destruct Hq as (d & Hd1 & Hd2).
      destruct (Hcons d q Hd1 Hd2) as [_ Hc]. split; [intros Hi; destruct (Hc _ Hi) as (_ & _ & Hx & _); congruence|].
      split; [intros Hi; destruct (Hc _ Hi) as (_ & _ & _ & Hx); congruence|].
      intros ky args La Fa. destruct (Hinst d q Hd1 Hd2) as (i & I1 & I2 & I3). unfold call_instance.
      assert (I1' : forall T (f : instance -> T) g,
                match get (p_name q ++ "_" ++ k_name k)%string (cl_insts cl) with Some j => f j | None => g end = f i)
        by (intros T f g; rewrite I1; reflexivity).
      cbn [k_registry k] in Hd1, Hd2. rewrite (Hpub d q Hd2) in I2. injection I2 as I2.
      destruct (W i n ky p args) as (k2 & cols & S1 & S2 & S3).
      + rewrite <- I2. exact (Hpub d q Hd2).
      + intros ->. cbn in La. specialize (Hdep d q Hd1 Hd2). destruct (p_depends q); [congruence|discriminate].
      + rewrite <- I2. exact La.
      + exact Fa.
      + intros x Hx. apply (Hpar d q x Hd1 Hd2). unfold declared in Hx. rewrite <- I2 in Hx. destruct Hx as [Hx|(ln & m & cf & Hl & Hc' & Hq)]; [left; exact Hx|].
        right. exists m, cf. split; [exact Hc'|]. rewrite I3 in Hl. cbn in Hl. injection Hl as <-. exact Hq.
      + exists k2, cols. split; [rewrite <- S1; exact (I1' _ _ _)|]. split; [rewrite S2, <- I2; reflexivity|exact S3].
    - exact Hread.
    - unfold e0. split; [exists key; reflexivity|]. split; [reflexivity|]. intros x [<-|[]]. exists (SBatch n). split; [reflexivity|left; auto].
    - cbn [bind lookups]. destruct (lookups_running _ _ _ _ R (on ++ ["eff"])) as (vs & Hl & HF).
      { intros x Hx. destruct (Hret x Hx) as [->|Hi]; apply in_or_app; [right; left; reflexivity|left; exact Hi]. }
      destruct R as ((ky & ->) & _ & _). rewrite Hl. destruct (holds_fits _ _ _ HF) as [L1 _].
      destruct (holds_cols _ _ _ HF) as (cols & -> & Fc).
      { intros Hi. apply in_app_or in Hi. destruct Hi as [Hi|[Hi|[]]]; [contradiction|discriminate]. }
      exists ky, cols. split; [reflexivity|]. split; [rewrite map_length in L1; exact L1|exact Fc].
  Qed.

  Lemma arrays_cols (cols : list (list fl)) : arrays K (map SCol cols) = Ok cols.
  Proof. induction cols as [|c cols IH]; [reflexivity|]. cbn [map arrays]. rewrite IH. reflexivity. Qed.

  Lemma rows_cols (cols : list (list fl)) : Forall (fun c => List.length c = n) cols ->
    exists rows, rows_of cols = Ok rows /\ Forall (fun r => List.length r = List.length cols) rows.
  Proof.
    intros F. destruct cols as [|c cols]; [exists []; split; [reflexivity|constructor]|]. unfold rows_of.
    assert (Q : forallb (fun c' : list fl => Nat.eqb (List.length c') (List.length c)) (c :: cols) = true).
    { apply forallb_forall. intros x Hx. apply Nat.eqb_eq. rewrite Forall_forall in F. rewrite (F x Hx), (F c (or_introl eq_refl)). reflexivity. }
    rewrite Q. eexists. split; [reflexivity|]. apply Forall_forall. intros r Hr. apply in_map_iff in Hr. destruct Hr as (i & <- & _).
    apply map_length.
  Qed.

  (** The histogram of a component as constructed, and what a LikelihoodLit gets from it. *)
  Lemma component_runs cs lname on b cname k file wa wb lc sim key p :
    well_behaved E cs -> ~ In "eff" on -> ~ In "batch_size" on ->
    (forall ps nt ae, k = ClsSim ps nt ae -> unique_names (registry_after [ps]) /\
       consistent (registry_after [ps]) "batch_size" (on ++ ["eff"]) /\
       (forall d q, get d (registry_after [ps]) = Some q -> e_plugins E (p_name q) = Some q) /\
       (forall d q, Reach (registry_after [ps]) "batch_size" (on ++ ["eff"]) d -> get d (registry_after [ps]) = Some q -> p_depends q <> []) /\
       normalises E ps on nt) ->
    (forall nt ae, k = ClsFixed nt ae -> nt = OnPdf) ->
    (forall x, comp_needs cs lname on cname k x -> In x (keys p)) ->
    construct_component K E lname on b cname k file wa = (wb, Ok (lc, sim)) ->
    (b <> BUnsupported -> ndim b = List.length on -> match l_kind lc with
     | LSim f => exists key' h, f key n p = Ok (key', h) /\ List.length h = entries_of b
     | LFixed f => exists h, f p = Ok h /\ List.length h = entries_of b
     | LOther => False
     end) /\
    (b = BUnsupported -> exists key' cols, sim key n p = Ok (key', cols) /\
       List.length cols = List.length on + 1 /\ Forall (fun c => List.length c = n) cols).
  Proof.
    intros W He Hbs Hs Hf Hn H. unfold construct_component in H. destruct k as [ps nt ae|nt ae|]; [| |discriminate].
    - destruct (register ps []) as [reg [u|e]] eqn:Hr; [|discriminate].
      pose proof (registry_after_one _ _ _ Hr) as Hreg. destruct (Hs ps nt ae eq_refl) as (Hu & Hc & Hp & Hd & Hnorm). rewrite <- Hreg in *.
      match type of H with context [build_component ?a ?bb ?c ?d ?ee ?f ?g ?h ?i] =>
        destruct (build_component a bb c d ee f g h i) as [[w1 k'] [u'|e]] eqn:Hb end; [|discriminate].
      destruct u'. destruct (k_simulate k') as [cl|] eqn:Hcl; [|discriminate]. injection H as <- <- <-. cbn [l_kind].
      pose proof (build_noeff _ _ _ _ _ _ _ _ _ _ _ Hb) as Hne. cbn in Hne.
      assert (Hpar : forall d q x, Reach reg "batch_size" (on ++ ["eff"]) d -> get d reg = Some q ->
         In x (p_params q) \/ (exists m cf, In (m, cf) (p_configs q) /\ requires cs lname cf x) -> In x (keys p)).
      { intros d q x H1 H2 H3. apply Hn. right. exists d, q. rewrite <- Hreg. auto. }
      destruct (closure_runs cs lname on cname ps wa w1 k' cl key p reg u _ W He Hbs Hr Hu Hc Hp Hd Hpar Hb Hcl) as (key' & cols & Hrun & Lc & Fc).
      split.
      + intros Hbu Hnd. unfold sim_hist, sim_rows. rewrite Hrun, arrays_cols. destruct (rows_cols cols Fc) as (rows & -> & Fr).
        cbn [n_no_eff n_bins n_add_eps n_norm n_rate n_mcinput]. rewrite Hne. cbn [split_rows].
        assert (Q : forallb (fun r : list fl => Nat.eqb (List.length r) (ndim b)) (map (@removelast fl) rows) = true).
        { apply forallb_forall. intros r Hr'. apply in_map_iff in Hr'. destruct Hr' as (r0 & <- & Hr0). apply Nat.eqb_eq.
          rewrite Forall_forall in Fr. specialize (Fr r0 Hr0). rewrite Lc, app_length in Fr. cbn [List.length] in Fr.
          destruct r0 as [|x r0] using rev_ind; [cbn in Fr; lia|]. rewrite removelast_last, app_length in *. cbn [List.length] in Fr. lia. }
        rewrite Q. set (mc := map (@removelast fl) rows). set (eff := map (fun r : list fl => last r NaN) rows).
        assert (Hi : exists h, implement_binning (e_row E) ae b mc eff = Ok h).
        { unfold implement_binning. destruct b; cbn [plain_hist]; try (eexists; reflexivity). congruence. }
        destruct Hi as (h & Hi). rewrite Hi.
        assert (Hrate : exists r, get (cname ++ "_rate")%string p = Some r) by (apply get_In_keys, Hn; left; reflexivity).
        destruct Hrate as (r & Hrate).
        assert (Hg : exists f, get_normalization nt (cname ++ "_rate") (find_mcinput K E reg cname cl) h p n = Ok f).
        { unfold get_normalization. destruct nt; [rewrite Hrate; eexists; reflexivity| |destruct Hnorm].
          assert (Hm : exists m, find_mcinput K E reg cname cl = Ok m).
          { unfold find_mcinput. cbn [normalises] in Hnorm. destruct Hnorm as (q & Hq & Hboot). rewrite Hreg, Hq in *.
            destruct (contains "Bootstrap" (p_name q)) eqn:Eb; [|eexists; reflexivity]. apply contains_spec in Eb. destruct Eb as (a & c & Eb).
            destruct (Hboot a c Eb) as ((d & Hd1 & Hd2) & Hsel).
            destruct (compiled_instances _ _ _ _ _ _ _ _ _ _ _ (Hu : unique_names (k_registry (mk_component cname lname (cname ++ "_rate") (registry_after [ps]) false [] [] "" None None None))) Hb) as (pr & cl' & _ & Hsim & _ & Hinst).
            assert (cl' = cl) by congruence. subst cl'. rewrite outputs_eff in Hinst by exact He.
            destruct (Hinst d q Hd1 Hd2) as (i & I1 & I2 & _). cbn [k_name] in I1. rewrite I1.
            cbn [k_registry] in Hd2. rewrite (Hp d q Hd2) in I2. injection I2 as I2. destruct (Hsel i (eq_sym I2)) as (m & ->). eexists; reflexivity. }
          destruct Hm as (m & ->). rewrite Hrate. eexists; reflexivity. }
        destruct Hg as (f & ->). exists key', (scale f h). split; [reflexivity|]. unfold scale. rewrite map_length.
        exact (implement_binning_length _ _ _ _ _ _ Hi).
      + intros _. unfold sim_cols. rewrite Hrun, arrays_cols. exists key', cols. split; [reflexivity|]. rewrite app_length in Lc. auto.
    - destruct file as [[|ch fname]|]; try discriminate. destruct (load_data K E (String ch fname) wa) as [w1 [t|e]]; [|discriminate].
      destruct (positions on (t_columns t)) as [is|e]; [|discriminate].
      destruct (fixed_deduce _ _ _) as [h|e] eqn:Hd; [|discriminate]. injection H as <- <- <-. cbn [l_kind]. split.
      + intros _ _. rewrite (Hf nt ae eq_refl) in *. unfold fixed_hist. rewrite Hd. cbn [n_norm n_rate get_normalization].
        assert (Hrate : exists r, get (cname ++ "_rate")%string p = Some r) by (apply get_In_keys, Hn; left; reflexivity).
        destruct Hrate as (r & ->). eexists. split; [reflexivity|]. unfold scale. rewrite map_length.
        exact (implement_binning_length _ _ _ _ _ _ Hd).
      + intros ->. discriminate Hd.
  Qed.
End Answers.

Section Whole.
  Context {K : Type}.
  Variable E : ModelWhole.env K.

  Lemma sum_runs (comps : dict (lcomp K)) batch p m :
    (forall nm c, In (nm, c) comps -> forall key, match l_kind c with
       | LSim f => exists key' h, f key batch p = Ok (key', h) /\ List.length h = m
       | LFixed f => exists h, f p = Ok h /\ List.length h = m
       | LOther => False end) ->
    forall key h, List.length h = m -> exists key' h', sum_components comps key batch p h = Ok (key', h') /\ List.length h' = m.
  Proof.
    induction comps as [|[nm c] comps IH]; intros H key h Hl; cbn [sum_components]; [eauto|].
    pose proof (H nm c (or_introl eq_refl) key) as Hc. specialize (IH (fun a b Hi => H a b (or_intror Hi))).
    destruct (l_kind c) as [f|f|]; [| |destruct Hc].
    - destruct Hc as (key' & x & -> & Lx). rewrite iadd_ok by congruence. apply IH. rewrite hist_add_length; congruence.
    - destruct Hc as (x & -> & Lx). rewrite iadd_ok by congruence. apply IH. rewrite hist_add_length; congruence.
  Qed.

  Lemma likelihood_runs cs w1 lname li L p key batch :
    well_behaved E cs -> sound_llh E li (wl_type L) -> published_llh E li -> answering E cs lname li (wl_type L) ->
    made_llh E w1 (lname, li) (lname, L) ->
    (forall x, llh_needs E cs lname li x -> exists v, get x (replace_alias (li_alias li) p) = Some v) -> NoDup (keys p) ->
    (exists key' y, wl_log_likelihood L key batch p = Ok (key', y)) /\
    match wl_type L with MDefault _ => exists ds, ll_data (wl_llh L) = map Fin ds | MLit _ _ => True end.
  Proof.
    intros W (Hbin & He & Hal & Hsep & Hsim) Hpub (Hbs & Hlit & _ & Hcomp) (_ & (wa & wb & _ & Hmk) & Hdat & HA & HC & HS) P Hp. cbn [fst snd] in *.
    assert (C : forall ci k wa' wb' lc sim ky bt, In ci (li_components li) -> e_classes E (fst (snd ci)) = Some k ->
      construct_component K E lname (m_on (wl_type L)) (m_bins (wl_type L)) (fst ci) k (snd (snd ci)) wa' = (wb', Ok (lc, sim)) ->
      (m_bins (wl_type L) <> BUnsupported -> ndim (m_bins (wl_type L)) = List.length (m_on (wl_type L)) -> match l_kind lc with
       | LSim f => exists key' h, f ky bt (replace_alias (li_alias li) p) = Ok (key', h) /\ List.length h = entries_of (m_bins (wl_type L))
       | LFixed f => exists h, f (replace_alias (li_alias li) p) = Ok h /\ List.length h = entries_of (m_bins (wl_type L))
       | LOther => False
       end) /\
      (m_bins (wl_type L) = BUnsupported -> exists key' cols, sim ky bt (replace_alias (li_alias li) p) = Ok (key', cols) /\
         List.length cols = List.length (m_on (wl_type L)) + 1 /\ Forall (fun c => List.length c = bt) cols)).
    { intros [cname [cls file]] k wa' wb' lc sim ky bt Hi Hk Hc. cbn [fst snd] in *.
      apply (component_runs E bt cs lname (m_on (wl_type L)) (m_bins (wl_type L)) cname k file wa' wb' lc sim ky _ W He Hbs); [| | |exact Hc].
      - intros ps nt ae ->. destruct (Hsim _ _ _ _ _ _ Hi Hk) as [S1 S2]. destruct (Hcomp _ _ _ _ Hi Hk) as [A1 A2].
        split; [exact S1|]. split; [exact S2|]. split; [exact (Hpub _ _ _ _ _ _ Hi Hk)|]. split; [exact A1|exact A2].
      - intros nt ae ->. exact (Hcomp _ _ _ _ Hi Hk).
      - intros x Hx. apply get_In_keys, P. exists (m_on (wl_type L)), cname, cls, file, k. split; [apply (make_on E _ _ _ _ Hmk); reflexivity|]. auto. }
    unfold wl_log_likelihood. destruct (wl_type L) as [lk|on l] eqn:HT; cbn [m_bins m_on m_hist] in *.
    - unfold get_log_likelihood, simulate_model_hist. rewrite HA, !replace_alias_idem by assumption.
      assert (Hb : k_bins lk <> BUnsupported /\ ndim (k_bins lk) = List.length (k_on lk) /\ List.length (k_hist lk) = entries_of (k_bins lk) /\
        exists ds, k_hist lk = map Fin ds).
      { unfold make_type in Hmk. destruct (li_type li) as [cfg file|vt on names values].
        - destruct (load_data K E file wa) as [w2 d]. destruct (new_likelihood _ _ _ _ d) as [lk'|e] eqn:Hk; [|discriminate].
          injection Hmk as _ ->. destruct (new_inv _ _ _ _ _ _ Hk) as (bs & t & is & _ & Hl & _ & _ & _ & Hset & Hh).
          rewrite Hl in Hset. apply set_bins_as, binned_as_dim in Hset. destruct Hset as (D1 & D2 & _).
          split; [exact D2|]. split; [congruence|]. split; [rewrite Hh; apply make_data_hist_length|].
          rewrite Hh, data_hist_counts by exact Hbin. rewrite counts_fin. eexists; reflexivity.
        - destruct (new_lit vt on _) as [[?|?]|]; discriminate Hmk. }
      destruct Hb as (B1 & B2 & B3 & ds & B4). split; [|exists ds; congruence].
      destruct (sum_runs (ll_components (wl_llh L)) batch (replace_alias (li_alias li) p) (entries_of (k_bins lk))) with (key := key) (h := map (fun _ : fl => Fin 0) (ll_data (wl_llh L))) as (key' & h' & -> & Lh).
      + intros nm lc Hin ky. destruct (Forall2_right _ _ _ _ HC Hin) as (ci & Hci & Hn & k & wa' & wb' & sim & Hk & _ & Hc). cbn [fst snd] in *.
        apply (C ci k wa' wb' lc sim ky batch Hci Hk Hc); assumption.
      + rewrite map_length, Hdat. exact B3.
      + rewrite Hdat, B4. destruct (all_good_dec h') as [Hg|(x & Hx & Hb)].
        * destruct (llh_of_good ds key' h') as (ms & _ & _ & ->); [|exact Hg|eauto]. rewrite B4, map_length in B3. congruence.
        * rewrite (llh_of_bad _ key' h' x Hx Hb). eauto.
    - split; [|exact I]. destruct Hlit as [H1 H2]. unfold lit_log_likelihood, simulate_yields. rewrite HA, !replace_alias_idem by assumption.
      pose proof (forall2_length HS) as LS. rewrite H1 in LS. destruct (wl_sims L) as [|[nm sim] [|? ?]] eqn:Hsm; try discriminate LS.
      destruct (Forall2_right _ _ _ (nm, sim) HS (or_introl eq_refl)) as (ci & Hci & Hn & k & wa' & wb' & lc & Hk & _ & Hc). cbn [fst snd] in *.
      destruct (C ci k wa' wb' lc sim key 1 Hci Hk Hc) as [_ Q]. destruct (Q eq_refl) as (key' & cols & -> & Lc & Fc).
      assert (Hon : List.length on = 2).
      { unfold make_type in Hmk. destruct (li_type li) as [cfg file|vt on' names values].
        - destruct (load_data K E file wa) as [w2 d]. destruct (new_likelihood _ _ _ _ d) as [lk'|e]; discriminate Hmk.
        - destruct (new_lit vt on' _) as [[l'|?]|] eqn:Hl; try discriminate Hmk. injection Hmk as _ -> ->. eapply new_lit_two; exact Hl. }
      rewrite Hon in Lc. destruct cols as [|en [|y [|ef [|? ?]]]]; try discriminate Lc.
      inversion Fc as [|? ? F1 F2]; subst. inversion F2 as [|? ? F3 F4]; subst. inversion F4 as [|? ? F5 _]; subst.
      destruct en as [|en [|? ?]]; try discriminate F1. destruct y as [|y [|? ?]]; try discriminate F3. destruct ef as [|ef [|? ?]]; try discriminate F5.
      destruct (H2 en y) as (l2 & ->). unfold weigh. cbn [broadcast List.length]. unfold broadcast2.
      destruct (Nat.eqb (List.length l2) 1); [eauto|]. cbn [Nat.eqb]. eauto.
  Qed.

  Lemma context_runs manager ins par w w' c lname L key batch p :
    new_context K E manager ins par w = (w', Ok c) -> well_behaved E (contents (w_cache w')) ->
    (forall n li, In (n, li) (in_llhs ins) -> plain_llh E li /\ published_llh E li) ->
    (forall n li L, In (n, li) (in_llhs ins) -> In (n, L) (cx_llhs c) ->
       sound_llh E li (wl_type L) /\ answering E (contents (w_cache w')) n li (wl_type L)) ->
    (forall z, In z (cx_needed c) -> In z (keys p)) -> NoDup (keys p) -> In (lname, L) (cx_llhs c) ->
    (exists key' y, wl_log_likelihood L key batch p = Ok (key', y)) /\
    match wl_type L with MDefault _ => exists ds, ll_data (wl_llh L) = map Fin ds | MLit _ _ => True end.
  Proof.
    intros H W Hpl Hs Hneed Hp HL. destruct (context_made E _ _ _ _ _ _ H) as (w1 & _ & _ & HF).
    destruct (Forall2_right _ _ _ _ HF HL) as ([ln li] & Hin & Hm). pose proof Hm as [Hf _]. cbn [fst] in Hf. subst ln.
    destruct (Hs lname li L Hin HL) as [S1 S2]. destruct (Hpl lname li Hin) as [P1 P2].
    apply (likelihood_runs (contents (w_cache w')) w1 lname li L p key batch W S1 P2 S2 Hm); [|exact Hp].
    intros x Hx. pose proof S1 as (_ & _ & Hal & Hsep & _).
    apply (C87_found E manager ins par w w' c p lname li x (replace_alias (li_alias li) p) H); try assumption.
    - intros n0 li0 H0. apply (Hpl n0 li0 H0).
    - apply S2. exact Hx.
    - intros nm. apply replace_alias_get; assumption.
  Qed.
End Whole.
