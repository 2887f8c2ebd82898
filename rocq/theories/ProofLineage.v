(** Lemmas on the lineage of a compiled component. *)
From Verif Require Import Base BaseFacts ModelShare ModelConfig ModelComponent ModelCompile SpecComponent
  SpecConfig SpecCompile ProofComponent ProofWorkflow ProofConfig ProofCompile
  ModelLineage SpecLineage.
From Coq Require Import Lia Bool.
Local Open Scope string_scope.

Lemma all_ok_map {A} (l : list (result A)) xs : all_ok l = Ok xs <-> l = map Ok xs.
Proof.
  revert xs. induction l as [|[x|e] l IH]; intros xs; cbn [all_ok].
  - split; [injection 1 as <-; reflexivity|]. destruct xs; [reflexivity|discriminate].
  - destruct (all_ok l) as [ys|e] eqn:E.
    + assert (Hl : l = map Ok ys) by (apply IH; reflexivity). split.
      * injection 1 as <-. cbn. rewrite Hl. reflexivity.
      * destruct xs as [|x' xs]; [discriminate|]. cbn. injection 1 as <- H. do 2 f_equal.
        assert (Ok ys = Ok xs) as H1 by (apply IH; exact H). injection H1 as ->. reflexivity.
    + split; [discriminate|]. destruct xs as [|x' xs]; [discriminate|]. cbn. injection 1 as <- H.
      assert (Err e = Ok xs) as H1 by (apply IH; exact H). discriminate.
  - split; [discriminate|]. destruct xs; discriminate.
Qed.

(** [b] is the result of building [cf]. *)
Definition built_of (llh : option string) (cf : config) (b : built) : Prop :=
  c_name (b_config b) = c_name cf /\ c_kind (b_config b) = c_kind cf /\
  (c_kind cf = KSigmaMap -> c_llh (b_config b) = llh) /\
  (c_kind cf <> KSigmaMap -> b_config b = cf /\ exists v, b_values b = [v]) /\
  c_default (b_config b) = c_default cf.

Lemma config_build_of f cf llh c b :
  snd (config_build f cf llh c) = Ok b -> built_of llh cf b.
Proof.
  unfold config_build, built_of. intros H. destruct (c_kind cf) eqn:K.
  - destruct (resolve_cached_config f false cf llh c) as [c1 [v|e]]; cbn in H; [|discriminate].
    injection H as <-. cbn. rewrite K. repeat split; try discriminate. eauto.
  - destruct (map_build f cf llh c) as [c1 [v|e]]; cbn in H; [|discriminate].
    injection H as <-. cbn. rewrite K. repeat split; try discriminate. eauto.
  - destruct (sigma_build f cf llh c) as [c1 [[cf' vs]|e]] eqn:E; cbn in H; [|discriminate].
    injection H as <-. cbn. unfold sigma_build in E.
    destruct (get_configs _ None c) as [c2 [cfgs|e]]; [|discriminate].
    destruct (get_default _) as [dflt|e]; [|discriminate].
    destruct (too_long cfgs || too_long dflt); [discriminate|].
    destruct (sigma_loop llh (c_name cf) cfgs dflt 0 sigma_names c2) as [c3 [ms|e]]; [|discriminate].
    destruct (resolve_maps f ms llh c3) as [c4 [vs'|e]]; [|discriminate].
    injection E as _ <- _. cbn. rewrite K. repeat split; intros; try contradiction; congruence.
  - destruct (resolve_cached_config f false cf llh c) as [c1 [v|e]]; cbn in H; [|discriminate].
    injection H as <-. cbn. rewrite K. repeat split; try discriminate. eauto.
Qed.

Lemma build_all_of f llh : forall cfs c c' bs,
  build_all f cfs llh c = (c', bs, Ok tt) -> Forall2 (built_of llh) cfs bs.
Proof.
  induction cfs as [|cf cfs IH]; cbn [build_all]; intros c c' bs H.
  - injection H as _ <-. constructor.
  - destruct (config_build f cf llh c) as [c1 [b|e]] eqn:E; [|discriminate].
    destruct (build_all f cfs llh c1) as [[c2 bs'] r] eqn:E2. injection H as _ <- ->.
    constructor; [|exact (IH _ _ _ E2)]. apply (config_build_of f cf llh c). rewrite E. reflexivity.
Qed.

Lemma built_names llh cfs bs : Forall2 (built_of llh) cfs bs ->
  map (fun b => c_name (b_config b)) bs = map c_name cfs.
Proof. induction 1 as [|cf b cfs bs H _ IH]; cbn; [reflexivity|]. f_equal; [apply H|exact IH]. Qed.

Lemma built_in llh cfs bs b : Forall2 (built_of llh) cfs bs -> In b bs ->
  exists cf, In cf cfs /\ built_of llh cf b.
Proof.
  induction 1 as [|cf b' cfs bs H _ IH]; cbn; [tauto|]. intros [<-|Hb]; [eauto|].
  destruct (IH Hb) as (cf' & ? & ?). eauto.
Qed.

(** What a built component consists of. *)
Record parts (plugins : string -> option plugin) (k' : component) (w' : world) (pr : prog)
    (insts : dict instance) : Prop := mk_parts {
  pt_code : k_code k' = Some pr;
  pt_sim : k_simulate k' = Some (mk_closure pr insts);
  pt_ns : exists a, get (k_llh k') (w_fn w') = Some a /\
            get (k_func k') (nth a (w_heap w') []) = Some (mk_closure pr insts);
  pt_nodup : NoDup (map fst (pr_insts pr));
  pt_keys : forall n, In n (keys insts) <-> In n (map fst (pr_insts pr));
  pt_inst : forall n pn, In (n, pn) (pr_insts pr) -> exists i p,
      get n insts = Some i /\ plugins pn = Some p /\ i_class i = p /\ p_name p = pn /\
      i_llh i = Some (pr_llh pr) /\ get pn (w_class w') = Some (i_built i) /\
      Forall2 (built_of (Some (pr_llh pr))) (map snd (p_configs p)) (i_built i);
  pt_llh : pr_llh pr = k_llh k';
  pt_imports : pr_imports pr = map snd (pr_insts pr);
  pt_unique : NoDup (keys insts)
}.

Lemma build_parts limit data_names func nodep noeff f plugins k w w' k' :
  well_named plugins ->
  build_component limit data_names func nodep noeff f plugins k w = (w', k', Ok tt) ->
  exists pr insts, parts plugins k' w' pr insts.
Proof.
  intros Hw H. destruct (build_component_ok _ _ _ _ _ _ _ _ _ _ _ H) as
    (deps & w1 & k1 & insts & w2 & H1 & H2 & H3 & H4 & H5 & H6 & H7 & H8 & H9 & H10 & H11 & H12 & H13 & H14).
  eexists. exists insts.
  rewrite gen_insts in H3.
  destruct (inst_names_NoDup (k_name k) (selected deps)) as [N1 N2].
  { apply first_by_name_NoDup. }
  destruct (instantiate_ok _ _ _ _ _ _ _ _ H3 N1) as (_ & _ & Hin & Hk & Hnd).
  destruct (instantiate_class _ _ _ _ _ _ _ _ H3 N1 N2) as (_ & Hc).
  constructor; [exact H5|exact H4| | | | | | |].
  - exists (List.length (w_heap w)). rewrite H11, H12, H10, H13. auto.
  - rewrite gen_insts. exact N1.
  - intros n. rewrite gen_insts, Hk. cbn. tauto.
  - rewrite gen_insts. intros n pn Hp.
    destruct (Hin n pn Hp) as (i & Hi & p & c1 & c2 & Q1 & Q2 & Q3 & Q4 & _).
    destruct (Hc n pn Hp) as (j & Hj & Hcl2). rewrite Hi in Hj. injection Hj as <-.
    exists i, p. split; [exact Hi|]. split; [exact Q1|]. split; [exact Q2|].
    split; [exact (Hw _ _ Q1)|]. split; [exact Q3|]. split; [rewrite H7; exact Hcl2|].
    apply plugin_init_ok in Q4. destruct Q4 as (_ & Q4 & _). exact (build_all_of _ _ _ _ _ _ Q4).
  - rewrite H11. reflexivity.
  - rewrite gen_insts. unfold inst_names. cbn. rewrite !map_map. apply map_ext. reflexivity.
  - apply Hnd. constructor.
Qed.

Lemma run_prog_ext {V} (s1 s2 : string -> list V -> result (list V)) pr key n params :
  (forall i args, s1 i args = s2 i args) ->
  run_prog V s1 pr key n params = run_prog V s2 pr key n params.
Proof.
  intros H. unfold run_prog. destruct (mem (pr_nodep pr) ["key"; "parameters"]); [reflexivity|].
  match goal with |- bind (exec V s1 ?e _) _ = _ => generalize e end. intros e0.
  assert (E : exec V s1 e0 (pr_body pr) = exec V s2 e0 (pr_body pr)).
  { revert e0. induction (pr_body pr) as [|[[outs inst] ins] body IH]; intros e0; cbn [exec]; [reflexivity|].
    assert (E1 : exec1 V s1 e0 (outs, inst, ins) = exec1 V s2 e0 (outs, inst, ins)).
    { unfold exec1. destruct (lookups V e0 ("key" :: "parameters" :: ins)) as [args|e]; cbn [bind]; [|reflexivity].
      rewrite H. reflexivity. }
    rewrite E1. destruct (exec1 V s2 e0 (outs, inst, ins)) as [e1|e]; cbn [bind]; [apply IH|reflexivity]. }
  rewrite E. reflexivity.
Qed.

Section Lin.
  Variable sha : string -> string.
  Variable code : Type.

  Definition find_config (n : string) (bs : list built) : option built :=
    List.find (fun b => String.eqb (c_name (b_config b)) n) bs.

  Lemma get_combine (F : built -> result config_lineage) n : forall bs ks ls,
    map (fun b => c_name (b_config b)) bs = ks -> map F bs = map Ok ls ->
    match find_config n bs with
    | None => get n (combine ks ls) = None
    | Some b => exists l, get n (combine ks ls) = Some l /\ F b = Ok l
    end.
  Proof.
    unfold find_config. induction bs as [|b bs IH]; intros ks ls <- H; cbn [List.find map combine].
    - reflexivity.
    - destruct ls as [|l ls]; [discriminate|]. cbn in H. injection H as Hb H. cbn [combine get].
      rewrite (String.eqb_sym n). destruct (String.eqb (c_name (b_config b)) n); [eauto|].
      apply IH; [reflexivity|exact H].
  Qed.

  Lemma map_lineage_read d c llh m v ml :
    one_map_lineage sha d c llh m v = Ok ml ->
    exists b, read_file d c v = Ok b /\ ml_sha ml = sha b /\ ml_method ml = m.
  Proof.
    unfold one_map_lineage. intros H. destruct v; try discriminate.
    destruct (read_file d c (VStr s)) as [b|e]; cbn in H; [|discriminate].
    injection H as <-. cbn. eauto.
  Qed.

  Lemma maps_read (NC : no_collision sha) d d' c c' llh m m' : forall ms vs vs',
    map (one_map_lineage sha d c llh m) vs = map Ok ms ->
    map (one_map_lineage sha d' c' llh m') vs' = map Ok ms ->
    map (read_file d c) vs = map (read_file d' c') vs'.
  Proof.
    induction ms as [|x ms IH]; intros [|v vs] [|v' vs'] H H'; try discriminate; [reflexivity|].
    cbn [map] in *. injection H as Hv H. injection H' as Hv' H'.
    apply map_lineage_read in Hv. apply map_lineage_read in Hv'.
    destruct Hv as (b & R & S & _). destruct Hv' as (b' & R' & S' & _).
    rewrite R, R'. rewrite S in S'. apply NC in S'. subst b'. f_equal. exact (IH _ _ H H').
  Qed.

  (** Two configs with the same lineage, kind, name and scaler hold the same. *)
  Lemma same_held (NC : no_collision sha) d d' c c' (src src' : source code) b b' l :
    config_lineage_of sha code d c src b = Ok l ->
    config_lineage_of sha code d' c' src' b' = Ok l ->
    c_kind (b_config b) = c_kind (b_config b') ->
    snd (required_parameter (b_config b) None c) = snd (required_parameter (b_config b') None c') ->
    held_of code d c src b = held_of code d' c' src' b'.
  Proof.
    unfold config_lineage_of, held_of. intros H H' K S. rewrite <- K in *.
    destruct (c_kind (b_config b)) eqn:Kb.
    - destruct (b_values b) as [|v [|? ?]]; try discriminate.
      destruct (b_values b') as [|v' [|? ?]]; try discriminate. congruence.
    - destruct (b_values b) as [|v [|? ?]]; try discriminate.
      destruct (b_values b') as [|v' [|? ?]]; try discriminate.
      destruct (one_map_lineage sha d c _ _ v) as [m|e] eqn:E; cbn in H; [|discriminate].
      destruct (one_map_lineage sha d' c' _ _ v') as [m'|e] eqn:E'; cbn in H'; [|discriminate].
      injection H as <-. injection H' as ->.
      apply map_lineage_read in E. apply map_lineage_read in E'.
      destruct E as (x & R & X & M). destruct E' as (x' & R' & X' & M').
      rewrite R, R'. cbn. rewrite X in X'. apply NC in X'. congruence.
    - destruct (all_ok _) as [ms|e] eqn:E in H; cbn in H; [|discriminate].
      destruct (all_ok _) as [ms'|e] eqn:E' in H'; cbn in H'; [|discriminate].
      injection H as <-. injection H' as HL Hm Hms. subst ms'.
      apply all_ok_map in E. apply all_ok_map in E'.
      rewrite (maps_read NC _ _ _ _ _ _ _ _ _ _ E E'), S, Hm. reflexivity.
    - destruct (b_values b) as [|v [|? ?]]; try discriminate.
      destruct (b_values b') as [|v' [|? ?]]; try discriminate. congruence.
  Qed.

  (** The lineage of a built component, instance by instance. *)
  Lemma lineage_parts plugins d (src : string -> source code) s w' pr insts L :
    parts plugins (cs_k s) w' pr insts -> lineage sha code d src s w' = Ok L ->
    l_rate L = k_rate (cs_k s) /\ l_norm L = cs_norm s /\ l_code L = pr /\ l_bins L = cs_bins s /\
    (forall n, In n (keys (l_insts L)) <-> In n (map fst (pr_insts pr))) /\
    forall n i, get n insts = Some i -> exists l, get n (l_insts L) = Some l /\
      plugin_lineage_of sha code d src w' i = Ok l.
  Proof.
    intros P H. destruct P as [P1 P2 (a & Pa & Pb) P4 P5 P6 P7 P8 P9].
    unfold lineage in H. rewrite P1, Pa, Pb in H. cbn [cl_insts] in H.
    destruct (all_ok _) as [ls|e] eqn:E in H; cbn [bind] in H; [|discriminate].
    injection H as <-. cbn [l_rate l_norm l_code l_bins l_insts].
    repeat (split; [reflexivity|]). apply all_ok_map in E.
    set (F := fun n : string => match get n insts with
                       | None => Err KeyError
                       | Some i => bind (plugin_lineage_of sha code d src w' i) (fun l => Ok (n, l))
                       end) in *.
    assert (G : forall names ls, map F names = map Ok ls -> keys ls = names /\
              forall n i, In n names -> get n insts = Some i ->
              exists l, get n ls = Some l /\ plugin_lineage_of sha code d src w' i = Ok l).
    { clear. induction names as [|m names IH]; intros [|[m' l] ls] H; try discriminate.
      - split; [reflexivity|]. intros n i [].
      - cbn [map] in H. injection H as Hm H. destruct (IH _ H) as [G1 G2].
        unfold F in Hm. destruct (get m insts) as [j|] eqn:Ej; [|discriminate].
        destruct (plugin_lineage_of sha code d src w' j) as [lj|e] eqn:El; cbn in Hm; [|discriminate].
        injection Hm as <- <-. split; [cbn; f_equal; exact G1|].
        intros n i Hn Hi. cbn [get]. destruct (String.eqb n m) eqn:Em.
        + apply String.eqb_eq in Em. subst n. rewrite Ej in Hi. injection Hi as <-. eauto.
        + destruct Hn as [<-|Hn]; [rewrite String.eqb_refl in Em; discriminate|]. eauto. }
    destruct (G _ _ E) as [G1 G2]. split; [rewrite G1; tauto|].
    intros n i Hi. apply G2; [|exact Hi]. apply P5. apply get_In_keys. eauto.
  Qed.

  Section Two.
    Variables plugins plugins' : string -> option plugin.
    Variables src src' : string -> source code.
    Variables d d' : disk.
    Variables s s' : csim.
    Variables w w' : world.
    Variables pr pr' : prog.
    Variables insts insts' : dict instance.
    Variables L L' : comp_lineage.
    Hypothesis NC : no_collision sha.
    Hypothesis P : parts plugins (cs_k s) w pr insts.
    Hypothesis P' : parts plugins' (cs_k s') w' pr' insts'.
    Hypothesis D : declared plugins.
    Hypothesis D' : declared plugins'.
    Hypothesis HL : lineage sha code d src s w = Ok L.
    Hypothesis HL' : lineage sha code d' src' s' w' = Ok L'.
    Hypothesis SL : same_lineage L L'.
    Hypothesis SC : same_classes plugins plugins' src src'.
    Hypothesis SS : same_scalers plugins plugins' (pr_imports pr) (k_llh (cs_k s)) (w_cache w) (w_cache w').

    Lemma same_prog : pr = pr'.
    Proof.
      destruct (lineage_parts _ _ _ _ _ _ _ _ P HL) as (_ & _ & A & _).
      destruct (lineage_parts _ _ _ _ _ _ _ _ P' HL') as (_ & _ & A' & _).
      destruct SL as (_ & _ & C & _). congruence.
    Qed.

    Lemma same_rate_norm_bins : k_rate (cs_k s) = k_rate (cs_k s') /\ cs_norm s = cs_norm s' /\
      cs_bins s = cs_bins s'.
    Proof.
      destruct (lineage_parts _ _ _ _ _ _ _ _ P HL) as (A1 & A2 & _ & A3 & _).
      destruct (lineage_parts _ _ _ _ _ _ _ _ P' HL') as (A1' & A2' & _ & A3' & _).
      destruct SL as (B1 & B2 & _ & B3 & _). repeat split; congruence.
    Qed.

    Lemma required_built llh cf b c : built_of (Some llh) cf b ->
      snd (required_parameter (b_config b) None c) = snd (required_parameter cf (Some llh) c).
    Proof.
      intros (B1 & B2 & B3 & B4 & B5). unfold required_parameter. rewrite B2.
      destruct (c_kind cf) eqn:K; try reflexivity.
      unfold get_configs, get_default. rewrite B3, B1, B5 by reflexivity. reflexivity.
    Qed.

    Lemma same_instance n i i' : get n insts = Some i -> get n insts' = Some i' ->
      s_code (src (p_name (i_class i))) = s_code (src' (p_name (i_class i'))) /\
      i_llh i = i_llh i' /\
      forall a, holds code d src (w_cache w) i a = holds code d' src' (w_cache w') i' a.
    Proof.
      intros Hi Hi'.
      assert (Hn : In n (map fst (pr_insts pr))) by (apply (pt_keys _ _ _ _ _ P), get_In_keys; eauto).
      apply in_map_iff in Hn. destruct Hn as ([n0 pn] & Hn0 & Hin). cbn in Hn0. subst n0.
      assert (Hin' : In (n, pn) (pr_insts pr')) by (rewrite <- same_prog; exact Hin).
      destruct (pt_inst _ _ _ _ _ P _ _ Hin) as (j & p & J1 & J2 & J3 & J4 & J5 & J6 & J7).
      destruct (pt_inst _ _ _ _ _ P' _ _ Hin') as (j' & p' & J1' & J2' & J3' & J4' & J5' & J6' & J7').
      rewrite Hi in J1. injection J1 as <-. rewrite Hi' in J1'. injection J1' as <-.
      rewrite J3, J3', J4, J4'. destruct (SC _ _ _ J2 J2') as [C1 C2].
      split; [exact C1|]. split; [rewrite J5, J5', same_prog; reflexivity|]. intros a.
      destruct (lineage_parts _ _ _ _ _ _ _ _ P HL) as (_ & _ & _ & _ & _ & E).
      destruct (lineage_parts _ _ _ _ _ _ _ _ P' HL') as (_ & _ & _ & _ & _ & E').
      destruct (E _ _ Hi) as (l & El & Pl). destruct (E' _ _ Hi') as (l' & El' & Pl').
      destruct SL as (_ & _ & _ & _ & SI). specialize (SI n). rewrite El, El' in SI.
      destruct SI as (_ & _ & _ & SE). specialize (SE a).
      unfold plugin_lineage_of in Pl, Pl'. rewrite J3, J4, J6 in Pl. rewrite J3', J4', J6' in Pl'.
      destruct (all_ok _) as [ls|e] eqn:A in Pl; cbn [bind] in Pl; [|discriminate].
      destruct (all_ok _) as [ls'|e] eqn:A' in Pl'; cbn [bind] in Pl'; [|discriminate].
      injection Pl as <-. injection Pl' as <-. cbn [pl_configs] in SE.
      apply all_ok_map in A. apply all_ok_map in A'.
      destruct (D _ _ J2) as [K1 K2]. destruct (D' _ _ J2') as [K1' K2'].
      pose proof (get_combine _ a (i_built i) (keys (p_configs p)) ls
        (eq_trans (built_names _ _ _ J7) (eq_sym K1)) A) as G.
      pose proof (get_combine _ a (i_built i') (keys (p_configs p')) ls'
        (eq_trans (built_names _ _ _ J7') (eq_sym K1')) A') as G'.
      unfold holds. fold (find_config a (i_built i)) (find_config a (i_built i')).
      rewrite J3, J3', J4, J4'.
      destruct (find_config a (i_built i)) as [b|] eqn:F, (find_config a (i_built i')) as [b'|] eqn:F'.
      - destruct G as (lb & G & Gb). destruct G' as (lb' & G' & Gb'). rewrite G, G' in SE.
        injection SE as <-.
        unfold find_config in F, F'.
        apply List.find_some in F. apply List.find_some in F'.
        destruct F as [F1 F2]. destruct F' as [F1' F2'].
        apply String.eqb_eq in F2. apply String.eqb_eq in F2'.
        destruct (built_in _ _ _ _ J7 F1) as (cf & Q1 & Q2).
        destruct (built_in _ _ _ _ J7' F1') as (cf' & Q1' & Q2').
        pose proof Q2 as (R1 & R2 & _). pose proof Q2' as (R1' & R2' & _).
        rewrite (same_held NC d d' (w_cache w) (w_cache w') (src pn) (src' pn) b b' lb); auto.
        + rewrite R2, R2'. apply (C2 a cf cf'); auto; congruence.
        + rewrite (required_built _ _ _ _ Q2), (required_built _ _ _ _ Q2').
          replace (pr_llh pr') with (pr_llh pr) by (rewrite same_prog; reflexivity).
          rewrite (pt_llh _ _ _ _ _ P). apply (SS pn p p'); auto; [|congruence].
          rewrite (pt_imports _ _ _ _ _ P). apply in_map_iff. exists (n, pn). auto.
      - destruct G as (lb & G & Gb). congruence.
      - destruct G' as (lb & G' & Gb). congruence.
      - reflexivity.
    Qed.

    Variable V : Type.
    Variable call : code -> option string -> (string -> option held) -> list V -> result (list V).
    Hypothesis RA : reads_attributes call.

    Lemma same_sim key batch params :
      sim code V call d src (w_cache w) s key batch params =
      sim code V call d' src' (w_cache w') s' key batch params.
    Proof.
      unfold sim, simulate. rewrite (pt_sim _ _ _ _ _ P), (pt_sim _ _ _ _ _ P').
      unfold run_closure. cbn [cl_prog cl_insts]. rewrite <- same_prog. apply run_prog_ext.
      intros n args. unfold call_instance.
      destruct (get n insts) as [i|] eqn:Hi, (get n insts') as [i'|] eqn:Hi'.
      - destruct (same_instance _ _ _ Hi Hi') as (A & B & C). unfold instance_call.
        rewrite A, B. apply RA. exact C.
      - exfalso. assert (In n (keys insts')) as Hk.
        { apply (pt_keys _ _ _ _ _ P'). rewrite <- same_prog. apply (pt_keys _ _ _ _ _ P).
          apply get_In_keys. eauto. }
        apply get_In_keys in Hk. destruct Hk. congruence.
      - exfalso. assert (In n (keys insts)) as Hk.
        { apply (pt_keys _ _ _ _ _ P). rewrite same_prog. apply (pt_keys _ _ _ _ _ P').
          apply get_In_keys. eauto. }
        apply get_In_keys in Hk. destruct Hk. congruence.
      - reflexivity.
    Qed.

    Lemma same_hist ones post key batch params :
      k_noeff (cs_k s) = k_noeff (cs_k s') -> cs_eps s = cs_eps s' ->
      simulate_hist code V call ones post d src (w_cache w) s key batch params =
      simulate_hist code V call ones post d' src' (w_cache w') s' key batch params.
    Proof.
      intros H1 H2. unfold simulate_hist. rewrite same_sim.
      destruct same_rate_norm_bins as (A & B & C). rewrite H1, H2, A, B, C. reflexivity.
    Qed.
  End Two.
End Lin.

(** ** The file name of a path *)

Lemma has_slash_app l r : has_slash (l ++ "/" ++ r) = true.
Proof.
  induction l as [|c l IH]; cbn [String.append has_slash].
  - reflexivity.
  - cbn in IH. rewrite IH. apply orb_true_r.
Qed.

Lemma has_slash_split s : has_slash s = true -> exists l r, s = (l ++ "/" ++ r)%string.
Proof.
  induction s as [|c s IH]; cbn [has_slash]; [discriminate|].
  destruct (Ascii.eqb c "/") eqn:E; cbn [orb].
  - intros _. apply Ascii.eqb_eq in E. subst c. exists "", s. reflexivity.
  - intros H. destruct (IH H) as (l & r & ->). exists (String c l), r. reflexivity.
Qed.

Lemma no_slash_has b : has_slash b = false -> no_slash b.
Proof. intros H l r ->. rewrite has_slash_app in H. discriminate. Qed.

Lemma base_name_part s : file_part s (base_name s).
Proof.
  unfold file_part. induction s as [|c s IH].
  - cbn. split; [apply no_slash_has; reflexivity|auto].
  - cbn [base_name]. destruct (has_slash (String c s)) eqn:E.
    + destruct IH as [N H]. split; [exact N|]. right.
      destruct H as [H|(dir & H)].
      * exists "". cbn [has_slash] in E.
        assert (F : has_slash s = false).
        { destruct (has_slash s) eqn:F; [|reflexivity]. exfalso.
          apply has_slash_split in F. destruct F as (l & r & F). apply (N l r). congruence. }
        rewrite F, orb_false_r in E. apply Ascii.eqb_eq in E. subst c. cbn. f_equal. exact H.
      * exists (String c dir). cbn. f_equal. exact H.
    + split; [apply no_slash_has; exact E|auto].
Qed.

Lemma file_part_base s b : file_part s b -> base_name s = b.
Proof.
  intros [N H].
  assert (F : has_slash b = false).
  { destruct (has_slash b) eqn:F; [|reflexivity]. exfalso.
    apply has_slash_split in F. destruct F as (l & r & F). exact (N l r F). }
  assert (B : base_name b = b).
  { destruct b as [|c b]; [reflexivity|]. cbn [base_name]. rewrite F. reflexivity. }
  destruct H as [->|(dir & ->)]; [exact B|].
  induction dir as [|c dir IH].
  - exact B.
  - cbn [String.append base_name].
    replace (has_slash (String c (dir ++ String "/" b))) with true; [exact IH|].
    symmetry. exact (has_slash_app (String c dir) b).
Qed.

Section Moved.
  Variable sha : string -> string.
  Variable code : Type.

  Lemma moved_map d d' c c' llh m v v' : same_file d d' c c' v v' ->
    one_map_lineage sha d c llh m v = one_map_lineage sha d' c' llh m v'.
  Proof.
    intros (s & s' & b & p & p' & bytes & -> & -> & Hb & Hb' & Hp & Hp' & Hr & Hr'). unfold one_map_lineage, read_file.
    rewrite Hp, Hp', Hr, Hr', (file_part_base _ _ Hb), (file_part_base _ _ Hb'). reflexivity.
  Qed.

  Lemma moved_config d d' c c' (src src' : source code) b b' :
    (forall n, s_method src n = s_method src' n) -> moved d d' c c' b b' ->
    config_lineage_of sha code d c src b = config_lineage_of sha code d' c' src' b'.
  Proof.
    intros Hm [Hc Hv]. unfold config_lineage_of. rewrite <- Hc, Hm.
    destruct (c_kind (b_config b)); try (rewrite Hv; reflexivity).
    - destruct Hv as [|v v' ? ? E []]; try reflexivity.
      rewrite (moved_map _ _ _ _ _ _ _ _ E). reflexivity.
    - assert (E : forall l m, map (one_map_lineage sha d c l m) (b_values b) =
                   map (one_map_lineage sha d' c' l m) (b_values b')).
      { intros l m. induction Hv as [|v v' vs vs' E Hv IH]; cbn; [reflexivity|].
        rewrite (moved_map _ _ _ _ _ _ _ _ E), IH. reflexivity. }
      rewrite E. reflexivity.
  Qed.

  Lemma moved_lineage plugins plugins' d d' (src src' : string -> source code) s s' w w' pr insts pr' insts' :
    parts plugins (cs_k s) w pr insts -> parts plugins' (cs_k s') w' pr' insts' ->
    (forall n c, s_method (src n) c = s_method (src' n) c) ->
    moved_component d d' (w_cache w) (w_cache w') s s' ->
    lineage sha code d src s w = lineage sha code d' src' s' w'.
  Proof.
    intros P P' Hm (M1 & M2 & M3 & cl & cl' & M4 & M5 & M6 & M7).
    rewrite (pt_sim _ _ _ _ _ P) in M4. injection M4 as <-.
    rewrite (pt_sim _ _ _ _ _ P') in M5. injection M5 as <-. cbn in M6. subst pr'. cbn [cl_insts] in M7.
    unfold lineage. rewrite (pt_code _ _ _ _ _ P), (pt_code _ _ _ _ _ P').
    destruct (pt_ns _ _ _ _ _ P) as (a & -> & ->). destruct (pt_ns _ _ _ _ _ P') as (a' & -> & ->).
    cbn [cl_insts]. rewrite M1, M2, M3. f_equal. f_equal. apply map_ext_in. intros n Hn.
    apply in_map_iff in Hn. destruct Hn as ([n0 pn] & Hn0 & Hin). cbn in Hn0. subst n0.
    destruct (pt_inst _ _ _ _ _ P _ _ Hin) as (i & p & J1 & J2 & J3 & J4 & J5 & J6 & J7).
    destruct (pt_inst _ _ _ _ _ P' _ _ Hin) as (i' & p' & J1' & J2' & J3' & J4' & J5' & J6' & J7').
    rewrite J1, J1'. destruct (M7 _ _ _ J1 J1') as [C B]. f_equal.
    unfold plugin_lineage_of. rewrite <- C, J3, J4, J6, J6'. f_equal. f_equal.
    clear - B Hm. induction B as [|b b' bs bs' E B IH]; cbn [map]; [reflexivity|].
    f_equal; [|exact IH]. apply moved_config; [apply Hm|exact E].
  Qed.

  Lemma dump_fails plugins d (src : string -> source code) s w pr insts n pn p cf L :
    parts plugins (cs_k s) w pr insts -> In (n, pn) (pr_insts pr) -> plugins pn = Some p ->
    In cf (map snd (p_configs p)) -> c_kind cf = KConstantSet ->
    lineage sha code d src s w = Ok L ->
    dump_lineage sha code d src s w = Err TypeError.
  Proof.
    intros P Hin Hp Hcf K HL. unfold dump_lineage. rewrite HL. cbn [bind].
    rewrite (pt_sim _ _ _ _ _ P). cbn [cl_insts].
    destruct (pt_inst _ _ _ _ _ P _ _ Hin) as (i & p' & J1 & J2 & J3 & J4 & J5 & J6 & J7).
    rewrite Hp in J2. injection J2 as <-.
    match goal with |- (if ?x then _ else _) = _ => replace x with true; [reflexivity|] end.
    symmetry. apply existsb_exists. exists (n, i). split; [exact (get_In _ _ _ J1)|]. cbn [snd].
    rewrite J3, J4, J6. apply existsb_exists.
    clear - J7 Hcf K. induction J7 as [|cf0 b cfs bs H J7 IH]; cbn in *; [tauto|].
    destruct Hcf as [->|Hcf].
    - exists b. split; [auto|]. unfold has_array. destruct H as (_ & H & _). rewrite H, K. reflexivity.
    - destruct (IH Hcf) as (b' & Hb & Hh). eauto.
  Qed.
End Moved.

Lemma dump_works sha code plugins d (src : string -> source code) s w pr insts :
  parts plugins (cs_k s) w pr insts ->
  (forall pn p cf, In pn (pr_imports pr) -> plugins pn = Some p -> In cf (map snd (p_configs p)) ->
     c_kind cf <> KConstantSet) ->
  dump_lineage sha code d src s w = lineage sha code d src s w.
Proof.
  intros P H. pose proof (pt_unique _ _ _ _ _ P) as ND. unfold dump_lineage. rewrite (pt_sim _ _ _ _ _ P). cbn [cl_insts].
  destruct (lineage sha code d src s w) as [L|e]; [cbn [bind]|reflexivity].
  match goal with |- (if ?x then _ else _) = _ => replace x with false; [reflexivity|] end.
  symmetry. apply not_true_is_false. intros E. apply existsb_exists in E.
  destruct E as ([n i] & Hi & E). cbn [snd] in E. apply existsb_exists in E. destruct E as (b & Hb & Hh).
  assert (Hn : In n (map fst (pr_insts pr))).
  { apply (pt_keys _ _ _ _ _ P). unfold keys. apply in_map_iff. exists (n, i). auto. }
  apply in_map_iff in Hn. destruct Hn as ([n0 pn] & Hn0 & Hin). cbn in Hn0. subst n0.
  destruct (pt_inst _ _ _ _ _ P _ _ Hin) as (j & p & J1 & J2 & J3 & J4 & J5 & J6 & J7).
  assert (get n insts = Some i) as G by (apply In_get; assumption). rewrite J1 in G. injection G as ->.
  rewrite J3, J4, J6 in Hb. destruct (built_in _ _ _ _ J7 Hb) as (cf & C1 & C2).
  apply (H pn p cf); auto.
  - rewrite (pt_imports _ _ _ _ _ P). apply in_map_iff. exists (n, pn). auto.
  - destruct C2 as (_ & C2 & _). unfold has_array in Hh. rewrite C2 in Hh.
    destruct (c_kind cf); [discriminate|discriminate|discriminate|reflexivity].
Qed.

(** ** What a lineage records *)

Lemma map_entry_of sha d c llh m v ml :
  one_map_lineage sha d c llh m v = Ok ml -> map_entry sha d c llh m v ml.
Proof.
  unfold one_map_lineage, map_entry. intros H. destruct v as [| | |s| |]; try discriminate.
  cbn [read_file] in H. destruct (snd (get_file_path (d_fs d) s c)) as [p|e] eqn:G; cbn [bind] in H; [|discriminate].
  destruct (d_bytes d p) as [b|] eqn:B; cbn [bind] in H; [|discriminate].
  injection H as <-. exists s, p, b. cbn. repeat (split; [first [reflexivity|assumption]|]).
  split; [apply base_name_part|reflexivity].
Qed.

Lemma map_entries_of sha d c llh m : forall vs ms,
  map (one_map_lineage sha d c llh m) vs = map Ok ms -> Forall2 (map_entry sha d c llh m) vs ms.
Proof.
  induction vs as [|v vs IH]; intros [|x ms] H; try discriminate; [constructor|].
  cbn [map] in H. injection H as H1 H2. constructor; [exact (map_entry_of _ _ _ _ _ _ _ H1)|exact (IH _ H2)].
Qed.

Lemma zip_values_get n : forall names vals acc x,
  get n (zip_values names vals acc) = Some x <->
  named_value names vals n x \/
  ((forall i, nth_error names i = Some (VStr n) -> nth_error vals i = None) /\ get n acc = Some x).
Proof.
  assert (Hnil : forall names vals (acc : dict value) x, (names = [] \/ vals = []) ->
    (get n acc = Some x <->
     named_value names vals n x \/
     ((forall i, nth_error names i = Some (VStr n) -> nth_error vals i = None) /\ get n acc = Some x))).
  { intros names vals acc x H. split.
    - intros G. right. split; [|exact G]. intros i Hi.
      destruct H as [-> | ->]; [destruct i; discriminate|destruct i; reflexivity].
    - intros [(i & A & B & _)|[_ G]]; [|exact G].
      destruct H as [-> | ->]; [destruct i; discriminate|destruct i; discriminate]. }
  induction names as [|k names IH]; intros vals acc x; [cbn [zip_values]; apply Hnil; auto|].
  destruct vals as [|v vals].
  { destruct k; cbn [zip_values]; apply Hnil; auto. }
  assert (Hskip : k <> VStr n ->
    (named_value names vals n x \/
      ((forall i, nth_error names i = Some (VStr n) -> nth_error vals i = None) /\ get n acc = Some x)) <->
    (named_value (k :: names) (v :: vals) n x \/
      ((forall i, nth_error (k :: names) i = Some (VStr n) -> nth_error (v :: vals) i = None) /\ get n acc = Some x))).
  { intros Hk. split.
    - intros [(i & A & B & C)|[A G]].
      + left. exists (S i). cbn. split; [exact A|]. split; [exact B|]. intros [|j] Hj Hn; [lia|].
        cbn in Hn |- *. apply C; [lia|exact Hn].
      + right. split; [|exact G]. intros [|i] Hi; cbn in Hi |- *; [congruence|auto].
    - intros [(i & A & B & C)|[A G]].
      + left. destruct i as [|i]; cbn in A, B; [congruence|]. exists i. split; [exact A|]. split; [exact B|].
        intros j Hj Hn. apply (C (S j)); [lia|exact Hn].
      + right. split; [|exact G]. intros i Hi. exact (A (S i) Hi). }
  destruct k as [| | |s| |]; cbn [zip_values];
    try (rewrite IH; apply Hskip; discriminate).
  rewrite IH. destruct (String.string_dec s n) as [->|Hs].
  - rewrite get_set_eq. split.
    + intros [(i & A & B & C)|[A G]].
      * left. exists (S i). cbn. split; [exact A|]. split; [exact B|]. intros [|j] Hj Hn; [lia|].
        cbn in Hn |- *. apply C; [lia|exact Hn].
      * injection G as ->. left. exists 0. cbn. repeat (split; [reflexivity|]).
        intros [|j] Hj Hn; [lia|]. cbn in Hn |- *. auto.
    + intros [(i & A & B & C)|[A _]].
      * destruct i as [|i]; cbn in A, B.
        -- injection B as ->. right. split; [|reflexivity]. intros i Hi. apply (C (S i)); [lia|exact Hi].
        -- left. exists i. split; [exact A|]. split; [exact B|].
           intros j Hj Hn. apply (C (S j)); [lia|exact Hn].
      * specialize (A 0 eq_refl). discriminate.
  - rewrite get_set_neq by congruence. apply Hskip. congruence.
Qed.

Section Records.
  Variables (sha : string -> string) (code : Type).

  Lemma config_entry_of d c (src : source code) b e :
    config_lineage_of sha code d c src b = Ok e ->
    config_entry sha d c (s_method src (c_name (b_config b))) b e.
  Proof.
    unfold config_lineage_of, config_entry. intros H. destruct (c_kind (b_config b)) eqn:K.
    - destruct (b_values b) as [|v [|? ?]]; try discriminate. injection H as <-. eauto.
    - destruct (b_values b) as [|v [|? ?]]; try discriminate.
      destruct (one_map_lineage _ _ _ _ _ _) as [m|x] eqn:E; cbn [bind] in H; [|discriminate].
      injection H as <-. exists v, m. repeat (split; [reflexivity|]). exact (map_entry_of _ _ _ _ _ _ _ E).
    - destruct (all_ok _) as [ms|x] eqn:E in H; cbn [bind] in H.
      + injection H as <-. exists ms. split; [reflexivity|]. apply all_ok_map in E.
        exact (map_entries_of _ _ _ _ _ _ _ E).
      + destruct (b_values b) as [|v [|? ?]]; discriminate.
    - destruct (b_values b) as [|v [|? ?]]; try discriminate. injection H as <-.
      exists v. split; [reflexivity|]. intros names vals ->. cbn [set_values]. eexists. split; [reflexivity|].
      intros n x. rewrite zip_values_get. cbn [get]. split; [intros [H|[_ H]]; [exact H|discriminate]|auto].
  Qed.

  Lemma entries_of d c (src : source code) n : forall bs ks ls,
    map (fun b => c_name (b_config b)) bs = ks -> NoDup ks ->
    map (config_lineage_of sha code d c src) bs = map Ok ls ->
    (forall b, In b bs -> exists e, get (c_name (b_config b)) (combine ks ls) = Some e /\
       config_lineage_of sha code d c src b = Ok e) /\
    (In n (keys (combine ks ls)) <-> In n ks).
  Proof.
    induction bs as [|b bs IH]; intros ks ls <- ND H; destruct ls as [|l ls]; try discriminate.
    - cbn. split; [tauto|reflexivity].
    - cbn [map] in *. injection H as H1 H2. inversion ND as [|? ? Hn ND']; subst.
      destruct (IH _ _ eq_refl ND' H2) as [A B]. split.
      + intros b' [<-|Hb']; cbn [combine get].
        * rewrite String.eqb_refl. eauto.
        * destruct (String.eqb _ _) eqn:E; [|exact (A b' Hb')].
          apply String.eqb_eq in E. exfalso. apply Hn. rewrite <- E.
          apply in_map_iff. exists b'. auto.
      + cbn [combine keys map fst In]. unfold keys in B. rewrite B. reflexivity.
  Qed.

  Lemma records plugins d (src : string -> source code) s w pr insts L :
    parts plugins (cs_k s) w pr insts -> declared plugins -> lineage sha code d src s w = Ok L ->
    forall n pn, In (n, pn) (pr_insts pr) -> exists p i l,
      plugins pn = Some p /\ get n insts = Some i /\ get n (l_insts L) = Some l /\
      pl_depends l = p_depends p /\ pl_provides l = p_provides p /\ pl_params l = p_params p /\
      (forall a, In a (keys (pl_configs l)) <-> In a (keys (p_configs p))) /\
      forall b, In b (i_built i) -> exists e, get (c_name (b_config b)) (pl_configs l) = Some e /\
        config_entry sha d (w_cache w) (s_method (src pn) (c_name (b_config b))) b e.
  Proof.
    intros P D HL n pn Hin.
    destruct (lineage_parts _ _ _ _ _ _ _ _ _ _ P HL) as (_ & _ & _ & _ & _ & A).
    destruct (pt_inst _ _ _ _ _ P _ _ Hin) as (i & p & J1 & J2 & J3 & J4 & J5 & J6 & J7).
    destruct (A _ _ J1) as (l & A1 & A2). exists p, i, l. repeat (split; [assumption|]).
    unfold plugin_lineage_of in A2. rewrite J3, J4, J6 in A2.
    destruct (all_ok _) as [ls|e] eqn:E in A2; cbn [bind] in A2; [|discriminate].
    injection A2 as <-. cbn [pl_depends pl_provides pl_params pl_configs].
    repeat (split; [reflexivity|]). apply all_ok_map in E.
    destruct (D _ _ J2) as [D1 D2].
    assert (K : map (fun b => c_name (b_config b)) (i_built i) = keys (p_configs p)).
    { rewrite D1. exact (built_names _ _ _ J7). }
    split.
    - intros a. exact (proj2 (entries_of _ _ _ a _ _ _ K D2 E)).
    - intros b Hb. destruct (proj1 (entries_of _ _ _ "" _ _ _ K D2 E) b Hb) as (e & B1 & B2).
      exists e. split; [exact B1|]. exact (config_entry_of _ _ _ _ _ B2).
  Qed.
End Records.
