(** Lemmas about the profiler (C92). *)
From Coq Require Import Reals Lra Lia.
From Verif Require Import Base BaseFacts ModelFloat ModelShare ModelConfig ModelComponent SpecComponent
  SpecConfig ModelCompile SpecCompile ProofComponent ProofWorkflow ProofSim ProofCompile SpecBuild
  ProofBuild ModelLikelihood ModelProfiler SpecProfiler.
Local Open Scope string_scope.
Local Open Scope list_scope.

Section Profiler.
  Variable V : Type.
  Variable isem : instance -> list V -> result (list V).
  Variable clock : nat -> R.
  Hypothesis Hsem : answers isem.

  Notation call_once := (call_once V isem).
  Notation warmup := (warmup V isem).
  Notation timed := (timed V isem clock).
  Notation Runs := (Runs V isem).
  Notation Profiled := (Profiled V isem).

  Lemma runs_app i pars argv n m k k1 k2 cs cs' vs vs' :
    Runs i pars argv n k cs k1 vs -> Runs i pars argv m k1 cs' k2 vs' ->
    Runs i pars argv (n + m) k (cs ++ cs') k2 vs'.
  Proof.
    intros H H'. induction H as [k k1 vs E|n k k1 k3 vs vs1 cs E H IH]; cbn; econstructor; eauto.
  Qed.

  Lemma call_answers i pars args s : List.length args = List.length (p_depends (i_class i)) ->
    exists k vs, isem i (s_key s :: pars :: args) = Ok (k :: vs) /\
      List.length vs = List.length (p_provides (i_class i)) /\
      call_once i pars args s =
        (mk_pst k (s_tick s) (s_calls s ++ [(i, s_key s :: pars :: args)]), Ok vs).
  Proof.
    intros Hl. destruct (Hsem i (s_key s :: pars :: args)) as (k & vs & E & L).
    { cbn [List.length]. lia. }
    exists k, vs. split; [exact E|]. split; [exact L|]. unfold call_once. cbn zeta. rewrite E. reflexivity.
  Qed.

  (** What [n] runs did: nothing at all, or [Runs]. *)
  Definition ran (i : instance) (pars : V) (args : list V) (n : nat) (last last' : option (list V))
      (s s' : pst V) : Prop :=
    exists cs, s_calls s' = s_calls s ++ cs /\
      ((n = 0 /\ last' = last /\ s_key s' = s_key s /\ cs = []) \/
       exists vs, last' = Some vs /\ List.length vs = List.length (p_provides (i_class i)) /\
         Runs i pars args n (s_key s) cs (s_key s') vs).

  Lemma ran_step i pars args n k vs s last' s' :
    isem i (s_key s :: pars :: args) = Ok (k :: vs) ->
    List.length vs = List.length (p_provides (i_class i)) ->
    forall t1, ran i pars args n (Some vs) last' (mk_pst k t1 (s_calls s ++ [(i, s_key s :: pars :: args)])) s' ->
    forall last, ran i pars args (S n) last last' s s'.
  Proof.
    intros E L t1 (cs & Hc & H) last. exists ((i, s_key s :: pars :: args) :: cs). cbn [s_calls] in Hc.
    rewrite Hc, <- app_assoc. split; [reflexivity|]. right. destruct H as [(-> & -> & H2 & ->)|(vs' & -> & L' & H)].
    - exists vs. split; [reflexivity|]. split; [exact L|]. cbn [s_key] in H2. rewrite H2. constructor. exact E.
    - exists vs'. split; [reflexivity|]. split; [exact L'|]. cbn [s_key] in H. econstructor; eauto.
  Qed.

  Lemma warmup_ran i pars args : List.length args = List.length (p_depends (i_class i)) ->
    forall n last s, exists s' last',
      warmup n i pars args last s = (s', Ok last') /\ s_tick s' = s_tick s /\
      ran i pars args n last last' s s'.
  Proof.
    intros Hl. induction n as [|n IH]; intros last s; cbn [ModelProfiler.warmup].
    - exists s, last. split; [reflexivity|]. split; [reflexivity|]. exists []. rewrite app_nil_r. split; [reflexivity|]. left. auto.
    - destruct (call_answers i pars args s Hl) as (k & vs & E & L & Ec). rewrite Ec.
      destruct (IH (Some vs) (mk_pst k (s_tick s) (s_calls s ++ [(i, s_key s :: pars :: args)])))
        as (s' & last' & E' & T & H).
      exists s', last'. split; [exact E'|]. split; [exact T|]. eapply ran_step; eauto.
  Qed.

  (** The times of [n] runs, the first of which starts at reading [t]. *)
  Fixpoint run_times (t n : nat) : list R :=
    match n with
    | O => []
    | S n' => ((clock (S t) - clock t) * 1000)%R :: run_times (S (S t)) n'
    end.

  Lemma timed_ran i pars args : List.length args = List.length (p_depends (i_class i)) ->
    forall n last times s, exists s' last',
      timed n i pars args last times s = (s', Ok (last', times ++ run_times (s_tick s) n)) /\
      s_tick s' = s_tick s + 2 * n /\ ran i pars args n last last' s s'.
  Proof.
    intros Hl. induction n as [|n IH]; intros last times s; cbn [ModelProfiler.timed run_times].
    - exists s, last. rewrite app_nil_r. split; [reflexivity|]. split; [lia|]. exists []. rewrite app_nil_r. split; [reflexivity|]. left. auto.
    - unfold read_clock.
      destruct (call_answers i pars args (mk_pst (s_key s) (S (s_tick s)) (s_calls s)) Hl) as (k & vs & E & L & Ec).
      rewrite Ec. cbn [s_key s_tick s_calls] in *.
      match goal with |- context [timed n i pars args (Some vs) ?ts ?s2] =>
        destruct (IH (Some vs) ts s2) as (s' & last' & E' & T & H) end.
      exists s', last'. rewrite E'. cbn [s_tick] in *. rewrite <- app_assoc. split; [reflexivity|].
      split; [lia|]. eapply ran_step; eauto.
  Qed.

  Lemma outputs_ok : forall names vs out, NoDup names -> List.length vs = List.length names ->
    (forall x, In x names -> ~ In x (keys out)) -> NoDup (keys out) ->
    exists o, outputs V names vs out = Ok o /\ NoDup (keys o) /\
      (forall x, In x (keys o) <-> In x (keys out) \/ In x names) /\
      map (fun x => get x o) names = map Some vs /\
      (forall x, ~ In x names -> get x o = get x out).
  Proof.
    induction names as [|x names IH]; intros [|v vs] out Hnd Hl Hd Ho; try discriminate Hl; cbn [outputs].
    - exists out. split; [reflexivity|]. split; [exact Ho|]. split; [intros x; cbn; tauto|].
      split; [reflexivity|auto].
    - inversion Hnd as [|? ? Hx Hnd']; subst. cbn [List.length] in Hl.
      destruct (IH vs (set x v out) Hnd') as (o & E & N & K & M & G); [lia| | |].
      + intros y Hy Hi. apply keys_set_In in Hi. destruct Hi as [->|Hi]; [contradiction|].
        apply (Hd y); [right; exact Hy|exact Hi].
      + apply NoDup_set. exact Ho.
      + exists o. split; [exact E|]. split; [exact N|]. split.
        { intros y. rewrite K, keys_set_In. cbn [In]. intuition. }
        split.
        * cbn [map]. rewrite (G x Hx), get_set_eq. f_equal. exact M.
        * intros y Hy. cbn [In] in Hy. rewrite G by tauto. apply get_set_neq. intros ->. tauto.
  Qed.

  Lemma inputs_ok store : forall names, (forall x, In x names -> In x (keys store)) ->
    exists vs, inputs V store names = Ok vs /\ map (fun x => get x store) names = map Some vs.
  Proof.
    induction names as [|x names IH]; intros H; cbn [inputs]; [exists []; auto|].
    destruct (get x store) as [v|] eqn:E.
    - destruct IH as (vs & -> & M); [intros y Hy; apply H; right; exact Hy|].
      exists (v :: vs). split; [reflexivity|]. cbn [map]. rewrite E, M. reflexivity.
    - exfalso. apply get_None_keys in E. apply E. apply H. left. reflexivity.
  Qed.

  Lemma profile_plugin_ok i pars store nw nr s :
    0 < nw + nr -> NoDup (p_provides (i_class i)) -> p_provides (i_class i) <> [] ->
    (forall x, In x (p_depends (i_class i)) -> In x (keys store)) ->
    exists s' o argv vs cs,
      profile_plugin V isem clock i pars store nw nr s =
        (s', Ok (o, mean_time (run_times (s_tick s) nr), std_time (run_times (s_tick s) nr))) /\
      s_tick s' = s_tick s + 2 * nr /\ s_calls s' = s_calls s ++ cs /\
      map (fun x => get x store) (p_depends (i_class i)) = map Some argv /\
      Runs i pars argv (nw + nr) (s_key s) cs (s_key s') vs /\
      NoDup (keys o) /\ (forall x, In x (keys o) <-> In x (p_provides (i_class i))) /\
      map (fun x => get x o) (p_provides (i_class i)) = map Some vs.
  Proof.
    intros Hn Hnd Hne Hd. unfold profile_plugin.
    destruct (inputs_ok store _ Hd) as (argv & -> & Ma).
    assert (Hl : List.length argv = List.length (p_depends (i_class i))).
    { apply (f_equal (@List.length _)) in Ma. rewrite !map_length in Ma. congruence. }
    destruct (warmup_ran i pars argv Hl nw None s) as (s1 & l1 & -> & T1 & cs1 & C1 & R1).
    destruct (timed_ran i pars argv Hl nr l1 [] s1) as (s2 & l2 & -> & T2 & cs2 & C2 & R2).
    rewrite app_nil_l, T1.
    assert (R : exists vs, l2 = Some vs /\ List.length vs = List.length (p_provides (i_class i)) /\
      Runs i pars argv (nw + nr) (s_key s) (cs1 ++ cs2) (s_key s2) vs).
    { destruct R1 as [(-> & -> & K1 & ->)|(vs1 & -> & L1 & R1)];
        destruct R2 as [(-> & -> & K2 & ->)|(vs2 & -> & L2 & R2)].
      - lia.
      - exists vs2. rewrite K1 in R2. auto.
      - exists vs1. rewrite app_nil_r, Nat.add_0_r, K2. auto.
      - exists vs2. split; [reflexivity|]. split; [exact L2|]. eapply runs_app; eauto. }
    destruct R as (vs & -> & L & R).
    destruct (p_provides (i_class i)) as [|x0 xs] eqn:Hp; [congruence|]. rewrite <- Hp in *.
    destruct (outputs_ok (p_provides (i_class i)) vs [] Hnd L) as (o & Eo & No & Ko & Mo & _).
    { intros x _ []. } { constructor. }
    rewrite Eo.
    exists s2, o, argv, vs, (cs1 ++ cs2). split; [reflexivity|]. split; [lia|].
    split; [rewrite C2, C1, app_assoc; reflexivity|].
    split; [exact Ma|]. split; [exact R|]. split; [exact No|]. split; [|exact Mo].
    intros x. rewrite Ko. cbn. tauto.
  Qed.

  (** The readings of the clock that the plugins are timed with. *)
  Fixpoint plugin_times (t nr : nat) (ps : list plugin) : list (list R) :=
    match ps with
    | [] => []
    | _ :: ps' => run_times t nr :: plugin_times (t + 2 * nr) nr ps'
    end.

  Definition entries (t nr : nat) (ps : list plugin) : list prof :=
    map (fun pt => mk_prof (p_name (fst pt)) (p_provides (fst pt)) (p_depends (fst pt))
                     (mean_time (snd pt)) (std_time (snd pt)))
      (combine ps (plugin_times t nr ps)).

  Lemma profiled_ext llh E E' pars n k ps cs k' :
    (forall p x, In p ps -> In x (p_depends p) \/ In x (p_provides p) -> E' x = E x) ->
    Profiled llh E pars n k ps cs k' -> Profiled llh E' pars n k ps cs k'.
  Proof.
    intros H P. induction P as [k|k k1 k2 i p ps argv vs cs cs' H1 H2 H3 H4 H5 H6 IH]; [constructor|].
    econstructor; eauto.
    - rewrite <- H3. apply map_ext_in. intros x Hx. apply (H p); [left; reflexivity|auto].
    - rewrite <- H5. apply map_ext_in. intros x Hx. apply (H p); [left; reflexivity|auto].
    - apply IH. intros q x Hq Hx. apply (H q); [right; exact Hq|exact Hx].
  Qed.

  Section Works.
    Variables (f : fs) (U : string -> config -> Prop) (k : component) (pars : V) (nw nr : nat).
    Hypothesis Hsep : separate (in_use U).
    Hypothesis Hn : 0 < nw + nr.

    (** What the loop needs of the plugins [ps] when the names in [defined] have been computed. *)
    Fixpoint ready (defined : list string) (ps : list plugin) : Prop :=
      match ps with
      | [] => True
      | p :: ps' =>
          (exists d l, p_provides p = d :: l /\ get d (k_registry k) = Some p) /\
          proper_class p /\ (forall cf, In cf (map snd (p_configs p)) -> U (k_llh k) cf) /\
          NoDup (p_provides p) /\ (forall x, In x (p_provides p) -> ~ In x defined) /\
          (forall x, In x (p_depends p) -> In x defined) /\
          ready (p_provides p ++ defined) ps'
      end.

    Lemma ready_ext : forall ps d d', (forall x, In x d <-> In x d') -> ready d ps -> ready d' ps.
    Proof using U k.
      induction ps as [|p ps IH]; intros d d' H R; cbn [ready] in *; [exact I|].
      destruct R as (R1 & R2 & R3 & R4 & R5 & R6 & R7).
      split; [exact R1|]. split; [exact R2|]. split; [exact R3|]. split; [exact R4|].
      split; [intros x Hx Hi; apply (R5 x Hx), H, Hi|]. split; [intros x Hx; apply H, R6, Hx|].
      eapply IH; [|exact R7]. intros x. rewrite !in_app_iff. specialize (H x). clear - H. tauto.
    Qed.

    Lemma works_ok : forall ps store s w,
      NoDup (keys store) -> ready (keys store) ps -> all_usable f U (contents (w_cache w)) ->
      exists w' s' cs (E : string -> option V),
        profile_works V isem clock f k pars nw nr (map work_of ps) store s w =
          (w', s', Ok (entries (s_tick s) nr ps)) /\
        s_tick s' = s_tick s + 2 * nr * List.length ps /\
        s_calls s' = s_calls s ++ cs /\
        (forall x v, get x store = Some v -> E x = Some v) /\
        Profiled (k_llh k) E pars (nw + nr) (s_key s) ps cs (s_key s').
    Proof.
      induction ps as [|p ps IH]; intros store s w Hnd R Hus; cbn [map profile_works].
      - exists w, s, [], (fun x => get x store). split; [reflexivity|]. split; [cbn; lia|].
        rewrite app_nil_r. split; [reflexivity|]. split; [auto|constructor].
      - cbn [ready] in R. destruct R as ((d & l & Hp & Hg) & Hpc & Hcf & Hndp & Hnew & Hdef & R).
        cbn [work_of w_provides]. rewrite Hp. rewrite Hg.
        destruct (plugin_inits f U Hsep p (k_llh k) (w_cache w) Hpc Hcf Hus) as (c1 & bs & i & Ei & Hk).
        rewrite Ei.
        assert (Hi : i_class i = p /\ i_llh i = Some (k_llh k)).
        { unfold plugin_init in Ei. destruct (p_depends p); [discriminate Ei|].
          destruct (p_provides p); [discriminate Ei|].
          destruct (build_all f (map snd (p_configs p)) (Some (k_llh k)) (w_cache w)) as [[? ?] []];
            [|discriminate Ei]. destruct (sanity_check p); [|discriminate Ei].
          injection Ei as _ _ <-. auto. }
        destruct Hi as [Hi1 Hi2].
        destruct (profile_plugin_ok i pars store nw nr s Hn) as
          (s1 & o & argv & vs & cs1 & E1 & T1 & C1 & Ma & Rn & No & Ko & Mo).
        { rewrite Hi1. exact Hndp. } { rewrite Hi1, Hp. discriminate. } { rewrite Hi1. exact Hdef. }
        rewrite E1. rewrite Hi1 in Ma, Ko, Mo.
        match goal with |- context [profile_works V isem clock f k pars nw nr _ ?st ?s0 ?w0] =>
          destruct (IH st s0 w0) as (w' & s' & cs & E & E2 & T2 & C2 & X & P) end.
        { apply NoDup_update. exact Hnd. }
        { eapply ready_ext; [|exact R]. intros x. rewrite in_app_iff, keys_update_In, Ko. tauto. }
        { cbn [w_cache]. eauto using kept_usable. }
        rewrite E2.
        exists w', s', (cs1 ++ cs), E. split.
        { unfold entries. cbn [plugin_times combine map fst snd]. rewrite T1, Hp. reflexivity. }
        split; [cbn [List.length]; lia|]. split; [rewrite C2, C1, app_assoc; reflexivity|].
        assert (G : forall x, ~ In x (p_provides p) -> get x (update store o) = get x store).
        { intros x Hx. rewrite get_update by exact No. destruct (get x o) as [v|] eqn:Ex; [|reflexivity].
          exfalso. apply Hx, Ko. apply get_In_keys. eauto. }
        split.
        { intros x v Hx. apply X. rewrite G; [exact Hx|]. intros Hi. apply (Hnew x Hi).
          apply get_In_keys. eauto. }
        econstructor; [exact Hi1|exact Hi2| |exact Rn| |exact P].
        + clear - Ma X G Hnew Hdef. rewrite <- Ma. apply map_ext_in. intros x Hx.
          assert (Hs : In x (keys store)) by (apply Hdef, Hx).
          destruct (get x store) as [v|] eqn:Ex; [|apply get_None_keys in Ex; contradiction].
          apply X. rewrite G; [exact Ex|]. intros Hi. apply (Hnew x Hi Hs).
        + rewrite <- Mo. apply map_ext_in. intros x Hx. destruct (get x o) as [v|] eqn:Ex.
          * apply X. rewrite get_update by exact No. rewrite Ex. reflexivity.
          * apply get_None_keys in Ex. exfalso. apply Ex, Ko, Hx.
    Qed.
  End Works.
End Profiler.

(** * A component that has been built *)

Section Built.
  Variables (reg : registry) (llh : string) (names : list string) (deps : list plugin).
  Variable U : string -> config -> Prop.
  Variable k : component.
  Hypothesis Hreg : k_registry k = reg.
  Hypothesis Hllh : k_llh k = llh.
  Hypothesis Huniq : unique_names reg.
  Hypothesis Hprov : provides_ok reg.
  Hypothesis Hcons : consistent reg "batch_size" names.
  Hypothesis Hfrom : from reg "batch_size" names deps.
  Hypothesis Htail : TailClosed reg "batch_size" deps.
  Hypothesis Hcl : forall d p, Reach reg "batch_size" names d -> get d reg = Some p ->
    proper_class p /\ forall cf, In cf (map snd (p_configs p)) -> U llh cf.

  Lemma selected_ready : forall ps L1, selected deps = L1 ++ ps ->
    ready U k (flat_map p_provides L1 ++ ["batch_size"]) ps.
  Proof.
    induction ps as [|p ps IH]; intros L1 Hs; cbn [ready]; [exact I|].
    assert (Hin : In p deps).
    { apply (selected_in reg "batch_size" Huniq names deps p Hfrom). rewrite Hs. apply in_or_app. right. left. reflexivity. }
    destruct (Hfrom p Hin) as (d & Hd & Hg).
    destruct (Hcons d p Hd Hg) as [Hnd Hx]. destruct (Hcl d p Hd Hg) as [Hpc Hcf].
    assert (Hnodup : NoDup (map p_name (selected deps))) by apply first_by_name_NoDup.
    split.
    { destruct Hpc as (_ & Hne & _). destruct (p_provides p) as [|x l]; [congruence|].
      exists x, l. split; [reflexivity|]. rewrite Hreg. apply Hx. left. reflexivity. }
    split; [exact Hpc|]. split; [rewrite Hllh; exact Hcf|]. split; [exact Hnd|]. split.
    { intros x Hxp Hi. apply in_app_or in Hi. destruct Hi as [Hi|[<-|[]]].
      - apply in_flat_map in Hi. destruct Hi as (q & Hq & Hxq).
        assert (Hqin : In q deps).
        { apply (selected_in reg "batch_size" Huniq names deps q Hfrom). rewrite Hs. apply in_or_app. left. exact Hq. }
        destruct (Hfrom q Hqin) as (d' & Hd' & Hg').
        destruct (Hcons d' q Hd' Hg') as [_ Hxq']. destruct (Hxq' x Hxq) as [G1 _].
        destruct (Hx x Hxp) as [G2 _]. rewrite G1 in G2. injection G2 as ->.
        rewrite Hs, map_app in Hnodup. cbn [map] in Hnodup. apply NoDup_remove_2 in Hnodup.
        apply Hnodup. apply in_or_app. left. apply in_map. exact Hq.
      - destruct (Hx _ Hxp) as (_ & Hb & _). congruence. }
    split.
    { intros x Hxd. apply in_or_app. destruct (string_dec x "batch_size") as [->|Hb]; [right; left; reflexivity|].
      left. destruct (selected_order reg "batch_size" Huniq names deps L1 p ps Hfrom Htail Hs x Hxd Hb) as (q & Gq & Iq).
      apply in_flat_map. exists q. split; [exact Iq|]. exact (Hprov _ _ Gq). }
    eapply ready_ext; [|apply (IH (L1 ++ [p]))].
    - intros x. rewrite flat_map_app. cbn [flat_map]. rewrite app_nil_r, !in_app_iff. tauto.
    - rewrite <- app_assoc. exact Hs.
  Qed.
End Built.

Lemma compile_keeps f plugins k w w' k' r : compile f plugins k w = (w', k', r) ->
  k_registry k' = k_registry k /\ k_worksheet k' = k_worksheet k.
Proof.
  unfold compile. intros H. destruct (k_compile k) as [[pr a]|]; [|injection H as _ <- _; auto].
  destruct (imports_ok _ _); [|injection H as _ <- _; auto].
  destruct (instantiate _ _ _ _ _ _) as [w1 [insts|e]]; [|injection H as _ <- _; auto].
  destruct (get (k_llh k) _) as [a'|]; [|injection H as _ <- _; auto].
  destruct (get (k_func k) _) as [cl|]; injection H as _ <- _; auto.
Qed.

Lemma profile_built (V : Type) (isem : instance -> list V -> result (list V)) (clock : nat -> R)
    calls limit data_names func noeff f plugins k w w' k' pars batch nw nr key tick w0 :
  let reg := k_registry k in
  let names := output_names data_names noeff in
  answers isem ->
  reg = registry_after calls -> unique_names reg -> consistent reg "batch_size" names ->
  build_component limit data_names func "batch_size" noeff f plugins k w = (w', k', Ok tt) ->
  (forall d p, Reach reg "batch_size" names d -> get d reg = Some p -> proper_class p) ->
  separate (used_config reg "batch_size" names) ->
  (forall cf, used_config reg "batch_size" names cf -> usable f (contents (w_cache w0)) (k_llh k) cf) ->
  0 < nw + nr ->
  exists ps w1 s1 (E : string -> option V),
    map work_of ps = k_worksheet k' /\
    (forall p, In p ps <-> exists d, Reach reg "batch_size" names d /\ get d reg = Some p) /\
    profile_component V isem clock f k' pars batch nw nr key tick w0 =
      (w1, s1, Ok (entries clock tick nr ps)) /\
    E "batch_size" = Some batch /\
    s_tick s1 = tick + 2 * nr * List.length ps /\
    Profiled V isem (k_llh k) E pars (nw + nr) key ps (s_calls s1) (s_key s1).
Proof.
  intros reg names Hsem Hreg Hu Hcons H Hcl [Hs Hub] Hus Hn.
  destruct (build_component_ok _ _ _ _ _ _ _ _ _ _ _ H) as
    (deps & w1 & k1 & insts & w2 & H1 & H2 & _ & _ & Hcode & _ & _ & _ & _ & _ & Hllh & _).
  destruct (deduce_ok_inv _ _ _ _ _ _ _ _ _ H1) as (deps' & c1 & needed & D1 & _ & D3 & _ & _ & _ & D7 & _).
  assert (deps' = deps) as -> by congruence.
  pose proof H as H0. unfold build_component in H0. rewrite H1 in H0. cbn iota beta in H0.
  destruct (compile_keeps _ _ _ _ _ _ _ H0) as [Kr Kw].
  set (U := fun l cf => l = k_llh k /\ used_config reg "batch_size" names cf).
  assert (Hsep : separate (in_use U)).
  { split; [intros a b (_ & _ & Ha) (_ & _ & Hb); apply Hs; assumption|].
    intros a (_ & _ & Ha). apply Hub. exact Ha. }
  destruct (dependencies_deduce_ok _ _ _ _ _ _ H2) as (l & Hl & Hc & Ht & Hf). cbn in Hl. subst l.
  fold reg names in H2, Hc, Ht, Hf.
  assert (Hready : ready U k' ["batch_size"] (selected deps)).
  { eapply (selected_ready reg (k_llh k) names deps U k') with (L1 := []); auto.
    - rewrite Kr, D7. reflexivity.
    - rewrite Hreg. apply provides_ok_after.
    - intros d p Hd Hg. split; [eauto|]. intros cf Hi. split; [reflexivity|]. exists d, p. auto. }
  destruct (works_ok V isem clock Hsem f U k' pars nw nr Hsep Hn (selected deps) [("batch_size", batch)]
    (mk_pst key tick []) w0) as (w3 & s3 & cs & E & E1 & T & C & X & P).
  { repeat constructor. cbn. tauto. } { exact Hready. }
  { intros l cf [-> Hc']. apply Hus. exact Hc'. }
  exists (selected deps), w3, s3, E. split; [rewrite Kw, D3; reflexivity|].
  split; [apply (used_selected _ _ _ _ _ Hu H2)|]. split.
  { unfold profile_component, has_worksheet. rewrite Hcode. rewrite Kw, D3.
    destruct (map work_of (selected deps)); exact E1. }
  split; [apply X; reflexivity|]. cbn [s_tick s_calls s_key app] in *. split; [exact T|].
  rewrite C. rewrite Hllh in P. exact P.
Qed.

(** * Times *)

Section Times.
  Variable clock : nat -> R.
  Hypothesis Hmono : forall n, (clock n <= clock (S n))%R.
  Local Open Scope R_scope.

  Lemma clock_mono n m : (n <= m)%nat -> clock n <= clock m.
  Proof. induction 1 as [|m H IH]; [apply Rle_refl|]. eapply Rle_trans; [exact IH|apply Hmono]. Qed.

  Lemma run_times_length t n : List.length (run_times clock t n) = n.
  Proof. revert t. induction n as [|n IH]; intros t; cbn; [reflexivity|]. rewrite IH. reflexivity. Qed.

  Lemma run_times_sum : forall n t, 0 <= fold_right Rplus 0 (run_times clock t n) <=
    1000 * (clock (t + 2 * n) - clock t).
  Proof.
    induction n as [|n IH]; intros t; cbn [run_times fold_right].
    - rewrite Nat.mul_0_r, Nat.add_0_r. lra.
    - specialize (IH (S (S t))). replace (S (S t) + 2 * n)%nat with (t + 2 * S n)%nat in IH by lia.
      pose proof (Hmono t). pose proof (Hmono (S t)). lra.
  Qed.

  Lemma entries_times nr : (0 < nr)%nat -> forall ps t, exists ms,
    map f_mean (entries clock t nr ps) = map Fin ms /\ (forall m, In m ms -> 0 <= m) /\
    INR nr * fold_right Rplus 0 ms <= 1000 * (clock (t + 2 * nr * List.length ps) - clock t).
  Proof.
    intros Hn. assert (Hnr : 0 < INR nr) by (apply lt_0_INR; exact Hn).
    induction ps as [|p ps IH]; intros t; unfold entries; cbn [plugin_times combine map fst snd].
    - exists []. split; [reflexivity|]. split; [intros m []|]. cbn [fold_right List.length].
      rewrite Nat.mul_0_r, Nat.add_0_r. lra.
    - destruct (IH (t + 2 * nr)%nat) as (ms & E & Hp & Hs).
      pose proof (run_times_sum nr t) as [S1 S2]. pose proof (run_times_length t nr) as L.
      set (s := fold_right Rplus 0 (run_times clock t nr)) in *.
      exists (s / INR nr :: ms). split.
      { cbn [map]. f_equal; [|exact E]. cbn [f_mean]. unfold mean_time.
        destruct (run_times clock t nr); [cbn in L; lia|]. rewrite L. reflexivity. }
      split.
      { intros m [<-|Hm]; [|apply Hp, Hm]. apply Rmult_le_pos; [exact S1|].
        left. apply Rinv_0_lt_compat. exact Hnr. }
      cbn [fold_right List.length].
      replace (t + 2 * nr + 2 * nr * List.length ps)%nat with (t + 2 * nr * S (List.length ps))%nat in Hs by lia.
      replace (INR nr * (s / INR nr + fold_right Rplus 0 ms)) with (s + INR nr * fold_right Rplus 0 ms)
        by (field; lra). lra.
  Qed.

  Lemma entries_not_timed ps t : map f_mean (entries clock t 0 ps) = map (fun _ => NaN) ps.
  Proof.
    revert t. induction ps as [|p ps IH]; intros t; unfold entries; cbn [plugin_times combine map run_times]; [reflexivity|].
    f_equal. apply (IH (t + 2 * 0)%nat).
  Qed.
End Times.

Lemma entries_works clock t nr ps :
  map (fun e => mk_work (f_plugin e) (f_provides e) (f_depends e)) (entries clock t nr ps) = map work_of ps.
Proof.
  revert t. induction ps as [|p ps IH]; intros t; unfold entries; cbn [plugin_times combine map]; [reflexivity|].
  f_equal. apply IH.
Qed.

(** * Contexts *)

Section Contexts.
  Variable V : Type.
  Variable isem : instance -> list V -> result (list V).
  Variable clock : nat -> R.
  Variable as_params : params -> V.

  (** The keys of the results, in the order in which they are set. *)
  Definition comp_keys (lname : string) (cs : dict (option component)) : list string :=
    flat_map (fun c => match snd c with Some _ => [(lname ++ "/" ++ fst c)%string] | None => [] end) cs.
  Definition all_keys (ls : dict plikelihood) : list string :=
    flat_map (fun l => comp_keys (fst l) (snd (snd l))) ls.
  Definition add_keys (ks out : list string) : list string :=
    fold_left (fun acc x => if mem x acc then acc else acc ++ [x]) ks out.

  Lemma add_keys_app a b out : add_keys (a ++ b) out = add_keys b (add_keys a out).
  Proof. apply fold_left_app. Qed.

  Lemma add_keys_in x : forall ks out, In x (add_keys ks out) <-> In x out \/ In x ks.
  Proof.
    induction ks as [|y ks IH]; intros out; cbn [add_keys fold_left In]; [tauto|].
    rewrite IH. destruct (mem y out) eqn:E.
    - apply mem_In in E. split; [tauto|]. intros [H|[->|H]]; auto.
    - rewrite in_app_iff. cbn [In]. tauto.
  Qed.

  Lemma keys_set_add {A} x (v : A) out : keys (set x v out) = add_keys [x] (keys out).
  Proof. rewrite keys_set. reflexivity. Qed.

  Lemma profile_components_keys f lname pars batch nw nr fresh : forall cs n tick out w w' st out',
    profile_components V isem clock f lname cs pars batch nw nr fresh n tick out w = (w', st, Ok out') ->
    keys out' = add_keys (comp_keys lname cs) (keys out).
  Proof.
    induction cs as [|[c [k|]] cs IH]; intros n tick out w w' st out' H; cbn [profile_components] in H.
    - injection H as _ _ <-. reflexivity.
    - destruct (has_worksheet k); [|discriminate H].
      destruct (profile_component V isem clock f k pars batch nw nr (fresh n) tick w) as [[w1 s1] [res|e]];
        [|discriminate H].
      apply IH in H. rewrite H, keys_set_add. cbn [comp_keys flat_map snd fst app]. reflexivity.
    - apply IH in H. exact H.
  Qed.

  Lemma profile_context_keys f pars batch nw nr fresh : forall ls n tick out w w' st out',
    profile_context V isem clock as_params f ls pars batch nw nr fresh n tick out w = (w', st, Ok out') ->
    keys out' = add_keys (all_keys ls) (keys out).
  Proof.
    induction ls as [|[l [al cs]] ls IH]; intros n tick out w w' st out' H; cbn [profile_context] in H.
    - injection H as _ _ <-. reflexivity.
    - destruct (profile_components _ _ _ _ _ _ _ _ _ _ _ _ _ _) as [[w1 [n1 t1]] [out1|e]] eqn:E;
        [|discriminate H].
      apply profile_components_keys in E. apply IH in H. rewrite H, E.
      cbn [all_keys flat_map fst snd]. symmetry. apply add_keys_app.
  Qed.

  Lemma full_components_keys lname pars batch nw nr fresh : forall cs n tick out n' t' out',
    full_components V isem clock lname cs pars batch nw nr fresh n tick out = Ok (n', t', out') ->
    keys out' = add_keys (comp_keys lname cs) (keys out).
  Proof.
    induction cs as [|[c [k|]] cs IH]; intros n tick out n' t' out' H; cbn [full_components] in H.
    - injection H as _ _ <-. reflexivity.
    - destruct (k_simulate k); [|discriminate H].
      destruct (full_runs _ _ _ nw false _ _ _ _ _ _) as [[[key t1] tm]|e]; [|discriminate H].
      destruct (full_runs _ _ _ nr true _ _ _ _ _ _) as [[[key2 t2] tm2]|e]; [|discriminate H].
      apply IH in H. rewrite H, keys_set_add. reflexivity.
    - apply IH in H. exact H.
  Qed.

  Lemma profile_full_keys pars batch nw nr fresh : forall ls n tick out n' t' out',
    profile_full V isem clock as_params ls pars batch nw nr fresh n tick out = Ok (n', t', out') ->
    keys out' = add_keys (all_keys ls) (keys out).
  Proof.
    induction ls as [|[l [al cs]] ls IH]; intros n tick out n' t' out' H; cbn [profile_full] in H.
    - injection H as _ _ <-. reflexivity.
    - destruct (full_components _ _ _ _ _ _ _ _ _ _ _ _) as [[[n1 t1] out1]|e] eqn:E; [|discriminate H].
      apply full_components_keys in E. apply IH in H. rewrite H, E. symmetry. apply add_keys_app.
  Qed.

  Lemma all_keys_in ls x : In x (all_keys ls) <->
    exists l al cs c k, In (l, (al, cs)) ls /\ In (c, Some k) cs /\ x = (l ++ "/" ++ c)%string.
  Proof.
    unfold all_keys, comp_keys. rewrite in_flat_map. split.
    - intros ([l [al cs]] & H & Hx). cbn [fst snd] in Hx. apply in_flat_map in Hx.
      destruct Hx as ([c [k|]] & Hc & Hx); cbn [fst snd] in Hx; [|destruct Hx].
      destruct Hx as [<-|[]]. exists l, al, cs, c, k. auto.
    - intros (l & al & cs & c & k & H & Hc & ->). exists (l, (al, cs)). split; [exact H|]. cbn [fst snd].
      apply in_flat_map. exists (c, Some k). split; [exact Hc|]. left. reflexivity.
  Qed.
End Contexts.
