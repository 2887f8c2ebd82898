(** Lemmas about the simulation results, needed parameters and registration. *)
From Verif Require Import Base BaseFacts ModelShare ModelConfig ModelComponent SpecComponent
  ProofComponent ProofWorkflow.
From Coq Require Import Relations.
Local Open Scope string_scope.

(* ------------------------------------------------------------------ *)
(** * Values of the dependency graph *)

Lemma NoDup_app_intro {A} (l1 l2 : list A) :
  NoDup l1 -> NoDup l2 -> (forall x, In x l1 -> ~ In x l2) -> NoDup (l1 ++ l2).
Proof.
  induction l1 as [|a l1 IH]; simpl; intros H1 H2 Hd; [exact H2|].
  inversion H1 as [|? ? Hni H1']; subst. constructor.
  - intros Hi. apply in_app_or in Hi. destruct Hi as [Hi|Hi]; [exact (Hni Hi)|].
    exact (Hd a (or_introl eq_refl) Hi).
  - apply IH; auto.
Qed.

Section Values.
  Variable reg : registry.
  Variable nodep : string.
  Variable names : list string.
  Hypothesis Hcons : consistent reg nodep names.

  Lemma assigned_NoDup name ps :
    (forall p, In p ps -> exists d, Reach reg nodep names d /\ get d reg = Some p) ->
    NoDup (map p_name ps) -> NoDup (assigned (body_of name ps)).
  Proof.
    induction ps as [|p ps IH]; simpl; intros Hf Hnd; [constructor|].
    inversion Hnd as [|? ? Hni Hnd']; subst.
    change (assigned (body_of name (p :: ps)))
      with (p_provides p ++ assigned (body_of name ps))%list.
    destruct (Hf p (or_introl eq_refl)) as (d & Hd & Hg).
    apply NoDup_app_intro.
    - apply (Hcons d p Hd Hg).
    - apply IH; auto.
    - intros x Hx Hx2. apply assigned_body in Hx2. destruct Hx2 as (q & Hq & Hxq).
      destruct (Hf q (or_intror Hq)) as (d' & Hd' & Hg').
      destruct (Hcons d p Hd Hg) as [_ H1]. destruct (Hcons d' q Hd' Hg') as [_ H2].
      destruct (H1 x Hx) as [Hxp _]. destruct (H2 x Hxq) as [Hxq' _].
      assert (p = q) by congruence. subst q. apply Hni. apply in_map. exact Hq.
  Qed.
End Values.

Lemma assigned_app b1 b2 : assigned (b1 ++ b2) = (assigned b1 ++ assigned b2)%list.
Proof. unfold assigned. apply flat_map_app. Qed.

Lemma reads_defined_split defined b1 st b2 :
  reads_defined defined (b1 ++ st :: b2) ->
  forall x, In x (snd st) -> In x (assigned b1) \/ In x defined.
Proof.
  revert defined. induction b1 as [|[[o i] n] b1 IH]; simpl; intros defined H x Hx.
  - destruct st as [[o i] n]. destruct H as [H _]. right. apply H. exact Hx.
  - destruct H as [_ H]. destruct (IH _ H x Hx) as [Hi|Hi].
    + left. apply in_or_app. right. exact Hi.
    + apply in_app_or in Hi. destruct Hi as [Hi|Hi]; [|right; exact Hi].
      left. apply in_or_app. left. exact Hi.
Qed.

Lemma NoDup_app_disj {A} (l1 l2 : list A) x : NoDup (l1 ++ l2) -> In x l1 -> ~ In x l2.
Proof.
  induction l1 as [|a l1 IH]; simpl; intros H Hx; [destruct Hx|].
  inversion H as [|? ? Hni H']; subst. destruct Hx as [<-|Hx].
  - intros Hi. apply Hni, in_or_app. right. exact Hi.
  - exact (IH H' Hx).
Qed.

Theorem simulation_values {V} (sem : string -> list V -> result (list V))
    reg nodep fuel names deps name llh func key n params k' outs :
  provides_ok reg -> unique_names reg -> consistent reg nodep names ->
  dependencies_deduce reg nodep fuel names [] = Ok deps ->
  run_prog V sem (gen_code name llh func nodep (map work_of (selected deps)) names)
    key n params = Ok (k', outs) ->
  exists E : string -> option V,
    E nodep = Some n /\
    Solves sem E params key (body_of name (selected deps)) k' /\
    map E names = map Some outs.
Proof.
  intros Hp Hu Hcons Hd Hrun.
  destruct (deduced_code_defined _ _ _ _ _ name Hp Hu Hd) as [Hread Hret].
  destruct (dependencies_deduce_ok _ _ _ _ _ _ Hd) as (l & Hl & Hc & Ht & Hf). simpl in Hl. subst l.
  unfold run_prog in Hrun. rewrite gen_body in Hrun.
  unfold gen_code in Hrun. cbn [pr_nodep pr_return] in Hrun.
  destruct (mem nodep ["key"; "parameters"]) eqn:Hnk; [discriminate|].
  apply mem_false in Hnk. cbn [In] in Hnk.
  set (e0 := [("key", key); (nodep, n); ("parameters", params)]) in *.
  destruct (exec V sem e0 (body_of name (selected deps))) as [e|er] eqn:He; [|discriminate].
  cbn [bind] in Hrun.
  destruct (lookups V e ("key" :: names)) as [[|k vs]|er] eqn:Hlk; try discriminate.
  injection Hrun as -> ->.
  assert (Hsel : forall p, In p (selected deps) ->
            exists d, Reach reg nodep names d /\ get d reg = Some p).
  { intros p Hpi. apply Hf. eapply (selected_in reg nodep Hu); eauto. }
  assert (Hnames : forall x, In x (assigned (body_of name (selected deps))) ->
            x <> nodep /\ x <> "key" /\ x <> "parameters").
  { intros x Hx. apply assigned_body in Hx. destruct Hx as (p & Hpi & Hxp).
    destruct (Hsel p Hpi) as (d & Hdr & Hg). destruct (Hcons d p Hdr Hg) as [_ H].
    apply H in Hxp. tauto. }
  assert (Hnd : NoDup (assigned (body_of name (selected deps)))).
  { eapply assigned_NoDup; eauto. apply first_by_name_NoDup. }
  assert (Hk0 : get "key" e0 = Some key) by reflexivity.
  assert (Hn0 : get nodep e0 = Some n).
  { unfold e0. cbn [get]. rewrite eqb_neq' by (intros ->; tauto).
    rewrite eqb_refl'. reflexivity. }
  assert (Hp0 : get "parameters" e0 = Some params).
  { unfold e0. cbn [get]. rewrite (eqb_neq' "parameters" "key") by discriminate.
    rewrite eqb_neq' by (intros <-; tauto). rewrite eqb_refl'. reflexivity. }
  destruct (exec_solves sem (body_of name (selected deps)) e0 e params He Hp0 Hnd) with (k := key)
    as (k2 & Hk2 & Hsol & Hfr); auto.
  { intros Hx. apply Hnames in Hx. tauto. }
  { intros Hx. apply Hnames in Hx. tauto. }
  { intros b1 o i ins b2 Hb x Hx. rewrite Hb in Hread, Hnd.
    destruct (reads_defined_split _ _ _ _ Hread x Hx) as [Hi|[<-|[]]].
    - split.
      + apply Hnames. rewrite Hb, assigned_app. apply in_or_app. left. exact Hi.
      + rewrite assigned_app in Hnd. eapply NoDup_app_disj; eauto.
    - split; [intros ->; tauto|]. intros Hi.
      destruct (Hnames nodep) as [Hbad _]; [|congruence].
      rewrite Hb, assigned_app. apply in_or_app. right. exact Hi. }
  apply lookups_inv in Hlk. cbn [map] in Hlk. injection Hlk as Hkk Hvs.
  exists (fun x => get x e). split; [|split].
  - rewrite Hfr; [exact Hn0| |intros ->; tauto].
    intros Hx. apply Hnames in Hx. tauto.
  - assert (k2 = k') by congruence. subst k2. exact Hsol.
  - exact Hvs.
Qed.

(** Solutions are unique: the equations determine every assigned value and the final key. *)
Theorem solves_unique {V} (sem : string -> list V -> result (list V)) params E1 E2 body :
  forall defined k k1 k2,
  reads_defined defined body ->
  (forall x, In x defined -> E1 x = E2 x) ->
  Solves sem E1 params k body k1 -> Solves sem E2 params k body k2 ->
  k1 = k2 /\ forall x, In x (assigned body ++ defined)%list -> E1 x = E2 x.
Proof.
  induction body as [|[[outs inst] ins] body IH]; intros defined k k1 k2 Hr Hd H1 H2.
  - inversion H1; inversion H2; subst. split; [reflexivity|]. exact Hd.
  - inversion H1 as [|a b c o i n argv vs bd Hi1 Hs1 Ho1 Hrest1]; subst.
    inversion H2 as [|a' b' c' o' i' n' argv' vs' bd' Hi2 Hs2 Ho2 Hrest2]; subst.
    destruct Hr as [Hins Hr].
    assert (Hargs : argv = argv').
    { assert (Hm : map (@Some V) argv = map (@Some V) argv').
      { rewrite <- Hi1, <- Hi2. apply map_ext_in. intros x Hx. apply Hd, Hins, Hx. }
      clear -Hm. revert argv' Hm. induction argv as [|a l IHl]; intros [|b l'] Hm;
        try discriminate; [reflexivity|]. injection Hm as -> Hm. f_equal. auto. }
    subst argv'. rewrite Hs1 in Hs2. injection Hs2 as <- <-.
    assert (Hout : forall x, In x outs -> E1 x = E2 x).
    { rewrite <- Ho2 in Ho1. clear -Ho1. induction outs as [|o outs IHo]; [intros x []|].
      simpl in Ho1. injection Ho1 as Hh Ht. intros x [<-|Hx]; [exact Hh|auto]. }
    assert (Hdef : forall x, In x (outs ++ defined)%list -> E1 x = E2 x).
    { intros x Hx. apply in_app_or in Hx. destruct Hx as [Hx|Hx]; auto. }
    destruct (IH _ _ _ _ Hr Hdef Hrest1 Hrest2) as [-> Hall].
    split; [reflexivity|]. intros x Hx. apply Hall.
    change (assigned ((outs, inst, ins) :: body)) with (outs ++ assigned body)%list in Hx.
    rewrite <- app_assoc in Hx.
    apply in_app_or in Hx. apply in_or_app. destruct Hx as [Hx|Hx].
    + right. apply in_or_app. auto.
    + apply in_app_or in Hx. destruct Hx as [Hx|Hx]; [auto|right; apply in_or_app; auto].
Qed.

(** Total correctness: if every plugin returns a key and one value per provided name, the
    simulation returns one value per requested name. *)
Theorem simulation_total {V} (sem : string -> list V -> result (list V))
    reg nodep fuel names deps name llh func key n params :
  provides_ok reg -> unique_names reg -> nodep <> "key" -> nodep <> "parameters" ->
  dependencies_deduce reg nodep fuel names [] = Ok deps ->
  shaped sem (body_of name (selected deps)) ->
  exists k' outs,
    run_prog V sem (gen_code name llh func nodep (map work_of (selected deps)) names)
      key n params = Ok (k', outs) /\ List.length outs = List.length names.
Proof.
  intros Hp Hu Hk Hpar Hd Hsh.
  destruct (deduced_code_defined _ _ _ _ _ name Hp Hu Hd) as [Hread Hret].
  unfold run_prog. rewrite gen_body. unfold gen_code. cbn [pr_nodep pr_return].
  destruct (mem nodep ["key"; "parameters"]) eqn:Hnk.
  { apply mem_In in Hnk. cbn [In] in Hnk. intuition congruence. }
  set (e0 := [("key", key); (nodep, n); ("parameters", params)]) in *.
  destruct (exec_ok sem (body_of name (selected deps)) e0 [nodep] Hsh Hread) as (e & -> & He).
  { intros x [<-|[<-|[<-|[]]]].
    - exists key. reflexivity.
    - exists params. unfold e0. cbn [get]. rewrite (eqb_neq' "parameters" "key") by discriminate.
      rewrite eqb_neq' by congruence. rewrite eqb_refl'. reflexivity.
    - exists n. unfold e0. cbn [get]. rewrite eqb_neq' by congruence.
      rewrite eqb_refl'. reflexivity. }
  cbn [bind].
  destruct (lookups_ok e ("key" :: names)) as (vs & Hvs & _).
  { intros x [<-|Hx]; [apply He; left; reflexivity|]. apply He. right. right.
    apply in_or_app. destruct (Hret x Hx) as [->|Hi]; [right; left; reflexivity|left; exact Hi]. }
  rewrite Hvs. pose proof (lookups_length _ _ _ Hvs) as Hlen.
  destruct vs as [|k' vs]; [discriminate|]. simpl in Hlen. exists k', vs. split; [reflexivity|lia].
Qed.

(* ------------------------------------------------------------------ *)
(** * value equality *)

Lemma value_ind' (P : value -> Prop) :
  P VNone -> (forall b, P (VBool b)) -> (forall z, P (VNum z)) -> (forall s, P (VStr s)) ->
  (forall l, (forall v, In v l -> P v) -> P (VList l)) ->
  (forall d, (forall k v, In (k, v) d -> P v) -> P (VDict d)) ->
  forall v, P v.
Proof.
  intros H1 H2 H3 H4 H5 H6. fix IH 1. intros [ |b|z|s|l|d].
  - exact H1.
  - apply H2.
  - apply H3.
  - apply H4.
  - apply H5. induction l as [|x l IHl]; intros v Hv; [destruct Hv|].
    destruct Hv as [<-|Hv]; [apply IH|apply IHl, Hv].
  - apply H6. induction d as [|[k0 x] d IHd]; intros k v Hv; [destruct Hv|].
    destruct Hv as [Hv|Hv]; [injection Hv as _ <-; apply IH|exact (IHd k v Hv)].
Qed.

Lemma value_eqb_sym a b : value_eqb a b = value_eqb b a.
Proof.
  revert b. induction a as [ |x|x|x|l IH|d IH] using value_ind'; intros [ |y|y|y|l2|d2];
    simpl; try reflexivity.
  - destruct x, y; reflexivity.
  - apply Z.eqb_sym.
  - apply Z.eqb_sym.
  - apply Z.eqb_sym.
  - apply String.eqb_sym.
  - revert l2. induction l as [|x l IHl]; intros [|y l2]; try reflexivity.
    rewrite (IH x (or_introl eq_refl)). f_equal. apply IHl. intros v Hv. apply IH. right. exact Hv.
  - revert d2. induction d as [|[k x] d IHd]; intros [|[k2 y] d2]; try reflexivity.
    rewrite (IH k x (or_introl eq_refl)), (String.eqb_sym k k2). f_equal.
    apply IHd. intros k0 v Hv. apply (IH k0). right. exact Hv.
Qed.

Lemma value_eqb_refl a : value_eqb a a = true.
Proof.
  induction a as [ |x|x|x|l IH|d IH] using value_ind'; simpl; try reflexivity.
  - destruct x; reflexivity.
  - apply Z.eqb_refl.
  - apply String.eqb_refl.
  - induction l as [|x l IHl]; [reflexivity|].
    rewrite (IH x (or_introl eq_refl)). simpl. apply IHl. intros v Hv. apply IH. right. exact Hv.
  - induction d as [|[k x] d IHd]; [reflexivity|].
    rewrite (IH k x (or_introl eq_refl)), String.eqb_refl. simpl.
    apply IHd. intros k0 v Hv. apply (IH k0). right. exact Hv.
Qed.

Lemma default_eqb_sym a b : default_eqb a b = default_eqb b a.
Proof. destruct a, b; simpl; try reflexivity. apply value_eqb_sym. Qed.

Lemma same_default_iff a b : same_default a b <-> default_eqb a b = true.
Proof. destruct a, b; cbn; intuition congruence. Qed.

Lemma value_eqb_list l1 v :
  value_eqb (VList l1) v = true ->
  exists l2, v = VList l2 /\ List.length l1 = List.length l2 /\
    forall i x y, nth_error l1 i = Some x -> nth_error l2 i = Some y -> value_eqb x y = true.
Proof.
  destruct v as [ |y|y|y|l2|d2]; simpl; try discriminate. intros H. exists l2.
  split; [reflexivity|]. revert l2 H.
  induction l1 as [|x l1 IH]; intros [|y l2] H; try discriminate.
  - split; [reflexivity|]. intros [|i] a b Ha; discriminate.
  - apply andb_true_iff in H. destruct H as [Hx Hl]. destruct (IH l2 Hl) as [Hlen Hn].
    split; [simpl; lia|]. intros [|i] a b; simpl.
    + intros Ha Hb. injection Ha as <-. injection Hb as <-. exact Hx.
    + apply Hn.
Qed.

(** Values that Python considers equal require the same parameter. *)
Lemma required_of_value_eqb n v1 v2 :
  value_eqb v1 v2 = true -> required_of_value n v1 = required_of_value n v2.
Proof.
  intros H. destruct v1 as [ |x|x|x|l1|d1].
  5:{ destruct (value_eqb_list _ _ H) as (l2 & -> & Hlen & Hn).
      cbn [required_of_value]. rewrite <- Hlen.
      destruct (Nat.eqb (List.length l1) 4) eqn:E4; [|reflexivity].
      apply Nat.eqb_eq in E4. rewrite E4 in Hlen.
      destruct (nth_error l1 3) as [x|] eqn:E1.
      2:{ apply nth_error_None in E1. lia. }
      destruct (nth_error l2 3) as [y|] eqn:E2.
      2:{ apply nth_error_None in E2. lia. }
      specialize (Hn 3 x y E1 E2). destruct x, y; simpl in Hn; try discriminate; try reflexivity.
      apply String.eqb_eq in Hn. subst. reflexivity. }
  all: destruct v2; simpl in H; try discriminate; reflexivity.
Qed.

(* ------------------------------------------------------------------ *)
(** * needed_parameters *)

(** The parameter required by [cf] according to the configuration [c0]. *)
Definition req_static (contents0 : dict value) (llh : string) (cf : config)
  : result (option string) :=
  match c_kind cf with
  | KSigmaMap =>
      match (match get (c_name cf) contents0 with Some v => Some v | None => c_default cf end) with
      | None => Err ValueError
      | Some (VDict d) => match get llh d with
                          | Some v => required_of_value (c_name cf) v
                          | None => Err ValueError
                          end
      | Some v => required_of_value (c_name cf) v
      end
  | _ => Ok None
  end.

Lemma req_static_requires c0 llh cf x :
  req_static c0 llh cf = Ok (Some x) <-> requires c0 llh cf x.
Proof.
  unfold req_static, requires, effective_value.
  set (v := match get (c_name cf) c0 with Some v => Some v | None => c_default cf end).
  assert (Hrv : forall v0, required_of_value (c_name cf) v0 = Ok (Some x) <->
     exists l, v0 = VList l /\ ((exists a b c, l = [a; b; c; VStr x]) \/
       (List.length l <> 4 /\ x = c_name cf ++ "_sigma"))).
  { intros v0. destruct v0 as [ |y|y|y|l|d]; simpl;
      try (split; [discriminate|intros (l' & Hl' & _); discriminate]).
    destruct (Nat.eqb (List.length l) 4) eqn:E4.
    - apply Nat.eqb_eq in E4. destruct l as [|a [|b [|c [|s [|? ?]]]]]; try discriminate.
      simpl. split.
      + destruct s; try discriminate. intros H. injection H as <-.
        eexists. split; [reflexivity|]. left. eauto.
      + intros (l' & Hl' & H). injection Hl' as <-. destruct H as [(a' & b' & c' & H)|[H _]].
        * injection H as -> -> -> ->. reflexivity.
        * simpl in H. congruence.
    - apply Nat.eqb_neq in E4. split.
      + intros H. injection H as <-. exists l. auto.
      + intros (l' & Hl' & H). injection Hl' as <-. destruct H as [(a' & b' & c' & ->)|[_ ->]].
        * simpl in E4. congruence.
        * reflexivity. }
  destruct (c_kind cf) eqn:Hk;
    try (split; [discriminate|intros [H _]; discriminate]).
  destruct v as [[ |y|y|y|l|d]|].
  all: try (rewrite Hrv; split;
       [intros (l' & Hl' & H); split; [reflexivity|]; exists l'; split; [congruence|exact H]
       |intros (_ & l' & Hl' & H); exists l'; split; [congruence|exact H]]).
  - destruct (get llh d) as [v1|].
    + rewrite Hrv. split.
      * intros (l' & Hl' & H). split; [reflexivity|]. exists l'. split; [congruence|exact H].
      * intros (_ & l' & Hl' & H). exists l'. split; [congruence|exact H].
    + split; [discriminate|]. intros (_ & l' & Hl' & _). discriminate.
  - split; [discriminate|]. intros (_ & l' & Hl' & _). discriminate.
Qed.

Section Needed.
  Variable llh : string.
  Variable CF : config -> Prop.        (* the configs in play *)
  Hypothesis CF_default : forall cf d, CF cf -> c_default cf <> Some (VDict d).
  Hypothesis CF_agree : forall cf cf', CF cf -> CF cf' -> c_name cf = c_name cf' ->
    default_eqb (c_default cf) (c_default cf') = true.

  (** The cache after some lookups: explicit values are untouched, defaults were added. *)
  Definition grown (c0 c : dict value) : Prop :=
    forall n, get n c = get n c0 \/
      (get n c0 = None /\ exists cf, CF cf /\ c_name cf = n /\ get n c = c_default cf).

  Lemma required_grown c0 c cf c1 r :
    CF cf -> grown c0 (contents c) ->
    required_parameter cf (Some llh) c = (c1, r) ->
    r = req_static c0 llh cf /\ grown c0 (contents c1).
  Proof.
    intros Hcf Hg H. unfold required_parameter in H. unfold req_static.
    destruct (c_kind cf) eqn:Hk; try (injection H as <- <-; auto; fail).
    unfold get_configs in H. unfold rd_in, has in H.
    destruct (get (c_name cf) (contents c)) as [v|] eqn:Hv.
    - (* already cached *)
      unfold rd_getitem in H. rewrite Hv in H.
      assert (Hc1 : contents c1 = contents c).
      { destruct v; injection H as <- _; reflexivity. }
      split; [|rewrite Hc1; exact Hg].
      destruct (Hg (c_name cf)) as [He|(Hn0 & cf' & Hcf' & Hnm & Hd')].
      + rewrite Hv in He. rewrite <- He.
        destruct v; injection H as _ <-; try reflexivity.
        simpl. destruct (get llh d); reflexivity.
      + rewrite Hn0. rewrite Hv in Hd'.
        pose proof (CF_agree cf' cf Hcf' Hcf Hnm) as Heq. rewrite <- Hd' in Heq.
        destruct (c_default cf) as [v0|] eqn:Hd0; [|simpl in Heq; discriminate].
        simpl in Heq.
        assert (Hv0 : forall d, v0 <> VDict d).
        { intros d Hbad. subst v0. exact (CF_default cf d Hcf Hd0). }
        assert (Hv1 : forall d, v <> VDict d).
        { intros d Hbad. subst v. symmetry in Hd'. exact (CF_default cf' d Hcf' Hd'). }
        pose proof (required_of_value_eqb (c_name cf) _ _ Heq) as Hreq.
        destruct v; try (exfalso; eapply Hv1; reflexivity);
          destruct v0; try (exfalso; eapply Hv0; reflexivity);
          injection H as _ <-; exact Hreq.
    - unfold get_default in H. destruct (c_default cf) as [v0|] eqn:Hd0.
      + assert (Hv0 : forall d, v0 <> VDict d).
        { intros d Hbad. subst v0. exact (CF_default cf d Hcf Hd0). }
        assert (Hn0 : get (c_name cf) c0 = None).
        { destruct (Hg (c_name cf)) as [He|(Hn0 & _)]; congruence. }
        rewrite Hn0.
        assert (Hc1 : contents c1 = set (c_name cf) v0 (contents c) /\
                      r = required_of_value (c_name cf) v0).
        { destruct v0; try (exfalso; eapply Hv0; reflexivity);
            injection H as <- <-; split; reflexivity. }
        destruct Hc1 as [Hc1 ->]. split.
        * destruct v0; try reflexivity. exfalso. eapply Hv0. reflexivity.
        * intros n. rewrite Hc1, get_set. seqb n (c_name cf).
          -- subst n. right. split; [exact Hn0|]. exists cf. auto.
          -- apply Hg.
      + injection H as <- <-. split; [|exact Hg].
        destruct (Hg (c_name cf)) as [He|(Hn0 & _)].
        * rewrite <- He, Hv. reflexivity.
        * rewrite Hn0. reflexivity.
  Qed.

  Lemma config_params_spec cfs c0 : forall needed c c1 needed1,
    (forall cf, In cf cfs -> CF cf) -> grown c0 (contents c) ->
    config_params cfs llh needed c = (c1, needed1, Ok tt) ->
    grown c0 (contents c1) /\
    forall x, In x needed1 <->
      In x needed \/ exists cf, In cf cfs /\ req_static c0 llh cf = Ok (Some x).
  Proof.
    induction cfs as [|cf cfs IH]; simpl; intros needed c c1 needed1 Hcf Hg H.
    - injection H as <- <-. split; [exact Hg|]. intros x. split; [auto|].
      intros [Hx|(cf & [] & _)]. exact Hx.
    - destruct (required_parameter cf (Some llh) c) as [c2 r] eqn:Hr.
      destruct (required_grown c0 c cf c2 r (Hcf cf (or_introl eq_refl)) Hg Hr) as [Hreq Hg2].
      destruct r as [[s|]|e]; [| |discriminate].
      + destruct (IH _ _ _ _ (fun cf' Hi => Hcf cf' (or_intror Hi)) Hg2 H) as [Hg1 Hin].
        split; [exact Hg1|]. intros x. rewrite Hin, add1_In. split.
        * intros [[->|Hx]|(cf' & Hi & Hx)]; [right; exists cf; auto|auto|right; eauto].
        * intros [Hx|(cf' & [<-|Hi] & Hx)]; [auto| |right; eauto].
          left. left. rewrite <- Hreq in Hx. congruence.
      + destruct (IH _ _ _ _ (fun cf' Hi => Hcf cf' (or_intror Hi)) Hg2 H) as [Hg1 Hin].
        split; [exact Hg1|]. intros x. rewrite Hin. split.
        * intros [Hx|(cf' & Hi & Hx)]; [auto|right; eauto].
        * intros [Hx|(cf' & [<-|Hi] & Hx)]; [auto| |right; eauto].
          rewrite <- Hreq in Hx. discriminate.
  Qed.

  Lemma simplify_loop_needed ps c0 : forall ws needed c c1 ws1 needed1,
    (forall p cf, In p ps -> In cf (map snd (p_configs p)) -> CF cf) ->
    grown c0 (contents c) ->
    simplify_loop ps llh ws needed c = (c1, (ws1, needed1), Ok tt) ->
    forall x, In x needed1 <->
      In x needed \/ exists p, In p ps /\
        (In x (p_params p) \/
         exists cf, In cf (map snd (p_configs p)) /\ req_static c0 llh cf = Ok (Some x)).
  Proof.
    induction ps as [|p ps IH]; simpl; intros ws needed c c1 ws1 needed1 Hcf Hg H x.
    - injection H as _ _ <-. split; [auto|]. intros [Hx|(p & [] & _)]. exact Hx.
    - destruct (config_params (map snd (p_configs p)) llh (Base.union needed (p_params p)) c)
        as [[c2 n2] r] eqn:Hcp. destruct r as [[]|e]; [|discriminate].
      destruct (config_params_spec _ c0 _ _ _ _ (fun cf Hi => Hcf p cf (or_introl eq_refl) Hi)
                  Hg Hcp) as [Hg2 Hin].
      rewrite (IH _ _ _ _ _ _ (fun q cf Hq Hi => Hcf q cf (or_intror Hq) Hi) Hg2 H x).
      rewrite Hin, union_In. split.
      + intros [[[Hx|Hx]|Hx]|(q & Hq & Hx)]; [auto|right; exists p; auto|right; exists p; auto|].
        right. exists q. auto.
      + intros [Hx|(q & [<-|Hq] & Hx)]; [auto| |right; eauto].
        left. destruct Hx as [Hx|Hx]; auto.
  Qed.
End Needed.

Theorem needed_exact limit data_names func nodep noeff k w w' k' :
  unique_names (k_registry k) -> defaults_agree (k_registry k) ->
  (forall d p, get d (k_registry k) = Some p -> wf_plugin p) ->
  deduce limit data_names func nodep noeff k w = (w', k', Ok tt) ->
  forall x, In x (k_needed k') <->
    (x = k_rate k /\ k_rate k <> "") \/
    exists d p, Reach (k_registry k) nodep (output_names data_names noeff) d /\
      get d (k_registry k) = Some p /\
      (In x (p_params p) \/
       exists n cf, In (n, cf) (p_configs p) /\ requires (contents (w_cache w)) (k_llh k) cf x).
Proof.
  intros Hu Hag Hwf H x.
  destruct (deduce_ok_inv _ _ _ _ _ _ _ _ _ H) as
    (deps & c1 & needed & Hd & Hs & _ & Hn & _). subst needed.
  destruct (dependencies_deduce_ok _ _ _ _ _ _ Hd) as (l & Hl & Hc & Ht & Hf).
  simpl in Hl. subst l.
  set (CF := fun cf => exists d p n, get d (k_registry k) = Some p /\ In (n, cf) (p_configs p)).
  assert (HCF1 : forall cf d, CF cf -> c_default cf <> Some (VDict d)).
  { intros cf d (d0 & p & n & Hg & Hi). destruct (Hwf d0 p Hg n cf Hi) as [_ Hx]. apply Hx. }
  assert (HCF2 : forall cf cf', CF cf -> CF cf' -> c_name cf = c_name cf' ->
            default_eqb (c_default cf) (c_default cf') = true).
  { intros cf cf' (d & p & n & Hg & Hi) (d' & q & n' & Hg' & Hi') Hnm.
    destruct (Hwf d p Hg n cf Hi) as [H1 _]. destruct (Hwf d' q Hg' n' cf' Hi') as [H2 _].
    subst n n'. rewrite <- Hnm in Hi'. apply same_default_iff. exact (Hag d p d' q _ cf cf' Hg Hg' Hi Hi'). }
  assert (Hsel : forall p, In p (selected deps) <->
            exists d, Reach (k_registry k) nodep (output_names data_names noeff) d /\
                      get d (k_registry k) = Some p).
  { intros p. rewrite (selected_in _ nodep Hu _ _ p Hf). split; [apply Hf|].
    intros (d & Hdr & Hg). destruct (good_ext_reach _ _ _ _ _ Hc Ht Hdr) as (q & Hq & Hi).
    congruence. }
  unfold dependencies_simplify in Hs.
  assert (HC : forall p cf, In p (selected deps) -> In cf (map snd (p_configs p)) -> CF cf).
  { intros p cf Hp Hcf. apply Hsel in Hp. destruct Hp as (d & _ & Hg).
    apply in_map_iff in Hcf. destruct Hcf as ([n cf'] & <- & Hi). exists d, p, n. auto. }
  assert (Hg0 : grown CF (contents (w_cache w)) (contents (w_cache w))).
  { intros n. left. reflexivity. }
  rewrite (simplify_loop_needed (k_llh k) CF HCF1 HCF2 (selected deps) (contents (w_cache w))
             _ _ _ _ _ _ HC Hg0 Hs x).
  split.
  + intros [Hx|(p & Hp & Hx)].
    * left. seqb (k_rate k) ""; simpl in Hx; [tauto|].
      destruct Hx as [<-|[]]. auto.
    * right. apply Hsel in Hp. destruct Hp as (d & Hdr & Hg). exists d, p.
      split; [exact Hdr|]. split; [exact Hg|]. destruct Hx as [Hx|(cf & Hcf & Hx)]; [auto|].
      right. apply in_map_iff in Hcf. destruct Hcf as ([n cf'] & <- & Hi).
      exists n, cf'. split; [exact Hi|]. apply req_static_requires. exact Hx.
  + intros [[-> Hr]|(d & p & Hdr & Hg & Hx)].
    * left. rewrite eqb_neq' by exact Hr. left. reflexivity.
    * right. exists p. split; [apply Hsel; eauto|].
      destruct Hx as [Hx|(n & cf & Hi & Hx)]; [auto|]. right. exists cf. split.
      -- apply in_map_iff. exists (n, cf). auto.
      -- apply req_static_requires. exact Hx.
Qed.

(* ------------------------------------------------------------------ *)
(** * Registration: defaults, last wins, frame *)

Lemma conflict_false old new :
  conflict old new = false <->
  forall n cf cf', In (n, cf) (p_configs old) -> In (n, cf') (p_configs new) ->
    default_eqb (c_default cf) (c_default cf') = true.
Proof.
  unfold conflict. split.
  - intros H n cf cf' H1 H2.
    destruct (default_eqb (c_default cf) (c_default cf')) eqn:E; [reflexivity|exfalso].
    apply not_true_iff_false in H. apply H. apply existsb_exists. exists (n, cf).
    split; [exact H1|]. apply existsb_exists. exists (n, cf'). split; [exact H2|].
    simpl. rewrite eqb_refl', E. reflexivity.
  - intros H. apply not_true_iff_false. intros Hx. apply existsb_exists in Hx.
    destruct Hx as ([n cf] & H1 & Hx). apply existsb_exists in Hx.
    destruct Hx as ([n' cf'] & H2 & Hx). simpl in Hx. seqb n' n; [|discriminate]. subst n'.
    rewrite (H n cf cf' H1 H2) in Hx. discriminate.
Qed.

Lemma register1_ok_iff p reg :
  NoDup (keys reg) ->
  (snd (register1 p reg) = Ok tt <->
   forall d q n cf cf', get d (register_provides p reg) = Some q ->
     In (n, cf) (p_configs q) -> In (n, cf') (p_configs p) ->
     default_eqb (c_default cf) (c_default cf') = true).
Proof.
  intros Hnd. unfold register1. simpl. split.
  - destruct (existsb _ _) eqn:E; [discriminate|]. intros _ d q n cf cf' Hg H1 H2.
    assert (Hc : conflict q p = false).
    { apply not_true_iff_false. intros Hc. apply not_true_iff_false in E. apply E.
      apply existsb_exists. exists q. split; [|exact Hc].
      apply in_map_iff. exists (d, q). split; [reflexivity|]. apply get_In, Hg. }
    rewrite conflict_false in Hc. exact (Hc n cf cf' H1 H2).
  - intros H. destruct (existsb _ _) eqn:E; [exfalso|reflexivity].
    apply existsb_exists in E. destruct E as (q & Hq & Hc).
    apply in_map_iff in Hq. destruct Hq as ([d q'] & Heq & Hi). simpl in Heq. subst q'.
    apply In_get in Hi; [|apply NoDup_register_provides, Hnd].
    assert (Hcf : conflict q p = false) by (apply conflict_false; intros; eapply H; eauto).
    congruence.
Qed.

Lemma register1_agree p reg :
  NoDup (keys reg) -> defaults_agree reg -> snd (register1 p reg) = Ok tt ->
  defaults_agree (fst (register1 p reg)).
Proof.
  intros Hnd Hag Hok. pose proof (proj1 (register1_ok_iff p reg Hnd) Hok) as Hc.
  simpl. intros d q1 d' q2 n cf cf' H1 H2 Hi1 Hi2.
  pose proof H1 as H1'. pose proof H2 as H2'.
  rewrite get_register_provides in H1', H2'.
  destruct (mem d' (p_provides p)) eqn:E2.
  - injection H2' as <-. apply same_default_iff. exact (Hc d q1 n cf cf' H1 Hi1 Hi2).
  - destruct (mem d (p_provides p)) eqn:E1.
    + injection H1' as <-. apply same_default_iff. rewrite default_eqb_sym. exact (Hc d' q2 n cf' cf H2 Hi2 Hi1).
    + exact (Hag d q1 d' q2 n cf cf' H1' H2' Hi1 Hi2).
Qed.

Lemma register_agree ps reg :
  NoDup (keys reg) -> defaults_agree reg -> snd (register ps reg) = Ok tt ->
  defaults_agree (fst (register ps reg)).
Proof.
  revert reg. induction ps as [|p ps IH]; intros reg Hnd Hag Hok; [exact Hag|].
  pose proof (register1_agree p reg Hnd Hag) as H1.
  pose proof (NoDup_register_provides p reg Hnd) as Hnd1.
  simpl in *. destruct (existsb _ _); simpl in *; [discriminate|].
  apply IH; auto.
Qed.

(** A sequence of register calls all of which succeeded. *)
Fixpoint all_registered (calls : list (list plugin)) (reg : registry) : Prop :=
  match calls with
  | [] => True
  | ps :: calls' =>
      snd (register ps reg) = Ok tt /\ all_registered calls' (fst (register ps reg))
  end.

Theorem registrations_agree calls :
  all_registered calls [] -> defaults_agree (registry_after calls).
Proof.
  unfold registry_after.
  assert (H : forall reg, NoDup (keys reg) -> defaults_agree reg -> all_registered calls reg ->
            defaults_agree (fold_left (fun r ps => fst (register ps r)) calls reg)).
  { induction calls as [|ps calls IH]; simpl; intros reg Hnd Hag Hall; [exact Hag|].
    destruct Hall as [Hok Hall]. apply IH; [apply NoDup_register, Hnd| |exact Hall].
    apply register_agree; assumption. }
  apply H; [constructor|]. intros d p d' q n cf cf' Hg. discriminate.
Qed.

(** The provider of [d] after registering a sequence: the last one providing it. *)
Fixpoint last_provider (d : string) (ps : list plugin) : option plugin :=
  match ps with
  | [] => None
  | p :: ps' =>
      match last_provider d ps' with
      | Some q => Some q
      | None => if mem d (p_provides p) then Some p else None
      end
  end.

(** The same without computing it. *)
Lemma last_provider_none d : forall ps, last_provider d ps = None <->
  forall q, In q ps -> ~ In d (p_provides q).
Proof.
  induction ps as [|q ps IH]; cbn [last_provider]; [split; [intros _ q []|reflexivity]|].
  destruct (last_provider d ps) as [r|].
  - split; [discriminate|]. intros H. exfalso. destruct IH as [_ IH].
    assert (Some r = None) by (apply IH; intros x Hx; apply H; right; exact Hx). discriminate.
  - destruct (mem d (p_provides q)) eqn:E.
    + split; [discriminate|]. intros H. exfalso. apply (H q (or_introl eq_refl)). apply mem_In, E.
    + split; [|reflexivity]. intros _ x [<-|Hx]; [apply mem_false, E|]. apply IH; [reflexivity|exact Hx].
Qed.

Lemma last_provider_some d p : forall ps, last_provider d ps = Some p <->
  exists l1 l2, ps = (l1 ++ p :: l2)%list /\ In d (p_provides p) /\
    forall q, In q l2 -> ~ In d (p_provides q).
Proof.
  pose proof (last_provider_none d) as N.
  induction ps as [|q ps IH]; cbn [last_provider].
  - split; [discriminate|]. intros ([|] & l2 & E & _); discriminate.
  - destruct (last_provider d ps) as [r|] eqn:L.
    + split.
      * intros H. injection H as ->. destruct (proj1 IH eq_refl) as (l1 & l2 & -> & H1 & H2).
        exists (q :: l1), l2. auto.
      * intros ([|x l1] & l2 & E & H1 & H2).
        -- injection E as -> ->. exfalso. assert (Some r = None) by (rewrite <- L; apply N; exact H2).
           discriminate.
        -- injection E as -> ->. apply IH. eauto.
    + destruct (mem d (p_provides q)) eqn:E.
      * split.
        -- intros H. injection H as ->. exists [], ps. split; [reflexivity|]. split; [apply mem_In, E|].
           apply N, L.
        -- intros ([|x l1] & l2 & E' & H1 & H2); injection E' as -> ->; [reflexivity|].
           exfalso. apply (proj1 (N _) L p); [|exact H1]. apply in_or_app. right. left. reflexivity.
      * split; [discriminate|]. intros ([|x l1] & l2 & E' & H1 & H2); injection E' as -> ->.
        -- apply mem_false in E. destruct (E H1).
        -- exfalso. apply (proj1 (N _) L p); [|exact H1]. apply in_or_app. right. left. reflexivity.
Qed.

Theorem register_last_wins ps reg :
  snd (register ps reg) = Ok tt ->
  forall d, get d (fst (register ps reg)) =
    match last_provider d ps with Some p => Some p | None => get d reg end.
Proof.
  revert reg. induction ps as [|p ps IH]; simpl; intros reg Hok d; [reflexivity|].
  destruct (existsb _ _); [discriminate|]. rewrite (IH _ Hok d).
  destruct (last_provider d ps); [reflexivity|].
  rewrite get_register_provides. destruct (mem d (p_provides p)); reflexivity.
Qed.

(** Even a failing registration of one class changes only the names it provides. *)
Theorem register1_frame p reg d :
  get d (fst (register1 p reg)) = if mem d (p_provides p) then Some p else get d reg.
Proof. apply get_register_provides. Qed.

(* ------------------------------------------------------------------ *)
(** * Output names *)

Lemma remove_first_not_in x l : ~ In x l -> remove_first x l = l.
Proof.
  induction l as [|y l IH]; simpl; [reflexivity|]. intros H.
  rewrite eqb_neq'; [|intros ->; tauto]. f_equal. apply IH. tauto.
Qed.

Theorem output_names_once l1 l2 noeff :
  ~ In "eff" l1 -> ~ In "eff" l2 ->
  output_names (l1 ++ "eff" :: l2) noeff
    = if noeff then (l1 ++ l2)%list else ((l1 ++ l2) ++ ["eff"])%list.
Proof.
  intros H1 H2. unfold output_names.
  replace (mem "eff" (l1 ++ "eff" :: l2)) with true.
  2:{ symmetry. apply mem_In, in_or_app. right. left. reflexivity. }
  assert (Hr : remove_first "eff" (l1 ++ "eff" :: l2) = (l1 ++ l2)%list).
  { clear -H1. generalize dependent "eff". intros eff H1.
    induction l1 as [|y l1 IH]; simpl; [rewrite eqb_refl'; reflexivity|]. simpl in H1.
    seqb eff y; [subst; tauto|]. f_equal. apply IH. tauto. }
  rewrite Hr. reflexivity.
Qed.

Theorem output_names_none l noeff :
  ~ In "eff" l -> output_names l noeff = if noeff then l else (l ++ ["eff"])%list.
Proof.
  intros H. unfold output_names. apply mem_false in H. rewrite H. reflexivity.
Qed.
