(** Property C87: the parameters that a context needs.
    The vocabulary is in SpecNeeded.v, the proofs in ProofNeeded.v. *)
From Coq Require Import Reals Lra Lia.
From Verif Require Import Base BaseFacts ModelFloat ModelHist ModelShare ModelConfig ModelComponent ModelCompile
  ModelParameter ModelLikelihood ModelBinning ModelLit ModelContext ModelWhole
  SpecHist SpecLikelihood SpecComponent SpecConfig SpecCompile SpecParameter SpecContext SpecWeighted SpecBinning SpecWhole SpecNeeded
  ProofLikelihood ProofContext ProofBinning ProofWhole ProofNeeded PropWhole.
Local Open Scope string_scope.
Local Open Scope list_scope.

(** A context needs what is copied to, and under its alias what the components need: their rates,
    the parameters of the plugins in their workflows and the scalers of the maps in there. The
    scalers are those of the configuration that the constructor leaves behind. *)
Theorem C87_needed {K} (E : ModelWhole.env K) manager ins par w w' c :
  new_context K E manager ins par w = (w', Ok c) ->
  (forall lname li, In (lname, li) (in_llhs ins) -> plain_llh E li) ->
  forall z, In z (cx_needed c) <-> ins_needs E (contents (w_cache w')) ins z.
Proof. apply context_needed. Qed.

(** Giving a value to everything in needed_parameters is enough: after the renaming, whatever a
    component of a likelihood needs has a value. *)
Theorem C87_found {K} (E : ModelWhole.env K) manager ins par w w' c (p : params) lname li x p' :
  new_context K E manager ins par w = (w', Ok c) ->
  (forall lname li, In (lname, li) (in_llhs ins) -> plain_llh E li) ->
  (forall z, In z (cx_needed c) -> In z (keys p)) ->
  In (lname, li) (in_llhs ins) -> llh_needs E (contents (w_cache w')) lname li x ->
  ~ In x (keys (li_alias li)) -> NoDup (keys (li_alias li)) -> renamed (li_alias li) p p' ->
  exists v, get x p' = Some v.
Proof.
  intros H Hp Hall Hin Hx Hno Hnd Hr. rewrite Hr.
  assert (Em : mem x (keys (li_alias li)) = false) by (apply mem_false; exact Hno). rewrite Em.
  destruct (in_dec string_dec x (targets (li_alias li))) as [Ht|Ht].
  - unfold targets in Ht. apply in_map_iff in Ht. destruct Ht as ([z t] & Et & Hi). cbn [snd] in Et. subst t.
    assert (Hz : In z (keys p)).
    { apply Hall. apply (C87_needed E manager ins par w w' c H Hp). right. exists lname, li, x.
      split; [exact Hin|]. split; [exact Hx|]. right. exact Hi. }
    apply get_In_keys in Hz. destruct Hz as [v Hv].
    assert (Ha : exists v', alias_value (li_alias li) p x = Some v').
    { clear - Hi Hv. induction (li_alias li) as [|[k t] al IH]; [destruct Hi|]. cbn [alias_value].
      destruct Hi as [Hi|Hi].
      - injection Hi as -> ->. destruct (alias_value al p x) as [v'|]; [eauto|].
        rewrite String.eqb_refl, Hv. eauto.
      - destruct (IH Hi) as [v' Hv']. rewrite Hv'. eauto. }
    destruct Ha as [v' ->]. eauto.
  - assert (Ha : alias_value (li_alias li) p x = None).
    { clear - Ht. induction (li_alias li) as [|[k t] al IH]; [reflexivity|]. cbn [alias_value].
      cbn in Ht. rewrite IH by auto. destruct (String.eqb t x) eqn:E; [|reflexivity].
      apply String.eqb_eq in E. exfalso. apply Ht. auto. }
    rewrite Ha. apply get_In_keys. apply Hall. apply (C87_needed E manager ins par w w' c H Hp).
    right. exists lname, li, x. split; [exact Hin|]. split; [exact Hx|]. left. auto.
Qed.

(** The check that precedes a fit passes if and only if the manager has no other parameters. *)
Theorem C87_checked {K} (E : ModelWhole.env K) manager ins par w w' c provided :
  new_context K E manager ins par w = (w', Ok c) ->
  (forall lname li, In (lname, li) (in_llhs ins) -> plain_llh E li) ->
  (sanity_check (cx_needed c) provided = Ok tt <->
   forall z, In z provided -> ins_needs E (contents (w_cache w')) ins z).
Proof.
  intros H Hp. rewrite sanity_ok. split; intros G z Hz.
  - apply (C87_needed E manager ins par w w' c H Hp). auto.
  - apply (C87_needed E manager ins par w w' c H Hp). auto.
Qed.

(** A component that is refused adds nothing; a fixed one needs the name of a file. *)
Theorem C87_refused {K} (E : ModelWhole.env K) lname cname cls file c w w' c' e :
  context_component K E lname cname cls file c w = (w', c', Err e) ->
  cx_needed c' = cx_needed c /\
  (forall n L', get n (cx_llhs c') = Some L' -> exists L, get n (cx_llhs c) = Some L /\
     keys (ll_components (wl_llh L')) = keys (ll_components (wl_llh L))).
Proof.
  unfold context_component. destruct (get lname (cx_llhs c)) as [L|] eqn:HL.
  - destruct (add_component K E lname cname cls file L w) as [[w1 L1] [u|e1]] eqn:Ha; intros H; [discriminate|].
    injection H as <- <- <-. split; [reflexivity|]. cbn [cx_llhs]. intros n L' Hn.
    destruct (String.eqb n lname) eqn:En.
    + apply String.eqb_eq in En. subst n. rewrite get_set_eq in Hn. injection Hn as <-. exists L.
      split; [exact HL|]. unfold add_component in Ha. destruct (full L).
      { injection Ha as <- <- <-. reflexivity. }
      destruct (has cname _) eqn:Hh.
      * injection Ha as <- <- <-. reflexivity.
      * destruct (construct_component K E lname (m_on (wl_type L)) (m_bins (wl_type L)) cname cls file w) as [w2 r2].
        unfold register_component in Ha. rewrite ?Hh in Ha. destruct r2 as [[x sim]|x].
        -- discriminate Ha.
        -- injection Ha as <- <- <-. reflexivity.
    + apply String.eqb_neq in En. rewrite get_set_neq in Hn by exact En. exists L'. auto.
  - intros H. injection H as <- <- <-. split; [reflexivity|]. intros n L' Hn. exists L'. auto.
Qed.

Theorem C87_no_file {K} (E : ModelWhole.env K) lname cname nt eps file c w L :
  get lname (cx_llhs c) = Some L -> ~ In cname (keys (ll_components (wl_llh L))) ->
  (exists lk, wl_type L = MDefault lk) \/ ll_components (wl_llh L) = [] ->
  file = None \/ file = Some "" ->
  snd (context_component K E lname cname (ClsFixed nt eps) file c w) = Err ValueError.
Proof.
  intros HL Hn Hone Hf. unfold context_component. rewrite HL. unfold add_component.
  assert (Hfull : full L = false).
  { unfold full. destruct Hone as [[lk ->]| ->]; [reflexivity|destruct (wl_type L); reflexivity]. }
  rewrite Hfull.
  destruct (has cname (ll_components (wl_llh L))) eqn:Hh; [apply has_keys in Hh; contradiction|].
  destruct Hf as [-> | ->]; reflexivity.
Qed.

(** The context of PropWhole.v: one parameter is copied, the rate of one component has an alias. *)
Example C87_case :
  new_context nat w_env w_manager w_ins (Ok w_par) init_world = (w_w4, Ok w_context) /\
  (forall lname li, In (lname, li) (in_llhs w_ins) -> plain_llh w_env li) /\
  cx_needed w_context = ["a"; "er_events"; "ac_rate"] /\
  keys (p_values (cx_pars w_context)) = ["er_events"; "ac_rate"; "a"].
Proof.
  split; [exact w_context_made|]. split; [|split; reflexivity].
  intros lname li [H|[]]. injection H as <- <-. split; [|split].
  - intros k [<-|[]] [H|[]]. discriminate.
  - repeat constructor. intros [].
  - intros cname cls file ps nt ae Hin Hk.
    assert (Hps : ps = [pEn; pEf]).
    { destruct Hin as [Hin|[Hin|[]]]; injection Hin as <- <- <-; [|discriminate]. injection Hk as <- <- <-. reflexivity. }
    subst ps. assert (Hr : forall d p, get d w_reg = Some p -> (d = "energy" /\ p = pEn) \/ (d = "eff" /\ p = pEf)).
    { intros d p H. apply get_In in H. destruct H as [H|[H|[]]]; injection H as <- <-; auto. }
    change (registry_after [[pEn; pEf]]) with w_reg.
    intros d p d' q Hp Hq Hn. apply Hr in Hp, Hq. destruct Hp as [[-> ->]|[-> ->]], Hq as [[-> ->]|[-> ->]]; reflexivity || discriminate.
Qed.

Print Assumptions C87_needed.
Print Assumptions C87_found.
Print Assumptions C87_checked.
Print Assumptions C87_refused.
Print Assumptions C87_no_file.
