(** Lemmas about aliases, registration and the likelihood. *)
From Coq Require Import Reals Lra Permutation.
From Verif Require Import Base BaseFacts ModelFloat ModelHist ModelLikelihood
  SpecHist SpecLikelihood ProofFloat ProofHist.
Local Open Scope list_scope.

(* ------------------------------------------------------------------ *)
(** * Aliases *)

Lemma get_targets {A} (k : string) (v : A) (d : dict A) : get k d = Some v -> In v (map snd d).
Proof. intros H. apply get_In in H. apply (in_map snd) in H. exact H. Qed.

Lemma separate_tail k v rest : separate ((k, v) :: rest) -> separate rest.
Proof. intros H x Hx Ht. apply (H x); simpl; auto. Qed.

Lemma alias_value_ext {V} (alias : dict string) (p q : dict V) n :
  (forall k, In k (keys alias) -> get k p = get k q) -> alias_value alias p n = alias_value alias q n.
Proof.
  induction alias as [|[k v] rest IH]; simpl; intros H; [reflexivity|].
  rewrite IH by auto. rewrite (H k) by auto. reflexivity.
Qed.

Lemma replace_alias_NoDup {V} (alias : dict string) : forall p : dict V,
  NoDup (keys p) -> NoDup (keys (replace_alias alias p)).
Proof.
  induction alias as [|[k v] rest IH]; simpl; intros p Hp; [exact Hp|].
  destruct (get k p); [|auto]. apply IH, NoDup_set, NoDup_del, Hp.
Qed.

Lemma replace_alias_get {V} (alias : dict string) : forall (p : dict V) n,
  NoDup (keys p) -> NoDup (keys alias) -> separate alias ->
  get n (replace_alias alias p) =
  if mem n (keys alias) then None
  else match alias_value alias p n with Some x => Some x | None => get n p end.
Proof.
  induction alias as [|[k v] rest IH]; intros p n Hp Ha Hs; [reflexivity|].
  cbn [replace_alias alias_value]. inversion Ha as [|? ? Hni Hnd]; subst.
  assert (Hkv : k <> v).
  { intros ->. apply (Hs v); simpl; auto. }
  assert (Hk2v : forall k2, In k2 (keys rest) -> k2 <> v).
  { intros k2 Hk2 ->. apply (Hs v); simpl; auto. }
  assert (Hk2k : forall k2, In k2 (keys rest) -> k2 <> k).
  { intros k2 Hk2 ->. contradiction. }
  replace (mem n (keys ((k, v) :: rest))) with (String.eqb n k || mem n (keys rest))%bool
    by reflexivity.
  destruct (get k p) as [x|] eqn:Hg.
  - assert (Hp1 : NoDup (keys (set v x (del k p)))) by (apply NoDup_set, NoDup_del, Hp).
    rewrite (IH _ n Hp1 Hnd (separate_tail _ _ _ Hs)).
    assert (Hav : alias_value rest (set v x (del k p)) n = alias_value rest p n).
    { apply alias_value_ext. intros k2 Hk2. rewrite get_set_neq by (apply Hk2v, Hk2).
      rewrite get_del_neq by (apply Hk2k, Hk2). reflexivity. }
    rewrite Hav. destruct (String.eqb n k) eqn:Enk; simpl.
    + apply String.eqb_eq in Enk. subst n.
      destruct (mem k (keys rest)) eqn:Hm; [reflexivity|].
      assert (Hno : alias_value rest p k = None).
      { destruct (alias_value rest p k) as [y|] eqn:Hy; [|reflexivity]. exfalso.
        assert (In k (targets rest)); [|apply (Hs k); simpl; auto].
        clear -Hy. induction rest as [|[k0 v0] rest IH]; simpl in *; [discriminate|].
        destruct (alias_value rest p k) as [z|].
        - right. apply IH. exact Hy.
        - destruct (String.eqb v0 k) eqn:E; [|discriminate]. apply String.eqb_eq in E. auto. }
      rewrite Hno. rewrite get_set_neq by exact Hkv. apply get_del_eq. exact Hp.
    + apply String.eqb_neq in Enk. destruct (mem n (keys rest)); [reflexivity|].
      destruct (alias_value rest p n) as [y|]; [reflexivity|].
      destruct (String.eqb v n) eqn:Evn.
      * apply String.eqb_eq in Evn. subst n. apply get_set_eq.
      * apply String.eqb_neq in Evn. rewrite get_set_neq by congruence. apply get_del_neq. exact Enk.
  - rewrite (IH p n Hp Hnd (separate_tail _ _ _ Hs)).
    destruct (String.eqb n k) eqn:Enk; simpl.
    + apply String.eqb_eq in Enk. subst n.
      destruct (mem k (keys rest)); [reflexivity|].
      assert (Hno : alias_value rest p k = None).
      { destruct (alias_value rest p k) as [y|] eqn:Hy; [|reflexivity]. exfalso.
        assert (In k (targets rest)); [|apply (Hs k); simpl; auto].
        clear -Hy. induction rest as [|[k0 v0] rest IH]; simpl in *; [discriminate|].
        destruct (alias_value rest p k) as [z|].
        - right. apply IH. exact Hy.
        - destruct (String.eqb v0 k) eqn:E; [|discriminate]. apply String.eqb_eq in E. auto. }
      rewrite Hno. exact Hg.
    + destruct (mem n (keys rest)); [reflexivity|].
      destruct (alias_value rest p n); [reflexivity|].
      destruct (String.eqb v n); reflexivity.
Qed.

Lemma replace_alias_absent {V} (alias : dict string) : forall p : dict V,
  (forall k, In k (keys alias) -> get k p = None) -> replace_alias alias p = p.
Proof.
  induction alias as [|[k v] rest IH]; simpl; intros p H; [reflexivity|].
  rewrite (H k) by auto. apply IH. intros k2 Hk2. apply H. auto.
Qed.

Lemma replace_alias_idem {V} (alias : dict string) (p : dict V) :
  NoDup (keys p) -> NoDup (keys alias) -> separate alias ->
  replace_alias alias (replace_alias alias p) = replace_alias alias p.
Proof.
  intros Hp Ha Hs. apply replace_alias_absent. intros k Hk.
  rewrite replace_alias_get by assumption.
  assert (Hm : mem k (keys alias) = true) by (apply mem_In; exact Hk). rewrite Hm. reflexivity.
Qed.

(** With pairwise different targets, each alias's value ends at its target. *)
Lemma alias_value_distinct {V} (alias : dict string) (p : dict V) k v :
  NoDup (targets alias) -> In (k, v) alias -> alias_value alias p v = get k p.
Proof.
  induction alias as [|[k0 v0] rest IH]; simpl; intros Hnd Hin; [contradiction|].
  inversion Hnd as [|? ? Hni Hnd']; subst.
  assert (Hnone : forall n, ~ In n (targets rest) -> alias_value rest p n = None).
  { clear. induction rest as [|[k1 v1] rest IH]; simpl; intros n Hn; [reflexivity|].
    rewrite IH by tauto. destruct (String.eqb v1 n) eqn:E; [|reflexivity].
    apply String.eqb_eq in E. tauto. }
  destruct Hin as [Heq|Hin].
  - injection Heq as -> ->. rewrite Hnone by exact Hni. rewrite String.eqb_refl. reflexivity.
  - rewrite (IH Hnd' Hin). destruct (get k p) as [x|]; [reflexivity|].
    destruct (String.eqb v0 v) eqn:E; [|reflexivity]. apply String.eqb_eq in E. subst v0.
    exfalso. apply Hni. apply (in_map snd) in Hin. exact Hin.
Qed.

Lemma alias_value_none {V} (alias : dict string) (p : dict V) n :
  ~ In n (targets alias) -> alias_value alias p n = None.
Proof.
  induction alias as [|[k1 v1] rest IH]; simpl; intros Hn; [reflexivity|].
  rewrite IH by tauto. destruct (String.eqb v1 n) eqn:E; [|reflexivity].
  apply String.eqb_eq in E. tauto.
Qed.

Lemma alias_value_some {V} (alias : dict string) (p : dict V) k n :
  In (k, n) alias -> get k p <> None -> alias_value alias p n <> None.
Proof.
  induction alias as [|[k0 v0] rest IH]; simpl; intros Hin Hg; [contradiction|].
  destruct (alias_value rest p n) as [x|] eqn:Hx; [discriminate|].
  destruct Hin as [Heq|Hin]; [|exact (False_ind _ (IH Hin Hg eq_refl))].
  injection Heq as -> ->. rewrite String.eqb_refl. exact Hg.
Qed.

(** The heap version: the caller's dictionary is not touched. *)
Lemma heap_get_set_eq l p h : l < List.length h -> heap_get (heap_set l p h) l = p.
Proof.
  unfold heap_get. revert l. induction h as [|q h IH]; intros l Hl; [simpl in Hl; lia|].
  destruct l; simpl; [reflexivity|]. apply IH. simpl in Hl. lia.
Qed.
Lemma heap_get_set_neq l l' p h : l <> l' -> heap_get (heap_set l p h) l' = heap_get h l'.
Proof.
  unfold heap_get. revert l l'. induction h as [|q h IH]; intros [|l] [|l'] Hl; simpl; try congruence; auto.
Qed.
Lemma heap_set_length l p h : List.length (heap_set l p h) = List.length h.
Proof. revert l. induction h as [|q h IH]; intros [|l]; simpl; auto. Qed.

Lemma alias_loop_spec alias l : forall h, l < List.length h ->
  List.length (alias_loop alias l h) = List.length h /\
  heap_get (alias_loop alias l h) l = replace_alias alias (heap_get h l) /\
  forall l', l' <> l -> heap_get (alias_loop alias l h) l' = heap_get h l'.
Proof.
  induction alias as [|[k v] rest IH]; simpl; intros h Hl; [auto|].
  destruct (get k (heap_get h l)) as [x|] eqn:Hg; [|apply IH, Hl].
  rewrite (heap_get_set_eq l _ h Hl).
  set (h1 := heap_set l (del k (heap_get h l)) h).
  set (h2 := heap_set l (set v x (del k (heap_get h l))) h1).
  assert (Hl1 : List.length h1 = List.length h) by apply heap_set_length.
  assert (Hl2 : List.length h2 = List.length h) by (unfold h2; rewrite heap_set_length; exact Hl1).
  destruct (IH h2) as (H1 & H2 & H3); [lia|].
  split; [lia|]. split.
  - rewrite H2. unfold h2. rewrite heap_get_set_eq by lia. reflexivity.
  - intros l' Hne. rewrite H3 by exact Hne. unfold h2, h1.
    rewrite !heap_get_set_neq by congruence. reflexivity.
Qed.

Lemma replace_alias_heap_spec alias l h : l < List.length h ->
  let '(h', l') := replace_alias_heap alias l h in
  heap_get h' l' = replace_alias alias (heap_get h l) /\
  (forall i, i < List.length h -> heap_get h' i = heap_get h i) /\
  ~ l' < List.length h.
Proof.
  intros Hl. unfold replace_alias_heap.
  set (h1 := h ++ [heap_get h l]).
  assert (Hl1 : List.length h1 = S (List.length h)) by (unfold h1; rewrite app_length; simpl; lia).
  destruct (alias_loop_spec alias (List.length h) h1) as (_ & H2 & H3); [lia|].
  split; [|split; [|lia]].
  - rewrite H2. unfold heap_get, h1. rewrite nth_middle. reflexivity.
  - intros i Hi. rewrite H3 by lia. unfold heap_get, h1. apply app_nth1, Hi.
Qed.

(* ------------------------------------------------------------------ *)
(** * needed_parameters of a likelihood *)

Lemma del_name_In x y l : In y (del_name x l) <-> In y l /\ y <> x.
Proof.
  unfold del_name. rewrite filter_In, negb_true_iff, String.eqb_neq. split; intros [H1 H2]; auto.
Qed.

Lemma alias_needed_spec alias : forall S z,
  separate alias -> NoDup (targets alias) ->
  (In z (alias_needed alias S) <->
   (In z S /\ ~ In z (targets alias)) \/ (exists v, In v S /\ In (z, v) alias)).
Proof.
  induction alias as [|[k v] rest IH]; intros S z Hs Hnd.
  { simpl. split; [tauto|]. intros [[H _]|(v & _ & [])]. exact H. }
  inversion Hnd as [|? ? Hni Hnd']; subst.
  assert (Hkt : ~ In k (targets ((k, v) :: rest))) by (apply Hs; simpl; auto).
  assert (Hkr : ~ In k (targets rest)) by (simpl in Hkt; tauto).
  assert (Hkv : k <> v) by (simpl in Hkt; intros ->; tauto).
  pose proof (separate_tail _ _ _ Hs) as Hs'. cbn [alias_needed].
  destruct (mem v S) eqn:Hm.
  - apply mem_In in Hm. rewrite (IH _ z Hs' Hnd'). split.
    + intros [[H1 H2]|(v1 & H1 & H2)].
      * apply del_name_In in H1. destruct H1 as [H1 H3]. apply add1_In in H1.
        destruct H1 as [->|H1].
        -- right. exists v. split; [exact Hm|left; reflexivity].
        -- left. split; [exact H1|]. simpl. intros [H|H]; [congruence|contradiction].
      * apply del_name_In in H1. destruct H1 as [H1 H3]. apply add1_In in H1.
        destruct H1 as [->|H1].
        -- exfalso. apply Hkr. apply (in_map snd) in H2. exact H2.
        -- right. exists v1. split; [exact H1|right; exact H2].
    + intros [[H1 H2]|(v1 & H1 & H2)].
      * left. simpl in H2. split; [|tauto]. apply del_name_In. split; [apply add1_In; auto|].
        intros ->. tauto.
      * destruct H2 as [H2|H2].
        -- injection H2 as <- <-. left. split; [|exact Hkr]. apply del_name_In.
           split; [apply add1_In; auto|exact Hkv].
        -- right. exists v1. split; [|exact H2]. apply del_name_In. split; [apply add1_In; auto|].
           intros ->. apply Hni. apply (in_map snd) in H2. exact H2.
  - apply mem_false in Hm. rewrite (IH S z Hs' Hnd'). split.
    + intros [[H1 H2]|(v1 & H1 & H2)].
      * left. split; [exact H1|]. simpl. intros [->|H]; contradiction.
      * right. exists v1. split; [exact H1|right; exact H2].
    + intros [[H1 H2]|(v1 & H1 & H2)].
      * left. simpl in H2. tauto.
      * destruct H2 as [H2|H2].
        -- injection H2 as <- <-. contradiction.
        -- right. exists v1. auto.
Qed.

(** Without assuming different targets: everything needed is still covered. *)
Lemma alias_needed_covers alias : forall S y,
  separate alias -> In y S ->
  (~ In y (targets alias) -> In y (alias_needed alias S)) /\
  (In y (targets alias) -> exists k, In (k, y) alias /\ In k (alias_needed alias S)).
Proof.
  induction alias as [|[k v] rest IH]; intros S y Hs Hy.
  { simpl. split; [auto|contradiction]. }
  assert (Hkt : ~ In k (targets ((k, v) :: rest))) by (apply Hs; simpl; auto).
  assert (Hkr : ~ In k (targets rest)) by (simpl in Hkt; tauto).
  assert (Hkv : k <> v) by (simpl in Hkt; intros ->; tauto).
  pose proof (separate_tail _ _ _ Hs) as Hs'. cbn [alias_needed].
  destruct (mem v S) eqn:Hm.
  - apply mem_In in Hm. destruct (string_dec y v) as [->|Hne].
    + split; [intros H; exfalso; apply H; simpl; auto|]. intros _. exists k.
      split; [left; reflexivity|].
      apply (proj1 (IH (del_name v (add1 k S)) k Hs'
        (proj2 (del_name_In v k _) (conj (proj2 (add1_In k k S) (or_introl eq_refl)) Hkv))) Hkr).
    + assert (Hy' : In y (del_name v (add1 k S))).
      { apply del_name_In. split; [apply add1_In; auto|exact Hne]. }
      destruct (IH _ y Hs' Hy') as [H1 H2]. split.
      * intros H. apply H1. simpl in H. tauto.
      * intros [H|H]; [simpl in H; congruence|]. destruct (H2 H) as (k1 & Hk1 & Hin).
        exists k1. split; [right; exact Hk1|exact Hin].
  - apply mem_false in Hm. destruct (IH S y Hs' Hy) as [H1 H2]. split.
    + intros H. apply H1. simpl in H. tauto.
    + intros [H|H]; [simpl in H; subst; contradiction|]. destruct (H2 H) as (k1 & Hk1 & Hin).
      exists k1. split; [right; exact Hk1|exact Hin].
Qed.

Lemma alias_needed_keeps_alias alias S z :
  separate alias -> ~ In z (targets alias) -> In z S -> In z (alias_needed alias S).
Proof. intros Hs Hz Hin. exact (proj1 (alias_needed_covers alias S z Hs Hin) Hz). Qed.

Section Register.
  Context {K : Type}.

  Lemma register_fails name construct (L : llh K) e :
    snd (register_component name construct L) = Err e -> fst (register_component name construct L) = L.
  Proof.
    unfold register_component. destruct (has name (ll_components L)); [reflexivity|].
    destruct construct; [discriminate|reflexivity].
  Qed.

  Lemma register_fails_iff name construct (L : llh K) :
    is_ok (snd (register_component name construct L)) = false <->
    In name (keys (ll_components L)) \/ exists e, construct = Err e.
  Proof.
    unfold register_component. destruct (has name (ll_components L)) eqn:Hh.
    - apply has_keys in Hh. simpl. split; auto.
    - apply has_false in Hh. apply get_None_keys in Hh. destruct construct as [c|e]; simpl.
      + split; [discriminate|]. intros [H|[e H]]; [contradiction|discriminate].
      + split; [|reflexivity]. intros _. right. eauto.
  Qed.

  Lemma register_succeeds name construct (L L' : llh K) u :
    register_component name construct L = (L', Ok u) ->
    exists c, construct = Ok c /\ get name (ll_components L) = None /\
      keys (ll_components L') = keys (ll_components L) ++ [name] /\
      get name (ll_components L') = Some c /\
      (forall n, n <> name -> get n (ll_components L') = get n (ll_components L)) /\
      ll_alias L' = ll_alias L /\ ll_data L' = ll_data L.
  Proof.
    unfold register_component. destruct (has name (ll_components L)) eqn:Hh; [discriminate|].
    apply has_false in Hh. destruct construct as [c|e]; [|discriminate].
    intros H. injection H as <- _. exists c. simpl.
    repeat split; auto.
    - apply get_None_keys in Hh. clear -Hh. induction (ll_components L) as [|[k v] d IH]; simpl in *; [reflexivity|].
      destruct (String.eqb name k) eqn:E; [apply String.eqb_eq in E; subst; tauto|]. simpl. rewrite IH by tauto. reflexivity.
    - apply get_set_eq.
    - intros n Hn. apply get_set_neq, Hn.
  Qed.

  (** Properties of every likelihood reachable by registrations. *)
  Definition covered (alias : dict string) (needed : list string) (x : string) : Prop :=
    (~ In x (targets alias) -> In x needed) /\
    (In x (targets alias) -> exists k, In (k, x) alias /\ In k needed).

  Lemma covered_mono alias S x : separate alias ->
    covered alias S x -> covered alias (alias_needed alias S) x.
  Proof.
    intros Hs [H1 H2]. split.
    - intros Hx. apply alias_needed_keeps_alias; auto.
    - intros Hx. destruct (H2 Hx) as (k & Hk & Hin). exists k. split; [exact Hk|].
      apply alias_needed_keeps_alias; auto. apply Hs.
      apply (in_map fst) in Hk. exact Hk.
  Qed.

  Definition inv (L : llh K) : Prop :=
    NoDup (keys (ll_components L)) /\
    forall n c x, get n (ll_components L) = Some c -> In x (l_needed c) ->
      covered (ll_alias L) (ll_needed L) x.

  Lemma inv_register name construct (L : llh K) :
    separate (ll_alias L) -> inv L -> inv (fst (register_component name construct L)) /\
    ll_alias (fst (register_component name construct L)) = ll_alias L.
  Proof.
    intros Hs [Hnd Hc]. unfold register_component.
    destruct (has name (ll_components L)) eqn:Hh; [split; [split; assumption|reflexivity]|].
    destruct construct as [c|e]; [|split; [split; assumption|reflexivity]].
    split; [|reflexivity]. split; simpl.
    - apply NoDup_set, Hnd.
    - intros n c' x Hg Hx. rewrite get_set in Hg. destruct (String.eqb n name).
      + injection Hg as <-. exact (alias_needed_covers (ll_alias L) _ x Hs
          (proj2 (union_In _ _ _) (or_intror Hx))).
      + apply covered_mono; [exact Hs|]. destruct (Hc n c' x Hg Hx) as [H1 H2]. split.
        * intros H. apply union_In. left. auto.
        * intros H. destruct (H2 H) as (k & Hk & Hin). exists k. split; [exact Hk|].
          apply union_In. left. exact Hin.
  Qed.

  Lemma inv_register_all regs : forall L : llh K,
    separate (ll_alias L) -> inv L ->
    inv (register_all regs L) /\ ll_alias (register_all regs L) = ll_alias L.
  Proof.
    unfold register_all. induction regs as [|[n r] regs IH]; simpl; intros L Hs Hi; [auto|].
    destruct (inv_register n r L Hs Hi) as [H1 H2].
    destruct (IH _ ltac:(rewrite H2; exact Hs) H1) as [H3 H4]. split; [exact H3|].
    rewrite H4. exact H2.
  Qed.

  Lemma needed_suffices alias data regs (p : params) n c x :
    separate alias -> NoDup (keys alias) -> NoDup (keys p) ->
    let L := @register_all K regs (new_llh alias data) in
    get n (ll_components L) = Some c -> In x (l_needed c) -> ~ In x (keys alias) ->
    (forall y, In y (ll_needed L) -> In y (keys p)) ->
    In x (keys (replace_alias alias p)).
  Proof.
    intros Hs Ha Hp L Hg Hx Hxa Hall.
    destruct (inv_register_all regs (new_llh alias data)) as [[_ Hc] Hal].
    { exact Hs. } { split; [constructor|]. intros ? ? ? H. discriminate. }
    fold L in Hc, Hal. simpl in Hal. destruct (Hc n c x Hg Hx) as [H1 H2]. rewrite Hal in H1, H2.
    apply get_In_keys. rewrite replace_alias_get by assumption.
    assert (Hm : mem x (keys alias) = false) by (apply mem_false; exact Hxa). rewrite Hm.
    destruct (alias_value alias p x) as [y|] eqn:Hav; [eauto|].
    destruct (in_dec string_dec x (targets alias)) as [Ht|Ht].
    - destruct (H2 Ht) as (k & Hk & Hin). exfalso. apply (alias_value_some alias p k x Hk); [|exact Hav].
      specialize (Hall k Hin). apply get_In_keys in Hall. destruct Hall as [y ->]. discriminate.
    - apply get_In_keys. apply Hall, H1, Ht.
  Qed.

  Lemma needed_exact_alias alias data regs z :
    separate alias -> NoDup (targets alias) ->
    let L := @register_all K regs (new_llh alias data) in
    In z (ll_needed L) <->
    exists n c x, get n (ll_components L) = Some c /\ In x (l_needed c) /\
      ((~ In x (targets alias) /\ z = x) \/ In (z, x) alias).
  Proof.
    intros Hs Hnd L.
    set (spec := fun (L : llh K) => forall z, In z (ll_needed L) <->
      exists n c x, get n (ll_components L) = Some c /\ In x (l_needed c) /\
      ((~ In x (targets alias) /\ z = x) \/ In (z, x) alias)).
    assert (Hgo : forall regs (L : llh K), ll_alias L = alias -> spec L ->
                  ll_alias (register_all regs L) = alias /\ spec (register_all regs L)).
    { clear regs L z. unfold register_all. induction regs as [|[nm r] regs IH]; simpl; intros L Hal Hsp; [auto|].
      apply IH.
      - unfold register_component. destruct (has nm (ll_components L)); [exact Hal|].
        destruct r; exact Hal.
      - unfold register_component. destruct (has nm (ll_components L)) eqn:Hh; [exact Hsp|].
        destruct r as [c|e]; [|exact Hsp]. apply has_false in Hh.
        intros z. simpl. rewrite Hal. rewrite alias_needed_spec by assumption. split.
        + intros [[H1 H2]|(v & H1 & H2)].
          * apply union_In in H1. destruct H1 as [H1|H1].
            -- apply Hsp in H1. destruct H1 as (n & c' & x & Hg & Hx & Hz).
               exists n, c', x. split; [|auto]. rewrite get_set_neq; [exact Hg|]. intros ->. congruence.
            -- exists nm, c, z. split; [apply get_set_eq|]. auto.
          * apply union_In in H1. destruct H1 as [H1|H1].
            -- apply Hsp in H1. destruct H1 as (n & c' & x & Hg & Hx & Hz).
               exfalso. assert (Hvt : In v (targets alias)) by (apply (in_map snd) in H2; exact H2).
               destruct Hz as [[Hz ->]|Hz]; [contradiction|].
               apply (Hs v); [apply (in_map fst) in Hz; exact Hz|exact Hvt].
            -- exists nm, c, v. split; [apply get_set_eq|]. auto.
        + intros (n & c' & x & Hg & Hx & Hz). rewrite get_set in Hg.
          destruct (String.eqb n nm).
          * injection Hg as <-. destruct Hz as [[Hz ->]|Hz].
            -- left. split; [apply union_In; auto|exact Hz].
            -- right. exists x. split; [apply union_In; auto|exact Hz].
          * left. split.
            -- apply union_In. left. apply Hsp. exists n, c', x. auto.
            -- destruct Hz as [[Hz ->]|Hz]; [exact Hz|]. apply Hs.
               apply (in_map fst) in Hz. exact Hz. }
    destruct (Hgo regs (new_llh alias data) eq_refl) as [_ H]; [|apply H].
    intros z0. simpl. split; [contradiction|]. intros (n & c & x & Hg & _). discriminate.
  Qed.
End Register.

(* ------------------------------------------------------------------ *)
(** * The model histogram *)

Lemma iadd_ok h x : List.length h = List.length x -> iadd h x = Ok (hist_add h x).
Proof. intros H. unfold iadd. rewrite H, Nat.eqb_refl. reflexivity. Qed.

Lemma iadd_inv h x r : iadd h x = Ok r -> List.length h = List.length x /\ r = hist_add h x.
Proof.
  unfold iadd. destruct (Nat.eqb (List.length h) (List.length x)) eqn:E; [|discriminate].
  intros H. injection H as <-. apply Nat.eqb_eq in E. auto.
Qed.

(** Entry [i] of a list of histograms, added up. *)
Definition column_sum (xs : list (list fl)) (i : nat) : fl := fsum (map (fun x => entry x i) xs).

Section Model.
  Context {K : Type}.

  Lemma sum_components_spec cs : forall (key : K) b p h key' h',
    sum_components cs key b p h = Ok (key', h') ->
    exists xs ys, sim_chain b p cs key xs key' /\ fixed_hists p cs ys /\
      existsb is_other cs = false /\
      (forall x, In x (xs ++ ys) -> List.length x = List.length h) /\
      List.length h' = List.length h /\
      forall i, i < List.length h ->
        entry h' i = fadd (entry h i) (fadd (column_sum xs i) (column_sum ys i)).
  Proof.
    induction cs as [|[n c] rest IH]; cbn [sum_components]; intros key b p h key' h' H.
    - injection H as <- <-. exists [], []. split; [constructor|]. split; [constructor|].
      split; [reflexivity|]. split; [intros x []|]. split; [reflexivity|].
      intros i _. unfold column_sum. simpl. rewrite !fadd_0_r. reflexivity.
    - assert (Hgo : forall key1 x, (match iadd h x with
          | Ok h0 => sum_components rest key1 b p h0 | Err e => Err e end) = Ok (key', h') ->
        exists xs ys, sim_chain b p rest key1 xs key' /\ fixed_hists p rest ys /\
          existsb is_other rest = false /\ List.length x = List.length h /\
          (forall x0, In x0 (xs ++ ys) -> List.length x0 = List.length h) /\
          List.length h' = List.length h /\
          forall i, i < List.length h ->
            entry h' i = fadd (entry h i) (fadd (entry x i) (fadd (column_sum xs i) (column_sum ys i)))).
      { intros key1 x H1. destruct (iadd h x) as [h1|e] eqn:Hia; [|discriminate].
        apply iadd_inv in Hia. destruct Hia as [Hl ->].
        destruct (IH _ _ _ _ _ _ H1) as (xs & ys & Hxs & Hys & Ho & Hlen & Hl' & He).
        rewrite hist_add_length in * by exact Hl.
        exists xs, ys. split; [exact Hxs|]. split; [exact Hys|]. split; [exact Ho|].
        split; [symmetry; exact Hl|]. split; [exact Hlen|]. split; [exact Hl'|].
        intros i Hi. rewrite He by exact Hi. rewrite hist_add_entry by assumption.
        apply fadd_assoc. }
      destruct (l_kind c) as [f|f|] eqn:Hk; [| |discriminate].
      + destruct (f key b p) as [[key1 x]|e] eqn:Hf; [|discriminate].
        destruct (Hgo key1 x H) as (xs & ys & Hxs & Hys & Ho & Hlx & Hlen & Hl' & He).
        exists (x :: xs), ys. split; [eapply sc_sim; eauto|].
        split; [apply fh_skip; [intros f0; rewrite Hk; discriminate|exact Hys]|].
        split; [simpl; unfold is_other at 1; simpl; rewrite Hk; exact Ho|].
        split; [intros x0 [<-|Hx0]; [exact Hlx|apply Hlen, Hx0]|]. split; [exact Hl'|].
        intros i Hi. rewrite He by exact Hi. f_equal. unfold column_sum at 3. simpl map. rewrite fsum_cons.
        symmetry. apply fadd_assoc.
      + destruct (f p) as [x|e] eqn:Hf; [|discriminate].
        destruct (Hgo key x H) as (xs & ys & Hxs & Hys & Ho & Hlx & Hlen & Hl' & He).
        exists xs, (x :: ys).
        split; [apply sc_skip; [intros f0; rewrite Hk; discriminate|exact Hxs]|].
        split; [eapply fh_fixed; eauto|].
        split; [simpl; unfold is_other at 1; simpl; rewrite Hk; exact Ho|].
        split.
        { intros x0 Hx0. apply in_app_iff in Hx0. destruct Hx0 as [Hx0|[<-|Hx0]].
          - apply Hlen, in_app_iff. auto.
          - exact Hlx.
          - apply Hlen, in_app_iff. auto. }
        split; [exact Hl'|]. intros i Hi. rewrite He by exact Hi. f_equal.
        unfold column_sum at 4. simpl map. rewrite fsum_cons.
        rewrite <- !fadd_assoc. f_equal. apply fadd_comm.
  Qed.

  Lemma sum_components_complete cs : forall (key : K) b p h xs ys key',
    sim_chain b p cs key xs key' -> fixed_hists p cs ys -> existsb is_other cs = false ->
    (forall x, In x (xs ++ ys) -> List.length x = List.length h) ->
    exists h', sum_components cs key b p h = Ok (key', h').
  Proof.
    induction cs as [|[n c] rest IH]; cbn [sum_components]; intros key b p h xs ys key' Hs Hf Ho Hl.
    - inversion Hs; subst. eauto.
    - cbn [existsb] in Ho. apply orb_false_iff in Ho. destruct Ho as [Ho1 Ho].
      unfold is_other in Ho1. cbn [snd] in Ho1.
      inversion Hs as [|? ? f ? ? key1 x xs' ? Hk Hfx Hrest|? ? ? ? ? ? Hk Hrest]; subst.
      + rewrite Hk, Hfx. rewrite iadd_ok by (symmetry; apply Hl; left; reflexivity).
        inversion Hf as [|? ? f' ? ? ? Hk' _ _|? ? ? ? Hk' Hf']; subst; [congruence|].
        apply (IH key1 b p _ xs' ys key' Hrest Hf' Ho).
        intros x0 Hx0. rewrite hist_add_length by (symmetry; apply Hl; left; reflexivity).
        apply Hl. right. exact Hx0.
      + inversion Hf as [|? ? f' ? x ys' Hk' Hfx Hf'|? ? ? ? Hk' Hf']; subst.
        * rewrite Hk', Hfx.
          assert (Hx : List.length h = List.length x).
          { symmetry. apply Hl. apply in_app_iff. right. left. reflexivity. }
          rewrite iadd_ok by exact Hx.
          apply (IH key b p _ xs ys' key' Hrest Hf' Ho).
          intros x0 Hx0. rewrite hist_add_length by exact Hx.
          apply Hl. apply in_app_iff in Hx0. apply in_app_iff. destruct Hx0; [auto|right; right; assumption].
        * destruct (l_kind c) as [f|f|]; [destruct (Hk f eq_refl)|destruct (Hk' f eq_refl)|discriminate].
  Qed.

  Lemma sim_chain_filter cs : forall (key : K) b p xs key',
    sim_chain b p cs key xs key' <-> sim_chain b p (filter is_sim cs) key xs key'.
  Proof.
    induction cs as [|[n c] rest IH]; simpl; intros key b p xs key'; [tauto|].
    unfold is_sim at 1. simpl. destruct (l_kind c) as [f|f|] eqn:Hk.
    - split; intros H; inversion H as [|? ? f' ? ? key1 x xs' ? Hk' Hfx Hrest|? ? ? ? ? ? Hk' Hrest]; subst;
        try (destruct (Hk' f Hk)); eapply sc_sim; eauto; apply IH; exact Hrest.
    - split; intros H.
      + inversion H as [|? ? f' ? ? key1 x xs' ? Hk' Hfx Hrest|? ? ? ? ? ? Hk' Hrest]; subst;
          [congruence|apply IH; exact Hrest].
      + apply sc_skip; [intros f0; rewrite Hk; discriminate|apply IH; exact H].
    - split; intros H.
      + inversion H as [|? ? f' ? ? key1 x xs' ? Hk' Hfx Hrest|? ? ? ? ? ? Hk' Hrest]; subst;
          [congruence|apply IH; exact Hrest].
      + apply sc_skip; [intros f0; rewrite Hk; discriminate|apply IH; exact H].
  Qed.

  Lemma fixed_hists_perm cs cs' : Permutation cs cs' -> forall (p : params) ys,
    @fixed_hists K p cs ys -> exists ys', fixed_hists p cs' ys' /\ Permutation ys ys'.
  Proof.
    induction 1 as [|[n c] l l' _ IH|[n1 c1] [n2 c2] l|l1 l2 l3 _ IH1 _ IH2]; intros p ys Hf.
    - exists ys. split; [exact Hf|apply Permutation_refl].
    - inversion Hf as [|? ? f ? x ys1 Hk Hfx Hf'|? ? ? ? Hk Hf']; subst.
      + destruct (IH p _ Hf') as (ys' & H1 & H2). exists (x :: ys'). split; [eapply fh_fixed; eauto|].
        constructor. exact H2.
      + destruct (IH p _ Hf') as (ys' & H1 & H2). exists ys'. split; [apply fh_skip; assumption|exact H2].
    - inversion Hf as [|? ? f ? x ys1 Hk Hfx Hf'|? ? ? ? Hk Hf']; subst;
        inversion Hf' as [|? ? f2 ? x2 ys2 Hk2 Hfx2 Hf2|? ? ? ? Hk2 Hf2]; subst.
      + exists (x2 :: x :: ys2). split; [|constructor]. eapply fh_fixed; eauto. eapply fh_fixed; eauto.
      + exists (x :: ys1). split; [|apply Permutation_refl]. apply fh_skip; [exact Hk2|].
        eapply fh_fixed; eauto.
      + exists (x2 :: ys2). split; [|apply Permutation_refl]. eapply fh_fixed; eauto.
        apply fh_skip; assumption.
      + exists ys. split; [|apply Permutation_refl]. apply fh_skip; [exact Hk2|].
        apply fh_skip; assumption.
    - destruct (IH1 p ys Hf) as (ys1 & H1 & H2). destruct (IH2 p ys1 H1) as (ys2 & H3 & H4).
      exists ys2. split; [exact H3|]. eapply Permutation_trans; eauto.
  Qed.

  Lemma sim_chain_fun cs : forall (key : K) b p xs k1 ys k2,
    sim_chain b p cs key xs k1 -> sim_chain b p cs key ys k2 -> xs = ys /\ k1 = k2.
  Proof.
    induction cs as [|[n c] rest IH]; intros key b p xs k1 ys k2 H1 H2.
    - inversion H1; inversion H2; subst. auto.
    - inversion H1 as [|? ? f ? ? key1 x xs' ? Hk Hfx Hrest|? ? ? ? ? ? Hk Hrest]; subst;
        inversion H2 as [|? ? f2 ? ? key2 x2 xs2 ? Hk2 Hfx2 Hrest2|? ? ? ? ? ? Hk2 Hrest2]; subst.
      + rewrite Hk in Hk2. injection Hk2 as <-. rewrite Hfx in Hfx2. injection Hfx2 as <- <-.
        destruct (IH _ _ _ _ _ _ _ Hrest Hrest2) as [<- <-]. auto.
      + destruct (Hk2 f Hk).
      + destruct (Hk f2 Hk2).
      + exact (IH _ _ _ _ _ _ _ Hrest Hrest2).
  Qed.

  Lemma existsb_perm {A} (f : A -> bool) l l' : Permutation l l' -> existsb f l = existsb f l'.
  Proof.
    induction 1; simpl; try congruence. destruct (f x), (f y); reflexivity.
  Qed.

  Lemma sum_components_reorder cs cs' (key : K) b p h r :
    Permutation cs cs' -> filter is_sim cs = filter is_sim cs' ->
    sum_components cs key b p h = Ok r -> sum_components cs' key b p h = Ok r.
  Proof.
    intros Hp Hf H. destruct r as [key' h'].
    destruct (sum_components_spec cs key b p h key' h' H) as (xs & ys & Hxs & Hys & Ho & Hlen & Hl & He).
    apply sim_chain_filter in Hxs. rewrite Hf in Hxs. apply sim_chain_filter in Hxs.
    destruct (fixed_hists_perm cs cs' Hp p ys Hys) as (ys' & Hys' & Hpy).
    rewrite (existsb_perm is_other _ _ Hp) in Ho.
    destruct (sum_components_complete cs' key b p h xs ys' key' Hxs Hys' Ho) as (h2 & H2).
    { intros x Hx. apply Hlen. apply in_app_iff in Hx. apply in_app_iff.
      destruct Hx as [Hx|Hx]; [auto|right]. eapply Permutation_in; [apply Permutation_sym, Hpy|exact Hx]. }
    rewrite H2. f_equal. f_equal.
    destruct (sum_components_spec cs' key b p h key' h2 H2) as (xs2 & ys2 & Hxs2 & Hys2 & _ & _ & Hl2 & He2).
    destruct (sim_chain_fun _ _ _ _ _ _ _ _ Hxs Hxs2) as [<- _].
    assert (Hyy : ys2 = ys').
    { clear -Hys2 Hys'. revert ys2 Hys2. induction Hys' as [|n c f rest x xs0 Hk Hfx Hr IH|n c rest xs0 Hk Hr IH];
        intros ys2 Hys2.
      - inversion Hys2; reflexivity.
      - inversion Hys2 as [|? ? f2 ? x2 ys3 Hk2 Hfx2 Hr2|? ? ? ? Hk2 Hr2]; subst.
        + rewrite Hk in Hk2. injection Hk2 as <-. rewrite Hfx in Hfx2. injection Hfx2 as <-.
          f_equal. auto.
        + destruct (Hk2 f Hk).
      - inversion Hys2 as [|? ? f2 ? x2 ys3 Hk2 Hfx2 Hr2|? ? ? ? Hk2 Hr2]; subst.
        + destruct (Hk f2 Hk2).
        + auto. }
    subst ys2. apply entry_ext; [lia|]. intros i Hi. rewrite He, He2 by lia.
    f_equal. f_equal. unfold column_sum. apply fsum_perm, Permutation_map, Permutation_sym, Hpy.
  Qed.

  Lemma model_hist_entries (L : llh K) key b p key' h :
    simulate_model_hist L key b p = Ok (key', h) ->
    exists xs ys, sim_chain b (replace_alias (ll_alias L) p) (ll_components L) key xs key' /\
      fixed_hists (replace_alias (ll_alias L) p) (ll_components L) ys /\
      (forall x, In x (xs ++ ys) -> List.length x = List.length (ll_data L)) /\
      List.length h = List.length (ll_data L) /\
      forall i, i < List.length (ll_data L) -> entry h i = column_sum (xs ++ ys) i.
  Proof.
    unfold simulate_model_hist. intros H.
    destruct (sum_components_spec _ _ _ _ _ _ _ H) as (xs & ys & Hxs & Hys & _ & Hlen & Hl & He).
    rewrite map_length in *. exists xs, ys. split; [exact Hxs|]. split; [exact Hys|].
    split; [exact Hlen|]. split; [exact Hl|]. intros i Hi. rewrite He by exact Hi.
    unfold column_sum. rewrite map_app, fsum_app.
    assert (Hz : entry (map (fun _ => Fin 0) (ll_data L)) i = Fin 0).
    { unfold entry. rewrite (nth_indep _ NaN (Fin 0)) by (rewrite map_length; exact Hi).
      apply (map_nth (fun _ : fl => Fin 0) (ll_data L) (Fin 0) i). }
    rewrite Hz. apply fadd_0_l.
  Qed.
End Model.
