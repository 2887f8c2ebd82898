(** Lemmas about the workflow deduction. *)
From Verif Require Import Base BaseFacts ModelShare ModelConfig ModelComponent SpecComponent.
From Coq Require Import Relations.
Local Open Scope string_scope.

(* ------------------------------------------------------------------ *)
(** * Registration *)

Lemma get_fold_set {V} (p : V) ds reg d :
  get d (fold_left (fun r x => set x p r) ds reg) = if mem d ds then Some p else get d reg.
Proof.
  revert reg. induction ds as [|x ds IH]; simpl; intros reg; [reflexivity|].
  rewrite IH, get_set. destruct (mem d ds); seqb d x; try reflexivity.
Qed.

Lemma get_register_provides p reg d :
  get d (register_provides p reg) = if mem d (p_provides p) then Some p else get d reg.
Proof. apply get_fold_set. Qed.

Definition provides_ok (reg : registry) : Prop :=
  forall d p, get d reg = Some p -> In d (p_provides p).

Lemma provides_ok_register1 p reg : provides_ok reg -> provides_ok (register_provides p reg).
Proof.
  intros H d q. rewrite get_register_provides. destruct (mem d (p_provides p)) eqn:E.
  - intros Hq. injection Hq as <-. apply mem_In, E.
  - apply H.
Qed.

Lemma provides_ok_register ps reg : provides_ok reg -> provides_ok (fst (register ps reg)).
Proof.
  revert reg. induction ps as [|p ps IH]; simpl; intros reg H; [exact H|].
  destruct (existsb _ _); simpl; [apply provides_ok_register1, H|].
  apply IH, provides_ok_register1, H.
Qed.

Lemma provides_ok_after calls : provides_ok (registry_after calls).
Proof.
  unfold registry_after.
  assert (H : forall reg, provides_ok reg ->
            provides_ok (fold_left (fun r ps => fst (register ps r)) calls reg)).
  { induction calls as [|ps calls IH]; simpl; intros reg H; [exact H|].
    apply IH, provides_ok_register, H. }
  apply H. intros d p Hd. discriminate.
Qed.

Lemma NoDup_register_provides p reg : NoDup (keys reg) -> NoDup (keys (register_provides p reg)).
Proof.
  unfold register_provides. generalize (p_provides p). intros ds. revert reg.
  induction ds as [|x ds IH]; simpl; intros reg H; [exact H|]. apply IH, NoDup_set, H.
Qed.

Lemma NoDup_register ps reg : NoDup (keys reg) -> NoDup (keys (fst (register ps reg))).
Proof.
  revert reg. induction ps as [|p ps IH]; simpl; intros reg H; [exact H|].
  destruct (existsb _ _); simpl; [apply NoDup_register_provides, H|].
  apply IH, NoDup_register_provides, H.
Qed.

Lemma NoDup_registry_after calls : NoDup (keys (registry_after calls)).
Proof.
  unfold registry_after.
  assert (H : forall reg, NoDup (keys reg) ->
            NoDup (keys (fold_left (fun r ps => fst (register ps r)) calls reg))).
  { induction calls as [|ps calls IH]; simpl; intros reg H; [exact H|].
    apply IH, NoDup_register, H. }
  apply H. constructor.
Qed.

(* ------------------------------------------------------------------ *)
(** * The dependency list *)

Section Deps.
  Variable reg : registry.
  Variable nodep : string.

  Definition TailClosed (l : list plugin) : Prop :=
    forall l1 p l2, l = (l1 ++ p :: l2)%list -> forall x, In x (p_depends p) -> x <> nodep ->
      exists q, get x reg = Some q /\ In q l2.

  Definition covered (names : list string) (l : list plugin) : Prop :=
    forall d, In d names -> d <> nodep -> exists p, get d reg = Some p /\ In p l.

  Definition from (names : list string) (l : list plugin) : Prop :=
    forall p, In p l -> exists d, Reach reg nodep names d /\ get d reg = Some p.

  Lemma TailClosed_nil : TailClosed [].
  Proof. intros l1 p l2 H. destruct l1; discriminate. Qed.

  Lemma app_split_cons {A} (a b l1 : list A) p l2 :
    (a ++ b = l1 ++ p :: l2)%list ->
    (exists a2, a = l1 ++ p :: a2 /\ l2 = a2 ++ b)%list \/
    (exists b1, b = b1 ++ p :: l2 /\ l1 = a ++ b1)%list.
  Proof.
    revert l1. induction a as [|x a IH]; simpl; intros l1 H.
    - right. exists l1. auto.
    - destruct l1 as [|y l1]; simpl in H; injection H as Hx Ht.
      + subst. left. exists a. auto.
      + subst y. destruct (IH l1 Ht) as [(a2 & -> & ->)|(b1 & -> & ->)].
        * left. exists a2. auto.
        * right. exists b1. auto.
  Qed.

  Lemma TailClosed_app a b : TailClosed a -> TailClosed b -> TailClosed (a ++ b).
  Proof.
    intros Ha Hb l1 p l2 H x Hx Hn.
    destruct (app_split_cons _ _ _ _ _ H) as [(a2 & -> & ->)|(b1 & -> & ->)].
    - destruct (Ha l1 p a2 eq_refl x Hx Hn) as (q & Hq & Hi).
      exists q. split; [exact Hq|]. apply in_or_app. auto.
    - exact (Hb b1 p l2 eq_refl x Hx Hn).
  Qed.

  Lemma TailClosed_block block rest :
    (forall p, In p block -> forall x, In x (p_depends p) -> x <> nodep ->
       exists q, get x reg = Some q /\ In q rest) ->
    TailClosed rest -> TailClosed (block ++ rest).
  Proof.
    intros Hb Hr l1 p l2 H x Hx Hn.
    destruct (app_split_cons _ _ _ _ _ H) as [(a2 & -> & ->)|(b1 & -> & ->)].
    - destruct (Hb p) with (x := x) as (q & Hq & Hi); auto.
      + apply in_or_app. right. left. reflexivity.
      + exists q. split; [exact Hq|]. apply in_or_app. auto.
    - exact (Hr b1 p l2 eq_refl x Hx Hn).
  Qed.

  Lemma append_deps_ok names deps deps' :
    append_deps reg nodep names deps = Ok deps' ->
    exists l, deps' = (deps ++ l)%list /\ covered names l /\
      (forall p, In p l -> exists d, In d names /\ d <> nodep /\ get d reg = Some p).
  Proof.
    revert deps. induction names as [|d names IH]; simpl; intros deps H.
    - injection H as <-. exists []. rewrite app_nil_r. repeat split.
      + intros d [].
      + intros p [].
    - seqb d nodep.
      + destruct (IH _ H) as (l & -> & Hc & Hf). exists l. repeat split.
        * intros d' [<-|Hd'] Hn; [congruence|auto].
        * intros p Hp. destruct (Hf p Hp) as (d' & Hd' & Hrest). eauto.
      + destruct (get d reg) as [p|] eqn:Hg; [|discriminate].
        destruct (IH _ H) as (l & -> & Hc & Hf). exists (p :: l).
        rewrite <- app_assoc. simpl. repeat split.
        * intros d' [<-|Hd'] Hn.
          -- exists p. split; [exact Hg|left; reflexivity].
          -- destruct (Hc d' Hd' Hn) as (q & Hq & Hi). exists q. split; [exact Hq|right; exact Hi].
        * intros q [<-|Hq].
          -- exists d. auto.
          -- destruct (Hf q Hq) as (d' & Hd' & Hrest). eauto.
  Qed.

  Lemma append_deps_err names deps e :
    append_deps reg nodep names deps = Err e ->
    e = ValueError /\ exists d, In d names /\ d <> nodep /\ get d reg = None.
  Proof.
    revert deps. induction names as [|d names IH]; simpl; intros deps H; [discriminate|].
    seqb d nodep.
    - destruct (IH _ H) as (He & d' & Hd' & Hrest). split; [exact He|]. exists d'. auto.
    - destruct (get d reg) as [p|] eqn:Hg.
      + destruct (IH _ H) as (He & d' & Hd' & Hrest). split; [exact He|]. exists d'. auto.
      + injection H as <-. split; [reflexivity|]. exists d. auto.
  Qed.

  Lemma Reach_mono names names' d :
    (forall x, In x names -> x <> nodep -> Reach reg nodep names' x) ->
    Reach reg nodep names d -> Reach reg nodep names' d.
  Proof.
    intros H Hr. induction Hr as [d Hd Hn|d p x Hr IH Hg Hx Hn]; [auto|].
    eapply Reach_dep; eauto.
  Qed.

  Lemma Reach_depends names d p x :
    Reach reg nodep names d -> get d reg = Some p ->
    Reach reg nodep (p_depends p) x -> Reach reg nodep names x.
  Proof.
    intros Hd Hg Hx. eapply Reach_mono; [|exact Hx].
    intros y Hy Hn. eapply Reach_dep; eauto.
  Qed.

  (** What a successful deduction appends. *)
  Definition good_ext (names : list string) (deps deps' : list plugin) : Prop :=
    exists l, deps' = (deps ++ l)%list /\ covered names l /\ TailClosed l /\ from names l.

  Lemma each_dep_ok rec names deps deps' :
    (forall ns ds ds', rec ns ds = Ok ds' -> good_ext ns ds ds') ->
    each_dep rec reg nodep names deps = Ok deps' ->
    exists l, deps' = (deps ++ l)%list /\ TailClosed l /\ from names l /\
      (forall d p, In d names -> d <> nodep -> get d reg = Some p -> covered (p_depends p) l).
  Proof.
    intros Hrec. revert deps. induction names as [|d names IH]; simpl; intros deps H.
    - injection H as <-. exists []. rewrite app_nil_r.
      split; [reflexivity|]. split; [apply TailClosed_nil|]. split.
      + intros p [].
      + intros d p [].
    - seqb d nodep.
      + destruct (IH _ H) as (l & -> & Ht & Hf & Hc). exists l. repeat split; auto.
        * intros p Hp. destruct (Hf p Hp) as (d' & Hd' & Hg). exists d'. split; [|exact Hg].
          eapply Reach_mono; [|exact Hd']. intros x Hx Hn. apply Reach_req; [right|]; assumption.
        * intros d' p [<-|Hd'] Hn Hg; [congruence|eauto].
      + destruct (get d reg) as [p|] eqn:Hg; [|discriminate].
        destruct (rec (p_depends p) deps) as [ds|e] eqn:Hr; [|discriminate].
        destruct (Hrec _ _ _ Hr) as (l0 & -> & Hc0 & Ht0 & Hf0).
        destruct (IH _ H) as (l & -> & Ht & Hf & Hc).
        exists (l0 ++ l)%list. rewrite app_assoc. split; [reflexivity|].
        split; [apply TailClosed_app; assumption|]. split.
        * intros q Hq. apply in_app_or in Hq. destruct Hq as [Hq|Hq].
          -- destruct (Hf0 q Hq) as (x & Hx & Hgx). exists x. split; [|exact Hgx].
             eapply Reach_depends; [|exact Hg|exact Hx].
             apply Reach_req; [left; reflexivity|assumption].
          -- destruct (Hf q Hq) as (x & Hx & Hgx). exists x. split; [|exact Hgx].
             eapply Reach_mono; [|exact Hx]. intros y Hy Hn.
             apply Reach_req; [right|]; assumption.
        * intros d' q [<-|Hd'] Hn Hgq.
          -- assert (q = p) by congruence. subst q.
             intros x Hx Hnx. destruct (Hc0 x Hx Hnx) as (q & Hq & Hi).
             exists q. split; [exact Hq|]. apply in_or_app. auto.
          -- intros x Hx Hnx. destruct (Hc d' q Hd' Hn Hgq x Hx Hnx) as (q' & Hq' & Hi).
             exists q'. split; [exact Hq'|]. apply in_or_app. auto.
  Qed.

  Lemma dependencies_deduce_ok fuel names deps deps' :
    dependencies_deduce reg nodep fuel names deps = Ok deps' -> good_ext names deps deps'.
  Proof.
    revert names deps deps'.
    induction fuel as [|fuel IH]; simpl; intros names deps deps' H; [discriminate|].
    destruct (append_deps reg nodep names deps) as [deps1|e] eqn:Ha; [|discriminate].
    destruct (append_deps_ok _ _ _ Ha) as (block & -> & Hcb & Hfb).
    destruct (each_dep_ok _ _ _ _ IH H) as (rest & -> & Ht & Hf & Hc).
    exists (block ++ rest)%list. rewrite app_assoc. split; [reflexivity|]. split; [|split].
    - intros d Hd Hn. destruct (Hcb d Hd Hn) as (p & Hg & Hi).
      exists p. split; [exact Hg|]. apply in_or_app. auto.
    - apply TailClosed_block; [|exact Ht].
      intros p Hp x Hx Hn. destruct (Hfb p Hp) as (d & Hd & Hnd & Hg).
      destruct (Hc d p Hd Hnd Hg x Hx Hn) as (q & Hq & Hi). eauto.
    - intros p Hp. apply in_app_or in Hp. destruct Hp as [Hp|Hp].
      + destruct (Hfb p Hp) as (d & Hd & Hn & Hg). exists d. split; [|exact Hg].
        apply Reach_req; assumption.
      + exact (Hf p Hp).
  Qed.

  (** A successful deduction lists the provider of every reachable name. *)
  Lemma good_ext_reach names l d :
    covered names l -> TailClosed l -> Reach reg nodep names d ->
    exists p, get d reg = Some p /\ In p l.
  Proof.
    intros Hc Ht Hr. induction Hr as [d Hd Hn|d p x Hr IH Hg Hx Hn].
    - exact (Hc d Hd Hn).
    - destruct IH as (p' & Hg' & Hi). assert (p' = p) by congruence. subst p'.
      apply in_split in Hi. destruct Hi as (l1 & l2 & ->).
      destruct (Ht l1 p l2 eq_refl x Hx Hn) as (q & Hq & Hi).
      exists q. split; [exact Hq|]. apply in_or_app. right. right. exact Hi.
  Qed.

  (* ---------------------------------------------------------------- *)
  (** ** Which deductions succeed *)

  Lemma append_deps_success names deps :
    (forall d, In d names -> d <> nodep -> exists p, get d reg = Some p) ->
    exists deps', append_deps reg nodep names deps = Ok deps'.
  Proof.
    revert deps. induction names as [|d names IH]; simpl; intros deps H; [eauto|].
    seqb d nodep.
    - apply IH. auto.
    - destruct (H d (or_introl eq_refl) E) as (p & ->). apply IH. auto.
  Qed.

  (** A failing deduction fails with ValueError at a missing provider, or with RecursionError
      after a chain of dependencies as long as the fuel. *)
  Inductive Chain : list string -> Prop :=
  | Chain_nil : Chain []
  | Chain_one d : Chain [d]
  | Chain_cons d x l : edge reg nodep d x -> Chain (x :: l) -> Chain (d :: x :: l).

  Lemma deduce_err fuel names deps e :
    dependencies_deduce reg nodep fuel names deps = Err e ->
    (e = ValueError /\ exists d, Reach reg nodep names d /\ get d reg = None) \/
    (e = RecursionError /\ (fuel = 0 \/
       exists l, List.length l = fuel /\ Chain l /\
         (forall d, In d l -> Reach reg nodep names d) /\
         (exists d l', l = d :: l' /\ In d names /\ d <> nodep))).
  Proof.
    revert names deps e.
    induction fuel as [|fuel IH]; simpl; intros names deps e H.
    { injection H as <-. right. auto. }
    destruct (append_deps reg nodep names deps) as [deps1|e'] eqn:Ha.
    2:{ injection H as <-. destruct (append_deps_err _ _ _ Ha) as (-> & d & Hd & Hn & Hg).
        left. split; [reflexivity|]. exists d. split; [apply Reach_req; assumption|exact Hg]. }
    destruct (append_deps_ok _ _ _ Ha) as (block & -> & Hcb & _).
    assert (Hloop : forall ns ds, incl ns names ->
      each_dep (dependencies_deduce reg nodep fuel) reg nodep ns ds = Err e ->
      exists d p ds', In d ns /\ d <> nodep /\ get d reg = Some p /\
        dependencies_deduce reg nodep fuel (p_depends p) ds' = Err e).
    { intros ns. induction ns as [|d ns IHn]; simpl; intros ds Hincl Hl; [discriminate|].
      seqb d nodep.
      - destruct (IHn ds) as (d' & p & ds' & Hd' & Hrest); auto.
        { intros x Hx. apply Hincl. right. exact Hx. }
        exists d', p, ds'. tauto.
      - destruct (Hcb d (Hincl d (or_introl eq_refl)) E) as (p & Hg & _).
        rewrite Hg in Hl.
        destruct (dependencies_deduce reg nodep fuel (p_depends p) ds) as [ds1|e1] eqn:Hd.
        + destruct (IHn ds1) as (d' & p' & ds' & Hd' & Hrest); auto.
          { intros x Hx. apply Hincl. right. exact Hx. }
          exists d', p', ds'. tauto.
        + injection Hl as <-. exists d, p, ds. auto. }
    destruct (Hloop names _ (incl_refl _) H) as (d & p & ds' & Hd & Hn & Hg & Herr).
    assert (Hreach : Reach reg nodep names d) by (apply Reach_req; assumption).
    destruct (IH _ _ _ Herr) as [(-> & x & Hx & Hgx)|(-> & [Hz|(l & Hlen & Hch & Hre & Hhd)])].
    - left. split; [reflexivity|]. exists x. split; [|exact Hgx].
      eapply Reach_depends; eauto.
    - right. split; [reflexivity|]. right. exists [d]. subst fuel. simpl.
      split; [reflexivity|]. split; [constructor|]. split.
      + intros x [<-|[]]. exact Hreach.
      + exists d, []. auto.
    - right. split; [reflexivity|]. right. destruct Hhd as (x & l' & -> & Hx & Hnx).
      exists (d :: x :: l'). simpl in *. split; [lia|]. split.
      { constructor; [|exact Hch]. exists p. auto. }
      split.
      + intros y [<-|Hy]; [exact Hreach|]. eapply Reach_depends; eauto.
      + exists d, (x :: l'). auto.
  Qed.

  Lemma Chain_tail d l : Chain (d :: l) -> Chain l.
  Proof. intros H. inversion H; subst; [constructor|assumption]. Qed.

  Lemma Chain_app_r l1 l2 : Chain (l1 ++ l2) -> Chain l2.
  Proof.
    induction l1 as [|d l1 IH]; simpl; [auto|]. intros H. apply IH. eapply Chain_tail, H.
  Qed.

  Lemma Chain_trans x l y l' :
    Chain (x :: l ++ y :: l') -> clos_trans _ (edge reg nodep) x y.
  Proof.
    revert x. induction l as [|z l IH]; simpl; intros x H.
    - inversion H; subst. apply t_step. assumption.
    - inversion H; subst. eapply t_trans; [apply t_step; eassumption|]. apply IH. assumption.
  Qed.

  (** In a complete acyclic graph there is no chain longer than the registry. *)
  Lemma chain_bound names l :
    complete reg nodep names -> acyclic reg nodep names ->
    Chain l -> (forall d, In d l -> Reach reg nodep names d) ->
    List.length l <= List.length (keys reg).
  Proof.
    intros Hcomp Hac Hch Hre.
    destruct (NoDup_dec_str l) as [Hnd|Hnd].
    - apply NoDup_incl_length; [exact Hnd|].
      intros d Hd. destruct (Hcomp d (Hre d Hd)) as (p & Hg).
      apply get_In_keys. eauto.
    - exfalso. apply not_NoDup_split in Hnd. destruct Hnd as (x & l1 & l2 & l3 & ->).
      apply (Hac x).
      + apply Hre. apply in_or_app. right. left. reflexivity.
      + apply Chain_app_r in Hch. eapply Chain_trans, Hch.
  Qed.

  Lemma deduce_success names deps fuel :
    complete reg nodep names -> acyclic reg nodep names ->
    List.length (keys reg) < fuel ->
    exists deps', dependencies_deduce reg nodep fuel names deps = Ok deps'.
  Proof.
    intros Hc Ha Hf.
    destruct (dependencies_deduce reg nodep fuel names deps) as [ds|e] eqn:H; [eauto|].
    exfalso. apply deduce_err in H.
    destruct H as [(_ & d & Hd & Hg)|(_ & [Hz|(l & Hlen & Hch & Hre & _)])].
    - destruct (Hc d Hd) as (p & Hp). congruence.
    - lia.
    - pose proof (chain_bound names l Hc Ha Hch Hre). lia.
  Qed.

  (** Conversely a successful deduction shows the graph is complete and acyclic. *)
  Lemma deduce_ok_complete fuel names deps deps' :
    dependencies_deduce reg nodep fuel names deps = Ok deps' -> complete reg nodep names.
  Proof.
    intros H d Hd. destruct (dependencies_deduce_ok _ _ _ _ H) as (l & _ & Hc & Ht & _).
    destruct (good_ext_reach names l d Hc Ht Hd) as (p & Hg & _). eauto.
  Qed.

  Lemma edge_suffix l1 p l2 d x :
    TailClosed (l1 ++ p :: l2) -> get d reg = Some p -> edge reg nodep d x ->
    exists q m1 m2, get x reg = Some q /\ l2 = (m1 ++ q :: m2)%list.
  Proof.
    intros Ht Hg (p' & Hg' & Hx & Hn). assert (p' = p) by congruence. subst p'.
    destruct (Ht l1 p l2 eq_refl x Hx Hn) as (q & Hq & Hi).
    apply in_split in Hi. destruct Hi as (m1 & m2 & ->). eauto.
  Qed.

  Lemma trans_suffix d x :
    clos_trans _ (edge reg nodep) d x ->
    forall l1 p l2, TailClosed (l1 ++ p :: l2) -> get d reg = Some p ->
    exists q m1 m2, get x reg = Some q /\ l2 = (m1 ++ q :: m2)%list.
  Proof.
    intros H. apply clos_trans_t1n in H.
    induction H as [d x He|d y x He Hx IH]; intros l1 p l2 Ht Hg.
    - exact (edge_suffix l1 p l2 d x Ht Hg He).
    - destruct (edge_suffix l1 p l2 d y Ht Hg He) as (q & m1 & m2 & Hq & ->).
      assert (Ht' : TailClosed ((l1 ++ p :: m1) ++ q :: m2)).
      { rewrite <- app_assoc. exact Ht. }
      destruct (IH _ q m2 Ht' Hq) as (q' & n1 & n2 & Hq' & ->).
      exists q', (m1 ++ q :: n1)%list, n2. split; [exact Hq'|].
      rewrite <- app_assoc. reflexivity.
  Qed.

  Lemma TailClosed_acyclic l d :
    TailClosed l -> (exists p, get d reg = Some p /\ In p l) ->
    ~ clos_trans _ (edge reg nodep) d d.
  Proof.
    intros Ht (p & Hg & Hi) Hc.
    (* an occurrence of p is always followed by another one *)
    assert (Hstep : forall l1 l2, l = (l1 ++ p :: l2)%list ->
              exists m1 m2, l2 = (m1 ++ p :: m2)%list).
    { intros l1 l2 ->. destruct (trans_suffix d d Hc l1 p l2 Ht Hg) as (q & m1 & m2 & Hq & ->).
      assert (q = p) by congruence. subst q. eauto. }
    assert (Hinf : forall n l1 l2, l = (l1 ++ p :: l2)%list -> n <= List.length l2).
    { intros n. induction n as [|n IH]; intros l1 l2 H; [lia|].
      destruct (Hstep l1 l2 H) as (m1 & m2 & ->).
      rewrite app_length. simpl.
      assert (n <= List.length m2).
      { apply (IH (l1 ++ p :: m1)%list). rewrite H. rewrite <- app_assoc. reflexivity. }
      lia. }
    apply in_split in Hi. destruct Hi as (l1 & l2 & Hl).
    specialize (Hinf (S (List.length l2)) l1 l2 Hl). lia.
  Qed.

  Lemma deduce_ok_acyclic fuel names deps deps' :
    dependencies_deduce reg nodep fuel names deps = Ok deps' -> acyclic reg nodep names.
  Proof.
    intros H d Hd. destruct (dependencies_deduce_ok _ _ _ _ H) as (l & _ & Hc & Ht & _).
    apply (TailClosed_acyclic l d Ht). eapply good_ext_reach; eauto.
  Qed.

  Lemma deduce_missing fuel names deps :
    acyclic reg nodep names -> ~ complete reg nodep names ->
    List.length (keys reg) + 1 < fuel ->
    dependencies_deduce reg nodep fuel names deps = Err ValueError.
  Proof.
    intros Ha Hnc Hf.
    destruct (dependencies_deduce reg nodep fuel names deps) as [ds|e] eqn:H.
    { exfalso. apply Hnc. eapply deduce_ok_complete, H. }
    apply deduce_err in H.
    destruct H as [(-> & _)|(-> & [Hz|(l & Hlen & Hch & Hre & _)])]; [reflexivity|lia|].
    exfalso.
    (* all but possibly the last element of the chain have a provider *)
    assert (Hlen' : List.length l <= S (List.length (keys reg))).
    { destruct (NoDup_dec_str l) as [Hnd|Hnd].
      - destruct l as [|x l0] using rev_ind; [simpl; lia|].
        rewrite app_length. simpl.
        assert (Hinc : incl l0 (keys reg)).
        { intros d Hd. apply in_split in Hd. destruct Hd as (a & b & ->).
          assert (Hch2 : Chain (d :: b ++ [x])).
          { apply (Chain_app_r a). rewrite <- app_assoc in Hch. exact Hch. }
          assert (He : exists y, edge reg nodep d y).
          { destruct b; simpl in Hch2; inversion Hch2; subst; eauto. }
          destruct He as (y & p & Hg & _). apply get_In_keys. eauto. }
        assert (List.length l0 <= List.length (keys reg)).
        { apply NoDup_incl_length; [|exact Hinc].
          apply NoDup_remove_1 in Hnd. rewrite app_nil_r in Hnd. exact Hnd. }
        lia.
      - exfalso. apply not_NoDup_split in Hnd. destruct Hnd as (x & l1 & l2 & l3 & ->).
        apply (Ha x).
        + apply Hre. apply in_or_app. right. left. reflexivity.
        + apply Chain_app_r in Hch. eapply Chain_trans, Hch. }
    lia.
  Qed.
End Deps.
