(** Lemmas about the shared vocabulary. *)
From Verif Require Import Base.
Local Open Scope string_scope.

Lemma eqb_refl' s : String.eqb s s = true.
Proof. apply String.eqb_refl. Qed.

Lemma eqb_neq' a b : a <> b -> String.eqb a b = false.
Proof. intros H. apply String.eqb_neq; exact H. Qed.

Lemma eqb_true a b : String.eqb a b = true -> a = b.
Proof. intros H. apply String.eqb_eq; exact H. Qed.

Lemma eqb_false a b : String.eqb a b = false -> a <> b.
Proof. intros H. apply String.eqb_neq; exact H. Qed.

Ltac seqb a b :=
  let E := fresh "E" in
  destruct (String.eqb a b) eqn:E;
  [apply eqb_true in E | apply eqb_false in E].

Lemma mem_In x l : mem x l = true <-> In x l.
Proof.
  induction l as [|y l IH]; simpl; [split; [discriminate|tauto]|].
  seqb x y; [subst; split; auto|].
  rewrite IH. split; [auto|]. intros [H|H]; [congruence|exact H].
Qed.

Lemma mem_false x l : mem x l = false <-> ~ In x l.
Proof. rewrite <- mem_In. destruct (mem x l); split; congruence. Qed.

Lemma In_dec_str (x : string) l : {In x l} + {~ In x l}.
Proof. apply in_dec, string_dec. Qed.

Lemma add1_In x y l : In x (add1 y l) <-> x = y \/ In x l.
Proof.
  unfold add1. destruct (mem y l) eqn:E.
  - apply mem_In in E. split; [auto|]. intros [->|H]; auto.
  - rewrite in_app_iff. simpl. intuition.
Qed.

Lemma union_In x l1 l2 : In x (union l1 l2) <-> In x l1 \/ In x l2.
Proof.
  revert l1; induction l2 as [|y l2 IH]; simpl; intros l1; [tauto|].
  rewrite IH, add1_In. intuition.
Qed.

Lemma NoDup_add1 x l : NoDup l -> NoDup (add1 x l).
Proof.
  intros H. unfold add1. destruct (mem x l) eqn:E; [exact H|].
  apply mem_false in E.
  apply NoDup_Add with (a := x) (l := l); [|split; assumption].
  rewrite <- (app_nil_r l) at 1. apply Add_app.
Qed.

Lemma NoDup_union l1 l2 : NoDup l1 -> NoDup (union l1 l2).
Proof.
  revert l1; induction l2 as [|x l2 IH]; simpl; intros l1 H; [exact H|].
  apply IH, NoDup_add1, H.
Qed.

Lemma del_name_In x y l : In x (del_name y l) <-> In x l /\ x <> y.
Proof.
  unfold del_name. rewrite filter_In, negb_true_iff.
  split; intros [H1 H2]; split; auto.
  - apply eqb_false in H2. congruence.
  - apply eqb_neq'. congruence.
Qed.

Section Dict.
  Context {V : Type}.
  Implicit Types d : dict V.

  Lemma get_set_eq k (v : V) d : get k (set k v d) = Some v.
  Proof.
    induction d as [|[k' v'] d IH]; simpl; [rewrite eqb_refl'; reflexivity|].
    seqb k k'; simpl; [rewrite eqb_refl'; reflexivity|].
    rewrite eqb_neq' by assumption. exact IH.
  Qed.

  Lemma get_set_neq k k2 (v : V) d : k <> k2 -> get k (set k2 v d) = get k d.
  Proof.
    intros H. induction d as [|[k' v'] d IH]; simpl.
    - rewrite eqb_neq' by assumption. reflexivity.
    - seqb k2 k'; simpl.
      + subst k'. rewrite eqb_neq' by assumption. reflexivity.
      + rewrite IH. reflexivity.
  Qed.

  Lemma get_set k k2 (v : V) d :
    get k (set k2 v d) = if String.eqb k k2 then Some v else get k d.
  Proof.
    seqb k k2; [subst; apply get_set_eq|apply get_set_neq; assumption].
  Qed.

  Lemma get_In_keys k d : In k (keys d) <-> exists v, get k d = Some v.
  Proof.
    induction d as [|[k' v'] d IH]; simpl.
    - split; [tauto|intros [v Hv]; discriminate].
    - seqb k k'.
      + subst. split; [intros _; eauto|auto].
      + rewrite IH. split; [|auto]. intros [H|H]; [congruence|exact H].
  Qed.

  Lemma get_None_keys k d : get k d = None <-> ~ In k (keys d).
  Proof.
    rewrite get_In_keys. destruct (get k d) as [v|]; split; try congruence.
    - intros H. exfalso. apply H. eauto.
    - intros _ [v Hv]. discriminate.
  Qed.

  Lemma get_In k (v : V) d : get k d = Some v -> In (k, v) d.
  Proof.
    induction d as [|[k' v'] d IH]; simpl; [discriminate|].
    seqb k k'; [intros H; injection H as ->; subst; auto|auto].
  Qed.

  Lemma In_get k (v : V) d : NoDup (keys d) -> In (k, v) d -> get k d = Some v.
  Proof.
    induction d as [|[k' v'] d IH]; simpl; [tauto|].
    intros Hnd [H|H].
    - injection H as -> ->. rewrite eqb_refl'. reflexivity.
    - inversion Hnd as [|? ? Hni Hnd']; subst.
      rewrite eqb_neq'; [auto|].
      intros ->. apply Hni. change (In k' (map fst d)).
      apply in_map_iff. exists (k', v). auto.
  Qed.

  Lemma has_keys k d : has k d = true <-> In k (keys d).
  Proof.
    unfold has. rewrite get_In_keys. destruct (get k d); split; eauto; try congruence.
    intros [v Hv]; discriminate.
  Qed.

  Lemma has_false k d : has k d = false <-> get k d = None.
  Proof. unfold has. destruct (get k d); split; congruence. Qed.

  Lemma keys_set k (v : V) d :
    keys (set k v d) = if mem k (keys d) then keys d else (keys d ++ [k])%list.
  Proof.
    induction d as [|[k' v'] d IH]; simpl; [reflexivity|].
    seqb k k'; simpl; [subst; reflexivity|].
    rewrite IH. destruct (mem k (keys d)); reflexivity.
  Qed.

  Lemma keys_set_In x k (v : V) d : In x (keys (set k v d)) <-> x = k \/ In x (keys d).
  Proof.
    rewrite keys_set. destruct (mem k (keys d)) eqn:E.
    - apply mem_In in E. split; [auto|]. intros [->|H]; auto.
    - rewrite in_app_iff. simpl. intuition.
  Qed.

  Lemma NoDup_set k (v : V) d : NoDup (keys d) -> NoDup (keys (set k v d)).
  Proof.
    intros H. rewrite keys_set. destruct (mem k (keys d)) eqn:E; [exact H|].
    apply mem_false in E.
    apply NoDup_Add with (a := k) (l := keys d); [|split; assumption].
    rewrite <- (app_nil_r (keys d)) at 1. apply Add_app.
  Qed.

  Lemma set_same_keys k (v : V) d : In k (keys d) -> keys (set k v d) = keys d.
  Proof. intros H. rewrite keys_set. apply mem_In in H. rewrite H. reflexivity. Qed.

  Lemma get_del_eq k d : NoDup (keys d) -> get k (del k d) = None.
  Proof.
    induction d as [|[k' v'] d IH]; simpl; [reflexivity|].
    intros Hnd. inversion Hnd as [|? ? Hni Hnd']; subst.
    seqb k k'; simpl.
    - subst. apply get_None_keys. exact Hni.
    - rewrite eqb_neq' by assumption. auto.
  Qed.

  Lemma get_del_neq k k2 d : k <> k2 -> get k (del k2 d) = get k d.
  Proof.
    intros H. induction d as [|[k' v'] d IH]; simpl; [reflexivity|].
    seqb k2 k'; simpl.
    - subst. rewrite eqb_neq' by assumption. reflexivity.
    - rewrite IH. reflexivity.
  Qed.

  Lemma keys_del_In x k d : NoDup (keys d) -> In x (keys (del k d)) <-> In x (keys d) /\ x <> k.
  Proof.
    intros Hnd. rewrite !get_In_keys. destruct (string_dec x k) as [->|Hne].
    - rewrite get_del_eq by assumption. split; [intros [v Hv]; discriminate|tauto].
    - rewrite get_del_neq by assumption. tauto.
  Qed.

  Lemma keys_del_sub x k d : In x (keys (del k d)) -> In x (keys d).
  Proof.
    induction d as [|[k' v'] d IH]; simpl; [tauto|].
    seqb k k'; simpl; [auto|]. intros [H|H]; auto.
  Qed.

  Lemma NoDup_del k d : NoDup (keys d) -> NoDup (keys (del k d)).
  Proof.
    induction d as [|[k' v'] d IH]; simpl; [auto|].
    intros Hnd. inversion Hnd as [|? ? Hni Hnd']; subst.
    seqb k k'; simpl; [exact Hnd'|].
    constructor; [|auto]. intros H. apply Hni. eapply keys_del_sub, H.
  Qed.

  Lemma get_update k d d2 :
    NoDup (keys d2) ->
    get k (update d d2) = match get k d2 with Some v => Some v | None => get k d end.
  Proof.
    unfold update. revert d. induction d2 as [|[k2 v2] d2 IH]; simpl; intros d Hnd; [reflexivity|].
    inversion Hnd as [|? ? Hni Hnd']; subst.
    rewrite IH by assumption. seqb k k2.
    - subst. rewrite get_set_eq.
      apply get_None_keys in Hni. rewrite Hni. reflexivity.
    - rewrite get_set_neq by assumption. reflexivity.
  Qed.

  Lemma NoDup_update d d2 : NoDup (keys d) -> NoDup (keys (update d d2)).
  Proof.
    unfold update. revert d. induction d2 as [|[k2 v2] d2 IH]; simpl; intros d H; [exact H|].
    apply IH, NoDup_set, H.
  Qed.

  Lemma keys_update_In x d d2 :
    In x (keys (update d d2)) <-> In x (keys d) \/ In x (keys d2).
  Proof.
    unfold update. revert d. induction d2 as [|[k2 v2] d2 IH]; simpl; intros d; [tauto|].
    rewrite IH, keys_set_In. simpl. intuition.
  Qed.
End Dict.

Lemma is_ok_Ok {A} (r : result A) : is_ok r = true <-> exists a, r = Ok a.
Proof. destruct r; simpl; split; eauto; try congruence. intros [x Hx]; discriminate. Qed.

(** Pigeonhole on lists of strings. *)
Lemma NoDup_dec_str (l : list string) : {NoDup l} + {~ NoDup l}.
Proof.
  induction l as [|x l IH]; [left; constructor|].
  destruct (In_dec_str x l) as [H|H].
  - right. intros Hn. inversion Hn; contradiction.
  - destruct IH as [IH|IH]; [left; constructor; assumption|].
    right. intros Hn. inversion Hn; contradiction.
Qed.

Lemma not_NoDup_split (l : list string) :
  ~ NoDup l -> exists x l1 l2 l3, l = (l1 ++ x :: l2 ++ x :: l3)%list.
Proof.
  induction l as [|x l IH]; intros H; [exfalso; apply H; constructor|].
  destruct (In_dec_str x l) as [Hi|Hi].
  - apply in_split in Hi. destruct Hi as (l2 & l3 & ->).
    exists x, [], l2, l3. reflexivity.
  - destruct IH as (y & l1 & l2 & l3 & ->).
    + intros Hn. apply H. constructor; assumption.
    + exists y, (x :: l1), l2, l3. reflexivity.
Qed.
