(** Lemmas about the texts of objects that say the same. *)
From Coq Require Import Ascii NArith Sorted Lia Permutation.
From Verif Require Import Base ModelText SpecText ProofText ProofText2 ModelDump SpecDump.
Local Open Scope list_scope.

Lemma before_irrefl a : ~ before a a.
Proof. intros H. remember a as b eqn:E in H at 2. revert E. induction H; intros E; inversion E; subst; try lia; auto. Qed.

Lemma sorted_unique {A} : forall (l l' : list (pystr * A)),
  StronglySorted before (map fst l) -> StronglySorted before (map fst l') -> Permutation l l' -> l = l'.
Proof.
  induction l as [|x l IH]; intros l' S S' P.
  - apply Permutation_nil in P. congruence.
  - destruct l' as [|x' l']; [apply Permutation_sym, Permutation_nil in P; discriminate|].
    cbn [map] in S, S'. inversion S as [|? ? S1 F1]; inversion S' as [|? ? S2 F2]; subst.
    rewrite Forall_forall in F1, F2.
    assert (E : x = x').
    { pose proof (Permutation_in x P (or_introl eq_refl)) as [E|I1]; [congruence|].
      pose proof (Permutation_in x' (Permutation_sym P) (or_introl eq_refl)) as [E|I2]; [congruence|].
      exfalso. apply (before_irrefl (fst x)). apply before_trans with (fst x').
      - apply F1, in_map, I2.
      - apply F2, in_map, I1. }
    subst x'. f_equal. apply IH; try assumption. apply Permutation_cons_inv with x. exact P.
Qed.

Lemma NoDup_fst {A B} (l : list (A * B)) : NoDup (map fst l) -> NoDup l.
Proof. apply NoDup_map_inv. Qed.

(** Sorting forgets the order in which the entries come. *)
Lemma sort_incl {A} (l l' : list (pystr * A)) : NoDup (map fst l) -> NoDup (map fst l') ->
  List.length l = List.length l' -> (forall kv, In kv l -> In kv l') -> sort_keys l = sort_keys l'.
Proof.
  intros N N' L I. apply sorted_unique; try (apply sort_sorted; assumption).
  rewrite <- !sort_perm. apply NoDup_Permutation_bis; [apply NoDup_fst, N|lia|exact I].
Qed.

Lemma map_fst_value {A B} (f : A -> B) (d : list (pystr * A)) :
  map fst (map (fun kv => (fst kv, f (snd kv))) d) = map fst d.
Proof. rewrite map_map. reflexivity. Qed.

Lemma dumps_same : forall v v' lvl, python_object v -> python_object v' -> says_same v v' ->
  dumps lvl v = dumps lvl v'.
Proof.
  induction v as [|b| |neg|neg d|s|l IH|d IH] using json_ind'; intros v' lvl P P' H;
    inversion H as [| | | | | |? l' F|? d' L I]; subst; try reflexivity.
  - assert (E : map (dumps (S lvl)) l = map (dumps (S lvl)) l').
    { assert (Q : forall x, In x l -> python_object x) by (intros x Hx; apply (object_item l); assumption).
      assert (Q' : forall x, In x l' -> python_object x) by (intros x Hx; apply (object_item l'); assumption).
      clear P P' H. induction F as [|x x' l l' Hx Hl IHl]; [reflexivity|]. cbn [map].
      inversion IH; subst. f_equal.
      - apply H1; [apply Q; left; reflexivity|apply Q'; left; reflexivity|exact Hx].
      - apply IHl; [assumption| |]; intros; [apply Q|apply Q']; right; assumption. }
    destruct F; [reflexivity|]. cbn [dumps]. rewrite E. reflexivity.
  - pose proof (po_keys _ P d (part_self _)) as N. pose proof (po_keys _ P' d' (part_self _)) as N'.
    assert (E : sort_keys (map (fun kv => (fst kv, dumps (S lvl) (snd kv))) d) =
                sort_keys (map (fun kv => (fst kv, dumps (S lvl) (snd kv))) d')).
    { apply sort_incl.
      - rewrite map_fst_value. exact N.
      - rewrite map_fst_value. exact N'.
      - rewrite !map_length. exact L.
      - intros kt Hk. apply in_map_iff in Hk as ([k v] & <- & Hk). destruct (I k v Hk) as (v' & Hk' & S).
        apply in_map_iff. exists (k, v'). split; [|exact Hk']. cbn [fst snd]. f_equal. symmetry.
        rewrite Forall_forall in IH. apply (IH (k, v) Hk); [|exact (object_value _ _ _ P' Hk')|exact S].
        exact (object_value _ _ _ P Hk). }
    destruct d as [|kv d], d' as [|kv' d']; try discriminate L; [reflexivity|].
    cbn [dumps]. rewrite E. reflexivity.
Qed.

(** What can be read off a text. *)
Lemma text_ex v v' : python_object v -> python_object v' -> dumps 0 v = dumps 0 v' -> ex v = ex v'.
Proof.
  intros P P' E. apply object_good in P, P'.
  pose proof (lexes_dumps v 0 P [] I) as A. pose proof (lexes_dumps v' 0 P' [] I) as A'.
  rewrite app_nil_r in A, A'. rewrite E, A' in A. cbn [lex push] in A. rewrite !app_nil_r in A.
  assert (T : toks v = toks v') by congruence.
  pose proof (parse_toks v (2 * List.length (toks v)) [] ltac:(lia)) as Q.
  pose proof (parse_toks v' (2 * List.length (toks v')) [] ltac:(lia)) as Q'.
  rewrite T in Q. congruence.
Qed.

Lemma ex_same : forall v v', basic v -> basic v' -> ex v = ex v' -> says_same v v'.
Proof.
  induction v as [|b| |neg|neg d|s|l IH|d IH] using json_ind'; intros v' B B' E.
  - destruct v' as [|[]| |[]|[] ?|?|?|?]; try discriminate E. constructor.
  - destruct b, v' as [|[]| |[]|[] ?|?|?|?]; try discriminate E; constructor.
  - destruct v' as [|[]| |[]|[] ?|?|?|?]; try discriminate E. constructor.
  - destruct neg, v' as [|[]| |[]|[] ?|?|?|?]; try discriminate E; constructor.
  - destruct neg, v' as [|[]| |[]|[] ?|?|?|?]; try discriminate E; cbn in E; injection E as <-; constructor.
  - destruct v' as [|[]| |[]|[] ?|s'|?|?]; try discriminate E. cbn [ex] in E. injection E as E.
    rewrite !cut_basic in E; [subst; constructor| |].
    + apply B'. left. constructor.
    + apply B. left. constructor.
  - destruct v' as [|[]| |[]|[] ?|?|l'|?]; try discriminate E. cbn [ex] in E. injection E as E. constructor.
    assert (Q : forall x, In x l -> basic x) by (intros x Hx; exact (basic_item _ _ B Hx)).
    assert (Q' : forall x, In x l' -> basic x) by (intros x Hx; exact (basic_item _ _ B' Hx)).
    clear B B'. revert l' E Q'. induction IH as [|x l Hx Hl IHl]; intros [|x' l'] E Q'; try discriminate E; [constructor|].
    cbn [map] in E. injection E as E1 E2. constructor.
    + apply Hx; [apply Q; left; reflexivity|apply Q'; left; reflexivity|exact E1].
    + apply IHl; [|exact E2|]; intros; [apply Q|apply Q']; right; assumption.
  - destruct v' as [|[]| |[]|[] ?|?|?|d']; try discriminate E. cbn [ex] in E.
    rewrite !map_on_value, !sort_map, !map_map in E. injection E as E.
    assert (L : List.length d = List.length d').
    { apply (f_equal (@List.length _)) in E. rewrite !map_length in E.
      rewrite <- !(Permutation_length (sort_perm _)) in E. exact E. }
    constructor; [exact L|]. intros k v Hk.
    assert (G : forall c c', map (fun x => (EStr (cut (fst (on_value ex x))), snd (on_value ex x))) c =
                             map (fun x => (EStr (cut (fst (on_value ex x))), snd (on_value ex x))) c' ->
                In (k, v) c -> exists k' v', In (k', v') c' /\ cut k = cut k' /\ ex v = ex v').
    { clear. induction c as [|[k0 v0] c IH]; intros [|[k1 v1] c'] E Hk; try discriminate E; [destruct Hk|].
      cbn [map on_value fst snd] in E. injection E as E1 E2 E3. destruct Hk as [Hk|Hk].
      - injection Hk as <- <-. exists k1, v1. split; [left; reflexivity|split; assumption].
      - destruct (IH _ E3 Hk) as (k' & v' & I & ?). exists k', v'. split; [right|]; assumption. }
    destruct (G _ _ E (Permutation_in _ (sort_perm d) Hk)) as (k' & v' & Hk' & Ek & Ev).
    apply (Permutation_in _ (Permutation_sym (sort_perm d'))) in Hk'.
    rewrite !cut_basic in Ek.
    + subst k'. exists v'. split; [exact Hk'|]. rewrite Forall_forall in IH. apply (IH (k, v) Hk).
      * exact (basic_value _ _ _ B Hk).
      * exact (basic_value _ _ _ B' Hk').
      * exact Ev.
    + apply (basic_keys _ B'). exact (in_map fst _ _ Hk').
    + apply (basic_keys _ B). exact (in_map fst _ _ Hk).
Qed.
