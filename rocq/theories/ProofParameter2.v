(** Proofs about Parameter, continued: construction, assignment, order of the fit parameters. *)
From Coq Require Import Reals Lra Permutation Sorting.Sorted.
From Verif Require Import Base BaseFacts ModelFloat ModelTwoHalf ModelParameter SpecParameter
  ProofFloat ProofParameter.
Local Open Scope string_scope.

(* ------------------------------------------------------------------ *)
(** * Assignment *)

Lemma assign_keys l : forall xs v, (forall n, In n l -> In n (keys v)) -> keys (assign l xs v) = keys v.
Proof.
  induction l as [|m l IH]; intros [|x xs] v H; try reflexivity. cbn [assign].
  rewrite IH; rewrite set_same_keys by (apply H; left; reflexivity); auto.
  intros n Hn. apply H. right. exact Hn.
Qed.

Lemma assign_get l : forall xs v n,
  get n (assign l xs v) = match last_value l xs n with Some x => Some x | None => get n v end.
Proof.
  induction l as [|m l IH]; intros [|x xs] v n; try reflexivity. cbn [assign last_value].
  rewrite IH. destruct (last_value l xs n); [reflexivity|].
  destruct (String.eqb n m) eqn:E.
  - apply eqb_true in E. subst. apply get_set_eq.
  - apply get_set_neq, eqb_false, E.
Qed.

Lemma forallb_has v l : forallb (fun n => has n v) l = true <-> (forall n, In n l -> In n (keys (V:=fl) v)).
Proof.
  rewrite forallb_forall. split; intros H n Hn; [apply has_keys; auto|apply has_keys; auto].
Qed.

Lemma set_list_Ok st l xs : List.length l = List.length xs ->
  set_list st l (VSeq xs) = (with_values st (assign l xs (p_values st)), Ok tt).
Proof. intros H. cbn. rewrite H, Nat.eqb_refl. reflexivity. Qed.

Lemma set_valid st k vals l xs : assignment k vals l xs ->
  (forall n, In n l -> In n (keys (p_values st))) ->
  set_parameter st k vals = (with_values st (assign l xs (p_values st)), Ok tt).
Proof.
  intros [n x|l' xs' Hl|d vals'] Hk; unfold set_parameter, check_exist.
  - replace (has n (p_values st)) with true by (symmetry; apply has_keys, Hk; left; reflexivity). reflexivity.
  - replace (forallb _ l') with true by (symmetry; apply forallb_has; exact Hk). apply set_list_Ok, Hl.
  - replace (forallb _ (keys d)) with true by (symmetry; apply forallb_has; exact Hk).
    apply set_list_Ok. unfold keys. rewrite !map_length. reflexivity.
Qed.

Lemma set_outcome st k vals :
  (exists l xs, assignment k vals l xs /\ (forall n, In n l -> In n (keys (p_values st))) /\
     set_parameter st k vals = (with_values st (assign l xs (p_values st)), Ok tt)) \/
  ((exists e, set_parameter st k vals = (st, Err e)) /\
   forall l xs, assignment k vals l xs -> exists n, In n l /\ ~ In n (keys (p_values st))).
Proof.
  assert (Hdec : forall l, (forall n, In n l -> In n (keys (p_values st))) \/
                    (forallb (fun n => has n (p_values st)) l = false /\ exists n, In n l /\ ~ In n (keys (p_values st)))).
  { intros l. destruct (forallb (fun n => has n (p_values st)) l) eqn:E.
    - left. apply forallb_has, E.
    - right. split; [reflexivity|]. induction l as [|m l IH]; [discriminate|]. cbn in E.
      destruct (has m (p_values st)) eqn:Em.
      + destruct (IH E) as (n & Hn & Hk). exists n. split; [right; exact Hn|exact Hk].
      + exists m. split; [left; reflexivity|]. intros Hk. apply has_keys in Hk. congruence. }
  assert (Hyes : forall l xs, assignment k vals l xs -> (forall n, In n l -> In n (keys (p_values st))) ->
     exists l xs, assignment k vals l xs /\ (forall n, In n l -> In n (keys (p_values st))) /\
     set_parameter st k vals = (with_values st (assign l xs (p_values st)), Ok tt)).
  { intros l xs Ha Hk. exists l, xs. split; [exact Ha|]. split; [exact Hk|]. apply set_valid; assumption. }
  destruct k as [n|l|l|d|].
  - destruct vals as [xs|x| |].
    2:{ destruct (Hdec [n]) as [H|(_ & H)].
        - left. eapply Hyes; [constructor|exact H].
        - right. destruct H as (m & [<-|[]] & Hm). split.
          + unfold set_parameter, check_exist. replace (has n (p_values st)) with false; [eauto|].
            symmetry. apply Bool.not_true_is_false. rewrite has_keys. exact Hm.
          + intros l xs Ha. inversion Ha; subst. exists n. split; [left; reflexivity|exact Hm]. }
    all: right; split; [|intros l xs' Ha; inversion Ha].
    all: unfold set_parameter, check_exist; destruct (has n (p_values st)); eauto.
  - destruct (Hdec l) as [H|(E & H)].
    + destruct vals as [xs|x| |].
      2-4: right; split; [|intros l' xs' Ha; inversion Ha];
           unfold set_parameter, check_exist; destruct (forallb _ l); cbn; eauto.
      destruct (Nat.eq_dec (List.length l) (List.length xs)) as [El|Nl].
      * left. eapply Hyes; [constructor; exact El|exact H].
      * right. split; [|intros l' xs' Ha; inversion Ha; subst; congruence].
        unfold set_parameter, check_exist. destruct (forallb _ l); [|eauto]. cbn.
        replace (Nat.eqb _ _) with false by (symmetry; apply Nat.eqb_neq; exact Nl). eauto.
    + right. split; [unfold set_parameter, check_exist; rewrite E; eauto|].
      intros l' xs' Ha. inversion Ha; subst; assumption.
  - right. split; [|intros l' xs' Ha; inversion Ha].
    unfold set_parameter, check_exist. destruct (forallb _ l); eauto.
  - destruct (Hdec (keys d)) as [H|(E & H)].
    + left. eapply Hyes; [constructor|exact H].
    + right. split; [unfold set_parameter, check_exist; rewrite E; eauto|].
      intros l' xs' Ha. inversion Ha; subst; assumption.
  - right. split; [cbn; eauto|intros l' xs' Ha; inversion Ha].
Qed.

(* ------------------------------------------------------------------ *)
(** * Order *)

Lemma nat_of_ascii_inj a b : nat_of_ascii a = nat_of_ascii b -> a = b.
Proof. intros H. rewrite <- (ascii_nat_embedding a), <- (ascii_nat_embedding b), H. reflexivity. Qed.

Lemma sleb_before a b : sleb a b = true <-> a = b \/ before a b.
Proof.
  revert b. induction a as [|x a IH]; intros [|y b]; cbn [sleb].
  - split; auto.
  - split; [right; constructor|reflexivity].
  - split; [discriminate|]. intros [H|H]; [discriminate|inversion H].
  - destruct (Nat.ltb (nat_of_ascii x) (nat_of_ascii y)) eqn:E1.
    + split; [|reflexivity]. intros _. right. apply before_head. apply Nat.ltb_lt, E1.
    + apply Nat.ltb_ge in E1. destruct (Nat.ltb (nat_of_ascii y) (nat_of_ascii x)) eqn:E2.
      * apply Nat.ltb_lt in E2. split; [discriminate|]. intros [H|H].
        -- injection H as -> ->. lia.
        -- inversion H; subst; lia.
      * apply Nat.ltb_ge in E2. assert (x = y) by (apply nat_of_ascii_inj; lia). subst y. rewrite IH. split.
        -- intros [->|H]; [left; reflexivity|right; constructor; exact H].
        -- intros [H|H]; [injection H as ->; auto|]. inversion H; subst; [lia|auto].
Qed.

Lemma before_trans a b c : before a b -> before b c -> before a c.
Proof.
  intros H. revert c. induction H; intros c' H'; inversion H'; subst;
    first [apply before_nil | apply before_head; lia | apply before_tail; auto].
Qed.

Lemma before_irrefl a : ~ before a a.
Proof. induction a as [|x a IH]; intros H; inversion H; subst; [lia|auto]. Qed.

Lemma before_total a b : a = b \/ before a b \/ before b a.
Proof.
  revert b. induction a as [|x a IH]; intros [|y b].
  - auto.
  - right; left; constructor.
  - right; right; constructor.
  - destruct (lt_eq_lt_dec (nat_of_ascii x) (nat_of_ascii y)) as [[H|H]|H].
    + right; left; apply before_head, H.
    + apply nat_of_ascii_inj in H. subst y. destruct (IH b) as [->|[H|H]]; auto.
      * right; left; constructor; exact H.
      * right; right; constructor; exact H.
    + right; right; apply before_head, H.
Qed.

Lemma insert_perm x l : Permutation (insert_str x l) (x :: l).
Proof.
  induction l as [|y l IH]; cbn [insert_str]; [reflexivity|].
  destruct (sleb x y); [reflexivity|].
  rewrite IH. apply perm_swap.
Qed.

Lemma sorted_perm l : Permutation (sorted_names l) l.
Proof.
  induction l as [|x l IH]; [reflexivity|].
  change (sorted_names (x :: l)) with (insert_str x (sorted_names l)). rewrite insert_perm, IH. reflexivity.
Qed.

Lemma insert_sorted x l : ~ In x l -> StronglySorted before l -> StronglySorted before (insert_str x l).
Proof.
  induction l as [|y l IH]; intros Hx Hs; cbn [insert_str].
  - repeat constructor.
  - inversion Hs as [|? ? Hs' Hy]; subst. destruct (sleb x y) eqn:E.
    + apply sleb_before in E. destruct E as [->|E]; [exfalso; apply Hx; left; reflexivity|].
      constructor; [exact Hs|]. constructor; [exact E|].
      eapply Forall_impl; [|exact Hy]. intros z. apply before_trans, E.
    + constructor; [apply IH; [intros H; apply Hx; right; exact H|exact Hs']|].
      assert (Hyx : before y x).
      { destruct (before_total x y) as [->|[H|H]]; [exfalso; apply Hx; left; reflexivity| |exact H].
        assert (sleb x y = true) by (apply sleb_before; auto). congruence. }
      apply Forall_forall. intros z Hz.
      apply (Permutation_in _ (insert_perm x l)) in Hz. destruct Hz as [<-|Hz]; [exact Hyx|].
      rewrite Forall_forall in Hy. auto.
Qed.

Lemma sorted_sorted l : NoDup l -> StronglySorted before (sorted_names l).
Proof.
  induction 1 as [|x l Hx Hn IH]; [constructor|].
  change (sorted_names (x :: l)) with (insert_str x (sorted_names l)).
  apply insert_sorted; [|exact IH]. intros H. apply Hx. apply (Permutation_in _ (sorted_perm l)), H.
Qed.

Lemma sorted_unique l l' : StronglySorted before l -> StronglySorted before l' ->
  (forall x, In x l <-> In x l') -> l = l'.
Proof.
  intros Hs. revert l'. induction Hs as [|x l Hs IH Hx]; intros l' Hs' H.
  - destruct l' as [|y l']; [reflexivity|]. exfalso. apply (H y). left. reflexivity.
  - destruct l' as [|y l']; [exfalso; apply (H x); left; reflexivity|].
    inversion Hs' as [|? ? Hs'' Hy]; subst. rewrite Forall_forall in Hx, Hy.
    assert (Exy : x = y).
    { destruct (proj1 (H x) (or_introl eq_refl)) as [E|Hi]; [auto|].
      destruct (proj2 (H y) (or_introl eq_refl)) as [E|Hi']; [auto|].
      exfalso. apply (before_irrefl x). eapply before_trans; [apply Hx, Hi'|apply Hy, Hi]. }
    subst y. f_equal. apply IH; [exact Hs''|]. intros z. split; intros Hz.
    + destruct (proj1 (H z) (or_intror Hz)) as [<-|?]; [|assumption].
      exfalso. apply (before_irrefl x). apply Hx, Hz.
    + destruct (proj2 (H z) (or_intror Hz)) as [<-|?]; [|assumption].
      exfalso. apply (before_irrefl x). apply Hy, Hz.
Qed.

(* ------------------------------------------------------------------ *)
(** * Round trip *)

Lemma last_value_None l : forall xs n, ~ In n l -> last_value l xs n = None.
Proof.
  induction l as [|m l IH]; intros [|x xs] n H; try reflexivity. cbn.
  rewrite IH by (intros Hi; apply H; right; exact Hi).
  rewrite eqb_neq'; [reflexivity|]. intros ->. apply H. left. reflexivity.
Qed.

Lemma get_list_assign l : forall xs v, NoDup l -> List.length l = List.length xs ->
  get_list (assign l xs v) l = Ok xs.
Proof.
  assert (G : forall l xs v, NoDup l -> List.length l = List.length xs ->
     forall v', (forall n, In n l -> get n v' = get n (assign l xs v)) -> get_list v' l = Ok xs).
  { clear l. induction l as [|m l IH]; intros [|x xs] v Hn Hl v' H; try discriminate; [reflexivity|].
    inversion Hn as [|? ? Hm Hn']; subst. cbn [get_list].
    rewrite (H m (or_introl eq_refl)), assign_get. cbn [last_value].
    rewrite last_value_None by exact Hm. rewrite eqb_refl'. cbn [key bind].
    rewrite (IH xs (set m x v) Hn' ltac:(cbn in Hl; lia) v'); [reflexivity|].
    intros n Hi. rewrite (H n (or_intror Hi)). reflexivity. }
  intros xs v Hn Hl. eapply G; eauto.
Qed.

Lemma round_trip st xs : NoDup (p_fit st) -> (forall n, In n (p_fit st) -> In n (keys (p_values st))) ->
  List.length xs = List.length (p_fit st) ->
  exists st', set_parameter st (KList (parameter_fit st)) (VSeq xs) = (st', Ok tt) /\
    parameter_fit st' = parameter_fit st /\ parameter_fit_array st' = Ok xs /\
    keys (p_values st') = keys (p_values st) /\
    forall n, ~ In n (p_fit st) -> get n (p_values st') = get n (p_values st).
Proof.
  intros Hn Hk Hl. set (l := parameter_fit st).
  assert (Hp : Permutation l (p_fit st)) by apply sorted_perm.
  assert (Hkl : forall n, In n l -> In n (keys (p_values st))).
  { intros n Hi. apply Hk, (Permutation_in _ Hp), Hi. }
  assert (Hll : List.length l = List.length xs) by (rewrite Hl; apply Permutation_length, Hp).
  assert (Hnl : NoDup l) by (eapply Permutation_NoDup; [apply Permutation_sym, Hp|exact Hn]).
  eexists. split; [apply set_valid with (l := l) (xs := xs); [constructor; exact Hll|exact Hkl]|].
  split; [reflexivity|]. assert (Ek : keys (assign l xs (p_values st)) = keys (p_values st)) by (apply assign_keys, Hkl).
  split; [|split].
  - unfold parameter_fit_array, get_parameter, check_exist. cbn [p_values with_values p_fit].
    change (parameter_fit (with_values st (assign l xs (p_values st)))) with l.
    replace (forallb _ l) with true.
    + cbn [bind getitem p_values with_values]. apply get_list_assign; assumption.
    + symmetry. apply forallb_has. rewrite Ek. exact Hkl.
  - exact Ek.
  - intros n Hi. cbn. rewrite assign_get, last_value_None; [reflexivity|].
    intros H. apply Hi, (Permutation_in _ Hp), H.
Qed.

(* ------------------------------------------------------------------ *)
(** * Reachable states *)

Section Reach.
  Variable Rng : Type.
  Variables normal uniform : fl -> fl -> Rng -> result (fl * Rng).
  Variable sigmas : fl -> fl -> result (fl * fl).

  Lemma sample_frame body st g :
    let st' := fst (sample Rng body st g) in
    p_config st' = p_config st /\ p_fit st' = p_fit st /\ p_fixed st' = p_fixed st /\
    keys (p_values st') = keys (p_values st).
  Proof.
    unfold sample. pose proof (sample_loop_keys Rng body (p_config st) (keys (p_values st)) (p_values st) g
                                 (fun n H => H)) as K.
    destruct (sample_loop _ _ _ _ _ _) as [v r]. cbn in *. auto.
  Qed.

  Lemma set_frame st k vals :
    let st' := fst (set_parameter st k vals) in
    p_config st' = p_config st /\ p_fit st' = p_fit st /\ p_fixed st' = p_fixed st /\
    keys (p_values st') = keys (p_values st).
  Proof.
    destruct (set_outcome st k vals) as [(l & xs & _ & Hk & ->)|((e & ->) & _)]; cbn; [|auto].
    repeat split. apply assign_keys, Hk.
  Qed.

  Lemma classify_frame cfg : forall fixed fit fixed' fit' r,
    classify cfg fixed fit = (fixed', fit', r) ->
    (forall n, In n fit' -> In n fit \/ is_free cfg n) /\ (forall n, In n fixed' -> In n fixed \/ is_fixed cfg n) /\
    (NoDup fit -> NoDup fit') /\ incl fit fit' /\ incl fixed fixed'.
  Proof.
    induction cfg as [|[n s] cfg IH]; intros fixed fit fixed' fit' r H; cbn [classify] in H.
    - injection H as <- <- <-. repeat split; auto using incl_refl.
    - destruct (s_type s) as [ty|] eqn:Et.
      2:{ injection H as <- <- <-. repeat split; auto using incl_refl. }
      assert (L1 : forall m, is_free cfg m -> is_free ((n, s) :: cfg) m).
      { intros m (s' & ty' & ? & ?). exists s', ty'. split; [right|]; assumption. }
      assert (L2 : forall m, is_fixed cfg m -> is_fixed ((n, s) :: cfg) m).
      { intros m (s' & ? & ?). exists s'. split; [right|]; assumption. }
      destruct (String.eqb ty "fixed") eqn:Ef; destruct (IH _ _ _ _ _ H) as (A & B & C & D & E).
      + repeat split.
        * intros m Hm. destruct (A m Hm); auto.
        * intros m Hm. destruct (B m Hm) as [Hb|Hb]; [|auto]. apply add1_In in Hb. destruct Hb as [->|Hb]; auto.
          right. exists s. split; [left; reflexivity|]. rewrite Et. f_equal. apply eqb_true, Ef.
        * exact C.
        * exact D.
        * intros m Hm. apply E, add1_In. auto.
      + repeat split.
        * intros m Hm. destruct (A m Hm) as [Hb|Hb]; [|auto]. apply add1_In in Hb. destruct Hb as [->|Hb]; auto.
          right. exists s, ty. split; [left; reflexivity|]. split; [exact Et|]. apply eqb_false, Ef.
        * intros m Hm. destruct (B m Hm); auto.
        * intros Hn. apply C, NoDup_add1, Hn.
        * intros m Hm. apply D, add1_In. auto.
        * exact E.
  Qed.

  Lemma init_frame st seed g :
    let st' := fst (init_parameter Rng normal uniform sigmas st seed g) in
    p_config st' = p_config st /\ keys (p_values st') = keys (p_config st) /\
    (forall n, In n (p_fit st') -> In n (p_fit st) \/ is_free (p_config st) n) /\
    (forall n, In n (p_fixed st') -> In n (p_fixed st) \/ is_fixed (p_config st) n) /\
    (NoDup (p_fit st) -> NoDup (p_fit st')) /\ incl (p_fit st) (p_fit st') /\ incl (p_fixed st) (p_fixed st').
  Proof.
    unfold init_parameter.
    destruct (classify (p_config st) (p_fixed st) (p_fit st)) as [[fixed fit] r] eqn:E.
    destruct (classify_frame _ _ _ _ _ _ E) as (A & B & C & D & F).
    destruct r as [u|e].
    - cbv zeta. pose proof (sample_frame (prior_value Rng normal uniform sigmas)
        (mk_pstate (p_config st) fixed fit (map (fun kv => (fst kv, Fin 0)) (p_config st)))
        (match seed with Some s => s | None => g end)) as S. cbv zeta in S.
      destruct S as (S1 & S2 & S3 & S4). unfold sample_prior. rewrite S1, S2, S3, S4. cbn [p_config p_fit p_fixed p_values].
      rewrite (map_fst_pairs (fun _ => Fin 0)). auto 8.
    - cbn [fst p_config p_fit p_fixed p_values]. rewrite (map_fst_pairs (fun _ => Fin 0)). auto 8.
  Qed.

  Lemma new_inv cfg g st g' : new_parameter Rng normal uniform sigmas cfg g = Ok (st, g') ->
    st = fst (init_parameter Rng normal uniform sigmas (mk_pstate cfg [] [] []) None g) /\
    (forall n, is_free cfg n -> In n (p_fit st)) /\ (forall n, is_fixed cfg n -> In n (p_fixed st)).
  Proof.
    unfold new_parameter, init_parameter. cbn [p_config p_fixed p_fit].
    destruct (classify cfg [] []) as [[fixed fit] r] eqn:E. destruct r as [u|e]; [|discriminate].
    destruct (sample_prior _ _ _ _ _ _) as [st0 r0] eqn:Es. destruct r0 as [g0|e]; [|discriminate].
    cbn. intros H. injection H as <- <-. split; [reflexivity|].
    pose proof (sample_frame (prior_value Rng normal uniform sigmas)
        (mk_pstate cfg fixed fit (map (fun kv => (fst kv, Fin 0)) cfg)) g) as S. cbv zeta in S.
    unfold sample_prior in Es. rewrite Es in S. cbn in S. destruct S as (_ & -> & -> & _).
    assert (Ht : forall n s, In (n, s) cfg -> s_type s <> None).
    { clear Es. revert E. generalize (@nil string) at 1. generalize (@nil string).
      induction cfg as [|[m s'] cfg IH]; intros fi fx E n s Hi; [destruct Hi|].
      cbn [classify] in E. destruct (s_type s') eqn:Et; [|discriminate].
      destruct Hi as [Hi|Hi]; [injection Hi as <- <-; congruence|].
      destruct (String.eqb s0 "fixed"); eapply IH; eauto. }
    destruct (classify_ok cfg Ht [] []) as (a & b & E' & Ha & Hb & _).
    rewrite E in E'. injection E' as -> -> _.
    split; intros n Hn; [apply Hb|apply Ha]; right; exact Hn.
  Qed.

  Lemma reachable_wf cfg st : reachable Rng normal uniform sigmas cfg st ->
    p_config st = cfg /\ keys (p_values st) = keys cfg /\ NoDup (p_fit st) /\
    (forall n, In n (p_fit st) <-> is_free cfg n) /\ (forall n, In n (p_fixed st) <-> is_fixed cfg n).
  Proof.
    induction 1 as [g st g' H|st k vals H IH|st g H IH|st g H IH|st seed g H IH].
    - destruct (new_inv _ _ _ _ H) as (-> & A & B).
      pose proof (init_frame (mk_pstate cfg [] [] []) None g) as F. cbv zeta in F. cbn [p_config p_fit p_fixed] in F.
      destruct F as (F1 & F2 & F3 & F4 & F5 & _). repeat split; auto.
      + apply F5. constructor.
      + intros Hi. destruct (F3 _ Hi) as [[]|?]; assumption.
      + intros Hi. destruct (F4 _ Hi) as [[]|?]; assumption.
    - destruct (set_frame st k vals) as (-> & -> & -> & ->). exact IH.
    - unfold sample_prior. destruct (sample_frame (prior_value Rng normal uniform sigmas) st g) as (-> & -> & -> & ->). exact IH.
    - unfold sample_init. destruct (sample_frame (init_value Rng normal) st g) as (-> & -> & -> & ->). exact IH.
    - destruct IH as (I1 & I2 & I3 & I4 & I5).
      pose proof (init_frame st seed g) as F. cbv zeta in F. rewrite I1 in F.
      destruct F as (F1 & F2 & F3 & F4 & F5 & F6 & F7). repeat split; auto.
      + intros Hi. destruct (F3 _ Hi) as [Hj|?]; [apply I4, Hj|assumption].
      + intros Hi. apply F6, I4, Hi.
      + intros Hi. destruct (F4 _ Hi) as [Hj|?]; [apply I5, Hj|assumption].
      + intros Hi. apply F7, I5, Hi.
  Qed.

  Lemma reachable_round_trip cfg st xs : reachable Rng normal uniform sigmas cfg st ->
    List.length xs = List.length (parameter_fit st) ->
    exists st', set_parameter st (KList (parameter_fit st)) (VSeq xs) = (st', Ok tt) /\
      parameter_fit st' = parameter_fit st /\ parameter_fit_array st' = Ok xs /\
      keys (p_values st') = keys (p_values st) /\
      forall n, ~ is_free cfg n -> get n (p_values st') = get n (p_values st).
  Proof.
    intros H Hl. destruct (reachable_wf _ _ H) as (W1 & W2 & W3 & W4 & W5).
    destruct (round_trip st xs W3) as (st' & E & A & B & C & D).
    - intros n Hn. rewrite W2. apply W4 in Hn. destruct Hn as (s & ty & Hi & _).
      unfold keys. change n with (fst (n, s)). apply in_map, Hi.
    - rewrite Hl. apply Permutation_length, sorted_perm.
    - exists st'. repeat split; auto. intros n Hn. apply D. intros Hi. apply Hn, W4, Hi.
  Qed.

  Lemma parameter_fit_order cfg cfg' st st' :
    reachable Rng normal uniform sigmas cfg st -> reachable Rng normal uniform sigmas cfg' st' ->
    Permutation cfg cfg' -> parameter_fit st = parameter_fit st'.
  Proof.
    intros H H' P. destruct (reachable_wf _ _ H) as (_ & _ & W3 & W4 & _).
    destruct (reachable_wf _ _ H') as (_ & _ & W3' & W4' & _).
    apply sorted_unique; [apply sorted_sorted; assumption|apply sorted_sorted; assumption|].
    intros x. transitivity (In x (p_fit st)); [|transitivity (In x (p_fit st'))].
    - split; apply Permutation_in; [apply sorted_perm|apply Permutation_sym, sorted_perm].
    - rewrite W4, W4'. split; intros (s & ty & Hi & Ht); exists s, ty; (split; [|exact Ht]).
      + apply (Permutation_in _ P), Hi.
      + apply (Permutation_in _ (Permutation_sym P)), Hi.
    - split; apply Permutation_in; [apply Permutation_sym, sorted_perm|apply sorted_perm].
  Qed.

  Hypothesis draws : draws_finite normal uniform.

  Lemma new_ok cfg g : NoDup (keys cfg) ->
    (forall n s, get n cfg = Some s -> drawable sigmas s) ->
    exists st g', new_parameter Rng normal uniform sigmas cfg g = Ok (st, g') /\
      forall n s, get n cfg = Some s -> exists x, get n (p_values st) = Some x /\ sampled_ok s x.
  Proof.
    intros Hn Hd. unfold new_parameter, init_parameter. cbn [p_config p_fixed p_fit].
    assert (Ht : forall n s, In (n, s) cfg -> s_type s <> None).
    { intros n s Hi. apply (In_get n s cfg Hn) in Hi. destruct (Hd n s Hi); congruence. }
    destruct (classify_ok cfg Ht [] []) as (a & b & -> & _ & _ & _).
    set (st0 := mk_pstate cfg a b (map (fun kv => (fst kv, Fin 0)) cfg)).
    assert (K0 : keys (p_values st0) = keys cfg) by apply (map_fst_pairs (fun _ => Fin 0)).
    destruct (sample_all Rng (prior_value Rng normal uniform sigmas) (drawable sigmas) st0 g)
      as (st & g' & E & S1 & S2 & S3 & S4 & S5).
    - intros s g0. apply (prior_value_ok Rng normal uniform sigmas draws).
    - rewrite K0. exact Hn.
    - rewrite K0. intros n Hi. apply get_In_keys in Hi. destruct Hi as (s & Es). exists s. split; [exact Es|eauto].
    - unfold sample_prior. rewrite E. cbn. exists st, g'. split; [reflexivity|].
      intros n s Es. destruct (S5 n) as (s' & x & Es' & Ex & Hx).
      + rewrite K0. apply get_In_keys. eauto.
      + cbn in Es'. rewrite Es in Es'. injection Es' as <-. eauto.
  Qed.

  Lemma fle_not_nan a b : fle a b = true -> a <> NaN /\ b <> NaN.
  Proof. destruct a, b; cbn; try discriminate; split; discriminate. Qed.

  Lemma drawable_proper s ty : drawable sigmas s -> s_type s = Some ty -> ty <> "fixed" -> proper sigmas s.
  Proof.
    intros [args m sd lo hi E1 E2 E3 A1 A2 Hs Hr
           |args ep en mu sp sn lo hi E1 E2 E3 A1 A2 A3 A4 H1 H2 Hr
           |args a b lo hi E1 E2 E3 A1 A2 Hr
           |args m sd lo hi E1 E2 E3 A1 A2 Hs Hr
           |args v E1 E2 A1] Et Hne; try destruct (fle_not_nan _ _ Hr).
    - eapply proper_norm; eauto.
    - eapply proper_twohalf; eauto.
    - eapply proper_flat with (ty := "uniform"); eauto; discriminate.
    - eapply proper_flat with (ty := "free"); eauto; discriminate.
    - congruence.
  Qed.

  Lemma new_log_prior cfg g : NoDup (keys cfg) ->
    (forall n s, get n cfg = Some s -> drawable sigmas s) ->
    (forall n, is_free cfg n -> exists s, get n cfg = Some s /\ reachable_range s) ->
    exists st g' r, new_parameter Rng normal uniform sigmas cfg g = Ok (st, g') /\
      log_prior sigmas st = Ok (Fin r).
  Proof.
    intros Hn Hd Hr. destruct (new_ok cfg g Hn Hd) as (st & g' & E & S).
    assert (R : reachable Rng normal uniform sigmas cfg st) by (eapply r_new; eassumption).
    destruct (reachable_wf _ _ R) as (W1 & W2 & W3 & W4 & W5).
    assert (F : forall n, In n (p_fit st) -> exists s x, get n cfg = Some s /\ get n (p_values st) = Some (Fin x) /\
                  proper sigmas s /\ in_range s (Fin x)).
    { intros n Hi. apply W4 in Hi. destruct (Hr n Hi) as (s & Es & Hs).
      destruct Hi as (s' & ty & Hi & Et & Hne). apply (In_get n s' cfg Hn) in Hi. rewrite Es in Hi. injection Hi as <-.
      destruct (S n s Es) as (x & Ex & Hx). unfold sampled_ok in Hx. rewrite Et, (eqb_neq' _ _ Hne) in Hx.
      destruct Hx as [Hx1 Hx2]. destruct (Hx2 Hs) as (r & ->). exists s, r. repeat split; auto.
      eapply drawable_proper; eauto. }
    exists st, g'.
    destruct (log_prior_cases sigmas st) as [(rs & _ & El)|((n & Hi & s & v & E1 & E2 & Ho) & El)].
    - intros n Hi. destruct (F n Hi) as (s & x & ? & ? & ? & ?). exists s, x. rewrite W1. auto.
    - eauto.
    - exfalso. destruct (F n Hi) as (s' & x & E1' & E2' & _ & Hin). rewrite W1 in E1.
      rewrite E1 in E1'. rewrite E2 in E2'. injection E1' as <-. injection E2' as ->. contradiction.
  Qed.
End Reach.
