(** Proofs about storing and restoring instructions as text. *)
From Coq Require Import ZArith Permutation.
From Verif Require Import Base ModelJson SpecContext.
Local Open Scope list_scope.

Lemma value_ind' (P : value -> Prop) :
  P VNull -> (forall b, P (VBool b)) -> (forall n, P (VFinite n)) -> P VNanInf -> (forall s, P (VText s)) ->
  (forall l, (forall x, In x l -> P x) -> P (VArr l)) ->
  (forall l, (forall k x, In (k, x) l -> P x) -> P (VObj l)) -> forall v, P v.
Proof.
  intros H1 H2 H3 H4 H5 H6 H7. fix IH 1. intros [ |b|n| |s|l|l]; [exact H1|apply H2|apply H3|exact H4|apply H5| | ].
  - apply H6. induction l as [|x l IHl]; intros y Hy; [destruct Hy|].
    destruct Hy as [<-|Hy]; [apply IH|apply IHl, Hy].
  - apply H7. induction l as [|[k' x'] l IHl]; intros k y Hy; [destruct Hy|].
    destruct Hy as [E|Hy]; [|apply (IHl k y Hy)]. injection E as _ <-. apply IH.
Qed.

(* ------------------------------------------------------------------ *)
(** * Characters *)

(** What the escaped character evaluates to: two characters above 0xFFFF. *)
Definition utf16_1 (c : Z) : text :=
  (if c <? 65536 then [c] else [55296 + (c - 65536) / 1024; 56320 + (c - 65536) mod 1024])%Z.
Definition utf16 (s : text) : text := flat_map utf16_1 s.

Lemma unhex_hex d : (0 <= d < 16)%Z -> unhex (hex d) = Some d.
Proof.
  intros H. unfold hex, unhex. destruct (Z.ltb_spec d 10).
  - replace ((48 <=? 48 + d)%Z) with true by (symmetry; apply Z.leb_le; lia).
    replace ((48 + d <=? 57)%Z) with true by (symmetry; apply Z.leb_le; lia). cbn [andb]. f_equal. lia.
  - replace ((87 + d <=? 57)%Z) with false by (symmetry; apply Z.leb_gt; lia). rewrite andb_false_r.
    replace ((97 <=? 87 + d)%Z) with true by (symmetry; apply Z.leb_le; lia).
    replace ((87 + d <=? 102)%Z) with true by (symmetry; apply Z.leb_le; lia). cbn [andb]. f_equal. lia.
Qed.

Lemma unescape_u4 n r : (0 <= n < 65536)%Z ->
  unescape (u4 n ++ r) = match unescape r with Some s => Some (n :: s) | None => None end.
Proof.
  intros H. unfold u4. cbn [app unescape]. rewrite !Z.eqb_refl.
  rewrite (unhex_hex (n / 4096)) by (split; [apply Z.div_pos; lia|apply Z.div_lt_upper_bound; lia]).
  rewrite !unhex_hex by (apply Z.mod_pos_bound; lia).
  destruct (unescape r) as [s|]; [|reflexivity]. f_equal. f_equal.
  rewrite (Z.div_mod n 16) at 5 by lia.
  rewrite (Z.div_mod (n / 16) 16) at 2 by lia.
  rewrite Z.div_div by lia. change (16 * 16)%Z with 256%Z.
  rewrite (Z.div_mod (n / 256) 16) at 2 by lia.
  rewrite Z.div_div by lia. change (256 * 16)%Z with 4096%Z. lia.
Qed.

Lemma unescape_escape1 c r : code_point c ->
  unescape (escape1 c ++ r) = match unescape r with Some s => Some (utf16_1 c ++ s) | None => None end.
Proof.
  intros H. unfold code_point in H. unfold escape1, utf16_1.
  destruct (Z.eqb_spec c 34) as [->|N1]; [cbn; destruct (unescape r); reflexivity|].
  destruct (Z.eqb_spec c 92) as [->|N2]; [cbn; destruct (unescape r); reflexivity|].
  destruct (Z.eqb_spec c 10) as [->|N3]; [cbn; destruct (unescape r); reflexivity|].
  destruct (Z.eqb_spec c 13) as [->|N4]; [cbn; destruct (unescape r); reflexivity|].
  destruct (Z.eqb_spec c 9) as [->|N5]; [cbn; destruct (unescape r); reflexivity|].
  destruct (Z.eqb_spec c 12) as [->|N6]; [cbn; destruct (unescape r); reflexivity|].
  destruct (Z.eqb_spec c 8) as [->|N7]; [cbn; destruct (unescape r); reflexivity|].
  destruct ((32 <=? c) && (c <=? 126))%Z%bool eqn:E.
  - apply andb_true_iff in E. destruct E as [E1 E2]. apply Z.leb_le in E1, E2.
    replace (c <? 65536)%Z with true by (symmetry; apply Z.ltb_lt; lia).
    cbn [app unescape]. replace (c =? 92)%Z with false by (symmetry; apply Z.eqb_neq; exact N2). reflexivity.
  - destruct (Z.ltb_spec c 65536).
    + rewrite unescape_u4 by lia. reflexivity.
    + rewrite <- app_assoc.
      assert (0 <= (c - 65536) / 1024 < 1024)%Z by (split; [apply Z.div_pos; lia|apply Z.div_lt_upper_bound; lia]).
      pose proof (Z.mod_pos_bound (c - 65536) 1024).
      rewrite unescape_u4, unescape_u4 by lia. destruct (unescape r); reflexivity.
Qed.

Lemma unescape_escape s : Forall code_point s -> unescape (escape s) = Some (utf16 s).
Proof.
  induction 1 as [|c s Hc Hs IH]; [reflexivity|].
  cbn [escape flat_map]. rewrite unescape_escape1 by exact Hc. fold (escape s). rewrite IH. reflexivity.
Qed.

Lemma utf16_1_bmp c : code_point c -> Forall bmp (utf16_1 c).
Proof.
  unfold code_point, utf16_1, bmp. intros H. destruct (Z.ltb_spec c 65536).
  - constructor; [lia|constructor].
  - assert (0 <= (c - 65536) / 1024 < 1024)%Z by (split; [apply Z.div_pos; lia|apply Z.div_lt_upper_bound; lia]).
    pose proof (Z.mod_pos_bound (c - 65536) 1024). repeat constructor; lia.
Qed.

Lemma utf16_bmp s : Forall code_point s -> Forall bmp (utf16 s).
Proof.
  induction 1 as [|c s Hc Hs IH]; [constructor|]. cbn. apply Forall_app. split; [apply utf16_1_bmp, Hc|exact IH].
Qed.

Lemma utf16_id s : Forall bmp s -> utf16 s = s.
Proof.
  induction 1 as [|c s Hc Hs IH]; [reflexivity|]. cbn [utf16 flat_map]. fold (utf16 s). rewrite IH.
  unfold utf16_1, bmp in *. replace (c <? 65536)%Z with true by (symmetry; apply Z.ltb_lt; lia). reflexivity.
Qed.

Lemma utf16_id_inv s : Forall code_point s -> utf16 s = s -> Forall bmp s.
Proof. intros H E. rewrite <- E. apply utf16_bmp, H. Qed.

(* ------------------------------------------------------------------ *)
(** * Sorting the keys *)

Lemma insert_map {V W} (g : V -> W) k v l :
  insert_key (k, g v) (map (fun kv => (fst kv, g (snd kv))) l)
  = map (fun kv => (fst kv, g (snd kv))) (insert_key (k, v) l).
Proof.
  induction l as [|[k' v'] l IH]; [reflexivity|]. cbn. destruct (text_leb k k'); [reflexivity|]. cbn. rewrite IH. reflexivity.
Qed.

Lemma sort_map {V W} (g : V -> W) l :
  sort_keys (map (fun kv => (fst kv, g (snd kv))) l) = map (fun kv => (fst kv, g (snd kv))) (sort_keys l).
Proof. unfold sort_keys. induction l as [|[k v] l IH]; [reflexivity|]. cbn [map fold_right]. rewrite IH. apply insert_map. Qed.

Lemma insert_perm {V} (kv : text * V) l : Permutation (kv :: l) (insert_key kv l).
Proof.
  induction l as [|y l IH]; [reflexivity|]. cbn. destruct (text_leb (fst kv) (fst y)); [reflexivity|].
  rewrite perm_swap. constructor. exact IH.
Qed.

Lemma sort_perm {V} (l : list (text * V)) : Permutation l (sort_keys l).
Proof. induction l as [|y l IH]; [constructor|]. cbn. rewrite <- insert_perm. constructor. exact IH. Qed.

(* ------------------------------------------------------------------ *)
(** * The value a stored value evaluates to *)

Definition build (l : list (text * value)) : list (text * value) :=
  fold_left (fun d kv => tset (utf16 (fst kv)) (snd kv) d) l [].

Fixpoint conv (v : value) : value :=
  match v with
  | VText s => VText (utf16 s)
  | VArr l => VArr (map conv l)
  | VObj l => VObj (build (sort_keys (map (fun kv => (fst kv, conv (snd kv))) l)))
  | _ => v
  end.

Lemma nameless_dec v : nameless v \/ ~ nameless v.
Proof.
  induction v as [ |b|n| |s|l IH|l IH] using value_ind'; try (right; intros H; inversion H; fail); try (left; constructor; fail).
  - assert (D : (forall x, In x l -> nameless x) \/ ~ (forall x, In x l -> nameless x)).
    { clear - IH. induction l as [|x l IHl]; [left; intros x []|].
      destruct (IH x (or_introl eq_refl)) as [Hx|Hx]; [|right; intros H; apply Hx, H; left; reflexivity].
      destruct IHl as [Hl|Hl]; [intros y Hy; apply IH; right; exact Hy| |].
      - left. intros y [<-|Hy]; auto.
      - right. intros H. apply Hl. intros y Hy. apply H. right. exact Hy. }
    destruct D as [D|D]; [left; constructor; exact D|right; intros H; inversion H; auto].
  - assert (D : (forall k x, In (k, x) l -> nameless x) \/ ~ (forall k x, In (k, x) l -> nameless x)).
    { clear - IH. induction l as [|[k x] l IHl]; [left; intros k x []|].
      destruct (IH k x (or_introl eq_refl)) as [Hx|Hx]; [|right; intros H; apply Hx, (H k); left; reflexivity].
      destruct IHl as [Hl|Hl]; [intros k' y Hy; apply (IH k'); right; exact Hy| |].
      - left. intros k' y [E|Hy]; [injection E as _ <-; exact Hx|eauto].
      - right. intros H. apply Hl. intros k' y Hy. apply (H k'). right. exact Hy. }
    destruct D as [D|D]; [left; constructor; exact D|right; intros H; inversion H; auto].
Qed.

(** What evaluation of the stored text of v gives. *)
Definition eval_ok (v : value) : Prop := forall fuel r, 2 * size v <= fuel ->
  (nameless v -> eval_value fuel (dumps v ++ r) = Ok (conv v, r)) /\
  (~ nameless v -> eval_value fuel (dumps v ++ r) = Err NameError).

Lemma size_pos v : 1 <= size v.
Proof. destruct v; cbn; lia. Qed.

Lemma dumps_head v : exists t ts, dumps v = t :: ts /\ t <> TRBrack.
Proof. destruct v; cbn; eexists _, _; (split; [reflexivity|discriminate]). Qed.

Lemma join_cons2 x y l : join (x :: y :: l) = x ++ TComma :: join (y :: l).
Proof. reflexivity. Qed.

Lemma eval_items_ok : forall l fuel acc r, l <> [] -> (forall x, In x l -> eval_ok x) ->
  1 + 2 * fold_right (fun x n => size x + n) 0 l <= fuel ->
  ((forall x, In x l -> nameless x) ->
    eval_items fuel acc (join (map dumps l) ++ TRBrack :: r) = Ok (VArr (acc ++ map conv l), r)) /\
  (~ (forall x, In x l -> nameless x) ->
    eval_items fuel acc (join (map dumps l) ++ TRBrack :: r) = Err NameError).
Proof.
  induction l as [|x l IH]; intros fuel acc r Hl Hok Hf; [congruence|].
  destruct fuel as [|fuel]; [lia|]. cbn [fold_right] in Hf. pose proof (size_pos x).
  assert (Hx : forall r', (nameless x -> eval_value fuel (dumps x ++ r') = Ok (conv x, r')) /\
      (~ nameless x -> eval_value fuel (dumps x ++ r') = Err NameError)).
  { intros r'. apply (Hok x); [left; reflexivity|lia]. }
  destruct l as [|y l].
  - cbn [map join eval_items]. destruct (Hx (TRBrack :: r)) as [H1 H2]. split; intros H'.
    + rewrite H1 by (apply H'; left; reflexivity). reflexivity.
    + rewrite H2; [reflexivity|]. intros Hn. apply H'. intros z [<-|[]]. exact Hn.
  - cbn [map]. rewrite join_cons2, <- app_assoc. cbn [app eval_items].
    change (dumps y :: map dumps l) with (map dumps (y :: l)).
    destruct (Hx (TComma :: join (map dumps (y :: l)) ++ TRBrack :: r)) as [H1 H2].
    destruct (IH fuel (acc ++ [conv x]) r) as [J1 J2]; [discriminate| |cbn [fold_right] in *; lia|].
    { intros z Hz. apply Hok. right. exact Hz. }
    destruct (nameless_dec x) as [Hn|Hn].
    + rewrite H1 by exact Hn. split; intros H'.
      * rewrite J1 by (intros z Hz; apply H'; right; exact Hz). rewrite <- app_assoc. reflexivity.
      * apply J2. intros Hz. apply H'. intros z [<-|Hi]; auto.
    + rewrite H2 by exact Hn. split; intros H'; [|reflexivity]. exfalso. apply Hn, H'. left. reflexivity.
Qed.

Lemma eval_pairs_ok : forall l fuel acc r, l <> [] -> (forall k x, In (k, x) l -> eval_ok x /\ Forall code_point k) ->
  1 + 2 * fold_right (fun x n => size (snd x) + n) 0 l <= fuel ->
  let ts := join (map (fun kv => TString (escape (fst kv)) :: TColon :: snd kv)
                      (map (fun kv : text * value => (fst kv, dumps (snd kv))) l)) ++ TRBrace :: r in
  ((forall k x, In (k, x) l -> nameless x) ->
    eval_pairs fuel acc ts = Ok (VObj (fold_left (fun d kv => tset (utf16 (fst kv)) (snd kv) d)
                                        (map (fun kv => (fst kv, conv (snd kv))) l) acc), r)) /\
  (~ (forall k x, In (k, x) l -> nameless x) -> eval_pairs fuel acc ts = Err NameError).
Proof.
  cbn zeta. induction l as [|[k x] l IH]; intros fuel acc r Hl Hok Hf; [congruence|].
  destruct fuel as [|fuel]; [lia|]. cbn [fold_right snd] in Hf. pose proof (size_pos x).
  destruct (Hok k x (or_introl eq_refl)) as [Ox Ck].
  assert (Hx : forall r', (nameless x -> eval_value fuel (dumps x ++ r') = Ok (conv x, r')) /\
      (~ nameless x -> eval_value fuel (dumps x ++ r') = Err NameError)).
  { intros r'. apply Ox. lia. }
  destruct l as [|[k2 y] l].
  - cbn [map join app fst snd]. cbn [eval_pairs]. rewrite unescape_escape by exact Ck.
    destruct (Hx (TRBrace :: r)) as [H1 H2]. split; intros H'.
    + rewrite H1 by (apply (H' k); left; reflexivity). reflexivity.
    + rewrite H2; [reflexivity|]. intros Hn. apply H'. intros k' z [E|[]]. injection E as _ <-. exact Hn.
  - cbn [map]. rewrite join_cons2, <- app_assoc. cbn [app fst snd]. cbn [eval_pairs]. rewrite unescape_escape by exact Ck.
    match goal with |- context [join (?a :: ?b)] =>
      change (join (a :: b)) with (join (map (fun kv => TString (escape (fst kv)) :: TColon :: snd kv)
        (map (fun kv : text * value => (fst kv, dumps (snd kv))) ((k2, y) :: l)))) end.
    match goal with |- context [dumps x ++ ?t] => destruct (Hx t) as [H1 H2] end.
    destruct (IH fuel (tset (utf16 k) (conv x) acc) r) as [J1 J2]; [discriminate| |cbn [fold_right snd] in *; lia|].
    { intros k' z Hz. apply Hok. right. exact Hz. }
    destruct (nameless_dec x) as [Hn|Hn].
    + rewrite H1 by exact Hn. split; intros H'.
      * rewrite J1 by (intros k' z Hz; apply (H' k'); right; exact Hz). reflexivity.
      * apply J2. intros Hz. apply H'. intros k' z [E|Hi]; [injection E as _ <-; exact Hn|eauto].
    + rewrite H2 by exact Hn. split; intros H'; [|reflexivity]. exfalso. apply Hn, (H' k). left. reflexivity.
Qed.

Lemma fold_size_perm (l l' : list (text * value)) : Permutation l l' ->
  fold_right (fun x n => size (snd x) + n) 0 l = fold_right (fun x n => size (snd x) + n) 0 l'.
Proof. induction 1; cbn; lia. Qed.

Lemma eval_conv v : chars code_point v -> eval_ok v.
Proof.
  induction v as [ |b|n| |s|l IH|l IH] using value_ind'; intros Hc fuel r Hf;
    (destruct fuel as [|fuel]; [pose proof (size_pos VNull); cbn in Hf; lia|]).
  - split; intros H; [inversion H|reflexivity].
  - split; intros H; [inversion H|reflexivity].
  - split; intros H; [reflexivity|exfalso; apply H; constructor].
  - split; intros H; [inversion H|reflexivity].
  - split; intros H; [|exfalso; apply H; constructor]. inversion Hc; subst.
    cbn. rewrite unescape_escape by assumption. reflexivity.
  - inversion Hc; subst. cbn [size] in Hf. destruct l as [|x l].
    + split; intros H; [reflexivity|]. exfalso. apply H. constructor. intros x [].
    + destruct (eval_items_ok (x :: l) fuel [] r) as [J1 J2]; [discriminate| |lia|].
      { intros y Hy. apply IH; auto. }
      assert (E : eval_value (S fuel) (dumps (VArr (x :: l)) ++ r)
                  = eval_items fuel [] (join (map dumps (x :: l)) ++ TRBrack :: r)).
      { cbn [dumps app]. rewrite <- app_assoc. cbn [app].
        destruct (dumps_head x) as (t & ts & Ht & Hn).
        assert (Hj : exists ts', join (map dumps (x :: l)) = t :: ts').
        { destruct l as [|y l]; cbn [map]; [exists ts; exact Ht|]. rewrite join_cons2, Ht. eexists. reflexivity. }
        destruct Hj as (ts' & ->). cbn. destruct t; try reflexivity. congruence. }
      rewrite E. split; intros H.
      * rewrite J1; [reflexivity|]. inversion H; assumption.
      * apply J2. intros Hn. apply H. constructor. exact Hn.
  - inversion Hc; subst. cbn [size] in Hf. cbn [dumps conv]. rewrite !sort_map.
    pose proof (sort_perm l) as Hp.
    assert (D : l = [] \/ l <> []) by (destruct l; [left; reflexivity|right; discriminate]).
    destruct D as [->|D].
    + split; intros H; [reflexivity|]. exfalso. apply H. constructor. intros k x [].
    + assert (Hne : sort_keys l <> []).
      { intros E. rewrite E in Hp. apply Permutation_length in Hp. destruct l; [congruence|discriminate]. }
      destruct (eval_pairs_ok (sort_keys l) fuel [] r Hne) as [J1 J2].
      { intros k x Hi. apply Permutation_sym in Hp. eapply Permutation_in in Hi; [|exact Hp].
        match goal with Hk : forall k x, In (k, x) l -> Forall _ k /\ _ |- _ => destruct (Hk k x Hi) as [A B] end.
        split; [eapply IH; eassumption|exact A]. }
      { pose proof (fold_size_perm _ _ Hp) as Ep. unfold text in *. lia. }
      assert (E : forall m, m <> [] -> eval_value (S fuel) ((TLBrace :: join (map (fun kv => TString (escape (fst kv)) :: TColon :: snd kv)
                      (map (fun kv : text * value => (fst kv, dumps (snd kv))) m)) ++ [TRBrace]) ++ r)
                  = eval_pairs fuel [] (join (map (fun kv => TString (escape (fst kv)) :: TColon :: snd kv)
                      (map (fun kv : text * value => (fst kv, dumps (snd kv))) m)) ++ TRBrace :: r)).
      { intros m Hm. cbn [app]. rewrite <- app_assoc. cbn [app]. destruct m as [|[k x] [|p m]]; [congruence| |]; reflexivity. }
      rewrite (E _ Hne). split; intros H.
      * rewrite J1; [reflexivity|]. intros k x Hi. inversion H as [| | |? Hk]; subst.
        apply (Hk k). eapply Permutation_in; [apply Permutation_sym, Hp|exact Hi].
      * apply J2. intros Hn. apply H. constructor. intros k x Hi. apply (Hn k). eapply Permutation_in; [exact Hp|exact Hi].
Qed.

(* ------------------------------------------------------------------ *)
(** * When the restored value is the same *)

Lemma tset_In k v d : forall k' v', In (k', v') (tset k v d) -> (k', v') = (k, v) \/ In (k', v') d.
Proof.
  induction d as [|[k0 v0] d IH]; intros k' v' H; cbn in *.
  - destruct H as [<-|[]]. auto.
  - destruct (list_eq_dec Z.eq_dec k k0) as [->|N]; destruct H as [<-|H]; auto.
    destruct (IH _ _ H); auto.
Qed.

Lemma tset_new k v d : ~ In k (map fst d) -> tset k v d = d ++ [(k, v)].
Proof.
  induction d as [|[k0 v0] d IH]; intros H; [reflexivity|]. cbn in *.
  destruct (list_eq_dec Z.eq_dec k k0) as [->|N]; [exfalso; auto|]. rewrite IH by auto. reflexivity.
Qed.

Lemma build_from l : forall d, NoDup (map fst d ++ map (fun kv => utf16 (fst kv)) l) ->
  fold_left (fun d kv => tset (utf16 (fst kv)) (snd kv) d) l d
  = d ++ map (fun kv : text * value => (utf16 (fst kv), snd kv)) l.
Proof.
  induction l as [|[k v] l IH]; intros d H; [rewrite app_nil_r; reflexivity|]. cbn [fold_left map fst snd] in *.
  rewrite tset_new.
  - rewrite IH; [rewrite <- app_assoc; reflexivity|]. rewrite map_app, <- app_assoc. exact H.
  - apply NoDup_remove_2 in H. intros Hk. apply H, in_or_app. left. exact Hk.
Qed.

(** The keys of the dictionary built are the converted keys. *)
Lemma build_keys l : forall d k, In k (map fst (fold_left (fun d kv => tset (utf16 (fst kv)) (snd kv) d) l d)) ->
  In k (map fst d) \/ exists k' (v : value), In (k', v) l /\ k = utf16 k'.
Proof.
  induction l as [|[k0 v0] l IH]; intros d k H; [auto|]. cbn [fold_left fst snd] in H.
  apply IH in H. destruct H as [H|(k' & v & Hi & ->)].
  - apply in_map_iff in H. destruct H as ([k1 v1] & <- & H). apply tset_In in H. destruct H as [E|H].
    + injection E as -> ->. right. exists k0, v0. split; [left; reflexivity|reflexivity].
    + left. apply in_map_iff. exists (k1, v1). auto.
  - right. exists k', v. split; [right; exact Hi|reflexivity].
Qed.

Lemma nodup_pair {V} (l : list (text * V)) k x y : NoDup (map fst l) -> In (k, x) l -> In (k, y) l -> x = y.
Proof.
  induction l as [|[k0 v0] l IH]; intros Hn H1 H2; [destruct H1|]. inversion Hn as [|? ? Hk Hn']; subst.
  destruct H1 as [E1|H1], H2 as [E2|H2].
  - congruence.
  - injection E1 as -> ->. exfalso. apply Hk. change k with (fst (k, y)). apply in_map, H2.
  - injection E2 as -> ->. exfalso. apply Hk. change k with (fst (k, x)). apply in_map, H1.
  - eapply IH; eassumption.
Qed.

Lemma map_fst_id {V} (l : list (text * V)) : (forall k x, In (k, x) l -> Forall bmp k) ->
  map (fun kv => utf16 (fst kv)) l = map fst l.
Proof.
  intros H. apply map_ext_in. intros [k x] Hi. cbn. apply utf16_id. eapply H, Hi.
Qed.

(** On dictionaries without characters above 0xFFFF in keys, only the order changes. *)
Lemma conv_obj l : NoDup (map fst l) -> (forall k x, In (k, x) l -> Forall bmp k) ->
  conv (VObj l) = VObj (map (fun kv => (fst kv, conv (snd kv))) (sort_keys l)).
Proof.
  intros Hn Hk. cbn [conv]. rewrite sort_map. f_equal. unfold build.
  pose proof (sort_perm l) as Hp.
  assert (Hk' : forall k x, In (k, x) (sort_keys l) -> Forall bmp k).
  { intros k x Hi. apply (Hk k x). eapply Permutation_in; [apply Permutation_sym, Hp|exact Hi]. }
  set (m := map (fun kv => (fst kv, conv (snd kv))) (sort_keys l)).
  assert (Hm : map (fun kv => utf16 (fst kv)) m = map fst (sort_keys l)).
  { unfold m. rewrite map_map. cbn. apply map_fst_id, Hk'. }
  rewrite build_from.
  - cbn [app]. rewrite <- (map_id m) at 2. apply map_ext_in. intros [k x] Hi. cbn. f_equal.
    unfold m in Hi. apply in_map_iff in Hi. destruct Hi as ([k1 x1] & E & Hi). injection E as <- <-.
    apply utf16_id. eapply Hk', Hi.
  - cbn [map app]. rewrite Hm. eapply Permutation_NoDup; [apply Permutation_map, Hp|exact Hn].
Qed.

Lemma conv_same v : chars bmp v -> same v (conv v).
Proof.
  induction v as [ |b|n| |s|l IH|l IH] using value_ind'; intros Hc; try apply same_refl.
  - inversion Hc; subst. cbn. rewrite utf16_id by assumption. apply same_refl.
  - inversion Hc as [| | | | |? Hl|]; subst. cbn [conv]. apply same_arr.
    clear Hc. induction l as [|x l IHl]; [constructor|]. constructor.
    + apply IH; [left; reflexivity|]. apply Hl. left. reflexivity.
    + apply IHl; intros y Hy; [apply IH; right; exact Hy|apply Hl; right; exact Hy].
  - inversion Hc as [| | | | | |? Hn Hk]; subst. rewrite conv_obj; [|exact Hn|intros k x Hi; apply (Hk k x Hi)].
    pose proof (sort_perm l) as Hp.
    assert (Hm : map fst (map (fun kv => (fst kv, conv (snd kv))) (sort_keys l)) = map fst (sort_keys l))
      by (rewrite map_map; reflexivity).
    apply same_obj.
    + exact Hn.
    + rewrite Hm. eapply Permutation_NoDup; [apply Permutation_map, Hp|exact Hn].
    + intros k. rewrite Hm. split; apply Permutation_in; [|symmetry]; apply Permutation_map, Hp.
    + intros k x x' Hi Hi'. apply in_map_iff in Hi'. destruct Hi' as ([k1 x1] & E & Hi'). injection E as -> <-.
      cbn. assert (x1 = x).
      { eapply nodup_pair; [exact Hn| |exact Hi]. eapply Permutation_in; [apply Permutation_sym, Hp|exact Hi']. }
      subst x1. eapply IH; [exact Hi|]. apply (Hk k x Hi).
Qed.

Lemma same_obj_inv l l' : NoDup (map fst l) -> same (VObj l) (VObj l') ->
  (forall k, In k (map fst l) <-> In k (map fst l')) /\
  (forall k x x', In (k, x) l -> In (k, x') l' -> same x x').
Proof.
  intros Hn H. inversion H; subst; [|auto]. split; [tauto|]. intros k x x' H1 H2.
  rewrite (nodup_pair _ _ _ _ Hn H1 H2). apply same_refl.
Qed.

Lemma same_bmp v : chars code_point v -> same v (conv v) -> chars bmp v.
Proof.
  induction v as [ |b|n| |s|l IH|l IH] using value_ind'; intros Hc Hs; try constructor.
  - inversion Hc; subst. cbn in Hs. apply utf16_id_inv; [assumption|].
    inversion Hs; congruence.
  - inversion Hc as [| | | | |? Hl|]; subst. cbn [conv] in Hs.
    assert (F : Forall2 same l (map conv l)).
    { assert (D : l = map conv l \/ Forall2 same l (map conv l)) by (inversion Hs; [left; congruence|right; assumption]).
      destruct D as [D|D]; [|exact D]. rewrite <- D. clear. induction l; constructor; [apply same_refl|assumption]. }
    clear Hs Hc. induction l as [|x l IHl]; intros y Hy; [destruct Hy|].
    cbn [map] in F. inversion F as [|? ? ? ? F1 F2]; subst. destruct Hy as [<-|Hy].
    + apply IH; [left; reflexivity|apply Hl; left; reflexivity|exact F1].
    + apply IHl; [intros z Hz; apply IH; right; exact Hz|intros z Hz; apply Hl; right; exact Hz|exact F2|exact Hy].
  - inversion Hc; subst; assumption.
  - inversion Hc as [| | | | | |? Hn Hk]; subst. cbn [conv] in Hs.
    pose proof (same_obj_inv _ _ Hn Hs) as [S1 S2].
    assert (Hkeys : forall k x, In (k, x) l -> Forall bmp k).
    { intros k x Hi. assert (Hk' : In k (map fst l)) by (change k with (fst (k, x)); apply in_map, Hi).
      apply S1 in Hk'. unfold build in Hk'. apply build_keys in Hk'. destruct Hk' as [[]|(k1 & v1 & Hi1 & ->)].
      apply utf16_bmp. rewrite sort_map in Hi1. apply in_map_iff in Hi1. destruct Hi1 as ([k2 v2] & E & Hi2).
      injection E as <- <-. apply (Hk k2 v2). eapply Permutation_in; [apply Permutation_sym, sort_perm|exact Hi2]. }
    intros k x Hi. split; [eapply Hkeys, Hi|]. eapply IH; [exact Hi|apply (Hk k x Hi)|].
    match type of Hs with same _ ?w => change w with (conv (VObj l)) in Hs end. rewrite conv_obj in Hs by assumption.
    destruct (same_obj_inv _ _ Hn Hs) as [_ S3]. apply (S3 k x); [exact Hi|].
    apply in_map_iff. exists (k, x). split; [reflexivity|]. eapply Permutation_in; [apply sort_perm|exact Hi].
Qed.

(** More fuel does not change a result. *)
Lemma eval_mono n :
  (forall ts y m, eval_value n ts = Ok y -> n <= m -> eval_value m ts = Ok y) /\
  (forall acc ts y m, eval_items n acc ts = Ok y -> n <= m -> eval_items m acc ts = Ok y) /\
  (forall acc ts y m, eval_pairs n acc ts = Ok y -> n <= m -> eval_pairs m acc ts = Ok y).
Proof.
  induction n as [|n (IH1 & IH2 & IH3)]; [repeat split; discriminate|].
  split; [|split].
  - intros ts y [|m] H Hm; [lia|]. apply le_S_n in Hm. cbn in *.
    destruct ts as [|[ | | | | | |x| |raw] r]; try discriminate; try exact H.
    + destruct r as [|[ | | | | | |x| |raw] r]; try exact H; eapply IH3; eassumption.
    + destruct r as [|[ | | | | | |x| |raw] r]; try exact H; eapply IH2; eassumption.
  - intros acc ts y [|m] H Hm; [lia|]. apply le_S_n in Hm. cbn in *.
    destruct (eval_value n ts) as [[v r]|e] eqn:E; [|discriminate].
    rewrite (IH1 _ _ _ E Hm). destruct r as [|[ | | | | | |x| |raw] r]; try exact H. eapply IH2; eassumption.
  - intros acc ts y [|m] H Hm; [lia|]. apply le_S_n in Hm. cbn in *.
    destruct ts as [|[ | | | | | |x| |raw] [|[ | | | | | |x2| |raw2] r]]; try discriminate.
    destruct (unescape raw) as [k|]; [|discriminate].
    destruct (eval_value n r) as [[v r']|e] eqn:E; [|discriminate].
    rewrite (IH1 _ _ _ E Hm). destruct r' as [|[ | | | | | |x| |raw'] r']; try exact H. eapply IH3; eassumption.
Qed.

Lemma eval_value_mono n ts v r m : eval_value n ts = Ok (v, r) -> n <= m -> eval_value m ts = Ok (v, r).
Proof. apply eval_mono. Qed.
