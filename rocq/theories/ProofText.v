(** Lemmas about writing and reading an instruction. *)
From Coq Require Import Ascii NArith Sorted Lia Permutation.
From Verif Require Import Base ModelText SpecText.
Local Open Scope list_scope.
Local Open Scope char_scope.

(** ** Induction over Python objects *)
Section Ind.
  Variable P : json -> Prop.
  Hypothesis Hnull : P JNull.
  Hypothesis Hbool : forall b, P (JBool b).
  Hypothesis Hnan : P JNan.
  Hypothesis Hinf : forall n, P (JInf n).
  Hypothesis Hnum : forall n d, P (JNum n d).
  Hypothesis Hstr : forall s, P (JStr s).
  Hypothesis Hlist : forall l, Forall P l -> P (JList l).
  Hypothesis Hdict : forall d, Forall (fun kv => P (snd kv)) d -> P (JDict d).
  Fixpoint json_ind' (v : json) : P v :=
    match v with
    | JNull => Hnull
    | JBool b => Hbool b
    | JNan => Hnan
    | JInf n => Hinf n
    | JNum n d => Hnum n d
    | JStr s => Hstr s
    | JList l => Hlist l ((fix go l : Forall P l :=
        match l with [] => Forall_nil _ | x :: l => Forall_cons x (json_ind' x) (go l) end) l)
    | JDict d => Hdict d ((fix go d : Forall (fun kv => P (snd kv)) d :=
        match d with [] => Forall_nil _ | x :: d => Forall_cons x (json_ind' (snd x)) (go d) end) d)
    end.
End Ind.

(** ** Sorting keys *)

Lemma str_le_true a b : str_le a b = true -> a = b \/ before a b.
Proof.
  revert b. induction a as [|x a IH]; intros [|y b]; cbn; try discriminate; intros H; auto using before.
  destruct (N.eqb x y) eqn:E.
  - apply N.eqb_eq in E. subst y. destruct (IH _ H) as [->|Hb]; auto using before.
  - apply N.ltb_lt in H. auto using before.
Qed.
Lemma str_le_false a b : str_le a b = false -> before b a.
Proof.
  revert b. induction a as [|x a IH]; intros [|y b]; cbn; try discriminate; intros H; auto using before.
  destruct (N.eqb x y) eqn:E.
  - apply N.eqb_eq in E. subst y. auto using before.
  - apply N.ltb_ge in H. apply N.eqb_neq in E. apply before_lt. lia.
Qed.
Lemma before_trans a b c : before a b -> before b c -> before a c.
Proof.
  intros H. revert c. induction H as [y b|x y a b H|x a b H IH]; intros c Hc.
  - inversion Hc; subst; constructor.
  - inversion Hc as [|? z ? ? H'|? ? ? H']; subst; apply before_lt; lia.
  - inversion Hc as [|? z ? ? H'|? ? ? H']; subst; [apply before_lt; lia|apply before_eq; auto].
Qed.

Lemma insert_perm {A} (kv : pystr * A) d : Permutation (kv :: d) (insert_key kv d).
Proof.
  induction d as [|kv' d IH]; cbn; [reflexivity|]. destruct (str_le _ _); [reflexivity|].
  rewrite perm_swap. apply perm_skip. exact IH.
Qed.
Lemma sort_perm {A} (d : list (pystr * A)) : Permutation d (sort_keys d).
Proof.
  induction d as [|kv d IH]; cbn; [reflexivity|]. rewrite <- insert_perm. apply perm_skip, IH.
Qed.

Lemma insert_sorted {A} (kv : pystr * A) d :
  ~ In (fst kv) (map fst d) -> StronglySorted before (map fst d) ->
  StronglySorted before (map fst (insert_key kv d)).
Proof.
  induction d as [|kv' d IH]; cbn [insert_key map]; intros Hn Hs.
  - constructor; [constructor|constructor].
  - inversion Hs as [|? ? Hs' Hf]; subst. destruct (str_le (fst kv) (fst kv')) eqn:E.
    + cbn [map]. constructor; [exact Hs|]. apply str_le_true in E. destruct E as [E|E].
      { exfalso. apply Hn. left. auto. }
      constructor; [exact E|]. eapply Forall_impl; [|exact Hf]. intros k Hk. exact (before_trans _ _ _ E Hk).
    + cbn [map]. apply str_le_false in E. constructor.
      * apply IH; [intros H; apply Hn; right; exact H|exact Hs'].
      * rewrite Forall_forall in *. intros k Hk.
        apply (Permutation_in k (Permutation_sym (Permutation_map fst (insert_perm kv d)))) in Hk.
        destruct Hk as [<-|Hk]; [exact E|]. apply Hf, Hk.
Qed.
Lemma sort_sorted {A} (d : list (pystr * A)) : NoDup (map fst d) -> StronglySorted before (map fst (sort_keys d)).
Proof.
  induction d as [|kv d IH]; cbn [sort_keys map]; intros H; [constructor|].
  inversion H as [|? ? Hn Hd]; subst. apply insert_sorted; [|auto].
  intros Hi. apply Hn. exact (Permutation_in _ (Permutation_sym (Permutation_map fst (sort_perm d))) Hi).
Qed.

Definition on_value {A B} (f : A -> B) (kv : pystr * A) : pystr * B := (fst kv, f (snd kv)).
Lemma insert_map {A B} (f : A -> B) kv d :
  insert_key (on_value f kv) (map (on_value f) d) = map (on_value f) (insert_key kv d).
Proof.
  induction d as [|kv' d IH]; cbn; [reflexivity|]. destruct (str_le (fst kv) (fst kv')); [reflexivity|].
  cbn. f_equal. exact IH.
Qed.
Lemma sort_map {A B} (f : A -> B) d : sort_keys (map (on_value f) d) = map (on_value f) (sort_keys d).
Proof.
  induction d as [|kv d IH]; cbn [sort_keys map]; [reflexivity|]. rewrite IH. apply insert_map.
Qed.
Lemma map_on_value {A B} (f : A -> B) (d : list (pystr * A)) :
  map (fun kv => (fst kv, f (snd kv))) d = map (on_value f) d.
Proof. reflexivity. Qed.

(** ** The tokens of a text *)

(** The code points Python reads for one. *)
Definition units (c : N) : pystr := if N.ltb c 65536 then [c] else [high c; low c].
Definition cut (s : pystr) : pystr := flat_map units s.

Definition word (n : string) : list token := [TName (txt n)].
Fixpoint toks (v : json) : list token :=
  match v with
  | JNull => word "null"
  | JBool b => word (if b then "true" else "false")
  | JNan => word "NaN"
  | JInf neg => (if neg then [TMinus] else []) ++ word "Infinity"
  | JNum neg d => (if neg then [TMinus] else []) ++ [TNum d]
  | JStr s => [TStr (cut s)]
  | JList l => TBegin :: join [TComma] (map toks l) ++ [TEnd]
  | JDict d =>
      TOpen :: join [TComma] (map (fun kt => TStr (cut (fst kt)) :: TColon :: snd kt)
                                  (sort_keys (map (fun kv => (fst kv, toks (snd kv))) d))) ++ [TClose]
  end.

Definition push (ts : list token) (r : option (list token)) : option (list token) :=
  match r with Some ts' => Some (ts ++ ts') | None => None end.
Lemma push_push a b r : push a (push b r) = push (a ++ b) r.
Proof. destruct r; cbn; [rewrite app_assoc|]; reflexivity. Qed.
Lemma push_nil r : push [] r = r.
Proof. destruct r; reflexivity. Qed.

(** What can follow a value: the end, a comma or a line break. *)
Definition ends (rest : text) : Prop :=
  match rest with [] => True | c :: _ => c = "," \/ c = newline end.
Definition lexes (s : text) (ts : list token) : Prop :=
  forall rest, ends rest -> lex Between (s ++ rest) = push ts (lex Between rest).

Lemma lex_cons st c s : lex st (c :: s) =
  match step st c with Some (ts, st') => push ts (lex st' s) | None => None end.
Proof. cbn [lex]. destruct (step st c) as [[ts st']|]; [|reflexivity]. destruct (lex st' s); reflexivity. Qed.

Lemma lex_start c s ts st : start c = Some (ts, st) -> lex Between (c :: s) = push ts (lex st s).
Proof. intros H. rewrite lex_cons. cbn [step]. rewrite H. reflexivity. Qed.

Lemma lex_spaces n s : lex Between (repeat " " n ++ s) = lex Between s.
Proof.
  induction n as [|n IH]; cbn [repeat app]; [reflexivity|].
  rewrite (lex_start _ _ [] Between) by reflexivity. rewrite push_nil. exact IH.
Qed.
Lemma lex_new_line n s : lex Between (new_line n ++ s) = lex Between s.
Proof.
  unfold new_line. cbn [app]. rewrite (lex_start _ _ [] Between) by reflexivity.
  rewrite push_nil. apply lex_spaces.
Qed.

(** Names. *)
Lemma lex_name_go : forall s acc rest, forallb is_letter s = true ->
  lex (InName acc) (s ++ rest) = lex (InName (rev s ++ acc)) rest.
Proof.
  induction s as [|c s IH]; intros acc rest H; [reflexivity|]. cbn [forallb] in H.
  apply andb_true_iff in H. destruct H as [H1 H2]. cbn [app]. rewrite lex_cons. cbn [step].
  rewrite H1. cbn [orb]. rewrite push_nil, IH by exact H2. cbn [rev]. rewrite <- app_assoc. reflexivity.
Qed.
Lemma lex_name_end acc rest : ends rest ->
  lex (InName acc) rest = push [TName (rev acc)] (lex Between rest).
Proof.
  destruct rest as [|c rest]; [reflexivity|]. intros H. rewrite !lex_cons. cbn [step].
  destruct H as [-> | ->]; cbn; destruct (lex Between rest); reflexivity.
Qed.
Lemma start_letter c : is_letter c = true -> start c = Some ([], InName [c]).
Proof. destruct c as [[] [] [] [] [] [] [] []]; cbn; intros H; try discriminate H; reflexivity. Qed.
Lemma lexes_word n : txt n <> [] -> forallb is_letter (txt n) = true -> lexes (txt n) (word n).
Proof.
  unfold lexes, word. intros Hn H rest He. destruct (txt n) as [|c s]; [congruence|]. cbn [forallb] in H.
  apply andb_true_iff in H. destruct H as [H1 H2]. cbn [app].
  rewrite (lex_start _ _ _ _ (start_letter _ H1)), push_nil, lex_name_go by exact H2.
  rewrite lex_name_end by exact He. rewrite rev_app_distr, rev_involutive. reflexivity.
Qed.

(** Numbers. *)
Lemma start_digit c : is_digit c = true -> start c = Some ([], InNum [c]).
Proof. destruct c as [[] [] [] [] [] [] [] []]; cbn; intros H; try discriminate H; reflexivity. Qed.
Lemma nrun_goes_on : forall s st prev, nrun st s = true -> (st = NExp -> is_exp prev = true) ->
  st <> NStart -> all_go_on prev s = true.
Proof.
  induction s as [|c s IH]; intros st prev H Hp Hs; [reflexivity|]. cbn [nrun] in H. cbn [all_go_on].
  destruct (nstep st c) as [st'|] eqn:E; [|discriminate].
  assert (Hc : goes_on prev c = true /\ (st' = NExp -> is_exp c = true) /\ st' <> NStart).
  { unfold goes_on. unfold nstep in E. destruct st; try congruence;
      repeat match type of E with
      | (if ?b then _ else _) = _ => destruct b eqn:?
      end; try discriminate E; injection E as <-;
      repeat match goal with H : ?b = true |- _ => rewrite ?H; revert H end; intros;
      try (rewrite Hp by reflexivity);
      rewrite ?orb_true_r; repeat split; try discriminate; try reflexivity; auto;
      try (repeat match goal with H : ?b = true |- context [?b] => rewrite H end;
           rewrite ?orb_true_r; reflexivity). }
  destruct Hc as (H1 & H2 & H3). rewrite H1. cbn [andb]. exact (IH _ _ H H2 H3).
Qed.
Lemma number_first d : number d = true -> exists c s, d = c :: s /\ is_digit c = true /\ all_go_on c s = true.
Proof.
  unfold number. destruct d as [|c s]; [discriminate|]. cbn [nrun]. intros H. exists c, s. split; [reflexivity|].
  destruct (nstep NStart c) as [st|] eqn:E; [|discriminate]. cbn [nstep] in E.
  destruct (Ascii.eqb c "0") eqn:E0.
  - injection E as <-. apply Ascii.eqb_eq in E0. subst c. split; [reflexivity|].
    apply (nrun_goes_on s NZero); [exact H|discriminate|discriminate].
  - destruct (is_digit c) eqn:Ed; [|discriminate]. injection E as <-. split; [reflexivity|].
    apply (nrun_goes_on s NInt); [exact H|discriminate|discriminate].
Qed.
Lemma lex_num_go : forall s prev acc rest, all_go_on prev s = true ->
  lex (InNum (prev :: acc)) (s ++ rest) = lex (InNum (rev s ++ prev :: acc)) rest.
Proof.
  induction s as [|c s IH]; intros prev acc rest H; [reflexivity|]. cbn [all_go_on] in H.
  apply andb_true_iff in H. destruct H as [H1 H2]. cbn [app]. rewrite lex_cons. cbn [step hd].
  rewrite H1, push_nil, IH by exact H2. cbn [rev]. rewrite <- app_assoc. reflexivity.
Qed.
Lemma lex_num_end acc rest : number (rev acc) = true -> ends rest ->
  lex (InNum acc) rest = push [TNum (rev acc)] (lex Between rest).
Proof.
  destruct rest as [|c rest]; intros Hn H.
  - cbn. rewrite Hn. reflexivity.
  - rewrite !lex_cons. cbn [step].
    assert (G : goes_on (hd " " acc) c = false).
    { unfold goes_on. destruct H as [-> | ->]; cbn; rewrite andb_false_r; reflexivity. }
    rewrite G, Hn. destruct H as [-> | ->]; cbn; destruct (lex Between rest); reflexivity.
Qed.
Lemma lexes_num d : number d = true -> lexes d [TNum d].
Proof.
  intros Hd rest He. destruct (number_first d Hd) as (c & s & -> & H1 & H2). cbn [app].
  rewrite (lex_start _ _ _ _ (start_digit _ H1)), push_nil, lex_num_go by exact H2.
  rewrite lex_num_end by (try exact He; rewrite rev_app_distr, rev_involutive; exact Hd).
  rewrite rev_app_distr, rev_involutive. reflexivity.
Qed.
Lemma lexes_neg (neg : bool) s ts : lexes s ts ->
  lexes ((if neg then ["-"] else []) ++ s) ((if neg then [TMinus] else []) ++ ts).
Proof.
  intros H rest He. destruct neg; cbn [app]; [|apply H, He].
  rewrite (lex_start _ _ [TMinus] Between) by reflexivity. rewrite H by exact He. apply push_push.
Qed.

(** Strings. *)
Lemma hexval_hexchar n : (n < 16)%N -> hexval (hexchar n) = Some n.
Proof.
  intros H.
  assert (D : (n = 0 \/ n = 1 \/ n = 2 \/ n = 3 \/ n = 4 \/ n = 5 \/ n = 6 \/ n = 7 \/ n = 8 \/ n = 9 \/ n = 10
    \/ n = 11 \/ n = 12 \/ n = 13 \/ n = 14 \/ n = 15)%N) by lia.
  repeat destruct D as [->|D]; try reflexivity. subst n. reflexivity.
Qed.
Lemma lex_hex4 n acc rest : (n < 65536)%N ->
  lex (InHex acc 3 0) (hex4 n ++ rest) = lex (InStr (n :: acc)) rest.
Proof.
  intros H. unfold hex4. cbn [app]. rewrite lex_cons. cbn [step].
  assert (M : forall m, (m mod 16 < 16)%N) by (intros m; apply N.mod_lt; discriminate).
  rewrite hexval_hexchar by (apply N.div_lt_upper_bound; [discriminate|exact H]).
  rewrite push_nil, lex_cons. cbn [step].
  rewrite hexval_hexchar by apply M. rewrite push_nil, lex_cons. cbn [step].
  rewrite hexval_hexchar by apply M. rewrite push_nil, lex_cons. cbn [step].
  rewrite hexval_hexchar by apply M. rewrite push_nil. do 3 f_equal.
  assert (D : forall m, (m = 16 * (m / 16) + m mod 16)%N) by (intros m; apply N.div_mod; discriminate).
  replace (n / 4096)%N with (n / 256 / 16)%N by (rewrite N.div_div by discriminate; reflexivity).
  pose proof (D n) as D1. pose proof (D (n / 16)%N) as D2. pose proof (D (n / 256)%N) as D3.
  replace (n / 16 / 16)%N with (n / 256)%N in D2 by (rewrite N.div_div by discriminate; reflexivity). lia.
Qed.
Lemma lex_u n acc rest : (n < 65536)%N ->
  lex (InStr acc) (backslash :: "u" :: hex4 n ++ rest) = lex (InStr (n :: acc)) rest.
Proof.
  intros H. rewrite lex_cons. cbn [step]. change (Ascii.eqb backslash quote) with false.
  rewrite Ascii.eqb_refl, push_nil, lex_cons. cbn [step]. rewrite Ascii.eqb_refl, push_nil. apply lex_hex4, H.
Qed.
Lemma lex_short c n acc rest : unescape c = Some n -> c <> "u" ->
  lex (InStr acc) (backslash :: c :: rest) = lex (InStr (n :: acc)) rest.
Proof.
  intros H Hu. rewrite lex_cons. cbn [step]. change (Ascii.eqb backslash quote) with false.
  rewrite Ascii.eqb_refl, push_nil, lex_cons. cbn [step].
  apply Ascii.eqb_neq in Hu. rewrite Hu, H. apply push_nil.
Qed.
Lemma lex_raw n acc rest : (32 <= n <= 126)%N -> n <> 34%N -> n <> 92%N ->
  lex (InStr acc) (ascii_of_N n :: rest) = lex (InStr (n :: acc)) rest.
Proof.
  intros H H1 H2. rewrite lex_cons. cbn [step].
  assert (E : N_of_ascii (ascii_of_N n) = n) by (apply N_ascii_embedding; lia).
  assert (F : forall m, (m < 256)%N -> m <> n -> Ascii.eqb (ascii_of_N n) (ascii_of_N m) = false).
  { intros m Hm Hne. apply Ascii.eqb_neq. intros Q. apply (f_equal N_of_ascii) in Q.
    rewrite E, N_ascii_embedding in Q by exact Hm. congruence. }
  unfold quote, backslash, newline.
  change """" with (ascii_of_N 34). change "\" with (ascii_of_N 92).
  rewrite (F 34%N), (F 92%N), (F 10%N), E by lia. apply push_nil.
Qed.

Lemma lex_escape c acc rest : (c < 1114112)%N ->
  lex (InStr acc) (escape c ++ rest) = lex (InStr (rev (units c) ++ acc)) rest.
Proof.
  intros H. unfold escape, units.
  destruct (N.eqb_spec c 34) as [->|H1]; [apply lex_short; [reflexivity|discriminate]|].
  destruct (N.eqb_spec c 92) as [->|H2]; [apply lex_short; [reflexivity|discriminate]|].
  destruct (N.eqb_spec c 10) as [->|H3]; [apply lex_short; [reflexivity|discriminate]|].
  destruct (N.eqb_spec c 13) as [->|H4]; [apply lex_short; [reflexivity|discriminate]|].
  destruct (N.eqb_spec c 9) as [->|H5]; [apply lex_short; [reflexivity|discriminate]|].
  destruct (N.eqb_spec c 12) as [->|H6]; [apply lex_short; [reflexivity|discriminate]|].
  destruct (N.eqb_spec c 8) as [->|H7]; [apply lex_short; [reflexivity|discriminate]|].
  destruct (N.leb_spec 32 c), (N.leb_spec c 126); cbn [andb];
    destruct (N.ltb_spec c 65536) as [L|L]; try (exfalso; lia);
    try (apply lex_raw; lia); try (apply lex_u; exact L).
  cbn [app]. rewrite <- app_assoc. cbn [app]. rewrite lex_u.
  2:{ unfold high. assert ((c - 65536) / 1024 < 1024)%N by (apply N.div_lt_upper_bound; [discriminate|lia]). lia. }
  rewrite lex_u.
  2:{ unfold low. assert ((c - 65536) mod 1024 < 1024)%N by (apply N.mod_lt; discriminate). lia. }
  reflexivity.
Qed.
Lemma lex_string : forall s acc rest, Forall (fun c => (c < 1114112)%N) s ->
  lex (InStr acc) (flat_map escape s ++ quote :: rest) = push [TStr (rev acc ++ cut s)] (lex Between rest).
Proof.
  induction s as [|c s IH]; intros acc rest H; cbn [flat_map app].
  - rewrite lex_cons. cbn [step]. rewrite Ascii.eqb_refl. unfold cut. cbn [flat_map]. rewrite app_nil_r. reflexivity.
  - inversion H as [|? ? H1 H2]; subst. rewrite <- app_assoc, lex_escape by exact H1. rewrite IH by exact H2.
    rewrite rev_app_distr, rev_involutive, <- app_assoc. reflexivity.
Qed.
Lemma lex_str s rest : Forall (fun c => (c < 1114112)%N) s ->
  lex Between (write_str s ++ rest) = push [TStr (cut s)] (lex Between rest).
Proof.
  intros H. unfold write_str. cbn [app]. rewrite (lex_start _ _ [] (InStr [])) by reflexivity.
  rewrite push_nil, <- app_assoc. cbn [app]. apply (lex_string s [] rest H).
Qed.

(** Lists and dictionaries. *)
Lemma lex_join n : forall xs tss rest, Forall2 lexes xs tss -> xs <> [] -> ends rest ->
  lex Between (join ("," :: new_line n) xs ++ rest) = push (join [TComma] tss) (lex Between rest).
Proof.
  induction xs as [|x xs IH]; intros tss rest H Hn He; [congruence|].
  inversion H as [|? ts ? tss' Hx Hxs]; subst. destruct xs as [|x' xs].
  - inversion Hxs; subst. cbn [join]. apply Hx, He.
  - inversion Hxs as [|? ts' ? tss2 ? ?]; subst.
    change (join ("," :: new_line n) (x :: x' :: xs)) with (x ++ ("," :: new_line n) ++ join ("," :: new_line n) (x' :: xs)).
    change (join [TComma] (ts :: ts' :: tss2)) with (ts ++ [TComma] ++ join [TComma] (ts' :: tss2)).
    rewrite <- !app_assoc. cbn [app]. rewrite Hx by (left; reflexivity).
    rewrite (lex_start _ _ [TComma] Between) by reflexivity. rewrite lex_new_line.
    rewrite (IH _ _ Hxs) by (try discriminate; exact He). rewrite !push_push. f_equal. rewrite <- ?app_assoc. reflexivity.
Qed.

(** What has to hold of an object for its text to be read. *)
Fixpoint good (v : json) : Prop :=
  match v with
  | JNum _ d => number d = true
  | JStr s => Forall (fun c => (c < 1114112)%N) s
  | JList l => fold_right (fun x p => good x /\ p) True l
  | JDict d => fold_right (fun kv p => Forall (fun c => (c < 1114112)%N) (fst kv) /\ good (snd kv) /\ p) True d
  | _ => True
  end.
Lemma good_list l : good (JList l) <-> Forall good l.
Proof.
  cbn [good]. induction l as [|x l IH]; cbn; [split; constructor|]. rewrite IH. split.
  - intros [? ?]. constructor; assumption.
  - intros H. inversion H; auto.
Qed.
Lemma good_dict d : good (JDict d) <->
  Forall (fun kv => Forall (fun c => (c < 1114112)%N) (fst kv) /\ good (snd kv)) d.
Proof.
  cbn [good]. induction d as [|x l IH]; cbn; [split; constructor|]. rewrite IH. split.
  - intros (? & ? & ?). constructor; auto.
  - intros H. inversion H; tauto.
Qed.

Lemma lexes_dumps : forall v lvl, good v -> lexes (dumps lvl v) (toks v).
Proof.
  induction v as [|b| |neg|neg d|s|l IH|d IH] using json_ind'; intros lvl G.
  - apply lexes_word; [discriminate|reflexivity].
  - destruct b; apply lexes_word; first [discriminate|reflexivity].
  - apply lexes_word; [discriminate|reflexivity].
  - cbn [dumps toks]. apply lexes_neg, lexes_word; [discriminate|reflexivity].
  - cbn [dumps toks]. apply lexes_neg, lexes_num, G.
  - intros rest He. cbn [dumps toks]. apply lex_str, G.
  - rewrite good_list in G. intros rest He.
    assert (E : dumps lvl (JList l) ++ rest = match l with
      | [] => "[" :: "]" :: rest
      | _ => "[" :: new_line (S lvl) ++ join ("," :: new_line (S lvl)) (map (dumps (S lvl)) l)
             ++ new_line lvl ++ "]" :: rest end).
    { destruct l; [reflexivity|]. cbn [dumps]. cbn [app]. f_equal. rewrite <- !app_assoc. reflexivity. }
    rewrite E. clear E. destruct l as [|x l].
    + cbn [toks map join app]. rewrite (lex_start _ _ [TBegin] Between) by reflexivity.
      rewrite (lex_start _ _ [TEnd] Between) by reflexivity. apply push_push.
    + set (xs := x :: l) in *. cbn [toks]. rewrite (lex_start _ _ [TBegin] Between) by reflexivity.
      rewrite lex_new_line, (lex_join _ _ (map toks xs)).
      * rewrite lex_new_line. rewrite (lex_start _ _ [TEnd] Between) by reflexivity.
        rewrite !push_push. cbn [app]. rewrite <- ?app_assoc. reflexivity.
      * clearbody xs. clear - G IH. induction xs as [|y ys IHx]; cbn [map]; [constructor|].
        inversion G; inversion IH; subst. constructor; auto.
      * discriminate.
      * right. reflexivity.
  - rewrite good_dict in G. intros rest He.
    set (entry := fun kt : pystr * text => write_str (fst kt) ++ ":" :: " " :: snd kt).
    set (tentry := fun kt : pystr * list token => TStr (cut (fst kt)) :: TColon :: snd kt).
    assert (E : dumps lvl (JDict d) ++ rest = match d with
      | [] => "{" :: "}" :: rest
      | _ => "{" :: new_line (S lvl) ++ join ("," :: new_line (S lvl))
               (map entry (sort_keys (map (fun kv => (fst kv, dumps (S lvl) (snd kv))) d)))
             ++ new_line lvl ++ "}" :: rest end).
    { destruct d; [reflexivity|]. cbn [dumps]. cbn [app]. f_equal. rewrite <- !app_assoc. reflexivity. }
    rewrite E. clear E. cbn [toks]. fold tentry. rewrite !map_on_value, !sort_map.
    destruct d as [|x l].
    + cbn [sort_keys map join app]. rewrite (lex_start _ _ [TOpen] Between) by reflexivity.
      rewrite (lex_start _ _ [TClose] Between) by reflexivity. apply push_push.
    + set (xs := x :: l) in *. rewrite (lex_start _ _ [TOpen] Between) by reflexivity.
      assert (P : Permutation xs (sort_keys xs)) by apply sort_perm.
      rewrite lex_new_line, (lex_join _ _ (map tentry (map (on_value toks) (sort_keys xs)))).
      * rewrite lex_new_line. rewrite (lex_start _ _ [TClose] Between) by reflexivity.
        rewrite !push_push. cbn [app]. rewrite <- ?app_assoc. reflexivity.
      * rewrite P in G. rewrite P in IH. revert G IH. generalize (sort_keys xs). clear.
        intros ys G IH. induction ys as [|y ys IHx]; cbn [map]; [constructor|].
        inversion G as [|? ? [G1 G2] G3]; inversion IH as [|? ? I1 I2]; subst. constructor; [|auto].
        intros rest He. unfold entry, tentry, on_value. cbn [fst snd]. rewrite <- app_assoc. cbn [app].
        rewrite lex_str by exact G1. rewrite (lex_start _ _ [TColon] Between) by reflexivity.
        rewrite (lex_start _ _ [] Between) by reflexivity. rewrite I1 by (try exact He; exact G2).
        rewrite push_nil, !push_push. reflexivity.
      * intros Hx. apply map_eq_nil, map_eq_nil in Hx. rewrite Hx in P. apply Permutation_sym, Permutation_nil in P.
        discriminate.
      * right. reflexivity.
Qed.
