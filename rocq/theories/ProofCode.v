(** Lemmas about the text of the generated code: reading it gives back the workflow, executing it
    does what the model of compile does, calling the function what the model of simulate does. *)
From Verif Require Import Base BaseFacts ModelShare ModelConfig ModelComponent ModelCompile ModelCode
  SpecComponent SpecCode.
Local Open Scope string_scope.

(* ------------------------------------------------------------------ *)
(** * Characters *)

Lemma cont_spec c : is_cont c = existsb (Ascii.eqb c) name_chars.
Proof. destruct c as [[] [] [] [] [] [] [] []]; vm_compute; reflexivity. Qed.

Lemma start_spec c : is_start c = existsb (Ascii.eqb c) name_starts.
Proof. destruct c as [[] [] [] [] [] [] [] []]; vm_compute; reflexivity. Qed.

Lemma existsb_ascii c l : existsb (Ascii.eqb c) l = true <-> In c l.
Proof.
  rewrite existsb_exists. split.
  - intros (x & H & E). apply Ascii.eqb_eq in E. now subst.
  - intros H. exists c. split; [exact H|apply Ascii.eqb_refl].
Qed.

Lemma cont_In c : is_cont c = true <-> In c name_chars.
Proof. rewrite cont_spec. apply existsb_ascii. Qed.

Lemma start_In c : is_start c = true <-> In c name_starts.
Proof. rewrite start_spec. apply existsb_ascii. Qed.

(** What a character of a name is not. *)
Lemma cont_not c : is_cont c = true ->
  Ascii.eqb c lf = false /\ Ascii.eqb c cr = false /\ Ascii.eqb c " " = false.
Proof. destruct c as [[] [] [] [] [] [] [] []]; vm_compute; intros H; repeat split; discriminate H. Qed.

Lemma start_cont c : is_start c = true -> is_cont c = true.
Proof. unfold is_cont. now intros ->. Qed.

Lemma app_nil_s s : s ++ "" = s.
Proof. induction s; simpl; congruence. Qed.

Lemma app_assoc_s a b c : (a ++ b) ++ c = a ++ b ++ c.
Proof. induction a; simpl; congruence. Qed.

(* ------------------------------------------------------------------ *)
(** * Lines *)

Definition glue (x : string) (ls : list string) : list string :=
  match ls with l :: ls' => (x ++ l) :: ls' | [] => [x] end.

Definition oneline (s : string) : Prop :=
  forall c, In c (chars s) -> Ascii.eqb c lf = false /\ Ascii.eqb c cr = false.

Lemma lines_ne s : lines s <> [].
Proof.
  destruct s as [|c s]; simpl; [discriminate|].
  destruct (_ || _)%bool; [discriminate|]. destruct (lines s); discriminate.
Qed.

Lemma lines_app x s : oneline x -> lines (x ++ s) = glue x (lines s).
Proof.
  induction x as [|c x IH]; intros H.
  - simpl. pose proof (lines_ne s). destruct (lines s); [congruence|reflexivity].
  - simpl. destruct (H c (or_introl eq_refl)) as [-> ->]. simpl.
    rewrite IH by (intros d Hd; apply H; now right).
    pose proof (lines_ne s). destruct (lines s); [congruence|reflexivity].
Qed.

Lemma lines_nl s : lines (nl ++ s) = "" :: lines s.
Proof. reflexivity. Qed.

Lemma oneline_app a b : oneline a -> oneline b -> oneline (a ++ b).
Proof.
  intros Ha Hb c Hc. unfold chars in Hc. 
  revert Ha Hc. induction a as [|d a IH]; simpl; intros Ha Hc; [now apply Hb|].
  destruct Hc as [<-|Hc]; [apply Ha; now left|]. apply IH; [|exact Hc].
  intros e He. apply Ha. now right.
Qed.

Lemma oneline_conts x : (forall c, In c (chars x) -> In c name_chars) -> oneline x.
Proof.
  intros H c Hc. apply H in Hc. apply cont_In in Hc. apply cont_not in Hc. tauto.
Qed.

Lemma oneline_ident x : identifier x -> oneline x.
Proof. intros (_ & H & _). now apply oneline_conts. Qed.

Lemma oneline_quotable s : quotable s -> oneline s.
Proof.
  intros H c Hc. specialize (H c Hc).
  split; apply Ascii.eqb_neq; intros ->; apply H; simpl; tauto.
Qed.

Lemma oneline_concat l : (forall x, In x l -> identifier x) -> oneline (String.concat ", " l).
Proof.
  induction l as [|x l IH]; intros H; [intros c []|].
  destruct l as [|y l].
  - apply oneline_ident, H. now left.
  - change (oneline (x ++ ", " ++ String.concat ", " (y :: l))).
    apply oneline_app; [apply oneline_ident, H; now left|].
    apply oneline_app; [|apply IH; intros z Hz; apply H; now right].
    intros c [<-|[<-|[]]]; split; reflexivity.
Qed.

(* ------------------------------------------------------------------ *)
(** * Tokens *)

Lemma lex_conts x : forall a s, (forall c, In c (chars x) -> In c name_chars) ->
  lex (LName a) (x ++ s) = lex (LName (a ++ x)) s.
Proof.
  induction x as [|c x IH]; intros a s H; [now rewrite app_nil_s|].
  simpl. assert (Hc : is_cont c = true) by (apply cont_In, H; now left).
  rewrite Hc. rewrite IH by (intros d Hd; apply H; now right).
  now rewrite app_assoc_s.
Qed.

(** A character that ends a name without being a quote. *)
Definition ends (c : ascii) : Prop := is_cont c = false /\ is_quote c = false.

Lemma lex_end a c s : ends c ->
  lex (LName a) (String c s) = cons_tok (TName a) (lex LStart (String c s)).
Proof. intros [H1 H2]. cbn [lex]. now rewrite H1, H2. Qed.

Definition wordy (x : string) : Prop :=
  (exists c r, x = String c r /\ In c name_starts) /\
  (forall c, In c (chars x) -> In c name_chars).

Lemma ident_wordy x : identifier x -> wordy x.
Proof. intros (H1 & H2 & _). now split. Qed.

Lemma lex_word x c s : wordy x -> ends c ->
  lex LStart (x ++ String c s) = cons_tok (TName x) (lex LStart (String c s)).
Proof.
  intros ((a & r & -> & Ha) & Hx) Hc. rewrite <- lex_end by exact Hc.
  change (String a r ++ String c s) with (String a (r ++ String c s)).
  cbn [lex]. apply start_In in Ha. rewrite Ha.
  rewrite (lex_conts r (one a)) by (intros d Hd; apply Hx; now right). reflexivity.
Qed.

Lemma lex_word_end x : wordy x -> lex LStart (x ++ "") = Some [TName x].
Proof.
  intros ((a & r & -> & Ha) & Hx).
  change (String a r ++ "") with (String a (r ++ "")).
  cbn [lex]. apply start_In in Ha. rewrite Ha.
  rewrite (lex_conts r (one a)) by (intros d Hd; apply Hx; now right). reflexivity.
Qed.

Lemma lex_str x : forall a s, quotable x -> 
  lex (LStr a) (x ++ "'" ++ s) = cons_tok (TStr (a ++ x)) (lex LStart s).
Proof.
  induction x as [|c x IH]; intros a s H; [now rewrite app_nil_s|].
  assert (Hc : is_quote c = false /\ is_backslash c = false /\ Ascii.eqb c nul = false).
  { specialize (H c (or_introl eq_refl)).
    repeat split; apply Ascii.eqb_neq; intros ->; apply H; simpl; tauto. }
  destruct Hc as (H1 & H2 & H3).
  change (String c x ++ "'" ++ s) with (String c (x ++ "'" ++ s)).
  cbn [lex]. rewrite H1, H2, H3. rewrite IH by (intros d Hd; apply H; now right).
  now rewrite app_assoc_s.
Qed.

Definition cat_tok (l : list token) (o : option (list token)) : option (list token) :=
  match o with Some r => Some (l ++ r)%list | None => None end.

Lemma cons_cat t o : cons_tok t o = cat_tok [t] o.
Proof. now destruct o. Qed.

Lemma cat_cat a b o : cat_tok a (cat_tok b o) = cat_tok (a ++ b) o.
Proof. destruct o; simpl; [now rewrite app_assoc|reflexivity]. Qed.

Fixpoint commas (l : list string) : list token :=
  match l with
  | [] => []
  | x :: l' => match l' with [] => [TName x] | _ :: _ => TName x :: TOp "," :: commas l' end
  end.

Lemma lex_concat l : forall c s, (forall x, In x l -> identifier x) -> ends c ->
  lex LStart (String.concat ", " l ++ String c s) = cat_tok (commas l) (lex LStart (String c s)).
Proof.
  induction l as [|x l IH]; intros c s H Hc.
  - unfold cat_tok. simpl String.concat. change ("" ++ String c s) with (String c s). simpl app.
    now destruct (lex LStart (String c s)).
  - assert (Hx : wordy x) by (apply ident_wordy, H; now left).
    destruct l as [|y l].
    + simpl String.concat. rewrite lex_word by assumption. now rewrite cons_cat.
    + change (String.concat ", " (x :: y :: l)) with (x ++ ", " ++ String.concat ", " (y :: l)).
      rewrite !app_assoc_s. change (", " ++ ?r) with (String "," (String " " r)).
      rewrite lex_word by (try assumption; split; reflexivity).
      change (lex LStart (String "," (String " " ?r))) with (cons_tok (TOp ",") (lex LStart r)).
      rewrite IH by (try assumption; intros z Hz; apply H; now right).
      rewrite !cons_cat, !cat_cat. reflexivity.
Qed.

(* ------------------------------------------------------------------ *)
(** * Parsing lists of names *)

(** A list of names ends before a token that is neither a name nor a comma. *)
Definition stops (ts : list token) : Prop :=
  match ts with
  | TOp c :: _ => Ascii.eqb c "," = false
  | TName _ :: _ => False
  | _ => True
  end.

Lemma names_commas l : forall r, stops r -> names (commas l ++ r)%list = (l, r).
Proof.
  induction l as [|x l IH]; intros r Hr.
  - destruct r as [|[] r]; simpl; try reflexivity. destruct Hr.
  - destruct l as [|y l].
    + simpl. destruct r as [|[] r]; simpl in Hr |- *; try reflexivity.
      now rewrite Hr.
    + change (commas (x :: y :: l)) with (TName x :: TOp "," :: commas (y :: l)).
      simpl. simpl in IH. rewrite IH by exact Hr. reflexivity.
Qed.

Lemma ident_ok x : identifier x -> not_keyword x = true.
Proof.
  intros (_ & _ & H). unfold not_keyword. apply Bool.negb_true_iff. 
  destruct (mem x keywords) eqn:E; [|reflexivity]. now apply mem_In in E.
Qed.

Lemma idents_ok l : (forall x, In x l -> identifier x) -> forallb not_keyword l = true.
Proof. intros H. apply forallb_forall. intros x Hx. now apply ident_ok, H. Qed.

(** No reserved word has an underscore. *)
Definition has_us (s : string) : bool := existsb (Ascii.eqb "_") (chars s).

Lemma us_not_keyword x : has_us x = true -> ~ In x keywords.
Proof.
  intros H Hin.
  assert (E : forallb (fun s => negb (has_us s)) keywords = true) by reflexivity.
  rewrite forallb_forall in E. specialize (E x Hin). now rewrite H in E.
Qed.

Lemma chars_app a b : chars (a ++ b) = (chars a ++ chars b)%list.
Proof. induction a; simpl; unfold chars in *; simpl; congruence. Qed.

Lemma instance_ident name p :
  identifier p -> (forall c, In c (chars name) -> In c name_chars) ->
  identifier (p ++ "_" ++ name).
Proof.
  intros ((c & r & -> & Hc) & Hp & _) Hn. repeat split.
  - exists c, (r ++ "_" ++ name). now split.
  - intros d Hd. rewrite !chars_app in Hd. apply in_app_or in Hd as [Hd|Hd]; [now apply Hp|].
    apply in_app_or in Hd as [[<-|[]]|Hd]; [|now apply Hn].
    apply cont_In. reflexivity.
  - apply us_not_keyword. unfold has_us. rewrite !chars_app, !existsb_app.
    simpl. now rewrite Bool.orb_true_r.
Qed.

Lemma instance_us name p : has_us (p ++ "_" ++ name) = true.
Proof. unfold has_us. rewrite !chars_app, !existsb_app. simpl. now rewrite Bool.orb_true_r. Qed.

(* ------------------------------------------------------------------ *)
(** * Logical lines *)

Definition reads_as (l : string) (n : nat) (ts : list token) : Prop :=
  ts <> [] /\ exists r, indent l = (n, r) /\ lex LStart r = Some ts.

Lemma logical_cons l n ts ls rest :
  reads_as l n ts -> logical ls = Some rest -> logical (l :: ls) = Some ((n, ts) :: rest).
Proof.
  intros (Hne & r & Hi & Hl) Hls. simpl. rewrite Hi, Hl, Hls.
  destruct ts; [congruence|reflexivity].
Qed.

Lemma logical_blank ls rest : logical ls = Some rest -> logical ("" :: ls) = Some rest.
Proof. simpl. now intros ->. Qed.

Lemma indent_word x s : wordy x -> indent (x ++ s) = (0, x ++ s).
Proof.
  intros ((c & r & -> & Hc) & Hx). simpl.
  assert (E : Ascii.eqb c " " = false) by (apply start_In, start_cont, cont_not in Hc; tauto).
  now rewrite E.
Qed.

(** The tokens of the lines. *)
Definition import_toks (p : string) : list token :=
  [TName "from"; TName "appletree"; TOp "."; TName "plugins"; TName "import"; TName p].

Definition inst_toks (name llh p : string) : list token :=
  [TName (p ++ "_" ++ name); TOp "="; TName p; TOp "("; TStr llh; TOp ")"].

Definition call_toks (name : string) (w : work) : list token :=
  ([TName "key"; TOp ","] ++ commas (w_provides w) ++ [TOp "="; TName (w_plugin w ++ "_" ++ name);
    TOp "("; TName "key"; TOp ","; TName "parameters"; TOp ","] ++ commas (w_depends w)
    ++ [TOp ")"])%list.

Definition return_toks (dn : list string) : list token :=
  ([TName "return"; TName "key"; TOp ","; TOp "["] ++ commas dn ++ [TOp "]"])%list.

Definition header_toks (func nodep : string) : list token :=
  [TName "def"; TName func; TOp "("; TName "key"; TOp ","; TName nodep; TOp ",";
   TName "parameters"; TOp ")"; TOp ":"].

Lemma ends_of c : is_cont c = false -> is_quote c = false -> ends c.
Proof. now split. Qed.

(** Reading a piece of text: the tokens completed in it and the state after it. *)
Fixpoint lrun (st : lstate) (s : string) : option (list token * lstate) :=
  match s with
  | EmptyString => Some ([], st)
  | String c s' =>
      let add l o := match o with Some (r, st') => Some ((l ++ r)%list, st') | None => None end in
      let fresh :=
        if is_start c then lrun (LName (one c)) s'
        else if is_digit c then lrun (LNum (one c)) s'
        else if is_quote c then lrun (LStr "") s'
        else if Ascii.eqb c " " then lrun LStart s'
        else if Ascii.eqb c "#" then None
        else if is_op c then add [TOp c] (lrun LStart s')
        else None in
      match st with
      | LStart => fresh
      | LName a =>
          if is_cont c then lrun (LName (a ++ one c)) s'
          else if is_quote c then None
          else add [TName a] fresh
      | _ => None
      end
  end.

Lemma lex_run s : forall st t l st', lrun st s = Some (l, st') ->
  lex st (s ++ t) = cat_tok l (lex st' t).
Proof.
  induction s as [|c s IH]; intros st t l st' H.
  - injection H as <- <-. change ("" ++ t) with t. unfold cat_tok. simpl app. now destruct (lex st t).
  - change (String c s ++ t) with (String c (s ++ t)).
    assert (F : forall l st',
      (if is_start c then lrun (LName (one c)) s
        else if is_digit c then lrun (LNum (one c)) s
        else if is_quote c then lrun (LStr "") s
        else if Ascii.eqb c " " then lrun LStart s
        else if Ascii.eqb c "#" then None
        else if is_op c then match lrun LStart s with Some (r, st') => Some (([TOp c] ++ r)%list, st') | None => None end
        else None) = Some (l, st') ->
      lex LStart (String c (s ++ t)) = cat_tok l (lex st' t)).
    { clear H. intros l0 st0 H. cbn [lex].
      destruct (is_start c); [now apply IH|]. destruct (is_digit c); [now apply IH|].
      destruct (is_quote c); [now apply IH|]. destruct (Ascii.eqb c " "); [now apply IH|].
      destruct (Ascii.eqb c "#"); [discriminate|]. destruct (is_op c); [|discriminate].
      destruct (lrun LStart s) as [[r st1]|] eqn:E; [|discriminate]. injection H as <- <-.
      rewrite (IH _ _ _ _ E), cons_cat, cat_cat. reflexivity. }
    destruct st; cbn [lrun] in H; try discriminate; [now apply F|].
    destruct (is_cont c) eqn:Ec.
    + cbn [lex]. rewrite Ec. now apply IH.
    + destruct (is_quote c) eqn:Eq; [discriminate|].
      rewrite lex_end by now split.
      match type of H with match ?o with _ => _ end = _ => destruct o as [[r st1]|] eqn:E end;
        [|discriminate].
      injection H as <- <-. rewrite (F _ _ eq_refl), cons_cat, cat_cat. reflexivity.
Qed.

Definition ends_s (s : string) : Prop :=
  match s with String c _ => ends c | EmptyString => False end.

Lemma lex_word_s x s : wordy x -> ends_s s ->
  lex LStart (x ++ s) = cat_tok [TName x] (lex LStart s).
Proof. intros Hx Hs. destruct s as [|c s]; [destruct Hs|]. now rewrite lex_word, cons_cat. Qed.

Lemma lex_concat_s l s : (forall x, In x l -> identifier x) -> ends_s s ->
  lex LStart (String.concat ", " l ++ s) = cat_tok (commas l) (lex LStart s).
Proof. intros Hx Hs. destruct s as [|c s]; [destruct Hs|]. now apply lex_concat. Qed.

Ltac lexlit s toks := rewrite (lex_run s LStart _ toks LStart) by (vm_compute; reflexivity).
Ltac delim := split; vm_compute; reflexivity.

Lemma import_reads p : identifier p ->
  reads_as ("from appletree.plugins import " ++ p ++ "") 0 (import_toks p).
Proof.
  intros H. split; [discriminate|].
  exists ("from appletree.plugins import " ++ p ++ ""). split; [reflexivity|].
  lexlit "from appletree.plugins import "
    [TName "from"; TName "appletree"; TOp "."; TName "plugins"; TName "import"].
  rewrite lex_word_end by now apply ident_wordy. reflexivity.
Qed.

Lemma inst_reads name llh p : identifier p -> (forall c, In c (chars name) -> In c name_chars) ->
  quotable llh ->
  reads_as ((p ++ "_" ++ name) ++ " = " ++ p ++ "('" ++ llh ++ "')" ++ "") 0
    (inst_toks name llh p).
Proof.
  intros Hp Hn Hl. split; [discriminate|].
  pose proof (ident_wordy _ (instance_ident name p Hp Hn)) as Hi.
  eexists. split; [now apply indent_word|].
  rewrite lex_word_s; [|assumption|delim].
  lexlit " = " [TOp "="].
  rewrite lex_word_s; [|now apply ident_wordy|delim].
  rewrite (lex_run "('" LStart _ [TOp "("] (LStr "")) by (vm_compute; reflexivity).
  change ("')" ++ "") with ("'" ++ ")").
  rewrite lex_str by assumption.
  change ("" ++ llh) with llh. rewrite cons_cat, !cat_cat. vm_compute lex. reflexivity.
Qed.

Lemma call_reads name w :
  identifier (w_plugin w) -> (forall c, In c (chars name) -> In c name_chars) ->
  (forall x, In x (w_provides w) -> identifier x) ->
  (forall x, In x (w_depends w) -> identifier x) ->
  reads_as ("    " ++ "key, " ++ String.concat ", " (w_provides w) ++ " = "
      ++ (w_plugin w ++ "_" ++ name) ++ "(key, parameters, "
      ++ String.concat ", " (w_depends w) ++ ")" ++ "") 4 (call_toks name w).
Proof.
  intros Hp Hn Ho Hd. split; [discriminate|].
  pose proof (ident_wordy _ (instance_ident name _ Hp Hn)) as Hi.
  exists ("key, " ++ String.concat ", " (w_provides w) ++ " = "
      ++ (w_plugin w ++ "_" ++ name) ++ "(key, parameters, "
      ++ String.concat ", " (w_depends w) ++ ")" ++ ""). split; [reflexivity|].
  lexlit "key, " [TName "key"; TOp ","].
  rewrite lex_concat_s; [|assumption|delim].
  lexlit " = " [TOp "="].
  rewrite lex_word_s; [|assumption|delim].
  lexlit "(key, parameters, " [TOp "("; TName "key"; TOp ","; TName "parameters"; TOp ","].
  rewrite lex_concat_s; [|assumption|delim].
  rewrite !cat_cat. change (")" ++ "") with ")".
  replace (lex LStart ")") with (Some [TOp ")"]) by (vm_compute; reflexivity).
  unfold cat_tok, call_toks. cbn [app]. rewrite <- ?app_assoc. cbn [app].
  rewrite <- ?app_assoc. reflexivity.
Qed.

Lemma return_reads dn : (forall x, In x dn -> identifier x) ->
  reads_as ("    return " ++ "key, " ++ "[" ++ String.concat ", " dn ++ "]" ++ "") 4
    (return_toks dn).
Proof.
  intros H. split; [discriminate|].
  exists ("return " ++ "key, " ++ "[" ++ String.concat ", " dn ++ "]" ++ "").
  split; [reflexivity|].
  rewrite (lex_run "return " LStart _ [TName "return"] LStart) by (vm_compute; reflexivity).
  lexlit "key, " [TName "key"; TOp ","]. lexlit "[" [TOp "["].
  rewrite lex_concat_s; [|assumption|delim].
  rewrite !cat_cat. change ("]" ++ "") with "]".
  replace (lex LStart "]") with (Some [TOp "]"]) by (vm_compute; reflexivity).
  reflexivity.
Qed.

Lemma header_reads func nodep : identifier func -> identifier nodep ->
  reads_as ("def " ++ func ++ "(key, " ++ nodep ++ ", parameters):" ++ "") 0
    (header_toks func nodep).
Proof.
  intros Hf Hn. split; [discriminate|].
  exists ("def " ++ func ++ "(key, " ++ nodep ++ ", parameters):" ++ ""). split; [reflexivity|].
  lexlit "def " [TName "def"].
  rewrite lex_word_s; [|now apply ident_wordy|delim].
  lexlit "(key, " [TOp "("; TName "key"; TOp ","].
  rewrite lex_word_s; [|now apply ident_wordy|delim].
  rewrite !cat_cat. change (", parameters):" ++ "") with ", parameters):".
  replace (lex LStart ", parameters):") with (Some [TOp ","; TName "parameters"; TOp ")"; TOp ":"])
    by (vm_compute; reflexivity).
  reflexivity.
Qed.

(* ------------------------------------------------------------------ *)
(** * Reading the whole text *)

Definition inst_of (name llh : string) (w : work) : pystmt :=
  PInst (w_plugin w ++ "_" ++ name) (w_plugin w) llh.

Definition import_of (w : work) : pystmt := PImport ["appletree"; "plugins"] (w_plugin w).

Definition call_of (name : string) (w : work) : pycall :=
  mk_pycall ("key" :: w_provides w) (w_plugin w ++ "_" ++ name)
            ("key" :: "parameters" :: w_depends w).

Definition deco_of (nodep : string) : pydeco :=
  if String.eqb nodep "batch_size" then DStatic "partial" "jit" else DPlain "jit".

Definition def_of (name func nodep : string) (ws : list work) (dn : list string) : pydef :=
  mk_pydef (deco_of nodep) func ["key"; nodep; "parameters"] (map (call_of name) ws) "key" dn.

Definition module_of (name llh func nodep : string) (ws : list work) (dn : list string) : pymodule :=
  mk_pymodule (PImport ["functools"] "partial" :: PImport ["jax"] "jit"
               :: map import_of ws ++ map (inst_of name llh) ws)
              (def_of name func nodep ws dn).

Lemma import_parse p : identifier p ->
  parse_stmt (import_toks p) = Some (PImport ["appletree"; "plugins"] p).
Proof.
  intros H. apply ident_ok in H. unfold import_toks. cbn. rewrite H. reflexivity.
Qed.

Lemma inst_parse name llh p : identifier p ->
  (forall c, In c (chars name) -> In c name_chars) ->
  parse_stmt (inst_toks name llh p) = Some (PInst (p ++ "_" ++ name) p llh).
Proof.
  intros H Hn. pose proof (ident_ok _ (instance_ident name p H Hn)) as Hi. apply ident_ok in H.
  unfold inst_toks, parse_stmt. cbn [op_is].
  change (Ascii.eqb "=" "=" && Ascii.eqb "(" "(")%bool with true.
  rewrite Hi, H. reflexivity.
Qed.

Lemma call_parse name w :
  identifier (w_plugin w) -> (forall c, In c (chars name) -> In c name_chars) ->
  (forall x, In x (w_provides w) -> identifier x) ->
  (forall x, In x (w_depends w) -> identifier x) ->
  parse_call (call_toks name w) = Some (call_of name w).
Proof.
  intros Hp Hn Ho Hd. pose proof (ident_ok _ (instance_ident name _ Hp Hn)) as Hi.
  unfold call_toks. cbn [app]. unfold parse_call. cbn [op_is].
  change (Ascii.eqb "," ",") with true. cbv iota.
  rewrite names_commas by reflexivity.
  cbn [op_is forallb]. rewrite Hi, (idents_ok _ Ho).
  change (Ascii.eqb "=" "=") with true. change (Ascii.eqb "(" "(") with true.
  change (not_keyword "key") with true. cbn [andb].
  match goal with |- context [names ?t] =>
    replace (names t) with ("key" :: "parameters" :: w_depends w, [TOp ")"]) end.
  - cbn [op_is]. change (Ascii.eqb ")" ")") with true. cbn [andb forallb].
    rewrite (idents_ok _ Hd). reflexivity.
  - cbn [names]. change (Ascii.eqb "," ",") with true. cbv iota.
    rewrite names_commas by reflexivity. reflexivity.
Qed.

Lemma return_parse dn : (forall x, In x dn -> identifier x) ->
  parse_call (return_toks dn) = None /\ parse_return (return_toks dn) = Some ("key", dn).
Proof.
  intros H. split; [reflexivity|]. unfold return_toks. cbn [app]. unfold parse_return.
  cbn [op_is]. change (String.eqb "return" "return" && not_keyword "key" && Ascii.eqb "," ","
    && Ascii.eqb "[" "[")%bool with true. cbv iota.
  rewrite names_commas by reflexivity. cbn [op_is].
  rewrite (idents_ok _ H). reflexivity.
Qed.

Lemma header_parse func nodep : identifier func -> identifier nodep ->
  nodep <> "key" -> nodep <> "parameters" ->
  parse_header (header_toks func nodep) = Some (func, ["key"; nodep; "parameters"]).
Proof.
  intros Hf Hn H1 H2. apply ident_ok in Hf, Hn.
  unfold header_toks, parse_header. cbn [op_is].
  rewrite Hf. change (String.eqb "def" "def" && true && Ascii.eqb "(" "(")%bool with true.
  cbv iota. cbn [names]. change (Ascii.eqb "," ",") with true. cbv iota.
  change (Ascii.eqb ")" ",") with false. cbv iota. cbn [op_is].
  change (Ascii.eqb ")" ")") with true. change (Ascii.eqb ":" ":") with true.
  cbn [forallb distinct mem]. rewrite Hn.
  change (not_keyword "key") with true. change (not_keyword "parameters") with true.
  apply String.eqb_neq in H1, H2. rewrite String.eqb_sym in H1. rewrite H1, H2. reflexivity.
Qed.

Lemma deco_parse nodep :
  exists ts, reads_as ((if String.eqb nodep "batch_size"
                        then "@partial(jit, static_argnums=(1, ))" else "@jit") ++ "") 0 ts /\
    parse_stmt ts = None /\ parse_deco ts = Some (deco_of nodep).
Proof.
  unfold deco_of. destruct (String.eqb nodep "batch_size"); eexists; split.
  1, 3: split; [|eexists; split; [reflexivity|vm_compute; reflexivity]]; discriminate.
  all: split; reflexivity.
Qed.

Lemma oneline_lit (s : string) :
  forallb (fun c => negb (Ascii.eqb c lf) && negb (Ascii.eqb c cr))%bool (chars s) = true ->
  oneline s.
Proof.
  rewrite forallb_forall. intros H c Hc. specialize (H c Hc).
  apply andb_prop in H as [H1 H2]. split; now apply Bool.negb_true_iff.
Qed.

Ltac lit := apply oneline_lit; reflexivity.

Section Text.
  Variables (name llh func nodep : string) (dn : list string).
  Hypothesis Hname : forall c, In c (chars name) -> In c name_chars.
  Hypothesis Hllh : quotable llh.
  Hypothesis Hfunc : identifier func.
  Hypothesis Hnodep : identifier nodep.
  Hypothesis Hnew : nodep <> "key" /\ nodep <> "parameters".
  Hypothesis Hdn : forall x, In x dn -> identifier x.

  Definition body_lines (ws : list work) : list (nat * list token) :=
    (map (fun w => (4, call_toks name w)) ws ++ [(4, return_toks dn)])%list.

  Definition fine (w : work) : Prop :=
    identifier (w_plugin w) /\ (forall x, In x (w_provides w) -> identifier x) /\
    (forall x, In x (w_depends w) -> identifier x).

  Lemma calls_logical ws : (forall w, In w ws -> fine w) ->
    logical (lines (call_lines name ws ++ "    return " ++ "key, " ++ "[" ++
                    String.concat ", " dn ++ "]" ++ nl)) = Some (body_lines ws).
  Proof.
    induction ws as [|w ws IH]; intros H.
    - change (call_lines name []) with "". 
      set (r := "    return " ++ _). change ("" ++ r) with r. unfold r. clear r.
      rewrite (lines_app "    return ") by lit. rewrite (lines_app "key, ") by lit.
      rewrite (lines_app "[") by lit. rewrite lines_app by now apply oneline_concat.
      rewrite (lines_app "]") by lit. change nl with (nl ++ ""). rewrite lines_nl.
      cbn [glue]. unfold body_lines.
      apply logical_cons; [now apply return_reads|reflexivity].
    - destruct (H w (or_introl eq_refl)) as (Hp & Ho & Hd).
      cbn [call_lines]. rewrite !app_assoc_s.
      rewrite (lines_app "    ") by lit. rewrite (lines_app "key, ") by lit.
      rewrite lines_app by now apply oneline_concat.
      rewrite (lines_app " = ") by lit. 
      rewrite (lines_app (w_plugin w)) by now apply oneline_ident.
      rewrite (lines_app "_") by lit.
      rewrite (lines_app name) by now apply oneline_conts.
      rewrite (lines_app "(key, parameters, ") by lit.
      rewrite lines_app by now apply oneline_concat.
      rewrite (lines_app ")") by lit. rewrite lines_nl. cbn [glue].
      unfold body_lines. cbn [map]. apply logical_cons.
      + rewrite <- (app_assoc_s "_"), <- (app_assoc_s (w_plugin w)). now apply call_reads.
      + apply IH. intros v Hv. apply H. now right.
  Qed.

  Lemma body_parse ws : (forall w, In w ws -> fine w) ->
    parse_body 4 (body_lines ws) = Some (map (call_of name) ws, ("key", dn)).
  Proof.
    induction ws as [|w ws IH]; intros H.
    - destruct (return_parse dn Hdn) as [E1 E2].
      unfold body_lines. cbn [map app parse_body Nat.eqb]. now rewrite E1, E2.
    - destruct (H w (or_introl eq_refl)) as (Hp & Ho & Hd).
      unfold body_lines. cbn [map app parse_body]. change (Nat.eqb 4 4) with true. cbv iota.
      rewrite call_parse by assumption.
      unfold body_lines in IH. rewrite IH by (intros v Hv; apply H; now right). reflexivity.
  Qed.

  Definition inst_lines (ws : list work) : list (nat * list token) :=
    map (fun w => (0, inst_toks name llh (w_plugin w))) ws.

  Lemma insts_logical ws s rest : (forall w, In w ws -> fine w) ->
    logical (lines s) = Some rest ->
    logical (lines (instance_lines name llh ws ++ s)) = Some (inst_lines ws ++ rest)%list.
  Proof.
    intros H Hs. induction ws as [|w ws IH]; [exact Hs|].
    destruct (H w (or_introl eq_refl)) as (Hp & _ & _).
    cbn [instance_lines]. rewrite !app_assoc_s.
    rewrite (lines_app (w_plugin w)) by now apply oneline_ident.
    rewrite (lines_app "_") by lit.
    rewrite (lines_app name) by now apply oneline_conts.
    rewrite (lines_app " = ") by lit.
    rewrite (lines_app (w_plugin w)) by now apply oneline_ident.
    rewrite (lines_app "('") by lit.
    rewrite (lines_app llh) by now apply oneline_quotable.
    rewrite (lines_app "')") by lit. rewrite lines_nl. cbn [glue].
    cbn [inst_lines map app]. apply logical_cons.
    - rewrite <- (app_assoc_s "_"), <- (app_assoc_s (w_plugin w)). now apply inst_reads.
    - apply IH. intros v Hv. apply H. now right.
  Qed.

  Definition imp_lines (ws : list work) : list (nat * list token) :=
    map (fun w => (0, import_toks (w_plugin w))) ws.

  Lemma imports_logical ws s rest : (forall w, In w ws -> fine w) ->
    logical (lines s) = Some rest ->
    logical (lines (import_lines ws ++ s)) = Some (imp_lines ws ++ rest)%list.
  Proof.
    intros H Hs. induction ws as [|w ws IH]; [exact Hs|].
    destruct (H w (or_introl eq_refl)) as (Hp & _ & _).
    cbn [import_lines]. rewrite !app_assoc_s.
    rewrite (lines_app "from appletree.plugins import ") by lit.
    rewrite (lines_app (w_plugin w)) by now apply oneline_ident.
    rewrite lines_nl. cbn [glue imp_lines map app]. apply logical_cons.
    - now apply import_reads.
    - apply IH. intros v Hv. apply H. now right.
  Qed.

  Lemma stmts_parse ws rest m : (forall w, In w ws -> fine w) ->
    parse_module rest = Some m ->
    parse_module (imp_lines ws ++ inst_lines ws ++ rest)%list
      = Some (mk_pymodule (map import_of ws ++ map (inst_of name llh) ws ++ pm_stmts m) (pm_def m)).
  Proof.
    intros H Hm.
    assert (E : forall vs, (forall w, In w vs -> fine w) ->
      parse_module (inst_lines vs ++ rest)%list
        = Some (mk_pymodule (map (inst_of name llh) vs ++ pm_stmts m) (pm_def m))).
    { induction vs as [|v vs IH]; intros Hv; [simpl; rewrite Hm; now destruct m|].
      cbn [inst_lines map app parse_module].
      destruct (Hv v (or_introl eq_refl)) as (Hp & _ & _).
      rewrite inst_parse by assumption. unfold inst_lines in IH. 
      rewrite IH by (intros u Hu; apply Hv; now right). reflexivity. }
    assert (E2 : forall vs, (forall w, In w vs -> fine w) ->
      parse_module (imp_lines vs ++ inst_lines ws ++ rest)%list
        = Some (mk_pymodule (map import_of vs ++ map (inst_of name llh) ws ++ pm_stmts m) (pm_def m))).
    { induction vs as [|v vs IH]; intros Hv; [now apply E|].
      cbn [imp_lines map app parse_module].
      destruct (Hv v (or_introl eq_refl)) as (Hp & _ & _).
      rewrite import_parse by assumption. unfold imp_lines in IH.
      rewrite IH by (intros u Hu; apply Hv; now right). reflexivity. }
    now apply E2.
  Qed.

  Lemma read_text ws : (forall w, In w ws -> fine w) ->
    py_read (source name llh func nodep ws dn) = Ok (module_of name llh func nodep ws dn).
  Proof.
    intros H. destruct (deco_parse nodep) as (dts & Hd & Hd1 & Hd2).
    unfold py_read.
    assert (L : logical (lines (source name llh func nodep ws dn)) =
      Some ((0, [TName "from"; TName "functools"; TName "import"; TName "partial"])
            :: (0, [TName "from"; TName "jax"; TName "import"; TName "jit"])
            :: imp_lines ws ++ inst_lines ws ++ (0, dts) :: (0, header_toks func nodep)
            :: body_lines ws)%list).
    { unfold source.
      rewrite (lines_app "from functools import partial") by lit. rewrite lines_nl.
      cbn [glue]. apply logical_cons.
      { split; [discriminate|]. eexists. split; vm_compute; reflexivity. }
      rewrite (lines_app "from jax import jit") by lit. rewrite lines_nl.
      cbn [glue]. apply logical_cons.
      { split; [discriminate|]. eexists. split; vm_compute; reflexivity. }
      apply imports_logical; [exact H|]. apply insts_logical; [exact H|].
      rewrite lines_nl. apply logical_blank.
      rewrite (lines_app (if String.eqb nodep "batch_size" then _ else _))
        by (destruct (String.eqb nodep "batch_size"); lit).
      rewrite lines_nl. cbn [glue]. apply logical_cons; [exact Hd|].
      rewrite (lines_app "def ") by lit.
      rewrite (lines_app func) by now apply oneline_ident.
      rewrite (lines_app "(key, ") by lit.
      rewrite (lines_app nodep) by now apply oneline_ident.
      rewrite (lines_app ", parameters):") by lit. rewrite lines_nl. cbn [glue].
      apply logical_cons; [now apply header_reads|].
      now apply calls_logical. }
    rewrite L.
    assert (P : parse_module ((0, dts) :: (0, header_toks func nodep) :: body_lines ws)
      = Some (mk_pymodule [] (def_of name func nodep ws dn))).
    { cbn [parse_module]. rewrite Hd1, Hd2. unfold parse_def.
      pose proof (body_parse ws H) as B.
      destruct (body_lines ws) as [|[n ts] ls] eqn:Eb.
      { unfold body_lines in Eb. destruct ws; discriminate. }
      assert (En : n = 4).
      { unfold body_lines in Eb. destruct ws; simpl in Eb; congruence. }
      subst n. rewrite B. rewrite header_parse by tauto. reflexivity. }
    cbn [parse_module].
    change (parse_stmt [TName "from"; TName "functools"; TName "import"; TName "partial"])
      with (Some (PImport ["functools"] "partial")).
    change (parse_stmt [TName "from"; TName "jax"; TName "import"; TName "jit"])
      with (Some (PImport ["jax"] "jit")).
    rewrite (stmts_parse ws _ _ H P). cbn [pm_stmts pm_def]. rewrite app_nil_r. reflexivity.
  Qed.
End Text.

Lemma read_source name llh func nodep ws dn : plain name llh func nodep ws dn ->
  py_read (source name llh func nodep ws dn) = Ok (module_of name llh func nodep ws dn).
Proof.
  intros P. pose proof (plain_provides _ _ _ _ _ _ P) as Ho.
  pose proof (plain_depends _ _ _ _ _ _ P) as Hd.
  pose proof (plain_plugins _ _ _ _ _ _ P) as Hp.
  destruct P. apply read_text; try assumption.
  intros w Hw. split; [now apply Hp|]. split; intros x Hx; [exact (Ho w x Hw Hx)|exact (Hd w x Hw Hx)].
Qed.

(* ------------------------------------------------------------------ *)
(** * Executing the text *)

Section Exec.
  Variables (f : fs) (plugins : string -> option plugin) (name llh : string).

  Definition imported (vs : list work) (ns : globals) : globals :=
    fold_left (fun ns v => match plugins (w_plugin v) with
                           | Some p => set (w_plugin v) (GClass (w_plugin v) p) ns
                           | None => ns
                           end) vs ns.

  Lemma exec_imports vs : forall ss ns w, imports_ok plugins (map w_plugin vs) = true ->
    exec_stmts f plugins (map import_of vs ++ ss)%list ns w
      = exec_stmts f plugins ss (imported vs ns) w.
  Proof.
    induction vs as [|v vs IH]; intros ss ns w H; [reflexivity|].
    cbn [map imports_ok forallb] in H. apply andb_prop in H as [H1 H2].
    cbn [map app exec_stmts import_of imported fold_left].
    cbn [import1]. change (String.eqb "appletree" "appletree" && String.eqb "plugins" "plugins")%bool
      with true. cbv iota.
    destruct (plugins (w_plugin v)) as [p|]; [|discriminate]. now rewrite IH.
  Qed.

  Lemma exec_imports_fail vs : forall ss ns w, imports_ok plugins (map w_plugin vs) = false ->
    exists ns', exec_stmts f plugins (map import_of vs ++ ss)%list ns w = (w, ns', Err ImportError).
  Proof.
    induction vs as [|v vs IH]; intros ss ns w H; [discriminate|].
    cbn [map imports_ok forallb] in H.
    cbn [map app exec_stmts import_of].
    cbn [import1]. change (String.eqb "appletree" "appletree" && String.eqb "plugins" "plugins")%bool
      with true. cbv iota.
    destruct (plugins (w_plugin v)) as [p|]; [now apply IH|]. eauto.
  Qed.

  Lemma imported_other vs : forall ns x, ~ In x (map w_plugin vs) ->
    get x (imported vs ns) = get x ns.
  Proof.
    induction vs as [|v vs IH]; intros ns x H; [reflexivity|].
    cbn [imported fold_left]. unfold imported in IH. rewrite IH by (intros Hx; apply H; now right).
    destruct (plugins (w_plugin v)); [|reflexivity].
    apply get_set_neq. intros E. apply H. left. now rewrite E.
  Qed.

  Lemma imported_get vs : forall ns v, imports_ok plugins (map w_plugin vs) = true -> In v vs ->
    exists p, plugins (w_plugin v) = Some p /\
      get (w_plugin v) (imported vs ns) = Some (GClass (w_plugin v) p).
  Proof.
    induction vs as [|u vs IH]; intros ns v H Hv; [destruct Hv|].
    cbn [map imports_ok forallb] in H. apply andb_prop in H as [H1 H2].
    destruct (in_dec string_dec (w_plugin v) (map w_plugin vs)) as [Hin|Hout].
    - apply in_map_iff in Hin as (v' & E & Hv').
      cbn [imported fold_left]. rewrite <- E. now apply IH.
    - destruct Hv as [->|Hv]; [|exfalso; apply Hout; now apply in_map].
      cbn [imported fold_left]. 
      change (get (w_plugin v) (imported vs
        (match plugins (w_plugin v) with Some p => set (w_plugin v) (GClass (w_plugin v) p) ns | None => ns end))) with
        (get (w_plugin v) (imported vs
        (match plugins (w_plugin v) with Some p => set (w_plugin v) (GClass (w_plugin v) p) ns | None => ns end))).
      destruct (plugins (w_plugin v)) as [p|]; [|discriminate]. exists p. split; [reflexivity|].
      pose proof (imported_other vs (set (w_plugin v) (GClass (w_plugin v) p) ns) _ Hout) as E.
      unfold imported in E. rewrite E. apply get_set_eq.
  Qed.

  Notation iname v := (w_plugin v ++ "_" ++ name).

  Lemma exec_insts vs : forall ns acc w,
    (forall v, In v vs -> exists p, plugins (w_plugin v) = Some p /\
       get (w_plugin v) ns = Some (GClass (w_plugin v) p)) ->
    (forall v v', In v vs -> In v' vs -> iname v <> w_plugin v') ->
    (forall x i, get x acc = Some i -> get x ns = Some (GInst i)) ->
    let '(w1, ns1, r) := exec_stmts f plugins (map (inst_of name llh) vs) ns w in
    let '(w1', r') := instantiate f plugins llh (map (fun v => (iname v, w_plugin v)) vs) acc w in
    w1 = w1' /\
    match r' with
    | Err e => r = Err e
    | Ok insts =>
        r = Ok tt /\
        (forall x i, get x insts = Some i -> get x ns1 = Some (GInst i)) /\
        (forall x i, get x acc = Some i -> exists j, get x insts = Some j) /\
        (forall v, In v vs -> exists i, get (iname v) insts = Some i) /\
        (forall x, ~ In x (map (fun v => iname v) vs) -> get x ns1 = get x ns)
    end.
  Proof.
    induction vs as [|v vs IH]; intros ns acc w Hc Hd Ha.
    - cbn. repeat split; eauto. intros v [].
    - cbn [map exec_stmts inst_of instantiate].
      destruct (Hc v (or_introl eq_refl)) as (p & Hp & Hg). rewrite Hg, Hp.
      destruct (plugin_init f p (Some llh) (w_cache w)) as [[c1 bs] [i|e]]; [|now split].
      set (w1 := mk_world c1 _ _ _).
      specialize (IH (set (iname v) (GInst i) ns) (set (iname v) i acc) w1).
      destruct (exec_stmts f plugins (map (inst_of name llh) vs) _ w1) as [[w2 ns2] r] eqn:E.
      destruct (instantiate f plugins llh _ _ w1) as [w2' r'] eqn:E'.
      destruct IH as (Hw & H).
      + intros u Hu. destruct (Hc u (or_intror Hu)) as (q & Hq & Hqg). exists q. split; [exact Hq|].
        rewrite get_set_neq; [exact Hqg|]. intros Eq. symmetry in Eq. revert Eq. 
        apply not_eq_sym. apply not_eq_sym. intros Eq. 
        refine (Hd v u (or_introl eq_refl) (or_intror Hu) _). congruence.
      + intros u u' Hu Hu'. apply Hd; now right.
      + intros x j Hx. destruct (string_dec x (iname v)) as [->|N].
        * rewrite get_set_eq in Hx. rewrite get_set_eq. congruence.
        * rewrite get_set_neq in Hx by congruence. rewrite get_set_neq by congruence. now apply Ha.
      + split; [exact Hw|]. destruct r' as [insts|e]; [|exact H].
        destruct H as (-> & H1 & H2 & H3 & H4). split; [reflexivity|].
        split; [exact H1|]. split; [|split].
        * intros x j Hx. destruct (string_dec x (iname v)) as [->|N].
          -- eapply H2. apply get_set_eq.
          -- eapply H2. rewrite get_set_neq by congruence. exact Hx.
        * intros u [<-|Hu]; [|now apply H3]. eapply H2. apply get_set_eq.
        * intros x Hx. rewrite H4 by (intros Hin; apply Hx; now right).
          apply get_set_neq. intros Eq. apply Hx. left. congruence.
  Qed.
End Exec.

(* ------------------------------------------------------------------ *)
(** * Calling the function *)

Section Run.
  Variables (V : Type) (isem : instance -> list V -> result (list V)).
  Variables (ns : globals) (insts : dict instance) (locals : list string).

  Lemma read_lookups e xs : (forall x, In x xs -> In x locals) ->
    read_all V locals ns e xs = lookups V e xs.
  Proof.
    induction xs as [|x xs IH]; intros H; [reflexivity|].
    cbn [read_all lookups]. unfold read_data.
    assert (Hm : mem x locals = true) by (apply mem_In, H; now left).
    rewrite Hm. destruct (get x e); [|reflexivity]. cbn [bind].
    rewrite IH by (intros y Hy; apply H; now right).
    destruct (lookups V e xs); reflexivity.
  Qed.

  Variable name : string.

  Lemma calls_run ws : forall e,
    In "key" locals -> In "parameters" locals ->
    (forall w, In w ws -> ~ In (w_plugin w ++ "_" ++ name) locals /\
       (exists i, get (w_plugin w ++ "_" ++ name) insts = Some i /\
          get (w_plugin w ++ "_" ++ name) ns = Some (GInst i)) /\
       (forall x, In x (w_depends w) -> In x locals)) ->
    exec_calls V isem locals ns e (map (call_of name) ws)
      = exec V (call_instance V isem insts) e
          (map (fun w => (w_provides w, w_plugin w ++ "_" ++ name, w_depends w)) ws).
  Proof.
    induction ws as [|w ws IH]; intros e Hk Hp H; [reflexivity|].
    destruct (H w (or_introl eq_refl)) as (Hl & (i & Hi & Hn) & Hd).
    cbn [map exec_calls exec].
    assert (E : exec_call V isem locals ns e (call_of name w) =
                exec1 V (call_instance V isem insts) e
                  (w_provides w, w_plugin w ++ "_" ++ name, w_depends w)).
    { unfold exec_call, exec1. cbn [call_of pc_callee pc_args pc_targets].
      destruct (mem (w_plugin w ++ "_" ++ name) locals) eqn:Em; [now apply mem_In in Em|].
      rewrite Hn. rewrite read_lookups.
      - unfold call_instance. rewrite Hi. reflexivity.
      - intros x [<-|[<-|Hx]]; auto. }
    rewrite E. destruct (exec1 V _ e _) as [e'|er]; [|reflexivity]. cbn [bind].
    apply IH; auto. intros u Hu. apply H. now right.
  Qed.
End Run.

Lemma locals_in name func nodep ws dn x :
  In x (locals_of (def_of name func nodep ws dn)) <-> In x (local_names nodep ws).
Proof.
  unfold locals_of, def_of, local_names. cbn [pd_params pd_body].
  rewrite !in_app_iff, !in_flat_map. split.
  - intros [H|(c & Hc & Hx)]; [now left|]. apply in_map_iff in Hc as (w & <- & Hw).
    cbn [call_of pc_targets] in Hx. destruct Hx as [<-|Hx]; [left; now left|]. right. eauto.
  - intros [H|(w & Hw & Hx)]; [now left|]. right.
    exists (call_of name w). split; [now apply in_map|]. now right.
Qed.

Lemma call_runs V (isem : instance -> list V -> result (list V)) ns insts
    name llh func nodep ws dn key n params :
  nodep <> "key" -> nodep <> "parameters" ->
  reads_locals nodep ws dn ->
  (forall w, In w ws -> ~ In (instance_name name w) (local_names nodep ws)) ->
  (forall w, In w ws -> exists i, get (instance_name name w) insts = Some i /\
     get (instance_name name w) ns = Some (GInst i)) ->
  call_def V isem (def_of name func nodep ws dn) ns [key; n; params]
    = run_closure V isem (mk_closure (gen_code name llh func nodep ws dn) insts) key n params.
Proof.
  intros N1 N2 (R1 & R2) Hl Hi.
  unfold run_closure, run_prog. cbn [cl_prog cl_insts gen_code pr_nodep pr_body pr_return].
  assert (M : mem nodep ["key"; "parameters"] = false).
  { apply mem_false. intros [E|[E|[]]]; congruence. }
  rewrite M.
  unfold call_def. cbn [def_of pd_params].
  assert (A : assign V [] ["key"; nodep; "parameters"] [key; n; params]
              = Ok [("key", key); (nodep, n); ("parameters", params)]).
  { cbn [assign set]. assert (E1 : String.eqb nodep "key" = false) by now apply String.eqb_neq.
    assert (E2 : String.eqb "parameters" nodep = false) by (apply String.eqb_neq; congruence).
    rewrite E1. cbn [set]. change (String.eqb "parameters" "key") with false. cbv iota.
    rewrite E2. reflexivity. }
  rewrite A.
  set (locals := locals_of _).
  assert (L : forall x, In x locals <-> In x (local_names nodep ws)) by (intros x; apply locals_in).
  change (pd_body _) with (map (call_of name) ws).
  rewrite (calls_run V isem ns insts locals name ws).
  - match goal with |- bind ?a _ = bind ?a _ => destruct a as [e|er]; [|reflexivity] end.
    cbn [bind]. change (pd_key _) with "key". change (pd_return _) with dn.
    rewrite read_lookups by (intros x Hx; apply L, R2, Hx).
    unfold read_data.
    assert (Hk : mem "key" locals = true) by (apply mem_In, L; left; reflexivity).
    rewrite Hk. cbn [lookups]. destruct (get "key" e) as [k|]; [|reflexivity]. cbn [bind].
    destruct (lookups V e dn); reflexivity.
  - apply L. left. reflexivity.
  - apply L. right. right. left. reflexivity.
  - intros w Hw. split; [|split].
    + rewrite L. now apply Hl.
    + now apply Hi.
    + intros x Hx. apply L. eapply R1; eauto.
Qed.

Lemma us_neq_lit x s : has_us x = true -> has_us s = false -> x <> s.
Proof. intros H1 H2 ->. congruence. Qed.

(** Executing the text in any namespace does what [instantiate] does. *)
Lemma exec_source f plugins name llh func nodep ws dn ns w :
  plain name llh func nodep ws dn -> no_clash name func nodep ws ->
  let '(w1, ns1, r) := py_exec f plugins (source name llh func nodep ws dn) ns w in
  if imports_ok plugins (map w_plugin ws) then
    let '(w1', r') := instantiate f plugins llh
                        (map (fun v => (instance_name name v, w_plugin v)) ws) [] w in
    w1 = w1' /\
    match r' with
    | Err e => r = Err e
    | Ok insts =>
        r = Ok tt /\ get func ns1 = Some (GFun (def_of name func nodep ws dn)) /\
        (forall v, In v ws -> exists i, get (instance_name name v) insts = Some i /\
           get (instance_name name v) ns1 = Some (GInst i))
    end
  else w1 = w /\ r = Err ImportError.
Proof.
  intros P C. unfold py_exec. rewrite (read_source _ _ _ _ _ _ P).
  cbn [module_of pm_stmts pm_def exec_stmts].
  change (import1 plugins ["functools"] "partial") with (Some (GExt "partial")).
  change (import1 plugins ["jax"] "jit") with (Some (GExt "jit")). cbv iota.
  set (ns0 := set "jit" _ _).
  destruct (imports_ok plugins (map w_plugin ws)) eqn:Ei.
  2: { destruct (exec_imports_fail f plugins ws (map (inst_of name llh) ws) ns0 w Ei) as (ns' & ->).
       now split. }
  rewrite exec_imports by exact Ei.
  pose proof (exec_insts f plugins name llh ws (imported plugins ws ns0) [] w) as H.
  cbv zeta in H.
  destruct (exec_stmts f plugins (map (inst_of name llh) ws) _ w) as [[w1 ns1] r].
  unfold instance_name.
  destruct (instantiate f plugins llh _ [] w) as [w1' r'].
  destruct H as (Hw & H).
  { intros v Hv. now apply imported_get. }
  { intros v v' Hv Hv'. now apply (no_hidden_class _ _ _ _ C). }
  { intros x i Hx. discriminate. }
  destruct r' as [insts|e].
  2: { subst r. now split. }
  destruct H as (-> & H1 & _ & H3 & H4).
  assert (Hj : get "jit" ns1 = Some (GExt "jit")).
  { rewrite H4.
    - rewrite imported_other; [apply get_set_eq|]. rewrite in_map_iff. intros (v & E & Hv).
      now apply (proj2 (no_hidden_decorator _ _ _ _ C v Hv)).
    - rewrite in_map_iff. intros (v & E & Hv).
      revert E. apply us_neq_lit; [apply instance_us|reflexivity]. }
  assert (Hp : get "partial" ns1 = Some (GExt "partial")).
  { rewrite H4.
    - rewrite imported_other; [|rewrite in_map_iff; intros (v & E & Hv);
        now apply (proj1 (no_hidden_decorator _ _ _ _ C v Hv))].
      unfold ns0. rewrite get_set_neq by discriminate. apply get_set_eq.
    - rewrite in_map_iff. intros (v & E & Hv).
      revert E. apply us_neq_lit; [apply instance_us|reflexivity]. }
  assert (Hd : exec_deco (pd_deco (def_of name func nodep ws dn)) ns1 = Ok tt).
  { cbn [def_of pd_deco]. unfold deco_of, exec_deco.
    destruct (String.eqb nodep "batch_size"); rewrite ?Hp, ?Hj; reflexivity. }
  rewrite Hd. cbn [def_of pd_name]. split; [exact Hw|]. split; [reflexivity|].
  split; [apply get_set_eq|].
  intros v Hv. destruct (H3 v Hv) as (i & Hi). exists i. split; [exact Hi|].
  rewrite get_set_neq; [now apply H1|].
  destruct (no_hidden_instance _ _ _ _ C v Hv) as [N _]. unfold instance_name in N. congruence.
Qed.

(* ------------------------------------------------------------------ *)
(** * Components *)
From Verif Require Import ProofComponent ProofWorkflow ProofSim ProofHistory ProofComponentTop
  ProofCompile.

Lemma reads_defined_locals body : forall defined, reads_defined defined body ->
  forall outs inst ins x, In (outs, inst, ins) body -> In x ins ->
  In x (defined ++ assigned body)%list.
Proof.
  induction body as [|[[o i] d] body IH]; intros defined H outs inst ins x Hin Hx; [destruct Hin|].
  destruct H as [H1 H2]. destruct Hin as [E|Hin].
  - injection E as -> -> ->. apply in_or_app. left. now apply H1.
  - specialize (IH _ H2 _ _ _ _ Hin Hx). unfold assigned in *. cbn [flat_map fst].
    rewrite !in_app_iff in *. tauto.
Qed.

Lemma deduced_reads calls limit data_names func nodep noeff k w w' k' :
  k_registry k = registry_after calls -> unique_names (k_registry k) ->
  deduce limit data_names func nodep noeff k w = (w', k', Ok tt) ->
  reads_locals nodep (k_worksheet k') (output_names data_names noeff).
Proof.
  intros Hr Hu H.
  destruct (top_defined _ _ _ _ _ _ _ _ _ _ Hr Hu H) as (pr & Hc & Hn & Hret & Hd & Ho).
  destruct (deduce_ok_inv _ _ _ _ _ _ _ _ _ H)
    as (deps & c1 & needed & _ & _ & Hws & _ & Hcode & _).
  rewrite Hc in Hcode. injection Hcode as Hpr. rewrite <- Hws in Hpr.
  assert (A : assigned (pr_body pr) = flat_map w_provides (k_worksheet k')).
  { rewrite Hpr. cbn [gen_code pr_body]. unfold assigned.
    clear. induction (k_worksheet k') as [|v vs IH]; [reflexivity|].
    cbn [map flat_map fst]. f_equal. exact IH. }
  split.
  - intros wk x Hwk Hx.
    assert (Hin : In (w_provides wk, w_plugin wk ++ "_" ++ k_name k, w_depends wk) (pr_body pr)).
    { rewrite Hpr. cbn [gen_code pr_body]. apply in_map_iff. eauto. }
    pose proof (reads_defined_locals _ _ Hd _ _ _ x Hin Hx) as L. rewrite A in L.
    unfold local_names. destruct L as [<-|L]; [right; left; reflexivity|].
    apply in_or_app. now right.
  - intros x Hx. rewrite <- Hret in Hx. apply Ho in Hx. rewrite A in Hx.
    unfold local_names. destruct Hx as [->|Hx]; [right; left; reflexivity|].
    apply in_or_app. now right.
Qed.

Lemma component_text calls limit data_names func nodep noeff f plugins k w w1 k1 w2 ns :
  k_registry k = registry_after calls -> unique_names (k_registry k) ->
  deduce limit data_names func nodep noeff k w = (w1, k1, Ok tt) ->
  w_fn w2 = w_fn w1 -> w_heap w2 = w_heap w1 ->
  plain (k_name k) (k_llh k) func nodep (k_worksheet k1) (output_names data_names noeff) ->
  no_clash (k_name k) func nodep (k_worksheet k1) ->
  let '(wt, nst, rt) := py_exec f plugins (code_text data_names nodep noeff k1) ns w2 in
  let '(wc, kc, rc) := compile f plugins k1 w2 in
  rt = rc /\ w_cache wt = w_cache wc /\ w_class wt = w_class wc /\
  (rc = Ok tt -> forall V isem key n params,
     py_call V isem func nst key n params = simulate V isem kc key n params).
Proof.
  intros Hr Hu H Hfn Hheap P C.
  pose proof (deduced_reads _ _ _ _ _ _ _ _ _ _ Hr Hu H) as R.
  destruct (deduce_ok_inv _ _ _ _ _ _ _ _ _ H)
    as (deps & c1 & needed & _ & _ & Hws & _ & _ & Hf & _ & Hl & Hname & _ & _ & _ & Hcomp & _ & Ht & Hh & _).
  rewrite <- Hws in Hcomp.
  unfold code_text. rewrite Hname, Hl, Hf.
  pose proof (exec_source f plugins _ _ _ _ _ _ ns w2 P C) as E.
  destruct (py_exec _ _ _ _ _) as [[wt nst] rt].
  unfold compile. rewrite Hcomp. cbn [gen_code pr_imports pr_llh pr_insts pr_func].
  destruct (imports_ok plugins (map w_plugin (k_worksheet k1))).
  2: { destruct E as (-> & ->). repeat split. discriminate. }
  unfold instance_name in E.
  pose proof (instantiate_fn f plugins (k_llh k)
    (map (fun v => (w_plugin v ++ "_" ++ k_name k, w_plugin v)) (k_worksheet k1)) [] w2) as [F1 F2].
  destruct (instantiate f plugins (k_llh k) _ [] w2) as [wi ri]. cbn [fst] in F1, F2.
  destruct E as (-> & E). destruct ri as [insts|e].
  2: { subst rt. repeat split. discriminate. }
  destruct E as (-> & E1 & E2). cbn [w_fn w_heap w_cache w_class].
  rewrite F1, Hfn, Ht, Hl, get_set_eq. rewrite Hf.
  set (cl := mk_closure _ insts).
  assert (Hn : forall x : namespace, nth (List.length (w_heap w))
    (set_nth (List.length (w_heap w)) x (w_heap wi)) [] = x).
  { rewrite F2, Hheap, Hh.
    clear. intros x. induction (w_heap w) as [|a l IH]; [reflexivity|]. cbn. exact IH. }
  rewrite Hn, get_set_eq. repeat split. intros _ V isem key n params.
  unfold py_call. rewrite E1. unfold simulate. cbn [k_simulate]. unfold cl.
  destruct (plain_nodep_new _ _ _ _ _ _ P) as [N1 N2].
  apply call_runs; auto.
  intros v Hv. now apply (no_hidden_instance _ _ _ _ C).
Qed.

Lemma map_inj_on {A B} (g : A -> B) : (forall x y, g x = g y -> x = y) ->
  forall l l', map g l = map g l' -> l = l'.
Proof.
  intros Hg. induction l as [|x l IH]; intros [|y l'] H; try discriminate; [reflexivity|].
  injection H as H1 H2. f_equal; auto.
Qed.

Lemma app_inv_head_s a b c : a ++ b = a ++ c -> b = c.
Proof. induction a; simpl; intros H; [exact H|]. injection H. exact IHa. Qed.

Lemma same_text name llh func nodep ws dn name' llh' func' nodep' ws' dn' :
  plain name llh func nodep ws dn -> plain name' llh' func' nodep' ws' dn' ->
  source name llh func nodep ws dn = source name' llh' func' nodep' ws' dn' ->
  func = func' /\ nodep = nodep' /\ ws = ws' /\ dn = dn' /\
  (ws <> [] -> name = name' /\ llh = llh').
Proof.
  intros P P' E. pose proof (read_source _ _ _ _ _ _ P) as R.
  rewrite E, (read_source _ _ _ _ _ _ P') in R.
  injection R as Hs Hd Hf Hn Hb Hr.
  assert (Hp : map w_plugin ws = map w_plugin ws').
  { apply (f_equal (map pc_callee)) in Hb as Hc. 
    assert (L : List.length (map import_of ws') = List.length (map import_of ws)).
    { rewrite !map_length. apply (f_equal (@List.length _)) in Hb. rewrite !map_length in Hb. congruence. }
    assert (Ha : map import_of ws' = map import_of ws).
    { revert Hs L. generalize (map import_of ws') (map import_of ws)
        (map (inst_of name' llh') ws') (map (inst_of name llh) ws).
      induction l as [|x l IH]; intros [|y l'] m m' Hs L; try discriminate; [reflexivity|].
      injection Hs as -> Hs. f_equal. eapply IH; eauto. }
    assert (Hg : forall l, map w_plugin l = map (fun s => match s with PImport _ x => x | PInst x _ _ => x end) (map import_of l)).
    { intros l. rewrite map_map. apply map_ext. reflexivity. }
    rewrite !Hg. now rewrite Ha. }
  assert (Hw : ws = ws').
  { clear - Hp Hb. revert ws' Hp Hb. induction ws as [|w ws IH]; intros [|w' ws'] Hp Hb; try discriminate; [reflexivity|].
    cbn [map call_of] in Hp, Hb. injection Hp as Hp1 Hp2. injection Hb as Hb1 _ Hb3 Hb4.
    f_equal; [|now apply IH]. destruct w, w'; cbn in *; congruence. }
  subst ws'. repeat split; auto; destruct ws as [|w ws]; try congruence.
  - injection Hb as Hb1 _. apply app_inv_head_s in Hb1. injection Hb1. congruence.
  - intros. clear - Hs. apply app_inv_head in Hs. cbn in Hs. injection Hs. congruence.
Qed.
