(** C127: the file that dump_lineage writes. *)
From Coq Require Import Ascii NArith Sorted Lia.
From Verif Require Import Base ModelText SpecText ProofText ProofText2 ModelDump SpecDump ProofDump.
Local Open Scope list_scope.

(** A dump of an object that json can write succeeds where a file can be opened. What is in the file afterwards depends
    neither on what was there nor on the order of the entries of any dictionary. No other file is touched. *)
Theorem C127_same opens f f' path path' v v' :
  opens path = None -> opens path' = None -> python_object v -> python_object v' -> says_same v v' ->
  snd (dump_file opens f path (Object v)) = Ok tt /\
  fst (dump_file opens f path (Object v)) path = fst (dump_file opens f' path' (Object v')) path' /\
  forall p, p <> path -> fst (dump_file opens f path (Object v)) p = f p.
Proof.
  intros O O' P P' H. unfold dump_file. rewrite O, O'. cbn [fst snd]. unfold write. rewrite !String.eqb_refl.
  split; [reflexivity|]. split; [f_equal; apply dumps_same; assumption|].
  intros p N. apply String.eqb_neq in N. rewrite N. reflexivity.
Qed.

(** Two files with the same contents hold the same: with strings in the Basic Multilingual Plane, objects that differ
    anywhere, at any depth, in a constant, a number, a string, a key or the order of a list give different files. *)
Theorem C127_different opens f f' path path' v v' :
  opens path = None -> opens path' = None ->
  python_object v -> python_object v' -> basic v -> basic v' -> ~ says_same v v' ->
  fst (dump_file opens f path (Object v)) path <> fst (dump_file opens f' path' (Object v')) path'.
Proof.
  intros O O' P P' B B' N E. apply N. unfold dump_file in E. rewrite O, O' in E. cbn [fst snd] in E.
  unfold write in E. rewrite !String.eqb_refl in E. injection E as E.
  apply ex_same; try assumption. apply text_ex; assumption.
Qed.

(** Outside of it they may not: one character and the two surrogates that stand for it in UTF-16 are different Python
    strings with one text. *)
Theorem C127_surrogates_refuted : exists v v', python_object v /\ python_object v' /\ ~ says_same v v' /\
  forall opens f path, opens path = None ->
    fst (dump_file opens f path (Object v)) path = fst (dump_file opens f path (Object v')) path.
Proof.
  exists (JStr [128512]%N), (JStr [55357; 56832]%N).
  assert (A : forall s, Forall (fun c => (c < 1114112)%N) s -> python_object (JStr s)).
  { intros s F. constructor.
    - intros neg d H. inversion H.
    - intros t [H|(d & H & _)]; [inversion H; subst; exact F|inversion H].
    - intros d H. inversion H. }
  split; [apply A; repeat constructor|]. split; [apply A; repeat constructor|].
  split; [intros H; inversion H|].
  intros opens f path O. unfold dump_file. rewrite O. cbn [fst]. unfold write. rewrite String.eqb_refl. reflexivity.
Qed.

(** A dump that fails after the file is opened, because the lineage cannot be made or because json cannot write
    it, has erased what was in the file. *)
Theorem C127_erased opens f path entity old : opens path = None -> f path = Some old ->
  (forall v, entity <> Object v) ->
  fst (dump_file opens f path entity) path = Some [] /\
  (forall e, entity = Raises e -> snd (dump_file opens f path entity) = Err e) /\
  (entity = NotJson -> snd (dump_file opens f path entity) = Err TypeError) /\
  forall p, p <> path -> fst (dump_file opens f path entity) p = f p.
Proof.
  intros O Hold N. unfold dump_file. rewrite O. destruct entity as [e|v|]; [|destruct (N v eq_refl)|];
    cbn [fst snd]; unfold write; rewrite String.eqb_refl; (split; [reflexivity|]);
    (split; [intros e' H; first [discriminate H|injection H as ->; reflexivity]|]);
    (split; [intros H; first [discriminate H|reflexivity]|]);
    intros p Np; apply String.eqb_neq in Np; rewrite Np; reflexivity.
Qed.

(** A path at which no file can be opened changes no file, and the exception of open is the one raised. *)
Theorem C127_unopened opens f path entity e : opens path = Some e ->
  snd (dump_file opens f path entity) = Err e /\ forall p, fst (dump_file opens f path entity) p = f p.
Proof. intros O. unfold dump_file. rewrite O. split; reflexivity. Qed.

(** The empty file is not the dump of anything: it can be told from a dump that succeeded. *)
Theorem C127_not_empty opens f path v : opens path = None -> python_object v ->
  fst (dump_file opens f path (Object v)) path <> Some [].
Proof.
  intros O P E. unfold dump_file in E. rewrite O in E. cbn [fst] in E. unfold write in E. rewrite String.eqb_refl in E.
  injection E as E. apply object_good in P. pose proof (lexes_dumps v 0 P [] I) as A. rewrite app_nil_r, E in A.
  cbn in A. rewrite app_nil_r in A. destruct (toks_open v) as (t & ts & T & _). rewrite T in A. discriminate A.
Qed.

(** A lineage dumped over another one whose dictionary has a different order; then the same file with a lineage
    that has an array. *)
Definition d_one : json :=
  JDict [(map N_of_ascii (txt "rate"), JStr (map N_of_ascii (txt "er_rate")));
         (map N_of_ascii (txt "bins"), JList [JNum false (txt "1.0"); JNan; JNull])].
Definition d_two : json :=
  JDict [(map N_of_ascii (txt "bins"), JList [JNum false (txt "1.0"); JNan; JNull]);
         (map N_of_ascii (txt "rate"), JStr (map N_of_ascii (txt "er_rate")))].
Definition d_three : json :=
  JDict [(map N_of_ascii (txt "bins"), JList [JNum false (txt "1"); JNan; JNull]);
         (map N_of_ascii (txt "rate"), JStr (map N_of_ascii (txt "er_rate")))].
Definition here : string := "lineage.json".
Definition nowhere : string := "/no/lineage.json".
Definition d_opens (path : string) : option exc :=
  if String.eqb path nowhere then Some FileNotFoundError else None.
Definition d_files : files := fun p => if String.eqb p here then Some (txt "old") else None.

Lemma d_same : says_same d_one d_two.
Proof.
  assert (R : says_same (JList [JNum false (txt "1.0"); JNan; JNull]) (JList [JNum false (txt "1.0"); JNan; JNull])).
  { constructor. repeat constructor. }
  constructor; [reflexivity|]. intros k v [H|[H|[]]]; injection H as <- <-; eexists.
  - split; [right; left; reflexivity|constructor].
  - split; [left; reflexivity|exact R].
Qed.
Example C127_case :
  fst (dump_file d_opens d_files here (Object d_one)) here =
    Some (txt ("{" ++ String (ascii_of_nat 10) "    ""bins"": [" ++ String (ascii_of_nat 10) "        1.0,"
      ++ String (ascii_of_nat 10) "        NaN," ++ String (ascii_of_nat 10) "        null"
      ++ String (ascii_of_nat 10) "    ]," ++ String (ascii_of_nat 10) "    ""rate"": ""er_rate"""
      ++ String (ascii_of_nat 10) "}")%string) /\
  fst (dump_file d_opens d_files here (Object d_one)) here =
  fst (dump_file d_opens d_files here (Object d_two)) here /\
  fst (dump_file d_opens d_files here (Object d_two)) here <>
  fst (dump_file d_opens d_files here (Object d_three)) here /\
  dump_file d_opens d_files nowhere NotJson = (d_files, Err FileNotFoundError) /\
  fst (dump_file d_opens d_files here NotJson) here = Some [] /\
  snd (dump_file d_opens d_files here NotJson) = Err TypeError.
Proof. repeat split; vm_compute; congruence. Qed.
Example C127_case_object : python_object d_one /\ python_object d_two /\ basic d_one /\ says_same d_one d_two /\
  ~ says_same d_two d_three.
Proof.
  assert (K : forall k : string, Forall (fun c => (c < 65536)%N) (map N_of_ascii (txt k))).
  { intros k. rewrite Forall_forall. intros c H. apply in_map_iff in H as (a & <- & _).
    pose proof (N_ascii_bounded a). lia. }
  assert (P : forall v, v = d_one \/ v = d_two -> python_object v /\ basic v).
  { intros v Hv.
    assert (N : forall x, part x v -> x = v \/ x = JList [JNum false (txt "1.0"); JNan; JNull] \/ x = JNum false (txt "1.0") \/
              x = JNan \/ x = JNull \/ x = JStr (map N_of_ascii (txt "er_rate"))).
    { intros x H. destruct Hv as [->| ->];
      (inversion H as [|l y Hi Hp|dd k y Hi Hp]; subst; [left; reflexivity|]; right;
       destruct Hi as [Hi|[Hi|[]]]; injection Hi as <- <-;
       (inversion Hp as [|l y Hi2 Hp2|? k2 y Hi2 Hp2]; subst; [auto 10|try (destruct Hi2 as [<-|[<-|[<-|[]]]]; inversion Hp2; subst; auto 10)..])). }
    assert (T : forall s, text_in s v -> Forall (fun c => (c < 65536)%N) s).
    { intros s [H|(d & H & Hi)]; apply N in H.
      - destruct H as [H|[H|[H|[H|[H|H]]]]]; try discriminate H.
        + destruct Hv as [->| ->]; discriminate H.
        + injection H as ->. exact (K "er_rate"%string).
      - destruct H as [H|[H|[H|[H|[H|H]]]]]; try discriminate H.
        destruct Hv as [->| ->]; injection H as ->; destruct Hi as [<-|[<-|[]]]; first [exact (K "rate"%string)|exact (K "bins"%string)]. }
    split; [constructor|exact T].
    - intros neg d H. apply N in H. destruct H as [H|[H|[H|[H|[H|H]]]]]; try discriminate H.
      + destruct Hv as [->| ->]; discriminate H.
      + injection H as -> ->. split; [reflexivity|intros [? _]; discriminate].
    - intros s H. apply T in H. revert H. apply Forall_impl. intros c Hc. lia.
    - intros d H. apply N in H. destruct H as [H|[H|[H|[H|[H|H]]]]]; try discriminate H.
      destruct Hv as [->| ->]; injection H as ->; vm_compute; repeat constructor; cbn; intuition discriminate. }
  split; [apply P; auto|]. split; [apply P; auto|]. split; [apply P; auto|]. split; [apply d_same|].
  intros H. inversion H as [| | | | | | |? ? L I]; subst.
  destruct (I _ _ (or_introl eq_refl)) as (v' & [E|[E|[]]] & S).
  - injection E as <-. inversion S as [| | | | | |? ? F|]; subst. inversion F as [|? ? ? ? H1]; subst. inversion H1.
  - vm_compute in E. discriminate E.
Qed.

Print Assumptions C127_same.
Print Assumptions C127_different.
Print Assumptions C127_surrogates_refuted.
Print Assumptions C127_erased.
Print Assumptions C127_unopened.
Print Assumptions C127_not_empty.
