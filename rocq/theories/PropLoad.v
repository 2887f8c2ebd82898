(** C130: which reader the name of a data file selects, and what save_code writes. *)
From Coq Require Import Reals Lra Lia.
From Verif Require Import Base BaseFacts ModelFloat ModelShare ModelUtils ModelText ModelDump ModelLoad ModelConfig ModelComponent ModelCompile ModelCode
  ModelParameter ModelBinning ModelWhole SpecComponent SpecCode SpecWhole SpecLoad ProofWhole ProofFrame PropComponent PropCompile PropCode PropWhole.
Local Open Scope string_scope.

Lemma str_app_assoc a b c : ((a ++ b) ++ c = a ++ (b ++ c))%string.
Proof. induction a as [|x a IH]; cbn; [reflexivity|]. rewrite IH. reflexivity. Qed.

Lemma last_from_plain s : forall acc, no_dot s = true -> last_part_from acc s = (acc ++ s)%string.
Proof.
  induction s as [|c s IH]; intros acc H; cbn in *.
  - clear. induction acc as [|x a IH]; cbn; [reflexivity|]. rewrite <- IH. reflexivity.
  - apply andb_prop in H. destruct H as [H1 H2]. apply Bool.negb_true_iff in H1. rewrite H1, IH by exact H2.
    rewrite str_app_assoc. reflexivity.
Qed.
Lemma last_from_app a ext : forall acc, no_dot ext = true -> last_part_from acc (a ++ "." ++ ext) = ext.
Proof.
  induction a as [|c a IH]; intros acc H.
  - change ("" ++ "." ++ ext)%string with (String "." ext). cbn. apply last_from_plain. exact H.
  - cbn [String.append last_part_from]. destruct (Ascii.eqb c "."); apply IH; exact H.
Qed.
Lemma last_from_inv s : forall acc, no_dot acc = true ->
  let e := last_part_from acc s in
  no_dot e = true /\ ((e = (acc ++ s)%string) \/ exists a, s = (a ++ "." ++ e)%string).
Proof.
  induction s as [|c s IH]; intros acc H; cbn [last_part_from].
  - split; [exact H|]. left. clear. induction acc as [|x a IH]; cbn; [reflexivity|]. rewrite <- IH. reflexivity.
  - destruct (Ascii.eqb c ".") eqn:E.
    + apply Ascii.eqb_eq in E. subst c. destruct (IH "" eq_refl) as [N [A|(a & A)]]; (split; [exact N|]); right.
      * exists "". cbn in *. rewrite A. reflexivity.
      * exists (String "." a). cbn. f_equal. exact A.
    + assert (N : no_dot (acc ++ String c "") = true).
      { clear - H E. induction acc as [|x a IH]; cbn in *; [rewrite E; reflexivity|].
        apply andb_prop in H. destruct H as [H1 H2]. rewrite H1. apply IH. exact H2. }
      destruct (IH _ N) as [N2 [A|(a & A)]]; (split; [exact N2|]).
      * left. rewrite A. rewrite str_app_assoc. reflexivity.
      * right. exists (String c a). cbn. f_equal. exact A.
Qed.
Lemma last_ends ext path : no_dot ext = true -> (last_part path = ext <-> ends_in ext path).
Proof.
  intros N. unfold last_part. split.
  - intros <-. destruct (last_from_inv path "" eq_refl) as [_ [A|(a & A)]]; [left; symmetry; exact A|right; exists a; exact A].
  - intros [->|(a & ->)]; [rewrite last_from_plain by exact N; reflexivity|apply last_from_app; exact N].
Qed.

(** Exactly the paths that end in .csv are read as csv, those that end in .pkl as pickle, and all others are a
    ValueError, as are ".CSV", ".csv.gz" or ".h5" below. *)
Theorem C130_reader path :
  (reader_of path = Ok Csv <-> ends_in "csv" path) /\ (reader_of path = Ok Pickle <-> ends_in "pkl" path) /\
  (reader_of path = Err ValueError <-> ~ ends_in "csv" path /\ ~ ends_in "pkl" path).
Proof.
  rewrite <- !last_ends by reflexivity. unfold reader_of.
  destruct (String.eqb (last_part path) "csv") eqn:A; [apply String.eqb_eq in A; rewrite A|apply String.eqb_neq in A].
  - repeat split; try discriminate; intuition congruence.
  - destruct (String.eqb (last_part path) "pkl") eqn:B; [apply String.eqb_eq in B; rewrite B|apply String.eqb_neq in B];
      repeat split; try discriminate; intuition congruence.
Qed.

(** The path that was found ends as the name that was asked for unless the file comes from elsewhere. *)
Lemma join_ends a b ext x : b = (x ++ "." ++ ext)%string -> ends_in ext (path_join a b).
Proof.
  intros ->. right. unfold path_join. destruct (starts_with_slash _); [exists x; reflexivity|].
  destruct (String.eqb a ""); [exists x; reflexivity|]. destruct (ends_with_slash a).
  - exists (a ++ x)%string. rewrite !str_app_assoc. reflexivity.
  - exists (a ++ "/" ++ x)%string. rewrite !str_app_assoc. reflexivity.
Qed.
Lemma abspath_ends f dirs x ext p : get_abspath_in f dirs (x ++ "." ++ ext) = Some p -> ends_in ext p.
Proof.
  induction dirs as [|d dirs IH]; cbn -[String.append]; [discriminate|].
  destruct (path_exists f _); [|exact IH]. intros H. injection H as <-. eapply join_ends. reflexivity.
Qed.

(** Whether a name with a suffix is found as it is, under url_base or in the package, the suffix of the name
    decides (files of other packages and downloads have paths of their own). *)
Theorem C130_follows_name {T} (read : reader -> string -> result T) f x ext c :
  nt_aux_installed f = false -> skip_mongo_db f = true ->
  let fname := (x ++ "." ++ ext)%string in
  match snd (get_file_path f fname c) with
  | Err e => snd (load_table read f fname c) = Err e
  | Ok path =>
      (ext = "csv" -> snd (load_table read f fname c) = read Csv path) /\
      (ext = "pkl" -> snd (load_table read f fname c) = read Pickle path) /\
      (no_dot ext = true -> ext <> "csv" -> ext <> "pkl" -> snd (load_table read f fname c) = Err ValueError)
  end.
Proof.
  intros HN HM fname. unfold load_table.
  assert (P : forall path, snd (get_file_path f fname c) = Ok path -> ends_in ext path).
  { assert (Q : forall path, get_file_path_345 f fname = Ok path -> ends_in ext path).
    { intros path. unfold get_file_path_345. destruct (get_abspath f fname) as [p|] eqn:A.
      - intros H. injection H as <-. exact (abspath_ends _ _ _ _ _ A).
      - rewrite HN, HM. discriminate. }
    intros path. unfold get_file_path. destruct (isfile f fname).
    { intros H. injection H as <-. right. exists x. reflexivity. }
    destruct (rd_in "url_base" c); [|apply Q]. destruct (rd_getitem "url_base" c) as [c1 [v|e]]; [|discriminate].
    destruct v as [|b|z|s|vs|es]; try discriminate. destruct (starts_with_slash s); [|apply Q].
    destruct (path_exists f (path_join s fname)); [|apply Q]. intros H. injection H as <-. eapply join_ends. reflexivity. }
  destruct (get_file_path f fname c) as [c1 [path|e]]; cbn [snd] in *; [|reflexivity].
  specialize (P path eq_refl). unfold read_path.
  destruct (C130_reader path) as (R1 & R2 & R3). repeat split.
  - intros ->. rewrite (proj2 R1 P). reflexivity.
  - intros ->. rewrite (proj2 R2 P). reflexivity.
  - intros Nd N1 N2. apply (last_ends ext path Nd) in P.
    rewrite (proj2 R3); [reflexivity|]. split; intros H; [apply (last_ends "csv" path eq_refl) in H|apply (last_ends "pkl" path eq_refl) in H]; congruence.
Qed.

Lemma load_needed oor g1 g2 cfg e lk : new_likelihood oor g1 g2 cfg (Err e) = Ok lk -> False.
Proof.
  unfold new_likelihood. destruct (normalise_bins _ _) as [[on bs]|e']; [|discriminate]. destruct (negb _); discriminate.
Qed.

(** A context can only be constructed from data files that end in .csv or .pkl: with every Poisson likelihood there
    is a path that was found for its data file, and its data were read from there with the reader of its suffix. *)
Theorem C130_context {K} (E : ModelWhole.env K) read manager ins par w w' c lname li cfg file :
  (forall path t, e_read E path = Ok t -> read_path read path = Ok t) -> new_context K E manager ins par w = (w', Ok c) ->
  In (lname, li) (in_llhs ins) -> li_type li = TDefault cfg file ->
  exists cache path t, snd (get_file_path (e_fs E) file cache) = Ok path /\
    (ends_in "csv" path /\ read Csv path = Ok t \/ ends_in "pkl" path /\ read Pickle path = Ok t).
Proof.
  intros HE H Hi Ht. destruct (context_made E _ _ _ _ _ _ H) as (w1 & _ & _ & F).
  assert (L : exists cl, made_llh E w1 (lname, li) cl).
  { clear - F Hi. induction F as [|x y l l' R F IH]; [destruct Hi|]. destruct Hi as [->|Hi]; [exists y; exact R|apply IH; exact Hi]. }
  destruct L as (cl & _ & (wa & wb & _ & M) & _). cbn [snd] in M. rewrite Ht in M. cbn [make_type] in M.
  unfold ModelWhole.load_data in M. exists (w_cache wa).
  destruct (get_file_path (e_fs E) file (w_cache wa)) as [c1 [path|e]]; cbn [snd].
  - exists path. destruct (e_read E path) as [t|e] eqn:R; [|exfalso; destruct (new_likelihood _ _ _ _ (Err e)) eqn:N; [exact (load_needed _ _ _ _ _ _ N)|discriminate M]]. exists t. split; [reflexivity|].
    apply HE in R. unfold read_path in R. destruct (C130_reader path) as (R1 & R2 & _).
    destruct (reader_of path) as [[|]|e]; [left|right|discriminate R]; (split; [|exact R]); [apply R1|apply R2]; reflexivity.
  - exfalso. destruct (new_likelihood _ _ _ _ (Err e)) eqn:N; [exact (load_needed _ _ _ _ _ _ N)|discriminate M].
Qed.

(** What save_code writes for a deduced component is the text that compile executes: executing the file later, in
    whatever namespace, fails or succeeds as compile does and leaves a function that computes the same. *)
Theorem C130_saved calls limit data_names func nodep noeff f plugins k w w1 k1 w2 ns wt nst rt wc kc rc opens fl0 path :
  k_registry k = registry_after calls -> unique_names (k_registry k) ->
  deduce limit data_names func nodep noeff k w = (w1, k1, Ok tt) ->
  w_fn w2 = w_fn w1 -> w_heap w2 = w_heap w1 ->
  plain (k_name k) (k_llh k) func nodep (k_worksheet k1) (output_names data_names noeff) ->
  no_clash (k_name k) func nodep (k_worksheet k1) -> opens path = None ->
  let saved := save_code opens fl0 path (Some (code_text data_names nodep noeff k1)) in
  snd saved = Ok tt /\ (forall p, p <> path -> fst saved p = fl0 p) /\
  exists t, fst saved path = Some t /\
    (py_exec f plugins (string_of_list_ascii t) ns w2 = (wt, nst, rt) -> compile f plugins k1 w2 = (wc, kc, rc) ->
     rt = rc /\ w_cache wt = w_cache wc /\ w_class wt = w_class wc /\
     (rc = Ok tt -> forall V isem key n params,
        py_call V isem func nst key n params = simulate V isem kc key n params)).
Proof.
  intros Hr Hu Hd Hf Hh P C O saved. unfold saved, save_code. rewrite O. cbn [fst snd]. split; [reflexivity|]. split.
  - intros p N. unfold write. apply String.eqb_neq in N. rewrite N. reflexivity.
  - exists (txt (code_text data_names nodep noeff k1)). split; [unfold write; rewrite String.eqb_refl; reflexivity|].
    unfold txt. rewrite string_of_list_ascii_of_string. intros Ht Hc.
    eapply C109_compile; eassumption.
Qed.

Example C130_saved_case : exists w1 k1 wt nst t,
  deduce 20 ["cs2"; "cs1"] "simulate" "batch_size" false demo_k init_world = (w1, k1, Ok tt) /\
  fst (save_code (fun _ => None) (fun _ => Some (txt "old")) "code.py" (Some (code_text ["cs2"; "cs1"] "batch_size" false k1))) "code.py" = Some t /\
  py_exec all_files demo_plugins (string_of_list_ascii t) [] w1 = (wt, nst, Ok tt) /\
  py_call nat demo_isem "simulate" nst 0 7 0 = Ok (5, [41; 13; 71])%list.
Proof.
  destruct C109_instance as (w1 & k1 & wt & nst & _ & _ & D & _ & _ & X & Y). exists w1, k1, wt, nst. eexists. split; [exact D|].
  split; [reflexivity|]. split; [|exact Y]. unfold txt. rewrite string_of_list_ascii_of_string. exact X.
Qed.

(** A component of which nothing was deduced: an AttributeError, and what was in the file is gone. *)
Theorem C130_nothing_to_save_refuted opens fl0 path old : opens path = None -> fl0 path = Some old ->
  fst (save_code opens fl0 path None) path = Some [] /\ snd (save_code opens fl0 path None) = Err AttributeError /\
  forall p, p <> path -> fst (save_code opens fl0 path None) p = fl0 p.
Proof.
  intros O _. unfold save_code. rewrite O. cbn [fst snd]. unfold write. rewrite String.eqb_refl. split; [reflexivity|]. split; [reflexivity|].
  intros p N. apply String.eqb_neq in N. rewrite N. reflexivity.
Qed.

(** A file called "csv" in the working directory is read, the same file under url_base is refused; a directory
    with a dot in its name does not help; capital letters and compressed files are refused. *)
Theorem C130_bare_name_refuted : exists f, isfile f "csv" = false /\
  (forall read : reader -> string -> result nat, snd (load_table read f "csv" (mk_rdict [("url_base", VStr "/data")] [])) = Err ValueError) /\
  (forall read : reader -> string -> result nat,
     snd (load_table read (mk_fs (fun s => String.eqb s "csv") (path_exists f) (package_path f) false [] (fun s => s) true (fun _ => None)) "csv"
            (mk_rdict [] [])) = read Csv "csv").
Proof.
  exists (mk_fs (fun _ => false) (fun s => String.eqb s "/data/csv") (fun s => s) false [] (fun s => s) true (fun _ => None)).
  split; [reflexivity|]. split; reflexivity.
Qed.
Example C130_reader_case :
  reader_of "/data/rn220.csv" = Ok Csv /\ reader_of "/data.v2/ac.old.pkl" = Ok Pickle /\
  reader_of "/data/rn220.CSV" = Err ValueError /\ reader_of "/data/rn220.csv.gz" = Err ValueError /\
  reader_of "/data.csv/rn220" = Err ValueError /\ reader_of "/data/rn220.h5" = Err ValueError.
Proof. repeat split. Qed.

(** The context of PropWhole.v. *)
Example C130_context_case : exists read w' c,
  (forall path t, e_read w_env path = Ok t -> read_path read path = Ok t) /\
  new_context nat w_env w_manager w_ins (Ok w_par) init_world = (w', Ok c) /\
  exists li, In ("rn", li) (in_llhs w_ins) /\ li_type li = TDefault w_config "data.csv".
Proof.
  destruct C82_case as (w' & c & _ & _ & H & _). exists (fun _ => e_read w_env), w', c. split.
  - intros path t. cbn [e_read w_env]. destruct (String.eqb path "/d/data.csv") eqn:A.
    + apply String.eqb_eq in A. subst path. intros H1. exact H1.
    + destruct (String.eqb path "/d/ac.csv") eqn:B; [|discriminate]. apply String.eqb_eq in B. subst path. intros H1. exact H1.
  - split; [exact H|]. eexists. split; [left; reflexivity|reflexivity].
Qed.

Definition l_files : fs :=
  mk_fs (fun s => String.eqb s "/d/data.csv") (fun s => String.eqb s "/d/data.csv" || String.eqb s "/d/data.txt") (fun s => "/pkg/" ++ s)%string
    false [] (fun s => s) true (fun _ => None).
Definition l_read (r : reader) (s : string) : result nat := match r with Csv => Ok 1 | Pickle => Ok 2 end.
Example C130_load_case :
  let c := mk_rdict [("url_base", VStr "/d")] [] in
  snd (load_table l_read l_files "data.csv" c) = Ok 1 /\ snd (load_table l_read l_files "data.txt" c) = Err ValueError /\
  snd (load_table l_read l_files "no.txt" c) = Err RuntimeError.
Proof. repeat split. Qed.

Print Assumptions C130_reader.
Print Assumptions C130_follows_name.
Print Assumptions C130_context.
Print Assumptions C130_saved.
Print Assumptions C130_nothing_to_save_refuted.
Print Assumptions C130_bare_name_refuted.
