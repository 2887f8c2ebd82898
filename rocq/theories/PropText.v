(** C49 at the level of characters: the text json writes into the backend file, with its escapes and its
    indentation, and what Python makes of it when from_backend evaluates it. *)
From Coq Require Import Ascii NArith Sorted Permutation.
From Verif Require Import Base BaseFacts ModelContext SpecContext ProofContext.
From Verif Require Import ModelText SpecText ProofText ProofText2.
Local Open Scope list_scope.

(** An instruction without booleans, null and numbers that are not finite comes back equal, with its dictionaries
    sorted by key, if its strings have no characters above U+FFFF. *)
Theorem C49_text_restored v : python_object v -> ~ has_word v -> basic v ->
  exists v', reopened_instruct (stored_instruct v) = Ok v' /\ same v v' /\ key_sorted v'.
Proof.
  intros O W B. rewrite reopened by exact (object_good _ O). unfold outcome.
  destruct (wordy v) eqn:E; [exfalso; apply W, wordy_iff, E|].
  destruct (res_same v O E B) as [S K]. eauto.
Qed.

(** With one of them, however deep inside, it cannot be read. *)
Theorem C49_text_name_error v : python_object v -> has_word v ->
  reopened_instruct (stored_instruct v) = Err NameError.
Proof.
  intros O W. rewrite reopened by exact (object_good _ O). unfold outcome.
  apply wordy_iff in W. rewrite W. reflexivity.
Qed.

(** With a character above U+FFFF something comes back that is not equal; no other exception. *)
Theorem C49_text_characters v : python_object v -> ~ has_word v -> ~ basic v ->
  exists v', reopened_instruct (stored_instruct v) = Ok v' /\ basic v' /\ ~ same v v'.
Proof.
  intros O W B. pose proof (object_good _ O) as G. rewrite reopened by exact G. unfold outcome.
  destruct (wordy v) eqn:E; [exfalso; apply W, wordy_iff, E|].
  exists (res v). pose proof (res_basic v G) as R. split; [reflexivity|]. split; [exact R|].
  intros S. apply B. intros s Hs. apply R. exact (same_text _ _ _ S Hs).
Qed.

(** What such a string becomes. *)
Theorem C49_text_string s : Forall (fun c => (c < 1114112)%N) s ->
  exists s', reopened_instruct (stored_instruct (JStr s)) = Ok (JStr s') /\ split_up s s'.
Proof.
  intros H. rewrite reopened by exact H. exists (cut s). split; [reflexivity|]. apply cut_split, H.
Qed.

(** Some of the text of the shipped instructs/literature_lyqy.json as the fit writes it. *)
Definition py (s : string) : pystr := map N_of_ascii (txt s).
Definition lit_instruct : json :=
  JDict [(py "configs", JDict [(py "field", JDict [(py "ly_lux_2016", JNum false (txt "180.0"))]);
                               (py "efield_position_dependence", JDict [(py "ly_lux_2016", JBool false)])]);
         (py "par_config", JStr (py "nestv2_yield_only.json"))].
Example C49_text_case : stored_instruct lit_instruct = txt
"{
    ""configs"": {
        ""efield_position_dependence"": {
            ""ly_lux_2016"": false
        },
        ""field"": {
            ""ly_lux_2016"": 180.0
        }
    },
    ""par_config"": ""nestv2_yield_only.json""
}".
Proof. vm_compute. reflexivity. Qed.

(** The shipped instruct cannot be restored. *)
Theorem C49_text_shipped_refuted :
  python_object lit_instruct /\ reopened_instruct (stored_instruct lit_instruct) = Err NameError.
Proof.
  assert (D : forall (x : json) v, part x v -> In x ((fix all v := v ::
     match v with JList l => flat_map all l | JDict d => flat_map (fun kv => all (snd kv)) d | _ => [] end) v)).
  { intros x v H. induction H as [|l v Hi _ IH|d k v Hi _ IH].
    - destruct x; left; reflexivity.
    - right. apply in_flat_map. eauto.
    - right. apply in_flat_map. exists (k, v). auto. }
  split; [|vm_compute; reflexivity]. constructor.
  - intros neg d H. apply D in H. cbn in H.
    repeat destruct H as [H|H]; try discriminate H; try contradiction. injection H as <- <-.
    split; [reflexivity|]. intros [? ?]. discriminate.
  - intros s [H|(d & H & Hs)].
    + apply D in H. cbn in H. repeat destruct H as [H|H]; try discriminate H; try contradiction. injection H as <-.
      repeat constructor.
    + apply D in H. cbn in H. repeat destruct H as [H|H]; try discriminate H; try contradiction; injection H as <-;
        cbn in Hs; repeat destruct Hs as [<-|Hs]; try contradiction; repeat constructor.
  - intros d H. apply D in H. cbn in H. repeat destruct H as [H|H]; try discriminate H; try contradiction; injection H as <-;
      cbn; repeat constructor; cbn; intuition discriminate.
Qed.

(** Escapes, numbers and nesting of an instruction that can be. *)
Definition odd_instruct : json :=
  JDict [(py "b\", JList [JNum true (txt "0.5"); JNum false (txt "1e-07"); JList []; JDict []]);
         (py "a""", JStr [233; 10; 9; 127; 8364; 55357]%N)].
Example C49_text_odd : ~ has_word odd_instruct /\ basic odd_instruct /\
  stored_instruct odd_instruct = txt
"{
    ""a\"""": ""\u00e9\n\t\u007f\u20ac\ud83d"",
    ""b\\"": [
        -0.5,
        1e-07,
        [],
        {}
    ]
}" /\
  reopened_instruct (stored_instruct odd_instruct) =
    Ok (JDict [(py "a""", JStr [233; 10; 9; 127; 8364; 55357]%N);
               (py "b\", JList [JNum true (txt "0.5"); JNum false (txt "1e-07"); JList []; JDict []])]).
Proof.
  split; [rewrite <- wordy_iff; vm_compute; discriminate|]. split; [|split; vm_compute; reflexivity].
  intros s Hs. assert (E : res odd_instruct = JDict [(py "a""", JStr [233; 10; 9; 127; 8364; 55357]%N);
    (py "b\", JList [JNum true (txt "0.5"); JNum false (txt "1e-07"); JList []; JDict []])]) by (vm_compute; reflexivity).
  assert (B : basic (res odd_instruct)).
  { apply res_basic. cbn. repeat (split; [repeat constructor|]). repeat constructor. }
  apply B. rewrite E. destruct Hs as [H|(d & H & Hd)].
  - inversion H as [| |? k v Hi Hp]; subst. left. apply (part_value _ _ k v); [|exact Hp].
    cbn in *. tauto.
  - inversion H as [| |? k v Hi Hp]; subst.
    + right. eexists. split; [constructor|]. cbn in *. tauto.
    + right. exists d. split; [|exact Hd]. apply (part_value _ _ k v); [|exact Hp]. cbn in *. tauto.
Qed.

(** * The order of the likelihoods *)

(** The instructions of the likelihoods in another order, and so the copied parameters of each. *)
Definition reordered (ls ls' : dict linstr) : Prop :=
  exists ls1, Permutation ls ls1 /\
    Forall2 (fun a b => fst a = fst b /\ Permutation (i_copy (snd a)) (i_copy (snd b)) /\
                        Permutation (i_components (snd a)) (i_components (snd b))) ls1 ls'.

Lemma reordered_copies ls ls' : reordered ls ls' -> Permutation (all_copies ls) (all_copies ls').
Proof.
  intros (ls1 & P & F). unfold all_copies. rewrite P. clear P.
  induction F as [|a b l l' (_ & H & _) F IH]; cbn [flat_map]; [reflexivity|].
  apply Permutation_app; assumption.
Qed.
Lemma reordered_rate ls ls' n : reordered ls ls' -> is_rate ls n -> is_rate ls' n.
Proof.
  intros (ls1 & P & F) (nl & c & Hi & Hc & ->). apply (Permutation_in _ P) in Hi. clear P.
  induction F as [|a b l l' (_ & _ & H) F IH]; [destruct Hi|]. destruct Hi as [->|Hi].
  - exists b, c. split; [left; reflexivity|]. split; [exact (Permutation_in _ H Hc)|reflexivity].
  - destruct (IH Hi) as (nl' & c' & ? & ? & ?). exists nl', c'. split; [right; assumption|auto].
Qed.
Lemma reordered_sym ls ls' : reordered ls ls' -> reordered ls' ls.
Proof.
  intros (ls1 & P & F). revert ls P. unfold reordered.
  assert (Q : Forall2 (fun a b : string * linstr => fst a = fst b /\ Permutation (i_copy (snd a)) (i_copy (snd b)) /\
                        Permutation (i_components (snd a)) (i_components (snd b))) ls' ls1).
  { induction F as [|a b l l' (H1 & H2 & H3) F IH]; constructor; [|exact IH].
    split; [auto|]. split; apply Permutation_sym; assumption. }
  clear F. intros ls P. apply Permutation_sym in P. revert ls' Q. induction P as [|x l l' P IH|x y l|l l' l'' P1 IH1 P2 IH2]; intros ls' Q.
  - exists []. inversion Q; subst. auto.
  - inversion Q as [|a ? la ? Ha Hl]; subst. destruct (IH _ Hl) as (m & Pm & Fm).
    exists (a :: m). split; [apply perm_skip, Pm|constructor; assumption].
  - inversion Q as [|a ? la ? Ha Hl]; subst. inversion Hl as [|b ? lb ? Hb Hl']; subst.
    exists (b :: a :: lb). split; [apply perm_swap|]. constructor; [exact Hb|]. constructor; assumption.
  - destruct (IH1 _ Q) as (m & Pm & Fm). destruct (IH2 _ Fm) as (m2 & Pm2 & Fm2).
    exists m2. split; [exact (Permutation_trans Pm Pm2)|exact Fm2].
Qed.

(** A restored context has the parameters of the original one if the copied names are distinct and none of
    them is copied again. *)
Theorem C49_parameters {V} (ls ls' : dict linstr) (cfg cfg' : dict V) :
  NoDup (keys cfg) -> NoDup (keys cfg') -> (forall n, get n cfg = get n cfg') ->
  reordered ls ls' -> NoDup (map fst (all_copies ls)) ->
  (forall n, In n (map fst (all_copies ls)) -> ~ In n (map snd (all_copies ls))) ->
  match update_parameter_config ls cfg, update_parameter_config ls' cfg' with
  | Ok (c, needed), Ok (c', needed') =>
      (forall n, get n c = get n c') /\ (forall n, In n needed <-> In n needed')
  | Err e, Err e' => e = KeyError /\ e' = KeyError
  | _, _ => False
  end.
Proof.
  intros ND ND' Hcfg R HT HS.
  pose proof (reordered_copies _ _ R) as P.
  assert (HT' : NoDup (map fst (all_copies ls'))) by (rewrite <- P; exact HT).
  assert (Ik : forall n, In n (map fst (all_copies ls)) <-> In n (map fst (all_copies ls'))).
  { intros n. split; apply Permutation_in, Permutation_map; [exact P|exact (Permutation_sym P)]. }
  assert (Iv : forall n, In n (map snd (all_copies ls)) <-> In n (map snd (all_copies ls'))).
  { intros n. split; apply Permutation_in, Permutation_map; [exact P|exact (Permutation_sym P)]. }
  assert (HS' : forall n, In n (map fst (all_copies ls')) -> ~ In n (map snd (all_copies ls'))).
  { intros n H1 H2. apply Ik in H1. apply Iv in H2. exact (HS n H1 H2). }
  assert (Kk : forall n, In n (keys cfg) <-> In n (keys cfg')).
  { intros n. rewrite !get_In_keys, Hcfg. reflexivity. }
  destruct (update_parameter_config ls cfg) as [[c needed]|e] eqn:E, (update_parameter_config ls' cfg') as [[c' needed']|e'] eqn:E'.
  - destruct (update_config_ok ls cfg ND HT HS _ _ E) as (A1 & A2 & A3 & A4 & A5).
    destruct (update_config_ok ls' cfg' ND' HT' HS' _ _ E') as (B1 & B2 & B3 & B4 & B5).
    split; [|intros n; rewrite A5, B5; apply Ik]. intros n.
    destruct (In_dec_str n (map fst (all_copies ls))) as [Hk|Hk].
    + apply in_map_iff in Hk. destruct Hk as ([k v] & Ek & Hk). cbn in Ek. subst k.
      destruct (A1 n v Hk) as (s & S1 & S2). destruct (B1 n v (Permutation_in _ P Hk)) as (s' & S1' & S2').
      rewrite Hcfg in S1. congruence.
    + destruct (In_dec_str n (map snd (all_copies ls))) as [Hv|Hv].
      * assert (D : is_rate ls n \/ ~ is_rate ls n).
        { rewrite <- in_rates, <- mem_In. destruct (mem n _); [left; reflexivity|right; discriminate]. }
        destruct D as [D|D].
        -- rewrite (A3 n Hv D). rewrite (B3 n); [apply Hcfg|apply Iv, Hv|exact (reordered_rate _ _ _ R D)].
        -- rewrite (A2 n Hv D). symmetry. apply B2; [apply Iv, Hv|].
           intros D'. apply D. exact (reordered_rate _ _ _ (reordered_sym _ _ R) D').
      * rewrite (A4 n Hk Hv), Hcfg. symmetry. apply B4; [rewrite <- Ik; exact Hk|rewrite <- Iv; exact Hv].
  - destruct (In_dec_str "" []) as [[]|_].
    assert (X : (forall v, In v (map snd (all_copies ls')) -> In v (keys cfg')) -> False).
    { intros H. destruct (update_config_total ls' cfg' HS' H) as (a & b & Eb). congruence. }
    apply X. intros v Hv. apply Iv in Hv. apply in_map_iff in Hv. destruct Hv as ([k v0] & Ev & Hv). cbn in Ev. subst v0.
    destruct (update_config_ok ls cfg ND HT HS _ _ E) as (A1 & _). destruct (A1 k v Hv) as (s & S1 & _).
    apply Kk, get_In_keys. eauto.
  - assert (X : (forall v, In v (map snd (all_copies ls)) -> In v (keys cfg)) -> False).
    { intros H. destruct (update_config_total ls cfg HS H) as (a & b & Eb). congruence. }
    apply X. intros v Hv. apply Iv in Hv. apply in_map_iff in Hv. destruct Hv as ([k v0] & Ev & Hv). cbn in Ev. subst v0.
    destruct (update_config_ok ls' cfg' ND' HT' HS' _ _ E') as (A1 & _). destruct (A1 k v Hv) as (s & S1 & _).
    apply Kk, get_In_keys. eauto.
  - unfold update_parameter_config in E, E'. fold (all_copies ls) in E. fold (all_copies ls') in E'.
    destruct (copy_loop (all_copies ls) cfg) as [x|y] eqn:L; cbn [bind] in E; [discriminate|].
    destruct (copy_loop (all_copies ls') cfg') as [x'|y'] eqn:L'; cbn [bind] in E'; [discriminate|].
    destruct (copy_loop_err (all_copies ls) cfg HS) as [_ A]. destruct (copy_loop_err (all_copies ls') cfg' HS') as [_ A'].
    specialize (A _ L). specialize (A' _ L'). split; congruence.
Qed.

(** Otherwise not: a parameter copied in one likelihood and copied again in one with an earlier name. Restored, the
    context has another value for it or, if it is not configured itself, cannot be made. *)
Theorem C49_parameters_order_refuted : exists ls ls' (cfg : dict nat) c c' n,
  reordered ls ls' /\ StronglySorted (fun a b => String.leb (fst a) (fst b) = true) ls' /\
  NoDup (map fst (all_copies ls)) /\
  update_parameter_config ls cfg = Ok (c, ["x"; "y"]%string) /\
  update_parameter_config ls' cfg = Ok (c', ["y"; "x"]%string) /\ get n c <> get n c' /\
  update_parameter_config ls' (del "x" cfg) = Err KeyError /\
  exists c'', update_parameter_config ls (del "x" cfg) = Ok c''.
Proof.
  exists [("rn", mk_linstr [("x", "er")] []); ("ar", mk_linstr [("y", "x")] [])]%string,
    [("ar", mk_linstr [("y", "x")] []); ("rn", mk_linstr [("x", "er")] [])]%string,
    [("er", 1); ("x", 2)]%string. do 2 eexists. exists "y"%string.
  split. { eexists. split; [apply perm_swap|]. repeat constructor. }
  split. { repeat constructor. }
  split. { repeat constructor; cbn; intuition discriminate. }
  split; [reflexivity|]. split; [reflexivity|]. split; [discriminate|]. split; [reflexivity|].
  eexists. reflexivity.
Qed.

Example C49_parameters_case : exists ls ls' c c',
  reordered ls ls' /\ ls <> ls' /\ NoDup (map fst (all_copies ls)) /\
  (forall n, In n (map fst (all_copies ls)) -> ~ In n (map snd (all_copies ls))) /\
  update_parameter_config ls [("g2", 1); ("er_rate", 2); ("g1", 3)]%string = Ok c /\
  update_parameter_config ls' [("g1", 3); ("g2", 1); ("er_rate", 2)]%string = Ok c' /\ c <> c'.
Proof.
  exists [("rn", mk_linstr [("r1", "er_rate"); ("g2_rn", "g2")] ["er"]); ("ar", mk_linstr [("g2_ar", "g2")] ["nr"])]%string,
    [("ar", mk_linstr [("g2_ar", "g2")] ["nr"]); ("rn", mk_linstr [("g2_rn", "g2"); ("r1", "er_rate")] ["er"])]%string.
  do 2 eexists. split.
  { eexists. split; [apply perm_swap|]. constructor; [cbn; auto|]. constructor; [|constructor].
    cbn. split; [reflexivity|]. split; [apply perm_swap|reflexivity]. }
  split; [discriminate|].
  split. { cbn. repeat constructor; cbn; intuition discriminate. }
  split. { intros n [<-|[<-|[<-|[]]]] H; cbn in H; intuition discriminate. }
  split; [reflexivity|]. split; [reflexivity|]. discriminate.
Qed.

Print Assumptions C49_text_restored.
Print Assumptions C49_text_name_error.
Print Assumptions C49_text_characters.
Print Assumptions C49_text_string.
Print Assumptions C49_text_shipped_refuted.
Print Assumptions C49_parameters.
Print Assumptions C49_parameters_order_refuted.
