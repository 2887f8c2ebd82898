(** More lemmas about reading an instruction: parsing and evaluating. *)
From Coq Require Import Ascii NArith Sorted Lia Permutation.
From Verif Require Import Base ModelText SpecText ProofText.
Local Open Scope list_scope.

(** ** Parsing *)

Definition name (n : string) : expr := EName (txt n).
Fixpoint ex (v : json) : expr :=
  match v with
  | JNull => name "null"
  | JBool b => name (if b then "true" else "false")
  | JNan => name "NaN"
  | JInf neg => if neg then ENeg (name "Infinity") else name "Infinity"
  | JNum neg d => if neg then ENeg (ENum d) else ENum d
  | JStr s => EStr (cut s)
  | JList l => EList (map ex l)
  | JDict d => EDict (map (fun kt => (EStr (cut (fst kt)), snd kt)) (sort_keys (map (fun kv => (fst kv, ex (snd kv))) d)))
  end.

Definition opens (t : token) : Prop := t <> TEnd /\ t <> TClose.
Lemma toks_open v : exists t ts, toks v = t :: ts /\ opens t.
Proof.
  unfold opens. destruct v as [|[]| |[]|[] ?|?|?|?]; cbn; eexists; eexists; (split; [reflexivity|split; discriminate]).
Qed.

Definition parses (ts : list token) (e : expr) : Prop :=
  forall fuel rest, 2 * List.length ts <= fuel -> parse fuel (ts ++ rest) = Some (e, rest).

Lemma items_open fuel t ts : opens t ->
  items (S fuel) (t :: ts) =
  match parse fuel (t :: ts) with
  | Some (e, TEnd :: ts) => Some ([e], ts)
  | Some (e, TComma :: ts) =>
      match items fuel ts with Some (l, ts) => Some (e :: l, ts) | None => None end
  | _ => None
  end.
Proof. intros [H _]. destruct t; try reflexivity. congruence. Qed.

Lemma pairs_open fuel s ts :
  pairs (S fuel) (TStr s :: TColon :: ts) =
  match fuel with
  | O => None
  | _ =>
      match parse fuel ts with
      | Some (e, TClose :: ts) => Some ([(EStr s, e)], ts)
      | Some (e, TComma :: ts) =>
          match pairs fuel ts with Some (d, ts) => Some ((EStr s, e) :: d, ts) | None => None end
      | _ => None
      end
  end.
Proof. destruct fuel; reflexivity. Qed.

Lemma join_cons {A} (sep x : list A) y l : join sep (x :: y :: l) = x ++ sep ++ join sep (y :: l).
Proof. reflexivity. Qed.

Lemma items_join : forall (l : list json) fuel rest, Forall (fun v => parses (toks v) (ex v)) l ->
  2 * S (List.length (join [TComma] (map toks l))) <= fuel ->
  items fuel (join [TComma] (map toks l) ++ TEnd :: rest) = Some (map ex l, rest).
Proof.
  induction l as [|v l IH]; intros fuel rest H Hf; (destruct fuel as [|fuel]; [lia|]).
  - reflexivity.
  - inversion H as [|? ? Hv Hl]; subst. destruct l as [|v' l].
    + cbn [map join]. cbn [map join] in Hf. destruct (toks_open v) as (t & ts & E & O).
      rewrite E. cbn [app]. rewrite items_open by exact O.
      change (t :: ts ++ TEnd :: rest) with ((t :: ts) ++ TEnd :: rest). rewrite <- E.
      rewrite Hv by lia. reflexivity.
    + cbn [map] in *. rewrite join_cons in *. rewrite !app_length in Hf. cbn [List.length] in Hf.
      rewrite <- !app_assoc. destruct (toks_open v) as (t & ts & E & O).
      rewrite E. cbn [app]. rewrite items_open by exact O.
      match goal with |- context [parse fuel (t :: ts ++ ?r)] => change (t :: ts ++ r) with ((t :: ts) ++ r) end.
      rewrite <- E. rewrite Hv by lia. rewrite (IH fuel rest Hl) by lia. reflexivity.
Qed.

Definition tentry (kt : pystr * list token) : list token := TStr (cut (fst kt)) :: TColon :: snd kt.
Lemma pairs_join : forall (d : list (pystr * json)) fuel rest, Forall (fun kv => parses (toks (snd kv)) (ex (snd kv))) d ->
  2 * S (List.length (join [TComma] (map tentry (map (on_value toks) d)))) <= fuel ->
  pairs fuel (join [TComma] (map tentry (map (on_value toks) d)) ++ TClose :: rest)
  = Some (map (fun kt => (EStr (cut (fst kt)), snd kt)) (map (on_value ex) d), rest).
Proof.
  induction d as [|[k v] d IH]; intros fuel rest H Hf; (destruct fuel as [|fuel]; [lia|]).
  - reflexivity.
  - inversion H as [|? ? Hv Hd]; subst. cbn [snd] in Hv. destruct d as [|kv' d].
    + cbn [map join]. cbn [map join] in Hf. unfold tentry, on_value in *. cbn [fst snd app List.length] in *.
      rewrite pairs_open. destruct fuel as [|fuel]; [lia|]. rewrite Hv by lia. reflexivity.
    + cbn [map] in *. rewrite join_cons in *. rewrite !app_length in Hf. cbn [List.length] in Hf.
      rewrite <- !app_assoc. change (tentry (on_value toks (k, v))) with (TStr (cut k) :: TColon :: toks v) in *.
      cbn [app List.length] in *. rewrite pairs_open. destruct fuel as [|fuel]; [lia|]. rewrite Hv by lia.
      rewrite (IH (S fuel) rest Hd) by lia. reflexivity.
Qed.

Lemma parse_toks : forall v, parses (toks v) (ex v).
Proof.
  induction v as [|b| |neg|neg d|s|l IH|d IH] using json_ind'; intros fuel rest Hf;
    try (destruct fuel as [|fuel]; [cbn in Hf; lia|]; reflexivity).
  - destruct neg; cbn in *; (destruct fuel as [|fuel]; [lia|]); [destruct fuel as [|fuel]; [lia|]|]; reflexivity.
  - destruct neg; cbn in *; (destruct fuel as [|fuel]; [lia|]); [destruct fuel as [|fuel]; [lia|]|]; reflexivity.
  - cbn [toks ex] in *. destruct fuel as [|fuel]; [cbn in Hf; lia|]. cbn [List.length] in Hf.
    rewrite app_length in Hf. cbn [List.length app] in *. rewrite <- app_assoc. cbn [app parse].
    rewrite items_join by (try exact IH; lia). reflexivity.
  - cbn [toks ex] in *. fold tentry in *. rewrite !map_on_value, !sort_map in *.
    destruct fuel as [|fuel]; [cbn in Hf; lia|]. cbn [List.length] in Hf.
    rewrite app_length in Hf. cbn [List.length app] in *. rewrite <- app_assoc. cbn [app parse].
    rewrite pairs_join.
    + reflexivity.
    + rewrite sort_perm in IH. exact IH.
    + lia.
Qed.

(** ** Evaluating *)

Fixpoint wordy (v : json) : bool :=
  match v with
  | JNull | JBool _ | JNan | JInf _ => true
  | JNum _ _ | JStr _ => false
  | JList l => existsb wordy l
  | JDict d => existsb (fun kv => wordy (snd kv)) d
  end.

Definition put_all (d : list (pystr * json)) (acc : list (pystr * json)) : list (pystr * json) :=
  fold_left (fun acc kv => put (cut (fst kv)) (snd kv) acc) d acc.
Fixpoint res (v : json) : json :=
  match v with
  | JStr s => JStr (cut s)
  | JList l => JList (map res l)
  | JDict d => JDict (put_all (sort_keys (map (fun kv => (fst kv, res (snd kv))) d)) [])
  | _ => v
  end.

Definition eval_items := fix go (l : list expr) (acc : list json) : result json :=
  match l with
  | [] => Ok (JList (rev acc))
  | e :: l => match eval e with Ok v => go l (v :: acc) | Err x => Err x end
  end.
Definition eval_pairs := fix go (d : list (expr * expr)) (acc : list (pystr * json)) : result json :=
  match d with
  | [] => Ok (JDict acc)
  | (k, e) :: d =>
      match eval k with
      | Ok (JStr s) => match eval e with Ok v => go d (put s v acc) | Err x => Err x end
      | Ok _ => Err TypeError
      | Err x => Err x
      end
  end.
Definition outcome (v : json) : result json := if wordy v then Err NameError else Ok (res v).

Lemma eval_ex : forall v, eval (ex v) = outcome v.
Proof.
  unfold outcome. induction v as [|b| |neg|neg d|s|l IH|d IH] using json_ind'; try reflexivity.
  - destruct b; reflexivity.
  - destruct neg; reflexivity.
  - destruct neg; reflexivity.
  - cbn [ex wordy res]. change (eval (EList (map ex l))) with (eval_items (map ex l) []).
    assert (G : forall acc, eval_items (map ex l) acc =
      if existsb wordy l then Err NameError else Ok (JList (rev acc ++ map res l))).
    { induction IH as [|v l Hv Hl IHl]; intros acc; cbn [map eval_items existsb].
      - rewrite app_nil_r. reflexivity.
      - rewrite Hv. destruct (wordy v); cbn [orb]; [reflexivity|]. rewrite IHl. cbn [rev].
        rewrite <- app_assoc. reflexivity. }
    apply G.
  - cbn [ex wordy res]. rewrite !map_on_value, !sort_map.
    assert (Hw : existsb (fun kv => wordy (snd kv)) d = existsb (fun kv => wordy (snd kv)) (sort_keys d)).
    { pose proof (sort_perm d) as P. apply eq_true_iff_eq. rewrite !existsb_exists.
      split; intros (kv & Hi & H); exists kv; (split; [|exact H]).
      - exact (Permutation_in _ P Hi).
      - exact (Permutation_in _ (Permutation_sym P) Hi). }
    rewrite Hw. rewrite sort_perm in IH. revert IH. generalize (sort_keys d). clear. intros d IH.
    match goal with |- eval (EDict ?x) = _ => change (eval (EDict x)) with (eval_pairs x []) end.
    generalize (@nil (pystr * json)). induction IH as [|[k v] d Hv Hd IHd]; intros acc; [reflexivity|].
    cbn [map eval_pairs existsb on_value fst snd eval] in *. rewrite Hv. destruct (wordy v); cbn [orb]; [reflexivity|].
    rewrite IHd. reflexivity.
Qed.

Theorem reopened v : good v -> reopened_instruct (stored_instruct v) = outcome v.
Proof.
  intros G. unfold reopened_instruct, stored_instruct, py_eval.
  pose proof (lexes_dumps v 0 G [] I) as E. rewrite app_nil_r in E. rewrite E. cbn [lex push].
  rewrite app_nil_r. pose proof (parse_toks v (2 * S (List.length (toks v))) []) as P.
  rewrite app_nil_r in P. rewrite P by lia. apply eval_ex.
Qed.

(** ** From the vocabulary of the statements *)

Lemma text_in_item l v s : In v l -> text_in s v -> text_in s (JList l).
Proof.
  intros Hv [H|(d & H & Hd)].
  - left. exact (part_item _ _ _ Hv H).
  - right. exists d. split; [exact (part_item _ _ _ Hv H)|exact Hd].
Qed.
Lemma text_in_value d k v s : In (k, v) d -> text_in s v -> text_in s (JDict d).
Proof.
  intros Hv [H|(d' & H & Hd)].
  - left. exact (part_value _ _ _ _ Hv H).
  - right. exists d'. split; [exact (part_value _ _ _ _ Hv H)|exact Hd].
Qed.
Lemma object_item l v : python_object (JList l) -> In v l -> python_object v.
Proof.
  intros [A B C] H. constructor.
  - intros neg d Hp. apply A. exact (part_item _ _ _ H Hp).
  - intros s Hs. apply B. exact (text_in_item _ _ _ H Hs).
  - intros d Hp. apply C. exact (part_item _ _ _ H Hp).
Qed.
Lemma object_value d k v : python_object (JDict d) -> In (k, v) d -> python_object v.
Proof.
  intros [A B C] H. constructor.
  - intros neg x Hp. apply (A neg). exact (part_value _ _ _ _ H Hp).
  - intros s Hs. apply B. exact (text_in_value _ _ _ _ H Hs).
  - intros x Hp. apply C. exact (part_value _ _ _ _ H Hp).
Qed.
Lemma key_text d k v : In (k, v) d -> text_in k (JDict d).
Proof. intros H. right. exists d. split; [constructor|]. change k with (fst (k, v)). apply in_map, H. Qed.

Lemma object_good : forall v, python_object v -> good v.
Proof.
  induction v as [|b| |neg|neg d|s|l IH|d IH] using json_ind'; intros H; try exact I.
  - exact (proj1 (po_num _ H neg d (part_self _))).
  - exact (po_text _ H s (or_introl (part_self _))).
  - apply good_list. rewrite Forall_forall in *. intros v Hv. exact (IH v Hv (object_item _ _ H Hv)).
  - apply good_dict. rewrite Forall_forall in *. intros [k v] Hv. cbn [fst snd]. split.
    + exact (po_text _ H k (key_text _ _ _ Hv)).
    + exact (IH (k, v) Hv (object_value _ _ _ H Hv)).
Qed.

Lemma wordy_iff : forall v, wordy v = true <-> has_word v.
Proof.
  unfold has_word, json_word.
  assert (J : forall x v : json, part x v -> forall l, v = JList l -> x = v \/ exists y, In y l /\ part x y).
  { intros x v H. destruct H as [|l v Hi H|d k v Hi H]; intros l' E; try discriminate; [auto|]. injection E as <-. eauto. }
  assert (K : forall x v : json, part x v -> forall d, v = JDict d -> x = v \/ exists k y, In (k, y) d /\ part x y).
  { intros x v H. destruct H as [|l v Hi H|d k v Hi H]; intros d' E; try discriminate; [auto|]. injection E as <-. eauto. }
  induction v as [|b| |neg|neg d|s|l IH|d IH] using json_ind'; cbn [wordy].
  - split; [intros _; exists JNull; split; [auto|constructor]|reflexivity].
  - split; [intros _; exists (JBool b); split; [eauto|constructor]|reflexivity].
  - split; [intros _; exists JNan; split; [auto|constructor]|reflexivity].
  - split; [intros _; exists (JInf neg); split; [right; right; right; eauto|constructor]|reflexivity].
  - split; [discriminate|]. intros (x & Hx & H). inversion H; subst.
    destruct Hx as [Hx|[[? Hx]|[Hx|[? Hx]]]]; discriminate.
  - split; [discriminate|]. intros (x & Hx & H). inversion H; subst.
    destruct Hx as [Hx|[[? Hx]|[Hx|[? Hx]]]]; discriminate.
  - rewrite existsb_exists. rewrite Forall_forall in IH. split.
    + intros (v & Hv & Hw). apply (IH v Hv) in Hw. destruct Hw as (x & Hx & Hp).
      exists x. split; [exact Hx|]. exact (part_item _ _ _ Hv Hp).
    + intros (x & Hx & Hp). destruct (J _ _ Hp _ eq_refl) as [->|(v & Hv & Hq)].
      * destruct Hx as [Hx|[[? Hx]|[Hx|[? Hx]]]]; discriminate.
      * exists v. split; [exact Hv|]. apply (IH v Hv). eauto.
  - rewrite existsb_exists. rewrite Forall_forall in IH. split.
    + intros ([k v] & Hv & Hw). cbn [snd] in Hw. apply (IH (k, v) Hv) in Hw. destruct Hw as (x & Hx & Hp).
      exists x. split; [exact Hx|]. exact (part_value _ _ _ _ Hv Hp).
    + intros (x & Hx & Hp). destruct (K _ _ Hp _ eq_refl) as [->|(k & v & Hv & Hq)].
      * destruct Hx as [Hx|[[? Hx]|[Hx|[? Hx]]]]; discriminate.
      * exists (k, v). split; [exact Hv|]. apply (IH (k, v) Hv). eauto.
Qed.

(** ** What comes back *)

Lemma cut_basic s : Forall (fun c => (c < 65536)%N) s -> cut s = s.
Proof.
  unfold cut. induction 1 as [|c s H _ IH]; cbn [flat_map]; [reflexivity|].
  unfold units at 1. apply N.ltb_lt in H. rewrite H. cbn [app]. f_equal. exact IH.
Qed.
Lemma cut_is_basic s : Forall (fun c => (c < 1114112)%N) s -> Forall (fun c => (c < 65536)%N) (cut s).
Proof.
  unfold cut. induction 1 as [|c s H _ IH]; cbn [flat_map]; [constructor|]. apply Forall_app. split; [|exact IH].
  unfold units at 1. destruct (N.ltb_spec c 65536) as [L|L]; [constructor; [exact L|constructor]|].
  constructor; [|constructor; [|constructor]].
  - unfold high. assert ((c - 65536) / 1024 < 1024)%N by (apply N.div_lt_upper_bound; [discriminate|lia]). lia.
  - unfold low. assert ((c - 65536) mod 1024 < 1024)%N by (apply N.mod_lt; discriminate). lia.
Qed.
Lemma cut_split s : Forall (fun c => (c < 1114112)%N) s -> split_up s (cut s).
Proof.
  unfold cut. induction 1 as [|c s H _ IH]; cbn [flat_map]; [constructor|].
  unfold units at 1. destruct (N.ltb_spec c 65536) as [L|L]; cbn [app]; [apply split_basic; assumption|].
  apply split_astral; [exact L| | | |exact IH]; unfold high, low.
  - assert (B : ((c - 65536) / 1024 < 1024)%N) by (apply N.div_lt_upper_bound; [discriminate|lia]).
    revert B. generalize ((c - 65536) / 1024)%N. intros; lia.
  - assert (B : ((c - 65536) mod 1024 < 1024)%N) by (apply N.mod_lt; discriminate).
    revert B. generalize ((c - 65536) mod 1024)%N. intros; lia.
  - pose proof (N.div_mod (c - 65536) 1024 ltac:(discriminate)) as B. revert B.
    generalize ((c - 65536) / 1024)%N ((c - 65536) mod 1024)%N. intros; lia.
Qed.

Lemma str_eqb_eq a b : str_eqb a b = true <-> a = b.
Proof.
  revert b. induction a as [|x a IH]; intros [|y b]; cbn; try (split; [discriminate|discriminate]); [tauto|].
  rewrite andb_true_iff, N.eqb_eq, IH. split; [intros [-> ->]; reflexivity|]. injection 1 as -> ->. auto.
Qed.
Lemma put_new k v d : ~ In k (map fst d) -> put k v d = d ++ [(k, v)].
Proof.
  induction d as [|[k' v'] d IH]; cbn [put map fst In app]; intros H; [reflexivity|].
  destruct (str_eqb k k') eqn:E; [apply str_eqb_eq in E; subst; tauto|]. rewrite IH by tauto. reflexivity.
Qed.
Lemma put_all_new : forall d acc, NoDup (map fst (acc ++ d)) ->
  Forall (fun kv => Forall (fun c => (c < 65536)%N) (fst kv)) d -> put_all d acc = acc ++ d.
Proof.
  unfold put_all. induction d as [|[k v] d IH]; intros acc ND H; cbn [fold_left fst snd].
  - rewrite app_nil_r. reflexivity.
  - inversion H as [|? ? Hk Hd]; subst. cbn [fst] in Hk. rewrite (cut_basic _ Hk).
    rewrite put_new.
    + rewrite IH; [rewrite <- app_assoc; reflexivity| |exact Hd]. rewrite <- app_assoc. exact ND.
    + rewrite map_app in ND. cbn [map fst] in ND. apply NoDup_remove_2 in ND. intros Hi. apply ND.
      apply in_or_app. left. exact Hi.
Qed.

Definition sorted_res (d : list (pystr * json)) : list (pystr * json) := sort_keys (map (on_value res) d).
Lemma res_dict d : NoDup (map fst d) -> (forall k, In k (map fst d) -> Forall (fun c => (c < 65536)%N) k) ->
  res (JDict d) = JDict (sorted_res d).
Proof.
  intros ND H. cbn [res]. rewrite map_on_value. fold (sorted_res d). f_equal. unfold sorted_res.
  pose proof (sort_perm (map (on_value res) d)) as P.
  assert (F : map fst (map (on_value res) d) = map fst d) by (rewrite map_map; reflexivity).
  rewrite put_all_new; [reflexivity| |].
  - cbn [app]. rewrite <- (Permutation_map fst P), F. exact ND.
  - rewrite <- P. rewrite Forall_forall. intros [k v] Hi. cbn [fst]. apply H. rewrite <- F.
    change k with (fst (k, v)). apply in_map, Hi.
Qed.

Lemma basic_item l v : basic (JList l) -> In v l -> basic v.
Proof. intros B H s Hs. apply B. exact (text_in_item _ _ _ H Hs). Qed.
Lemma basic_value d k v : basic (JDict d) -> In (k, v) d -> basic v.
Proof. intros B H s Hs. apply B. exact (text_in_value _ _ _ _ H Hs). Qed.
Lemma basic_keys d : basic (JDict d) -> forall k, In k (map fst d) -> Forall (fun c => (c < 65536)%N) k.
Proof. intros B k H. apply B. right. exists d. split; [constructor|exact H]. Qed.

Lemma res_same : forall v, python_object v -> wordy v = false -> basic v -> same v (res v) /\ key_sorted (res v).
Proof.
  induction v as [|b| |neg|neg d|s|l IH|d IH] using json_ind'; intros O W B; try discriminate W.
  - split; [constructor|]. intros x H. inversion H.
  - cbn [res]. rewrite cut_basic by (apply B; left; constructor). split; [constructor|]. intros x H. inversion H.
  - cbn [wordy] in W. rewrite Forall_forall in IH. cbn [res].
    assert (G : forall v, In v l -> same v (res v) /\ key_sorted (res v)).
    { intros v Hv. apply IH; [exact Hv|exact (object_item _ _ O Hv)| |exact (basic_item _ _ B Hv)].
      destruct (wordy v) eqn:E; [|reflexivity]. rewrite <- W. symmetry. apply existsb_exists. eauto. }
    split.
    + constructor. clear - G. induction l as [|v l IHl]; cbn [map]; [constructor|].
      constructor; [apply G; left; reflexivity|]. apply IHl. intros x Hx. apply G. right. exact Hx.
    + intros x H. inversion H as [|? v' Hi Hp|]; subst. apply in_map_iff in Hi. destruct Hi as (v & <- & Hv).
      exact (proj2 (G v Hv) x Hp).
  - cbn [wordy] in W. rewrite Forall_forall in IH.
    pose proof (po_keys _ O d (part_self _)) as ND. pose proof (basic_keys _ B) as BK.
    rewrite res_dict by assumption.
    assert (G : forall k v, In (k, v) d -> same v (res v) /\ key_sorted (res v)).
    { intros k v Hv. apply (IH (k, v) Hv); [exact (object_value _ _ _ O Hv)| |exact (basic_value _ _ _ B Hv)].
      cbn [snd]. destruct (wordy v) eqn:E; [|reflexivity]. rewrite <- W. symmetry. apply existsb_exists.
      exists (k, v). auto. }
    pose proof (sort_perm (map (on_value res) d)) as P. fold (sorted_res d) in P.
    split.
    + apply same_dict.
      * rewrite <- (Permutation_length P), map_length. reflexivity.
      * intros k v Hv. exists (res v). split; [|exact (proj1 (G k v Hv))].
        apply (Permutation_in _ P). change (k, res v) with (on_value res (k, v)). apply in_map, Hv.
    + intros x H. inversion H as [|l v' Hi Hp|d' k v' Hi Hp]; subst.
      * apply sort_sorted. rewrite map_map. exact ND.
      * apply (Permutation_in _ (Permutation_sym P)) in Hi. apply in_map_iff in Hi.
        destruct Hi as ([k0 v0] & E & Hv). unfold on_value in E. cbn in E. injection E as -> <-.
        exact (proj2 (G k v0 Hv) x Hp).
Qed.

(** Whatever comes back has only code points below 0x10000. *)
Lemma put_In k v d k' v' : In (k', v') (put k v d) -> (k' = k /\ v' = v) \/ (In k' (map fst d) /\ v' = v) \/ In (k', v') d.
Proof.
  induction d as [|[a b] d IH]; cbn [put]; intros H.
  - destruct H as [H|[]]. injection H as <- <-. auto.
  - destruct (str_eqb k a); destruct H as [H|H].
    + injection H as <- <-. right. left. cbn. auto.
    + right. right. right. exact H.
    + injection H as <- <-. right. right. left. reflexivity.
    + destruct (IH H) as [?|[[? ?]|?]]; [auto|right; left; cbn; auto|right; right; right; assumption].
Qed.

Lemma res_basic : forall v, good v -> basic (res v).
Proof.
  induction v as [|b| |neg|neg d|s|l IH|d IH] using json_ind'; intros G t Ht;
    try (destruct Ht as [H|(x & H & Hx)]; inversion H; fail).
  - destruct Ht as [H|(x & H & Hx)]; inversion H; subst. apply cut_is_basic, G.
  - rewrite good_list in G. rewrite Forall_forall in G, IH. cbn [res] in Ht.
    assert (Q : exists v, In v (map res l) /\ text_in t v).
    { destruct Ht as [H|(x & H & Hx)].
      - inversion H as [|? v Hi Hp|]; subst. exists v. split; [exact Hi|left; exact Hp].
      - inversion H as [|? v Hi Hp|]; subst. exists v. split; [exact Hi|right; eauto]. }
    destruct Q as (v & Hv & Hp). apply in_map_iff in Hv. destruct Hv as (u & <- & Hu).
    exact (IH u Hu (G u Hu) t Hp).
  - rewrite good_dict in G. cbn [res] in Ht. rewrite map_on_value in Ht.
    pose proof (sort_perm (map (on_value res) d)) as P.
    set (sd := sort_keys (map (on_value res) d)) in *.
    set (bas := fun s : pystr => Forall (fun c => (c < 65536)%N) s).
    assert (Hsd : forall k v, In (k, v) sd -> Forall (fun c => (c < 1114112)%N) k /\ basic v).
    { intros k v Hi. apply (Permutation_in _ (Permutation_sym P)) in Hi. apply in_map_iff in Hi.
      destruct Hi as ([k0 v0] & E & Hv). unfold on_value in E. cbn in E. injection E as -> <-.
      rewrite Forall_forall in G, IH. specialize (G _ Hv). cbn [fst snd] in G. split; [tauto|].
      apply (IH _ Hv). tauto. }
    assert (Q : forall acc, (forall k v, In (k, v) acc -> bas k /\ basic v) ->
                forall k v, In (k, v) (put_all sd acc) -> bas k /\ basic v).
    { unfold put_all. clear P Ht. clearbody sd. induction sd as [|[a b] sd IHs]; intros acc Ha k v Hi; [exact (Ha k v Hi)|].
      cbn [fold_left fst snd] in Hi. apply IHs in Hi; [exact Hi|intros k0 v0 H0; apply Hsd; right; exact H0|].
      intros k0 v0 H0. destruct (Hsd a b (or_introl eq_refl)) as [S1 S2].
      apply put_In in H0. destruct H0 as [[-> ->]|[[Hk ->]|H0]].
      - split; [apply cut_is_basic, S1|exact S2].
      - split; [|exact S2]. apply in_map_iff in Hk. destruct Hk as ([k1 v1] & Ek & Hk). cbn in Ek. subst k1.
        exact (proj1 (Ha _ _ Hk)).
      - exact (Ha _ _ H0). }
    specialize (Q [] ltac:(intros k v [])).
    destruct Ht as [H|(x & H & Hx)].
    + inversion H as [| |? k v Hi Hp]; subst. exact (proj2 (Q k v Hi) t (or_introl Hp)).
    + inversion H as [| |? k v Hi Hp]; subst.
      * apply in_map_iff in Hx. destruct Hx as ([k v] & Ek & Hk). cbn in Ek. subst k. exact (proj1 (Q t v Hk)).
      * apply (proj2 (Q k v Hi) t). right. eauto.
Qed.

(** Equal objects have the same strings. *)
Lemma same_part : forall v v' x, same v v' -> part x v -> exists x', part x' v' /\ same x x'.
Proof.
  intros v v' x H Hp. revert v' H. induction Hp as [|l v Hi Hp IH|d k v Hi Hp IH]; intros v' H.
  - exists v'. split; [constructor|exact H].
  - inversion H as [| | | | |? l' F|]; subst.
    assert (Q : exists y, In y l' /\ same v y).
    { clear - F Hi. induction F as [|a b l l' Hab F IHF]; [destruct Hi|]. destruct Hi as [->|Hi].
      - exists b. split; [left; reflexivity|exact Hab].
      - destruct (IHF Hi) as (y & Hy & Hs). exists y. split; [right; exact Hy|exact Hs]. }
    destruct Q as (y & Hy & Hs). destruct (IH _ Hs) as (x' & Hx & Hsx). exists x'. split; [|exact Hsx].
    exact (part_item _ _ _ Hy Hx).
  - inversion H as [| | | | | |? d' L F]; subst. destruct (F k v Hi) as (y & Hy & Hs).
    destruct (IH _ Hs) as (x' & Hx & Hsx). exists x'. split; [|exact Hsx]. exact (part_value _ _ _ _ Hy Hx).
Qed.
Lemma same_text v v' s : same v v' -> text_in s v -> text_in s v'.
Proof.
  intros H [Hp|(d & Hp & Hs)].
  - destruct (same_part _ _ _ H Hp) as (x & Hx & Hsx). inversion Hsx; subst. left. exact Hx.
  - destruct (same_part _ _ _ H Hp) as (x & Hx & Hsx). inversion Hsx as [| | | | | |? d' L F]; subst.
    right. exists d'. split; [exact Hx|]. apply in_map_iff in Hs. destruct Hs as ([k v0] & E & Hi). cbn in E. subst k.
    destruct (F s v0 Hi) as (y & Hy & _). change s with (fst (s, y)). apply in_map, Hy.
Qed.
