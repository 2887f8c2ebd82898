(** Properties of the process-wide configuration: C26-C30, C32, C45.
    The vocabulary is in SpecConfig.v, the proofs in ProofConfig.v and ProofConfig2.v. *)
From Verif Require Import Base BaseFacts ModelShare ModelConfig ModelComponent SpecComponent
  SpecConfig ProofConfig ProofConfig2.
Local Open Scope string_scope.

(* ------------------------------------------------------------------ *)
(** * C26 explicit value beats default; the default is sticky *)

(** An explicit value (not a per-likelihood table) is what every Constant and ConstantSet of that
    name gets, whatever its own default, for every likelihood, after any operations that are not
    clear_cache or a set_global_config of that name. *)
Theorem C26_explicit_wins f cf llh c v os :
  plain_kind (c_kind cf) -> get (c_name cf) (contents c) = Some v -> not_dict v ->
  (forall o, In o os -> leaves (c_name cf) o) ->
  snd (config_build f cf llh (crun os c)) = Ok (mk_built cf [v]).
Proof. exact (explicit_until_changed f cf llh c v os). Qed.

(** The same for maps: the file used is the one set. *)
Theorem C26_explicit_wins_map f cf llh c v b :
  c_kind cf = KMap -> get (c_name cf) (contents c) = Some v -> not_dict v ->
  snd (config_build f cf llh c) = Ok b -> b_values b = [v].
Proof. intros Hk Hg Hn. exact (proj1 (map_explicit f cf llh c v Hk Hg Hn) b). Qed.

(** Without an explicit value the default is used, and stays the value of that name for every
    other config object, default and likelihood. *)
Theorem C26_default_sticky f cf llh c v os f2 cf2 llh2 :
  plain_kind (c_kind cf) -> get (c_name cf) (contents c) = None -> c_default cf = Some v ->
  not_dict v -> (forall o, In o os -> leaves (c_name cf) o) ->
  plain_kind (c_kind cf2) -> c_name cf2 = c_name cf ->
  snd (config_build f cf llh c) = Ok (mk_built cf [v]) /\
  snd (config_build f2 cf2 llh2 (crun (CBuild f cf llh :: os) c)) = Ok (mk_built cf2 [v]).
Proof.
  intros Hk Hg Hd Hn Ho Hk2 Hn2. split.
  - exact (proj1 (build_default f cf llh c v Hk Hg Hd Hn)).
  - exact (sticky_default f cf llh c v os f2 cf2 llh2 Hk Hg Hd Hn Ho Hk2 Hn2).
Qed.

(** Neither: ValueError, and nothing changes. *)
Theorem C26_missing f cf llh c :
  get (c_name cf) (contents c) = None -> c_default cf = None ->
  config_build f cf llh c = (c, Err ValueError).
Proof. exact (build_missing f cf llh c). Qed.

(** No build, whatever its kind and outcome, changes a value that is set: at most entries are
    added to per-likelihood tables. *)
Theorem C26_build_keeps f cf llh c n v :
  get n (contents c) = Some v ->
  exists v', get n (contents (fst (config_build f cf llh c))) = Some v' /\ ext v v'.
Proof. exact (build_grows f cf llh c n v). Qed.

Definition no_files : fs :=
  mk_fs (fun _ => false) (fun _ => false) (fun d => "/pkg/" ++ d) false [] (fun _ => "") true (fun _ => None).
Definition some_files : fs :=
  mk_fs (fun p => String.eqb p "/a.json") (fun p => String.eqb p "/pkg/data/b.json")
        (fun d => "/pkg/" ++ d) false [] (fun _ => "") true (fun _ => None).

Definition g1 := mk_config KConstant "g1" (Some (VNum 13)) None.
Definition g1' := mk_config KConstant "g1" (Some (VNum 99)) None.

(** Built first with default 13, then by another plugin with default 99 for another likelihood. *)
Example C26_sticky_case :
  snd (config_build no_files g1' (Some "llh2")
         (crun [CBuild no_files g1 (Some "llh1"); CSet no_files [("w", VNum 4)]] empty_rdict))
  = Ok (mk_built g1' [VNum 13]).
Proof.
  apply (C26_default_sticky no_files g1 (Some "llh1") empty_rdict (VNum 13)
           [CSet no_files [("w", VNum 4)]] no_files g1' (Some "llh2"));
    try reflexivity; try (left; reflexivity); try discriminate.
  intros o [<-|[]]. simpl. intros [H|[]]. discriminate.
Qed.

(** The same two plugins the other way round give 99: which default is used depends on the order
    of construction. *)
Example C26_order_matters :
  snd (config_build no_files g1 None (crun [CBuild no_files g1' None] empty_rdict))
  = Ok (mk_built g1 [VNum 99]).
Proof. reflexivity. Qed.

(* ------------------------------------------------------------------ *)
(** * C27 per-likelihood isolation *)

Theorem C27_own_entry f cf L c d :
  plain_kind (c_kind cf) -> get (c_name cf) (contents c) = Some (VDict d) ->
  snd (config_build f cf (Some L) c) =
    match get L d with Some v => Ok (mk_built cf [v]) | None => Err ValueError end.
Proof. intros Hk Hg. exact (proj1 (build_table f cf L c d Hk Hg)). Qed.

(** A missing entry is a ValueError for every kind of config. *)
Theorem C27_missing_entry f cf L c d :
  get (c_name cf) (contents c) = Some (VDict d) -> get L d = None ->
  snd (config_build f cf (Some L) c) = Err ValueError.
Proof. exact (build_table_missing f cf L c d). Qed.

(** Non-interference: configurations differing only in entries of other likelihoods give the same
    outcomes for every sequence of builds (of all kinds) for [L]. *)
Theorem C27_isolation L f cfs c c' :
  same_for L c c' -> build_results f L cfs c = build_results f L cfs c'.
Proof. exact (same_build_results L f cfs c c'). Qed.

Definition two_tables (x : Z) : rdict :=
  mk_rdict [("g1", VDict [("a", VNum 1); ("b", VNum x)]);
            ("m", VList [VStr "/a.json"; VStr "/a.json"; VStr "/a.json"])] [].
Definition sig := mk_config KSigmaMap "m" (Some (VStr "/a.json")) None.

(** The hypothesis holds of two configurations that differ for "b", and the outcomes for "a" are
    successes (a Constant and a SigmaMap). *)
Example C27_case :
  same_for "a" (two_tables 5) (two_tables 6) /\ two_tables 5 <> two_tables 6 /\
  forallb is_ok (build_results some_files "a" [g1; sig] (two_tables 5)) = true.
Proof.
  split; [|split; [discriminate|reflexivity]].
  split; [reflexivity|]. intros n. simpl.
  destruct (String.eqb n "g1"); [reflexivity|]. destruct (String.eqb n "m"); reflexivity.
Qed.

(* ------------------------------------------------------------------ *)
(** * C28 unused configs *)

(** What has been looked up successfully since the last clear_cache is not reported. *)
Theorem C28_used_not_reported os1 o os2 c n :
  looks_up n o (crun os1 c) -> ~ In CClear os2 ->
  ~ In n (unused_configs (crun (os1 ++ o :: os2) c)).
Proof. exact (looked_up_not_unused os1 o os2 c n). Qed.

(** What is set and not read by any operation since the last clear_cache is reported. *)
Theorem C28_unused_reported os1 os2 c n :
  (forall o, In o os2 -> ~ In n (op_reads o)) ->
  In n (keys (contents (crun (os1 ++ CClear :: os2) c))) ->
  In n (unused_configs (crun (os1 ++ CClear :: os2) c)).
Proof. exact (never_read_unused os1 os2 c n). Qed.

(** Only configs that are set are reported. *)
Theorem C28_reported_is_set c n :
  In n (unused_configs c) -> exists v, get n (contents c) = Some v.
Proof. exact (unused_were_set c n). Qed.

(** A value set after the default of that name was used is never used, yet not reported. *)
Theorem C28_set_too_late_refuted :
  exists f cf v, let c := crun [CClear; CBuild f cf None; CSet f [(c_name cf, v)]] empty_rdict in
    get (c_name cf) (contents c) = Some v /\ c_default cf <> Some v /\
    ~ In (c_name cf) (unused_configs c).
Proof.
  exists no_files, g1, (VNum 14). simpl. split; [reflexivity|]. split; [discriminate|]. tauto.
Qed.

(** A mis-spelled config next to a used one. *)
Example C28_case :
  unused_configs (crun ([] ++ CClear :: [CSet no_files [("g1", VNum 14); ("gl", VNum 14)];
                        CBuild no_files g1 (Some "a")]) empty_rdict) = ["gl"].
Proof. reflexivity. Qed.
Example C28_case_hyp : looks_up "g1" (CBuild no_files g1 (Some "a"))
  (crun [CSet no_files [("g1", VNum 14)]] empty_rdict).
Proof. split; reflexivity. Qed.

(* ------------------------------------------------------------------ *)
(** * C29 set_global_config *)

Theorem C29_numbers_and_lists f configs c c2 u k v :
  NoDup (keys configs) -> set_global_config f configs c = (c2, Ok u) ->
  get k configs = Some v -> is_plain v = true ->
  get k (contents c2) = Some v.
Proof. exact (set_global_plain f configs c c2 u k v). Qed.

Theorem C29_strings f configs c c2 u k s :
  NoDup (keys configs) -> set_global_config f configs c = (c2, Ok u) ->
  get k configs = Some (VStr s) -> ~ In "url_base" (keys configs) ->
  exists p, snd (get_file_path f s c) = Ok p /\ get k (contents c2) = Some (VStr p).
Proof. exact (set_global_string f configs c c2 u k s). Qed.

(** A per-likelihood table keeps numbers and lists, resolves strings, and drops everything else. *)
Theorem C29_tables f configs c c2 u k d :
  NoDup (keys configs) -> NoDup (keys d) -> set_global_config f configs c = (c2, Ok u) ->
  get k configs = Some (VDict d) -> ~ In "url_base" (keys configs) ->
  exists d', get k (contents c2) = Some (VDict d') /\
    forall l, get l d' = match get l d with Some v => stored f v c | None => None end.
Proof. exact (set_global_table f configs c c2 u k d). Qed.

Theorem C29_others_untouched f configs n c :
  ~ In n (keys configs) ->
  get n (contents (fst (set_global_config f configs c))) = get n (contents c).
Proof. exact (set_global_other f configs n c). Qed.

(** A failing call has applied exactly the entries before the offending one. *)
Theorem C29_failure f configs c c2 e :
  set_global_config f configs c = (c2, Err e) ->
  exists a k v b c1 u, configs = (a ++ (k, v) :: b)%list /\ set_global_config f a c = (c1, Ok u) /\
    snd (set_global_config1 f k v c1) = Err e /\ contents c2 = contents c1.
Proof. exact (set_global_fails f configs c c2 e). Qed.

(** None is unsupported at the top level. *)
Theorem C29_unsupported f a k b c c1 u :
  set_global_config f a c = (c1, Ok u) ->
  set_global_config f (a ++ (k, VNone) :: b)%list c = (c1, Err NotImplementedError).
Proof. exact (set_global_stops f a k b c c1 u). Qed.

(** A number, a file, a table with an entry that disappears. *)
Example C29_case :
  let configs := [("w", VNum 3); ("m", VStr "/a.json");
                  ("t", VDict [("a", VNum 1); ("b", VNone); ("c", VStr "b.json")])] in
  contents (fst (set_global_config some_files configs empty_rdict)) =
  [("w", VNum 3); ("m", VStr "/a.json");
   ("t", VDict [("a", VNum 1); ("c", VStr "/pkg/data/b.json")])].
Proof. reflexivity. Qed.
Example C29_case_fail :
  set_global_config some_files [("w", VNum 3); ("x", VNone); ("y", VNum 4)] empty_rdict
  = (mk_rdict [("w", VNum 3)] [], Err NotImplementedError).
Proof. reflexivity. Qed.

(* ------------------------------------------------------------------ *)
(** * C30 takes_config *)

Theorem C30_success args old res :
  takes_config args old = Ok res ->
  (forall n cf, get n old = Some cf -> get n res = Some cf) /\
  (forall n, get n old = None -> get n res = last_named n args None) /\
  (forall cf, In (TCConfig cf) args -> get (c_name cf) old = None).
Proof. exact (takes_config_ok args old res). Qed.

Theorem C30_failure args old e :
  takes_config args old = Err e <->
  e = RuntimeError /\
  (In TCOther args \/ exists cf, In (TCConfig cf) args /\ In (c_name cf) (keys old)).
Proof. exact (takes_config_err args old e). Qed.

(** Along every class hierarchy: each name is taken once and maps to a config of that name. *)
Theorem C30_hierarchy d : class_configs d ->
  NoDup (keys d) /\ forall n cf, get n d = Some cf -> c_name cf = n.
Proof. intros H. exact (conj (class_configs_NoDup d H) (class_configs_keyed d H)). Qed.

Example C30_case :
  exists r1 r2, takes_config [TCConfig g1; TCConfig sig] [] = Ok r1 /\
    takes_config [TCConfig (mk_config KConstant "x" None None)] r1 = Ok r2 /\
    class_configs r2 /\ keys r2 = ["g1"; "m"; "x"] /\
    takes_config [TCConfig g1'] r2 = Err RuntimeError.
Proof.
  set (a1 := [TCConfig g1; TCConfig sig]).
  set (a2 := [TCConfig (mk_config KConstant "x" None None)]).
  assert (H1 : exists r1, takes_config a1 [] = Ok r1) by (eexists; reflexivity).
  destruct H1 as [r1 H1]. assert (H1' := H1). vm_compute in H1'. injection H1' as H1'.
  assert (H2 : exists r2, takes_config a2 r1 = Ok r2) by (rewrite <- H1'; eexists; reflexivity).
  destruct H2 as [r2 H2]. assert (H2' := H2). rewrite <- H1' in H2'. vm_compute in H2'.
  injection H2' as H2'. exists r1, r2. split; [exact H1|]. split; [exact H2|]. split.
  - exact (cc_takes a2 r1 r2 (cc_takes a1 [] r1 cc_nil H1) H2).
  - rewrite <- H2'. split; reflexivity.
Qed.

(* ------------------------------------------------------------------ *)
(** * C32 the parameter a SigmaMap requires *)

(** Which parameter, by the shape of the value seen by the likelihood. *)
Theorem C32_which cf L c v :
  c_kind cf = KSigmaMap -> seen_by (c_name cf) L (contents c) = Some v ->
  snd (required_parameter cf (Some L) c) =
  match v with
  | VList [_; _; _; VStr p] => Ok (Some p)
  | VList [_; _; _; _] => Err TypeError
  | VList _ => Ok (Some (c_name cf ++ "_sigma"))
  | _ => Ok None
  end.
Proof.
  intros Hk Hs. unfold required_parameter. rewrite Hk.
  pose proof (get_configs_seen cf (Some L) L c (or_introl eq_refl) v Hs) as Hg.
  destruct (get_configs cf (Some L) c) as [c1 r]. simpl in *. subst r.
  destruct v as [ |b|z|s|l|d]; try reflexivity.
  destruct l as [|x1 [|x2 [|x3 [|x4 [|x5 l]]]]]; try reflexivity.
  destruct x4; reflexivity.
Qed.

(** The parameter reported at deduce time for likelihood [L] is the one the built SigmaMap asks
    for when it is applied, after any builds, deductions and set_global_config of other names. *)
Theorem C32_reported_is_read cf L c v os cf' r :
  c_kind cf = KSigmaMap -> (forall d, c_default cf <> Some (VDict d)) ->
  snd (get_configs cf (Some L) c) = Ok v -> required_of_value (c_name cf) v = Ok r ->
  (forall o, In o os -> leaves (c_name cf) o) ->
  c_kind cf' = KSigmaMap -> c_name cf' = c_name cf -> c_llh cf' = Some L ->
  snd (required_parameter cf' None (crun os (fst (required_parameter cf (Some L) c)))) = Ok r.
Proof. intros Hk. exact (required_stable cf (Some L) L c v os cf' r Hk eq_refl). Qed.

(** If the configuration is changed or cleared between deduce and the call, the built map asks
    for another parameter than the reported one. *)
Theorem C32_changed_between_refuted :
  exists cf L c f cs, c_kind cf = KSigmaMap /\
    snd (required_parameter cf (Some L) c) = Ok (Some "m_sigma") /\
    snd (required_parameter (mk_config KSigmaMap (c_name cf) (c_default cf) (Some L)) None
           (crun [CSet f cs] (fst (required_parameter cf (Some L) c)))) = Ok None.
Proof.
  exists sig, "a", (two_tables 5), some_files, [("m", VStr "/a.json")].
  split; [reflexivity|]. split; vm_compute; reflexivity.
Qed.

Example C32_case :
  snd (required_parameter sig (Some "a") (two_tables 5)) = Ok (Some "m_sigma") /\
  snd (required_parameter (mk_config KSigmaMap "m" (c_default sig) (Some "a")) None
         (crun [CBuild some_files sig (Some "a"); CBuild some_files sig (Some "b");
                CSet some_files [("w", VNum 1)]]
            (fst (required_parameter sig (Some "a") (two_tables 5))))) = Ok (Some "m_sigma").
Proof. split; vm_compute; reflexivity. Qed.

(* ------------------------------------------------------------------ *)
(** * C45 file lookup *)

Theorem C45_precedence f fname c :
  (forall v, get "url_base" (contents c) = Some v -> exists b, v = VStr b) ->
  snd (get_file_path f fname c) =
  match first_found (candidates f (base_of c) fname) with
  | Some p => Ok p
  | None => Err RuntimeError
  end.
Proof. exact (file_path_spec f fname c). Qed.

(** How the paths among the candidates are put together: an absolute name stays as it is, another one comes below the
    directory, after exactly one slash. *)
Lemma ends_with_slash_app c : ends_with_slash (c ++ "/") = true.
Proof.
  induction c as [|a c IH]; [reflexivity|]. cbn [append ends_with_slash]. rewrite IH. destruct c; reflexivity.
Qed.
Lemma ends_with_slash_inv s : ends_with_slash s = true -> exists c, s = (c ++ "/")%string.
Proof.
  induction s as [|a s IH]; [discriminate|]. destruct s as [|b s].
  - cbn [ends_with_slash]. intros H. apply Ascii.eqb_eq in H. subst a. exists "". reflexivity.
  - change (ends_with_slash (String a (String b s))) with (ends_with_slash (String b s)). intros H.
    destruct (IH H) as (c & Ec). exists (String a c). rewrite Ec. reflexivity.
Qed.
Lemma append_assoc_s a b c : ((a ++ b) ++ c = a ++ (b ++ c))%string.
Proof. induction a as [|x a IH]; [reflexivity|]. cbn. rewrite IH. reflexivity. Qed.
Theorem C45_join a b :
  ((exists t, b = ("/" ++ t)%string) -> path_join a b = b) /\
  (~ (exists t, b = ("/" ++ t)%string) ->
     (a = "" -> path_join a b = b) /\
     (forall c, a = (c ++ "/")%string -> path_join a b = (c ++ "/" ++ b)%string) /\
     (a <> "" -> ~ (exists c, a = (c ++ "/")%string) -> path_join a b = (a ++ "/" ++ b)%string)).
Proof.
  unfold path_join. split.
  - intros (t & ->). reflexivity.
  - intros Hb. assert (E : starts_with_slash b = false).
    { destruct b as [|x b]; [reflexivity|]. cbn. destruct (Ascii.eqb x "/") eqn:Ex; [|reflexivity].
      apply Ascii.eqb_eq in Ex. subst x. destruct Hb. exists b. reflexivity. }
    rewrite E. split; [intros ->; reflexivity|]. split.
    + intros c ->. destruct (String.eqb (c ++ "/") "") eqn:Ec.
      * apply String.eqb_eq in Ec. destruct c; discriminate.
      * rewrite ends_with_slash_app. apply append_assoc_s.
    + intros Ha Hs. apply String.eqb_neq in Ha. rewrite Ha. destruct (ends_with_slash a) eqn:Es; [|reflexivity].
      destruct (Hs (ends_with_slash_inv a Es)).
Qed.
Example C45_case_join : path_join "/d" "/e/f.csv" = "/e/f.csv" /\ path_join "/d" "f.csv" = "/d/f.csv" /\ path_join "/d/" "f.csv" = "/d/f.csv".
Proof. repeat split. Qed.

Theorem C45_idempotent f c fname p c2 :
  snd (get_file_path f fname c) = Ok p -> isfile f p = true ->
  get_file_path f p c2 = (c2, Ok p).
Proof. exact (file_path_idem f c fname p c2). Qed.

(** The lookup never changes what is set. *)
Theorem C45_no_effect f fname c : contents (fst (get_file_path f fname c)) = contents c.
Proof. exact (get_file_path_contents f fname c). Qed.

(** Setting url_base goes through the same lookup: a url_base that is no existing path (for
    example a web address) cannot be set. *)
Theorem C45_url_base_must_exist f u c :
  first_found (candidates f (base_of c) u) = None ->
  (forall v, get "url_base" (contents c) = Some v -> exists b, v = VStr b) ->
  snd (set_global_config f [("url_base", VStr u)] c) = Err RuntimeError /\
  contents (fst (set_global_config f [("url_base", VStr u)] c)) = contents c.
Proof. exact (url_base_not_found f u c). Qed.

Theorem C45_bad_url_base f fname c v :
  get "url_base" (contents c) = Some v -> (forall b, v <> VStr b) -> isfile f fname = false ->
  snd (get_file_path f fname c) = Err AttributeError.
Proof. exact (file_path_bad_base f fname c v). Qed.

Example C45_case :
  snd (get_file_path some_files "b.json" empty_rdict) = Ok "/pkg/data/b.json" /\
  snd (get_file_path some_files "/a.json" empty_rdict) = Ok "/a.json" /\
  snd (get_file_path some_files "c.json" empty_rdict) = Err RuntimeError /\
  snd (set_global_config some_files [("url_base", VStr "https://x.org")] empty_rdict) = Err RuntimeError.
Proof. repeat split. Qed.

Print Assumptions C26_explicit_wins.
Print Assumptions C26_explicit_wins_map.
Print Assumptions C26_default_sticky.
Print Assumptions C26_missing.
Print Assumptions C26_build_keeps.
Print Assumptions C27_own_entry.
Print Assumptions C27_missing_entry.
Print Assumptions C27_isolation.
Print Assumptions C28_used_not_reported.
Print Assumptions C28_unused_reported.
Print Assumptions C28_reported_is_set.
Print Assumptions C28_set_too_late_refuted.
Print Assumptions C29_numbers_and_lists.
Print Assumptions C29_strings.
Print Assumptions C29_tables.
Print Assumptions C29_others_untouched.
Print Assumptions C29_failure.
Print Assumptions C29_unsupported.
Print Assumptions C30_success.
Print Assumptions C30_failure.
Print Assumptions C30_hierarchy.
Print Assumptions C32_which.
Print Assumptions C32_reported_is_read.
Print Assumptions C32_changed_between_refuted.
Print Assumptions C45_precedence.
Print Assumptions C45_join.
Print Assumptions C45_idempotent.
Print Assumptions C45_no_effect.
Print Assumptions C45_url_base_must_exist.
Print Assumptions C45_bad_url_base.
