(** Properties of plot_maps: which maps are shown (C93) and which files are written (C95). *)
From Coq Require Import Reals Lra Lia Ascii.
From Verif Require Import Base BaseFacts ModelShare ModelConfig ModelComponent SpecComponent SpecConfig
  ModelCompile SpecCompile ProofComponent ProofWorkflow ProofSim ProofHistory ProofComponentTop ProofConfig
  ProofCompile PropComponent PropConfig PropCompile ModelInterp SpecInterp ModelPlotMap SpecPlotMap ProofPlotMap ProofPlotMap2.
Local Open Scope string_scope.
Local Open Scope list_scope.

(* ------------------------------------------------------------------ *)
(** * C93: the maps collected *)

(** In general the files listed are those that the config objects of the classes point to, for every
    class that a worksheet uses. *)
Theorem C93_collected : forall w ks (cls : option component -> work -> plugin) (bss : plugin -> list built),
  (forall k wk, In (Some k) ks -> In wk (k_worksheet k) -> exists d ds, w_provides wk = d :: ds /\
     get d (k_registry k) = Some (cls (Some k) wk) /\ class_built w (cls (Some k) wk) (bss (cls (Some k) wk))) ->
  exists out, collect_maps w ks [] = Ok out /\
    lists_files (fun b => exists k wk, In (Some k) ks /\ In wk (k_worksheet k) /\ In b (bss (cls (Some k) wk))) out.
Proof.
  intros w ks cls bss H.
  assert (G : forall ks L out, (forall k wk, In (Some k) ks -> In wk (k_worksheet k) -> exists d ds, w_provides wk = d :: ds /\
       get d (k_registry k) = Some (cls (Some k) wk) /\ class_built w (cls (Some k) wk) (bss (cls (Some k) wk))) ->
    lists_files L out -> exists out', collect_maps w ks out = Ok out' /\
      lists_files (fun b => L b \/ exists k wk, In (Some k) ks /\ In wk (k_worksheet k) /\ In b (bss (cls (Some k) wk))) out').
  { clear. induction ks as [|[k|] ks IH]; intros L out H Hl; cbn [collect_maps].
    - exists out. split; [reflexivity|]. eapply lists_ext; [|exact Hl]. intros b. split; [auto|]. intros [Hb|(k & wk & [] & _)]. exact Hb.
    - destruct (collect_works_lists w (k_registry k) (cls (Some k)) bss (k_worksheet k) L out
        (fun wk Hw => H k wk (or_introl eq_refl) Hw) Hl) as (out1 & E1 & H1). rewrite E1.
      destruct (IH _ out1 (fun k' wk Hk => H k' wk (or_intror Hk)) H1) as (out' & E2 & H2).
      exists out'. split; [exact E2|]. eapply lists_ext; [|exact H2]. intros b. cbn beta. split.
      + intros [[Hb|(wk & Hw & Hb)]|(k' & wk & Hk & Hw & Hb)]; [auto|right; exists k, wk; cbn; auto|right; exists k', wk; cbn; auto].
      + intros [Hb|(k' & wk & [Hk|Hk] & Hw & Hb)]; [auto| |right; exists k', wk; auto].
        injection Hk as <-. left. right. exists wk. auto.
    - destruct (IH L out (fun k wk Hk => H k wk (or_intror Hk)) Hl) as (out' & E & H'). exists out'. split; [exact E|].
      eapply lists_ext; [|exact H']. intros b. cbn beta. split.
      + intros [Hb|(k' & wk & Hk & Hw & Hb)]; [auto|right; exists k', wk; cbn; auto].
      + intros [Hb|(k' & wk & [Hk|Hk] & Hw & Hb)]; [auto|discriminate Hk|right; exists k', wk; auto]. }
  destruct (G ks _ [] H lists_nil) as (out & E & Ho). exists out. split; [exact E|]. eapply lists_ext; [|exact Ho]. intros b. tauto.
Qed.

(** One component, right after deduce and compile: the files listed are those of the maps that the
    compiled instances hold, each once, with the names of all configs that use them. *)
Theorem C93_after_build :
  forall limit data_names func nodep noeff f plugins k w w' k' cl,
  unique_names (k_registry k) -> consistent (k_registry k) nodep (output_names data_names noeff) ->
  published plugins (k_registry k) nodep (output_names data_names noeff) ->
  build_component limit data_names func nodep noeff f plugins k w = (w', k', Ok tt) ->
  k_simulate k' = Some cl ->
  exists out, collect_maps w' [Some k'] [] = Ok out /\
    lists_files (fun b => exists n i, get n (cl_insts cl) = Some i /\ In b (i_built i)) out.
Proof.
  intros limit data_names func nodep noeff f plugins k w w' k' cl Hu Hc Hp H Hcl.
  destruct (build_component_ok _ _ _ _ _ _ _ _ _ _ _ H) as
    (deps & w1 & k1 & insts & w2 & H1 & H2 & H3 & H4 & H5 & H6 & H7 & _).
  rewrite Hcl in H4. injection H4 as ->. cbn [cl_insts]. rewrite gen_insts in H3.
  destruct (deduce_ok_inv _ _ _ _ _ _ _ _ _ H1) as (deps' & c1 & needed & D1 & _ & D3 & _ & _ & _ & D7 & _).
  rewrite H2 in D1. injection D1 as <-.
  unfold build_component in H. rewrite H1 in H. pose proof (compile_worksheet _ _ _ _ _ _ _ H) as Hws.
  destruct (compile_ok _ _ _ _ _ _ H) as (pr & a & w3 & insts' & cl' & a' & _ & _ & _ & _ & _ & _ & _ & _ & Hreg & _).
  destruct (inst_names_NoDup (k_name k) (selected deps)) as [N1 N2].
  { apply first_by_name_NoDup. }
  destruct (instantiate_ok _ _ _ _ _ _ _ _ H3 N1) as (_ & _ & Hin & Hk & Hnd).
  destruct (instantiate_class _ _ _ _ _ _ _ _ H3 N1 N2) as (_ & Hcls).
  set (cls := fun (_ : option component) wk => match get (hd "" (w_provides wk)) (k_registry k) with Some p => p | None => pE end).
  set (bss := fun p => match get (p_name p) (w_class w') with Some bs => bs | None => [] end).
  assert (Hsel : forall p, In p (selected deps) ->
    exists d ds i, p_provides p = d :: ds /\ get d (k_registry k) = Some p /\
      get (p_name p ++ "_" ++ k_name k)%string insts = Some i /\ bss p = i_built i /\
      get (p_name p) (w_class w') = Some (i_built i) /\ List.length (i_built i) = List.length (p_configs p)).
  { intros p Hps. pose proof Hps as Hps0. apply (used_selected _ _ _ _ _ Hu H2) in Hps. destruct Hps as (d & Hd & Hg).
    assert (Hpn : In ((p_name p ++ "_" ++ k_name k)%string, p_name p) (inst_names (k_name k) (selected deps))).
    { unfold inst_names. apply in_map_iff. exists p. auto. }
    destruct (Hin _ _ Hpn) as (i & Hi & q & c3 & c4 & Q1 & Q2 & Q3 & Q4 & Q5 & Q6).
    destruct (Hcls _ _ Hpn) as (i' & Hi' & Hcb). rewrite Hi in Hi'. injection Hi' as <-.
    rewrite (Hp d p Hd Hg) in Q1. injection Q1 as <-.
    destruct (plugin_init_ok _ _ _ _ _ _ _ Q4) as (_ & B1 & _ & B2 & _).
    destruct (p_provides p) as [|d0 ds] eqn:Epr; [congruence|]. exists d0, ds, i.
    destruct (Hc d p Hd Hg) as [_ Hpr]. split; [reflexivity|]. split; [apply Hpr; rewrite Epr; left; reflexivity|].
    split; [exact Hi|]. unfold bss. rewrite H7, Hcb. split; [reflexivity|]. split; [reflexivity|].
    rewrite <- (map_length snd (p_configs p)). eapply build_all_length, B1. }
  destruct (C93_collected w' [Some k'] cls bss) as (out & E & Ho).
  { intros k0 wk [Hk0|[]] Hwk. injection Hk0 as <-. rewrite Hws, D3 in Hwk. apply in_map_iff in Hwk. destruct Hwk as (p & <- & Hps).
    destruct (Hsel p Hps) as (d & ds & i & S1 & S2 & S3 & S4 & S5 & S6). exists d, ds. cbn [work_of w_provides].
    rewrite Hreg, D7. unfold cls. cbn [work_of w_provides]. rewrite S1. cbn [hd]. rewrite S2.
    split; [reflexivity|]. split; [reflexivity|]. rewrite S4. split; assumption. }
  exists out. split; [exact E|]. eapply lists_ext; [|exact Ho]. intros b. cbn beta. split.
  - intros (k0 & wk & [Hk0|[]] & Hwk & Hb). injection Hk0 as <-. rewrite Hws, D3 in Hwk. apply in_map_iff in Hwk. destruct Hwk as (p & <- & Hps).
    destruct (Hsel p Hps) as (d & ds & i & S1 & S2 & S3 & S4 & S5 & S6). unfold cls in Hb. cbn [work_of w_provides] in Hb.
    rewrite S1 in Hb. cbn [hd] in Hb. rewrite S2, S4 in Hb. exists (p_name p ++ "_" ++ k_name k)%string, i. auto.
  - intros (n & i & Hi & Hb). assert (Hn : In n (keys insts)) by (apply get_In_keys; eauto).
    apply Hk in Hn. destruct Hn as [[]|Hn]. unfold inst_names in Hn. rewrite map_map in Hn. apply in_map_iff in Hn.
    destruct Hn as (p & <- & Hps). cbn [fst] in Hi. destruct (Hsel p Hps) as (d & ds & i' & S1 & S2 & S3 & S4 & S5 & S6).
    rewrite Hi in S3. injection S3 as <-. exists k', (work_of p). split; [left; reflexivity|].
    split; [rewrite Hws, D3; apply in_map, Hps|]. unfold cls. cbn [work_of w_provides]. rewrite S1. cbn [hd]. rewrite S2, S4. exact Hb.
Qed.

Example C93_case : exists w' k' out, demo_build init_world = (w', k', Ok tt) /\ collect_maps w' [None; Some k'] [] = Ok out /\
  map (fun e => (fst e, snd (snd e))) out = [([VStr "m.json"; VStr "l.json"; VStr "u.json"], ["cut"])].
Proof. do 3 eexists. split; [vm_compute; reflexivity|]. split; vm_compute; reflexivity. Qed.
Lemma demo_consistent : consistent (k_registry demo_k) "batch_size" (output_names ["cs2"; "cs1"] false).
Proof.
  intros d p _ Hg. apply get_In in Hg. rewrite demo_registry in Hg. cbn [In] in Hg.
  repeat (destruct Hg as [Hg|Hg];
    [injection Hg as <- <-; split; [repeat constructor; cbn; intuition discriminate|];
     cbn [p_provides pE pQ pS1 pS2 pF pX In]; intros x Hx;
     repeat (destruct Hx as [<-|Hx]; [split; [reflexivity|repeat split; discriminate]|]); destruct Hx|]).
  destruct Hg.
Qed.

Example C93_after_build_case : exists w' k' cl out, demo_build init_world = (w', k', Ok tt) /\ k_simulate k' = Some cl /\
  collect_maps w' [Some k'] [] = Ok out /\
  lists_files (fun b => exists n i, get n (cl_insts cl) = Some i /\ In b (i_built i)) out.
Proof.
  destruct (demo_build init_world) as [[w' k'] r] eqn:E. destruct r as [[]|e]; [|vm_compute in E; discriminate E].
  destruct (k_simulate k') as [cl|] eqn:Ek.
  - destruct (C93_after_build _ _ _ _ _ _ _ _ _ _ _ cl demo_unique demo_consistent demo_published E Ek) as (out & H1 & H2).
    exists w', k', cl, out. auto.
  - exfalso. vm_compute in E. injection E as _ Ek'. rewrite <- Ek' in Ek. discriminate Ek.
Qed.

(** The config objects belong to the classes: with two likelihoods that use different files for the
    same config only the files of the one built last are shown. *)
Definition lce_cf : config := mk_config KMap "lce" (Some (VStr "lce.json")) None.
Definition pLce := mk_plugin "Lce" ["lce_x"] ["batch_size"] [] [("lce", lce_cf)] ["self"; "key"; "parameters"; "batch_size"].
Definition lce_plugins (n : string) : option plugin := if String.eqb n "Lce" then Some pLce else None.
Definition lce_k (llh : string) : component :=
  mk_component "er" llh "" (registry_after [[pLce]]) false [] [] "" None None None.
Definition lce_build (llh : string) :=
  build_component 20 ["lce_x"] "simulate" "batch_size" true all_files lce_plugins (lce_k llh).
Theorem C93_last_built_refuted : exists w1 k1 w2 k2 cl i out,
  lce_build "science" (fst (set_config all_files
    [("lce", VDict [("science", VStr "/maps/a.json"); ("calibration", VStr "/maps/b.json")])] init_world)) = (w1, k1, Ok tt) /\
  lce_build "calibration" w1 = (w2, k2, Ok tt) /\
  k_simulate k1 = Some cl /\ get "Lce_er" (cl_insts cl) = Some i /\ map b_values (i_built i) = [[VStr "/maps/a.json"]] /\
  collect_maps w2 [Some k1; Some k2] [] = Ok out /\
  map fst out = [[VStr "/maps/b.json"]].
Proof.
  do 7 eexists. split; [vm_compute; reflexivity|]. split; [vm_compute; reflexivity|]. split; [reflexivity|].
  split; [reflexivity|]. split; [reflexivity|]. split; vm_compute; reflexivity.
Qed.

(** A plugin is looked up by the first name it provides. If another plugin was registered for that name
    later, then that one is taken: maps in use are missing, or, if it has maps itself, an AttributeError
    ends the call because they were never built. *)
Definition pTwo := mk_plugin "Two" ["first"; "second"] ["batch_size"] [] [("lce", lce_cf)] ["self"; "key"; "parameters"; "batch_size"].
Definition pOver (cfs : dict config) := mk_plugin "Over" ["first"] ["batch_size"] [] cfs ["self"; "key"; "parameters"; "batch_size"].
Definition two_build (cfs : dict config) :=
  build_component 20 ["second"] "simulate" "batch_size" true all_files
    (fun n => if String.eqb n "Two" then Some pTwo else Some (pOver cfs))
    (mk_component "er" "llh" "" (registry_after [[pTwo]; [pOver cfs]]) false [] [] "" None None None) init_world.
Theorem C93_first_name_refuted :
  (exists w' k' cl i, two_build [] = (w', k', Ok tt) /\ k_simulate k' = Some cl /\ get "Two_er" (cl_insts cl) = Some i /\
     map b_values (i_built i) = [[VStr "lce.json"]] /\ collect_maps w' [Some k'] [] = Ok []) /\
  (exists w' k', two_build [("other", mk_config KMap "other" (Some (VStr "o.json")) None)] = (w', k', Ok tt) /\
     collect_maps w' [Some k'] [] = Err AttributeError).
Proof.
  split.
  - do 4 eexists. split; [vm_compute; reflexivity|]. split; [reflexivity|]. split; [reflexivity|]. split; [reflexivity|]. vm_compute. reflexivity.
  - do 2 eexists. split; [vm_compute; reflexivity|]. vm_compute. reflexivity.
Qed.

(** A component that was deduced but not compiled: AttributeError if one of its plugins has a map. *)
Theorem C93_not_compiled : exists w' k',
  deduce 20 ["lce_x"] "simulate" "batch_size" true (lce_k "llh") init_world = (w', k', Ok tt) /\
  collect_maps w' [Some k'] [] = Err AttributeError.
Proof. do 2 eexists. split; vm_compute; reflexivity. Qed.

(* ------------------------------------------------------------------ *)
(** * C95: figures and files *)

(** ** Names of files *)

Lemma basename_acc_lacks : forall s acc, lacks "/" acc -> lacks "/" (basename_acc acc s).
Proof.
  induction s as [|c s IH]; intros acc H; cbn [basename_acc]; [exact H|].
  destruct (Ascii.eqb_spec c "/"%char) as [->|N]; [apply IH; exact I|]. apply IH.
  clear -H N. induction acc as [|d acc IHa]; cbn; [auto|]. cbn in H. split; [tauto|apply IHa; tauto].
Qed.
Lemma lacks_app c : forall a b, lacks c (a ++ b)%string <-> lacks c a /\ lacks c b.
Proof. induction a as [|d a IH]; intros b; cbn; [tauto|]. rewrite IH. tauto. Qed.

Lemma basename_acc_plain : forall s acc, lacks "/" s -> basename_acc acc s = (acc ++ s)%string.
Proof.
  induction s as [|c s IH]; intros acc H; cbn [basename_acc].
  - clear. induction acc; cbn; congruence.
  - cbn in H. destruct (Ascii.eqb_spec c "/"%char) as [E|_]; [tauto|]. rewrite IH by tauto.
    clear. induction acc; cbn; congruence.
Qed.
Lemma basename_acc_dir : forall d acc s, basename_acc acc (d ++ "/" ++ s)%string = basename_acc "" s.
Proof.
  induction d as [|c d IH]; intros acc s; cbn [append basename_acc]; [reflexivity|].
  destruct (Ascii.eqb c "/"%char); apply IH.
Qed.
Lemma before_last_dot_none : forall s, lacks "." s -> before_last_dot s = None.
Proof.
  induction s as [|c s IH]; cbn; intros H; [reflexivity|]. rewrite IH by tauto.
  destruct (Ascii.eqb_spec c "."%char); [tauto|reflexivity].
Qed.
Lemma before_last_dot_some : forall s e, lacks "." e -> before_last_dot (s ++ "." ++ e)%string = Some s.
Proof.
  induction s as [|c s IH]; intros e H.
  - cbn. rewrite before_last_dot_none by exact H. reflexivity.
  - change (String c s ++ "." ++ e)%string with (String c (s ++ "." ++ e)). 
    cbn [before_last_dot]. rewrite IH by exact H. reflexivity.
Qed.
Lemma only_dots_lacks s : only_dots s = true -> forall c, c <> "."%char -> lacks c s.
Proof.
  induction s as [|d s IH]; intros H c Hc; cbn; [exact I|]. cbn in H. apply andb_true_iff in H. destruct H as [H1 H2].
  apply Ascii.eqb_eq in H1. subst d. split; [congruence|apply IH; assumption].
Qed.

(** The name of a plot is that of the map file without directory and extension. *)
Theorem C95_stem : forall dir name ext, lacks "/" name -> lacks "/" ext -> lacks "." ext -> only_dots name = false ->
  stem_of (basename (dir ++ "/" ++ name ++ "." ++ ext)%string) = name /\ stem_of (basename (name ++ "." ++ ext)%string) = name.
Proof.
  intros dir name ext Hn He Hd Ho.
  assert (E : stem_of (basename (name ++ "." ++ ext)%string) = name).
  { unfold basename. rewrite basename_acc_plain by (apply lacks_app; split; [exact Hn|cbn; split; [discriminate|exact He]]).
    change (("" ++ name ++ "." ++ ext)%string) with ((name ++ "." ++ ext)%string).
    unfold stem_of. rewrite before_last_dot_some by exact Hd. rewrite Ho. reflexivity. }
  split; [|exact E]. unfold basename. rewrite basename_acc_dir. exact E.
Qed.
Example C95_stem_case : stem_of (basename "/data/maps/s1_correction.v2.json") = "s1_correction.v2".
Proof. apply (C95_stem "/data/maps" "s1_correction.v2" "json"); try reflexivity; cbn; intuition discriminate. Qed.

Lemma stem_lacks path : lacks "/" (stem_of (basename path)).
Proof.
  pose proof (basename_acc_lacks path "" I) as H. fold (basename path) in H. unfold stem_of.
  destruct (before_last_dot (basename path)) as [r|] eqn:E; [|exact H]. destruct (only_dots r); [exact H|].
  revert r E H. generalize (basename path). induction s as [|c s IH]; cbn; intros r E H; [discriminate E|].
  destruct (before_last_dot s) as [r'|] eqn:E'; [injection E as <-; cbn; split; [tauto|]; apply IH; [reflexivity|tauto]|].
  destruct (Ascii.eqb c "."); [injection E as <-; exact I|discriminate E].
Qed.
Lemma append_inj_l : forall a b c : string, (a ++ b)%string = (a ++ c)%string -> b = c.
Proof. induction a as [|d a IH]; intros b c H; cbn in H; [exact H|]. injection H as H. apply IH, H. Qed.
Lemma path_join_inj a b c : starts_with_slash b = false -> starts_with_slash c = false -> path_join a b = path_join a c -> b = c.
Proof.
  intros Hb Hc H. unfold path_join in H. rewrite Hb, Hc in H. destruct (String.eqb a ""); [exact H|].
  destruct (ends_with_slash a); [eapply append_inj_l, H|]. eapply append_inj_l in H. injection H as H. exact H.
Qed.
Lemma stem_starts path f : starts_with_slash (stem_of (basename path) ++ "." ++ f)%string = false.
Proof.
  pose proof (stem_lacks path) as H. destruct (stem_of (basename path)) as [|c s]; cbn in *; [reflexivity|].
  destruct (Ascii.eqb_spec c "/"%char); [tauto|reflexivity].
Qed.

(** Different names of maps, or different formats, give different files. *)
Theorem C95_targets : forall sp p1 p2 f1 f2, lacks "." f1 -> lacks "." f2 -> target sp p1 f1 = target sp p2 f2 ->
  stem_of (basename p1) = stem_of (basename p2) /\ f1 = f2.
Proof.
  intros sp p1 p2 f1 f2 L1 L2 H. unfold target in H. apply path_join_inj in H; try apply stem_starts.
  assert (E : stem_of (basename p1) = stem_of (basename p2)).
  { pose proof (before_last_dot_some (stem_of (basename p1)) f1 L1) as A.
    rewrite H, before_last_dot_some in A by exact L2. congruence. }
  split; [exact E|]. rewrite E in H. apply append_inj_l in H. injection H as H. exact H.
Qed.

(** ** What is saved *)

Section Saved.
  Variable read : value -> content.
  Variable collapse : dict (dict (option (R * R))).
  Variable sp : string.
  Variable fmt : list string.

  Definition figures_of (e : list value * (built * list string)) : result (list figure) :=
    plot_config read (fst (snd e)) (lookup_collapse collapse (snd (snd e))).

  Lemma save_other fig key d t : (forall path rest f, key = VStr path :: rest -> In f fmt -> target sp path f <> t) ->
    get t (save_figure fig key sp fmt d) = get t d.
  Proof.
    intros H. unfold save_figure. destruct key as [|[ | | |path| | ] rest]; try reflexivity.
    assert (G : forall l d0, (forall f, In f l -> In f fmt) ->
      get t (fold_left (fun d1 f => set (path_join sp (stem_of (basename path) ++ "." ++ f)%string) fig d1) l d0) = get t d0).
    { induction l as [|f l IH]; intros d0 Hi; cbn [fold_left]; [reflexivity|]. rewrite IH by (intros f' Hf'; apply Hi; right; exact Hf').
      apply get_set_neq. intros Et. apply (H path rest f eq_refl (Hi f (or_introl eq_refl))). symmetry. exact Et. }
    apply G. auto.
  Qed.
  Lemma save_own fig path rest d f : In f fmt -> get (target sp path f) (save_figure fig (VStr path :: rest) sp fmt d) = Some fig.
  Proof.
    cbn [save_figure]. revert d. induction fmt as [|f0 l IH]; intros d Hf; [destruct Hf|]. cbn [fold_left].
    destruct (in_dec string_dec f l) as [Hl|Hl]; [apply IH, Hl|]. destruct Hf as [->|Hf]; [|contradiction].
    clear IH. fold (target sp path f).
    assert (G : forall l0 d0, ~ In f l0 -> get (target sp path f) d0 = Some fig ->
      get (target sp path f) (fold_left (fun d1 f => set (path_join sp (stem_of (basename path) ++ "." ++ f)%string) fig d1) l0 d0) = Some fig).
    { induction l0 as [|f1 l0 IH0]; intros d0 Hn Hd; cbn [fold_left]; [exact Hd|]. apply IH0; [cbn in Hn; tauto|].
      fold (target sp path f1). destruct (string_dec (target sp path f1) (target sp path f)) as [E|N].
      - rewrite E. apply get_set_eq.
      - rewrite get_set_neq by congruence. exact Hd. }
    apply G; [exact Hl|apply get_set_eq].
  Qed.
  Lemma save_all_other figs key t : forall d, (figs <> [] -> forall path rest f, key = VStr path :: rest -> In f fmt -> target sp path f <> t) ->
    get t (fold_left (fun d fig => save_figure fig key sp fmt d) figs d) = get t d.
  Proof.
    induction figs as [|fig figs IH]; intros d H; cbn [fold_left]; [reflexivity|].
    rewrite IH; [|intros _; apply H; discriminate]. apply save_other, H. discriminate.
  Qed.
  Lemma save_all_own figs fig path rest f : In f fmt -> forall d,
    get (target sp path f) (fold_left (fun d fig => save_figure fig (VStr path :: rest) sp fmt d) (figs ++ [fig]) d) = Some fig.
  Proof. intros Hf d. rewrite fold_left_app. cbn [fold_left]. apply save_own, Hf. Qed.

  (** The figures returned are those of all collected maps in order. The file of a map holds its last
      figure, unless a later map has the same file. *)
  Theorem C95_saved : forall collected figs0 disk0 figs disk,
    plot_collected read collapse true sp fmt collected figs0 disk0 = Ok (figs, disk) ->
    (exists fss, Forall2 (fun e fs => figures_of e = Ok fs) collected fss /\ figs = figs0 ++ List.concat fss) /\
    (forall l1 l2 path rest b names fs fig f, collected = l1 ++ (VStr path :: rest, (b, names)) :: l2 ->
       figures_of (VStr path :: rest, (b, names)) = Ok (fs ++ [fig]) -> In f fmt ->
       (forall path' rest' e f', In (VStr path' :: rest', e) l2 -> figures_of (VStr path' :: rest', e) <> Ok [] -> In f' fmt ->
          target sp path' f' <> target sp path f) ->
       get (target sp path f) disk = Some fig).
  Proof.
    induction collected as [|[key [b names]] rest IH]; intros figs0 disk0 figs disk H; cbn [plot_collected] in H.
    - injection H as <- <-. split.
      + exists []. split; [constructor|]. cbn. rewrite app_nil_r. reflexivity.
      + intros l1 l2 path r b names fs fig f E. destruct l1; discriminate E.
    - destruct (plot_config read b (lookup_collapse collapse names)) as [fs|e] eqn:Ef; [|discriminate H].
      destruct (IH _ _ _ _ H) as [(fss & F1 & F2) G]. split.
      + exists (fs :: fss). split; [constructor; [exact Ef|exact F1]|]. rewrite F2. cbn. rewrite app_assoc. reflexivity.
      + intros l1 l2 path r b0 names0 fs0 fig f E Hf Hfm Hlater.
        destruct l1 as [|x l1]; cbn [app] in E.
        * injection E as -> -> -> ->. clear G. unfold figures_of in Hf. cbn [fst snd] in Hf. rewrite Hf in Ef. injection Ef as <-.
          assert (K : forall l figs1 disk1, (forall path' rest' e f', In (VStr path' :: rest', e) l ->
              figures_of (VStr path' :: rest', e) <> Ok [] -> In f' fmt -> target sp path' f' <> target sp path f) ->
            plot_collected read collapse true sp fmt l figs1 disk1 = Ok (figs, disk) ->
            get (target sp path f) disk = get (target sp path f) disk1).
          { clear -fmt. induction l as [|[k1 [b1 n1]] l IHl]; intros figs1 disk1 Hl Hp; cbn [plot_collected] in Hp.
            - injection Hp as _ <-. reflexivity.
            - destruct (plot_config read b1 (lookup_collapse collapse n1)) as [fs1|e1] eqn:E1; [|discriminate Hp].
              apply IHl in Hp; [|intros p' r' e' f' Hin; apply (Hl p' r' e' f'); right; exact Hin].
              rewrite Hp. apply save_all_other. intros Hne p' r' f' -> Hf'. eapply Hl; [left; reflexivity| |exact Hf'].
              unfold figures_of. cbn [fst snd]. rewrite E1. congruence. }
          rewrite (K l2 _ _ Hlater H). apply save_all_own, Hfm.
        * injection E as _ E. exact (G l1 l2 path r b0 names0 fs0 fig f E Hf Hfm Hlater).
  Qed.
End Saved.

(** The name of the plot of a collected map. *)
Definition entry_stem (e : list value * (built * list string)) : option string :=
  match fst e with VStr path :: _ => Some (stem_of (basename path)) | _ => None end.

(** If the names of the map files differ, then every map that has one figure has it in its own file, in
    every format. *)
Theorem C95_one_file_each : forall read collapse sp fmt w ks collected figs disk path rest b names fig f,
  collect_maps w ks [] = Ok collected -> NoDup (map entry_stem collected) -> (forall f, In f fmt -> lacks "." f) ->
  plot_maps read w ks collapse true sp fmt = Ok (figs, disk) ->
  In (VStr path :: rest, (b, names)) collected -> plot_config read b (lookup_collapse collapse names) = Ok [fig] -> In f fmt ->
  In fig figs /\ get (target sp path f) disk = Some fig.
Proof.
  intros read collapse sp fmt w ks collected figs disk path rest b names fig f Hc Hd Hf H Hin Hfig Hfm.
  unfold plot_maps in H. rewrite Hc in H. destruct (C95_saved _ _ _ _ _ _ _ _ _ H) as [(fss & F1 & F2) G].
  apply in_split in Hin. destruct Hin as (l1 & l2 & E). split.
  - rewrite F2. cbn [app]. apply in_concat. exists [fig]. split; [|left; reflexivity].
    subst collected. clear -F1 Hfig. revert fss F1. induction l1 as [|x l1 IH]; intros fss F1; inversion F1 as [|? fs ? fss' A B]; subst.
    + unfold figures_of in A. cbn [fst snd] in A. rewrite Hfig in A. injection A as <-. left. reflexivity.
    + right. apply IH, B.
  - apply (G l1 l2 path rest b names [] fig f E Hfig Hfm). intros path' rest' e f' Hin' _ Hf' Et.
    apply C95_targets in Et; [|apply Hf, Hf'|apply Hf, Hfm]. destruct Et as [Et _].
    subst collected. rewrite map_app in Hd. cbn [map] in Hd. apply NoDup_remove_2 in Hd. apply Hd.
    apply in_or_app. right. apply in_map_iff. exists (VStr path' :: rest', e). split; [|exact Hin'].
    unfold entry_stem. cbn [fst]. rewrite Et. reflexivity.
Qed.

(** A demo: two maps, one of points and one a grid that is not drawn (three axes). *)
Definition demo_read (v : value) : content :=
  match v with
  | VStr "/maps/g.json" => MGrid (mk_grid (mk_arr [2; 2; 2]%nat (fun _ => 1%R)) ["x"; "y"; "z"] [0; 0; 0]%R [1; 1; 1]%R [false; false; false])
  | VStr "/maps/s.json" => MGrid (mk_grid (mk_arr [2; 2]%nat (fun _ => 1%R)) ["x"; "y"] [0; 0]%R [1; 1]%R [false; false])
  | _ => MPoints [0; 1]%R [2; 3]%R
  end.
Definition map_cf (n : string) : config := mk_config KMap n None None.
Definition entry (n path : string) : list value * (built * list string) := ([VStr path], (mk_built (map_cf n) [VStr path], [n])).
Example C95_case : plot_collected demo_read [] true "out" ["png"; "pdf"] [entry "a" "/maps/a.json"; entry "g" "/maps/g.json"] [] [] =
  Ok ([FCurve "a" [(0, 2); (1, 3)]%R],
      [("out/a.png", FCurve "a" [(0, 2); (1, 3)]%R); ("out/a.pdf", FCurve "a" [(0, 2); (1, 3)]%R)]).
Proof. reflexivity. Qed.

(** Maps of the same name in different directories: the plot of the first is overwritten. *)
Theorem C95_same_name_refuted : exists figs disk, plot_collected demo_read [] true "out" ["png"]
    [entry "a" "/er/lce.json"; entry "b" "/nr/lce.json"] [] [] = Ok (figs, disk) /\
  List.length figs = 2%nat /\ disk = [("out/lce.png", FCurve "b" [(0, 2); (1, 3)]%R)].
Proof. do 2 eexists. split; [reflexivity|]. split; reflexivity. Qed.

(** A sigma map that is drawn as images has three figures for one name: only the upper map is saved. *)
Theorem C95_sigma_images_refuted : forall read collapse sp fmt f name m l u names gm gl gu n0 n1 x y lo0 lo1 hi0 hi1 l0 l1,
  In f fmt -> read (VStr m) = MGrid gm -> read l = MGrid gl -> read u = MGrid gu ->
  lookup_collapse collapse names = None ->
  a_shape (g_data gm) = [n0; n1] -> a_shape (g_data gl) = [n0; n1] -> a_shape (g_data gu) = [n0; n1] ->
  g_names gm = [x; y] -> g_lowers gm = [lo0; lo1] -> g_uppers gm = [hi0; hi1] -> g_logs gm = [l0; l1] ->
  (0 < n0)%nat -> (0 < n1)%nat -> drawable l0 lo0 hi0 -> drawable l1 lo1 hi1 ->
  exists f1 f2 f3 disk,
    plot_collected read collapse true sp fmt
      [([VStr m; l; u], (mk_built (mk_config KSigmaMap name None None) [VStr m; l; u], names))] [] [] = Ok ([f1; f2; f3], disk) /\
    get (target sp m f) disk = Some f3 /\
    (forall fig, In fig (map snd disk) -> fig = f3) /\
    (exists xl yl a b c d n n' p, f3 = FImage (name ++ " (upper)")%string xl yl a b c d n n' p) /\
    (exists xl yl a b c d n n' p, f2 = FImage (name ++ " (median)")%string xl yl a b c d n n' p) /\
    (exists xl yl a b c d n n' p, f1 = FImage (name ++ " (lower)")%string xl yl a b c d n n' p).
Proof.
  intros read collapse sp fmt f name m l u names gm gl gu n0 n1 x y lo0 lo1 hi0 hi1 l0 l1 Hf Rm Rl Ru Hc Sm Sl Su En El Eu Eg H0 H1 D0 D1.
  destruct (edges_centers_ok lo0 hi0 n0 l0 H0 D0) as (e0 & c0 & E0 & _).
  destruct (edges_centers_ok lo1 hi1 n1 l1 H1 D1) as (e1 & c1 & E1 & _).
  set (img := fun label (a : arr) => let '(x0, x1) := extent1 e0 l0 in let '(y0, y1) := extent1 e1 l1 in
    FImage label (axis_label x l0) (axis_label y l1) x0 x1 y0 y1 n0 n1 (fun i j => a_at a [i; j])).
  assert (Hi : forall label a, a_shape a = [n0; n1] -> plot_image label [x; y] a [lo0; lo1] [hi0; hi1] [l0; l1] = Ok (img label a)).
  { intros label a Ha. unfold plot_image, img. rewrite Ha, E0, E1. destruct (extent1 e0 l0), (extent1 e1 l1). reflexivity. }
  assert (Hp : plot_sigma name (MGrid gm) (MGrid gl) (MGrid gu) None =
    Ok [img (name ++ " (lower)")%string (g_data gl); img (name ++ " (median)")%string (g_data gm); img (name ++ " (upper)")%string (g_data gu)]).
  { unfold plot_sigma. cbn [collapse_map with_axes]. cbn [g_data]. rewrite En, El, Eu, Eg.
    cbn [append]. rewrite !Hi by assumption. reflexivity. }
  exists (img (name ++ " (lower)")%string (g_data gl)), (img (name ++ " (median)")%string (g_data gm)), (img (name ++ " (upper)")%string (g_data gu)).
  eexists. split.
  { cbn [plot_collected plot_config b_config b_values c_kind c_name fst snd]. rewrite Rm, Rl, Ru, Hc, Hp. cbn [app]. reflexivity. }
  set (f1 := img _ (g_data gl)). set (f2 := img _ (g_data gm)). set (f3 := img _ (g_data gu)). split.
  { apply (save_all_own sp fmt [f1; f2] f3 m [l; u] f Hf []). }
  split.
  { intros fig Hin. cbn [fold_left save_figure] in Hin. revert Hin.
    set (sv := fun (fg : figure) d => fold_left (fun d1 g => set (path_join sp (stem_of (basename m) ++ "." ++ g)%string) fg d1) fmt d).
    change (In fig (map snd (sv f3 (sv f2 (sv f1 [])))) -> fig = f3).
    assert (K : forall (fg : figure) lst (d : dict figure), (forall k v, In (k, v) d -> exists g, In g lst /\ k = path_join sp (stem_of (basename m) ++ "." ++ g)%string) ->
      NoDup (keys d) ->
      let d' := fold_left (fun d1 g => set (path_join sp (stem_of (basename m) ++ "." ++ g)%string) fg d1) lst d in
      NoDup (keys d') /\ forall k v, In (k, v) d' -> v = fg /\ exists g, In g lst /\ k = path_join sp (stem_of (basename m) ++ "." ++ g)%string).
    { intros fg lst d Hk Hnd.
      assert (K2 : forall l2 l1 (d0 : dict figure), lst = l1 ++ l2 -> NoDup (keys d0) ->
        (forall k v, In (k, v) d0 -> (exists g, In g lst /\ k = path_join sp (stem_of (basename m) ++ "." ++ g)%string) /\
          ((exists g, In g l1 /\ k = path_join sp (stem_of (basename m) ++ "." ++ g)%string) -> v = fg)) ->
        let d' := fold_left (fun d1 g => set (path_join sp (stem_of (basename m) ++ "." ++ g)%string) fg d1) l2 d0 in
        NoDup (keys d') /\ forall k v, In (k, v) d' -> (exists g, In g lst /\ k = path_join sp (stem_of (basename m) ++ "." ++ g)%string) /\
          ((exists g, In g lst /\ k = path_join sp (stem_of (basename m) ++ "." ++ g)%string) -> v = fg)).
      { induction l2 as [|g l2 IH]; intros l1' d0 El1 Hn H; cbn [fold_left].
        - rewrite app_nil_r in El1. subst l1'. split; [exact Hn|exact H].
        - apply (IH (l1' ++ [g])); [rewrite <- app_assoc; exact El1|apply NoDup_set, Hn|].
          intros k v Hkv. apply In_get in Hkv; [|apply NoDup_set, Hn].
          destruct (string_dec k (path_join sp (stem_of (basename m) ++ "." ++ g)%string)) as [->|Nk].
          + rewrite get_set_eq in Hkv. injection Hkv as <-. split; [|reflexivity].
            exists g. split; [|reflexivity]. rewrite El1. apply in_or_app. right. left. reflexivity.
          + rewrite get_set_neq in Hkv by congruence. apply get_In in Hkv. destruct (H k v Hkv) as [A B]. split; [exact A|].
            intros (g' & Hg' & Ek). apply B. apply in_app_or in Hg'. destruct Hg' as [Hg'|[<-|[]]]; [exists g'; auto|contradiction]. }
      destruct (K2 lst [] d eq_refl Hnd) as [A B].
      { intros k v Hkv. split; [apply (Hk k v Hkv)|]. intros (g & [] & _). }
      split; [exact A|]. intros k v Hkv. destruct (B k v Hkv) as [B1 B2]. split; [apply B2, B1|exact B1]. }
    destruct (K f1 fmt [] ltac:(intros k v []) ltac:(constructor)) as [A1 B1].
    destruct (K f2 fmt (sv f1 []) (fun k v Hkv => proj2 (B1 k v Hkv)) A1) as [A2 B2].
    destruct (K f3 fmt (sv f2 (sv f1 [])) (fun k v Hkv => proj2 (B2 k v Hkv)) A2) as [A3 B3].
    intros Hin. apply in_map_iff in Hin. destruct Hin as ([k v] & <- & Hkv). exact (proj1 (B3 k v Hkv)). }
  unfold f1, f2, f3, img. destruct (extent1 e0 l0), (extent1 e1 l1).
  split; [|split]; do 9 eexists; reflexivity.
Qed.

(** The lower and upper maps are drawn at the positions of the median map, whatever their own axes
    are. *)
Theorem C95_sigma_axes_refuted : forall name m gl gl' gu gu' c,
  g_data gl = g_data gl' -> g_data gu = g_data gu' ->
  plot_sigma name m (MGrid gl) (MGrid gu) c = plot_sigma name m (MGrid gl') (MGrid gu') c.
Proof. intros name m gl gl' gu gu' c H1 H2. unfold plot_sigma, with_axes. destruct m; [reflexivity|]. rewrite H1, H2. reflexivity. Qed.

(** With one axis, not logarithmic or with positive bounds: the band at every node. *)
Theorem C95_sigma_band : forall name gm gl gu x lo hi lg n,
  g_names gm = [x] -> g_lowers gm = [lo] -> g_uppers gm = [hi] -> g_logs gm = [lg] ->
  a_shape (g_data gm) = [n] -> a_shape (g_data gl) = [n] -> a_shape (g_data gu) = [n] -> (0 < n)%nat -> drawable lg lo hi ->
  exists pts, plot_sigma name (MGrid gm) (MGrid gl) (MGrid gu) None = Ok [FBand name x pts] /\ List.length pts = n /\
    forall i, (i < n)%nat -> nth_error pts i =
      Some (scaled_place lg lo hi n (Z.of_nat i), a_at (g_data gm) [i], a_at (g_data gl) [i], a_at (g_data gu) [i]).
Proof.
  intros name gm gl gu x lo hi lg n En El Eu Eg Sm Sl Su Hn Hd.
  destruct (edges_centers_ok lo hi n lg Hn Hd) as (e & c & E & _ & Lc & Hc & _).
  unfold plot_sigma. cbn [collapse_map with_axes g_data]. rewrite En, El, Eu, Eg. unfold plot_band.
  rewrite Sm, Sl, Su. cbn [nth]. rewrite E, Nat.eqb_refl. cbn [andb]. eexists. split; [reflexivity|].
  assert (Z : forall cs ms ls us, List.length ms = List.length cs -> List.length ls = List.length cs -> List.length us = List.length cs ->
    List.length (zip4 cs ms ls us) = List.length cs /\
    forall i, (i < List.length cs)%nat -> nth_error (zip4 cs ms ls us) i = Some (ent cs i, ent ms i, ent ls i, ent us i)).
  { clear. induction cs as [|c cs IH]; intros [|m ms] [|l ls] [|u us] H1 H2 H3; try discriminate; [split; [reflexivity|cbn; lia]|].
    cbn [zip4 List.length]. destruct (IH ms ls us) as [A B]; [cbn in *; lia..|]. split; [lia|]. intros [|i] Hi; [reflexivity|]. apply B. lia. }
  assert (L : forall a, a_shape a = [n] -> List.length (entries1 a) = n) by (intros a Ha; rewrite entries1_length, Ha; reflexivity).
  destruct (Z c (entries1 (g_data gm)) (entries1 (g_data gl)) (entries1 (g_data gu))) as [Z1 Z2]; try (rewrite L by assumption; lia).
  split; [lia|]. intros i Hi. rewrite Z2, Hc by lia. rewrite !entries1_ent by (rewrite ?Sm, ?Sl, ?Su; exact Hi). reflexivity.
Qed.
Example C95_sigma_band_case : exists pts, plot_sigma "eff"
  (MGrid (mk_grid (mk_arr [3%nat] (fun _ => 1%R)) ["s1"] [0%R] [10%R] [false]))
  (MGrid (mk_grid (mk_arr [3%nat] (fun _ => 0%R)) ["s1"] [0%R] [20%R] [false]))
  (MGrid (mk_grid (mk_arr [3%nat] (fun _ => 2%R)) ["s1"] [0%R] [10%R] [false])) None = Ok [FBand "eff" "s1" pts] /\
  nth_error pts 1 = Some (5, 1, 0, 2)%R.
Proof.
  destruct (C95_sigma_band "eff" (mk_grid (mk_arr [3%nat] (fun _ => 1%R)) ["s1"] [0%R] [10%R] [false])
    (mk_grid (mk_arr [3%nat] (fun _ => 0%R)) ["s1"] [0%R] [20%R] [false])
    (mk_grid (mk_arr [3%nat] (fun _ => 2%R)) ["s1"] [0%R] [10%R] [false]) "s1" 0 10 false 3 eq_refl eq_refl eq_refl eq_refl eq_refl eq_refl eq_refl
    ltac:(lia) ltac:(intros C; discriminate C)) as (pts & E & _ & H).
  exists pts. split; [exact E|]. rewrite H by lia. unfold scaled_place. cbn. repeat f_equal. lra.
Qed.

(** The collapse argument is looked up under any of the names of a map. If at most one of them is given
    then the order of the names makes no difference ... *)
Theorem C95_lookup : forall (c : dict (dict (option (R * R)))) names names',
  (forall n, In n names <-> In n names') ->
  (forall n n' s s', In n names -> In n' names -> get n c = Some s -> get n' c = Some s' -> s = s') ->
  lookup_collapse c names = lookup_collapse c names' /\
  (forall n s, In n names -> get n c = Some s -> lookup_collapse c names = Some s).
Proof.
  intros c names names' Hn Hs.
  assert (F : forall l s, lookup_collapse c l = Some s -> exists n, In n l /\ get n c = Some s).
  { induction l as [|n l IH]; intros s H; cbn in H; [discriminate H|]. destruct (get n c) as [s0|] eqn:E.
    - injection H as <-. exists n. split; [left; reflexivity|exact E].
    - destruct (IH s H) as (n' & A & B). exists n'. split; [right; exact A|exact B]. }
  assert (N : forall l n s, In n l -> get n c = Some s -> lookup_collapse c l <> None).
  { induction l as [|n l IH]; intros n' s Hin Hg; [destruct Hin|]. cbn. destruct (get n c) eqn:E; [discriminate|].
    destruct Hin as [->|Hin]; [congruence|]. eapply IH; eassumption. }
  assert (G : forall n s, In n names -> get n c = Some s -> lookup_collapse c names = Some s).
  { intros n s Hin Hg. destruct (lookup_collapse c names) as [s'|] eqn:E; [|destruct (N _ _ _ Hin Hg E)].
    destruct (F _ _ E) as (n' & A & B). f_equal. exact (Hs n' n s' s A Hin B Hg). }
  split; [|exact G]. destruct (lookup_collapse c names') as [s|] eqn:E'.
  - destruct (F _ _ E') as (n & A & B). apply (G n s); [apply Hn, A|exact B].
  - destruct (lookup_collapse c names) as [s|] eqn:E; [|reflexivity]. destruct (F _ _ E) as (n & A & B).
    apply Hn in A. destruct (N _ _ _ A B E').
Qed.
(** ... otherwise it does, and the names are a set. *)
Theorem C95_lookup_refuted : exists (c : dict (dict (option (R * R)))) n1 n2,
  lookup_collapse c [n1; n2] <> lookup_collapse c [n2; n1].
Proof. exists [("a", [("x", None)]); ("b", [("y", None)])], "a", "b". cbn. intros H. discriminate H. Qed.
Example C95_lookup_case : lookup_collapse [("lce", [("z", @None (R * R))])] ["other"; "lce"] = Some [("z", None)].
Proof. reflexivity. Qed.


(** A SigmaMap with a collapse argument is drawn as one whose three maps have been collapsed before
    (how is C94). *)
Theorem C95_sigma_collapsed : forall name c gm gl gu, proper_grid gm -> proper_grid gl -> proper_grid gu -> NoDup (keys c) ->
  g_names gl = g_names gm -> g_lowers gl = g_lowers gm -> g_uppers gl = g_uppers gm -> g_logs gl = g_logs gm ->
  g_names gu = g_names gm -> g_lowers gu = g_lowers gm -> g_uppers gu = g_uppers gm -> g_logs gu = g_logs gm ->
  exists gm' gl' gu', collapse_map (Some c) gm = Ok gm' /\ collapse_map (Some c) gl = Ok gl' /\ collapse_map (Some c) gu = Ok gu' /\
    plot_sigma name (MGrid gm) (MGrid gl) (MGrid gu) (Some c) = plot_sigma name (MGrid gm') (MGrid gl') (MGrid gu') None.
Proof.
  intros name c gm gl gu Pm Pl Pu Hc L1 L2 L3 L4 U1 U2 U3 U4.
  destruct (collapse_ok c gm Pm Hc) as (gm' & sm & Em & _).
  destruct (collapse_ok c gl Pl Hc) as (gl' & sl & El & _).
  destruct (collapse_ok c gu Pu Hc) as (gu' & su & Eu & _).
  exists gm', gl', gu'. split; [exact Em|]. split; [exact El|]. split; [exact Eu|].
  unfold plot_sigma. unfold with_axes.
  assert (Al : mk_grid (g_data gl) (g_names gm) (g_lowers gm) (g_uppers gm) (g_logs gm) = gl)
    by (rewrite <- L1, <- L2, <- L3, <- L4; destruct gl; reflexivity).
  assert (Au : mk_grid (g_data gu) (g_names gm) (g_lowers gm) (g_uppers gm) (g_logs gm) = gu)
    by (rewrite <- U1, <- U2, <- U3, <- U4; destruct gu; reflexivity).
  rewrite Al, Au, Em, El, Eu. cbn [collapse_map g_data]. reflexivity.
Qed.

(** A map with one axis left after averaging the second one away: the band is that of the averages. *)
Example C95_sigma_collapsed_case : forall read0 : nat -> R,
  let g k := mk_grid (mk_arr [2; 3] (fun idx => read0 (k + nth 0 idx 0 + nth 1 idx 0)%nat)) ["x"; "y"] [0%R; 0%R] [1%R; 2%R] [false; false] in
  let c := [("y", @None (R * R))] in
  proper_grid (g 0) /\ proper_grid (g 1) /\ proper_grid (g 2) /\ NoDup (keys c) /\
  exists pts, plot_sigma "m" (MGrid (g 0)) (MGrid (g 1)) (MGrid (g 2)) (Some c) = Ok [FBand "m" "x" pts] /\
    List.length pts = 2%nat.
Proof.
  intros read0 g c.
  assert (P : forall k, proper_grid (g k)).
  { intros k. constructor; cbn; try reflexivity.
    - constructor; [intros [H|[]]; discriminate H|]. constructor; [intros []|constructor].
    - intros n [<-|[<-|[]]]; lia.
    - intros [|[|[|i]]] l lo hi H; cbn in *; intros; try discriminate; injection H as <-; intros D; discriminate D. }
  split; [apply P|]. split; [apply P|]. split; [apply P|].
  split; [cbn; constructor; [intros []|constructor]|].
  eexists. split; [reflexivity|reflexivity].
Qed.

(** Without save nothing is written, and the figures are the same. *)
Theorem C95_not_saved : forall read collapse sp fmt collected figs0 disk0,
  match plot_collected read collapse true sp fmt collected figs0 disk0 with
  | Ok (figs, _) => plot_collected read collapse false sp fmt collected figs0 disk0 = Ok (figs, disk0)
  | Err e => plot_collected read collapse false sp fmt collected figs0 disk0 = Err e
  end.
Proof.
  intros read collapse sp fmt collected. induction collected as [|[key [b names]] rest IH]; intros figs0 disk0;
    cbn [plot_collected]; [reflexivity|].
  destruct (plot_config read b (lookup_collapse collapse names)) as [fs|e]; [|reflexivity].
  set (d1 := fold_left _ fs disk0).
  pose proof (IH (figs0 ++ fs) d1) as H1. pose proof (IH (figs0 ++ fs) disk0) as H2.
  assert (K : forall l f0 d d', match plot_collected read collapse true sp fmt l f0 d, plot_collected read collapse true sp fmt l f0 d' with
    | Ok (a, _), Ok (b, _) => a = b | Err a, Err b => a = b | _, _ => False end).
  { clear. induction l as [|[k1 [b1 n1]] l IHl]; intros f0 d d'; cbn [plot_collected]; [reflexivity|].
    destruct (plot_config read b1 (lookup_collapse collapse n1)); [|reflexivity]. apply IHl. }
  specialize (K rest (figs0 ++ fs) d1 disk0).
  destruct (plot_collected read collapse true sp fmt rest (figs0 ++ fs) d1) as [[fa da]|ea];
    destruct (plot_collected read collapse true sp fmt rest (figs0 ++ fs) disk0) as [[fb db]|eb]; try contradiction; subst; exact H2.
Qed.

Print Assumptions C93_collected.
Print Assumptions C93_after_build.
Print Assumptions C93_last_built_refuted.
Print Assumptions C93_first_name_refuted.
Print Assumptions C93_not_compiled.
Print Assumptions C95_stem.
Print Assumptions C95_targets.
Print Assumptions C95_saved.
Print Assumptions C95_one_file_each.
Print Assumptions C95_same_name_refuted.
Print Assumptions C95_sigma_images_refuted.
Print Assumptions C95_sigma_axes_refuted.
Print Assumptions C95_sigma_band.
Print Assumptions C95_lookup.
Print Assumptions C95_lookup_refuted.
Print Assumptions C95_sigma_collapsed.
Print Assumptions C95_not_saved.
