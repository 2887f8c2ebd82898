(** Lemmas about several contexts in one process. *)
From Coq Require Import Reals Lra Lia.
From Verif Require Import Base BaseFacts ModelFloat ModelHist ModelShare ModelConfig ModelComponent ModelCompile
  ModelParameter ModelLikelihood ModelBinning ModelLit ModelContext ModelWhole
  SpecHist SpecLikelihood SpecComponent SpecConfig SpecCompile SpecParameter SpecContext SpecWeighted SpecBinning SpecWhole
  ProofWorkflow ProofHistory ProofCompile ProofWhole.
Local Open Scope string_scope.
Local Open Scope list_scope.

Lemma alike_refl w : alike w w.
Proof. split; reflexivity. Qed.

Lemma alike_cache w v c : alike w v -> alike (with_cache w c) (with_cache v c).
Proof. intros [H1 H2]. split; [reflexivity|exact H2]. Qed.

Lemma has_set {V} n k (v : V) d : has n (set k v d) = (String.eqb n k || has n d)%bool.
Proof. unfold has. rewrite get_set. destruct (String.eqb n k); reflexivity. Qed.

Lemma instantiate_alike f plugins llh insts : forall acc w v, w_cache w = w_cache v ->
  w_cache (fst (instantiate f plugins llh insts acc w)) = w_cache (fst (instantiate f plugins llh insts acc v)) /\
  snd (instantiate f plugins llh insts acc w) = snd (instantiate f plugins llh insts acc v).
Proof.
  induction insts as [|[iname pname] rest IH]; intros acc w v H; cbn [instantiate]; [auto|].
  destruct (plugins pname) as [p|]; [|auto]. rewrite <- H.
  destruct (plugin_init f p (Some llh) (w_cache w)) as [[c1 bs] [i|e]]; [|auto]. apply IH. reflexivity.
Qed.

Lemma set_nth_last {A} (l : list A) x y : set_nth (List.length l) x (l ++ [y]) = l ++ [x].
Proof. induction l as [|a l IH]; cbn; [reflexivity|]. rewrite IH. reflexivity. Qed.

Lemma nth_last {A} (l : list A) x d : nth (List.length l) (l ++ [x]) d = x.
Proof. rewrite app_nth2 by lia. rewrite Nat.sub_diag. reflexivity. Qed.

(** What the outside sees of a component after deduce and compile. *)
Definition same_component (k k' : ModelComponent.component) : Prop :=
  k_needed k = k_needed k' /\ k_noeff k = k_noeff k' /\ k_simulate k = k_simulate k'.

Lemma build_alike limit dn func nodep noeff f plugins k w v : alike w v ->
  let a := build_component limit dn func nodep noeff f plugins k w in
  let b := build_component limit dn func nodep noeff f plugins k v in
  alike (fst (fst a)) (fst (fst b)) /\ same_component (snd (fst a)) (snd (fst b)) /\ snd a = snd b.
Proof.
  intros [Hc Hf]. cbv zeta. unfold build_component, deduce. rewrite <- Hc.
  destruct (dependencies_deduce _ _ _ _ _) as [deps|e].
  2: { cbn. repeat split; assumption. }
  destruct (dependencies_simplify _ _ _ _) as [[c1 [ws needed]] [u|e]].
  2: { cbn. repeat split; assumption. }
  unfold set_code. cbn [k_llh with_cache w_fn w_heap w_cache w_class k_compile]. unfold sv_setitem. rewrite <- Hf.
  destruct (has (k_llh k) (w_fn w)) eqn:Hh.
  { cbn. repeat split; assumption. }
  unfold compile. cbn [k_compile pr_imports pr_llh pr_insts pr_func gen_code].
  destruct (imports_ok _ _).
  2: { split; [split; [reflexivity|]|split; [split; [|split]; reflexivity|reflexivity]].
       intros n. cbn [fst snd w_fn]. rewrite !has_set, Hf. reflexivity. }
  match goal with |- context [instantiate f plugins (k_llh k) ?i [] ?x] =>
    match goal with |- context [instantiate f plugins (k_llh k) i [] ?y] =>
      tryif constr_eq x y then fail else
      (pose proof (instantiate_alike f plugins (k_llh k) i [] x y eq_refl) as [I1 I2];
       pose proof (instantiate_fn f plugins (k_llh k) i [] x) as [F1 F2];
       pose proof (instantiate_fn f plugins (k_llh k) i [] y) as [G1 G2];
       destruct (instantiate f plugins (k_llh k) i [] x) as [w1 r1];
       destruct (instantiate f plugins (k_llh k) i [] y) as [v1 r2])
    end end.
  cbn [fst snd w_fn w_heap] in *. subst r2.
  destruct r1 as [insts|e].
  2: { split; [split; [exact I1|]|split; [split; [|split]; reflexivity|reflexivity]].
       intros n. cbn [fst snd w_fn]. rewrite F1, G1, !has_set, Hf. reflexivity. }
  cbn [w_fn w_heap w_cache k_llh k_func]. rewrite F1, G1, F2, G2, !get_set_eq, !nth_last, !set_nth_last, !nth_last, !get_set_eq.
  split; [split; [exact I1|]|split; [split; [|split]; reflexivity|reflexivity]].
  intros n. cbn [fst snd w_fn]. rewrite !has_set, Hf. reflexivity.
Qed.

Section Alike.
  Context {K : Type}.
  Variable E : ModelWhole.env K.

  Lemma load_alike fname w v : alike w v ->
    alike (fst (load_data K E fname w)) (fst (load_data K E fname v)) /\
    snd (load_data K E fname w) = snd (load_data K E fname v).
  Proof.
    intros [Hc Hf]. unfold load_data. rewrite <- Hc. destruct (get_file_path _ _ _) as [c r]. cbn [fst snd].
    split; [split; [reflexivity|exact Hf]|reflexivity].
  Qed.

  Lemma construct_alike lname on b cname cls file w v : alike w v ->
    alike (fst (construct_component K E lname on b cname cls file w)) (fst (construct_component K E lname on b cname cls file v)) /\
    snd (construct_component K E lname on b cname cls file w) = snd (construct_component K E lname on b cname cls file v).
  Proof.
    intros H. unfold construct_component. destruct cls as [ps nt ae|nt ae|]; [| |auto].
    - destruct (register ps []) as [reg [u|e]]; [|auto].
      match goal with |- context [build_component ?a ?b ?c ?d ?e ?f ?g ?h w] =>
        pose proof (build_alike a b c d e f g h w v H) as G; cbv zeta in G;
        destruct (build_component a b c d e f g h w) as [[w' k'] r];
        destruct (build_component a b c d e f g h v) as [[v' k''] r'] end.
      cbn [fst snd] in *. destruct G as (G1 & (G2 & G3 & G4) & <-). split; [exact G1|].
      destruct r as [u'|e]; [|reflexivity]. rewrite <- G4. destruct (k_simulate k') as [cl|]; [|reflexivity].
      rewrite <- G2, <- G3. reflexivity.
    - destruct file as [[|a s]|]; [auto| |auto].
      destruct (load_alike (String a s) w v H) as [L1 L2].
      destruct (load_data K E (String a s) w) as [w' r]. destruct (load_data K E (String a s) v) as [v' r'].
      cbn [fst snd] in *. subst r'. split; [exact L1|reflexivity].
  Qed.

  Lemma make_alike t w v : alike w v ->
    alike (fst (make_type K E t w)) (fst (make_type K E t v)) /\
    snd (make_type K E t w) = snd (make_type K E t v).
  Proof.
    intros H. unfold make_type. destruct t as [cfg file|vt on names values]; [|auto].
    destruct (load_alike file w v H) as [L1 L2].
    destruct (load_data K E file w) as [w' t]. destruct (load_data K E file v) as [v' t'].
    cbn [fst snd] in *. subst t'. auto.
  Qed.

  Lemma components_alike lname cs : forall (c : context K) w v, alike w v ->
    let a := context_components K E lname cs c w in let b := context_components K E lname cs c v in
    alike (fst (fst a)) (fst (fst b)) /\ snd (fst a) = snd (fst b) /\ snd a = snd b.
  Proof.
    induction cs as [|[cname [cls file]] rest IH]; intros c w v H; cbv zeta; cbn [context_components]; [auto|].
    destruct (e_classes E cls) as [k|]; [|auto]. unfold context_component.
    destruct (get lname (cx_llhs c)) as [L|]; [|auto]. unfold add_component. destruct (full L); [auto|].
    destruct (has cname (ll_components (wl_llh L))); [auto|].
    destruct (construct_alike lname (m_on (wl_type L)) (m_bins (wl_type L)) cname k file w v H) as [C1 C2].
    destruct (construct_component _ _ _ _ _ _ _ _ w) as [w' r]. destruct (construct_component _ _ _ _ _ _ _ _ v) as [v' r'].
    cbn [fst snd] in C1, C2. subst r'. destruct r as [[lc sim]|e]; [|auto].
    destruct (register_component cname (Ok lc) (wl_llh L)) as [l' [u|e]]; [|auto].
    apply IH. exact C1.
  Qed.

  Lemma likelihoods_alike ls : forall (c : context K) w v, alike w v ->
    let a := context_likelihoods K E ls c w in let b := context_likelihoods K E ls c v in
    alike (fst (fst a)) (fst (fst b)) /\ snd (fst a) = snd (fst b) /\ snd a = snd b.
  Proof.
    induction ls as [|[lname li] rest IH]; intros c w v H; cbv zeta; cbn [context_likelihoods]; [auto|].
    unfold context_likelihood. destruct (has lname (cx_llhs c)); [auto|].
    destruct (make_alike (li_type li) w v H) as [L1 L2].
    destruct (make_type K E (li_type li) w) as [w' t]. destruct (make_type K E (li_type li) v) as [v' t'].
    cbn [fst snd] in L1, L2. subst t'. destruct t as [m|e]; [|auto].
    match goal with |- context [context_components K E lname ?cs ?c' w'] =>
      pose proof (components_alike lname cs c' w' v' L1) as G; cbv zeta in G;
      destruct (context_components K E lname cs c' w') as [[w2 c2] r2];
      destruct (context_components K E lname cs c' v') as [[v2 c2'] r2'] end.
    cbn [fst snd] in G. destruct G as (G1 & <- & <-). destruct r2 as [u|e]; [|auto]. apply IH. exact G1.
  Qed.

  Lemma set_config_alike f configs w v : alike w v ->
    alike (fst (set_config f configs w)) (fst (set_config f configs v)) /\
    snd (set_config f configs w) = snd (set_config f configs v).
  Proof.
    intros [Hc Hf]. unfold set_config. rewrite <- Hc. destruct (set_global_config _ _ _) as [c r].
    cbn [fst snd]. split; [split; [reflexivity|exact Hf]|reflexivity].
  Qed.

  Lemma configs_alike ins w v : alike w v ->
    alike (fst (context_configs K E ins w)) (fst (context_configs K E ins v)) /\
    snd (context_configs K E ins w) = snd (context_configs K E ins v).
  Proof.
    intros H. unfold context_configs. destruct (in_url ins) as [u|]; [|apply set_config_alike; exact H].
    destruct (set_config_alike (e_fs E) [("url_base", VStr u)] w v H) as [S1 S2].
    destruct (set_config _ _ w) as [w1 r1]. destruct (set_config _ _ v) as [v1 r1'].
    cbn [fst snd] in S1, S2. subst r1'. destruct r1 as [x|e]; [apply set_config_alike; exact S1|auto].
  Qed.

  Lemma context_alike manager ins par w v : alike w v ->
    alike (fst (new_context K E manager ins par w)) (fst (new_context K E manager ins par v)) /\
    snd (new_context K E manager ins par w) = snd (new_context K E manager ins par v).
  Proof.
    intros H. unfold new_context. destruct (configs_alike ins w v H) as [C1 C2].
    destruct (context_configs K E ins w) as [w1 r1]. destruct (context_configs K E ins v) as [v1 r1'].
    cbn [fst snd] in C1, C2. subst r1'. destruct r1 as [x|e]; [|auto]. destruct par as [cfg|e]; [|auto].
    destruct (update_parameter_config _ _) as [[cfg' needed]|e]; [|auto]. destruct (manager cfg') as [st|e]; [|auto].
    pose proof (likelihoods_alike (in_llhs ins) (mk_context st [] needed) w1 v1 C1) as G. cbv zeta in G.
    destruct (context_likelihoods K E (in_llhs ins) (mk_context st [] needed) w1) as [[w2 c2] r2].
    destruct (context_likelihoods K E (in_llhs ins) (mk_context st [] needed) v1) as [[v2 c2'] r2'].
    cbn [fst snd] in *. destruct G as (G1 & <- & <-). split; [exact G1|reflexivity].
  Qed.

  Lemma context_after_clear manager ins par w :
    snd (new_context K E manager ins par (clear_cache w)) = snd (new_context K E manager ins par init_world).
  Proof. apply context_alike. split; reflexivity. Qed.
End Alike.

(** The likelihood names in use. *)
Section Taken.
  Context {K : Type}.
  Variable E : ModelWhole.env K.

  Definition keeps (w w' : world) : Prop := forall n, has n (w_fn w) = true -> has n (w_fn w') = true.
  Lemma keeps_refl w : keeps w w.
  Proof. intros n H. exact H. Qed.
  Lemma keeps_trans a b c : keeps a b -> keeps b c -> keeps a c.
  Proof. intros H1 H2 n H. apply H2, H1, H. Qed.
  Lemma keeps_fn w w' : w_fn w' = w_fn w -> keeps w w'.
  Proof. intros H n Hn. rewrite H. exact Hn. Qed.

  Lemma build_keeps limit dn func nodep noeff f plugins k w w' k' r :
    build_component limit dn func nodep noeff f plugins k w = (w', k', r) -> keeps w w' /\
    (r = Ok tt -> has (k_llh k) (w_fn w) = false /\ has (k_llh k) (w_fn w') = true).
  Proof.
    unfold build_component. pose proof (deduce_fn limit dn func nodep noeff k w) as D.
    destruct (deduce limit dn func nodep noeff k w) as [[w1 k1] r1] eqn:Hd. cbn [fst snd] in D.
    assert (D' : keeps w w1 /\ (r1 = Ok tt -> has (k_llh k) (w_fn w) = false /\ has (k_llh k) (w_fn w1) = true)).
    { destruct D as [[D1 D2]|(k2 & D1 & D2 & D3)].
      - split; [apply keeps_fn; exact D1|]. intros ->. exfalso.
        destruct (deduce_ok_inv _ _ _ _ _ _ _ _ _ Hd) as (? & ? & ? & T).
        destruct T as (_ & _ & _ & _ & _ & _ & _ & _ & _ & _ & _ & _ & _ & T1 & T2 & _).
        rewrite D1 in T2. rewrite T2, has_set, String.eqb_refl in T1. discriminate.
      - split; [intros n Hn; rewrite D3, has_set, Hn; apply Bool.orb_true_r|].
        intros _. split; [exact D2|]. rewrite D3, has_set, String.eqb_refl. reflexivity. }
    destruct r1 as [u|e]; intros H.
    - destruct u. pose proof (compile_fn f plugins k1 w1) as [C1 _]. rewrite H in C1. cbn [fst] in C1.
      destruct D' as [D1 D2]. split; [eapply keeps_trans; [exact D1|apply keeps_fn; exact C1]|].
      intros _. rewrite C1. auto.
    - injection H as <- <- <-. destruct D' as [D1 _]. split; [exact D1|discriminate].
  Qed.

  Lemma load_keeps fname w : keeps w (fst (load_data K E fname w)).
  Proof. unfold load_data. destruct (get_file_path _ _ _) as [c r]. apply keeps_fn. reflexivity. Qed.

  Lemma make_keeps t w : keeps w (fst (make_type K E t w)).
  Proof.
    unfold make_type. destruct t as [cfg file|vt on names values]; [|apply keeps_refl].
    pose proof (load_keeps file w) as G. destruct (load_data K E file w) as [w' d]. exact G.
  Qed.

  Lemma set_config_keeps f configs w : keeps w (fst (set_config f configs w)).
  Proof. unfold set_config. destruct (set_global_config _ _ _) as [c r]. apply keeps_fn. reflexivity. Qed.

  Lemma configs_keeps ins w : keeps w (fst (context_configs K E ins w)).
  Proof.
    unfold context_configs. destruct (in_url ins) as [u|]; [|apply set_config_keeps].
    pose proof (set_config_keeps (e_fs E) [("url_base", VStr u)] w) as G.
    destruct (set_config _ _ w) as [w1 [x|e]]; cbn [fst] in G; [|exact G].
    eapply keeps_trans; [exact G|apply set_config_keeps].
  Qed.

  Lemma construct_keeps lname on b cname cls file w w' r :
    construct_component K E lname on b cname cls file w = (w', r) -> keeps w w' /\
    forall ps nt ae c, cls = ClsSim ps nt ae -> r = Ok c ->
      has lname (w_fn w) = false /\ has lname (w_fn w') = true.
  Proof.
    unfold construct_component. intros H. destruct cls as [ps nt ae|nt ae|].
    - destruct (register ps []) as [reg [u|e]].
      2: { injection H as <- <-. split; [apply keeps_refl|]. intros. discriminate. }
      match type of H with context [build_component ?a ?b ?c ?d ?e ?f ?g ?h w] =>
        destruct (build_component a b c d e f g h w) as [[w1 k1] r1] eqn:Hb end.
      destruct (build_keeps _ _ _ _ _ _ _ _ _ _ _ _ Hb) as [B1 B2]. injection H as <- <-.
      split; [exact B1|]. intros ps' nt' ae' c _ Hr. destruct r1 as [[]|e]; [|discriminate]. exact (B2 eq_refl).
    - assert (Hk : keeps w w').
      { destruct file as [[|a s]|]; [injection H as <- _; apply keeps_refl| |injection H as <- _; apply keeps_refl].
        pose proof (load_keeps (String a s) w) as G. destruct (load_data K E (String a s) w) as [w1 t].
        injection H as <- _. exact G. }
      split; [exact Hk|]. intros. discriminate.
    - injection H as <- <-. split; [apply keeps_refl|]. intros. discriminate.
  Qed.

  Lemma components_keeps lname cs : forall (c : context K) w w' c' r,
    context_components K E lname cs c w = (w', c', r) -> keeps w w' /\
    (r = Ok tt -> forall ci, In ci cs -> is_sim E ci ->
       has lname (w_fn w) = false /\ has lname (w_fn w') = true).
  Proof.
    induction cs as [|[cname [cls file]] rest IH]; intros c w w' c' r H; cbn [context_components] in H.
    { injection H as <- <- <-. split; [apply keeps_refl|]. intros _ ci []. }
    destruct (e_classes E cls) as [k|] eqn:Hk.
    2: { injection H as <- <- <-. split; [apply keeps_refl|discriminate]. }
    unfold context_component in H. destruct (get lname (cx_llhs c)) as [L|].
    2: { injection H as <- <- <-. split; [apply keeps_refl|discriminate]. }
    unfold add_component in H. destruct (full L).
    { injection H as <- <- <-. split; [apply keeps_refl|discriminate]. }
    destruct (has cname (ll_components (wl_llh L))).
    { injection H as <- <- <-. split; [apply keeps_refl|discriminate]. }
    destruct (construct_component K E lname (m_on (wl_type L)) (m_bins (wl_type L)) cname k file w) as [w1 r1] eqn:Hc.
    destruct (construct_keeps _ _ _ _ _ _ _ _ _ Hc) as [C1 C2].
    destruct r1 as [[cc sim]|e].
    2: { injection H as <- <- <-. split; [exact C1|discriminate]. }
    destruct (register_component cname (Ok cc) (wl_llh L)) as [l' r2] eqn:Hr. destruct r2 as [u|e].
    2: { injection H as <- <- <-. split; [exact C1|discriminate]. }
    destruct (IH _ _ _ _ _ H) as [I1 I2]. split; [eapply keeps_trans; eassumption|].
    intros -> ci [<-|Hi] Hs.
    - destruct Hs as (ps & nt & ae & Hs). cbn [fst snd] in Hs. rewrite Hk in Hs. injection Hs as ->.
      destruct (C2 _ _ _ _ eq_refl eq_refl) as [T1 T2]. split; [exact T1|]. apply I1, T2.
    - destruct (I2 eq_refl ci Hi Hs) as [T1 T2]. split; [|exact T2].
      destruct (has lname (w_fn w)) eqn:Hh; [|reflexivity]. rewrite (C1 _ Hh) in T1. discriminate.
  Qed.

  (** Two simulated components in one likelihood. *)
  Lemma components_one lname cs : forall (c : context K) w w' c',
    context_components K E lname cs c w = (w', c', Ok tt) ->
    forall a x b y d, cs = a ++ x :: b ++ y :: d -> is_sim E x -> is_sim E y -> False.
  Proof.
    induction cs as [|[cname [cls file]] rest IH]; intros c w w' c' H a x b y d He Hx Hy.
    { destruct a; discriminate. }
    cbn [context_components] in H. destruct (e_classes E cls) as [k|] eqn:Hk; [|discriminate].
    unfold context_component in H. destruct (get lname (cx_llhs c)) as [L|]; [|discriminate].
    unfold add_component in H. destruct (full L); [discriminate|].
    destruct (has cname (ll_components (wl_llh L))); [discriminate|].
    destruct (construct_component K E lname (m_on (wl_type L)) (m_bins (wl_type L)) cname k file w) as [w1 r1] eqn:Hc.
    destruct (construct_keeps _ _ _ _ _ _ _ _ _ Hc) as [C1 C2].
    destruct r1 as [[cc sim]|e]; [|discriminate].
    destruct (register_component cname (Ok cc) (wl_llh L)) as [l' r2] eqn:Hr. destruct r2 as [u|e]; [|discriminate].
    destruct a as [|a0 a].
    - cbn [app] in He. injection He as <- ->. destruct Hx as (ps & nt & ae & Hx). cbn [fst snd] in Hx. rewrite Hk in Hx.
      injection Hx as ->. destruct (C2 _ _ _ _ eq_refl eq_refl) as [_ T].
      destruct (components_keeps lname _ _ _ _ _ _ H) as [_ I2].
      destruct (I2 eq_refl y) as [T' _]; [apply in_or_app; right; left; reflexivity|exact Hy|]. congruence.
    - cbn [app] in He. injection He as _ ->. exact (IH _ _ _ _ H a x b y d eq_refl Hx Hy).
  Qed.

  Lemma likelihoods_keeps ls : forall (c : context K) w w' c' r,
    context_likelihoods K E ls c w = (w', c', r) -> keeps w w' /\
    (r = Ok tt -> forall lname li ci, In (lname, li) ls -> In ci (li_components li) -> is_sim E ci ->
       has lname (w_fn w) = false /\ has lname (w_fn w') = true) /\
    (r = Ok tt -> forall lname li a x b y d, In (lname, li) ls -> li_components li = a ++ x :: b ++ y :: d ->
       is_sim E x -> is_sim E y -> False).
  Proof.
    induction ls as [|[lname li] rest IH]; intros c w w' c' r H; cbn [context_likelihoods] in H.
    { injection H as <- <- <-. split; [apply keeps_refl|]. split; [intros _ ? ? ? []|intros _ ? ? ? ? ? ? ? []]. }
    unfold context_likelihood in H. destruct (has lname (cx_llhs c)).
    { injection H as <- <- <-. split; [apply keeps_refl|]. split; discriminate. }
    pose proof (make_keeps (li_type li) w) as G. destruct (make_type K E (li_type li) w) as [w1 t]. cbn [fst] in G.
    destruct t as [m|e].
    2: { injection H as <- <- <-. split; [exact G|]. split; discriminate. }
    match type of H with context [context_components K E lname ?cs ?cx w1] =>
      destruct (context_components K E lname cs cx w1) as [[w2 c2] r2] eqn:Hc end.
    destruct (components_keeps _ _ _ _ _ _ _ Hc) as [C1 C2]. destruct r2 as [[]|e].
    2: { injection H as <- <- <-. split; [eapply keeps_trans; eassumption|]. split; discriminate. }
    destruct (IH _ _ _ _ _ H) as (I1 & I2 & I3).
    assert (K1 : keeps w w2) by (eapply keeps_trans; eassumption).
    split; [eapply keeps_trans; eassumption|]. split.
    - intros -> n li' ci [Hi|Hi] Hci Hs.
      + injection Hi as <- <-. destruct (C2 eq_refl ci Hci Hs) as [T1 T2]. split; [|apply I1, T2].
        destruct (has lname (w_fn w)) eqn:Hh; [|reflexivity]. rewrite (G _ Hh) in T1. discriminate.
      + destruct (I2 eq_refl n li' ci Hi Hci Hs) as [T1 T2]. split; [|exact T2].
        destruct (has n (w_fn w)) eqn:Hh; [|reflexivity]. rewrite (K1 _ Hh) in T1. discriminate.
    - intros -> n li' a x b y d [Hi|Hi] He Hx Hy; [|exact (I3 eq_refl n li' a x b y d Hi He Hx Hy)].
      injection Hi as <- <-. exact (components_one _ _ _ _ _ _ Hc a x b y d He Hx Hy).
  Qed.

  Lemma context_keeps manager ins par w w' r : new_context K E manager ins par w = (w', r) -> keeps w w' /\
    forall c, r = Ok c ->
      (forall lname li ci, In (lname, li) (in_llhs ins) -> In ci (li_components li) -> is_sim E ci ->
         has lname (w_fn w) = false /\ has lname (w_fn w') = true) /\
      (forall lname li a x b y d, In (lname, li) (in_llhs ins) -> li_components li = a ++ x :: b ++ y :: d ->
         is_sim E x -> is_sim E y -> False).
  Proof.
    intros H. unfold new_context in H. pose proof (configs_keeps ins w) as G.
    destruct (context_configs K E ins w) as [w1 [u|e]]; cbn [fst] in G.
    2: { injection H as <- <-. split; [exact G|]. intros. discriminate. }
    destruct par as [cfg|e].
    2: { injection H as <- <-. split; [exact G|]. intros. discriminate. }
    destruct (update_parameter_config _ _) as [[cfg' needed]|e].
    2: { injection H as <- <-. split; [exact G|]. intros. discriminate. }
    destruct (manager cfg') as [st|e].
    2: { injection H as <- <-. split; [exact G|]. intros. discriminate. }
    destruct (context_likelihoods K E (in_llhs ins) (mk_context st [] needed) w1) as [[w2 c2] r2] eqn:Hl.
    destruct (likelihoods_keeps _ _ _ _ _ _ Hl) as (L1 & L2 & L3). injection H as <- <-.
    split; [eapply keeps_trans; eassumption|]. intros c Hr. destruct r2 as [[]|e]; [|discriminate]. split.
    - intros lname li ci Hi Hci Hs. destruct (L2 eq_refl lname li ci Hi Hci Hs) as [T1 T2]. split; [|exact T2].
      destruct (has lname (w_fn w)) eqn:Hh; [|reflexivity]. rewrite (G _ Hh) in T1. discriminate.
    - intros lname li a x b y d. exact (L3 eq_refl lname li a x b y d).
  Qed.
End Taken.
