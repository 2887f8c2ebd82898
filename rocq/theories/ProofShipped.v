(** Lemmas: the shipped components satisfy the conditions for building. *)
From Verif Require Import Base BaseFacts ModelShare ModelConfig ModelComponent ModelCompile ModelShipped
  SpecComponent SpecConfig SpecCompile SpecBuild ProofComponent ProofComponentTop ProofWorkflow
  ProofSim ProofCompile ProofBuild.
From Coq Require Import Relations.
Local Open Scope string_scope.

(** * Decidable checks on a registry, and what they imply *)

Fixpoint depth (reg : registry) (fuel : nat) (d : string) : nat :=
  match fuel with
  | O => 0
  | S n =>
      match get d reg with
      | None => 0
      | Some p => S (fold_left (fun m x => Nat.max m (depth reg n x)) (p_depends p) 0)
      end
  end.

Definition str_list_eqb (a b : list string) : bool :=
  (List.length a =? List.length b)%nat && forallb (fun xy => String.eqb (fst xy) (snd xy)) (combine a b).

Lemma str_list_eqb_eq a : forall b, str_list_eqb a b = true -> a = b.
Proof.
  unfold str_list_eqb. induction a as [|x a IH]; intros [|y b] H; cbn in *; try discriminate; [reflexivity|].
  apply andb_prop in H. destruct H as [H1 H2]. apply andb_prop in H2. destruct H2 as [H2 H3].
  apply String.eqb_eq in H2. subst y. f_equal. apply IH. rewrite H1. exact H3.
Qed.

Definition proper_b (p : plugin) : bool :=
  match p_depends p, p_provides p, p_args p with
  | _ :: _, _ :: _, _ :: rest => str_list_eqb rest ("key" :: "parameters" :: p_depends p)%list
  | _, _, _ => false
  end.

Lemma proper_b_ok p : proper_b p = true -> proper_class p.
Proof.
  unfold proper_b, proper_class. destruct (p_depends p) as [|a l]; [discriminate|].
  destruct (p_provides p) as [|b m]; [discriminate|]. destruct (p_args p) as [|s rest]; [discriminate|].
  intros H. apply str_list_eqb_eq in H. split; [discriminate|]. split; [discriminate|].
  exists s, []. rewrite H, app_nil_r. reflexivity.
Qed.

Lemma get_In_pair {V} k (d : dict V) v : get k d = Some v -> In (k, v) d.
Proof.
  induction d as [|[k' v'] d IH]; cbn; [discriminate|].
  destruct (String.eqb k k') eqn:E; [|auto]. apply String.eqb_eq in E. intros H. injection H as ->.
  subst. auto.
Qed.

(** Equality of classes is decidable. *)
Definition value_eq_dec : forall a b : value, {a = b} + {a <> b}.
Proof.
  fix IH 1. intros a b. decide equality.
  - apply Bool.bool_dec.
  - apply Z.eq_dec.
  - apply string_dec.
  - apply (list_eq_dec IH).
  - apply list_eq_dec. intros [k x] [k' y].
    destruct (string_dec k k') as [->|H]; [|right; congruence].
    destruct (IH x y) as [->|H]; [left; reflexivity|right; congruence].
Defined.

Definition config_eq_dec : forall a b : config, {a = b} + {a <> b}.
Proof.
  decide equality.
  - decide equality. apply string_dec.
  - decide equality. apply value_eq_dec.
  - apply string_dec.
  - decide equality.
Defined.

Definition plugin_eq_dec : forall a b : plugin, {a = b} + {a <> b}.
Proof.
  decide equality; try (apply list_eq_dec; apply string_dec); [|apply string_dec].
  apply list_eq_dec. intros [k x] [k' y].
  destruct (string_dec k k') as [->|H]; [|right; congruence].
  destruct (config_eq_dec x y) as [->|H]; [left; reflexivity|right; congruence].
Defined.

Definition is_plugin (o : option plugin) (p : plugin) : bool :=
  match o with Some q => if plugin_eq_dec q p then true else false | None => false end.
Lemma is_plugin_ok o p : is_plugin o p = true -> o = Some p.
Proof. destruct o as [q|]; cbn; [|discriminate]. destruct (plugin_eq_dec q p); [congruence|discriminate]. Qed.

Section Checks.
  Variable reg : registry.
  Let nodep := "batch_size".

  Definition closed_b : bool :=
    forallb (fun dp => forallb (fun x => String.eqb x nodep || has x reg) (p_depends (snd dp))) reg.
  Definition ranked_b (rank : dict nat) : bool :=
    forallb (fun dp => forallb (fun x => String.eqb x nodep ||
      match get x rank, get (fst dp) rank with Some a, Some b => Nat.ltb a b | _, _ => false end)
      (p_depends (snd dp))) reg.

  Lemma reach_in names : closed_b = true ->
    (forall d, In d names -> d <> nodep -> has d reg = true) ->
    forall d, Reach reg nodep names d -> exists p, get d reg = Some p.
  Proof.
    intros Hc Hn d Hd. assert (H : has d reg = true).
    { destruct Hd as [d Hi Hne|d p x Hd Hg Hx Hne]; [auto|].
      apply get_In_pair in Hg. unfold closed_b in Hc. rewrite forallb_forall in Hc.
      specialize (Hc _ Hg). cbn [snd] in Hc. rewrite forallb_forall in Hc. specialize (Hc _ Hx).
      apply Bool.orb_prop in Hc. destruct Hc as [Hc|Hc]; [|exact Hc].
      apply String.eqb_eq in Hc. congruence. }
    unfold has in H. destruct (get d reg) as [p|]; [eauto|discriminate].
  Qed.

  Lemma ranked_acyclic rank names : ranked_b rank = true -> acyclic reg nodep names.
  Proof.
    intros Hr d _ Ht.
    assert (H : forall a b, clos_trans _ (edge reg nodep) a b ->
      exists x y, get b rank = Some x /\ get a rank = Some y /\ x < y).
    { intros a b Hab. induction Hab as [a b (p & Hg & Hi & Hne)|a b c _ IH1 _ IH2].
      - apply get_In_pair in Hg. unfold ranked_b in Hr. rewrite forallb_forall in Hr.
        specialize (Hr _ Hg). cbn [fst snd] in Hr. rewrite forallb_forall in Hr. specialize (Hr _ Hi).
        apply Bool.orb_prop in Hr. destruct Hr as [Hr|Hr]; [apply String.eqb_eq in Hr; congruence|].
        destruct (get b rank) as [x|]; [|discriminate]. destruct (get a rank) as [y|]; [|discriminate].
        apply Nat.ltb_lt in Hr. eauto.
      - destruct IH1 as (x & y & E1 & E2 & L1). destruct IH2 as (x' & y' & E3 & E4 & L2).
        exists x', y. repeat split; auto. rewrite E1 in E4. injection E4 as ->. lia. }
    destruct (H d d Ht) as (x & y & E1 & E2 & L). rewrite E1 in E2. injection E2 as ->. lia.
  Qed.
End Checks.

(** * Classes and configs that are published *)

Lemma set_values {V} k (v : V) d k' v' : In (k', v') (set k v d) -> v' = v \/ exists k'', In (k'', v') d.
Proof.
  induction d as [|[k1 v1] d IH]; cbn.
  - intros [H|[]]. injection H as _ <-. auto.
  - destruct (String.eqb k k1).
    + intros [H|H]; [injection H as _ <-; auto|]. right. eauto.
    + intros [H|H]; [injection H as _ <-; right; eauto|].
      destruct (IH H) as [->|(k'' & H')]; [auto|]. right. eauto.
Qed.

Lemma published_in n p : appletree_plugins n = Some p -> In p star_imports.
Proof.
  unfold appletree_plugins, published_classes. intros H. apply get_In_pair in H.
  assert (G : forall l d, In (n, p) (fold_left (fun ns q => set (p_name q) q ns) l d) ->
    In p l \/ exists k, In (k, p) d).
  { induction l as [|q l IH]; cbn [fold_left]; intros d Hi; [right; eauto|].
    destruct (IH _ Hi) as [Hl|(k & Hk)]; [left; right; exact Hl|].
    destruct (set_values _ _ _ _ _ Hk) as [->|Hk']; [left; left; reflexivity|right; exact Hk']. }
  destruct (G _ _ H) as [Hl|(k & [])]. exact Hl.
Qed.

(** Every config of the shipped plugins, once. *)
Definition shipped_configs : list config :=
  Eval vm_compute in
    map snd (fold_left (fun d kv => set (fst kv) (snd kv) d) (flat_map p_configs star_imports) []).

Lemma shipped_configs_complete p cf :
  In p star_imports -> In cf (map snd (p_configs p)) -> In cf shipped_configs.
Proof.
  intros Hp Hc.
  assert (H : forallb (fun p => forallb (fun c => if in_dec config_eq_dec c shipped_configs then true
    else false) (map snd (p_configs p))) star_imports = true) by (vm_compute; reflexivity).
  rewrite forallb_forall in H. specialize (H _ Hp). rewrite forallb_forall in H. specialize (H _ Hc).
  destruct (in_dec config_eq_dec cf shipped_configs); [assumption|discriminate].
Qed.

Lemma NoDup_flat {A B} (g : A -> list B) l : NoDup (flat_map g l) ->
  forall a b, In a l -> In b l -> a = b \/ forall n, In n (g a) -> ~ In n (g b).
Proof.
  assert (Happ : forall (x y : list B), NoDup (x ++ y) -> NoDup y /\ forall n, In n x -> ~ In n y).
  { induction x as [|e x IH]; cbn; intros y H; [auto|]. inversion H as [|? ? Hn H']; subst.
    destruct (IH _ H') as [H1 H2]. split; [exact H1|]. intros n [->|Hi]; [|auto].
    intros Hy. apply Hn. apply in_or_app. auto. }
  induction l as [|x l IH]; cbn [flat_map]; intros H a b Ha Hb; [destruct Ha|].
  destruct (Happ _ _ H) as [H1 H2].
  destruct Ha as [->|Ha]; destruct Hb as [->|Hb]; auto.
  - right. intros n Hn Hn'. apply (H2 n Hn). apply in_flat_map. eauto.
  - right. intros n Hn Hn'. apply (H2 n Hn'). apply in_flat_map. eauto.
Qed.

Fixpoint nodup_b (l : list string) : bool :=
  match l with [] => true | x :: l' => negb (mem x l') && nodup_b l' end.
Lemma nodup_b_ok l : nodup_b l = true -> NoDup l.
Proof.
  induction l as [|x l IH]; cbn; intros H; [constructor|]. apply andb_prop in H. destruct H as [H1 H2].
  constructor; [|auto]. apply mem_false. destruct (mem x l); [discriminate|reflexivity].
Qed.

Lemma shipped_separate : separate (fun cf => In cf shipped_configs).
Proof.
  split.
  - apply NoDup_flat. apply nodup_b_ok. vm_compute. reflexivity.
  - intros a Ha Hi.
    assert (H : mem "url_base" (flat_map owned shipped_configs) = false) by (vm_compute; reflexivity).
    apply mem_false in H. apply H. apply in_flat_map. eauto.
Qed.

Lemma shipped_proper p : In p star_imports -> proper_class p.
Proof.
  intros H. apply proper_b_ok. revert p H. apply forallb_forall. vm_compute. reflexivity.
Qed.

(** * The registries of the shipped components *)

Definition good_registry_b (reg : registry) : bool :=
  closed_b reg && ranked_b reg (map (fun d => (d, depth reg 20 d)) (keys reg)) && has "eff" reg &&
  Nat.ltb (List.length (keys reg)) 59 &&
  forallb (fun dp : string * plugin =>
    is_plugin (appletree_plugins (p_name (snd dp))) (snd dp) &&
    nodup_b (p_provides (snd dp)) &&
    forallb (fun x => is_plugin (get x reg) (snd dp) &&
      negb (mem x ["batch_size"; "key"; "parameters"])) (p_provides (snd dp))) reg.

Lemma components_good :
  forallb (fun c => good_registry_b (registry_after (snd c))) shipped_components = true.
Proof. vm_compute. reflexivity. Qed.

Lemma component_good c calls : In (c, calls) shipped_components ->
  let reg := registry_after calls in
  closed_b reg = true /\ (exists rank, ranked_b reg rank = true) /\ has "eff" reg = true /\
  List.length (keys reg) < 59 /\
  forall d p, get d reg = Some p -> appletree_plugins (p_name p) = Some p /\ NoDup (p_provides p) /\
    forall x, In x (p_provides p) -> get x reg = Some p /\ x <> "batch_size" /\ x <> "key" /\
      x <> "parameters".
Proof.
  intros H reg. pose proof components_good as G. rewrite forallb_forall in G. specialize (G _ H).
  cbn [snd] in G. fold reg in G. unfold good_registry_b in G. rewrite !andb_true_iff in G.
  destruct G as ((((G1 & G2) & G3) & G4) & G5). split; [exact G1|]. split; [eauto|].
  split; [exact G3|]. split; [apply Nat.ltb_lt, G4|]. intros d p Hg. apply get_In_pair in Hg.
  rewrite forallb_forall in G5. specialize (G5 _ Hg). cbn [snd] in G5. rewrite !andb_true_iff in G5.
  destruct G5 as ((P1 & P2) & P3). split; [apply is_plugin_ok, P1|]. split; [apply nodup_b_ok, P2|].
  intros x Hx. rewrite forallb_forall in P3. specialize (P3 _ Hx). rewrite andb_true_iff in P3.
  destruct P3 as [P3 P4]. split; [apply is_plugin_ok, P3|].
  apply negb_true_iff in P4. apply mem_false in P4. cbn [In] in P4. repeat split; intros ->; apply P4; auto.
Qed.

(** * Registration *)

Definition any_class (p : plugin) : Prop := p = base_plugin \/ In p star_imports.

Lemma no_conflict p q : any_class p -> any_class q -> conflict p q = false.
Proof.
  intros Hp Hq.
  assert (H : forallb (fun a => forallb (fun b => negb (conflict a b)) (base_plugin :: star_imports))
    (base_plugin :: star_imports) = true) by (vm_compute; reflexivity).
  assert (Hp' : In p (base_plugin :: star_imports)) by (destruct Hp as [->|]; [left|right]; auto).
  assert (Hq' : In q (base_plugin :: star_imports)) by (destruct Hq as [->|]; [left|right]; auto).
  rewrite forallb_forall in H. specialize (H _ Hp'). rewrite forallb_forall in H. specialize (H _ Hq').
  apply negb_true_iff in H. exact H.
Qed.

Definition only_classes (reg : registry) : Prop := forall q, In q (map snd reg) -> any_class q.

Lemma set_only d p (reg : registry) : any_class p -> only_classes reg -> only_classes (set d p reg).
Proof.
  intros Hp H q Hq. apply in_map_iff in Hq. destruct Hq as ([k v] & <- & Hi). cbn [snd].
  destruct (set_values _ _ _ _ _ Hi) as [->|(k' & H')]; [exact Hp|].
  apply H. apply in_map_iff. exists (k', v). auto.
Qed.

Lemma register1_only p reg : any_class p -> only_classes reg ->
  only_classes (fst (register1 p reg)) /\ snd (register1 p reg) = Ok tt.
Proof.
  intros Hp H. unfold register1. cbn [fst snd].
  assert (H' : only_classes (register_provides p reg)).
  { unfold register_provides. revert reg H. induction (p_provides p) as [|d l IH]; cbn [fold_left];
      intros reg H; [exact H|]. apply IH. apply set_only; assumption. }
  split; [exact H'|].
  assert (E : existsb (fun q => conflict q p) (map snd (register_provides p reg)) = false).
  { destruct (existsb _ _) eqn:E; [|reflexivity]. apply existsb_exists in E. destruct E as (q & Hq & E).
    rewrite (no_conflict q p (H' _ Hq) Hp) in E. discriminate. }
  rewrite E. reflexivity.
Qed.

Lemma register_only ps : forall reg, (forall p, In p ps -> any_class p) -> only_classes reg ->
  only_classes (fst (register ps reg)) /\ snd (register ps reg) = Ok tt.
Proof.
  induction ps as [|p ps IH]; intros reg Hp H; cbn [register]; [auto|].
  destruct (register1_only p reg (Hp _ (or_introl eq_refl)) H) as [H1 H2].
  destruct (register1 p reg) as [reg1 r]. cbn [fst snd] in *. subst r.
  apply IH; [|exact H1]. intros q Hq. apply Hp. right. exact Hq.
Qed.

Lemma registers_accepted calls : (forall ps p, In ps calls -> In p ps -> any_class p) ->
  forall pre ps post, calls = (pre ++ ps :: post)%list -> snd (register ps (registry_after pre)) = Ok tt.
Proof.
  intros H pre ps post E.
  assert (Hpre : only_classes (registry_after pre)).
  { unfold registry_after.
    assert (G : forall l reg, (forall ps p, In ps l -> In p ps -> any_class p) -> only_classes reg ->
      only_classes (fold_left (fun r ps => fst (register ps r)) l reg)).
    { induction l as [|qs l IH]; intros reg Hl Hr; [exact Hr|]. cbn [fold_left]. apply IH.
      - intros qs' q Hq Hq'. eapply Hl; [right; exact Hq|exact Hq'].
      - apply register_only; [|exact Hr]. intros p Hp. eapply Hl; [left; reflexivity|exact Hp]. }
    apply G; [|intros q []]. intros qs q Hq Hq'. apply (H qs q); [|exact Hq']. rewrite E.
    apply in_or_app. auto. }
  apply register_only; [|exact Hpre]. intros p Hp. apply (H ps p); [|exact Hp]. rewrite E.
  apply in_or_app. right. left. reflexivity.
Qed.

Lemma shipped_any c calls : In (c, calls) shipped_components ->
  forall ps p, In ps calls -> In p ps -> any_class p.
Proof.
  intros H ps p Hps Hp.
  assert (G : forallb (fun c => forallb (forallb (fun p =>
    if in_dec plugin_eq_dec p (base_plugin :: star_imports) then true else false)) (snd c))
    shipped_components = true) by (vm_compute; reflexivity).
  rewrite forallb_forall in G. specialize (G _ H). cbn [snd] in G. rewrite forallb_forall in G.
  specialize (G _ Hps). rewrite forallb_forall in G. specialize (G _ Hp).
  destruct (in_dec plugin_eq_dec p (base_plugin :: star_imports)) as [[<-|Hi]|]; [left|right|]; auto.
  discriminate.
Qed.

(** * Which names are registered *)

Lemma has_set {V} d k (v : V) r : has d (set k v r) = String.eqb d k || has d r.
Proof.
  unfold has. destruct (String.eqb d k) eqn:E.
  - apply String.eqb_eq in E. subst. rewrite get_set_eq. reflexivity.
  - apply String.eqb_neq in E. rewrite get_set_neq by exact E. reflexivity.
Qed.

Lemma register_provides_has p d : forall reg,
  has d (register_provides p reg) = mem d (p_provides p) || has d reg.
Proof.
  unfold register_provides. induction (p_provides p) as [|x l IH]; intros reg; cbn [fold_left mem].
  - reflexivity.
  - rewrite IH, has_set. destruct (String.eqb d x); destruct (mem d l); reflexivity.
Qed.

Lemma register_has ps d : forall reg, (forall p, In p ps -> any_class p) -> only_classes reg ->
  has d (fst (register ps reg)) = existsb (fun p => mem d (p_provides p)) ps || has d reg.
Proof.
  induction ps as [|p ps IH]; intros reg Hp H; cbn [register existsb]; [reflexivity|].
  destruct (register1_only p reg (Hp _ (or_introl eq_refl)) H) as [H1 H2].
  pose proof (register_provides_has p d reg) as E.
  change (register_provides p reg) with (fst (register1 p reg)) in E.
  destruct (register1 p reg) as [reg1 r]. cbn [fst snd] in *. subst r.
  rewrite IH; [|intros q Hq; apply Hp; right; exact Hq|exact H1]. rewrite E.
  destruct (mem d (p_provides p)); destruct (existsb _ ps); reflexivity.
Qed.

Lemma registry_after_has calls d : (forall ps p, In ps calls -> In p ps -> any_class p) ->
  has d (registry_after calls) = true <-> exists ps p, In ps calls /\ In p ps /\ In d (p_provides p).
Proof.
  intros H. unfold registry_after.
  assert (G : forall l reg, (forall ps p, In ps l -> In p ps -> any_class p) -> only_classes reg ->
    has d (fold_left (fun r ps => fst (register ps r)) l reg) =
    existsb (existsb (fun p => mem d (p_provides p))) l || has d reg).
  { induction l as [|qs l IH]; intros reg Hl Hr; [reflexivity|]. cbn [fold_left existsb].
    rewrite IH.
    - rewrite register_has; [|intros p Hp; eapply Hl; [left; reflexivity|exact Hp]|exact Hr].
      destruct (existsb _ l); destruct (existsb _ qs); reflexivity.
    - intros qs' q Hq Hq'. eapply Hl; [right; exact Hq|exact Hq'].
    - apply register_only; [|exact Hr]. intros p Hp. eapply Hl; [left; reflexivity|exact Hp]. }
  rewrite G; [|exact H|intros q []]. rewrite orb_false_r, existsb_exists. split.
  - intros (ps & Hps & E). apply existsb_exists in E. destruct E as (p & Hp & E). apply mem_In in E. eauto.
  - intros (ps & p & H1 & H2 & H3). exists ps. split; [exact H1|]. apply existsb_exists. exists p.
    split; [exact H2|]. apply mem_In, H3.
Qed.

(** * Building a shipped component *)

Lemma output_names_in data_names noeff d : In d (output_names data_names noeff) ->
  In d data_names \/ d = "eff".
Proof.
  unfold output_names. set (dn := if mem "eff" data_names then _ else _).
  assert (Hdn : In d dn -> In d data_names).
  { unfold dn. destruct (mem "eff" data_names); [|auto].
    induction data_names as [|x l IH]; cbn [remove_first]; [auto|].
    destruct (String.eqb "eff" x); [intros H; right; exact H|]. intros [->|H]; [left; reflexivity|].
    right. auto. }
  destruct noeff; [auto|]. intros H. apply in_app_or in H. destruct H as [H|[<-|[]]]; auto.
Qed.

Section ShippedBuild.
  Variables (c : string) (calls : list (list plugin)).
  Hypothesis Hc : In (c, calls) shipped_components.
  Let reg := registry_after calls.

  Lemma shipped_names data_names noeff :
    (forall d, In d data_names -> d = "batch_size" \/ exists ps p, In ps calls /\ In p ps /\ In d (p_provides p)) ->
    forall d, In d (output_names data_names noeff) -> d <> "batch_size" -> has d reg = true.
  Proof.
    intros H d Hd Hne. destruct (output_names_in _ _ _ Hd) as [Hi| ->].
    - destruct (H d Hi) as [E|E]; [congruence|]. apply registry_after_has; [|exact E].
      apply (shipped_any c). exact Hc.
    - apply (component_good c calls Hc).
  Qed.

  Lemma shipped_published names : published appletree_plugins reg "batch_size" names.
  Proof. intros d p _ Hg. apply (component_good c calls Hc) in Hg. apply Hg. Qed.

  Lemma shipped_unique : unique_names reg.
  Proof.
    intros d p d' q Hp Hq E. apply (component_good c calls Hc) in Hp, Hq.
    destruct Hp as [Hp _]. destruct Hq as [Hq _]. rewrite E in Hp. congruence.
  Qed.

  Lemma shipped_consistent names : consistent reg "batch_size" names.
  Proof.
    intros d p _ Hg. apply (component_good c calls Hc) in Hg. destruct Hg as (_ & H1 & H2). auto.
  Qed.

  Lemma shipped_builds limit data_names func noeff f k w :
    k_registry k = reg -> 60 < limit ->
    (forall d, In d data_names -> d = "batch_size" \/ exists ps p, In ps calls /\ In p ps /\ In d (p_provides p)) ->
    (forall cf, used_config reg "batch_size" (output_names data_names noeff) cf ->
       usable f (contents (w_cache w)) (k_llh k) cf) ->
    get (k_llh k) (w_fn w) = None ->
    exists w' k', build_component limit data_names func "batch_size" noeff f appletree_plugins k w
      = (w', k', Ok tt).
  Proof.
    intros Hk Hl Hn Hu Hfn.
    destruct (component_good c calls Hc) as (G1 & (rank & G2) & G3 & G4 & G5). fold reg in G1, G2, G3, G4, G5.
    assert (Hin : forall cf, used_config reg "batch_size" (output_names data_names noeff) cf ->
      In cf shipped_configs).
    { intros cf (d & p & _ & Hg & Hi). destruct (G5 d p Hg) as [Hp _].
      apply (shipped_configs_complete p); [|exact Hi]. eapply published_in. exact Hp. }
    apply component_builds; rewrite ?Hk; auto.
    - exact shipped_unique.
    - eapply ranked_acyclic. exact G2.
    - intros d Hd. eapply reach_in; [exact G1| |exact Hd]. apply shipped_names. exact Hn.
    - lia.
    - apply shipped_published.
    - intros d p _ Hg. destruct (G5 d p Hg) as [Hp _]. apply shipped_proper. eapply published_in. exact Hp.
    - destruct shipped_separate as [S1 S2]. split; [|eauto]. intros a b Ha Hb. apply S1; auto.
  Qed.

  Lemma shipped_unknown limit data_names func noeff k w d :
    k_registry k = reg -> 60 < limit ->
    In d (output_names data_names noeff) -> d <> "batch_size" ->
    (forall ps p, In ps calls -> In p ps -> ~ In d (p_provides p)) ->
    snd (deduce limit data_names func "batch_size" noeff k w) = Err ValueError.
  Proof.
    intros Hk Hl Hd Hne Hno.
    destruct (component_good c calls Hc) as (G1 & (rank & G2) & G3 & G4 & G5). fold reg in G1, G2, G3, G4, G5.
    destruct (top_valueerror reg "batch_size" limit (output_names data_names noeff)) as [[H _] _].
    { eapply ranked_acyclic. exact G2. } { lia. }
    unfold deduce. rewrite Hk, H; [reflexivity|]. exists d. split; [apply Reach_req; assumption|].
    destruct (get d reg) as [p|] eqn:E; [|reflexivity]. exfalso.
    assert (Hh : has d reg = true) by (unfold has; rewrite E; reflexivity).
    apply registry_after_has in Hh; [|apply (shipped_any c); exact Hc].
    destruct Hh as (ps & q & H1 & H2 & H3). exact (Hno ps q H1 H2 H3).
  Qed.
End ShippedBuild.

(** * Defaults *)

(** The files named by the defaults of the shipped plugins. *)
Definition files_of (v : value) : list string :=
  match v with
  | VStr s => [s]
  | VList l => flat_map (fun x => match x with VStr s => [s] | _ => [] end) (firstn 3 l)
  | _ => []
  end.
Definition default_files : list string :=
  flat_map (fun cf => match c_kind cf, c_default cf with
                      | KMap, Some v | KSigmaMap, Some v => files_of v
                      | _, _ => []
                      end) shipped_configs.

Lemma default_usable f llh cf : In cf shipped_configs ->
  (forall s, In s default_files -> exists p, path_of f [] s p /\ found f [] p) ->
  usable f [] llh cf.
Proof.
  intros H Hf.
  assert (Hd : forall v, c_default cf = Some v -> c_kind cf = KMap \/ c_kind cf = KSigmaMap ->
    forall s, In s (files_of v) -> In s default_files).
  { intros v Hv Hk s Hs. unfold default_files. apply in_flat_map. exists cf. split; [exact H|].
    destruct Hk as [-> | ->]; rewrite Hv; exact Hs. }
  assert (Hff : forall s, In s default_files -> found f [] s).
  { intros s Hs. destruct (Hf s Hs) as (p & Hp & _). exists p. exact Hp. }
  assert (Hs : match c_kind cf with
    | KMap => exists s, c_default cf = Some (VStr s)
    | KSigmaMap => exists v m l u, c_default cf = Some v /\ three_files v m l u
    | _ => exists v, c_default cf = Some v /\ not_dict v
    end).
  { clear Hd Hff. unfold shipped_configs in H.
    repeat (destruct H as [<-|H]; [cbn; try (eexists; reflexivity);
      try (eexists; split; [reflexivity|intros ? ?; discriminate]);
      try (do 4 eexists; split; [reflexivity|constructor])|]). destruct H. }
  unfold usable. destruct (c_kind cf) eqn:Hk.
  - destruct Hs as (v & Hv & Hn). exists v. unfold effective_value. cbn [get]. rewrite Hv.
    destruct v; try reflexivity. destruct (Hn d eq_refl).
  - cbn [get]. destruct Hs as (s & Hs). destruct (Hf s) as (p & P1 & P2).
    { apply (Hd _ Hs (or_introl eq_refl)). left. reflexivity. }
    eauto.
  - destruct Hs as (v & m & l & u & Hv & H3). split; [|eauto 6]. exists v, m, l, u.
    assert (Hall : forall s, In s (files_of v) -> found f [] s).
    { intros s Hs. apply Hff. apply (Hd _ Hv (or_intror eq_refl)). exact Hs. }
    split.
    { unfold effective_value. cbn [get]. rewrite Hv. destruct H3; reflexivity. }
    split; [exact H3|]. unfold part_free. cbn [get].
    assert (M : In m (files_of v) /\ In l (files_of v) /\ In u (files_of v)) by (destruct H3; cbn; auto 8).
    destruct M as (M1 & M2 & M3). auto 8.
  - destruct Hs as (v & Hv & Hn). exists v. unfold effective_value. cbn [get]. rewrite Hv.
    destruct v; try reflexivity. destruct (Hn d eq_refl).
Qed.
