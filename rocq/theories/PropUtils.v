(** Properties of utils.py: C50, C51, C70. *)
From Coq Require Import Reals Lra.
From Verif Require Import Base BaseFacts ModelConfig ModelComponent ModelUtils SpecUtils ProofUtils.
Local Open Scope string_scope.

(* ------------------------------------------------------------------ *)
(** * C50: GPU memory fraction *)

Local Open Scope R_scope.

Lemma gpu_below f : 0 < f <= 1 -> set_gpu_memory_usage f = Ok ("." ++ print (decimal (int_of (f * 100)))).
Proof. intros H. unfold set_gpu_memory_usage. destruct (Rlt_dec 1 f); [lra|]. destruct (Rle_dec f 0); [lra|]. reflexivity. Qed.

(** From 0.1 up to below 1 the fraction is rounded down to two decimals. *)
Theorem C50_two_decimals : forall f, 1 / 10 <= f < 1 ->
  exists s x, set_gpu_memory_usage f = Ok s /\ denotes s x /\ x <= f < x + 1 / 100.
Proof.
  intros f H. exists ("." ++ print (decimal (int_of (f * 100)))), (IZR (int_of (f * 100)) / 100). split; [apply gpu_below; lra|].
  pose proof (int_of_spec (f * 100)) as S. set (n := int_of (f * 100)) in *. split; [|lra]. apply denotes_2. split.
  - assert (9 < n)%Z by (apply lt_IZR; lra). lia.
  - apply lt_IZR. lra.
Qed.

(** Above 1 it is 0.99. *)
Theorem C50_above_one : forall f, 1 < f -> exists s, set_gpu_memory_usage f = Ok s /\ denotes s (99 / 100) /\ s = ".99".
Proof.
  intros f H. unfold set_gpu_memory_usage. destruct (Rlt_dec 1 f); [|lra]. destruct (Rle_dec (99 / 100) 0); [lra|].
  rewrite (int_of_unique _ 99) by lra. eexists. split; [reflexivity|]. split; [|reflexivity]. apply denotes_2. lia.
Qed.

Theorem C50_not_positive : forall f, f <= 0 -> set_gpu_memory_usage f = Err ValueError.
Proof. intros f H. unfold set_gpu_memory_usage. destruct (Rlt_dec 1 f); [lra|]. destruct (Rle_dec f 0); [reflexivity|lra]. Qed.

(** Below 0.1 the leading zero is lost: ten times the percentage asked for. *)
Theorem C50_small_refuted : forall f, 0 < f < 1 / 10 ->
  exists s x, set_gpu_memory_usage f = Ok s /\ denotes s x /\ x <= 10 * f < x + 1 / 10 /\ (1 / 100 <= f -> f < x).
Proof.
  intros f H. exists ("." ++ print (decimal (int_of (f * 100)))), (IZR (int_of (f * 100)) / 10). split; [apply gpu_below; lra|].
  pose proof (int_of_spec (f * 100)) as S. set (n := int_of (f * 100)) in *. split; [|split; [lra|]].
  - apply denotes_1. split; [|apply lt_IZR; lra]. assert (-1 < n)%Z by (apply lt_IZR; lra). lia.
  - intros L. assert (1 <= n)%Z by (assert (0 < n)%Z by (apply lt_IZR; lra); lia). assert (1 <= IZR n) by (apply IZR_le; assumption).
    destruct (Z.eq_dec n 9) as [->|N9]; [lra|]. assert (IZR n <= 8). { apply IZR_le. assert (n < 10)%Z by (apply lt_IZR; lra). lia. }
    lra.
Qed.

(** All of the memory is written as ".100", a tenth. *)
Theorem C50_one_refuted : exists s, set_gpu_memory_usage 1 = Ok s /\ s = ".100" /\ denotes s (1 / 10).
Proof.
  rewrite gpu_below by lra. rewrite (int_of_unique _ 100) by lra. eexists. split; [reflexivity|]. split; [reflexivity|].
  eexists. split; [reflexivity|]. cbn [print decimal digits_of].
  replace (1 / 10) with ((INR 1 + (INR 0 + (INR 0 + 0) / 10) / 10) / 10) by (cbn [INR]; lra).
  apply dec_digit; [lia|]. apply dec_digit; [lia|]. apply dec_digit; [lia|]. constructor.
Qed.

(** A text denotes at most one number, so the above are the values. *)
Theorem C50_unambiguous : forall s x y, denotes s x -> denotes s y -> x = y.
Proof. exact denotes_fun. Qed.

Example C50_case : exists s, set_gpu_memory_usage (3 / 10) = Ok s /\ s = ".30" /\ denotes s (3 / 10).
Proof.
  rewrite gpu_below by lra. rewrite (int_of_unique _ 30) by lra. eexists. split; [reflexivity|]. split; [reflexivity|].
  replace (3 / 10) with (30 / 100) by lra. apply denotes_2. lia.
Qed.

Local Close Scope R_scope.

(* ------------------------------------------------------------------ *)
(** * C51: extensions *)

(** Whatever happens, attributes of module1 other than the one named like module2 are not changed. *)
Theorem C51_kept : forall m1 m2 base m' r a, add_extensions m1 m2 base false = (m', r) ->
  has a (m_attrs m1) = true -> a <> last_part (m_name m2) -> get a (m_attrs m') = get a (m_attrs m1).
Proof.
  intros m1 m2 base m' r a E Ha Na. unfold add_extensions in E. rewrite andb_true_r in E.
  destruct (has (m_name m2) (m_attrs m1)); [injection E as <- <-; reflexivity|].
  rewrite (add_classes_keeps _ _ _ _ _ _ a E); [apply get_set_neq; assumption|]. rewrite has_setattr, Ha. apply orb_true_r.
Qed.

(** For a module whose name has no dot, no attribute at all is changed. *)
Theorem C51_plain_name : forall m1 m2 base m' r a, add_extensions m1 m2 base false = (m', r) ->
  last_part (m_name m2) = m_name m2 -> has a (m_attrs m1) = true -> get a (m_attrs m') = get a (m_attrs m1).
Proof.
  intros m1 m2 base m' r a E L Ha. destruct (string_dec a (m_name m2)) as [->|N].
  - unfold add_extensions in E. rewrite Ha in E. injection E as <- <-. reflexivity.
  - eapply C51_kept; try eassumption. rewrite L. assumption.
Qed.

(** When it succeeds, every class offered is there under its name. *)
Theorem C51_added : forall m1 m2 base m' c, NoDup (keys (m_attrs m2)) -> add_extensions m1 m2 base false = (m', Ok tt) ->
  offered m2 base c -> has (c_name c) (m_attrs m1) = false /\ get (c_name c) (m_attrs m') = Some (AClass c).
Proof.
  intros m1 m2 base m' c ND E ((x & G) & T). unfold add_extensions in E. destruct (_ && _); [discriminate|].
  assert (Ix : In x (dir m2)) by (apply dir_In; unfold has; rewrite G; reflexivity).
  destruct (add_classes_ok _ _ _ _ _ (dir_NoDup _ ND) E x c Ix G T) as (F & R & _). split; [|assumption].
  rewrite has_setattr in F. apply orb_false_iff in F. apply F.
Qed.

(** It succeeds exactly when the names are free and different; otherwise ValueError. *)
Theorem C51_when : forall m1 m2 base, NoDup (keys (m_attrs m2)) ->
  (snd (add_extensions m1 m2 base false) = Ok tt <->
    has (m_name m2) (m_attrs m1) = false /\
    (forall c, offered m2 base c -> has (c_name c) (m_attrs m1) = false /\ c_name c <> last_part (m_name m2)) /\
    (forall x y c c', get x (m_attrs m2) = Some (AClass c) -> get y (m_attrs m2) = Some (AClass c') -> offered m2 base c -> offered m2 base c' ->
       c_name c = c_name c' -> x = y)) /\
  (snd (add_extensions m1 m2 base false) <> Ok tt -> snd (add_extensions m1 m2 base false) = Err ValueError).
Proof.
  intros m1 m2 base ND. split.
  - unfold add_extensions. rewrite andb_true_r. destruct (has (m_name m2) (m_attrs m1)) eqn:Hm.
    { cbn [snd]. split; [discriminate|intros [H _]; discriminate]. }
    assert (D : forall x c, get x (m_attrs m2) = Some (AClass c) -> In x (dir m2)).
    { intros x c G. apply dir_In. unfold has. rewrite G. reflexivity. }
    set (m1' := setattr m1 (last_part (m_name m2)) (AModule (m_name m2))). split.
    + intros E. destruct (add_classes (dir m2) (m_attrs m2) m1' base false) as [m' r] eqn:EE. cbn [snd] in E. subst r. split; [reflexivity|]. split.
      * intros c ((x & G) & T). destruct (add_classes_ok _ _ _ _ _ (dir_NoDup _ ND) EE x c (D x c G) G T) as (F & _).
        unfold m1' in F. rewrite has_setattr in F. apply orb_false_iff in F. destruct F as [F1 F2]. split; [assumption|]. apply String.eqb_neq. assumption.
      * intros x y c c' G G' (_ & T) (_ & T') En.
        destruct (add_classes_ok _ _ _ _ _ (dir_NoDup _ ND) EE y c' (D y c' G') G' T') as (_ & _ & U). eapply U; [eapply D; eassumption|eassumption|assumption|assumption].
    + intros (_ & New & Uniq). apply add_classes_succeeds; [apply dir_NoDup; assumption| |].
      * intros x c _ G T. unfold m1'. rewrite has_setattr. destruct (New c) as [F N]; [split; [exists x; assumption|assumption]|].
        rewrite F. apply String.eqb_neq in N. rewrite N. reflexivity.
      * intros x y c c' _ _ G G' T T' En. eapply Uniq; try eassumption; (split; [eexists; eassumption|assumption]).
  - unfold add_extensions. destruct (_ && _); [reflexivity|]. intros N.
    destruct (add_classes _ _ _ _ _) as [m' [[]|e]] eqn:EE; cbn [snd] in *; [contradiction|]. f_equal. eapply add_classes_fails. eassumption.
Qed.

(** So a module that imports a class module1 has already, to derive from it, is refused. *)
Theorem C51_imported_refuted : forall m1 m2 base c, NoDup (keys (m_attrs m2)) -> offered m2 base c ->
  get (c_name c) (m_attrs m1) = Some (AClass c) -> snd (add_extensions m1 m2 base false) = Err ValueError.
Proof.
  intros m1 m2 base c ND O G. destruct (C51_when m1 m2 base ND) as [W F]. apply F. intros E. apply W in E. destruct E as (_ & N & _).
  destruct (N c O) as [H _]. unfold has in H. rewrite G in H. discriminate.
Qed.

(** And a module that binds one class to two names is refused, although nothing else has it. *)
Theorem C51_two_names_refuted : forall m1 m2 base c x y, NoDup (keys (m_attrs m2)) -> offered m2 base c -> x <> y ->
  get x (m_attrs m2) = Some (AClass c) -> get y (m_attrs m2) = Some (AClass c) -> snd (add_extensions m1 m2 base false) = Err ValueError.
Proof.
  intros m1 m2 base c x y ND O N Gx Gy. destruct (C51_when m1 m2 base ND) as [W F]. apply F. intros E. apply W in E. destruct E as (_ & _ & U).
  apply N. eapply U; eauto.
Qed.

(** With force it always succeeds, and every offered name holds an offered class. *)
Theorem C51_force : forall m1 m2 base, exists m', add_extensions m1 m2 base true = (m', Ok tt) /\
  forall c, offered m2 base c -> exists c', get (c_name c) (m_attrs m') = Some (AClass c') /\ c_name c' = c_name c /\
    In (c_id base) (c_mro c').
Proof.
  intros m1 m2 base. unfold add_extensions. rewrite andb_false_r.
  destruct (add_classes_force (dir m2) (m_attrs m2) (setattr m1 (last_part (m_name m2)) (AModule (m_name m2))) base) as (m' & E & P).
  exists m'. split; [assumption|]. intros c ((x & G) & T). destruct (P x c) as (c' & G' & (_ & I & _) & En); auto.
  - apply dir_In. unfold has. rewrite G. reflexivity.
  - exists c'. auto.
Qed.

Definition plugin_cls : cls := mk_cls "Plugin" 0 [0] true.
Definition s1_cls : cls := mk_cls "S1" 1 [1; 0] false.
Definition mine_cls : cls := mk_cls "Mine" 2 [2; 1; 0] false.
Definition shipped_module : pymodule := mk_module "appletree.plugins" [("Plugin", AClass plugin_cls); ("S1", AClass s1_cls); ("efficiency", AModule "appletree.plugins.efficiency")].

(** The module attribute itself is overwritten without warning when the name has dots. *)
Theorem C51_dotted_refuted : exists m1 m2 base a m', add_extensions m1 m2 base false = (m', Ok tt) /\
  has a (m_attrs m1) = true /\ get a (m_attrs m') <> get a (m_attrs m1).
Proof.
  exists shipped_module, (mk_module "mypkg.efficiency" [("Mine", AClass mine_cls)]), plugin_cls, "efficiency". eexists.
  split; [reflexivity|]. split; [reflexivity|]. cbv. discriminate.
Qed.

(** A refused registration can leave classes behind. *)
Theorem C51_failure_refuted : exists m1 m2 base a m', add_extensions m1 m2 base false = (m', Err ValueError) /\
  has a (m_attrs m1) = false /\ has a (m_attrs m') = true.
Proof.
  exists shipped_module, (mk_module "mine" [("Mine", AClass mine_cls); ("S1", AClass s1_cls)]), plugin_cls, "Mine". eexists.
  split; [reflexivity|]. split; reflexivity.
Qed.

Example C51_case : exists m', add_extensions shipped_module (mk_module "mine" [("Mine", AClass mine_cls); ("Plugin", AClass plugin_cls)]) plugin_cls false = (m', Ok tt) /\
  get "Mine" (m_attrs m') = Some (AClass mine_cls) /\ get "S1" (m_attrs m') = Some (AClass s1_cls).
Proof. eexists. split; [reflexivity|]. split; reflexivity. Qed.

(* ------------------------------------------------------------------ *)
(** * C70: dependency graphs *)

(** The drawn graph of data names shows the needed data and their dependencies, nothing else. *)
Theorem C70_data : forall reg fuel names g seen,
  add_deps_to_graph_tree reg fuel names (mk_graph [] []) [] = Ok (g, seen) ->
  (forall d, In d (g_nodes g) <-> needed reg names d) /\
  (forall a b, In (a, b) (g_edges g) <-> needed reg names a /\ a <> "batch_size" /\ exists p, get a reg = Some p /\ In b (p_depends p)).
Proof.
  intros reg fuel names g seen E. destruct (add_deps_good reg fuel _ _ _ _ _ E) as (_ & _ & C & A & S1 & S2 & _).
  specialize (C ltac:(intros d [])).
  assert (R : forall d, needed reg names d -> (In d seen \/ d = "batch_size") /\ In d (g_nodes g)).
  { intros d N. induction N as [d I|a p b N IH Na G I].
    - destruct (A d I) as [H|[H1 H2]]; [split; [left; assumption|apply (C d H)]|split; [right|]; assumption].
    - destruct IH as [[Sa|Sa] _]; [|contradiction]. destruct (C a Sa) as (_ & _ & q & Gq & K). rewrite G in Gq. injection Gq as <-.
      destruct (K b I) as [_ [H|[H1 H2]]]; [split; [left; assumption|apply (C b H)]|split; [right|]; assumption]. }
  split.
  - intros d. split; [|apply R]. intros H. destruct (S1 d H) as [[]|H']. assumption.
  - intros a b. split.
    + intros H. destruct (S2 a b H) as [[]|H']. assumption.
    + intros (N & Na & p & G & I). destruct (R a N) as [[Sa|Sa] _]; [|contradiction].
      destruct (C a Sa) as (_ & _ & q & Gq & K). rewrite G in Gq. injection Gq as <-. apply K. assumption.
Qed.

(** It can be drawn when no data needs itself and everything needed is registered. *)
Theorem C70_drawn : forall reg rank names, well_founded_registry reg rank -> all_registered reg names ->
  exists depth, forall fuel, depth <= fuel ->
    (exists r, add_deps_to_graph_tree reg fuel names (mk_graph [] []) [] = Ok r) /\
    (exists r, add_plugins_to_graph_tree reg fuel names (mk_graph [] []) [] = Ok r).
Proof.
  intros reg rank names WF Reg. exists (S (S (fold_right Nat.max 0 (map rank names)))).
  assert (L : forall d, In d names -> rank d <= fold_right Nat.max 0 (map rank names)).
  { induction names as [|x names IH]; intros d []; cbn [map fold_right].
    - subst. lia.
    - assert (all_registered reg names).
      { intros y Hy. apply Reg. eapply needed_mono; [|exact Hy]. intros z Hz. apply need_asked. right. assumption. }
      pose proof (IH H0 d H). lia. }
  intros fuel Hf. split.
  - destruct (add_deps_total reg rank WF fuel names (mk_graph [] []) []) as (g & s & E); [|lia|assumption|eauto]. intros d I _. pose proof (L d I). lia.
  - destruct (add_plugins_total reg rank WF fuel names (mk_graph [] []) []) as (g & s & E); [|lia|assumption|eauto]. intros d I _. pose proof (L d I). lia.
Qed.

(** The graph of plugins likewise, when plugins are told apart by their names. *)
Theorem C70_plugins : forall reg fuel names g seen,
  (forall a b p q, get a reg = Some p -> get b reg = Some q -> p_name p = p_name q -> p_depends p = p_depends q) ->
  add_plugins_to_graph_tree reg fuel names (mk_graph [] []) [] = Ok (g, seen) ->
  (forall P, In P (g_nodes g) <-> exists d, needed reg names d /\ d <> "batch_size" /\ exists p, get d reg = Some p /\ p_name p = P) /\
  (forall P Q, In (P, Q) (g_edges g) <-> exists d p b q, needed reg names d /\ d <> "batch_size" /\ get d reg = Some p /\ p_name p = P /\
     In b (p_depends p) /\ b <> "batch_size" /\ get b reg = Some q /\ p_name q = Q).
Proof.
  intros reg fuel names g seen Names E. destruct (add_plugins_good reg fuel _ _ _ _ _ E) as (_ & _ & C & A & S1 & S2 & _).
  specialize (C ltac:(intros d [])).
  assert (R : forall d, needed reg names d -> d <> "batch_size" -> exists p, get d reg = Some p /\ In (p_name p) seen).
  { intros d N. induction N as [d I|a p b N IH Na G I]; intros Nb; [auto|].
    destruct (IH Na) as (p' & Gp' & Sp). rewrite G in Gp'. injection Gp' as <-. destruct (C _ Sp) as (_ & x & px & Nx & Gx & Ex & K).
    rewrite (Names x a px p Gx G Ex) in K. destruct (K b I Nb) as (q & Gq & _ & Sq). eauto. }
  split.
  - intros P. split.
    + intros H. destruct (S1 P H) as [[]|(d & N & Nd & p & G & Ep)]. exists d. eauto.
    + intros (d & N & Nd & p & G & Ep). destruct (R d N Nd) as (p' & Gp' & Sp). rewrite G in Gp'. injection Gp' as <-. rewrite <- Ep. apply (C _ Sp).
  - intros P Q. split.
    + intros H. destruct (S2 P Q H) as [[]|(d & p & b & N & Nd & G & Ep & I & Nb & q & Gq & Eq)]. exists d, p, b, q. auto 10.
    + intros (d & p & b & q & N & Nd & G & Ep & I & Nb & Gq & Eq). destruct (R d N Nd) as (p' & Gp' & Sp). rewrite G in Gp'. injection Gp' as <-.
      destruct (C _ Sp) as (_ & x & px & Nx & Gx & Ex & K). rewrite (Names x d px p Gx G Ex) in K.
      destruct (K b I Nb) as (q' & Gq' & Eq' & _). rewrite Gq in Gq'. injection Gq' as <-. rewrite <- Ep, <- Eq. assumption.
Qed.

Definition plug (name : string) (provides depends : list string) : plugin :=
  mk_plugin name provides depends [] [] [].
Definition small_registry : registry :=
  [("energy", plug "Energy" ["energy"] ["batch_size"]); ("quanta", plug "Quanta" ["quanta"] ["energy"]);
   ("photons", plug "Split" ["photons"; "electrons"] ["quanta"]); ("electrons", plug "Split" ["photons"; "electrons"] ["quanta"])].

Example C70_case : exists g seen, add_deps_to_graph_tree small_registry 10 ["photons"; "electrons"] (mk_graph [] []) [] = Ok (g, seen) /\
  g_edges g = [("photons", "quanta"); ("quanta", "energy"); ("energy", "batch_size"); ("electrons", "quanta")].
Proof. eexists _, _. split; reflexivity. Qed.

Print Assumptions C50_two_decimals.
Print Assumptions C50_above_one.
Print Assumptions C50_not_positive.
Print Assumptions C50_small_refuted.
Print Assumptions C50_one_refuted.
Print Assumptions C50_unambiguous.
Print Assumptions C51_kept.
Print Assumptions C51_plain_name.
Print Assumptions C51_added.
Print Assumptions C51_when.
Print Assumptions C51_imported_refuted.
Print Assumptions C51_two_names_refuted.
Print Assumptions C51_force.
Print Assumptions C51_dotted_refuted.
Print Assumptions C51_failure_refuted.
Print Assumptions C70_data.
Print Assumptions C70_drawn.
Print Assumptions C70_plugins.
