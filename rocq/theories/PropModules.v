(** C122: registering the classes of modules. *)
From Coq Require Import Lia Permutation.
From Verif Require Import Base BaseFacts ModelShare ModelConfig ModelComponent ModelParameter SpecParameter SpecComponent ModelModules SpecModules
  ProofComponent ProofSim ProofParameter2 ProofModules PropComponent.
Local Open Scope string_scope.
Local Open Scope list_scope.

(** After register_all of a module, a name is provided by the class whose name is last in alphabetical order
    among the classes of the module that provide it; names that no class of the module provides keep their
    provider. *)
Theorem C122_provider attrs reg reg' : NoDup (keys attrs) -> register_all (One attrs) reg = (reg', Ok tt) ->
  forall d p, get d reg' = Some p <->
    (exists n, final_provider attrs d n p) \/ (get d reg = Some p /\ forall n q, has_class attrs n q -> ~ In d (p_provides q)).
Proof.
  intros N H d p. cbn [register_all] in H. rewrite (get_register _ _ _ H d). pose proof (last_found attrs d N) as F.
  destruct (find _ _) as [q|].
  - destruct F as (n & F). split.
    + intros E. injection E as <-. left. exists n. exact F.
    + intros [(n' & F')|[_ G]]; [|exfalso; destruct F as (A & B & _); exact (G n q A B)].
      destruct F as (A & B & C), F' as (A' & B' & C'). destruct (C n' p A' B') as [->|L]; [unfold has_class in A, A'; congruence|].
      destruct (C' n q A B) as [->|L']; [unfold has_class in A, A'; congruence|]. exfalso. exact (before_irrefl _ (before_trans _ _ _ L L')).
  - split; [intros E; right; split; [exact E|exact F]|]. intros [(n & A & B & _)|[E _]]; [exfalso; exact (F n p A B)|exact E].
Qed.

(** The order of the definitions in the module does not matter, for success, failure and what is left. *)
Theorem C122_order attrs attrs' reg : NoDup (keys attrs) -> Permutation attrs attrs' -> register_all (One attrs) reg = register_all (One attrs') reg.
Proof. intros N P. cbn [register_all]. rewrite (module_perm attrs attrs' N P). reflexivity. Qed.

(** Lists of modules, at any depth, are registered one after the other until one fails. *)
Theorem C122_lists l l' m reg :
  register_all (Many []) reg = (reg, Ok tt) /\
  register_all (Many [m]) reg = register_all m reg /\
  register_all (Many [Many l; Many l']) reg = register_all (Many (l ++ l')) reg /\
  (forall reg1, register_all (Many l) reg = (reg1, Ok tt) -> register_all (Many (l ++ l')) reg = register_all (Many l') reg1) /\
  (forall reg1 e, register_all (Many l) reg = (reg1, Err e) -> register_all (Many (l ++ l')) reg = (reg1, Err e)).
Proof.
  split; [reflexivity|]. split; [rewrite !register_all_flat; cbn [all_classes flat_map]; rewrite app_nil_r; reflexivity|].
  split; [rewrite !register_all_flat; cbn [all_classes flat_map]; rewrite app_nil_r, flat_map_app; reflexivity|].
  split; intros reg1; [intros H|intros e H]; rewrite register_all_flat in H; rewrite ?register_all_flat; cbn [all_classes] in *;
    rewrite flat_map_app, register_app, H; reflexivity.
Qed.

(** The base class Plugin, which every plugin file imports, provides nothing and takes no config: a module
    with it, under any name, is registered as if it were not there. *)
Theorem C122_base n base attrs reg : NoDup (keys ((n, Some base) :: attrs)) -> p_provides base = [] -> p_configs base = [] ->
  register_all (One ((n, Some base) :: attrs)) reg = register_all (One ((n, None) :: attrs)) reg.
Proof.
  intros N H1 H2. cbn [register_all]. rewrite (register_filter (module_classes ((n, Some base) :: attrs))), (register_filter (module_classes ((n, None) :: attrs))). f_equal.
  unfold module_classes. cbn [keys map fst]. generalize (sorted_names (n :: map fst attrs)). intros l.
  induction l as [|x l IH]; [reflexivity|]. cbn [flat_map]. rewrite !filter_app, IH. f_equal. cbn [get].
  destruct (String.eqb x n); [|reflexivity]. cbn [filter]. unfold nothing. rewrite H1, H2. reflexivity.
Qed.

(** When it fails, it is with a ValueError; the class that was refused is one of a module in the list, it is
    registered for its names nevertheless, and it disagrees on a default with a class that is registered. *)
Theorem C122_failure m reg reg' e : NoDup (keys reg) -> register_all m reg = (reg', Err e) ->
  e = ValueError /\ exists attrs n p, module_in attrs m /\ has_class attrs n p /\
    (forall d, In d (p_provides p) -> get d reg' = Some p) /\
    exists d q c cf cf', get d reg' = Some q /\ In (c, cf) (p_configs q) /\ In (c, cf') (p_configs p) /\ ~ same_default (c_default cf) (c_default cf').
Proof.
  intros N H. rewrite register_all_flat in H. destruct (register_err _ _ _ _ H) as (-> & a & p & b & E & r1 & A & -> & C). split; [reflexivity|].
  destruct (all_classes_in m p) as (attrs & n & M & Hn). { rewrite E. apply in_or_app. right. left. reflexivity. }
  exists attrs, n, p. split; [exact M|]. split; [exact Hn|]. split.
  - intros d Hd. rewrite get_register_provides. apply mem_In in Hd. rewrite Hd. reflexivity.
  - unfold register1 in C. cbn [snd] in C. destruct (existsb _ _) eqn:X; [|discriminate]. apply existsb_exists in X. destruct X as (q & Hq & X).
    assert (N1 : NoDup (keys r1)). { pose proof (NoDup_register a reg N) as Z. rewrite A in Z. exact Z. }
    apply in_map_iff in Hq. destruct Hq as ((d & q') & Eq & Hq). cbn in Eq. subst q'. apply (In_get _ _ _ (NoDup_register_provides p r1 N1)) in Hq.
    unfold conflict in X. apply existsb_exists in X. destruct X as ((c & cf) & Hc & X). apply existsb_exists in X. destruct X as ((c' & cf') & Hc' & X). cbn [fst snd] in X.
    destruct (String.eqb c' c) eqn:Ec; [|discriminate]. apply String.eqb_eq in Ec. subst c'. exists d, q, c, cf, cf'. split; [exact Hq|]. split; [exact Hc|]. split; [exact Hc'|].
    intros S. apply same_default_iff in S. rewrite S in X. discriminate.
Qed.

(* ------------------------------------------------------------------ *)
(** * Concrete cases *)

Definition base_plugin := mk_plugin "Plugin" [] [] [] [] ["self"].
Definition pZ := mk_plugin "ZedEnergy" ["energy"] ["batch_size"] [] [] ["self"; "key"; "parameters"; "batch_size"].
Definition pM := mk_plugin "MonoEnergy" ["energy"; "x"] ["batch_size"] [] [] ["self"; "key"; "parameters"; "batch_size"].
(** As written in the file: an import of a function, the base class, ZedEnergy, Quanta, MonoEnergy. *)
Definition a_module : dict (option plugin) :=
  [("jit", None); ("Plugin", Some base_plugin); ("ZedEnergy", Some pZ); ("Quanta", Some pQ); ("MonoEnergy", Some pM)].
Example C122_case : NoDup (keys a_module) /\
  exists reg', register_all (One a_module) [] = (reg', Ok tt) /\ keys reg' = ["energy"; "x"; "ph"; "el"] /\
    get "energy" reg' = Some pZ /\ get "x" reg' = Some pM /\ final_provider a_module "energy" "ZedEnergy" pZ.
Proof.
  split. { repeat constructor; cbn; intuition discriminate. }
  eexists. split; [vm_compute; reflexivity|]. split; [reflexivity|]. split; [reflexivity|]. split; [reflexivity|].
  unfold final_provider, has_class. split; [reflexivity|]. split; [left; reflexivity|]. intros n' q Hq Hd. apply get_In in Hq. cbn in Hq.
  destruct Hq as [Hq|[Hq|[Hq|[Hq|[Hq|[]]]]]]; try discriminate Hq; injection Hq as <- <-; cbn in Hd.
  - destruct Hd.
  - left. reflexivity.
  - intuition discriminate.
  - right. apply before_head. cbn. lia.
Qed.

(** The class that the file defines last is not the one that is used. *)
Theorem C122_definition_order_refuted : exists attrs reg', register_all (One attrs) [] = (reg', Ok tt) /\
  nth_error attrs (List.length attrs - 1) = Some ("MonoEnergy", Some pM) /\ In "energy" (p_provides pM) /\ get "energy" reg' <> Some pM.
Proof. exists a_module. eexists. split; [vm_compute; reflexivity|]. split; [reflexivity|]. split; [left; reflexivity|]. vm_compute. discriminate. Qed.

(** Two modules of which the second has a class with another default for w: the classes before it are
    registered, the one after it is not. *)
Example C122_case_failure : exists reg' , register_all (Many [One a_module; Many [One [("S1", Some pS1); ("G", Some pG); ("A", Some pS2)]]]) [] = (reg', Err ValueError) /\
  get "energy" reg' = Some pG /\ get "cs2" reg' = Some pS2 /\ get "cs1" reg' = None.
Proof. eexists. split; [vm_compute; reflexivity|]. repeat split. Qed.

Print Assumptions C122_provider.
Print Assumptions C122_order.
Print Assumptions C122_lists.
Print Assumptions C122_base.
Print Assumptions C122_failure.
Print Assumptions C122_definition_order_refuted.
