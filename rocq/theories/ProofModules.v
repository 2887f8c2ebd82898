(** Lemmas about register_all. *)
From Coq Require Import Lia Permutation Sorted.
From Verif Require Import Base BaseFacts ModelShare ModelConfig ModelComponent ModelParameter SpecParameter ModelModules SpecModules SpecComponent
  ProofComponent ProofParameter2.
Local Open Scope list_scope.

Lemma register_app a b reg : register (a ++ b) reg = let '(r1, e) := register a reg in match e with Ok _ => register b r1 | Err x => (r1, Err x) end.
Proof.
  revert reg. induction a as [|p a IH]; intros reg; [reflexivity|]. cbn [app register]. destruct (register1 p reg) as [r1 [u|x]]; [apply IH|reflexivity].
Qed.
Lemma get_register ps : forall reg reg', register ps reg = (reg', Ok tt) ->
  forall d, get d reg' = match find (fun p => mem d (p_provides p)) (rev ps) with Some p => Some p | None => get d reg end.
Proof.
  induction ps as [|p ps IH]; intros reg reg' H d; [injection H as <-; reflexivity|]. cbn [register] in H. destruct (register1 p reg) as [r1 [u|x]] eqn:E; [|discriminate].
  rewrite (IH _ _ H d). cbn [rev]. assert (E1 : r1 = register_provides p reg) by (unfold register1 in E; injection E as <- _; reflexivity). subst r1.
  assert (F : forall l, find (fun p => mem d (p_provides p)) (l ++ [p]) = match find (fun p => mem d (p_provides p)) l with Some q => Some q | None => if mem d (p_provides p) then Some p else None end).
  { induction l as [|q l IHl]; [cbn; destruct (mem d (p_provides p)); reflexivity|]. cbn [app find]. destruct (mem d (p_provides q)); [reflexivity|exact IHl]. }
  rewrite F. destruct (find _ (rev ps)); [reflexivity|]. rewrite get_register_provides. destruct (mem d (p_provides p)); reflexivity.
Qed.

Lemma sorted_keys (attrs : dict (option plugin)) : NoDup (keys attrs) -> StronglySorted before (sorted_names (keys attrs)).
Proof. apply sorted_sorted. Qed.
Lemma module_perm a b : NoDup (keys a) -> Permutation a b -> module_classes a = module_classes b.
Proof.
  intros N P. assert (Pk : Permutation (keys a) (keys b)) by (apply Permutation_map; exact P).
  assert (N' : NoDup (keys b)) by exact (Permutation_NoDup Pk N).
  assert (G : forall n, get n a = get n b).
  { intros n. destruct (get n a) as [v|] eqn:E.
    - symmetry. apply In_get; [exact N'|]. apply (Permutation_in _ P). exact (get_In _ _ _ E).
    - destruct (get n b) as [v|] eqn:E'; [|reflexivity]. apply get_In in E'. apply (Permutation_in _ (Permutation_sym P)) in E'. apply (In_get _ _ _ N) in E'. congruence. }
  unfold module_classes. rewrite (sorted_unique (sorted_names (keys a)) (sorted_names (keys b))).
  - apply flat_map_ext. intros n. rewrite G. reflexivity.
  - apply sorted_sorted, N.
  - apply sorted_sorted, N'.
  - intros x. split; intros H; (apply (Permutation_in _ (Permutation_sym (sorted_perm _)))); apply (Permutation_in _ (sorted_perm _)) in H; [apply (Permutation_in _ Pk H)|apply (Permutation_in _ (Permutation_sym Pk) H)].
Qed.

Lemma last_found attrs d : NoDup (keys attrs) ->
  match find (fun p => mem d (p_provides p)) (rev (module_classes attrs)) with
  | Some p => exists n, final_provider attrs d n p
  | None => forall n p, has_class attrs n p -> ~ In d (p_provides p)
  end.
Proof.
  intros N. unfold module_classes, final_provider, has_class.
  assert (S := sorted_keys attrs N). assert (K : forall n v, get n attrs = Some v -> In n (sorted_names (keys attrs))).
  { intros n v Hn. apply (Permutation_in _ (Permutation_sym (sorted_perm _))). apply get_In in Hn. apply in_map with (f := fst) in Hn. exact Hn. }
  assert (G : forall l : list string, StronglySorted before l ->
    match find (fun p => mem d (p_provides p)) (rev (flat_map (fun n => match get n attrs with Some (Some p) => [p] | _ => [] end) l)) with
    | Some p => exists n, In n l /\ get n attrs = Some (Some p) /\ In d (p_provides p) /\ forall n' q, In n' l -> get n' attrs = Some (Some q) -> In d (p_provides q) -> n' = n \/ before n' n
    | None => forall n p, In n l -> get n attrs = Some (Some p) -> ~ In d (p_provides p)
    end).
  { induction l as [|x l IH]; intros Sl; [intros n p []|]. inversion Sl as [|? ? Sl' Fx]; subst. rewrite Forall_forall in Fx. specialize (IH Sl'). cbn [flat_map]. rewrite rev_app_distr.
    assert (Fa : forall (P : plugin -> bool) a b, find P (a ++ b) = match find P a with Some q => Some q | None => find P b end).
    { intros P a b. induction a as [|q a IHa]; [reflexivity|]. cbn. destruct (P q); [reflexivity|exact IHa]. }
    rewrite Fa. destruct (find _ (rev (flat_map _ l))) as [p|].
    - destruct IH as (n & A & B & C & D). exists n. split; [right; exact A|]. split; [exact B|]. split; [exact C|]. intros n' q [<-|Hn] Hq Hd; [right; apply Fx; exact A|exact (D n' q Hn Hq Hd)].
    - destruct (get x attrs) as [[p|]|] eqn:Gx; cbn [rev app find].
      + destruct (mem d (p_provides p)) eqn:M.
        * apply mem_In in M. exists x. split; [left; reflexivity|]. split; [exact Gx|]. split; [exact M|]. intros n' q [<-|Hn] Hq Hd; [left; reflexivity|]. exfalso. exact (IH n' q Hn Hq Hd).
        * apply mem_false in M. intros n q [<-|Hn] Hq; [|exact (IH n q Hn Hq)]. rewrite Gx in Hq. injection Hq as <-. exact M.
      + intros n q [<-|Hn] Hq; [congruence|exact (IH n q Hn Hq)].
      + intros n q [<-|Hn] Hq; [congruence|exact (IH n q Hn Hq)]. }
  specialize (G _ S). destruct (find _ _) as [p|].
  - destruct G as (n & A & B & C & D). exists n. split; [exact B|]. split; [exact C|]. intros n' q Hq Hd. exact (D n' q (K _ _ Hq) Hq Hd).
  - intros n p Hp. exact (G n p (K _ _ Hp) Hp).
Qed.

Fixpoint all_classes (m : modules) : list plugin :=
  match m with
  | One attrs => module_classes attrs
  | Many l => flat_map all_classes l
  end.
Fixpoint register_all_flat (m : modules) : forall reg, register_all m reg = register (all_classes m) reg.
Proof.
  destruct m as [attrs|l]; intros reg; [reflexivity|]. cbn [register_all all_classes]. revert reg. induction l as [|x l IH]; intros reg; [reflexivity|].
  cbn [flat_map]. rewrite register_app, (register_all_flat x). destruct (register (all_classes x) reg) as [r1 [u|e]]; [apply IH|reflexivity].
Qed.
Fixpoint all_classes_in (m : modules) : forall p, In p (all_classes m) -> exists attrs n, module_in attrs m /\ has_class attrs n p.
Proof.
  destruct m as [attrs|l]; intros p Hp; cbn [all_classes] in Hp.
  - unfold module_classes in Hp. apply in_flat_map in Hp. destruct Hp as (n & _ & Hn). exists attrs, n. split; [constructor|]. unfold has_class.
    destruct (get n attrs) as [[q|]|]; [destruct Hn as [<-|[]]; reflexivity|destruct Hn|destruct Hn].
  - induction l as [|x l IH]; [destruct Hp|]. cbn [flat_map] in Hp. apply in_app_or in Hp. destruct Hp as [Hp|Hp].
    + destruct (all_classes_in x p Hp) as (attrs & n & A & B). exists attrs, n. split; [|exact B]. apply in_many with x; [left; reflexivity|exact A].
    + destruct (IH Hp) as (attrs & n & A & B). exists attrs, n. split; [|exact B]. inversion A; subst. apply in_many with m; [right; assumption|assumption].
Qed.

Lemma empty_no_effect p reg : p_provides p = [] -> p_configs p = [] -> register1 p reg = (reg, Ok tt).
Proof.
  intros H1 H2. unfold register1, register_provides, conflict. rewrite H1, H2. cbn [fold_left existsb]. assert (E : forall l : list plugin, existsb (fun q => existsb (fun _ : string * config => false) (p_configs q)) l = false).
  { induction l as [|q l IH]; [reflexivity|]. cbn. rewrite IH. rewrite orb_false_r. induction (p_configs q) as [|c cs IHc]; [reflexivity|exact IHc]. }
  rewrite E. reflexivity.
Qed.
Lemma register_ignores p ps reg : p_provides p = [] -> p_configs p = [] -> register (p :: ps) reg = register ps reg.
Proof. intros H1 H2. cbn [register]. rewrite empty_no_effect by assumption. reflexivity. Qed.
Definition nothing (p : plugin) : bool := match p_provides p, p_configs p with [], [] => true | _, _ => false end.
Lemma register_filter ps : forall reg, register ps reg = register (filter (fun p => negb (nothing p)) ps) reg.
Proof.
  induction ps as [|p ps IH]; intros reg; [reflexivity|]. cbn [filter]. destruct (nothing p) eqn:E; cbn [negb].
  - unfold nothing in E. destruct (p_provides p) eqn:E1; [|discriminate]. destruct (p_configs p) eqn:E2; [|discriminate]. rewrite register_ignores by assumption. apply IH.
  - cbn [register]. destruct (register1 p reg) as [r1 [u|e]]; [apply IH|reflexivity].
Qed.
Lemma register_err ps : forall reg reg' e, register ps reg = (reg', Err e) ->
  e = ValueError /\ exists a p b, ps = a ++ p :: b /\ exists r1, register a reg = (r1, Ok tt) /\ reg' = register_provides p r1 /\ snd (register1 p r1) = Err ValueError.
Proof.
  induction ps as [|p ps IH]; intros reg reg' e H; [discriminate|]. cbn [register] in H. destruct (register1 p reg) as [r1 [[]|x]] eqn:E.
  - destruct (IH _ _ _ H) as (-> & a & q & b & -> & r2 & A & B & C). split; [reflexivity|]. exists (p :: a), q, b. split; [reflexivity|]. exists r2. cbn [register]. rewrite E. auto.
  - injection H as <- <-. unfold register1 in E. destruct (existsb _ _) eqn:X; [|discriminate]. injection E as <- <-. split; [reflexivity|]. exists [], p, ps. split; [reflexivity|].
    exists reg. split; [reflexivity|]. split; [reflexivity|]. unfold register1. cbn. rewrite X. reflexivity.
Qed.
