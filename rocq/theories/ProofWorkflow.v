(** Lemmas about the worksheet, the generated code and its execution. *)
From Verif Require Import Base BaseFacts ModelShare ModelConfig ModelComponent SpecComponent
  ProofComponent.
From Coq Require Import Relations.
Local Open Scope string_scope.

(* ------------------------------------------------------------------ *)
(** * first_by_name *)

Lemma first_by_name_incl seen l p : In p (first_by_name seen l) -> In p l.
Proof.
  revert seen. induction l as [|q l IH]; simpl; intros seen H; [destruct H|].
  destruct (mem (p_name q) seen).
  - right. eapply IH, H.
  - destruct H as [<-|H]; [left; reflexivity|right; eapply IH, H].
Qed.

Lemma first_by_name_not_seen seen l p :
  In p (first_by_name seen l) -> ~ In (p_name p) seen.
Proof.
  revert seen. induction l as [|q l IH]; simpl; intros seen H; [destruct H|].
  destruct (mem (p_name q) seen) eqn:E.
  - exact (IH _ H).
  - destruct H as [<-|H].
    + apply mem_false, E.
    + intros Hs. apply (IH _ H). apply in_or_app. left. exact Hs.
Qed.

Lemma first_by_name_NoDup seen l : NoDup (map p_name (first_by_name seen l)).
Proof.
  revert seen. induction l as [|q l IH]; simpl; intros seen; [constructor|].
  destruct (mem (p_name q) seen); [apply IH|]. simpl. constructor; [|apply IH].
  intros H. apply in_map_iff in H. destruct H as (p & Hp & Hi).
  apply (first_by_name_not_seen _ _ _ Hi). rewrite Hp. apply in_or_app. right. left. reflexivity.
Qed.

Lemma first_by_name_complete seen l p :
  In p l -> In (p_name p) seen \/ exists q, In q (first_by_name seen l) /\ p_name q = p_name p.
Proof.
  revert seen. induction l as [|r l IH]; simpl; intros seen H; [destruct H|].
  destruct (mem (p_name r) seen) eqn:E.
  - destruct H as [->|H]; [left; apply mem_In, E|exact (IH _ H)].
  - destruct H as [->|H].
    + right. exists p. split; [left; reflexivity|reflexivity].
    + destruct (IH (seen ++ [p_name r])%list H) as [Hs|(q & Hq & Hn)].
      * apply in_app_or in Hs. destruct Hs as [Hs|[Hs|[]]]; [left; exact Hs|].
        right. exists r. split; [left; reflexivity|exact Hs].
      * right. exists q. split; [right; exact Hq|exact Hn].
Qed.

(** Splitting the selection at [p] corresponds to splitting the list at [p], with every earlier
    element represented by name. *)
Lemma first_by_name_split seen l L1 p L2 :
  first_by_name seen l = (L1 ++ p :: L2)%list ->
  exists l1 l2, l = (l1 ++ p :: l2)%list /\
    forall r, In r l1 -> In (p_name r) seen \/ exists q, In q L1 /\ p_name q = p_name r.
Proof.
  revert seen L1. induction l as [|r l IH]; simpl; intros seen L1 H.
  { destruct L1; discriminate. }
  destruct (mem (p_name r) seen) eqn:E.
  - destruct (IH _ _ H) as (l1 & l2 & -> & Hl). exists (r :: l1), l2. split; [reflexivity|].
    intros r' [<-|Hr']; [left; apply mem_In, E|exact (Hl r' Hr')].
  - destruct L1 as [|q L1]; simpl in H; injection H as Hq Ht.
    + subst r. exists [], l. split; [reflexivity|]. intros r [].
    + subst q. destruct (IH _ _ Ht) as (l1 & l2 & -> & Hl). exists (r :: l1), l2.
      split; [reflexivity|]. intros r' [<-|Hr'].
      * right. exists r. split; [left; reflexivity|reflexivity].
      * destruct (Hl r' Hr') as [Hs|(q & Hq & Hn)].
        -- apply in_app_or in Hs. destruct Hs as [Hs|[Hs|[]]]; [left; exact Hs|].
           right. exists r. split; [left; reflexivity|exact Hs].
        -- right. exists q. split; [right; exact Hq|exact Hn].
Qed.

Section Selected.
  Variable reg : registry.
  Variable nodep : string.
  Hypothesis Huniq : unique_names reg.

  Lemma selected_in names l p :
    from reg nodep names l -> In p (selected l) <-> In p l.
  Proof.
    intros Hf. unfold selected. split.
    - intros H. apply first_by_name_incl in H. apply in_rev, H.
    - intros H. apply in_rev in H.
      destruct (first_by_name_complete [] (rev l) p H) as [[]|(q & Hq & Hn)].
      pose proof (first_by_name_incl _ _ _ Hq) as Hq'. apply in_rev in Hq'. apply in_rev in H.
      destruct (Hf _ Hq') as (d & _ & Hd). destruct (Hf _ H) as (d' & _ & Hd').
      rewrite <- (Huniq _ _ _ _ Hd Hd' Hn). exact Hq.
  Qed.

  Lemma selected_order names l L1 p L2 :
    from reg nodep names l -> TailClosed reg nodep l ->
    selected l = (L1 ++ p :: L2)%list ->
    forall x, In x (p_depends p) -> x <> nodep ->
    exists q, get x reg = Some q /\ In q L1.
  Proof.
    intros Hf Ht H x Hx Hn.
    destruct (first_by_name_split _ _ _ _ _ H) as (l1 & l2 & Hrev & Hl).
    assert (Hl' : l = (rev l2 ++ p :: rev l1)%list).
    { rewrite <- (rev_involutive l), Hrev, rev_app_distr. simpl. rewrite <- app_assoc. reflexivity. }
    destruct (Ht _ _ _ Hl' x Hx Hn) as (q & Hq & Hi).
    exists q. split; [exact Hq|]. apply in_rev in Hi.
    destruct (Hl q Hi) as [[]|(q' & Hq' & Hnm)].
    assert (Hq'l : In q' l).
    { apply in_rev. apply (first_by_name_incl [] (rev l)). fold (selected l). rewrite H.
      apply in_or_app. left. exact Hq'. }
    destruct (Hf _ Hq'l) as (d & _ & Hd).
    rewrite <- (Huniq _ _ _ _ Hd Hq Hnm). exact Hq'.
  Qed.
End Selected.

(* ------------------------------------------------------------------ *)
(** * The worksheet *)

Lemma simplify_loop_ws ps llh ws needed c c' ws' needed' r :
  simplify_loop ps llh ws needed c = (c', (ws', needed'), r) -> r = Ok tt ->
  ws' = (ws ++ map work_of ps)%list.
Proof.
  revert ws needed c. induction ps as [|p ps IH]; simpl; intros ws needed c H Hr.
  - injection H as _ <- _ _. rewrite app_nil_r. reflexivity.
  - destruct (config_params _ _ _ _) as [[c1 n1] r1]. destruct r1 as [u|e].
    + rewrite (IH _ _ _ H Hr), <- app_assoc. reflexivity.
    + injection H as _ _ _ <-. discriminate.
Qed.

(** Everything a successful [deduce] establishes about the component it returns. *)
Lemma deduce_ok_inv limit data_names func nodep noeff k w w' k' :
  deduce limit data_names func nodep noeff k w = (w', k', Ok tt) ->
  exists deps c1 needed,
    dependencies_deduce (k_registry k) nodep limit (output_names data_names noeff) [] = Ok deps /\
    dependencies_simplify (k_rate k) (k_llh k) deps (w_cache w)
      = (c1, (map work_of (selected deps), needed), Ok tt) /\
    k_worksheet k' = map work_of (selected deps) /\
    k_needed k' = needed /\
    k_code k' = Some (gen_code (k_name k) (k_llh k) func nodep (map work_of (selected deps))
                        (output_names data_names noeff)) /\
    k_func k' = func /\ k_registry k' = k_registry k /\ k_llh k' = k_llh k /\
    k_name k' = k_name k /\ k_rate k' = k_rate k /\
    k_noeff k' = (noeff || k_noeff k)%bool /\ w_cache w' = c1 /\
    k_compile k' = Some (gen_code (k_name k) (k_llh k) func nodep (map work_of (selected deps))
                        (output_names data_names noeff), List.length (w_heap w)) /\
    has (k_llh k) (w_fn w) = false /\
    w_fn w' = set (k_llh k) (List.length (w_heap w)) (w_fn w) /\
    w_heap w' = (w_heap w ++ [[]])%list /\ w_class w' = w_class w /\
    k_simulate k' = k_simulate k.
Proof.
  unfold deduce. intros H.
  destruct (dependencies_deduce _ _ _ _ _) as [deps|e] eqn:Hd; [|discriminate].
  destruct (dependencies_simplify _ _ _ _) as [[c1 [ws needed]] r] eqn:Hs.
  destruct r as [u|e]; [|discriminate]. destruct u.
  pose proof Hs as Hws. unfold dependencies_simplify in Hws.
  apply simplify_loop_ws in Hws; [|reflexivity]. simpl in Hws. subst ws.
  unfold set_code, sv_setitem in H. simpl in H.
  destruct (has (k_llh k) (w_fn w)) eqn:Hh; [discriminate|]. injection H as <- <-.
  exists deps, c1, needed. simpl. repeat split; auto.
Qed.

(* ------------------------------------------------------------------ *)
(** * Definedness of the generated code *)

Definition body_of (name : string) (ps : list plugin) : list (list string * string * list string) :=
  map (fun p => (p_provides p, p_name p ++ "_" ++ name, p_depends p)) ps.

Lemma gen_body name llh func nodep ps dn :
  pr_body (gen_code name llh func nodep (map work_of ps) dn) = body_of name ps.
Proof.
  unfold gen_code, body_of. simpl. rewrite map_map. reflexivity.
Qed.

Lemma assigned_body name ps x :
  In x (assigned (body_of name ps)) <-> exists p, In p ps /\ In x (p_provides p).
Proof.
  unfold assigned, body_of. rewrite in_flat_map. split.
  - intros (st & Hst & Hx). apply in_map_iff in Hst. destruct Hst as (p & <- & Hp). eauto.
  - intros (p & Hp & Hx). exists (p_provides p, p_name p ++ "_" ++ name, p_depends p).
    split; [|exact Hx]. apply in_map_iff. eauto.
Qed.

Lemma reads_defined_intro name ps defined :
  (forall L1 p L2, ps = (L1 ++ p :: L2)%list -> forall x, In x (p_depends p) ->
     In x defined \/ exists q, In q L1 /\ In x (p_provides q)) ->
  reads_defined defined (body_of name ps).
Proof.
  revert defined. induction ps as [|p ps IH]; simpl; intros defined H; [exact I|]. split.
  - intros x Hx. destruct (H [] p ps eq_refl x Hx) as [Hd|(q & [] & _)]. exact Hd.
  - apply IH. intros L1 q L2 -> x Hx.
    destruct (H (p :: L1) q L2 eq_refl x Hx) as [Hd|(r & [<-|Hr] & Hxr)].
    + left. apply in_or_app. right. exact Hd.
    + left. apply in_or_app. left. exact Hxr.
    + right. eauto.
Qed.

Lemma deduced_code_defined reg nodep fuel names deps name :
  provides_ok reg -> unique_names reg ->
  dependencies_deduce reg nodep fuel names [] = Ok deps ->
  reads_defined [nodep] (body_of name (selected deps)) /\
  (forall x, In x names -> x = nodep \/ In x (assigned (body_of name (selected deps)))).
Proof.
  intros Hp Hu Hd. destruct (dependencies_deduce_ok _ _ _ _ _ _ Hd) as (l & -> & Hc & Ht & Hf).
  simpl. split.
  - apply reads_defined_intro. intros L1 p L2 Hs x Hx.
    destruct (string_dec x nodep) as [->|Hn]; [left; left; reflexivity|]. right.
    destruct (selected_order reg nodep Hu _ _ _ _ _ Hf Ht Hs x Hx Hn) as (q & Hq & Hi).
    exists q. split; [exact Hi|]. apply Hp, Hq.
  - intros x Hx. destruct (string_dec x nodep) as [->|Hn]; [left; reflexivity|]. right.
    destruct (Hc x Hx Hn) as (p & Hg & Hi). apply assigned_body. exists p. split.
    + eapply (selected_in reg nodep Hu); eauto.
    + apply Hp, Hg.
Qed.

(* ------------------------------------------------------------------ *)
(** * Execution *)

Section Exec.
  Context {V : Type}.
  Variable sem : string -> list V -> result (list V).

  Lemma lookups_ok e names :
    (forall x, In x names -> exists v, get x e = Some v) ->
    exists vs, lookups V e names = Ok vs /\ map (fun x => get x e) names = map Some vs.
  Proof.
    induction names as [|x names IH]; simpl; intros H; [exists []; auto|].
    destruct (H x (or_introl eq_refl)) as (v & Hv). rewrite Hv.
    destruct IH as (vs & -> & Hm); [auto|]. exists (v :: vs). simpl. rewrite Hm. auto.
  Qed.

  Lemma lookups_inv e names vs :
    lookups V e names = Ok vs -> map (fun x => get x e) names = map Some vs.
  Proof.
    revert vs. induction names as [|x names IH]; simpl; intros vs H.
    - injection H as <-. reflexivity.
    - destruct (get x e) as [v|]; [|discriminate].
      destruct (lookups V e names) as [vs'|]; [|discriminate]. injection H as <-.
      simpl. rewrite (IH vs' eq_refl). reflexivity.
  Qed.

  Lemma assign_ok e names vs :
    List.length names = List.length vs -> exists e', assign V e names vs = Ok e'.
  Proof.
    revert e vs. induction names as [|x names IH]; intros e [|v vs]; simpl; intros H; try lia; eauto.
  Qed.

  Lemma assign_get_other e names vs e' x :
    assign V e names vs = Ok e' -> ~ In x names -> get x e' = get x e.
  Proof.
    revert e vs. induction names as [|y names IH]; intros e [|v vs]; simpl; intros H Hx;
      try discriminate.
    - injection H as <-. reflexivity.
    - rewrite (IH _ _ H); [|tauto]. apply get_set_neq. intros ->. tauto.
  Qed.

  Lemma assign_defined e names vs e' x :
    assign V e names vs = Ok e' ->
    (In x names \/ exists v, get x e = Some v) -> exists v, get x e' = Some v.
  Proof.
    revert e vs. induction names as [|y names IH]; intros e [|v vs]; simpl; intros H Hx;
      try discriminate.
    - injection H as <-. destruct Hx as [[]|Hx]. exact Hx.
    - apply (IH _ _ H). destruct Hx as [[<-|Hx]|(u & Hu)].
      + right. exists v. apply get_set_eq.
      + left. exact Hx.
      + right. destruct (string_dec x y) as [->|Hn].
        * exists v. apply get_set_eq.
        * exists u. rewrite get_set_neq by congruence. exact Hu.
  Qed.

  Lemma assign_get e names vs e' :
    assign V e names vs = Ok e' -> NoDup names ->
    map (fun x => get x e') names = map Some vs.
  Proof.
    revert e vs. induction names as [|y names IH]; intros e [|v vs]; simpl; intros H Hnd;
      try discriminate; [reflexivity|].
    inversion Hnd as [|? ? Hy Hnd']; subst. rewrite (IH _ _ H Hnd').
    rewrite (assign_get_other _ _ _ _ _ H Hy), get_set_eq. reflexivity.
  Qed.

  (** If every instance returns a key and as many values as its line assigns, code reading only
      defined names runs to the end. *)
  Definition shaped (body : list (list string * string * list string)) : Prop :=
    forall outs inst ins args, In (outs, inst, ins) body ->
      List.length args = 2 + List.length ins ->
      exists k vs, sem inst args = Ok (k :: vs) /\ List.length vs = List.length outs.

  Lemma lookups_length e names vs : lookups V e names = Ok vs -> List.length vs = List.length names.
  Proof.
    intros H. apply lookups_inv in H. apply (f_equal (@List.length _)) in H.
    rewrite !map_length in H. lia.
  Qed.

  Lemma exec_ok body e defined :
    shaped body -> reads_defined defined body ->
    (forall x, In x ("key" :: "parameters" :: defined) -> exists v, get x e = Some v) ->
    exists e', exec V sem e body = Ok e' /\
      forall x, In x ("key" :: "parameters" :: assigned body ++ defined)%list ->
        exists v, get x e' = Some v.
  Proof.
    revert e defined. induction body as [|[[outs inst] ins] body IH]; intros e defined Hs Hr Hd.
    - exists e. split; [reflexivity|]. intros x Hx. apply Hd. exact Hx.
    - destruct Hr as [Hins Hr].
      assert (Hl : forall x, In x ("key" :: "parameters" :: ins) -> exists v, get x e = Some v).
      { intros x Hx. apply Hd. simpl in Hx |- *. destruct Hx as [Hx|[Hx|Hx]]; auto. }
      destruct (lookups_ok e _ Hl) as (args & Hargs & _).
      assert (Hlen : List.length args = 2 + List.length ins)
        by (rewrite (lookups_length _ _ _ Hargs); reflexivity).
      destruct (Hs outs inst ins args (or_introl eq_refl) Hlen) as (k & vs & Hsem & Hvs).
      destruct (assign_ok e ("key" :: outs) (k :: vs)) as (e1 & He1); [simpl; lia|].
      destruct (IH e1 (outs ++ defined)%list) as (e' & He' & Hd').
      + intros o i n a Hi Hla. apply (Hs o i n a); [right; exact Hi|exact Hla].
      + exact Hr.
      + intros x Hx. eapply (assign_defined _ _ _ _ x He1).
        simpl in Hx |- *. destruct Hx as [Hx|[Hx|Hx]]; [auto| |].
        * right. apply Hd. simpl. auto.
        * apply in_app_or in Hx. destruct Hx as [Hx|Hx]; [auto|].
          right. apply Hd. simpl. auto.
      + exists e'. split.
        * cbn [exec exec1]. rewrite Hargs. cbn [bind]. rewrite Hsem. cbn [bind].
          rewrite He1. cbn [bind]. exact He'.
        * intros x Hx. apply Hd'. simpl in Hx |- *. destruct Hx as [Hx|[Hx|Hx]]; auto.
          right. right. rewrite <- app_assoc in Hx. apply in_app_or in Hx.
          apply in_or_app. destruct Hx as [Hx|Hx].
          -- right. apply in_or_app. auto.
          -- apply in_app_or in Hx. destruct Hx as [Hx|Hx]; [auto|].
             right. apply in_or_app. auto.
  Qed.

  Lemma exec_key body e e' :
    exec V sem e body = Ok e' -> (exists v, get "key" e = Some v) ->
    exists v, get "key" e' = Some v.
  Proof.
    revert e. induction body as [|[[outs inst] ins] body IH]; cbn [exec]; intros e H Hk.
    - injection H as <-. exact Hk.
    - destruct (exec1 V sem e (outs, inst, ins)) as [e1|er] eqn:H1; [|discriminate].
      cbn [bind] in H. apply (IH _ H). unfold exec1 in H1.
      destruct (lookups V e ("key" :: "parameters" :: ins)) as [args|]; [|discriminate].
      cbn [bind] in H1. destruct (sem inst args) as [vs|]; [|discriminate]. cbn [bind] in H1.
      eapply assign_defined; [exact H1|]. left. left. reflexivity.
  Qed.

  (** A completed execution of code without reassignment solves the equations of the code. *)
  Lemma exec_solves body e e' params :
    exec V sem e body = Ok e' ->
    get "parameters" e = Some params ->
    NoDup (assigned body) ->
    ~ In "key" (assigned body) -> ~ In "parameters" (assigned body) ->
    (* no line reads a name assigned by itself or a later line, nor the key *)
    (forall b1 outs inst ins b2, body = (b1 ++ (outs, inst, ins) :: b2)%list ->
       forall x, In x ins -> x <> "key" /\ ~ In x (assigned ((outs, inst, ins) :: b2))) ->
    forall k, get "key" e = Some k ->
    exists k', get "key" e' = Some k' /\
      Solves sem (fun x => get x e') params k body k' /\
      (forall x, ~ In x (assigned body) -> x <> "key" -> get x e' = get x e).
  Proof.
    revert e. induction body as [|[[outs inst] ins] body IH];
      cbn [exec]; intros e H Hp Hnd Hk Hpar Hread k Hkey.
    - injection H as <-. exists k. split; [exact Hkey|]. split; [constructor|]. auto.
    - destruct (exec1 V sem e (outs, inst, ins)) as [e1|er] eqn:H1; [|discriminate].
      cbn [bind] in H. unfold exec1 in H1.
      destruct (lookups V e ("key" :: "parameters" :: ins)) as [args|] eqn:Hl; [|discriminate].
      cbn [bind] in H1. destruct (sem inst args) as [vs|] eqn:Hsem; [|discriminate].
      cbn [bind] in H1.
      assert (Hasg : assigned ((outs, inst, ins) :: body) = (outs ++ assigned body)%list)
        by reflexivity.
      rewrite Hasg in *.
      assert (Hnd1 : NoDup outs).
      { clear -Hnd. induction outs as [|o outs IHo]; [constructor|]. simpl in Hnd.
        inversion Hnd; subst. constructor; [|auto]. intros Ho. apply H1, in_or_app. auto. }
      assert (Hnd2 : NoDup (assigned body)).
      { clear -Hnd. induction outs as [|o outs IHo]; [exact Hnd|]. simpl in Hnd.
        inversion Hnd; subst. auto. }
      assert (Hdisj : forall x, In x outs -> ~ In x (assigned body)).
      { clear -Hnd. induction outs as [|o outs IHo]; intros x Hx; [destruct Hx|].
        simpl in Hnd. inversion Hnd as [|? ? Hni Hnd']; subst. destruct Hx as [<-|Hx].
        - intros Hb. apply Hni, in_or_app. auto.
        - apply IHo; assumption. }
      assert (Hke : ~ In "key" outs) by (intros Hi; apply Hk, in_or_app; auto).
      pose proof (lookups_inv _ _ _ Hl) as Hargs. cbn [map] in Hargs.
      rewrite Hkey, Hp in Hargs.
      destruct args as [|a0 [|a1 argv]]; try discriminate. cbn [map] in Hargs.
      injection Hargs as <- <- Hargs.
      destruct vs as [|k1 vs]; [cbn in H1; discriminate|].
      assert (H1' : assign V (set "key" k1 e) outs vs = Ok e1) by exact H1.
      assert (Hkey1 : get "key" e1 = Some k1).
      { rewrite (assign_get_other _ _ _ _ _ H1' Hke), get_set_eq. reflexivity. }
      assert (Hpar1 : get "parameters" e1 = Some params).
      { rewrite (assign_get_other _ _ _ _ _ H1').
        - rewrite get_set_neq by discriminate. exact Hp.
        - intros Hi. apply Hpar, in_or_app. auto. }
      destruct (IH e1 H Hpar1 Hnd2) with (k := k1) as (k2 & Hk2 & Hsol & Hfr); auto.
      { intros Hi. apply Hk, in_or_app. auto. }
      { intros Hi. apply Hpar, in_or_app. auto. }
      { intros b1 o i n b2 -> x Hx.
        apply (Hread ((outs, inst, ins) :: b1) o i n b2 eq_refl x Hx). }
      exists k2. split; [exact Hk2|]. split.
      + eapply Solves_cons with (argv := argv) (vs := vs); [|exact Hsem| |exact Hsol].
        * rewrite <- Hargs. apply map_ext_in. intros x Hx.
          destruct (Hread [] outs inst ins body eq_refl x Hx) as [Hxk Hxa].
          rewrite Hasg in Hxa.
          rewrite Hfr; [|intros Hi; apply Hxa, in_or_app; auto|exact Hxk].
          rewrite (assign_get_other _ _ _ _ _ H1'); [|intros Hi; apply Hxa, in_or_app; auto].
          apply get_set_neq. congruence.
        * rewrite <- (assign_get _ _ _ _ H1' Hnd1). apply map_ext_in. intros x Hx.
          apply Hfr; [exact (Hdisj x Hx)|]. intros ->. exact (Hke Hx).
      + intros x Hx Hxk. rewrite Hfr; [|intros Hi; apply Hx, in_or_app; auto|exact Hxk].
        rewrite (assign_get_other _ _ _ _ _ H1'); [|intros Hi; apply Hx, in_or_app; auto].
        apply get_set_neq. congruence.
  Qed.
End Exec.
