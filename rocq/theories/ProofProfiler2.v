(** Lemmas for the profiler (C92): statistics of the times, and contexts with several components. *)
From Coq Require Import Reals Lra Lia.
From Verif Require Import Base BaseFacts ModelFloat ModelShare ModelConfig ModelComponent ModelCompile
  ModelLikelihood ModelProfiler SpecProfiler ProofProfiler.
Local Open Scope string_scope.
Local Open Scope list_scope.

Lemma run_times_measured clock t n : measured clock t n (run_times clock t n).
Proof.
  split; [apply run_times_length|]. revert t. induction n as [|n IH]; intros t j Hj; [lia|].
  cbn [run_times]. destruct j as [|j]; cbn [nth_error].
  - replace (t + 2 * 0)%nat with t by lia. replace (t + 1)%nat with (S t) by lia. f_equal. ring.
  - rewrite IH by lia. replace (t + 2 * S j)%nat with (S (S t) + 2 * j)%nat by lia. reflexivity.
Qed.

Lemma sum_squares_nonneg (l : list R) m : (0 <= fold_right Rplus 0 (map (fun t => (t - m) * (t - m)) l))%R.
Proof.
  induction l as [|x l IH]; cbn [map fold_right]; [lra|]. pose proof (Rle_0_sqr (x - m)) as H. unfold Rsqr in H. lra.
Qed.

Lemma statistics_ok (ts : list R) : ts <> [] -> statistics ts (mean_time ts) (std_time ts).
Proof.
  intros Hne. set (n := INR (List.length ts)).
  assert (Hn : (0 < n)%R) by (unfold n; apply lt_0_INR; destruct ts; [congruence|cbn; lia]).
  set (a := (fold_right Rplus 0 ts / n)%R).
  assert (Em : mean_time ts = Fin a) by (destruct ts; [congruence|reflexivity]).
  set (v := (fold_right Rplus 0 (map (fun t => (t - a) * (t - a)) ts) / n)%R).
  assert (Ev : mean_time (map (fun t => (t - a) * (t - a))%R ts) = Fin v).
  { unfold v, n. destruct ts as [|x ts]; [congruence|]. rewrite <- (map_length (fun t => (t - a) * (t - a))%R (x :: ts)).
    reflexivity. }
  assert (Hv : (0 <= v)%R).
  { unfold v, Rdiv. apply Rmult_le_pos; [apply sum_squares_nonneg|]. apply Rlt_le, Rinv_0_lt_compat, Hn. }
  exists a, (sqrt v). split; [exact Em|]. split; [unfold std_time; rewrite Em, Ev; reflexivity|].
  fold n. split; [unfold a; field; lra|]. split; [apply sqrt_pos|].
  rewrite sqrt_sqrt by exact Hv. unfold v. field. lra.
Qed.

Lemma entries_nth clock nr : forall ps t j e, nth_error (entries clock t nr ps) j = Some e ->
  f_mean e = mean_time (run_times clock (t + 2 * nr * j) nr) /\ f_std e = std_time (run_times clock (t + 2 * nr * j) nr).
Proof.
  induction ps as [|p ps IH]; intros t j e H; unfold entries in H; cbn [plugin_times combine map fst snd] in H.
  - destruct j; discriminate H.
  - destruct j as [|j]; cbn [nth_error] in H.
    + injection H as <-. rewrite Nat.mul_0_r, Nat.add_0_r. auto.
    + apply (IH (t + 2 * nr)%nat) in H. replace (t + 2 * nr * S j)%nat with (t + 2 * nr + 2 * nr * j)%nat by lia. exact H.
Qed.

Section Ctx.
  Variable V : Type.
  Variable isem : instance -> list V -> result (list V).
  Variable clock : nat -> R.
  Variable as_params : params -> V.

  (** Plugins that return too few values. *)
  Lemma outputs_few : forall names vs out, (List.length vs < List.length names)%nat ->
    outputs V names vs out = Err IndexError.
  Proof.
    induction names as [|x names IH]; intros vs out H; [cbn in H; lia|].
    destruct vs as [|v vs]; [reflexivity|]. cbn [outputs]. apply IH. cbn [List.length] in H. lia.
  Qed.

  Lemma call_few i pars args s :
    (forall key, exists key' vs, isem i (key :: pars :: args) = Ok (key' :: vs) /\
       (List.length vs < List.length (p_provides (i_class i)))%nat) ->
    exists s1 vs, call_once V isem i pars args s = (s1, Ok vs) /\ (List.length vs < List.length (p_provides (i_class i)))%nat.
  Proof.
    intros H. destruct (H (s_key s)) as (key' & vs & E & L). unfold call_once. rewrite E. eauto.
  Qed.

  Lemma warmup_few i pars args :
    (forall key, exists key' vs, isem i (key :: pars :: args) = Ok (key' :: vs) /\
       (List.length vs < List.length (p_provides (i_class i)))%nat) ->
    forall n last s, (forall vs, last = Some vs -> (List.length vs < List.length (p_provides (i_class i)))%nat) ->
    exists s1 last1, warmup V isem n i pars args last s = (s1, Ok last1) /\
      (forall vs, last1 = Some vs -> (List.length vs < List.length (p_provides (i_class i)))%nat) /\
      (last1 = None -> n = 0%nat /\ last = None).
  Proof.
    intros H. induction n as [|n IH]; intros last s Hl; cbn [warmup].
    - exists s, last. auto.
    - destruct (call_few i pars args s H) as (s1 & vs & -> & L).
      destruct (IH (Some vs) s1) as (s2 & l2 & E & A & B); [intros ? [= <-]; exact L|].
      exists s2, l2. split; [exact E|]. split; [exact A|]. intros Hn. destruct (B Hn) as [_ B']. discriminate B'.
  Qed.

  Lemma timed_few i pars args :
    (forall key, exists key' vs, isem i (key :: pars :: args) = Ok (key' :: vs) /\
       (List.length vs < List.length (p_provides (i_class i)))%nat) ->
    forall n last times s, (forall vs, last = Some vs -> (List.length vs < List.length (p_provides (i_class i)))%nat) ->
    exists s1 last1 times1, timed V isem clock n i pars args last times s = (s1, Ok (last1, times1)) /\
      (forall vs, last1 = Some vs -> (List.length vs < List.length (p_provides (i_class i)))%nat) /\
      (last1 = None -> n = 0%nat /\ last = None).
  Proof.
    intros H. induction n as [|n IH]; intros last times s Hl; cbn [timed].
    - exists s, last, times. auto.
    - unfold read_clock. cbn [fst snd]. match goal with |- context [call_once V isem i pars args ?x] => set (s0 := x) end.
      destruct (call_few i pars args s0 H) as (s1 & vs & -> & L).
      match goal with |- context [timed V isem clock n i pars args (Some vs) ?ts ?x] =>
        destruct (IH (Some vs) ts x) as (s2 & l2 & t2 & E & A & B); [intros ? [= <-]; exact L|] end.
      exists s2, l2, t2. split; [exact E|]. split; [exact A|]. intros Hn. destruct (B Hn) as [_ B']. discriminate B'.
  Qed.

  Lemma profile_plugin_few i pars store argv nw nr s :
    inputs V store (p_depends (i_class i)) = Ok argv -> (0 < nw + nr)%nat ->
    (forall key, exists key' vs, isem i (key :: pars :: argv) = Ok (key' :: vs) /\
       (List.length vs < List.length (p_provides (i_class i)))%nat) ->
    snd (profile_plugin V isem clock i pars store nw nr s) = Err IndexError.
  Proof.
    intros Hi Hn H. unfold profile_plugin. rewrite Hi.
    destruct (warmup_few i pars argv H nw None s) as (s1 & l1 & -> & A1 & B1); [intros ? [=]|].
    destruct (timed_few i pars argv H nr l1 [] s1 A1) as (s2 & l2 & t2 & -> & A2 & B2). cbn [snd].
    destruct (H (s_key s)) as (k0 & v0 & _ & L0).
    destruct (p_provides (i_class i)) as [|x xs] eqn:Ep; [cbn in L0; lia|].
    destruct l2 as [vs|].
    - rewrite outputs_few by (apply A2; reflexivity). reflexivity.
    - destruct (B2 eq_refl) as [-> ->]. destruct (B1 eq_refl) as [-> _]. lia.
  Qed.

  (** ** Which component gets which key and parameters *)

  Definition entry_ok f pars batch nw nr fresh (r : list prof) (m : nat) (k : component) : Prop :=
    exists t0 w0 w1 s1, profile_component V isem clock f k pars batch nw nr (fresh m) t0 w0 = (w1, s1, Ok r).

  Lemma profile_components_entries f lname pars batch nw nr fresh : forall cs n tick out w w' n' t' out',
    profile_components V isem clock f lname cs pars batch nw nr fresh n tick out w = (w', (n', t'), Ok out') ->
    NoDup (comp_keys lname cs) -> (forall x, In x (comp_keys lname cs) -> ~ In x (keys out)) ->
    (n <= n')%nat /\
    (forall x, In x (keys out) -> get x out' = get x out) /\
    exists idx : string -> nat,
      (forall x, In x (comp_keys lname cs) -> (n <= idx x < n')%nat) /\
      (forall x y, In x (comp_keys lname cs) -> In y (comp_keys lname cs) -> idx x = idx y -> x = y) /\
      (forall c k, In (c, Some k) cs -> exists r, get (lname ++ "/" ++ c)%string out' = Some r /\
         entry_ok f pars batch nw nr fresh r (idx (lname ++ "/" ++ c)%string) k).
  Proof.
    induction cs as [|[c [k|]] cs IH]; intros n tick out w w' n' t' out' H Hnd Hnew; cbn [profile_components] in H.
    - injection H as _ <- _ <-. split; [lia|]. split; [auto|]. exists (fun _ => 0%nat).
      split; [intros x []|]. split; [intros x y []|intros c k []].
    - destruct (has_worksheet k); [|discriminate H].
      destruct (profile_component V isem clock f k pars batch nw nr (fresh n) tick w) as [[w1 s1] [res|e]] eqn:Ec;
        [|discriminate H].
      cbn [comp_keys flat_map snd fst app] in Hnd, Hnew. fold (comp_keys lname cs) in Hnd, Hnew.
      set (key := (lname ++ "/" ++ c)%string) in *.
      inversion Hnd as [|? ? Hk Hnd']; subst.
      destruct (IH _ _ _ _ _ _ _ _ H Hnd') as (L & Keep & idx & I1 & I2 & I3).
      { intros x Hx Hi. apply keys_set_In in Hi. destruct Hi as [->|Hi]; [contradiction|]. apply (Hnew x); [right; exact Hx|exact Hi]. }
      split; [lia|]. split.
      { intros x Hx. rewrite Keep by (apply keys_set_In; right; exact Hx). apply get_set_neq.
        intros ->. apply (Hnew key); [left; reflexivity|exact Hx]. }
      exists (fun x => if String.eqb x key then n else idx x).
      assert (Hneq : forall x, In x (comp_keys lname cs) -> String.eqb x key = false).
      { intros x Hx. apply String.eqb_neq. intros ->. contradiction. }
      cbn [comp_keys flat_map snd fst app]. fold (comp_keys lname cs). fold key. split; [|split].
      + intros x [<-|Hx]; [rewrite String.eqb_refl; lia|]. rewrite Hneq by exact Hx. specialize (I1 x Hx). lia.
      + intros x y [<-|Hx] [<-|Hy]; [reflexivity| | |].
        * rewrite String.eqb_refl, Hneq by exact Hy. intros E. specialize (I1 y Hy). lia.
        * rewrite String.eqb_refl, Hneq by exact Hx. intros E. specialize (I1 x Hx). lia.
        * rewrite !Hneq by assumption. apply I2; assumption.
      + intros c' k' [E|Hin].
        * injection E as <- <-. fold key. rewrite String.eqb_refl. exists res. split.
          { rewrite Keep by (apply keys_set_In; left; reflexivity). apply get_set_eq. }
          exists tick, w, w1, s1. exact Ec.
        * destruct (I3 c' k' Hin) as (r & G & Er). exists r. split; [exact G|].
          rewrite Hneq; [exact Er|]. unfold comp_keys. apply in_flat_map. exists (c', Some k'). split; [exact Hin|left; reflexivity].
    - destruct (IH _ _ _ _ _ _ _ _ H Hnd Hnew) as (L & Keep & idx & I1 & I2 & I3).
      split; [exact L|]. split; [exact Keep|]. exists idx. split; [exact I1|]. split; [exact I2|].
      intros c' k' [E|Hin]; [discriminate E|]. apply I3, Hin.
  Qed.

  Lemma profile_context_entries f pars batch nw nr fresh : forall ls n tick out w w' n' t' out',
    profile_context V isem clock as_params f ls pars batch nw nr fresh n tick out w = (w', (n', t'), Ok out') ->
    NoDup (all_keys ls) -> (forall x, In x (all_keys ls) -> ~ In x (keys out)) ->
    (n <= n')%nat /\
    (forall x, In x (keys out) -> get x out' = get x out) /\
    exists idx : string -> nat,
      (forall x, In x (all_keys ls) -> (n <= idx x < n')%nat) /\
      (forall x y, In x (all_keys ls) -> In y (all_keys ls) -> idx x = idx y -> x = y) /\
      (forall l al cs c k, In (l, (al, cs)) ls -> In (c, Some k) cs -> exists r, get (l ++ "/" ++ c)%string out' = Some r /\
         entry_ok f (as_params (replace_alias al pars)) batch nw nr fresh r (idx (l ++ "/" ++ c)%string) k).
  Proof.
    induction ls as [|[l [al cs]] ls IH]; intros n tick out w w' n' t' out' H Hnd Hnew; cbn [profile_context] in H.
    - injection H as _ <- _ <-. split; [lia|]. split; [auto|]. exists (fun _ => 0%nat).
      split; [intros x []|]. split; [intros x y []|intros l al cs c k []].
    - destruct (profile_components _ _ _ _ _ _ _ _ _ _ _ _ _ _) as [[w1 [n1 t1]] [out1|e]] eqn:E; [|discriminate H].
      cbn [all_keys flat_map fst snd] in Hnd, Hnew. fold (all_keys ls) in Hnd, Hnew.
      assert (Hnd1 : NoDup (comp_keys l cs)).
      { revert Hnd. generalize (comp_keys l cs). intros a. induction a as [|y a IHa]; intros Ha; [constructor|].
        cbn [app] in Ha. inversion Ha; subst. constructor; [intros Hi; apply H2, in_or_app; left; exact Hi|auto]. }
      assert (Hnd2 : NoDup (all_keys ls)).
      { revert Hnd. generalize (comp_keys l cs). intros a. induction a as [|y a IHa]; intros Ha; [exact Ha|].
        cbn [app] in Ha. inversion Ha; subst. auto. }
      assert (Hdis : forall x, In x (comp_keys l cs) -> ~ In x (all_keys ls)).
      { revert Hnd. generalize (comp_keys l cs). intros a. induction a as [|y a IHa]; intros Ha x Hx; [destruct Hx|].
        cbn [app] in Ha. inversion Ha; subst. destruct Hx as [->|Hx]; [intros Hi; apply H2, in_or_app; right; exact Hi|auto]. }
      destruct (profile_components_entries _ _ _ _ _ _ _ _ _ _ _ _ _ _ _ _ E Hnd1) as (L1 & K1 & idx1 & A1 & A2 & A3).
      { intros x Hx. apply Hnew, in_or_app. left. exact Hx. }
      pose proof (profile_components_keys _ _ _ _ _ _ _ _ _ _ _ _ _ _ _ _ _ _ E) as Ek.
      destruct (IH _ _ _ _ _ _ _ _ H Hnd2) as (L2 & K2 & idx2 & B1 & B2 & B3).
      { intros x Hx Hi. rewrite Ek in Hi. apply add_keys_in in Hi. destruct Hi as [Hi|Hi].
        - apply (Hnew x); [apply in_or_app; right; exact Hx|exact Hi].
        - apply (Hdis x Hi Hx). }
      split; [lia|]. split.
      { intros x Hx. rewrite K2; [apply K1, Hx|]. rewrite Ek. apply add_keys_in. left. exact Hx. }
      exists (fun x => if mem x (comp_keys l cs) then idx1 x else idx2 x).
      cbn [all_keys flat_map fst snd]. fold (all_keys ls).
      assert (M1 : forall x, In x (comp_keys l cs) -> mem x (comp_keys l cs) = true) by (intros x Hx; apply mem_In, Hx).
      assert (M2 : forall x, In x (all_keys ls) -> mem x (comp_keys l cs) = false).
      { intros x Hx. apply mem_false. intros Hi. apply (Hdis x Hi Hx). }
      split; [|split].
      + intros x Hx. apply in_app_or in Hx. destruct Hx as [Hx|Hx];
          [rewrite M1 by exact Hx; specialize (A1 x Hx)|rewrite M2 by exact Hx; specialize (B1 x Hx)]; lia.
      + intros x y Hx Hy. apply in_app_or in Hx, Hy. destruct Hx as [Hx|Hx], Hy as [Hy|Hy].
        * rewrite !M1 by assumption. apply A2; assumption.
        * rewrite M1, M2 by assumption. specialize (A1 x Hx). specialize (B1 y Hy). lia.
        * rewrite M2, M1 by assumption. specialize (A1 y Hy). specialize (B1 x Hx). lia.
        * rewrite !M2 by assumption. apply B2; assumption.
      + intros l' al' cs' c k [Eq|Hin] Hc.
        * injection Eq as <- <- <-. destruct (A3 c k Hc) as (r & G & Er).
          assert (Hk : In (l ++ "/" ++ c)%string (comp_keys l cs)).
          { unfold comp_keys. apply in_flat_map. exists (c, Some k). split; [exact Hc|left; reflexivity]. }
          exists r. rewrite M1 by exact Hk. split; [|exact Er].
          rewrite K2; [exact G|]. rewrite Ek. apply add_keys_in. right. exact Hk.
        * destruct (B3 l' al' cs' c k Hin Hc) as (r & G & Er). exists r. split; [exact G|].
          rewrite M2; [exact Er|]. apply all_keys_in. exists l', al', cs', c, k. auto.
  Qed.

  (** ** Whole simulations *)

  Lemma full_runs_ok time_it k pars batch : forall n key tick times key' tick' times',
    full_runs V isem clock n time_it k pars batch key tick times = Ok (key', tick', times') ->
    Sims isem k pars batch n key key' /\
    times' = times ++ (if time_it then run_times clock tick n else []) /\
    tick' = (if time_it then tick + 2 * n else tick)%nat.
  Proof.
    induction n as [|n IH]; intros key tick times key' tick' times' H; cbn [full_runs] in H.
    - injection H as <- <- <-. split; [constructor|]. destruct time_it; cbn; rewrite ?app_nil_r, ?Nat.add_0_r; auto.
    - destruct (simulate V isem k key batch pars) as [[k1 outs]|e] eqn:E; [|discriminate H]. destruct time_it.
      + apply IH in H. destruct H as (S1 & -> & ->). split; [econstructor; eauto|]. cbn [run_times].
        rewrite <- app_assoc. split; [reflexivity|lia].
      + apply IH in H. destruct H as (S1 & -> & ->). split; [econstructor; eauto|]. auto.
  Qed.

  Lemma sims_app k pars batch n1 n2 a b c : Sims isem k pars batch n1 a b -> Sims isem k pars batch n2 b c ->
    Sims isem k pars batch (n1 + n2) a c.
  Proof. induction 1; intros; [assumption|]. cbn. econstructor; eauto. Qed.

  Definition full_ok pars batch nw nr fresh (r : fl * fl) (m : nat) (k : component) : Prop :=
    exists t0 key', Sims isem k pars batch (nw + nr) (fresh m) key' /\
      r = (mean_time (run_times clock t0 nr), std_time (run_times clock t0 nr)).

  Lemma full_components_entries lname pars batch nw nr fresh : forall cs n tick out n' t' out',
    full_components V isem clock lname cs pars batch nw nr fresh n tick out = Ok (n', t', out') ->
    NoDup (comp_keys lname cs) -> (forall x, In x (comp_keys lname cs) -> ~ In x (keys out)) ->
    (n <= n')%nat /\
    (forall x, In x (keys out) -> get x out' = get x out) /\
    exists idx : string -> nat,
      (forall x, In x (comp_keys lname cs) -> (n <= idx x < n')%nat) /\
      (forall x y, In x (comp_keys lname cs) -> In y (comp_keys lname cs) -> idx x = idx y -> x = y) /\
      (forall c k, In (c, Some k) cs -> exists r, get (lname ++ "/" ++ c)%string out' = Some r /\
         full_ok pars batch nw nr fresh r (idx (lname ++ "/" ++ c)%string) k).
  Proof.
    induction cs as [|[c [k|]] cs IH]; intros n tick out n' t' out' H Hnd Hnew; cbn [full_components] in H.
    - injection H as <- _ <-. split; [lia|]. split; [auto|]. exists (fun _ => 0%nat).
      split; [intros x []|]. split; [intros x y []|intros c k []].
    - destruct (k_simulate k); [|discriminate H].
      destruct (full_runs _ _ _ nw false _ _ _ _ _ _) as [[[key1 t1] tm]|e] eqn:E1; [|discriminate H].
      destruct (full_runs _ _ _ nr true _ _ _ _ _ _) as [[[key2 t2] tm2]|e] eqn:E2; [|discriminate H].
      apply full_runs_ok in E1, E2. destruct E1 as (S1 & _ & ->), E2 as (S2 & -> & ->). cbn [app] in H.
      cbn [comp_keys flat_map snd fst app] in Hnd, Hnew. fold (comp_keys lname cs) in Hnd, Hnew.
      set (key := (lname ++ "/" ++ c)%string) in *.
      inversion Hnd as [|? ? Hk Hnd']; subst.
      destruct (IH _ _ _ _ _ _ H Hnd') as (L & Keep & idx & I1 & I2 & I3).
      { intros x Hx Hi. apply keys_set_In in Hi. destruct Hi as [->|Hi]; [contradiction|]. apply (Hnew x); [right; exact Hx|exact Hi]. }
      split; [lia|]. split.
      { intros x Hx. rewrite Keep by (apply keys_set_In; right; exact Hx). apply get_set_neq.
        intros ->. apply (Hnew key); [left; reflexivity|exact Hx]. }
      exists (fun x => if String.eqb x key then n else idx x).
      assert (Hneq : forall x, In x (comp_keys lname cs) -> String.eqb x key = false).
      { intros x Hx. apply String.eqb_neq. intros ->. contradiction. }
      cbn [comp_keys flat_map snd fst app]. fold (comp_keys lname cs). fold key. split; [|split].
      + intros x [<-|Hx]; [rewrite String.eqb_refl; lia|]. rewrite Hneq by exact Hx. specialize (I1 x Hx). lia.
      + intros x y [<-|Hx] [<-|Hy]; [reflexivity| | |].
        * rewrite String.eqb_refl, Hneq by exact Hy. intros E. specialize (I1 y Hy). lia.
        * rewrite String.eqb_refl, Hneq by exact Hx. intros E. specialize (I1 x Hx). lia.
        * rewrite !Hneq by assumption. apply I2; assumption.
      + intros c' k' [E|Hin].
        * injection E as <- <-. fold key. rewrite String.eqb_refl. eexists. split.
          { rewrite Keep by (apply keys_set_In; left; reflexivity). apply get_set_eq. }
          exists tick, key2. split; [eapply sims_app; eauto|reflexivity].
        * destruct (I3 c' k' Hin) as (r & G & Er). exists r. split; [exact G|].
          rewrite Hneq; [exact Er|]. unfold comp_keys. apply in_flat_map. exists (c', Some k'). split; [exact Hin|left; reflexivity].
    - destruct (IH _ _ _ _ _ _ H Hnd Hnew) as (L & Keep & idx & I1 & I2 & I3).
      split; [exact L|]. split; [exact Keep|]. exists idx. split; [exact I1|]. split; [exact I2|].
      intros c' k' [E|Hin]; [discriminate E|]. apply I3, Hin.
  Qed.

  Lemma profile_full_entries pars batch nw nr fresh : forall ls n tick out n' t' out',
    profile_full V isem clock as_params ls pars batch nw nr fresh n tick out = Ok (n', t', out') ->
    NoDup (all_keys ls) -> (forall x, In x (all_keys ls) -> ~ In x (keys out)) ->
    (n <= n')%nat /\
    (forall x, In x (keys out) -> get x out' = get x out) /\
    exists idx : string -> nat,
      (forall x, In x (all_keys ls) -> (n <= idx x < n')%nat) /\
      (forall x y, In x (all_keys ls) -> In y (all_keys ls) -> idx x = idx y -> x = y) /\
      (forall l al cs c k, In (l, (al, cs)) ls -> In (c, Some k) cs -> exists r, get (l ++ "/" ++ c)%string out' = Some r /\
         full_ok (as_params (replace_alias al pars)) batch nw nr fresh r (idx (l ++ "/" ++ c)%string) k).
  Proof.
    induction ls as [|[l [al cs]] ls IH]; intros n tick out n' t' out' H Hnd Hnew; cbn [profile_full] in H.
    - injection H as <- _ <-. split; [lia|]. split; [auto|]. exists (fun _ => 0%nat).
      split; [intros x []|]. split; [intros x y []|intros l al cs c k []].
    - destruct (full_components _ _ _ _ _ _ _ _ _ _ _ _) as [[[n1 t1] out1]|e] eqn:E; [|discriminate H].
      cbn [all_keys flat_map fst snd] in Hnd, Hnew. fold (all_keys ls) in Hnd, Hnew.
      assert (Hnd1 : NoDup (comp_keys l cs)).
      { revert Hnd. generalize (comp_keys l cs). intros a. induction a as [|y a IHa]; intros Ha; [constructor|].
        cbn [app] in Ha. inversion Ha; subst. constructor; [intros Hi; apply H2, in_or_app; left; exact Hi|auto]. }
      assert (Hnd2 : NoDup (all_keys ls)).
      { revert Hnd. generalize (comp_keys l cs). intros a. induction a as [|y a IHa]; intros Ha; [exact Ha|].
        cbn [app] in Ha. inversion Ha; subst. auto. }
      assert (Hdis : forall x, In x (comp_keys l cs) -> ~ In x (all_keys ls)).
      { revert Hnd. generalize (comp_keys l cs). intros a. induction a as [|y a IHa]; intros Ha x Hx; [destruct Hx|].
        cbn [app] in Ha. inversion Ha; subst. destruct Hx as [->|Hx]; [intros Hi; apply H2, in_or_app; right; exact Hi|auto]. }
      destruct (full_components_entries _ _ _ _ _ _ _ _ _ _ _ _ _ E Hnd1) as (L1 & K1 & idx1 & A1 & A2 & A3).
      { intros x Hx. apply Hnew, in_or_app. left. exact Hx. }
      pose proof (full_components_keys _ _ _ _ _ _ _ _ _ _ _ _ _ _ _ _ E) as Ek.
      destruct (IH _ _ _ _ _ _ H Hnd2) as (L2 & K2 & idx2 & B1 & B2 & B3).
      { intros x Hx Hi. rewrite Ek in Hi. apply add_keys_in in Hi. destruct Hi as [Hi|Hi].
        - apply (Hnew x); [apply in_or_app; right; exact Hx|exact Hi].
        - apply (Hdis x Hi Hx). }
      split; [lia|]. split.
      { intros x Hx. rewrite K2; [apply K1, Hx|]. rewrite Ek. apply add_keys_in. left. exact Hx. }
      exists (fun x => if mem x (comp_keys l cs) then idx1 x else idx2 x).
      cbn [all_keys flat_map fst snd]. fold (all_keys ls).
      assert (M1 : forall x, In x (comp_keys l cs) -> mem x (comp_keys l cs) = true) by (intros x Hx; apply mem_In, Hx).
      assert (M2 : forall x, In x (all_keys ls) -> mem x (comp_keys l cs) = false).
      { intros x Hx. apply mem_false. intros Hi. apply (Hdis x Hi Hx). }
      split; [|split].
      + intros x Hx. apply in_app_or in Hx. destruct Hx as [Hx|Hx];
          [rewrite M1 by exact Hx; specialize (A1 x Hx)|rewrite M2 by exact Hx; specialize (B1 x Hx)]; lia.
      + intros x y Hx Hy. apply in_app_or in Hx, Hy. destruct Hx as [Hx|Hx], Hy as [Hy|Hy].
        * rewrite !M1 by assumption. apply A2; assumption.
        * rewrite M1, M2 by assumption. specialize (A1 x Hx). specialize (B1 y Hy). lia.
        * rewrite M2, M1 by assumption. specialize (A1 y Hy). specialize (B1 x Hx). lia.
        * rewrite !M2 by assumption. apply B2; assumption.
      + intros l' al' cs' c k [Eq|Hin] Hc.
        * injection Eq as <- <- <-. destruct (A3 c k Hc) as (r & G & Er).
          assert (Hk : In (l ++ "/" ++ c)%string (comp_keys l cs)).
          { unfold comp_keys. apply in_flat_map. exists (c, Some k). split; [exact Hc|left; reflexivity]. }
          exists r. rewrite M1 by exact Hk. split; [|exact Er].
          rewrite K2; [exact G|]. rewrite Ek. apply add_keys_in. right. exact Hk.
        * destruct (B3 l' al' cs' c k Hin Hc) as (r & G & Er). exists r. split; [exact G|].
          rewrite M2; [exact Er|]. apply all_keys_in. exists l', al', cs', c, k. auto.
  Qed.
End Ctx.

(** Names of likelihoods without slashes give different keys to different components. *)
Lemma slash_inj : forall l l' c c', no_slash l -> no_slash l' ->
  (l ++ "/" ++ c)%string = (l' ++ "/" ++ c')%string -> l = l' /\ c = c'.
Proof.
  induction l as [|a l IH]; intros [|b l'] c c' H H' E; cbn in E.
  - injection E as ->. auto.
  - exfalso. injection E as <- E. apply (H' "" l'). reflexivity.
  - exfalso. injection E as -> E. apply (H "" l). reflexivity.
  - injection E as <- E. destruct (IH l' c c') as [-> ->]; [| |exact E|auto].
    + intros x y ->. apply (H (String a x) y). reflexivity.
    + intros x y ->. apply (H' (String a x) y). reflexivity.
Qed.

Lemma all_keys_NoDup (ls : dict plikelihood) :
  NoDup (keys ls) -> (forall l al cs, In (l, (al, cs)) ls -> no_slash l /\ NoDup (keys cs)) -> NoDup (all_keys ls).
Proof.
  induction ls as [|[l [al cs]] ls IH]; intros Hnd H; cbn [all_keys flat_map fst snd]; [constructor|].
  fold (all_keys ls). cbn [keys map fst] in Hnd. inversion Hnd as [|? ? Hl Hnd']; subst.
  destruct (H l al cs) as [Hs Hc]; [left; reflexivity|].
  assert (H1 : NoDup (comp_keys l cs)).
  { clear -Hc Hs. induction cs as [|[c [k|]] cs IHc]; cbn [comp_keys flat_map fst snd app]; [constructor| |];
      fold (comp_keys l cs); cbn [keys map fst] in Hc; inversion Hc as [|? ? Hi Hc']; subst; [|auto].
    constructor; [|auto]. intros Hin. apply in_flat_map in Hin. destruct Hin as ([c' [k'|]] & Hin & Hx); cbn [fst snd] in Hx; [|destruct Hx].
    destruct Hx as [Hx|[]]. apply slash_inj in Hx; [|exact Hs|exact Hs]. destruct Hx as [_ ->].
    apply Hi. apply in_map_iff. exists (c, Some k'). auto. }
  assert (H2 : NoDup (all_keys ls)) by (apply IH; [exact Hnd'|intros l' al' cs' Hin; apply (H l' al' cs'); right; exact Hin]).
  assert (H3 : forall x, In x (comp_keys l cs) -> ~ In x (all_keys ls)).
  { intros x Hx Hy. apply in_flat_map in Hx. destruct Hx as ([c [k|]] & _ & Hx); cbn [fst snd] in Hx; [|destruct Hx].
    destruct Hx as [<-|[]]. apply all_keys_in in Hy. destruct Hy as (l' & al' & cs' & c' & k' & Hin & _ & E).
    destruct (H l' al' cs') as [Hs' _]; [right; exact Hin|]. apply slash_inj in E; [|exact Hs|exact Hs']. destruct E as [-> _].
    apply Hl. apply in_map_iff. exists (l', (al', cs')). auto. }
  revert H1 H2 H3. generalize (comp_keys l cs), (all_keys ls). clear. intros a b. induction a as [|x a IH]; intros H1 H2 H3; [exact H2|].
  cbn [app]. inversion H1; subst. constructor.
  - rewrite in_app_iff. intros [Hi|Hi]; [contradiction|]. apply (H3 x); [left; reflexivity|exact Hi].
  - apply IH; [assumption|assumption|]. intros y Hy. apply H3. right. exact Hy.
Qed.
