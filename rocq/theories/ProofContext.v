(** Proofs about Context: posterior, copies, needed parameters, reading the chain. *)
From Coq Require Import Reals Lra.
From Verif Require Import Base BaseFacts ModelFloat ModelParameter ModelLikelihood ModelContext
  SpecParameter SpecLikelihood SpecContext ProofFloat ProofLikelihood ProofLikelihood2 ProofParameter ProofParameter2.
Local Open Scope list_scope.

(* ------------------------------------------------------------------ *)
(** * Posterior *)

Section Posterior.
  Variable K : Type.
  Implicit Types (ls : dict (llh_fun K)) (k : K).

  Lemma llh_loop_chain batch p ls k cs xs : llh_chain batch p ls k cs xs ->
    forall acc, llh_loop K ls k batch p acc = (cs, Ok (fadd acc (fsum xs))).
  Proof.
    induction 1 as [k|n f rest k k' x cs xs E H IH]; intros acc.
    - cbn. rewrite fadd_0_r. reflexivity.
    - cbn [llh_loop]. rewrite E, IH, fsum_cons, fadd_assoc. reflexivity.
  Qed.

  Lemma llh_loop_inv batch p ls : forall k acc cs r, llh_loop K ls k batch p acc = (cs, r) ->
    (forall c, In c cs -> c_params c = p /\ c_batch c = batch) /\
    match r with
    | Ok y => exists xs, llh_chain batch p ls k cs xs /\ y = fadd acc (fsum xs)
    | Err e => exists n f k', In (n, f) ls /\ f k' batch p = Err e
    end.
  Proof.
    induction ls as [|[n f] ls IH]; intros k acc cs r H; cbn [llh_loop] in H.
    - injection H as <- <-. split; [intros c []|]. exists []. split; [constructor|]. cbn. rewrite fadd_0_r. reflexivity.
    - destruct (f k batch p) as [[k' x]|e] eqn:E.
      + destruct (llh_loop K ls k' batch p (fadd acc x)) as [cs' r'] eqn:El. injection H as <- <-.
        destruct (IH _ _ _ _ El) as [I1 I2]. split.
        * intros c [<-|Hc]; [split; reflexivity|auto].
        * destruct r' as [y|e].
          -- destruct I2 as (xs & Hc & ->). exists (x :: xs). split; [econstructor; eassumption|].
             rewrite fsum_cons, fadd_assoc. reflexivity.
          -- destruct I2 as (n' & f' & k'' & Hi & He). exists n', f', k''. split; [right; exact Hi|exact He].
      + injection H as <- <-. split; [intros c [<-|[]]; split; reflexivity|].
        exists n, f, k. split; [left; reflexivity|exact E].
  Qed.

  Lemma once_chain batch p ls prior k cs xs : llh_chain batch p ls k cs xs ->
    posterior_once K ls prior k batch p = (cs, Ok (fadd (fsum xs) prior)).
  Proof. intros H. unfold posterior_once. rewrite (llh_loop_chain _ _ _ _ _ _ H), fadd_0_l. reflexivity. Qed.

  Lemma once_inv batch p ls prior k cs r : posterior_once K ls prior k batch p = (cs, r) ->
    (forall c, In c cs -> c_params c = p /\ c_batch c = batch) /\
    match r with
    | Ok y => exists xs, llh_chain batch p ls k cs xs /\ y = fadd (fsum xs) prior
    | Err e => exists n f k', In (n, f) ls /\ f k' batch p = Err e
    end.
  Proof.
    unfold posterior_once. destruct (llh_loop K ls k batch p (Fin 0)) as [cs' r'] eqn:E.
    intros H. injection H as <- <-. destruct (llh_loop_inv _ _ _ _ _ _ _ E) as [I1 I2]. split; [exact I1|].
    destruct r' as [y|e]; cbn; [|exact I2]. destruct I2 as (xs & Hc & ->). exists xs. rewrite fadd_0_l. auto.
  Qed.

  Lemma repeat_inv batch p ls prior fresh times : forall i cs r,
    repeat_once K ls prior fresh batch p times i = (cs, r) ->
    (forall c, In c cs -> c_params c = p /\ c_batch c = batch) /\
    match r with
    | Ok ys => exists xss, llh_repeats batch p ls fresh times i cs xss /\
                 ys = map (fun xs => fadd (fsum xs) prior) xss
    | Err e => exists n f k', In (n, f) ls /\ f k' batch p = Err e
    end.
  Proof.
    induction times as [|t IH]; intros i cs r H; cbn [repeat_once] in H.
    - injection H as <- <-. split; [intros c []|]. exists []. split; [constructor|reflexivity].
    - destruct (posterior_once K ls prior (fresh i) batch p) as [cs1 r1] eqn:E1.
      destruct (once_inv _ _ _ _ _ _ _ E1) as [I1 I2].
      destruct r1 as [x|e].
      + destruct (repeat_once K ls prior fresh batch p t (S i)) as [cs2 r2] eqn:E2.
        destruct (IH _ _ _ E2) as [J1 J2]. injection H as <- <-. split.
        * intros c Hc. apply in_app_or in Hc. destruct Hc; auto.
        * destruct r2 as [ys|e]; cbn; [|exact J2].
          destruct I2 as (xs & Hx & ->). destruct J2 as (xss & Hxs & ->).
          exists (xs :: xss). split; [constructor; assumption|reflexivity].
      + injection H as <- <-. split; [exact I1|exact I2].
  Qed.

  Lemma repeat_chain batch p ls prior fresh times i cs xss : llh_repeats batch p ls fresh times i cs xss ->
    repeat_once K ls prior fresh batch p times i = (cs, Ok (map (fun xs => fadd (fsum xs) prior) xss)).
  Proof.
    induction 1 as [i|t i cs xs cs' xss H1 H2 IH]; [reflexivity|].
    cbn [repeat_once]. rewrite (once_chain _ _ _ _ _ _ _ H1), IH. reflexivity.
  Qed.

  Lemma repeats_length batch p ls fresh times i cs xss :
    llh_repeats batch p ls fresh times i cs xss -> List.length xss = times.
  Proof. induction 1; cbn; congruence. Qed.

  Lemma fsum_add_const (l : list fl) c : fsum (map (fun x => fadd x (Fin c)) l)
    = fadd (fsum l) (Fin (INR (List.length l) * c)).
  Proof.
    induction l as [|x l IH].
    - cbn. unfold fadd. f_equal. lra.
    - cbn [map]. rewrite !fsum_cons, IH. cbn [List.length]. rewrite S_INR.
      rewrite !fadd_assoc. f_equal. rewrite <- !fadd_assoc, (fadd_comm (Fin c)), !fadd_assoc.
      f_equal. rewrite fadd_Fin. f_equal. lra.
  Qed.

  Lemma fmean_add_const (l : list fl) c : l <> [] ->
    fmean (map (fun x => fadd x (Fin c)) l) = fadd (fmean l) (Fin c).
  Proof.
    intros Hl. unfold fmean. rewrite fsum_add_const, map_length.
    assert (Hn : (0 < INR (List.length l))%R) by (apply lt_0_INR; destruct l; [congruence|cbn; lia]).
    set (n := INR (List.length l)) in *. unfold fdiv. rewrite finv_Fin by lra.
    assert (Hi : (0 < / n)%R) by (apply Rinv_0_lt_compat; exact Hn).
    destruct (fsum l) as [s| | |].
    - rewrite fadd_Fin, !fmul_Fin, fadd_Fin. f_equal. field. lra.
    - change (fadd PInf (Fin (n * c))) with PInf. cbn. unfold inf_times.
      destruct (total_order_T (/ n) 0) as [[H|H]|H]; try lra. reflexivity.
    - change (fadd NInf (Fin (n * c))) with NInf. cbn. unfold inf_times.
      destruct (total_order_T (/ n) 0) as [[H|H]|H]; try lra. reflexivity.
    - reflexivity.
  Qed.

  Lemma proper_add a b : proper_llh a -> proper_llh b -> proper_llh (fadd a b).
  Proof. intros [->|(x & ->)] [->|(y & ->)]; unfold fadd, proper_llh; eauto. Qed.

  Lemma proper_fsum l : (forall x, In x l -> proper_llh x) -> proper_llh (fsum l).
  Proof.
    induction l as [|x l IH]; intros H; [right; eexists; reflexivity|].
    rewrite fsum_cons. apply proper_add; [apply H; left; reflexivity|]. apply IH. intros y Hy. apply H. right. exact Hy.
  Qed.

  Lemma proper_fmean l : l <> [] -> (forall x, In x l -> proper_llh x) -> proper_llh (fmean l).
  Proof.
    intros Hl H. unfold fmean, fdiv.
    assert (Hn : (0 < INR (List.length l))%R) by (apply lt_0_INR; destruct l; [congruence|cbn; lia]).
    rewrite finv_Fin by lra. set (n := INR (List.length l)) in *.
    assert (Hi : (0 < / n)%R) by (apply Rinv_0_lt_compat; exact Hn).
    destruct (proper_fsum l H) as [->|(s & ->)]; [|right; eexists; reflexivity].
    left. cbn. unfold inf_times. destruct (total_order_T (/ n) 0) as [[?|?]|?]; try lra. reflexivity.
  Qed.

  Lemma chain_values batch p ls k cs xs (P : fl -> Prop) : llh_chain batch p ls k cs xs ->
    (forall n f k k' x, In (n, f) ls -> f k batch p = Ok (k', x) -> P x) -> forall x, In x xs -> P x.
  Proof.
    induction 1 as [k|n f rest k k' x cs xs E H IH]; intros HP y Hy; [destruct Hy|].
    destruct Hy as [<-|Hy].
    - eapply HP; [left; reflexivity|exact E].
    - apply IH; [|exact Hy]. intros. eapply HP; [right|]; eassumption.
  Qed.

  Lemma repeats_values batch p ls fresh times i cs xss (P : fl -> Prop) :
    llh_repeats batch p ls fresh times i cs xss ->
    (forall n f k k' x, In (n, f) ls -> f k batch p = Ok (k', x) -> P x) ->
    forall xs x, In xs xss -> In x xs -> P x.
  Proof.
    induction 1 as [i|t i cs xs cs' xss H1 H2 IH]; intros HP ys y Hys Hy; [destruct Hys|].
    destruct Hys as [<-|Hys]; [eapply chain_values; eassumption|]. eapply IH; eassumption.
  Qed.

  (** Everything about log_posterior once the parameters are set. *)
  Lemma posterior_frame sigmas ls fresh st pars batch times st' cs r :
    log_posterior K sigmas ls fresh st pars batch times = (st', cs, r) ->
    p_config st' = p_config st /\ p_fit st' = p_fit st /\ p_fixed st' = p_fixed st /\
    keys (p_values st') = keys (p_values st) /\
    (forall n, ~ In n (keys pars) -> get n (p_values st') = get n (p_values st)) /\
    (forall c, In c cs -> c_params c = p_values st' /\ c_batch c = batch).
  Proof.
    unfold log_posterior. destruct (set_outcome st (KDict pars) VNone)
      as [(l & xs & Ha & Hk & E)|((e & E) & _)]; rewrite E.
    - inversion Ha; subst.
      set (st1 := with_values st (assign (keys pars) (map snd pars) (p_values st))) in *.
      assert (F : p_config st1 = p_config st /\ p_fit st1 = p_fit st /\ p_fixed st1 = p_fixed st /\
        keys (p_values st1) = keys (p_values st) /\
        (forall n, ~ In n (keys pars) -> get n (p_values st1) = get n (p_values st))).
      { repeat split.
        - apply assign_keys, Hk.
        - intros n Hn. cbn. rewrite assign_get, last_value_None by exact Hn. reflexivity. }
      destruct (log_prior sigmas st1) as [prior|e].
      + destruct (negb (is_fin prior)).
        * intros H. injection H as <- <- <-. destruct F as (A & B & C & D & G). repeat split; auto; destruct H.
        * destruct (Nat.ltb 1 times).
          -- destruct (repeat_once K ls prior fresh batch (p_values st1) times 0) as [cs1 r1] eqn:E1.
             intros H. injection H as <- <- <-.
             destruct (repeat_inv _ _ _ _ _ _ _ _ _ E1) as [I _].
             destruct F as (A & B & C & D & G). repeat split; auto; intros; apply I; assumption.
          -- destruct (posterior_once K ls prior (fresh 0) batch (p_values st1)) as [cs1 r1] eqn:E1.
             intros H. injection H as <- <- <-.
             destruct (once_inv _ _ _ _ _ _ _ E1) as [I _].
             destruct F as (A & B & C & D & G). repeat split; auto; intros; apply I; assumption.
      + intros H. injection H as <- <- <-. destruct F as (A & B & C & D & G). repeat split; auto; destruct H.
    - intros H. injection H as <- <- <-. repeat split; destruct H.
  Qed.

  Lemma posterior_unknown sigmas ls fresh st pars batch times n :
    In n (keys pars) -> ~ In n (keys (p_values st)) ->
    log_posterior K sigmas ls fresh st pars batch times = (st, [], Err AssertionError).
  Proof.
    intros Hn Hx. unfold log_posterior, set_parameter, check_exist.
    assert (E : forallb (fun n => has n (p_values st)) (keys pars) = false).
    { apply Bool.not_true_is_false. intros H. apply Hx. eapply forallb_has; eassumption. }
    rewrite E. reflexivity.
  Qed.

  (** The state after setting the parameters. *)
  Lemma posterior_state st pars : (forall n, In n (keys pars) -> In n (keys (p_values st))) ->
    set_parameter st (KDict pars) VNone
    = (with_values st (assign (keys pars) (map snd pars) (p_values st)), Ok tt).
  Proof. intros H. apply set_valid; [constructor|exact H]. Qed.
End Posterior.

(* ------------------------------------------------------------------ *)
(** * Copied parameters *)

Lemma copy_loop_NoDup {V} copies : forall (cfg cfg' : dict V), copy_loop copies cfg = Ok cfg' ->
  NoDup (keys cfg) -> NoDup (keys cfg').
Proof.
  induction copies as [|[k v] copies IH]; intros cfg cfg' H Hn; cbn [copy_loop] in H.
  - injection H as <-. exact Hn.
  - destruct (get v cfg) as [x|]; [|discriminate]. cbn in H. eapply IH; [exact H|]. apply NoDup_set, Hn.
Qed.

Lemma copy_loop_spec {V} copies : forall (cfg cfg' : dict V), copy_loop copies cfg = Ok cfg' ->
  NoDup (map fst copies) -> (forall n, In n (map fst copies) -> ~ In n (map snd copies)) ->
  (forall k v, In (k, v) copies -> get k cfg' = get v cfg) /\
  (forall n, ~ In n (map fst copies) -> get n cfg' = get n cfg).
Proof.
  induction copies as [|[k v] copies IH]; intros cfg cfg' H Hn Hs; cbn [copy_loop] in H.
  - injection H as <-. split; [intros k v []|reflexivity].
  - destruct (get v cfg) as [x|] eqn:Ev; [|discriminate]. cbn in H.
    cbn [map fst] in Hn. inversion Hn as [|? ? Hk Hn']; subst.
    destruct (IH _ _ H Hn') as [A B].
    { intros n Hi Hj. apply (Hs n); [right; exact Hi|right; exact Hj]. }
    assert (Hkv : forall m, In m (map snd ((k, v) :: copies)) -> get m (set k x cfg) = get m cfg).
    { intros m Hm. apply get_set_neq. intros ->. apply (Hs k); [left; reflexivity|exact Hm]. }
    split.
    + intros k' v' [E|Hi].
      * injection E as <- <-. rewrite B by exact Hk. rewrite get_set_eq. symmetry. exact Ev.
      * rewrite (A k' v' Hi). apply Hkv. right. change v' with (snd (k', v')). apply in_map, Hi.
    + intros n Hi. rewrite B by (intros Hj; apply Hi; right; exact Hj).
      apply get_set_neq. intros ->. apply Hi. left. reflexivity.
Qed.

Lemma copy_loop_err {V} copies : forall (cfg : dict V),
  (forall n, In n (map fst copies) -> ~ In n (map snd copies)) ->
  (copy_loop copies cfg = Err KeyError <-> exists v, In v (map snd copies) /\ ~ In v (keys cfg)) /\
  (forall e, copy_loop copies cfg = Err e -> e = KeyError).
Proof.
  induction copies as [|[k v] copies IH]; intros cfg Hs; cbn [copy_loop].
  - split; [|discriminate]. split; [discriminate|]. intros (v & [] & _).
  - destruct (get v cfg) as [x|] eqn:Ev; cbn [key bind].
    + destruct (IH (set k x cfg)) as [A B].
      { intros n Hi Hj. apply (Hs n); [right; exact Hi|right; exact Hj]. }
      split; [|exact B]. rewrite A. split.
      * intros (w & Hw & Hx). exists w. split; [right; exact Hw|]. intros Hk. apply Hx, keys_set_In. auto.
      * intros (w & [Hw|Hw] & Hx); [cbn in Hw; subst w; exfalso; apply Hx, get_In_keys; eauto|].
        exists w. split; [exact Hw|]. intros Hk. apply keys_set_In in Hk. destruct Hk as [->|Hk]; [|auto].
        apply (Hs k); [left; reflexivity|right; exact Hw].
    + split; [|intros e H; injection H as <-; reflexivity]. split; [|reflexivity]. intros _.
      exists v. split; [left; reflexivity|]. apply get_None_keys, Ev.
Qed.

Lemma drop_loop_spec {V} from rates : forall (cfg : dict V), NoDup (keys cfg) ->
  forall n, get n (drop_loop from rates cfg) = if mem n from && negb (mem n rates) then None else get n cfg.
Proof.
  induction from as [|p from IH]; intros cfg Hn n; cbn [drop_loop].
  - reflexivity.
  - cbn [mem]. destruct (mem p rates) eqn:Er; cbn [negb andb].
    + rewrite IH by exact Hn. destruct (String.eqb n p) eqn:E; [|reflexivity].
      apply eqb_true in E. subst n. rewrite Er. destruct (mem p from); reflexivity.
    + destruct (has p cfg) eqn:Eh.
      * rewrite IH by (apply NoDup_del, Hn). destruct (String.eqb n p) eqn:E.
        -- apply eqb_true in E. subst n. rewrite Er, get_del_eq by exact Hn. cbn. destruct (mem p from); reflexivity.
        -- rewrite get_del_neq by (apply eqb_false, E). reflexivity.
      * rewrite IH by exact Hn. destruct (String.eqb n p) eqn:E; [|reflexivity].
        apply eqb_true in E. subst n. rewrite Er. apply has_false in Eh. rewrite Eh. destruct (mem p from); reflexivity.
Qed.

Lemma in_rates ls n : In n (flat_map (fun nl : string * linstr => map (fun c => (c ++ "_rate")%string) (i_components (snd nl))) ls)
  <-> is_rate ls n.
Proof.
  rewrite in_flat_map. unfold is_rate. split.
  - intros (nl & Hi & Hn). apply in_map_iff in Hn. destruct Hn as (c & <- & Hc). exists nl, c. auto.
  - intros (nl & c & Hi & Hc & ->). exists nl. split; [exact Hi|]. apply in_map_iff. exists c. auto.
Qed.

Section Copies.
  Context {V : Type}.
  Variables (ls : dict linstr) (cfg : dict V).
  Let copies := all_copies ls.
  Hypothesis Hcfg : NoDup (keys cfg).
  Hypothesis Htargets : NoDup (map fst copies).
  Hypothesis Hsep : forall n, In n (map fst copies) -> ~ In n (map snd copies).

  Lemma update_config_ok cfg' needed : update_parameter_config ls cfg = Ok (cfg', needed) ->
    (forall k v, In (k, v) copies -> exists s, get v cfg = Some s /\ get k cfg' = Some s) /\
    (forall v, In v (map snd copies) -> ~ is_rate ls v -> get v cfg' = None) /\
    (forall v, In v (map snd copies) -> is_rate ls v -> get v cfg' = get v cfg) /\
    (forall n, ~ In n (map fst copies) -> ~ In n (map snd copies) -> get n cfg' = get n cfg) /\
    (forall n, In n needed <-> In n (map fst copies)).
  Proof.
    unfold update_parameter_config. fold (all_copies ls). fold copies.
    destruct (copy_loop copies cfg) as [cfg1|e] eqn:E; [|discriminate]. cbn [bind].
    intros H. injection H as <- <-.
    destruct (copy_loop_spec _ _ _ E Htargets Hsep) as [A B].
    pose proof (copy_loop_NoDup _ _ _ E Hcfg) as Hn1.
    set (rates := flat_map _ ls).
    assert (Hrate : forall n, mem n rates = true <-> is_rate ls n) by (intros n; rewrite mem_In; apply in_rates).
    assert (Hget : forall n, get n (drop_loop (map snd copies) rates cfg1)
              = if mem n (map snd copies) && negb (mem n rates) then None else get n cfg1)
      by (intros n; apply drop_loop_spec, Hn1).
    split; [|split; [|split; [|split]]].
    - intros k v Hi. rewrite Hget.
      assert (Hk : In k (map fst copies)) by (change k with (fst (k, v)); apply in_map, Hi).
      assert (Hk' : mem k (map snd copies) = false) by (apply mem_false; auto). rewrite Hk'. cbn [andb].
      rewrite (A k v Hi).
      assert (Hv : In v (keys cfg)).
      { destruct (In_dec_str v (keys cfg)) as [?|Hx]; [assumption|]. exfalso.
        assert (copy_loop copies cfg = Err KeyError).
        { apply (copy_loop_err copies cfg Hsep). exists v. split; [|exact Hx]. change v with (snd (k, v)). apply in_map, Hi. }
        congruence. }
      apply get_In_keys in Hv. destruct Hv as (s & Es). exists s. auto.
    - intros v Hv Hr. rewrite Hget. apply mem_In in Hv. rewrite Hv.
      destruct (mem v rates) eqn:Er; [exfalso; apply Hr, Hrate, Er|reflexivity].
    - intros v Hv Hr. rewrite Hget. apply Hrate in Hr. rewrite Hr, andb_false_r.
      apply B. intros Hf. apply (Hsep v Hf Hv).
    - intros n Hf Hs. rewrite Hget. apply mem_false in Hs. rewrite Hs. cbn. apply B, Hf.
    - intros n. rewrite union_In. cbn. tauto.
  Qed.

  Lemma update_config_err : (exists v, In v (map snd copies) /\ ~ In v (keys cfg)) <->
    update_parameter_config ls cfg = Err KeyError.
  Proof.
    unfold update_parameter_config. fold (all_copies ls). fold copies.
    destruct (copy_loop_err copies cfg Hsep) as [A B]. rewrite <- A.
    destruct (copy_loop copies cfg) as [c|e] eqn:E; cbn [bind].
    - split; intros H; discriminate.
    - split; intros H; injection H as ->; reflexivity.
  Qed.

  Lemma update_config_total : (forall v, In v (map snd copies) -> In v (keys cfg)) ->
    exists cfg' needed, update_parameter_config ls cfg = Ok (cfg', needed).
  Proof.
    intros H. unfold update_parameter_config. fold (all_copies ls). fold copies.
    destruct (copy_loop_err copies cfg Hsep) as [A B].
    destruct (copy_loop copies cfg) as [c|e] eqn:E; [eexists _, _; reflexivity|].
    exfalso. rewrite (B e eq_refl) in A. destruct (proj1 A eq_refl) as (v & Hv & Hx). auto.
  Qed.
End Copies.

(* ------------------------------------------------------------------ *)
(** * Needed parameters of a context *)

Lemma sanity_ok needed provided : sanity_check needed provided = Ok tt <-> forall p, In p provided -> In p needed.
Proof.
  unfold sanity_check. destruct (forallb _ provided) eqn:E.
  - split; [|reflexivity]. intros _ p Hp. rewrite forallb_forall in E. apply mem_In, E, Hp.
  - split; [discriminate|]. intros H. exfalso.
    assert (forallb (fun p => mem p needed) provided = true) by (apply forallb_forall; intros p Hp; apply mem_In; auto).
    congruence.
Qed.

Lemma register_needed_ok {K} name (construct : result (lcomp K)) L L' :
  register_component name construct L = (L', Ok tt) ->
  exists c, construct = Ok c /\ ll_alias L' = ll_alias L /\
    ll_needed L' = alias_needed (ll_alias L) (union (ll_needed L) (l_needed c)).
Proof.
  unfold register_component. destruct (has name (ll_components L)); [discriminate|].
  destruct construct as [c|e]; [|discriminate]. intros H. injection H as <-. exists c. auto.
Qed.

Lemma register_err {K} name (construct : result (lcomp K)) L L' e :
  register_component name construct L = (L', Err e) -> L' = L.
Proof.
  unfold register_component. destruct (has name (ll_components L)); [congruence|].
  destruct construct; congruence.
Qed.

Lemma ctx_needed_covers {K} copied (ops : list (xop K)) :
  (forall n L p, get n (x_llhs (xrun copied ops)) = Some L -> In p (ll_needed L) -> In p (x_needed (xrun copied ops))) /\
  (forall p, In p copied -> In p (x_needed (xrun copied ops))).
Proof.
  unfold xrun.
  assert (G : forall ops (c : ctx K),
    (forall n L p, get n (x_llhs c) = Some L -> In p (ll_needed L) -> In p (x_needed c)) ->
    (forall n L p, get n (x_llhs (fold_left xstep ops c)) = Some L -> In p (ll_needed L) ->
        In p (x_needed (fold_left xstep ops c))) /\
    (forall p, In p (x_needed c) -> In p (x_needed (fold_left xstep ops c)))).
  { clear ops. induction ops as [|o ops IH]; intros c Hc; [split; auto|]. cbn [fold_left].
    assert (S : (forall n L p, get n (x_llhs (xstep c o)) = Some L -> In p (ll_needed L) -> In p (x_needed (xstep c o))) /\
                (forall p, In p (x_needed c) -> In p (x_needed (xstep c o)))).
    { destruct o as [name b|lname name k]; cbn [xstep].
      - unfold ctx_register_likelihood. destruct (has name (x_llhs c)); [split; auto|].
        destruct b as [[al d]|e]; [|split; auto]. cbn. split; [|auto].
        intros n L p Hg Hp. rewrite get_set in Hg. destruct (String.eqb n name).
        + injection Hg as <-. destruct Hp.
        + eapply Hc; eassumption.
      - unfold ctx_register_component. destruct (get lname (x_llhs c)) as [L0|] eqn:E0; [|split; auto].
        destruct (register_component name k L0) as [L' [u|e]] eqn:Er; cbn.
        + split; [|intros p Hp; apply union_In; auto]. intros n L p Hg Hp. apply union_In.
          rewrite get_set in Hg. destruct (String.eqb n lname); [injection Hg as <-; auto|left; eapply Hc; eassumption].
        + apply register_err in Er. subst L'. split; [|auto]. intros n L p Hg Hp.
          rewrite get_set in Hg. destruct (String.eqb n lname) eqn:E; [|eapply Hc; eassumption].
          injection Hg as <-. eapply Hc; [|exact Hp]. exact E0. }
    destruct S as [S1 S2]. destruct (IH (xstep c o) S1) as [I1 I2]. split; auto. }
  apply (G ops (mk_ctx [] copied)). intros n L p H. discriminate.
Qed.

(* ------------------------------------------------------------------ *)
(** * Reading the chain *)

Lemma beats_false x y : x <> NaN -> y <> NaN -> beats x y = false -> fle x y = true.
Proof.
  intros Hx Hy. unfold beats. replace (is_nan y) with false by (destruct y; cbn; congruence).
  replace (is_nan x) with false by (destruct x; cbn; congruence). cbn [orb].
  intros H. rewrite flt_fle in H by assumption. destruct (fle x y); [reflexivity|discriminate].
Qed.

Lemma beats_true x y : x <> NaN -> y <> NaN -> beats x y = true -> flt y x = true.
Proof.
  intros Hx Hy. unfold beats. replace (is_nan y) with false by (destruct y; cbn; congruence).
  replace (is_nan x) with false by (destruct x; cbn; congruence). auto.
Qed.

Lemma argmax_from_spec (l pre : list fl) best bv : (forall x, In x (pre ++ l) -> x <> NaN) ->
  nth_error pre best = Some bv -> (forall x, In x pre -> fle x bv = true) ->
  exists v, nth_error (pre ++ l) (argmax_from (List.length pre) best bv l) = Some v /\
    forall x, In x (pre ++ l) -> fle x v = true.
Proof.
  revert pre best bv. induction l as [|x l IH]; intros pre best bv Hn Hb Hm; cbn [argmax_from].
  - rewrite app_nil_r. exists bv. auto.
  - assert (Happ : pre ++ x :: l = (pre ++ [x]) ++ l) by (rewrite <- app_assoc; reflexivity).
    assert (Hx : x <> NaN) by (apply Hn, in_or_app; right; left; reflexivity).
    assert (Hbv : bv <> NaN) by (apply Hn, in_or_app; left; eapply nth_error_In; exact Hb).
    rewrite Happ in *. replace (S (List.length pre)) with (List.length (pre ++ [x])) by (rewrite app_length; cbn; lia).
    destruct (beats x bv) eqn:E.
    + apply IH; [exact Hn| |].
      * rewrite nth_error_app2 by lia. rewrite Nat.sub_diag. reflexivity.
      * intros y Hy. apply in_app_or in Hy. destruct Hy as [Hy|[<-|[]]].
        -- eapply fle_trans; [apply Hm, Hy|]. apply flt_weak, (beats_true x bv Hx Hbv E).
        -- apply fle_refl, Hx.
    + apply IH; [exact Hn| |].
      * rewrite nth_error_app1; [exact Hb|]. apply nth_error_Some. congruence.
      * intros y Hy. apply in_app_or in Hy. destruct Hy as [Hy|[<-|[]]]; [apply Hm, Hy|].
        apply beats_false; assumption.
Qed.

Lemma argmax_spec (l : list fl) : l <> [] -> (forall x, In x l -> x <> NaN) ->
  exists i v, argmax l = Ok i /\ nth_error l i = Some v /\ forall x, In x l -> fle x v = true.
Proof.
  destruct l as [|x l]; intros Hl Hn; [congruence|]. cbn [argmax].
  destruct (argmax_from_spec l [x] 0 x) as (v & Hv & Hm).
  - exact Hn.
  - reflexivity.
  - intros y [<-|[]]. apply fle_refl, Hn. left. reflexivity.
  - exists (argmax_from 1 0 x l), v. auto.
Qed.

Lemma argmax_chain c : c <> [] -> (forall v lp, In (v, lp) c -> lp <> NaN) ->
  exists i, argmax (map snd c) = Ok i /\ best_sample c i.
Proof.
  intros Hc Hn. destruct (argmax_spec (map snd c)) as (i & lp & E & Hi & Hm).
  - destruct c; [congruence|discriminate].
  - intros x Hx. apply in_map_iff in Hx. destruct Hx as ([v lp] & <- & Hx). eapply Hn; exact Hx.
  - exists i. split; [exact E|]. rewrite nth_error_map in Hi.
    destruct (nth_error c i) as [[v lp']|] eqn:Ei; [|discriminate]. cbn in Hi. injection Hi as ->.
    exists v, lp. split; [exact Ei|]. intros v' lp' Hv. apply Hm. change lp' with (snd (v', lp')). apply in_map, Hv.
Qed.

(** Once the cache is filled it never changes. *)
Lemma cache_step f o c : f_cache f = Some c -> f_cache (fst (fstep f o)) = Some c.
Proof.
  intros H. assert (D : forall g, f_cache g = Some c -> f_cache (dump_meta g) = Some c).
  { intros g Hg. unfold dump_meta, read_cache. destruct (f_backend g); [|exact Hg]. rewrite Hg. exact Hg. }
  destruct o as [c'|c'|c'|w]; cbn [fstep].
  - apply D. exact H.
  - destruct (f_chain f); [|exact H]. destruct (f_backend f); [apply D; exact H|exact H].
  - apply D. exact H.
  - unfold read_cache. rewrite H. exact H.
Qed.

Lemma cache_run ops : forall f c, f_cache f = Some c -> f_cache (frun f ops) = Some c.
Proof.
  induction ops as [|o ops IH]; intros f c H; [exact H|]. cbn. apply IH, cache_step, H.
Qed.

Lemma read_cached w names pars f c : f_cache f = Some c ->
  get_post_parameters w names pars f = (do v <- chosen w c; Ok (f, update pars (combine names v))).
Proof. intros H. unfold get_post_parameters, read_cache. rewrite H. reflexivity. Qed.

Lemma read_uncached w names pars f c : f_cache f = None -> f_chain f = Some c ->
  get_post_parameters w names pars f
  = (do v <- chosen w c; Ok (mk_fitctx (Some c) (Some c) (f_backend f), update pars (combine names v))).
Proof. intros H1 H2. unfold get_post_parameters, read_cache. rewrite H1, H2. reflexivity. Qed.

(* ------------------------------------------------------------------ *)
(** * Further lemmas on the posterior and on needed parameters *)

Lemma last_value_dict (d : dict fl) n : NoDup (keys d) -> last_value (keys d) (map snd d) n = get n d.
Proof.
  induction d as [|[k v] d IH]; intros Hn; [reflexivity|]. cbn [keys map fst snd last_value get].
  inversion Hn as [|? ? Hk Hn']; subst. fold (keys d). rewrite IH by exact Hn'.
  destruct (String.eqb n k) eqn:E; [|destruct (get n d); reflexivity].
  apply eqb_true in E. subst n. apply get_None_keys in Hk. rewrite Hk. reflexivity.
Qed.

Lemma posterior_overwritten {K} sigmas (ls : dict (llh_fun K)) fresh st pars batch times st' cs r :
  NoDup (keys pars) -> (forall n, In n (keys pars) -> In n (keys (p_values st))) ->
  log_posterior K sigmas ls fresh st pars batch times = (st', cs, r) ->
  overwritten st pars st' /\
  match log_prior sigmas st' with
  | Err e => cs = [] /\ r = Err e
  | Ok prior =>
      if is_fin prior then
        if Nat.ltb 1 times then
          (cs, r) = (let '(cs, r) := repeat_once K ls prior fresh batch (p_values st') times 0 in
                     (cs, bind r (fun xs => Ok (fmean xs, prior))))
        else (cs, r) = (let '(cs, r) := posterior_once K ls prior (fresh 0) batch (p_values st') in
                        (cs, bind r (fun x => Ok (x, prior))))
      else cs = [] /\ r = Ok (NInf, prior)
  end.
Proof.
  intros Hn Hk H. unfold log_posterior in H. rewrite (posterior_state st pars Hk) in H.
  set (st1 := with_values st (assign (keys pars) (map snd pars) (p_values st))) in *.
  assert (O : overwritten st pars st1).
  { repeat split.
    - apply assign_keys, Hk.
    - intros n. cbn. rewrite assign_get, last_value_dict by exact Hn. reflexivity. }
  destruct (log_prior sigmas st1) as [prior|e] eqn:Ep.
  - destruct (is_fin prior) eqn:Ef; cbn [negb] in H.
    + destruct (Nat.ltb 1 times) eqn:Et.
      * destruct (repeat_once K ls prior fresh batch (p_values st1) times 0) as [cs1 r1] eqn:E1.
        injection H as <- <- <-. split; [exact O|]. rewrite Ep, Ef, E1. reflexivity.
      * destruct (posterior_once K ls prior (fresh 0) batch (p_values st1)) as [cs1 r1] eqn:E1.
        injection H as <- <- <-. split; [exact O|]. rewrite Ep, Ef, E1. reflexivity.
    + injection H as <- <- <-. split; [exact O|]. rewrite Ep, Ef. auto.
  - injection H as <- <- <-. split; [exact O|]. rewrite Ep. auto.
Qed.

Lemma ctx_needed_exact {K} copied (ops : list (xop K)) :
  (forall n al d, In (XLlh n (Ok (al, d))) ops -> separate al /\ NoDup (targets al)) ->
  forall p, In p (x_needed (xrun copied ops)) ->
    In p copied \/ exists n L, get n (x_llhs (xrun copied ops)) = Some L /\ In p (ll_needed L).
Proof.
  intros Hops. unfold xrun.
  set (inv := fun c : ctx K =>
    (forall n L, get n (x_llhs c) = Some L -> separate (ll_alias L) /\ NoDup (targets (ll_alias L)) /\
       forall p, In p (ll_needed L) -> ~ In p (targets (ll_alias L))) /\
    (forall p, In p (x_needed c) -> In p copied \/ exists n L, get n (x_llhs c) = Some L /\ In p (ll_needed L))).
  assert (G : forall ops (c : ctx K),
    (forall n al d, In (XLlh n (Ok (al, d))) ops -> separate al /\ NoDup (targets al)) -> inv c ->
    inv (fold_left xstep ops c)).
  { clear ops Hops. induction ops as [|o ops IH]; intros c Ho Hc; [exact Hc|]. cbn [fold_left].
    apply IH; [intros n al d Hi; apply (Ho n al d); right; exact Hi|].
    destruct Hc as [C1 C2]. destruct o as [name b|lname name k]; cbn [xstep].
    - unfold ctx_register_likelihood. destruct (has name (x_llhs c)) eqn:Eh; [split; assumption|].
      destruct b as [[al d]|e]; [|split; assumption].
      destruct (Ho name al d (or_introl eq_refl)) as [Hs Ht]. split; cbn.
      + intros n L Hg. rewrite get_set in Hg. destruct (String.eqb n name); [|apply (C1 n L Hg)].
        injection Hg as <-. cbn. repeat split; auto.
      + intros p Hp. destruct (C2 p Hp) as [H|(n & L & Hg & Hi)]; [auto|]. right. exists n, L. split; [|exact Hi].
        rewrite get_set_neq; [exact Hg|]. intros ->. apply has_false in Eh. congruence.
    - unfold ctx_register_component. destruct (get lname (x_llhs c)) as [L0|] eqn:E0; [|split; assumption].
      destruct (C1 _ _ E0) as (Hs & Ht & Hn).
      destruct (register_component name k L0) as [L' [u|e]] eqn:Er; cbn.
      + destruct u. destruct (register_needed_ok _ _ _ _ Er) as (cc & _ & Ea & En).
        assert (Hkeep : forall p, In p (ll_needed L0) -> In p (ll_needed L')).
        { intros p Hp. rewrite En. apply alias_needed_keeps_alias; auto. apply union_In. auto. }
        split; cbn.
        * intros n L Hg. rewrite get_set in Hg. destruct (String.eqb n lname); [|apply (C1 n L Hg)].
          injection Hg as <-. rewrite Ea. split; [exact Hs|]. split; [exact Ht|].
          intros p Hp. rewrite En in Hp. apply alias_needed_spec in Hp; [|assumption..].
          destruct Hp as [[_ Hp]|(v & _ & Hp)]; [exact Hp|]. apply Hs.
          unfold keys. change p with (fst (p, v)). apply in_map, Hp.
        * intros p Hp. apply union_In in Hp. destruct Hp as [Hp|Hp].
          -- destruct (C2 p Hp) as [H|(n & L & Hg & Hi)]; [auto|]. right.
             destruct (String.eqb n lname) eqn:E.
             ++ apply eqb_true in E. subst n. exists lname, L'. split; [apply get_set_eq|].
                apply Hkeep. congruence.
             ++ exists n, L. split; [|exact Hi]. rewrite get_set_neq; [exact Hg|]. apply eqb_false, E.
          -- right. exists lname, L'. split; [apply get_set_eq|exact Hp].
      + apply register_err in Er. subst L'. split; cbn.
        * intros n L Hg. rewrite get_set in Hg. destruct (String.eqb n lname) eqn:E; [|apply (C1 n L Hg)].
          injection Hg as <-. apply (C1 lname L0 E0).
        * intros p Hp. destruct (C2 p Hp) as [H|(n & L & Hg & Hi)]; [auto|]. right. exists n, L. split; [|exact Hi].
          rewrite get_set. destruct (String.eqb n lname) eqn:E; [|exact Hg]. apply eqb_true in E. congruence. }
  intros p Hp. destruct (G ops (mk_ctx [] copied) Hops) as [_ G2].
  - split; [intros n L Hg; discriminate|auto].
  - apply (G2 p Hp).
Qed.

Lemma flt_Fin_false x y : (y <= x)%R -> flt (Fin x) (Fin y) = false.
Proof. intros H. cbn. destruct (Rlt_dec x y); [lra|reflexivity]. Qed.

Lemma update_same_keys {V} (d d2 : dict V) : (forall n, In n (keys d2) -> In n (keys d)) -> keys (update d d2) = keys d.
Proof.
  unfold update. revert d. induction d2 as [|[k v] d2 IH]; intros d H; [reflexivity|]. cbn [fold_left fst snd].
  assert (Hk : keys (set k v d) = keys d) by (apply set_same_keys, H; left; reflexivity).
  rewrite IH; [exact Hk|]. rewrite Hk. intros n Hn. apply H. right. exact Hn.
Qed.
