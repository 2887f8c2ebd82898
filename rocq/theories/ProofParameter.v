(** Proofs about Parameter: prior, sampling, assignment, order. *)
From Coq Require Import Reals Lra Permutation Sorting.Sorted.
From Verif Require Import Base BaseFacts ModelFloat ModelTwoHalf ModelParameter SpecParameter
  ProofFloat ProofLikelihood2 ProofLikelihood3.
Local Open Scope string_scope.
Local Open Scope R_scope.

Ltac str_cases :=
  repeat match goal with
  | H : ?a <> ?b |- context [String.eqb ?a ?b] => rewrite (eqb_neq' a b H)
  end.

(* ------------------------------------------------------------------ *)
(** * Prior terms *)

Lemma fsqr_Fin x : fsqr (Fin x) = Fin (x * x).
Proof. reflexivity. Qed.
Lemma fsub_Fin x y : fsub (Fin x) (Fin y) = Fin (x - y).
Proof. reflexivity. Qed.
Lemma fdiv_Fin x y : y <> 0 -> fdiv (Fin x) (Fin y) = Fin (x / y).
Proof. intros H. unfold fdiv. rewrite finv_Fin by exact H. reflexivity. Qed.

Lemma sqrt_2pi_pos : 0 < sqrt (2 * PI).
Proof. apply sqrt_lt_R0. pose proof PI_RGT_0. lra. Qed.

Lemma twohalf_logpdf_Fin x mu sp sn : 0 < sp -> 0 < sn ->
  twohalf_logpdf (Fin x) (Fin mu) (Fin sp) (Fin sn)
  = Ok (Fin (- ((x - mu) * (x - mu)) / (2 * ((if Rlt_dec x mu then sn else sp) * (if Rlt_dec x mu then sn else sp)))
       + ln (2 / ((sp + sn) * sqrt (2 * PI))))).
Proof.
  intros Hp Hn. unfold twohalf_logpdf.
  replace (flt (Fin 0) (Fin sp)) with true by (symmetry; apply flt_Fin; lra).
  replace (flt (Fin 0) (Fin sn)) with true by (symmetry; apply flt_Fin; lra).
  cbn [andb]. pose proof sqrt_2pi_pos as Hq.
  rewrite fadd_Fin, !fsub_Fin, !fsqr_Fin. cbn [fneg].
  assert (Hsn : sn * sn <> 0) by nra. assert (Hsp : sp * sp <> 0) by nra.
  rewrite (fdiv_Fin 2 (sp + sn)) by lra. rewrite (fdiv_Fin _ (sqrt (2 * PI))) by lra.
  rewrite (fdiv_Fin _ (sn * sn)), (fdiv_Fin _ (sp * sp)) by assumption.
  rewrite !fdiv_Fin by lra.
  rewrite flog_pos.
  - f_equal. cbn [flt]. destruct (Rlt_dec x mu); rewrite fadd_Fin; f_equal; f_equal.
    + field. lra.
    + f_equal. field. lra.
    + field. lra.
    + f_equal. field. lra.
  - apply Rdiv_lt_0_compat; [apply Rdiv_lt_0_compat; lra|exact Hq].
Qed.

Lemma in_range_dec s v : {in_range s v} + {~ in_range s v}.
Proof.
  unfold in_range. destruct (s_range s) as [[lo hi]|].
  - destruct (fle lo v) eqn:E1; [|right; intros (a & b & E & ? & ?); congruence].
    destruct (fle v hi) eqn:E2; [left; eauto|right; intros (a & b & E & ? & ?); congruence].
  - right. intros (a & b & E & _). discriminate.
Defined.

Lemma range_test lo hi v : lo <> NaN -> hi <> NaN ->
  flt (Fin v) lo || flt hi (Fin v) = negb (fle lo (Fin v) && fle (Fin v) hi).
Proof.
  intros H1 H2. rewrite (flt_fle (Fin v) lo), (flt_fle hi (Fin v)) by congruence.
  destruct (fle lo (Fin v)), (fle (Fin v) hi); reflexivity.
Qed.

Section Prior.
  Variable sigmas : fl -> fl -> result (fl * fl).

  Lemma proper_range s : proper sigmas s ->
    exists ty args lo hi, s_type s = Some ty /\ s_args s = Some args /\ s_range s = Some (lo, hi)
      /\ lo <> NaN /\ hi <> NaN.
  Proof. destruct 1; repeat eexists; eauto. Qed.

  Lemma prior_term_out s v : proper sigmas s -> ~ in_range s (Fin v) -> prior_term sigmas s (Fin v) = Ok NInf.
  Proof.
    intros Hp Ho. destruct (proper_range s Hp) as (ty & args & lo & hi & E1 & E2 & E3 & Hl & Hh).
    unfold prior_term. rewrite E2, E1, E3. cbn [key bind fst snd].
    rewrite range_test by assumption.
    destruct (fle lo (Fin v)) eqn:F1, (fle (Fin v) hi) eqn:F2; cbn; try reflexivity.
    exfalso. apply Ho. exists lo, hi. auto.
  Qed.

  Lemma prior_term_in s v : proper sigmas s -> in_range s (Fin v) ->
    exists r, log_density sigmas s v r /\ prior_term sigmas s (Fin v) = Ok (Fin r).
  Proof.
    intros Hp (lo' & hi' & Er & F1 & F2).
    destruct Hp as [args m sd lo hi E1 E2 E3 A1 A2 Hs Hl Hh
                   |args ep en mu sp sn lo hi E1 E2 E3 A1 A2 A3 A4 Hs1 Hs2 Hl Hh
                   |ty args lo hi E1 N1 N2 E2 E3 Hl Hh];
      rewrite E3 in Er; injection Er as -> ->;
      unfold prior_term; rewrite E2, E1, E3; cbn [key bind fst snd];
      rewrite range_test, F1, F2 by assumption; cbn [andb negb].
    - rewrite A1, A2. cbn [key bind]. eexists. split; [eapply ld_norm; eassumption|].
      rewrite fsub_Fin, !fsqr_Fin. cbn [fneg]. rewrite fdiv_Fin by lra. rewrite fdiv_Fin by nra.
      cbn. f_equal. f_equal. field. lra.
    - cbn. rewrite A1, A2, A3. cbn [key bind]. rewrite A4. cbn [bind fst snd].
      rewrite twohalf_logpdf_Fin by assumption. eexists. split; [eapply ld_twohalf; eassumption|reflexivity].
    - str_cases. eexists. split; [eapply ld_flat; eassumption|reflexivity].
  Qed.

  Lemma log_prior_loop_acc cfg v names acc :
    log_prior_loop sigmas cfg v names acc
    = match log_prior_loop sigmas cfg v names (Fin 0) with Ok t => Ok (fadd acc t) | Err e => Err e end.
  Proof.
    revert acc. induction names as [|n names IH]; intros acc; cbn [log_prior_loop].
    - rewrite fadd_0_r. reflexivity.
    - destruct (key (get n v)); [|reflexivity]. cbn [bind].
      destruct (key (get n cfg)); [|reflexivity]. cbn [bind].
      destruct (prior_term sigmas a0 a) as [t|e]; [|reflexivity]. cbn [bind].
      rewrite IH, (IH (fadd (Fin 0) t)), fadd_0_l.
      destruct (log_prior_loop sigmas cfg v names (Fin 0)); [|reflexivity].
      rewrite fadd_assoc. reflexivity.
  Qed.

  Lemma log_prior_loop_spec cfg v names :
    (forall n, In n names -> exists s x, get n cfg = Some s /\ get n v = Some (Fin x) /\ proper sigmas s) ->
    (exists rs, Forall2 (fun n r => exists s x, get n cfg = Some s /\ get n v = Some (Fin x) /\
                                    in_range s (Fin x) /\ log_density sigmas s x r) names rs /\
       log_prior_loop sigmas cfg v names (Fin 0) = Ok (Fin (rsum rs))) \/
    ((exists n s x, In n names /\ get n cfg = Some s /\ get n v = Some (Fin x) /\ ~ in_range s (Fin x)) /\
       log_prior_loop sigmas cfg v names (Fin 0) = Ok NInf).
  Proof.
    induction names as [|n names IH]; intros H.
    - left. exists []. split; [constructor|reflexivity].
    - destruct (H n (or_introl eq_refl)) as (s & x & Es & Ex & Hp).
      cbn [log_prior_loop]. rewrite Es, Ex. cbn [key bind].
      destruct (in_range_dec s (Fin x)) as [Hi|Ho].
      + destruct (prior_term_in s x Hp Hi) as (r & Hr & Et). rewrite Et. cbn [bind].
        rewrite log_prior_loop_acc, fadd_0_l.
        destruct IH as [(rs & F & E)|((m & sm & xm & Hm & Em1 & Em2 & Om) & E)]; [firstorder| |]; rewrite E.
        * left. exists (r :: rs). split; [constructor; [exists s, x; auto|exact F]|].
          reflexivity.
        * right. split; [|reflexivity]. exists m, sm, xm. split; [right; exact Hm|auto].
      + rewrite (prior_term_out s x Hp Ho). cbn [bind]. rewrite log_prior_loop_acc, fadd_0_l.
        right. split; [exists n, s, x; split; [left; reflexivity|auto]|].
        destruct IH as [(rs & F & E)|(_ & E)]; [firstorder| |]; rewrite E; reflexivity.
  Qed.

  Lemma log_prior_cases st : evaluable sigmas st ->
    (exists rs, Forall2 (fun n r => exists s x, get n (p_config st) = Some s /\
                  get n (p_values st) = Some (Fin x) /\ in_range s (Fin x) /\
                  log_density sigmas s x r) (p_fit st) rs /\
       log_prior sigmas st = Ok (Fin (rsum rs))) \/
    ((exists n, In n (p_fit st) /\ outside st n) /\ log_prior sigmas st = Ok NInf).
  Proof.
    intros H. destruct (log_prior_loop_spec _ _ _ H) as [(rs & F & E)|((n & s & x & Hn & H1 & H2 & H3) & E)].
    - left. exists rs. auto.
    - right. split; [|exact E]. exists n. split; [exact Hn|]. exists s, (Fin x). auto.
  Qed.

  Lemma Forall2_In_l {A B} (P : A -> B -> Prop) l l' x : Forall2 P l l' -> In x l -> exists y, P x y.
  Proof. induction 1; intros Hi; [destruct Hi|]. destruct Hi as [->|Hi]; eauto. Qed.

  Lemma log_prior_iff st : evaluable sigmas st ->
    (log_prior sigmas st = Ok NInf <-> exists n, In n (p_fit st) /\ outside st n).
  Proof.
    intros H. destruct (log_prior_cases st H) as [(rs & F & E)|(Ho & E)]; rewrite E.
    - split; [discriminate|]. intros (n & Hn & s & v & E1 & E2 & Ho).
      destruct (Forall2_In_l _ _ _ n F Hn) as (r & s' & x & E1' & E2' & Hi & _).
      rewrite E1 in E1'. rewrite E2 in E2'. injection E1' as <-. injection E2' as ->. contradiction.
    - split; auto.
  Qed.

  Lemma log_prior_loop_ext cfg cfg' v v' names acc :
    (forall n, In n names -> get n v = get n v' /\ get n cfg = get n cfg') ->
    log_prior_loop sigmas cfg v names acc = log_prior_loop sigmas cfg' v' names acc.
  Proof.
    revert acc. induction names as [|n names IH]; intros acc H; [reflexivity|].
    cbn [log_prior_loop]. destruct (H n (or_introl eq_refl)) as [-> ->].
    destruct (key (get n v')); [|reflexivity]. cbn [bind].
    destruct (key (get n cfg')); [|reflexivity]. cbn [bind].
    destruct (prior_term sigmas a0 a); [|reflexivity]. cbn [bind]. apply IH. firstorder.
  Qed.

  Lemma log_prior_loop_Ok_inv cfg v names n rest t : names = n :: rest ->
    log_prior_loop sigmas cfg v names (Fin 0) = Ok t ->
    exists x s a b, get n v = Some x /\ get n cfg = Some s /\ prior_term sigmas s x = Ok a /\
      log_prior_loop sigmas cfg v rest (Fin 0) = Ok b /\ t = fadd a b.
  Proof.
    intros -> H. cbn [log_prior_loop] in H.
    destruct (get n v) as [x|] eqn:E1; [|discriminate]. cbn [key bind] in H.
    destruct (get n cfg) as [s|] eqn:E2; [|discriminate]. cbn [key bind] in H.
    destruct (prior_term sigmas s x) as [a|] eqn:E3; [|discriminate]. cbn [bind] in H.
    rewrite log_prior_loop_acc, fadd_0_l in H.
    destruct (log_prior_loop sigmas cfg v rest (Fin 0)) as [b|] eqn:E4; [|discriminate].
    injection H as <-. exists x, s, a, b. auto.
  Qed.

  Lemma log_prior_loop_cons cfg v n rest x s a b :
    get n v = Some x -> get n cfg = Some s -> prior_term sigmas s x = Ok a ->
    log_prior_loop sigmas cfg v rest (Fin 0) = Ok b ->
    log_prior_loop sigmas cfg v (n :: rest) (Fin 0) = Ok (fadd a b).
  Proof.
    intros E1 E2 E3 E4. cbn [log_prior_loop]. rewrite E1, E2. cbn [key bind]. rewrite E3. cbn [bind].
    rewrite log_prior_loop_acc, fadd_0_l, E4. reflexivity.
  Qed.

  Lemma log_prior_loop_perm cfg v names names' : Permutation names names' -> forall t,
    log_prior_loop sigmas cfg v names (Fin 0) = Ok t -> log_prior_loop sigmas cfg v names' (Fin 0) = Ok t.
  Proof.
    induction 1 as [|n l l' P IH|n m l|l1 l2 l3 P1 IH1 P2 IH2]; intros t H.
    - exact H.
    - destruct (log_prior_loop_Ok_inv _ _ _ _ _ _ eq_refl H) as (x & s & a & b & E1 & E2 & E3 & E4 & ->).
      eapply log_prior_loop_cons; eauto.
    - destruct (log_prior_loop_Ok_inv _ _ _ _ _ _ eq_refl H) as (x & s & a & b & E1 & E2 & E3 & E4 & ->).
      destruct (log_prior_loop_Ok_inv _ _ _ _ _ _ eq_refl E4) as (x' & s' & a' & b' & F1 & F2 & F3 & F4 & ->).
      replace (fadd a (fadd a' b')) with (fadd a' (fadd a b')).
      + eapply log_prior_loop_cons; eauto. eapply log_prior_loop_cons; eauto.
      + rewrite <- !fadd_assoc, (fadd_comm a' a). reflexivity.
    - auto.
  Qed.
End Prior.

(* ------------------------------------------------------------------ *)
(** * Sampling *)

Lemma fclip_range x lo hi : x <> NaN -> fle lo hi = true ->
  fle lo (fclip x lo hi) = true /\ fle (fclip x lo hi) hi = true.
Proof.
  intros Hx Hr.
  destruct x as [x| | |], lo as [lo| | |], hi as [hi| | |]; try congruence; try discriminate;
    unfold fclip, fmax, fmin in *; cbn in *;
    repeat (match goal with |- context [Rle_dec ?a ?b] => destruct (Rle_dec a b)
            | H : context [Rle_dec ?a ?b] |- _ => destruct (Rle_dec a b) end; cbn in *);
    try (split; reflexivity); try discriminate; try (exfalso; lra).
Qed.

Lemma map_fst_pairs {V W} (f : string * V -> W) (d : dict V) : keys (map (fun kv => (fst kv, f kv)) d) = keys d.
Proof. unfold keys. rewrite map_map. apply map_ext. reflexivity. Qed.

Section Sampling.
  Variable Rng : Type.
  Variables normal uniform : fl -> fl -> Rng -> result (fl * Rng).
  Variable sigmas : fl -> fl -> result (fl * fl).

  Lemma sample_loop_keys body cfg names v g :
    (forall n, In n names -> In n (keys v)) ->
    keys (fst (sample_loop Rng body cfg names v g)) = keys v.
  Proof.
    revert v g. induction names as [|n names IH]; intros v g H; [reflexivity|].
    cbn [sample_loop]. destruct (get n cfg); [|reflexivity].
    destruct (body s g) as [[[x|] g']|e]; [| |reflexivity].
    - rewrite IH; rewrite set_same_keys by (apply H; left; reflexivity); auto.
      intros m Hm. apply H. right. exact Hm.
    - apply IH. intros m Hm. apply H. right. exact Hm.
  Qed.

  (** Names not in the list keep their value; every name in it has been through the body. *)
  Lemma sample_loop_spec body (Q : setting -> fl -> Prop) cfg : 
    (forall s g x g', body s g = Ok (Some x, g') -> Q s x) ->
    forall names v g v' g', NoDup names ->
    sample_loop Rng body cfg names v g = (v', Ok g') ->
    forall n, (In n names -> exists s g1 g2 o, get n cfg = Some s /\ body s g1 = Ok (o, g2) /\
                 match o with Some x => get n v' = Some x /\ Q s x | None => get n v' = get n v end) /\
              (~ In n names -> get n v' = get n v).
  Proof.
    intros HQ. induction names as [|m names IH]; intros v g v' g' Hnd H n.
    - cbn in H. injection H as <- <-. split; [intros []|reflexivity].
    - inversion Hnd as [|? ? Hm Hnd']; subst.
      cbn [sample_loop] in H. destruct (get m cfg) as [s|] eqn:Es; [|discriminate].
      destruct (body s g) as [[[x|] g1]|e] eqn:Eb; [| |discriminate].
      + destruct (IH _ _ _ _ Hnd' H n) as [I1 I2]. split.
        * intros [->|Hi].
          -- exists s, g, g1, (Some x). repeat split; auto; [|eapply HQ; eassumption].
             rewrite I2 by exact Hm. apply get_set_eq.
          -- destruct (I1 Hi) as (s' & a & b & o & A1 & A2 & A3). exists s', a, b, o. repeat split; auto.
             destruct o; [exact A3|]. rewrite A3, get_set_neq; [reflexivity|]. intros ->. contradiction.
        * intros Hn. rewrite I2 by (intros Hi; apply Hn; right; exact Hi).
          apply get_set_neq. intros ->. apply Hn. left. reflexivity.
      + destruct (IH _ _ _ _ Hnd' H n) as [I1 I2]. split.
        * intros [->|Hi].
          -- exists s, g, g1, None. repeat split; auto.
          -- destruct (I1 Hi) as (s' & a & b & o & A1 & A2 & A3). exists s', a, b, o. auto.
        * intros Hn. apply I2. intros Hi. apply Hn. right. exact Hi.
  Qed.

  Lemma sample_loop_ok body cfg names :
    (forall n, In n names -> exists s, get n cfg = Some s /\ forall g, exists o g', body s g = Ok (o, g')) ->
    forall v g, exists v' g', sample_loop Rng body cfg names v g = (v', Ok g').
  Proof.
    induction names as [|n names IH]; intros H v g; [cbn; eauto|].
    cbn [sample_loop]. destruct (H n (or_introl eq_refl)) as (s & -> & Hb).
    destruct (Hb g) as ([x|] & g' & ->); apply IH; intros m Hm; apply H; right; exact Hm.
  Qed.

  Hypothesis draws : draws_finite normal uniform.

  Lemma twohalf_draw mu sp sn g : 0 < sp -> 0 < sn ->
    exists v g', draw_twohalf Rng normal uniform (Fin mu) (Fin sp) (Fin sn) g = Ok (Fin v, g').
  Proof.
    intros Hp Hn. destruct draws as [Dn Du]. unfold draw_twohalf.
    replace (flt (Fin 0) (Fin sp)) with true by (symmetry; apply flt_Fin; lra).
    replace (flt (Fin 0) (Fin sn)) with true by (symmetry; apply flt_Fin; lra). cbn [andb].
    destruct (Du 0 1 g) as (u & g1 & ->). cbn [bind snd fst].
    destruct (Dn 0 1 g1) as (z & g2 & ->); [lra|]. cbn [bind snd fst].
    unfold twohalf_rvs.
    replace (flt (Fin 0) (Fin sp)) with true by (symmetry; apply flt_Fin; lra).
    replace (flt (Fin 0) (Fin sn)) with true by (symmetry; apply flt_Fin; lra). cbn [andb fabs].
    rewrite !fmul_Fin, fsub_Fin, fadd_Fin. cbn [bind]. eauto.
  Qed.

  Lemma clip_range_Fin s lo hi v : s_range s = Some (lo, hi) -> fle lo hi = true ->
    exists w, clip_range s (Fin v) = Ok w /\ in_range s w /\ (reachable_range s -> exists r, w = Fin r).
  Proof.
    intros E H. unfold clip_range. rewrite E. cbn [key bind fst snd]. eexists. split; [reflexivity|]. split.
    - exists lo, hi. split; [exact E|]. apply fclip_range; [discriminate|exact H].
    - intros (lo' & hi' & E' & Hl & Hh). rewrite E in E'. injection E' as <- <-.
      destruct lo as [lo| | |], hi as [hi| | |]; try congruence; try discriminate;
        unfold fclip, fmax, fmin; cbn;
        repeat (match goal with |- context [Rle_dec ?a ?b] => destruct (Rle_dec a b) end; cbn); eauto.
  Qed.

  Lemma prior_value_ok s g : drawable sigmas s ->
    exists x g', prior_value Rng normal uniform sigmas s g = Ok (Some x, g') /\ sampled_ok s x.
  Proof.
    destruct draws as [Dn Du].
    intros [args m sd lo hi E1 E2 E3 A1 A2 Hs Hr
           |args ep en mu sp sn lo hi E1 E2 E3 A1 A2 A3 A4 H1 H2 Hr
           |args a b lo hi E1 E2 E3 A1 A2 Hr
           |args m sd lo hi E1 E2 E3 A1 A2 Hs Hr
           |args v E1 E2 A1];
      unfold prior_value, sampled_ok; rewrite E2, E1; cbn [key bind].
    - cbn [String.eqb Ascii.eqb Bool.eqb]. rewrite A1, A2. cbn [key bind].
      destruct (Dn m sd g Hs) as (v & g' & ->). cbn [bind fst snd].
      destruct (clip_range_Fin s lo hi v E3 Hr) as (w & -> & Hw). cbn [bind]. eauto.
    - cbn [String.eqb Ascii.eqb Bool.eqb]. rewrite A1, A2, A3. cbn [key bind]. rewrite A4. cbn [bind fst snd].
      destruct (twohalf_draw mu sp sn g H1 H2) as (v & g' & ->). cbn [bind fst snd].
      destruct (clip_range_Fin s lo hi v E3 Hr) as (w & -> & Hw). cbn [bind]. eauto.
    - cbn [String.eqb Ascii.eqb Bool.eqb]. rewrite A1, A2. cbn [key bind].
      destruct (Du a b g) as (v & g' & ->). cbn [bind fst snd].
      destruct (clip_range_Fin s lo hi v E3 Hr) as (w & -> & Hw). cbn [bind]. eauto.
    - cbn [String.eqb Ascii.eqb Bool.eqb]. rewrite A1, A2. cbn [key bind].
      destruct (Dn m sd g Hs) as (v & g' & ->). cbn [bind fst snd].
      destruct (clip_range_Fin s lo hi v E3 Hr) as (w & -> & Hw). cbn [bind]. eauto.
    - cbn [String.eqb Ascii.eqb Bool.eqb]. rewrite A1. cbn [key bind]. exists v, g. eauto.
  Qed.

  Lemma init_value_ok s g : startable s ->
    exists x g', init_value Rng normal s g = Ok (Some x, g') /\ sampled_ok s x.
  Proof.
    destruct draws as [Dn Du].
    intros [ty args m sd lo hi E1 N E2 E3 A1 A2 Hs Hr|args v E1 E2 A1];
      unfold init_value, sampled_ok; rewrite E2, E1; cbn [key bind].
    - str_cases. rewrite A1, A2. cbn [key bind].
      destruct (Dn m sd g Hs) as (v & g' & ->). cbn [bind fst snd].
      destruct (clip_range_Fin s lo hi v E3 Hr) as (w & -> & Hw). cbn [bind]. eauto.
    - cbn [String.eqb Ascii.eqb Bool.eqb]. rewrite A1. cbn [key bind]. exists v, g. eauto.
  Qed.

  Lemma sample_all body (P : setting -> Prop) st g :
    (forall s g, P s -> exists x g', body s g = Ok (Some x, g') /\ sampled_ok s x) ->
    NoDup (keys (p_values st)) ->
    (forall n, In n (keys (p_values st)) -> exists s, get n (p_config st) = Some s /\ P s) ->
    exists st' g', sample Rng body st g = (st', Ok g') /\
      p_config st' = p_config st /\ p_fit st' = p_fit st /\ p_fixed st' = p_fixed st /\
      keys (p_values st') = keys (p_values st) /\
      forall n, In n (keys (p_values st)) -> exists s x,
        get n (p_config st) = Some s /\ get n (p_values st') = Some x /\ sampled_ok s x.
  Proof.
    intros Hb Hnd HP. unfold sample.
    destruct (sample_loop_ok body (p_config st) (keys (p_values st))) with (v := p_values st) (g := g)
      as (v' & g' & E).
    { intros n Hn. destruct (HP n Hn) as (s & Es & Hs). exists s. split; [exact Es|]. intros g0.
      destruct (Hb s g0 Hs) as (x & g'' & Ex & _). eauto. }
    rewrite E. exists (with_values st v'), g'. split; [reflexivity|]. repeat split.
    - cbn. pose proof (sample_loop_keys body (p_config st) (keys (p_values st)) (p_values st) g) as K.
      rewrite E in K. apply K. auto.
    - intros n Hn. cbn.
      destruct (sample_loop_spec body (fun _ _ => True) (p_config st) (fun _ _ _ _ _ => Logic.I) _ _ _ _ _ Hnd E n) as [I' _].
      destruct (I' Hn) as (s & g1 & g2 & o & Es & Eb & Ho).
      destruct (HP n Hn) as (s' & Es' & Hs'). rewrite Es in Es'. injection Es' as <-.
      destruct (Hb s g1 Hs') as (x & g3 & Ex & Hx). rewrite Eb in Ex. injection Ex as -> <-.
      exists s, x. destruct Ho as [Ho _]. auto.
  Qed.
End Sampling.

Lemma classify_ok cfg : (forall n s, In (n, s) cfg -> s_type s <> None) ->
  forall fixed fit, exists fixed' fit', classify cfg fixed fit = (fixed', fit', Ok tt) /\
    (forall n, In n fixed' <-> In n fixed \/ exists s, In (n, s) cfg /\ s_type s = Some "fixed") /\
    (forall n, In n fit' <-> In n fit \/ exists s ty, In (n, s) cfg /\ s_type s = Some ty /\ ty <> "fixed") /\
    (NoDup fit -> NoDup fit').
Proof.
  induction cfg as [|[n s] cfg IH]; intros H fixed fit.
  - cbn. exists fixed, fit. split; [reflexivity|]. repeat split; auto.
    + intros [?|(s & [] & _)]; auto.
    + intros [?|(s & ty & [] & _)]; auto.
  - cbn [classify]. destruct (s_type s) as [ty|] eqn:Et; [|exfalso; eapply H; [left; reflexivity|exact Et]].
    destruct (String.eqb ty "fixed") eqn:Ef.
    + apply eqb_true in Ef. subst ty.
      destruct (IH ltac:(intros; eapply H; right; eassumption) (add1 n fixed) fit) as (a & b & E & Ha & Hb & Hn).
      exists a, b. rewrite E. split; [reflexivity|]. split; [|split].
      * intros m. rewrite Ha, add1_In. split.
        -- intros [[->|?]|(s' & ? & ?)]; [right; exists s; split; [left; reflexivity|exact Et]|auto|right; exists s'; split; [right|]; assumption].
        -- intros [?|(s' & [Hi|Hi] & Es')]; [auto|injection Hi as <- <-; auto|right; eauto].
      * intros m. rewrite Hb. split.
        -- intros [?|(s' & ty & ? & ?)]; [auto|right; exists s', ty; split; [right|]; assumption].
        -- intros [?|(s' & ty & [Hi|Hi] & Es' & Hne)]; [auto|injection Hi as <- <-; congruence|right; eauto].
      * exact Hn.
    + destruct (IH ltac:(intros; eapply H; right; eassumption) fixed (add1 n fit)) as (a & b & E & Ha & Hb & Hn).
      exists a, b. rewrite E. split; [reflexivity|]. split; [|split].
      * intros m. rewrite Ha. split.
        -- intros [?|(s' & ? & ?)]; [auto|right; exists s'; split; [right|]; assumption].
        -- intros [?|(s' & [Hi|Hi] & Es')]; [auto|injection Hi as <- <-|right; eauto].
           rewrite Et in Es'. injection Es' as ->. discriminate.
      * intros m. rewrite Hb, add1_In. split.
        -- intros [[->|?]|(s' & ty' & ? & ?)]; [right; exists s, ty|auto|right; exists s', ty'; split; [right|]; assumption].
           split; [left; reflexivity|]. split; [exact Et|]. apply eqb_false. exact Ef.
        -- intros [?|(s' & ty' & [Hi|Hi] & Es' & Hne)]; [auto|injection Hi as <- <-; auto|right; eauto].
      * intros Hf. apply Hn, NoDup_add1. exact Hf.
Qed.
