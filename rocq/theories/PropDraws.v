(** C132: every parameter is drawn with random numbers of its own. *)
From Coq Require Import Reals Lra Lia.
From Verif Require Import Base BaseFacts ModelFloat ModelTwoHalf ModelParameter SpecParameter SpecDraws ProofFloat ProofParameter ProofParameter2 PropParameter.
Local Open Scope R_scope.
Local Open Scope string_scope.
Local Open Scope list_scope.

Lemma answers_app answer : forall rs k rs', answers answer k (rs ++ rs') = answers answer k rs ++ answers answer (k + List.length rs)%nat rs'.
Proof.
  induction rs as [|r rs IH]; intros k rs'; cbn [app answers List.length].
  - rewrite Nat.add_0_r. reflexivity.
  - rewrite IH. f_equal. f_equal. f_equal. lia.
Qed.

Lemma clip_nearest s x lo hi : s_range s = Some (lo, hi) -> fle lo hi = true -> nearest s x (fclip (Fin x) lo hi).
Proof.
  intros Hr Hle. exists lo, hi. split; [exact Hr|].
  destruct lo as [l| | |], hi as [h| | |]; try discriminate Hle; unfold fclip, fmax, fmin; cbn [is_nan orb fle] in *;
  repeat match goal with |- context [Rle_dec ?a ?b] => destruct (Rle_dec a b); cbn end;
  repeat split; intros; try reflexivity; try discriminate; try (exfalso; lra); try (f_equal; lra).
  all: try (destruct (Rle_dec l h); [exfalso; lra|discriminate]).
Qed.

Section Chain.
  Variable answer : nat -> request -> R.
  Variable body : setting -> list request -> result (option fl * list request).
  Variable D : setting -> list request -> list R -> fl -> Prop.
  Variable P : setting -> Prop.
  Hypothesis HB : forall s g, P s -> exists rs v, body s g = Ok (Some v, g ++ rs) /\ D s rs (answers answer (List.length g) rs) v.

  Lemma loop_chain cfg : forall names v g, NoDup names ->
    (forall n, In n names -> exists s, get n cfg = Some s /\ P s) ->
    exists v' rss, sample_loop _ body cfg names v g = (v', Ok (g ++ List.concat rss)) /\ List.length rss = List.length names /\
      (forall m, ~ In m names -> get m v' = get m v) /\
      forall i n rs, nth_error names i = Some n -> nth_error rss i = Some rs ->
        exists s x, get n cfg = Some s /\ get n v' = Some x /\
          D s rs (answers answer (List.length g + List.length (List.concat (firstn i rss)))%nat rs) x.
  Proof.
    induction names as [|n names IH]; intros v g Hnd Hall.
    - exists v, []. cbn [sample_loop List.concat List.length]. rewrite app_nil_r. split; [reflexivity|]. split; [reflexivity|].
      split; [auto|]. intros i n rs Hi. destruct i; discriminate Hi.
    - inversion Hnd as [|? ? Hni Hnd']; subst. destruct (Hall n (or_introl eq_refl)) as (s & Hs & HP).
      destruct (HB s g HP) as (rs0 & x & Hx & HD). cbn [sample_loop]. rewrite Hs, Hx.
      destruct (IH (set n x v) (g ++ rs0) Hnd' (fun m Hm => Hall m (or_intror Hm))) as (v' & rss & E & Hl & Hout & Hin).
      exists v', (rs0 :: rss). split; [rewrite E; cbn [List.concat]; rewrite app_assoc; reflexivity|].
      split; [cbn [List.length]; congruence|]. split.
      + intros m Hm. rewrite Hout by (intros K; apply Hm; right; exact K). apply get_set_neq. intros ->. apply Hm. left. reflexivity.
      + intros i m rs Hi Hr. destruct i as [|i].
        * cbn [nth_error] in Hi, Hr. injection Hi as <-. injection Hr as <-. exists s, x. split; [exact Hs|].
          split; [rewrite (Hout n Hni); apply get_set_eq|]. cbn [firstn List.concat List.length]. rewrite Nat.add_0_r. exact HD.
        * cbn [nth_error] in Hi, Hr. destruct (Hin i m rs Hi Hr) as (s' & x' & A & B & C). exists s', x'. split; [exact A|]. split; [exact B|].
          cbn [firstn List.concat]. rewrite !app_length in *. rewrite Nat.add_assoc. exact C.
  Qed.

  Lemma sample_chain st g : NoDup (keys (p_values st)) ->
    (forall n, In n (keys (p_values st)) -> exists s, get n (p_config st) = Some s /\ P s) ->
    exists st' rss, sample _ body st g = (st', Ok (g ++ List.concat rss)) /\ each_its_own D answer st st' (List.length g) rss.
  Proof.
    intros Hnd Hall. destruct (loop_chain (p_config st) (keys (p_values st)) (p_values st) g Hnd Hall) as (v' & rss & E & Hl & _ & Hin).
    exists (with_values st v'), rss. unfold sample. rewrite E. split; [reflexivity|]. split; [exact Hl|exact Hin].
  Qed.
End Chain.

Lemma prior_draws answer sigmas s g : drawable sigmas s ->
  exists rs v, prior_value _ (rec_normal answer) (rec_uniform answer) sigmas s g = Ok (Some v, g ++ rs) /\
    drawn sigmas s rs (answers answer (List.length g) rs) v.
Proof.
  intros H. destruct H as [args m sd lo hi Ht Ha Hr Hm Hsd Hpos Hle|args ep en mu sp sn lo hi Ht Ha Hr Hmu Hep Hen Hsig Hsp Hsn Hle
    |args a b lo hi Ht Ha Hr Hla Hub Hle|args m sd lo hi Ht Ha Hr Hm Hsd Hpos Hle|args v Ht Ha Hv];
  unfold prior_value; rewrite Ha, Ht; cbn [key bind String.eqb Ascii.eqb Bool.eqb].
  - rewrite Hm, Hsd. cbn [key bind rec_normal]. destruct (Rlt_dec sd 0) as [C|_]; [lra|]. cbn [bind fst snd]. unfold clip_range. rewrite Hr.
    cbn [key bind fst snd]. eexists _, _. split; [reflexivity|]. cbn [answers]. eapply drawn_norm; eauto. apply clip_nearest; assumption.
  - rewrite Hep, Hen, Hmu. cbn [key bind]. rewrite Hsig. cbn [bind fst snd]. unfold draw_twohalf.
    replace (flt (Fin 0) (Fin sp) && flt (Fin 0) (Fin sn))%bool with true by (symmetry; apply andb_true_intro; split; cbn; destruct (Rlt_dec _ _); lra || reflexivity).
    cbn [rec_uniform bind fst snd rec_normal]. destruct (Rlt_dec 1 0) as [C|_]; [lra|]. cbn [bind fst snd].
    set (u := answer (List.length g) (AskUniform 0 1)). set (z := answer (List.length (g ++ [AskUniform 0 1])) (AskNormal 0 1)).
    assert (Hz : answers answer (List.length g) [AskUniform 0 1; AskNormal 0 1] = [u; z]).
    { unfold z. rewrite app_length. cbn [answers List.length]. rewrite Nat.add_1_r. reflexivity. }
    destruct (C41_samples u z mu sp sn Hsp Hsn) as [HA HB]. destruct (Rlt_dec u (sp / (sp + sn))) as [C|C].
    + rewrite (HA C). cbn [bind fst snd]. unfold clip_range. rewrite Hr. cbn [key bind fst snd]. rewrite <- app_assoc.
      eexists [AskUniform 0 1; AskNormal 0 1], _. split; [reflexivity|]. rewrite Hz. eapply drawn_above; eauto. apply clip_nearest; assumption.
    + rewrite (HB ltac:(lra)). cbn [bind fst snd]. unfold clip_range. rewrite Hr. cbn [key bind fst snd]. rewrite <- app_assoc.
      eexists [AskUniform 0 1; AskNormal 0 1], _. split; [reflexivity|]. rewrite Hz. eapply drawn_below; eauto; [lra|]. apply clip_nearest; assumption.
  - rewrite Hla, Hub. cbn [key bind rec_uniform fst snd]. unfold clip_range. rewrite Hr.
    cbn [key bind fst snd]. eexists _, _. split; [reflexivity|]. cbn [answers]. eapply drawn_uniform; eauto. apply clip_nearest; assumption.
  - rewrite Hm, Hsd. cbn [key bind rec_normal]. destruct (Rlt_dec sd 0) as [C|_]; [lra|]. cbn [bind fst snd]. unfold clip_range. rewrite Hr.
    cbn [key bind fst snd]. eexists _, _. split; [reflexivity|]. cbn [answers]. eapply drawn_free; eauto. apply clip_nearest; assumption.
  - rewrite Hv. cbn [key bind]. exists [], v. rewrite app_nil_r. split; [reflexivity|]. eapply drawn_fixed; eauto.
Qed.
Lemma init_draws answer s g : startable s ->
  exists rs v, init_value _ (rec_normal answer) s g = Ok (Some v, g ++ rs) /\ started s rs (answers answer (List.length g) rs) v.
Proof.
  intros H. destruct H as [ty args m sd lo hi Ht Hne Ha Hr Hm Hsd Hpos Hle|args v Ht Ha Hv];
  unfold init_value; rewrite Ha, Ht; cbn [key bind].
  - apply String.eqb_neq in Hne. pose proof Hne as Hne2. rewrite Hne. apply String.eqb_neq in Hne2.
    rewrite Hm, Hsd. cbn [key bind rec_normal]. destruct (Rlt_dec sd 0) as [C|_]; [lra|]. cbn [bind fst snd]. unfold clip_range. rewrite Hr.
    cbn [key bind fst snd]. eexists _, _. split; [reflexivity|]. cbn [answers]. eapply started_guess; eauto. apply clip_nearest; assumption.
  - cbn [String.eqb Ascii.eqb Bool.eqb]. rewrite Hv. cbn [key bind]. exists [], v. rewrite app_nil_r. split; [reflexivity|]. eapply started_fixed; eauto.
Qed.

(** The parameters are drawn in order, each from its prior, with the next numbers of the generator: nothing is drawn
    twice, nothing is skipped. *)
Theorem C132_prior answer sigmas st g : NoDup (keys (p_values st)) ->
  (forall n, In n (keys (p_values st)) -> exists s, get n (p_config st) = Some s /\ drawable sigmas s) ->
  exists st' rss, sample_prior _ (rec_normal answer) (rec_uniform answer) sigmas st g = (st', Ok (g ++ List.concat rss)) /\
    each_its_own (drawn sigmas) answer st st' (List.length g) rss.
Proof. intros Hn Hd. apply (sample_chain answer _ (drawn sigmas) (drawable sigmas)); [|exact Hn|exact Hd]. intros s g0. apply prior_draws. Qed.

Theorem C132_init answer st g : NoDup (keys (p_values st)) ->
  (forall n, In n (keys (p_values st)) -> exists s, get n (p_config st) = Some s /\ startable s) ->
  exists st' rss, sample_init _ (rec_normal answer) st g = (st', Ok (g ++ List.concat rss)) /\
    each_its_own started answer st st' (List.length g) rss.
Proof. intros Hn Hd. apply (sample_chain answer _ started startable); [|exact Hn|exact Hd]. intros s g0. apply init_draws. Qed.

(** The requests of a parameter are fixed by its setting. *)
Lemma drawn_requests sigmas s rs xs v rs' xs' v' : drawn sigmas s rs xs v -> drawn sigmas s rs' xs' v' -> rs = rs'.
Proof. intros H H'. destruct H, H'; try reflexivity; congruence. Qed.
Lemma nearest_unique s x v v' : (forall lo hi, s_range s = Some (lo, hi) -> fle lo hi = true) -> nearest s x v -> nearest s x v' -> v = v'.
Proof.
  intros Hle (lo & hi & Hr & A & B & C) (lo' & hi' & Hr' & A' & B' & C'). rewrite Hr in Hr'. injection Hr' as <- <-.
  destruct (fle lo (Fin x)) eqn:H1; [|rewrite B, B' by reflexivity; reflexivity].
  destruct (fle (Fin x) hi) eqn:H2; [|rewrite C, C' by reflexivity; reflexivity]. rewrite A, A' by reflexivity. reflexivity.
Qed.
Lemma drawn_value sigmas s rs xs v rs' v' : (forall lo hi, s_range s = Some (lo, hi) -> fle lo hi = true) ->
  drawn sigmas s rs xs v -> drawn sigmas s rs' xs v' -> v = v'.
Proof.
  intros Hle H H'. destruct H; inversion H'; subst; try congruence;
  repeat match goal with
  | A : s_args s = Some _, B : s_args s = Some _ |- _ => rewrite A in B; injection B as <-
  | A : get ?k ?d = Some _, B : get ?k ?d = Some _ |- _ => rewrite A in B; injection B as <-
  | A : sigmas ?k ?d = _, B : sigmas ?k ?d = _ |- _ => rewrite A in B; injection B as <- <-
  end; try (eapply nearest_unique; eassumption); try (exfalso; lra); try reflexivity.
Qed.

(** So the value of a parameter depends on its own numbers only: a generator that answers the other requests differently
    gives it the same value. *)
Theorem C132_independent answer answer' sigmas st g st1 st2 rss g2 i n : NoDup (keys (p_values st)) ->
  (forall n, In n (keys (p_values st)) -> exists s, get n (p_config st) = Some s /\ drawable sigmas s) ->
  (forall n s lo hi, get n (p_config st) = Some s -> s_range s = Some (lo, hi) -> fle lo hi = true) ->
  sample_prior _ (rec_normal answer) (rec_uniform answer) sigmas st g = (st1, Ok (g ++ List.concat rss)) ->
  each_its_own (drawn sigmas) answer st st1 (List.length g) rss ->
  sample_prior _ (rec_normal answer') (rec_uniform answer') sigmas st g = (st2, g2) ->
  nth_error (keys (p_values st)) i = Some n ->
  (forall j r, (List.length (List.concat (firstn i rss)) <= j < List.length (List.concat (firstn (S i) rss)))%nat ->
     answer (List.length g + j)%nat r = answer' (List.length g + j)%nat r) ->
  get n (p_values st1) = get n (p_values st2) /\ g2 = Ok (g ++ List.concat rss).
Proof.
  intros Hnd Hd Hle _ (L1 & H1) E2 Hi Hans.
  destruct (C132_prior answer' sigmas st g Hnd Hd) as (st' & rss' & E' & L2 & H2). rewrite E' in E2. injection E2 as <- <-.
  assert (Hrs : forall k, nth_error rss k = nth_error rss' k).
  { intros k. destruct (nth_error rss k) as [rs|] eqn:Hk; [|symmetry; apply nth_error_None; apply nth_error_None in Hk; congruence].
    assert (Hlt : (k < List.length rss)%nat) by (apply nth_error_Some; rewrite Hk; discriminate).
    destruct (nth_error (keys (p_values st)) k) as [m|] eqn:Hm; [|apply nth_error_None in Hm; lia].
    destruct (nth_error rss' k) as [rs'|] eqn:Hk'; [|apply nth_error_None in Hk'; lia].
    destruct (H1 k m rs Hm Hk) as (s & v & Hs & _ & D1). destruct (H2 k m rs' Hm Hk') as (s' & v' & Hs' & _ & D2).
    rewrite Hs in Hs'. injection Hs' as <-. f_equal. exact (drawn_requests _ _ _ _ _ _ _ _ D1 D2). }
  assert (Heq : rss' = rss).
  { clear - Hrs. revert rss' Hrs. induction rss as [|a rss IH]; intros [|b rss'] H; [reflexivity|specialize (H 0%nat); discriminate|specialize (H 0%nat); discriminate|].
    pose proof (H 0%nat) as H0. injection H0 as <-. f_equal. apply IH. intros k. exact (H (S k)). }
  subst rss'. split; [|reflexivity].
  destruct (nth_error rss i) as [rs|] eqn:Hk; [|exfalso; apply nth_error_None in Hk; assert ((i < List.length (keys (p_values st)))%nat) by (apply nth_error_Some; rewrite Hi; discriminate); lia].
  destruct (H1 i n rs Hi Hk) as (s & v & Hs & Hv & D1). destruct (H2 i n rs Hi Hk) as (s' & v' & Hs' & Hv' & D2).
  rewrite Hs in Hs'. injection Hs' as <-. rewrite Hv, Hv'. f_equal.
  assert (Ha : answers answer (List.length g + List.length (List.concat (firstn i rss)))%nat rs = answers answer' (List.length g + List.length (List.concat (firstn i rss)))%nat rs).
  { assert (Hlen : List.length (List.concat (firstn (S i) rss)) = (List.length (List.concat (firstn i rss)) + List.length rs)%nat).
    { clear - Hk. revert i Hk. induction rss as [|a rss IH]; intros [|i] Hk; try discriminate.
      - injection Hk as ->. cbn [firstn List.concat]. rewrite app_length. cbn [List.length]. lia.
      - cbn [nth_error] in Hk. cbn [firstn List.concat] in *. rewrite !app_length. rewrite (IH i Hk). lia. }
    rewrite Hlen in Hans. clear - Hans. revert Hans. generalize (List.length (List.concat (firstn i rss))). induction rs as [|r rs IH]; intros k Hans; [reflexivity|].
    cbn [answers]. f_equal; [apply Hans; cbn [List.length]; lia|]. rewrite plus_n_Sm. apply IH. intros j r' Hj. apply Hans. cbn [List.length]. lia. }
  rewrite Ha in D1. eapply drawn_value; [|exact D1|exact D2]. intros lo hi. exact (Hle n s lo hi Hs).
Qed.

(** Five parameters with one prior of each kind: five numbers are drawn, the fixed parameter takes none; the second and
    third number make "gas". *)
Example C132_case answer : NoDup (keys (p_values ex_state)) /\
  (forall n, In n (keys (p_values ex_state)) -> exists s, get n (p_config ex_state) = Some s /\ drawable ex_sigmas s) /\
  exists st' rss, sample_prior _ (rec_normal answer) (rec_uniform answer) ex_sigmas ex_state [] = (st', Ok (List.concat rss)) /\
    each_its_own (drawn ex_sigmas) answer ex_state st' 0 rss /\
    map (@List.length request) rss = [1; 2; 1; 1; 0]%nat.
Proof.
  assert (Hn : NoDup (keys (p_values ex_state))).
  { cbn. repeat constructor; intros H; repeat (destruct H as [H|H]; [discriminate|]); destruct H. }
  assert (Hd : forall n, In n (keys (p_values ex_state)) -> exists s, get n (p_config ex_state) = Some s /\ drawable ex_sigmas s).
  { intros n H. change (p_config ex_state) with ex_cfg. destruct (get n ex_cfg) as [s|] eqn:Es; [exists s; split; [reflexivity|exact (ex_drawable n s Es)]|].
    cbn in H. repeat (destruct H as [<-|H]; [discriminate Es|]). destruct H. }
  split; [exact Hn|]. split; [exact Hd|].
  destruct (C132_prior answer ex_sigmas ex_state [] Hn Hd) as (st' & rss & E & HE). exists st', rss. split; [exact E|]. split; [exact HE|].
  destruct HE as [Hl HE]. cbn in Hl.
  destruct rss as [|r0 [|r1 [|r2 [|r3 [|r4 [|]]]]]]; try discriminate Hl.
  pose proof (HE 0%nat _ _ eq_refl eq_refl) as (s0 & v0 & A0 & _ & D0). pose proof (HE 1%nat _ _ eq_refl eq_refl) as (s1 & v1 & A1 & _ & D1).
  pose proof (HE 2%nat _ _ eq_refl eq_refl) as (s2 & v2 & A2 & _ & D2). pose proof (HE 3%nat _ _ eq_refl eq_refl) as (s3 & v3 & A3 & _ & D3).
  pose proof (HE 4%nat _ _ eq_refl eq_refl) as (s4 & v4 & A4 & _ & D4).
  injection A0 as <-. injection A1 as <-. injection A2 as <-. injection A3 as <-. injection A4 as <-.
  assert (L0 : List.length r0 = 1%nat) by (clear - D0; inversion D0; discriminate || reflexivity).
  assert (L1 : List.length r1 = 2%nat) by (clear - D1; inversion D1; discriminate || reflexivity).
  assert (L2 : List.length r2 = 1%nat) by (clear - D2; inversion D2; discriminate || reflexivity).
  assert (L3 : List.length r3 = 1%nat) by (clear - D3; inversion D3; discriminate || reflexivity).
  assert (L4 : List.length r4 = 0%nat) by (clear - D4; inversion D4; discriminate || reflexivity).
  cbn [map]. rewrite L0, L1, L2, L3, L4. reflexivity.
Qed.

Print Assumptions C132_prior.
Print Assumptions C132_init.
Print Assumptions C132_independent.
