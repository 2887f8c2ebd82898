(** Lemmas about fits (C100, C101), second part: starting positions, backends, and fitting. *)
From Coq Require Import Reals Lra Lia Permutation.
From Verif Require Import Base BaseFacts ModelFloat ProofFloat ModelParameter ModelLikelihood ModelContext ModelFit
  SpecParameter SpecLikelihood SpecContext SpecFit ProofParameter ProofParameter2 ProofContext ProofFit.
Local Open Scope string_scope.
Local Open Scope list_scope.

Lemma get_list_ok (v : dict fl) l : (forall n, In n l -> In n (keys v)) ->
  exists xs, get_list v l = Ok xs /\ Forall2 (fun n x => get n v = Some x) l xs.
Proof.
  induction l as [|n l IH]; intros H; [exists []; split; [reflexivity|constructor]|].
  destruct (proj1 (get_In_keys n v) (H n (or_introl eq_refl))) as (x & Ex).
  destruct IH as (xs & E & F); [intros m Hm; apply H; right; exact Hm|].
  exists (x :: xs). cbn [get_list]. rewrite Ex, E. split; [reflexivity|]. constructor; assumption.
Qed.

Lemma Forall2_impl2 {A B} (P Q : A -> B -> Prop) l l' : (forall a b, In a l -> P a b -> Q a b) -> Forall2 P l l' -> Forall2 Q l l'.
Proof.
  intros H F. induction F as [|a b l l' Hab F IH]; constructor.
  - apply H; [left; reflexivity|exact Hab].
  - apply IH. intros; apply H; [right|]; assumption.
Qed.

Lemma Forall2_len {A B} (P : A -> B -> Prop) l l' : Forall2 P l l' -> List.length l' = List.length l.
Proof. induction 1; cbn; congruence. Qed.

(** States with the same configuration, whatever the values. *)
Definition same_frame (st st' : pstate) : Prop :=
  p_config st' = p_config st /\ p_fit st' = p_fit st /\ p_fixed st' = p_fixed st /\ keys (p_values st') = keys (p_values st).

Lemma frame_trans a b c : same_frame a b -> same_frame b c -> same_frame a c.
Proof. intros (A1 & A2 & A3 & A4) (B1 & B2 & B3 & B4). repeat split; congruence. Qed.
Lemma frame_manages a b : same_frame a b -> manages a -> manages b.
Proof. intros (A1 & A2 & A3 & A4) (B1 & B2 & B3 & B4). unfold manages. rewrite A1, A2, A4. auto. Qed.
Lemma frame_names a b : same_frame a b -> parameter_fit b = parameter_fit a.
Proof. intros (_ & A & _). unfold parameter_fit. rewrite A. reflexivity. Qed.
Lemma same_is_frame a b : same_but_fit a b -> same_frame a b.
Proof. intros (A1 & A2 & A3 & A4 & _). repeat split; assumption. Qed.

(** Every parameter has a usable setting. *)
Definition startable_cfg (cfg : dict setting) : Prop := forall n s, get n cfg = Some s -> startable s.

Lemma free_setting st n : manages st -> In n (p_fit st) -> exists s ty, get n (p_config st) = Some s /\ s_type s = Some ty /\ ty <> "fixed".
Proof.
  intros (_ & Hn & _ & F) H. apply F in H. destruct H as (s & ty & Hi & Ht & Hx). exists s, ty. split; [|auto].
  apply In_get; assumption.
Qed.

Lemma start_ranges st : manages st -> startable_cfg (p_config st) -> forall n, In n (parameter_fit st) -> exists s lo hi,
  get n (p_config st) = Some s /\ s_range s = Some (lo, hi) /\ fle lo hi = true.
Proof.
  intros M S n Hn. apply fit_in in Hn. destruct (free_setting st n M Hn) as (s & ty & Es & Et & Hx).
  destruct (S n s Es) as [ty' args m sd lo hi A1 A2 A3 A4 A5 A6 A7 A8|args v A1 A2 A3].
  - exists s, lo, hi. auto.
  - rewrite A1 in Et. injection Et as <-. exfalso. apply Hx. reflexivity.
Qed.

Section Starts.
  Variable Rng : Type.
  Variable normal : fl -> fl -> Rng -> result (fl * Rng).
  Hypothesis normal_ok : forall m sd g, (0 < sd)%R -> exists v g', normal (Fin m) (Fin sd) g = Ok (Fin v, g').

  Lemma init_ok st g : manages st -> startable_cfg (p_config st) ->
    exists st' g' q, sample_init Rng normal st g = (st', Ok g') /\ same_frame st st' /\
      parameter_fit_array st' = Ok q /\
      Forall2 (fun n v => exists s, get n (p_config st) = Some s /\ in_range s v) (parameter_fit st) q /\
      forall n s, get n (p_config st) = Some s -> exists v, get n (p_values st') = Some v /\ sampled_ok s v.
  Proof.
    intros M S.
    assert (D : draws_finite normal (fun _ _ g => Ok (Fin 0, g))).
    { split; [exact normal_ok|]. intros a b g0. exists 0%R, g0. reflexivity. }
    pose proof M as (M1 & M2 & M3 & M4).
    destruct (sample_all Rng (init_value Rng normal) startable st g) as (st' & g' & E & F1 & F2 & F3 & F4 & F5).
    { intros s g0. apply (init_value_ok Rng normal _ D). }
    { rewrite M3. exact M2. }
    { intros n Hn. rewrite M3 in Hn. apply get_In_keys in Hn. destruct Hn as (s & Es). exists s. split; [exact Es|apply (S n s Es)]. }
    assert (FR : same_frame st st') by (repeat split; assumption).
    assert (V : forall n s, get n (p_config st) = Some s -> exists v, get n (p_values st') = Some v /\ sampled_ok s v).
    { intros n s Es. destruct (F5 n) as (s' & v & Es' & Ev & Ok').
      - rewrite M3. apply get_In_keys. exists s. exact Es.
      - rewrite Es in Es'. injection Es' as <-. exists v. auto. }
    destruct (get_list_ok (p_values st') (parameter_fit st)) as (q & Eq & Fq).
    { intros n Hn. rewrite F4. apply fit_known; assumption. }
    exists st', g', q. split; [exact E|]. split; [exact FR|]. split.
    - unfold parameter_fit_array, get_parameter, check_exist, getitem. rewrite (frame_names _ _ FR).
      replace (forallb _ (parameter_fit st)) with true; [cbn [bind]; exact Eq|].
      symmetry. apply forallb_has. intros n Hn. rewrite F4. apply fit_known; assumption.
    - split; [|exact V]. eapply Forall2_impl2; [|exact Fq]. intros n v Hn Hv. cbn in Hv.
      destruct (free_setting st n M (proj1 (fit_in _ _) Hn)) as (s & ty & Es & Et & Hx).
      exists s. split; [exact Es|]. destruct (V n s Es) as (v' & Ev & Ok'). rewrite Hv in Ev. injection Ev as <-.
      unfold sampled_ok in Ok'. rewrite Et in Ok'. destruct (String.eqb ty "fixed") eqn:Ef; [apply eqb_true in Ef; congruence|apply Ok'].
  Qed.

  Lemma starts_ok n : forall st g, manages st -> startable_cfg (p_config st) ->
    exists st' g' p0, starts Rng normal n st g = (st', g', Ok p0) /\ same_frame st st' /\ List.length p0 = n /\
      Forall (Forall2 (fun n v => exists s, get n (p_config st) = Some s /\ in_range s v) (parameter_fit st)) p0 /\
      (0 < n -> forall n s, get n (p_config st) = Some s -> exists v, get n (p_values st') = Some v /\ sampled_ok s v)%nat.
  Proof.
    induction n as [|n IH]; intros st g M S; cbn [starts].
    - exists st, g, []. repeat split; try constructor. intros H. exfalso. lia.
    - destruct (init_ok st g M S) as (st1 & g1 & q & E & F & Eq & Fq & V). rewrite E, Eq.
      destruct (IH st1 g1) as (st2 & g2 & p0 & E2 & F2 & L2 & Q2 & V2).
      { eapply frame_manages; eassumption. }
      { destruct F as (-> & _). exact S. }
      rewrite E2. cbn [bind]. exists st2, g2, (q :: p0). split; [reflexivity|]. split; [eapply frame_trans; eassumption|].
      split; [cbn; congruence|]. pose proof F as (Fc & _). split.
      + constructor; [exact Fq|]. rewrite (frame_names _ _ F), Fc in Q2. exact Q2.
      + intros _ m s Es. destruct n as [|n].
        * cbn in E2. injection E2 as <- <- <-. apply V, Es.
        * apply V2; [lia|]. rewrite Fc. exact Es.
  Qed.
End Starts.

Section Begin.
  Variables K Rng : Type.
  Variable sigmas : fl -> fl -> result (fl * fl).
  Variable ls : dict (llh_fun K).
  Variable fresh : nat -> nat -> K.
  Variable independent : list (list fl) -> result bool.
  Variables batch times : nat.
  Variable st0 : pstate.
  Hypothesis M0 : manages st0.
  Hypothesis R0 : forall n, In n (parameter_fit st0) -> exists s lo hi,
    get n (p_config st0) = Some s /\ s_range s = Some (lo, hi) /\ fle lo hi = true.

  Lemma begin_ok nw skip p0 c g e r :
    Forall (Forall2 (fun n v => exists s, get n (p_config st0) = Some s /\ in_range s v) (parameter_fit st0)) p0 ->
    begin_run K Rng sigmas ls fresh independent batch times (parameter_fit st0) nw skip (Positions Rng p0) (st0, c) g = (e, r) ->
    same_but_fit st0 (fst e) /\
    (forall ws g', r = Ok (ws, g') -> Forall (good K sigmas ls fresh batch times st0) ws /\ List.length ws = nw /\ nw <> 0%nat /\ map w_pos ws = p0 /\ g' = g).
  Proof.
    intros F H. cbn [begin_run] in H.
    destruct (negb (Nat.eqb nw 0) && Nat.eqb (List.length p0) nw && forallb _ p0) eqn:Es in H; cbn [negb] in H;
      [|injection H as <- <-; split; [apply same_refl|discriminate]].
    destruct (if skip then Ok true else independent p0) as [[|]|] eqn:Ei in H;
      [|injection H as <- <-; split; [apply same_refl|discriminate]..].
    assert (L0 : Forall (fun q => List.length q = List.length (parameter_fit st0)) p0).
    { eapply Forall_impl; [|exact F]. intros q Hq. apply (Forall2_len _ _ _ Hq). }
    destruct (compute_log_prob K sigmas ls fresh batch times (parameter_fit st0) (st0, c) p0) as [e1 r1] eqn:Ec.
    destruct (compute_ok K sigmas ls fresh batch times st0 M0 R0 p0 st0 c e1 r1 (same_refl _) L0 Ec) as (S1 & O1).
    destruct r1 as [rs|err]; injection H as <- <-; (split; [exact S1|]); intros ws g' E; [|discriminate E].
    injection E as <- <-. specialize (O1 _ eq_refl). apply andb_prop in Es. destruct Es as [Es _]. apply andb_prop in Es.
    destruct Es as [E0 E1]. apply Nat.eqb_eq in E1. apply Bool.negb_true_iff, Nat.eqb_neq in E0.
    pose proof (Forall2_len _ _ _ O1) as Lr.
    split; [|split; [rewrite map_length, combine_length, Lr, Nat.min_id; exact E1|split; [exact E0|split; [|reflexivity]]]].
    - clear -O1 F. revert F. induction O1 as [|q y p0 rs (Hy & Hn & Hf) O1 IH]; intros F; cbn [combine map]; [constructor|].
      inversion F as [|? ? Fq F']; subst. constructor; [|apply IH, F']. cbn [fst snd]. split; [apply Hy|]. split; [|exact Hn].
      cbn [w_pos]. unfold allowed. rewrite forallb_forall in Hf. clear -Fq Hf.
      induction Fq as [|n v l q (s & Es & Hr) Fq IH]; [constructor|]. constructor.
      + assert (Hv : is_fin v = true) by (apply Hf; left; reflexivity). destruct v as [r| | |]; try discriminate Hv. exists s, r. auto.
      + apply IH. intros; apply Hf; right; assumption.
    - clear -Lr. revert rs Lr. induction p0 as [|q p0 IH]; intros [|y rs] L; try discriminate L; [reflexivity|].
      cbn [combine map fst w_pos]. f_equal. apply IH. cbn in L. lia.
  Qed.
End Begin.

(* ------------------------------------------------------------------ *)
(** * Writing the attributes *)

Section Meta.
  Variable Rng : Type.
  Implicit Types x : fctx Rng.

  (** Two contexts that differ at most in the attributes in the file and in the cache. *)
  Definition same_run (x x' : fctx Rng) : Prop :=
    x_pars Rng x' = x_pars Rng x /\ x_needed Rng x' = x_needed Rng x /\ x_h5 Rng x' = x_h5 Rng x /\
    x_sampler Rng x' = x_sampler Rng x /\ x_global Rng x' = x_global Rng x /\ x_calls Rng x' = x_calls Rng x /\
    option_map (fun b => (b_shape Rng b, b_steps Rng b, b_rng Rng b)) (x_file Rng x')
    = option_map (fun b => (b_shape Rng b, b_steps Rng b, b_rng Rng b)) (x_file Rng x).

  Lemma run_refl x : same_run x x.
  Proof. repeat split. Qed.

  Lemma run_trans x y z : same_run x y -> same_run y z -> same_run x z.
  Proof.
    intros (A1 & A2 & A3 & A4 & A5 & A6 & A7) (B1 & B2 & B3 & B4 & B5 & B6 & B7). unfold same_run. repeat split; congruence.
  Qed.

  Lemma run_recorded x x' s : same_run x x' -> recorded x' s = recorded x s.
  Proof.
    intros (_ & _ & _ & _ & _ & _ & H). unfold recorded. destruct (s_mem Rng s); [reflexivity|].
    destruct (x_file Rng x') as [b'|], (x_file Rng x) as [b|]; try discriminate H; [|reflexivity]. injection H as _ H _. exact H.
  Qed.

  Lemma set_meta_run x f : same_run x (set_meta Rng x f).
  Proof. unfold set_meta, with_file. repeat split. cbn. destruct (x_file Rng x); reflexivity. Qed.

  Lemma set_meta_cache x f : x_cache Rng (set_meta Rng x f) = x_cache Rng x.
  Proof. reflexivity. Qed.

  Lemma post_run w x x' r : post_parameters Rng w x = (x', r) -> same_run x x'.
  Proof.
    unfold post_parameters. destruct (x_sampler Rng x) as [s|] eqn:Es; [|intros H; injection H as <- <-; apply run_refl].
    destruct (get_post_parameters _ _ _ _) as [[f d]|err]; intros H; injection H as <- <-; [|apply run_refl].
    unfold same_run. cbn. repeat split. congruence.
  Qed.

  Lemma dump_run batch x x' r : dump_meta Rng batch x = (x', r) -> same_run x x'.
  Proof.
    unfold dump_meta. destruct (x_h5 Rng x); [|intros H; injection H as <- <-; apply run_refl].
    destruct (post_parameters Rng Mpe _) as [x2 r2] eqn:E. pose proof (post_run _ _ _ _ E) as P.
    destruct r2 as [d|err]; intros H; injection H as <- <-.
    - eapply run_trans; [|apply set_meta_run]. eapply run_trans; [apply set_meta_run|exact P].
    - eapply run_trans; [apply set_meta_run|exact P].
  Qed.

  Lemma finish_run batch x r x' r' : finish Rng batch (x, r) = (x', r') -> same_run x x' /\ (forall y, r' = Ok y -> r = Ok y).
  Proof.
    unfold finish. destruct r as [res|err].
    - destruct (dump_meta Rng batch x) as [x2 r2] eqn:E. pose proof (dump_run _ _ _ _ E) as P.
      destruct r2; intros H; injection H as <- <-; (split; [exact P|]); [auto|discriminate].
    - intros H. injection H as <- <-. split; [apply run_refl|auto].
  Qed.
End Meta.
