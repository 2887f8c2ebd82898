(** Lemmas about reading a chain (C103), second part. *)
From Coq Require Import Reals Lra Lia Permutation.
From Verif Require Import Base BaseFacts ModelFloat ProofFloat ModelParameter ModelLikelihood ModelContext ModelFit
  SpecParameter SpecLikelihood SpecContext SpecFit SpecPost ProofParameter ProofParameter2 ProofContext ProofFit ProofFit2 ProofFit3 ProofFit4 ProofFit5 ProofFit6 ProofFit7 ProofPost.
Local Open Scope string_scope.
Local Open Scope list_scope.

Lemma column_values c j rs : column c j rs -> map (fun s : list fl * fl => nth j (fst s) NaN) c = map Fin rs.
Proof.
  induction 1 as [|s r c rs H _ IH]; [reflexivity|]. cbn. rewrite IH. f_equal. apply nth_error_nth. exact H.
Qed.

Lemma column_length c j rs : column c j rs -> List.length c = List.length rs.
Proof. induction 1; cbn; congruence. Qed.

Lemma column_exists (c : chain) k j : (forall v lp, In (v, lp) c -> List.length v = k /\ forall x, In x v -> exists r, x = Fin r) -> j < k ->
  exists rs, column c j rs.
Proof.
  intros H Hj. induction c as [|[v lp] c IH]; [exists []; constructor|]. destruct IH as [rs Hrs]; [intros v' lp' Hi; apply (H v' lp'); right; exact Hi|].
  destruct (H v lp (or_introl eq_refl)) as [Hl Hf]. destruct (nth_error v j) as [y|] eqn:E.
  - destruct (Hf y (nth_error_In _ _ E)) as [r ->]. exists (r :: rs). constructor; [exact E|exact Hrs].
  - apply nth_error_None in E. lia.
Qed.

(** The medians of a chain of finite numbers. *)
Lemma medians_ok (c : chain) k : c <> [] ->
  (forall v lp, In (v, lp) c -> List.length v = k /\ forall x, In x v -> exists r, x = Fin r) ->
  List.length (medians c) = k /\
  forall j, j < k -> exists m, nth_error (medians c) j = Some (Fin m) /\ forall rs, column c j rs -> is_median rs m.
Proof.
  intros Hc H. destruct c as [|[v0 lp0] c0] eqn:E; [congruence|]. rewrite <- E in *.
  assert (Hv0 : List.length v0 = k) by (apply (H v0 lp0); rewrite E; left; reflexivity).
  assert (M : medians c = map (fun j => np_median (map (fun s : list fl * fl => nth j (fst s) NaN) c)) (seq 0 k)) by (rewrite E, <- Hv0; reflexivity).
  rewrite M, map_length, seq_length. split; [reflexivity|]. intros j Hj. rewrite nth_error_map.
  assert (Es : nth_error (seq 0 k) j = Some j).
  { rewrite (nth_error_nth' _ 0) by (rewrite seq_length; exact Hj). rewrite seq_nth by exact Hj. reflexivity. }
  rewrite Es. cbn [option_map]. destruct (column_exists c k j H Hj) as [rs Hrs].
  assert (Hr : rs <> []) by (apply column_length in Hrs; rewrite E in Hrs; destruct rs; [discriminate Hrs|discriminate]).
  rewrite (column_values c j rs Hrs), (median_Fin rs Hr). exists (rmedian rs). split; [reflexivity|]. intros rs' Hrs'.
  assert (Er : rs' = rs).
  { pose proof (column_values c j rs Hrs) as E1. pose proof (column_values c j rs' Hrs') as E2. rewrite E1 in E2. clear - E2.
    revert rs' E2. induction rs as [|a rs IH]; intros [|b rs'] E2; try discriminate E2; [reflexivity|]. cbn in E2. injection E2 as -> E2. f_equal. apply IH, E2. }
  rewrite Er. apply rmedian_ok, Hr.
Qed.

Section Reading.
  Variable Rng : Type.

  Lemma post_any w x s c v : x_sampler Rng x = Some s -> reads Rng x s c -> chosen w c = Ok v ->
    post_parameters Rng w x = (with_cache Rng x c, Ok (update (p_values (x_pars Rng x)) (combine (s_names Rng s) v))).
  Proof.
    intros Es Hr Hv. unfold post_parameters. rewrite Es. destruct Hr as [Hr|(Hr & Hx & ->)].
    - rewrite (read_cached _ _ _ _ c) by exact Hr. rewrite Hv. cbn [bind]. unfold with_cache. cbn [as_fitctx f_cache]. rewrite Hr, Es. reflexivity.
    - rewrite (read_uncached _ _ _ _ (flat (recorded x s))); [|exact Hr|cbn; rewrite (stored_recorded Rng x s Hx); reflexivity].
      rewrite Hv. cbn [bind]. unfold with_cache. cbn [f_cache]. rewrite Es. reflexivity.
  Qed.
End Reading.

Section Fitted.
  Variables K Rng : Type.
  Variable normal : fl -> fl -> Rng -> result (fl * Rng).
  Variable sigmas : fl -> fl -> result (fl * fl).
  Variable ls : dict (llh_fun K).
  Variable fresh : nat -> nat -> K.
  Variable independent : list (list fl) -> result bool.
  Notation fit := (fitting K Rng normal sigmas ls fresh independent).

  (** The chain that a context reads after its first fit. *)
  Lemma fit_reads nw n b t mv x x' res : normal_finite normal -> fittable x ->
    moves_in (List.length (parameter_fit (x_pars Rng x))) mv -> x_cache Rng x = None -> (0 < n)%nat -> fit nw n b t mv x = (x', Ok res) ->
    exists s, x_sampler Rng x' = Some s /\ reads Rng x' s (flat (recorded x' s)).
  Proof.
    intros Hr (M & S & Hs) Hm Hc Hn H. apply sanity_ok in Hs.
    destruct (fit_ok K Rng normal sigmas ls fresh independent Hr nw n b t mv x x' (Ok res) M S Hs Hm H) as (F & Hh' & V & s & first & Es & En & G & _ & _ & O).
    destruct (O res eq_refl) as [O1 O2]. exists s. split; [exact Es|]. destruct (x_h5 Rng x) eqn:Eh.
    - destruct (fit_exact K Rng normal sigmas ls fresh independent Hr nw n b t mv x x' res M S Hs Hm Eh Hc Hn H)
        as (st0 & g0 & p0 & e & ws0 & g1 & e1 & saved & ws2 & g2 & s1 & bk & pre & _ & _ & _ & _ & _ & _ & _ & _ & _ & _ & _ & X4 & X5 & _ & _ & X8 & (_ & B2 & _) & E1 & _ & X9 & X10 & _).
      rewrite Es in X4. injection X4 as <-. assert (Rc : recorded x' s = map fst saved) by (unfold recorded; rewrite X5, X8, B2; symmetry; exact E1).
      rewrite Rc. left. exact X9.
    - right. split; [rewrite (fit_cache K Rng normal sigmas ls fresh independent Hr nw n b t mv x x' _ M S Hs Eh H); exact Hc|].
      split; [|reflexivity]. intros E. rewrite E in O1. cbn in O1. lia.
  Qed.
End Fitted.

Lemma flat_length l k : (forall ws, In ws l -> List.length ws = k) -> List.length (flat l) = List.length l * k.
Proof.
  intros H. unfold flat. rewrite map_length. induction l as [|ws l IH]; [reflexivity|]. cbn [List.concat]. rewrite app_length, IH.
  - rewrite (H ws (or_introl eq_refl)). cbn. reflexivity.
  - intros ws' Hi. apply H. right. exact Hi.
Qed.

Lemma in_flat_nth l i v lp : nth_error (flat l) i = Some (v, lp) -> exists w, nth_error (List.concat l) i = Some w /\ w_pos w = v /\ w_logp w = lp.
Proof.
  unfold flat. rewrite nth_error_map. destruct (nth_error (List.concat l) i) as [w|]; [|discriminate]. cbn. intros E. injection E as <- <-. exists w. auto.
Qed.

(** A range that contains two numbers contains all between them. *)
Lemma range_between s a b m : in_range s (Fin a) -> in_range s (Fin b) -> (a <= m <= b)%R -> in_range s (Fin m).
Proof.
  intros (lo & hi & E & A & _) (lo' & hi' & E' & _ & B) H. rewrite E in E'. injection E' as <- <-. exists lo, hi. split; [exact E|]. split.
  - eapply fle_trans; [exact A|]. apply fle_Fin. lra.
  - eapply fle_trans; [|exact B]. apply fle_Fin. lra.
Qed.

Lemma allowed_nth cfg names q j n : allowed cfg names q -> nth_error names j = Some n ->
  exists s r, get n cfg = Some s /\ nth_error q j = Some (Fin r) /\ in_range s (Fin r).
Proof.
  intros H. revert j. induction H as [|m v names q Hm _ IH]; intros [|j] Hj; try discriminate Hj.
  - injection Hj as ->. destruct Hm as (s & r & E & -> & Hr). exists s, r. auto.
  - apply IH, Hj.
Qed.

Lemma allowed_finite cfg names q : allowed cfg names q -> List.length q = List.length names /\ forall x, In x q -> exists r, x = Fin r.
Proof.
  induction 1 as [|m v names q Hm _ (L & F)]; [split; [reflexivity|intros x []]|]. split; [cbn; congruence|]. intros x [<-|Hx]; [|apply F, Hx].
  destruct Hm as (s & r & _ & -> & _). exists r. reflexivity.
Qed.

Lemma allowed_from_nth cfg names : forall q, List.length q = List.length names ->
  (forall j n, nth_error names j = Some n -> exists s r, get n cfg = Some s /\ nth_error q j = Some (Fin r) /\ in_range s (Fin r)) -> allowed cfg names q.
Proof.
  induction names as [|n names IH]; intros [|v q] L H; try discriminate L; [constructor|]. constructor.
  - destruct (H 0 n eq_refl) as (s & r & E & Ev & Hr). injection Ev as ->. exists s, r. auto.
  - apply IH; [cbn in L; congruence|]. intros j m Hj. apply (H (S j) m Hj).
Qed.
Lemma column_all c j rs (P : R -> Prop) : column c j rs -> (forall v lp r, In (v, lp) c -> nth_error v j = Some (Fin r) -> P r) -> forall r, In r rs -> P r.
Proof.
  induction 1 as [|[v lp] r0 c rs H _ IH]; intros HP r Hr; [destruct Hr|]. destruct Hr as [<-|Hr].
  - apply (HP v lp); [left; reflexivity|exact H].
  - apply IH; [|exact Hr]. intros v' lp' r' Hi. apply (HP v' lp' r'). right. exact Hi.
Qed.

(** The medians of allowed samples are allowed. *)
Lemma medians_allowed cfg names (c : chain) : c <> [] -> (forall v lp, In (v, lp) c -> allowed cfg names v) -> allowed cfg names (medians c).
Proof.
  intros Hc H. assert (F : forall v lp, In (v, lp) c -> List.length v = List.length names /\ forall x, In x v -> exists r, x = Fin r)
    by (intros v lp Hi; eapply allowed_finite, (H v lp Hi)).
  destruct (medians_ok c _ Hc F) as [L M]. apply allowed_from_nth; [exact L|]. intros j n Hj.
  assert (Hlt : j < List.length names) by (apply nth_error_Some; congruence). destruct (M j Hlt) as (m & Em & Hm).
  destruct (column_exists c _ j F Hlt) as [rs Hrs]. specialize (Hm rs Hrs). destruct Hm as [Hh _].
  assert (Hne : rs <> []) by (apply column_length in Hrs; destruct c; [congruence|destruct rs; [discriminate Hrs|discriminate]]).
  destruct (halves_between rs m Hne Hh) as (a & b & Ha & Hb & Hab).
  destruct c as [|[v0 lp0] c0] eqn:Ec; [congruence|]. rewrite <- Ec in *.
  destruct (allowed_nth cfg names v0 j n (H v0 lp0 ltac:(rewrite Ec; left; reflexivity)) Hj) as (s & r0 & Es & _ & _).
  exists s, m. split; [exact Es|]. split; [exact Em|].
  assert (A : forall r, In r rs -> in_range s (Fin r)).
  { apply (column_all c j rs (fun r => in_range s (Fin r)) Hrs). intros v lp r Hi Hr. destruct (allowed_nth cfg names v j n (H v lp Hi) Hj) as (s' & r' & Es' & Er' & Hin).
    rewrite Es in Es'. injection Es' as <-. rewrite Hr in Er'. injection Er' as <-. exact Hin. }
  apply (range_between s a b); auto.
Qed.
