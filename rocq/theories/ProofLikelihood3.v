(** More lemmas about the likelihood: totals, finiteness, the Poisson optimum, repeated runs. *)
From Coq Require Import Reals Lra Permutation.
From Verif Require Import Base BaseFacts ModelFloat ModelHist ModelLikelihood
  SpecHist SpecLikelihood ProofFloat ProofHist ProofLikelihood ProofLikelihood2.
Local Open Scope list_scope.
Local Open Scope R_scope.

(* ------------------------------------------------------------------ *)
(** * Totals *)

Lemma fmul_Fin_inv x y z : fmul x y = Fin z -> exists a b, x = Fin a /\ y = Fin b /\ z = a * b.
Proof.
  destruct x as [a| | |], y as [b| | |]; cbn [fmul]; try discriminate;
    try (intros H; exfalso; eapply inf_times_not_fin; exact H);
    try (unfold inf_times; destruct (total_order_T _ _) as [[?|?]|?]; cbn; discriminate).
  intros H. injection H as <-. eauto.
Qed.

Lemma scaled_total_any h r t : h <> [] ->
  fsum (scale (fmul (fdiv (Fin 1) (fsum h)) r) h) = Fin t -> r = Fin t.
Proof.
  intros Hne H.
  assert (Hr : exists x, r = Fin x).
  { destruct h as [|x h]; [contradiction|].
    destruct (fsum_all_fin _ _ H _ (or_introl eq_refl)) as [z Hz].
    apply fmul_Fin_inv in Hz. destruct Hz as (a & b & _ & Hb & _).
    apply fmul_Fin_inv in Hb. destruct Hb as (c & d & _ & Hd & _). eauto. }
  destruct Hr as [x ->]. f_equal. symmetry. eapply scaled_total; eauto.
Qed.

Section Built.
  Variable oor : list (list fl) -> nat -> list fl.
  Context {K : Type}.

  Lemma built_totals cs : forall (key : K) b p xs ys key' t n,
    (0 < n)%nat ->
    Forall (built oor (fun c => n_norm c = OnPdf)) cs ->
    sim_chain b p cs key xs key' -> fixed_hists p cs ys ->
    (forall x, In x (xs ++ ys) -> List.length x = n) ->
    fadd (fsum (map fsum xs)) (fsum (map fsum ys)) = Fin t ->
    exists rs, rates cs p = map (fun r => Some (Fin r)) rs /\ t = rsum rs.
  Proof.
    induction cs as [|[nm c] rest IH]; intros key b p xs ys key' t n Hn Hb Hs Hf Hl Ht.
    - inversion Hs; inversion Hf; subst. exists []. split; [reflexivity|].
      unfold fsum in Ht. simpl in Ht. rewrite fadd_0_l in Ht. injection Ht as <-. reflexivity.
    - inversion Hb as [|? ? Hc Hb']; subst.
      inversion Hs as [|? ? f ? ? key1 x xs' ? Hk Hfx Hrest|? ? ? ? ? ? Hk Hrest]; subst;
      inversion Hf as [|? ? f' ? y ys' Hk' Hfy Hf'|? ? ? ? Hk' Hf']; subst.
      + congruence.
      + simpl map in Ht. rewrite fsum_cons, fadd_assoc in Ht. apply fadd_Fin_inv in Ht.
        destruct Ht as (tx & t' & Htx & Ht' & ->).
        destruct (IH key1 b p xs' ys key' t' n Hn Hb' Hrest Hf') as (rs & Hr & ->); [|exact Ht'|].
        { intros z Hz. apply Hl. right. exact Hz. }
        inversion Hc as [? ? cc sim HP Hrn|? ? cc data HP Hrn]; subst; simpl in Hk; [|discriminate].
        injection Hk as <-.
        destruct (sim_hist_inv oor cc sim key b p key1 x HP Hfx) as (rows & h0 & r & _ & _ & Hg & ->).
        assert (Hr1 : r = Fin tx).
        { eapply scaled_total_any; [|exact Htx]. intros ->.
          specialize (Hl _ (or_introl eq_refl)). simpl in Hl. lia. }
        exists (tx :: rs). split; [|simpl; reflexivity].
        unfold rates in *. simpl. f_equal; [|exact Hr]. rewrite <- Hrn, Hg, Hr1. reflexivity.
      + simpl map in Ht. rewrite fsum_cons in Ht.
        rewrite <- fadd_assoc, (fadd_comm _ (fsum y)), fadd_assoc in Ht. apply fadd_Fin_inv in Ht.
        destruct Ht as (tx & t' & Htx & Ht' & ->).
        destruct (IH key b p xs ys' key' t' n Hn Hb' Hrest Hf') as (rs & Hr & ->); [|exact Ht'|].
        { intros z Hz. apply Hl. apply in_app_iff in Hz. apply in_app_iff.
          destruct Hz; [auto|right; right; assumption]. }
        inversion Hc as [? ? cc sim HP Hrn|? ? cc data HP Hrn]; subst; simpl in Hk'; [discriminate|].
        injection Hk' as <-.
        destruct (fixed_hist_inv oor cc data p y HP Hfy) as (h0 & r & _ & Hg & ->).
        assert (Hr1 : r = Fin tx).
        { eapply scaled_total_any; [|exact Htx]. intros ->.
          assert (Hz : @List.length fl [] = n) by (apply Hl, in_app_iff; right; left; reflexivity).
          simpl in Hz. lia. }
        exists (tx :: rs). split; [|simpl; reflexivity].
        unfold rates in *. simpl. f_equal; [|exact Hr]. rewrite <- Hrn, Hg, Hr1. reflexivity.
      + exfalso. inversion Hc; subst; simpl in Hk, Hk'; [eapply Hk|eapply Hk']; reflexivity.
  Qed.

  Lemma model_total_rates (L : llh K) key b p key' h t :
    Forall (built oor (fun c => n_norm c = OnPdf)) (ll_components L) -> ll_data L <> [] ->
    simulate_model_hist L key b p = Ok (key', h) -> fsum h = Fin t ->
    exists rs, rates (ll_components L) (replace_alias (ll_alias L) p) = map (fun r => Some (Fin r)) rs /\
      t = rsum rs.
  Proof.
    intros Hb Hd H Ht. destruct (model_total L key b p key' h H) as (xs & ys & Hs & Hf & Hl & Htot).
    rewrite Htot, map_app, fsum_app in Ht.
    refine (built_totals _ key b _ xs ys key' t (List.length (ll_data L)) _ Hb Hs Hf Hl Ht).
    destruct (ll_data L); [contradiction|simpl; lia].
  Qed.

  (** * Floored components *)

  Lemma floored_built b c : floored oor b c -> built oor (fun c => n_norm c = OnPdf) (K := K) c.
  Proof. intros H. inversion H; subst; [apply built_sim|apply built_fixed]; assumption. Qed.

  Lemma sim_floored c sim (key : K) b p key' h r :
    n_norm c = OnPdf -> n_add_eps c = true ->
    (forall key p key' rows, sim key b p = Ok (key', rows) ->
         rows <> [] /\ forall e, In e (snd (split_rows (n_no_eff c) rows)) -> nonneg e) ->
    get (n_rate c) p = Some (Fin r) -> sim_hist oor c sim key b p = Ok (key', h) ->
    (0 < r -> forall x, In x h -> good_bin x) /\ (0 <= r -> forall x, In x h -> nonneg x).
  Proof.
    intros Hn Ha Hsim Hr H.
    destruct (sim_hist_inv oor c sim key b p key' h Hn H) as (rows & h0 & r' & Hs & Hi & Hg & ->).
    rewrite Hr in Hg. injection Hg as <-. destruct (Hsim _ _ _ _ Hs) as [Hne He].
    apply normalise_good. rewrite Ha in Hi. refine (floor_positive oor _ _ _ _ _ He Hi).
    unfold split_rows. destruct (n_no_eff c); simpl; destruct rows; try discriminate; contradiction.
  Qed.

  Lemma fixed_floored c data p h r :
    n_norm c = OnPdf -> n_add_eps c = true -> data <> [] ->
    get (n_rate c) p = Some (Fin r) -> fixed_hist oor c data p = Ok h ->
    (0 < r -> forall x, In x h -> good_bin x) /\ (0 <= r -> forall x, In x h -> nonneg x).
  Proof.
    intros Hn Ha Hd Hr H.
    destruct (fixed_hist_inv oor c data p h Hn H) as (h0 & r' & Hi & Hg & ->).
    rewrite Hr in Hg. injection Hg as <-.
    apply normalise_good. rewrite Ha in Hi. refine (floor_positive oor _ _ _ _ _ _ Hi).
    - destruct data; [contradiction|discriminate].
    - intros e He. apply in_map_iff in He. destruct He as (? & <- & _). exists 1. split; [reflexivity|lra].
  Qed.

  Lemma floored_chain cs : forall (key : K) b p xs ys key' rs,
    Forall (floored oor b) cs -> rates cs p = map (fun r => Some (Fin r)) rs ->
    (forall r, In r rs -> 0 <= r) ->
    sim_chain b p cs key xs key' -> fixed_hists p cs ys ->
    (forall x, In x (xs ++ ys) -> forall v, In v x -> nonneg v) /\
    ((exists r, In r rs /\ 0 < r) -> exists x, In x (xs ++ ys) /\ forall v, In v x -> good_bin v).
  Proof.
    induction cs as [|[nm c] rest IH]; intros key b p xs ys key' rs Hfl Hr Hpos Hs Hf.
    - inversion Hs; inversion Hf; subst. destruct rs; [|discriminate]. split; [intros x []|].
      intros (r & [] & _).
    - inversion Hfl as [|? ? Hc Hfl']; subst. destruct rs as [|r rs]; [discriminate|].
      unfold rates in Hr. simpl in Hr. injection Hr as Hr1 Hr.
      assert (Hpos' : forall r0, In r0 rs -> 0 <= r0) by (intros; apply Hpos; right; assumption).
      assert (Hp0 : 0 <= r) by (apply Hpos; left; reflexivity).
      inversion Hs as [|? ? f ? ? key1 x xs' ? Hk Hfx Hrest|? ? ? ? ? ? Hk Hrest]; subst;
      inversion Hf as [|? ? f' ? y ys' Hk' Hfy Hf'|? ? ? ? Hk' Hf']; subst.
      + congruence.
      + destruct (IH key1 b p xs' ys key' rs Hfl' Hr Hpos' Hrest Hf') as [H1 H2].
        inversion Hc as [? ? cc sim Hn Ha Hrn Hsim|]; subst; simpl in Hk; [|discriminate].
        injection Hk as <-. rewrite <- Hrn in Hr1.
        destruct (sim_floored cc sim key b p key1 x r Hn Ha Hsim Hr1 Hfx) as [Hg Hnn].
        split.
        * intros z [<-|Hz]; [apply Hnn, Hp0|apply H1, Hz].
        * intros (r0 & [<-|Hin] & Hr0).
          -- exists x. split; [left; reflexivity|]. apply Hg, Hr0.
          -- destruct H2 as (z & Hz & Hgz); [eauto|]. exists z. split; [right; exact Hz|exact Hgz].
      + destruct (IH key b p xs ys' key' rs Hfl' Hr Hpos' Hrest Hf') as [H1 H2].
        inversion Hc as [|? ? cc data Hn Ha Hrn Hd]; subst; simpl in Hk'; [discriminate|].
        injection Hk' as <-. rewrite <- Hrn in Hr1.
        destruct (fixed_floored cc data p y r Hn Ha Hd Hr1 Hfy) as [Hg Hnn].
        split.
        * intros z Hz. apply in_app_iff in Hz. destruct Hz as [Hz|[<-|Hz]].
          -- apply H1, in_app_iff. auto.
          -- apply Hnn, Hp0.
          -- apply H1, in_app_iff. auto.
        * intros (r0 & [<-|Hin] & Hr0).
          -- exists y. split; [apply in_app_iff; right; left; reflexivity|]. apply Hg, Hr0.
          -- destruct H2 as (z & Hz & Hgz); [eauto|]. exists z. split; [|exact Hgz].
             apply in_app_iff in Hz. apply in_app_iff. destruct Hz; [auto|right; right; assumption].
      + exfalso. inversion Hc; subst; simpl in Hk, Hk'; [eapply Hk|eapply Hk']; reflexivity.
  Qed.

  Lemma column_sum_nonneg xs i n : (forall x, In x xs -> List.length x = n) -> (i < n)%nat ->
    (forall x, In x xs -> forall v, In v x -> nonneg v) ->
    nonneg (column_sum xs i) /\
    ((exists x, In x xs /\ forall v, In v x -> good_bin v) -> good_bin (column_sum xs i)).
  Proof.
    induction xs as [|x xs IH]; intros Hl Hi Hnn.
    - split; [exists 0; split; [reflexivity|lra]|]. intros (x & [] & _).
    - destruct IH as [H1 H2]; [intros; apply Hl; right; assumption|exact Hi|intros z Hz; apply Hnn; right; exact Hz|].
      assert (Hin : In (entry x i) x).
      { unfold entry. apply nth_In. rewrite (Hl x (or_introl eq_refl)). exact Hi. }
      destruct (Hnn x (or_introl eq_refl) _ Hin) as (a & Ha & Ha0).
      destruct H1 as (s & Hs & Hs0).
      assert (Hc : column_sum (x :: xs) i = Fin (a + s)).
      { unfold column_sum in *. simpl map. rewrite fsum_cons, Hs, Ha. apply fadd_Fin. }
      rewrite Hc. split; [exists (a + s); split; [reflexivity|lra]|].
      intros (z & [<-|Hz] & Hg).
      + destruct (Hg _ Hin) as (a' & Ha' & Hpos). rewrite Ha in Ha'. injection Ha' as <-.
        exists (a + s). split; [reflexivity|lra].
      + destruct H2 as (s' & Hs' & Hpos); [eauto|]. rewrite Hs in Hs'. injection Hs' as <-.
        exists (a + s). split; [reflexivity|lra].
  Qed.

  Lemma floored_model (L : llh K) key b p key' h rs :
    Forall (floored oor b) (ll_components L) ->
    rates (ll_components L) (replace_alias (ll_alias L) p) = map (fun r => Some (Fin r)) rs ->
    (forall r, In r rs -> 0 <= r) -> (exists r, In r rs /\ 0 < r) ->
    simulate_model_hist L key b p = Ok (key', h) ->
    List.length h = List.length (ll_data L) /\ forall x, In x h -> good_bin x.
  Proof.
    intros Hfl Hr Hpos Hex H.
    destruct (model_hist_entries L key b p key' h H) as (xs & ys & Hs & Hf & Hl & Hlen & He).
    split; [exact Hlen|]. intros x Hx. apply (In_nth _ _ NaN) in Hx. destruct Hx as (i & Hi & <-).
    rewrite Hlen in Hi. change (nth i h NaN) with (entry h i). rewrite He by exact Hi.
    destruct (floored_chain _ _ _ _ _ _ _ rs Hfl Hr Hpos Hs Hf) as [H1 H2].
    exact (proj2 (column_sum_nonneg (xs ++ ys) i _ Hl Hi H1) (H2 Hex)).
  Qed.

  Lemma floored_total (L : llh K) key b p key' h rs :
    Forall (floored oor b) (ll_components L) ->
    rates (ll_components L) (replace_alias (ll_alias L) p) = map (fun r => Some (Fin r)) rs ->
    (forall r, In r rs -> 0 <= r) -> ll_data L <> [] ->
    simulate_model_hist L key b p = Ok (key', h) ->
    fsum h = Fin (rsum rs).
  Proof.
    intros Hfl Hr Hpos Hd H.
    destruct (model_hist_entries L key b p key' h H) as (xs & ys & Hs & Hf & Hl & Hlen & He).
    destruct (floored_chain _ _ _ _ _ _ _ rs Hfl Hr Hpos Hs Hf) as [H1 _].
    assert (Hfin : exists t, fsum h = Fin t).
    { destruct (all_fin_fsum h) as [hs ->]; [|exists (rsum hs); apply fsum_Fin].
      intros x Hx. apply (In_nth _ _ NaN) in Hx. destruct Hx as (i & Hi & <-).
      rewrite Hlen in Hi. change (nth i h NaN) with (entry h i). rewrite He by exact Hi.
      destruct (proj1 (column_sum_nonneg (xs ++ ys) i _ Hl Hi H1)) as (v & -> & _). eauto. }
    destruct Hfin as [t Ht]. rewrite Ht. f_equal.
    destruct (model_total_rates L key b p key' h t) as (rs' & Hr' & ->); auto.
    { eapply Forall_impl; [|exact Hfl]. intros c. apply floored_built. }
    rewrite Hr in Hr'. f_equal. clear -Hr'. revert rs' Hr'.
    induction rs as [|r rs IH]; intros [|r' rs'] H; try discriminate; [reflexivity|].
    injection H as <- H. f_equal. auto.
  Qed.
End Built.

(* ------------------------------------------------------------------ *)
(** * The Poisson log-likelihood *)

Lemma flog_pos m : 0 < m -> flog (Fin m) = Fin (ln m).
Proof.
  intros H. unfold flog. destruct (total_order_T m 0) as [[?|?]|?]; try lra. reflexivity.
Qed.

Lemma poisson_sum_Fin ds : forall ms, List.length ds = List.length ms -> (forall m, In m ms -> 0 < m) ->
  poisson_sum (map Fin ds) (map Fin ms) = Fin (poisson_R ds ms).
Proof.
  unfold poisson_sum. induction ds as [|d ds IH]; intros [|m ms] Hl Hp; try discriminate; [reflexivity|].
  cbn [combine map fst snd]. rewrite fsum_cons, IH; [|simpl in Hl; lia|intros; apply Hp; right; assumption].
  rewrite flog_pos by (apply Hp; left; reflexivity).
  rewrite fmul_Fin. unfold fsub. cbn [fneg]. rewrite !fadd_Fin. simpl. f_equal.
Qed.

Lemma bad_bin_cases x : ~ good_bin x -> fle x (Fin 0) = true \/ is_nan x = true \/ is_inf x = true.
Proof.
  intros H. destruct x as [r| | |]; simpl; auto. left. destruct (Rle_dec r 0); [reflexivity|].
  exfalso. apply H. exists r. split; [reflexivity|lra].
Qed.

Lemma good_bin_ok x : good_bin x -> fle x (Fin 0) = false /\ is_nan x = false /\ is_inf x = false.
Proof.
  intros (r & -> & Hr). simpl. destruct (Rle_dec r 0); [lra|auto].
Qed.

Lemma good_bin_dec x : {good_bin x} + {~ good_bin x}.
Proof.
  destruct x as [r| | |]; try (right; intros (? & ? & ?); discriminate).
  destruct (Rlt_dec 0 r); [left; eauto|right]. { exists r. auto. }
  intros (r' & H & Hr). injection H as <-. lra.
Qed.

Lemma existsb_false_intro {A} (f : A -> bool) l : (forall x, In x l -> f x = false) -> existsb f l = false.
Proof.
  induction l as [|a l IH]; simpl; intros H; [reflexivity|]. rewrite (H a) by auto. rewrite IH by auto. reflexivity.
Qed.

Lemma llh_of_good {K} ds (key : K) h :
  List.length ds = List.length h -> (forall x, In x h -> good_bin x) ->
  exists ms, h = map Fin ms /\ (forall m, In m ms -> 0 < m) /\
    log_likelihood_of (map Fin ds) key h = Ok (key, Fin (poisson_R ds ms)).
Proof.
  intros Hl Hg. destruct (good_list h Hg) as (ms & -> & Hms). exists ms. split; [reflexivity|]. split; [exact Hms|].
  unfold log_likelihood_of.
  rewrite existsb_false_intro by (intros x Hx; apply (good_bin_ok x (Hg x Hx))).
  rewrite (existsb_false_intro is_nan) by (intros x Hx; apply (good_bin_ok x (Hg x Hx))).
  rewrite (existsb_false_intro is_inf) by (intros x Hx; apply (good_bin_ok x (Hg x Hx))).
  simpl. rewrite map_length in Hl. rewrite poisson_sum_Fin by assumption. reflexivity.
Qed.

Lemma llh_of_bad {K} data (key : K) h x :
  In x h -> ~ good_bin x -> log_likelihood_of data key h = Ok (key, NInf).
Proof.
  intros Hx Hb. unfold log_likelihood_of.
  destruct (existsb (fun x => fle x (Fin 0)) h) eqn:E1; [reflexivity|].
  destruct (existsb is_nan h) eqn:E2; [reflexivity|]. destruct (existsb is_inf h) eqn:E3; [reflexivity|].
  exfalso. destruct (bad_bin_cases x Hb) as [H|[H|H]].
  - assert (existsb (fun x => fle x (Fin 0)) h = true) by (apply existsb_exists; eauto). congruence.
  - assert (existsb is_nan h = true) by (apply existsb_exists; eauto). congruence.
  - assert (existsb is_inf h = true) by (apply existsb_exists; eauto). congruence.
Qed.

Lemma all_good_dec h : (forall x, In x h -> good_bin x) \/ exists x, In x h /\ ~ good_bin x.
Proof.
  induction h as [|x h IH]; [left; intros ? []|]. destruct (good_bin_dec x) as [Hx|Hx].
  - destruct IH as [IH|(y & Hy & Hn)]; [left; intros z [<-|Hz]; auto|right; exists y; split; [right; exact Hy|exact Hn]].
  - right. exists x. split; [left; reflexivity|exact Hx].
Qed.

Lemma model_length {K} (L : llh K) key b p key' h :
  simulate_model_hist L key b p = Ok (key', h) -> List.length h = List.length (ll_data L).
Proof.
  intros H. destruct (model_hist_entries L key b p key' h H) as (_ & _ & _ & _ & _ & Hl & _). exact Hl.
Qed.

Lemma get_llh_cases {K} (L : llh K) key b p ds :
  ll_data L = map Fin ds ->
  match simulate_model_hist L key b (replace_alias (ll_alias L) p) with
  | Err e => get_log_likelihood L key b p = Err e
  | Ok (key', h) =>
      ((exists x, In x h /\ ~ good_bin x) /\ get_log_likelihood L key b p = Ok (key', NInf)) \/
      (exists ms, h = map Fin ms /\ (forall m, In m ms -> 0 < m) /\ List.length ms = List.length ds /\
         get_log_likelihood L key b p = Ok (key', Fin (poisson_R ds ms)))
  end.
Proof.
  intros Hd. unfold get_log_likelihood.
  destruct (simulate_model_hist L key b (replace_alias (ll_alias L) p)) as [[key' h]|e] eqn:H; [|reflexivity].
  pose proof (model_length L _ _ _ _ _ H) as Hl. rewrite Hd in *. rewrite map_length in Hl.
  destruct (all_good_dec h) as [Hg|(x & Hx & Hb)].
  - right. destruct (llh_of_good ds key' h (eq_sym Hl) Hg) as (ms & -> & Hms & Heq).
    exists ms. rewrite map_length in Hl. auto.
  - left. split; [eauto|]. eapply llh_of_bad; eauto.
Qed.

(* ------------------------------------------------------------------ *)
(** * The optimum *)

Lemma ln_le_sub x : 0 < x -> ln x <= x - 1.
Proof.
  intros Hx. pose proof (exp_ineq1_le (ln x)) as H. rewrite exp_ln in H by exact Hx. lra.
Qed.

Lemma ln_lt_sub x : 0 < x -> x <> 1 -> ln x < x - 1.
Proof.
  intros Hx Hne. assert (Hl : ln x <> 0).
  { intros H. apply Hne. rewrite <- (exp_ln x Hx), H. apply exp_0. }
  pose proof (exp_ineq1 (ln x) Hl) as H. rewrite exp_ln in H by exact Hx. lra.
Qed.

(** One bin. *)
Lemma poisson_bin d m : 0 <= d -> 0 < m ->
  let best := if Rlt_dec 0 d then d * ln d - d else 0 in
  d * ln m - m <= best /\ (d * ln m - m = best -> m = d).
Proof.
  intros Hd Hm. cbv zeta. destruct (Rlt_dec 0 d) as [Hp|Hp].
  - assert (Hq : 0 < m / d) by (apply Rdiv_lt_0_compat; assumption).
    assert (Hln : ln m = ln d + ln (m / d)).
    { rewrite <- ln_mult by assumption. f_equal. field. lra. }
    assert (Hmd : m = d * (m / d)) by (field; lra).
    rewrite Hln. split.
    + pose proof (ln_le_sub (m / d) Hq) as H. nra.
    + intros He. destruct (Req_dec (m / d) 1) as [H1|H1]; [rewrite Hmd, H1; lra|].
      pose proof (ln_lt_sub (m / d) Hq H1) as H. exfalso. nra.
  - assert (d = 0) by lra. subst d. split; [nra|]. intros H. nra.
Qed.

Lemma poisson_best_bound ds : forall ms, List.length ds = List.length ms ->
  (forall d, In d ds -> 0 <= d) -> (forall m, In m ms -> 0 < m) ->
  poisson_R ds ms <= poisson_best ds /\ (poisson_R ds ms = poisson_best ds -> ms = ds).
Proof.
  induction ds as [|d ds IH]; intros [|m ms] Hl Hd Hm; try discriminate.
  - simpl. split; [lra|auto].
  - destruct (IH ms) as [H1 H2]; [simpl in Hl; lia|intros; apply Hd; right; assumption|intros; apply Hm; right; assumption|].
    destruct (poisson_bin d m (Hd d (or_introl eq_refl)) (Hm m (or_introl eq_refl))) as [H3 H4].
    cbn [poisson_R poisson_best]. split; [lra|]. intros He. f_equal; [apply H4|apply H2]; lra.
Qed.

Lemma poisson_best_data ds : (forall d, In d ds -> 0 < d) -> poisson_best ds = poisson_R ds ds.
Proof.
  induction ds as [|d ds IH]; intros H; [reflexivity|]. cbn [poisson_R poisson_best].
  rewrite IH by (intros; apply H; right; assumption).
  destruct (Rlt_dec 0 d) as [_|Hn]; [reflexivity|]. exfalso. apply Hn, H. left. reflexivity.
Qed.

(** Scaling a shape. *)
Lemma poisson_scale c ds : forall ms, List.length ds = List.length ms -> 0 < c -> (forall m, In m ms -> 0 < m) ->
  poisson_R ds (map (fun m => c * m) ms) = poisson_R ds ms + rsum ds * ln c - (c - 1) * rsum ms.
Proof.
  induction ds as [|d ds IH]; intros [|m ms] Hl Hc Hm; try discriminate; simpl; [lra|].
  rewrite IH; [|simpl in Hl; lia|exact Hc|intros; apply Hm; right; assumption].
  rewrite ln_mult; [|exact Hc|apply Hm; left; reflexivity]. lra.
Qed.

Lemma poisson_scale_opt ds ms c :
  List.length ds = List.length ms -> (forall d, In d ds -> 0 <= d) -> 0 < rsum ds ->
  (forall m, In m ms -> 0 < m) -> 0 < c ->
  let best := rsum ds / rsum ms in
  poisson_R ds (map (fun m => c * m) ms) <= poisson_R ds (map (fun m => best * m) ms) /\
  (poisson_R ds (map (fun m => c * m) ms) = poisson_R ds (map (fun m => best * m) ms) ->
   rsum (map (fun m => c * m) ms) = rsum ds).
Proof.
  intros Hl Hd HD Hm Hc best.
  assert (Hne : ms <> []).
  { intros ->. destruct ds; [simpl in HD; lra|discriminate]. }
  assert (HM : 0 < rsum ms) by (apply rsum_pos; assumption).
  assert (Hb : 0 < best) by (apply Rdiv_lt_0_compat; assumption).
  rewrite !poisson_scale by assumption.
  set (D := rsum ds) in *. set (M := rsum ms) in *.
  assert (HDM : D = best * M) by (unfold best; field; lra).
  assert (Hs : rsum (map (fun m => c * m) ms) = c * M).
  { rewrite (map_ext (fun m => c * m) (fun m => m * c)) by (intros; lra). rewrite rsum_scale. unfold M. lra. }
  rewrite Hs. clearbody D M best. clear Hs.
  assert (Hq : 0 < c / best) by (apply Rdiv_lt_0_compat; assumption).
  assert (Hln : ln c = ln best + ln (c / best)).
  { rewrite <- ln_mult by assumption. f_equal. field. lra. }
  assert (Hcb : c * M = D * (c / best)) by (rewrite HDM; field; lra).
  rewrite Hln. split.
  - pose proof (ln_le_sub (c / best) Hq) as H. nra.
  - intros He. destruct (Req_dec (c / best) 1) as [H1|H1]; [rewrite Hcb, H1; lra|].
    pose proof (ln_lt_sub (c / best) Hq H1) as H. exfalso. nra.
Qed.

(* ------------------------------------------------------------------ *)
(** * multiple_simulations *)

Lemma keep_positive_spec cols : keep_positive cols = map (positive_only (last cols [])) cols.
Proof.
  unfold keep_positive. apply map_ext. intros col. generalize (last cols []). intros eff. revert col.
  induction eff as [|e eff IH]; intros [|x col]; cbn [map combine filter positive_only snd]; try reflexivity.
  destruct (flt (Fin 0) e); cbn [map fst]; rewrite IH; reflexivity.
Qed.

Section Pile.
  Context {K : Type}.
  Variable sim : K -> nat -> params -> result (K * list (list fl)).

  Lemma pile_spec no_eff apply_eff times : forall key b p acc key' runs,
    pile sim no_eff apply_eff times key b p acc = Ok (key', runs) <->
    (exists rs, runs_from sim b p times key rs key' /\
       runs = acc ++ map (fun cols => if apply_eff then map (positive_only (last cols [])) cols else cols) rs)
    /\ (times = 0%nat \/ apply_eff && no_eff = false).
  Proof.
    induction times as [|n IH]; intros key b p acc key' runs; cbn [pile].
    - split.
      + intros H. injection H as <- <-. split; [|auto]. exists []. split; [constructor|].
        simpl. rewrite app_nil_r. reflexivity.
      + intros [(rs & Hr & ->) _]. inversion Hr; subst. simpl. rewrite app_nil_r. reflexivity.
    - destruct (sim key b p) as [[k1 cols]|e] eqn:Hs.
      + destruct (apply_eff && no_eff) eqn:Hae.
        * split; [discriminate|]. intros [_ [H|H]]; discriminate.
        * rewrite IH. split.
          -- intros [(rs & Hr & ->) _]. split; [|auto]. exists (cols :: rs). split; [econstructor; eauto|].
             simpl. rewrite <- app_assoc. simpl. destruct apply_eff; [rewrite keep_positive_spec|]; reflexivity.
          -- intros [(rs & Hr & ->) _]. split; [|auto].
             inversion Hr as [|? ? k2 cols2 rs2 ? Hs2 Hr2]; subst. rewrite Hs in Hs2. injection Hs2 as <- <-.
             exists rs2. split; [exact Hr2|]. simpl. rewrite <- app_assoc. simpl.
             destruct apply_eff; [rewrite keep_positive_spec|]; reflexivity.
      + split; [discriminate|]. intros [(rs & Hr & _) _].
        inversion Hr as [|? ? k2 cols2 rs2 ? Hs2 Hr2]; subst. congruence.
  Qed.

  Lemma column_concat i : forall runs, (forall r, In r runs -> (i < List.length r)%nat) ->
    column i runs = Ok (List.concat (map (fun r => nth i r []) runs)).
  Proof.
    induction runs as [|r runs IH]; intros H; [reflexivity|]. cbn [column].
    destruct (nth_error r i) as [col|] eqn:E.
    - rewrite IH by (intros; apply H; right; assumption).
      simpl. rewrite (nth_error_nth r i [] E). reflexivity.
    - apply nth_error_None in E. specialize (H r (or_introl eq_refl)). lia.
  Qed.

  Lemma columns_concat is : forall runs,
    (forall i r, In i is -> In r runs -> (i < List.length r)%nat) ->
    columns is runs = Ok (map (fun i => List.concat (map (fun r => nth i r []) runs)) is).
  Proof.
    induction is as [|i is IH]; intros runs H; [reflexivity|]. cbn [columns].
    rewrite column_concat by (intros; eapply H; [left; reflexivity|assumption]).
    rewrite IH by (intros; eapply H; [right; eassumption|assumption]). reflexivity.
  Qed.

  Lemma last_In {A} (l : list A) d : l <> [] -> In (last l d) l.
  Proof.
    induction l as [|a l IH]; intros H; [contradiction|]. destruct l as [|b l]; [left; reflexivity|].
    right. apply IH. discriminate.
  Qed.

  Lemma last_map {A B} (f : A -> B) l d d' : l <> [] -> last (map f l) d = f (last l d').
  Proof.
    induction l as [|a l IH]; intros H; [contradiction|]. destruct l as [|b l]; [reflexivity|].
    change (last (map f (b :: l)) d = f (last (b :: l) d')). apply IH. discriminate.
  Qed.

  Lemma runs_from_length b p n key rs key' : runs_from sim b p n key rs key' -> List.length rs = n.
  Proof. induction 1; simpl; congruence. Qed.

  Lemma multiple_spec no_eff apply_eff times key b p key' cols w :
    (forall k k' cs, sim k b p = Ok (k', cs) -> List.length cs = w) ->
    (multiple_simulations sim no_eff apply_eff times key b p = Ok (key', cols) <->
     times <> 0%nat /\ apply_eff && no_eff = false /\
     exists rs, runs_from sim b p times key rs key' /\
       cols = map (fun i => List.concat (map (fun r =>
                let col := nth i r [] in
                if apply_eff then positive_only (last r []) col else col) rs)) (seq 0 w)).
  Proof.
    intros Hw. unfold multiple_simulations. destruct times as [|n].
    { split; [discriminate|]. intros [H _]. contradiction. }
    assert (Hlen : forall n key rs key', runs_from sim b p n key rs key' -> forall r, In r rs -> List.length r = w).
    { clear -Hw. induction 1 as [|n key key1 cols runs key2 Hs Hr IH]; intros r Hin; [destruct Hin|].
      destruct Hin as [<-|Hin]; [exact (Hw _ _ _ Hs)|auto]. }
    assert (Hstack : forall rs, rs <> [] -> (forall r, In r rs -> List.length r = w) ->
      hstack_runs (map (fun cols => if apply_eff then map (positive_only (last cols [])) cols else cols) rs)
      = Ok (map (fun i => List.concat (map (fun r =>
                let col := nth i r [] in
                if apply_eff then positive_only (last r []) col else col) rs)) (seq 0 w))).
    { intros rs Hne Hl. unfold hstack_runs.
      set (g := fun cols : list (list fl) => if apply_eff then map (positive_only (last cols [])) cols else cols).
      assert (Hg : forall r, List.length (g r) = List.length r).
      { intros r. unfold g. destruct apply_eff; [apply map_length|reflexivity]. }
      rewrite (last_map g rs [] []) by exact Hne. rewrite Hg.
      rewrite (Hl _ (last_In rs [] Hne)).
      rewrite columns_concat.
      - f_equal. apply map_ext_in. intros i Hi. apply in_seq in Hi. f_equal. rewrite map_map.
        apply map_ext_in. intros r Hr. unfold g. destruct apply_eff; [|reflexivity].
        rewrite (nth_indep _ [] (positive_only (last r []) [])) by (rewrite map_length, (Hl r Hr); lia).
        apply map_nth.
      - intros i r Hi Hr. apply in_seq in Hi. apply in_map_iff in Hr. destruct Hr as (r0 & <- & Hr0).
        change ((i < List.length (g r0))%nat). rewrite Hg, (Hl r0 Hr0). lia. }
    destruct (pile sim no_eff apply_eff (S n) key b p []) as [[k runs]|e] eqn:Hp.
    - apply pile_spec in Hp. destruct Hp as [(rs & Hr & ->) [H|Hae]]; [discriminate|].
      simpl app. assert (Hne : rs <> []).
      { apply runs_from_length in Hr. destruct rs; [discriminate|discriminate]. }
      rewrite (Hstack rs Hne (Hlen _ _ _ _ Hr)). split.
      + intros H. injection H as <- <-. split; [discriminate|]. split; [exact Hae|]. exists rs. auto.
      + intros (_ & _ & rs2 & Hr2 & ->).
        assert (Heq : rs2 = rs /\ key' = k).
        { clear -Hr Hr2. revert rs2 key' Hr2. induction Hr as [|n0 key key1 cols0 runs key2 Hs Hr IH];
            intros rs2 key' Hr2; inversion Hr2 as [|? ? k1 c2 r2 ? Hs2 Hr3]; subst; [auto|].
          rewrite Hs in Hs2. injection Hs2 as <- <-. destruct (IH _ _ Hr3) as [-> ->]. auto. }
        destruct Heq as [-> ->]. reflexivity.
    - split; [discriminate|]. intros (_ & Hae & rs & Hr & _). exfalso.
      assert (Ho : pile sim no_eff apply_eff (S n) key b p [] =
        Ok (key', [] ++ map (fun cols => if apply_eff then map (positive_only (last cols [])) cols else cols) rs)).
      { apply pile_spec. split; [eauto|auto]. }
      congruence.
  Qed.
End Pile.
