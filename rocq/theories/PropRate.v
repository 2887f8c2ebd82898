(** Property C118: how a likelihood depends on the rates.
    The vocabulary is in SpecRate.v, the proofs in ProofRate.v. *)
From Coq Require Import Reals Lra Lia.
From Verif Require Import Base BaseFacts ModelFloat ModelHist ModelShare ModelConfig ModelComponent ModelCompile
  ModelParameter ModelLikelihood ModelBinning ModelLit ModelContext ModelWhole
  SpecHist SpecLikelihood SpecComponent SpecConfig SpecCompile SpecParameter SpecContext SpecWeighted SpecBinning SpecWhole SpecNeeded SpecFrame SpecRate
  ProofFloat ProofHist ProofLikelihood ProofLikelihood2 ProofParameter ProofContext ProofBinning ProofLikelihood3 ProofWhole ProofNeeded ProofFrame ProofRate
  PropHist PropContext PropLikelihood PropBinning PropWhole PropFrame.
Local Open Scope string_scope.
Local Open Scope list_scope.

(** With the key kept, a likelihood that is finite for two sets of rates is finite for every mean of the two, and at
    least the mean of its values: it is concave in the rates. *)
Theorem C118_concave {K} oor (L : llh K) key b (p p1 p2 : params) t ds k v k1 v1 :
  separate (ll_alias L) -> NoDup (keys (ll_alias L)) -> NoDup (keys p) -> NoDup (keys p1) -> NoDup (keys p2) ->
  Forall (rate_blind oor (ll_components L) b) (ll_components L) ->
  ll_data L = map Fin ds -> (forall d, In d ds -> 0 <= d)%R -> (0 <= t <= 1)%R ->
  combined (ll_components L) t (1 - t) (replace_alias (ll_alias L) p) (replace_alias (ll_alias L) p1) (replace_alias (ll_alias L) p2) ->
  get_log_likelihood L key b p = Ok (k, Fin v) -> get_log_likelihood L key b p1 = Ok (k1, Fin v1) ->
  exists v2, get_log_likelihood L key b p2 = Ok (k, Fin v2) /\ (t * v + (1 - t) * v1 <= v2)%R.
Proof.
  intros Hs Ha N N1 N2 Hb Hd Hpos Ht Hc H H1.
  pose proof (get_llh_cases L key b p ds Hd) as C. pose proof (get_llh_cases L key b p1 ds Hd) as C1. pose proof (get_llh_cases L key b p2 ds Hd) as C2.
  unfold simulate_model_hist in C, C1, C2. rewrite replace_alias_idem in C, C1, C2 by assumption.
  destruct (sum_components _ _ _ (replace_alias (ll_alias L) p) _) as [[k0 h]|e] eqn:S0; [|rewrite C in H; discriminate].
  destruct C as [[_ C]|(ms & -> & Hm & Lm & C)]; rewrite C in H; [discriminate|]. injection H as <- <-.
  destruct (sum_components _ _ _ (replace_alias (ll_alias L) p1) _) as [[k01 h1]|e] eqn:S1; [|rewrite C1 in H1; discriminate].
  destruct C1 as [[_ C1]|(ms1 & -> & Hm1 & Lm1 & C1)]; rewrite C1 in H1; [discriminate|]. injection H1 as <- <-.
  assert (F : forall l, Forall fin (map Fin l)) by (intros l; apply Forall_forall; intros x Hx; apply in_map_iff in Hx; destruct Hx as (r & <- & _); eexists; reflexivity).
  destruct (sum_lin oor (ll_components L) b t (1 - t) _ _ _ Hc (ll_components L) (incl_refl _) Hb key _ _ _ _ _ _ _ (lin_zero t (1 - t) (ll_data L)) S0 (F _) S1 (F _)) as (-> & H2 & S2 & HL).
  destruct (lin_Fin _ _ _ _ _ HL) as [-> L1]. rewrite S2 in C2. destruct C2 as [[(x & Hx & Hbad) _]|(ms2 & E2 & _ & _ & C2)].
  - exfalso. apply Hbad. apply in_map_iff in Hx. destruct Hx as (m & <- & Hx). apply in_map_iff in Hx. destruct Hx as ([m0 m1] & <- & Hx).
    pose proof (Hm m0 (in_combine_l _ _ _ _ Hx)) as Pm0. pose proof (Hm1 m1 (in_combine_r _ _ _ _ Hx)) as Pm1. eexists. split; [reflexivity|]. cbn [fst snd].
    destruct (Rle_lt_dec t (1 / 2)); nra.
  - assert (ms2 = map (fun mm => (t * fst mm + (1 - t) * snd mm)%R) (combine ms ms1)).
    { clear - E2. revert E2. generalize (map (fun mm => (t * fst mm + (1 - t) * snd mm)%R) (combine ms ms1)). intros l. revert ms2.
      induction l as [|a l IH]; intros [|m ms2] E; try discriminate; [reflexivity|]. injection E as -> E. f_equal. apply IH. exact E. }
    subst ms2. eexists. split; [exact C2|]. apply poisson_concave; try assumption.
Qed.

Lemma Fin_inj l : forall l', map Fin l = map Fin l' -> l = l'.
Proof. induction l as [|a l IH]; intros [|m ms2] E; try discriminate; [reflexivity|]. injection E as -> E. f_equal. apply IH. exact E. Qed.

(** Scaling all rates so that the expected number of events becomes the number of events in the data makes the
    likelihood larger, unless it was that number already. *)
Theorem C118_total {K} oor (L : llh K) key b (p p2 : params) ds k v T :
  separate (ll_alias L) -> NoDup (keys (ll_alias L)) -> NoDup (keys p) -> NoDup (keys p2) ->
  Forall (rate_blind oor (ll_components L) b) (ll_components L) ->
  ll_data L = map Fin ds -> (forall d, In d ds -> 0 <= d)%R -> (0 < fold_right Rplus 0 ds)%R ->
  get_log_likelihood L key b p = Ok (k, Fin v) -> get_num_events_accepted L key b p = Ok (Fin T) ->
  combined (ll_components L) (fold_right Rplus 0 ds / T)%R 0%R (replace_alias (ll_alias L) p) (replace_alias (ll_alias L) p) (replace_alias (ll_alias L) p2) ->
  exists v2, get_log_likelihood L key b p2 = Ok (k, Fin v2) /\
    get_num_events_accepted L key b p2 = Ok (Fin (fold_right Rplus 0 ds)%R) /\ (v <= v2)%R /\ (v = v2 -> T = fold_right Rplus 0 ds)%R.
Proof.
  intros Hs Ha N N2 Hb Hd Hpos HD H HT Hc.
  pose proof (get_llh_cases L key b p ds Hd) as C. pose proof (get_llh_cases L key b p2 ds Hd) as C2.
  assert (EN : forall q, NoDup (keys q) -> get_num_events_accepted L key b q
    = match sum_components (ll_components L) key b (replace_alias (ll_alias L) q) (map (fun _ => Fin 0) (ll_data L)) with
      | Err e => Err e | Ok (_, h) => Ok (fsum h) end).
  { intros q Hq. unfold get_num_events_accepted, simulate_model_hist. rewrite replace_alias_idem by assumption. reflexivity. }
  rewrite (EN p2 N2). rewrite (EN p N) in HT. unfold simulate_model_hist in C, C2. rewrite replace_alias_idem in C, C2 by assumption.
  destruct (sum_components _ _ _ (replace_alias (ll_alias L) p) _) as [[k0 h]|e] eqn:S0; [|discriminate].
  destruct C as [[_ C]|(ms & -> & Hm & Lm & C)]; rewrite C in H; [discriminate|]. injection H as <- <-.
  rewrite fsum_Fin in HT. change (rsum ms) with (fold_right Rplus 0%R ms) in HT. injection HT as <-. set (D := fold_right Rplus 0%R ds) in *. set (T := fold_right Rplus 0%R ms) in *.
  assert (HTp : (0 < T)%R).
  { destruct ms as [|m ms]; [destruct ds; [unfold D in HD; cbn in HD; lra|discriminate]|]. unfold T. cbn.
    assert (Q : forall l, (forall m, In m l -> 0 < m)%R -> (0 <= fold_right Rplus 0 l)%R).
    { induction l as [|y l IH]; intros Hl; cbn; [lra|]. pose proof (Hl y (or_introl eq_refl)). pose proof (IH (fun z Hz => Hl z (or_intror Hz))). lra. }
    pose proof (Hm m (or_introl eq_refl)). pose proof (Q ms (fun z Hz => Hm z (or_intror Hz))). lra. }
  assert (F : forall l, Forall fin (map Fin l)) by (intros l; apply Forall_forall; intros x Hx; apply in_map_iff in Hx; destruct Hx as (r & <- & _); eexists; reflexivity).
  destruct (sum_lin oor (ll_components L) b _ _ _ _ _ Hc (ll_components L) (incl_refl _) Hb key _ _ _ _ _ _ _ (lin_zero _ _ (ll_data L)) S0 (F _) S0 (F _)) as (_ & H2 & S2 & HL).
  destruct (lin_Fin _ _ _ _ _ HL) as [EH _].
  assert (Em : map (fun mm => (D / T * fst mm + 0 * snd mm)%R) (combine ms ms) = map (fun m => (D / T * m)%R) ms).
  { generalize (D / T)%R. intros q. clear. induction ms as [|m ms IH]; [reflexivity|]. cbn [combine map fst snd]. rewrite IH. f_equal. ring. }
  assert (EH' : H2 = map Fin (map (fun m => (D / T * m)%R) ms)) by (rewrite EH, <- Em; reflexivity). rewrite EH' in S2.
  rewrite S2 in C2 |- *. rewrite fsum_Fin.
  assert (Et : fold_right Rplus 0%R (map (fun m => (D / T * m)%R) ms) = D).
  { assert (Q : forall c l, fold_right Rplus 0%R (map (fun m => (c * m)%R) l) = (c * fold_right Rplus 0 l)%R).
    { intros c l. induction l as [|y l IH]; cbn; [ring|]. rewrite IH. ring. }
    rewrite Q. fold T. field. lra. }
  change (rsum (map (fun m => (D / T * m)%R) ms)) with (fold_right Rplus 0%R (map (fun m => (D / T * m)%R) ms)). rewrite Et. destruct C2 as [[(x & Hx & Hbad) _]|(ms2 & E2 & _ & _ & C2)].
  - exfalso. apply Hbad. apply in_map_iff in Hx. destruct Hx as (m & <- & Hx). apply in_map_iff in Hx. destruct Hx as (m0 & <- & Hx).
    eexists. split; [reflexivity|]. apply Rmult_lt_0_compat; [apply Rdiv_lt_0_compat; assumption|]. apply Hm. exact Hx.
  - apply Fin_inj in E2. subst ms2. eexists. split; [exact C2|]. split; [reflexivity|].
    destruct (C17_scale ds ms 1 (eq_sym Lm) Hpos HD Hm ltac:(lra)) as [O1 O2].
    assert (E1 : map (fun m => (1 * m)%R) ms = ms).
    { clear. induction ms as [|m ms IH]; [reflexivity|]. cbn [map]. rewrite IH. f_equal. ring. }
    rewrite E1 in O1, O2. split; [exact O1|]. intros Ev. apply O2. exact Ev.
Qed.

(** One component normalised on its pdf: the best rate is the number of events in the data, and there is no other. *)
Theorem C118_one {K} oor (L : llh K) n comp key b (p p2 : params) ds k v r :
  separate (ll_alias L) -> NoDup (keys (ll_alias L)) -> NoDup (keys p) -> NoDup (keys p2) ->
  ll_components L = [(n, comp)] -> rate_blind oor [(n, comp)] b (n, comp) ->
  built oor (fun c => n_norm c = OnPdf) (n, comp) ->
  ll_data L = map Fin ds -> (forall d, In d ds -> 0 <= d)%R -> (0 < fold_right Rplus 0 ds)%R ->
  off_rates [(n, comp)] (replace_alias (ll_alias L) p) (replace_alias (ll_alias L) p2) ->
  get (n ++ "_rate")%string (replace_alias (ll_alias L) p) = Some (Fin r) ->
  get (n ++ "_rate")%string (replace_alias (ll_alias L) p2) = Some (Fin (fold_right Rplus 0 ds)%R) ->
  get_log_likelihood L key b p = Ok (k, Fin v) ->
  exists v2, get_log_likelihood L key b p2 = Ok (k, Fin v2) /\ (v <= v2)%R /\ (v = v2 -> r = fold_right Rplus 0 ds)%R.
Proof.
  intros Hs Ha N N2 HL Hb Hbu Hd Hpos HD O G G2 H.
  pose proof (get_llh_cases L key b p ds Hd) as C.
  assert (HT : exists T, get_num_events_accepted L key b p = Ok (Fin T)).
  { unfold get_num_events_accepted. destruct (simulate_model_hist L key b _) as [[k0 h]|e]; [|congruence].
    destruct C as [[_ C]|(ms & -> & _)]; [rewrite C in H; discriminate|]. rewrite fsum_Fin. eauto. }
  destruct HT as [T HT].
  destruct (C14_model_total oor L key b p (Fin T) T Hs Ha N) as (rs & Hr & HTr); [rewrite HL; constructor; [exact Hbu|constructor]| |exact HT|reflexivity|].
  { rewrite Hd. intros E. destruct ds; [cbn in HD; lra|discriminate]. }
  rewrite HL in Hr. unfold rates in Hr. cbn [keys map fst] in Hr. rewrite G in Hr. destruct rs as [|r0 [|]]; try discriminate. injection Hr as <-.
  cbn in HTr. rewrite Rplus_0_r in HTr. subst T.
  destruct (C118_total oor L key b p p2 ds k v r Hs Ha N N2) as (v2 & V1 & _ & V2 & V3); try assumption.
  - rewrite HL. constructor; [exact Hb|constructor].
  - rewrite HL. split; [intros z _; reflexivity|]. split; [exact O|]. intros z [<-|[]]. cbn [fst]. exists r, r. split; [exact G|]. split; [exact G|].
    rewrite G2. f_equal. f_equal. assert (r <> 0%R).
    { intros ->. unfold get_num_events_accepted in HT. destruct (simulate_model_hist L key b _) as [[k0 h]|e]; [|congruence].
      destruct C as [[_ C]|(ms & -> & Hm & Lm & _)]; [rewrite C in H; discriminate|]. rewrite fsum_Fin in HT. injection HT as HT.
      destruct ms as [|m ms]; [destruct ds; [cbn in HD; lra|discriminate]|]. change (rsum (m :: ms)) with (m + fold_right Rplus 0 ms)%R in HT.
      assert (Q : forall l, (forall m, In m l -> 0 < m)%R -> (0 <= fold_right Rplus 0 l)%R).
      { induction l as [|y l IH]; intros Hl; cbn; [lra|]. pose proof (Hl y (or_introl eq_refl)). pose proof (IH (fun z Hz => Hl z (or_intror Hz))). lra. }
      pose proof (Hm m (or_introl eq_refl)). pose proof (Q ms (fun z Hz => Hm z (or_intror Hz))). lra. }
    field. assumption.
  - exists v2. auto.
Qed.

(** The likelihoods of a context are of this kind if no plugin declares the rate of a component as a parameter. *)
Theorem C118_context {K} (E : ModelWhole.env K) manager ins par w w' c lname li L batch :
  new_context K E manager ins par w = (w', Ok c) -> declaring E (contents (w_cache w')) ins ->
  In (lname, li) (in_llhs ins) -> In (lname, L) (cx_llhs c) -> rates_unread E (contents (w_cache w')) lname li ->
  Forall (rate_blind (e_row E) (ll_components (wl_llh L)) batch) (ll_components (wl_llh L)).
Proof.
  intros H (R & Hn & Hd) Hli HL Hr. destruct (context_made E _ _ _ _ _ _ H) as (w1 & _ & _ & HF).
  destruct (Forall2_right _ _ _ _ HF HL) as ([ln li'] & Hin & Hm). pose proof Hm as [Hf _]. cbn [fst] in Hf. subst ln.
  assert (li' = li).
  { apply (In_get _ _ _ Hn) in Hin. apply (In_get _ _ _ Hn) in Hli. congruence. }
  subst li'. destruct (Hd lname li Hli) as (H1 & H2 & H3).
  apply (likelihood_blind E (contents (w_cache w')) w1 lname li L batch R H1 H3 Hr Hm).
Qed.

(** ** Cases *)

(** The context of PropFrame.v: the rates are read by no plugin. *)
Lemma f_unread cs : rates_unread f_env cs "rn" (mk_linstruct (TDefault w_config "data.csv") [("er_events", "er_rate")] [("a", "g")]
              [("er", ("ER", None)); ("ac", ("AC", Some "ac.csv"))]).
Proof.
  intros on cname cls file ps nt ae x _ Hin Hk (d & q & _ & Hq & Hx) n Hn.
  assert (Hps : registry_after [ps] = w_reg).
  { destruct Hin as [Hin|[Hin|[]]]; injection Hin as <- <- <-; [|discriminate]. injection Hk as <- <- <-. reflexivity. }
  rewrite Hps in Hq. apply get_In in Hq. destruct Hq as [Hq|[Hq|[]]]; injection Hq as <- <-.
  - destruct Hx as [[]|(m & cf & [Hm|[]] & (Hc & _))]. injection Hm as <- <-. discriminate.
  - destruct Hx as [[<-|[]]|(m & cf & [] & _)]. destruct Hn as [<-|[<-|[]]]; discriminate.
Qed.
Example C118_case_context batch : Forall (rate_blind (e_row f_env) (ll_components (wl_llh f_llh)) batch) (ll_components (wl_llh f_llh)).
Proof.
  apply (C118_context f_env w_manager w_ins (Ok f_par) init_world w_w4 f_context "rn" _ f_llh batch f_context_made (f_declaring _)
    (or_introl eq_refl) (or_introl eq_refl) (f_unread _)).
Qed.

(** There the data are 3 events and the model gives 8: with rates of 3/2 each, also the alias, it is at least as good. *)
Definition f_low : params := [("er_events", Fin (3 / 2)); ("ac_rate", Fin (3 / 2)); ("spare", Fin 0); ("a", Fin (1 / 2))]%R.
Example C118_case_total k n : exists v2, get_log_likelihood (wl_llh f_llh) k n f_low = Ok (2 + k, Fin v2) /\
  get_num_events_accepted (wl_llh f_llh) k n f_low = Ok (Fin (fold_right Rplus 0 [1; 2])%R) /\ (1 * ln 5 - 5 + (2 * ln 3 - 3) < v2)%R.
Proof.
  assert (HT : get_num_events_accepted (wl_llh f_llh) k n (p_values (f_state 4 0)) = Ok (Fin 8)).
  { unfold get_num_events_accepted, simulate_model_hist.
    assert (E : replace_alias (ll_alias (wl_llh f_llh)) (replace_alias (ll_alias (wl_llh f_llh)) (p_values (f_state 4 0))) = f_values 0) by reflexivity.
    rewrite E. cbn [f_llh wl_llh ll_components sum_components f_er l_kind ll_data map].
    rewrite f_er_hist. cbn -[fadd w_acc Rmult]. unfold w_acc at 1. cbn [l_kind]. rewrite f_ac_hist. cbn -[fadd Rmult]. rewrite !fadd_Fin. f_equal. f_equal. lra. }
  assert (ND : NoDup (keys (p_values (f_state 4 0)))) by (cbn; repeat constructor; intros H; repeat (destruct H as [H|H]; [discriminate|]); destruct H).
  destruct (C118_total (e_row f_env) (wl_llh f_llh) k n (p_values (f_state 4 0)) f_low [1; 2]%R (2 + k) (1 * ln 5 - 5 + (2 * ln 3 - 3))%R 8) as (v2 & V1 & V2 & V3 & V4).
  - intros x [<-|[]] [H|[]]. discriminate.
  - repeat constructor. intros [].
  - exact ND.
  - exact ND.
  - apply C118_case_context.
  - reflexivity.
  - intros d [<-|[<-|[]]]; lra.
  - cbn. lra.
  - apply f_llh_value.
  - exact HT.
  - split; [intros z _; reflexivity|]. split.
    + intros z Hz. cbn [rate_names f_llh wl_llh ll_components map fst] in Hz.
      change (replace_alias _ (p_values (f_state 4 0))) with (f_values 0).
      change (replace_alias _ f_low) with [("ac_rate", Fin (3 / 2)); ("spare", Fin 0); ("a", Fin (1 / 2)); ("er_rate", Fin (3 / 2))]%R.
      unfold f_values. cbn [get]. destruct (String.eqb z "ac_rate") eqn:E1.
      { apply String.eqb_eq in E1. subst z. exfalso. apply Hz. right. left. reflexivity. }
      destruct (String.eqb z "spare"); [reflexivity|]. destruct (String.eqb z "a"); [reflexivity|].
      destruct (String.eqb z "er_rate") eqn:E2; [|reflexivity]. apply String.eqb_eq in E2. subst z. exfalso. apply Hz. left. reflexivity.
    + intros z Hz. exists 4%R, 4%R. cbn [fold_right]. replace ((1 + (2 + 0)) / 8 * 4 + 0 * 4)%R with (3 / 2)%R by lra.
      destruct Hz as [<-|[<-|[]]]; repeat split.
  - exists v2. split; [exact V1|]. split; [exact V2|]. destruct (Rle_lt_or_eq_dec _ _ V3) as [V|V]; [exact V|]. apply V4 in V. cbn in V. lra.
Qed.

(** Half way between the two sets of rates. *)
Example C118_case_concave k n : exists v v2, get_log_likelihood (wl_llh f_llh) k n f_low = Ok (2 + k, Fin v) /\
  get_log_likelihood (wl_llh f_llh) k n [("er_events", Fin (11 / 4)); ("ac_rate", Fin (11 / 4)); ("spare", Fin 0); ("a", Fin (1 / 2))]%R = Ok (2 + k, Fin v2) /\
  (1 / 2 * (1 * ln 5 - 5 + (2 * ln 3 - 3)) + (1 - 1 / 2) * v <= v2)%R.
Proof.
  destruct (C118_case_total k n) as (v & V & _ & _). exists v.
  assert (ND : NoDup ["er_events"; "ac_rate"; "spare"; "a"]) by (repeat constructor; intros H; repeat (destruct H as [H|H]; [discriminate|]); destruct H).
  destruct (C118_concave (e_row f_env) (wl_llh f_llh) k n (p_values (f_state 4 0)) f_low
    [("er_events", Fin (11 / 4)); ("ac_rate", Fin (11 / 4)); ("spare", Fin 0); ("a", Fin (1 / 2))]%R (1 / 2)%R [1; 2]%R (2 + k)
    (1 * ln 5 - 5 + (2 * ln 3 - 3))%R (2 + k) v) as (v2 & V1 & V2).
  - intros x [<-|[]] [H|[]]. discriminate.
  - repeat constructor. intros [].
  - exact ND.
  - exact ND.
  - exact ND.
  - apply C118_case_context.
  - reflexivity.
  - intros d [<-|[<-|[]]]; lra.
  - lra.
  - assert (O : forall x y : R, off_rates (ll_components (wl_llh f_llh)) (f_values 0) [("ac_rate", Fin x); ("spare", Fin 0); ("a", Fin (1 / 2)%R); ("er_rate", Fin y)]).
    { intros x y z Hz. cbn [rate_names f_llh wl_llh ll_components map fst] in Hz. unfold f_values. cbn [get].
      destruct (String.eqb z "ac_rate") eqn:E1; [apply String.eqb_eq in E1; subst z; exfalso; apply Hz; right; left; reflexivity|].
      destruct (String.eqb z "spare"); [reflexivity|]. destruct (String.eqb z "a"); [reflexivity|].
      destruct (String.eqb z "er_rate") eqn:E2; [|reflexivity]. apply String.eqb_eq in E2. subst z. exfalso. apply Hz. left. reflexivity. }
    split; [apply O|]. split; [apply O|]. intros z Hz. exists 4%R, (3 / 2)%R. replace (1 / 2 * 4 + (1 - 1 / 2) * (3 / 2))%R with (11 / 4)%R by lra.
    destruct Hz as [<-|[<-|[]]]; repeat split.
  - apply f_llh_value.
  - exact V.
  - exists v2. auto.
Qed.

(** The fixed component alone: 3 events in the data, so a rate of 3 is better than one of 4. *)
Definition one_llh : llh nat := mk_llh [("ac", w_acc)] ["ac_rate"] [] [Fin 1; Fin 2].
Lemma one_value k n : get_log_likelihood one_llh k n [("ac_rate", Fin 4)] = Ok (k, Fin (1 * ln 3 - 3 + (2 * ln 1 - 1))%R).
Proof.
  unfold get_log_likelihood, simulate_model_hist. cbn [one_llh ll_alias replace_alias ll_components sum_components ll_data map].
  unfold w_acc at 1. cbn [l_kind]. unfold fixed_hist. rewrite w_ac_made. unfold get_normalization, scale. cbn [n_norm n_rate].
  change (get "ac_rate" [("ac_rate", Fin 4)]) with (Some (Fin 4)). cbn -[fadd fdiv fmul].
  rewrite !fadd_Fin. rewrite fdiv_Fin by lra. rewrite !fmul_Fin. cbn -[fadd Rmult Rdiv Rplus fsub fmul flog fle]. rewrite !fadd_Fin.
  replace (0 + 3 * (1 / (3 + (1 + 0)) * 4))%R with 3%R by lra. replace (0 + 1 * (1 / (3 + (1 + 0)) * 4))%R with 1%R by lra.
  unfold log_likelihood_of, poisson_sum. cbn -[fadd fsub fmul flog fle Rplus Rmult].
  rewrite !flog_pos by lra. rewrite !fmul_Fin, !fsub_Fin, !fadd_Fin.
  replace (fle (Fin 3) (Fin 0)) with false by (symmetry; apply Bool.not_true_is_false; rewrite fle_Fin; lra).
  replace (fle (Fin 1) (Fin 0)) with false by (symmetry; apply Bool.not_true_is_false; rewrite fle_Fin; lra).
  cbn [orb is_nan]. do 3 f_equal. lra.
Qed.
Example C118_case_one k n : exists v2, get_log_likelihood one_llh k n [("ac_rate", Fin (fold_right Rplus 0 [1; 2])%R)] = Ok (k, Fin v2) /\
  (1 * ln 3 - 3 + (2 * ln 1 - 1) < v2)%R.
Proof.
  destruct (C118_one no_oor one_llh "ac" w_acc k n [("ac_rate", Fin 4)] [("ac_rate", Fin (fold_right Rplus 0 [1; 2])%R)] [1; 2]%R k
    (1 * ln 3 - 3 + (2 * ln 1 - 1))%R 4%R) as (v2 & V1 & V2 & V3).
  - intros x [].
  - constructor.
  - repeat constructor. intros [].
  - repeat constructor. intros [].
  - reflexivity.
  - apply blind_fixed. reflexivity.
  - apply built_fixed; reflexivity.
  - reflexivity.
  - intros d [<-|[<-|[]]]; lra.
  - cbn. lra.
  - intros z Hz. cbn [one_llh ll_alias replace_alias get]. destruct (String.eqb z "ac_rate") eqn:E1; [|reflexivity].
    apply String.eqb_eq in E1. subst z. exfalso. apply Hz. left. reflexivity.
  - reflexivity.
  - reflexivity.
  - apply one_value.
  - exists v2. split; [exact V1|]. destruct (Rle_lt_or_eq_dec _ _ V2) as [V|V]; [exact V|]. apply V3 in V. cbn in V. lra.
Qed.

Print Assumptions C118_concave.
Print Assumptions C118_total.
Print Assumptions C118_one.
Print Assumptions C118_context.
