(** Weighted data against histograms. *)
From Coq Require Import Reals Lra Permutation.
From Verif Require Import Base BaseFacts ModelFloat ModelHist ModelLikelihood
  SpecHist SpecLikelihood SpecWeighted ProofFloat ProofHist ProofLikelihood ProofLikelihood2 ProofWeighted.
Local Open Scope list_scope.

Lemma scale_finite_factor f h : h <> [] -> Forall finite (scale f h) -> exists x, f = Fin x.
Proof.
  intros Hne H. destruct h as [|x h]; [contradiction|]. inversion H as [|? ? [r Hr] _]; subst.
  destruct (fmul_Fin_inv x f r Hr) as (a & b & _ & Hb). exists b. exact Hb.
Qed.

Section Agree.
  Variable oor : list (list fl) -> nat -> list fl.

  Lemma too_wide_false b w : w = ndim b -> too_wide b w = false.
  Proof. intros ->. apply Nat.ltb_irrefl. Qed.

  Lemma existsb_false {A} (P : A -> bool) l : (forall x, In x l -> P x = false) -> existsb P l = false.
  Proof.
    induction l as [|x l IH]; intros H; [reflexivity|]. cbn. rewrite H by (left; reflexivity).
    apply IH. intros y Hy. apply H. right. exact Hy.
  Qed.

  Lemma sim_same {K} c (sim : K -> nat -> params -> result (K * list (list fl))) key batch p key' h :
    binning_ok (n_bins c) -> agreeing (n_bins c) batch p (Simulated c sim) ->
    sim_hist oor c sim key batch p = Ok (key', h) -> Forall finite h ->
    exists out, sim_weighted oor c sim key batch p = Ok (key', out) /\ binned (n_bins c) (map event out) = h.
  Proof.
    intros Hb (_ & He & Hn & Hrows) H Hfin. unfold sim_hist in H.
    destruct (sim key batch p) as [[k rows]|e] eqn:Hs; [|discriminate].
    rewrite Hn in H. unfold split_rows in H.
    destruct (forallb _ _) eqn:Hl in H; [|discriminate].
    assert (Hlen : forall r, In r rows -> List.length r - 1 = ndim (n_bins c)).
    { intros r Hr. rewrite forallb_forall in Hl. specialize (Hl _ (in_map (@removelast fl) _ _ Hr)).
      apply Nat.eqb_eq in Hl. rewrite removelast_length in Hl. exact Hl. }
    unfold implement_binning in H. rewrite He, plain_hist_binned in H by exact Hb.
    change (map (@removelast fl) rows) with (map observables rows) in H.
    change (map (fun r => last r NaN) rows) with (map weight rows) in H.
    rewrite combine_maps in H. change (fun r => (observables r, weight r)) with event in H.
    destruct (get_normalization _ _ _ _ _ _) as [f|e] eqn:Hg; [|discriminate].
    injection H as <- <-.
    destruct (scale_finite_factor f (binned (n_bins c) (map event rows))) as [x ->]; [|exact Hfin|].
    { unfold binned. intros H0. apply map_eq_nil in H0. exact (bins_nonempty _ Hb H0). }
    unfold sim_weighted. rewrite Hs.
    rewrite existsb_false by (intros r Hr; apply too_wide_false, Hlen, Hr).
    replace (forallb (fun r => Nat.eqb (List.length r - 1) (ndim (n_bins c))) rows) with true
      by (symmetry; apply forallb_forall; intros r Hr; apply Nat.eqb_eq, Hlen, Hr).
    set (kept := filter (inside (n_bins c)) rows).
    assert (Hk : binned (n_bins c) (map event kept) = binned (n_bins c) (map event rows)).
    { apply binned_filter. intros r Hr Hin. rewrite <- (inside_observables _ r (Hlen r Hr)).
      apply (inside_roi _ _ Hb), (bin_in_roi _ _ Hb); [|exact Hin]. apply (Hrows _ _ _ Hs r Hr). }
    unfold implement_binning. rewrite He, plain_hist_binned by exact Hb.
    change (map (@removelast fl) kept) with (map observables kept).
    change (map (fun r => last r NaN) kept) with (map weight kept).
    rewrite combine_maps. change (fun r => (observables r, weight r)) with event.
    rewrite Hk, Hg. eexists. split; [reflexivity|].
    rewrite <- Hk, <- weight_of_scaled.
    - rewrite !map_map. f_equal. apply map_ext. intros r. cbn [fst snd event]. apply event_weighted.
    - intros r Hr. apply filter_In in Hr. apply (Hrows _ _ _ Hs r (proj1 Hr)).
  Qed.

  Lemma sample_same {K} c data p h :
    binning_ok (n_bins c) -> agreeing (K := K) (n_bins c) 0 p (Sample c data) ->
    fixed_hist oor c data p = Ok h -> Forall finite h ->
    exists out, fixed_weighted oor c data p = Ok out /\ binned (n_bins c) (map event out) = h.
  Proof.
    intros Hb (_ & He & Hrows) H Hfin. unfold fixed_hist in H. unfold fixed_weighted.
    destruct (fixed_deduce oor c data) as [h0|e] eqn:Hd; [|discriminate].
    rewrite existsb_false by (intros r Hr; apply too_wide_false, Hrows, Hr).
    destruct (get_normalization _ _ _ _ _ _) as [f|e] eqn:Hg; [|discriminate].
    injection H as <-. unfold fixed_deduce, implement_binning in Hd.
    rewrite He, plain_hist_binned in Hd by exact Hb. injection Hd as <-.
    rewrite <- (map_id data) in Hfin at 1. rewrite combine_maps in Hfin.
    destruct (scale_finite_factor f (binned (n_bins c) (map (fun r => (r, Fin 1)) data))) as [x ->]; [|exact Hfin|].
    { unfold binned. intros H0. apply map_eq_nil in H0. exact (bins_nonempty _ Hb H0). }
    eexists. split; [reflexivity|].
    rewrite <- (map_id data) at 2. rewrite combine_maps.
    rewrite <- (binned_filter (n_bins c) (fun r => (r, Fin 1)) (inside (n_bins c)) data), <- weight_of_scaled.
    - rewrite !map_map. f_equal. apply map_ext. intros r. cbn [fst snd].
      unfold event, observables, weight. rewrite removelast_last, last_last. reflexivity.
    - intros r _. exists 1%R. reflexivity.
    - intros r Hr Hin. apply (inside_roi _ _ Hb), (bin_in_roi _ _ Hb); [|exact Hin]. apply (Hrows r Hr).
  Qed.

  (** The histogram of a component, from its events. *)
  Lemma sim_hist_events {K} c (sim : K -> nat -> params -> result (K * list (list fl))) key batch p key' h :
    binning_ok (n_bins c) -> n_add_eps c = false -> sim_hist oor c sim key batch p = Ok (key', h) ->
    exists rows f, sim key batch p = Ok (key', rows) /\
      (forall r, In r rows -> List.length r = ndim (n_bins c) + if n_no_eff c then 0 else 1) /\
      h = scale f (binned (n_bins c) (map (sim_event (n_no_eff c)) rows)).
  Proof.
    intros Hb He H. unfold sim_hist in H.
    destruct (sim key batch p) as [[k rows]|e] eqn:Hs; [|discriminate].
    assert (Hsp : split_rows (n_no_eff c) rows =
              (map (fun r => fst (sim_event (n_no_eff c) r)) rows, map (fun r => snd (sim_event (n_no_eff c) r)) rows)).
    { unfold split_rows, sim_event. destruct (n_no_eff c); cbn [fst snd]; [rewrite map_id|]; reflexivity. }
    rewrite Hsp in H. destruct (forallb _ _) eqn:Hl in H; [|discriminate].
    unfold implement_binning in H. rewrite He, plain_hist_binned in H by exact Hb.
    rewrite combine_maps in H.
    destruct (get_normalization _ _ _ _ _ _) as [f|e] eqn:Hg; [|discriminate].
    assert (Hk : k = key') by congruence. assert (Hh : h = scale f (binned (n_bins c) (map (fun r => (fst (sim_event (n_no_eff c) r), snd (sim_event (n_no_eff c) r))) rows))) by congruence.
    subst k. exists rows, f. split; [reflexivity|]. split.
    - intros r Hr. rewrite forallb_forall in Hl. specialize (Hl _ (in_map _ _ _ Hr)). apply Nat.eqb_eq in Hl.
      unfold sim_event in Hl. destruct (n_no_eff c); cbn [fst event] in Hl; [lia|].
      unfold observables in Hl. rewrite removelast_length in Hl.
      assert (1 <= ndim (n_bins c)) by (destruct (n_bins c); cbn; try lia; destruct Hb). lia.
    - rewrite Hh. do 2 f_equal. apply map_ext. intros r. symmetry. apply surjective_pairing.
  Qed.

  (** A component without efficiency. *)
  Lemma no_eff_fails {K} c (sim : K -> nat -> params -> result (K * list (list fl))) key batch p key' h rows :
    n_no_eff c = true -> 1 <= ndim (n_bins c) -> sim key batch p = Ok (key', rows) -> rows <> [] ->
    sim_hist oor c sim key batch p = Ok (key', h) ->
    sim_weighted oor c sim key batch p = Err AssertionError.
  Proof.
    intros Hn Hd Hs Hne H. unfold sim_hist in H. rewrite Hs, Hn in H. cbn [split_rows] in H.
    destruct (forallb _ _) eqn:Hl in H; [|discriminate].
    assert (Hlen : forall r, In r rows -> List.length r = ndim (n_bins c)).
    { intros r Hr. rewrite forallb_forall in Hl. apply Nat.eqb_eq, Hl, Hr. }
    unfold sim_weighted. rewrite Hs. rewrite existsb_false.
    - destruct rows as [|r rows]; [contradiction|]. cbn [forallb].
      rewrite (Hlen r (or_introl eq_refl)).
      destruct (Nat.eqb_spec (ndim (n_bins c) - 1) (ndim (n_bins c))); [lia|]. reflexivity.
    - intros r Hr. unfold too_wide. apply Nat.ltb_ge. rewrite (Hlen r Hr). lia.
  Qed.

  (* ---------------------------------------------------------------- *)
  (** * Likelihoods *)

  Lemma hist_add_map {A} (f g : A -> fl) l : hist_add (map f l) (map g l) = map (fun a => fadd (f a) (g a)) l.
  Proof. unfold hist_add. rewrite combine_maps, map_map. reflexivity. Qed.

  Lemma binned_app b x y : binned b (x ++ y) = hist_add (binned b x) (binned b y).
  Proof. unfold binned. rewrite hist_add_map. apply map_ext. intros P. apply weight_of_app. Qed.

  Lemma binned_length b x : List.length (binned b x) = List.length (bins_of b).
  Proof. apply map_length. Qed.

  Lemma hist_add_assoc x y z : List.length x = List.length y -> List.length y = List.length z ->
    hist_add (hist_add x y) z = hist_add x (hist_add y z).
  Proof.
    intros H1 H2. apply entry_ext.
    - rewrite !hist_add_length; rewrite ?hist_add_length; congruence.
    - intros i Hi. rewrite !hist_add_length in Hi by (rewrite ?hist_add_length; congruence).
      rewrite !hist_add_entry; rewrite ?hist_add_length; try congruence; try lia. apply fadd_assoc.
  Qed.

  Lemma hist_add_zeros x n : List.length x = n -> hist_add x (repeat (Fin 0) n) = x.
  Proof.
    intros H. apply entry_ext.
    - rewrite hist_add_length by (rewrite repeat_length; exact H). reflexivity.
    - intros i Hi. rewrite hist_add_length in Hi by (rewrite repeat_length; exact H).
      rewrite hist_add_entry by (rewrite ?repeat_length; assumption || lia). unfold entry at 2.
      rewrite nth_repeat_lt by lia. apply fadd_0_r.
  Qed.
  Lemma zeros_hist_add x n : List.length x = n -> hist_add (repeat (Fin 0) n) x = x.
  Proof.
    intros H. apply entry_ext.
    - rewrite hist_add_length by (rewrite repeat_length; congruence). rewrite repeat_length. congruence.
    - intros i Hi. rewrite hist_add_length in Hi by (rewrite repeat_length; congruence).
      rewrite repeat_length in Hi.
      rewrite hist_add_entry by (rewrite ?repeat_length; lia). unfold entry at 1.
      rewrite nth_repeat_lt by lia. apply fadd_0_l.
  Qed.

  Lemma binned_nil b : binned b [] = repeat (Fin 0) (List.length (bins_of b)).
  Proof.
    unfold binned, weight_of. cbn [filter map]. induction (bins_of b) as [|P l IH]; [reflexivity|].
    cbn [map List.length repeat]. rewrite IH. reflexivity.
  Qed.

  Lemma iadd_ok h x h1 : iadd h x = Ok h1 -> List.length h = List.length x /\ h1 = hist_add h x.
  Proof.
    unfold iadd. destruct (Nat.eqb_spec (List.length h) (List.length x)); [|discriminate].
    intros H. injection H as <-. split; [assumption|reflexivity].
  Qed.

  Lemma hist_add_finite x y : List.length x = List.length y -> Forall finite (hist_add x y) ->
    Forall finite x /\ Forall finite y.
  Proof.
    unfold hist_add. revert y. induction x as [|a x IH]; intros [|c y] Hl H; try discriminate; [split; constructor|].
    cbn in H. inversion H as [|? ? [r Hr] H1]; subst. destruct (fadd_Fin_inv _ _ _ Hr) as (u & v & -> & -> & _).
    destruct (IH y) as [? ?]; [cbn in Hl; lia|exact H1|].
    split; constructor; try assumption; [exists u|exists v]; reflexivity.
  Qed.

  Lemma components_same {K} b batch p (cs : dict (component K)) : binning_ok b ->
    forall key key' h0 h, List.length h0 = List.length (bins_of b) ->
    Forall (fun nc => agreeing b batch p (snd nc)) cs ->
    sum_components (views (hist_view oor) cs) key batch p h0 = Ok (key', h) -> Forall finite h ->
    exists parts, weighted_components (views (data_view oor) cs) key batch p = Ok (key', parts) /\
      List.length parts = List.length cs /\ Forall finite h0 /\
      h = hist_add h0 (binned b (map event (List.concat parts))).
  Proof.
    intros Hb. induction cs as [|[n x] cs IH]; intros key key' h0 h Hl Ha H Hfin.
    - cbn in H. injection H as <- <-. exists []. split; [reflexivity|]. split; [reflexivity|].
      split; [exact Hfin|]. cbn [List.concat map]. rewrite binned_nil. symmetry. apply hist_add_zeros, Hl.
    - inversion Ha as [|? ? Hx Hcs]; subst. cbn [snd] in Hx.
      assert (Hstep : exists key1 x1 h1,
        (match l_kind (hist_view oor x) with
         | LSim f => f key batch p
         | LFixed f => match f p with Ok y => Ok (key, y) | Err e => Err e end
         | LOther => Err TypeError
         end) = Ok (key1, x1) /\ iadd h0 x1 = Ok h1 /\
        sum_components (views (hist_view oor) cs) key1 batch p h1 = Ok (key', h)).
      { cbn [views map sum_components fst snd] in H.
        destruct (match l_kind (hist_view oor x) with
         | LSim f => f key batch p
         | LFixed f => match f p with Ok y => Ok (key, y) | Err e => Err e end
         | LOther => Err TypeError
         end) as [[k1 x1]|e]; [|discriminate].
        destruct (iadd h0 x1) as [h1|e] eqn:Hi; [|discriminate]. exists k1, x1, h1. auto. }
      clear H. destruct Hstep as (key1 & x1 & h1 & H1 & Hi & H2).
      destruct (iadd_ok _ _ _ Hi) as [Hlx ->].
      destruct (IH key1 key' (hist_add h0 x1) h) as (parts & Hp & Hlp & Hf1 & Heq);
        [rewrite hist_add_length by exact Hlx; exact Hl|exact Hcs|exact H2|exact Hfin|].
      destruct (hist_add_finite _ _ Hlx Hf1) as [Hf0 Hfx].
      assert (Hout : exists out, (match data_view oor x with
             | WSim f => f key batch p
             | WFixed f => match f p with Ok x => Ok (key, x) | Err e => Err e end
             | WOther => Err TypeError
             end) = Ok (key1, out) /\ binned b (map event out) = x1).
      { destruct x as [c sim|c data]; cbn [hist_view data_view l_kind] in *.
        - destruct Hx as (Hxb & Hx). rewrite <- Hxb in *.
          apply (sim_same c sim key batch p key1 x1 Hb (conj eq_refl Hx) H1 Hfx).
        - destruct (fixed_hist oor c data p) as [y|e] eqn:Hy; [|discriminate]. injection H1 as <- <-.
          destruct Hx as (Hxb & Hx). rewrite <- Hxb in *.
          destruct (sample_same (K := K) c data p y Hb (conj eq_refl Hx) Hy Hfx) as (out & Ho & Hbo).
          exists out. rewrite Ho. auto. }
      destruct Hout as (out & Ho & Hbo). exists (out :: parts).
      split; [|split; [|split; [exact Hf0|]]].
      + cbn [views map weighted_components fst snd]. rewrite Ho.
        unfold views in Hp. rewrite Hp. reflexivity.
      + cbn. rewrite Hlp. reflexivity.
      + rewrite Heq. cbn [List.concat]. rewrite map_app, binned_app, Hbo.
        apply hist_add_assoc; [exact Hlx|]. rewrite binned_length. congruence.
  Qed.

  Lemma llh_same {K} b batch p (cs : dict (component K)) alias data needed key key' h :
    binning_ok b -> cs <> [] -> List.length data = List.length (bins_of b) ->
    Forall (fun nc => agreeing b batch (replace_alias alias p) (snd nc)) cs ->
    simulate_model_hist (mk_llh (views (hist_view oor) cs) needed alias data) key batch p = Ok (key', h) ->
    Forall finite h ->
    exists out, simulate_weighted_data alias (views (data_view oor) cs) key batch p = Ok (key', out) /\
      binned b (map event out) = h.
  Proof.
    intros Hb Hne Hd Ha H Hfin. unfold simulate_model_hist in H. cbn [ll_components ll_alias ll_data] in H.
    destruct (components_same b batch (replace_alias alias p) cs Hb key key' _ h
                ltac:(rewrite map_length; exact Hd) Ha H Hfin) as (parts & Hp & Hlp & _ & Heq).
    unfold simulate_weighted_data. rewrite Hp. destruct parts as [|x parts].
    { destruct cs; [contradiction|discriminate]. }
    eexists. split; [reflexivity|]. rewrite Heq.
    replace (map (fun _ => Fin 0) data) with (repeat (Fin 0) (List.length (bins_of b))).
    - symmetry. apply zeros_hist_add, binned_length.
    - rewrite <- Hd. clear. induction data as [|d data IH]; [reflexivity|]. cbn. rewrite IH. reflexivity.
  Qed.
End Agree.

Lemma weighted_parts {K} (cs : dict (wkind K)) batch p : forall key key' parts,
  weighted_components cs key batch p = Ok (key', parts) <-> parts_from batch p cs key parts key'.
Proof.
  induction cs as [|[n c] cs IH]; intros key key' parts; split; intros H.
  - cbn in H. injection H as <- <-. constructor.
  - inversion H; subst. reflexivity.
  - cbn [weighted_components] in H. destruct c as [f|f|].
    + destruct (f key batch p) as [[k1 x]|e] eqn:Hf; [|discriminate].
      destruct (weighted_components cs k1 batch p) as [[k2 xs]|e] eqn:Hw; [|discriminate].
      injection H as <- <-. apply (pf_sim batch p n f cs key k1 x xs k2 Hf). apply IH, Hw.
    + destruct (f p) as [x|e] eqn:Hf; [|discriminate].
      destruct (weighted_components cs key batch p) as [[k2 xs]|e] eqn:Hw; [|discriminate].
      injection H as <- <-. apply (pf_fixed batch p n f cs key x xs k2 Hf). apply IH, Hw.
    + discriminate.
  - inversion H as [|? ? ? ? ? ? ? ? Hf Hr|? ? ? ? ? ? ? Hf Hr]; subst; cbn [weighted_components];
      rewrite Hf; apply IH in Hr; rewrite Hr; reflexivity.
Qed.

Lemma total_concat parts : total_weight (List.concat parts) = fsum (map total_weight parts).
Proof.
  induction parts as [|x parts IH]; [reflexivity|]. cbn [List.concat map]. rewrite fsum_cons, <- IH.
  unfold total_weight. rewrite map_app, fsum_app. reflexivity.
Qed.

(* ------------------------------------------------------------------ *)
(** * Totals with the floor, and normalised on the simulation *)

Section Totals.
  Variable oor : list (list fl) -> nat -> list fl.

  Lemma rsum_le (g : nat -> R) (h : nat -> R) l : (forall i, In i l -> (g i <= h i)%R) ->
    (rsum (map g l) <= rsum (map h l))%R.
  Proof.
    induction l as [|i l IH]; intros H; [cbn; lra|]. cbn [map rsum fold_right].
    pose proof (H i (or_introl eq_refl)). specialize (IH (fun j Hj => H j (or_intror Hj))).
    unfold rsum in *. cbn. lra.
  Qed.

  Lemma entries_le l m : List.length l = List.length m ->
    (forall i, i < List.length l -> exists a b, entry m i = Fin a /\ entry l i = Fin b /\ (a <= b)%R) ->
    forall s t, fsum m = Fin s -> fsum l = Fin t -> (s <= t)%R.
  Proof.
    revert m. induction l as [|x l IH]; intros [|y m] Hl H s t Hs Ht; try discriminate.
    - cbn in Hs, Ht. injection Hs as <-. injection Ht as <-. lra.
    - rewrite fsum_cons in Hs, Ht. destruct (H 0 ltac:(cbn; lia)) as (a & b & Ha & Hb & Hab).
      unfold entry in Ha, Hb. cbn [nth] in Ha, Hb. subst x y.
      destruct (fadd_Fin_inv _ _ _ Hs) as (u & v & Hu & Hv & ->). injection Hu as <-.
      destruct (fadd_Fin_inv _ _ _ Ht) as (u' & v' & Hu' & Hv' & ->). injection Hu' as <-.
      assert (v <= v')%R; [|lra]. apply (IH m); [cbn in Hl; lia| |exact Hv|exact Hv'].
      intros i Hi. exact (H (S i) ltac:(cbn; lia)).
  Qed.

  Lemma sim_total_floored {K} c sim (key : K) batch p key' out r :
    binning_ok (n_bins c) -> n_norm c = OnPdf -> n_add_eps c = true -> get (n_rate c) p = Some (Fin r) ->
    (0 <= r)%R -> sim_weighted oor c sim key batch p = Ok (key', out) -> out <> [] ->
    (forall o, In o out -> in_some_bin (n_bins c) (observables o)) ->
    (forall rows, sim key batch p = Ok (key', rows) -> forall x, In x rows -> nonneg (weight x)) ->
    exists t, total_weight out = Fin t /\ (0 <= t <= r)%R.
  Proof.
    intros Hb Hn He Hr Hr0 H Hne Hin Hpos.
    destruct (sim_weighted_ok oor c sim key batch p key' out Hb H) as (rows & h & f & Hs & Hl & Hi & Hg & Ho).
    rewrite Hn in Hg. cbn [get_normalization] in Hg. rewrite Hr in Hg.
    assert (Hfx : f = fmul (fdiv (Fin 1) (fsum h)) (Fin r)) by congruence. clear Hg. subst f.
    set (kept := filter (fun r => inside (n_bins c) (observables r)) rows) in *.
    assert (Hk : forall e, In e (map weight kept) -> nonneg e).
    { intros e He'. apply in_map_iff in He'. destruct He' as (x & <- & Hx). apply filter_In in Hx.
      apply (Hpos rows Hs x), Hx. }
    assert (Hkne : kept <> []) by (intros H0; apply Hne; rewrite Ho, H0; reflexivity).
    rewrite Ho in Hin.
    assert (Hb' : forall r, In r kept -> in_some_bin (n_bins c) (observables r)) by (exact (kept_in_bin _ _ _ Hin)).
    destruct (nonneg_list _ Hk) as (es & Hes & Hes0).
    assert (Hese : es <> []) by (intros ->; destruct kept; [contradiction|discriminate]).
    rewrite He, Hes in Hi.
    destruct (floor_spec oor (n_bins c) _ es h Hese Hes0 Hi) as (h0 & Hi0 & Hlen & Hent).
    assert (Hgood : forall x, In x h -> good_bin x).
    { apply (floor_positive oor (n_bins c) (map observables kept) (map Fin es) h).
      - destruct es; [contradiction|discriminate].
      - intros e He'. apply in_map_iff in He'. destruct He' as (z & <- & Hz). exists z. split; [reflexivity|apply Hes0, Hz].
      - exact Hi. }
    destruct (good_list h Hgood) as (xs & Hxs & Hxs0).
    unfold implement_binning in Hi0. rewrite plain_hist_binned in Hi0 by exact Hb. injection Hi0 as <-.
    rewrite <- Hes, combine_maps in Hlen, Hent.
    assert (Hsum0 : fsum (binned (n_bins c) (map (fun r => (observables r, weight r)) kept)) = Fin (rsum es)).
    { rewrite binned_all; [|exact Hb|].
      - rewrite map_map. cbn [snd]. fold weight. rewrite <- fsum_Fin, <- Hes. reflexivity.
      - intros e He'. apply in_map_iff in He'. destruct He' as (x & <- & Hx). apply Hb', Hx. }
    assert (Hle : (rsum es <= rsum xs)%R).
    { apply (entries_le h (binned (n_bins c) (map (fun r => (observables r, weight r)) kept)) Hlen).
      - intros i Hi'. destruct (Hent i Hi') as (v0 & E1 & Hv & E2). eexists _, _. split; [exact E1|].
        split; [exact E2|]. apply Rmax_l.
      - exact Hsum0.
      - rewrite Hxs. apply fsum_Fin. }
    assert (Hxp : (0 < rsum xs)%R).
    { apply rsum_pos; [|exact Hxs0]. intros ->. cbn in Hxs. subst h. rewrite binned_length in Hlen.
      apply (bins_nonempty _ Hb). destruct (bins_of (n_bins c)); [reflexivity|discriminate]. }
    exists (rsum es * (/ rsum xs * r))%R. split.
    - assert (Hh : fsum h = Fin (rsum xs)) by (rewrite Hxs; apply fsum_Fin).
      rewrite Ho, total_scaled, Hes, Hh, on_pdf_factor by lra.
      rewrite scale_Fin, fsum_Fin, rsum_scale. reflexivity.
    - pose proof (rsum_nonneg es Hes0) as Hs0. split.
      + apply Rmult_le_pos; [exact Hs0|]. apply Rmult_le_pos; [|exact Hr0]. left. apply Rinv_0_lt_compat, Hxp.
      + replace (rsum es * (/ rsum xs * r))%R with (rsum es / rsum xs * r)%R by (unfold Rdiv; ring).
        rewrite <- (Rmult_1_l r) at 2. apply Rmult_le_compat_r; [exact Hr0|].
        apply (Rmult_le_reg_r (rsum xs)); [exact Hxp|]. unfold Rdiv. rewrite Rmult_assoc, Rinv_l by lra. lra.
  Qed.

  Lemma sim_total_on_sim {K} c sim (key : K) batch p key' out r :
    binning_ok (n_bins c) -> n_norm c = OnSim -> n_mcinput c = Ok None -> get (n_rate c) p = Some (Fin r) ->
    (0 < batch)%nat -> sim_weighted oor c sim key batch p = Ok (key', out) ->
    exists rows, sim key batch p = Ok (key', rows) /\
      keep (fun r => in_roi (n_bins c) (observables r))
           (fun x => observables x ++ [fmul (weight x) (Fin (r / INR batch))]) rows out.
  Proof.
    intros Hb Hn Hm Hr Hbt H.
    destruct (sim_weighted_ok oor c sim key batch p key' out Hb H) as (rows & h & f & Hs & Hl & Hi & Hg & Ho).
    rewrite Hn, Hm in Hg. cbn [get_normalization] in Hg. rewrite Hr in Hg.
    assert (Hfx : f = fmul (fdiv (Fin 1) (Fin (INR batch))) (Fin r)) by congruence. clear Hg. subst f.
    exists rows. split; [exact Hs|]. rewrite Ho.
    assert (Hf : fmul (fdiv (Fin 1) (Fin (INR batch))) (Fin r) = Fin (r / INR batch)).
    { rewrite on_pdf_factor by (apply not_0_INR; lia). f_equal. unfold Rdiv. ring. }
    rewrite Hf. clear -Hb. induction rows as [|x rows IH]; cbn [filter]; [constructor|].
    destruct (inside (n_bins c) (observables x)) eqn:Hi.
    - cbn [map]. refine (keep_yes _ (fun x => observables x ++ [fmul (weight x) (Fin (r / INR batch))]) x rows _ _ IH).
      apply (inside_roi _ _ Hb), Hi.
    - constructor; [|exact IH]. intros H. apply (inside_roi _ _ Hb) in H. congruence.
  Qed.
End Totals.
