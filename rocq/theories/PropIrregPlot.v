(** C105: the picture drawn by plot_irreg_histogram_2d.
    The vocabulary is in SpecIrregPlot.v, the lemmas in ProofIrregPlot.v. *)
From Coq Require Import Reals Lra.
From Verif Require Import Base BaseFacts ModelFloat ModelParameter ModelHist ModelIrregPlot SpecHist
  SpecIrregPlot ProofFloat ProofIrregPlot PropHist.

(** When a picture is drawn at all: with the default colour scale always; with one given by the
    user, if its ends are in order. *)
Theorem C105_drawn density vmin vmax bins_x bins_y hist n m :
  shaped n m bins_x bins_y hist -> 0 < n -> 0 < m ->
  (vmin = None /\ vmax = None \/ exists a b, vmin = Some a /\ vmax = Some b /\ flt b a = false) ->
  exists pic, plot_irreg_histogram_2d density vmin vmax bins_x bins_y hist = Ok pic.
Proof.
  intros Hs Hn Hm Hv. destruct (plot_done density vmin vmax _ _ _ _ _ Hs Hn Hm) as (v0 & v1 & E & [(_ & Hl & _)|(_ & pic & Hp & _)]);
    [|eauto].
  exfalso. unfold scale_of, bind in E.
  destruct (np_min _) as [lo|] eqn:E1; [|discriminate]. destruct (np_max _) as [hi|] eqn:E2; [|discriminate].
  injection E as <- <-. destruct Hv as [[-> ->]|(a & b & -> & -> & Hab)]; [|congruence].
  rewrite (min_max_order _ _ _ E1 E2) in Hl. discriminate.
Qed.

(** One rectangle per bin, in the order of the entries, over the bin's edges; its value is the entry
    of the histogram, or the entry divided by the area. *)
Theorem C105_rectangles density vmin vmax bins_x bins_y hist n m pic :
  shaped n m bins_x bins_y hist -> 0 < n -> 0 < m ->
  plot_irreg_histogram_2d density vmin vmax bins_x bins_y hist = Ok pic ->
  List.length (pc_rects pic) = n * m /\
  forall i j, i < n -> j < m -> exists r, nth_error (pc_rects pic) (i * m + j) = Some r /\
    r_x r = edge bins_x i /\ r_y r = edge (nth i bins_y []) j /\
    r_w r = fsub (edge bins_x (S i)) (edge bins_x i) /\
    r_h r = fsub (edge (nth i bins_y []) (S j)) (edge (nth i bins_y []) j) /\
    r_value r = (if density then fdiv (entry2 hist i j) (fmul (r_w r) (r_h r)) else entry2 hist i j).
Proof.
  intros Hs Hn Hm Hp. destruct (plot_done density vmin vmax _ _ _ _ _ Hs Hn Hm) as (v0 & v1 & _ & [(_ & _ & He)|(_ & pic' & Hp' & HL & _ & _ & _ & HN)]);
    [congruence|].
  assert (pic' = pic) by congruence. subst pic'. split; [exact HL|]. intros i j Hi Hj.
  destruct (HN i j Hi Hj) as (r & Hr & Hc & Hv & _). exists r. split; [exact Hr|].
  unfold cell_of in Hc. unfold value_of, cell_of in Hv. injection Hc as E1 E2 E3 E4 E5.
  rewrite E3, E4 in Hv. auto 10.
Qed.

(** With finite edges the upper right corner is the corner of the bin: neighbours share their border. *)
Theorem C105_corner density vmin vmax bins_x bins_y hist n m pic i j r :
  shaped n m bins_x bins_y hist -> finite_list bins_x -> finite_rows bins_y -> i < n -> j < m ->
  plot_irreg_histogram_2d density vmin vmax bins_x bins_y hist = Ok pic ->
  nth_error (pc_rects pic) (i * m + j) = Some r ->
  fadd (r_x r) (r_w r) = edge bins_x (S i) /\ fadd (r_y r) (r_h r) = edge (nth i bins_y []) (S j).
Proof.
  intros Hs Fx Fy Hi Hj Hp Hr.
  destruct (C105_rectangles _ _ _ _ _ _ n m _ Hs ltac:(lia) ltac:(lia) Hp) as [_ H].
  destruct (H i j Hi Hj) as (r' & Hr' & Ex & Ey & Ew & Eh & _). rewrite Hr in Hr'. injection Hr' as <-.
  destruct Hs as (Hx & Hy & Hry & _).
  assert (G1 : forall k, k <= n -> exists q, edge bins_x k = Fin q).
  { intros k Hk. apply Fx. apply nth_In. lia. }
  assert (G2 : forall k, k <= m -> exists q, edge (nth i bins_y []) k = Fin q).
  { intros k Hk. apply (Fy (nth i bins_y [])); [apply nth_In; lia|]. apply nth_In.
    rewrite Hry by (apply nth_In; lia). lia. }
  destruct (G1 i ltac:(lia)) as (a & Ea). destruct (G1 (S i) ltac:(lia)) as (b & Eb).
  destruct (G2 j ltac:(lia)) as (c & Ec). destruct (G2 (S j) ltac:(lia)) as (d & Ed).
  rewrite Ex, Ey, Ew, Eh, Ea, Eb, Ec, Ed. cbv [fadd fsub fneg]. split; f_equal; lra.
Qed.

(** Drawing the histogram that the package makes of events: the value of every rectangle is the
    weight of the events inside the rectangle. *)
Theorem C105_histogram oor density vmin vmax bins_x bins_y events n m pic i j r :
  List.length bins_x = n + 1 -> List.length bins_y = n -> (forall r, In r bins_y -> List.length r = m + 1) ->
  sorted bins_x -> (forall r, In r bins_y -> sorted r) -> finite_list bins_x -> finite_rows bins_y ->
  i < n -> j < m ->
  plot_irreg_histogram_2d density vmin vmax bins_x bins_y (hist_2d oor bins_x bins_y events) = Ok pic ->
  nth_error (pc_rects pic) (i * m + j) = Some r ->
  let weight := weight_of snd (fun e => covers r (fst (fst e)) (snd (fst e))) events in
  r_value r = if density then fdiv weight (fmul (r_w r) (r_h r)) else weight.
Proof.
  intros Hx Hy Hry Sx Sy Fx Fy Hi Hj Hp Hr weight.
  assert (Hrow : row_length bins_y = m + 1).
  { unfold row_length. destruct bins_y as [|r0 l]; [cbn in Hy; lia|]. apply Hry. left. reflexivity. }
  assert (Hs : shaped n m bins_x bins_y (hist_2d oor bins_x bins_y events)).
  { destruct (C13_shape oor bins_x bins_y events) as [H1 H2]. repeat split; try assumption; [lia|].
    intros q Hq. rewrite (H2 q Hq). lia. }
  destruct (C105_corner _ _ _ _ _ _ n m _ i j r Hs Fx Fy Hi Hj Hp Hr) as [Cx Cy].
  destruct (C105_rectangles _ _ _ _ _ _ n m _ Hs ltac:(lia) ltac:(lia) Hp) as [_ H].
  destruct (H i j Hi Hj) as (r' & Hr' & Ex & Ey & Ew & Eh & Ev). rewrite Hr in Hr'. injection Hr' as <-.
  assert (Hent : entry2 (hist_2d oor bins_x bins_y events) i j = weight).
  { rewrite C13_entry; [|assumption|lia|intros q Hq; split; [auto|rewrite Hrow; auto]|lia|lia].
    unfold weight, covers. rewrite Cx, Cy, Ex, Ey. reflexivity. }
  rewrite Ev, Hent. reflexivity.
Qed.

(** With density, value times area summed over the rectangles gives back the number of events. *)
Theorem C105_density_total vmin vmax bins_x bins_y hist n m pic :
  shaped n m bins_x bins_y hist -> 0 < n -> 0 < m -> finite_rows hist ->
  plot_irreg_histogram_2d true vmin vmax bins_x bins_y hist = Ok pic ->
  (forall r, In r (pc_rects pic) -> exists a, fmul (r_w r) (r_h r) = Fin a /\ a <> 0%R) ->
  fsum (map (fun r => fmul (r_value r) (fmul (r_w r) (r_h r))) (pc_rects pic)) = fsum (List.concat hist).
Proof.
  intros Hs Hn Hm Fh Hp Ha. destruct (C105_rectangles _ _ _ _ _ _ n m _ Hs Hn Hm Hp) as [HL HN].
  destruct Hs as (Hx & Hy & Hry & Hh & Hrh). f_equal. apply list_ext. intros k.
  destruct (Nat.lt_ge_cases k (n * m)) as [Hk|Hk].
  - destruct (cut_index m k n Hm Hk) as (i & j & -> & Hi & Hj).
    destruct (HN i j Hi Hj) as (r & Hr & _ & _ & _ & _ & Hv).
    rewrite nth_error_map, Hr, concat_nth by assumption. cbn [option_map].
    assert (Hin : In (nth i hist []) hist) by (apply nth_In; lia).
    rewrite (nth_error_nth' hist []) by lia. rewrite (nth_error_nth' _ NaN) by (rewrite (Hrh _ Hin); lia).
    f_equal. rewrite Hv. destruct (Ha r (nth_error_In _ _ Hr)) as (a & -> & Hnz).
    destruct (Fh _ Hin (entry2 hist i j)) as (v & Ev).
    { unfold entry2, entry. apply nth_In. rewrite (Hrh _ Hin). lia. }
    unfold entry2, entry in *. rewrite Ev. unfold fdiv. cbn. destruct (Req_EM_T a 0); [contradiction|]. cbn.
    f_equal. field. exact Hnz.
  - rewrite (proj2 (nth_error_None _ _)) by (rewrite map_length; lia). symmetry. apply nth_error_None.
    rewrite (concat_length m) by assumption. lia.
Qed.

(** The colour scale: its ends are those given by the user, or else the least and the largest value;
    a rectangle's place on it is linear in its value. *)
Theorem C105_scale density vmin vmax bins_x bins_y hist n m pic :
  shaped n m bins_x bins_y hist -> 0 < n -> 0 < m ->
  plot_irreg_histogram_2d density vmin vmax bins_x bins_y hist = Ok pic ->
  (forall a, vmin = Some a -> pc_vmin pic = a) /\ (forall b, vmax = Some b -> pc_vmax pic = b) /\
  (finite_list (map r_value (pc_rects pic)) ->
    (vmin = None -> In (pc_vmin pic) (map r_value (pc_rects pic)) /\
       forall r, In r (pc_rects pic) -> fle (pc_vmin pic) (r_value r) = true) /\
    (vmax = None -> In (pc_vmax pic) (map r_value (pc_rects pic)) /\
       forall r, In r (pc_rects pic) -> fle (r_value r) (pc_vmax pic) = true)) /\
  (forall r lo hi v, In r (pc_rects pic) -> pc_vmin pic = Fin lo -> pc_vmax pic = Fin hi -> lo <> hi ->
    r_value r = Fin v -> r_color r = Fin ((v - lo) / (hi - lo))).
Proof.
  intros Hs Hn Hm Hp.
  destruct (plot_done density vmin vmax _ _ _ _ _ Hs Hn Hm) as (v0 & v1 & E & [(_ & _ & He)|(Ho & pic' & Hp' & HL & E0 & E1 & _ & HN)]);
    [congruence|].
  assert (pic' = pic) by congruence. subst pic'. clear Hp'.
  set (vals := values_of density n m bins_x bins_y hist) in *.
  assert (Hvals : map r_value (pc_rects pic) = vals).
  { apply list_ext. intros k. destruct (Nat.lt_ge_cases k (n * m)) as [Hk|Hk].
    - destruct (cut_index m k n Hm Hk) as (i & j & -> & Hi & Hj).
      destruct (HN i j Hi Hj) as (r & Hr & _ & Hv & _). unfold vals.
      rewrite nth_error_map, Hr, values_nth by assumption. cbn [option_map]. f_equal. exact Hv.
    - rewrite (proj2 (nth_error_None _ _)) by (rewrite map_length; lia). symmetry. apply nth_error_None.
      unfold vals. rewrite values_length. exact Hk. }
  assert (Hne : vals <> []).
  { intros Hz. rewrite Hz in Hvals. apply (f_equal (@List.length fl)) in Hvals. rewrite map_length in Hvals. cbn in Hvals. nia. }
  unfold scale_of, bind in E.
  destruct (np_min vals) as [lo|] eqn:Elo; [|discriminate]. destruct (np_max vals) as [hi|] eqn:Ehi; [|discriminate].
  injection E as F0 F1. rewrite E0, E1.
  split; [intros a ->; congruence|]. split; [intros b ->; congruence|]. split.
  - rewrite Hvals. intros Hf. destruct (np_min_finite vals Hne Hf) as (x & Ex & Ix & Lx).
    destruct (np_max_finite vals Hne Hf) as (y & Ey & Iy & Ly).
    rewrite Ex in Elo. rewrite Ey in Ehi. injection Elo as <-. injection Ehi as <-.
    split; intros ->; subst; (split; [assumption|]); intros r Hr;
      pose proof (in_map r_value _ _ Hr) as Hin; rewrite Hvals in Hin; destruct (Hf _ Hin) as (v & Ev);
      rewrite Ev in Hin |- *; cbn.
    + pose proof (Lx v Hin). destruct (Rle_dec x v); [reflexivity|lra].
    + pose proof (Ly v Hin). destruct (Rle_dec v y); [reflexivity|lra].
  - intros r a b v Hr -> -> Hd Ev. clear F0 F1. apply In_nth_error in Hr. destruct Hr as (k & Hk).
    assert (Hlt : k < n * m) by (rewrite <- HL; apply nth_error_Some; congruence).
    destruct (cut_index m k n Hm Hlt) as (i & j & -> & Hi & Hj).
    destruct (HN i j Hi Hj) as (r' & Hr' & _ & _ & Hq). rewrite Hk in Hr'. injection Hr' as <-.
    rewrite Ev in Hq. unfold normalize in Hq. destruct (feq (Fin a) (Fin b)) eqn:Ef.
    + cbn in Ef. destruct (Req_EM_T a b); [contradiction|discriminate].
    + destruct Ho as [Ho|Ho]; [discriminate|]. rewrite Ho in Hq. injection Hq as <-. cbv [fdiv fsub fadd fneg finv fmul].
      match goal with |- context [Req_EM_T ?p ?q] => destruct (Req_EM_T p q) end; [exfalso; apply Hd; lra|reflexivity].
Qed.

(** The default colours: numbers between 0 and 1, in the order of the values; unless all values are
    equal both ends of the colour map are used. *)
Theorem C105_colours density bins_x bins_y hist n m pic :
  shaped n m bins_x bins_y hist -> 0 < n -> 0 < m ->
  plot_irreg_histogram_2d density None None bins_x bins_y hist = Ok pic ->
  finite_list (map r_value (pc_rects pic)) ->
  (forall r, In r (pc_rects pic) -> exists q, r_color r = Fin q /\ (0 <= q <= 1)%R) /\
  (forall r r', In r (pc_rects pic) -> In r' (pc_rects pic) ->
     flt (r_value r) (r_value r') = flt (r_color r) (r_color r')) /\
  (forall r r', In r (pc_rects pic) -> In r' (pc_rects pic) -> r_value r <> r_value r' ->
     exists s t, In s (pc_rects pic) /\ In t (pc_rects pic) /\ r_color s = Fin 0 /\ r_color t = Fin 1).
Proof.
  intros Hs Hn Hm Hp Hf.
  destruct (plot_done density None None _ _ _ _ _ Hs Hn Hm) as (v0 & v1 & E & [(_ & _ & He)|(_ & pic' & Hp' & HL & _ & _ & _ & HN)]);
    [congruence|].
  assert (pic' = pic) by congruence. subst pic'. clear Hp'.
  set (vals := values_of density n m bins_x bins_y hist) in *.
  assert (Hvals : map r_value (pc_rects pic) = vals).
  { apply list_ext. intros k. destruct (Nat.lt_ge_cases k (n * m)) as [Hk|Hk].
    - destruct (cut_index m k n Hm Hk) as (i & j & -> & Hi & Hj).
      destruct (HN i j Hi Hj) as (r & Hr & _ & Hv & _). unfold vals.
      rewrite nth_error_map, Hr, values_nth by assumption. cbn [option_map]. f_equal. exact Hv.
    - rewrite (proj2 (nth_error_None _ _)) by (rewrite map_length; lia). symmetry. apply nth_error_None.
      unfold vals. rewrite values_length. exact Hk. }
  assert (Hne : vals <> []).
  { intros Hz. rewrite Hz in Hvals. apply (f_equal (@List.length fl)) in Hvals. rewrite map_length in Hvals. cbn in Hvals. nia. }
  rewrite Hvals in Hf.
  destruct (np_min_finite vals Hne Hf) as (lo & Elo & Ilo & Llo).
  destruct (np_max_finite vals Hne Hf) as (hi & Ehi & Ihi & Lhi).
  unfold scale_of, bind in E. rewrite Elo, Ehi in E. injection E as <- <-.
  assert (Hcol : forall r, In r (pc_rects pic) -> exists v, r_value r = Fin v /\ (lo <= v <= hi)%R /\
    r_color r = (if Req_EM_T lo hi then Fin 0 else Fin ((v - lo) / (hi - lo)))).
  { intros r Hr. pose proof (in_map r_value _ _ Hr) as Hin. rewrite Hvals in Hin.
    destruct (Hf _ Hin) as (v & Ev). exists v. split; [exact Ev|]. rewrite Ev in Hin.
    split; [split; auto|].
    apply In_nth_error in Hr. destruct Hr as (k & Hk).
    assert (Hlt : k < n * m) by (rewrite <- HL; apply nth_error_Some; congruence).
    destruct (cut_index m k n Hm Hlt) as (i & j & -> & Hi & Hj).
    destruct (HN i j Hi Hj) as (r' & Hr' & _ & _ & Hq). rewrite Hk in Hr'. injection Hr' as <-.
    rewrite Ev in Hq. unfold normalize in Hq. cbn in Hq.
    destruct (Req_EM_T lo hi) as [->|Hd]; [congruence|].
    pose proof (Llo v Hin). pose proof (Lhi v Hin).
    destruct (Rlt_dec hi lo); [lra|]. injection Hq as <-. unfold fdiv. cbn.
    destruct (Req_EM_T (hi + - lo) 0); [exfalso; apply Hd; lra|]. cbn. reflexivity. }
  split; [|split].
  - intros r Hr. destruct (Hcol r Hr) as (v & _ & Hb & ->). destruct (Req_EM_T lo hi) as [_|Hd].
    + exists 0%R. split; [reflexivity|lra].
    + eexists. split; [reflexivity|].
      assert (Hpos : (0 < hi - lo)%R) by (destruct Hb; assert ((lo <= hi)%R) by lra; lra).
      split; [apply Rmult_le_pos; [lra|left; apply Rinv_0_lt_compat; exact Hpos]|].
      apply (Rmult_le_reg_r (hi - lo)); [exact Hpos|]. unfold Rdiv. rewrite Rmult_assoc, Rinv_l by lra. lra.
  - intros r r' Hr Hr'. destruct (Hcol r Hr) as (v & -> & Hb & ->). destruct (Hcol r' Hr') as (v' & -> & Hb' & ->).
    destruct (Req_EM_T lo hi) as [Heq|Hd]; cbn.
    + destruct (Rlt_dec v v'); [lra|]. destruct (Rlt_dec 0 0); [lra|reflexivity].
    + assert (Hpos : (0 < / (hi - lo))%R) by (apply Rinv_0_lt_compat; lra).
      assert (Hdiff : ((v' - lo) / (hi - lo) - (v - lo) / (hi - lo) = (v' - v) * / (hi - lo))%R) by (field; lra).
      destruct (Rlt_dec v v') as [Hv|Hv]; destruct (Rlt_dec _ _) as [Hw|Hw]; try reflexivity; exfalso.
      * pose proof (Rmult_lt_0_compat _ _ (ltac:(lra) : (0 < v' - v)%R) Hpos). lra.
      * assert (((v' - v) * / (hi - lo) <= 0)%R) by nra. lra.
  - intros r r' Hr Hr' Hneq. destruct (Hcol r Hr) as (v & Ev & Hb & _). destruct (Hcol r' Hr') as (v' & Ev' & Hb' & _).
    assert (Hd : lo <> hi) by (intros ->; apply Hneq; rewrite Ev, Ev'; f_equal; lra).
    rewrite <- Hvals in Ilo, Ihi. apply in_map_iff in Ilo, Ihi.
    destruct Ilo as (s & Es & Is). destruct Ihi as (t & Et & It). exists s, t.
    split; [exact Is|]. split; [exact It|].
    destruct (Hcol s Is) as (vs & Evs & _ & ->). destruct (Hcol t It) as (vt & Evt & _ & ->).
    rewrite Es in Evs. rewrite Et in Evt. injection Evs as <-. injection Evt as <-.
    destruct (Req_EM_T lo hi); [contradiction|]. split; f_equal; field; lra.
Qed.

(** The limits of the axes: every rectangle is between them, and each is the border of a rectangle. *)
Theorem C105_limits density vmin vmax bins_x bins_y hist n m pic :
  shaped n m bins_x bins_y hist -> 0 < n -> 0 < m -> finite_list bins_x -> finite_rows bins_y ->
  plot_irreg_histogram_2d density vmin vmax bins_x bins_y hist = Ok pic ->
  exists x0 x1 y0 y1, pc_xlim pic = (Fin x0, Fin x1) /\ pc_ylim pic = (Fin y0, Fin y1) /\
  (forall r, In r (pc_rects pic) -> exists a b c d,
     r_x r = Fin a /\ fadd (r_x r) (r_w r) = Fin b /\ r_y r = Fin c /\ fadd (r_y r) (r_h r) = Fin d /\
     (x0 <= a <= x1 /\ x0 <= b <= x1 /\ y0 <= c <= y1 /\ y0 <= d <= y1)%R) /\
  (forall v, v = x0 \/ v = x1 -> exists r, In r (pc_rects pic) /\ (r_x r = Fin v \/ fadd (r_x r) (r_w r) = Fin v)) /\
  (forall v, v = y0 \/ v = y1 -> exists r, In r (pc_rects pic) /\ (r_y r = Fin v \/ fadd (r_y r) (r_h r) = Fin v)).
Proof.
  intros Hs Hn Hm Fx Fy Hp.
  destruct (plot_done density vmin vmax _ _ _ _ _ Hs Hn Hm) as (v0 & v1 & _ & [(_ & _ & He)|(_ & pic' & Hp' & HL & _ & _ & Hlim & _)]);
    [congruence|].
  assert (pic' = pic) by congruence. subst pic'. clear Hp'.
  destruct Hlim as (a0 & a1 & b0 & b1 & E1 & E2 & E3 & E4 & Lx & Ly).
  destruct (C105_rectangles _ _ _ _ _ _ n m _ Hs Hn Hm Hp) as [_ HN].
  assert (HC := fun i j r Hi Hj => C105_corner _ _ _ _ _ _ n m _ i j r Hs Fx Fy Hi Hj Hp).
  destruct Hs as (Hx & Hy & Hry & Hh & Hrh).
  assert (Nx : bins_x <> []) by (intros ->; cbn in Hx; lia).
  assert (Ny : List.concat bins_y <> []).
  { intros E. apply (f_equal (@List.length fl)) in E. rewrite (concat_length (m + 1)) in E by exact Hry. cbn in E. nia. }
  assert (Fc : finite_list (List.concat bins_y)).
  { intros v Hv. apply in_concat in Hv. destruct Hv as (q & Hq & Hvq). exact (Fy q Hq v Hvq). }
  destruct (np_min_finite _ Nx Fx) as (x0 & F1 & I1 & M1). destruct (np_max_finite _ Nx Fx) as (x1 & F2 & I2 & M2).
  destruct (np_min_finite _ Ny Fc) as (y0 & F3 & I3 & M3). destruct (np_max_finite _ Ny Fc) as (y1 & F4 & I4 & M4).
  rewrite F1 in E1. rewrite F2 in E2. rewrite F3 in E3. rewrite F4 in E4.
  injection E1 as <-. injection E2 as <-. injection E3 as <-. injection E4 as <-.
  exists x0, x1, y0, y1. split; [exact Lx|]. split; [exact Ly|].
  assert (Hix : forall k, k <= n -> In (edge bins_x k) bins_x) by (intros k Hk; apply nth_In; lia).
  assert (Hiy : forall i k, i < n -> k <= m -> In (edge (nth i bins_y []) k) (List.concat bins_y)).
  { intros i k Hi Hk. apply in_concat. exists (nth i bins_y []). assert (In (nth i bins_y []) bins_y) by (apply nth_In; lia).
    split; [assumption|]. apply nth_In. rewrite Hry by assumption. lia. }
  split; [|split].
  - intros r Hr. apply In_nth_error in Hr. destruct Hr as (k & Hk).
    assert (Hlt : k < n * m) by (rewrite <- HL; apply nth_error_Some; congruence).
    destruct (cut_index m k n Hm Hlt) as (i & j & -> & Hi & Hj).
    destruct (HC i j r Hi Hj Hk) as [Cx Cy]. destruct (HN i j Hi Hj) as (r' & Hr' & Ex & Ey & _).
    rewrite Hk in Hr'. injection Hr' as <-. rewrite Cx, Cy, Ex, Ey.
    pose proof (Hix i ltac:(lia)) as J1. pose proof (Hix (S i) ltac:(lia)) as J2.
    pose proof (Hiy i j Hi ltac:(lia)) as J3. pose proof (Hiy i (S j) Hi ltac:(lia)) as J4.
    destruct (Fx _ J1) as (a & Ea). destruct (Fx _ J2) as (b & Eb). destruct (Fc _ J3) as (c & Ec). destruct (Fc _ J4) as (d & Ed).
    exists a, b, c, d. rewrite Ea, Eb, Ec, Ed in *. repeat split; auto.
  - assert (Hany : forall v, In (Fin v) bins_x -> exists r, In r (pc_rects pic) /\ (r_x r = Fin v \/ fadd (r_x r) (r_w r) = Fin v)).
    { intros v Hv. apply (In_nth _ _ NaN) in Hv. destruct Hv as (k & Hk & Ek).
      destruct (Nat.lt_ge_cases k n) as [Hkn|Hkn].
      - destruct (HN k 0 Hkn Hm) as (r & Hr & Ex & _). exists r. split; [eapply nth_error_In; exact Hr|]. left. rewrite Ex. exact Ek.
      - destruct (HN (n - 1) 0 ltac:(lia) Hm) as (r & Hr & _). exists r. split; [eapply nth_error_In; exact Hr|]. right.
        rewrite (proj1 (HC (n - 1) 0 r ltac:(lia) Hm Hr)). unfold edge. replace (S (n - 1)) with k by lia. exact Ek. }
    intros v [->| ->]; apply Hany; assumption.
  - assert (Hany : forall v, In (Fin v) (List.concat bins_y) -> exists r, In r (pc_rects pic) /\ (r_y r = Fin v \/ fadd (r_y r) (r_h r) = Fin v)).
    { intros v Hv. apply in_concat in Hv. destruct Hv as (q & Hq & Hv). apply (In_nth _ _ []) in Hq. destruct Hq as (i & Hi & Eq).
      assert (Hlq : List.length q = m + 1) by (apply Hry; rewrite <- Eq; apply nth_In; lia).
      apply (In_nth _ _ NaN) in Hv. destruct Hv as (k & Hk & Ek).
      destruct (Nat.lt_ge_cases k m) as [Hkn|Hkn].
      - destruct (HN i k ltac:(lia) Hkn) as (r & Hr & _ & Ey & _). exists r. split; [eapply nth_error_In; exact Hr|]. left. rewrite Ey, Eq. exact Ek.
      - destruct (HN i (m - 1) ltac:(lia) ltac:(lia)) as (r & Hr & _). exists r. split; [eapply nth_error_In; exact Hr|]. right.
        rewrite (proj2 (HC i (m - 1) r ltac:(lia) ltac:(lia) Hr)), Eq. unfold edge. replace (S (m - 1)) with k by lia. exact Ek. }
    intros v [->| ->]; apply Hany; assumption.
Qed.

(** What is refused: a colour scale with its ends exchanged, an empty histogram, a ragged one, and a
    histogram with more columns than there are bins. *)
Theorem C105_scale_error density a b bins_x bins_y hist n m :
  shaped n m bins_x bins_y hist -> 0 < n -> 0 < m -> flt b a = true ->
  plot_irreg_histogram_2d density (Some a) (Some b) bins_x bins_y hist = Err ValueError.
Proof.
  intros Hs Hn Hm Hab.
  destruct (plot_done density (Some a) (Some b) _ _ _ _ _ Hs Hn Hm) as (v0 & v1 & E & [(_ & _ & He)|([Hq|Hq] & _)]);
    [exact He| |];
    unfold scale_of, bind in E; destruct (np_min _); try discriminate; destruct (np_max _); try discriminate;
    injection E as <- <-; [|congruence].
  exfalso. destruct a, b; cbn in *; try discriminate. destruct (Req_EM_T r r0); [|discriminate].
  destruct (Rlt_dec r0 r); [lra|discriminate].
Qed.

Theorem C105_errors density vmin vmax bins_x bins_y hist :
  ((forall r, In r hist -> r = []) -> (forall r, In r bins_y -> List.length r = row_length bins_y) ->
   plot_irreg_histogram_2d density vmin vmax bins_x bins_y hist = Err ValueError) /\
  ((exists r r', In r hist /\ In r' hist /\ List.length r <> List.length r') ->
   plot_irreg_histogram_2d density vmin vmax bins_x bins_y hist = Err ValueError) /\
  (forall n m, 0 < m -> List.length hist = S n -> (forall r, In r hist -> List.length r = m) ->
   List.length bins_x <= n + 1 -> (forall r, In r bins_y -> List.length r = m + 1) ->
   plot_irreg_histogram_2d density vmin vmax bins_x bins_y hist = Err IndexError).
Proof.
  split; [|split].
  - intros Hh Hy. unfold plot_irreg_histogram_2d, bind.
    rewrite (asarray_ok 0 hist) by (intros r Hr; rewrite (Hh r Hr); reflexivity).
    rewrite (asarray_ok _ _ Hy).
    assert (E : exists rows, each (fun i row => each (cell bins_x bins_y i) 0 row) 0 hist = Ok rows /\ List.concat rows = []).
    { clear Hy. generalize 0 at 2. induction hist as [|r l IH]; intros k; [exists []; auto|].
      cbn [each]. rewrite (Hh r (or_introl eq_refl)). cbn [each].
      destruct (IH ltac:(intros q Hq; apply Hh; right; exact Hq) (S k)) as (rows & -> & E). exists ([] :: rows). auto. }
    destruct E as (rows & -> & ->). reflexivity.
  - intros (r & r' & Hr & Hr' & Hd). unfold plot_irreg_histogram_2d, bind. unfold asarray2 at 1.
    destruct hist as [|r0 l]; [destruct Hr|]. destruct (forallb _ l) eqn:E; [exfalso|reflexivity].
    rewrite forallb_forall in E.
    assert (H : forall q, In q (r0 :: l) -> List.length q = List.length r0).
    { intros q [<-|Hq]; [reflexivity|]. apply Nat.eqb_eq, E, Hq. }
    apply Hd. rewrite (H r Hr), (H r' Hr'). reflexivity.
  - intros n m Hm Hh Hrh Hx Hry. unfold plot_irreg_histogram_2d, bind.
    rewrite (asarray_ok _ _ Hrh), (asarray_ok _ _ Hry).
    assert (Hbad : forall i j v, (List.length bins_x <= i + 1 \/ List.length bins_y <= i) -> j < m ->
      cell bins_x bins_y i j v = Err IndexError).
    { intros i j v Hi Hj. unfold cell, bind, item.
      destruct (nth_error bins_x i) eqn:E1; [|reflexivity]. destruct (nth_error bins_x (i + 1)) eqn:E2; [|reflexivity].
      destruct (nth_error bins_y i) eqn:E3; [|reflexivity].
      assert (i + 1 < List.length bins_x) by (apply nth_error_Some; congruence).
      assert (i < List.length bins_y) by (apply nth_error_Some; congruence). lia. }
    assert (Hgood : forall i j v, i + 1 < List.length bins_x -> i < List.length bins_y -> j < m ->
      exists c, cell bins_x bins_y i j v = Ok c).
    { intros i j v Hi Hy Hj. unfold cell, bind.
      assert (Hr : List.length (nth i bins_y []) = m + 1) by (apply Hry, nth_In; lia).
      rewrite (item_nth bins_x i NaN), (item_nth bins_x (i + 1) NaN), (item_nth bins_y i []) by lia.
      rewrite (item_nth _ j NaN), (item_nth _ (j + 1) NaN) by lia. eauto. }
    set (k := Nat.min (List.length bins_x - 1) (List.length bins_y)).
    rewrite (each_err _ IndexError); [reflexivity|].
    assert (Hk : k < List.length hist) by lia. exists k, (nth k hist []).
    split; [apply nth_error_nth'; exact Hk|]. split.
    + apply each_err. pose proof (Hrh _ (nth_In hist [] Hk)) as Hl.
      destruct (nth k hist []) as [|v row]; [cbn in Hl; lia|]. exists 0, v. split; [reflexivity|].
      split; [apply Hbad; [lia|exact Hm]|intros; lia].
    + intros i row Hi Hrow. cbn [Nat.add]. apply each_ok. intros j v Hj. cbn [Nat.add]. apply Hgood; [lia|lia|].
      rewrite <- (Hrh row (nth_error_In _ _ Hrow)). apply nth_error_Some. congruence.
Qed.

(* ------------------------------------------------------------------ *)
(** * Cases *)

Definition pl_x : list fl := [Fin 0; Fin 1; Fin 3].
Definition pl_y : list (list fl) := [[Fin 0; Fin 1; Fin 2]; [Fin 0; Fin 2; Fin 5]].
Definition pl_h : list (list fl) := [[Fin 1; Fin 2]; [Fin 8; Fin 3]].

Example C105_case :
  shaped 2 2 pl_x pl_y pl_h /\ finite_list pl_x /\ finite_rows pl_y /\ finite_rows pl_h /\
  exists pic, plot_irreg_histogram_2d true None None pl_x pl_y pl_h = Ok pic /\
    (exists r, nth_error (pc_rects pic) 2 = Some r /\ r_x r = Fin 1 /\ r_y r = Fin 0 /\ r_value r = Fin 2).
Proof.
  assert (Hs : shaped 2 2 pl_x pl_y pl_h).
  { repeat split; cbn; intros r H; repeat (destruct H as [<-|H]; [reflexivity|]); destruct H. }
  split; [exact Hs|].
  assert (F : forall l, In l (pl_x :: pl_y ++ pl_h)%list -> finite_list l).
  { intros l Hl x Hx. cbn in Hl. repeat (destruct Hl as [<-|Hl]; [cbn in Hx; repeat (destruct Hx as [<-|Hx]; [eauto|]); destruct Hx|]). destruct Hl. }
  split; [apply F; left; reflexivity|].
  split; [intros r Hr; apply F; right; apply in_or_app; auto|].
  split; [intros r Hr; apply F; right; apply in_or_app; auto|].
  destruct (C105_drawn true None None pl_x pl_y pl_h 2 2 Hs ltac:(lia) ltac:(lia) ltac:(auto)) as (pic & Hp).
  exists pic. split; [exact Hp|].
  destruct (C105_rectangles _ _ _ _ _ _ 2 2 _ Hs ltac:(lia) ltac:(lia) Hp) as [_ H].
  destruct (H 1 0 ltac:(lia) ltac:(lia)) as (r & Hr & Ex & Ey & Ew & Eh & Ev).
  exists r. split; [exact Hr|]. split; [exact Ex|]. split; [exact Ey|]. rewrite Ev, Ew, Eh.
  cbv [edge entry2 entry nth pl_x pl_y pl_h fsub fadd fneg fmul fdiv finv].
  match goal with |- context [Req_EM_T ?a ?b] => destruct (Req_EM_T a b); [exfalso; lra|] end. f_equal. field.
Qed.

(** The histogram of the events of the example of C13 can be drawn. *)
Example C105_events oor : exists pic,
  plot_irreg_histogram_2d false None None bx by_ (hist_2d oor bx by_ events2) = Ok pic /\
  map r_value (pc_rects pic) = [Fin 2; Fin 8].
Proof.
  assert (Hs : shaped 2 1 bx by_ (hist_2d oor bx by_ events2)).
  { destruct (C13_shape oor bx by_ events2) as [H1 H2]. repeat split; [|exact H1|exact H2].
    cbn. intros r [<-|[<-|[]]]; reflexivity. }
  destruct (C105_drawn false None None _ _ _ 2 1 Hs ltac:(lia) ltac:(lia) ltac:(auto)) as (pic & Hp).
  exists pic. split; [exact Hp|].
  destruct (C105_rectangles _ _ _ _ _ _ 2 1 _ Hs ltac:(lia) ltac:(lia) Hp) as [HL H].
  destruct (H 0 0 ltac:(lia) ltac:(lia)) as (r & Hr & _ & _ & _ & _ & Ev).
  destruct (H 1 0 ltac:(lia) ltac:(lia)) as (r' & Hr' & _ & _ & _ & _ & Ev').
  destruct (C13_case oor) as [E1 E2]. rewrite E1 in Ev. rewrite E2 in Ev'.
  destruct (pc_rects pic) as [|s [|t [|]]]; try discriminate HL.
  cbn in Hr, Hr'. injection Hr as ->. injection Hr' as ->. cbn. congruence.
Qed.

(** Density with an empty bin of no area (as equiprobable bins with repeated edges have): 0/0 is NaN,
    and with it the whole colour scale, so every rectangle has a NaN colour. *)
Theorem C105_zero_area_refuted :
  exists pic, plot_irreg_histogram_2d true None None [Fin 0; Fin 1] [[Fin 0; Fin 0; Fin 1]] [[Fin 0; Fin 5]] = Ok pic /\
  forall r, In r (pc_rects pic) -> r_color r = NaN.
Proof.
  eexists. split.
  - unfold plot_irreg_histogram_2d, bind. cbn.
    cbv [fsub fadd fneg fmul fdiv finv].
    repeat (match goal with |- context [Req_EM_T ?a ?b] => destruct (Req_EM_T a b); try (exfalso; lra) end; cbv beta iota).
    assert (Hz : inf_times 0 = NaN)
      by (unfold inf_times; destruct (total_order_T 0 0) as [[?|?]|?]; [exfalso; lra|reflexivity|exfalso; lra]).
    rewrite Hz. cbv [fmin fmax normalize is_nan orb feq flt fsub fadd fneg fmul finv fdiv]. cbv beta iota. reflexivity.
  - intros r Hr. cbn in Hr. repeat (destruct Hr as [<-|Hr]; [reflexivity|]). destruct Hr.
Qed.

(** A histogram with fewer entries than there are bins is drawn without a complaint: here the bins of
    another binning, the last ones of which stay empty. *)
Theorem C105_ignores_refuted :
  exists pic, plot_irreg_histogram_2d false None None
    [Fin 0; Fin 1; Fin 3] [[Fin 0; Fin 1; Fin 2]; [Fin 0; Fin 2; Fin 5]] [[Fin 7]] = Ok pic /\
  List.length (pc_rects pic) = 1.
Proof.
  eexists. split.
  - unfold plot_irreg_histogram_2d, bind. cbn -[np_min np_max normalize fsub].
    change (np_min [Fin 7]) with (Ok (Fin 7)). change (np_max [Fin 7]) with (Ok (Fin 7)). cbv beta iota.
    unfold normalize at 1. cbn [feq]. destruct (Req_EM_T 7 7); [|exfalso; lra]. cbv beta iota.
    cbn [np_min np_max]. reflexivity.
  - reflexivity.
Qed.

Print Assumptions C105_drawn.
Print Assumptions C105_rectangles.
Print Assumptions C105_corner.
Print Assumptions C105_histogram.
Print Assumptions C105_density_total.
Print Assumptions C105_scale.
Print Assumptions C105_colours.
Print Assumptions C105_limits.
Print Assumptions C105_scale_error.
Print Assumptions C105_errors.
Print Assumptions C105_zero_area_refuted.
Print Assumptions C105_ignores_refuted.
