(** Properties of the plots of maps: C93, C94, C95. *)
From Coq Require Import Reals Lra Lia Permutation Sorted.
From Verif Require Import Base BaseFacts ModelInterp SpecInterp ProofInterp2 PropInterp ModelPlotMap SpecPlotMap ProofPlotMap.
Local Open Scope R_scope.

(* ------------------------------------------------------------------ *)
(** * C94: what the plot of a grid shows *)

(** The bins: one center per node of the interpolation grid, edges half a step to either side on the
    scale of the axis. *)
Theorem C94_bins : forall lo hi n is_log, (0 < n)%nat -> drawable is_log lo hi ->
  exists e c, edges_centers lo hi n is_log = Ok (e, c) /\
    List.length e = S n /\ List.length c = n /\
    (forall i, (i < n)%nat -> ent c i = scaled_place is_log lo hi n (Z.of_nat i)) /\
    (forall i, (i < n)%nat ->
       on_scale is_log (ent e i) = on_scale is_log (ent c i) - step is_log lo hi n / 2 /\
       on_scale is_log (ent e (S i)) = on_scale is_log (ent c i) + step is_log lo hi n / 2) /\
    ((n = 1%nat \/ lo < hi) -> forall i, (i < n)%nat -> ent e i < ent c i < ent e (S i)).
Proof.
  intros lo hi n is_log Hn Hd. destruct (edges_centers_ok lo hi n is_log Hn Hd) as (e & c & E & Le & Lc & H1 & H2 & H3).
  exists e, c. split; [exact E|]. split; [exact Le|]. split; [exact Lc|]. split; [exact H1|]. split.
  - intros i Hi. rewrite !H2, H3, !on_unscale by lia. rewrite S_INR. lra.
  - intros Hb i Hi. pose proof (step_pos is_log lo hi n Hn Hd Hb) as Hp. rewrite !H2, H3 by lia. rewrite S_INR.
    split; apply unscale_lt; lra.
Qed.
Example C94_bins_case : exists e c, edges_centers 0 10 3 false = Ok (e, c) /\ e = [- 5 / 2; 5 / 2; 15 / 2; 25 / 2] /\ c = [0; 5; 10].
Proof.
  destruct (edges_centers_ok 0 10 3 false ltac:(lia) ltac:(intros C; discriminate C)) as (e & c & E & Le & Lc & _ & H2 & H3).
  exists e, c. split; [exact E|]. unfold step, on_scale, unscale in H2, H3. cbn [Nat.eqb] in H2, H3.
  pose proof (H2 0%nat ltac:(lia)). pose proof (H2 1%nat ltac:(lia)). pose proof (H2 2%nat ltac:(lia)). pose proof (H2 3%nat ltac:(lia)).
  pose proof (H3 0%nat ltac:(lia)). pose proof (H3 1%nat ltac:(lia)). pose proof (H3 2%nat ltac:(lia)).
  destruct e as [|e0 [|e1 [|e2 [|e3 [|? ?]]]]]; try discriminate Le. destruct c as [|c0 [|c1 [|c2 [|? ?]]]]; try discriminate Lc.
  unfold ent in *. cbn [nth INR] in *. split; repeat f_equal; lra.
Qed.
(** Without a node there is nothing to draw: an IndexError. *)
Theorem C94_no_node : forall lo hi is_log, edges_centers lo hi 0 is_log = Err IndexError.
Proof. intros lo hi []; reflexivity. Qed.

(** On a linear axis every bar fills the bin of its node. *)
Theorem C94_bars_linear : forall name coord a lo hi n, a_shape a = [n] -> (0 < n)%nat ->
  exists bs, plot_bars name coord a lo hi false = Ok (FBars name coord bs) /\ List.length bs = n /\
    forall i, (i < n)%nat -> nth_error bs i =
      Some (scaled_place false lo hi n (Z.of_nat i) - step false lo hi n / 2,
            scaled_place false lo hi n (Z.of_nat i) + step false lo hi n / 2,
            a_at a [i]).
Proof.
  intros name coord a lo hi n Hs Hn. assert (Hd : drawable false lo hi) by (intros C; discriminate C).
  destruct (C94_bins lo hi n false Hn Hd) as (e & c & E & Le & Lc & H1 & H2 & _).
  unfold plot_bars. rewrite Hs. cbn [nth]. rewrite E. eexists. split; [reflexivity|].
  assert (La : List.length (entries1 a) = n) by (rewrite entries1_length, Hs; reflexivity).
  split; [rewrite bars_length; lia|]. intros i Hi. rewrite bars_nth by lia.
  destruct (H2 i Hi) as [A B]. unfold on_scale in A, B. rewrite A, B, (H1 i Hi).
  rewrite entries1_ent by (rewrite Hs; exact Hi). repeat f_equal; lra.
Qed.
Example C94_bars_linear_case : exists bs,
  plot_bars "lce" "z" (mk_arr [3%nat] (fun idx => INR (hd 0%nat idx))) 0 10 false = Ok (FBars "lce" "z" bs) /\
  nth_error bs 1 = Some (5 - 5 / 2, 5 + 5 / 2, 1).
Proof.
  destruct (C94_bars_linear "lce" "z" (mk_arr [3%nat] (fun idx => INR (hd 0%nat idx))) 0 10 3 eq_refl ltac:(lia)) as (bs & E & _ & H).
  exists bs. split; [exact E|]. rewrite H by lia. unfold scaled_place, step. cbn. repeat f_equal; lra.
Qed.

(** On a logarithmic axis it does not: the width of the bin is laid around the node, which is not the
    middle of the bin. Every bar starts and ends below its bin, and overlaps the next one. *)
Theorem C94_log_bars_refuted : forall name coord a lo hi n, a_shape a = [n] -> (2 <= n)%nat -> 0 < lo -> lo < hi ->
  exists bs e c, plot_bars name coord a lo hi true = Ok (FBars name coord bs) /\
    edges_centers lo hi n true = Ok (e, c) /\
    (forall i, (i < n)%nat -> exists left right,
       nth_error bs i = Some (left, right, a_at a [i]) /\ left < ent e i /\ right < ent e (S i)) /\
    (forall i l1 r1 h1 l2 r2 h2, nth_error bs i = Some (l1, r1, h1) -> nth_error bs (S i) = Some (l2, r2, h2) ->
       l2 < r1).
Proof.
  intros name coord a lo hi n Hs Hn Hlo Hlt. assert (Hd : drawable true lo hi) by (intros _; lra).
  destruct (edges_centers_ok lo hi n true ltac:(lia) Hd) as (e & c & E & Le & Lc & H1 & H2 & H3).
  unfold plot_bars. rewrite Hs. cbn [nth]. rewrite E. eexists. exists e, c. split; [reflexivity|]. split; [reflexivity|].
  assert (La : List.length (entries1 a) = n) by (rewrite entries1_length, Hs; reflexivity).
  pose proof (step_pos true lo hi n ltac:(lia) Hd (or_intror Hlt)) as Hp.
  set (d := step true lo hi n) in *. set (s := pow10 (d / 2)).
  assert (Hs1 : 1 < s).
  { replace 1 with (pow10 0) by (unfold pow10; apply Rpower_O; lra). apply pow10_lt. lra. }
  assert (Hinv : s * / s = 1) by (apply Rinv_r; lra).
  assert (His : 0 < / s < 1) by (split; [apply Rinv_0_lt_compat; lra|]; nra).
  assert (Hce : forall i, (i < n)%nat -> 0 < ent c i /\ ent e (S i) = ent c i * s /\ ent e i = ent c i * / s).
  { intros i Hi. rewrite !H2, H3 by lia. unfold unscale. split; [apply pow10_pos|]. rewrite S_INR. split.
    - unfold s. rewrite <- pow10_plus. f_equal. fold d. lra.
    - apply (Rmult_eq_reg_r s); [|lra]. rewrite Rmult_assoc, Rinv_l, Rmult_1_r by lra.
      unfold s. rewrite <- pow10_plus. f_equal. fold d. lra. }
  assert (Hsq : 0 < s * / 2 + / s * / 2 - 1).
  { assert (0 < (s - 1) * (s - 1) * / s) by (repeat apply Rmult_lt_0_compat; lra).
    replace ((s - 1) * (s - 1) * / s) with (s * (s * / s) - 2 * (s * / s) + / s) in H by ring. rewrite Hinv in H. lra. }
  split.
  - intros i Hi. rewrite bars_nth by lia. rewrite entries1_ent by (rewrite Hs; exact Hi).
    eexists. eexists. split; [reflexivity|]. destruct (Hce i Hi) as (Hc & -> & ->).
    assert (0 < ent c i * (s * / 2 + / s * / 2 - 1)) by (apply Rmult_lt_0_compat; lra). split; lra.
  - intros i l1 r1 h1 l2 r2 h2 B1 B2.
    assert (Hi : (S i < n)%nat).
    { rewrite <- Lc, <- (bars_length e c (entries1 a)) by lia. apply nth_error_Some. rewrite B2. discriminate. }
    rewrite bars_nth in B1, B2 by lia. injection B1 as <- <- _. injection B2 as <- <- _.
    destruct (Hce i ltac:(lia)) as (Hc & A1 & A2). destruct (Hce (S i) Hi) as (Hc' & A3 & A4).
    assert (ent c i < ent c (S i)).
    { rewrite !H3 by lia. apply unscale_lt. fold d. rewrite S_INR. lra. }
    rewrite A3, A1, A2. rewrite A1 in A4.
    assert (0 < (ent c (S i) - ent c i) * (s * / 2 + / s * / 2 - 1)) by (apply Rmult_lt_0_compat; lra).
    lra.
Qed.

(** With one node per decade the bars even reach below zero, which a logarithmic axis cannot show. *)
Theorem C94_log_bars_negative_refuted : exists bs,
  plot_bars "eff" "s1" (mk_arr [3%nat] (fun _ => 1)) 1 100 true = Ok (FBars "eff" "s1" bs) /\
  forall i, (i < 3)%nat -> exists left right, nth_error bs i = Some (left, right, 1) /\ left < 0 < right.
Proof.
  assert (Hd : drawable true 1 100) by (intros _; lra).
  destruct (edges_centers_ok 1 100 3 true ltac:(lia) Hd) as (e & c & E & Le & Lc & H1 & H2 & H3).
  unfold plot_bars. cbn [a_shape nth]. rewrite E. eexists. split; [reflexivity|].
  assert (Hstep : step true 1 100 3 = 1).
  { unfold step, on_scale. cbn [Nat.eqb INR]. pose proof ln10_gt0. rewrite ln_1.
    replace 100 with (10 * 10) by lra. rewrite ln_mult by lra. field. lra. }
  set (s := pow10 (1 / 2)).
  assert (Hs10 : s * s = 10).
  { unfold s. rewrite <- pow10_plus. replace (1 / 2 + 1 / 2) with 1 by lra. unfold pow10. apply Rpower_1. lra. }
  assert (Hs0 : 0 < s) by apply pow10_pos. assert (Hs3 : 3 < s) by nra.
  assert (Hinv : s * / s = 1) by (apply Rinv_r; lra). assert (His : 0 < / s < 1 / 3).
  { split; [apply Rinv_0_lt_compat; lra|]. apply (Rmult_lt_reg_l s); [lra|]. rewrite Hinv. lra. }
  intros i Hi. rewrite bars_nth; rewrite ?entries1_length; cbn [a_shape nth]; try lia.
  rewrite entries1_ent by exact Hi. eexists. eexists. split; [reflexivity|].
  rewrite !H2, !H3, S_INR by lia. unfold unscale. rewrite Hstep.
  set (b := on_scale true 1).
  replace (b + (INR i + 1 - 1 / 2) * 1) with (b + INR i * 1 + 1 / 2) by lra.
  rewrite (pow10_plus _ (1 / 2)).
  assert (HE : pow10 (b + (INR i - 1 / 2) * 1) = pow10 (b + INR i * 1) * / s).
  { assert (HE' : pow10 (b + INR i * 1) = pow10 (b + (INR i - 1 / 2) * 1) * s)
      by (unfold s; rewrite <- pow10_plus; f_equal; lra).
    rewrite HE'. field. lra. }
  rewrite HE. fold s. set (q := pow10 (b + INR i * 1)). assert (0 < q) by apply pow10_pos.
  assert (0 < q * (s - / s - 2)) by (apply Rmult_lt_0_compat; lra).
  assert (0 < q * (s - / s)) by (apply Rmult_lt_0_compat; lra). split; lra.
Qed.

(** Two axes: the middle of every pixel is the node (its logarithm on a logarithmic axis) whose
    value it shows. *)
Theorem C94_image : forall label x y a lo0 lo1 hi0 hi1 l0 l1 n0 n1,
  a_shape a = [n0; n1] -> (0 < n0)%nat -> (0 < n1)%nat -> drawable l0 lo0 hi0 -> drawable l1 lo1 hi1 ->
  exists x0 x1 y0 y1 pixel,
    plot_image label [x; y] a [lo0; lo1] [hi0; hi1] [l0; l1] =
      Ok (FImage label (if l0 then "log10(" ++ x ++ ")" else x)%string (if l1 then "log10(" ++ y ++ ")" else y)%string
            x0 x1 y0 y1 n0 n1 pixel) /\
    forall i j, (i < n0)%nat -> (j < n1)%nat ->
      pixel i j = a_at a [i; j] /\
      pixel_middle x0 x1 n0 i = on_scale l0 (scaled_place l0 lo0 hi0 n0 (Z.of_nat i)) /\
      pixel_middle y0 y1 n1 j = on_scale l1 (scaled_place l1 lo1 hi1 n1 (Z.of_nat j)).
Proof.
  intros label x y a lo0 lo1 hi0 hi1 l0 l1 n0 n1 Hs H0 H1 D0 D1.
  destruct (edges_centers_ok lo0 hi0 n0 l0 H0 D0) as (e0 & c0 & E0 & _).
  destruct (edges_centers_ok lo1 hi1 n1 l1 H1 D1) as (e1 & c1 & E1 & _).
  unfold plot_image. rewrite Hs, E0, E1. rewrite (extent_ok lo0 hi0 n0 l0 e0 c0 H0 D0 E0), (extent_ok lo1 hi1 n1 l1 e1 c1 H1 D1 E1).
  do 5 eexists. split; [reflexivity|]. intros i j Hi Hj. split; [reflexivity|]. split; apply pixel_node; assumption.
Qed.

(** Hence a map with two axes is shown as it is used: the pixel is what the map returns at the
    position drawn in its middle. *)
Theorem C94_shows_map : forall m probs x y name lo0 lo1 hi0 hi1 l0 l1 n0 n1 a,
  m = LERP \/ m = NN -> a_shape a = [n0; n1] -> (2 <= n0)%nat -> (2 <= n1)%nat ->
  proper_bounds l0 lo0 hi0 -> proper_bounds l1 lo1 hi1 ->
  (forall i, nth_error probs i = Some true -> nth_error [l0; l1] i <> Some true) ->
  exists x0 x1 y0 y1 pixel xl yl,
    plot_regular name (MGrid (mk_grid a [x; y] [lo0; lo1] [hi0; hi1] [l0; l1])) None =
      Ok [FImage name xl yl x0 x1 y0 y1 n0 n1 pixel] /\
    forall i j, (i < n0)%nat -> (j < n1)%nat -> exists p q,
      on_scale l0 p = pixel_middle x0 x1 n0 i /\ on_scale l1 q = pixel_middle y0 y1 n1 j /\
      map_regbin_2d m probs [l0; l1] [lo0; lo1] [hi0; hi1] [n0; n1] (fun i j => a_at a [Z.to_nat i; Z.to_nat j]) [p; q] =
        Ok (pixel i j).
Proof.
  intros m probs x y name lo0 lo1 hi0 hi1 l0 l1 n0 n1 a Hm Hs N0 N1 B0 B1 Hp.
  assert (D : forall l lo hi, proper_bounds l lo hi -> drawable l lo hi).
  { intros l lo hi [Hl Hb] El. destruct (Hb El). pose proof float_bounds. lra. }
  destruct (C94_image name x y a lo0 lo1 hi0 hi1 l0 l1 n0 n1 Hs ltac:(lia) ltac:(lia) (D _ _ _ B0) (D _ _ _ B1))
    as (x0 & x1 & y0 & y1 & pixel & E & H).
  do 7 eexists. split; [unfold plot_regular; cbn [collapse_map g_names g_lowers g_uppers g_logs g_data]; rewrite E; reflexivity|].
  intros i j Hi Hj. destruct (H i j Hi Hj) as (P1 & P2 & P3).
  exists (scaled_place l0 lo0 hi0 n0 (Z.of_nat i)), (scaled_place l1 lo1 hi1 n1 (Z.of_nat j)).
  split; [symmetry; exact P2|]. split; [symmetry; exact P3|]. rewrite P1.
  destruct Hm as [-> | ->]; [rewrite C38_lerp_nodes|rewrite C38_nn_nodes]; try assumption; try lia; rewrite !Nat2Z.id; reflexivity.
Qed.
Example C94_shows_map_case : forall a, a_shape a = [4%nat; 3%nat] ->
  exists x0 x1 y0 y1 pixel xl yl,
    plot_regular "lce" (MGrid (mk_grid a ["z"; "s1"]%string [-3; 1] [3; 100] [false; true])) None =
      Ok [FImage "lce" xl yl x0 x1 y0 y1 4 3 pixel] /\
    forall i j, (i < 4)%nat -> (j < 3)%nat -> exists p q,
      on_scale false p = pixel_middle x0 x1 4 i /\ on_scale true q = pixel_middle y0 y1 3 j /\
      map_regbin_2d LERP [] [false; true] [-3; 1] [3; 100] [4%nat; 3%nat] (fun i j => a_at a [Z.to_nat i; Z.to_nat j]) [p; q] =
        Ok (pixel i j).
Proof.
  intros a Ha. apply C94_shows_map; [left; reflexivity|exact Ha|lia|lia|split; [lra|discriminate]|apply one_hundred|].
  intros [|i]; discriminate.
Qed.

(** A point map is drawn through its points as they are in the file. Its values are what the map
    returns there only if the map is not logarithmic (C33_nodes, C56_log_point). *)
Theorem C94_points : forall name refs vals c, plot_regular name (MPoints refs vals) c = Ok [FCurve name (combine refs vals)].
Proof. reflexivity. Qed.

(** ** Collapsing *)

(** The result of a collapse: the other axes as they were; every entry is the average over the nodes
    that the ranges ask for. *)
Theorem C94_collapse : forall c g, proper_grid g -> NoDup (keys c) ->
  exists g' sels, collapse_map (Some c) g = Ok g' /\
    g_names g' = remaining c (g_names g) (g_names g) /\
    g_lowers g' = remaining c (g_names g) (g_lowers g) /\
    g_uppers g' = remaining c (g_names g) (g_uppers g) /\
    g_logs g' = remaining c (g_names g) (g_logs g) /\
    a_shape (g_data g') = remaining c (g_names g) (a_shape (g_data g)) /\
    List.length sels = List.length (g_names g) /\
    (forall k n nm lo hi l, nth_error (g_names g) k = Some nm -> nth_error (a_shape (g_data g)) k = Some n ->
       nth_error (g_lowers g) k = Some lo -> nth_error (g_uppers g) k = Some hi -> nth_error (g_logs g) k = Some l ->
       match get nm c with
       | None => nth_error sels k = Some None
       | Some range => exists sel, nth_error sels k = Some (Some sel) /\ wanted range l lo hi n sel
       end) /\
    forall idx, List.length idx = List.length (g_names g') ->
      a_at (g_data g') idx = averaged sels (a_at (g_data g)) idx.
Proof. intros c g Hg Hc. exact (collapse_ok c g Hg Hc). Qed.

(** The order of the entries of the argument, and entries for other axes, make no difference. *)
Theorem C94_collapse_order : forall c1 c2 g, NoDup (g_names g) -> NoDup (keys c1) -> NoDup (keys c2) ->
  (forall n, In n (g_names g) -> get n c1 = get n c2) -> collapse_map (Some c1) g = collapse_map (Some c2) g.
Proof.
  intros c1 c2 g Hn H1 H2 H. unfold collapse_map. rewrite !sort_picks by assumption. f_equal. f_equal. apply asked_ext, H.
Qed.

Lemma nth_filter_combine {A B} (sels : list (option A)) (c : dict B) : forall (names : list string) (l : list nat),
  List.length sels = List.length names -> List.length l = List.length names ->
  (forall k nm, nth_error names k = Some nm -> match get nm c with
     | None => nth_error sels k = Some None | Some _ => exists s, nth_error sels k = Some (Some s) end) ->
  map snd (filter (fun on => match fst on with None => true | Some _ => false end) (combine sels l)) = remaining c names l.
Proof.
  unfold remaining. revert sels. intros sels names. revert sels.
  induction names as [|nm names IH]; intros [|o sels] [|n l] Hs Hl H; try discriminate; [reflexivity|].
  cbn [combine filter fst]. pose proof (H 0%nat nm eq_refl) as H0. cbn [nth_error] in H0. unfold has.
  assert (IH' := IH sels l ltac:(cbn in Hs; lia) ltac:(cbn in Hl; lia) (fun k nm' Hk => H (S k) nm' Hk)).
  destruct (get nm c) as [b|].
  - destruct H0 as (s & E). injection E as ->. cbn [negb]. exact IH'.
  - injection H0 as ->. cbn [negb map snd]. f_equal. exact IH'.
Qed.

(** The averages stay between the smallest and the largest entry; in particular a constant map
    stays constant. *)
Theorem C94_collapse_between : forall c g g' lo hi idx, proper_grid g -> NoDup (keys c) ->
  collapse_map (Some c) g = Ok g' -> (forall js, within (a_shape (g_data g)) js -> lo <= a_at (g_data g) js <= hi) ->
  within (a_shape (g_data g')) idx -> lo <= a_at (g_data g') idx <= hi.
Proof.
  intros c g g' lo hi idx Hg Hc E Hf Hw.
  destruct (collapse_ok c g Hg Hc) as (g1 & sels & E1 & En & _ & _ & _ & Es & Ls & Hsel & Hat).
  rewrite E in E1. injection E1 as <-. pose proof Hg as [G1 G2 G3 G4 G5 G6 G7].
  assert (Hlen : List.length (g_names g') = List.length (a_shape (g_data g'))).
  { rewrite En, Es. rewrite <- (free_remaining c (g_names g) (g_names g)), <- (free_remaining c (g_names g) (a_shape (g_data g))) by congruence. reflexivity. }
  assert (Hli : List.length idx = List.length (g_names g')).
  { rewrite Hlen. unfold within in Hw. clear -Hw. induction Hw; cbn; congruence. }
  rewrite Hat by exact Hli.
  assert (Hax : forall k nm, nth_error (g_names g) k = Some nm -> exists n lo hi l,
    nth_error (a_shape (g_data g)) k = Some n /\ nth_error (g_lowers g) k = Some lo /\ nth_error (g_uppers g) k = Some hi /\
    nth_error (g_logs g) k = Some l /\ (0 < n)%nat).
  { intros k nm Hk. assert (Hkl : (k < List.length (g_names g))%nat) by (apply nth_error_Some; rewrite Hk; discriminate).
    destruct (proper_axis_ok g k Hg Hkl) as (n & a & b & l & A1 & A2 & A3 & A4 & A5 & _). exists n, a, b, l. auto 6. }
  apply (averaged_between lo hi sels (a_shape (g_data g))).
  - assert (H : forall k n o, nth_error (a_shape (g_data g)) k = Some n -> nth_error sels k = Some o ->
      match o with Some sel => sel <> [] /\ (forall i, In i sel -> (i < n)%nat) | None => True end).
    { intros k n o Hkn Hko. destruct o as [sel|]; [|exact I].
      assert (Hkl : (k < List.length (g_names g))%nat) by (rewrite <- G2; apply nth_error_Some; rewrite Hkn; discriminate).
      destruct (length_nth (g_names g) k _ eq_refl Hkl) as (nm & Enm).
      destruct (Hax k nm Enm) as (n' & a & b & l & A1 & A2 & A3 & A4 & A5). rewrite Hkn in A1. injection A1 as <-.
      specialize (Hsel k n nm a b l Enm Hkn A2 A3 A4). destruct (get nm c) as [range|]; [|congruence].
      destruct Hsel as (sel' & Es' & Hwant). rewrite Hko in Es'. injection Es' as <-.
      split; [eapply wanted_nonempty; [exact A5|exact Hwant]|]. intros i Hi. destruct Hwant as [_ W]. apply W in Hi. tauto. }
    assert (L2 : List.length (a_shape (g_data g)) = List.length sels) by congruence.
    clear -H L2. revert H L2. generalize (a_shape (g_data g)) as sh. clear. induction sels as [|o sels IH]; intros sh H L2.
    + destruct sh; [constructor|discriminate L2].
    + destruct sh as [|n sh]; [discriminate L2|]. constructor; [exact (H 0%nat n o eq_refl eq_refl)|].
      apply IH; [|cbn in L2; lia]. intros k n' o' A B. exact (H (S k) n' o' A B).
  - rewrite (nth_filter_combine sels c (g_names g)); [rewrite <- Es; exact Hw|congruence|congruence|].
    intros k nm Hk. destruct (Hax k nm Hk) as (n & a & b & l & A1 & A2 & A3 & A4 & A5).
    specialize (Hsel k n nm a b l Hk A1 A2 A3 A4). destruct (get nm c); [|exact Hsel]. destruct Hsel as (sel & Hsel & _). exists sel. exact Hsel.
  - exact Hf.
Qed.

(** How many figures: one if one or two axes are left, none (and a warning) otherwise; never an
    exception. *)
Theorem C94_figures : forall name g c, proper_grid g -> NoDup (keys c) ->
  exists fs, plot_regular name (MGrid g) (Some c) = Ok fs /\
    let left := remaining c (g_names g) (g_names g) in
    match left with
    | [_] | [_; _] => exists f, fs = [f]
    | _ => fs = []
    end.
Proof.
  intros name g c Hg Hc. destruct (collapse_ok c g Hg Hc) as (g' & sels & E & En & El & Eu & Eg & Es & _).
  pose proof Hg as [G1 G2 G3 G4 G5 G6 G7]. cbn [plot_regular]. rewrite E. cbn zeta.
  assert (Hr : forall A (l : list A), List.length l = List.length (g_names g) ->
    List.length (remaining c (g_names g) l) = List.length (remaining c (g_names g) (g_names g))).
  { intros A l Hl. rewrite <- !free_remaining by congruence. reflexivity. }
  pose proof (Hr _ _ G2) as L1. pose proof (Hr _ _ G3) as L2. pose proof (Hr _ _ G4) as L3. pose proof (Hr _ _ G5) as L4.
  rewrite <- Es in L1. rewrite <- El in L2. rewrite <- Eu in L3. rewrite <- Eg in L4. rewrite <- En in *.
  assert (Hd : forall k lo hi l, nth_error (g_lowers g') k = Some lo -> nth_error (g_uppers g') k = Some hi ->
    nth_error (g_logs g') k = Some l -> drawable l lo hi).
  { rewrite El, Eu, Eg. clear -G2 G3 G4 G5 G7. unfold remaining. revert G3 G4 G5 G7.
    generalize (g_lowers g) (g_uppers g) (g_logs g). generalize (g_names g). clear.
    induction l as [|nm l IH]; intros los his lgs H3 H4 H5 H k lo hi lg A B C; [destruct k; discriminate A|].
    destruct los as [|lo0 los]; [discriminate H3|]. destruct his as [|hi0 his]; [discriminate H4|].
    destruct lgs as [|lg0 lgs]; [discriminate H5|]. cbn [combine filter fst] in A, B, C.
    assert (IH' := IH los his lgs ltac:(cbn in H3; lia) ltac:(cbn in H4; lia) ltac:(cbn in H5; lia)
      (fun i => H (S i))).
    destruct (negb (has nm c)); [|exact (IH' k lo hi lg A B C)].
    destruct k as [|k]; [|exact (IH' k lo hi lg A B C)]. cbn in A, B, C. injection A as <-. injection B as <-. injection C as <-.
    exact (H 0%nat lg0 lo0 hi0 eq_refl eq_refl eq_refl). }
  assert (Hn : forall n, In n (a_shape (g_data g')) -> (0 < n)%nat).
  { intros n. rewrite Es. unfold remaining. intros Hin. apply in_map_iff in Hin. destruct Hin as ([nm n'] & <- & Hin).
    apply filter_In in Hin. destruct Hin as [Hin _]. apply in_combine_r in Hin. apply G6, Hin. }
  destruct (g_names g') as [|x [|y [|z ns]]] eqn:Ens; destruct (g_lowers g') as [|lo0 [|lo1 [|lo2 los]]]; try discriminate L2.
  - exists []. split; reflexivity.
  - destruct (g_uppers g') as [|hi0 [|? ?]]; try discriminate L3. destruct (g_logs g') as [|lg0 [|? ?]]; try discriminate L4.
    destruct (a_shape (g_data g')) as [|n0 [|? ?]] eqn:Esh; try discriminate L1.
    pose proof (Hd 0%nat lo0 hi0 lg0 eq_refl eq_refl eq_refl) as Hd0.
    unfold plot_bars. rewrite Esh. cbn [nth].
    destruct (edges_centers_ok lo0 hi0 n0 lg0 (Hn n0 (or_introl eq_refl)) Hd0) as (e & ct & Ee & _). rewrite Ee.
    eexists. split; [reflexivity|]. eexists. reflexivity.
  - destruct (g_uppers g') as [|hi0 [|hi1 [|? ?]]]; try discriminate L3. destruct (g_logs g') as [|lg0 [|lg1 [|? ?]]]; try discriminate L4.
    destruct (a_shape (g_data g')) as [|n0 [|n1 [|? ?]]] eqn:Esh; try discriminate L1.
    destruct (C94_image name x y (g_data g') lo0 lo1 hi0 hi1 lg0 lg1 n0 n1 Esh (Hn _ (or_introl eq_refl)) (Hn _ (or_intror (or_introl eq_refl)))
      (Hd 0%nat _ _ _ eq_refl eq_refl eq_refl) (Hd 1%nat _ _ _ eq_refl eq_refl eq_refl)) as (? & ? & ? & ? & ? & Ei & _).
    rewrite Ei. eexists. split; [reflexivity|]. eexists. reflexivity.
  - exists []. split; reflexivity.
Qed.

(** A map of x (2 nodes) and z (nodes 0, 5, 10) with entries 10 x + z, averaged over z from 4 to 20. *)
Definition demo_grid : grid :=
  mk_grid (mk_arr [2%nat; 3%nat] (fun idx => INR (nth 0 idx 0%nat) * 10 + INR (nth 1 idx 0%nat)))
    ["x"; "z"]%string [0; 0] [1; 10] [false; false].
Example demo_grid_proper : proper_grid demo_grid.
Proof.
  constructor; try reflexivity; cbn.
  - repeat constructor; cbn; intuition discriminate.
  - intros n [<-|[<-|[]]]; lia.
  - intros [|[|[|i]]] l lo hi H; cbn in H; try discriminate H; injection H as <-; intros _ _ C; discriminate C.
Qed.
Example C94_collapse_case : exists g', collapse_map (Some [("nothing", None); ("z", Some (4, 20))]%string) demo_grid = Ok g' /\
  g_names g' = ["x"%string] /\ a_shape (g_data g') = [2%nat] /\ a_at (g_data g') [1%nat] = 10 + 3 / 2.
Proof.
  unfold collapse_map, to_collapse, demo_grid. cbn [flat_map index_of g_names fst snd String.eqb Ascii.eqb Bool.eqb app sort_desc fold_right insert_desc].
  cbn [collapse_loop collapse_axis nth_error g_data a_shape g_lowers g_uppers g_logs].
  destruct (edges_centers_ok 0 10 3 false ltac:(lia) ltac:(intros C; discriminate C)) as (e & c & E & _ & Lc & _ & _ & H3).
  rewrite E. eexists. split; [reflexivity|]. split; [reflexivity|]. split; [reflexivity|].
  cbn [g_data a_at insert_at].
  assert (Hsel : bins_in (Some (4, 20)) c = [1%nat; 2%nat]).
  { pose proof (H3 0%nat ltac:(lia)) as A0. pose proof (H3 1%nat ltac:(lia)) as A1. pose proof (H3 2%nat ltac:(lia)) as A2.
    unfold step, on_scale, unscale in A0, A1, A2. cbn [Nat.eqb INR] in A0, A1, A2. unfold ent in A0, A1, A2.
    unfold bins_in. rewrite Lc. cbn [seq filter].
    assert (F0 : in_range 4 20 (nth 0 c 0) = false) by (apply Bool.not_true_iff_false; rewrite in_range_iff; lra).
    assert (F1 : in_range 4 20 (nth 1 c 0) = true) by (apply in_range_iff; lra).
    assert (F2 : in_range 4 20 (nth 2 c 0) = true) by (apply in_range_iff; lra).
    rewrite F0, F1, F2. reflexivity. }
  rewrite Hsel. unfold mean, sumR. cbn. lra.
Qed.
Example C94_figures_case : exists f, plot_regular "lce" (MGrid demo_grid) (Some [("z", None)]%string) = Ok [f].
Proof.
  destruct (C94_figures "lce" demo_grid [("z", None)]%string demo_grid_proper ltac:(repeat constructor; intros []))
    as (fs & E & H). cbn in H. destruct H as (f & ->). exists f. exact E.
Qed.

Print Assumptions C94_bins.
Print Assumptions C94_no_node.
Print Assumptions C94_bars_linear.
Print Assumptions C94_log_bars_refuted.
Print Assumptions C94_log_bars_negative_refuted.
Print Assumptions C94_image.
Print Assumptions C94_shows_map.
Print Assumptions C94_points.
Print Assumptions C94_collapse.
Print Assumptions C94_collapse_order.
Print Assumptions C94_collapse_between.
Print Assumptions C94_figures.
