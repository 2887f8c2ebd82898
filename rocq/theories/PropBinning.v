(** Properties of the construction of a likelihood: C80, C81.
    The vocabulary is in SpecBinning.v, the proofs in ProofBinning.v. *)
From Coq Require Import Reals Lra ZArith Lia.
From Verif Require Import Base BaseFacts ModelFloat ModelHist ModelLikelihood ModelBinning
  SpecHist SpecLikelihood SpecWeighted SpecBinning
  ProofFloat ProofHist ProofLikelihood ProofLikelihood2 ProofWeighted ProofBinning PropHist.
Local Open Scope string_scope.
Local Open Scope list_scope.

(* ------------------------------------------------------------------ *)
(** * C80 the data histogram *)

(** [oor] is the row lookup of C13, [g1] and [g2] are the equiprobable binnings of GOFevaluation,
    all arbitrary. The data are the wanted columns of the events strictly inside the clip, in the
    order of the file. *)
Theorem C80_data oor g1 g2 cfg load k : new_likelihood oor g1 g2 cfg load = Ok k ->
  exists t sel, load = Ok t /\ (forall r, Forall2 (value_in t r) (k_on k) (sel r)) /\
    keep (fun r => in_clip cfg (sel r)) sel (t_rows t) (k_data k).
Proof.
  intros H. destruct (new_data oor g1 g2 cfg load k H) as (t & sel & H1 & H2 & _ & H3).
  exists t, sel. split; [exact H1|]. split; assumption.
Qed.

(** Each entry is the number of events of the data in its bin. *)
Theorem C80_counts oor g1 g2 cfg load k : new_likelihood oor g1 g2 cfg load = Ok k ->
  binning_ok (k_bins k) -> k_hist k = counts (k_bins k) (k_data k).
Proof. exact (new_counts oor g1 g2 cfg load k). Qed.

(** If the edges reach over the clip no event of the data is lost. *)
Theorem C80_total oor g1 g2 cfg load k : new_likelihood oor g1 g2 cfg load = Ok k ->
  binning_ok (k_bins k) -> spans cfg (k_bins k) -> fsum (k_hist k) = Fin (INR (List.length (k_data k))).
Proof. exact (new_total oor g1 g2 cfg load k). Qed.

(** The histograms of the components registered with the bins of the likelihood have the shape of
    the data histogram, whatever they simulate. *)
Theorem C80_shape {K} oor g1 g2 cfg load k c (sim : K -> nat -> params -> result (K * list (list fl))) :
  new_likelihood oor g1 g2 cfg load = Ok k -> n_bins c = k_bins k ->
  (forall key n p key' h, sim_hist oor c sim key n p = Ok (key', h) -> List.length h = List.length (k_hist k)) /\
  (forall data p h, fixed_hist oor c data p = Ok h -> List.length h = List.length (k_hist k)).
Proof.
  intros H Hc. rewrite (new_hist oor g1 g2 cfg load k H), make_data_hist_length. rewrite <- Hc. split.
  - intros key n p key' h. apply sim_hist_length.
  - intros data p h. apply fixed_hist_length.
Qed.

(** A fixed component made from the file of the data has the data histogram, provided that no
    event outside the clip is in a bin. *)
Theorem C80_fixed oor g1 g2 cfg t k : new_likelihood oor g1 g2 cfg (Ok t) = Ok k -> binning_ok (k_bins k) ->
  exists sel, (forall r, Forall2 (value_in t r) (k_on k) (sel r)) /\
    forall c, n_bins c = k_bins k -> n_add_eps c = false ->
      (forall r, In r (t_rows t) -> in_some_bin (k_bins k) (sel r) -> in_clip cfg (sel r)) ->
      fixed_deduce oor c (map sel (t_rows t)) = Ok (k_hist k).
Proof. exact (new_fixed oor g1 g2 cfg t k). Qed.

(** Limiting the equiprobable edges to the clip keeps the histogram: the entries are the numbers of
    events in the bins GOFevaluation has made. *)
Theorem C80_equiprob_1d oor g1 g2 cfg load k n c e : new_likelihood oor g1 g2 cfg load = Ok k ->
  lc_bins_type cfg = "equiprob" -> wanted cfg (k_on k) [AInt n] -> lc_clip cfg = Some c ->
  g1 (map (obs 0) (k_data k)) n = Ok e -> good_equiprob_1d c e ->
  exists e', k_bins k = BIrreg1 e' /\ edges_ok e' /\ reaches c e' /\ k_hist k = counts (BIrreg1 e) (k_data k).
Proof. exact (new_equiprob_1d oor g1 g2 cfg load k n c e). Qed.

Theorem C80_equiprob_2d oor g1 g2 cfg load k n m cx cy ex ry : new_likelihood oor g1 g2 cfg load = Ok k ->
  lc_bins_type cfg = "equiprob" -> wanted cfg (k_on k) [AInt n; AInt m] ->
  lc_x_clip cfg = Some cx -> lc_y_clip cfg = Some cy ->
  g2 (k_data k) [n; m] = Ok (ex, ry) -> good_equiprob_2d cx cy ex ry ->
  exists ex' ry', k_bins k = BIrreg2 ex' ry' /\ binning_ok (k_bins k) /\ spans cfg (k_bins k) /\
    k_hist k = counts (BIrreg2 ex ry) (k_data k).
Proof. exact (new_equiprob_2d oor g1 g2 cfg load k n m cx cy ex ry). Qed.

(** A numbers of bins on a meshgrid: the edges reach over the clip, so C80_total applies. *)
Theorem C80_meshgrid_1d oor g1 g2 cfg load k n lo hi : new_likelihood oor g1 g2 cfg load = Ok k ->
  lc_bins_type cfg = "meshgrid" -> wanted cfg (k_on k) [AInt n] -> lc_clip cfg = Some (Fin lo, Fin hi) ->
  (1 <= n)%Z -> (lo <= hi)%R ->
  (exists e, k_bins k = BMesh1 e /\ evenly lo hi (Z.to_nat n) e) /\
  binning_ok (k_bins k) /\ spans cfg (k_bins k).
Proof.
  intros H Ht Hw Hc Hn Hlh. destruct (new_as oor g1 g2 cfg load k H) as (bs & Hw' & Hl & Ha).
  assert (E : bs = [AInt n]) by (apply normalise_wanted in Hw; apply normalise_wanted in Hw'; congruence).
  subst bs.
  inversion Ha as [s e0 Ht' Hr Es Eb|s s' ex ey Ht'|e0 Ht'|ex ry Ht'|n' c' e0 Ht'|n' m cx cy ex ry Ht']; try congruence; subst s.
  destruct (resolve_asked _ _ _ Hr) as (c & Ec & Hm). rewrite Hc in Ec.
  pose proof (Hm lo hi ltac:(congruence) Hn) as He. split; [|split].
  - exists e0. split; [reflexivity|exact He].
  - apply (evenly_ok lo hi (Z.to_nat n)); [lia|exact Hlh|exact He].
  - exists (Fin lo, Fin hi). split; [exact Hc|]. apply (evenly_reaches lo hi (Z.to_nat n)); [lia|exact He].
Qed.

Theorem C80_meshgrid_2d oor g1 g2 cfg load k n m lx hx ly hy : new_likelihood oor g1 g2 cfg load = Ok k ->
  lc_bins_type cfg = "meshgrid" -> wanted cfg (k_on k) [AInt n; AInt m] ->
  lc_x_clip cfg = Some (Fin lx, Fin hx) -> lc_y_clip cfg = Some (Fin ly, Fin hy) ->
  (1 <= n)%Z -> (1 <= m)%Z -> (lx <= hx)%R -> (ly <= hy)%R ->
  (exists ex ey, k_bins k = BMesh2 ex ey /\ evenly lx hx (Z.to_nat n) ex /\ evenly ly hy (Z.to_nat m) ey) /\
  binning_ok (k_bins k) /\ spans cfg (k_bins k).
Proof.
  intros H Ht Hw Hcx Hcy Hn Hm Hlx Hly. destruct (new_as oor g1 g2 cfg load k H) as (bs & Hw' & Hl & Ha).
  assert (E : bs = [AInt n; AInt m]) by (apply normalise_wanted in Hw; apply normalise_wanted in Hw'; congruence).
  subst bs.
  inversion Ha as [s e0 Ht'|s s' ex ey Ht' Hr Hr' Es Eb|e0 Ht'|ex ry Ht'|n' c' e0 Ht'|n' m' cx cy ex ry Ht']; try congruence; subst s s'.
  destruct (resolve_asked _ _ _ Hr) as (cx & Ecx & Hmx). rewrite Hcx in Ecx.
  destruct (resolve_asked _ _ _ Hr') as (cy & Ecy & Hmy). rewrite Hcy in Ecy.
  pose proof (Hmx lx hx ltac:(congruence) Hn) as Hex. pose proof (Hmy ly hy ltac:(congruence) Hm) as Hey. split; [|split].
  - exists ex, ey. split; [reflexivity|]. split; assumption.
  - split; [apply (evenly_ok lx hx (Z.to_nat n))|apply (evenly_ok ly hy (Z.to_nat m))]; assumption || lia.
  - exists (Fin lx, Fin hx), (Fin ly, Fin hy). split; [exact Hcx|]. split; [exact Hcy|].
    split; [apply (evenly_reaches lx hx (Z.to_nat n))|apply (evenly_reaches ly hy (Z.to_nat m))]; assumption || lia.
Qed.

(** ** Cases *)

Definition no_oor : list (list fl) -> nat -> list fl := fun _ _ => [].
Definition no_g1 : list fl -> Z -> result (list fl) := fun _ _ => Err ValueError.
Definition no_g2 : list (list fl) -> list Z -> result (list fl * list (list fl)) := fun _ _ => Err ValueError.
Definition table5 : table :=
  mk_table ["cs1"; "cs2"] [[Fin 9; Fin 1]; [Fin 9; Fin 3]; [Fin 9; Fin 5]; [Fin 9; Fin 2]; [Fin 9; NaN]].
Definition config5 : lconfig := mk_lconfig "meshgrid" (OnStr "cs2") (PInt 2) (Some (Fin 0, Fin 4)) None None.

(** Two bins over (0, 4): the event at 5 and the NaN are dropped, the event at 2 is in the second. *)
Example C80_case : exists k, new_likelihood no_oor no_g1 no_g2 config5 (Ok table5) = Ok k /\
  evenly 0 4 2 match k_bins k with BMesh1 e => e | _ => [] end /\ k_data k = [[Fin 1]; [Fin 3]; [Fin 2]] /\
  k_hist k = [Fin 1; Fin 2] /\ fsum (k_hist k) = Fin 3.
Proof.
  assert (Hm : mask_data config5 1 (map (select [1]) (t_rows table5)) = Ok [[Fin 1]; [Fin 3]; [Fin 2]]).
  { unfold mask_data, config5, table5, strictly. fl_eval. reflexivity. }
  destruct (set_bins no_g1 no_g2 config5 1 [AInt 2] [[Fin 1]; [Fin 3]; [Fin 2]]) as [b|] eqn:Hb.
  2: { revert Hb. cbn. discriminate. }
  assert (Hw : wanted config5 ["cs2"] [AInt 2]).
  { right. exists "cs2". split; [reflexivity|]. split; [reflexivity|]. right. exists 2%Z. split; reflexivity. }
  pose proof (new_intro no_oor no_g1 no_g2 config5 table5 ["cs2"] [AInt 2] [1] _ b Hw eq_refl eq_refl Hm Hb) as H.
  eexists. split; [exact H|]. cbn [k_bins k_data].
  destruct (C80_meshgrid_1d _ _ _ _ _ _ 2 0 4 H eq_refl Hw eq_refl ltac:(lia) ltac:(lra)) as ((e & He & Hev) & Hok & Hsp).
  pose proof (C80_total _ _ _ _ _ _ H Hok Hsp) as HT.
  pose proof (C80_counts _ _ _ _ _ _ H Hok) as HC.
  cbn [k_bins k_data List.length] in He, Hok, Hsp, HT, HC. subst b.
  split; [exact Hev|]. split; [reflexivity|]. split; [|rewrite HT; cbn [INR]; f_equal; lra].
  rewrite HC. unfold counts, bins_of, bin_numbers. destruct Hev as [El Ee]. change (Z.to_nat 2) with 2 in El, Ee.
  rewrite El. cbn [map seq Nat.sub].
  unfold left_bin, in_bin_left. rewrite El.
  rewrite (Ee 0), (Ee 1), (Ee 2) by lia. unfold number.
  f_equal; [|f_equal]; f_equal; cbn [filter obs nth INR]; fl_eval; cbn; lra.
Qed.

(** ** Where data and model disagree *)

(** likelihood.py:121-124 says that the clip is ignored when the edges are given. It is not: events
    outside the clip are dropped from the data, but a component counts them. *)
Definition config_clip : lconfig :=
  mk_lconfig "irreg" (OnStr "cs2") (PList [AArr (Arr1 [Fin 0; Fin 2; Fin 4])]) (Some (Fin 0, Fin 2)) None None.
Definition plain_settings (b : binning) : cnum := mk_cnum "rate" OnPdf false false b (Ok None).

Theorem C80_clip_ignored_refuted : exists k,
  new_likelihood no_oor no_g1 no_g2 config_clip (Ok (mk_table ["cs2"] [[Fin 1]; [Fin 3]])) = Ok k /\
  binning_ok (k_bins k) /\ k_hist k = [Fin 1; Fin 0] /\
  fixed_deduce no_oor (plain_settings (k_bins k)) [[Fin 1]; [Fin 3]] = Ok [Fin 1; Fin 1].
Proof.
  assert (Hm : mask_data config_clip 1 (map (select [0]) [[Fin 1]; [Fin 3]]) = Ok [[Fin 1]]).
  { unfold mask_data, config_clip, strictly. fl_eval. reflexivity. }
  assert (Hw : wanted config_clip ["cs2"] [AArr (Arr1 [Fin 0; Fin 2; Fin 4])]).
  { right. exists "cs2". split; [reflexivity|]. split; [reflexivity|]. left. reflexivity. }
  pose proof (new_intro no_oor no_g1 no_g2 config_clip (mk_table ["cs2"] [[Fin 1]; [Fin 3]]) ["cs2"] _ [0] _
    (BIrreg1 [Fin 0; Fin 2; Fin 4]) Hw eq_refl eq_refl Hm eq_refl) as H.
  eexists. split; [exact H|].
  cbn [k_bins k_hist].
  assert (Hok : binning_ok (BIrreg1 [Fin 0; Fin 2; Fin 4])).
  { split; [|cbn; lia]. cbn. repeat split; try discriminate; intros x Hx;
      repeat (destruct Hx as [<-|Hx]; [fl_eval; try reflexivity|]); destruct Hx. }
  split; [exact Hok|]. split.
  - rewrite data_hist_counts by exact Hok. unfold counts, number. cbn [bins_of bin_numbers List.length seq map Nat.sub].
    unfold right_bin, in_bin, edge. f_equal; [|f_equal]; f_equal; cbn [filter obs nth]; fl_eval; reflexivity.
  - unfold fixed_deduce, implement_binning. cbn [plain_settings n_add_eps n_bins].
    rewrite make_data_hist_plain by discriminate. f_equal.
    rewrite data_hist_counts by exact Hok. unfold counts, number. cbn [bins_of bin_numbers List.length seq map Nat.sub].
    unfold right_bin, in_bin, edge. f_equal; [|f_equal]; f_equal; cbn [filter obs nth]; fl_eval; reflexivity.
Qed.

(** The clip is open and the bins are closed on the right, so an event exactly at the upper limit
    is not in the data although it is in the last bin. For integer observables (the config entry
    integer) this is no rare case. *)
Definition config_edge : lconfig :=
  mk_lconfig "irreg" (OnStr "hits") (PList [AArr (Arr1 [Fin 0; Fin 2; Fin 4])]) (Some (Fin 0, Fin 4)) None None.

Theorem C80_upper_limit_refuted : exists k,
  new_likelihood no_oor no_g1 no_g2 config_edge (Ok (mk_table ["hits"] [[Fin 2]; [Fin 4]])) = Ok k /\
  binning_ok (k_bins k) /\ spans config_edge (k_bins k) /\ k_hist k = [Fin 1; Fin 0] /\
  fixed_deduce no_oor (plain_settings (k_bins k)) [[Fin 2]; [Fin 4]] = Ok [Fin 1; Fin 1].
Proof.
  assert (Hm : mask_data config_edge 1 (map (select [0]) [[Fin 2]; [Fin 4]]) = Ok [[Fin 2]]).
  { unfold mask_data, config_edge, strictly. fl_eval. reflexivity. }
  assert (Hw : wanted config_edge ["hits"] [AArr (Arr1 [Fin 0; Fin 2; Fin 4])]).
  { right. exists "hits". split; [reflexivity|]. split; [reflexivity|]. left. reflexivity. }
  pose proof (new_intro no_oor no_g1 no_g2 config_edge (mk_table ["hits"] [[Fin 2]; [Fin 4]]) ["hits"] _ [0] _
    (BIrreg1 [Fin 0; Fin 2; Fin 4]) Hw eq_refl eq_refl Hm eq_refl) as H.
  eexists. split; [exact H|].
  cbn [k_bins k_hist].
  assert (Hok : binning_ok (BIrreg1 [Fin 0; Fin 2; Fin 4])).
  { split; [|cbn; lia]. cbn. repeat split; try discriminate; intros x Hx;
      repeat (destruct Hx as [<-|Hx]; [fl_eval; try reflexivity|]); destruct Hx. }
  split; [exact Hok|]. split; [|split].
  - exists (Fin 0, Fin 4). split; [reflexivity|]. split; unfold edge; fl_eval; reflexivity.
  - rewrite data_hist_counts by exact Hok. unfold counts, number. cbn [bins_of bin_numbers List.length seq map Nat.sub].
    unfold right_bin, in_bin, edge. f_equal; [|f_equal]; f_equal; cbn [filter obs nth]; fl_eval; reflexivity.
  - unfold fixed_deduce, implement_binning. cbn [plain_settings n_add_eps n_bins].
    rewrite make_data_hist_plain by discriminate. f_equal.
    rewrite data_hist_counts by exact Hok. unfold counts, number. cbn [bins_of bin_numbers List.length seq map Nat.sub].
    unfold right_bin, in_bin, edge. f_equal; [|f_equal]; f_equal; cbn [filter obs nth]; fl_eval; reflexivity.
Qed.

(* ------------------------------------------------------------------ *)
(** * C81 which configs are accepted *)

Definition is_int (s : bin_spec) : Prop := exists n, s = AInt n.

(** Everything that is checked when a likelihood is made. *)
Theorem C81_checked oor g1 g2 cfg load k : new_likelihood oor g1 g2 cfg load = Ok k ->
  exists bs, wanted cfg (k_on k) bs /\ List.length bs = List.length (k_on k) /\
    (List.length bs = 1 \/ List.length bs = 2) /\ readable load (k_on k) /\ has_clips cfg (List.length bs) /\
    ((lc_bins_type cfg = "meshgrid") \/
     (lc_bins_type cfg = "equiprob" /\ Forall is_int bs) \/
     (lc_bins_type cfg = "irreg" /\ Forall (fun s => ~ is_int s) bs)).
Proof.
  intros H. destruct (new_as oor g1 g2 cfg load k H) as (bs & Hw & Hl & Ha).
  destruct (new_readable oor g1 g2 cfg load k H) as [Hr Hc].
  exists bs. split; [exact Hw|]. split; [symmetry; exact Hl|]. split; [apply (binned_as_dim _ _ _ _ _ _ Ha)|].
  split; [exact Hr|]. rewrite Hl in Hc. split; [exact Hc|].
  destruct Ha as [s e Ht _|s s' ex ey Ht _ _|e Ht|ex ry Ht _ _|n c e Ht _ _|n m cx cy ex ry Ht _ _ _]; rewrite Ht.
  - left. reflexivity.
  - left. reflexivity.
  - right. right. split; [reflexivity|]. repeat constructor; intros [n E]; discriminate.
  - right. right. split; [reflexivity|]. repeat constructor; intros [n E]; discriminate.
  - right. left. split; [reflexivity|]. repeat constructor. exists n. reflexivity.
  - right. left. split; [reflexivity|]. repeat constructor; [exists n|exists m]; reflexivity.
Qed.

(** The bins are those of the config: equal bins over the clip or the given edges on a meshgrid,
    the given edges for irreg. *)
Theorem C81_bins oor g1 g2 cfg load k bs : new_likelihood oor g1 g2 cfg load = Ok k ->
  wanted cfg (k_on k) bs ->
  (lc_bins_type cfg = "meshgrid" ->
    (exists s c e, bs = [s] /\ lc_clip cfg = Some c /\ k_bins k = BMesh1 e /\ mesh_axis s c e) \/
    (exists s s' cx cy ex ey, bs = [s; s'] /\ lc_x_clip cfg = Some cx /\ lc_y_clip cfg = Some cy /\
       k_bins k = BMesh2 ex ey /\ mesh_axis s cx ex /\ mesh_axis s' cy ey)) /\
  (lc_bins_type cfg = "irreg" ->
    (exists e, bs = [AArr (Arr1 e)] /\ k_bins k = BIrreg1 e) \/
    (exists ex ry, bs = [AArr (Arr1 ex); AArr (Arr2 ry)] /\ k_bins k = BIrreg2 ex ry /\
       List.length ex = List.length ry + 1 /\ forall r r', In r ry -> In r' ry -> List.length r = List.length r')).
Proof.
  intros H Hw. destruct (new_as oor g1 g2 cfg load k H) as (bs' & Hw' & Hl & Ha).
  assert (E : bs' = bs) by (apply normalise_wanted in Hw; apply normalise_wanted in Hw'; congruence). subst bs'.
  split; intros Ht;
    destruct Ha as [s e Ht' Hr|s s' ex ey Ht' Hr Hr'|e Ht'|ex ry Ht' Hlen Hrect|n c e Ht' _ _|n m cx cy ex ry Ht' _ _ _];
    try (rewrite Ht in Ht'; discriminate).
  - left. destruct (resolve_asked _ _ _ Hr) as (c & Ec & Hm). exists s, c, e. auto.
  - right. destruct (resolve_asked _ _ _ Hr) as (cx & Ecx & Hmx). destruct (resolve_asked _ _ _ Hr') as (cy & Ecy & Hmy).
    exists s, s', cx, cy, ex, ey. auto 8.
  - left. exists e. auto.
  - right. exists ex, ry. split; [reflexivity|]. split; [reflexivity|]. split; [exact Hlen|].
    intros r r' Hin Hin'. unfold rectangular in Hrect. destruct ry as [|r0 ry]; [destruct Hin|].
    rewrite forallb_forall in Hrect. pose proof (Hrect r Hin) as H1. pose proof (Hrect r' Hin') as H2.
    apply Nat.eqb_eq in H1, H2. congruence.
Qed.

(** And such configs are accepted: a readable file with the columns, the clips, and bins of the
    right form. *)
Theorem C81_accepted oor g1 g2 cfg t on bs : wanted cfg on bs -> List.length on = List.length bs ->
  readable (Ok t) on -> has_clips cfg (List.length bs) ->
  (lc_bins_type cfg = "meshgrid" /\
     (exists s, bs = [s] \/ exists s', bs = [s; s']) /\
     Forall (fun s => (exists n, s = AInt n /\ (0 <= n)%Z) \/ exists e, s = AArr (Arr1 e)) bs) \/
  (lc_bins_type cfg = "irreg" /\
     ((exists e, bs = [AArr (Arr1 e)]) \/
      (exists ex ry, bs = [AArr (Arr1 ex); AArr (Arr2 ry)] /\ List.length ex = List.length ry + 1 /\
         forall r r', In r ry -> In r' ry -> List.length r = List.length r'))) \/
  (lc_bins_type cfg = "equiprob" /\
     ((exists n, bs = [AInt n]) \/ (exists n m, bs = [AInt n; AInt m])) /\
     (forall d n, is_ok (g1 d n) = true) /\ (forall d ns, is_ok (g2 d ns) = true)) ->
  exists k, new_likelihood oor g1 g2 cfg (Ok t) = Ok k /\ k_on k = on.
Proof.
  intros Hw Hl (t' & Et & Hcols) Hclips H. assert (t' = t) by congruence. subst t'.
  destruct (positions_in on (t_columns t) Hcols) as [is Hp].
  assert (Hlen : 1 <= List.length bs).
  { destruct H as [(_ & (s & [->|(s' & ->)]) & _)|[(_ & [(e & ->)|(ex & ry & -> & _)])|(_ & [(n & ->)|(n & m & ->)] & _)]];
      cbn [List.length]; lia. }
  destruct (has_clips_mask cfg (List.length bs) (map (select is) (t_rows t)) Hlen Hclips) as [data Hm].
  assert (Hres : forall s c, ((exists n, s = AInt n /\ (0 <= n)%Z) \/ exists e, s = AArr (Arr1 e)) ->
             exists e, resolve_bin_edges s (Some c) = Ok (Arr1 e)).
  { intros s c [(n & -> & Hn)|(e & ->)]; cbn [resolve_bin_edges np_array]; [|eauto].
    unfold np_linspace. destruct (Z.ltb_spec (n + 1) 0); [lia|]. eauto. }
  assert (Hb : exists b, binned_as g1 g2 cfg data bs b).
  { destruct H as [(Ht & (s & [->|(s' & ->)]) & HF)|[(Ht & [(e & ->)|(ex & ry & -> & Hle & Hrect)])|(Ht & [(n & ->)|(n & m & ->)] & Hg1 & Hg2)]].
    - destruct Hclips as [c Hc]. inversion HF as [|? ? H1 _]; subst. destruct (Hres s c H1) as [e He].
      exists (BMesh1 e). apply as_mesh1; [exact Ht|]. rewrite Hc. exact He.
    - destruct Hclips as (cx & cy & Hcx & Hcy). inversion HF as [|? ? H1 HF']; subst. inversion HF' as [|? ? H2 _]; subst.
      destruct (Hres s cx H1) as [ex Hex]. destruct (Hres s' cy H2) as [ey Hey].
      exists (BMesh2 ex ey). apply as_mesh2; [exact Ht|rewrite Hcx; exact Hex|rewrite Hcy; exact Hey].
    - exists (BIrreg1 e). apply as_irreg1, Ht.
    - exists (BIrreg2 ex ry). apply as_irreg2; [exact Ht|exact Hle|]. unfold rectangular.
      destruct ry as [|r ry]; [reflexivity|]. apply forallb_forall. intros r' Hr'. apply Nat.eqb_eq.
      apply Hrect; [exact Hr'|left; reflexivity].
    - destruct Hclips as [c Hc].
      destruct (g1 (filter (strictly c) (map (obs 0) data)) n) as [e|] eqn:Hg;
        [|specialize (Hg1 (filter (strictly c) (map (obs 0) data)) n); rewrite Hg in Hg1; discriminate].
      exists (BIrreg1 (limit c e)). apply as_equi1; assumption.
    - destruct Hclips as (cx & cy & Hcx & Hcy).
      destruct (g2 (filter (fun r => strictly cx (obs 0 r) && strictly cy (obs 1 r)) data) [n; m]) as [[ex ry]|] eqn:Hg;
        [|specialize (Hg2 (filter (fun r => strictly cx (obs 0 r) && strictly cy (obs 1 r)) data) [n; m]);
          rewrite Hg in Hg2; discriminate].
      exists (BIrreg2 (limit cx ex) (map (limit cy) ry)). apply as_equi2; assumption. }
  destruct Hb as [b Hb]. pose proof (as_set_bins _ _ _ _ _ _ Hb Hclips) as Hs.
  eexists. split; [apply (new_intro oor g1 g2 cfg t on bs is data b Hw Hl Hp); rewrite Hl; assumption|reflexivity].
Qed.

(** The exceptions for the most likely mistakes. *)
Theorem C81_exceptions oor g1 g2 cfg load :
  (lc_bins_on cfg = OnOther -> new_likelihood oor g1 g2 cfg load = Err ValueError) /\
  (forall l, lc_bins_on cfg = OnList l -> (forall bs, lc_bins cfg <> PList bs) ->
     new_likelihood oor g1 g2 cfg load = Err AssertionError) /\
  (forall on bs, wanted cfg on bs -> List.length on <> List.length bs ->
     new_likelihood oor g1 g2 cfg load = Err RuntimeError) /\
  (forall on bs t c, wanted cfg on bs -> List.length on = List.length bs -> load = Ok t ->
     In c on -> ~ In c (t_columns t) -> new_likelihood oor g1 g2 cfg load = Err KeyError).
Proof.
  unfold new_likelihood. split; [|split; [|split]].
  - intros ->. reflexivity.
  - intros l -> Hb. cbn [normalise_bins]. destruct (lc_bins cfg) as [n|bs|]; [reflexivity|destruct (Hb bs); reflexivity|reflexivity].
  - intros on bs Hw Hl. apply normalise_wanted in Hw. rewrite Hw. apply Nat.eqb_neq in Hl. rewrite Hl. reflexivity.
  - intros on bs t c Hw Hl -> Hin Hnot. apply normalise_wanted in Hw. rewrite Hw, Hl, Nat.eqb_refl. cbn [negb].
    destruct (positions on (t_columns t)) as [is|e] eqn:Hp.
    + exfalso. apply positions_ok in Hp. destruct (forall2_left Hp c Hin) as (i & _ & Hi). exact (Hnot (nth_error_In _ _ Hi)).
    + f_equal. exact (positions_err _ _ _ Hp).
Qed.

(** Mistakes that are found when the data have been read: too many observables, edges given for
    equiprobable bins, and an unknown bins_type. *)
Theorem C81_exceptions_binning oor g1 g2 cfg t on bs :
  wanted cfg on bs -> List.length on = List.length bs -> on <> [] ->
  (forall c, In c on -> In c (t_columns t)) -> has_clips cfg (List.length bs) ->
  (2 < List.length on -> new_likelihood oor g1 g2 cfg (Ok t) = Err ValueError) /\
  (List.length on <= 2 -> lc_bins_type cfg = "equiprob" -> (exists a, In (AArr a) bs) ->
     new_likelihood oor g1 g2 cfg (Ok t) = Err RuntimeError) /\
  (lc_bins_type cfg <> "meshgrid" -> lc_bins_type cfg <> "equiprob" -> lc_bins_type cfg <> "irreg" ->
     new_likelihood oor g1 g2 cfg (Ok t) = Err ValueError).
Proof.
  intros Hw Hl Hne Hc Hcl. destruct (positions_in _ _ Hc) as [is Hp].
  assert (Hlen : 1 <= List.length bs) by (rewrite <- Hl; destruct on; [congruence|cbn; lia]).
  destruct (has_clips_mask cfg (List.length bs) (map (select is) (t_rows t)) Hlen Hcl) as [data Hm].
  apply normalise_wanted in Hw.
  assert (R : new_likelihood oor g1 g2 cfg (Ok t) = match set_bins g1 g2 cfg (List.length on) bs data with
    | Err e => Err e | Ok b => Ok (mk_likelihood on data b (make_data_hist oor b data)) end).
  { unfold new_likelihood. rewrite Hw, Hl, Nat.eqb_refl. cbn [negb]. rewrite Hp, Hm. reflexivity. }
  rewrite R. unfold set_bins. split; [|split].
  - intros H2. destruct (Nat.eqb_spec (List.length on) 1); [lia|].
    destruct (Nat.eqb_spec (List.length on) 2); [lia|]. reflexivity.
  - intros H2 Ht (a & Ha). rewrite Ht. change (String.eqb "equiprob" "meshgrid") with false.
    change (String.eqb "equiprob" "equiprob") with true.
    assert (Hd : negb (Nat.eqb (List.length on) 1 || Nat.eqb (List.length on) 2) = false).
    { destruct (List.length on) as [|[|[|n]]]; try reflexivity; lia. }
    rewrite Hd.
    assert (Hi : all_int bs = None).
    { clear - Ha. induction bs as [|b bs IH]; [destruct Ha|]. destruct Ha as [->|Ha]; [reflexivity|].
      cbn [all_int]. destruct b; [rewrite IH by exact Ha; reflexivity|reflexivity]. }
    rewrite Hi. reflexivity.
  - intros H1 H2 H3. destruct (negb _); [reflexivity|].
    apply String.eqb_neq in H1, H2, H3. rewrite H1, H2, H3. reflexivity.
Qed.

(** The hypotheses hold for edges in an equiprobable binning. *)
Example C81_case_exceptions :
  let cfg := mk_lconfig "equiprob" (OnStr "cs2") (PList [AArr (Arr1 [Fin 0; Fin 4])]) (Some (Fin 0, Fin 4)) None None in
  wanted cfg ["cs2"] [AArr (Arr1 [Fin 0; Fin 4])] /\
  (forall c, In c ["cs2"] -> In c (t_columns table5)) /\ has_clips cfg 1 /\
  new_likelihood no_oor no_g1 no_g2 cfg (Ok table5) = Err RuntimeError.
Proof.
  cbv zeta. split; [right; exists "cs2"; split; [reflexivity|]; split; [reflexivity|]; left; reflexivity|].
  split; [intros c [<-|[]]; cbn; auto|]. split; [exists (Fin 0, Fin 4); reflexivity|].
  reflexivity.
Qed.

(** A number of bins with bins_type irreg is turned into an array first (likelihood.py:228), so
    that the number of bins that _resolve_bin_edges provides for is never used: it is refused,
    although the same config is accepted with bins_type meshgrid. *)
Theorem C81_irreg_number_refuted : exists cfg,
  lc_bins cfg = PInt 2 /\ lc_bins_type cfg = "irreg" /\
  new_likelihood no_oor no_g1 no_g2 cfg (Ok table5) = Err ValueError /\
  exists k, new_likelihood no_oor no_g1 no_g2
    (mk_lconfig "meshgrid" (lc_bins_on cfg) (lc_bins cfg) (lc_clip cfg) (lc_x_clip cfg) (lc_y_clip cfg)) (Ok table5) = Ok k.
Proof.
  exists (mk_lconfig "irreg" (OnStr "cs2") (PInt 2) (Some (Fin 0, Fin 4)) None None).
  split; [reflexivity|]. split; [reflexivity|]. split; [reflexivity|].
  destruct C80_case as (k & Hk & _). exists k. exact Hk.
Qed.

(** The clip is needed even where it is not used for the edges. *)
Theorem C81_clip_needed oor g1 g2 cfg load s : lc_bins_on cfg = OnStr s -> lc_clip cfg = None ->
  is_ok (new_likelihood oor g1 g2 cfg load) = false.
Proof.
  intros Hs Hc. destruct (new_likelihood oor g1 g2 cfg load) as [k|] eqn:H; [|reflexivity].
  destruct (C81_checked _ _ _ _ _ _ H) as (bs & Hw & Hl & _ & _ & Hcl & _).
  destruct Hw as [[E _]|(s' & E & Eon & _)]; [congruence|]. rewrite Eon in Hl. cbn in Hl. rewrite Hl in Hcl.
  destruct Hcl as [c Ec]. congruence.
Qed.

(** Two-dimensional irregular bins with two rows are accepted. *)
Example C81_case : exists k,
  new_likelihood no_oor no_g1 no_g2
    (mk_lconfig "irreg" (OnList ["cs1"; "cs2"])
       (PList [AArr (Arr1 [Fin 0; Fin 5; Fin 10]); AArr (Arr2 [[Fin 0; Fin 1]; [Fin 0; Fin 4]])])
       None (Some (Fin 0, Fin 10)) (Some (Fin 0, Fin 4))) (Ok table5) = Ok k /\
  k_bins k = BIrreg2 [Fin 0; Fin 5; Fin 10] [[Fin 0; Fin 1]; [Fin 0; Fin 4]].
Proof.
  edestruct (C81_accepted no_oor no_g1 no_g2
    (mk_lconfig "irreg" (OnList ["cs1"; "cs2"])
       (PList [AArr (Arr1 [Fin 0; Fin 5; Fin 10]); AArr (Arr2 [[Fin 0; Fin 1]; [Fin 0; Fin 4]])])
       None (Some (Fin 0, Fin 10)) (Some (Fin 0, Fin 4))) table5) as (k & Hk & _).
  - left. split; reflexivity.
  - reflexivity.
  - exists table5. split; [reflexivity|]. intros c [<-|[<-|[]]]; cbn; auto.
  - exists (Fin 0, Fin 10), (Fin 0, Fin 4). split; reflexivity.
  - right. left. split; [reflexivity|]. right. eexists. eexists. split; [reflexivity|]. split; [reflexivity|].
    intros r r' Hr Hr'. cbn in Hr, Hr'. destruct Hr as [<-|[<-|[]]], Hr' as [<-|[<-|[]]]; reflexivity.
  - exists k. split; [exact Hk|].
    assert (Hw : wanted (mk_lconfig "irreg" (OnList ["cs1"; "cs2"])
       (PList [AArr (Arr1 [Fin 0; Fin 5; Fin 10]); AArr (Arr2 [[Fin 0; Fin 1]; [Fin 0; Fin 4]])])
       None (Some (Fin 0, Fin 10)) (Some (Fin 0, Fin 4))) (k_on k)
       [AArr (Arr1 [Fin 0; Fin 5; Fin 10]); AArr (Arr2 [[Fin 0; Fin 1]; [Fin 0; Fin 4]])]).
    { destruct (C81_checked _ _ _ _ _ _ Hk) as (bs & [[E1 E2]|(s & E & _)] & _); [|discriminate]. left. split; [exact E1|reflexivity]. }
    destruct (C81_bins _ _ _ _ _ _ _ Hk Hw) as [_ Hi]. destruct (Hi eq_refl) as [(e & E & _)|(ex & ry & E & Hkb & _)]; [discriminate|].
    rewrite Hkb. congruence.
Qed.

Print Assumptions C80_data.
Print Assumptions C80_counts.
Print Assumptions C80_total.
Print Assumptions C80_shape.
Print Assumptions C80_fixed.
Print Assumptions C80_equiprob_1d.
Print Assumptions C80_equiprob_2d.
Print Assumptions C80_meshgrid_1d.
Print Assumptions C80_meshgrid_2d.
Print Assumptions C80_clip_ignored_refuted.
Print Assumptions C80_upper_limit_refuted.
Print Assumptions C81_checked.
Print Assumptions C81_bins.
Print Assumptions C81_accepted.
Print Assumptions C81_exceptions.
Print Assumptions C81_exceptions_binning.
Print Assumptions C81_irreg_number_refuted.
Print Assumptions C81_clip_needed.
