(** Lemmas about the literature likelihood. *)
From Coq Require Import Reals Lra Lia Sorted Permutation.
From Verif Require Import Base BaseFacts ModelFloat ModelTwoHalf ModelInterp ModelLikelihood
  SpecInterp ModelLit SpecLit ProofFloat ProofLikelihood2 ProofLikelihood3 ProofInterp ProofParameter.
Local Open Scope R_scope.

(* ------------------------------------------------------------------ *)
(** * Broadcasting *)

Lemma broadcast2_ok N a b : (a = N \/ a = 1)%nat -> (b = N \/ b = 1)%nat ->
  exists n, broadcast2 a b = Ok n /\ (n = N \/ (n = 1 /\ a = 1 /\ b = 1))%nat /\ (n = N \/ n = 1)%nat /\ (a = N \/ b = N -> n = N)%nat.
Proof.
  intros Ha Hb. unfold broadcast2.
  destruct (Nat.eqb a b) eqn:E1; [apply Nat.eqb_eq in E1; exists a; split; [reflexivity|lia]|].
  apply Nat.eqb_neq in E1.
  destruct (Nat.eqb a 1) eqn:E2; [apply Nat.eqb_eq in E2; exists b; split; [reflexivity|lia]|].
  apply Nat.eqb_neq in E2.
  destruct (Nat.eqb b 1) eqn:E3; [apply Nat.eqb_eq in E3; exists a; split; [reflexivity|lia]|].
  apply Nat.eqb_neq in E3. lia.
Qed.

Lemma broadcast_ok N ms : forall n, (n = N \/ n = 1)%nat -> (forall m, In m ms -> (m = N \/ m = 1)%nat) ->
  exists k, broadcast n ms = Ok k /\ (k = N \/ (k = 1 /\ n = 1 /\ forall m, In m ms -> m = 1))%nat /\
    ((n = N \/ In N ms) -> k = N)%nat.
Proof.
  induction ms as [|m ms IH]; intros n Hn Hm; cbn [broadcast].
  - exists n. split; [reflexivity|]. split; [|intros [H|[]]; exact H].
    destruct Hn as [->|Hn]; [left; reflexivity|]. right. split; [exact Hn|]. split; [exact Hn|intros m []].
  - destruct (broadcast2_ok N n m Hn (Hm m (or_introl eq_refl))) as (k & Ek & H1 & H2 & H3). rewrite Ek.
    destruct (IH k H2 (fun m' Hm' => Hm m' (or_intror Hm'))) as (k' & Ek' & H4 & H5). exists k'. split; [exact Ek'|].
    split.
    + destruct H4 as [H4|(H4 & H6 & H7)]; [left; exact H4|].
      destruct H1 as [H1|(_ & Hn1 & Hm1)].
      * left. rewrite H5; [reflexivity|left; exact H1].
      * right. split; [exact H4|]. split; [exact Hn1|]. intros m' [<-|Hm']; [exact Hm1|apply H7, Hm'].
    + intros [H|[H|H]]; apply H5; [left; apply H3; left; exact H|left; apply H3; right; exact H|right; exact H].
Qed.

Lemma list_ext {A} (l : list A) : forall m, (forall i, nth_error l i = nth_error m i) -> l = m.
Proof.
  induction l as [|a l IH]; intros [|b m] H; [reflexivity|discriminate (H 0%nat)|discriminate (H 0%nat)|].
  pose proof (H 0%nat) as H0. cbn in H0. injection H0 as ->. f_equal. apply IH. intros i. exact (H (S i)).
Qed.

Section Gives.
  Context {P : Type} (pts : list P).
  Let N := List.length pts.

  Lemma gives_length f a : gives f pts a -> (List.length a = N \/ List.length a = 1)%nat.
  Proof. intros [->|(c & -> & _)]; [left; rewrite map_length; reflexivity|right; reflexivity]. Qed.

  Lemma gives_pick f a i p : gives f pts a -> nth_error pts i = Some p -> pick a i = f p.
  Proof.
    intros [->|(c & -> & H)] Hp; unfold pick.
    - rewrite map_length.
      assert (Hn : nth i (map f pts) NaN = f p).
      { apply nth_error_nth. rewrite nth_error_map, Hp. reflexivity. }
      destruct (Nat.eqb (List.length pts) 1) eqn:E; [|exact Hn].
      apply Nat.eqb_eq in E. assert (i < List.length pts)%nat by (apply nth_error_Some; congruence).
      replace i with 0%nat in Hn by lia. exact Hn.
    - cbn. symmetry. apply H. apply nth_error_In with i. exact Hp.
  Qed.

  Lemma map_seq_points (g : nat -> fl) (f : P -> fl) :
    (forall i p, nth_error pts i = Some p -> g i = f p) -> map g (seq 0 N) = map f pts.
  Proof.
    intros H. apply list_ext. intros i. rewrite !nth_error_map.
    destruct (nth_error pts i) as [p|] eqn:Hp.
    - assert (Hi : (i < N)%nat) by (apply nth_error_Some; congruence).
      rewrite (nth_error_nth' (seq 0 N) 0%nat) by (rewrite seq_length; exact Hi).
      rewrite seq_nth by exact Hi. cbn. f_equal. apply H. exact Hp.
    - apply nth_error_None in Hp. 
      replace (nth_error (seq 0 N) i) with (@None nat); [reflexivity|].
      symmetry. apply nth_error_None. rewrite seq_length. exact Hp.
  Qed.

  (** An operation entry by entry on arrays that give functions of the points. *)
  Lemma gives_map (g : list fl -> fl) a arrays f fs :
    pts <> [] -> gives f pts a -> Forall2 (fun f a => gives f pts a) fs arrays ->
    exists n, broadcast (List.length a) (map (@List.length fl) arrays) = Ok n /\
      gives (fun p => g (map (fun f => f p) (f :: fs))) pts
        (map (fun i => g (map (fun a => pick a i) (a :: arrays))) (seq 0 n)) /\
      ((exists b, In b (a :: arrays) /\ List.length b = N) -> n = N).
  Proof.
    intros Hne Ha Hfs.
    assert (HF : Forall2 (fun f a => gives f pts a) (f :: fs) (a :: arrays)) by (constructor; assumption).
    assert (Hl : forall b, In b (a :: arrays) -> (List.length b = N \/ List.length b = 1)%nat).
    { clear Ha Hfs. intros b Hb. revert HF Hb. generalize (f :: fs) (a :: arrays).
      induction 1 as [|f' a' l l' H _ IH]; intros Hb; [destruct Hb|].
      destruct Hb as [->|Hb]; [apply gives_length with f'; exact H|apply IH, Hb]. }
    destruct (broadcast_ok N (map (@List.length fl) arrays) (List.length a)) as (n & En & H1 & H2).
    - apply Hl. left. reflexivity.
    - intros m Hm. apply in_map_iff in Hm. destruct Hm as (b & <- & Hb). apply Hl. right. exact Hb.
    - exists n. split; [exact En|].
      assert (Hpick : forall i p, nth_error pts i = Some p ->
        map (fun a => pick a i) (a :: arrays) = map (fun f => f p) (f :: fs)).
      { intros i p Hp. clear - N HF Hp. revert HF. generalize (f :: fs) (a :: arrays).
        induction 1 as [|f' a' l l' H _ IH]; [reflexivity|]. cbn [map]. rewrite IH. f_equal.
        apply gives_pick; assumption. }
      split.
      + destruct H1 as [->|(-> & Hla & Hls)].
        * left. apply map_seq_points. intros i p Hp. f_equal. apply Hpick, Hp.
        * right. eexists. split; [reflexivity|]. intros p Hp.
          assert (Hone : forall b, In b (a :: arrays) -> List.length b = 1%nat).
          { intros b [<-|Hb]; [exact Hla|]. apply Hls. apply in_map. exact Hb. }
          f_equal. revert HF Hone. generalize (f :: fs) (a :: arrays).
          induction 1 as [|f' a' l l' H _ IH]; intros Hone; [reflexivity|]. cbn [map].
          rewrite IH by (intros b Hb; apply Hone; right; exact Hb). f_equal.
          pose proof (Hone a' (or_introl eq_refl)) as H3.
          destruct H as [E|(c & E & H)]; subst a'.
          -- rewrite map_length in H3. destruct pts as [|q [|q' r]]; [destruct Hp| |discriminate].
             destruct Hp as [->|[]]. reflexivity.
          -- cbn. apply H. exact Hp.
      + intros (b & [<-|Hb] & Hb'); apply H2; [left; exact Hb'|right].
        rewrite <- Hb'. apply in_map. exact Hb.
  Qed.

  Lemma gives_all f a (Q : fl -> Prop) : pts <> [] -> gives f pts a ->
    (forall p, In p pts -> Q (f p)) -> forall v, In v a -> Q v.
  Proof.
    intros Hne [->|(c & -> & H)] HQ v Hv.
    - apply in_map_iff in Hv. destruct Hv as (p & <- & Hp). apply HQ, Hp.
    - destruct Hv as [<-|[]]. destruct pts as [|p l]; [contradiction|].
      rewrite <- (H p (or_introl eq_refl)). apply HQ. left. reflexivity.
  Qed.

  Lemma gives_ext f g a : (forall p, In p pts -> f p = g p) -> gives f pts a -> gives g pts a.
  Proof.
    intros H [->|(c & -> & Hc)].
    - left. apply map_ext_in. exact H.
    - right. exists c. split; [reflexivity|]. intros p Hp. rewrite <- H by exact Hp. apply Hc, Hp.
  Qed.
End Gives.

Lemma all_positive_spec l : all_positive l = true <-> forall s, In s l -> flt (Fin 0) s = true.
Proof. unfold all_positive. apply forallb_forall. Qed.

(* ------------------------------------------------------------------ *)
(** * The densities *)

Lemma twohalf_entry_logpdf x mu sp sn : flt (Fin 0) sp = true -> flt (Fin 0) sn = true ->
  twohalf_logpdf x mu sp sn = Ok (twohalf_entry x mu sp sn).
Proof. intros H1 H2. unfold twohalf_logpdf. rewrite H1, H2. reflexivity. Qed.

Lemma two_half_pos mu sp sn y : 0 < sp -> 0 < sn -> 0 < two_half mu sp sn y.
Proof.
  intros Hp Hn. unfold two_half. apply Rmult_lt_0_compat; [|apply exp_pos].
  pose proof sqrt_2pi_pos. apply Rdiv_lt_0_compat; [lra|]. apply Rmult_lt_0_compat; lra.
Qed.

Lemma ln_two_half mu sp sn y : 0 < sp -> 0 < sn ->
  ln (two_half mu sp sn y)
  = - ((y - mu) * (y - mu)) / (2 * ((if Rlt_dec y mu then sn else sp) * (if Rlt_dec y mu then sn else sp)))
    + ln (2 / ((sp + sn) * sqrt (2 * PI))).
Proof.
  intros Hp Hn. unfold two_half. pose proof sqrt_2pi_pos as Hq.
  rewrite ln_mult; [|apply Rdiv_lt_0_compat; [lra|apply Rmult_lt_0_compat; lra]|apply exp_pos].
  rewrite ln_exp. lra.
Qed.

Lemma twohalf_entry_Fin y mu sp sn : 0 < sp -> 0 < sn ->
  twohalf_entry (Fin y) (Fin mu) (Fin sp) (Fin sn) = Fin (ln (two_half mu sp sn y)).
Proof.
  intros Hp Hn. assert (E : twohalf_logpdf (Fin y) (Fin mu) (Fin sp) (Fin sn) = Ok (Fin (ln (two_half mu sp sn y)))).
  { rewrite ln_two_half by assumption. apply twohalf_logpdf_Fin; assumption. }
  rewrite twohalf_entry_logpdf in E by (apply flt_Fin; lra). congruence.
Qed.

Lemma gauss_pos m s y : 0 < s -> 0 < gauss m s y.
Proof.
  intros Hs. unfold gauss. apply Rmult_lt_0_compat; [|apply exp_pos].
  pose proof sqrt_2pi_pos. apply Rinv_0_lt_compat. apply Rmult_lt_0_compat; lra.
Qed.

Lemma ln_gauss m s y : 0 < s ->
  ln (gauss m s y) = - ((y - m) * (y - m)) / (2 * (s * s)) - ln (sqrt (2 * PI)) - ln s.
Proof.
  intros Hs. unfold gauss. pose proof sqrt_2pi_pos as Hq.
  rewrite ln_mult; [|apply Rinv_0_lt_compat, Rmult_lt_0_compat; lra|apply exp_pos].
  rewrite ln_exp, ln_Rinv by (apply Rmult_lt_0_compat; lra). rewrite ln_mult by lra. lra.
Qed.

Lemma norm_entry_Fin y m s : 0 < s -> norm_entry (Fin y) (Fin m) (Fin s) = Fin (ln (gauss m s y)).
Proof.
  intros Hs. unfold norm_entry. replace (flt (Fin 0) (Fin s)) with true by (symmetry; apply flt_Fin; lra).
  rewrite fsub_Fin, fdiv_Fin by lra. rewrite fsqr_Fin. cbn [fneg]. rewrite fdiv_Fin by lra.
  rewrite flog_pos by exact Hs. rewrite !fsub_Fin. rewrite ln_gauss by exact Hs. f_equal. field. lra.
Qed.

(* ------------------------------------------------------------------ *)
(** * The weighted sum *)

Lemma fsum_Fin_map {P} (f : P -> R) pts : fsum (map (fun p => Fin (f p)) pts) = Fin (sum_over f pts).
Proof.
  induction pts as [|p pts IH]; [reflexivity|].
  change (fsum (map (fun p => Fin (f p)) (p :: pts))) with (fadd (Fin (f p)) (fsum (map (fun p => Fin (f p)) pts))).
  rewrite IH. reflexivity.
Qed.

Lemma weigh_gives {P} (pts : list P) g e l eff : pts <> [] -> gives g pts l -> gives e pts eff ->
  (List.length l = List.length pts \/ List.length eff = List.length pts) ->
  weigh l eff = Ok (let s := fsum (map (fun p => fmul (g p) (e p)) pts) in if is_nan s then NInf else s).
Proof.
  intros Hne Hl He Hlen. unfold weigh.
  destruct (gives_map pts (fun vs => match vs with a :: b :: _ => fmul a b | _ => NaN end) l [eff] g [e] Hne Hl)
    as (n & En & Hg & Hn).
  { constructor; [exact He|constructor]. }
  cbn [map] in En. rewrite En.
  assert (n = List.length pts) as ->.
  { apply Hn. destruct Hlen; [exists l; split; [left; reflexivity|assumption]|exists eff; split; [right; left; reflexivity|assumption]]. }
  rewrite (map_seq_points pts _ (fun p => fmul (g p) (e p))); [reflexivity|].
  intros i p Hp. rewrite (gives_pick pts g l i p), (gives_pick pts e eff i p) by assumption. reflexivity.
Qed.

Lemma weigh_Fin {P} (pts : list P) (g e : P -> R) l eff : pts <> [] ->
  gives (fun p => Fin (g p)) pts l -> gives (fun p => Fin (e p)) pts eff ->
  (List.length l = List.length pts \/ List.length eff = List.length pts) ->
  weigh l eff = Ok (Fin (sum_over (fun p => e p * g p) pts)).
Proof.
  intros Hne Hl He Hlen. rewrite (weigh_gives pts _ _ l eff Hne Hl He Hlen).
  rewrite (map_ext _ (fun p => Fin (e p * g p))); [|intros p; rewrite fmul_Fin; f_equal; ring].
  rewrite fsum_Fin_map. reflexivity.
Qed.

Lemma twohalf_array_gives {P} (pts : list P) fy fm fp fn y m sp sn : pts <> [] ->
  gives fy pts y -> gives fm pts m -> gives fp pts sp -> gives fn pts sn ->
  (forall p, In p pts -> flt (Fin 0) (fp p) = true) -> (forall p, In p pts -> flt (Fin 0) (fn p) = true) ->
  exists l, twohalf_array y m sp sn = Ok l /\
    gives (fun p => twohalf_entry (fy p) (fm p) (fp p) (fn p)) pts l /\
    ((exists b, In b [y; m; sp; sn] /\ List.length b = List.length pts) -> List.length l = List.length pts).
Proof.
  intros Hne Hy Hm Hp Hn Pp Pn. unfold twohalf_array.
  replace (all_positive sp) with true.
  2:{ symmetry. apply all_positive_spec. apply (gives_all pts fp sp (fun s => flt (Fin 0) s = true)); assumption. }
  replace (all_positive sn) with true.
  2:{ symmetry. apply all_positive_spec. apply (gives_all pts fn sn (fun s => flt (Fin 0) s = true)); assumption. }
  cbn [andb].
  destruct (gives_map pts (fun vs => match vs with [a; b; c; d] => twohalf_entry a b c d | _ => NaN end)
              y [m; sp; sn] fy [fm; fp; fn] Hne Hy) as (n & En & Hg & Hl).
  { repeat (apply Forall2_cons; [assumption|]). apply Forall2_nil. }
  cbn [map] in En, Hg. rewrite En. eexists. split; [reflexivity|]. split; [exact Hg|].
  intros H. rewrite map_length, seq_length. apply Hl. exact H.
Qed.

Lemma norm_array_gives {P} (pts : list P) fy fm fs y m s : pts <> [] ->
  gives fy pts y -> gives fm pts m -> gives fs pts s ->
  exists l, norm_array y m s = Ok l /\
    gives (fun p => norm_entry (fy p) (fm p) (fs p)) pts l /\
    ((exists b, In b [y; m; s] /\ List.length b = List.length pts) -> List.length l = List.length pts).
Proof.
  intros Hne Hy Hm Hs. unfold norm_array.
  destruct (gives_map pts (fun vs => match vs with [a; b; c] => norm_entry a b c | _ => NaN end)
              y [m; s] fy [fm; fs] Hne Hy) as (n & En & Hg & Hl).
  { repeat (apply Forall2_cons; [assumption|]). apply Forall2_nil. }
  cbn [map] in En, Hg. rewrite En. eexists. split; [reflexivity|]. split; [exact Hg|].
  intros H. rewrite map_length, seq_length. apply Hl. exact H.
Qed.

Lemma gives_image {P} (pts : list P) (h : fl -> fl) f a : gives f pts a -> gives (fun p => h (f p)) pts (map h a).
Proof.
  intros [->|(c & -> & H)].
  - left. rewrite map_map. reflexivity.
  - right. exists (h c). split; [reflexivity|]. intros p Hp. rewrite (H p Hp). reflexivity.
Qed.

Lemma band_array_gives {P} (pts : list P) b fx fy x y : pts <> [] -> gives fx pts x -> gives fy pts y ->
  (forall p, In p pts -> flt (Fin 0) (or_else 1 (interp1d_at (b_up b) (fx p))) = true) ->
  (forall p, In p pts -> flt (Fin 0) (or_else 1 (interp1d_at (b_lo b) (fx p))) = true) ->
  exists l, band_array b x y = Ok l /\
    gives (fun p => if is_nan (interp1d_at (b_y b) (fx p)) then NInf
                    else twohalf_entry (fy p) (or_else 0 (interp1d_at (b_y b) (fx p)))
                           (or_else 1 (interp1d_at (b_up b) (fx p))) (or_else 1 (interp1d_at (b_lo b) (fx p)))) pts l /\
    ((exists a, In a [x; y] /\ List.length a = List.length pts) -> List.length l = List.length pts).
Proof.
  intros Hne Hx Hy Hp Hn. unfold band_array.
  set (mu := map (interp1d_at (b_y b)) x). set (sp := map (interp1d_at (b_up b)) x).
  set (sn := map (interp1d_at (b_lo b)) x).
  assert (Gm : gives (fun p => interp1d_at (b_y b) (fx p)) pts mu) by (apply gives_image; exact Hx).
  assert (Gp : gives (fun p => interp1d_at (b_up b) (fx p)) pts sp) by (apply gives_image; exact Hx).
  assert (Gn : gives (fun p => interp1d_at (b_lo b) (fx p)) pts sn) by (apply gives_image; exact Hx).
  destruct (twohalf_array_gives pts fy _ _ _ y _ _ _ Hne Hy (gives_image pts (or_else 0) _ _ Gm)
              (gives_image pts (or_else 1) _ _ Gp) (gives_image pts (or_else 1) _ _ Gn) Hp Hn) as (l & El & Gl & Ll).
  rewrite El.
  match type of Gl with gives ?g _ _ =>
    destruct (gives_map pts (fun vs => match vs with [a; c] => if is_nan a then NInf else c | _ => NaN end)
                mu [l] _ [g] Hne Gm
                (Forall2_cons (R := fun f a => gives f pts a) _ _ Gl (Forall2_nil _))) as (n & En & Hg & Hl)
  end.
  cbn [map] in En, Hg. rewrite En. eexists. split; [reflexivity|]. split; [exact Hg|].
  intros H. rewrite map_length, seq_length. apply Hl.
  destruct H as (a & [<-|[<-|[]]] & Ha).
  - exists mu. split; [left; reflexivity|]. unfold mu. rewrite map_length. exact Ha.
  - exists l. split; [right; left; reflexivity|]. apply Ll. exists y. split; [left; reflexivity|exact Ha].
Qed.

(* ------------------------------------------------------------------ *)
(** * The table *)

Lemma put_perm a l : Permutation (put a l) (a :: l).
Proof.
  induction l as [|b l IH]; cbn [put]; [reflexivity|].
  destruct (Rle_dec (fst a) (fst b)); [reflexivity|].
  rewrite IH. apply perm_swap.
Qed.

Lemma sorted_table_perm t : Permutation (sorted_table t) t.
Proof.
  induction t as [|a t IH]; [reflexivity|]. cbn [sorted_table fold_right].
  rewrite put_perm. constructor. exact IH.
Qed.

Lemma put_sorted a (l : list (R * R)) : StronglySorted (fun p q => fst p <= fst q) l -> StronglySorted (fun p q => fst p <= fst q) (put a l).
Proof.
  induction 1 as [|b l Hl IH Hb]; cbn [put]; [repeat constructor|].
  destruct (Rle_dec (fst a) (fst b)) as [H|H].
  - constructor; [constructor; assumption|]. constructor; [exact H|].
    apply Forall_forall. intros q Hq. rewrite Forall_forall in Hb. specialize (Hb q Hq). lra.
  - constructor; [exact IH|]. apply Forall_forall. intros q Hq.
    apply (Permutation_in _ (put_perm a l)) in Hq. destruct Hq as [<-|Hq]; [lra|].
    rewrite Forall_forall in Hb. apply Hb, Hq.
Qed.

Lemma sorted_table_sorted t : StronglySorted (fun p q => fst p <= fst q) (sorted_table t).
Proof. induction t as [|a t IH]; [constructor|]. apply put_sorted. exact IH. Qed.

Lemma sorted_increasing (l : list (R * R)) : StronglySorted (fun p q => fst p <= fst q) l -> NoDup (map fst l) -> increasing (map fst l).
Proof.
  induction 1 as [|a l Hl IH Ha]; intros Hnd i j Hij; [cbn in Hij; lia|].
  cbn [map] in *. inversion Hnd as [|? ? Hni Hnd']; subst.
  destruct j as [|j]; [lia|]. destruct i as [|i].
  - unfold ent. cbn [nth]. cbn [List.length] in Hij.
    assert (Hin : In (nth j (map fst l) 0) (map fst l)) by (apply nth_In; lia).
    apply in_map_iff in Hin as Hq. destruct Hq as (q & Eq & Hq). rewrite <- Eq in *.
    rewrite Forall_forall in Ha. specialize (Ha q Hq).
    destruct (Req_EM_T (fst a) (fst q)) as [E|E]; [rewrite E in Hni; contradiction|lra].
  - unfold ent. cbn [nth]. apply IH; [exact Hnd'|]. cbn [List.length] in Hij. lia.
Qed.

Section Table.
  Variable t : list (R * R).
  Hypothesis Hnd : NoDup (map fst t).
  Let s := sorted_table t.
  Let xs := map fst s.
  Let ys := map snd s.

  Lemma table_increasing : increasing xs.
  Proof.
    apply sorted_increasing; [apply sorted_table_sorted|].
    apply (Permutation_NoDup (l := map fst t)); [|exact Hnd].
    apply Permutation_map. symmetry. apply sorted_table_perm.
  Qed.

  Lemma table_row x v : In (x, v) t <-> exists i, (i < List.length s)%nat /\ ent xs i = x /\ ent ys i = v.
  Proof.
    split.
    - intros H. apply (Permutation_in _ (Permutation_sym (sorted_table_perm t))) in H.
      apply In_nth with (d := (0, 0)) in H. destruct H as (i & Hi & E). exists i. split; [exact Hi|].
      unfold ent, xs, ys. fold s in Hi, E. change 0 with (fst (0, 0)) at 1. rewrite map_nth.
      change 0 with (snd (0, 0)) at 3. rewrite map_nth, E. split; reflexivity.
    - intros (i & Hi & Ex & Ey). apply (Permutation_in _ (sorted_table_perm t)). fold s.
      replace (x, v) with (nth i s (0, 0)); [apply nth_In; exact Hi|].
      unfold ent, xs, ys in *. change 0 with (fst (0, 0)) in Ex at 1. rewrite map_nth in Ex.
      change 0 with (snd (0, 0)) in Ey. rewrite map_nth in Ey.
      destruct (nth i s (0, 0)). cbn in *. congruence.
  Qed.
  Lemma table_length : List.length xs = List.length s /\ List.length ys = List.length s.
  Proof. unfold xs, ys. rewrite !map_length. split; reflexivity. Qed.

  Lemma table_at x v : t <> [] -> on_curve t x v -> interp1d_at s (Fin x) = Fin v.
  Proof.
    intros Hne H. pose proof table_increasing as Hinc. destruct table_length as [Lx Ly].
    assert (Hs : (1 <= List.length xs)%nat).
    { rewrite Lx. unfold s. rewrite (Permutation_length (sorted_table_perm t)).
      destruct t; [contradiction|cbn; lia]. }
    cbn [interp1d_at]. fold xs. fold ys. fold (ent xs 0). fold (ent xs (List.length xs - 1)).
    assert (Hrow : forall i, (i < List.length s)%nat -> ent xs 0 <= ent xs i <= ent xs (List.length xs - 1)).
    { intros i Hi. split; apply increasing_le; try exact Hinc; lia. }
    assert (Hin : ent xs 0 <= x <= ent xs (List.length xs - 1)).
    { destruct H as [H|x0 y0 x1 y1 H0 H1 Hx _ _].
      - apply table_row in H. destruct H as (i & Hi & <- & _). apply Hrow, Hi.
      - apply table_row in H0, H1. destruct H0 as (i & Hi & <- & _), H1 as (j & Hj & <- & _).
        pose proof (Hrow i Hi). pose proof (Hrow j Hj). lra. }
    destruct (Rlt_dec x (ent xs 0)); [lra|]. destruct (Rlt_dec (ent xs (List.length xs - 1)) x); [lra|].
    f_equal. destruct H as [H|x0 y0 x1 y1 H0 H1 Hx Hb ->].
    - apply table_row in H. destruct H as (i & Hi & <- & <-).
      destruct (Nat.eq_dec i (List.length xs - 1)) as [->|Hni].
      + apply interp_high; [exact Hs|exact Hinc|lra].
      + rewrite (interp_between xs ys Hs Hinc _ i); [|lia|].
        * unfold line. unfold Rdiv. rewrite Rminus_diag_eq, !Rmult_0_l by reflexivity. lra.
        * pose proof (Hinc i (S i) ltac:(lia)). lra.
    - apply table_row in H0, H1. destruct H0 as (i & Hi & <- & <-), H1 as (j & Hj & <- & <-).
      assert (Hij : (i < j)%nat).
      { destruct (Nat.lt_ge_cases i j) as [?|Hge]; [assumption|].
        pose proof (increasing_le xs j i Hinc ltac:(lia)). lra. }
      assert (j = S i) as ->.
      { destruct (Nat.eq_dec j (S i)) as [?|Hnj]; [assumption|]. exfalso.
        assert (Hr : In (ent xs (S i), ent ys (S i)) t) by (apply table_row; exists (S i); split; [lia|split; reflexivity]).
        apply (Hb _ Hr). cbn [fst]. split; apply Hinc; lia. }
      apply interp_between; [exact Hs|exact Hinc|lia|lra].
  Qed.

  Lemma table_outside x : t <> [] -> (forall v, x = Fin v -> ~ within (map fst t) v) -> interp1d_at s x = NaN.
  Proof.
    intros Hne H. destruct x as [v| | |]; try reflexivity. specialize (H v eq_refl).
    cbn [interp1d_at]. fold xs. fold (ent xs 0). fold (ent xs (List.length xs - 1)).
    destruct (Rlt_dec v (ent xs 0)) as [|H1]; [reflexivity|].
    destruct (Rlt_dec (ent xs (List.length xs - 1)) v) as [|H2]; [reflexivity|].
    exfalso. apply H. destruct table_length as [Lx Ly].
    assert (Hs : (1 <= List.length s)%nat).
    { unfold s. rewrite (Permutation_length (sorted_table_perm t)). destruct t; [contradiction|cbn; lia]. }
    assert (Hr : forall i, (i < List.length s)%nat -> In (ent xs i) (map fst t)).
    { intros i Hi. assert (Hr : In (ent xs i, ent ys i) t) by (apply table_row; exists i; split; [lia|split; reflexivity]).
      apply (in_map fst) in Hr. exact Hr. }
    exists (ent xs 0), (ent xs (List.length xs - 1)). split; [apply Hr; lia|]. split; [apply Hr; lia|]. lra.
  Qed.

  (** Every within point lies on the polygon. *)
  Lemma within_on_curve x : within (map fst t) x -> exists v, on_curve t x v.
  Proof.
    intros (a & b & Ha & Hb & Hx). apply in_map_iff in Ha, Hb.
    destruct Ha as ([a' ya] & Ea & Ha), Hb as ([b' yb] & Eb & Hb). cbn in Ea, Eb. subst a' b'.
    apply table_row in Ha, Hb. destruct Ha as (i & Hi & <- & _), Hb as (j & Hj & <- & _).
    pose proof table_increasing as Hinc. destruct table_length as [Lx Ly].
    assert (Hr : forall k, (k < List.length s)%nat -> In (ent xs k, ent ys k) t).
    { intros k Hk. apply table_row. exists k. split; [exact Hk|split; reflexivity]. }
    assert (G : forall d k, (k + d < List.length s)%nat -> ent xs k <= x <= ent xs (k + d) -> exists v, on_curve t x v).
    { induction d as [|d IH]; intros k Hk Hkx.
      - exists (ent ys k). apply oc_row. rewrite Nat.add_0_r in Hkx. replace x with (ent xs k) by lra. apply Hr. lia.
      - destruct (Rle_dec (ent xs (S k)) x) as [H1|H1].
        + apply (IH (S k)); [lia|]. replace (S k + d)%nat with (k + S d)%nat by lia. lra.
        + destruct (Req_EM_T x (ent xs k)) as [->|Hne]; [eexists; apply oc_row, Hr; lia|].
          eexists. apply (oc_between t x _ (ent xs k) (ent ys k) (ent xs (S k)) (ent ys (S k))); [apply Hr; lia|apply Hr; lia|lra| |reflexivity].
          intros [q1 q2] Hq Hbt. cbn [fst] in Hbt. apply table_row in Hq. destruct Hq as (m & Hm & <- & _).
          destruct (Nat.le_gt_cases m k) as [Hle|Hgt].
          * pose proof (increasing_le xs m k Hinc ltac:(lia)). lra.
          * pose proof (increasing_le xs (S k) m Hinc ltac:(lia)). lra. }
    destruct (Nat.le_gt_cases i j) as [Hle|Hgt].
    - apply (G (j - i)%nat i); [lia|]. replace (i + (j - i))%nat with j by lia. exact Hx.
    - pose proof (Hinc j i ltac:(lia)). lra.
  Qed.

  Lemma on_curve_within x v : on_curve t x v -> within (map fst t) x.
  Proof.
    intros [H|x0 y0 x1 y1 H0 H1 Hx _ _].
    - apply (in_map fst) in H. exists x, x. split; [exact H|]. split; [exact H|lra].
    - apply (in_map fst) in H0, H1. exists x0, x1. split; [exact H0|]. split; [exact H1|lra].
  Qed.
End Table.

(* ------------------------------------------------------------------ *)
(** * Errors of broadcasting *)

Lemma broadcast_inv ms : forall n k, broadcast n ms = Ok k ->
  (n = k \/ n = 1)%nat /\ forall m, In m ms -> (m = k \/ m = 1)%nat.
Proof.
  induction ms as [|m ms IH]; intros n k H; cbn [broadcast] in H.
  - injection H as <-. split; [left; reflexivity|intros m []].
  - destruct (broadcast2 n m) as [j|e] eqn:E; [|discriminate]. destruct (IH j k H) as [H1 H2].
    unfold broadcast2 in E. destruct (Nat.eqb n m) eqn:E1.
    { apply Nat.eqb_eq in E1. assert (j = n) by congruence. subst j m. split; [exact H1|].
      intros m' [<-|Hm]; [exact H1|apply H2, Hm]. }
    destruct (Nat.eqb n 1) eqn:E2.
    { apply Nat.eqb_eq in E2. assert (j = m) by congruence. subst j. split; [right; exact E2|].
      intros m' [<-|Hm]; [exact H1|apply H2, Hm]. }
    destruct (Nat.eqb m 1) eqn:E3.
    { apply Nat.eqb_eq in E3. assert (j = n) by congruence. subst j. split; [exact H1|].
      intros m' [<-|Hm]; [right; exact E3|apply H2, Hm]. }
    discriminate.
Qed.

Lemma broadcast_err ms : forall n e, broadcast n ms = Err e -> e = ValueError.
Proof.
  induction ms as [|m ms IH]; intros n e H; cbn [broadcast] in H; [discriminate|].
  destruct (broadcast2 n m) as [j|e'] eqn:E; [apply (IH j e H)|]. injection H as <-.
  unfold broadcast2 in E. destruct (Nat.eqb n m), (Nat.eqb n 1), (Nat.eqb m 1); try discriminate; congruence.
Qed.

(* ------------------------------------------------------------------ *)
(** * NaN and infinities *)

Lemma fadd_NaN_r x : fadd x NaN = NaN.
Proof. destruct x; reflexivity. Qed.
Lemma fadd_NaN_l x : fadd NaN x = NaN.
Proof. destruct x; reflexivity. Qed.
Lemma fmul_NaN_l x : fmul NaN x = NaN.
Proof. destruct x; reflexivity. Qed.

Lemma fsum_NaN l : In NaN l -> fsum l = NaN.
Proof.
  induction l as [|a l IH]; intros H; [destruct H|].
  change (fsum (a :: l)) with (fadd a (fsum l)). destruct H as [->|H]; [apply fadd_NaN_l|].
  rewrite IH by exact H. apply fadd_NaN_r.
Qed.

Lemma fadd_not_pinf a b : a <> PInf -> b <> PInf -> fadd a b <> PInf.
Proof. intros Ha Hb. destruct a, b; cbn [fadd]; try discriminate; contradiction. Qed.

Lemma fsum_not_pinf l : ~ In PInf l -> fsum l <> PInf.
Proof.
  induction l as [|a l IH]; intros H; [discriminate|].
  change (fsum (a :: l)) with (fadd a (fsum l)). apply fadd_not_pinf.
  - intros ->. apply H. left. reflexivity.
  - apply IH. intros H'. apply H. right. exact H'.
Qed.

(** A sum without +inf that has a -inf is -inf (or NaN). *)
Lemma fsum_ninf l : ~ In PInf l -> In NInf l -> fsum l = NInf \/ fsum l = NaN.
Proof.
  induction l as [|a l IH]; intros H Hi; [destruct Hi|].
  change (fsum (a :: l)) with (fadd a (fsum l)).
  assert (Hl : ~ In PInf l) by (intros H'; apply H; right; exact H').
  destruct Hi as [->|Hi].
  - pose proof (fsum_not_pinf l Hl). destruct (fsum l); cbn; auto.
  - assert (a <> PInf) by (intros ->; apply H; left; reflexivity).
    destruct (IH Hl Hi) as [-> | ->]; destruct a; cbn; auto; contradiction.
Qed.

Lemma fmul_eff_not_pinf a e : a <> PInf -> (nonneg_eff e \/ e = NaN) -> fmul a e <> PInf.
Proof.
  intros Ha [(r & -> & Hr)| ->]; destruct a; cbn [fmul]; try discriminate; try contradiction.
  unfold inf_times. destruct (total_order_T r 0) as [[H|H]|H]; [lra|discriminate|discriminate].
Qed.

Lemma fmul_ninf_eff e : nonneg_eff e -> fmul NInf e = NInf \/ fmul NInf e = NaN.
Proof.
  intros (r & -> & Hr). cbn [fmul]. unfold inf_times.
  destruct (total_order_T r 0) as [[H|H]|H]; [lra|right; reflexivity|left; reflexivity].
Qed.

Definition good_width (s : fl) : Prop := flt (Fin 0) s = true \/ s = NaN.

Lemma good_width_cases s : good_width s -> (exists r, s = Fin r /\ 0 < r) \/ s = PInf \/ s = NaN.
Proof.
  intros [H| ->]; [|right; right; reflexivity]. destruct s as [r| | |]; try discriminate; auto.
  left. exists r. split; [reflexivity|]. apply flt_Fin in H. exact H.
Qed.

Lemma fsqr_cases x : (exists r, fsqr x = Fin r /\ 0 <= r) \/ fsqr x = PInf \/ fsqr x = NaN.
Proof.
  destruct x as [r| | |]; cbn; auto. left. exists (r * r). split; [reflexivity|nra].
Qed.

Lemma finv_width s : good_width s -> (exists r, finv (fsqr s) = Fin r /\ 0 <= r) \/ finv (fsqr s) = NaN.
Proof.
  intros H. destruct (good_width_cases s H) as [(r & -> & Hr)|[-> | ->]].
  - left. rewrite fsqr_Fin. rewrite finv_Fin by nra. exists (/ (r * r)). split; [reflexivity|].
    apply Rlt_le, Rinv_0_lt_compat. nra.
  - left. exists 0. split; [reflexivity|lra].
  - right. reflexivity.
Qed.

Lemma half_not_pinf x s : good_width s -> fdiv (fdiv (fneg (fsqr x)) (fsqr s)) (Fin 2) <> PInf.
Proof.
  intros Hs. unfold fdiv at 2. destruct (finv_width s Hs) as [(r & -> & Hr)| ->].
  - assert (H : fmul (fneg (fsqr x)) (Fin r) <> PInf).
    { apply fmul_eff_not_pinf; [|left; exists r; split; [reflexivity|exact Hr]].
      destruct (fsqr_cases x) as [(q & -> & _)|[-> | ->]]; discriminate. }
    unfold fdiv. rewrite finv_Fin by lra. apply fmul_eff_not_pinf; [exact H|].
    left. exists (/ 2). split; [reflexivity|lra].
  - replace (fmul (fneg (fsqr x)) NaN) with NaN by (destruct (fneg (fsqr x)); reflexivity). discriminate.
Qed.

Lemma flog_not_pinf x : x <> PInf -> flog x <> PInf.
Proof. intros H. destruct x as [r| | |]; cbn [flog]; try discriminate; [|contradiction]. destruct (total_order_T r 0) as [[?|?]|?]; discriminate. Qed.

Lemma twohalf_entry_not_pinf x mu sp sn : good_width sp -> good_width sn -> twohalf_entry x mu sp sn <> PInf.
Proof.
  intros Hp Hn. unfold twohalf_entry. apply fadd_not_pinf.
  - destruct (flt x mu); apply half_not_pinf; assumption.
  - apply flog_not_pinf. pose proof sqrt_2pi_pos as Hq.
    assert (W : (exists w, fadd sp sn = Fin w /\ 0 < w) \/ fadd sp sn = PInf \/ fadd sp sn = NaN).
    { destruct (good_width_cases sp Hp) as [(r & -> & Hr)|[-> | ->]], (good_width_cases sn Hn) as [(q & -> & Hq')|[-> | ->]];
        cbn [fadd]; auto. left. exists (r + q). split; [reflexivity|lra]. }
    destruct W as [(w & -> & Hw)|[-> | ->]]; unfold fdiv; rewrite (finv_Fin (sqrt (2 * PI))) by lra.
    + rewrite finv_Fin by lra. discriminate.
    + discriminate.
    + discriminate.
Qed.

Lemma norm_entry_not_pinf x m s : norm_entry x m s <> PInf.
Proof.
  unfold norm_entry. destruct (flt (Fin 0) s) eqn:Hs; [|discriminate].
  set (z := fdiv (fsub x m) s).
  assert (H1 : fdiv (fneg (fsqr z)) (Fin 2) <> PInf).
  { unfold fdiv. rewrite finv_Fin by lra. apply fmul_eff_not_pinf; [|left; exists (/ 2); split; [reflexivity|lra]].
    destruct (fsqr_cases z) as [(q & -> & _)|[-> | ->]]; discriminate. }
  assert (H2 : fneg (flog s) <> PInf).
  { destruct s as [r| | |]; try discriminate. apply flt_Fin in Hs. rewrite flog_pos by exact Hs. discriminate. }
  unfold fsub. apply fadd_not_pinf; [apply fadd_not_pinf; [exact H1|discriminate]|exact H2].
Qed.

Lemma pick_in l i : pick l i = NaN \/ In (pick l i) l.
Proof.
  unfold pick. destruct (Nat.eqb (List.length l) 1) eqn:E.
  - right. apply Nat.eqb_eq in E. apply nth_In. lia.
  - destruct (Nat.lt_ge_cases i (List.length l)) as [H|H]; [right; apply nth_In; exact H|left; apply nth_overflow; exact H].
Qed.

Lemma twohalf_array_not_pinf x mu sp sn l : twohalf_array x mu sp sn = Ok l -> ~ In PInf l.
Proof.
  unfold twohalf_array. destruct (all_positive sp && all_positive sn)%bool eqn:Hp; [|discriminate].
  apply Bool.andb_true_iff in Hp. destruct Hp as [Hp Hn]. rewrite all_positive_spec in Hp, Hn.
  destruct (broadcast _ _) as [n|e]; [|discriminate]. intros E. assert (l = map (fun i => twohalf_entry (pick x i) (pick mu i) (pick sp i) (pick sn i)) (seq 0 n)) by congruence. subst l.
  intros H. apply in_map_iff in H. destruct H as (i & H & _). revert H.
  apply twohalf_entry_not_pinf.
  - destruct (pick_in sp i) as [->|H]; [right; reflexivity|left; apply Hp, H].
  - destruct (pick_in sn i) as [->|H]; [right; reflexivity|left; apply Hn, H].
Qed.

Lemma logpdf_not_pinf L x y l : logpdf L x y = Ok l -> ~ In PInf l.
Proof.
  unfold logpdf. destruct (l_badargs L); [discriminate|]. destruct (l_density L) as [mu sp sn|loc sc|b].
  - apply twohalf_array_not_pinf.
  - unfold norm_array. destruct (broadcast _ _) as [n|e]; [|discriminate]. intros E.
    assert (l = map (fun i => norm_entry (pick y i) (pick loc i) (pick sc i)) (seq 0 n)) by congruence. subst l.
    intros H. apply in_map_iff in H. destruct H as (i & H & _). revert H. apply norm_entry_not_pinf.
  - unfold band_array. destruct (twohalf_array _ _ _ _) as [l'|e] eqn:El; [|discriminate].
    apply twohalf_array_not_pinf in El.
    destruct (broadcast _ _) as [n|e]; [|discriminate]. intros E.
    match type of E with Ok ?r = _ => assert (l = r) by congruence end. subst l.
    intros H. apply in_map_iff in H. destruct H as (i & H & _). destruct (is_nan _); [discriminate|].
    destruct (pick_in l' i) as [E'|E']; [congruence|]. apply El. rewrite <- H. exact E'.
Qed.

Lemma weigh_terms_not_pinf l eff n : ~ In PInf l -> (forall v, In v eff -> nonneg_eff v) ->
  ~ In PInf (map (fun i => fmul (pick l i) (pick eff i)) (seq 0 n)).
Proof.
  intros Hl He H. apply in_map_iff in H. destruct H as (i & H & _). revert H. apply fmul_eff_not_pinf.
  - intros E. destruct (pick_in l i) as [E'|E']; [congruence|]. apply Hl. rewrite <- E. exact E'.
  - destruct (pick_in eff i) as [->|E']; [right; reflexivity|left; apply He, E'].
Qed.

Lemma weigh_not_nan l eff v : weigh l eff = Ok v -> v <> NaN.
Proof.
  unfold weigh. destruct (broadcast _ _) as [n|e]; [|discriminate]. cbv zeta.
  destruct (fsum _); cbn [is_nan]; intros H; injection H as <-; discriminate.
Qed.

Lemma weigh_not_pinf l eff v : ~ In PInf l -> (forall a, In a eff -> nonneg_eff a) -> weigh l eff = Ok v -> v <> PInf.
Proof.
  intros Hl He. unfold weigh. destruct (broadcast _ _) as [n|e]; [|discriminate]. cbv zeta.
  pose proof (fsum_not_pinf _ (weigh_terms_not_pinf l eff n Hl He)) as H.
  destruct (fsum _); cbn [is_nan]; intros E; injection E as <-; congruence.
Qed.

(* ------------------------------------------------------------------ *)
(** * The densities are largest at the centre *)

Lemma quad_le d i : 0 < i -> - (d * d) * i <= 0 /\ (d <> 0 -> - (d * d) * i < 0).
Proof.
  intros Hi. split.
  - assert (0 <= d * d * i) by (apply Rmult_le_pos; [nra|lra]). lra.
  - intros Hd. assert (0 < d * d * i) by (apply Rmult_lt_0_compat; [nra|lra]). lra.
Qed.

Lemma two_half_mode mu sp sn y : 0 < sp -> 0 < sn ->
  ln (two_half mu sp sn y) <= ln (two_half mu sp sn mu) /\ (y <> mu -> ln (two_half mu sp sn y) < ln (two_half mu sp sn mu)).
Proof.
  intros Hp Hn. rewrite !ln_two_half by assumption.
  replace (- ((mu - mu) * (mu - mu)) / _) with 0 by (unfold Rdiv; replace (mu - mu) with 0 by lra; ring).
  set (s := if Rlt_dec y mu then sn else sp). assert (Hs : 0 < s) by (unfold s; destruct (Rlt_dec y mu); assumption).
  assert (Hi : 0 < / (2 * (s * s))) by (apply Rinv_0_lt_compat; nra). unfold Rdiv.
  destruct (quad_le (y - mu) _ Hi) as [H1 H2].
  split; [lra|]. intros Hy. specialize (H2 ltac:(lra)). lra.
Qed.

Lemma gauss_mode m s y : 0 < s ->
  ln (gauss m s y) <= ln (gauss m s m) /\ (y <> m -> ln (gauss m s y) < ln (gauss m s m)).
Proof.
  intros Hs. rewrite !ln_gauss by assumption.
  replace (- ((m - m) * (m - m)) / _) with 0 by (unfold Rdiv; replace (m - m) with 0 by lra; ring).
  assert (Hi : 0 < / (2 * (s * s))) by (apply Rinv_0_lt_compat; nra). unfold Rdiv.
  destruct (quad_le (y - m) _ Hi) as [H1 H2].
  split; [lra|]. intros Hy. specialize (H2 ltac:(lra)). lra.
Qed.

Lemma sum_over_le {P} (f g : P -> R) pts : (forall q, In q pts -> f q <= g q) -> sum_over f pts <= sum_over g pts.
Proof.
  unfold sum_over. induction pts as [|a pts IH]; intros H; cbn; [lra|].
  pose proof (H a (or_introl eq_refl)). assert (forall q, In q pts -> f q <= g q) by (intros q Hq; apply H; right; exact Hq).
  specialize (IH H1). lra.
Qed.

Lemma sum_over_lt {P} (f g : P -> R) pts q0 : In q0 pts -> f q0 < g q0 ->
  (forall q, In q pts -> f q <= g q) -> sum_over f pts < sum_over g pts.
Proof.
  unfold sum_over. induction pts as [|a pts IH]; intros Hi Hq H; [destruct Hi|]. cbn.
  pose proof (H a (or_introl eq_refl)). assert (H' : forall q, In q pts -> f q <= g q) by (intros q Hq'; apply H; right; exact Hq').
  destruct Hi as [->|Hi].
  - pose proof (sum_over_le f g pts H') as S. unfold sum_over in S. lra.
  - specialize (IH Hi Hq H'). lra.
Qed.

(* ------------------------------------------------------------------ *)
(** * The order of the rows of a table *)

Lemma sorted_unique (s : list (R * R)) : forall t, Permutation s t -> NoDup (map fst s) ->
  StronglySorted (fun p q => fst p <= fst q) s -> StronglySorted (fun p q => fst p <= fst q) t -> s = t.
Proof.
  induction s as [|a s IH]; intros t Hp Hnd Hs Ht.
  - apply Permutation_nil in Hp. congruence.
  - destruct t as [|b t]; [symmetry in Hp; apply Permutation_nil in Hp; discriminate|].
    assert (a = b) as <-.
    { inversion Hs as [|? ? _ Fa]; inversion Ht as [|? ? _ Fb]; subst. rewrite Forall_forall in Fa, Fb.
      assert (Hb : In b (a :: s)) by (apply (Permutation_in _ (Permutation_sym Hp)); left; reflexivity).
      assert (Ha : In a (b :: t)) by (apply (Permutation_in _ Hp); left; reflexivity).
      destruct Hb as [E|Hb]; [exact E|]. destruct Ha as [E|Ha]; [symmetry; exact E|].
      specialize (Fa b Hb). specialize (Fb a Ha). cbn [map] in Hnd. inversion Hnd as [|? ? Hni _]; subst.
      exfalso. apply Hni. replace (fst a) with (fst b) by lra. apply in_map. exact Hb. }
    f_equal. apply IH.
    + apply Permutation_cons_inv in Hp. exact Hp.
    + cbn [map] in Hnd. inversion Hnd; assumption.
    + inversion Hs; assumption.
    + inversion Ht; assumption.
Qed.

Lemma sorted_table_order t t' : Permutation t t' -> NoDup (map fst t) -> sorted_table t = sorted_table t'.
Proof.
  intros Hp Hnd. apply sorted_unique; try apply sorted_table_sorted.
  - rewrite !sorted_table_perm. exact Hp.
  - apply (Permutation_NoDup (l := map fst t)); [|exact Hnd]. apply Permutation_map. symmetry. apply sorted_table_perm.
Qed.

Lemma combine_fst {A B} (l : list A) : forall (m : list B), List.length m = List.length l -> map fst (combine l m) = l.
Proof.
  induction l as [|a l IH]; intros [|b m] H; try discriminate; [reflexivity|]. cbn. f_equal. apply IH. cbn in H. lia.
Qed.

Lemma combine_ne {A B} (l : list A) (m : list B) : l <> [] -> List.length m = List.length l -> combine l m <> [].
Proof. intros Hl Hm E. destruct l; [contradiction|]. destruct m; [discriminate|]. discriminate. Qed.

Lemma table_cases t x : NoDup (map fst t) -> t <> [] ->
  interp1d_at (sorted_table t) (Fin x) = NaN \/ within (map fst t) x.
Proof.
  intros Hnd Hne. set (s := sorted_table t). destruct (table_length t) as [Lx Ly]. fold s in Lx, Ly.
  cbn [interp1d_at].
  destruct (Rlt_dec x (nth 0 (map fst s) 0)) as [|H1]; [left; reflexivity|].
  destruct (Rlt_dec (nth (List.length (map fst s) - 1) (map fst s) 0) x) as [|H2]; [left; reflexivity|]. right.
  assert (Hs : (1 <= List.length s)%nat).
  { unfold s. rewrite (Permutation_length (sorted_table_perm t)). destruct t; [contradiction|cbn; lia]. }
  assert (Hr : forall i, (i < List.length s)%nat -> In (nth i (map fst s) 0) (map fst t)).
  { intros i Hi. apply (Permutation_in (l := map fst s)); [apply Permutation_map, sorted_table_perm|].
    apply nth_In. rewrite map_length. exact Hi. }
  eexists. eexists. split; [apply (Hr 0%nat); lia|]. split; [apply (Hr (List.length (map fst s) - 1)%nat); lia|]. lra.
Qed.

Lemma on_curve_pos t x v : (forall q, In q t -> 0 < snd q) -> on_curve t x v -> 0 < v.
Proof.
  intros Hp [H|x0 y0 x1 y1 H0 H1 Hx _ ->].
  - apply (Hp _ H).
  - pose proof (Hp _ H0) as P0. pose proof (Hp _ H1) as P1. cbn [snd] in P0, P1. unfold line.
    set (w := (x - x0) / (x1 - x0)).
    assert (Hw : 0 < w < 1).
    { unfold w. split; [apply Rdiv_lt_0_compat; lra|]. apply Rmult_lt_reg_r with (x1 - x0); [lra|].
      unfold Rdiv. rewrite Rmult_assoc, Rinv_l by lra. lra. }
    replace (y0 + w * (y1 - y0)) with ((1 - w) * y0 + w * y1) by ring.
    assert (0 < (1 - w) * y0) by (apply Rmult_lt_0_compat; lra).
    assert (0 < w * y1) by (apply Rmult_lt_0_compat; lra). lra.
Qed.

Lemma width_positive tx tu x : tx <> [] -> List.length tu = List.length tx -> NoDup tx -> (forall u, In u tu -> 0 < u) ->
  flt (Fin 0) (or_else 1 (interp1d_at (sorted_table (combine tx tu)) x)) = true.
Proof.
  intros Hne Hl Hnd Hp.
  assert (Hnd' : NoDup (map fst (combine tx tu))) by (rewrite combine_fst by exact Hl; exact Hnd).
  pose proof (combine_ne tx tu Hne Hl) as Hne'.
  assert (One : flt (Fin 0) (or_else 1 NaN) = true) by (apply flt_Fin; lra).
  destruct x as [v| | |]; try exact One.
  destruct (table_cases _ v Hnd' Hne') as [->|H]; [exact One|].
  destruct (within_on_curve _ Hnd' v H) as (u & Hu). rewrite (table_at _ Hnd' v u Hne' Hu).
  apply flt_Fin. apply (on_curve_pos _ _ _) with (2 := Hu).
  intros [q1 q2] Hq. apply in_combine_r in Hq. apply Hp, Hq.
Qed.

Lemma gives_in {P} (pts : list P) f a q : gives f pts a -> In q pts -> In (f q) a.
Proof. intros [->|(c & -> & H)] Hq; [apply in_map; exact Hq|left; symmetry; apply H, Hq]. Qed.
