(** Lemmas about the reports of the profiler. *)
From Coq Require Import Reals Lra Lia Permutation ZArith.
From Verif Require Import Base BaseFacts ModelFloat ModelShare ModelConfig ModelComponent ModelCompile ModelLikelihood ModelProfiler ModelReport
  SpecReport ProofFloat ProofHist.
Local Open Scope list_scope.

Lemma fold_fadd l : forall a, fold_left fadd l a = fadd a (fsum l).
Proof. induction l as [|x l IH]; intros a; cbn [fold_left]; [cbn; symmetry; apply fadd_0_r|]. rewrite IH, fsum_cons. apply fadd_assoc. Qed.
Lemma total_ms_sum rs : total_ms rs = fsum (map f_mean rs).
Proof. unfold total_ms. rewrite fold_fadd. apply fadd_0_l. Qed.
Lemma grand_sum all : grand_total all = fsum (map (fun e => f_mean (snd e)) (entries all)).
Proof.
  unfold grand_total, entries. assert (H : forall a, fold_left (fun s (kr : string * list prof) => fadd s (total_ms (snd kr))) all a
    = fadd a (fsum (map (fun e : string * prof => f_mean (snd e)) (flat_map (fun kr => map (fun r => (fst kr, r)) (snd kr)) all)))).
  { induction all as [|[k rs] all IH]; intros a; cbn [fold_left flat_map map]; [cbn; symmetry; apply fadd_0_r|].
    rewrite IH, map_app, fsum_app, map_map, total_ms_sum. cbn [fst snd]. apply fadd_assoc. }
  rewrite H. apply fadd_0_l.
Qed.
Lemma all_plugins_shown all : all_plugins all = map shown (entries all).
Proof.
  unfold all_plugins, entries. induction all as [|[k rs] all IH]; [reflexivity|]. cbn [flat_map]. rewrite map_app, IH, map_map. reflexivity.
Qed.

Lemma insert_perm x l : Permutation (insert_slow x l) (x :: l).
Proof.
  induction l as [|y l IH]; cbn; [constructor; constructor|]. destruct (flt _ _); [|reflexivity].
  rewrite IH. apply perm_swap.
Qed.
Lemma by_time_perm l : Permutation (by_time l) l.
Proof. induction l as [|x l IH]; cbn; [constructor|]. rewrite insert_perm. constructor. exact IH. Qed.

Definition numbers (l : list (string * fl * string)) : Prop := forall x, In x l -> exists r, time_of x = Fin r.
Lemma insert_sorted x l : numbers (x :: l) -> descending (map time_of l) -> descending (map time_of (insert_slow x l)).
Proof.
  induction l as [|y l IH]; intros N D; cbn [insert_slow]; [cbn; auto|]. fold (time_of x) (time_of y).
  destruct (N x (or_introl eq_refl)) as [a Ha]. destruct (N y (or_intror (or_introl eq_refl))) as [b Hb]. cbn [map descending] in D. destruct D as [D1 D2].
  destruct (flt (time_of x) (time_of y)) eqn:E.
  - cbn [map descending]. split.
    + intros z Hz. apply in_map_iff in Hz. destruct Hz as (u & <- & Hu). apply (Permutation_in _ (insert_perm x l)) in Hu. destruct Hu as [<-|Hu].
      * apply flt_weak. exact E.
      * apply D1. apply in_map. exact Hu.
    + apply IH; [|exact D2]. intros z [Hz|Hz]; apply N; [left; exact Hz|right; right; exact Hz].
  - cbn [map descending]. rewrite Ha, Hb in E. assert (Hyx : fle (time_of y) (time_of x) = true).
    { rewrite Ha, Hb. apply fle_Fin. destruct (Rle_lt_dec b a) as [H|H]; [exact H|]. apply flt_Fin in H. congruence. }
    split; [|split; [exact D1|exact D2]]. intros z [<-|Hz]; [exact Hyx|]. exact (fle_trans _ _ _ (D1 z Hz) Hyx).
Qed.
Lemma by_time_numbers l : numbers l -> numbers (by_time l).
Proof. intros N x Hx. apply N. exact (Permutation_in _ (by_time_perm l) Hx). Qed.
Lemma by_time_sorted l : numbers l -> descending (map time_of (by_time l)).
Proof.
  induction l as [|x l IH]; intros N; cbn [by_time fold_right]; [exact I|]. fold (by_time l). apply insert_sorted.
  - intros z [Hz|Hz]; [apply N; left; exact Hz|]. apply N. right. exact (Permutation_in _ (by_time_perm l) Hz).
  - apply IH. intros z Hz. apply N. right. exact Hz.
Qed.
Lemma insert_at t x l : numbers (x :: l) -> at_time t (insert_slow x l) = at_time t (x :: l).
Proof.
  induction l as [|y l IH]; intros N; cbn [insert_slow]; [reflexivity|]. fold (time_of x) (time_of y). destruct (flt (time_of x) (time_of y)) eqn:E; [|reflexivity].
  unfold at_time in *. cbn [filter] in *. rewrite IH by (intros z [Hz|Hz]; apply N; [left; exact Hz|right; right; exact Hz]).
  destruct (N x (or_introl eq_refl)) as [a Ha]. destruct (N y (or_intror (or_introl eq_refl))) as [b Hb]. rewrite Ha, Hb in *. apply flt_Fin in E.
  destruct (feq (Fin a) t) eqn:A, (feq (Fin b) t) eqn:B; try reflexivity.
  exfalso. destruct t as [r| | |]; cbn in A, B; try discriminate. destruct (Req_EM_T a r); [|discriminate]. destruct (Req_EM_T b r); [|discriminate]. lra.
Qed.
Lemma by_time_at t l : numbers l -> at_time t (by_time l) = at_time t l.
Proof.
  induction l as [|x l IH]; intros N; [reflexivity|]. cbn [by_time fold_right]. fold (by_time l). rewrite insert_at.
  - unfold at_time in *. cbn [filter]. rewrite IH by (intros z Hz; apply N; right; exact Hz). reflexivity.
  - intros z [Hz|Hz]; [apply N; left; exact Hz|]. apply N. right. exact (Permutation_in _ (by_time_perm l) Hz).
Qed.
Lemma descending_app a b : descending (a ++ b) -> descending a /\ descending b /\ forall x y, In x a -> In y b -> fle y x = true.
Proof.
  induction a as [|z a IH]; cbn [app descending]; intros H; [repeat split; [exact H|intros x y []]|]. destruct H as [H1 H2]. destruct (IH H2) as (A & B & C).
  split; [split; [intros y Hy; apply H1; apply in_or_app; left; exact Hy|exact A]|]. split; [exact B|].
  intros x y [<-|Hx] Hy; [apply H1; apply in_or_app; right; exact Hy|exact (C x y Hx Hy)].
Qed.

Lemma slice_firstn {A} n (l : list A) : exists m, slice_to n l = firstn m l /\ m = (if Z.ltb n 0 then List.length l - Z.to_nat (- n) else Nat.min (Z.to_nat n) (List.length l)).
Proof.
  unfold slice_to. eexists. split; [|reflexivity]. destruct (Z.ltb n 0); [reflexivity|]. destruct (Nat.le_gt_cases (List.length l) (Z.to_nat n)) as [H|H].
  - rewrite Nat.min_r by exact H. rewrite !firstn_all2 by lia. reflexivity.
  - rewrite Nat.min_l by lia. reflexivity.
Qed.

Lemma compare_rows_ok pl full : incl (keys pl) (keys full) -> exists rows, compare_rows pl full = Ok rows /\
  map (fun r => fst (fst (fst r))) rows = keys pl /\
  forall k t m o, In (k, t, m, o) rows -> exists rs s, In (k, rs) pl /\ get k full = Some (m, s) /\ t = fsum (map f_mean rs) /\ o = overhead t m.
Proof.
  induction pl as [|[k rs] pl IH]; intros H; cbn [compare_rows].
  - exists []. repeat split. intros k t m o [].
  - destruct (IH (fun x Hx => H x (or_intror Hx))) as (rows & E & Hk & Hr). destruct (get k full) as [[m s]|] eqn:G.
    + rewrite E. eexists. split; [reflexivity|]. split; [cbn; f_equal; exact Hk|]. intros k' t m' o [Hx|Hx].
      * injection Hx as <- <- <- <-. exists rs, s. rewrite total_ms_sum. repeat split; try reflexivity; [left; reflexivity|exact G].
      * destruct (Hr _ _ _ _ Hx) as (rs' & s' & A & B & C & D). exists rs', s'. repeat split; try assumption. right. exact A.
    + exfalso. apply get_None_keys in G. apply G. apply H. left. reflexivity.
Qed.
