(** Properties of the histograms: C11, C12, C13, C53.
    The vocabulary is in SpecHist.v, the proofs in ProofHist.v. *)
From Coq Require Import Reals Lra Permutation.
From Verif Require Import Base ModelFloat ModelHist SpecHist ProofFloat ProofHist.
Local Open Scope list_scope.

(** Evaluates comparisons of concrete finite numbers. *)
Ltac fl_eval :=
  repeat (first [ progress cbn
                | match goal with
                  | |- context [Rlt_dec ?a ?b] => destruct (Rlt_dec a b); try lra
                  | |- context [Rle_dec ?a ?b] => destruct (Rle_dec a b); try lra
                  | |- context [Req_EM_T ?a ?b] => destruct (Req_EM_T a b); try lra
                  end ]).

(* ------------------------------------------------------------------ *)
(** * C11 right-closed bins *)

Theorem C11_length bins events : List.length (hist_1d bins events) = List.length bins - 1.
Proof. exact (hist_1d_length bins events). Qed.

(** Entry [i] is the weight of the events with edge i < x <= edge (i+1): repeated and infinite
    edges included; an event outside every bin (or NaN) is in no entry. *)
Theorem C11_entry bins events i : sorted bins -> S i < List.length bins ->
  entry (hist_1d bins events) i
  = weight_of snd (fun e => in_bin (edge bins i) (edge bins (S i)) (fst e)) events.
Proof. exact (hist_1d_entry bins events i). Qed.

Definition edges3 : list fl := [Fin 0; Fin 1; Fin 1; PInf].
Definition events3 : list (fl * fl) := [(Fin 1, Fin 2); (Fin 3, Fin 5); (Fin 0, Fin 7); (NaN, Fin 9)].

(** An event on an edge, one in the overflow bin, one on the first edge and one NaN. *)
Example C11_case :
  sorted edges3 /\ hist_1d edges3 events3 = [Fin 2; Fin 0; Fin 5].
Proof.
  assert (Hs : sorted edges3).
  { unfold edges3. cbn. repeat split; try discriminate; intros x Hx;
      repeat (destruct Hx as [<-|Hx]; [fl_eval; try reflexivity|]); destruct Hx. }
  split; [exact Hs|]. apply entry_ext; [first [rewrite hist_1d_length|rewrite hist_mesh_1d_length]; reflexivity|]. intros i Hi.
  rewrite C11_length in Hi. cbn in Hi.
  rewrite C11_entry by (first [exact Hs | cbn; lia]).
  destruct i as [|[|[|i]]]; [..|lia]; unfold weight_of, entry, in_bin, events3, edges3, edge; fl_eval;
    unfold fadd; try (f_equal; lra).
Qed.

(* ------------------------------------------------------------------ *)
(** * C12 weight conservation *)

Theorem C12_total bins events : sorted bins -> bins <> [] ->
  fsum (hist_1d bins events)
  = weight_of snd (fun e => in_bin (edge bins 0) (edge bins (List.length bins - 1)) (fst e)) events.
Proof. exact (hist_1d_total bins events). Qed.

Theorem C12_permutation bins a b : Permutation a b -> hist_1d bins a = hist_1d bins b.
Proof. exact (hist_1d_perm bins a b). Qed.

Theorem C12_additive bins a b i : i < List.length bins - 1 ->
  entry (hist_1d bins (a ++ b)) i = fadd (entry (hist_1d bins a) i) (entry (hist_1d bins b) i).
Proof.
  intros Hi. rewrite hist_1d_split. apply hist_add_entry; rewrite !C11_length; [reflexivity|exact Hi].
Qed.

Example C12_case : fsum (hist_1d edges3 events3) = Fin 7.
Proof.
  rewrite C12_total; [|exact (proj1 C11_case)|discriminate].
  unfold weight_of, in_bin, events3, edges3, edge. fl_eval. unfold fadd. f_equal. lra.
Qed.

(* ------------------------------------------------------------------ *)
(** * C13 two-dimensional irregular bins *)

(** [oor] is whatever row the library returns for an event left or right of the x edges. *)
Theorem C13_entry oor bins_x bins_y events i j :
  sorted bins_x -> List.length bins_x = List.length bins_y + 1 ->
  (forall r, In r bins_y -> sorted r /\ List.length r = row_length bins_y) ->
  i < List.length bins_y -> S j < row_length bins_y ->
  entry2 (hist_2d oor bins_x bins_y events) i j
  = weight_of snd (fun e =>
      in_bin (edge bins_x i) (edge bins_x (S i)) (fst (fst e)) &&
      in_bin (edge (nth i bins_y []) j) (edge (nth i bins_y []) (S j)) (snd (fst e))) events.
Proof. exact (hist_2d_entry oor bins_x bins_y events i j). Qed.

Theorem C13_shape oor bins_x bins_y events :
  List.length (hist_2d oor bins_x bins_y events) = List.length bins_x - 1 /\
  forall r, In r (hist_2d oor bins_x bins_y events) -> List.length r = row_length bins_y - 1.
Proof. exact (hist_2d_shape oor bins_x bins_y events). Qed.

(** The same with the number of edges in a row written out: all rows have n of them. *)
Theorem C13_rows oor bins_x bins_y events n :
  sorted bins_x -> List.length bins_x = List.length bins_y + 1 ->
  (forall r, In r bins_y -> sorted r /\ List.length r = n) ->
  List.length (hist_2d oor bins_x bins_y events) = List.length bins_y /\
  (forall r, In r (hist_2d oor bins_x bins_y events) -> List.length r = n - 1) /\
  forall i j, i < List.length bins_y -> S j < n ->
    entry2 (hist_2d oor bins_x bins_y events) i j
    = weight_of snd (fun e =>
        in_bin (edge bins_x i) (edge bins_x (S i)) (fst (fst e)) &&
        in_bin (edge (nth i bins_y []) j) (edge (nth i bins_y []) (S j)) (snd (fst e))) events.
Proof.
  intros Hs Hl Hr. destruct (C13_shape oor bins_x bins_y events) as [H1 H2].
  assert (H1' : List.length (hist_2d oor bins_x bins_y events) = List.length bins_y) by lia. split; [exact H1'|].
  destruct bins_y as [|r0 bins_y].
  - destruct (hist_2d oor bins_x [] events); [|discriminate H1']. split; [intros r []|]. cbn. lia.
  - assert (Hn : row_length (r0 :: bins_y) = n) by (apply (Hr r0); left; reflexivity). split.
    + intros r Hin. rewrite <- Hn. exact (H2 r Hin).
    + intros i j Hi Hj. apply C13_entry; [exact Hs|exact Hl| |exact Hi|lia]. rewrite Hn. exact Hr.
Qed.

Definition bx : list fl := [Fin 0; Fin 1; Fin 2].
Definition by_ : list (list fl) := [[Fin 0; Fin 10]; [Fin 5; Fin 6]].
Definition events2 : list (fl * fl * fl) :=
  [((Fin 1, Fin 10), Fin 2); ((Fin 2, Fin 10), Fin 3); ((Fin 3, Fin 6), Fin 4); ((Fin 2, Fin 6), Fin 8)].

Example C13_case oor :
  entry2 (hist_2d oor bx by_ events2) 0 0 = Fin 2 /\ entry2 (hist_2d oor bx by_ events2) 1 0 = Fin 8.
Proof.
  assert (Hs : sorted bx).
  { unfold bx. cbn. repeat split; try discriminate; intros x Hx;
      repeat (destruct Hx as [<-|Hx]; [fl_eval; try reflexivity|]); destruct Hx. }
  assert (Hr : forall r, In r by_ -> sorted r /\ List.length r = row_length by_).
  { intros r [<-|[<-|[]]]; (split; [|reflexivity]); cbn; repeat split; try discriminate;
      intros x Hx; repeat (destruct Hx as [<-|Hx]; [fl_eval; try reflexivity|]); destruct Hx. }
  split; rewrite C13_entry by (first [exact Hs | exact Hr | cbn; lia]);
    unfold weight_of, in_bin, events2, bx, by_, edge; fl_eval; unfold fadd; f_equal; lra.
Qed.

(* ------------------------------------------------------------------ *)
(** * C53 regular (meshgrid) bins *)

(** Bins of a meshgrid binning are closed on the left, and the last one on both sides; with the
    irregular binning they are closed on the right. *)
Theorem C53_entry bins events i : sorted bins -> S i < List.length bins ->
  entry (hist_mesh_1d bins events) i
  = weight_of snd (fun e => in_bin_left (Nat.eqb (S (S i)) (List.length bins))
                              (edge bins i) (edge bins (S i)) (fst e)) events.
Proof. exact (hist_mesh_1d_entry bins events i). Qed.

Theorem C53_entry_2d bins_x bins_y events i j :
  sorted bins_x -> sorted bins_y -> S i < List.length bins_x -> S j < List.length bins_y ->
  entry2 (hist_mesh_2d bins_x bins_y events) i j
  = weight_of snd (fun e =>
      in_bin_left (Nat.eqb (S (S i)) (List.length bins_x)) (edge bins_x i) (edge bins_x (S i)) (fst (fst e)) &&
      in_bin_left (Nat.eqb (S (S j)) (List.length bins_y)) (edge bins_y j) (edge bins_y (S j)) (snd (fst e)))
      events.
Proof. exact (hist_mesh_2d_entry bins_x bins_y events i j). Qed.

Theorem C53_length bins events : List.length (hist_mesh_1d bins events) = List.length bins - 1.
Proof. exact (hist_mesh_1d_length bins events). Qed.

(** So the two binnings disagree on data lying on edges: the same edges and the same events. *)
Theorem C53_binnings_agree_refuted :
  exists bins events, sorted bins /\ hist_mesh_1d bins events <> hist_1d bins events /\
    fsum (hist_mesh_1d bins events) <> fsum (hist_1d bins events).
Proof.
  exists [Fin 0; Fin 1; Fin 2], [(Fin 0, Fin 1)].
  assert (Hs : sorted bx).
  { unfold bx. cbn. repeat split; try discriminate; intros x Hx;
      repeat (destruct Hx as [<-|Hx]; [fl_eval; try reflexivity|]); destruct Hx. }
  split; [exact Hs|].
  assert (H1 : hist_1d bx [(Fin 0, Fin 1)] = [Fin 0; Fin 0]).
  { apply entry_ext; [first [rewrite hist_1d_length|rewrite hist_mesh_1d_length]; reflexivity|]. intros i Hi. rewrite C11_length in Hi. cbn in Hi.
    rewrite C11_entry by (first [exact Hs | cbn; lia]).
    destruct i as [|[|i]]; [..|lia]; unfold weight_of, entry, in_bin, bx, edge; fl_eval; reflexivity. }
  assert (H2 : hist_mesh_1d bx [(Fin 0, Fin 1)] = [Fin 1; Fin 0]).
  { apply entry_ext; [first [rewrite hist_1d_length|rewrite hist_mesh_1d_length]; reflexivity|]. intros i Hi. rewrite C53_length in Hi. cbn in Hi.
    rewrite C53_entry by (first [exact Hs | cbn; lia]).
    destruct i as [|[|i]]; [..|lia]; unfold weight_of, entry, in_bin_left, bx, edge; fl_eval;
      unfold fadd; try (f_equal; lra). }
  change ([Fin 0; Fin 1; Fin 2]) with bx. rewrite H1, H2.
  split; intros H; [|unfold fsum, fadd in H; cbn in H]; injection H; lra.
Qed.

Example C53_case : hist_mesh_1d bx [(Fin 1, Fin 3); (Fin 2, Fin 5)] = [Fin 0; Fin 8].
Proof.
  assert (Hs : sorted bx).
  { unfold bx. cbn. repeat split; try discriminate; intros x Hx;
      repeat (destruct Hx as [<-|Hx]; [fl_eval; try reflexivity|]); destruct Hx. }
  apply entry_ext; [first [rewrite hist_1d_length|rewrite hist_mesh_1d_length]; reflexivity|]. intros i Hi. rewrite C53_length in Hi. cbn in Hi.
  rewrite C53_entry by (first [exact Hs | cbn; lia]).
  destruct i as [|[|i]]; [..|lia]; unfold weight_of, entry, in_bin_left, bx, edge; fl_eval;
    unfold fadd; try (f_equal; lra); reflexivity.
Qed.

Print Assumptions C11_length.
Print Assumptions C11_entry.
Print Assumptions C12_total.
Print Assumptions C12_permutation.
Print Assumptions C12_additive.
Print Assumptions C13_entry.
Print Assumptions C13_shape.
Print Assumptions C13_rows.
Print Assumptions C53_entry.
Print Assumptions C53_entry_2d.
Print Assumptions C53_length.
Print Assumptions C53_binnings_agree_refuted.
