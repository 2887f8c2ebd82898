(** C131: reading parameters by name. *)
From Coq Require Import Reals Lra Lia.
From Verif Require Import Base BaseFacts ModelFloat ModelParameter SpecParameter ProofParameter ProofParameter2 ProofFit2 PropParameter.
Local Open Scope string_scope.
Local Open Scope list_scope.

(** The names a request asks for: one name, or the elements of a list or a set (in iteration order). *)
Inductive asks : pkeys -> list string -> Prop :=
| asks_str n : asks (KStr n) [n]
| asks_list l : asks (KList l) l
| asks_set l : asks (KSet l) l.

Lemma get_list_missing (v : dict fl) : forall l n, In n l -> ~ In n (keys v) -> get_list v l = Err KeyError.
Proof.
  induction l as [|m l IH]; intros n Hin Hno; [destruct Hin|]. cbn [get_list].
  destruct (get m v) as [x|] eqn:Hm; [|reflexivity]. cbn [key bind]. destruct Hin as [->|Hin].
  - exfalso. apply Hno. apply get_In_keys. eauto.
  - rewrite (IH n Hin Hno). reflexivity.
Qed.
Lemma has_keys (v : dict fl) n : has n v = true <-> In n (keys v).
Proof. unfold has. rewrite get_In_keys. destruct (get n v); split; intros H; eauto; try discriminate. destruct H; discriminate. Qed.
Lemma all_has (v : dict fl) l : forallb (fun n => has n v) l = true <-> forall n, In n l -> In n (keys v).
Proof. rewrite forallb_forall. split; intros H n Hn; specialize (H n Hn); apply has_keys; exact H. Qed.

(** Known names: one value for each, in the order of the request; with [] as well as with get_parameter. *)
Theorem C131_reads st k l : asks k l -> (forall n, In n l -> In n (keys (p_values st))) ->
  exists xs, get_parameter st k = Ok xs /\ getitem st k = Ok xs /\ Forall2 (fun n x => get n (p_values st) = Some x) l xs.
Proof.
  intros Ha Hk. destruct (get_list_ok (p_values st) l Hk) as (xs & Hxs & HF). exists xs.
  assert (G : getitem st k = Ok xs).
  { destruct Ha as [n|l|l]; [|exact Hxs..]. cbn [getitem get_list] in *. destruct (get n (p_values st)); [exact Hxs|discriminate]. }
  split; [|auto]. unfold get_parameter. rewrite G. destruct Ha as [n|l|l]; cbn [check_exist bind].
  - rewrite (proj2 (has_keys _ n)); [reflexivity|]. apply Hk. left. reflexivity.
  - rewrite (proj2 (all_has _ l) Hk). reflexivity.
  - rewrite (proj2 (all_has _ l) Hk). reflexivity.
Qed.

(** One unknown name and nothing is returned: an assertion fails in get_parameter, [] raises KeyError. *)
Theorem C131_unknown st k l n : asks k l -> In n l -> ~ In n (keys (p_values st)) ->
  get_parameter st k = Err AssertionError /\ getitem st k = Err KeyError.
Proof.
  intros Ha Hin Hno.
  assert (Hf : forallb (fun n => has n (p_values st)) l = false).
  { destruct (forallb _ l) eqn:Hf; [|reflexivity]. exfalso. apply Hno. exact (proj1 (all_has _ l) Hf n Hin). }
  unfold get_parameter. destruct Ha as [m|l|l]; cbn [check_exist bind getitem].
  - cbn [forallb] in Hf. rewrite Bool.andb_true_r in Hf. rewrite Hf. destruct Hin as [->|[]]. unfold has in Hf.
    destruct (get n (p_values st)); [discriminate|]. split; reflexivity.
  - rewrite Hf, (get_list_missing _ _ _ Hin Hno). split; reflexivity.
  - rewrite Hf, (get_list_missing _ _ _ Hin Hno). split; reflexivity.
Qed.

(** Anything that is neither a name, a list nor a set is never read. *)
Theorem C131_other st k : (forall l, ~ asks k l) -> getitem st k = Err ValueError /\ exists e, get_parameter st k = Err e.
Proof.
  intros H. destruct k as [n|l|l|d|]; try (exfalso; eapply H; constructor); (split; [reflexivity|]); unfold get_parameter; cbn [check_exist bind getitem].
  - destruct (forallb _ _); eauto.
  - eauto.
Qed.

(** What was written in one call is read in one call: the values come back in order when no name is listed twice, and
    otherwise every occurrence reads the last one. *)
Theorem C131_written st k vals l xs : assignment k vals l xs -> (forall n, In n l -> In n (keys (p_values st))) ->
  exists ys, get_parameter (fst (set_parameter st k vals)) (KList l) = Ok ys /\
    Forall2 (fun n y => last_value l xs n = Some y) l ys /\ (NoDup l -> ys = xs).
Proof.
  intros Ha Hk. rewrite (set_valid st k vals l xs Ha Hk). cbn [fst].
  assert (Hlen : List.length l = List.length xs).
  { destruct Ha; [reflexivity|assumption|]. unfold keys. rewrite !map_length. reflexivity. }
  destruct (C131_reads (with_values st (assign l xs (p_values st))) (KList l) l (asks_list l)) as (ys & Hys & Hgi & HF).
  { cbn [p_values with_values]. intros n Hn. rewrite assign_keys by exact Hk. auto. }
  exists ys. split; [exact Hys|]. split.
  - assert (Hall : forall n, In n l -> exists y, last_value l xs n = Some y).
    { clear - Hlen. revert xs Hlen. induction l as [|m l IH]; intros [|x xs] Hlen n Hn; try discriminate; [destruct Hn|].
      cbn [last_value]. destruct Hn as [->|Hn].
      - destruct (last_value l xs n); [eauto|]. rewrite String.eqb_refl. eauto.
      - destruct (IH xs ltac:(cbn in Hlen; congruence) n Hn) as [y ->]. eauto. }
    cbn [p_values with_values] in HF. clear - HF Hall. revert Hall.
    assert (G : forall l0 ys0, Forall2 (fun n x => get n (assign l xs (p_values st)) = Some x) l0 ys0 ->
      (forall n, In n l0 -> exists y, last_value l xs n = Some y) -> Forall2 (fun n y => last_value l xs n = Some y) l0 ys0).
    { intros l0 ys0 H. induction H as [|n y l0 ys0 Hy _ IH]; intros Hall; constructor.
      - rewrite assign_get in Hy. destruct (Hall n (or_introl eq_refl)) as [z Hz]. rewrite Hz in Hy |- *. exact Hy.
      - apply IH. intros m Hm. apply Hall. right. exact Hm. }
    exact (G l ys HF).
  - intros Hnd. cbn [getitem p_values with_values] in Hgi. rewrite (get_list_assign l xs (p_values st) Hnd Hlen) in Hgi. congruence.
Qed.

(** A dictionary of values that set_parameter takes is not a request that get_parameter answers: although every name of
    it exists, a ValueError says that the keys must be a str or a list. *)
Theorem C131_dict_refuted : exists st d, (forall n, In n (keys d) -> In n (keys (p_values st))) /\
  check_exist st (KDict d) = Ok true /\ snd (set_parameter st (KDict d) VNone) = Ok tt /\
  get_parameter st (KDict d) = Err ValueError.
Proof.
  exists ex_state, [("w", Fin 1); ("p", Fin 2)]. split; [|repeat split].
  intros n [<-|[<-|[]]]; cbn; tauto.
Qed.

Example C131_case :
  get_parameter ex_state (KList ["field"; "w"; "field"]) = getitem ex_state (KSet ["field"; "w"; "field"]) /\
  get_parameter ex_state (KList ["field"; "q"]) = Err AssertionError /\ getitem ex_state (KList ["field"; "q"]) = Err KeyError /\
  get_parameter (fst (set_parameter ex_state (KList ["w"; "p"; "w"]) (VSeq [Fin 1; Fin 2; Fin 4]))) (KList ["w"; "p"; "w"]) = Ok [Fin 4; Fin 2; Fin 4].
Proof. repeat split. Qed.

Print Assumptions C131_reads.
Print Assumptions C131_unknown.
Print Assumptions C131_other.
Print Assumptions C131_written.
Print Assumptions C131_dict_refuted.
