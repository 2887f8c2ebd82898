(** C123: the order of the two axes of a meshgrid likelihood. *)
From Coq Require Import Reals Lia ZArith Lra.
From Verif Require Import Base BaseFacts ModelFloat ModelHist ModelShare ModelConfig ModelComponent ModelCompile ModelLikelihood ModelBinning
  SpecHist SpecLikelihood SpecComponent SpecSwap ProofFloat ProofHist ProofLikelihood ProofSwap PropHist PropBinning PropComponent PropCompile.
Local Open Scope string_scope.
Local Open Scope list_scope.

(** The histogram of the exchanged events on the exchanged edges is the exchanged histogram. *)
Theorem C123_histogram : forall ex ey events,
  exchanged (List.length ex - 1) (List.length ey - 1) (List.concat (hist_mesh_2d ex ey events))
    (List.concat (hist_mesh_2d ey ex (map (fun e => (snd (fst e), fst (fst e), snd e)) events))).
Proof. exact mesh_exchanged. Qed.

(** Giving bins_on, bins and the clips of a meshgrid in the other order makes a likelihood with the same data in
    the other order and the exchanged histogram, and fails in the same way. *)
Theorem C123_constructor : forall oor g1 g2 cfg cfg' load, swapped_config cfg cfg' ->
  match new_likelihood oor g1 g2 cfg load, new_likelihood oor g1 g2 cfg' load with
  | Ok k, Ok k' => swapped_likelihood k k'
  | Err e, Err e' => e' = e
  | _, _ => False
  end.
Proof. exact new_likelihood_swap. Qed.

(** A simulated component of exchanged events: the same key, the same errors, the exchanged histogram. *)
Theorem C123_simulated : forall oor (K : Type) c c' ex ey (sim sim' : K -> nat -> params -> result (K * list (list fl))) key b p,
  swapped_cnum c c' ex ey -> swapped_sim sim sim' ->
  same_hist (List.length ex - 1) (List.length ey - 1) (sim_hist oor c sim key b p) (sim_hist oor c' sim' key b p).
Proof. intros. apply sim_hist_exchanged; assumption. Qed.

(** So for a component from given data. *)
Theorem C123_fixed : forall oor c c' ex ey data p, swapped_cnum c c' ex ey -> (forall r, In r data -> 2 <= List.length r) ->
  same_hist (List.length ex - 1) (List.length ey - 1)
    (with_unit (fixed_hist oor c data p)) (with_unit (fixed_hist oor c' (map swap_row data) p)).
Proof. intros. apply fixed_hist_exchanged; assumption. Qed.

Lemma exchanged_same {K} oor ex ey (L L' : llh K) : exchanged_llh oor ex ey L L' ->
  same_llh (List.length ex - 1) (List.length ey - 1) L L'.
Proof.
  intros (A & B & C). split; [exact A|]. split; [exact B|]. clear - C.
  induction C as [|x x' l l' (Hn & Hk & n & n' & Hs & [(sim & sim' & S1 & S2 & S3)|(data & S1 & S2 & S3)]) C IH]; constructor; auto;
    (split; [exact Hn|]); (split; [exact Hk|]); rewrite S2, S3.
  - intros key b p. apply sim_hist_exchanged; assumption.
  - intros p. apply fixed_hist_exchanged; assumption.
Qed.

(** The likelihood, the expected number of events and the next key do not depend on the order of the axes. *)
Theorem C123_likelihood : forall oor (K : Type) ex ey (L L' : llh K) key b p, exchanged_llh oor ex ey L L' ->
  get_log_likelihood L' key b p = get_log_likelihood L key b p /\
  get_num_events_accepted L' key b p = get_num_events_accepted L key b p /\
  same_hist (List.length ex - 1) (List.length ey - 1) (simulate_model_hist L key b p) (simulate_model_hist L' key b p).
Proof.
  intros oor K ex ey L L' key b p H. apply exchanged_same in H.
  pose proof (fun q => model_exchanged _ _ L L' key b q H) as M. split; [|split; [|apply M]].
  - unfold get_log_likelihood. destruct H as (A & D & _). rewrite A. specialize (M (replace_alias (ll_alias L) p)).
    destruct (simulate_model_hist L key b _) as [[k h]|e], (simulate_model_hist L' key b _) as [[k' h']|e']; cbn in M; try contradiction.
    + destruct M as [-> M]. exact (log_likelihood_exchanged _ _ _ _ _ _ _ D M).
    + subst. reflexivity.
  - unfold get_num_events_accepted. destruct H as (A & D & _). rewrite A. specialize (M (replace_alias (ll_alias L) p)).
    destruct (simulate_model_hist L key b _) as [[k h]|e], (simulate_model_hist L' key b _) as [[k' h']|e']; cbn in M; try contradiction.
    + destruct M as [-> M]. rewrite (exchanged_sum _ _ _ _ M). reflexivity.
    + subst. reflexivity.
Qed.

(** The plugins of a simulated component run in an order that depends on bins_on, each with the next key: with the
    axes in the other order, the same key gives other events, in values and not only in order. *)
Definition last_isem (i : instance) (args : list nat) : result (list nat) :=
  match args with
  | k :: _ => Ok (S k :: repeat k (List.length (p_provides (i_class i))))
  | _ => Err TypeError
  end.
Definition qE := mk_plugin "E" ["energy"] ["batch_size"] [] [] ["self"; "key"; "parameters"; "batch_size"].
Definition q1 := mk_plugin "S1" ["cs1"] ["energy"] [] [] ["self"; "key"; "parameters"; "energy"].
Definition q2 := mk_plugin "S2" ["cs2"] ["energy"] [] [] ["self"; "key"; "parameters"; "energy"].
Definition qF := mk_plugin "Eff" ["eff"] ["energy"] [] [] ["self"; "key"; "parameters"; "energy"].
Definition qk := mk_component "er" "llh" "" (registry_after [[qE; q1; q2; qF]]) false [] [] "" None None None.
Definition qs (n : string) : option plugin := List.find (fun p => String.eqb (p_name p) n) [qE; q1; q2; qF].
Theorem C123_random_refuted : exists w1 k1 w2 k2 a b c a' b' c',
  build_component 20 ["cs1"; "cs2"] "simulate" "batch_size" false all_files qs qk init_world = (w1, k1, Ok tt) /\
  build_component 20 ["cs2"; "cs1"] "simulate" "batch_size" false all_files qs qk init_world = (w2, k2, Ok tt) /\
  simulate nat last_isem k1 0 7 0 = Ok (4, [a; b; c]) /\ simulate nat last_isem k2 0 7 0 = Ok (4, [b'; a'; c']) /\ a <> a' /\ b <> b'.
Proof.
  do 10 eexists. split; [vm_compute; reflexivity|]. split; [vm_compute; reflexivity|].
  split; [vm_compute; reflexivity|]. split; [vm_compute; reflexivity|]. split; discriminate.
Qed.

(** Two bins by one: the configurations, a likelihood each, and components from data and from a simulation. *)
Definition cfgS : lconfig := mk_lconfig "meshgrid" (OnList ["cs1"; "cs2"])
  (PList [AArr (Arr1 [Fin 0; Fin 5; Fin 10]); AArr (Arr1 [Fin 0; Fin 4])]) None (Some (Fin 0, Fin 10)) (Some (Fin 0, Fin 4)).
Definition cfgS' : lconfig := mk_lconfig "meshgrid" (OnList ["cs2"; "cs1"])
  (PList [AArr (Arr1 [Fin 0; Fin 4]); AArr (Arr1 [Fin 0; Fin 5; Fin 10])]) None (Some (Fin 0, Fin 4)) (Some (Fin 0, Fin 10)).
Example C123_case_constructor : swapped_config cfgS cfgS' /\
  exists k k', new_likelihood no_oor no_g1 no_g2 cfgS (Ok table5) = Ok k /\
    new_likelihood no_oor no_g1 no_g2 cfgS' (Ok table5) = Ok k' /\ swapped_likelihood k k' /\
    k_data k = [[Fin 9; Fin 1]; [Fin 9; Fin 3]; [Fin 9; Fin 2]].
Proof.
  assert (H : swapped_config cfgS cfgS').
  { repeat split; try reflexivity; do 2 eexists; split; reflexivity. }
  split; [exact H|].
  pose proof (C123_constructor no_oor no_g1 no_g2 cfgS cfgS' (Ok table5) H) as C.
  destruct (new_likelihood no_oor no_g1 no_g2 cfgS (Ok table5)) as [k|e] eqn:E.
  2: { exfalso. revert E. cbn. unfold strictly. fl_eval. discriminate. }
  destruct (new_likelihood no_oor no_g1 no_g2 cfgS' (Ok table5)) as [k'|e'] eqn:E'; [|contradiction].
  exists k, k'. split; [reflexivity|]. split; [reflexivity|]. split; [exact C|].
  revert E. cbn. unfold strictly. fl_eval. intros E. injection E as <-. reflexivity.
Qed.

Definition exS := [Fin 0; Fin 5; Fin 10].
Definition eyS := [Fin 0; Fin 2; Fin 4].
Definition numS (n : string) (b : binning) : cnum := mk_cnum (n ++ "_rate")%string OnPdf true false b (Ok None).
Definition simS (k : nat) (b : nat) (p : params) : result (nat * list (list fl)) := Ok (S k, [[Fin 1; Fin 3; Fin 1]; [Fin 7; Fin 1; Fin 1]]).
Definition simS' (k : nat) (b : nat) (p : params) : result (nat * list (list fl)) := Ok (S k, [[Fin 3; Fin 1; Fin 1]; [Fin 1; Fin 7; Fin 1]]).
Definition llhS (b : binning) (sim : nat -> nat -> params -> result (nat * list (list fl))) (data : list (list fl)) (counts : list fl) : llh nat :=
  register_all [("s", Ok (mk_lcomp ["s_rate"] (LSim (sim_hist no_oor (numS "s" b) sim))));
                ("f", Ok (mk_lcomp ["f_rate"] (LFixed (fixed_hist no_oor (numS "f" b) data))))]
    (new_llh [("my_rate", "s_rate")] counts).
Example C123_case :
  let L := llhS (BMesh2 exS eyS) simS [[Fin 1; Fin 3]; [Fin 6; Fin 3]] [Fin 1; Fin 2; Fin 0; Fin 3] in
  let L' := llhS (BMesh2 eyS exS) simS' [[Fin 3; Fin 1]; [Fin 3; Fin 6]] [Fin 1; Fin 0; Fin 2; Fin 3] in
  exchanged_llh no_oor exS eyS L L' /\
  exists h, simulate_model_hist L 0 2 [("my_rate", Fin 10); ("f_rate", Fin 5)] = Ok (1, h) /\ List.length h = 4.
Proof.
  cbv zeta. split.
  - split; [reflexivity|]. split.
    + exists (fun i j => nth j (nth i [[Fin 1; Fin 2]; [Fin 0; Fin 3]] []) NaN). split; reflexivity.
    + constructor; [|constructor; [|constructor]]; (split; [reflexivity|]); (split; [reflexivity|]).
      * exists (numS "s" (BMesh2 exS eyS)), (numS "s" (BMesh2 eyS exS)). split; [repeat split; reflexivity|]. left.
        exists simS, simS'. split; [|split; reflexivity]. intros key n p. reflexivity.
      * exists (numS "f" (BMesh2 exS eyS)), (numS "f" (BMesh2 eyS exS)). split; [repeat split; reflexivity|]. right.
        exists [[Fin 1; Fin 3]; [Fin 6; Fin 3]]. split; [|split; reflexivity]. intros r [<-|[<-|[]]]; cbn; lia.
  - assert (Hl : forall f e ev, List.length (scale f (floor_hist e (List.concat (hist_mesh_2d exS eyS ev)))) = 4).
    { intros f e ev. unfold scale, floor_hist. rewrite !map_length. rewrite mesh_by_rows, by_rows_length. reflexivity. }
    unfold simulate_model_hist. cbn -[hist_mesh_2d fsum scale fadd floor_hist iadd exS eyS List.concat].
    rewrite iadd_ok by (rewrite Hl; reflexivity). rewrite iadd_ok.
    + eexists. split; [reflexivity|]. rewrite !hist_add_length; rewrite ?hist_add_length; rewrite ?Hl; reflexivity.
    + rewrite hist_add_length by (rewrite Hl; reflexivity). rewrite Hl. reflexivity.
Qed.

Print Assumptions C123_histogram.
Print Assumptions C123_constructor.
Print Assumptions C123_simulated.
Print Assumptions C123_fixed.
Print Assumptions C123_likelihood.
Print Assumptions C123_random_refuted.
