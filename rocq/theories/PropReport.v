(** C120: the reports of the profiler. *)
From Coq Require Import Reals Lra Lia Permutation ZArith.
From Verif Require Import Base BaseFacts ModelFloat ModelShare ModelConfig ModelComponent SpecComponent ModelCompile ModelLikelihood
  ModelProfiler ModelReport SpecProfiler ProofFloat ProofHist ProofParameter ProofLikelihood2 ProofComponentTop ProofProfiler PropComponent PropCompile PropProfiler PropHist SpecReport ProofReport.
Local Open Scope string_scope.
Local Open Scope list_scope.

(** The rows of the summary are the components in their order, with the sum of the times of their
    plugins and their number; the grand total is the sum over all plugins of all components. *)
Theorem C120_totals all n :
  sm_rows (print_profile_summary all n) = map (fun kr => (fst kr, fsum (map f_mean (snd kr)), List.length (snd kr))) all /\
  sm_total (print_profile_summary all n) = fsum (map (fun e => f_mean (snd e)) (entries all)) /\
  sm_total (print_profile_summary all n) = fsum (map (fun r => snd (fst r)) (sm_rows (print_profile_summary all n))).
Proof.
  cbn [print_profile_summary sm_rows sm_total]. split.
  - apply map_ext. intros kr. unfold component_row. rewrite total_ms_sum. reflexivity.
  - split; [exact (grand_sum all)|]. rewrite grand_sum, map_map. unfold entries, component_row. cbn [fst snd].
    induction all as [|[k rs] all IH]; [reflexivity|]. cbn [flat_map map]. rewrite map_app, fsum_app, fsum_cons, IH, map_map, total_ms_sum. reflexivity.
Qed.

(** The slowest plugins: [rest] is what is not shown. *)
Theorem C120_top all n : measured_all all ->
  exists rest, let top := map snd (sm_top (print_profile_summary all n)) in
    Permutation (top ++ rest) (map shown (entries all)) /\
    List.length top = (if Z.ltb n 0 then List.length (entries all) - Z.to_nat (- n) else Nat.min (Z.to_nat n) (List.length (entries all))) /\
    map fst (sm_top (print_profile_summary all n)) = seq 1 (List.length top) /\
    descending (map time_of top) /\
    (forall x y, In x top -> In y rest -> fle (time_of y) (time_of x) = true) /\
    (forall t, at_time t (top ++ rest) = at_time t (map shown (entries all))).
Proof.
  intros M. unfold print_profile_summary. cbn [sm_top]. rewrite all_plugins_shown. set (L := map shown (entries all)).
  assert (N : numbers L). { intros x Hx. unfold L in Hx. apply in_map_iff in Hx. destruct Hx as (e & <- & He). exact (M e He). }
  destruct (slice_firstn n (by_time L)) as (m & -> & Hm). rewrite (Permutation_length (by_time_perm L)) in Hm.
  assert (HL : List.length L = List.length (entries all)) by apply map_length. rewrite HL in Hm.
  set (top := firstn m (by_time L)). exists (skipn m (by_time L)).
  assert (Et : forall A (l : list A), map snd (combine (seq 1 (List.length l)) l) = l /\ map fst (combine (seq 1 (List.length l)) l) = seq 1 (List.length l)).
  { intros A l. generalize 1. induction l as [|x l IH]; intros i; [split; reflexivity|]. cbn [List.length seq combine map]. destruct (IH (S i)) as [-> ->]. split; reflexivity. }
  destruct (Et _ top) as [E1 E2]. rewrite E1, E2. cbv zeta. unfold top. rewrite firstn_skipn.
  pose proof (by_time_sorted L N) as D. rewrite <- (firstn_skipn m (by_time L)), map_app in D. apply descending_app in D. destruct D as (D1 & D2 & D3).
  split; [exact (by_time_perm L)|]. split.
  { rewrite firstn_length, (Permutation_length (by_time_perm L)), HL, Hm. destruct (Z.ltb n 0); lia. }
  split; [reflexivity|]. split; [exact D1|]. split.
  - intros x y Hx Hy. apply D3; apply in_map; assumption.
  - intros t. exact (by_time_at t L N).
Qed.

(** With at least as many as there are plugins, all are shown. *)
Theorem C120_all_shown all n : measured_all all -> (Z.of_nat (List.length (entries all)) <= n)%Z ->
  Permutation (map snd (sm_top (print_profile_summary all n))) (map shown (entries all)).
Proof.
  intros M Hn. destruct (C120_top all n M) as (rest & P & L & _). cbv zeta in P, L. assert (Hf : Z.ltb n 0 = false) by (apply Z.ltb_ge; lia). rewrite Hf in L.
  rewrite Nat.min_r in L by lia. pose proof (Permutation_length P) as PL. rewrite app_length, L, (map_length shown) in PL.
  destruct rest; [|cbn in PL; lia]. rewrite app_nil_r in P. exact P.
Qed.

(** compare_plugin_vs_full: if both profiles work then so does the table: one row for every simulated
    component, with the sum over the plugins, the time of the whole simulation, and the overhead. *)
Theorem C120_compare (V : Type) (isem : instance -> list V -> result (list V)) (clock : nat -> R) as_params
    f ls pars batch nw nr fresh n tick w w1 n1 t1 plugins n2 t2 full :
  profile_context V isem clock as_params f ls pars batch nw nr fresh n tick [] w = (w1, (n1, t1), Ok plugins) ->
  profile_full V isem clock as_params ls pars batch nw nr fresh n1 t1 [] = Ok (n2, t2, full) ->
  exists rows, compare_plugin_vs_full V isem clock as_params f ls pars batch nw nr fresh n tick w = Ok rows /\
    map (fun r => fst (fst (fst r))) rows = keys plugins /\
    (forall x, In x (map (fun r => fst (fst (fst r))) rows) <->
       exists l al cs c k, In (l, (al, cs)) ls /\ In (c, Some k) cs /\ x = (l ++ "/" ++ c)%string) /\
    (forall k t m o, In (k, t, m, o) rows ->
       exists rs s, In (k, rs) plugins /\ get k full = Some (m, s) /\ t = fsum (map f_mean rs) /\
         (flt (Fin 0) m = false -> o = Fin 0) /\
         (forall a b, t = Fin a -> m = Fin b -> (0 < b)%R ->
            exists p, o = Fin p /\ (a = b * (1 + p / 100))%R /\ ((0 < p)%R <-> (b < a)%R))).
Proof.
  intros H1 H2. destruct (C92_keys _ _ _ _ _ _ _ _ _ _ _ _ _ _ _ _ _ _ _ _ _ _ _ H1 H2) as [K1 K2].
  destruct (compare_rows_ok plugins full) as (rows & E & Hk & Hr). { rewrite K1. apply incl_refl. }
  exists rows. unfold compare_plugin_vs_full. rewrite H1, H2. split; [exact E|]. split; [exact Hk|]. split; [rewrite Hk; exact K2|].
  intros k t m o Hin. destruct (Hr _ _ _ _ Hin) as (rs & s & A & B & C & ->). exists rs, s. split; [exact A|]. split; [exact B|]. split; [exact C|].
  unfold overhead. split; [intros ->; reflexivity|]. intros a b -> -> Hb. assert (Hl : flt (Fin 0) (Fin b) = true) by (apply flt_Fin; exact Hb). rewrite Hl.
  rewrite fdiv_Fin, fsub_Fin, fmul_Fin by lra. exists ((a / b - 1) * 100)%R. split; [reflexivity|]. split; [field; lra|].
  assert (Hab : (a = b * (a / b))%R) by (field; lra). split; intros H.
  - assert (1 < a / b)%R by lra. rewrite Hab. rewrite <- (Rmult_1_r b) at 1. apply Rmult_lt_compat_l; assumption.
  - assert (1 < a / b)%R; [|lra]. apply Rmult_lt_reg_l with b; [exact Hb|]. rewrite <- Hab. lra.
Qed.

(** The worksheet that is printed is an order of execution: the plugins of the rows are those that
    the request needs, once each, and everything that a row depends on is the given name or
    provided by a row above it. *)
Lemma comma_concat l : comma l = String.concat ", " l.
Proof. induction l as [|x [|y l] IH]; [reflexivity|reflexivity|]. cbn [comma]. cbn [comma] in IH. rewrite IH. reflexivity. Qed.
Theorem C120_worksheet calls limit data_names func nodep noeff k w w' k' :
  k_registry k = registry_after calls -> unique_names (k_registry k) ->
  deduce limit data_names func nodep noeff k w = (w', k', Ok tt) ->
  exists ws, k_worksheet k' = ws /\
    map (fun r => fst (fst (fst r))) (print_worksheet k') = seq 1 (List.length ws) /\
    NoDup (map (fun r => snd (fst (fst r))) (print_worksheet k')) /\
    (forall i wk, nth_error ws i = Some wk ->
       nth_error (print_worksheet k') i = Some (S i, w_plugin wk, String.concat ", " (w_provides wk),
         if Nat.eqb (List.length (w_depends wk)) 0 then "(none)" else String.concat ", " (w_depends wk)) /\
       (exists d p, Reach (k_registry k) nodep (output_names data_names noeff) d /\ get d (k_registry k) = Some p /\
          w_plugin wk = p_name p /\ w_provides wk = p_provides p /\ w_depends wk = p_depends p) /\
       (forall x, In x (w_depends wk) -> x = nodep \/ exists j wj, j < i /\ nth_error ws j = Some wj /\ In x (w_provides wj))) /\
    (forall d p, Reach (k_registry k) nodep (output_names data_names noeff) d -> get d (k_registry k) = Some p ->
       In (p_name p) (map (fun r => snd (fst (fst r))) (print_worksheet k'))).
Proof.
  intros Hr Hu H. destruct (top_defined _ _ _ _ _ _ _ _ _ _ Hr Hu H) as (pr & Hc & _ & _ & Hd & _).
  destruct (top_exact _ _ _ _ _ _ _ _ _ _ Hr Hu H) as (Hn & Hex & pr' & Hc' & Hb). rewrite Hc in Hc'. injection Hc' as <-.
  exists (k_worksheet k'). split; [reflexivity|]. unfold print_worksheet. rewrite !map_map. cbn [fst snd].
  assert (Et : forall (l : list work) s, map (fun x : nat * work => w_plugin (snd x)) (combine (seq s (List.length l)) l) = map w_plugin l
     /\ map (fun x : nat * work => fst x) (combine (seq s (List.length l)) l) = seq s (List.length l)
     /\ forall i x, nth_error l i = Some x -> nth_error (combine (seq s (List.length l)) l) i = Some (s + i, x)).
  { induction l as [|x l IH]; intros s; [repeat split; intros [|i] x Hx; discriminate|]. cbn [List.length seq combine map]. destruct (IH (S s)) as (-> & -> & I3). repeat split.
    intros [|i] y Hy; cbn in Hy |- *; [injection Hy as <-; rewrite Nat.add_0_r; reflexivity|]. rewrite (I3 _ _ Hy). do 2 f_equal. lia. }
  destruct (Et (k_worksheet k') 1) as (E1 & E2 & E3). rewrite E1, E2. split; [reflexivity|]. split; [exact Hn|]. split.
  - intros i wk Hi. split; [|split].
    + rewrite nth_error_map, (E3 _ _ Hi). cbn [option_map fst snd]. rewrite !comma_concat. unfold depends_text. rewrite comma_concat. destruct (w_depends wk); reflexivity.
    + apply Hex. exact (nth_error_In _ _ Hi).
    + rewrite Hb in Hd. intros x Hx. clear - Hd Hi Hx. revert i Hi Hd. generalize (k_worksheet k'). intros l.
      assert (G : forall l df, reads_defined df (map (fun wk => (w_provides wk, (w_plugin wk ++ "_" ++ k_name k)%string, w_depends wk)) l) ->
        forall i, nth_error l i = Some wk -> In x df \/ exists j wj, j < i /\ nth_error l j = Some wj /\ In x (w_provides wj)).
      { clear l. induction l as [|y l IH]; intros df Hd [|i] Hi; try discriminate; cbn in Hi, Hd; destruct Hd as [D1 D2].
        - injection Hi as ->. left. apply D1. exact Hx.
        - destruct (IH _ D2 _ Hi) as [A|(j & wj & A & B & C)].
          + apply in_app_or in A. destruct A as [A|A]; [|left; exact A]. right. exists 0, y. repeat split; [lia|exact A].
          + right. exists (S j), wj. repeat split; [lia|exact B|exact C]. }
      intros i Hi Hd. destruct (G l _ Hd i Hi) as [[A|[]]|A]; [left; symmetry; exact A|right; exact A].
  - intros d p R G. assert (Hin : exists wk, In wk (k_worksheet k') /\ w_plugin wk = p_name p).
    { exists (mk_work (p_name p) (p_provides p) (p_depends p)). split; [|reflexivity]. apply Hex. exists d, p. repeat split; assumption. }
    destruct Hin as (wk & A & <-). apply in_map. exact A.
Qed.

(* ------------------------------------------------------------------ *)
(** * Concrete cases *)

Definition pf (p : string) (t : R) : prof := mk_prof p [] [] (Fin t) (Fin 0).
Definition two_components : dict (list prof) := [("llh/er", [pf "A" 1; pf "B" 5; pf "C" 2]); ("llh/ac", [pf "D" 5; pf "E" 3])].
(** Five plugins: the three slowest are B, D (as slow as B, and after it) and E. *)
Example C120_case_top : measured_all two_components /\
  sm_top (print_profile_summary two_components 3) = [(1, ("B", Fin 5, "llh/er")); (2, ("D", Fin 5, "llh/ac")); (3, ("E", Fin 3, "llh/ac"))] /\
  sm_total (print_profile_summary two_components 3) = Fin 16 /\
  map (fun r => snd (fst (snd r))) (sm_top (print_profile_summary two_components (-4))) = [Fin 5].
Proof.
  split.
  { intros e He. cbn in He. repeat (destruct He as [<-|He]; [eexists; reflexivity|]). destruct He. }
  assert (B : by_time (all_plugins two_components) = [("B", Fin 5, "llh/er"); ("D", Fin 5, "llh/ac"); ("E", Fin 3, "llh/ac"); ("C", Fin 2, "llh/er"); ("A", Fin 1, "llh/er")]).
  { unfold two_components, pf. cbn [all_plugins flat_map map fst snd f_plugin f_mean app by_time fold_right insert_slow].
    repeat (match goal with |- context [flt (Fin ?a) (Fin ?b)] => first [
       assert (flt (Fin a) (Fin b) = true) as -> by (apply flt_Fin; lra)
     | assert (flt (Fin a) (Fin b) = false) as -> by (destruct (flt (Fin a) (Fin b)) eqn:E; [apply flt_Fin in E; lra|reflexivity]) ]
     end; cbn [insert_slow fst snd]). reflexivity. }
  unfold print_profile_summary. cbn [sm_top sm_total]. rewrite B. split; [reflexivity|]. split; [|reflexivity].
  rewrite grand_sum. cbn [two_components entries flat_map map fst snd f_mean pf app]. rewrite !fsum_cons. change (fsum []) with (Fin 0). rewrite !fadd_Fin. f_equal. lra.
Qed.

(** The hypotheses of C120_worksheet hold for the components of C02's case, whose five rows are as
    follows. *)
Example C120_case_worksheet : exists w' k',
  deduce 20 ["cs2"; "cs1"] "simulate" "batch_size" false demo_k init_world = (w', k', Ok tt) /\
  k_registry demo_k = registry_after demo_calls /\ unique_names (k_registry demo_k) /\
  map (fun r => snd (fst (fst r))) (print_worksheet k') = ["Energy"; "Quanta"; "S2"; "S1"; "Eff"] /\
  nth_error (print_worksheet k') 1 = Some (2, "Quanta", "ph, el", "energy").
Proof.
  do 2 eexists. split; [vm_compute; reflexivity|]. split; [reflexivity|]. split; [exact demo_unique|]. split; [vm_compute; reflexivity|]. vm_compute. reflexivity.
Qed.

(** The hypotheses of C120_compare hold for a context with that component: its row is about five
    plugins. *)
Example C120_case_compare (clock : nat -> R) : exists w' k' w1 n1 t1 plugins n2 t2 full,
  demo_build init_world = (w', k', Ok tt) /\
  profile_context nat demo_isem clock (fun _ => 0) all_files [("llh", ([], [("er", Some k')]))] [] 7 1 2 (fun n => n) 0 0 [] w' = (w1, (n1, t1), Ok plugins) /\
  profile_full nat demo_isem clock (fun _ => 0) [("llh", ([], [("er", Some k')]))] [] 7 1 2 (fun n => n) n1 t1 [] = Ok (n2, t2, full) /\
  map (fun kr => (fst kr, List.length (snd kr))) plugins = [("llh/er", 5)] /\ keys full = ["llh/er"] /\ t1 = 20 /\ t2 = 24.
Proof.
  do 9 eexists. split; [vm_compute; reflexivity|]. split; [vm_compute; reflexivity|]. split; [vm_compute; reflexivity|]. repeat split.
Qed.

(** Without a timed run the times are NaN, and the overhead is shown as zero percent. *)
Theorem C120_no_runs_refuted (clock : nat -> R) : exists w' k' rows,
  demo_build init_world = (w', k', Ok tt) /\
  compare_plugin_vs_full nat demo_isem clock (fun _ => 0) all_files [("llh", ([], [("er", Some k')]))] [] 7 1 0 (fun n => n) 0 0 w' = Ok rows /\
  rows = [("llh/er", NaN, NaN, Fin 0)].
Proof.
  do 3 eexists. split; [vm_compute; reflexivity|]. split; [|reflexivity].
  vm_compute. reflexivity.
Qed.

Print Assumptions C120_totals.
Print Assumptions C120_top.
Print Assumptions C120_all_shown.
Print Assumptions C120_compare.
Print Assumptions C120_worksheet.
Print Assumptions C120_no_runs_refuted.
