(** Property C108: histograms normalised on the number of simulated events.
    Only theorem statements closed by lemmas, their assumptions, and concrete instances. *)
From Coq Require Import Reals Lra.
From Verif Require Import Base BaseFacts ModelFloat ModelHist ModelLikelihood
  SpecHist SpecLikelihood SpecWeighted ProofFloat ProofHist ProofLikelihood2 ProofWeighted ProofWeighted2 PropWeighted
  ModelShare ModelConfig ModelComponent SpecComponent
  ModelCompile ProofComponent ProofWorkflow ProofHistory ProofCompile PropComponent PropCompile
  ModelRecompile SpecRecompile ProofRecompile ProofRecompile3 ModelOnSim SpecOnSim ProofOnSim.
Local Open Scope string_scope.
Local Open Scope R_scope.

Section OnSim.
  Context {K : Type}.
  Variable selected : instance -> result fl.
  Variable oor : list (list fl) -> nat -> list fl.
  Variable rsem : closure -> K -> nat -> params -> result (K * list (list fl)).
  Notation hist_in := (simulate_hist_in selected K oor rsem OnSim).
  Notation sim_in := (rows_of K rsem).

  (** Without the floor every bin is the rate times the efficiencies of its events over the number
      of events counted, *)
  Theorem C108_bins :
    forall limit data_names func nodep noeff f plugins k w w1 k1 k2 w2 b key batch p key' h rows r N,
    build_component limit data_names func nodep noeff f plugins k w = (w1, k1, Ok tt) ->
    later k1 w1 k2 w2 -> binning_ok b -> counted selected k2 batch N -> 0 < N ->
    get (k_rate k2) p = Some (Fin r) ->
    hist_in false b k2 w2 key batch p = Ok (key', h) -> sim_in k2 key batch p = Ok (key', rows) ->
    efficiency_ok (k_noeff k2) rows ->
    h = map (fun P => Fin (r * eff_sum (k_noeff k2) P rows / N)) (bins_of b).
  Proof.
    intros limit dn func nodep noeff f plugins k w w1 k1 k2 w2 b key batch p key' h rows r N
      H Hl Hb Hc HN Hr Hh Hs Hok.
    destruct (later_alone _ _ _ _ (build_alone _ _ _ _ _ _ _ _ _ _ _ H) Hl) as [Ha _].
    destruct (counted_number _ _ _ _ _ Ha Hc) as (m & Hm & Hn).
    exact (on_sim_bins oor (mk_cnum (k_rate k2) OnSim false (k_noeff k2) b (mcinput_of selected k2 w2)) (sim_in k2) key batch p key' h rows m r N Hb eq_refl eq_refl Hm Hn HN Hr Hh Hs Hok).
  Qed.

  (** and the total is the rate times the fraction of the counted events that are accepted in a bin:
      at most the rate if no more events were simulated than are counted. *)
  Theorem C108_total :
    forall limit data_names func nodep noeff f plugins k w w1 k1 k2 w2 b key batch p key' h rows r N,
    build_component limit data_names func nodep noeff f plugins k w = (w1, k1, Ok tt) ->
    later k1 w1 k2 w2 -> binning_ok b -> counted selected k2 batch N -> 0 < N ->
    get (k_rate k2) p = Some (Fin r) ->
    hist_in false b k2 w2 key batch p = Ok (key', h) -> sim_in k2 key batch p = Ok (key', rows) ->
    efficiency_ok (k_noeff k2) rows ->
    exists a, fsum h = Fin (r * a) /\ 0 <= a /\ (INR (List.length rows) <= N -> a <= 1) /\
      a = eff_sum (k_noeff k2) (fun o => existsb (fun P => P o) (bins_of b)) rows / N.
  Proof.
    intros limit dn func nodep noeff f plugins k w w1 k1 k2 w2 b key batch p key' h rows r N
      H Hl Hb Hc HN Hr Hh Hs Hok.
    destruct (later_alone _ _ _ _ (build_alone _ _ _ _ _ _ _ _ _ _ _ H) Hl) as [Ha _].
    destruct (counted_number _ _ _ _ _ Ha Hc) as (m & Hm & Hn).
    eexists. split; [exact (on_sim_total oor (mk_cnum (k_rate k2) OnSim false (k_noeff k2) b (mcinput_of selected k2 w2)) (sim_in k2) key batch p key' h rows m r N Hb eq_refl eq_refl Hm Hn HN Hr Hh Hs Hok)|].
    cbn [n_no_eff n_bins].
    destruct (eff_sum_bounds (k_noeff k2) (fun o => existsb (fun P => P o) (bins_of b)) rows Hok) as [B1 B2].
    split; [|split; [|reflexivity]].
    - apply Rmult_le_pos; [exact B1|]. left. apply Rinv_0_lt_compat, HN.
    - intros HN2. apply (Rmult_le_reg_r N); [exact HN|]. unfold Rdiv. rewrite Rmult_assoc, Rinv_l by lra. lra.
  Qed.

  (** With the floor (the default) every bin holds at least the mean efficiency of the simulated
      events. *)
  Theorem C108_floor :
    forall limit data_names func nodep noeff f plugins k w w1 k1 k2 w2 b key batch p key' h rows r N,
    build_component limit data_names func nodep noeff f plugins k w = (w1, k1, Ok tt) ->
    later k1 w1 k2 w2 -> binning_ok b -> counted selected k2 batch N -> 0 < N ->
    get (k_rate k2) p = Some (Fin r) ->
    hist_in true b k2 w2 key batch p = Ok (key', h) -> sim_in k2 key batch p = Ok (key', rows) ->
    rows <> [] -> efficiency_ok (k_noeff k2) rows ->
    h = map (fun P => Fin (r * Rmax (eff_sum (k_noeff k2) P rows)
              (eps + eff_sum (k_noeff k2) (fun _ => true) rows / INR (List.length rows)) / N)) (bins_of b).
  Proof.
    intros limit dn func nodep noeff f plugins k w w1 k1 k2 w2 b key batch p key' h rows r N
      H Hl Hb Hc HN Hr Hh Hs Hne Hok.
    destruct (later_alone _ _ _ _ (build_alone _ _ _ _ _ _ _ _ _ _ _ H) Hl) as [Ha _].
    destruct (counted_number _ _ _ _ _ Ha Hc) as (m & Hm & Hn).
    exact (on_sim_floor oor (mk_cnum (k_rate k2) OnSim true (k_noeff k2) b (mcinput_of selected k2 w2)) (sim_in k2) key batch p key' h rows m r N Hb eq_refl eq_refl Hm Hn HN Hr Hh Hs Hne Hok).
  Qed.

  (** There is a histogram whenever the simulation suits the binning, the rate is given and the
      events are counted. *)
  Theorem C108_exists :
    forall limit data_names func nodep noeff f plugins k w w1 k1 k2 w2 eps b key batch p key' rows r N,
    build_component limit data_names func nodep noeff f plugins k w = (w1, k1, Ok tt) ->
    later k1 w1 k2 w2 -> binning_ok b -> counted selected k2 batch N ->
    get (k_rate k2) p = Some r -> sim_in k2 key batch p = Ok (key', rows) ->
    (forall x, In x rows -> List.length x = (ndim b + if k_noeff k2 then 0 else 1)%nat) ->
    exists h, hist_in eps b k2 w2 key batch p = Ok (key', h).
  Proof.
    intros limit dn func nodep noeff f plugins k w w1 k1 k2 w2 eps b key batch p key' rows r N H Hl Hb Hc Hr Hs Hw.
    destruct (later_alone _ _ _ _ (build_alone _ _ _ _ _ _ _ _ _ _ _ H) Hl) as [Ha _].
    destruct (counted_number _ _ _ _ _ Ha Hc) as (m & Hm & _). unfold simulate_hist_in.
    destruct (hist_decided oor (mk_cnum (k_rate k2) OnSim eps (k_noeff k2) b (mcinput_of selected k2 w2))
      (sim_in k2) key batch p key' rows Hb Hs Hw) as (h0 & ->).
    cbn [n_norm n_rate n_mcinput get_normalization]. rewrite Hm, Hr. eauto.
  Qed.

  (** The compiled function calls the class that provides energy if an output needs it. *)
  Theorem C108_called :
    forall limit data_names func nodep noeff f plugins k w w1 k1 p,
    unique_names (k_registry k) ->
    build_component limit data_names func nodep noeff f plugins k w = (w1, k1, Ok tt) ->
    Reach (k_registry k) nodep (output_names data_names noeff) "energy" ->
    get "energy" (k_registry k) = Some p -> exists i, calls_instance k1 p i.
  Proof.
    intros limit dn func nodep noeff f plugins k w w1 k1 p Hu H Hr Hg.
    destruct (compiled_instances _ _ _ _ _ _ _ _ _ _ _ Hu H) as (pr & cl & _ & Hs & _ & Hi).
    destruct (Hi _ _ Hr Hg) as (i & Hi1 & _). exists i, cl. split; [exact Hs|].
    destruct (built_before _ _ _ _ _ _ _ _ _ _ _ H) as (w0 & k0 & Hc & _ & Hd).
    destruct (deduce_ok_inv _ _ _ _ _ _ _ _ _ Hd) as
      (deps & c1 & needed & D1 & D2 & D3 & D4 & D5 & D6 & D7 & D8 & D9 & _).
    destruct (compile_fields _ _ _ _ _ _ Hc) as (cl0 & ->). cbn [k_name]. rewrite D9. exact Hi1.
  Qed.

  (** A component that has been deduced, but not compiled since it was made, has no histogram. *)
  Theorem C108_not_compiled : forall limit data_names func nodep noeff k w w1 k1 r eps b key batch p,
    k_simulate k = None -> deduce limit data_names func nodep noeff k w = (w1, k1, r) ->
    hist_in eps b k1 w1 key batch p = Err AttributeError.
  Proof.
    intros limit dn func nodep noeff k w w1 k1 r eps b key batch p Hk H. pose proof (deduce_keeps_simulate limit dn func nodep noeff k w) as E.
    rewrite H, Hk in E. cbn [fst snd] in E. unfold simulate_hist_in, sim_hist, rows_of. rewrite E. reflexivity.
  Qed.

  (** Without a provider of energy there is no histogram normalised on the simulation. *)
  Theorem C108_no_energy_refuted :
    forall k w eps b key batch p key' rows,
    get "energy" (k_registry k) = None -> binning_ok b -> sim_in k key batch p = Ok (key', rows) ->
    (forall x, In x rows -> List.length x = (ndim b + if k_noeff k then 0 else 1)%nat) ->
    hist_in eps b k w key batch p = Err KeyError.
  Proof.
    intros k w eps b key batch p key' rows He Hb Hs Hw. unfold simulate_hist_in.
    destruct (hist_decided oor (mk_cnum (k_rate k) OnSim eps (k_noeff k) b (mcinput_of selected k w))
      (sim_in k) key batch p key' rows Hb Hs Hw) as (h0 & ->).
    cbn [n_norm n_rate n_mcinput get_normalization]. unfold mcinput_of. rewrite He. reflexivity.
  Qed.

  (** Nor with a bootstrap that is registered but that no output needs, *)
  Theorem C108_unused_refuted :
    forall limit data_names func nodep noeff f plugins k w w1 k1 k2 w2 eps b key batch p key' rows q a c,
    build_component limit data_names func nodep noeff f plugins k w = (w1, k1, Ok tt) ->
    later k1 w1 k2 w2 -> get "energy" (k_registry k) = Some q -> p_name q = (a ++ "Bootstrap" ++ c)%string ->
    (forall i, ~ calls_instance k2 q i) -> binning_ok b -> sim_in k2 key batch p = Ok (key', rows) ->
    (forall x, In x rows -> List.length x = (ndim b + if k_noeff k2 then 0 else 1)%nat) ->
    hist_in eps b k2 w2 key batch p = Err KeyError.
  Proof.
    intros limit dn func nodep noeff f plugins k w w1 k1 k2 w2 eps b key batch p key' rows q a c
      H Hl Hq Hn Hi Hb Hs Hw.
    destruct (later_alone _ _ _ _ (build_alone _ _ _ _ _ _ _ _ _ _ _ H) Hl) as (Ha & Hreg & _).
    destruct (built_before _ _ _ _ _ _ _ _ _ _ _ H) as (w0 & k0 & Hc & _ & Hd).
    destruct (deduce_ok_inv _ _ _ _ _ _ _ _ _ Hd) as
      (deps & c1 & needed & D1 & D2 & D3 & D4 & D5 & D6 & D7 & _).
    destruct (compile_fields _ _ _ _ _ _ Hc) as (cl0 & ->). cbn [k_registry] in Hreg. rewrite D7 in Hreg.
    unfold simulate_hist_in.
    destruct (hist_decided oor (mk_cnum (k_rate k2) OnSim eps (k_noeff k2) b (mcinput_of selected k2 w2))
      (sim_in k2) key batch p key' rows Hb Hs Hw) as (h0 & ->).
    cbn [n_norm n_rate n_mcinput get_normalization].
    rewrite (alone_unused selected k2 w2 q Ha); [reflexivity|congruence|eauto|exact Hi].
  Qed.

  (** nor, with a bootstrap, after clear_cache: the simulation still runs, its histogram does not. *)
  Theorem C108_cleared_refuted :
    forall k w eps b key batch p key' rows q a c,
    get "energy" (k_registry k) = Some q -> p_name q = (a ++ "Bootstrap" ++ c)%string ->
    binning_ok b -> sim_in k key batch p = Ok (key', rows) ->
    (forall x, In x rows -> List.length x = (ndim b + if k_noeff k then 0 else 1)%nat) ->
    hist_in eps b k (clear_cache w) key batch p = Err KeyError.
  Proof.
    intros k w eps b key batch p key' rows q a c Hq Hn Hb Hs Hw. unfold simulate_hist_in.
    destruct (hist_decided oor (mk_cnum (k_rate k) OnSim eps (k_noeff k) b (mcinput_of selected k (clear_cache w)))
      (sim_in k) key batch p key' rows Hb Hs Hw) as (h0 & ->).
    cbn [n_norm n_rate n_mcinput get_normalization]. unfold mcinput_of. rewrite Hq.
    replace (has_bootstrap (p_name q)) with true by (symmetry; apply has_bootstrap_spec; eauto). reflexivity.
  Qed.

  (** A component built after clear_cache under the same likelihood and with the same name takes the
      place: a histogram of the first is divided by the events counted for the second. *)
  Theorem C108_taken_over_refuted :
    forall limit data_names func nodep noeff f plugins k w w1 k1 k0 b key batch p key' h rows r q a c i n,
    build_component limit data_names func nodep noeff f plugins k w = (w1, k1, Ok tt) ->
    k_llh k0 = k_llh k1 -> k_name k0 = k_name k1 -> k_registry k0 = k_registry k1 ->
    get "energy" (k_registry k1) = Some q -> p_name q = (a ++ "Bootstrap" ++ c)%string ->
    calls_instance k1 q i -> selected i = Ok (Fin n) -> 0 < n -> binning_ok b ->
    get (k_rate k0) p = Some (Fin r) ->
    hist_in false b k0 w1 key batch p = Ok (key', h) -> sim_in k0 key batch p = Ok (key', rows) ->
    efficiency_ok (k_noeff k0) rows ->
    h = map (fun P => Fin (r * eff_sum (k_noeff k0) P rows / n)) (bins_of b).
  Proof.
    intros limit dn func nodep noeff f plugins k w w1 k1 k0 b key batch p key' h rows r q a c i n
      H Hl Hn Hreg Hq Hb Hi Hs Hn0 Hbn Hr Hh Hrow Hok.
    assert (E : mcinput_of selected k0 w1 = Ok (Some (Fin n))).
    { pose proof (alone_number selected k1 w1 q i (build_alone _ _ _ _ _ _ _ _ _ _ _ H) Hq) as E.
      rewrite Hs in E. rewrite <- E by eauto. unfold mcinput_of. rewrite Hl, Hn, Hreg. reflexivity. }
    exact (on_sim_bins oor (mk_cnum (k_rate k0) OnSim false (k_noeff k0) b (mcinput_of selected k0 w1)) (sim_in k0) key batch p key' h rows (Some (Fin n)) r n Hbn eq_refl eq_refl E eq_refl Hn0 Hr Hh Hrow Hok).
  Qed.
End OnSim.

(** A fixed component has no plugins: normalised on the simulation it has no histogram. *)
Theorem C108_fixed_refuted : forall oor c data p,
  n_norm c = OnSim -> binning_ok (n_bins c) -> fixed_hist oor c data p = Err AttributeError.
Proof.
  intros oor c data p Hn Hb. unfold fixed_hist, fixed_deduce, implement_binning.
  rewrite plain_hist_binned by exact Hb. rewrite Hn. reflexivity.
Qed.

(** An energy bootstrap that reads how many events to select from the configuration. *)
Definition pB := mk_plugin "EnergyBootstrap" ["energy"] ["batch_size"] [] [("w", num_cf)]
  ["self"; "key"; "parameters"; "batch_size"].
Definition boot_plugins (n : string) : option plugin :=
  List.find (fun p => String.eqb (p_name p) n) [pB; pQ; pS1; pS2; pF; pX].
Definition boot_k : component :=
  mk_component "er" "llh" "er_rate" (registry_after [[pB; pQ]; [pS1; pX]; [pS2; pF]]) false [] [] "" None None None.
Definition boot_build (data_names : list string) := build_component 20 data_names "simulate" "batch_size" false
  all_files boot_plugins boot_k.
Definition boot_selected (i : instance) : result fl :=
  match i_built i with
  | bu :: _ => match b_values bu with [VNum z] => Ok (Fin (IZR z)) | _ => Err AttributeError end
  | [] => Err AttributeError
  end.
(** Every function simulates three events, one of them out of the bins. *)
Definition boot_rows : list (list fl) := [[Fin (1/2); Fin 1]; [Fin (3/2); Fin (1/2)]; [Fin 5; Fin 1]].
Definition boot_rsem (cl : closure) (key batch : nat) (p : params) : result (nat * list (list fl)) :=
  Ok (S key, boot_rows).
Definition boot_params : params := [("er_rate", Fin 20)].

Lemma boot_rows_ok : efficiency_ok false boot_rows.
Proof.
  intros r Hr. repeat (destruct Hr as [<-|Hr]; [eexists; split; [reflexivity|lra]|]). destruct Hr.
Qed.

Lemma boot_bins P : eff_sum false P boot_rows =
  (if P [Fin (1/2)] then 1 else 0) + (if P [Fin (3/2)] then 1/2 else 0) + (if P [Fin 5] then 1 else 0).
Proof.
  unfold eff_sum, boot_rows. cbn [filter map sim_event event observables removelast fst snd weight last].
  destruct (P [Fin (1/2)]), (P [Fin (3/2)]), (P [Fin 5]); cbn; lra.
Qed.

(** Ten events are selected: the bins hold 20 * 1/10 and 20 * 1/2 / 10. The configuration is changed
    afterwards and another component is built; the same instance counts. *)
Definition boot_later (w : world) : world :=
  wrun [OConfig all_files [("w", VNum 4)]; ODeduce 20 ["cs1"] "simulate" "batch_size" false
          (mk_component "er" "other" "er_rate" (k_registry boot_k) false [] [] "" None None None)] w.
Example C108_bins_case : exists w1 k1 w2 cl i h,
  boot_build ["cs1"] (fst (set_config all_files [("w", VNum 10)] init_world)) = (w1, k1, Ok tt) /\
  w2 = boot_later w1 /\
  later k1 w1 k1 w2 /\ w_fn w2 <> w_fn w1 /\
  k_simulate k1 = Some cl /\ get "EnergyBootstrap_er" (cl_insts cl) = Some i /\ boot_selected i = Ok (Fin 10) /\
  counted boot_selected k1 7 10 /\
  simulate_hist_in boot_selected nat no_row boot_rsem OnSim false two_bins k1 w2 3%nat 7%nat boot_params = Ok (4%nat, h) /\
  h = [Fin 2; Fin 1].
Proof.
  destruct (boot_build ["cs1"] (fst (set_config all_files [("w", VNum 10)] init_world))) as [[w1 k1] r1] eqn:E.
  assert (Hr : r1 = Ok tt) by (transitivity (snd (boot_build ["cs1"] (fst (set_config all_files [("w", VNum 10)] init_world)))); [rewrite E; reflexivity|vm_compute; reflexivity]).
  subst r1.
  set (w2 := boot_later w1). exists w1, k1, w2.
  assert (Hl : later k1 w1 k1 w2).
  { unfold w2, boot_later, wrun. cbn [fold_left]. apply la_other; [|exact I]. apply la_other; [|exact I]. constructor. }
  assert (Hc : exists cl i, k_simulate k1 = Some cl /\ get "EnergyBootstrap_er" (cl_insts cl) = Some i /\ boot_selected i = Ok (Fin 10)).
  { vm_compute in E. injection E as <- <-. do 2 eexists. split; [reflexivity|]. split; reflexivity. }
  destruct Hc as (cl & i & Hcl & Hi & Hsel).
  assert (Hk : k_registry k1 = k_registry boot_k /\ k_name k1 = "er" /\ k_noeff k1 = false /\ k_rate k1 = "er_rate").
  { vm_compute in E. injection E as <- <-. vm_compute. auto. }
  destruct Hk as (Hreg & Hname & Hne & Hrate).
  assert (Hco : counted boot_selected k1 7 10).
  { apply (co_bootstrap _ _ _ pB "Energy" "" i); [rewrite Hreg; reflexivity|reflexivity| |exact Hsel].
    exists cl. split; [exact Hcl|]. rewrite Hname. exact Hi. }
  assert (Hw : forall x, In x boot_rows -> List.length x = (ndim two_bins + if k_noeff k1 then 0 else 1)%nat).
  { rewrite Hne. intros x Hx. repeat (destruct Hx as [<-|Hx]; [reflexivity|]). destruct Hx. }
  assert (Hs : rows_of nat boot_rsem k1 3%nat 7%nat boot_params = Ok (4%nat, boot_rows)).
  { unfold rows_of. rewrite Hcl. reflexivity. }
  assert (Hp : get (k_rate k1) boot_params = Some (Fin 20)) by (rewrite Hrate; reflexivity).
  destruct (C108_exists boot_selected no_row boot_rsem _ _ _ _ _ _ _ _ _ _ _ _ _ false two_bins 3%nat 7%nat boot_params 4%nat
              boot_rows _ _ E Hl two_bins_ok Hco Hp Hs Hw) as (h & Hh).
  exists cl, i, h. repeat (split; [assumption || reflexivity|]).
  split; [vm_compute in E; injection E as <- <-; vm_compute; discriminate|].
  repeat (split; [assumption|]).
  rewrite (C108_bins boot_selected no_row boot_rsem _ _ _ _ _ _ _ _ _ _ _ _ _ two_bins 3%nat 7%nat boot_params 4%nat h
              boot_rows 20 10 E Hl two_bins_ok Hco ltac:(lra) Hp Hh Hs ltac:(rewrite Hne; exact boot_rows_ok)).
  rewrite Hne. unfold bins_of, two_bins, bin_numbers. cbn [List.length Nat.sub seq map]. rewrite !boot_bins.
  unfold right_bin, in_bin, edge, obs. cbn. fl_dec. repeat f_equal; lra.
Qed.

Example C108_not_compiled_case : exists w1 k1, k_simulate boot_k = None /\
  deduce 20 ["cs1"] "simulate" "batch_size" false boot_k init_world = (w1, k1, Ok tt) /\ k_code k1 <> None.
Proof. do 2 eexists. split; [reflexivity|]. split; [vm_compute; reflexivity|]. cbn. discriminate. Qed.

Lemma boot_width x : In x boot_rows -> List.length x = (ndim two_bins + if false then 0 else 1)%nat.
Proof. intros Hx. repeat (destruct Hx as [<-|Hx]; [reflexivity|]). destruct Hx. Qed.

(** The energy is needed for cs1 in this graph. *)
Example C108_called_case : unique_names (k_registry boot_k) /\
  Reach (k_registry boot_k) "batch_size" (output_names ["cs1"] false) "energy" /\
  get "energy" (k_registry boot_k) = Some pB.
Proof.
  split; [|split; [|reflexivity]].
  - intros d p e q Hd He Hn. apply get_In in Hd, He.
    assert (Hreg : k_registry boot_k = [("energy", pB); ("ph", pQ); ("el", pQ); ("cs1", pS1); ("zzz", pX);
                       ("cs2", pS2); ("eff", pF)]) by (vm_compute; reflexivity).
    rewrite Hreg in Hd, He. cbn [In] in Hd, He.
    repeat (destruct Hd as [Hd|Hd]; [injection Hd as <- <-;
      repeat (destruct He as [He|He]; [injection He as <- <-; (reflexivity || discriminate)|]); destruct He|]).
    destruct Hd.
  - eapply Reach_dep with (d := "ph") (p := pQ); [|reflexivity|left; reflexivity|discriminate].
    eapply Reach_dep with (d := "cs1") (p := pS1); [|reflexivity|left; reflexivity|discriminate].
    constructor; [left; reflexivity|discriminate].
Qed.

(** The histogram after clear_cache, and after a second component took the place of the first: its
    four selected events are used for the first, which still simulates with ten. *)
Example C108_taken_over_case : exists w1 k1 w2 k2 i1 h,
  boot_build ["cs1"] (fst (set_config all_files [("w", VNum 10)] init_world)) = (w1, k1, Ok tt) /\
  calls_instance k1 pB i1 /\ boot_selected i1 = Ok (Fin 10) /\
  simulate_hist_in boot_selected nat no_row boot_rsem OnSim false two_bins k1 (clear_cache w1) 3%nat 7%nat boot_params
    = Err KeyError /\
  boot_build ["cs1"] (fst (set_config all_files [("w", VNum 4)] (clear_cache w1))) = (w2, k2, Ok tt) /\
  simulate_hist_in boot_selected nat no_row boot_rsem OnSim false two_bins k1 w2 3%nat 7%nat boot_params = Ok (4%nat, h) /\
  h = [Fin 5; Fin (5/2)].
Proof.
  destruct (boot_build ["cs1"] (fst (set_config all_files [("w", VNum 10)] init_world))) as [[w1 k1] r1] eqn:E.
  vm_compute in E. injection E as <- <- <-.
  do 4 eexists. eexists. eexists. split; [reflexivity|].
  split; [eexists; split; reflexivity|]. split; [reflexivity|]. split.
  { eapply C108_cleared_refuted with (q := pB) (a := "Energy") (c := ""); [reflexivity|reflexivity|apply two_bins_ok|reflexivity|exact boot_width]. }
  split; [vm_compute; reflexivity|]. split.
  - unfold simulate_hist_in, sim_hist. cbn [n_bins n_no_eff n_add_eps n_norm n_rate n_mcinput k_noeff].
    unfold rows_of. cbn [k_simulate]. unfold boot_rsem. cbn [split_rows boot_rows map removelast last].
    cbn [forallb List.length ndim two_bins Nat.eqb andb]. unfold implement_binning.
    change (BIrreg1 [Fin 0; Fin 1; Fin 2]) with two_bins. rewrite plain_hist_binned by apply two_bins_ok.
    match goal with |- context [mcinput_of ?a ?b ?c] => assert (Em : mcinput_of a b c = Ok (Some (Fin 4))) by (vm_compute; reflexivity) end.
    rewrite Em. cbn [get_normalization k_rate get boot_params]. reflexivity.
  - cbn [combine]. unfold two_bins. unfold fdiv. rewrite finv_Fin by lra. bins_eval.
    cbv [scale map fmul fadd fsum fold_right]. f_equal; [f_equal; lra|]. f_equal. f_equal. lra.
Qed.

(** A bootstrap that is registered but not needed. *)
Definition pLone := mk_plugin "Lone" ["lone"; "eff"] ["batch_size"] [] [] ["self"; "key"; "parameters"; "batch_size"].
Definition lone_k : component :=
  mk_component "er" "llh" "er_rate" (registry_after [[pB; pLone]]) false [] [] "" None None None.
Definition lone_build := build_component 20 ["lone"] "simulate" "batch_size" false all_files
  (fun n => List.find (fun p => String.eqb (p_name p) n) [pB; pLone]) lone_k init_world.
Example C108_unused_case : exists w1 k1, lone_build = (w1, k1, Ok tt) /\
  (forall i, ~ calls_instance k1 pB i) /\
  rows_of nat boot_rsem k1 3%nat 7%nat boot_params = Ok (4%nat, boot_rows) /\
  simulate_hist_in boot_selected nat no_row boot_rsem OnSim true two_bins k1 w1 3%nat 7%nat boot_params = Err KeyError.
Proof.
  destruct lone_build as [[w1 k1] r1] eqn:E. pose proof E as E0. vm_compute in E. injection E as <- <- <-.
  do 2 eexists. split; [reflexivity|].
  assert (Hi : forall i, ~ calls_instance (snd (fst lone_build)) pB i).
  { rewrite E0. intros i (cl & H1 & H2). injection H1 as <-. vm_compute in H2. discriminate. }
  rewrite E0 in Hi. split; [exact Hi|]. split; [reflexivity|].
  eapply (C108_unused_refuted boot_selected no_row boot_rsem _ _ _ _ _ _ _ _ _ _ _ _ _ _ _ _ _ _ _ _ pB "Energy" "" E0
    (la_here _ _) eq_refl eq_refl Hi two_bins_ok eq_refl boot_width).
Qed.

(** With the floor the total may exceed the rate: one event, counted as one, is put in both bins. *)
Definition one_rsem (cl : closure) (key batch : nat) (p : params) : result (nat * list (list fl)) :=
  Ok (S key, [[Fin (1/2); Fin 1]]).
Theorem C108_floor_total_refuted : exists w1 k1 h t,
  demo_build init_world = (w1, k1, Ok tt) /\ counted boot_selected k1 1 1 /\
  rows_of nat one_rsem k1 3%nat 1%nat boot_params = Ok (4%nat, [[Fin (1/2); Fin 1]]) /\
  simulate_hist_in boot_selected nat no_row one_rsem OnSim true two_bins k1 w1 3%nat 1%nat boot_params = Ok (4%nat, h) /\
  fsum h = Fin t /\ 2 * 20 < t.
Proof.
  destruct (demo_build init_world) as [[w1 k1] r1] eqn:E.
  assert (Hr : r1 = Ok tt) by (transitivity (snd (demo_build init_world)); [rewrite E; reflexivity|vm_compute; reflexivity]).
  subst r1.
  assert (Hk : k_registry k1 = k_registry demo_k /\ k_noeff k1 = false /\ k_rate k1 = "er_rate" /\ k_simulate k1 <> None).
  { vm_compute in E. injection E as <- <-. vm_compute. repeat split; discriminate. }
  destruct Hk as (Hreg & Hne & Hrate & Hsim).
  assert (Hco : counted boot_selected k1 1 1).
  { change 1 with (INR 1). constructor. apply use_mcinput_false. unfold use_mcinput. rewrite Hreg. reflexivity. }
  assert (Hs : rows_of nat one_rsem k1 3%nat 1%nat boot_params = Ok (4%nat, [[Fin (1/2); Fin 1]])).
  { unfold rows_of. destruct (k_simulate k1); [reflexivity|contradiction]. }
  assert (Hw : forall x, In x [[Fin (1/2); Fin 1]] -> List.length x = (ndim two_bins + if k_noeff k1 then 0 else 1)%nat).
  { rewrite Hne. intros x [<-|[]]. reflexivity. }
  assert (Hp : get (k_rate k1) boot_params = Some (Fin 20)) by (rewrite Hrate; reflexivity).
  assert (Hok : efficiency_ok (k_noeff k1) [[Fin (1/2); Fin 1]]).
  { rewrite Hne. intros r [<-|[]]. exists 1. split; [reflexivity|lra]. }
  destruct (C108_exists boot_selected no_row one_rsem _ _ _ _ _ _ _ _ _ _ _ _ _ true two_bins 3%nat 1%nat boot_params 4%nat
              _ _ _ E (la_here _ _) two_bins_ok Hco Hp Hs Hw) as (h & Hh).
  pose proof (C108_floor boot_selected no_row one_rsem _ _ _ _ _ _ _ _ _ _ _ _ _ two_bins 3%nat 1%nat boot_params 4%nat h
              _ 20 1 E (la_here _ _) two_bins_ok Hco ltac:(lra) Hp Hh Hs ltac:(discriminate) Hok) as Hv.
  exists w1, k1, h.
  assert (Hfl : forall x, Rmax x (eps + eff_sum (k_noeff k1) (fun _ => true) [[Fin (1/2); Fin 1]] / INR (List.length [[Fin (1/2); Fin 1]])) >= 1 + eps).
  { intros x. apply Rle_ge. eapply Rle_trans; [|apply Rmax_r]. rewrite Hne. unfold eff_sum. cbn. lra. }
  unfold bins_of, two_bins, bin_numbers in Hv. cbn [List.length Nat.sub seq map] in Hv.
  pose proof eps_pos as He.
  match type of Hv with h = [Fin (20 * Rmax ?x1 ?y / 1); Fin (20 * Rmax ?x2 _ / 1)] =>
    pose proof (Hfl x1) as H1; pose proof (Hfl x2) as H2;
    exists (20 * Rmax x1 y / 1 + (20 * Rmax x2 y / 1 + 0)) end.
  repeat (split; [assumption || reflexivity|]). split; [rewrite Hv; cbv [fsum fold_right fadd]; reflexivity|]. cbn [List.length] in *. lra.
Qed.

(** No provider of energy at all, and a fixed sample. *)
Example C108_no_energy_case :
  let k := mk_component "er" "llh" "er_rate" (registry_after [[pLone]]) false [] [] "" None None None in
  exists w1 k1, build_component 20 ["lone"] "simulate" "batch_size" false all_files
    (fun n => List.find (fun p => String.eqb (p_name p) n) [pLone]) k init_world = (w1, k1, Ok tt) /\
  rows_of nat boot_rsem k1 3%nat 7%nat boot_params = Ok (4%nat, boot_rows) /\
  simulate_hist_in boot_selected nat no_row boot_rsem OnSim true two_bins k1 w1 3%nat 7%nat boot_params = Err KeyError.
Proof.
  cbn zeta. do 2 eexists. split; [vm_compute; reflexivity|]. split; [reflexivity|].
  eapply C108_no_energy_refuted; [reflexivity|apply two_bins_ok|reflexivity|exact boot_width].
Qed.
Example C108_fixed_case :
  let c norm := mk_cnum "er_rate" norm false false two_bins (Ok None) in
  fixed_hist no_row (c OnSim) [[Fin (1/2)]] boot_params = Err AttributeError /\
  exists h, fixed_hist no_row (c OnPdf) [[Fin (1/2)]] boot_params = Ok h.
Proof.
  cbn zeta. split; [apply C108_fixed_refuted; [reflexivity|apply two_bins_ok]|].
  unfold fixed_hist, fixed_deduce, implement_binning. cbn [n_add_eps n_bins].
  rewrite plain_hist_binned by apply two_bins_ok. cbn. eexists. reflexivity.
Qed.

Print Assumptions C108_bins.
Print Assumptions C108_total.
Print Assumptions C108_floor.
Print Assumptions C108_exists.
Print Assumptions C108_called.
Print Assumptions C108_not_compiled.
Print Assumptions C108_no_energy_refuted.
Print Assumptions C108_unused_refuted.
Print Assumptions C108_cleared_refuted.
Print Assumptions C108_taken_over_refuted.
Print Assumptions C108_fixed_refuted.
Print Assumptions C108_floor_total_refuted.
