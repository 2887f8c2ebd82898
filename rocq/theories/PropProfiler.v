(** Property C92: the profiler. Only theorem statements closed by lemmas, their assumptions, and
    concrete instances. *)
From Coq Require Import Reals Lra Lia.
From Verif Require Import Base BaseFacts ModelFloat ModelShare ModelConfig ModelComponent SpecComponent
  SpecConfig ModelCompile SpecCompile ProofComponent ProofWorkflow ProofSim ProofCompile SpecBuild
  ProofBuild ModelLikelihood ModelProfiler SpecProfiler ProofProfiler ProofProfiler2 PropComponent PropConfig PropCompile.
Local Open Scope string_scope.
Local Open Scope list_scope.

(** profile_component of a component that has been built: the entries are those of the worksheet, and
    every plugin of the workflow is run n_warmup + n_runs times on the values that its providers
    returned last; no random key is used twice as far as the plugins return new ones (each call gets
    the key that the one before it returned). *)
Theorem C92_component :
  forall (V : Type) (isem : instance -> list V -> result (list V)) (clock : nat -> R)
    calls limit data_names func noeff f plugins k w w' k' pars batch nw nr key tick w0,
  let reg := k_registry k in
  let names := output_names data_names noeff in
  answers isem ->
  reg = registry_after calls -> unique_names reg -> consistent reg "batch_size" names ->
  build_component limit data_names func "batch_size" noeff f plugins k w = (w', k', Ok tt) ->
  (forall d p, Reach reg "batch_size" names d -> get d reg = Some p -> proper_class p) ->
  separate (used_config reg "batch_size" names) ->
  (forall cf, used_config reg "batch_size" names cf -> usable f (contents (w_cache w0)) (k_llh k) cf) ->
  0 < nw + nr ->
  exists ps w1 s1 rs (E : string -> option V),
    profile_component V isem clock f k' pars batch nw nr key tick w0 = (w1, s1, Ok rs) /\
    map (fun e => mk_work (f_plugin e) (f_provides e) (f_depends e)) rs = k_worksheet k' /\
    map work_of ps = k_worksheet k' /\
    (forall p, In p ps <-> exists d, Reach reg "batch_size" names d /\ get d reg = Some p) /\
    E "batch_size" = Some batch /\
    Profiled V isem (k_llh k) E pars (nw + nr) key ps (s_calls s1) (s_key s1).
Proof.
  intros V isem clock calls limit data_names func noeff f plugins k w w' k' pars batch nw nr key tick w0
    reg names H1 H2 H3 H4 H5 H6 H7 H8 H9.
  destruct (profile_built V isem clock calls limit data_names func noeff f plugins k w w' k' pars batch nw nr
    key tick w0 H1 H2 H3 H4 H5 H6 H7 H8 H9) as (ps & w1 & s1 & E & P1 & P2 & P3 & P4 & P5 & P6).
  exists ps, w1, s1, (entries clock tick nr ps), E. rewrite entries_works. auto 8.
Qed.

(** The times: with at least one timed run and a clock that does not go back, every mean is a
    non-negative number, and together the timed runs take no longer than the profiling; without a
    timed run the means are NaN. *)
Theorem C92_times :
  forall (V : Type) (isem : instance -> list V -> result (list V)) (clock : nat -> R)
    calls limit data_names func noeff f plugins k w w' k' pars batch nw nr key tick w0 w1 s1 rs,
  let reg := k_registry k in
  let names := output_names data_names noeff in
  answers isem ->
  reg = registry_after calls -> unique_names reg -> consistent reg "batch_size" names ->
  build_component limit data_names func "batch_size" noeff f plugins k w = (w', k', Ok tt) ->
  (forall d p, Reach reg "batch_size" names d -> get d reg = Some p -> proper_class p) ->
  separate (used_config reg "batch_size" names) ->
  (forall cf, used_config reg "batch_size" names cf -> usable f (contents (w_cache w0)) (k_llh k) cf) ->
  0 < nw + nr ->
  profile_component V isem clock f k' pars batch nw nr key tick w0 = (w1, s1, Ok rs) ->
  (nr = 0 -> forall e, In e rs -> f_mean e = NaN) /\
  (0 < nr -> (forall n, (clock n <= clock (S n))%R) ->
   exists ms, map f_mean rs = map Fin ms /\ (forall m, In m ms -> (0 <= m)%R) /\
     (INR nr * fold_right Rplus 0 ms <= 1000 * (clock (s_tick s1) - clock tick))%R).
Proof.
  intros V isem clock calls limit data_names func noeff f plugins k w w' k' pars batch nw nr key tick w0 w1 s1 rs
    reg names H1 H2 H3 H4 H5 H6 H7 H8 H9 H.
  destruct (profile_built V isem clock calls limit data_names func noeff f plugins k w w' k' pars batch nw nr
    key tick w0 H1 H2 H3 H4 H5 H6 H7 H8 H9) as (ps & w2 & s2 & E & P1 & P2 & P3 & P4 & P5 & P6).
  rewrite P3 in H. injection H as -> -> <-. split.
  - intros -> e He. pose proof (entries_not_timed clock ps tick) as Hn.
    assert (Hm : In (f_mean e) (map f_mean (entries clock tick 0 ps))) by (apply in_map; exact He).
    rewrite Hn in Hm. apply in_map_iff in Hm. destruct Hm as (_ & <- & _). reflexivity.
  - intros Hnr Hc. destruct (entries_times clock Hc nr Hnr ps tick) as (ms & E1 & E2 & E3).
    exists ms. rewrite P5. auto.
Qed.

(** Nothing to run at all: the outputs are not bound. *)
Theorem C92_no_runs :
  forall (V : Type) (isem : instance -> list V -> result (list V)) (clock : nat -> R) f k pars batch key tick w
    p ps d l c1 bs i,
  k_worksheet k = map work_of (p :: ps) -> p_provides p = d :: l -> get d (k_registry k) = Some p ->
  (forall x, In x (p_depends p) -> x = "batch_size") ->
  plugin_init f p (Some (k_llh k)) (w_cache w) = (c1, bs, Ok i) ->
  snd (profile_component V isem clock f k pars batch 0 0 key tick w) = Err UnboundLocalError.
Proof.
  intros V isem clock f k pars batch key tick w p ps d l c1 bs i Hw Hp Hg Hd Hi.
  unfold profile_component, has_worksheet. rewrite Hw. cbn [map profile_works work_of w_provides].
  rewrite Hp, Hg, Hi.
  assert (Hc : i_class i = p).
  { unfold plugin_init in Hi. destruct (p_depends p); [discriminate Hi|]. rewrite Hp in Hi.
    destruct (build_all f (map snd (p_configs p)) (Some (k_llh k)) (w_cache w)) as [[? ?] []];
      [|discriminate Hi]. destruct (sanity_check p); [|discriminate Hi].
    injection Hi as _ _ <-. reflexivity. }
  unfold profile_plugin. rewrite Hc.
  destruct (inputs_ok V [("batch_size", batch)] (p_depends p)) as (vs & Hv & _).
  { intros x Hx. left. symmetry. apply Hd, Hx. }
  rewrite Hv, Hp. reflexivity.
Qed.

(** The keys of the results: one for every simulated component, and the same as those of
    profile_full_simulation, so that compare_plugin_vs_full finds every entry. *)
Theorem C92_keys :
  forall (V : Type) (isem : instance -> list V -> result (list V)) (clock : nat -> R) as_params
    f ls pars batch nw nr fresh n tick w w' st out fresh' n2 tick2 n' t' full,
  profile_context V isem clock as_params f ls pars batch nw nr fresh n tick [] w = (w', st, Ok out) ->
  profile_full V isem clock as_params ls pars batch nw nr fresh' n2 tick2 [] = Ok (n', t', full) ->
  keys out = keys full /\
  (forall x, In x (keys out) <->
     exists l al cs c k, In (l, (al, cs)) ls /\ In (c, Some k) cs /\ x = (l ++ "/" ++ c)%string).
Proof.
  intros V isem clock as_params f ls pars batch nw nr fresh n tick w w' st out fresh' n2 tick2 n' t' full H1 H2.
  apply profile_context_keys in H1. apply profile_full_keys in H2.
  split; [rewrite H1, H2; reflexivity|]. intros x. rewrite H1, add_keys_in, all_keys_in. cbn [keys map In].
  split; [intros [[]|H]; exact H|intros H; right; exact H].
Qed.

(* ------------------------------------------------------------------ *)
(** * A concrete case *)

Lemma demo_consistent :
  consistent (k_registry demo_k) "batch_size" (output_names ["cs2"; "cs1"] false).
Proof.
  intros d p _ Hg. apply get_In in Hg. rewrite demo_registry in *. cbn [In] in Hg.
  repeat (destruct Hg as [Hg|Hg]; [injection Hg as <- <-; split;
    [repeat constructor; cbn [In]; intuition discriminate|];
    intros x Hx; cbn in Hx; repeat (destruct Hx as [<-|Hx]; [repeat split; discriminate|]); destruct Hx|]).
  destruct Hg.
Qed.

Lemma demo_configs cf : used_config (k_registry demo_k) "batch_size" (output_names ["cs2"; "cs1"] false) cf ->
  cf = num_cf \/ cf = sig_cf.
Proof.
  intros (d & p & _ & Hg & Hc). apply get_In in Hg. rewrite demo_registry in Hg. cbn [In] in Hg.
  repeat (destruct Hg as [Hg|Hg]; [injection Hg as <- <-; cbn in Hc; intuition congruence|]). destruct Hg.
Qed.

(** Five plugins, one run to warm up and two that are timed: 15 calls, the last key is 15, and the
    means of Energy and Eff come from the readings of the clock around their own runs. *)
Example C92_instance : forall clock : nat -> R, exists w' k',
  demo_build init_world = (w', k', Ok tt) /\
  answers demo_isem /\
  k_registry demo_k = registry_after demo_calls /\ unique_names (k_registry demo_k) /\
  consistent (k_registry demo_k) "batch_size" (output_names ["cs2"; "cs1"] false) /\
  (forall d p, Reach (k_registry demo_k) "batch_size" (output_names ["cs2"; "cs1"] false) d ->
     get d (k_registry demo_k) = Some p -> proper_class p) /\
  separate (used_config (k_registry demo_k) "batch_size" (output_names ["cs2"; "cs1"] false)) /\
  (forall cf, used_config (k_registry demo_k) "batch_size" (output_names ["cs2"; "cs1"] false) cf ->
     usable all_files (contents (w_cache w')) (k_llh demo_k) cf) /\
  exists w1 s1 rs, profile_component nat demo_isem clock all_files k' 0 7 1 2 0 0 w' = (w1, s1, Ok rs) /\
    List.length (s_calls s1) = 15 /\ s_key s1 = 15 /\ s_tick s1 = 20 /\
    map f_plugin rs = ["Energy"; "Quanta"; "S2"; "S1"; "Eff"] /\
    nth 0 (map f_mean rs) NaN = mean_time [((clock 1%nat - clock 0%nat) * 1000)%R; ((clock 3%nat - clock 2%nat) * 1000)%R] /\
    nth 4 (map f_mean rs) NaN = mean_time [((clock 17%nat - clock 16%nat) * 1000)%R; ((clock 19%nat - clock 18%nat) * 1000)%R].
Proof.
  intros clock. do 2 eexists. split; [vm_compute; reflexivity|].
  split.
  { intros i args H. destruct args as [|x [|y args]]; try discriminate H.
    do 2 eexists. split; [reflexivity|]. rewrite map_length, seq_length. reflexivity. }
  split; [reflexivity|]. split; [exact demo_unique|]. split; [exact demo_consistent|].
  split.
  { intros d p _ Hg. apply get_In in Hg. rewrite demo_registry in Hg. cbn [In] in Hg.
    repeat (destruct Hg as [Hg|Hg]; [injection Hg as <- <-; split; [discriminate|split; [discriminate|]];
      exists "self", []; reflexivity|]). destruct Hg. }
  split.
  { split.
    - intros a b Ha Hb. apply demo_configs in Ha. apply demo_configs in Hb.
      destruct Ha as [->| ->], Hb as [->| ->]; auto; right; cbn; intros n H1 H2;
      repeat (destruct H1 as [<-|H1]; [repeat (destruct H2 as [H2|H2]; [discriminate H2|]); exact H2|]); destruct H1.
    - intros a Ha. apply demo_configs in Ha. destruct Ha as [->| ->]; cbn; intros H;
      repeat (destruct H as [H|H]; [discriminate H|]); exact H. }
  split.
  { intros cf Hc. apply demo_configs in Hc. destruct Hc as [->| ->]; cbn.
    - eexists; reflexivity.
    - split.
      + exists sig_default, "m.json", "l.json", "u.json". split; [reflexivity|].
        split; [constructor|]. unfold found, path_of. repeat split; try (eexists; reflexivity);
        cbn; auto.
      + exists sig_default, "m.json", "l.json", "u.json". split; [reflexivity|constructor]. }
  do 3 eexists. split; [vm_compute; reflexivity|]. repeat split.
Qed.

(* ------------------------------------------------------------------ *)
(** * What does not hold *)

(** The class is looked up by the first name of an entry. If a plugin that is registered later provides
    that name, too, then simulate works with the plugin of the worksheet (for its other name), but the
    profiler runs the other one in its place and fails. *)
Definition pA := mk_plugin "A" ["a"; "b"] ["batch_size"] [] [] ["self"; "key"; "parameters"; "batch_size"].
Definition pB := mk_plugin "B" ["a"] ["batch_size"] [] [] ["self"; "key"; "parameters"; "batch_size"].
Definition pC := mk_plugin "C" ["c"] ["b"] [] [] ["self"; "key"; "parameters"; "b"].
Definition ab_plugins (n : string) : option plugin :=
  List.find (fun p => String.eqb (p_name p) n) [pA; pB; pC].
Theorem C92_shared_name_refuted : forall clock : nat -> R, exists k w' k',
  k_registry k = registry_after [[pA]; [pB]; [pC]] /\
  build_component 20 ["c"] "simulate" "batch_size" true all_files ab_plugins k init_world = (w', k', Ok tt) /\
  map w_plugin (k_worksheet k') = ["A"; "C"] /\
  simulate nat demo_isem k' 0 7 0 = Ok (2, [13]) /\
  snd (profile_component nat demo_isem clock all_files k' 0 7 1 2 0 0 w') = Err KeyError.
Proof.
  intros clock.
  exists (mk_component "er" "llh" "" (registry_after [[pA]; [pB]; [pC]]) false [] [] "" None None None).
  do 2 eexists. split; [reflexivity|]. split; [vm_compute; reflexivity|]. repeat split.
Qed.

(** A plugin registered after the build is run by the profiler, under the name of the one that simulate
    runs. *)
Definition pA1 := mk_plugin "A" ["a"] ["batch_size"] [] [] ["self"; "key"; "parameters"; "batch_size"].
Theorem C92_later_registration_refuted : forall clock : nat -> R, exists k w' k' k2 cl w1 s1 rs,
  build_component 20 ["a"] "simulate" "batch_size" true all_files
    (fun n => if String.eqb n "A" then Some pA1 else Some pB) k init_world = (w', k', Ok tt) /\
  k2 = mk_component (k_name k') (k_llh k') (k_rate k') (registry_after [[pA1]; [pB]]) (k_noeff k')
         (k_worksheet k') (k_needed k') (k_func k') (k_code k') (k_compile k') (k_simulate k') /\
  registry_after [[pA1]] = k_registry k' /\
  k_simulate k2 = Some cl /\ map (fun ni => i_class (snd ni)) (cl_insts cl) = [pA1] /\
  profile_component nat demo_isem clock all_files k2 0 7 1 0 0 0 w' = (w1, s1, Ok rs) /\
  map f_plugin rs = ["A"] /\ map (fun c => i_class (fst c)) (s_calls s1) = [pB].
Proof.
  intros clock.
  exists (mk_component "er" "llh" "" (registry_after [[pA1]]) false [] [] "" None None None).
  do 7 eexists. split; [vm_compute; reflexivity|]. split; [reflexivity|].
  split; [reflexivity|]. split; [reflexivity|]. split; [reflexivity|].
  split; [vm_compute; reflexivity|]. split; reflexivity.
Qed.

(** After set_config without a new build, the profiler runs plugins with the new value, simulate runs
    those with the old one. *)
Theorem C92_set_config_refuted : forall clock : nat -> R, exists w' k' cl i w1 s1 rs j,
  demo_build init_world = (w', k', Ok tt) /\
  k_simulate k' = Some cl /\ get "Quanta_er" (cl_insts cl) = Some i /\ config_value i num_cf [VNum 13] /\
  profile_component nat demo_isem clock all_files k' 0 7 1 0 0 0
    (fst (set_config all_files [("w", VNum 21)] w')) = (w1, s1, Ok rs) /\
  nth_error (map fst (s_calls s1)) 1 = Some j /\ i_class j = i_class i /\ config_value j num_cf [VNum 21].
Proof.
  intros clock. do 8 eexists. split; [vm_compute; reflexivity|]. split; [reflexivity|].
  split; [reflexivity|]. split; [exists 0; split; reflexivity|].
  split; [vm_compute; reflexivity|]. split; [reflexivity|]. split; [reflexivity|].
  exists 0; split; reflexivity.
Qed.

(** Two components whose names agree once joined with a slash share one entry. *)
Theorem C92_slash_refuted : forall clock : nat -> R, exists w' k' ls w1 st out,
  demo_build init_world = (w', k', Ok tt) /\
  ls = [("a", ([], [("b/c", Some k')])); ("a/b", ([], [("c", Some k')]))] /\
  profile_context nat demo_isem clock (fun _ => 0) all_files ls [] 7 1 0 (fun n => n) 0 0 [] w'
    = (w1, st, Ok out) /\
  keys out = ["a/b/c"].
Proof.
  intros clock. do 6 eexists. split; [vm_compute; reflexivity|]. split; [reflexivity|].
  split; [vm_compute; reflexivity|]. reflexivity.
Qed.

(** The entry of the j-th plugin: mean and standard deviation of its timed runs, each measured by two
    readings of the clock right before and after the call; no reading is used twice. *)
Theorem C92_statistics :
  forall (V : Type) (isem : instance -> list V -> result (list V)) (clock : nat -> R)
    calls limit data_names func noeff f plugins k w w' k' pars batch nw nr key tick w0 w1 s1 rs,
  let reg := k_registry k in
  let names := output_names data_names noeff in
  answers isem ->
  reg = registry_after calls -> unique_names reg -> consistent reg "batch_size" names ->
  build_component limit data_names func "batch_size" noeff f plugins k w = (w', k', Ok tt) ->
  (forall d p, Reach reg "batch_size" names d -> get d reg = Some p -> proper_class p) ->
  separate (used_config reg "batch_size" names) ->
  (forall cf, used_config reg "batch_size" names cf -> usable f (contents (w_cache w0)) (k_llh k) cf) ->
  0 < nr ->
  profile_component V isem clock f k' pars batch nw nr key tick w0 = (w1, s1, Ok rs) ->
  forall j e, nth_error rs j = Some e ->
  exists ts, measured clock (tick + 2 * nr * j) nr ts /\ statistics ts (f_mean e) (f_std e).
Proof.
  intros V isem clock calls limit data_names func noeff f plugins k w w' k' pars batch nw nr key tick w0 w1 s1 rs
    reg names H1 H2 H3 H4 H5 H6 H7 H8 H9 H j e He.
  destruct (profile_built V isem clock calls limit data_names func noeff f plugins k w w' k' pars batch nw nr
    key tick w0 H1 H2 H3 H4 H5 H6 H7 H8 ltac:(lia)) as (ps & w2 & s2 & E & P1 & P2 & P3 & P4 & P5 & P6).
  rewrite P3 in H. injection H as -> -> <-. apply entries_nth in He. destruct He as [-> ->].
  exists (run_times clock (tick + 2 * nr * j) nr). split; [apply run_times_measured|].
  apply statistics_ok. intros E0. pose proof (run_times_length clock (tick + 2 * nr * j) nr) as L. rewrite E0 in L. cbn in L. lia.
Qed.

(** A plugin that returns fewer values than it provides names ends the profiling with IndexError. *)
Theorem C92_too_few : forall (V : Type) (isem : instance -> list V -> result (list V)) (clock : nat -> R)
    i pars (store : dict V) argv nw nr s,
  map (fun x => get x store) (p_depends (i_class i)) = map Some argv -> 0 < nw + nr ->
  (forall key, exists key' vs, isem i (key :: pars :: argv) = Ok (key' :: vs) /\
     List.length vs < List.length (p_provides (i_class i))) ->
  snd (profile_plugin V isem clock i pars store nw nr s) = Err IndexError.
Proof.
  intros V isem clock i pars store argv nw nr s Ha Hn H. apply (profile_plugin_few V isem clock i pars store argv nw nr s); [|exact Hn|exact H].
  clear -Ha. revert argv Ha. induction (p_depends (i_class i)) as [|x l IH]; intros [|v argv] Ha; try discriminate Ha; [reflexivity|].
  cbn [map] in Ha. injection Ha as E Ha. cbn [inputs]. rewrite E, (IH _ Ha). reflexivity.
Qed.

Example C92_too_few_case : forall clock : nat -> R,
  snd (profile_plugin nat (fun _ _ => Ok [5; 6]) clock
    (mk_instance (mk_plugin "A" ["a"; "b"] ["batch_size"] [] [] ["self"; "key"; "parameters"; "batch_size"]) (Some "llh") [])
    0 [("batch_size", 7)] 1 1 (mk_pst 0 0 [])) = Err IndexError.
Proof.
  intros clock. apply C92_too_few with (argv := [7]); [reflexivity|lia|]. intros key. exists 5, [6]. split; [reflexivity|cbn; lia].
Qed.

(** profile_context: every simulated component is profiled with the parameters renamed by the aliases
    of its own likelihood, and with a fresh key of its own. *)
Theorem C92_context : forall (V : Type) (isem : instance -> list V -> result (list V)) (clock : nat -> R) as_params
    f (ls : dict plikelihood) pars batch nw nr fresh n tick w w' st out,
  NoDup (keys ls) -> (forall l al cs, In (l, (al, cs)) ls -> no_slash l /\ NoDup (keys cs)) ->
  profile_context V isem clock as_params f ls pars batch nw nr fresh n tick [] w = (w', st, Ok out) ->
  exists idx : string -> nat,
    (forall x y, In x (keys out) -> In y (keys out) -> idx x = idx y -> x = y) /\
    (forall x, In x (keys out) -> n <= idx x) /\
    forall l al cs c k, In (l, (al, cs)) ls -> In (c, Some k) cs -> exists r t0 w0 w1 s1,
      get (l ++ "/" ++ c)%string out = Some r /\
      profile_component V isem clock f k (as_params (replace_alias al pars)) batch nw nr
        (fresh (idx (l ++ "/" ++ c)%string)) t0 w0 = (w1, s1, Ok r).
Proof.
  intros V isem clock as_params f ls pars batch nw nr fresh n tick w w' [n' t'] out Hnd Hs H.
  pose proof (profile_context_keys _ _ _ _ _ _ _ _ _ _ _ _ _ _ _ _ _ _ H) as Ek.
  destruct (profile_context_entries _ _ _ _ _ _ _ _ _ _ _ _ _ _ _ _ _ _ _ H (all_keys_NoDup ls Hnd Hs)) as (_ & _ & idx & I1 & I2 & I3).
  { intros x _ []. }
  assert (Hk : forall x, In x (keys out) -> In x (all_keys ls)).
  { intros x Hx. rewrite Ek in Hx. apply add_keys_in in Hx. destruct Hx as [[]|Hx]. exact Hx. }
  exists idx. split; [intros x y Hx Hy; apply I2; auto|]. split; [intros x Hx; specialize (I1 x (Hk x Hx)); lia|].
  intros l al cs c k Hl Hc. destruct (I3 l al cs c k Hl Hc) as (r & G & t0 & w0 & w1 & s1 & E). exists r, t0, w0, w1, s1. auto.
Qed.

(** A component with plugins that has not been deduced is refused: nothing is timed or called, and nothing changes. *)
Theorem C92_not_deduced : forall (V : Type) (isem : instance -> list V -> result (list V)) (clock : nat -> R)
  f name lname rate ps reg r pars batch nw nr key tick w,
  register ps [] = (reg, r) ->
  exists s, profile_component V isem clock f (mk_component name lname rate reg false [] [] "" None None None) pars batch nw nr key tick w = (w, s, Err RuntimeError) /\
    s_tick s = tick /\ s_key s = key /\ s_calls s = [].
Proof. intros. eexists. split; [reflexivity|]. repeat split. Qed.

(** profile_full_simulation: likewise; the simulation has run n_warmup + n_runs times, each time with the
    key that the one before it returned, and only the last n_runs count. *)
Theorem C92_full : forall (V : Type) (isem : instance -> list V -> result (list V)) (clock : nat -> R) as_params
    (ls : dict plikelihood) pars batch nw nr fresh n tick n' t' out,
  NoDup (keys ls) -> (forall l al cs, In (l, (al, cs)) ls -> no_slash l /\ NoDup (keys cs)) -> 0 < nr ->
  profile_full V isem clock as_params ls pars batch nw nr fresh n tick [] = Ok (n', t', out) ->
  exists idx : string -> nat,
    (forall x y, In x (keys out) -> In y (keys out) -> idx x = idx y -> x = y) /\
    forall l al cs c k, In (l, (al, cs)) ls -> In (c, Some k) cs -> exists m s t0 ts key',
      get (l ++ "/" ++ c)%string out = Some (m, s) /\
      Sims isem k (as_params (replace_alias al pars)) batch (nw + nr) (fresh (idx (l ++ "/" ++ c)%string)) key' /\
      measured clock t0 nr ts /\ statistics ts m s.
Proof.
  intros V isem clock as_params ls pars batch nw nr fresh n tick n' t' out Hnd Hs Hr H.
  pose proof (profile_full_keys _ _ _ _ _ _ _ _ _ _ _ _ _ _ _ _ H) as Ek.
  destruct (profile_full_entries _ _ _ _ _ _ _ _ _ _ _ _ _ _ _ _ H (all_keys_NoDup ls Hnd Hs)) as (_ & _ & idx & I1 & I2 & I3).
  { intros x _ []. }
  assert (Hk : forall x, In x (keys out) -> In x (all_keys ls)).
  { intros x Hx. rewrite Ek in Hx. apply add_keys_in in Hx. destruct Hx as [[]|Hx]. exact Hx. }
  exists idx. split; [intros x y Hx Hy; apply I2; auto|].
  intros l al cs c k Hl Hc. destruct (I3 l al cs c k Hl Hc) as ([m s] & G & t0 & key' & S1 & Er). injection Er as -> ->.
  do 2 eexists. exists t0, (run_times clock t0 nr), key'. split; [exact G|]. split; [exact S1|].
  split; [apply run_times_measured|]. apply statistics_ok. intros E0.
  pose proof (run_times_length clock t0 nr) as L. rewrite E0 in L. cbn in L. lia.
Qed.

(** Both on a context of two likelihoods with one component each. *)
Example C92_context_case : forall clock : nat -> R, exists w' k' ls w1 st out n' t' full,
  demo_build init_world = (w', k', Ok tt) /\
  ls = [("a", ([], [("er", Some k')])); ("b", ([], [("er", Some k'); ("ac", None)]))] /\
  NoDup (keys ls) /\ (forall l al cs, In (l, (al, cs)) ls -> no_slash l /\ NoDup (keys cs)) /\
  profile_context nat demo_isem clock (fun _ => 0) all_files ls [] 7 1 1 (fun n => n) 0 0 [] w' = (w1, st, Ok out) /\
  profile_full nat demo_isem clock (fun _ => 0) ls [] 7 1 1 (fun n => n) 0 0 [] = Ok (n', t', full) /\
  keys out = ["a/er"; "b/er"] /\ keys full = ["a/er"; "b/er"].
Proof.
  intros clock. do 9 eexists. split; [vm_compute; reflexivity|]. split; [reflexivity|].
  split; [cbn; constructor; [intros [H|[]]; discriminate H|constructor; [intros []|constructor]]|].
  split.
  { intros l al cs Hin.
    assert (K : (l = "a" \/ l = "b") /\ (keys cs = ["er"] \/ keys cs = ["er"; "ac"])).
    { destruct Hin as [E|[E|[]]]; injection E as <- _ <-; split; auto. }
    destruct K as [K1 K2]. split.
    - intros [|x [|y a]] b; destruct K1 as [->| ->]; discriminate.
    - destruct K2 as [->| ->]; [constructor; [intros []|constructor]|].
      constructor; [intros [H|[]]; discriminate H|constructor; [intros []|constructor]]. }
  split; [vm_compute; reflexivity|]. split; [vm_compute; reflexivity|]. split; reflexivity.
Qed.

Print Assumptions C92_component.
Print Assumptions C92_times.
Print Assumptions C92_no_runs.
Print Assumptions C92_keys.
Print Assumptions C92_shared_name_refuted.
Print Assumptions C92_later_registration_refuted.
Print Assumptions C92_set_config_refuted.
Print Assumptions C92_slash_refuted.
Print Assumptions C92_statistics.
Print Assumptions C92_too_few.
Print Assumptions C92_context.
Print Assumptions C92_not_deduced.
Print Assumptions C92_full.
