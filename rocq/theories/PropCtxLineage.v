(** Property C106: what the lineage of a context pins down. Only theorem statements closed by
    lemmas, their assumptions, and concrete instances. *)
From Coq Require Import Reals Lra.
From Verif Require Import Base BaseFacts ModelFloat ModelParameter SpecParameter ModelShare ModelConfig
  ModelComponent ModelCompile SpecComponent SpecConfig SpecCompile PropComponent PropCompile ModelLikelihood
  ModelContext ModelWhole ModelLineage SpecLineage ProofLineage PropLineage ModelCtxLineage SpecCtxLineage
  ProofCtxLineage ProofHash ProofFloat PropParameter PropHist.
Local Open Scope string_scope.

(* ------------------------------------------------------------------ *)
(** * C106 the lineage of a context as a fingerprint of its log_posterior *)

(** Two contexts, made in two processes with their own files, classes, configuration and random
    numbers. If the lineages are equal, the entries were made in the same order, the classes of the
    same name have the same source, flags and scalers (which a lineage does not hold) agree, and no
    component's plugin classes were used with other values by another likelihood, then log_posterior
    gives the same for all parameters, batch sizes, keys and repetitions: the same value, the same
    prior, the same calls of the likelihoods and the same parameters afterwards. *)
Theorem C106_fingerprint :
  forall K sha hash code
    (call : code -> option string -> (string -> option held) -> list (sval K) -> result (list (sval K)))
    ones post data_hist fixed_hist lit_sum
    Rng normal uniform sigmas
    d plugins src w x l g st r d' plugins' src' w' x' l' g' st' r',
  no_collision sha -> no_hash_collision hash -> reads_attributes call ->
  well_named plugins -> well_named plugins' -> declared plugins -> declared plugins' ->
  same_classes plugins plugins' src src' ->
  keys_once x -> same_order x x' ->
  (forall ln cn s, component_of x ln cn (OSim s) -> in_force (d_fs d) plugins w (cs_k s)) ->
  (forall ln cn s, component_of x' ln cn (OSim s) -> in_force (d_fs d') plugins' w' (cs_k s)) ->
  same_hidden plugins plugins' w w' x x' ->
  new_parameter Rng normal uniform sigmas (xo_par x) g = Ok (st, r) ->
  new_parameter Rng normal uniform sigmas (xo_par x') g' = Ok (st', r') ->
  ctx_lineage_of sha hash code d src w x = Ok l -> ctx_lineage_of sha hash code d' src' w' x' = Ok l' ->
  same_ctx l l' ->
  forall fresh pars batch times, covers (xo_par x) pars ->
    ctx_posterior K code call ones post data_hist fixed_hist lit_sum sigmas d src (w_cache w) x fresh st pars batch times =
    ctx_posterior K code call ones post data_hist fixed_hist lit_sum sigmas d' src' (w_cache w') x' fresh st' pars batch times.
Proof.
  intros until r'. intros NC NH RA W W' D D' SC P O F F' Hh N N' HL HL' SL fresh pars batch times C.
  destruct (same_llhs K sha hash code call ones post data_hist fixed_hist lit_sum NC NH RA d d' plugins plugins' src src' w w'
    W W' D D' SC x x' l l' HL HL' SL P O F F' Hh) as [E A].
  unfold ctx_posterior. apply log_posterior_ext; [exact A|]. rewrite <- E in N'.
  destruct P as [P _]. exact (new_set Rng normal uniform sigmas _ _ _ _ _ _ _ _ P C N N').
Qed.

(** A component is in force right after it was built; building a component of another likelihood
    keeps it so if the plugin classes of the first one get the same values. *)
Theorem C106_in_force : forall f plugins,
  (forall limit names func nodep noeff k0 w0 w1 k,
     build_component limit names func nodep noeff f plugins k0 w0 = (w1, k, Ok tt) -> in_force f plugins w1 k) /\
  (forall limit names func nodep noeff w k k2 w2 k2',
     well_named plugins -> in_force f plugins w k -> k_llh k2 <> k_llh k ->
     build_component limit names func nodep noeff f plugins k2 w = (w2, k2', Ok tt) ->
     (forall pr n bs, k_code k = Some pr -> In n (pr_imports pr) -> get n (w_class w) = Some bs ->
        exists bs', get n (w_class w2) = Some bs' /\ Forall2 same_setting bs bs') ->
     in_force f plugins w2 k).
Proof.
  intros f plugins. split.
  - intros *. apply built_in_force.
  - intros * Hw F N B S. exact (stays_in_force _ _ _ _ _ _ _ _ _ _ _ _ Hw F N B S).
Qed.

(** A lineage can be written as JSON exactly if no Poisson likelihood has a component with an array
    among the configs of its plugin classes. *)
Theorem C106_dump :
  forall sha hash code plugins d (src : string -> source code) w x l,
  well_named plugins -> keys_once x ->
  (forall ln cn s, component_of x ln cn (OSim s) -> in_force (d_fs d) plugins w (cs_k s)) ->
  ctx_lineage_of sha hash code d src w x = Ok l ->
  (forall ln L cn s, get ln (xo_llhs x) = Some L -> lo_lit L = false -> get cn (lo_comps L) = Some (OSim s) ->
     ~ needs_array plugins (cs_k s)) ->
  dump_context sha hash code d src w x = Ok l.
Proof.
  intros * Hw P F HL N. destruct (dump_context_spec _ _ _ _ _ _ _ _ _ Hw P F HL) as [(_ & ln & L & cn & s & G1 & G2 & G3 & G4)|[E _]].
  - destruct (N _ _ _ _ G1 G2 G3 G4).
  - exact E.
Qed.
Theorem C106_dump_refuted :
  forall sha hash code plugins d (src : string -> source code) w x l ln L cn s,
  well_named plugins -> keys_once x ->
  (forall ln cn s, component_of x ln cn (OSim s) -> in_force (d_fs d) plugins w (cs_k s)) ->
  ctx_lineage_of sha hash code d src w x = Ok l ->
  get ln (xo_llhs x) = Some L -> lo_lit L = false -> get cn (lo_comps L) = Some (OSim s) ->
  needs_array plugins (cs_k s) ->
  dump_context sha hash code d src w x = Err TypeError.
Proof.
  intros * Hw P F HL G1 G2 G3 N. destruct (dump_context_spec _ _ _ _ _ _ _ _ _ Hw P F HL) as [[E _]|[_ H]].
  - exact E.
  - destruct (H _ _ _ _ G1 G2 G3 N).
Qed.

(* ------------------------------------------------------------------ *)
(** * Concrete contexts *)

Definition er_of (llh : string) : component :=
  mk_component "er" llh "er_rate" (registry_after demo_calls) false [] [] "" None None None.
Definition build_er (llh : string) :=
  build_component 20 ["cs2"; "cs1"] "simulate" "batch_size" false all_files demo_plugins (er_of llh).

(** Running the source code of a plugin. *)
Definition x_call (co : nat * nat) (llh : option string) (h : string -> option held)
    (args : list (sval nat)) : result (list (sval nat)) :=
  match args with
  | SKey k :: _ => Ok (SKey (S k) :: map (fun j =>
      SCol [Fin (IZR (Z.of_nat (j + k + snd co + attr (h "w") + attr (h "cut"))))]) (seq 1 (fst co)))
  | _ => Err TypeError
  end.
Lemma x_call_reads : reads_attributes x_call.
Proof. intros co llh h h' args H. unfold x_call. rewrite !H. reflexivity. Qed.
Definition x_ones (args : list (sval nat)) : sval nat := SCol [].
Definition x_post (norm rate : string) (b : value * value) (eps : bool) (mc : list (sval nat))
  (eff p n : sval nat) : result (sval nat) := Ok (SCol [Fin 1]).
Definition x_data (cfg : dict value) (bytes : string) : result (list fl) :=
  Ok [Fin (IZR (Z.of_nat (String.length bytes)))].
Definition x_fixed (cfg : dict value) (norm rate : string) (b : value * value) (eps : bool) (bytes : string)
  (p : params) : result (list fl) := Ok [Fin 1].
(** The efficiency of the first event, twice if there is a weight. *)
Definition x_lit (cfg : dict value) (cols : list (list fl)) : result fl :=
  match last cols [] with
  | x :: _ => Ok (if has "weight" cfg then fadd x x else x)
  | [] => Err IndexError
  end.
Definition x_hash_any (l : any_lineage) : string := "".

Definition lit_of (cfg : dict value) (k : component) : lik_obj := mk_lik_obj true cfg [("er", OSim (demo_sim k))].
Definition poisson_of (file : string) (k : component) : lik_obj :=
  mk_lik_obj false [("data_file_name", VStr file)]
    [("er", OSim (demo_sim k)); ("bg", OFixed (mk_fixed "bg_rate" "on_pdf" (Some demo_bins) true "ac.pkl"))].
Definition x_ctx (lls : dict lik_obj) : ctx_obj :=
  mk_ctx_obj [("backend_h5", VStr "x.h5")] [("b", ex_free); ("field", ex_fixed)] lls.
Definition x_state : pstate :=
  mk_pstate [("b", ex_free); ("field", ex_fixed)] ["field"] ["b"] [("b", Fin 0); ("field", Fin 7)].

(** Other likelihoods keep the values of the classes. *)
Ltac keeps_values :=
  intros ? n bs E Hn; vm_compute in E; injection E as <-; cbn [In pr_imports] in Hn;
  repeat (destruct Hn as [<-|Hn]; [intros G; vm_compute in G; injection G as <-; eexists; split;
    [vm_compute; reflexivity|]; repeat constructor; try (intros _; reflexivity); intros X; destruct X; reflexivity|]); destruct Hn.

Ltac same_scaler :=
  let H := fresh in let H' := fresh in let Hi := fresh in let Hi' := fresh in
  intros ? ? ? ? ? _ H H' Hi Hi' _; rewrite H in H'; injection H' as <-;
  apply List.find_some in H; destruct H as [H _];
  cbn in H; repeat destruct H as [<-|H]; try contradiction; cbn in Hi, Hi';
  repeat destruct Hi as [<-|Hi]; try contradiction;
  repeat destruct Hi' as [<-|Hi']; try contradiction; vm_compute; reflexivity.

(** A Poisson likelihood with a simulated and a fixed component, and a LikelihoodLit; in the second
    process the map files are in another directory. *)
Example C106_instance : exists w1 w k1 k2 w1' w' k1' k2',
  build_er "llh" (fst (set_config all_files (in_dir "/a/") init_world)) = (w1, k1, Ok tt) /\
  build_er "lit" w1 = (w, k2, Ok tt) /\
  build_er "llh" (fst (set_config all_files (in_dir "/b/") init_world)) = (w1', k1', Ok tt) /\
  build_er "lit" w1' = (w', k2', Ok tt) /\
  let x := x_ctx [("llh", poisson_of "/data/d.csv" k1); ("lit", lit_of [] k2)] in
  let x' := x_ctx [("llh", poisson_of "/data/d.csv" k1'); ("lit", lit_of [] k2')] in
  keys_once x /\ same_order x x' /\
  (forall ln cn s, component_of x ln cn (OSim s) -> in_force all_files demo_plugins w (cs_k s)) /\
  (forall ln cn s, component_of x' ln cn (OSim s) -> in_force all_files demo_plugins w' (cs_k s)) /\
  same_hidden demo_plugins demo_plugins w w' x x' /\
  (forall hash, exists l l', ctx_lineage_of same_sha hash _ disk_a demo_src w x = Ok l /\
     ctx_lineage_of same_sha hash _ disk_a demo_src w' x' = Ok l' /\ same_ctx l l') /\
  (exists r, new_parameter unit ex_normal ex_uniform ex_sigmas (xo_par x) tt = Ok (x_state, r)) /\
  covers (xo_par x) [("b", Fin 2)].
Proof.
  do 8 eexists. split; [vm_compute; reflexivity|]. split; [vm_compute; reflexivity|].
  split; [vm_compute; reflexivity|]. split; [vm_compute; reflexivity|].
  intros x x'.
  assert (F1 : forall w1 w k1 k2 d, build_er "llh" (fst (set_config all_files (in_dir d) init_world)) = (w1, k1, Ok tt) ->
     build_er "lit" w1 = (w, k2, Ok tt) ->
     (forall pr n bs, k_code k1 = Some pr -> In n (pr_imports pr) -> get n (w_class w1) = Some bs ->
        exists bs', get n (w_class w) = Some bs' /\ Forall2 same_setting bs bs') -> k_llh k1 = "llh" ->
     forall ln cn s, component_of (x_ctx [("llh", poisson_of "/data/d.csv" k1); ("lit", lit_of [] k2)]) ln cn (OSim s) ->
       in_force all_files demo_plugins w (cs_k s)).
  { intros w1 w k1 k2 d B1 B2 HS HL ln cn s (L & G1 & G2).
    cbn [x_ctx xo_llhs get] in G1. destruct (String.eqb ln "llh").
    - injection G1 as <-. cbn [poisson_of lo_comps get] in G2. destruct (String.eqb cn "er"); [|destruct (String.eqb cn "bg"); discriminate].
      injection G2 as <-. cbn [demo_sim cs_k].
      refine (proj2 (C106_in_force all_files demo_plugins) _ _ _ _ _ _ _ _ _ _ demo_well_named
               (proj1 (C106_in_force all_files demo_plugins) _ _ _ _ _ _ _ _ _ B1) _ B2 HS).
      rewrite HL. discriminate.
    - destruct (String.eqb ln "lit"); [|discriminate]. injection G1 as <-. cbn [lit_of lo_comps get] in G2.
      destruct (String.eqb cn "er"); [|discriminate]. injection G2 as <-.
      exact (proj1 (C106_in_force all_files demo_plugins) _ _ _ _ _ _ _ _ _ B2). }
  split; [|split; [|split; [|split; [|split; [|split; [|split]]]]]].
  - split; [|split]; [repeat constructor; cbn; intuition discriminate..|].
    intros n L G. cbn [x x_ctx xo_llhs get] in G. destruct (String.eqb n "llh"); [|destruct (String.eqb n "lit"); [|discriminate]];
      injection G as <-; repeat constructor; cbn; intuition discriminate.
  - split; [reflexivity|]. split; [reflexivity|]. intros n L L' G G'. cbn [x x' x_ctx xo_llhs get] in G, G'.
    destruct (String.eqb n "llh"); [|destruct (String.eqb n "lit"); [|discriminate]];
      injection G as <-; injection G' as <-; reflexivity.
  - eapply (F1 _ _ _ _ "/a/"); [vm_compute; reflexivity|vm_compute; reflexivity|keeps_values|reflexivity].
  - eapply (F1 _ _ _ _ "/b/"); [vm_compute; reflexivity|vm_compute; reflexivity|keeps_values|reflexivity].
  - intros ln cn o o' (L & G1 & G2) (L' & G1' & G2'). cbn [x x' x_ctx xo_llhs get] in G1, G1'.
    destruct (String.eqb ln "llh"); [|destruct (String.eqb ln "lit"); [|discriminate]];
      injection G1 as <-; injection G1' as <-; cbn [poisson_of lit_of lo_comps get] in G2, G2'.
    + destruct (String.eqb cn "er"); [|destruct (String.eqb cn "bg"); [|discriminate]];
        injection G2 as <-; injection G2' as <-; (split; [split|]; try reflexivity; auto).
      intros pr E. injection E as <-. same_scaler.
    + destruct (String.eqb cn "er"); [|discriminate]; injection G2 as <-; injection G2' as <-.
      split; [split; reflexivity|]. intros pr E. injection E as <-. same_scaler.
  - intros hash. do 2 eexists. split; [vm_compute; reflexivity|]. split; [vm_compute; reflexivity|].
    apply same_ctx_refl.
  - eexists. cbn [xo_par x x_ctx]. unfold new_parameter, init_parameter, sample_prior, sample. cbn.
    unfold clip_range, fclip, fmax, fmin, sample_loop. fl_eval. reflexivity.
  - split.
    + intros n (s & ty & [E|[E|[]]] & Ht & N); injection E as <- <-; [left; reflexivity|]. cbn in Ht. congruence.
    + intros n [<-|[]]. left. reflexivity.
Qed.

Print Assumptions C106_fingerprint.
Print Assumptions C106_in_force.
Print Assumptions C106_dump.
Print Assumptions C106_dump_refuted.
