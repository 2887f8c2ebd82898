(** Property C106, continued: what the lineage of a context does not pin down, with concrete contexts. *)
From Coq Require Import Reals Lra.
From Verif Require Import Base BaseFacts ModelFloat ModelParameter SpecParameter ModelShare ModelConfig
  ModelComponent ModelCompile SpecComponent SpecConfig SpecCompile PropComponent PropCompile ModelLikelihood
  ModelContext ModelWhole ModelLineage SpecLineage ProofLineage PropLineage ModelCtxLineage SpecCtxLineage
  ProofCtxLineage ProofHash ProofFloat PropParameter PropHist PropCtxLineage.
Local Open Scope string_scope.

(** The hash of a lineage can be taken without collisions. *)
Example C106_hash_instance : no_collision same_sha /\ no_hash_collision written.
Proof. split; [exact same_sha_ok|exact written_no_collision]. Qed.

Definition only_fixed (lls : dict lik_obj) : ctx_obj := mk_ctx_obj [] [("field", ex_fixed)] lls.
Definition fixed_state : pstate := mk_pstate [("field", ex_fixed)] ["field"] [] [("field", Fin 7)].
Definition x_posterior (d : disk) (c : rdict) (x : ctx_obj) :=
  ctx_posterior nat _ x_call x_ones x_post x_data x_fixed x_lit ex_sigmas d demo_src c x (fun n => n) fixed_state [] 10 1.

(** The order of the likelihoods is not in the lineage (equality of dictionaries), but each likelihood
    continues with the random key that the previous one left, so the order changes log_posterior. *)
Theorem C106_order_refuted : exists w1 w ka kb,
  build_er "a" init_world = (w1, ka, Ok tt) /\ build_er "b" w1 = (w, kb, Ok tt) /\
  let la := lit_of [] ka in let lb := lit_of [("weight", VNum 2)] kb in
  let x := only_fixed [("a", la); ("b", lb)] in let x' := only_fixed [("b", lb); ("a", la)] in
  (forall hash, exists l l', ctx_lineage_of same_sha hash _ disk_a demo_src w x = Ok l /\
     ctx_lineage_of same_sha hash _ disk_a demo_src w x' = Ok l' /\ same_ctx l l') /\
  snd (x_posterior disk_a (w_cache w) x) <> snd (x_posterior disk_a (w_cache w) x').
Proof.
  do 4 eexists. split; [vm_compute; reflexivity|]. split; [vm_compute; reflexivity|].
  intros la lb x x'. split.
  - intros hash. do 2 eexists. split; [vm_compute; reflexivity|]. split; [vm_compute; reflexivity|].
    split; [|split]; [intros n; reflexivity..|]. intros n. cbn [xl_llhs get].
    destruct (String.eqb n "a") eqn:Ea; destruct (String.eqb n "b") eqn:Eb; try exact I.
    + apply String.eqb_eq in Ea. apply String.eqb_eq in Eb. subst. discriminate.
    + split; [reflexivity|]. intros m. reflexivity.
    + split; [reflexivity|]. intros m. reflexivity.
  - cbv -[IZR Rplus]. intros E. injection E. lra.
Qed.

(** The classes of the plugins are shared: with values per likelihood, the lineage of every likelihood
    holds those of the one that was made last, so another content of a file that only the first one uses
    is not seen. *)
Definition per_cut : dict value :=
  [("cut", VDict [("a", VList [VStr "m.json"; VStr "l.json"; VStr "u.json"; VStr "t_sig"]);
                  ("b", VList [VStr "n.json"; VStr "l.json"; VStr "u.json"; VStr "t_sig"])])].
Theorem C106_shared_class_refuted : exists w1 w ka kb,
  build_er "a" (fst (set_config all_files per_cut init_world)) = (w1, ka, Ok tt) /\ build_er "b" w1 = (w, kb, Ok tt) /\
  let x := only_fixed [("a", lit_of [] ka); ("b", lit_of [("weight", VNum 2)] kb)] in
  (forall hash, exists l, ctx_lineage_of same_sha hash _ disk_a demo_src w x = Ok l /\
     ctx_lineage_of same_sha hash _ disk_b demo_src w x = Ok l) /\
  snd (x_posterior disk_a (w_cache w) x) <> snd (x_posterior disk_b (w_cache w) x).
Proof.
  do 4 eexists. split; [vm_compute; reflexivity|]. split; [vm_compute; reflexivity|].
  intros x. split.
  - intros hash. eexists. split; vm_compute; reflexivity.
  - cbv -[IZR Rplus]. intros E. injection E. lra.
Qed.

(** The config of a likelihood is in the lineage as it was given: the same data file in another directory
    gives another lineage, although the lineage also has its file name and hash. *)
Theorem C106_path_refuted : exists w k,
  build_er "llh" init_world = (w, k, Ok tt) /\
  let x := only_fixed [("llh", poisson_of "/one/d.csv" k)] in
  let x' := only_fixed [("llh", poisson_of "/two/d.csv" k)] in
  exists l l', ctx_lineage_of same_sha written _ disk_a demo_src w x = Ok l /\
    ctx_lineage_of same_sha written _ disk_a demo_src w x' = Ok l' /\ ~ same_ctx l l' /\
    (forall fresh st pars batch times,
       ctx_posterior nat _ x_call x_ones x_post x_data x_fixed x_lit ex_sigmas disk_a demo_src (w_cache w) x fresh st pars batch times =
       ctx_posterior nat _ x_call x_ones x_post x_data x_fixed x_lit ex_sigmas disk_a demo_src (w_cache w) x' fresh st pars batch times).
Proof.
  do 2 eexists. split; [vm_compute; reflexivity|]. intros x x'.
  do 2 eexists. split; [vm_compute; reflexivity|]. split; [vm_compute; reflexivity|]. split.
  - intros (_ & _ & S). specialize (S "llh"). cbn in S. destruct S as [S _]. discriminate.
  - intros. unfold ctx_posterior. apply log_posterior_ext; [|reflexivity].
    repeat constructor.
Qed.

(** Writing: a context of a Poisson likelihood with constants and maps, and with a constant set. *)
Definition set_plugins (n : string) : option plugin := if String.eqb n "Lit" then Some pSet else None.
Definition build_set (llh : string) :=
  build_component 20 ["energy"] "simulate" "batch_size" true all_files set_plugins
    (mk_component "lit" llh "" (registry_after [[pSet]]) false [] [] "" None None None).
Example C106_dump_instance : exists w k, build_er "llh" init_world = (w, k, Ok tt) /\
  let x := only_fixed [("llh", poisson_of "/one/d.csv" k)] in
  ~ needs_array demo_plugins k /\
  exists l, ctx_lineage_of same_sha written _ disk_a demo_src w x = Ok l /\
    dump_context same_sha written _ disk_a demo_src w x = Ok l.
Proof.
  do 2 eexists. split; [vm_compute; reflexivity|]. intros x. split.
  - intros (pr & pn & p & cf & E & Hn & Hp & Hc & Hk). apply List.find_some in Hp. destruct Hp as [Hp _].
    cbn in Hp. repeat destruct Hp as [<-|Hp]; try contradiction; cbn in Hc;
      repeat destruct Hc as [<-|Hc]; try contradiction; discriminate.
  - eexists. split; vm_compute; reflexivity.
Qed.
Example C106_dump_refuted_case : exists w1 w k k2,
  build_set "llh" init_world = (w1, k, Ok tt) /\ build_set "lit" w1 = (w, k2, Ok tt) /\
  well_named set_plugins /\ needs_array set_plugins k /\
  dump_context same_sha written _ disk_a demo_src w (only_fixed [("llh", poisson_of "/one/d.csv" k)]) = Err TypeError /\
  exists l, dump_context same_sha written _ disk_a demo_src w (only_fixed [("lit", lit_of [] k2)]) = Ok l.
Proof.
  do 4 eexists. split; [vm_compute; reflexivity|]. split; [vm_compute; reflexivity|]. split; [|split; [|split]].
  - intros n p H. unfold set_plugins in H. destruct (String.eqb n "Lit") eqn:E; [|discriminate].
    injection H as <-. apply String.eqb_eq in E. exact (eq_sym E).
  - eexists _, "Lit", pSet, set_cf. split; [reflexivity|]. split; [left; reflexivity|]. split; [reflexivity|].
    split; [left; reflexivity|reflexivity].
  - vm_compute. reflexivity.
  - eexists. vm_compute. reflexivity.
Qed.


(** What is in the lineage of a context: the instruction without its likelihoods and par_config, the
    parameters, and for each likelihood its config, the name and the hash of its data file, and the
    lineage of each component or, for a LikelihoodLit, only its hash. *)
Theorem C106_records :
  forall sha hash code d (src : string -> source code) w x l,
  ctx_lineage_of sha hash code d src w x = Ok l ->
  (forall n, n <> "likelihoods" -> n <> "par_config" -> get n (xl_instruct l) = get n (xo_instruct x)) /\
  (NoDup (keys (xo_instruct x)) -> get "likelihoods" (xl_instruct l) = None /\ get "par_config" (xl_instruct l) = None) /\
  xl_par l = xo_par x /\ keys (xl_llhs l) = keys (xo_llhs x) /\
  forall n L, get n (xo_llhs x) = Some L ->
    exists e, get n (xl_llhs l) = Some e /\ lik_entry sha hash code d src w L e.
Proof. exact ctx_records. Qed.

(** There is a lineage exactly if every simulated component has one, every fixed component has bins and
    a file, and every likelihood but a LikelihoodLit has a data file. *)
Theorem C106_complete :
  forall sha hash code d (src : string -> source code) w x, keys_once x ->
  ((exists l, ctx_lineage_of sha hash code d src w x = Ok l) <->
   forall n L, get n (xo_llhs x) = Some L -> lik_complete sha code d src w L).
Proof. exact ctx_complete. Qed.

Example C106_complete_case :
  let fixed b := OFixed (mk_fixed "bg_rate" "on_pdf" b true "ac.pkl") in
  let x b cfg := only_fixed [("llh", mk_lik_obj false cfg [("bg", fixed b)])] in
  let file := [("data_file_name", VStr "/data/d.csv")] in
  let gone := mk_disk all_files (fun p => if String.eqb (base_name p) "ac.pkl" then None else Some "") in
  ctx_lineage_of same_sha written _ disk_a demo_src init_world (x (Some demo_bins) file) =
    Ok (mk_xl [] [("field", ex_fixed)] [("llh", LPoisson file "d.csv" "d.csv"
      [("bg", ALFixed (mk_fl "bg_rate" "on_pdf" demo_bins "ac.pkl" "ac.pkl"))])]) /\
  ctx_lineage_of same_sha written _ disk_a demo_src init_world (x None file) = Err AttributeError /\
  ctx_lineage_of same_sha written _ disk_a demo_src init_world (x (Some demo_bins) []) = Err KeyError /\
  ctx_lineage_of same_sha written _ gone demo_src init_world (x (Some demo_bins) file) = Err FileNotFoundError.
Proof. split; [|split; [|split]]; vm_compute; reflexivity. Qed.


(** A parameter_alias in the config of a likelihood: its value can be given under either name. *)
Theorem C106_alias :
  forall K code call ones post data_hist fixed_hist lit_sum d src c L a b x k n p,
  get "parameter_alias" (lo_config L) = Some (VDict [(a, VStr b)]) -> a <> b ->
  NoDup (keys p) -> get a p = Some x ->
  lik_fun K code call ones post data_hist fixed_hist lit_sum d src c L k n p =
  lik_fun K code call ones post data_hist fixed_hist lit_sum d src c L k n (set b x (del a p)).
Proof.
  intros until p. intros Ha N D G. unfold lik_fun.
  assert (A : alias_of (lo_config L) = [(a, b)]) by (unfold alias_of; rewrite Ha; reflexivity).
  rewrite A. set (q := set b x (del a p)).
  assert (E1 : replace_alias [(a, b)] p = q) by (cbn; rewrite G; reflexivity).
  assert (E2 : replace_alias [(a, b)] q = q).
  { cbn. unfold q. rewrite get_set_neq by congruence. rewrite get_del_eq by exact D. reflexivity. }
  destruct (lo_lit L).
  - rewrite E1, E2. rewrite E2. reflexivity.
  - destruct (get "data_file_name" (lo_config L)) as [v|]; [|reflexivity].
    destruct (read_file d c v) as [bytes|e]; cbn [bind]; [|reflexivity].
    destruct (data_hist (lo_config L) bytes) as [h|e]; cbn [bind]; [|reflexivity].
    unfold get_log_likelihood. cbn [ll_alias]. rewrite E1, E2. reflexivity.
Qed.

Example C106_alias_case : exists w k,
  build_er "llh" init_world = (w, k, Ok tt) /\
  let cfg := [("parameter_alias", VDict [("drift", VStr "t_sig")])] in
  let p : dict fl := [("drift", Fin (Rdefinitions.IZR 3)); ("g2", Fin (Rdefinitions.IZR 1))] in
  get "parameter_alias" (lo_config (lit_of cfg k)) = Some (VDict [("drift", VStr "t_sig")]) /\
  NoDup (keys p) /\ get "drift" p = Some (Fin (Rdefinitions.IZR 3)).
Proof.
  do 2 eexists. split; [vm_compute; reflexivity|]. cbn zeta. split; [reflexivity|]. split; [|reflexivity].
  cbn. repeat constructor; cbn; intuition discriminate.
Qed.

Print Assumptions C106_order_refuted.
Print Assumptions C106_shared_class_refuted.
Print Assumptions C106_path_refuted.
Print Assumptions C106_records.
Print Assumptions C106_complete.
Print Assumptions C106_alias.
