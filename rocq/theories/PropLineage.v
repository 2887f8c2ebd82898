(** Property C102: what the lineage of a component pins down. Only theorem statements closed by
    lemmas, their assumptions, and concrete instances. *)
From Verif Require Import Base BaseFacts ModelShare ModelConfig ModelComponent SpecComponent
  SpecConfig ModelCompile SpecCompile PropComponent PropCompile ModelLineage SpecLineage ProofLineage.
Local Open Scope string_scope.

(* ------------------------------------------------------------------ *)
(** * C102 the lineage as a fingerprint *)

(** Two components, deduced and compiled in two processes with their own files, classes and
    configuration. If the lineages are equal, the classes of the same name have the same source and
    the maps use the same scalers, they simulate the same for every key, batch size and parameters. *)
Theorem C102_fingerprint :
  forall sha code V (call : code -> option string -> (string -> option held) -> list V -> result (list V))
    limit names func nodep noeff d plugins src k0 w0 w s
    limit' names' func' nodep' noeff' d' plugins' src' k0' w0' w' s' L L' pr,
  no_collision sha -> reads_attributes call ->
  well_named plugins -> well_named plugins' -> declared plugins -> declared plugins' ->
  build_component limit names func nodep noeff (d_fs d) plugins k0 w0 = (w, cs_k s, Ok tt) ->
  build_component limit' names' func' nodep' noeff' (d_fs d') plugins' k0' w0' = (w', cs_k s', Ok tt) ->
  lineage sha code d src s w = Ok L -> lineage sha code d' src' s' w' = Ok L' ->
  same_lineage L L' -> same_classes plugins plugins' src src' ->
  k_code (cs_k s) = Some pr ->
  same_scalers plugins plugins' (pr_imports pr) (k_llh (cs_k s)) (w_cache w) (w_cache w') ->
  forall key batch params,
    sim code V call d src (w_cache w) s key batch params =
    sim code V call d' src' (w_cache w') s' key batch params.
Proof.
  intros until pr. intros NC RA W W' D D' B B' HL HL' SL SC Hc SS key batch params.
  destruct (build_parts _ _ _ _ _ _ _ _ _ _ _ W B) as (q & insts & P).
  destruct (build_parts _ _ _ _ _ _ _ _ _ _ _ W' B') as (q' & insts' & P').
  rewrite (pt_code _ _ _ _ _ P) in Hc. injection Hc as <-.
  exact (same_sim sha code _ _ _ _ _ _ _ _ _ _ _ _ _ _ _ _ NC P P' D D' HL HL' SL SC SS V call RA
           key batch params).
Qed.

(** With the flags force_no_eff and add_eps_to_hist equal too, the histograms are the same. *)
Theorem C102_histogram :
  forall sha code V (call : code -> option string -> (string -> option held) -> list V -> result (list V))
    ones post limit names func nodep noeff d plugins src k0 w0 w s
    limit' names' func' nodep' noeff' d' plugins' src' k0' w0' w' s' L L' pr,
  no_collision sha -> reads_attributes call ->
  well_named plugins -> well_named plugins' -> declared plugins -> declared plugins' ->
  build_component limit names func nodep noeff (d_fs d) plugins k0 w0 = (w, cs_k s, Ok tt) ->
  build_component limit' names' func' nodep' noeff' (d_fs d') plugins' k0' w0' = (w', cs_k s', Ok tt) ->
  lineage sha code d src s w = Ok L -> lineage sha code d' src' s' w' = Ok L' ->
  same_lineage L L' -> same_classes plugins plugins' src src' ->
  k_code (cs_k s) = Some pr ->
  same_scalers plugins plugins' (pr_imports pr) (k_llh (cs_k s)) (w_cache w) (w_cache w') ->
  k_noeff (cs_k s) = k_noeff (cs_k s') -> cs_eps s = cs_eps s' ->
  forall key batch params,
    simulate_hist code V call ones post d src (w_cache w) s key batch params =
    simulate_hist code V call ones post d' src' (w_cache w') s' key batch params.
Proof.
  intros until pr. intros NC RA W W' D D' B B' HL HL' SL SC Hc SS Hn He key batch params.
  destruct (build_parts _ _ _ _ _ _ _ _ _ _ _ W B) as (q & insts & P).
  destruct (build_parts _ _ _ _ _ _ _ _ _ _ _ W' B') as (q' & insts' & P').
  rewrite (pt_code _ _ _ _ _ P) in Hc. injection Hc as <-.
  exact (same_hist sha code _ _ _ _ _ _ _ _ _ _ _ _ _ _ _ _ NC P P' D D' HL HL' SL SC SS V call RA
           ones post key batch params Hn He).
Qed.

(** Moving files to other directories, without renaming them or changing their content, leaves the
    lineage as it was. *)
Theorem C102_moved_files :
  forall sha code limit names func nodep noeff d plugins (src : string -> source code) k0 w0 w s
    limit' names' func' nodep' noeff' d' plugins' src' k0' w0' w' s',
  well_named plugins -> well_named plugins' ->
  build_component limit names func nodep noeff (d_fs d) plugins k0 w0 = (w, cs_k s, Ok tt) ->
  build_component limit' names' func' nodep' noeff' (d_fs d') plugins' k0' w0' = (w', cs_k s', Ok tt) ->
  (forall n c, s_method (src n) c = s_method (src' n) c) ->
  moved_component d d' (w_cache w) (w_cache w') s s' ->
  lineage sha code d src s w = lineage sha code d' src' s' w'.
Proof.
  intros until s'. intros W W' B B' Hm M.
  destruct (build_parts _ _ _ _ _ _ _ _ _ _ _ W B) as (q & insts & P).
  destruct (build_parts _ _ _ _ _ _ _ _ _ _ _ W' B') as (q' & insts' & P').
  exact (moved_lineage sha code _ _ _ _ _ _ _ _ _ _ _ _ _ _ P P' Hm M).
Qed.

(** dump_lineage cannot write the lineage of a component that needs a plugin with a ConstantSet. *)
Theorem C102_dump_constant_set_refuted :
  forall sha code limit names func nodep noeff d plugins (src : string -> source code) k0 w0 w s pr pn p cf L,
  well_named plugins ->
  build_component limit names func nodep noeff (d_fs d) plugins k0 w0 = (w, cs_k s, Ok tt) ->
  k_code (cs_k s) = Some pr -> In pn (pr_imports pr) -> plugins pn = Some p ->
  In cf (map snd (p_configs p)) -> c_kind cf = KConstantSet ->
  lineage sha code d src s w = Ok L ->
  dump_lineage sha code d src s w = Err TypeError.
Proof.
  intros until L. intros W B Hc Hi Hp Hcf K HL.
  destruct (build_parts _ _ _ _ _ _ _ _ _ _ _ W B) as (q & insts & P).
  rewrite (pt_code _ _ _ _ _ P) in Hc. injection Hc as <-.
  rewrite (pt_imports _ _ _ _ _ P) in Hi. apply in_map_iff in Hi. destruct Hi as ([n pn'] & E & Hin).
  cbn in E. subst pn'. exact (dump_fails sha code _ _ _ _ _ _ _ _ _ _ _ _ P Hin Hp Hcf K HL).
Qed.

(** Without one, dump_lineage writes the lineage. *)
Theorem C102_dump :
  forall sha code limit names func nodep noeff d plugins (src : string -> source code) k0 w0 w s pr,
  well_named plugins ->
  build_component limit names func nodep noeff (d_fs d) plugins k0 w0 = (w, cs_k s, Ok tt) ->
  k_code (cs_k s) = Some pr ->
  (forall pn p cf, In pn (pr_imports pr) -> plugins pn = Some p -> In cf (map snd (p_configs p)) ->
     c_kind cf <> KConstantSet) ->
  dump_lineage sha code d src s w = lineage sha code d src s w.
Proof.
  intros until pr. intros W B Hc H.
  destruct (build_parts _ _ _ _ _ _ _ _ _ _ _ W B) as (q & insts & P).
  rewrite (pt_code _ _ _ _ _ P) in Hc. injection Hc as <-.
  exact (dump_works sha code _ _ _ _ _ _ _ P H).
Qed.

(* ------------------------------------------------------------------ *)
(** What is in a lineage: the names and the code of the component; for every plugin instance its
    inputs, outputs and parameters and, under the name of each config, the value of a constant, the
    named values of a constant set, and for a map the name of its file without the directory with the hash
    of the bytes found there when the lineage is asked for. *)
Theorem C102_records :
  forall sha code limit names func nodep noeff d plugins (src : string -> source code) k0 w0 w s L pr,
  well_named plugins -> declared plugins ->
  build_component limit names func nodep noeff (d_fs d) plugins k0 w0 = (w, cs_k s, Ok tt) ->
  k_code (cs_k s) = Some pr ->
  lineage sha code d src s w = Ok L ->
  l_rate L = k_rate (cs_k s) /\ l_norm L = cs_norm s /\ l_code L = pr /\ l_bins L = cs_bins s /\
  (forall n, In n (keys (l_insts L)) <-> In n (map fst (pr_insts pr))) /\
  exists cl, k_simulate (cs_k s) = Some cl /\
  forall n pn, In (n, pn) (pr_insts pr) -> exists p i l,
    plugins pn = Some p /\ get n (cl_insts cl) = Some i /\ get n (l_insts L) = Some l /\
    pl_depends l = p_depends p /\ pl_provides l = p_provides p /\ pl_params l = p_params p /\
    (forall a, In a (keys (pl_configs l)) <-> In a (keys (p_configs p))) /\
    forall b, In b (i_built i) -> exists e, get (c_name (b_config b)) (pl_configs l) = Some e /\
      config_entry sha d (w_cache w) (s_method (src pn) (c_name (b_config b))) b e.
Proof.
  intros until pr. intros W D B Hc HL.
  destruct (build_parts _ _ _ _ _ _ _ _ _ _ _ W B) as (q & insts & P).
  rewrite (pt_code _ _ _ _ _ P) in Hc. injection Hc as <-.
  destruct (lineage_parts _ _ _ _ _ _ _ _ _ _ P HL) as (A1 & A2 & A3 & A4 & A5 & _).
  repeat (split; [assumption|]). eexists. split; [exact (pt_sim _ _ _ _ _ P)|]. cbn [cl_insts].
  exact (records sha code _ _ _ _ _ _ _ _ P D HL).
Qed.

(** What simulate_hist bins: all outputs but the last, weighted by the last, or all of them with
    weight one if the component was compiled with force_no_eff; there must be as many as there are
    axes. *)
Theorem C102_binned :
  forall code V (call : code -> option string -> (string -> option held) -> list V -> result (list V))
    ones post d src c s key batch params key' outs eff bs ty,
  sim code V call d src c s key batch params
    = Ok (key', if k_noeff (cs_k s) then outs else (outs ++ [eff])%list) ->
  cs_bins s = Some (VList bs, ty) ->
  simulate_hist code V call ones post d src c s key batch params =
  if Nat.eqb (List.length outs) (List.length bs)
  then match post (cs_norm s) (k_rate (cs_k s)) (VList bs, ty) (cs_eps s) outs
               (if k_noeff (cs_k s) then ones outs else eff) params batch with
       | Ok h => Ok (key', h)
       | Err e => Err e
       end
  else Err AssertionError.
Proof.
  intros until ty. intros H Hb. unfold simulate_hist. rewrite H. cbn [bind].
  destruct (k_noeff (cs_k s)).
  - cbn [bind]. rewrite Hb. cbn [fst snd n_bins]. destruct (Nat.eqb _ _); [|reflexivity].
    destruct (post _ _ _ _ _ _ _ _); reflexivity.
  - rewrite rev_app_distr. cbn [rev app]. cbn [bind]. rewrite Hb. cbn [fst snd n_bins].
    rewrite removelast_last. destruct (Nat.eqb _ _); [|reflexivity].
    destruct (post _ _ _ _ _ _ _ _); reflexivity.
Qed.

(** * Concrete cases *)

Definition same_sha (b : string) : string := b.
Lemma same_sha_ok : no_collision same_sha.
Proof. intros a b H. exact H. Qed.

(** A file holds its own name; [disk_b] has a new version of the median map. *)
Definition disk_a : disk := mk_disk all_files (fun p => Some (base_name p)).
Definition disk_b : disk :=
  mk_disk all_files (fun p => Some (if String.eqb (base_name p) "m.json" then "new" else base_name p)).

(** Source code: the number of outputs and a constant to add. *)
Definition demo_src (n : string) : source (nat * nat) :=
  mk_source (if String.eqb n "Quanta" then (2, 0) else (1, 0)) (fun _ => "IDW").
Definition edited_src (n : string) : source (nat * nat) :=
  mk_source (if String.eqb n "Quanta" then (2, 0) else if String.eqb n "Eff" then (1, 3) else (1, 0))
            (fun _ => "IDW").
Definition attr (h : option held) : nat :=
  match h with
  | Some (HValue (VNum z)) => Z.to_nat z
  | Some (HSigma (Some sc) m bs) =>
      String.length sc + fold_right (fun b n => String.length b + n) 0 bs
  | _ => 0
  end.
Definition demo_call (co : nat * nat) (llh : option string) (h : string -> option held)
    (args : list nat) : result (list nat) :=
  match args with
  | k :: _ :: xs =>
      Ok (S k :: map (fun j => j + snd co + attr (h "w") + attr (h "cut") + fold_right Nat.add 0 xs)
                     (seq 1 (fst co)))
  | _ => Err TypeError
  end.
Lemma demo_call_reads : reads_attributes demo_call.
Proof. intros co llh h h' args H. unfold demo_call. rewrite !H. reflexivity. Qed.

Definition demo_bins : value * value := (VList [VList [VNum 0; VNum 1]; VList [VNum 0; VNum 1]], VStr "irreg").
Definition demo_sim (k : component) : csim := mk_csim k "on_pdf" (Some demo_bins) true.
Definition demo_post (norm rate : string) (b : value * value) (eps : bool) (mc : list nat)
    (eff params batch : nat) : result nat :=
  Ok (fold_right Nat.add 0 mc + eff + (if eps then 1 else 0)).
Definition in_dir (dir : string) : dict value :=
  [("cut", VList [VStr (dir ++ "m.json"); VStr (dir ++ "l.json"); VStr (dir ++ "u.json"); VStr "t_sig"])].

Lemma same_lineage_refl L : same_lineage L L.
Proof.
  unfold same_lineage, same_plugin, same_entries. repeat (split; [reflexivity|]). intros n.
  destruct (get n (l_insts L)); auto.
Qed.

Lemma demo_declared : declared demo_plugins.
Proof.
  intros n p H. unfold demo_plugins in H. apply List.find_some in H. destruct H as [H _].
  cbn in H. repeat destruct H as [<-|H]; try contradiction;
    (split; [reflexivity|cbn; repeat constructor; cbn; tauto]).
Qed.

Lemma demo_same_classes (src : string -> source (nat * nat)) : same_classes demo_plugins demo_plugins src src.
Proof.
  intros n p p' H H'. rewrite H in H'. injection H' as <-. split; [reflexivity|].
  intros c cf cf' Hi Hi' Hn Hn'. apply List.find_some in H. destruct H as [H _].
  cbn in H. repeat destruct H as [<-|H]; try contradiction; cbn in Hi, Hi';
    repeat destruct Hi as [<-|Hi]; try contradiction;
    repeat destruct Hi' as [<-|Hi']; try contradiction; reflexivity.
Qed.

(** The maps are in directory /a for one process and in /b for the other. *)
Example C102_instance : exists w w' k k' L pr,
  demo_build (fst (set_config all_files (in_dir "/a/") init_world)) = (w, k, Ok tt) /\
  demo_build (fst (set_config all_files (in_dir "/b/") init_world)) = (w', k', Ok tt) /\
  lineage same_sha _ disk_a demo_src (demo_sim k) w = Ok L /\
  lineage same_sha _ disk_a demo_src (demo_sim k') w' = Ok L /\ same_lineage L L /\
  k_code k = Some pr /\
  same_scalers demo_plugins demo_plugins (pr_imports pr) "llh" (w_cache w) (w_cache w') /\
  sim _ nat demo_call disk_a demo_src (w_cache w) (demo_sim k) 0 10 0 = Ok (5, [65; 26; 115]) /\
  option_map (fun l => get "cut" (pl_configs l)) (get "Eff_er" (l_insts L)) =
    Some (Some (LSigma (Some "llh") "IDW"
      [mk_ml None "IDW" "m.json" "m.json"; mk_ml None "IDW" "l.json" "l.json";
       mk_ml None "IDW" "u.json" "u.json"])).
Proof.
  do 6 eexists. split; [vm_compute; reflexivity|]. split; [vm_compute; reflexivity|].
  split; [vm_compute; reflexivity|]. split; [vm_compute; reflexivity|].
  split; [apply same_lineage_refl|]. split; [reflexivity|]. split.
  - intros n p p' cf cf' Hn H H' Hi Hi' E. rewrite H in H'. injection H' as <-.
    apply List.find_some in H. destruct H as [H _].
    cbn in H. repeat destruct H as [<-|H]; try contradiction; cbn in Hi, Hi';
      repeat destruct Hi as [<-|Hi]; try contradiction;
      repeat destruct Hi' as [<-|Hi']; try contradiction; vm_compute; reflexivity.
  - split; vm_compute; reflexivity.
Qed.

Example C102_moved_instance : exists w w' k k',
  demo_build (fst (set_config all_files (in_dir "/a/") init_world)) = (w, k, Ok tt) /\
  demo_build (fst (set_config all_files (in_dir "/b/") init_world)) = (w', k', Ok tt) /\
  moved_component disk_a disk_a (w_cache w) (w_cache w') (demo_sim k) (demo_sim k') /\
  get "Eff_er" (match k_simulate k with Some cl => own_values cl | None => [] end) <>
  get "Eff_er" (match k_simulate k' with Some cl => own_values cl | None => [] end).
Proof.
  do 4 eexists. split; [vm_compute; reflexivity|]. split; [vm_compute; reflexivity|].
  split; [|vm_compute; discriminate].
  split; [reflexivity|]. split; [reflexivity|]. split; [reflexivity|].
  do 2 eexists. split; [reflexivity|]. split; [reflexivity|]. split; [reflexivity|].
  intros n i i' H H'. cbn [get cl_insts] in H, H'.
  repeat (destruct (String.eqb n _) in H, H';
    [injection H as <-; injection H' as <-; split; [reflexivity|];
     repeat first
       [ apply Forall2_nil
       | apply Forall2_cons
       | match goal with |- moved _ _ _ _ _ _ => split; [reflexivity|cbn; try reflexivity] end
       | match goal with |- same_file _ _ _ _ _ _ =>
           do 6 eexists; split; [reflexivity|]; split; [reflexivity|];
           split; [exact (base_name_part _)|]; split; [exact (base_name_part _)|];
           repeat split; vm_compute; reflexivity
         end ]|]).
  discriminate.
Qed.

(** A new version of a file changes the lineage, wherever it is. *)
Example C102_new_content : exists w k L L',
  demo_build init_world = (w, k, Ok tt) /\
  lineage same_sha _ disk_a demo_src (demo_sim k) w = Ok L /\
  lineage same_sha _ disk_b demo_src (demo_sim k) w = Ok L' /\ ~ same_lineage L L'.
Proof.
  do 4 eexists. split; [vm_compute; reflexivity|]. split; [vm_compute; reflexivity|].
  split; [vm_compute; reflexivity|]. intros (_ & _ & _ & _ & H). specialize (H "Eff_er").
  destruct H as (_ & _ & _ & H). specialize (H "cut"). discriminate H.
Qed.

(** The source of a plugin is not part of the lineage: after an edit of one method the lineage is
    the same and the simulation is not. *)
Theorem C102_source_refuted : exists w k L key out out',
  demo_build init_world = (w, k, Ok tt) /\
  lineage same_sha _ disk_a demo_src (demo_sim k) w = Ok L /\
  lineage same_sha _ disk_a edited_src (demo_sim k) w = Ok L /\
  sim _ nat demo_call disk_a demo_src (w_cache w) (demo_sim k) 0 10 0 = Ok (key, out) /\
  sim _ nat demo_call disk_a edited_src (w_cache w) (demo_sim k) 0 10 0 = Ok (key, out') /\
  out <> out'.
Proof.
  do 6 eexists. do 5 (split; [vm_compute; reflexivity|]). discriminate.
Qed.

(** The name of the scaler of a map is not part of the component's lineage. *)
Definition other_scaler : dict value :=
  [("cut", VList [VStr "m.json"; VStr "l.json"; VStr "u.json"; VStr "another_sigma"])].
Theorem C102_scaler_refuted : exists w k w' k' L out out',
  demo_build init_world = (w, k, Ok tt) /\
  demo_build (fst (set_config all_files other_scaler init_world)) = (w', k', Ok tt) /\
  lineage same_sha _ disk_a demo_src (demo_sim k) w = Ok L /\
  lineage same_sha _ disk_a demo_src (demo_sim k') w' = Ok L /\
  In "t_sig" (k_needed k) /\ ~ In "t_sig" (k_needed k') /\ In "another_sigma" (k_needed k') /\
  sim _ nat demo_call disk_a demo_src (w_cache w) (demo_sim k) 0 10 0 = out /\
  sim _ nat demo_call disk_a demo_src (w_cache w') (demo_sim k') 0 10 0 = out' /\ out <> out'.
Proof.
  do 7 eexists. do 4 (split; [vm_compute; reflexivity|]).
  split; [cbn; tauto|]. split; [cbn; intuition discriminate|]. split; [cbn; tauto|].
  do 2 (split; [vm_compute; reflexivity|]). discriminate.
Qed.

(** Files are hashed when the lineage is asked for, not when they are loaded: after a map file is
    rewritten, a component compiled before has the lineage of one compiled after, and simulates
    from the old map. *)
Theorem C102_rewritten_file_refuted : exists w k L out out',
  demo_build init_world = (w, k, Ok tt) /\
  lineage same_sha _ disk_b demo_src (demo_sim k) w = Ok L /\
  lineage same_sha _ disk_a demo_src (demo_sim k) w <> Ok L /\
  sim _ nat demo_call disk_a demo_src (w_cache w) (demo_sim k) 0 10 0 = out /\
  sim _ nat demo_call disk_b demo_src (w_cache w) (demo_sim k) 0 10 0 = out' /\ out <> out'.
Proof.
  do 5 eexists. do 2 (split; [vm_compute; reflexivity|]). split; [vm_compute; discriminate|].
  do 2 (split; [vm_compute; reflexivity|]). discriminate.
Qed.

(** The flags are not part of the lineage. A component once deduced with force_no_eff keeps the
    flag; deduced again without it after clear_cache, it has the lineage of a fresh one and no
    histogram. Another add_eps_to_hist gives another histogram under the same lineage. *)
Theorem C102_flags_refuted : exists w1 k1 w k w' k' L h,
  demo_build init_world = (w, k, Ok tt) /\
  build_component 20 ["cs2"; "cs1"] "simulate" "batch_size" true all_files demo_plugins demo_k init_world
    = (w1, k1, Ok tt) /\
  build_component 20 ["cs2"; "cs1"] "simulate" "batch_size" false all_files demo_plugins k1 (clear_cache w1)
    = (w', k', Ok tt) /\
  lineage same_sha _ disk_a demo_src (demo_sim k) w = Ok L /\
  lineage same_sha _ disk_a demo_src (demo_sim k') w' = Ok L /\
  simulate_hist _ nat demo_call (fun _ => 1) demo_post disk_a demo_src (w_cache w) (demo_sim k) 0 10 0
    = Ok (5, h) /\
  simulate_hist _ nat demo_call (fun _ => 1) demo_post disk_a demo_src (w_cache w') (demo_sim k') 0 10 0
    = Err AssertionError /\
  lineage same_sha _ disk_a demo_src (mk_csim k "on_pdf" (Some demo_bins) false) w = Ok L /\
  simulate_hist _ nat demo_call (fun _ => 1) demo_post disk_a demo_src (w_cache w)
    (mk_csim k "on_pdf" (Some demo_bins) false) 0 10 0 <> Ok (5, h).
Proof.
  do 8 eexists. do 8 (split; [vm_compute; reflexivity|]). vm_compute. discriminate.
Qed.

Definition set_cf : config :=
  mk_config KConstantSet "shape" (Some (VList [VList [VStr "mu"; VStr "sg"]; VList [VList [VNum 1]; VList [VNum 2]]])) None.
Definition pSet := mk_plugin "Lit" ["energy"] ["batch_size"] [] [("shape", set_cf)]
                     ["self"; "key"; "parameters"; "batch_size"].
Example C102_dump_instance : exists w k L,
  build_component 20 ["energy"] "simulate" "batch_size" true all_files
    (fun n => if String.eqb n "Lit" then Some pSet else None)
    (mk_component "lit" "llh" "" (registry_after [[pSet]]) false [] [] "" None None None) init_world
    = (w, k, Ok tt) /\
  lineage same_sha _ disk_a demo_src (demo_sim k) w = Ok L /\
  option_map (fun l => get "shape" (pl_configs l)) (get "Lit_lit" (l_insts L)) =
    Some (Some (LValue None (VDict [("mu", VList [VNum 1]); ("sg", VList [VNum 2])]))) /\
  dump_lineage same_sha _ disk_a demo_src (demo_sim k) w = Err TypeError.
Proof. do 3 eexists. do 3 (split; [vm_compute; reflexivity|]). vm_compute. reflexivity. Qed.

Example C102_dump_ok : exists w k L,
  demo_build init_world = (w, k, Ok tt) /\
  dump_lineage same_sha _ disk_a demo_src (demo_sim k) w = Ok L /\
  lineage same_sha _ disk_a demo_src (demo_sim k) w = Ok L.
Proof. do 3 eexists. do 2 (split; [vm_compute; reflexivity|]). vm_compute. reflexivity. Qed.

Print Assumptions C102_fingerprint.
Print Assumptions C102_histogram.
Print Assumptions C102_moved_files.
Print Assumptions C102_dump_constant_set_refuted.
Print Assumptions C102_dump.
Print Assumptions C102_records.
Print Assumptions C102_binned.
Print Assumptions C102_source_refuted.
Print Assumptions C102_scaler_refuted.
Print Assumptions C102_rewritten_file_refuted.
Print Assumptions C102_flags_refuted.
