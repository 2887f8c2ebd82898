(** Properties of components and likelihoods: C09, C14-C20, C52.
    The vocabulary is in SpecHist.v and SpecLikelihood.v, the proofs in ProofLikelihood*.v. *)
From Coq Require Import Reals Lra Permutation.
From Verif Require Import Base BaseFacts ModelFloat ModelHist ModelLikelihood SpecHist SpecLikelihood
  ProofFloat ProofHist ProofLikelihood ProofLikelihood2 ProofLikelihood3 PropHist.
Local Open Scope string_scope.
Local Open Scope list_scope.

(* ------------------------------------------------------------------ *)
(** * C09 registration in a likelihood is all-or-nothing *)

(** [construct] is the outcome of creating, deducing and compiling the component. *)
Theorem C09_failure_changes_nothing {K} name construct (L : llh K) e :
  snd (register_component name construct L) = Err e -> fst (register_component name construct L) = L.
Proof. exact (register_fails name construct L e). Qed.

Theorem C09_fails_exactly {K} name construct (L : llh K) :
  is_ok (snd (register_component name construct L)) = false <->
  In name (keys (ll_components L)) \/ exists e, construct = Err e.
Proof. exact (register_fails_iff name construct L). Qed.

Theorem C09_success {K} name construct (L L' : llh K) u :
  register_component name construct L = (L', Ok u) ->
  exists c, construct = Ok c /\ get name (ll_components L) = None /\
    keys (ll_components L') = keys (ll_components L) ++ [name] /\
    get name (ll_components L') = Some c /\
    (forall n, n <> name -> get n (ll_components L') = get n (ll_components L)) /\
    ll_alias L' = ll_alias L /\ ll_data L' = ll_data L.
Proof. exact (register_succeeds name construct L L' u). Qed.

(** Over a whole history no name is registered twice. *)
Theorem C09_names_distinct {K} regs alias data :
  NoDup (keys (ll_components (@register_all K regs (new_llh alias data)))).
Proof.
  unfold register_all. generalize (new_llh alias data : llh K) (NoDup_nil string : NoDup (keys (ll_components (new_llh alias data : llh K)))).
  induction regs as [|[n r] regs IH]; simpl; intros L HL; [exact HL|]. apply IH.
  unfold register_component. destruct (has n (ll_components L)); [exact HL|].
  destruct r; [|exact HL]. simpl. apply NoDup_set, HL.
Qed.

(** A literature likelihood holds at most one component. *)
Theorem C09_literature_one {K} regs : forall L : llh K, List.length (ll_components L) <= 1 ->
  List.length (ll_components
    (fold_left (fun L r => fst (lit_register_component (fst r) (snd r) L)) regs L)) <= 1.
Proof.
  induction regs as [|[n r] regs IH]; simpl; intros L HL; [exact HL|]. apply IH.
  unfold lit_register_component. destruct (ll_components L) as [|c cs] eqn:Hc.
  - unfold register_component. rewrite Hc. simpl. destruct r; simpl; [|rewrite Hc; simpl; lia]. lia.
  - cbn [fst]; rewrite Hc; exact HL.
Qed.

Definition comp_a : lcomp nat := mk_lcomp ["a_rate"; "x"] (LFixed (fun _ => Ok [Fin 1])).
Definition comp_b : lcomp nat := mk_lcomp ["b_rate"; "y"] (LSim (fun k _ _ => Ok (S k, [Fin 2]))).
Definition llh_ab : llh nat :=
  register_all [("a", Ok comp_a); ("b", Err RuntimeError); ("b", Ok comp_b); ("a", Ok comp_b)]
    (new_llh [("z", "y")] [Fin 3]).

Example C09_case :
  ll_components llh_ab = [("a", comp_a); ("b", comp_b)] /\
  ll_needed llh_ab = ["a_rate"; "x"; "b_rate"; "z"] /\
  register_component "b" (Ok comp_a) llh_ab = (llh_ab, Err ValueError).
Proof. repeat split. Qed.

(* ------------------------------------------------------------------ *)
(** * C14 totals *)

(** One simulated component normalised on its pdf: whenever the total it returns is a finite
    number, that number is the rate; *)
Theorem C14_component_total {K} oor c sim (key : K) b p key' h r t :
  n_norm c = OnPdf -> get (n_rate c) p = Some (Fin r) ->
  sim_hist oor c sim key b p = Ok (key', h) -> h <> [] -> fsum h = Fin t -> t = r.
Proof. exact (sim_hist_total oor c sim key b p key' h r t). Qed.

(** and it is finite whenever the total before normalisation is not zero. *)
Theorem C14_component_total_nonzero {K} oor c sim (key : K) b p key' h r :
  n_norm c = OnPdf -> get (n_rate c) p = Some (Fin r) ->
  sim_hist oor c sim key b p = Ok (key', h) ->
  exists rows h0, sim key b p = Ok (key', rows) /\
    implement_binning oor (n_add_eps c) (n_bins c) (fst (split_rows (n_no_eff c) rows))
      (snd (split_rows (n_no_eff c) rows)) = Ok h0 /\
    (forall s, fsum h0 = Fin s -> s <> 0%R -> fsum h = Fin r).
Proof. exact (sim_hist_total_nz oor c sim key b p key' h r). Qed.

Theorem C14_fixed_total oor c data p h r t :
  n_norm c = OnPdf -> get (n_rate c) p = Some (Fin r) ->
  fixed_hist oor c data p = Ok h -> h <> [] -> fsum h = Fin t -> t = r.
Proof. exact (fixed_hist_total oor c data p h r t). Qed.

(** A likelihood: a finite expected number of events is the sum of the rates of its components. *)
Theorem C14_model_total {K} oor (L : llh K) key b p x t :
  separate (ll_alias L) -> NoDup (keys (ll_alias L)) -> NoDup (keys p) ->
  Forall (built oor (fun c => n_norm c = OnPdf)) (ll_components L) -> ll_data L <> [] ->
  get_num_events_accepted L key b p = Ok x -> x = Fin t ->
  exists rs, rates (ll_components L) (replace_alias (ll_alias L) p) = map (fun r => Some (Fin r)) rs /\
    t = fold_right Rplus 0%R rs.
Proof.
  intros Hs Ha Hp Hb Hd H ->. unfold get_num_events_accepted in H.
  destruct (simulate_model_hist L key b (replace_alias (ll_alias L) p)) as [[key' h]|e] eqn:Hm; [|discriminate].
  injection H as H. destruct (model_total_rates oor L _ _ _ _ _ t Hb Hd Hm H) as (rs & Hr & Ht).
  exists rs. rewrite replace_alias_idem in Hr by assumption. auto.
Qed.

(** With the floor (and samples that are not empty) it is always finite. *)
Theorem C14_model_total_floored {K} oor (L : llh K) key b p x rs :
  separate (ll_alias L) -> NoDup (keys (ll_alias L)) -> NoDup (keys p) ->
  Forall (floored oor b) (ll_components L) -> ll_data L <> [] ->
  rates (ll_components L) (replace_alias (ll_alias L) p) = map (fun r => Some (Fin r)) rs ->
  (forall r, In r rs -> 0 <= r)%R ->
  get_num_events_accepted L key b p = Ok x -> x = Fin (fold_right Rplus 0%R rs).
Proof.
  intros Hs Ha Hp Hf Hd Hr Hpos H. unfold get_num_events_accepted in H.
  destruct (simulate_model_hist L key b (replace_alias (ll_alias L) p)) as [[key' h]|e] eqn:Hm; [|discriminate].
  injection H as <-. refine (floored_total oor L _ _ _ _ _ rs Hf _ Hpos Hd Hm). rewrite replace_alias_idem by assumption. exact Hr.
Qed.

(** A concrete likelihood: a simulated component "s" (an alias for its rate) and a fixed one "f". *)
Definition no_row : list (list fl) -> nat -> list fl := fun _ _ => [].
Definition ex_cnum (n : string) : cnum :=
  mk_cnum (n ++ "_rate") OnPdf true false (BIrreg1 [Fin 0; Fin 1; Fin 2]) (Ok None).
Definition ex_sim (k : nat) (b : nat) (p : params) : result (nat * list (list fl)) :=
  Ok (S k, [[Fin 1; Fin 1]; [Fin (1/2); Fin (1/2)]]).
Definition ex_s : lcomp nat := mk_lcomp ["s_rate"] (LSim (sim_hist no_row (ex_cnum "s") ex_sim)).
Definition ex_f : lcomp nat := mk_lcomp ["f_rate"] (LFixed (fixed_hist no_row (ex_cnum "f") [[Fin 1]; [Fin 2]])).
Definition ex_llh : llh nat :=
  register_all [("s", Ok ex_s); ("f", Ok ex_f)] (new_llh [("my_rate", "s_rate")] [Fin 1; Fin 0]).
Definition ex_params : params := [("my_rate", Fin 10); ("f_rate", Fin 5)].

Lemma ex_floored : Forall (floored no_row 7) (ll_components ex_llh).
Proof.
  constructor; [|constructor; [|constructor]].
  - apply floored_sim; try reflexivity. intros key p key' rows H. unfold ex_sim in H. injection H as _ <-.
    split; [discriminate|]. simpl. intros e [<-|[<-|[]]]; [exists 1%R|exists (1/2)%R]; (split; [reflexivity|lra]).
  - apply floored_fixed; try reflexivity. discriminate.
Qed.

Lemma ex_alias : separate (ll_alias ex_llh) /\ NoDup (keys (ll_alias ex_llh)) /\ NoDup (keys ex_params).
Proof.
  split; [|split].
  - intros k [<-|[]] [H|[]]. discriminate.
  - constructor; [intros []|constructor].
  - repeat constructor; simpl; intros H; repeat destruct H as [H|H]; try discriminate; assumption.
Qed.

Lemma ex_rates : rates (ll_components ex_llh) (replace_alias (ll_alias ex_llh) ex_params)
  = map (fun r => Some (Fin r)) [10%R; 5%R].
Proof. reflexivity. Qed.

Example C14_case :
  exists x, get_num_events_accepted ex_llh 0 7 ex_params = Ok x /\ x = Fin 15.
Proof.
  assert (Hok : exists x, get_num_events_accepted ex_llh 0 7 ex_params = Ok x).
  { assert (Hl : forall f e b ev, List.length (scale f (floor_hist e (hist_1d b ev))) = List.length b - 1).
    { intros f e b ev. unfold scale, floor_hist. rewrite !map_length. apply hist_1d_length. }
    unfold get_num_events_accepted, simulate_model_hist.
    cbn -[hist_1d fsum scale fadd floor_hist iadd].
    rewrite iadd_ok by (rewrite Hl; reflexivity). rewrite iadd_ok; [eauto|].
    rewrite hist_add_length by (rewrite Hl; reflexivity). rewrite Hl. reflexivity. }
  destruct Hok as [x Hx]. exists x. split; [exact Hx|].
  destruct ex_alias as (H1 & H2 & H3).
  rewrite (C14_model_total_floored no_row ex_llh 0 7 ex_params x [10%R; 5%R] H1 H2 H3 ex_floored); auto.
  - simpl. f_equal. lra.
  - discriminate.
  - intros r [<-|[<-|[]]]; lra.
Qed.

(** Without the floor, a simulation that puts no event in the bins makes the total NaN: the rate
    is not reproduced. *)
Theorem C14_empty_bins_refuted :
  exists c sim, n_norm c = OnPdf /\ n_add_eps c = false /\
    match sim_hist (K := nat) no_row c sim 0 1 [("r_rate", Fin 10)] with
    | Ok (_, h) => h <> [] /\ fsum h = NaN
    | Err _ => False
    end.
Proof.
  exists (mk_cnum "r_rate" OnPdf false false (BIrreg1 [Fin 0; Fin 1]) (Ok None)).
  exists (fun k _ _ => Ok (k, [[Fin 5; Fin 1]])). split; [reflexivity|]. split; [reflexivity|].
  cbn -[hist_1d fsum scale].
  assert (Hh : hist_1d [Fin 0; Fin 1] [(Fin 5, Fin 1)] = [Fin 0]).
  { apply entry_ext; [rewrite hist_1d_length; reflexivity|]. intros i Hi.
    rewrite hist_1d_length in Hi. cbn in Hi. destruct i; [|lia].
    rewrite hist_1d_entry; [|cbn; repeat split; try discriminate; intros x Hx; repeat (destruct Hx as [<-|Hx]; [fl_eval; try reflexivity|]); destruct Hx|cbn; lia].
    unfold weight_of, in_bin, entry, edge. fl_eval. reflexivity. }
  rewrite Hh. split; [discriminate|].
  unfold fsum, scale. cbn [map fold_right]. rewrite !fadd_0_r. unfold fdiv. rewrite finv_0.
  repeat (cbn [fmul]; unfold inf_times;
          match goal with |- context [total_order_T ?a ?b] =>
            destruct (total_order_T a b) as [[?|?]|?]; try lra end).
  reflexivity.
Qed.

(* ------------------------------------------------------------------ *)
(** * C15 the floor *)

(** Entry by entry: the larger of the plain histogram and 1e-10 + mean efficiency. *)
Theorem C15_floor oor b mc es h : es <> [] -> (forall e, In e es -> 0 <= e)%R ->
  implement_binning oor true b mc (map Fin es) = Ok h ->
  exists h0, implement_binning oor false b mc (map Fin es) = Ok h0 /\
    List.length h = List.length h0 /\
    forall i, i < List.length h ->
      exists v0, entry h0 i = Fin v0 /\ (0 <= v0)%R /\ entry h i = Fin (Rmax v0 (1 / 10 ^ 10 + mean es)).
Proof. exact (floor_spec oor b mc es h). Qed.

(** Hence a finite log-likelihood, if no rate is negative and one is positive. *)
Theorem C15_finite_likelihood {K} oor (L : llh K) key b p ds rs key' x :
  separate (ll_alias L) -> NoDup (keys (ll_alias L)) -> NoDup (keys p) ->
  Forall (floored oor b) (ll_components L) -> ll_data L = map Fin ds ->
  rates (ll_components L) (replace_alias (ll_alias L) p) = map (fun r => Some (Fin r)) rs ->
  (forall r, In r rs -> 0 <= r)%R -> (exists r, In r rs /\ (0 < r)%R) ->
  get_log_likelihood L key b p = Ok (key', x) -> exists v, x = Fin v.
Proof.
  intros Hs Ha Hp Hf Hd Hr Hpos Hex H. pose proof (get_llh_cases L key b p ds Hd) as Hc.
  destruct (simulate_model_hist L key b (replace_alias (ll_alias L) p)) as [[k2 h]|e] eqn:Hm; [|congruence].
  destruct Hc as [[(y & Hy & Hb) _]|(ms & _ & _ & _ & Heq)].
  - exfalso. apply Hb. refine (proj2 (floored_model oor L _ _ _ _ _ rs Hf _ Hpos Hex Hm) y Hy).
    rewrite replace_alias_idem by assumption. exact Hr.
  - rewrite Heq in H. injection H as <- <-. eauto.
Qed.

Example C15_case : exists key' v, get_log_likelihood ex_llh 0 7 ex_params = Ok (key', Fin v).
Proof.
  assert (Hok : exists r, get_log_likelihood ex_llh 0 7 ex_params = Ok r).
  { pose proof (get_llh_cases ex_llh 0 7 ex_params [1%R; 0%R] eq_refl) as Hc.
    destruct C14_case as (x & Hx & _). unfold get_num_events_accepted in Hx.
    destruct (simulate_model_hist ex_llh 0 7 (replace_alias (ll_alias ex_llh) ex_params)) as [[k2 h]|e];
      [|discriminate].
    destruct Hc as [[_ ->]|(ms & _ & _ & _ & ->)]; eauto. }
  destruct Hok as [[key' x] Hx]. exists key'. destruct ex_alias as (H1 & H2 & H3).
  destruct (C15_finite_likelihood no_row ex_llh 0 7 ex_params [1%R; 0%R] [10%R; 5%R] key' x H1 H2 H3
              ex_floored eq_refl ex_rates) as [v ->]; eauto.
  - intros r [<-|[<-|[]]]; lra.
  - exists 10%R. split; [left; reflexivity|lra].
Qed.

(** An empty sample makes every bin NaN, with the floor as without data: the mean of no
    efficiencies is NaN. *)
Theorem C15_empty_sample_refuted oor b mc h :
  implement_binning oor true b mc [] = Ok h -> forall x, In x h -> x = NaN.
Proof.
  unfold implement_binning. destruct (plain_hist oor b mc []) as [h0|e]; [|discriminate].
  intros H. injection H as <-. intros x Hx. unfold floor_hist in Hx. apply in_map_iff in Hx.
  destruct Hx as (y & <- & _).
  assert (Hm : fmean [] = NaN).
  { unfold fmean, fdiv. cbn [List.length INR]. rewrite finv_0. cbn. rewrite inf_times_0. reflexivity. }
  rewrite Hm. unfold fclip, fmax, fmin. cbn. destruct y; reflexivity.
Qed.

(* ------------------------------------------------------------------ *)
(** * C16 never NaN or +inf *)

(** With a finite data histogram the only results are -inf (exactly when some model bin is zero,
    negative, infinite or NaN) and the finite Poisson sum; the only errors are those of the
    simulation. *)
Theorem C16_cases {K} (L : llh K) key b p ds :
  ll_data L = map Fin ds ->
  match simulate_model_hist L key b (replace_alias (ll_alias L) p) with
  | Err e => get_log_likelihood L key b p = Err e
  | Ok (key', h) =>
      ((exists x, In x h /\ ~ good_bin x) /\ get_log_likelihood L key b p = Ok (key', NInf)) \/
      (exists ms, h = map Fin ms /\ (forall m, In m ms -> 0 < m)%R /\ List.length ms = List.length ds /\
         get_log_likelihood L key b p = Ok (key', Fin (poisson_R ds ms)))
  end.
Proof. exact (get_llh_cases L key b p ds). Qed.

Theorem C16_never_nan {K} (L : llh K) key b p ds key' x :
  ll_data L = map Fin ds -> get_log_likelihood L key b p = Ok (key', x) ->
  x <> NaN /\ x <> PInf.
Proof.
  intros Hd H. pose proof (C16_cases L key b p ds Hd) as Hc.
  destruct (simulate_model_hist L key b (replace_alias (ll_alias L) p)) as [[k2 h]|e]; [|congruence].
  destruct Hc as [[_ Heq]|(ms & _ & _ & _ & Heq)]; rewrite Heq in H; injection H as <- <-; split; discriminate.
Qed.

Definition bad_llh (x : fl) : llh nat :=
  register_all [("s", Ok (mk_lcomp [] (LSim (fun k _ _ => Ok (S k, [Fin 1; x])))))]
    (new_llh [] [Fin 1; Fin 0]).

Example C16_case_bad : get_log_likelihood (bad_llh NaN) 0 1 [] = Ok (1, NInf).
Proof.
  pose proof (C16_cases (bad_llh NaN) 0 1 [] [1%R; 0%R] eq_refl) as Hc. cbn in Hc.
  destruct Hc as [[_ H]|(ms & H & _)]; [exact H|].
  exfalso. destruct ms as [|m1 [|m2 ms]]; discriminate.
Qed.

Example C16_case_good : exists v, get_log_likelihood (bad_llh (Fin 2)) 0 1 [] = Ok (1, Fin v).
Proof.
  pose proof (C16_cases (bad_llh (Fin 2)) 0 1 [] [1%R; 0%R] eq_refl) as Hc. cbn in Hc.
  destruct Hc as [[(x & Hx & Hb) _]|(ms & _ & _ & _ & H)]; [|eauto].
  exfalso. apply Hb. destruct Hx as [<-|[<-|[]]]; [exists (0 + 1)%R|exists (0 + 2)%R]; split; auto; lra.
Qed.

(* ------------------------------------------------------------------ *)
(** * C17 the optimum *)

(** The log-likelihood of any positive model is at most the value of the perfect model, with
    equality only there; a bin without data contributes at most 0. *)
Theorem C17_best ds ms : List.length ds = List.length ms ->
  (forall d, In d ds -> 0 <= d)%R -> (forall m, In m ms -> 0 < m)%R ->
  (poisson_R ds ms <= poisson_best ds)%R /\ (poisson_R ds ms = poisson_best ds -> ms = ds).
Proof. exact (poisson_best_bound ds ms). Qed.

Theorem C17_best_is_data ds : (forall d, In d ds -> 0 < d)%R -> poisson_best ds = poisson_R ds ds.
Proof. exact (poisson_best_data ds). Qed.

(** Scaling a model shape: best when (and only when) its total is the number of events. *)
Theorem C17_scale ds ms c :
  List.length ds = List.length ms -> (forall d, In d ds -> 0 <= d)%R -> (0 < fold_right Rplus 0 ds)%R ->
  (forall m, In m ms -> 0 < m)%R -> (0 < c)%R ->
  let best := (fold_right Rplus 0 ds / fold_right Rplus 0 ms)%R in
  (poisson_R ds (map (fun m => c * m) ms) <= poisson_R ds (map (fun m => best * m) ms))%R /\
  (poisson_R ds (map (fun m => c * m)%R ms) = poisson_R ds (map (fun m => best * m)%R ms) ->
   fold_right Rplus 0%R (map (fun m => c * m)%R ms) = fold_right Rplus 0%R ds).
Proof. exact (poisson_scale_opt ds ms c). Qed.

(** The same at the level of the API: whatever the parameters, the finite log-likelihoods of a
    likelihood are bounded by the data alone. *)
Theorem C17_likelihood_bounded {K} (L : llh K) key b p ds key' v :
  ll_data L = map Fin ds -> (forall d, In d ds -> 0 <= d)%R ->
  get_log_likelihood L key b p = Ok (key', Fin v) -> (v <= poisson_best ds)%R.
Proof.
  intros Hd Hpos H. pose proof (C16_cases L key b p ds Hd) as Hc.
  destruct (simulate_model_hist L key b (replace_alias (ll_alias L) p)) as [[k2 h]|e]; [|congruence].
  destruct Hc as [[_ Heq]|(ms & _ & Hms & Hl & Heq)]; rewrite Heq in H; [discriminate|].
  injection H as <- <-. apply C17_best; auto.
Qed.

Example C17_case : (poisson_R [3; 0] [2; 1] < poisson_best [3; 0])%R.
Proof.
  destruct (C17_best [3; 0]%R [2; 1]%R) as [H1 H2]; [reflexivity|intros d [<-|[<-|[]]]; lra|intros d [<-|[<-|[]]]; lra|].
  destruct (Rle_lt_or_eq_dec _ _ H1) as [H|H]; [exact H|]. specialize (H2 H). injection H2. intros. lra.
Qed.

(* ------------------------------------------------------------------ *)
(** * C18 alias replacement *)

(** The dictionary passed in, like every other one, keeps its contents; the result is a new one. *)
Theorem C18_pure alias l h : l < List.length h ->
  let '(h', l') := replace_alias_heap alias l h in
  heap_get h' l' = replace_alias alias (heap_get h l) /\
  (forall i, i < List.length h -> heap_get h' i = heap_get h i) /\
  ~ l' < List.length h.
Proof. exact (replace_alias_heap_spec alias l h). Qed.

(** What every name is mapped to afterwards. *)
Theorem C18_renames {V} (alias : dict string) (p : dict V) n :
  NoDup (keys p) -> NoDup (keys alias) -> separate alias ->
  get n (replace_alias alias p) =
  if mem n (keys alias) then None
  else match alias_value alias p n with Some x => Some x | None => get n p end.
Proof. exact (replace_alias_get alias p n). Qed.

(** With different targets: the value of a present alias ends at its target. *)
Theorem C18_moves {V} (alias : dict string) (p : dict V) k v x :
  NoDup (keys p) -> NoDup (keys alias) -> separate alias -> NoDup (targets alias) ->
  In (k, v) alias -> get k p = Some x ->
  get v (replace_alias alias p) = Some x /\ get k (replace_alias alias p) = None.
Proof.
  intros Hp Ha Hs Ht Hin Hg. rewrite !replace_alias_get by assumption.
  assert (Hk : In k (keys alias)) by (apply (in_map fst) in Hin; exact Hin).
  assert (Hv : ~ In v (keys alias)).
  { intros H. apply (Hs v H). apply (in_map snd) in Hin. exact Hin. }
  apply mem_In in Hk. rewrite Hk. apply mem_false in Hv. rewrite Hv.
  rewrite (alias_value_distinct alias p k v Ht Hin), Hg. auto.
Qed.

Theorem C18_untouched {V} (alias : dict string) (p : dict V) n :
  NoDup (keys p) -> NoDup (keys alias) -> separate alias ->
  ~ In n (keys alias) -> ~ In n (targets alias) ->
  get n (replace_alias alias p) = get n p.
Proof.
  intros Hp Ha Hs H1 H2. rewrite replace_alias_get by assumption.
  apply mem_false in H1. rewrite H1, (alias_value_none alias p n H2). reflexivity.
Qed.

Theorem C18_twice {V} (alias : dict string) (p : dict V) :
  NoDup (keys p) -> NoDup (keys alias) -> separate alias ->
  replace_alias alias (replace_alias alias p) = replace_alias alias p.
Proof. exact (replace_alias_idem alias p). Qed.

(** A chain of aliases is resolved one step further by every application. *)
Theorem C18_chain_refuted :
  exists (alias : dict string) (p : dict nat),
    NoDup (keys alias) /\ NoDup (keys p) /\
    replace_alias alias (replace_alias alias p) <> replace_alias alias p.
Proof.
  exists [("b", "c"); ("a", "b")], [("a", 1)].
  split; [|split].
  - repeat constructor; simpl; intros H; repeat destruct H as [H|H]; try discriminate; assumption.
  - repeat constructor; intros [].
  - cbn. discriminate.
Qed.

Example C18_case :
  let alias := [("my_rate", "s_rate"); ("w", "v")] in
  separate alias /\ NoDup (targets alias) /\
  replace_alias alias [("my_rate", 1); ("s_rate", 2); ("q", 3)] = [("s_rate", 1); ("q", 3)].
Proof.
  cbv zeta. split; [|split; [|reflexivity]].
  - intros k [<-|[<-|[]]] [H|[H|[]]]; discriminate.
  - repeat constructor; simpl; intros H; repeat destruct H as [H|H]; try discriminate; assumption.
Qed.

(* ------------------------------------------------------------------ *)
(** * C19 needed_parameters *)

(** [x]: a parameter needed by the registered component [n], not itself used as an alias name. *)
Theorem C19_sufficient {K} alias data regs (p : params) n c x :
  separate alias -> NoDup (keys alias) -> NoDup (keys p) ->
  let L := @register_all K regs (new_llh alias data) in
  get n (ll_components L) = Some c -> In x (l_needed c) -> ~ In x (keys alias) ->
  (forall y, In y (ll_needed L) -> In y (keys p)) ->
  In x (keys (replace_alias alias p)).
Proof. exact (needed_suffices alias data regs p n c x). Qed.

(** And exactly: the needed parameters are those of the components, with alias names instead of
    their targets. *)
Theorem C19_exact {K} alias data regs z :
  separate alias -> NoDup (targets alias) ->
  let L := @register_all K regs (new_llh alias data) in
  In z (ll_needed L) <->
  exists n c x, get n (ll_components L) = Some c /\ In x (l_needed c) /\
    ((~ In x (targets alias) /\ z = x) \/ In (z, x) alias).
Proof. exact (needed_exact_alias alias data regs z). Qed.

Example C19_case :
  let L := register_all [("s", Ok ex_s); ("f", Ok ex_f)] (new_llh [("my_rate", "s_rate")] []) in
  ll_needed L = ["f_rate"; "my_rate"] \/ ll_needed L = ["my_rate"; "f_rate"].
Proof. right. reflexivity. Qed.

(** A chain of aliases: providing everything needed does not suffice, even though the likelihood
    applies the table twice. *)
Theorem C19_chain_refuted :
  exists alias regs (p : params) n c x,
    let L := @register_all nat regs (new_llh alias []) in
    get n (ll_components L) = Some c /\ In x (l_needed c) /\ ~ In x (keys alias) /\
    (forall y, In y (ll_needed L) -> In y (keys p)) /\
    ~ In x (keys (replace_alias alias (replace_alias alias p))).
Proof.
  exists [("c", "d"); ("b", "c"); ("a", "b")], [("n", Ok (mk_lcomp ["d"] LOther))], [("a", Fin 1)], "n",
    (mk_lcomp ["d"] LOther), "d".
  cbn. split; [reflexivity|]. split; [auto|]. split; [intros [H|[H|[H|[]]]]; discriminate|].
  split; [auto|]. intros [H|[]]. discriminate.
Qed.

(** A component that needs a parameter also used as an alias name: it is moved away. *)
Theorem C19_alias_needed_refuted :
  exists alias regs (p : params) n c x,
    let L := @register_all nat regs (new_llh alias []) in
    separate alias /\ get n (ll_components L) = Some c /\ In x (l_needed c) /\
    (forall y, In y (ll_needed L) -> In y (keys p)) /\
    ~ In x (keys (replace_alias alias p)).
Proof.
  exists [("a", "b")], [("n", Ok (mk_lcomp ["a"; "b"] LOther))], [("a", Fin 1)], "n",
    (mk_lcomp ["a"; "b"] LOther), "a".
  cbn. split; [intros k [<-|[]] [H|[]]; discriminate|]. split; [reflexivity|]. split; [auto|].
  split; [auto|]. intros [H|[]]. discriminate.
Qed.

(* ------------------------------------------------------------------ *)
(** * C20 the model histogram *)

(** Every bin is the sum over the components; the simulated ones are run in registration order,
    each from the key the previous one returned; fixed ones see no key. *)
Theorem C20_sum {K} (L : llh K) key b p key' h :
  simulate_model_hist L key b p = Ok (key', h) ->
  exists xs ys, sim_chain b (replace_alias (ll_alias L) p) (ll_components L) key xs key' /\
    fixed_hists (replace_alias (ll_alias L) p) (ll_components L) ys /\
    (forall x, In x (xs ++ ys) -> List.length x = List.length (ll_data L)) /\
    List.length h = List.length (ll_data L) /\
    forall i, i < List.length (ll_data L) -> entry h i = fsum (map (fun x => entry x i) (xs ++ ys)).
Proof. exact (model_hist_entries L key b p key' h). Qed.

(** It succeeds whenever all components do, with histograms of the shape of the data. *)
Theorem C20_succeeds {K} (L : llh K) key b p xs ys key' :
  let p' := replace_alias (ll_alias L) p in
  sim_chain b p' (ll_components L) key xs key' -> fixed_hists p' (ll_components L) ys ->
  existsb is_other (ll_components L) = false ->
  (forall x, In x (xs ++ ys) -> List.length x = List.length (ll_data L)) ->
  exists h, simulate_model_hist L key b p = Ok (key', h).
Proof.
  intros p' Hs Hf Ho Hl. unfold simulate_model_hist. eapply sum_components_complete; eauto.
  rewrite map_length. exact Hl.
Qed.

(** Reordering that keeps the simulated components in order changes nothing, key included. *)
Theorem C20_order {K} (L L' : llh K) key b p r :
  Permutation (ll_components L) (ll_components L') ->
  filter is_sim (ll_components L) = filter is_sim (ll_components L') ->
  ll_alias L = ll_alias L' -> ll_data L = ll_data L' ->
  simulate_model_hist L key b p = Ok r -> simulate_model_hist L' key b p = Ok r.
Proof.
  intros Hp Hf Ha Hd. unfold simulate_model_hist. rewrite Ha, Hd. apply sum_components_reorder; assumption.
Qed.

Definition two (f : bool) : llh nat :=
  let s1 := ("s1", mk_lcomp [] (LSim (fun k _ _ => Ok (k + 1, [Fin (INR k)])))) in
  let s2 := ("s2", mk_lcomp [] (LSim (fun k _ _ => Ok (k + 5, [Fin (INR (10 * k))])))) in
  let x := ("x", mk_lcomp [] (LFixed (fun _ => Ok [Fin 100]))) in
  mk_llh (if f then [x; s1; s2] else [s1; s2; x]) [] [] [Fin 0].

Example C20_case :
  exists h, simulate_model_hist (two true) 3 1 [] = Ok (9, h) /\
            simulate_model_hist (two false) 3 1 [] = Ok (9, h).
Proof.
  assert (H : exists h, simulate_model_hist (two true) 3 1 [] = Ok (9, h)) by (cbn; eauto).
  destruct H as [h H]. exists h. split; [exact H|].
  refine (C20_order (two true) (two false) 3 1 [] (9, h) _ eq_refl eq_refl eq_refl H).
  simpl. eapply Permutation_trans; [apply perm_swap|]. constructor. apply perm_swap.
Qed.

(** The order of two simulated components does matter: they swap their keys. *)
Theorem C20_sim_order_refuted :
  exists (cs cs' : dict (lcomp nat)) key r r', Permutation cs cs' /\
    sum_components cs key 1 [] [Fin 0] = Ok r /\ sum_components cs' key 1 [] [Fin 0] = Ok r' /\ r <> r'.
Proof.
  set (s1 := ("s1", mk_lcomp [] (LSim (fun k _ _ => Ok (k + 1, [Fin (INR k)])))) : string * lcomp nat).
  set (s2 := ("s2", mk_lcomp [] (LSim (fun k _ _ => Ok (k * 2, [Fin 0])))) : string * lcomp nat).
  exists [s1; s2], [s2; s1], 3, (8, [fadd (fadd (Fin 0) (Fin (INR 3))) (Fin 0)]), (7, [fadd (fadd (Fin 0) (Fin 0)) (Fin (INR 6))]).
  split; [apply perm_swap|]. split; [reflexivity|]. split; [reflexivity|]. intros H. injection H. intros. discriminate.
Qed.

(* ------------------------------------------------------------------ *)
(** * C52 multiple simulations *)

(** [w] is the number of outputs of the simulation. *)
Theorem C52_concatenates {K} (sim : K -> nat -> params -> result (K * list (list fl)))
    no_eff apply_eff times key b p key' cols w :
  (forall k k' cs, sim k b p = Ok (k', cs) -> List.length cs = w) ->
  (multiple_simulations sim no_eff apply_eff times key b p = Ok (key', cols) <->
   times <> 0 /\ apply_eff && no_eff = false /\
   exists rs, runs_from sim b p times key rs key' /\
     cols = map (fun i => List.concat (map (fun r =>
              let col := nth i r [] in
              if apply_eff then positive_only (last r []) col else col) rs)) (seq 0 w)).
Proof. exact (multiple_spec sim no_eff apply_eff times key b p key' cols w). Qed.

Theorem C52_zero_rejected {K} (sim : K -> nat -> params -> result (K * list (list fl))) no_eff apply_eff key b p :
  multiple_simulations sim no_eff apply_eff 0 key b p = Err AssertionError.
Proof. reflexivity. Qed.

Example C52_case :
  let sim (k : nat) (_ : nat) (_ : params) :=
    Ok (k + 1, [[Fin (INR k); Fin 7]; [if Nat.eqb k 4 then Fin 0 else Fin 1; Fin 1]]) in
  multiple_simulations sim false true 2 3 2 [] =
    Ok (5, [[Fin (INR 3); Fin 7; Fin 7]; [Fin 1; Fin 1; Fin 1]]).
Proof.
  cbv zeta. rewrite (C52_concatenates _ false true 2 3 2 [] 5 _ 2) by (intros k k' cs H; injection H as _ <-; reflexivity).
  split; [discriminate|]. split; [reflexivity|].
  eexists. split; [eapply rf_cons; [reflexivity|]; eapply rf_cons; [reflexivity|]; apply rf_nil|].
  cbn. fl_eval. reflexivity.
Qed.

Print Assumptions C09_failure_changes_nothing.
Print Assumptions C09_fails_exactly.
Print Assumptions C09_success.
Print Assumptions C09_names_distinct.
Print Assumptions C09_literature_one.
Print Assumptions C14_component_total.
Print Assumptions C14_component_total_nonzero.
Print Assumptions C14_fixed_total.
Print Assumptions C14_model_total.
Print Assumptions C14_model_total_floored.
Print Assumptions C14_empty_bins_refuted.
Print Assumptions C15_floor.
Print Assumptions C15_finite_likelihood.
Print Assumptions C15_empty_sample_refuted.
Print Assumptions C16_cases.
Print Assumptions C16_never_nan.
Print Assumptions C17_best.
Print Assumptions C17_best_is_data.
Print Assumptions C17_scale.
Print Assumptions C17_likelihood_bounded.
Print Assumptions C18_pure.
Print Assumptions C18_renames.
Print Assumptions C18_moves.
Print Assumptions C18_untouched.
Print Assumptions C18_twice.
Print Assumptions C18_chain_refuted.
Print Assumptions C19_sufficient.
Print Assumptions C19_exact.
Print Assumptions C19_chain_refuted.
Print Assumptions C19_alias_needed_refuted.
Print Assumptions C20_sum.
Print Assumptions C20_succeeds.
Print Assumptions C20_order.
Print Assumptions C20_sim_order_refuted.
Print Assumptions C52_concatenates.
Print Assumptions C52_zero_rejected.
