(** Lemmas on the lineage of likelihoods and contexts. *)
From Verif Require Import Base BaseFacts ModelFloat ModelParameter SpecParameter ProofParameter ProofParameter2
  ModelShare ModelConfig ModelComponent ModelCompile SpecComponent SpecConfig SpecCompile ProofComponent ProofWorkflow ProofSim ProofHistory ProofCompile
  ModelLikelihood ModelContext ModelWhole ModelLineage SpecLineage ProofLineage ModelCtxLineage SpecCtxLineage.
From Coq Require Import Lia Bool.
Local Open Scope string_scope.

(** ** Dictionaries *)

Lemma dict_ok_get {A B} (f : A -> result B) : forall d ls, dict_ok f d = Ok ls ->
  keys ls = keys d /\
  forall n, match get n d with
            | Some v => exists l, f v = Ok l /\ get n ls = Some l
            | None => get n ls = None
            end.
Proof.
  unfold dict_ok. induction d as [|[m v] d IH]; intros ls H; cbn [map all_ok fst snd] in H.
  - injection H as <-. split; reflexivity.
  - destruct (f v) as [x|e] eqn:E; cbn [bind] in H; [|discriminate].
    destruct (all_ok _) as [ys|e] eqn:A1; [|discriminate]. injection H as <-.
    destruct (IH _ eq_refl) as [IH1 IH2]. split; [cbn; f_equal; exact IH1|].
    intros n. cbn [get]. destruct (String.eqb n m); [eauto|apply IH2].
Qed.

Lemma dict_ok_exists {A B} (f : A -> result B) : forall d, (forall n v, In (n, v) d -> exists l, f v = Ok l) ->
  exists ls, dict_ok f d = Ok ls.
Proof.
  unfold dict_ok. induction d as [|[m v] d IH]; intros H; [eexists; reflexivity|].
  destruct (H m v) as [l Hl]; [left; reflexivity|]. destruct IH as [ls Hls].
  { intros n u Hn. apply (H n u). right. exact Hn. }
  cbn [map all_ok fst snd]. rewrite Hl. cbn [bind]. rewrite Hls. eauto.
Qed.

(** Dictionaries with the same keys in the same order, entry by entry. *)
Lemma dicts_forall2 {A B} (R : string -> A -> B -> Prop) : forall (d : dict A) (d' : dict B),
  keys d = keys d' -> NoDup (keys d) ->
  (forall n a b, get n d = Some a -> get n d' = Some b -> R n a b) ->
  Forall2 (fun x y => fst x = fst y /\ R (fst x) (snd x) (snd y)) d d'.
Proof.
  induction d as [|[n a] d IH]; intros [|[m b] d'] Hk Hn H; try discriminate; [constructor|].
  cbn in Hk. injection Hk as <- Hk. inversion Hn as [|? ? Hi Hn']; subst. constructor.
  - cbn. split; [reflexivity|]. apply H; cbn [get]; rewrite String.eqb_refl; reflexivity.
  - apply IH; auto. intros k a' b' Ha Hb. apply (H k); cbn [get].
    + destruct (String.eqb k n) eqn:E; [|exact Ha]. apply String.eqb_eq in E. subst k.
      destruct Hi. apply get_In_keys. eauto.
    + destruct (String.eqb k n) eqn:E; [|exact Hb]. apply String.eqb_eq in E. subst k.
      destruct Hi. unfold keys. rewrite Hk. apply get_In_keys. eauto.
Qed.

Lemma forall2_map {A B C D} (R : C -> D -> Prop) (Q : A -> B -> Prop) (f : A -> C) (g : B -> D) l l' :
  Forall2 Q l l' -> (forall a b, Q a b -> R (f a) (g b)) -> Forall2 R (map f l) (map g l').
Proof. induction 1; cbn; constructor; auto. Qed.

Lemma same_entries_eq {A} : forall (d d' : dict A), keys d = keys d' -> NoDup (keys d) -> same_entries d d' -> d = d'.
Proof.
  intros d d' Hk Hn H.
  assert (F : Forall2 (fun x y => fst x = fst y /\ snd x = snd y) d d').
  { pose proof (dicts_forall2 (fun _ a b => a = b) d d' Hk Hn) as F. apply F.
    intros n a b Ha Hb. specialize (H n). congruence. }
  clear -F. induction F as [|[n a] [m b] d d' [H1 H2] F IH]; [reflexivity|]. cbn in H1, H2. subst.
  reflexivity.
Qed.

(** ** Components in force *)

(** The world with the class values [cls]. *)
Definition with_class (w : world) (cls : dict (list built)) : world :=
  mk_world (w_cache w) (w_fn w) (w_heap w) cls.

Definition relabel (llh : option string) (c : config_lineage) : config_lineage :=
  match c with LSigma _ m ms => LSigma llh m ms | _ => c end.
Definition relabel_plugin (llh : option string) (l : plugin_lineage) : plugin_lineage :=
  mk_pl (pl_depends l) (pl_provides l) (pl_params l)
        (map (fun nc => (fst nc, relabel llh (snd nc))) (pl_configs l)).
Definition relabel_comp (llh : option string) (l : comp_lineage) : comp_lineage :=
  mk_cl (l_rate l) (l_norm l) (l_code l) (map (fun np => (fst np, relabel_plugin llh (snd np))) (l_insts l)) (l_bins l).

Lemma get_map {A B} (f : A -> B) n : forall d : dict A,
  get n (map (fun nv => (fst nv, f (snd nv))) d) = option_map f (get n d).
Proof. induction d as [|[m v] d IH]; [reflexivity|]. cbn. destruct (String.eqb n m); [reflexivity|exact IH]. Qed.

Lemma relabel_same llh l l' : same_lineage l l' -> same_lineage (relabel_comp llh l) (relabel_comp llh l').
Proof.
  intros (A1 & A2 & A3 & A4 & A5). repeat (split; [assumption|]). intros n. cbn [relabel_comp l_insts].
  rewrite !get_map. specialize (A5 n).
  destruct (get n (l_insts l)) as [p|], (get n (l_insts l')) as [p'|]; cbn [option_map]; try exact A5.
  destruct A5 as (B1 & B2 & B3 & B4). repeat (split; [assumption|]). intros a. cbn [relabel_plugin pl_configs].
  rewrite !get_map, B4. reflexivity.
Qed.

Section Own.
  Variable sha : string -> string.
  Variable code : Type.

  Lemma config_own d c (src : source code) llh cf b b' l : built_of (Some llh) cf b -> same_setting b b' ->
    config_lineage_of sha code d c src b' = Ok l ->
    config_lineage_of sha code d c src b = Ok (relabel (Some llh) l).
  Proof.
    intros (_ & Q1 & Q2 & _) (S1 & S2 & S3 & S4) H. unfold config_lineage_of in *. rewrite <- S1, <- S2, <- S3 in H.
    destruct (c_kind (b_config b)) eqn:Ek.
    - rewrite <- S4 in H by discriminate. destruct (b_values b) as [|v [|? ?]]; try discriminate.
      injection H as <-. reflexivity.
    - rewrite <- S4 in H by discriminate. destruct (b_values b) as [|v [|? ?]]; try discriminate.
      destruct (one_map_lineage _ _ _ _ _ _) as [m|e]; cbn [bind] in *; [|discriminate]. injection H as <-. reflexivity.
    - destruct (all_ok _) as [ms|e]; cbn [bind] in *; [|discriminate]. injection H as <-. cbn.
      rewrite Q2 by congruence. reflexivity.
    - rewrite <- S4 in H by discriminate. destruct (b_values b) as [|v [|? ?]]; try discriminate.
      injection H as <-. reflexivity.
  Qed.

  Lemma configs_own d c (src : source code) llh : forall cfs bs bs' ls,
    Forall2 (built_of (Some llh)) cfs bs -> Forall2 same_setting bs bs' ->
    all_ok (map (config_lineage_of sha code d c src) bs') = Ok ls ->
    all_ok (map (config_lineage_of sha code d c src) bs) = Ok (map (relabel (Some llh)) ls).
  Proof.
    intros cfs bs bs' ls H. revert bs' ls. induction H as [|cf b cfs bs Hb _ IH]; intros bs' ls F A; inversion F as [|? b' ? bs2 F1 F2]; subst.
    - cbn in A. injection A as <-. reflexivity.
    - cbn [map all_ok] in A |- *.
      destruct (config_lineage_of sha code d c src b') as [l|e] eqn:E; [|discriminate].
      destruct (all_ok (map _ bs2)) as [ls2|e] eqn:A2; [|discriminate]. injection A as <-.
      rewrite (config_own _ _ _ _ _ _ _ _ Hb F1 E), (IH _ _ F2 A2). reflexivity.
  Qed.

  Lemma lineage_own plugins k pr insts d (src : string -> source code) s w cls l :
    cs_k s = k -> parts plugins k (with_class w cls) pr insts ->
    (forall n bs, In n (pr_imports pr) -> get n cls = Some bs ->
       exists bs', get n (w_class w) = Some bs' /\ Forall2 same_setting bs bs') ->
    lineage sha code d src s w = Ok l ->
    lineage sha code d src s (with_class w cls) = Ok (relabel_comp (Some (pr_llh pr)) l).
  Proof.
    intros <- P F HL. unfold lineage in *. rewrite (pt_code _ _ _ _ _ P) in *.
    destruct (pt_ns _ _ _ _ _ P) as (a & A1 & A2). cbn [with_class w_fn w_heap] in *. rewrite A1 in *. rewrite A2 in *.
    cbn [cl_insts] in *.
    destruct (all_ok _) as [ls|e] eqn:E in HL; cbn [bind] in HL; [|discriminate]. injection HL as <-.
    cbn [relabel_comp l_rate l_norm l_code l_insts l_bins].
    match goal with |- bind (all_ok (map ?f _)) _ = _ => set (g := f) end.
    enough (H : all_ok (map g (map fst (pr_insts pr))) =
                Ok (map (fun np => (fst np, relabel_plugin (Some (pr_llh pr)) (snd np))) ls)) by (rewrite H; reflexivity).
    assert (HI := pt_inst _ _ _ _ _ P). rewrite (pt_imports _ _ _ _ _ P) in F.
    revert ls E F HI. generalize (pr_insts pr) as q. induction q as [|[n pn] q IH]; intros ls E F HI.
    - cbn in E. injection E as <-. reflexivity.
    - cbn [map fst snd all_ok] in E |- *.
      destruct (HI n pn (or_introl eq_refl)) as (i & p & I1 & I2 & I3 & I4 & I5 & I6 & I7).
      rewrite I1 in E. unfold plugin_lineage_of in E. rewrite I3, I4 in E. cbn [with_class w_class] in I6.
      destruct (F pn _ (or_introl eq_refl) I6) as (bs' & F1 & F2). rewrite F1 in E.
      destruct (all_ok (map (config_lineage_of sha code d (w_cache w) (src pn)) bs')) as [cs|e] eqn:C;
        cbn [bind] in E; [|discriminate].
      destruct (all_ok (map _ (map fst q))) as [ls2|e] eqn:E2 in E; [|discriminate]. injection E as <-.
      assert (G : g n = Ok (n, relabel_plugin (Some (pr_llh pr))
                  (mk_pl (p_depends p) (p_provides p) (p_params p) (combine (keys (p_configs p)) cs)))).
      { unfold g. rewrite I1. unfold plugin_lineage_of. rewrite I3, I4. cbn [with_class w_class w_cache].
        rewrite I6, (configs_own _ _ _ _ _ _ _ _ I7 F2 C). cbn [bind]. unfold relabel_plugin.
        cbn [pl_depends pl_provides pl_params pl_configs]. do 3 f_equal.
        generalize (keys (p_configs p)). clear. induction cs as [|c cs IH]; intros [|m l]; try reflexivity.
        cbn. f_equal. apply IH. }
      rewrite G, (IH _ E2); [reflexivity|intros m bs Hm; apply F; right; exact Hm|].
      intros m pm Hm. apply HI. right. exact Hm.
  Qed.
End Own.

Lemma in_force_parts f plugins w k : well_named plugins -> in_force f plugins w k ->
  exists cls pr insts, parts plugins k (with_class w cls) pr insts /\
    (forall n bs, In n (pr_imports pr) -> get n cls = Some bs ->
       exists bs', get n (w_class w) = Some bs' /\ Forall2 same_setting bs bs').
Proof.
  intros Hw (limit & names & func & nodep & noeff & k0 & w0 & w1 & B & F1 & F2 & F3).
  destruct (build_parts _ _ _ _ _ _ _ _ _ _ _ Hw B) as (pr & insts & P). exists (w_class w1), pr, insts.
  split; [|intros n bs; apply F3; exact (pt_code _ _ _ _ _ P)].
  destruct P as [P1 P2 P3 P4 P5 P6 P7 P8 P9]. constructor; auto.
  destruct P3 as (a & A1 & A2). exists a. cbn [with_class w_fn w_heap]. rewrite F1, (F2 _ A1). auto.
Qed.

(** ** Functions that agree *)

Definition agree {K} (a b : string * llh_fun K) : Prop :=
  fst a = fst b /\ forall k n p, snd a k n p = snd b k n p.

Lemma llh_loop_ext {K} (ls ls' : dict (llh_fun K)) : Forall2 agree ls ls' ->
  forall k b p acc, llh_loop K ls k b p acc = llh_loop K ls' k b p acc.
Proof.
  induction 1 as [|[n f] [m g] ls ls' [E H] _ IH]; intros k b p acc; [reflexivity|].
  cbn in E, H. subst m. cbn [llh_loop]. rewrite H. destruct (g k b p) as [[k' x]|e]; [|reflexivity].
  rewrite IH. reflexivity.
Qed.

Lemma log_posterior_ext {K} sigmas (ls ls' : dict (llh_fun K)) fresh st st' pars batch times :
  Forall2 agree ls ls' -> set_parameter st (KDict pars) ModelParameter.VNone = set_parameter st' (KDict pars) ModelParameter.VNone ->
  log_posterior K sigmas ls fresh st pars batch times = log_posterior K sigmas ls' fresh st' pars batch times.
Proof.
  intros H Hs. unfold log_posterior. rewrite Hs. destruct (set_parameter st' _ _) as [s1 [u|e]]; [|reflexivity].
  destruct (log_prior sigmas s1) as [prior|e]; [|reflexivity]. destruct (negb (is_fin prior)); [reflexivity|].
  assert (O : forall k, posterior_once K ls prior k batch (p_values s1) =
                        posterior_once K ls' prior k batch (p_values s1)).
  { intros k. unfold posterior_once. rewrite (llh_loop_ext _ _ H). reflexivity. }
  assert (R : forall t i, repeat_once K ls prior fresh batch (p_values s1) t i =
                          repeat_once K ls' prior fresh batch (p_values s1) t i).
  { induction t as [|t IH]; intros i; cbn [repeat_once]; [reflexivity|]. rewrite O, IH. reflexivity. }
  rewrite R, O. reflexivity.
Qed.

(** Components of a likelihood that give the same histogram. *)
Definition agree_comp {K} (a b : string * lcomp K) : Prop :=
  match l_kind (snd a), l_kind (snd b) with
  | LSim f, LSim g => forall k n p, f k n p = g k n p
  | LFixed f, LFixed g => forall p, f p = g p
  | LOther, LOther => True
  | _, _ => False
  end.

Lemma sum_components_ext {K} (cs cs' : dict (lcomp K)) : Forall2 agree_comp cs cs' ->
  forall k b p h, sum_components cs k b p h = sum_components cs' k b p h.
Proof.
  induction 1 as [|[n c] [m c'] cs cs' H _ IH]; intros k b p h; [reflexivity|].
  cbn [sum_components]. unfold agree_comp in H. cbn [snd] in H.
  destruct (l_kind c) as [f|f|], (l_kind c') as [g|g|]; try contradiction; [rewrite H|rewrite H|reflexivity].
  - destruct (g k b p) as [[k' x]|e]; [|reflexivity]. destruct (iadd h x); [apply IH|reflexivity].
  - destruct (g p) as [x|e]; [|reflexivity]. destruct (iadd h x); [apply IH|reflexivity].
Qed.

(** ** Parameters *)

Section Par.
  Variable Rng : Type.
  Variable normal uniform : fl -> fl -> Rng -> result (fl * Rng).
  Variable sigmas : fl -> fl -> result (fl * fl).

  (** The value of a fixed parameter in the configuration. *)
  Definition fixed_value (s : setting) (x : fl) : Prop :=
    s_type s = Some "fixed" -> exists args, s_args s = Some args /\ get "val" args = Some x.

  Lemma prior_fixed s g x g' : prior_value Rng normal uniform sigmas s g = Ok (Some x, g') -> fixed_value s x.
  Proof.
    unfold prior_value, fixed_value. intros H T. rewrite T in H.
    destruct (s_args s) as [args|]; cbn in H; [|discriminate].
    destruct (get "val" args) as [v|] eqn:E; cbn in H; [|discriminate]. injection H as <- _. eauto.
  Qed.
  Lemma prior_fixed_some s g o g' : prior_value Rng normal uniform sigmas s g = Ok (o, g') ->
    s_type s = Some "fixed" -> o <> None.
  Proof.
    unfold prior_value. intros H T. rewrite T in H.
    destruct (s_args s) as [args|]; cbn in H; [|discriminate].
    destruct (get "val" args) as [v|] eqn:E; cbn in H; [|discriminate]. injection H as <- _. discriminate.
  Qed.

  Lemma new_shape cfg g st g' : NoDup (keys cfg) ->
    new_parameter Rng normal uniform sigmas cfg g = Ok (st, g') ->
    p_config st = cfg /\ keys (p_values st) = keys cfg /\
    (exists u, classify cfg [] [] = (p_fixed st, p_fit st, Ok u)) /\
    forall n s, get n cfg = Some s -> s_type s = Some "fixed" ->
      exists args x, s_args s = Some args /\ get "val" args = Some x /\ get n (p_values st) = Some x.
  Proof.
    intros Hn H. pose proof (reachable_wf Rng normal uniform sigmas cfg st) as W.
    assert (Hr : reachable Rng normal uniform sigmas cfg st) by (eapply r_new; exact H).
    destruct (W Hr) as (W1 & W2 & _). split; [exact W1|]. split; [exact W2|].
    unfold new_parameter, init_parameter in H. cbn [p_config p_fixed p_fit] in H.
    destruct (classify cfg [] []) as [[fixed fit] r] eqn:E. destruct r as [u|e]; [|discriminate].
    unfold sample_prior, sample in H. cbn [p_config p_values] in H.
    set (v0 := map (fun kv => (fst kv, Fin (Rdefinitions.IZR 0))) cfg) in *.
    assert (Hk : keys v0 = keys cfg).
    { unfold v0, keys. rewrite map_map. apply map_ext. reflexivity. }
    rewrite Hk in H.
    destruct (sample_loop _ _ _ _ _ _) as [v r] eqn:S in H. destruct r as [g1|e]; [|discriminate].
    cbn in H. injection H as <- _. cbn [p_fixed p_fit p_values]. split; [eauto|].
    intros n s Hs T.
    destruct (sample_loop_spec Rng _ fixed_value cfg prior_fixed _ _ _ _ _ Hn S n) as [Q _].
    destruct Q as (s' & g2 & g3 & o & Q1 & Q2 & Q3). { apply get_In_keys. eauto. }
    assert (s' = s) as -> by congruence.
    destruct o as [x|]; [|destruct (prior_fixed_some _ _ _ _ Q2 T eq_refl)].
    destruct Q3 as [Q3 Q4]. destruct (Q4 T) as (args & A1 & A2). eauto 6.
  Qed.

  Lemma dict_eq : forall (v v' : dict fl), keys v = keys v' -> NoDup (keys v) -> (forall n, get n v = get n v') -> v = v'.
  Proof. intros. apply same_entries_eq; assumption. Qed.

  Lemma last_value_some : forall l xs n, List.length l = List.length xs -> In n l -> last_value l xs n <> None.
  Proof.
    induction l as [|m l IH]; intros [|x xs] n Hl Hi; cbn in Hl; try discriminate; [destruct Hi|].
    cbn [last_value]. destruct (last_value l xs n) eqn:E; [discriminate|].
    destruct Hi as [->|Hi]; [rewrite String.eqb_refl; discriminate|].
    destruct (IH xs n) as []; auto.
  Qed.

  Lemma new_set cfg g g2 st st' r r' pars : NoDup (keys cfg) -> covers cfg pars ->
    new_parameter Rng normal uniform sigmas cfg g = Ok (st, r) ->
    new_parameter Rng normal uniform sigmas cfg g2 = Ok (st', r') ->
    set_parameter st (KDict pars) ModelParameter.VNone = set_parameter st' (KDict pars) ModelParameter.VNone.
  Proof.
    intros Hn [C1 C2] H H'.
    destruct (new_shape _ _ _ _ Hn H) as (A1 & A2 & (u & A3) & A4).
    destruct (new_shape _ _ _ _ Hn H') as (B1 & B2 & (u' & B3) & B4).
    assert (E : forall s, keys (p_values s) = keys cfg -> check_exist s (KDict pars) = Ok true).
    { intros s Hs. cbn. f_equal. apply forallb_has. rewrite Hs. exact C2. }
    unfold set_parameter. rewrite (E _ A2), (E _ B2).
    unfold set_list. replace (Nat.eqb (List.length (keys pars)) (List.length (map snd pars))) with true
      by (unfold keys; rewrite !map_length, Nat.eqb_refl; reflexivity).
    unfold with_values. rewrite A1, B1. rewrite A3 in B3. injection B3 as <- <- _.
    enough (V : ModelParameter.assign (keys pars) (map snd pars) (p_values st) = ModelParameter.assign (keys pars) (map snd pars) (p_values st'))
      by (rewrite V; reflexivity).
    apply dict_eq.
    - rewrite !ProofParameter2.assign_keys; [congruence|rewrite B2; exact C2|rewrite A2; exact C2].
    - rewrite ProofParameter2.assign_keys; [rewrite A2; exact Hn|rewrite A2; exact C2].
    - intros n. rewrite !ProofParameter2.assign_get.
      destruct (last_value (keys pars) (map snd pars) n) as [x|] eqn:L; [reflexivity|].
      destruct (get n cfg) as [s|] eqn:Es.
      + destruct (s_type s) as [ty|] eqn:T.
        * destruct (String.eqb_spec ty "fixed") as [->|Ht].
          -- destruct (A4 _ _ Es T) as (args & x & X1 & X2 & X3).
             destruct (B4 _ _ Es T) as (args' & x' & Y1 & Y2 & Y3). congruence.
          -- exfalso. refine (last_value_some _ _ _ _ _ L).
             { unfold keys. rewrite !map_length. reflexivity. }
             apply C1. exists s, ty. split; [apply get_In; exact Es|]. auto.
        * exfalso. apply get_In in Es. clear -A3 Es T.
          revert A3. generalize (@nil string) at 1. generalize (@nil string).
          generalize (p_fixed st). generalize (p_fit st). intros fit fixed a b.
          revert a b. induction cfg as [|[m s'] cfg IH]; intros a b A3; [destruct Es|].
          cbn [classify] in A3. destruct Es as [Es|Es].
          -- injection Es as -> ->. rewrite T in A3. discriminate.
          -- destruct (s_type s') as [ty|]; [|discriminate]. destruct (String.eqb ty "fixed"); exact (IH Es _ _ A3).
      + assert (N : forall v : dict fl, keys v = keys cfg -> get n v = None).
        { intros v Hv. apply get_None_keys. rewrite Hv. apply get_None_keys. exact Es. }
        rewrite (N _ A2), (N _ B2). reflexivity.
  Qed.
End Par.

(** ** Equal lineages *)

Section Same.
  Variable K : Type.
  Variable sha : string -> string.
  Variable hash : any_lineage -> string.
  Variable code : Type.
  Variable call : code -> option string -> (string -> option held) -> list (sval K) -> result (list (sval K)).
  Variable ones : list (sval K) -> sval K.
  Variable post : string -> string -> value * value -> bool -> list (sval K) -> sval K -> sval K -> sval K ->
    result (sval K).
  Variable data_hist : dict value -> string -> result (list fl).
  Variable fixed_hist : dict value -> string -> string -> value * value -> bool -> string -> params ->
    result (list fl).
  Variable lit_sum : dict value -> list (list fl) -> result fl.
  Hypothesis NC : no_collision sha.
  Hypothesis NH : no_hash_collision hash.
  Hypothesis RA : reads_attributes call.
  Variable d d' : disk.
  Variable plugins plugins' : string -> option plugin.
  Variable src src' : string -> source code.
  Variable w w' : world.
  Hypothesis W : well_named plugins.
  Hypothesis W' : well_named plugins'.
  Hypothesis D : declared plugins.
  Hypothesis D' : declared plugins'.
  Hypothesis SC : same_classes plugins plugins' src src'.

  Definition comp_ok (o o' : comp_obj) : Prop :=
    match o with OSim s => in_force (d_fs d) plugins w (cs_k s) | _ => True end /\
    match o' with OSim s => in_force (d_fs d') plugins' w' (cs_k s) | _ => True end /\
    same_flags o o' /\
    match o, o' with
    | OSim s, OSim s' => forall pr, k_code (cs_k s) = Some pr ->
        same_scalers plugins plugins' (pr_imports pr) (k_llh (cs_k s)) (w_cache w) (w_cache w')
    | _, _ => True
    end.

  Lemma same_lineage_sim s s' l l' : comp_ok (OSim s) (OSim s') ->
    lineage sha code d src s w = Ok l -> lineage sha code d' src' s' w' = Ok l' -> same_lineage l l' ->
    (forall k b p, sim code (sval K) call d src (w_cache w) s k b p =
                   sim code (sval K) call d' src' (w_cache w') s' k b p) /\
    (forall k b p, simulate_hist code (sval K) call ones post d src (w_cache w) s k b p =
                   simulate_hist code (sval K) call ones post d' src' (w_cache w') s' k b p).
  Proof.
    intros (F & F' & (E1 & E2) & SS) HL HL' SL. cbn in F, F'.
    destruct (in_force_parts _ _ _ _ W F) as (cls & pr & insts & P & O).
    destruct (in_force_parts _ _ _ _ W' F') as (cls' & pr' & insts' & P' & O').
    specialize (SS _ (pt_code _ _ _ _ _ P)).
    pose proof (lineage_own sha code _ _ _ _ _ _ _ _ _ _ eq_refl P O HL) as M.
    pose proof (lineage_own sha code _ _ _ _ _ _ _ _ _ _ eq_refl P' O' HL') as M'.
    assert (SM : same_lineage (relabel_comp (Some (pr_llh pr)) l) (relabel_comp (Some (pr_llh pr')) l')).
    { replace pr' with pr; [apply relabel_same; exact SL|].
      destruct SL as (_ & _ & SL & _). unfold lineage in HL, HL'.
      rewrite (pt_code _ _ _ _ _ P) in HL. rewrite (pt_code _ _ _ _ _ P') in HL'.
      destruct (get (k_llh (cs_k s)) (w_fn w)); [|discriminate]. destruct (get (k_llh (cs_k s')) (w_fn w')); [|discriminate].
      destruct (get (k_func (cs_k s)) _); [|discriminate]. destruct (get (k_func (cs_k s')) _); [|discriminate].
      destruct (all_ok _) in HL; [|discriminate]. destruct (all_ok _) in HL'; [|discriminate].
      cbn [bind] in HL, HL'. injection HL as <-. injection HL' as <-. exact SL. }
    split; intros k b p.
    - exact (same_sim sha code _ _ _ _ _ _ _ _ _ _ _ _ _ _ _ _ NC P P' D D' M M' SM SC SS _ call RA k b p).
    - exact (same_hist sha code _ _ _ _ _ _ _ _ _ _ _ _ _ _ _ _ NC P P' D D' M M' SM SC SS _ call RA ones post k b p E1 E2).
  Qed.

  Lemma fixed_lineage_inv x wx f l : fixed_lineage_of sha x wx f = Ok l ->
    exists b bytes, fo_bins f = Some b /\ read_file x (w_cache wx) (VStr (fo_file f)) = Ok bytes /\
      l = mk_fl (fo_rate f) (fo_norm f) b (base_name (fo_file f)) (sha bytes).
  Proof.
    unfold fixed_lineage_of. destruct (fo_bins f) as [b|]; [|discriminate].
    destruct (read_file x (w_cache wx) (VStr (fo_file f))) as [bytes|e]; cbn [bind]; [|discriminate].
    injection 1 as <-. eauto.
  Qed.

  Lemma same_comp cfg n o o' l l' : comp_ok o o' ->
    any_lineage_of sha code d src w o = Ok l -> any_lineage_of sha code d' src' w' o' = Ok l' -> same_any l l' ->
    agree_comp (n, mk_lcomp [] (comp_kind K code call ones post fixed_hist d src (w_cache w) cfg o))
               (n, mk_lcomp [] (comp_kind K code call ones post fixed_hist d' src' (w_cache w') cfg o')).
  Proof.
    intros C HL HL' SL. unfold agree_comp. cbn [snd l_kind].
    destruct o as [s|f], o' as [s'|f']; cbn [any_lineage_of] in HL, HL'.
    - destruct (lineage sha code d src s w) as [m|e] eqn:E; cbn [bind] in HL; [|discriminate].
      destruct (lineage sha code d' src' s' w') as [m'|e] eqn:E'; cbn [bind] in HL'; [|discriminate].
      injection HL as <-. injection HL' as <-. cbn in SL.
      destruct (same_lineage_sim _ _ _ _ C E E' SL) as [_ H].
      cbn [comp_kind]. intros k b p. rewrite H. reflexivity.
    - destruct (lineage _ _ _ _ _ _); cbn [bind] in HL; [|discriminate].
      destruct (fixed_lineage_of _ _ _ _); cbn [bind] in HL'; [|discriminate].
      injection HL as <-. injection HL' as <-. destruct SL.
    - destruct (lineage _ _ _ _ _ _); cbn [bind] in HL'; [|discriminate].
      destruct (fixed_lineage_of _ _ _ _); cbn [bind] in HL; [|discriminate].
      injection HL as <-. injection HL' as <-. destruct SL.
    - destruct (fixed_lineage_of sha d w f) as [m|e] eqn:E; cbn [bind] in HL; [|discriminate].
      destruct (fixed_lineage_of sha d' w' f') as [m'|e] eqn:E'; cbn [bind] in HL'; [|discriminate].
      injection HL as <-. injection HL' as <-. cbn in SL. subst m'.
      destruct (fixed_lineage_inv _ _ _ _ E) as (b & bytes & B1 & B2 & B3).
      destruct (fixed_lineage_inv _ _ _ _ E') as (b' & bytes' & B1' & B2' & B3').
      rewrite B3 in B3'. injection B3' as R1 R2 R3 _ R4. apply NC in R4.
      destruct C as (_ & _ & C & _). cbn in C. cbn [comp_kind]. intros p.
      rewrite B1, B1', B2, B2'. cbn [bind]. rewrite R1, R2, R3, R4, C. reflexivity.
  Qed.

  Lemma same_lik_fun L L' l l' n :
    lik_lineage_of sha hash code d src w L = Ok l -> lik_lineage_of sha hash code d' src' w' L' = Ok l' ->
    same_lik l l' -> keys (lo_comps L) = keys (lo_comps L') -> NoDup (keys (lo_comps L)) ->
    (forall cn o o', get cn (lo_comps L) = Some o -> get cn (lo_comps L') = Some o' -> comp_ok o o') ->
    agree (n, lik_fun K code call ones post data_hist fixed_hist lit_sum d src (w_cache w) L)
          (n, lik_fun K code call ones post data_hist fixed_hist lit_sum d' src' (w_cache w') L').
  Proof.
    intros HL HL' SL Hk Hn Hc. split; [reflexivity|]. cbn [snd]. intros k b p.
    unfold lik_lineage_of in HL, HL'. unfold lik_fun.
    destruct (lo_lit L), (lo_lit L').
    - destruct (dict_ok _ (lo_comps L)) as [ls|e] eqn:E in HL; cbn [bind] in HL; [|discriminate].
      destruct (dict_ok _ (lo_comps L')) as [ls'|e] eqn:E' in HL'; cbn [bind] in HL'; [|discriminate].
      injection HL as <-. injection HL' as <-. cbn in SL. destruct SL as [SL1 SL2]. rewrite <- SL1.
      assert (SA : forall cn o o', get cn (lo_comps L) = Some o -> get cn (lo_comps L') = Some o' ->
                exists x x', any_lineage_of sha code d src w o = Ok x /\
                  any_lineage_of sha code d' src' w' o' = Ok x' /\ same_any x x').
      { intros cn o o' Ho Ho'. destruct (dict_ok_get _ _ _ E) as [_ G]. destruct (dict_ok_get _ _ _ E') as [_ G'].
        specialize (G cn). specialize (G' cn). rewrite Ho in G. rewrite Ho' in G'.
        destruct G as (x & G1 & G2). destruct G' as (x' & G1' & G2'). exists x, x'. repeat (split; [assumption|]).
        apply NH. specialize (SL2 cn).
        assert (M : forall (l0 : dict any_lineage) y, get cn l0 = Some y ->
                  get cn (map (fun nl => (fst nl, hash (snd nl))) l0) = Some (hash y)).
        { clear. induction l0 as [|[m z] l0 IH]; intros y H; [discriminate|]. cbn in *.
          destruct (String.eqb cn m); [injection H as ->; reflexivity|auto]. }
        rewrite (M _ _ G2), (M _ _ G2') in SL2. injection SL2 as SL2. exact SL2. }
      destruct (lo_comps L) as [|[m o] [|? ?]], (lo_comps L') as [|[m' o'] [|? ?]]; try discriminate; try reflexivity.
      + cbn in Hk. injection Hk as <-.
        assert (G : forall z : comp_obj, get m [(m, z)] = Some z) by (intros z; cbn; rewrite String.eqb_refl; reflexivity).
        destruct (SA m o o' (G _) (G _)) as (x & x' & X1 & X2 & X3).
        specialize (Hc m o o' (G _) (G _)).
        destruct o as [s|f], o' as [s'|f']; cbn [any_lineage_of] in X1, X2.
        * destruct (lineage sha code d src s w) as [y|e] eqn:Y; cbn [bind] in X1; [|discriminate].
          destruct (lineage sha code d' src' s' w') as [y'|e] eqn:Y'; cbn [bind] in X2; [|discriminate].
          injection X1 as <-. injection X2 as <-. cbn in X3.
          destruct (same_lineage_sim _ _ _ _ Hc Y Y' X3) as [H _]. rewrite H. reflexivity.
        * destruct (lineage _ _ _ _ _ _); cbn [bind] in X1; [|discriminate].
          destruct (fixed_lineage_of _ _ _ _); cbn [bind] in X2; [|discriminate].
          injection X1 as <-. injection X2 as <-. destruct X3.
        * destruct (lineage _ _ _ _ _ _); cbn [bind] in X2; [|discriminate].
          destruct (fixed_lineage_of _ _ _ _); cbn [bind] in X1; [|discriminate].
          injection X1 as <-. injection X2 as <-. destruct X3.
        * reflexivity.
      + destruct o, o'; reflexivity.
    - exfalso. destruct (dict_ok _ (lo_comps L)); cbn [bind] in HL; [|discriminate]. injection HL as <-.
      destruct (get "data_file_name" (lo_config L')) as [[| | |file| |]|]; try discriminate.
      destruct (read_file _ _ _); cbn [bind] in HL'; [|discriminate].
      destruct (dict_ok _ (lo_comps L')); cbn [bind] in HL'; [|discriminate]. injection HL' as <-. destruct SL.
    - exfalso. destruct (dict_ok _ (lo_comps L')); cbn [bind] in HL'; [|discriminate]. injection HL' as <-.
      destruct (get "data_file_name" (lo_config L)) as [[| | |file| |]|]; try discriminate.
      destruct (read_file _ _ _); cbn [bind] in HL; [|discriminate].
      destruct (dict_ok _ (lo_comps L)); cbn [bind] in HL; [|discriminate]. injection HL as <-. destruct SL.
    - destruct (get "data_file_name" (lo_config L)) as [[| | |file| |]|]; try discriminate.
      destruct (get "data_file_name" (lo_config L')) as [[| | |file'| |]|]; try discriminate.
      destruct (read_file d (w_cache w) (VStr file)) as [bytes|e] eqn:B; cbn [bind] in HL; [|discriminate].
      destruct (read_file d' (w_cache w') (VStr file')) as [bytes'|e] eqn:B'; cbn [bind] in HL'; [|discriminate].
      destruct (dict_ok _ (lo_comps L)) as [ls|e] eqn:E in HL; cbn [bind] in HL; [|discriminate].
      destruct (dict_ok _ (lo_comps L')) as [ls'|e] eqn:E' in HL'; cbn [bind] in HL'; [|discriminate].
      injection HL as <-. injection HL' as <-. destruct SL as (S1 & _ & S3 & S4). apply NC in S3. subst bytes'.
      cbn [bind]. rewrite <- S1. destruct (data_hist (lo_config L) bytes) as [h|e]; cbn [bind]; [|reflexivity].
      unfold get_log_likelihood, simulate_model_hist. cbn [ll_components ll_alias ll_data].
      rewrite (sum_components_ext
        (map (fun no => (fst no, mk_lcomp [] (comp_kind K code call ones post fixed_hist d src (w_cache w) (lo_config L) (snd no)))) (lo_comps L))
        (map (fun no => (fst no, mk_lcomp [] (comp_kind K code call ones post fixed_hist d' src' (w_cache w') (lo_config L) (snd no)))) (lo_comps L')));
        [reflexivity|].
      assert (F := dicts_forall2 (fun cn o o' => get cn (lo_comps L) = Some o /\ get cn (lo_comps L') = Some o') _ _ Hk Hn
                     (fun _ _ _ A B0 => conj A B0)).
      apply (forall2_map _ _ _ _ _ _ F). intros [m o] [m' o'] [F1 F2].
      cbn [fst snd] in F1, F2 |- *. subst m'. destruct F2 as [F2 F3].
      destruct (dict_ok_get _ _ _ E) as [_ G]. destruct (dict_ok_get _ _ _ E') as [_ G'].
      specialize (G m). specialize (G' m). rewrite F2 in G. rewrite F3 in G'.
      destruct G as (x & G1 & G2). destruct G' as (x' & G1' & G2').
      specialize (S4 m). rewrite G2, G2' in S4.
      exact (same_comp (lo_config L) m o o' x x' (Hc m o o' F2 F3) G1 G1' S4).
  Qed.

  Lemma same_llhs x x' l l' :
    ctx_lineage_of sha hash code d src w x = Ok l -> ctx_lineage_of sha hash code d' src' w' x' = Ok l' ->
    same_ctx l l' -> keys_once x -> same_order x x' ->
    (forall ln cn s, component_of x ln cn (OSim s) -> in_force (d_fs d) plugins w (cs_k s)) ->
    (forall ln cn s, component_of x' ln cn (OSim s) -> in_force (d_fs d') plugins' w' (cs_k s)) ->
    same_hidden plugins plugins' w w' x x' ->
    xo_par x = xo_par x' /\
    Forall2 agree
      (map (fun nL => (fst nL, lik_fun K code call ones post data_hist fixed_hist lit_sum d src (w_cache w) (snd nL))) (xo_llhs x))
      (map (fun nL => (fst nL, lik_fun K code call ones post data_hist fixed_hist lit_sum d' src' (w_cache w') (snd nL))) (xo_llhs x')).
  Proof.
    intros HL HL' (_ & SP & SL) (P1 & P2 & P3) (O1 & O2 & O3) F F' Hh.
    unfold ctx_lineage_of in HL, HL'.
    destruct (dict_ok _ (xo_llhs x)) as [ls|e] eqn:E in HL; cbn [bind] in HL; [|discriminate].
    destruct (dict_ok _ (xo_llhs x')) as [ls'|e] eqn:E' in HL'; cbn [bind] in HL'; [|discriminate].
    injection HL as <-. injection HL' as <-. cbn [xl_par xl_llhs] in SP, SL.
    split; [exact (same_entries_eq _ _ O1 P1 SP)|].
    assert (Q := dicts_forall2 (fun cn o o' => get cn (xo_llhs x) = Some o /\ get cn (xo_llhs x') = Some o') _ _ O2 P2
                   (fun _ _ _ A B0 => conj A B0)).
    apply (forall2_map _ _ _ _ _ _ Q). intros [m L] [m' L'] [Q1 Q2].
    cbn [fst snd] in Q1, Q2 |- *. subst m'. destruct Q2 as [Q2 Q3].
    destruct (dict_ok_get _ _ _ E) as [_ G]. destruct (dict_ok_get _ _ _ E') as [_ G'].
    specialize (G m). specialize (G' m). rewrite Q2 in G. rewrite Q3 in G'.
    destruct G as (y & G1 & G2). destruct G' as (y' & G1' & G2').
    specialize (SL m). rewrite G2, G2' in SL.
    apply (same_lik_fun L L' y y' m G1 G1' SL (O3 _ _ _ Q2 Q3) (P3 _ _ Q2)).
    intros cn o o' Ho Ho'.
    assert (C : component_of x m cn o) by (exists L; auto).
    assert (C' : component_of x' m cn o') by (exists L'; auto).
    destruct (Hh _ _ _ _ C C') as [H1 H2]. split.
    { destruct o; [exact (F _ _ _ C)|exact I]. }
    split. { destruct o'; [exact (F' _ _ _ C')|exact I]. }
    split; [exact H1|exact H2].
  Qed.
End Same.

(** ** Staying in force *)

Lemma same_setting_refl bs : Forall2 same_setting bs bs.
Proof. induction bs as [|b bs IH]; constructor; [|exact IH]. repeat split; auto. Qed.

Lemma same_setting_trans : forall a b, Forall2 same_setting a b -> forall c, Forall2 same_setting b c -> Forall2 same_setting a c.
Proof.
  induction 1 as [|x y a b (S1 & S2 & S3 & S4) _ IH]; intros c H; inversion H as [|? z ? c' (T1 & T2 & T3 & T4) Hc]; subst; constructor; auto.
  repeat split; try congruence. intros Hk. rewrite S4 by exact Hk. apply T4. congruence.
Qed.

Lemma built_in_force limit names func nodep noeff f plugins k0 w0 w1 k :
  build_component limit names func nodep noeff f plugins k0 w0 = (w1, k, Ok tt) -> in_force f plugins w1 k.
Proof.
  intros B. exists limit, names, func, nodep, noeff, k0, w0, w1. split; [exact B|]. split; [reflexivity|].
  split; [reflexivity|]. intros pr n bs _ _ H. exists bs. split; [exact H|apply same_setting_refl].
Qed.

Lemma nth_set_nth_other {A} (d x : A) : forall l a b, a <> b -> nth b (set_nth a x l) d = nth b l d.
Proof.
  induction l as [|y l IH]; intros [|a] [|b] H; cbn; try reflexivity; try congruence. apply IH. congruence.
Qed.

Lemma build_keeps limit names func nodep noeff f plugins k2 w w2 k2' llh a fn cl :
  build_component limit names func nodep noeff f plugins k2 w = (w2, k2', Ok tt) ->
  k_llh k2 <> llh -> get llh (w_fn w) = Some a -> get fn (nth a (w_heap w) []) = Some cl ->
  get llh (w_fn w2) = Some a /\ get fn (nth a (w_heap w2) []) = Some cl.
Proof.
  intros B Hl Ha Hc. unfold build_component in B.
  destruct (deduce limit names func nodep noeff k2 w) as [[w1 k1] [[]|e]] eqn:Hd; [|discriminate].
  destruct (deduce_ok_inv _ _ _ _ _ _ _ _ _ Hd) as
    (deps & c1 & needed & _ & _ & _ & _ & _ & _ & _ & H8 & _ & _ & _ & _ & H13 & _ & H15 & H16 & _ & _).
  destruct (compile_ok _ _ _ _ _ _ B) as (pr & a0 & w3 & insts & cl' & a' & E1 & _ & E3 & E4 & _).
  rewrite H13 in E1. injection E1 as <- <-.
  match type of E3 with instantiate _ _ ?l ?is _ _ = _ => pose proof (instantiate_fn f plugins l is [] w1) as [F1 F2] end.
  rewrite E3 in F1, F2. cbn [fst] in F1, F2. subst w2. cbn [w_fn w_heap].
  assert (Hlt : a < List.length (w_heap w)).
  { destruct (Nat.lt_ge_cases a (List.length (w_heap w))) as [|Hge]; [assumption|].
    rewrite nth_overflow in Hc by exact Hge. discriminate. }
  split.
  - rewrite F1, H15, get_set_neq; [exact Ha|congruence].
  - rewrite nth_set_nth_other by lia. rewrite F2, H16, app_nth1 by exact Hlt. exact Hc.
Qed.

Lemma stays_in_force f plugins w k limit names func nodep noeff k2 w2 k2' :
  well_named plugins -> in_force f plugins w k -> k_llh k2 <> k_llh k ->
  build_component limit names func nodep noeff f plugins k2 w = (w2, k2', Ok tt) ->
  (forall pr n bs, k_code k = Some pr -> In n (pr_imports pr) -> get n (w_class w) = Some bs ->
     exists bs', get n (w_class w2) = Some bs' /\ Forall2 same_setting bs bs') ->
  in_force f plugins w2 k.
Proof.
  intros Hw F Hl B2 Hc. destruct F as (limit' & names' & func' & nodep' & noeff' & k0 & w0 & w1 & B & F1 & F2 & F3).
  destruct (build_parts _ _ _ _ _ _ _ _ _ _ _ Hw B) as (pr & insts & P).
  destruct (pt_ns _ _ _ _ _ P) as (a & A1 & A2).
  destruct (build_keeps _ _ _ _ _ _ _ _ _ _ _ (k_llh k) a (k_func k) (mk_closure pr insts) B2 Hl) as [K1 K2].
  { rewrite F1. exact A1. } { rewrite (F2 _ A1). exact A2. }
  exists limit', names', func', nodep', noeff', k0, w0, w1. split; [exact B|]. split; [congruence|]. split.
  - intros b Hb. assert (b = a) as -> by congruence. rewrite K2, A2. reflexivity.
  - intros pr' n bs H1 H2 H3. destruct (F3 _ _ _ H1 H2 H3) as (bs1 & G1 & G2).
    destruct (Hc _ _ _ H1 H2 G1) as (bs2 & G3 & G4). exists bs2. split; [exact G3|].
    exact (same_setting_trans _ _ G2 _ G4).
Qed.

(** ** Writing a lineage *)

Lemma array_built llh cfs bs bs' : Forall2 (built_of llh) cfs bs -> Forall2 same_setting bs bs' ->
  (existsb has_array bs' = true <-> exists cf, In cf cfs /\ c_kind cf = KConstantSet).
Proof.
  intros H. revert bs'. induction H as [|cf b cfs bs (_ & Q & _) _ IH]; intros bs' F;
    inversion F as [|? b' ? bs2 (_ & S & _) F2]; subst.
  - cbn. split; [discriminate|]. intros (cf & [] & _).
  - cbn [existsb]. rewrite orb_true_iff, (IH _ F2). unfold has_array at 1. rewrite <- S, Q. split.
    + intros [E|(cf' & E1 & E2)].
      * exists cf. split; [left; reflexivity|]. destruct (c_kind cf); try discriminate. reflexivity.
      * exists cf'. split; [right; exact E1|exact E2].
    + intros (cf' & [<-|E1] & E2); [left; rewrite E2; reflexivity|right; eauto].
Qed.

Lemma holds_array_spec f plugins w s : well_named plugins -> in_force f plugins w (cs_k s) ->
  (holds_array w (OSim s) = true <-> needs_array plugins (cs_k s)).
Proof.
  intros Hw F. destruct (in_force_parts _ _ _ _ Hw F) as (cls & pr & insts & P & O).
  unfold holds_array. rewrite (pt_sim _ _ _ _ _ P). cbn [cl_insts].
  assert (A : forall n pn i p, In (n, pn) (pr_insts pr) -> get n insts = Some i -> plugins pn = Some p ->
     (existsb has_array (match get (p_name (i_class i)) (w_class w) with Some bs => bs | None => [] end) = true <->
      exists cf, In cf (map snd (p_configs p)) /\ c_kind cf = KConstantSet)).
  { intros n pn i p Hin Hi Hp.
    destruct (pt_inst _ _ _ _ _ P _ _ Hin) as (j & p' & J1 & J2 & J3 & J4 & J5 & J6 & J7).
    assert (j = i) as -> by congruence. assert (p' = p) as -> by congruence.
    rewrite J3, J4. destruct (O pn (i_built i)) as (bs' & O1 & O2); [|exact J6|].
    { rewrite (pt_imports _ _ _ _ _ P). apply in_map_iff. exists (n, pn). auto. }
    rewrite O1. exact (array_built _ _ _ _ J7 O2). }
  split.
  - intros E. apply existsb_exists in E. destruct E as ([n i] & Hi & E). cbn [snd] in E.
    assert (Hn : In n (map fst (pr_insts pr))).
    { apply (pt_keys _ _ _ _ _ P). unfold keys. apply in_map_iff. exists (n, i). auto. }
    apply in_map_iff in Hn. destruct Hn as ([n0 pn] & Hn0 & Hin). cbn in Hn0. subst n0.
    destruct (pt_inst _ _ _ _ _ P _ _ Hin) as (j & p & J1 & J2 & _).
    assert (G : get n insts = Some i) by (apply In_get; [exact (pt_unique _ _ _ _ _ P)|exact Hi]).
    apply (A n pn i p Hin G J2) in E. destruct E as (cf & E1 & E2).
    exists pr, pn, p, cf. split; [exact (pt_code _ _ _ _ _ P)|]. split; [|auto].
    rewrite (pt_imports _ _ _ _ _ P). apply in_map_iff. exists (n, pn). auto.
  - intros (pr' & pn & p & cf & N1 & N2 & N3 & N4 & N5).
    rewrite (pt_code _ _ _ _ _ P) in N1. injection N1 as <-.
    rewrite (pt_imports _ _ _ _ _ P) in N2. apply in_map_iff in N2. destruct N2 as ([n pn'] & Hpn & Hin).
    cbn in Hpn. subst pn'. destruct (pt_inst _ _ _ _ _ P _ _ Hin) as (i & p' & J1 & J2 & _).
    apply existsb_exists. exists (n, i). split; [exact (get_In _ _ _ J1)|]. cbn [snd].
    apply (A n pn i p Hin J1 N3). eauto.
Qed.

Lemma dump_context_spec sha hash code plugins d (src : string -> source code) w x l :
  well_named plugins -> keys_once x ->
  (forall ln cn s, component_of x ln cn (OSim s) -> in_force (d_fs d) plugins w (cs_k s)) ->
  ctx_lineage_of sha hash code d src w x = Ok l ->
  (dump_context sha hash code d src w x = Err TypeError /\
   exists ln L cn s, get ln (xo_llhs x) = Some L /\ lo_lit L = false /\ get cn (lo_comps L) = Some (OSim s) /\
     needs_array plugins (cs_k s)) \/
  (dump_context sha hash code d src w x = Ok l /\
   forall ln L cn s, get ln (xo_llhs x) = Some L -> lo_lit L = false -> get cn (lo_comps L) = Some (OSim s) ->
     ~ needs_array plugins (cs_k s)).
Proof.
  intros Hw (_ & P2 & P3) F HL. unfold dump_context. rewrite HL. cbn [bind].
  match goal with |- context [if ?b then _ else _] => destruct b eqn:E end; [left|right]; (split; [reflexivity|]).
  - apply existsb_exists in E. destruct E as ([ln L] & HLn & E). cbn [snd] in E. apply andb_true_iff in E.
    destruct E as [E1 E2]. apply existsb_exists in E2. destruct E2 as ([cn o] & Hcn & E2). cbn [snd] in E2.
    apply In_get in HLn; [|exact P2]. apply In_get in Hcn; [|exact (P3 _ _ HLn)].
    destruct o as [s|f]; [|discriminate]. exists ln, L, cn, s. split; [exact HLn|].
    split; [apply negb_true_iff; exact E1|]. split; [exact Hcn|].
    apply (holds_array_spec (d_fs d) plugins w s Hw); [|exact E2]. apply (F ln cn). exists L. auto.
  - intros ln L cn s G1 G2 G3 N.
    assert (Hf : in_force (d_fs d) plugins w (cs_k s)) by (apply (F ln cn); exists L; auto).
    apply (holds_array_spec _ _ _ _ Hw Hf) in N.
    assert (T : true = false); [|discriminate]. rewrite <- E. symmetry.
    apply existsb_exists. exists (ln, L). split; [exact (get_In _ _ _ G1)|]. cbn [snd]. rewrite G2. cbn [negb andb].
    apply existsb_exists. exists (cn, OSim s). split; [exact (get_In _ _ _ G3)|exact N].
Qed.

(** ** What is in a lineage *)
Lemma read_holds d c s bytes : read_file d c (VStr s) = Ok bytes <-> holds d c s bytes.
Proof.
  unfold read_file, holds. destruct (snd (get_file_path (d_fs d) s c)) as [p|e].
  - destruct (d_bytes d p) as [b|] eqn:E; split.
    + intros H. injection H as <-. eauto.
    + intros (q & Q1 & Q2). injection Q1 as <-. congruence.
    + discriminate.
    + intros (q & Q1 & Q2). injection Q1 as <-. congruence.
  - split; [discriminate|]. intros (q & Q1 & _). discriminate.
Qed.

Section Records.
  Variable sha : string -> string.
  Variable hash : any_lineage -> string.
  Variable code : Type.
  Variables (d : disk) (src : string -> source code) (w : world).

  Lemma comp_entry_ok o l : any_lineage_of sha code d src w o = Ok l -> comp_entry sha code d src w o l.
  Proof.
    destruct o as [s|f]; cbn [any_lineage_of comp_entry].
    - destruct (lineage sha code d src s w) as [x|e]; cbn [bind]; [|discriminate]. intros H. injection H as <-. eauto.
    - unfold fixed_lineage_of. destruct (fo_bins f) as [b|]; [|discriminate].
      destruct (read_file d (w_cache w) (VStr (fo_file f))) as [bytes|e] eqn:R; cbn [bind]; [|discriminate].
      intros H. injection H as <-. exists b, (base_name (fo_file f)), bytes. split; [reflexivity|].
      split; [apply base_name_part|]. split; [apply read_holds; exact R|reflexivity].
  Qed.

  Lemma lik_entry_ok L e : lik_lineage_of sha hash code d src w L = Ok e -> lik_entry sha hash code d src w L e.
  Proof.
    unfold lik_lineage_of. destruct (lo_lit L) eqn:EL.
    - destruct (dict_ok _ _) as [ls|x] eqn:D; cbn [bind]; [|discriminate]. intros H. injection H as <-.
      destruct (dict_ok_get _ _ _ D) as [D1 D2]. cbn [lik_entry]. split; [exact EL|]. split; [reflexivity|]. split.
      + rewrite <- D1. unfold keys. rewrite map_map. reflexivity.
      + intros n o G. specialize (D2 n). rewrite G in D2. destruct D2 as (l & L1 & L2). exists l. split.
        * rewrite get_map, L2. reflexivity.
        * exact (comp_entry_ok _ _ L1).
    - destruct (get "data_file_name" (lo_config L)) as [v|] eqn:G; [|discriminate]. destruct v as [| | |file| |]; try discriminate.
      destruct (read_file d (w_cache w) (VStr file)) as [bytes|x] eqn:R; cbn [bind]; [|discriminate].
      destruct (dict_ok _ _) as [ls|x] eqn:D; cbn [bind]; [|discriminate]. intros H. injection H as <-.
      destruct (dict_ok_get _ _ _ D) as [D1 D2]. cbn [lik_entry]. split; [exact EL|]. split; [reflexivity|]. split.
      + exists file, bytes. split; [exact G|]. split; [apply base_name_part|]. split; [apply read_holds; exact R|reflexivity].
      + split; [exact D1|]. intros n o Go. specialize (D2 n). rewrite Go in D2. destruct D2 as (l & L1 & L2).
        exists l. split; [exact L2|exact (comp_entry_ok _ _ L1)].
  Qed.

  Lemma ctx_records x l : ctx_lineage_of sha hash code d src w x = Ok l ->
    (forall n, n <> "likelihoods" -> n <> "par_config" -> get n (xl_instruct l) = get n (xo_instruct x)) /\
    (NoDup (keys (xo_instruct x)) -> get "likelihoods" (xl_instruct l) = None /\ get "par_config" (xl_instruct l) = None) /\
    xl_par l = xo_par x /\ keys (xl_llhs l) = keys (xo_llhs x) /\
    forall n L, get n (xo_llhs x) = Some L ->
      exists e, get n (xl_llhs l) = Some e /\ lik_entry sha hash code d src w L e.
  Proof.
    unfold ctx_lineage_of. destruct (dict_ok _ _) as [ls|e] eqn:D; cbn [bind]; [|discriminate].
    intros H. injection H as <-. cbn [xl_instruct xl_par xl_llhs]. destruct (dict_ok_get _ _ _ D) as [D1 D2].
    split; [|split; [|split; [|split]]].
    - intros n N1 N2. rewrite !get_del_neq by assumption. reflexivity.
    - intros N. split; [apply get_del_eq, NoDup_del, N|]. rewrite get_del_neq by discriminate. apply get_del_eq, N.
    - reflexivity.
    - exact D1.
    - intros n L G. specialize (D2 n). rewrite G in D2. destruct D2 as (e & E1 & E2).
      exists e. split; [exact E2|exact (lik_entry_ok _ _ E1)].
  Qed.

  Lemma comp_complete_ok o : comp_complete sha code d src w o -> exists l, any_lineage_of sha code d src w o = Ok l.
  Proof.
    destruct o as [s|f]; cbn [comp_complete any_lineage_of].
    - intros [l ->]. eexists. reflexivity.
    - intros [[b Hb] [bytes Hy]]. apply read_holds in Hy. unfold fixed_lineage_of. rewrite Hb, Hy. eexists. reflexivity.
  Qed.
  Lemma comp_entry_complete o l : comp_entry sha code d src w o l -> comp_complete sha code d src w o.
  Proof. destruct o as [s|f]; [intros (x & X & _)|intros (b & n & y & B & _ & Y & _)]; cbn; eauto. Qed.

  Lemma ctx_complete x : keys_once x ->
    ((exists l, ctx_lineage_of sha hash code d src w x = Ok l) <->
     forall n L, get n (xo_llhs x) = Some L -> lik_complete sha code d src w L).
  Proof.
    intros (_ & K2 & K3). split.
    - intros [l H] n L G. destruct (ctx_records _ _ H) as (_ & _ & _ & _ & R). destruct (R _ _ G) as (e & _ & E).
      destruct e as [c name h ds|c hs]; cbn [lik_entry] in E.
      + destruct E as (_ & -> & (file & bytes & F1 & _ & F2 & _) & _ & E). split.
        * intros m o Go. destruct (E _ _ Go) as (l' & _ & E'). exact (comp_entry_complete _ _ E').
        * intros _. eauto.
      + destruct E as (EL & _ & _ & E). split.
        * intros m o Go. destruct (E _ _ Go) as (l' & _ & E'). exact (comp_entry_complete _ _ E').
        * rewrite EL. discriminate.
    - intros H. unfold ctx_lineage_of.
      destruct (dict_ok_exists (lik_lineage_of sha hash code d src w) (xo_llhs x)) as [ls ->]; [|cbn; eauto].
      intros n L HL. assert (G : get n (xo_llhs x) = Some L) by (apply In_get; assumption).
      destruct (H _ _ G) as [H1 H2]. unfold lik_lineage_of.
      destruct (dict_ok_exists (any_lineage_of sha code d src w) (lo_comps L)) as [cs ->].
      { intros m o Hm. apply comp_complete_ok, (H1 m). apply In_get; [exact (K3 _ _ G)|exact Hm]. }
      destruct (lo_lit L); [cbn; eauto|]. destruct (H2 eq_refl) as (file & bytes & -> & Hb).
      apply read_holds in Hb. rewrite Hb. cbn. eauto.
  Qed.
End Records.
