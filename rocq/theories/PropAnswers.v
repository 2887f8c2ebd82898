(** C129: a constructed context whose plugins do what they declare and whose needed parameters all have values answers
    with a number. *)
From Coq Require Import Reals Lra Lia.
From Verif Require Import Base BaseFacts ModelFloat ModelHist ModelShare ModelConfig ModelComponent ModelCompile
  ModelParameter ModelLikelihood ModelBinning ModelLit ModelContext ModelWhole
  SpecHist SpecLikelihood SpecComponent SpecConfig SpecCompile SpecParameter SpecContext SpecWeighted SpecBinning SpecWhole SpecNeeded SpecFrame SpecAnswers
  ProofFloat ProofHist ProofLikelihood ProofLikelihood2 ProofLikelihood3 ProofParameter ProofContext ProofBinning ProofWhole ProofNeeded ProofFrame ProofAnswers
  PropHist PropContext PropBinning PropWhole PropNeeded.
From Verif Require PropParameter.
Local Open Scope string_scope.
Local Open Scope list_scope.

(** log_posterior raises nothing, for every key, batch size and number of repetitions. *)
Theorem C129_answers {K} (E : ModelWhole.env K) manager ins par w w' c fresh pars batch times st' cs r prior :
  new_context K E manager ins par w = (w', Ok c) -> well_behaved E (contents (w_cache w')) ->
  (forall n li, In (n, li) (in_llhs ins) -> plain_llh E li /\ published_llh E li) ->
  (forall n li L, In (n, li) (in_llhs ins) -> In (n, L) (cx_llhs c) ->
     sound_llh E li (wl_type L) /\ answering E (contents (w_cache w')) n li (wl_type L)) ->
  (forall z, In z (cx_needed c) -> In z (keys (p_values (cx_pars c)))) -> NoDup (keys (p_values (cx_pars c))) ->
  NoDup (keys pars) -> (forall n, In n (keys pars) -> In n (keys (p_values (cx_pars c)))) ->
  context_posterior K E c fresh pars batch times = (st', cs, r) -> log_prior (e_sigmas E) st' = Ok (Fin prior) ->
  exists y, r = Ok (y, Fin prior).
Proof.
  intros H W Hpl Hs Hneed Hv Hn Hk Hp Hpr. unfold context_posterior in Hp.
  destruct (posterior_frame K _ _ _ _ _ _ _ _ _ _ Hp) as (_ & _ & _ & Hkeys & _).
  eapply C25_succeeds; [exact Hn|exact Hk|exact Hp|exact Hpr|]. intros n f k Hin.
  apply in_map_iff in Hin. destruct Hin as ([n' L] & Eq & HL). injection Eq as <- <-. cbn [snd].
  destruct (context_runs E manager ins par w w' c n' L k batch (p_values st') H W Hpl Hs) as [(k' & y & Hy) _].
  - intros z Hz. rewrite Hkeys. auto.
  - rewrite Hkeys. exact Hv.
  - exact HL.
  - exists (k', y). exact Hy.
Qed.

(** If none of the likelihoods is a LikelihoodLit, the number is finite or -inf. *)
Theorem C129_number {K} (E : ModelWhole.env K) manager ins par w w' c fresh pars batch times st' cs r prior :
  new_context K E manager ins par w = (w', Ok c) -> well_behaved E (contents (w_cache w')) ->
  (forall n li, In (n, li) (in_llhs ins) -> plain_llh E li /\ published_llh E li) ->
  (forall n li L, In (n, li) (in_llhs ins) -> In (n, L) (cx_llhs c) ->
     sound_llh E li (wl_type L) /\ answering E (contents (w_cache w')) n li (wl_type L)) ->
  (forall n L, In (n, L) (cx_llhs c) -> exists lk, wl_type L = MDefault lk) ->
  (forall z, In z (cx_needed c) -> In z (keys (p_values (cx_pars c)))) -> NoDup (keys (p_values (cx_pars c))) ->
  NoDup (keys pars) -> (forall n, In n (keys pars) -> In n (keys (p_values (cx_pars c)))) ->
  context_posterior K E c fresh pars batch times = (st', cs, r) -> log_prior (e_sigmas E) st' = Ok (Fin prior) ->
  r = Ok (NInf, Fin prior) \/ exists y, r = Ok (Fin y, Fin prior).
Proof.
  intros H W Hpl Hs Hd Hneed Hv Hn Hk Hp Hpr.
  destruct (C129_answers E manager ins par w w' c fresh pars batch times st' cs r prior H W Hpl Hs Hneed Hv Hn Hk Hp Hpr) as (y & ->).
  assert (P : proper_llh y).
  { unfold context_posterior in Hp.
    apply (C25_never_nan (e_sigmas E) (map (fun nl => (fst nl, wl_llh (snd nl))) (cx_llhs c)) fresh (cx_pars c) pars batch times st' cs y (Fin prior) Hn Hk).
    - intros n L Hin. apply in_map_iff in Hin. destruct Hin as ([n' L'] & Eq & HL). injection Eq as <- <-. cbn [snd].
      destruct (context_runs E manager ins par w w' c n' L' (fresh 0) batch (p_values (cx_pars c)) H W Hpl Hs Hneed Hv HL) as [_ G].
      destruct (Hd n' L' HL) as [lk ->] in G. exact G.
    - rewrite <- Hp. rewrite map_map. f_equal. apply map_ext_in. intros [n' L'] HL. cbn [fst snd]. f_equal.
      unfold wl_log_likelihood. destruct (Hd n' L' HL) as [lk ->]. reflexivity. }
  destruct P as [-> |(z & ->)]; [left; reflexivity|right; exists z; reflexivity].
Qed.

(** Conversely, an answer requires the rate of every component of a Likelihood under the name its aliases give it. *)
Lemma rate_used {K} (E : ModelWhole.env K) lname on b cname k file wa wb lc sim key batch p r :
  construct_component K E lname on b cname k file wa = (wb, Ok (lc, sim)) ->
  match l_kind lc with
  | LSim f => f key batch p = Ok r
  | LFixed f => exists h, f p = Ok h
  | LOther => True
  end -> exists v, get (cname ++ "_rate")%string p = Some v.
Proof.
  assert (G : forall nt mc h f, get_normalization nt (cname ++ "_rate") mc h p batch = Ok f -> exists v, get (cname ++ "_rate")%string p = Some v).
  { intros nt mc h f. unfold get_normalization. destruct (get (cname ++ "_rate")%string p) as [v|]; [eauto|].
    destruct nt; [discriminate| |discriminate]. destruct mc; discriminate. }
  assert (G2 : forall nt mc h m f, get_normalization nt (cname ++ "_rate") mc h p m = Ok f -> exists v, get (cname ++ "_rate")%string p = Some v).
  { intros nt mc h m f. unfold get_normalization. destruct (get (cname ++ "_rate")%string p) as [v|]; [eauto|].
    destruct nt; [discriminate| |discriminate]. destruct mc; discriminate. }
  intros H. unfold construct_component in H. destruct k as [ps nt ae|nt ae|]; [| |discriminate].
  - destruct (register ps []) as [reg [u|e]]; [|discriminate].
    match type of H with context [build_component ?a ?bb ?c ?d ?ee ?f ?g ?h ?i] =>
      destruct (build_component a bb c d ee f g h i) as [[w1 k'] [u'|e]] end; [|discriminate].
    destruct (k_simulate k') as [cl|]; [|discriminate]. injection H as <- <- <-. cbn [l_kind]. unfold sim_hist.
    destruct (sim_rows K E cl key batch p) as [[key' rows]|e]; [|discriminate]. destruct (split_rows _ rows) as [mc eff].
    destruct (forallb _ mc); [|discriminate]. destruct (implement_binning _ _ _ mc eff) as [h|e]; [|discriminate].
    cbn [n_norm n_rate n_mcinput]. destruct (get_normalization _ _ _ _ _ _) as [f|e] eqn:Hg; [|discriminate]. intros _. exact (G _ _ _ _ Hg).
  - destruct file as [[|ch fname]|]; try discriminate. destruct (load_data K E (String ch fname) wa) as [w1 [t|e]]; [|discriminate].
    destruct (positions on (t_columns t)) as [is|e]; [|discriminate].
    destruct (fixed_deduce _ _ _) as [h|e] eqn:Hd; [|discriminate]. injection H as <- <- <-. cbn [l_kind].
    unfold fixed_hist. rewrite Hd. cbn [n_norm n_rate]. destruct (get_normalization _ _ _ _ _ _) as [f|e] eqn:Hg; [|intros (x & Hx); discriminate Hx].
    intros _. exact (G2 _ _ _ _ _ Hg).
Qed.
Lemma sum_used {K} (comps : dict (lcomp K)) batch p : forall key h r, sum_components comps key batch p h = Ok r ->
  forall nm c, In (nm, c) comps -> match l_kind c with
    | LSim f => exists key r, f key batch p = Ok r | LFixed f => exists h, f p = Ok h | LOther => True end.
Proof.
  induction comps as [|[n0 c0] comps IH]; intros key h r H nm c Hin; [destruct Hin|]. cbn [sum_components] in H.
  destruct Hin as [Hin|Hin].
  - injection Hin as <- <-. destruct (l_kind c0) as [f|f|]; [| |exact I].
    + destruct (f key batch p) as [x|e] eqn:Hf; [eauto|discriminate].
    + destruct (f p) as [x|e] eqn:Hf; [eauto|discriminate].
  - match type of H with match ?o with _ => _ end = _ => destruct o as [[key' x]|e] end; [|discriminate].
    destruct (iadd h x) as [h'|e]; [|discriminate]. exact (IH _ _ _ H nm c Hin).
Qed.
Lemma chain_used {K} batch p (ls : dict (llh_fun K)) key cs xs : llh_chain batch p ls key cs xs ->
  forall n f, In (n, f) ls -> exists k y, f k batch p = Ok y.
Proof. intros H. induction H as [|n0 f0 rest k k' x cs xs Hf H IH]; intros n f []; [|eauto]. injection H0 as <- <-. eauto. Qed.

Theorem C129_rates {K} (E : ModelWhole.env K) manager ins par w w' c fresh pars batch times st' cs y prior lname li L lk cname cf p' :
  new_context K E manager ins par w = (w', Ok c) -> NoDup (keys (in_llhs ins)) ->
  NoDup (keys (p_values (cx_pars c))) -> NoDup (keys pars) ->
  context_posterior K E c fresh pars batch times = (st', cs, Ok (y, Fin prior)) ->
  In (lname, li) (in_llhs ins) -> In (lname, L) (cx_llhs c) -> wl_type L = MDefault lk -> In (cname, cf) (li_components li) ->
  NoDup (keys (li_alias li)) -> separate (li_alias li) -> renamed (li_alias li) (p_values st') p' ->
  exists v, get (cname ++ "_rate")%string p' = Some v.
Proof.
  intros H Hnd Hv Hn Hp Hli HL HT Hc Hal Hsep Hren.
  destruct (posterior_keys E _ _ _ _ _ _ _ _ _ _ _ _ _ _ H Hv Hn Hp) as (Hk & Hpr & Hv'). unfold context_posterior in Hp.
  destruct (context_made E _ _ _ _ _ _ H) as (w1 & _ & _ & HF).
  destruct (Forall2_right _ _ _ _ HF HL) as ([ln li'] & Hin & Hm). pose proof Hm as [Hf _]. cbn [fst] in Hf. subst ln.
  assert (li' = li) by (apply (In_get _ _ _ Hnd) in Hin; apply (In_get _ _ _ Hnd) in Hli; congruence). subst li'.
  assert (HU : exists k r, wl_log_likelihood L k batch (p_values st') = Ok r).
  { assert (Hi : In (lname, wl_log_likelihood L) (map (fun nl => (fst nl, wl_log_likelihood (snd nl))) (cx_llhs c))).
    { apply in_map_iff. exists (lname, L). auto. }
    destruct (le_lt_dec times 1) as [Ht|Ht].
    - destruct (C25_value _ _ _ _ _ _ _ _ _ _ _ Hn Hk Ht Hp Hpr) as [_ [(xs & Hch & _)|(e & n & f & k & Ee & _)]]; [|discriminate].
      exact (chain_used _ _ _ _ _ _ Hch _ _ Hi).
    - destruct (C25_repeated _ _ _ _ _ _ _ _ _ _ _ Hn Hk Ht Hp Hpr) as [_ [(xss & Hch & _ & _)|(e & n & f & k & Ee & _)]]; [|discriminate].
      inversion Hch as [|t i cs0 xs cs1 xss1 Hch1 _]; subst; [lia|]. exact (chain_used _ _ _ _ _ _ Hch1 _ _ Hi). }
  destruct HU as (k & r & HU). destruct Hm as (_ & _ & Hdat & HA & HC & _). cbn [fst snd] in *.
  unfold wl_log_likelihood in HU. rewrite HT in HU. unfold get_log_likelihood, simulate_model_hist in HU.
  rewrite HA, !replace_alias_idem in HU by assumption.
  destruct (sum_components _ _ _ _ _) as [r'|e] eqn:Hsum; [|discriminate].
  destruct (ProofCompile.Forall2_in_l _ _ _ HC _ Hc) as ([nm lc] & Hlc & Hnm & k' & wa & wb & sim & _ & _ & Hcon). cbn [fst snd] in *. subst nm.
  rewrite (Hren _). pose proof (sum_used _ _ _ _ _ _ Hsum _ _ Hlc) as Q.
  assert (Hg : exists v, get (cname ++ "_rate")%string (replace_alias (li_alias li) (p_values st')) = Some v).
  { destruct (l_kind lc) as [f|f|] eqn:Hkind.
    - destruct Q as (ky & q & Hq). eapply (rate_used E) with (key := ky) (batch := batch) (r := q); [exact Hcon|]. rewrite Hkind. exact Hq.
    - eapply (rate_used E) with (key := k) (batch := batch); [exact Hcon|]. rewrite Hkind. exact Q.
    - eapply (rate_used E) with (key := k) (batch := batch); [exact Hcon|]. rewrite Hkind. exact I. }
  rewrite replace_alias_get in Hg by assumption. exact Hg.
  Unshelve. all: exact r'.
Qed.

(** ** A case *)

(** The context of PropWhole.v with plugins that honour the batch size: the energies are all 1/2, the efficiencies are
    the parameter a. *)
Definition a_size (v : sval nat) : nat := match v with SBatch n => n | SCol c => List.length c | _ => 0 end.
Definition a_isem (i : instance) (args : list (sval nat)) : result (list (sval nat)) :=
  match args with
  | SKey k :: SParams p :: v :: _ =>
      match p_params (i_class i) with
      | [] => Ok (SKey (S k) :: map (fun _ => SCol (repeat (Fin (1 / 2)) (a_size v))) (p_provides (i_class i)))
      | x :: _ =>
          match get x p with
          | Some a => Ok (SKey (S k) :: map (fun _ => SCol (repeat a (a_size v))) (p_provides (i_class i)))
          | None => Err KeyError
          end
      end
  | _ => Err TypeError
  end.
Definition a_env : ModelWhole.env nat :=
  mk_env w_files (e_read w_env) 20 (e_plugins w_env) (e_classes w_env) a_isem (fun _ => Err AttributeError) no_oor no_g1 no_g2 PropParameter.ex_sigmas.
Lemma a_behaved cs : well_behaved a_env cs.
Proof.
  intros i n key p args Hp Hne Hl HF Hd. destruct args as [|v rest]; [congruence|]. inversion HF as [|? ? Hv _]; subst.
  assert (Hs : a_size v = n) by (destruct Hv as [->|(c & -> & Hc)]; [reflexivity|exact Hc]).
  cbn [e_isem a_env a_isem]. rewrite Hs.
  assert (G : forall a : fl, exists cols, map (fun _ : string => @SCol nat (repeat a n)) (p_provides (i_class i)) = map SCol cols /\
    List.length cols = List.length (p_provides (i_class i)) /\ Forall (fun c => List.length c = n) cols).
  { intros a. exists (map (fun _ => repeat a n) (p_provides (i_class i))). rewrite map_map. split; [reflexivity|]. split; [apply map_length|].
    apply Forall_forall. intros c Hc. apply in_map_iff in Hc. destruct Hc as (? & <- & _). apply repeat_length. }
  destruct (p_params (i_class i)) as [|x xs] eqn:Hx.
  - destruct (G (Fin (1 / 2))) as (cols & -> & G2). exists (S key), cols. split; [reflexivity|exact G2].
  - assert (Hi : In x (keys p)) by (apply Hd; left; rewrite Hx; left; reflexivity). apply get_In_keys in Hi. destruct Hi as [a ->].
    destruct (G a) as (cols & -> & G2). exists (S key), cols. split; [reflexivity|exact G2].
Qed.
Definition a_er : lcomp nat := mk_lcomp ["er_rate"; "a"]
  (LSim (sim_hist no_oor w_cnum (ModelWhole.sim_rows nat a_env w_cl))).
Lemma a_er_made : construct_component nat a_env "rn" ["energy"] w_bins "er" (ClsSim [pEn; pEf] OnPdf false) None w_w2
  = (w_w3, Ok (a_er, sim_cols nat a_env w_cl)).
Proof. reflexivity. Qed.
Lemma a_acc_made : construct_component nat a_env "rn" ["energy"] w_bins "ac" (ClsFixed OnPdf false) (Some "ac.csv") w_w3
  = (w_w4, Ok (w_acc, fun _ _ _ => Err TypeError)).
Proof.
  unfold construct_component.
  assert (E : load_data nat a_env "ac.csv" w_w3 = (w_w4, Ok w_ac)) by reflexivity. rewrite E.
  change (positions ["energy"] (t_columns w_ac)) with (@Ok (list nat) [0]). cbv beta iota.
  change (map (select [0]) (t_rows w_ac)) with w_ac_rows.
  change ("ac" ++ "_rate")%string with "ac_rate". cbn [e_row a_env]. rewrite w_ac_made. reflexivity.
Qed.
Definition a_llh : wlik nat :=
  mk_wlik (MDefault w_lk)
    (mk_llh [("er", a_er); ("ac", w_acc)] ["a"; "er_events"; "ac_rate"] [("er_events", "er_rate")] [Fin 1; Fin 2])
    [("er", sim_cols nat a_env w_cl); ("ac", fun _ _ _ => Err TypeError)].
Definition a_context : context nat := mk_context (w_state 1) [("rn", a_llh)] ["a"; "er_events"; "ac_rate"].
Lemma a_context_made : new_context nat a_env w_manager w_ins (Ok w_par) init_world = (w_w4, Ok a_context).
Proof.
  unfold new_context.
  assert (Hc : context_configs nat a_env w_ins init_world = (w_w1, Ok tt)) by reflexivity. rewrite Hc.
  assert (Hp : update_parameter_config
         (map (fun nl => (fst nl, mk_linstr (li_copy (snd nl)) (keys (li_components (snd nl))))) (in_llhs w_ins)) w_par
         = Ok (p_config (w_state 1), ["a"])) by reflexivity.
  rewrite Hp, w_manager_ok. cbn [in_llhs w_ins context_likelihoods].
  unfold context_likelihood. cbn [has get cx_llhs keys mem map existsb li_type make_type].
  assert (E : load_data nat a_env "data.csv" w_w1 = (w_w2, Ok w_data)) by reflexivity. rewrite E.
  cbn [e_row e_gof_1d e_gof_2d a_env]. rewrite w_lk_made.
  cbn [li_components context_components e_classes a_env w_env String.eqb Ascii.eqb Bool.eqb].
  unfold context_component at 1. cbn [cx_llhs get set String.eqb Ascii.eqb Bool.eqb].
  unfold add_component at 1. cbn [has get keys mem existsb map ll_components wl_llh wl_type full m_on m_bins k_on k_bins w_lk].
  fold w_env. fold a_env. rewrite a_er_made. cbn -[construct_component a_er w_acc a_llh a_env w_state w_bins w_rows].
  rewrite a_acc_made. reflexivity.
Qed.

(** Every hypothesis holds, so that every batch size, also 0, and every number of repetitions is answered. *)
Example C129_case fresh batch times :
  (forall n li, In (n, li) (in_llhs w_ins) -> plain_llh a_env li /\ published_llh a_env li) /\
  (forall n li L, In (n, li) (in_llhs w_ins) -> In (n, L) (cx_llhs a_context) ->
     sound_llh a_env li (wl_type L) /\ answering a_env (contents (w_cache w_w4)) n li (wl_type L)) /\
  exists st' cs r, context_posterior nat a_env a_context fresh [("er_events", Fin 4)] batch times = (st', cs, r) /\
    (r = Ok (NInf, Fin 0) \/ exists y, r = Ok (Fin y, Fin 0)).
Proof.
  assert (Hr : forall d p, get d w_reg = Some p -> (d = "energy" /\ p = pEn) \/ (d = "eff" /\ p = pEf)).
  { intros d p H. apply get_In in H. destruct H as [H|[H|[]]]; injection H as <- <-; auto. }
  assert (Hps : forall cname cls file ps nt ae, In (cname, (cls, file)) [("er", ("ER", None)); ("ac", ("AC", Some "ac.csv"))] ->
    e_classes a_env cls = Some (ClsSim ps nt ae) -> registry_after [ps] = w_reg /\ nt = OnPdf).
  { intros cname cls file ps nt ae Hin Hk. destruct Hin as [Hin|[Hin|[]]]; injection Hin as <- <- <-; [|discriminate]. injection Hk as <- <- <-. split; reflexivity. }
  assert (A : forall n li, In (n, li) (in_llhs w_ins) -> plain_llh a_env li /\ published_llh a_env li).
  { intros lname li [H|[]]. injection H as <- <-. split.
    - split; [intros k [<-|[]] [H|[]]; discriminate|]. split; [repeat constructor; intros []|].
      intros cname cls file ps nt ae Hin Hk. rewrite (proj1 (Hps _ _ _ _ _ _ Hin Hk)).
      intros d p d' q Hp Hq Hn. apply Hr in Hp, Hq. destruct Hp as [[-> ->]|[-> ->]], Hq as [[-> ->]|[-> ->]]; reflexivity || discriminate.
    - intros cname cls file ps nt ae Hin Hk d q Hq. rewrite (proj1 (Hps _ _ _ _ _ _ Hin Hk)) in Hq. apply Hr in Hq.
      destruct Hq as [[-> ->]|[-> ->]]; reflexivity. }
  assert (B : forall n li L, In (n, li) (in_llhs w_ins) -> In (n, L) (cx_llhs a_context) ->
     sound_llh a_env li (wl_type L) /\ answering a_env (contents (w_cache w_w4)) n li (wl_type L)).
  { intros n li L [H|[]] [H'|[]]. injection H as <- <-. injection H' as <-. split.
    - split; [exact w_bins_ok|]. split; [intros [H|[]]; discriminate|]. split; [repeat constructor; intros []|].
      split; [intros k [<-|[]] [H|[]]; discriminate|]. intros cname cls file ps nt ae Hin Hk.
      rewrite (proj1 (Hps _ _ _ _ _ _ Hin Hk)). split.
      { intros d p d' q Hp Hq Hn. apply Hr in Hp, Hq. destruct Hp as [[-> ->]|[-> ->]], Hq as [[-> ->]|[-> ->]]; reflexivity || discriminate. }
      intros d p _ Hp. apply Hr in Hp.
      destruct Hp as [[-> ->]|[-> ->]]; (split; [repeat constructor; intros []|]); intros x [<-|[]];
        (split; [reflexivity|]); (split; [discriminate|]); split; discriminate.
    - split; [intros [H|[]]; discriminate|]. split; [exact I|]. split.
      + intros x Hx [<-|[]]. cbn [keys] in *.
        assert (Hz : In "er_events" (cx_needed a_context)) by (right; left; reflexivity).
        destruct Hx as (on & cname & cls & file & k & _ & Hin & Hk & Hc). destruct Hc as [Hc|Hc].
        { destruct Hin as [Hin|[Hin|[]]]; injection Hin as <- <- <-; discriminate Hc. }
        destruct k as [ps nt ae|nt ae|]; [|destruct Hc..]. destruct (Hps _ _ _ _ _ _ Hin Hk) as [Hreg _].
        destruct Hc as (d & q & _ & Hq & Hx). rewrite Hreg in Hq. apply Hr in Hq. destruct Hq as [[-> ->]|[-> ->]]; cbn in Hx.
        * destruct Hx as [[]|(m & cf & [Hm|[]] & Hreq)]. injection Hm as <- <-. destruct Hreq as [Hq _]. discriminate Hq.
        * destruct Hx as [[Hx|[]]|(m & cf & [] & _)]. discriminate Hx.
      + intros cname cls file k Hin Hk. destruct k as [ps nt ae|nt ae|]; [|destruct Hin as [Hin|[Hin|[]]]; injection Hin as <- <- <-; [discriminate|injection Hk as <- <-; reflexivity]|exact I].
        destruct (Hps _ _ _ _ _ _ Hin Hk) as [-> ->]. split; [|exact I]. intros d q _ Hq. apply Hr in Hq. destruct Hq as [[-> ->]|[-> ->]]; discriminate. }
  split; [exact A|]. split; [exact B|].
  destruct (context_posterior nat a_env a_context fresh [("er_events", Fin 4)] batch times) as [[st' cs] r] eqn:Hp.
  exists st', cs, r. split; [reflexivity|].
  assert (Hk : forall n, In n (keys [("er_events", Fin 4)]) -> In n (keys (p_values (cx_pars a_context)))) by (intros n [<-|[]]; left; reflexivity).
  assert (Hn : NoDup (keys [("er_events", Fin 4)])) by (repeat constructor; intros []).
  eapply (C129_number a_env w_manager w_ins (Ok w_par) init_world w_w4 a_context fresh [("er_events", Fin 4)] batch times st' cs r 0 a_context_made (a_behaved _) A B); [| | |exact Hn|exact Hk|exact Hp|].
  - intros n L [H|[]]. injection H as <- <-. exists w_lk. reflexivity.
  - intros z [<-|[<-|[<-|[]]]]; cbn; tauto.
  - cbn. repeat constructor; intros H; repeat (destruct H as [H|H]; [discriminate|]); destruct H.
  - assert (Hst : st' = w_state 4).
    { unfold context_posterior, log_posterior in Hp. rewrite posterior_state in Hp by exact Hk.
      match type of Hp with context [with_values ?x ?y] => change (with_values x y) with (w_state 4) in Hp end.
      destruct (log_prior _ _) as [x|e]; [|congruence]. destruct (is_fin x); cbn [negb] in Hp; [|congruence].
      destruct (Nat.ltb 1 times).
      - destruct (repeat_once _ _ _ _ _ _ _ _) as [a b]. destruct b; congruence.
      - destruct (posterior_once _ _ _ _ _ _) as [a b]. destruct b; congruence. }
    rewrite Hst. exact w_prior.
Qed.

Print Assumptions C129_answers.
Print Assumptions C129_number.
Print Assumptions C129_rates.
