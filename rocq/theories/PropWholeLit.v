(** Property C88: a literature likelihood inside of a context.
    The vocabulary is in SpecWhole.v and SpecLit.v, the proofs in ProofWhole.v and ProofLit.v. *)
From Coq Require Import Reals Lra Lia.
From Verif Require Import Base BaseFacts ModelFloat ModelHist ModelShare ModelConfig ModelComponent ModelCompile
  ModelParameter ModelLikelihood ModelBinning ModelLit ModelContext ModelWhole
  SpecHist SpecLikelihood SpecComponent SpecConfig SpecCompile SpecParameter SpecContext SpecWeighted SpecBinning SpecLit SpecWhole
  SpecNeeded ProofFloat ProofParameter ProofContext ProofLikelihood ProofBinning ProofWhole ProofWhole2 ProofNeeded ProofHist ProofLikelihood2 ProofParameter2 ProofWeighted ProofLikelihood3 PropHist PropContext PropBinning PropLit PropWhole.
From Verif Require PropParameter.
Local Open Scope string_scope.
Local Open Scope list_scope.

(** What the simulation of a literature likelihood gives: its only component is run for one event,
    with the parameters renamed by the aliases. *)
Definition lit_run {K} (E : ModelWhole.env K) (ins : instruct) (lname : string) (on : list string)
    (alias : dict string) (cs : dict (string * option string)) (p : params) (key : K)
    (energies yields eff : list fl) (key' : K) : Prop :=
  exists cname cls file ps nt add_eps p' inst val,
    cs = [(cname, (cls, file))] /\ e_classes E cls = Some (ClsSim ps nt add_eps) /\
    renamed alias p p' /\ graph_run E ins lname ps on 1 p' inst val key key' /\
    map val on = [Some (SCol energies); Some (SCol yields)] /\ val "eff" = Some (SCol eff).

Lemma nothing_renamed : separate [] /\ NoDup (keys (@nil (string * string))) /\ NoDup (keys (@nil (string * fl))).
Proof. split; [intros k []|]. split; constructor. Qed.

(** The arguments of the density are those of the instruction by name; of a repeated name the last one that has a value. *)
Lemma last_set {V} n (v : V) : forall l d, get n (fold_left (fun d a => set (fst a) (snd a) d) l d) = Some v <->
  (exists i, nth_error l i = Some (n, v) /\ forall j u, i < j -> nth_error l j <> Some (n, u)) \/
  ((forall j u, nth_error l j <> Some (n, u)) /\ get n d = Some v).
Proof.
  induction l as [|[m u] l IH]; intros d; cbn [fold_left fst snd].
  - split; [intros H; right; split; [intros [|j] u; discriminate|exact H]|]. intros [(i & Hi & _)|[_ H]]; [destruct i; discriminate|exact H].
  - rewrite IH. split.
    + intros [(i & Hi & Hl)|[Hn H]].
      * left. exists (S i). split; [exact Hi|]. intros [|j] u' Hj; [inversion Hj|]. apply Hl. lia.
      * destruct (string_dec n m) as [->|Hne].
        -- rewrite get_set_eq in H. injection H as ->. left. exists 0. split; [reflexivity|]. intros [|j] u' Hj; [inversion Hj|]. apply Hn.
        -- rewrite get_set_neq in H by exact Hne. right. split; [|exact H]. intros [|j] u'; [cbn; congruence|apply Hn].
    + intros [([|i] & Hi & Hl)|[Hn H]].
      * cbn in Hi. injection Hi as -> ->. right. split; [intros j u'; apply (Hl (S j)); lia|apply get_set_eq].
      * left. exists i. split; [exact Hi|]. intros j u' Hj. apply (Hl (S j)). lia.
      * right. split; [intros j u'; apply (Hn (S j))|]. rewrite get_set_neq; [exact H|]. intros ->. exact (Hn 0 u eq_refl).
Qed.
Theorem C88_args names (values : list (list fl)) n v : get n (logpdf_args names values) = Some v <->
  exists i, nth_error names i = Some n /\ nth_error values i = Some v /\
    forall j, i < j -> nth_error names j = Some n -> nth_error values j = None.
Proof.
  unfold logpdf_args. rewrite last_set.
  assert (C : forall i, nth_error (combine names values) i =
    match nth_error names i, nth_error values i with Some a, Some b => Some (a, b) | _, _ => None end).
  { clear. revert values. induction names as [|a names IH]; intros [|b values] [|i]; cbn; try reflexivity; [|apply IH].
    destruct (nth_error names i); reflexivity. }
  split.
  - intros [(i & Hi & Hl)|[_ H]]; [|discriminate]. rewrite C in Hi. exists i.
    destruct (nth_error names i) as [a|] eqn:Ea; [|discriminate]. destruct (nth_error values i) as [b|] eqn:Eb; [|discriminate].
    injection Hi as -> ->. split; [reflexivity|]. split; [reflexivity|]. intros j Hj Hn. specialize (C j). rewrite Hn in C.
    destruct (nth_error values j) as [u|] eqn:Ej; [|reflexivity]. destruct (Hl j u Hj C).
  - intros (i & H1 & H2 & H3). left. exists i. rewrite C, H1, H2. split; [reflexivity|]. intros j u Hj. rewrite C.
    destruct (nth_error names j) as [a|] eqn:Ea; [|discriminate]. destruct (nth_error values j) as [b|] eqn:Eb; [|discriminate].
    intros [= -> ->]. rewrite (H3 j Hj Ea) in Eb. discriminate.
Qed.
Example C88_args_case : get "mu" (logpdf_args ["mu"; "scale"; "mu"] [[Fin 1]; [Fin 2]; [Fin 3]]) = Some [Fin 3].
Proof. reflexivity. Qed.

Section Values.
  Context {K : Type} (E : ModelWhole.env K) (ins : instruct) (lname : string) (on names : list string)
    (values : list (list fl)) (alias : dict string) (cs : dict (string * option string)) (p : params)
    (key key' : K) (x : fl).
  Let args := logpdf_args names values.

  (** twohalfnorm *)
  Theorem C88_twohalf {P} (pts : list P) (m sp sn : P -> R) mus sps sns :
    lit_value E ins lname "twohalfnorm" on names values alias cs p key x key' ->
    at_most ["mu"; "sigma_pos"; "sigma_neg"] args ->
    argument "mu" [Fin 0] args mus -> argument "sigma_pos" [Fin 1] args sps -> argument "sigma_neg" [Fin 1] args sns ->
    pts <> [] -> gives (fun q => Fin (m q)) pts mus -> gives (fun q => Fin (sp q)) pts sps ->
    gives (fun q => Fin (sn q)) pts sns -> (forall q, In q pts -> 0 < sp q /\ 0 < sn q)%R ->
    exists energies yields eff, lit_run E ins lname on alias cs p key energies yields eff key' /\
      forall y e : P -> R, gives (fun q => Fin (y q)) pts yields -> gives (fun q => Fin (e q)) pts eff ->
        some_full pts [mus; sps; sns; yields; eff] ->
        x = Fin (sum_over (fun q => e q * ln (two_half (m q) (sp q) (sn q) (y q)))%R pts).
  Proof.
    intros (cname & cls & file & ps & nt & ae & p' & inst & val & en & ys & eff & L & H1 & H2 & H3 & H4 & H5 & H6 & HL & Hx)
      Ha Hm Hp Hn Hne Gm Gp Gn Hpos.
    exists en, ys, eff. split; [exists cname, cls, file, ps, nt, ae, p', inst, val; auto 10|].
    intros y e Gy Ge Hfull. destruct nothing_renamed as (N1 & N2 & N3).
    pose proof (C78_twohalf [] "" (fun (k : K) _ _ => Ok (k, [en; ys; eff])) key [] N1 N2 N3 pts m sp sn y e on args L 1 key
                  en ys eff mus sps sns HL Ha Hm Hp Hn eq_refl Hne Gm Gp Gn Gy Ge Hfull Hpos) as V.
    rewrite Hx in V. injection V as V. exact V.
  Qed.

  (** norm *)
  Theorem C88_norm {P} (pts : list P) (m s : P -> R) locs scales :
    lit_value E ins lname "norm" on names values alias cs p key x key' ->
    at_most ["loc"; "scale"] args ->
    argument "loc" [Fin 0] args locs -> argument "scale" [Fin 1] args scales ->
    pts <> [] -> gives (fun q => Fin (m q)) pts locs -> gives (fun q => Fin (s q)) pts scales ->
    (forall q, In q pts -> 0 < s q)%R ->
    exists energies yields eff, lit_run E ins lname on alias cs p key energies yields eff key' /\
      forall y e : P -> R, gives (fun q => Fin (y q)) pts yields -> gives (fun q => Fin (e q)) pts eff ->
        some_full pts [locs; scales; yields; eff] ->
        x = Fin (sum_over (fun q => e q * ln (gauss (m q) (s q) (y q)))%R pts).
  Proof.
    intros (cname & cls & file & ps & nt & ae & p' & inst & val & en & ys & eff & L & H1 & H2 & H3 & H4 & H5 & H6 & HL & Hx)
      Ha Hm Hp Hne Gm Gp Hpos.
    exists en, ys, eff. split; [exists cname, cls, file, ps, nt, ae, p', inst, val; auto 10|].
    intros y e Gy Ge Hfull. destruct nothing_renamed as (N1 & N2 & N3).
    pose proof (C78_norm [] "" (fun (k : K) _ _ => Ok (k, [en; ys; eff])) key [] N1 N2 N3 pts m s y e on args L 1 key
                  en ys eff locs scales HL Ha Hm Hp eq_refl Hne Gm Gp Gy Ge Hfull Hpos) as V.
    rewrite Hx in V. injection V as V. exact V.
  Qed.

  (** band *)
  Theorem C88_band tx ty tu tl :
    lit_value E ins lname "band" on names values alias cs p key x key' ->
    get "x" args = Some (fins tx) -> get "y" args = Some (fins ty) ->
    get "yerr_upper" args = Some (fins tu) -> get "yerr_lower" args = Some (fins tl) -> NoDup tx ->
    exists energies yields eff, lit_run E ins lname on alias cs p key energies yields eff key' /\
      forall P (evs : list P) (q y e mu sp sn : P -> R), evs <> [] ->
        gives (fun v => Fin (q v)) evs energies -> gives (fun v => Fin (y v)) evs yields ->
        gives (fun v => Fin (e v)) evs eff -> some_full evs [energies; yields; eff] ->
        (forall v, In v evs -> on_curve (combine tx ty) (q v) (mu v) /\ on_curve (combine tx tu) (q v) (sp v) /\
           on_curve (combine tx tl) (q v) (sn v) /\ 0 < sp v /\ 0 < sn v)%R ->
        x = Fin (sum_over (fun v => e v * ln (two_half (mu v) (sp v) (sn v) (y v)))%R evs).
  Proof.
    intros (cname & cls & file & ps & nt & ae & p' & inst & val & en & ys & eff & L & H1 & H2 & H3 & H4 & H5 & H6 & HL & Hx)
      Gx Gy Gu Gl Hnd.
    exists en, ys, eff. split; [exists cname, cls, file, ps, nt, ae, p', inst, val; auto 10|].
    intros P evs q y e mu sp sn Hne Ge1 Ge2 Ge3 Hfull Hc. destruct nothing_renamed as (N1 & N2 & N3).
    pose proof (C79_value [] "" (fun (k : K) _ _ => Ok (k, [en; ys; eff])) key [] N1 N2 N3 evs q y e mu sp sn on args L 1 key
                  en ys eff tx ty tu tl HL Gx Gy Gu Gl Hnd eq_refl Hne Ge1 Ge2 Ge3 Hfull Hc) as V.
    rewrite Hx in V. injection V as V. exact V.
  Qed.
End Values.

(* ------------------------------------------------------------------ *)
(** * One component *)

Lemma components_lit {K} (E : ModelWhole.env K) lname cs : forall D (L : wlik K) pars needed w w' c' on l,
  has lname D = false -> wl_type L = MLit on l -> List.length (ll_components (wl_llh L)) <= 1 ->
  context_components K E lname cs (mk_context pars (D ++ [(lname, L)]) needed) w = (w', c', Ok tt) ->
  List.length cs + List.length (ll_components (wl_llh L)) <= 1.
Proof.
  induction cs as [|[cname [cls file]] rest IH]; intros D L pars needed w w' c' on l Hh Ht Hl H;
    cbn [context_components] in H; [cbn; lia|].
  destruct (e_classes E cls) as [k|]; [|discriminate H].
  unfold context_component in H. cbn [cx_llhs cx_pars cx_needed] in H. rewrite (get_last _ _ _ Hh) in H.
  unfold add_component, full in H. rewrite Ht in H.
  destruct (ll_components (wl_llh L)) as [|? ?] eqn:El; [|discriminate H]. cbn [has get] in H.
  destruct (construct_component K E lname (m_on (MLit on l)) (m_bins (MLit on l)) cname k file w) as [w2 [[lc sim]|e]];
    [|discriminate H].
  unfold register_component in H. rewrite El in H. cbn [has get set] in H. rewrite set_last in H by exact Hh.
  match type of H with context [mk_wlik ?a ?b ?d] => set (L2 := mk_wlik a b d) in H end.
  assert (Hl2 : List.length (ll_components (wl_llh L2)) <= 1) by (cbn; lia).
  pose proof (IH D L2 _ _ _ _ _ on l Hh eq_refl Hl2 H) as G. cbn in G |- *. lia.
Qed.

Lemma likelihoods_lit {K} (E : ModelWhole.env K) ls : forall (c : context K) w w' c',
  context_likelihoods K E ls c w = (w', c', Ok tt) ->
  forall lname li vt on names values, In (lname, li) ls -> li_type li = TLit vt on names values ->
  List.length (li_components li) <= 1.
Proof.
  induction ls as [|[ln l0] rest IH]; intros c w w' c' H lname li vt on names values Hin Ht; [destruct Hin|].
  cbn [context_likelihoods] in H. unfold context_likelihood in H.
  destruct (has ln (cx_llhs c)) eqn:Hh; [discriminate H|].
  destruct (make_type K E (li_type l0) w) as [w2 [m|e]] eqn:Hm; [|discriminate H].
  rewrite set_new in H by exact Hh.
  match type of H with context [context_components _ _ _ _ ?c0 _] => destruct (context_components K E ln (li_components l0) c0 w2)
    as [[w3 c3] [[]|e]] eqn:Hcs end; [|discriminate H].
  destruct Hin as [Hin|Hin]; [|eapply IH; eassumption].
  injection Hin as -> ->. rewrite Ht in Hm. cbn [make_type] in Hm.
  destruct (new_lit vt on (logpdf_args names values)) as [[L|e]|]; [|discriminate Hm|discriminate Hm].
  injection Hm as _ <-.
  eapply (components_lit E _ _ _ _ _ _ _ _ _ on L Hh) in Hcs; [|reflexivity|cbn; lia].
  cbn in Hcs. lia.
Qed.

(** A literature likelihood with several components is refused. *)
Theorem C88_several_refused {K} (E : ModelWhole.env K) manager ins par w lname li vt on names values :
  In (lname, li) (in_llhs ins) -> li_type li = TLit vt on names values ->
  1 < List.length (li_components li) ->
  exists e, snd (new_context K E manager ins par w) = Err e.
Proof.
  intros Hin Ht Hl. unfold new_context.
  destruct (context_configs K E ins w) as [w1 [u|e]]; [|eexists; reflexivity].
  destruct par as [cfg|e]; [|eexists; reflexivity].
  destruct (update_parameter_config _ cfg) as [[cfg' needed]|e]; [|eexists; reflexivity].
  destruct (manager cfg') as [st|e]; [|eexists; reflexivity].
  destruct (context_likelihoods K E (in_llhs ins) (mk_context st [] needed) w1) as [[w2 c2] [[]|e]] eqn:H;
    [|eexists; reflexivity].
  pose proof (likelihoods_lit E _ _ _ _ _ H lname li vt on names values Hin Ht). lia.
Qed.

(** One without components is accepted, but has no value: with a prior that is finite, log_posterior
    raises. *)
Theorem C88_without_component {K} (E : ModelWhole.env K) manager ins par w w' c fresh pars batch times lname li vt on names values :
  new_context K E manager ins par w = (w', Ok c) ->
  NoDup (keys (in_configs ins)) -> ~ In "url_base" (keys (in_configs ins)) ->
  (forall n li L, In (n, li) (in_llhs ins) -> In (n, L) (cx_llhs c) -> sound_llh E li (wl_type L)) ->
  NoDup (keys (p_values (cx_pars c))) -> NoDup (keys pars) -> times <= 1 ->
  In (lname, li) (in_llhs ins) -> li_type li = TLit vt on names values -> li_components li = [] ->
  forall y prior, snd (context_posterior K E c fresh pars batch times) <> Ok (y, Fin prior).
Proof.
  intros H Hnd Hub Hs Hv Hn Ht Hin Hty Hc y prior Hp.
  destruct (context_posterior K E c fresh pars batch times) as [[st' cs'] r] eqn:Hr. cbn [snd] in Hp. subst r.
  destruct (C82_posterior E _ _ _ _ _ _ _ _ _ _ _ _ _ _ H Hnd Hub Hs Hv Hn Ht Hr) as (_ & _ & xs & key' & Hl & _).
  revert Hin. generalize (fresh 0) as k0. clear - Hl Hty Hc.
  induction Hl as [|n l rest k1 k2 k3 x xs Hx Hl IH]; intros k0 Hin; [destruct Hin|].
  destruct Hin as [Hin|Hin]; [|exact (IH k0 Hin)]. injection Hin as -> ->.
  unfold llh_value in Hx. rewrite Hty, Hc in Hx.
  destruct Hx as (? & ? & ? & ? & ? & ? & ? & ? & ? & ? & ? & ? & ? & Hx & _). discriminate Hx.
Qed.

(** The batch size does not matter. *)
Theorem C88_batch {K} (L : wlik K) on l key b b' p : wl_type L = MLit on l ->
  wl_log_likelihood L key b p = wl_log_likelihood L key b' p.
Proof. intros H. unfold wl_log_likelihood. rewrite H. reflexivity. Qed.

(* ------------------------------------------------------------------ *)
(** * A concrete case *)

(** Two measured points, with yields 3 and 5, errors 1 upwards and 2 downwards. The component gives
    yields f and 2 f for the parameter field, which is named lux_field outside of the likelihood. *)
Definition lEn := mk_plugin "LitEnergy" ["energy"] ["batch_size"] [] [] ["self"; "key"; "parameters"; "batch_size"].
Definition lYi := mk_plugin "LitYield" ["light_yield"; "eff"] ["energy"] ["field"] []
                    ["self"; "key"; "parameters"; "energy"].
Definition l_isem (i : instance) (args : list (sval nat)) : result (list (sval nat)) :=
  match args with
  | [SKey k; SParams p; SBatch 1] => Ok [SKey (S k); SCol [Fin 1; Fin 2]]
  | [SKey k; SParams p; SCol [e1; e2]] =>
      match get "field" p with
      | Some f => Ok [SKey (S k); SCol [fmul e1 f; fmul e2 f]; SCol [Fin 1]]
      | None => Err KeyError
      end
  | _ => Err TypeError
  end.
Definition l_env : ModelWhole.env nat :=
  mk_env w_files (fun _ => Err FileNotFoundError) 20
    (fun n => if String.eqb n "LitEnergy" then Some lEn else if String.eqb n "LitYield" then Some lYi else None)
    (fun n => if String.eqb n "Yield" then Some (ClsSim [lEn; lYi] OnPdf false) else None)
    l_isem (fun _ => Err AttributeError) no_oor no_g1 no_g2 PropParameter.ex_sigmas.
Definition l_names := ["mu"; "sigma_pos"; "sigma_neg"].
Definition l_values := [[Fin 3; Fin 5]; [Fin 1]; [Fin 2]].
Definition l_on := ["energy"; "light_yield"].
Definition l_ins : instruct :=
  mk_instruct None [] [("lux", mk_linstruct (TLit "twohalfnorm" l_on l_names l_values) [("lux_field", "field")] []
                                 [("nr", ("Yield", None))])].
Definition l_par : dict setting := [("lux_field", ex_free1); ("nr_rate", w_fixed 4)].
Definition l_state (x : R) : pstate :=
  mk_pstate l_par ["nr_rate"] ["lux_field"] [("lux_field", Fin x); ("nr_rate", Fin 4)].
Lemma l_manager_ok : w_manager l_par = Ok (l_state 1).
Proof. unfold w_manager, new_parameter. cbn -[fclip]. unfold fclip, fmin, fmax. fl_eval. reflexivity. Qed.

Definition l_lit : lit := mk_lit (DTwoHalf [Fin 3; Fin 5] [Fin 1] [Fin 2]) false.
Definition l_w1 : world := Eval vm_compute in fst (context_configs nat l_env l_ins init_world).
Definition l_reg : registry := Eval vm_compute in fst (register [lEn; lYi] []).
Definition l_built : world * ModelComponent.component * result unit := Eval vm_compute in
  build_component 20 ["energy"; "light_yield"; "eff"] "lux_nr_sim" "batch_size" false w_files (e_plugins l_env)
    (mk_component "nr" "lux" "nr_rate" l_reg false [] [] "" None None None) l_w1.
Definition l_w2 : world := Eval vm_compute in fst (fst l_built).
Definition l_cl : closure := Eval vm_compute in
  match ModelComponent.k_simulate (snd (fst l_built)) with Some cl => cl | None => mk_closure (mk_prog [] [] "" "" "" [] []) [] end.
Definition l_comp : lcomp nat := mk_lcomp ["nr_rate"; "field"]
  (LSim (sim_hist no_oor (mk_cnum "nr_rate" OnPdf false false BUnsupported (Ok None)) (ModelWhole.sim_rows nat l_env l_cl))).
Lemma l_comp_made : construct_component nat l_env "lux" l_on BUnsupported "nr" (ClsSim [lEn; lYi] OnPdf false) None l_w1
  = (l_w2, Ok (l_comp, sim_cols nat l_env l_cl)).
Proof. reflexivity. Qed.
Definition l_llh : wlik nat :=
  mk_wlik (MLit l_on l_lit) (mk_llh [("nr", l_comp)] ["nr_rate"; "lux_field"] [("lux_field", "field")] [])
    [("nr", sim_cols nat l_env l_cl)].
Definition l_context : context nat := mk_context (l_state 1) [("lux", l_llh)] ["nr_rate"; "lux_field"].
Lemma l_context_made : new_context nat l_env w_manager l_ins (Ok l_par) init_world = (l_w2, Ok l_context).
Proof.
  unfold new_context.
  assert (Hc : context_configs nat l_env l_ins init_world = (l_w1, Ok tt)) by reflexivity. rewrite Hc.
  assert (Hp : update_parameter_config
         (map (fun nl => (fst nl, mk_linstr (li_copy (snd nl)) (keys (li_components (snd nl))))) (in_llhs l_ins)) l_par
         = Ok (l_par, [])) by reflexivity.
  rewrite Hp, l_manager_ok. cbn [in_llhs l_ins context_likelihoods].
  unfold context_likelihood. cbn [has get cx_llhs keys mem map existsb li_type make_type].
  change (new_lit "twohalfnorm" l_on (logpdf_args l_names l_values)) with (Some (Ok l_lit)). cbv beta iota.
  cbn [li_components context_components e_classes l_env String.eqb Ascii.eqb Bool.eqb].
  unfold context_component at 1. cbn [cx_llhs get set String.eqb Ascii.eqb Bool.eqb].
  unfold add_component at 1. cbn [has get keys mem existsb map ll_components wl_llh wl_type full m_on m_bins].
  fold l_env. rewrite l_comp_made. reflexivity.
Qed.

Lemma l_value k b : wl_log_likelihood l_llh k b (p_values (l_state 3))
  = Ok (2 + k, Fin (1 * ln (two_half 3 1 2 3) + (1 * ln (two_half 5 1 2 6) + 0))%R).
Proof.
  unfold wl_log_likelihood. cbn [wl_type l_llh wl_sims wl_llh ll_alias].
  assert (Hs : simulates (sim_cols nat l_env l_cl) [("lux_field", "field")] k (p_values (l_state 3)) (2 + k)
            [Fin 1; Fin 2] [fmul (Fin 1) (Fin 3); fmul (Fin 2) (Fin 3)] [Fin 1]) by reflexivity.
  pose proof (C78_twohalf [("lux_field", "field")] "nr" (sim_cols nat l_env l_cl) k (p_values (l_state 3))) as V.
  rewrite !fmul_Fin in Hs.
  assert (N1 : separate [("lux_field", "field")]). { intros z [<-|[]] [H|[]]. discriminate. }
  assert (N2 : NoDup (keys [("lux_field", "field")])) by (repeat constructor; intros []).
  assert (N3 : NoDup (keys (p_values (l_state 3)))).
  { repeat constructor; intros H; repeat (destruct H as [H|H]; [discriminate|]); destruct H. }
  specialize (V N1 N2 N3 R [1; 2]%R (fun q => 2 * q + 1)%R (fun _ => 1%R) (fun _ => 2%R) (fun q => q * 3)%R (fun _ => 1%R)
                l_on (logpdf_args l_names l_values) l_lit b (2 + k) [Fin 1; Fin 2] [Fin (1 * 3)%R; Fin (2 * 3)%R] [Fin 1]
                [Fin 3; Fin 5] [Fin 1] [Fin 2] eq_refl).
  assert (A1 : at_most ["mu"; "sigma_pos"; "sigma_neg"] (logpdf_args l_names l_values)).
  { intros z Hz. exact Hz. }
  assert (G : forall a b c d, a = b -> c = d -> [Fin a; Fin c] = [Fin b; Fin d]) by (intros; subst; reflexivity).
  rewrite V; try assumption; clear V.
  - unfold sum_over. cbn [map fold_right].
    replace (2 * 1 + 1)%R with 3%R by lra. replace (2 * 2 + 1)%R with 5%R by lra.
    replace (1 * 3)%R with 3%R by lra. replace (2 * 3)%R with 6%R by lra. reflexivity.
  - left. reflexivity.
  - left. reflexivity.
  - left. reflexivity.
  - discriminate.
  - left. cbn [map]. apply G; lra.
  - right. eexists. split; [reflexivity|]. reflexivity.
  - right. eexists. split; [reflexivity|]. reflexivity.
  - left. reflexivity.
  - right. eexists. split; [reflexivity|]. reflexivity.
  - exists [Fin 3; Fin 5]. split; [left; reflexivity|reflexivity].
  - intros; lra.
Qed.

Lemma l_prior : log_prior (e_sigmas l_env) (l_state 3) = Ok (Fin 0).
Proof.
  unfold log_prior. cbn -[flt fadd].
  replace (flt (Fin 3) (Fin 0)) with false by (symmetry; apply flt_Fin_false; lra).
  replace (flt (Fin 10) (Fin 3)) with false by (symmetry; apply flt_Fin_false; lra).
  cbn -[flt fadd]. rewrite fadd_Fin. f_equal. f_equal. lra.
Qed.

(** The value by hand: the yields are 3 and 6, the first point is met, the second is exceeded by one
    standard deviation. *)
Example C88_case : exists w' c st' cs,
  new_context nat l_env w_manager l_ins (Ok l_par) init_world = (w', Ok c) /\
  NoDup (keys (in_configs l_ins)) /\ ~ In "url_base" (keys (in_configs l_ins)) /\
  (forall n li L, In (n, li) (in_llhs l_ins) -> In (n, L) (cx_llhs c) -> sound_llh l_env li (wl_type L)) /\
  NoDup (keys (p_values (cx_pars c))) /\
  context_posterior nat l_env c (fun i => i) [("lux_field", Fin 3)] 7 1
    = (st', cs, Ok (Fin (ln (two_half 3 1 2 3) + ln (two_half 5 1 2 6))%R, Fin 0)).
Proof.
  exists l_w2, l_context, (l_state 3), [mk_call "lux" 0 7 (p_values (l_state 3))]. split; [exact l_context_made|].
  split; [constructor|]. split; [intros []|]. split; [|split].
  - intros n li L [H|[]] [H'|[]]. injection H as <- <-. injection H' as <-.
    split; [exact I|]. split; [intros [H|[H|[]]]; discriminate|].
    split; [repeat constructor; intros []|]. split.
    { intros k [<-|[]] [H|[]]. discriminate. }
    intros cname cls file ps nt ae Hin Hk.
    assert (Hps : ps = [lEn; lYi]).
    { destruct Hin as [Hin|[]]; injection Hin as <- <- <-. injection Hk as <- <- <-. reflexivity. }
    subst ps. assert (Hr : forall d p, get d l_reg = Some p ->
                (d = "energy" /\ p = lEn) \/ (d = "light_yield" /\ p = lYi) \/ (d = "eff" /\ p = lYi)).
    { intros d p H. apply get_In in H. destruct H as [H|[H|[H|[]]]]; injection H as <- <-; auto. }
    change (registry_after [[lEn; lYi]]) with l_reg. split.
    { intros d p d' q Hp Hq Hn. apply Hr in Hp, Hq.
      destruct Hp as [[-> ->]|[[-> ->]|[-> ->]]], Hq as [[-> ->]|[[-> ->]|[-> ->]]]; reflexivity || discriminate. }
    intros d p _ Hp. apply Hr in Hp.
    destruct Hp as [[-> ->]|[[-> ->]|[-> ->]]];
      (split; [repeat constructor; intros Hi; repeat (destruct Hi as [Hi|Hi]; [discriminate Hi|]); destruct Hi|]);
      intros x Hx; repeat (destruct Hx as [<-|Hx]; [(split; [reflexivity|]); (split; [discriminate|]); split; discriminate|]);
      destruct Hx.
  - repeat constructor; intros H; repeat (destruct H as [H|H]; [discriminate|]); destruct H.
  - unfold context_posterior, log_posterior. rewrite posterior_state by (intros n [<-|[]]; left; reflexivity).
    change (with_values (cx_pars l_context) (ModelParameter.assign (keys [("lux_field", Fin 3)]) (map snd [("lux_field", Fin 3)])
             (p_values (cx_pars l_context)))) with (l_state 3).
    rewrite l_prior. cbn [is_fin negb Nat.ltb Nat.leb]. cbn [posterior_once llh_loop map fst snd cx_llhs l_context].
    unfold posterior_once. cbn [llh_loop].
    rewrite l_value. cbn -[fadd Rplus Rminus p_values two_half Rmult]. rewrite !fadd_Fin.
    do 3 f_equal. f_equal. lra.
Qed.

(** Two components: refused. *)
Example C88_several_case :
  snd (new_context nat l_env w_manager
         (mk_instruct None [] [("lux", mk_linstruct (TLit "twohalfnorm" l_on l_names l_values) [("lux_field", "field")] []
                                 [("nr", ("Yield", None)); ("er", ("Yield", None))])])
         (Ok (l_par ++ [("er_rate", w_fixed 4)])) init_world) = Err AssertionError.
Proof.
  unfold new_context.
  match goal with |- context [context_configs nat l_env ?i init_world] =>
    assert (Hc : context_configs nat l_env i init_world = (l_w1, Ok tt)) by reflexivity end. rewrite Hc.
  match goal with |- context [update_parameter_config ?a ?b] =>
    assert (Hp : update_parameter_config a b = Ok (b, [])) by reflexivity end.
  rewrite Hp. clear Hp.
  assert (Hm : w_manager (l_par ++ [("er_rate", w_fixed 4)]) = Ok (mk_pstate (l_par ++ [("er_rate", w_fixed 4)]) ["nr_rate"; "er_rate"] ["lux_field"] [("lux_field", Fin 1); ("nr_rate", Fin 4); ("er_rate", Fin 4)])).
  { unfold w_manager, new_parameter. cbn -[fclip]. unfold fclip, fmin, fmax. fl_eval. reflexivity. }
  rewrite Hm. cbn [in_llhs context_likelihoods].
  unfold context_likelihood. cbn [has get cx_llhs keys mem map existsb li_type make_type].
  change (new_lit "twohalfnorm" l_on (logpdf_args l_names l_values)) with (Some (Ok l_lit)). cbv beta iota.
  cbn [li_components context_components e_classes l_env String.eqb Ascii.eqb Bool.eqb].
  unfold context_component at 1. cbn [cx_llhs get set String.eqb Ascii.eqb Bool.eqb].
  unfold add_component at 1. cbn [has get keys mem existsb map ll_components wl_llh wl_type full m_on m_bins].
  fold l_env. rewrite l_comp_made. reflexivity.
Qed.

Print Assumptions C88_args.
Print Assumptions C88_twohalf.
Print Assumptions C88_norm.
Print Assumptions C88_band.
Print Assumptions C88_several_refused.
Print Assumptions C88_without_component.
Print Assumptions C88_batch.
