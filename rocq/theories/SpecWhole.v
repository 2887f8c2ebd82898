(** Vocabulary for the properties of a whole context (C82, C83). No proofs.
    It describes the value of the posterior from the instruction: the plugins of a component are
    equations for the data names, their solution gives events, events give histograms, histograms
    give Poisson sums. *)
From Coq Require Import Reals.
From Verif Require Import Base ModelFloat ModelHist ModelShare ModelConfig ModelComponent ModelCompile
  ModelParameter ModelLikelihood ModelBinning ModelLit ModelContext ModelWhole
  SpecHist SpecLikelihood SpecComponent SpecConfig SpecCompile SpecWeighted SpecBinning.
Local Open Scope string_scope.
Local Open Scope list_scope.

(** The parameters after renaming: an alias is gone, its target has the value it had. *)
Definition renamed (alias : dict string) (p p' : params) : Prop :=
  forall n, get n p' = if mem n (keys alias) then None
                       else match alias_value alias p n with Some x => Some x | None => get n p end.

(** What the instruction asks for: one value for everybody, or an entry for this likelihood. Only
    values that are stored as they are (numbers, booleans, lists). *)
Definition asked (ins : instruct) (n lname : string) (v : value) : Prop :=
  is_plain v = true /\
  (get n (in_configs ins) = Some v \/
   exists d, get n (in_configs ins) = Some (VDict d) /\ NoDup (keys d) /\ get lname d = Some v).

(** The constants of an instance of a plugin are those of the instruction. *)
Definition configured (ins : instruct) (lname : string) (i : instance) : Prop :=
  forall cf vs v, plain_kind (c_kind cf) -> constructed cf -> config_value i cf vs ->
    asked ins (ModelConfig.c_name cf) lname v -> exists v', vs = [v'] /\ value_eqb v v' = true.

Section Whole.
  Context {K : Type}.
  Variable E : env K.
  Variable ins : instruct.

  (** The file found for a name. With an absolute url_base that exists, this is the base used. *)
  Definition file_at (fname path : string) : Prop :=
    exists base, first_found (candidates (e_fs E) base fname) = Some path /\
      forall u, in_url ins = Some u -> starts_with_slash u = true -> path_exists (e_fs E) u = true ->
        base = Some u.

  (** The plugins are called in the order of the list, the random key being threaded from one to
      the next: each maps the values of what it depends on to the values of what it provides.
      [inst] gives the instance of each plugin; it belongs to this likelihood, and its constants
      are those of the instruction. *)
  Definition own_instance (lname : string) (q : plugin) (i : instance) : Prop :=
    e_plugins E (p_name q) = Some (i_class i) /\ i_llh i = Some lname /\ configured ins lname i.

  Inductive calls (lname : string) (p : params) (inst : string -> option instance)
      (val : string -> option (sval K)) : sval K -> list plugin -> sval K -> Prop :=
  | calls_nil key : calls lname p inst val key [] key
  | calls_cons key key1 key2 q qs i argv vs :
      inst (p_name q) = Some i -> own_instance lname q i ->
      map val (p_depends q) = map Some argv ->
      e_isem E i (key :: SParams p :: argv) = Ok (key1 :: vs) ->
      map val (p_provides q) = map Some vs ->
      calls lname p inst val key1 qs key2 ->
      calls lname p inst val key (q :: qs) key2.

  (** A run of the workflow for the observables [on]: [val] are the values of the data names. The
      plugins called are exactly those needed, each once. *)
  Definition graph_run (lname : string) (ps : list plugin) (on : list string) (batch : nat)
      (p : params) (inst : string -> option instance) (val : string -> option (sval K))
      (key key' : K) : Prop :=
    exists order,
      NoDup (map p_name order) /\
      (forall q, In q order <->
         exists d, Reach (registry_after [ps]) "batch_size" (on ++ ["eff"]) d /\
                   get d (registry_after [ps]) = Some q) /\
      val "batch_size" = Some (SBatch batch) /\
      calls lname p inst val (SKey key) order (SKey key').

  (** The events: the i-th one has the i-th entries of the observables, and the i-th entry of the
      efficiency as weight. *)
  Definition events_of (val : string -> option (sval K)) (on : list string)
      (evs : list (list fl * fl)) : Prop :=
    exists cols eff,
      map val on = map (fun c => Some (SCol c)) cols /\ val "eff" = Some (SCol eff) /\
      (forall c, In c cols -> List.length c = List.length eff) /\
      evs = map (fun i => (map (fun c => nth i c NaN) cols, nth i eff NaN)) (seq 0 (List.length eff)).

  (** The histogram of weighted events, with the floor if asked for. *)
  Definition event_hist (b : binning) (add_eps : bool) (evs : list (list fl * fl)) : list fl :=
    let h := binned b evs in
    if add_eps then map (fun x => fmax x (fadd (Fin eps) (fmean (map snd evs)))) h else h.

  (** The number of simulated events: the batch size, or what a bootstrapped input (a class with
      "Bootstrap" in its name) has selected. *)
  Definition simulated (ps : list plugin) (inst : string -> option instance) (batch : nat) (n : fl) : Prop :=
    exists q, get "energy" (registry_after [ps]) = Some q /\
      (((exists a c, p_name q = (a ++ "Bootstrap" ++ c)%string) /\
        exists i, inst (p_name q) = Some i /\ e_selected E i = Ok n) \/
       ((forall a c, p_name q <> (a ++ "Bootstrap" ++ c)%string) /\ n = Fin (INR batch))).

  (** The histogram of one component of a likelihood, from the parameters [p] and the key [key];
      [key'] is the key afterwards. *)
  Inductive comp_hist (lname : string) (on : list string) (b : binning) (batch : nat) (p : params)
      (cname : string) : comp_class -> option string -> K -> list fl -> K -> Prop :=
  | ch_sim ps nt add_eps file key key' inst val evs rate n :
      graph_run lname ps on batch p inst val key key' -> events_of val on evs ->
      get (cname ++ "_rate")%string p = Some rate ->
      (nt = OnPdf /\ n = fsum (event_hist b add_eps evs)) \/ (nt = OnSim /\ simulated ps inst batch n) ->
      comp_hist lname on b batch p cname (ClsSim ps nt add_eps) file key
        (map (fun x => fmul x (fmul (fdiv (Fin 1) n) rate)) (event_hist b add_eps evs)) key'
  | ch_fixed add_eps fname key path t sel evs rate :
      file_at fname path -> e_read E path = Ok t -> (forall r, Forall2 (value_in t r) on (sel r)) ->
      evs = map (fun r => (sel r, Fin 1)) (t_rows t) ->
      get (cname ++ "_rate")%string p = Some rate ->
      comp_hist lname on b batch p cname (ClsFixed OnPdf add_eps) (Some fname) key
        (map (fun x => fmul x (fmul (fdiv (Fin 1) (fsum (event_hist b add_eps evs))) rate))
             (event_hist b add_eps evs)) key.

  (** The components in the order of the instruction, each starting from the key of the previous
      one. *)
  Inductive comp_hists (lname : string) (on : list string) (b : binning) (batch : nat) (p : params)
      : dict (string * option string) -> K -> list (list fl) -> K -> Prop :=
  | chs_nil key : comp_hists lname on b batch p [] key [] key
  | chs_cons cname cls file k rest key key1 key2 h hs :
      e_classes E cls = Some k -> comp_hist lname on b batch p cname k file key h key1 ->
      comp_hists lname on b batch p rest key1 hs key2 ->
      comp_hists lname on b batch p ((cname, (cls, file)) :: rest) key (h :: hs) key2.

  (** The logarithm of the likelihood of [data] for a model histogram [m]. *)
  Definition poisson_of (data : list R) (m : list fl) (x : fl) : Prop :=
    ((exists y, In y m /\ ~ good_bin y) /\ x = NInf) \/
    (exists ms, m = map Fin ms /\ (forall r, In r ms -> 0 < r)%R /\
       List.length ms = List.length data /\ x = Fin (poisson_R data ms)).

  (** The value of a likelihood of the default type: the data are the wanted columns of the events
      of the file inside of the clip, the model is the sum of the histograms of the components. [lk]
      is the likelihood as constructed from the config (C80, C81). *)
  Definition default_value (lname : string) (cfg : lconfig) (file : string) (alias : dict string)
      (cs : dict (string * option string)) (batch : nat) (p : params) (key : K) (x : fl) (key' : K) : Prop :=
    exists lk path t sel data p' hs m,
      file_at file path /\ e_read E path = Ok t /\
      new_likelihood (e_row E) (e_gof_1d E) (e_gof_2d E) cfg (Ok t) = Ok lk /\
      (forall r, Forall2 (value_in t r) (k_on lk) (sel r)) /\
      keep (fun r => in_clip cfg (sel r)) sel (t_rows t) data /\
      renamed alias p p' /\
      comp_hists lname (k_on lk) (k_bins lk) batch p' cs key hs key' /\
      List.length m = List.length (bins_of (k_bins lk)) /\
      (forall i, i < List.length m -> entry m i = fsum (map (fun h => entry h i) hs)) /\
      poisson_of (map (fun P => INR (List.length (filter P data))) (bins_of (k_bins lk))) m x.

  (** The value of a literature likelihood: its component is run for one event, and the measured
      points are compared with the energies and yields it gives. [L] is the likelihood as constructed
      from the config; C78 and C79 say what it makes of energies, yields and efficiencies. *)
  Definition lit_value (lname vt : string) (on names : list string) (values : list (list fl))
      (alias : dict string) (cs : dict (string * option string)) (p : params) (key : K) (x : fl) (key' : K) : Prop :=
    exists cname cls file ps nt add_eps p' inst val energies yields eff L,
      cs = [(cname, (cls, file))] /\ e_classes E cls = Some (ClsSim ps nt add_eps) /\
      renamed alias p p' /\ graph_run lname ps on 1 p' inst val key key' /\
      map val on = [Some (SCol energies); Some (SCol yields)] /\ val "eff" = Some (SCol eff) /\
      new_lit vt on (logpdf_args names values) = Some (Ok L) /\
      forall name k b q, lit_log_likelihood L [] [(name, fun k _ _ => Ok (k, [energies; yields; eff]))] k b q
        = Ok (k : K, x).

  Definition llh_value (lname : string) (li : linstruct) (batch : nat) (p : params) (key : K)
      (x : fl) (key' : K) : Prop :=
    match li_type li with
    | TDefault cfg file => default_value lname cfg file (li_alias li) (li_components li) batch p key x key'
    | TLit vt on names values => lit_value lname vt on names values (li_alias li) (li_components li) p key x key'
    end.

  (** All likelihoods in the order of the instruction. *)
  Inductive llh_values (batch : nat) (p : params) : dict linstruct -> K -> list fl -> K -> Prop :=
  | lv_nil key : llh_values batch p [] key [] key
  | lv_cons lname li rest key key1 key2 x xs :
      llh_value lname li batch p key x key1 -> llh_values batch p rest key1 xs key2 ->
      llh_values batch p ((lname, li) :: rest) key (x :: xs) key2.

  (** What is asked of a likelihood: sensible bins, aliases without chains, and component classes
      with unambiguous plugins. *)
  Definition sound_llh (li : linstruct) (m : mtype) : Prop :=
    match m with MDefault lk => binning_ok (k_bins lk) | MLit _ _ => True end /\
    ~ In "eff" (m_on m) /\
    NoDup (keys (li_alias li)) /\ separate (li_alias li) /\
    forall cname cls file ps nt add_eps, In (cname, (cls, file)) (li_components li) ->
      e_classes E cls = Some (ClsSim ps nt add_eps) ->
      unique_names (registry_after [ps]) /\
      consistent (registry_after [ps]) "batch_size" (m_on m ++ ["eff"]).
End Whole.

(** An entry of "components" whose class is simulated. *)
Definition is_sim {K} (E : env K) (c : string * (string * option string)) : Prop :=
  exists ps nt add_eps, e_classes E (fst (snd c)) = Some (ClsSim ps nt add_eps).

(** Two states of the process agree in the configs and in the likelihood names in use. *)
Definition alike (w w' : world) : Prop :=
  w_cache w = w_cache w' /\ forall n, has n (w_fn w) = has n (w_fn w').
