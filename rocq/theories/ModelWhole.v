(** Model of a whole context: its construction from an instruction (appletree/context.py:26-134),
    with the likelihoods (likelihood.py) and compiled components (component.py) it makes, and its
    log_posterior. No proofs in this file.
    The types of likelihoods are "Likelihood" (the default) and "LikelihoodLit". Reading the
    instruction and par_config from JSON files is not modelled: their contents are given. *)
From Coq Require Import Reals.
From Verif Require Import Base ModelFloat ModelHist ModelShare ModelConfig ModelComponent ModelCompile
  ModelParameter ModelLikelihood ModelBinning ModelLit ModelContext.
Local Open Scope string_scope.
Local Open Scope list_scope.

(** A value inside of a simulation: a random key, the batch size, the parameters, or an array with
    one entry for each event. *)
Inductive sval (K : Type) :=
| SKey (k : K)
| SBatch (n : nat)
| SParams (p : params)
| SCol (l : list fl).
Arguments SKey {K} _.
Arguments SBatch {K} _.
Arguments SParams {K} _.
Arguments SCol {K} _.

(** A class in appletree.components: the plugins its __init__ registers, norm_type and
    add_eps_to_hist (component.py:27-32, components/er.py:8-19). [ClsOther] has neither
    ComponentSim nor ComponentFixed as a base. *)
Inductive comp_class :=
| ClsSim (plugins : list plugin) (nt : norm_type) (add_eps : bool)
| ClsFixed (nt : norm_type) (add_eps : bool)
| ClsOther.

(** What an entry of "likelihoods" holds for its type (context.py:111-117): the config of a
    Likelihood and its data_file_name (likelihood.py:49-100), or variable_type, bins_on and
    logpdf_args of a LikelihoodLit (likelihood.py:470-506). *)
Inductive ltype :=
| TDefault (cfg : lconfig) (file : string)
| TLit (variable_type : string) (on : list string) (names : list string) (values : list (list fl)).

(** One entry of "likelihoods" in the instruction. A component is given by its class and possibly a
    file (context.py:90-101). *)
Record linstruct := mk_linstruct {
  li_type : ltype;
  li_alias : dict string;                         (* parameter_alias *)
  li_copy : dict string;                          (* copy_parameters *)
  li_components : dict (string * option string)
}.

(** The instruction, as far as it is read by Context.__init__. *)
Record instruct := mk_instruct {
  in_url : option string;                         (* url_base *)
  in_configs : dict value;                        (* configs *)
  in_llhs : dict linstruct                        (* likelihoods *)
}.

Section Whole.
  Variable K : Type.

  (** What the context finds outside of the modelled code. *)
  Record env := mk_env {
    e_fs : fs;                                    (* files, for get_file_path *)
    e_read : string -> result table;              (* pandas reading a file, utils.py:108-114 *)
    e_limit : nat;                                (* Python's recursion limit *)
    e_plugins : string -> option plugin;          (* appletree.plugins *)
    e_classes : string -> option comp_class;      (* appletree.components *)
    e_isem : instance -> list (sval K) -> result (list (sval K));   (* calling a plugin *)
    e_selected : instance -> result fl;           (* <instance>.g4.n_events_selected *)
    e_row : list (list fl) -> nat -> list fl;     (* row lookup out of range, see ModelHist *)
    e_gof_1d : list fl -> Z -> result (list fl);
    e_gof_2d : list (list fl) -> list Z -> result (list fl * list (list fl));
    e_sigmas : fl -> fl -> result (fl * fl)
  }.
  Variable E : env.

  (** utils.py:101-116 load_data *)
  Definition load_data (fname : string) (w : world) : world * result table :=
    let '(c, r) := get_file_path (e_fs E) fname (w_cache w) in
    (with_cache w c, match r with Ok path => e_read E path | Err e => Err e end).

  (** The arrays returned by the compiled function; anything else is not an array. *)
  Fixpoint arrays (vs : list (sval K)) : result (list (list fl)) :=
    match vs with
    | [] => Ok []
    | SCol c :: vs' => match arrays vs' with Ok cs => Ok (c :: cs) | Err e => Err e end
    | _ :: _ => Err TypeError
    end.

  (** component.py:449-455 [jnp.asarray(result[:-1]).T] and the efficiencies: the columns as rows.
      Columns of different lengths are a ValueError. *)
  Definition rows_of (cols : list (list fl)) : result (list (list fl)) :=
    match cols with
    | [] => Ok []
    | c :: _ =>
        if forallb (fun c' => Nat.eqb (List.length c') (List.length c)) cols
        then Ok (map (fun i => map (fun c' => nth i c' NaN) cols) (seq 0 (List.length c)))
        else Err ValueError
    end.

  (** The compiled function of a component as simulate_hist uses it (component.py:449). *)
  Definition sim_rows (cl : closure) (k : K) (batch : nat) (p : params) : result (K * list (list fl)) :=
    match run_closure (sval K) (e_isem E) cl (SKey k) (SBatch batch) (SParams p) with
    | Err e => Err e
    | Ok (SKey k', outs) =>
        match arrays outs with
        | Err e => Err e
        | Ok cols => match rows_of cols with Ok rows => Ok (k', rows) | Err e => Err e end
        end
    | Ok _ => Err TypeError
    end.

  (** The compiled function of a component as a LikelihoodLit uses it (likelihood.py:527-530); a
      column that is not an array is left out of the model (TypeError). *)
  Definition sim_cols (cl : closure) : simulate_fun K := fun k batch p =>
    match run_closure (sval K) (e_isem E) cl (SKey k) (SBatch batch) (SParams p) with
    | Err e => Err e
    | Ok (SKey k', outs) => match arrays outs with Ok cols => Ok (k', cols) | Err e => Err e end
    | Ok _ => Err TypeError
    end.

  (** [s in name] for strings. *)
  Definition contains (s name : string) : bool :=
    match String.index 0 s name with Some _ => true | None => false end.

  (** component.py:81-83 _use_mcinput and 166-171: the number of selected events of a bootstrap
      input. Simplified: the instance is looked up when the component is compiled (the code looks
      it up in _cached_functions at every simulation, which fails after clear_cache). *)
  Definition find_mcinput (reg : registry) (name : string) (cl : closure) : result (option fl) :=
    match get "energy" reg with
    | None => Err KeyError
    | Some p =>
        if contains "Bootstrap" (p_name p) then
          match get (p_name p ++ "_" ++ name)%string (cl_insts cl) with
          | None => Err KeyError
          | Some i => match e_selected E i with Ok n => Ok (Some n) | Err e => Err e end
          end
        else Ok None
    end.

  (** likelihood.py:239-269: creating, deducing and compiling a component of class [cls] for a
      likelihood named [lname] with observables [on] and bins [b]. Also its simulate method; the one
      of ComponentFixed takes no arguments (component.py:617-619). *)
  Definition construct_component (lname : string) (on : list string) (b : binning) (cname : string)
      (cls : comp_class) (file : option string) (w : world) : world * result (lcomp K * simulate_fun K) :=
    let rate := (cname ++ "_rate")%string in
    match cls with
    | ClsSim ps nt eps =>
        let '(reg, r) := register ps [] in
        match r with
        | Err e => (w, Err e)
        | Ok _ =>
            let k := mk_component cname lname rate reg false [] [] "" None None None in
            let '(w', k', r') :=
              build_component (e_limit E) (on ++ ["eff"]) (lname ++ "_" ++ cname ++ "_sim")%string
                "batch_size" false (e_fs E) (e_plugins E) k w in
            (w', match r' with
                 | Err e => Err e
                 | Ok _ =>
                     match k_simulate k' with
                     | None => Err AttributeError
                     | Some cl =>
                         Ok (mk_lcomp (k_needed k')
                               (LSim (sim_hist (e_row E)
                                        (mk_cnum rate nt eps (k_noeff k') b (find_mcinput reg cname cl))
                                        (sim_rows cl))),
                             sim_cols cl)
                     end
                 end)
        end
    | ClsFixed nt eps =>
        match file with
        | None | Some EmptyString => (w, Err ValueError)
        | Some fname =>
            let '(w', r) := load_data fname w in
            (w', match r with
                 | Err e => Err e
                 | Ok t =>
                     match positions on (t_columns t) with
                     | Err e => Err e
                     | Ok is =>
                         let data := map (select is) (t_rows t) in
                         let c := mk_cnum rate nt eps false b (Err AttributeError) in
                         match fixed_deduce (e_row E) c data with
                         | Err e => Err e
                         | Ok _ => Ok (mk_lcomp [rate] (LFixed (fixed_hist (e_row E) c data)),
                                       fun _ _ _ => Err TypeError)
                         end
                     end
                 end)
        end
    | ClsOther => (w, Err NotImplementedError)
    end.

  (** What __init__ made of the config of a likelihood. *)
  Inductive mtype :=
  | MDefault (lk : likelihood)
  | MLit (on : list string) (L : lit).

  (** _bins_on, and _bins with component_bins_type, which are None for a LikelihoodLit. *)
  Definition m_on (m : mtype) : list string := match m with MDefault lk => k_on lk | MLit on _ => on end.
  Definition m_bins (m : mtype) : binning := match m with MDefault lk => k_bins lk | MLit _ _ => BUnsupported end.

  (** A likelihood of a context: what __init__ made of its config, its components, and their
      simulate methods. *)
  Record wlik := mk_wlik { wl_type : mtype; wl_llh : llh K; wl_sims : dict (simulate_fun K) }.

  (** likelihood.py:533-534: the only component of a LikelihoodLit is there. *)
  Definition full (L : wlik) : bool :=
    match wl_type L, ll_components (wl_llh L) with MLit _ _, _ :: _ => true | _, _ => false end.

  (** likelihood.py:239-279, 532-537 register_component: the name is checked first, so that a
      repeated name compiles nothing. *)
  Definition add_component (lname cname : string) (cls : comp_class) (file : option string)
      (L : wlik) (w : world) : world * wlik * result unit :=
    if full L then (w, L, Err AssertionError)
    else if has cname (ll_components (wl_llh L)) then (w, L, Err ValueError)
    else
      let '(w', r) := construct_component lname (m_on (wl_type L)) (m_bins (wl_type L)) cname cls file w in
      match r with
      | Err e => (w', L, Err e)
      | Ok (c, sim) =>
          let '(l', r') := register_component cname (Ok c) (wl_llh L) in
          (w', mk_wlik (wl_type L) l' (set cname sim (wl_sims L)), r')
      end.

  (** A context: parameter manager, likelihoods, needed_parameters. *)
  Record context := mk_context {
    cx_pars : pstate;
    cx_llhs : dict wlik;
    cx_needed : list string
  }.

  (** context.py:119-134 register_component *)
  Definition context_component (lname cname : string) (cls : comp_class) (file : option string)
      (c : context) (w : world) : world * context * result unit :=
    match get lname (cx_llhs c) with
    | None => (w, c, Err KeyError)
    | Some L =>
        let '(w', L', r) := add_component lname cname cls file L w in
        match r with
        | Err e => (w', mk_context (cx_pars c) (set lname L' (cx_llhs c)) (cx_needed c), Err e)
        | Ok _ =>
            (w', mk_context (cx_pars c) (set lname L' (cx_llhs c))
                   (union (cx_needed c) (ll_needed (wl_llh L'))), Ok tt)
        end
    end.

  (** context.py:88-101: the components of one likelihood; an unknown class is an
      AttributeError. *)
  Fixpoint context_components (lname : string) (cs : dict (string * option string)) (c : context)
      (w : world) : world * context * result unit :=
    match cs with
    | [] => (w, c, Ok tt)
    | (cname, (cls, file)) :: rest =>
        match e_classes E cls with
        | None => (w, c, Err AttributeError)
        | Some k =>
            let '(w', c', r) := context_component lname cname k file c w in
            match r with
            | Err e => (w', c', Err e)
            | Ok _ => context_components lname rest c' w'
            end
        end
    end.

  (** likelihood.py:49-100 and 470-513: the constructors. Only a Likelihood reads a file. A
      BandTwoHalfNorm outside of ModelLit.v (an empty table, entries that are not finite) counts as
      not constructed. *)
  Definition make_type (t : ltype) (w : world) : world * result mtype :=
    match t with
    | TDefault cfg file =>
        let '(w', d) := load_data file w in
        (w', match new_likelihood (e_row E) (e_gof_1d E) (e_gof_2d E) cfg d with
             | Ok lk => Ok (MDefault lk)
             | Err e => Err e
             end)
    | TLit vt on names values =>
        (w, match new_lit vt on (logpdf_args names values) with
            | Some (Ok L) => Ok (MLit on L)
            | Some (Err e) => Err e
            | None => Err ValueError
            end)
    end.

  (** The data_hist attribute; a LikelihoodLit has none. *)
  Definition m_hist (m : mtype) : list fl := match m with MDefault lk => k_hist lk | MLit _ _ => [] end.

  (** context.py:103-117 register_likelihood *)
  Definition context_likelihood (lname : string) (li : linstruct) (c : context) (w : world)
      : world * context * result unit :=
    if has lname (cx_llhs c) then (w, c, Err ValueError)
    else
      let '(w', r) := make_type (li_type li) w in
      match r with
      | Err e => (w', c, Err e)
      | Ok m =>
          (w', mk_context (cx_pars c)
                 (set lname (mk_wlik m (mk_llh [] [] (li_alias li) (m_hist m)) []) (cx_llhs c))
                 (cx_needed c), Ok tt)
      end.

  (** context.py:77-101 register_all_likelihood *)
  Fixpoint context_likelihoods (ls : dict linstruct) (c : context) (w : world)
      : world * context * result unit :=
    match ls with
    | [] => (w, c, Ok tt)
    | (lname, li) :: rest =>
        let '(w1, c1, r1) := context_likelihood lname li c w in
        match r1 with
        | Err e => (w1, c1, Err e)
        | Ok _ =>
            let '(w2, c2, r2) := context_components lname (li_components li) c1 w1 in
            match r2 with
            | Err e => (w2, c2, Err e)
            | Ok _ => context_likelihoods rest c2 w2
            end
        end
    end.

  (** context.py:26-57 Context.__init__ up to and including the configs (lines 36-42). *)
  Definition context_configs (ins : instruct) (w : world) : world * result unit :=
    let '(w1, r1) := match in_url ins with
                     | None => (w, Ok tt)
                     | Some u => set_config (e_fs E) [("url_base", VStr u)] w
                     end in
    match r1 with
    | Err e => (w1, Err e)
    | Ok _ => set_config (e_fs E) (in_configs ins) w1
    end.

  (** context.py:26-57 Context.__init__: [par] is the parameter configuration (given or read from
      its file), [manager] makes the parameter manager from it (parameter.py:13-32). *)
  Definition new_context (manager : dict setting -> result pstate) (ins : instruct)
      (par : result (dict setting)) (w : world) : world * result context :=
    let '(w1, r1) := context_configs ins w in
    match r1 with
    | Err e => (w1, Err e)
    | Ok _ =>
        match par with
        | Err e => (w1, Err e)
        | Ok cfg =>
            match update_parameter_config
                    (map (fun nl => (fst nl, mk_linstr (li_copy (snd nl)) (keys (li_components (snd nl)))))
                       (in_llhs ins)) cfg with
            | Err e => (w1, Err e)
            | Ok (cfg', needed) =>
                match manager cfg' with
                | Err e => (w1, Err e)
                | Ok st =>
                    let '(w2, c, r) := context_likelihoods (in_llhs ins) (mk_context st [] needed) w1 in
                    (w2, match r with Ok _ => Ok c | Err e => Err e end)
                end
            end
        end
    end.

  (** likelihood.py:341-375, 539-562 get_log_likelihood of either type. *)
  Definition wl_log_likelihood (L : wlik) : llh_fun K :=
    match wl_type L with
    | MDefault _ => get_log_likelihood (wl_llh L)
    | MLit _ l => lit_log_likelihood l (ll_alias (wl_llh L)) (wl_sims L)
    end.

  (** context.py:163-199 log_posterior of a context. *)
  Definition context_posterior (c : context) (fresh : nat -> K) (pars : dict fl) (batch times : nat)
      : pstate * list (call K) * result (fl * fl) :=
    log_posterior K (e_sigmas E)
      (map (fun nl => (fst nl, wl_log_likelihood (snd nl))) (cx_llhs c))
      fresh (cx_pars c) pars batch times.
End Whole.
Arguments mk_env {K} _ _ _ _ _ _ _ _ _ _ _.
Arguments e_fs {K} _.
Arguments e_read {K} _ _.
Arguments e_limit {K} _.
Arguments e_plugins {K} _ _.
Arguments e_classes {K} _ _.
Arguments e_isem {K} _ _ _.
Arguments e_selected {K} _ _.
Arguments e_row {K} _ _ _.
Arguments e_gof_1d {K} _ _ _.
Arguments e_gof_2d {K} _ _ _.
Arguments e_sigmas {K} _ _ _.
Arguments mk_wlik {K} _ _ _.
Arguments wl_type {K} _.
Arguments wl_llh {K} _.
Arguments wl_sims {K} _.
Arguments full {K} _.
Arguments wl_log_likelihood {K} _.
Arguments mk_context {K} _ _ _.
Arguments cx_pars {K} _.
Arguments cx_llhs {K} _.
Arguments cx_needed {K} _.
