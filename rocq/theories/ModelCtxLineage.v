(** Model of the lineage of fixed components, likelihoods and contexts (appletree/component.py:636-650,
    likelihood.py:438-458, 588-599, context.py:464-481), and of what they work with. No proofs in
    this file. The lineage of simulated components is in ModelLineage.v. *)
From Verif Require Import Base ModelFloat ModelParameter ModelShare ModelConfig ModelComponent ModelCompile
  ModelLikelihood ModelContext ModelWhole ModelLineage.
Local Open Scope string_scope.

(** A ComponentFixed (component.py:596-650): rate_name, norm_type, bins with bins_type (None before
    set_binning), add_eps_to_hist and _file_name. *)
Record fixed_obj := mk_fixed {
  fo_rate : string; fo_norm : string; fo_bins : option (value * value); fo_eps : bool; fo_file : string }.

Inductive comp_obj :=
| OSim (s : csim)
| OFixed (f : fixed_obj).

(** A Likelihood or (with [lo_lit]) a LikelihoodLit: _config and components. *)
Record lik_obj := mk_lik_obj { lo_lit : bool; lo_config : dict value; lo_comps : dict comp_obj }.

(** A Context: instruct (of which "likelihoods" and "par_config" do not matter here), par_config and
    likelihoods. *)
Record ctx_obj := mk_ctx_obj { xo_instruct : dict value; xo_par : dict setting; xo_llhs : dict lik_obj }.

(** component.py:636-650; FULL_PATH_LINEAGE is False. *)
Record fixed_lineage := mk_fl {
  fl_rate : string; fl_norm : string; fl_bins : value * value; fl_file : string; fl_sha : string }.
Inductive any_lineage :=
| ALSim (l : comp_lineage)
| ALFixed (l : fixed_lineage).

(** likelihood.py:438-454 and 588-599: a LikelihoodLit lists only the hashes of its components. *)
Inductive lik_lineage :=
| LPoisson (config : dict value) (file sha : string) (comps : dict any_lineage)
| LLiterature (config : dict value) (comps : dict string).

(** context.py:464-477: the instruction without the entries that are replaced. *)
Record ctx_lineage := mk_xl {
  xl_instruct : dict value; xl_par : dict setting; xl_llhs : dict lik_lineage }.

(** [dict(zip(d.keys(), [f(v) for v in d.values()]))] *)
Definition dict_ok {A B} (f : A -> result B) (d : dict A) : result (dict B) :=
  all_ok (map (fun nv => bind (f (snd nv)) (fun x => Ok (fst nv, x))) d).

(** The parameter_alias of a config (likelihood.py:68, 491). *)
Fixpoint strings (d : dict value) : dict string :=
  match d with
  | [] => []
  | (n, VStr s) :: d' => (n, s) :: strings d'
  | _ :: d' => strings d'
  end.
Definition alias_of (cfg : dict value) : dict string :=
  match get "parameter_alias" cfg with Some (VDict d) => strings d | _ => [] end.

Section Ctx.
  Variable K : Type.
  Variable sha : string -> string.              (* calculate_sha256 of the bytes of a file *)
  Variable hash : any_lineage -> string.        (* deterministic_hash (strax) *)
  Variable code : Type.

  Definition fixed_lineage_of (d : disk) (w : world) (f : fixed_obj) : result fixed_lineage :=
    match fo_bins f with
    | None => Err AttributeError
    | Some b =>
        bind (read_file d (w_cache w) (VStr (fo_file f))) (fun bytes =>
        Ok (mk_fl (fo_rate f) (fo_norm f) b (base_name (fo_file f)) (sha bytes)))
    end.

  Definition any_lineage_of (d : disk) (src : string -> source code) (w : world) (o : comp_obj)
    : result any_lineage :=
    match o with
    | OSim s => bind (lineage sha code d src s w) (fun l => Ok (ALSim l))
    | OFixed f => bind (fixed_lineage_of d w f) (fun l => Ok (ALFixed l))
    end.

  (** likelihood.py:438-454, 588-599 *)
  Definition lik_lineage_of (d : disk) (src : string -> source code) (w : world) (L : lik_obj)
    : result lik_lineage :=
    if lo_lit L then
      bind (dict_ok (any_lineage_of d src w) (lo_comps L)) (fun ls =>
      Ok (LLiterature (lo_config L) (map (fun nl => (fst nl, hash (snd nl))) ls)))
    else
      match get "data_file_name" (lo_config L) with
      | Some (VStr file) =>
          bind (read_file d (w_cache w) (VStr file)) (fun bytes =>
          bind (dict_ok (any_lineage_of d src w) (lo_comps L)) (fun ls =>
          Ok (LPoisson (lo_config L) (base_name file) (sha bytes) ls)))
      | Some _ => Err TypeError
      | None => Err KeyError
      end.

  (** context.py:464-477 *)
  Definition ctx_lineage_of (d : disk) (src : string -> source code) (w : world) (x : ctx_obj)
    : result ctx_lineage :=
    bind (dict_ok (lik_lineage_of d src w) (xo_llhs x)) (fun ls =>
    Ok (mk_xl (del "likelihoods" (del "par_config" (xo_instruct x))) (xo_par x) ls)).

  (** utils.py:217-222 dump_lineage of a context: json cannot write arrays (TypeError); the lineage
      of a Likelihood holds those of the ConstantSets of its simulated components. *)
  Definition holds_array (w : world) (o : comp_obj) : bool :=
    match o with
    | OFixed _ => false
    | OSim s =>
        match k_simulate (cs_k s) with
        | None => false
        | Some cl =>
            existsb (fun ni => existsb has_array
              (match get (p_name (i_class (snd ni))) (w_class w) with Some bs => bs | None => [] end))
              (cl_insts cl)
        end
    end.
  Definition dump_context (d : disk) (src : string -> source code) (w : world) (x : ctx_obj)
    : result ctx_lineage :=
    bind (ctx_lineage_of d src w x) (fun l =>
    if existsb (fun nL => negb (lo_lit (snd nL)) && existsb (fun no => holds_array w (snd no)) (lo_comps (snd nL)))
         (xo_llhs x)
    then Err TypeError else Ok l).

  (** What the objects compute. *)
  Variable call : code -> option string -> (string -> option held) -> list (sval K) -> result (list (sval K)).
  Variable ones : list (sval K) -> sval K.
  Variable post : string -> string -> value * value -> bool -> list (sval K) -> sval K -> sval K -> sval K ->
    result (sval K).
  (** data_hist: made of the config and the content of the data file (likelihood.py:86-100,
      see ModelBinning.v). *)
  Variable data_hist : dict value -> string -> result (list fl).
  (** The histogram of a fixed component: made of the config (bins_on), norm_type, rate_name, bins,
      add_eps_to_hist, the content of its file and the parameters (component.py:610-627). *)
  Variable fixed_hist : dict value -> string -> string -> value * value -> bool -> string -> params ->
    result (list fl).
  (** What a LikelihoodLit makes of the simulated columns (likelihood.py:555-561, see ModelLit.v). *)
  Variable lit_sum : dict value -> list (list fl) -> result fl.

  Definition comp_kind (d : disk) (src : string -> source code) (c : rdict) (cfg : dict value) (o : comp_obj)
    : lkind K :=
    match o with
    | OSim s => LSim (fun k b p =>
        match simulate_hist code (sval K) call ones post d src c s (SKey k) (SBatch b) (SParams p) with
        | Ok (SKey k', SCol h) => Ok (k', h)
        | Ok _ => Err TypeError
        | Err e => Err e
        end)
    | OFixed f => LFixed (fun p =>
        match fo_bins f with
        | None => Err AttributeError
        | Some b => bind (read_file d c (VStr (fo_file f))) (fun bytes =>
            fixed_hist cfg (fo_norm f) (fo_rate f) b (fo_eps f) bytes p)
        end)
    end.

  (** get_log_likelihood of either class. The files are read when the objects are made; [d] and [c]
      are the files and the configuration at that time. *)
  Definition lik_fun (d : disk) (src : string -> source code) (c : rdict) (L : lik_obj) : llh_fun K :=
    fun k b p =>
    let alias := alias_of (lo_config L) in
    if lo_lit L then
      match lo_comps L with
      | [(_, OSim s)] =>
          match sim code (sval K) call d src c s (SKey k) (SBatch 1)
                  (SParams (replace_alias alias (replace_alias alias p))) with
          | Ok (SKey k', outs) =>
              bind (arrays K outs) (fun cols => bind (lit_sum (lo_config L) cols) (fun x => Ok (k', x)))
          | Ok _ => Err TypeError
          | Err e => Err e
          end
      | [(_, OFixed _)] => Err TypeError
      | _ => Err AssertionError
      end
    else
      match get "data_file_name" (lo_config L) with
      | Some v =>
          bind (read_file d c v) (fun bytes =>
          bind (data_hist (lo_config L) bytes) (fun h =>
          get_log_likelihood
            (mk_llh (map (fun no => (fst no, mk_lcomp [] (comp_kind d src c (lo_config L) (snd no)))) (lo_comps L))
                    [] alias h) k b p))
      | None => Err KeyError
      end.

  (** context.py:163-199 log_posterior *)
  Definition ctx_posterior (sigmas : fl -> fl -> result (fl * fl)) (d : disk) (src : string -> source code)
      (c : rdict) (x : ctx_obj) (fresh : nat -> K) (st : pstate) (pars : dict fl) (batch times : nat)
    : pstate * list (ModelContext.call K) * result (fl * fl) :=
    log_posterior K sigmas (map (fun nL => (fst nL, lik_fun d src c (snd nL))) (xo_llhs x))
      fresh st pars batch times.
End Ctx.
