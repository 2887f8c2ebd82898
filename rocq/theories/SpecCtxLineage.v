(** Vocabulary for what the lineage of a context says. *)
From Verif Require Import Base ModelFloat ModelParameter SpecParameter ModelShare ModelConfig ModelComponent
  ModelCompile ModelLineage SpecLineage ModelCtxLineage.
Local Open Scope string_scope.

(** Equality of two lineages, as Python dictionaries. *)
Definition same_any (l l' : any_lineage) : Prop :=
  match l, l' with
  | ALSim a, ALSim b => same_lineage a b
  | ALFixed a, ALFixed b => a = b
  | _, _ => False
  end.
Definition same_by {A} (R : A -> A -> Prop) (d d' : dict A) : Prop :=
  forall n, match get n d, get n d' with
            | Some a, Some b => R a b
            | None, None => True
            | _, _ => False
            end.
Definition same_lik (l l' : lik_lineage) : Prop :=
  match l, l' with
  | LPoisson c f s ds, LPoisson c' f' s' ds' => c = c' /\ f = f' /\ s = s' /\ same_by same_any ds ds'
  | LLiterature c hs, LLiterature c' hs' => c = c' /\ same_entries hs hs'
  | _, _ => False
  end.
Definition same_ctx (l l' : ctx_lineage) : Prop :=
  same_entries (xl_instruct l) (xl_instruct l') /\ same_entries (xl_par l) (xl_par l') /\
  same_by same_lik (xl_llhs l) (xl_llhs l').

(** Lineages of components that are not equal have different hashes. *)
Definition no_hash_collision (hash : any_lineage -> string) : Prop :=
  forall l l', hash l = hash l' -> same_any l l'.

(** Two built configs with the same values; maps with a scaler remember the likelihood they were last
    built for, which may be another one. *)
Definition same_setting (b b' : built) : Prop :=
  b_values b = b_values b' /\ c_kind (b_config b) = c_kind (b_config b') /\
  c_name (b_config b) = c_name (b_config b') /\
  (c_kind (b_config b) <> KSigmaMap -> b_config b = b_config b').

(** [k] was deduced and compiled by this process, and since then neither clear_cache was called nor
    has another likelihood used one of its plugin classes with other values. *)
Definition in_force (f : fs) (plugins : string -> option plugin) (w : world) (k : component) : Prop :=
  exists limit names func nodep noeff k0 w0 w1,
    build_component limit names func nodep noeff f plugins k0 w0 = (w1, k, Ok tt) /\
    get (k_llh k) (w_fn w) = get (k_llh k) (w_fn w1) /\
    (forall a, get (k_llh k) (w_fn w1) = Some a ->
       get (k_func k) (nth a (w_heap w) []) = get (k_func k) (nth a (w_heap w1) [])) /\
    (forall pr n bs, k_code k = Some pr -> In n (pr_imports pr) -> get n (w_class w1) = Some bs ->
       exists bs', get n (w_class w) = Some bs' /\ Forall2 same_setting bs bs').

(** A component of a context. *)
Definition component_of (x : ctx_obj) (ln cn : string) (o : comp_obj) : Prop :=
  exists L, get ln (xo_llhs x) = Some L /\ get cn (lo_comps L) = Some o.

(** Dictionaries have every key once. *)
Definition keys_once (x : ctx_obj) : Prop :=
  NoDup (keys (xo_par x)) /\ NoDup (keys (xo_llhs x)) /\
  forall n L, get n (xo_llhs x) = Some L -> NoDup (keys (lo_comps L)).

(** The entries were made in the same order. *)
Definition same_order (x x' : ctx_obj) : Prop :=
  keys (xo_par x) = keys (xo_par x') /\ keys (xo_llhs x) = keys (xo_llhs x') /\
  forall n L L', get n (xo_llhs x) = Some L -> get n (xo_llhs x') = Some L' ->
    keys (lo_comps L) = keys (lo_comps L').

(** What a lineage does not hold: the flags of the components, and the names of scalers. *)
Definition same_flags (o o' : comp_obj) : Prop :=
  match o, o' with
  | OSim s, OSim s' => k_noeff (cs_k s) = k_noeff (cs_k s') /\ cs_eps s = cs_eps s'
  | OFixed f, OFixed f' => fo_eps f = fo_eps f'
  | _, _ => True
  end.
Definition same_hidden (plugins plugins' : string -> option plugin) (w w' : world) (x x' : ctx_obj) : Prop :=
  forall ln cn o o', component_of x ln cn o -> component_of x' ln cn o' ->
    same_flags o o' /\
    match o, o' with
    | OSim s, OSim s' => forall pr, k_code (cs_k s) = Some pr ->
        same_scalers plugins plugins' (pr_imports pr) (k_llh (cs_k s)) (w_cache w) (w_cache w')
    | _, _ => True
    end.

(** The parameters given to log_posterior: all that are fitted, and none that is not configured. *)
Definition covers (cfg : dict setting) (pars : dict fl) : Prop :=
  (forall n, is_free cfg n -> In n (keys pars)) /\ (forall n, In n (keys pars) -> In n (keys cfg)).

(** A plugin class that the component needs has a config that is an array. *)
Definition needs_array (plugins : string -> option plugin) (k : component) : Prop :=
  exists pr pn p cf, k_code k = Some pr /\ In pn (pr_imports pr) /\ plugins pn = Some p /\
    In cf (map snd (p_configs p)) /\ c_kind cf = KConstantSet.

(** What is in the file that a name stands for. *)
Definition holds (d : disk) (c : rdict) (s bytes : string) : Prop :=
  exists p, snd (get_file_path (d_fs d) s c) = Ok p /\ d_bytes d p = Some bytes.

(** What a component has in a lineage; C102 says what is in that of a simulated one. *)
Definition comp_entry (sha : string -> string) (code : Type) (d : disk) (src : string -> source code) (w : world)
    (o : comp_obj) (e : any_lineage) : Prop :=
  match o with
  | OSim s => exists l, lineage sha code d src s w = Ok l /\ e = ALSim l
  | OFixed f => exists b name bytes, fo_bins f = Some b /\ file_part (fo_file f) name /\
      holds d (w_cache w) (fo_file f) bytes /\ e = ALFixed (mk_fl (fo_rate f) (fo_norm f) b name (sha bytes))
  end.

(** What a likelihood has in a lineage. *)
Definition lik_entry (sha : string -> string) (hash : any_lineage -> string) (code : Type) (d : disk)
    (src : string -> source code) (w : world) (L : lik_obj) (e : lik_lineage) : Prop :=
  match e with
  | LPoisson c name h ds => lo_lit L = false /\ c = lo_config L /\
      (exists file bytes, get "data_file_name" c = Some (VStr file) /\ file_part file name /\
         holds d (w_cache w) file bytes /\ h = sha bytes) /\
      keys ds = keys (lo_comps L) /\
      forall n o, get n (lo_comps L) = Some o ->
        exists l, get n ds = Some l /\ comp_entry sha code d src w o l
  | LLiterature c hs => lo_lit L = true /\ c = lo_config L /\ keys hs = keys (lo_comps L) /\
      forall n o, get n (lo_comps L) = Some o ->
        exists l, get n hs = Some (hash l) /\ comp_entry sha code d src w o l
  end.

(** A lineage can be made of the component, of the likelihood. *)
Definition comp_complete (sha : string -> string) (code : Type) (d : disk) (src : string -> source code) (w : world)
    (o : comp_obj) : Prop :=
  match o with
  | OSim s => exists l, lineage sha code d src s w = Ok l
  | OFixed f => (exists b, fo_bins f = Some b) /\ exists bytes, holds d (w_cache w) (fo_file f) bytes
  end.
Definition lik_complete (sha : string -> string) (code : Type) (d : disk) (src : string -> source code) (w : world)
    (L : lik_obj) : Prop :=
  (forall n o, get n (lo_comps L) = Some o -> comp_complete sha code d src w o) /\
  (lo_lit L = false -> exists file bytes, get "data_file_name" (lo_config L) = Some (VStr file) /\
     holds d (w_cache w) file bytes).
