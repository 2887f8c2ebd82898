(** Vocabulary for when a context can be constructed (C89, C90). No proofs. *)
From Coq Require Import Reals.
From Verif Require Import Base ModelFloat ModelShare ModelConfig ModelComponent ModelLikelihood ModelBinning ModelLit ModelContext ModelWhole
  SpecComponent SpecConfig SpecCompile SpecBuild SpecWhole.
Local Open Scope string_scope.
Local Open Scope list_scope.

(** What set_config accepts, under the configuration [d]: numbers, booleans and lists, the name of a
    file that is found, and tables whose files are found. *)
Definition settable (f : fs) (d : dict value) (v : value) : Prop :=
  match v with
  | VBool _ | VNum _ | VList _ => True
  | VStr s => found f d s
  | VDict es => forall l s, In (l, VStr s) es -> found f d s
  | VNone => False
  end.

(** What it is stored as. *)
Definition becomes (f : fs) (d : dict value) (v v' : value) : Prop :=
  match v with
  | VStr s => exists p, path_of f d s p /\ v' = VStr p
  | VDict es => exists es', v' = VDict es' /\
      forall l, match get l es with
                | Some (VStr s) => exists p, path_of f d s p /\ get l es' = Some (VStr p)
                | Some VNone | Some (VDict _) | None => get l es' = None
                | Some x => get l es' = Some x
                end
  | _ => v' = v
  end.

(** The configuration [d1] is [d] with the entries of [configs]. *)
Definition configured (f : fs) (configs d d1 : dict value) : Prop :=
  (forall n, ~ In n (keys configs) -> get n d1 = get n d) /\
  (forall n v, get n configs = Some v -> exists v', get n d1 = Some v' /\ becomes f d v v').

(** The configuration with the url_base of an instruction. *)
Definition with_base (f : fs) (url : option string) (d d0 : dict value) : Prop :=
  match url with
  | None => d0 = d
  | Some u => exists p, path_of f d u p /\ d0 = set "url_base" (VStr p) d
  end.

(** The part of an instruction that update_parameter_config reads. *)
Definition copying (ins : instruct) : dict linstr :=
  map (fun nl => (fst nl, mk_linstr (li_copy (snd nl)) (keys (li_components (snd nl))))) (in_llhs ins).

Section Construct.
  Context {K : Type}.
  Variable E : env K.

  (** Under the configuration [d], the likelihood described by [t] can be made; it observes [on].
      A Likelihood needs a data file that is found and can be read, and a config that fits to the
      data (C80, C81 say when it does); a LikelihoodLit needs its arguments only. *)
  Definition type_ready (d : dict value) (t : ltype) (on : list string) : Prop :=
    match t with
    | TDefault cfg file => exists path tb lk,
        path_of (e_fs E) d file path /\ e_read E path = Ok tb /\
        new_likelihood (e_row E) (e_gof_1d E) (e_gof_2d E) cfg (Ok tb) = Ok lk /\ on = k_on lk
    | TLit vt on' names values =>
        on = on' /\ exists L, new_lit vt on' (logpdf_args names values) = Some (Ok L)
    end.

  (** The plugins [ps] of a class give a workflow for the observables [on] and the efficiency:
      registered without conflict, every needed data name provided, no cycles, every plugin
      importable under its name and well-formed. *)
  Definition sim_ready (ps : list plugin) (on : list string) : Prop :=
    let reg := registry_after [ps] in
    let names := on ++ ["eff"] in
    snd (register ps []) = Ok tt /\ unique_names reg /\
    acyclic reg "batch_size" names /\ complete reg "batch_size" names /\
    List.length (keys reg) + 1 < e_limit E /\ published (e_plugins E) reg "batch_size" names /\
    (forall n p, Reach reg "batch_size" names n -> get n reg = Some p -> proper_class p).

  (** A fixed component: its file is found and has the observables among its columns. *)
  Definition fixed_ready (d : dict value) (on : list string) (file : option string) : Prop :=
    exists fname path tb, file = Some fname /\ fname <> "" /\ path_of (e_fs E) d fname path /\
      e_read E path = Ok tb /\ forall c, In c on -> In c (t_columns tb).

  Definition comp_ready (d : dict value) (on : list string) (c : string * (string * option string)) : Prop :=
    match e_classes E (fst (snd c)) with
    | Some (ClsSim ps _ _) => sim_ready ps on
    | Some (ClsFixed _ _) => fixed_ready d on (snd (snd c))
    | _ => False
    end.

  (** One entry of "likelihoods"; [fn] is the table of likelihood names in use. *)
  Definition llh_ready (d : dict value) (fn : dict nat) (lname : string) (li : linstruct) : Prop :=
    NoDup (keys (li_components li)) /\
    (exists on, type_ready d (li_type li) on /\ forall c, In c (li_components li) -> comp_ready d on c) /\
    (forall a b, In a (li_components li) -> In b (li_components li) -> is_sim E a -> is_sim E b -> a = b) /\
    (forall vt on names values, li_type li = TLit vt on names values ->
       forall a b, In a (li_components li) -> In b (li_components li) -> is_sim E a /\ a = b) /\
    (forall c, In c (li_components li) -> is_sim E c -> get lname fn = None).

  (** The configs that the components of likelihood [l] use. *)
  Definition uses (d : dict value) (ins : instruct) (l : string) (cf : config) : Prop :=
    exists li on cname cls file ps nt add_eps,
      In (l, li) (in_llhs ins) /\ type_ready d (li_type li) on /\
      In (cname, (cls, file)) (li_components li) /\ e_classes E cls = Some (ClsSim ps nt add_eps) /\
      used_config (registry_after [ps]) "batch_size" (on ++ ["eff"]) cf.

  (** The whole instruction: different names, every likelihood ready, and all configs in use have
      usable values and do not write each other's keys. *)
  Definition ready (d : dict value) (fn : dict nat) (ins : instruct) : Prop :=
    NoDup (keys (in_llhs ins)) /\
    (forall lname li, In (lname, li) (in_llhs ins) -> llh_ready d fn lname li) /\
    separate (fun cf => exists l, uses d ins l cf) /\
    (forall l cf, uses d ins l cf -> usable (e_fs E) d l cf).
End Construct.
