(** Vocabulary for the properties of the configuration (C26-C30, C32, C45). No proofs. *)
From Verif Require Import Base ModelShare ModelConfig.
Local Open Scope string_scope.

(** [v'] is [v], except that a per-likelihood table may have gained entries. *)
Definition ext (v v' : value) : Prop :=
  match v with
  | VDict d => exists d', v' = VDict d' /\
      forall l x, get l d = Some x -> exists y, get l d' = Some y /\ value_eqb x y = true
  | _ => v' = v
  end.

(** [o] is neither clear_cache nor a set_global_config mentioning [n]. *)
Definition leaves (n : string) (o : cop) : Prop :=
  match o with
  | CClear => False
  | CSet _ configs => ~ In n (keys configs)
  | _ => True
  end.

Definition not_dict (v : value) : Prop := forall d, v <> VDict d.

Definition plain_kind (k : ckind) : Prop := k = KConstant \/ k = KConstantSet.

Definition same_for_opt (L : string) (a b : option value) : Prop :=
  match a, b with
  | Some (VDict d), Some (VDict d') => get L d = get L d'
  | _, _ => a = b
  end.

(** Two configurations that differ only in entries of other likelihoods than [L]. *)
Definition same_for (L : string) (c c' : rdict) : Prop :=
  accessed c = accessed c' /\
  forall n, same_for_opt L (get n (contents c)) (get n (contents c')).

(** The outcomes of building a list of configs for [L] in turn. *)
Fixpoint build_results (f : fs) (L : string) (cfs : list config) (c : rdict)
  : list (result built) :=
  match cfs with
  | [] => []
  | cf :: cfs' =>
      snd (config_build f cf (Some L) c)
        :: build_results f L cfs' (fst (config_build f cf (Some L) c))
  end.

(** The keys a build of [cf] may look up. *)
Definition sub_maps (cf : config) : list string :=
  match c_kind cf with
  | KSigmaMap => [c_name cf ++ "_median"; c_name cf ++ "_lower"; c_name cf ++ "_upper"]
  | _ => []
  end.
Definition may_read (cf : config) : list string := c_name cf :: "url_base" :: sub_maps cf.

(** The keys an operation may look up. *)
Definition op_reads (o : cop) : list string :=
  match o with
  | CBuild _ cf _ => may_read cf
  | CRequired cf _ => match c_kind cf with KSigmaMap => [c_name cf] | _ => [] end
  | CSet _ _ => ["url_base"]
  | CClear => []
  end.

(** A lookup of [n] that succeeded: the build of a config called [n], or the required parameter
    of a SigmaMap called [n]. *)
Definition looks_up (n : string) (o : cop) (c : rdict) : Prop :=
  match o with
  | CBuild f cf llh => c_name cf = n /\ is_ok (snd (config_build f cf llh c)) = true
  | CRequired cf llh => c_name cf = n /\ c_kind cf = KSigmaMap /\
                        is_ok (snd (required_parameter cf llh c)) = true
  | _ => False
  end.

(** What one value becomes; [None] when the call fails. *)
Definition stored (f : fs) (v : value) (c : rdict) : option value :=
  match v with
  | VBool _ | VNum _ | VList _ => Some v
  | VStr s => match snd (get_file_path f s c) with Ok p => Some (VStr p) | Err _ => None end
  | _ => None
  end.

(** The last config among the arguments with the given name. *)
Fixpoint last_named (n : string) (args : list tc_arg) (acc : option config) : option config :=
  match args with
  | [] => acc
  | TCConfig cf :: rest => last_named n rest (if String.eqb n (c_name cf) then Some cf else acc)
  | TCOther :: rest => last_named n rest acc
  end.

(** Every table of configs a class can have: built by a chain of takes_config from nothing. *)
Inductive class_configs : dict config -> Prop :=
| cc_nil : class_configs []
| cc_takes args old res : class_configs old -> takes_config args old = Ok res -> class_configs res.

(** The value the configuration holds for [name] and likelihood [L]. *)
Definition seen_by (name : string) (L : string) (c : dict value) : option value :=
  match get name c with
  | Some (VDict d) => get L d
  | r => r
  end.

(** The places get_file_path looks at, in order: whether something is there, and its path.
    [base] is the url_base if one is set. *)
Definition candidates (f : fs) (base : option string) (fname : string) : list (bool * string) :=
  [(isfile f fname, fname)]
  ++ match base with
     | Some b => [((starts_with_slash b && path_exists f (path_join b fname))%bool, path_join b fname)]
     | None => []
     end
  ++ map (fun d => (path_exists f (path_join (package_path f d) fname),
                    path_join (package_path f d) fname))
         ["maps"; "data"; "parameters"; "instructs"]
  ++ [((nt_aux_installed f && mem fname (nt_aux_files f))%bool, nt_aux_path f fname)]
  ++ match mongo f fname with
     | Some p => [(negb (skip_mongo_db f), p)]
     | None => []
     end.

(** The first place where something is. *)
Definition first_found (cs : list (bool * string)) : option string :=
  match find fst cs with Some (_, p) => Some p | None => None end.

(** The url_base in force. *)
Definition base_of (c : rdict) : option string :=
  match get "url_base" (contents c) with Some (VStr b) => Some b | _ => None end.
