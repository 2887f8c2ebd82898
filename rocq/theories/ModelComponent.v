(** Model of appletree/plugin.py and of the workflow part of appletree/component.py:
    registration, deduction, code generation, compilation and execution of the generated code.
    No proofs in this file. *)
From Verif Require Import Base ModelShare ModelConfig.
Local Open Scope string_scope.

(** plugin.py:15-31 a plugin class: name, provides, depends_on, parameters, takes_config and the
    argument names of its [simulate] method (including self). [provides] is always a list here;
    component.py:216-217 turns a single string into a one-element tuple. *)
Record plugin := mk_plugin {
  p_name : string;
  p_provides : list string;
  p_depends : list string;
  p_params : list string;
  p_configs : dict config;
  p_args : list string
}.

(** plugin.py:75-92 sanity_check. [inspect.getfullargspec(...)[0]] includes self at index 0;
    a too short signature is an IndexError. Extra arguments are not looked at. *)
Definition arg_is (args : list string) (i : nat) (name : string) : result unit :=
  match nth_error args i with
  | None => Err IndexError
  | Some a => if String.eqb a name then Ok tt else Err ValueError
  end.

Fixpoint check_depends (args : list string) (i : nat) (deps : list string) : result unit :=
  match deps with
  | [] => Ok tt
  | d :: deps' => bind (arg_is args i d) (fun _ => check_depends args (S i) deps')
  end.

Definition sanity_check (p : plugin) : result unit :=
  bind (arg_is (p_args p) 1 "key") (fun _ =>
  bind (arg_is (p_args p) 2 "parameters") (fun _ =>
  check_depends (p_args p) 3 (p_depends p))).

(** plugin.py:44-45: building the configs in turn; stops at the first failure. *)
Fixpoint build_all (f : fs) (cfs : list config) (llh : option string) (c : rdict)
  : rdict * list built * result unit :=
  match cfs with
  | [] => (c, [], Ok tt)
  | cf :: rest =>
      let '(c1, r) := config_build f cf llh c in
      match r with
      | Err e => (c1, [], Err e)
      | Ok b =>
          let '(c2, bs, r2) := build_all f rest llh c1 in
          (c2, b :: bs, r2)
      end
  end.

(** An instance of a plugin class: its likelihood name and its own copies of the built configs
    (plugin.py:50-51 deepcopy). *)
Record instance := mk_instance {
  i_class : plugin;
  i_llh : option string;
  i_built : list built
}.

(** plugin.py:33-51 Plugin.__init__. The second component is the list of built configs that is
    left on the CLASS-level config objects (they are built in place, line 45, before the copies
    are taken). *)
Definition plugin_init (f : fs) (p : plugin) (llh : option string) (c : rdict)
  : rdict * list built * result instance :=
  match p_depends p, p_provides p with
  | [], _ => (c, [], Err ValueError)
  | _, [] => (c, [], Err ValueError)
  | _, _ =>
      let '(c1, bs, r) := build_all f (map snd (p_configs p)) llh c in
      match r with
      | Err e => (c1, bs, Err e)
      | Ok _ =>
          (c1, bs,
           match sanity_check p with
           | Err e => Err e
           | Ok _ => Ok (mk_instance p llh bs)
           end)
      end
  end.

(** The registry of a component: data name -> plugin class (component.py:205). *)
Definition registry := dict plugin.

Definition default_eqb (a b : option value) : bool :=
  match a, b with
  | None, None => true            (* both OMITTED: the same constant string *)
  | Some x, Some y => value_eqb x y
  | _, _ => false
  end.

(** component.py:228-246: does [old] disagree with [new] on the default of a common config? *)
Definition conflict (old new : plugin) : bool :=
  existsb (fun kv : string * config =>
    existsb (fun kv' : string * config =>
      if String.eqb (fst kv') (fst kv)
      then negb (default_eqb (c_default (snd kv)) (c_default (snd kv')))
      else false) (p_configs new)) (p_configs old).

(** component.py:219-220 *)
Definition register_provides (p : plugin) (reg : registry) : registry :=
  fold_left (fun r d => set d p r) (p_provides p) reg.

(** component.py:207-246 register of a single class: the registry is updated first, the
    conflict check comes second, so a failing registration leaves the new registry behind.
    Skipping classes already seen (lines 222-226) does not change which conflicts are found. *)
Definition register1 (p : plugin) (reg : registry) : registry * result unit :=
  let reg' := register_provides p reg in
  (reg', if existsb (fun q => conflict q p) (map snd reg') then Err ValueError else Ok tt).

(** component.py:209-213, 254-265: registering several classes in order (register with a tuple or
    list; register_all passes the subclasses of Plugin found in [dir(module)] order). *)
Fixpoint register (ps : list plugin) (reg : registry) : registry * result unit :=
  match ps with
  | [] => (reg, Ok tt)
  | p :: ps' =>
      let '(reg1, r) := register1 p reg in
      match r with
      | Ok _ => register ps' reg1
      | Err e => (reg1, Err e)
      end
  end.

(** component.py:284-297: appending the entries of the requested names; a missing provider is a
    ValueError. *)
Fixpoint append_deps (reg : registry) (nodep : string) (names : list string)
    (deps : list plugin) : result (list plugin) :=
  match names with
  | [] => Ok deps
  | d :: names' =>
      if String.eqb d nodep then append_deps reg nodep names' deps
      else match get d reg with
           | Some p => append_deps reg nodep names' (deps ++ [p])
           | None => Err ValueError
           end
  end.

(** component.py:299-307, the second loop of dependencies_deduce; [rec] is the recursive call. *)
Fixpoint each_dep (rec : list string -> list plugin -> result (list plugin)) (reg : registry)
    (nodep : string) (names : list string) (deps : list plugin) : result (list plugin) :=
  match names with
  | [] => Ok deps
  | d :: names' =>
      if String.eqb d nodep then each_dep rec reg nodep names' deps
      else match get d reg with
           | None => Err KeyError
           | Some p =>
               match rec (p_depends p) deps with
               | Err e => Err e
               | Ok deps' => each_dep rec reg nodep names' deps'
               end
           end
  end.

(** component.py:267-309 dependencies_deduce. [fuel] is the number of nested calls that Python's
    recursion limit still allows; exceeding it raises RecursionError. The entries of the
    dependency list are represented by their plugin (the other fields are not used by
    dependencies_simplify). *)
Fixpoint dependencies_deduce (reg : registry) (nodep : string) (fuel : nat)
    (names : list string) (deps : list plugin) : result (list plugin) :=
  match fuel with
  | O => Err RecursionError
  | S fuel' =>
      match append_deps reg nodep names deps with
      | Err e => Err e
      | Ok deps1 => each_dep (dependencies_deduce reg nodep fuel') reg nodep names deps1
      end
  end.

(** component.py:325 an entry [name, provides, depends_on] of the worksheet. *)
Record work := mk_work { w_plugin : string; w_provides : list string; w_depends : list string }.

Definition work_of (p : plugin) : work := mk_work (p_name p) (p_provides p) (p_depends p).

(** component.py:321-326: the worksheet is built from the reversed list keeping the first
    occurrence of every plugin name. *)
Fixpoint first_by_name (seen : list string) (l : list plugin) : list plugin :=
  match l with
  | [] => []
  | p :: l' =>
      if mem (p_name p) seen then first_by_name seen l'
      else p :: first_by_name (seen ++ [p_name p]) l'
  end.

Definition selected (deps : list plugin) : list plugin := first_by_name [] (rev deps).

(** component.py:329-332: scaler parameters required by the configs of one plugin. *)
Fixpoint config_params (cfs : list config) (llh : string) (needed : list string) (c : rdict)
  : rdict * list string * result unit :=
  match cfs with
  | [] => (c, needed, Ok tt)
  | cf :: rest =>
      let '(c1, r) := required_parameter cf (Some llh) c in
      match r with
      | Err e => (c1, needed, Err e)
      | Ok None => config_params rest llh needed c1
      | Ok (Some s) => config_params rest llh (add1 s needed) c1
      end
  end.

(** component.py:321-332: the loop over the selected plugins, accumulating worksheet and needed
    parameters; both are left partially filled when a config raises. *)
Fixpoint simplify_loop (ps : list plugin) (llh : string) (ws : list work) (needed : list string)
    (c : rdict) : rdict * (list work * list string) * result unit :=
  match ps with
  | [] => (c, (ws, needed), Ok tt)
  | p :: ps' =>
      let ws1 := (ws ++ [work_of p])%list in
      let needed1 := union needed (p_params p) in
      let '(c1, needed2, r) := config_params (map snd (p_configs p)) llh needed1 c in
      match r with
      | Err e => (c1, (ws1, needed2), Err e)
      | Ok _ => simplify_loop ps' llh ws1 needed2 c1
      end
  end.

(** component.py:311-332 dependencies_simplify *)
Definition dependencies_simplify (rate llh : string) (deps : list plugin) (c : rdict)
  : rdict * (list work * list string) * result unit :=
  let needed0 := if String.eqb rate "" then [] else [rate] in
  simplify_loop (selected deps) llh [] needed0 c.

(** The generated source code (component.py:350-382) as an abstract program: the imported
    plugin names, the instances [instance = Plugin('llh')], and the function
    [def func(key, nodep, parameters): ...; return key, [data_names]]. *)
Record prog := mk_prog {
  pr_imports : list string;
  pr_insts : list (string * string);      (* instance name, plugin name *)
  pr_llh : string;
  pr_func : string;
  pr_nodep : string;
  pr_body : list (list string * string * list string);  (* provides, instance, depends_on *)
  pr_return : list string
}.

(** component.py:350-382 *)
Definition gen_code (name llh func nodep : string) (ws : list work) (data_names : list string)
  : prog :=
  mk_prog (map w_plugin ws)
          (map (fun w => (w_plugin w ++ "_" ++ name, w_plugin w)) ws)
          llh func nodep
          (map (fun w => (w_provides w, w_plugin w ++ "_" ++ name, w_depends w)) ws)
          data_names.

(** What executing the generated module leaves in its namespace, as far as modelled: the
    simulation function closed over its plugin instances. *)
Record closure := mk_closure { cl_prog : prog; cl_insts : dict instance }.

(** Namespaces are Python dict objects: function name -> compiled function. *)
Definition namespace := dict closure.

(** The process-wide state: configs, the table likelihood name -> namespace (by address), the
    namespaces, and the state of the class-level config objects of each plugin class. *)
Record world := mk_world {
  w_cache : rdict;
  w_fn : dict nat;
  w_heap : list namespace;
  w_class : dict (list built)
}.

Definition init_world : world := mk_world empty_rdict [] [] [].

(** share.py:42-44 clear_cache: the namespaces themselves survive while referenced. *)
Definition clear_cache (w : world) : world :=
  mk_world (rd_clear (w_cache w)) [] (w_heap w) (w_class w).

Definition with_cache (w : world) (c : rdict) : world :=
  mk_world c (w_fn w) (w_heap w) (w_class w).

(** component.py:196-205 a ComponentSim object. *)
Record component := mk_component {
  k_name : string;
  k_llh : string;
  k_rate : string;
  k_registry : registry;
  k_noeff : bool;                       (* force_no_eff *)
  k_worksheet : list work;
  k_needed : list string;               (* needed_parameters *)
  k_func : string;
  k_code : option prog;                 (* _code *)
  k_compile : option (prog * nat);      (* _compile = partial(exec, code, namespace) *)
  k_simulate : option closure
}.

(** Python's [list.remove]: the first occurrence. *)
Fixpoint remove_first (x : string) (l : list string) : list string :=
  match l with
  | [] => []
  | y :: l' => if String.eqb x y then l' else y :: remove_first x l'
  end.

(** component.py:421-429: the list of outputs of the simulation. *)
Definition output_names (data_names : list string) (force_no_eff : bool) : list string :=
  let dn := if mem "eff" data_names then remove_first "eff" data_names else data_names in
  if force_no_eff then dn else (dn ++ ["eff"])%list.

(** component.py:397-401 the setter of [code]: stores the code, then allocates a namespace in the
    write-once table; if the likelihood name is taken it raises with [_compile] unchanged. *)
Definition set_code (pr : prog) (k : component) (w : world) : world * component * result unit :=
  let k1 := mk_component (k_name k) (k_llh k) (k_rate k) (k_registry k) (k_noeff k)
              (k_worksheet k) (k_needed k) (k_func k) (Some pr) (k_compile k) (k_simulate k) in
  match sv_setitem (k_llh k) (List.length (w_heap w)) (w_fn w) with
  | Err e => (w, k1, Err e)
  | Ok fn' =>
      let w' := mk_world (w_cache w) fn' (w_heap w ++ [[]])%list (w_class w) in
      (w', mk_component (k_name k) (k_llh k) (k_rate k) (k_registry k) (k_noeff k)
             (k_worksheet k) (k_needed k) (k_func k) (Some pr)
             (Some (pr, List.length (w_heap w))) (k_simulate k), Ok tt)
  end.

(** component.py:403-433 deduce. [limit] is the recursion limit available to
    dependencies_deduce. *)
Definition deduce (limit : nat) (data_names : list string) (func nodep : string)
    (force_no_eff : bool) (k : component) (w : world) : world * component * result unit :=
  let dn := output_names data_names force_no_eff in
  let k0 := mk_component (k_name k) (k_llh k) (k_rate k) (k_registry k)
              (if force_no_eff then true else k_noeff k)
              (k_worksheet k) (k_needed k) (k_func k) (k_code k) (k_compile k) (k_simulate k) in
  match dependencies_deduce (k_registry k) nodep limit dn [] with
  | Err e => (w, k0, Err e)
  | Ok deps =>
      let '(c1, (ws, needed), r) :=
        dependencies_simplify (k_rate k) (k_llh k) deps (w_cache w) in
      let w1 := with_cache w c1 in
      match r with
      | Err e =>
          (w1, mk_component (k_name k) (k_llh k) (k_rate k) (k_registry k) (k_noeff k0)
                 ws needed (k_func k) (k_code k) (k_compile k) (k_simulate k), Err e)
      | Ok _ =>
          let k2 := mk_component (k_name k) (k_llh k) (k_rate k) (k_registry k) (k_noeff k0)
                      ws needed func (k_code k) (k_compile k) (k_simulate k) in
          set_code (gen_code (k_name k) (k_llh k) func nodep ws dn) k2 w1
      end
  end.

(** Executing the generated module (component.py:401, 437): imports by name from
    appletree.plugins ([plugins]), then instantiation in order. *)
Fixpoint instantiate (f : fs) (plugins : string -> option plugin) (llh : string)
    (insts : list (string * string)) (acc : dict instance) (w : world)
  : world * result (dict instance) :=
  match insts with
  | [] => (w, Ok acc)
  | (iname, pname) :: rest =>
      match plugins pname with
      | None => (w, Err ImportError)
      | Some p =>
          let '(c1, bs, r) := plugin_init f p (Some llh) (w_cache w) in
          let w1 := mk_world c1 (w_fn w) (w_heap w) (set pname bs (w_class w)) in
          match r with
          | Err e => (w1, Err e)
          | Ok i => instantiate f plugins llh rest (set iname i acc) w1
          end
      end
  end.

Definition imports_ok (plugins : string -> option plugin) (names : list string) : bool :=
  forallb (fun n => match plugins n with Some _ => true | None => false end) names.

(** Replace the namespace at address [a]. *)
Fixpoint set_nth {A} (a : nat) (x : A) (l : list A) : list A :=
  match a, l with
  | _, [] => []
  | O, _ :: l' => x :: l'
  | S a', y :: l' => y :: set_nth a' x l'
  end.

(** component.py:435-438 compile. *)
Definition compile (f : fs) (plugins : string -> option plugin) (k : component) (w : world)
  : world * component * result unit :=
  match k_compile k with
  | None => (w, k, Err AttributeError)
  | Some (pr, a) =>
      if imports_ok plugins (pr_imports pr) then
        let '(w1, r) := instantiate f plugins (pr_llh pr) (pr_insts pr) [] w in
        match r with
        | Err e => (w1, k, Err e)
        | Ok insts =>
            let ns := set (pr_func pr) (mk_closure pr insts) (nth a (w_heap w1) []) in
            let w2 := mk_world (w_cache w1) (w_fn w1) (set_nth a ns (w_heap w1)) (w_class w1) in
            match get (k_llh k) (w_fn w2) with
            | None => (w2, k, Err KeyError)
            | Some a' =>
                match get (k_func k) (nth a' (w_heap w2) []) with
                | None => (w2, k, Err KeyError)
                | Some cl =>
                    (w2, mk_component (k_name k) (k_llh k) (k_rate k) (k_registry k) (k_noeff k)
                           (k_worksheet k) (k_needed k) (k_func k) (k_code k) (k_compile k)
                           (Some cl), Ok tt)
                end
            end
        end
      else (w, k, Err ImportError)
  end.

(** plugin.py:94-106 lineage of an instance: the config part is read from the CLASS-level config
    objects, i.e. from [w_class]. *)
Definition instance_lineage (w : world) (i : instance) : list (list value) :=
  match get (p_name (i_class i)) (w_class w) with
  | Some bs => map b_values bs
  | None => []
  end.

(** Execution of the generated function. Values of every kind (key, batch size, parameters,
    arrays) share the type [V]; [sem i args] is what calling instance [i] of a plugin returns:
    the tuple [key, *outputs]. *)
Section Run.
  Variable V : Type.
  Variable sem : string -> list V -> result (list V).

  Definition env := dict V.

  Fixpoint lookups (e : env) (names : list string) : result (list V) :=
    match names with
    | [] => Ok []
    | x :: names' =>
        match get x e with
        | None => Err NameError
        | Some v => match lookups e names' with Ok vs => Ok (v :: vs) | Err er => Err er end
        end
    end.

  (** Tuple unpacking [x1, ..., xn = vs]. *)
  Fixpoint assign (e : env) (names : list string) (vs : list V) : result env :=
    match names, vs with
    | [], [] => Ok e
    | x :: names', v :: vs' => assign (set x v e) names' vs'
    | _, _ => Err ValueError
    end.

  (** One generated line (component.py:376-380):
      [key, *provides = instance(key, parameters, *depends_on)]. *)
  Definition exec1 (e : env) (st : list string * string * list string) : result env :=
    let '(outs, inst, ins) := st in
    bind (lookups e ("key" :: "parameters" :: ins)) (fun args =>
    bind (sem inst args) (fun vs =>
    assign e ("key" :: outs) vs)).

  Fixpoint exec (e : env) (body : list (list string * string * list string)) : result env :=
    match body with
    | [] => Ok e
    | st :: body' => bind (exec1 e st) (fun e' => exec e' body')
    end.

  (** The whole function; [def f(key, key, ...)] would be a syntax error. *)
  Definition run_prog (pr : prog) (key nodep_value params : V) : result (V * list V) :=
    if mem (pr_nodep pr) ["key"; "parameters"] then Err SyntaxError
    else
      let e0 := [("key", key); (pr_nodep pr, nodep_value); ("parameters", params)] in
      bind (exec e0 (pr_body pr)) (fun e =>
      match lookups e ("key" :: pr_return pr) with
      | Ok (k' :: vs) => Ok (k', vs)
      | Ok [] => Err NameError
      | Err er => Err er
      end).
End Run.

(** Histories of the process-wide state: components are passed to the operations that use them.
    [deduce], [compile], [clear_cache] and [set_global_config] as in the definitions above. *)
Inductive wop :=
| ODeduce (limit : nat) (data_names : list string) (func nodep : string) (noeff : bool)
    (k : component)
| OCompile (f : fs) (plugins : string -> option plugin) (k : component)
| OClear
| OConfig (f : fs) (configs : dict value).

Definition wstep (o : wop) (w : world) : world * result unit :=
  match o with
  | ODeduce limit dn func nodep noeff k =>
      let '(w', _, r) := deduce limit dn func nodep noeff k w in (w', r)
  | OCompile f plugins k => let '(w', _, r) := compile f plugins k w in (w', r)
  | OClear => (clear_cache w, Ok tt)
  | OConfig f configs =>
      let '(c', r) := set_global_config f configs (w_cache w) in (with_cache w c', r)
  end.

Definition wrun (os : list wop) (w : world) : world :=
  fold_left (fun w o => fst (wstep o w)) os w.
