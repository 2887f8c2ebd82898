(** The text of the generated simulation code (component.py:335-392), as flush_source_code writes
    it character by character, and the part of Python that reads and executes it: physical lines,
    tokens, the statements that occur in such code, and their execution in a namespace.

    Simplifications, all about texts that flush_source_code does not write for plain names:
    - names are ASCII (Python also allows other letters), no string prefixes, no double quotes;
      the escapes \x, \u, \U, \N and octal escapes in string literals are not read;
    - a bracket must be closed on its own line, the decorated function must be the last statement;
    - a text outside this fragment is reported as SyntaxError;
    - UnboundLocalError, a subclass of NameError, is reported as NameError; the builtin names of
      Python are not visible; a module level object handed to a plugin as data is a TypeError;
    - jit only decides which argument is static: the decorated function computes what the
      undecorated one computes. *)
From Verif Require Import Base ModelShare ModelConfig ModelComponent ModelCompile.
Local Open Scope string_scope.

(** The line feed and the carriage return. *)
Definition lf : ascii := "010"%char.
Definition cr : ascii := "013"%char.
Definition nul : ascii := "000"%char.
Definition nl : string := String lf "".

(** component.py:354-364: one import line and one instantiation line per work. *)
Fixpoint import_lines (ws : list work) : string :=
  match ws with
  | [] => ""
  | w :: ws' => "from appletree.plugins import " ++ w_plugin w ++ nl ++ import_lines ws'
  end.

Fixpoint instance_lines (name llh : string) (ws : list work) : string :=
  match ws with
  | [] => ""
  | w :: ws' =>
      (w_plugin w ++ "_" ++ name) ++ " = " ++ w_plugin w ++ "('" ++ llh ++ "')" ++ nl
      ++ instance_lines name llh ws'
  end.

(** component.py:374-379: one call per work. *)
Fixpoint call_lines (name : string) (ws : list work) : string :=
  match ws with
  | [] => ""
  | w :: ws' =>
      "    " ++ "key, " ++ String.concat ", " (w_provides w) ++ " = "
      ++ (w_plugin w ++ "_" ++ name) ++ "(key, parameters, "
      ++ String.concat ", " (w_depends w) ++ ")" ++ nl
      ++ call_lines name ws'
  end.

(** component.py:347-381 the text that flush_source_code builds. *)
Definition source (name llh func nodep : string) (ws : list work) (data_names : list string)
  : string :=
  "from functools import partial" ++ nl
  ++ "from jax import jit" ++ nl
  ++ import_lines ws
  ++ instance_lines name llh ws
  ++ nl
  ++ (if String.eqb nodep "batch_size" then "@partial(jit, static_argnums=(1, ))" else "@jit")
  ++ nl
  ++ "def " ++ func ++ "(key, " ++ nodep ++ ", parameters):" ++ nl
  ++ call_lines name ws
  ++ "    return " ++ "key, " ++ "[" ++ String.concat ", " data_names ++ "]" ++ nl.

(* ------------------------------------------------------------------ *)
(** * Reading Python: lines and tokens *)

(** Physical lines: a line ends at a line feed or a carriage return. *)
Fixpoint lines (s : string) : list string :=
  match s with
  | EmptyString => [""]
  | String c s' =>
      if (Ascii.eqb c lf || Ascii.eqb c cr)%bool then "" :: lines s'
      else match lines s' with
           | l :: ls => String c l :: ls
           | [] => [String c ""]
           end
  end.

Definition between (a b c : ascii) : bool :=
  (Nat.leb (nat_of_ascii a) (nat_of_ascii c) && Nat.leb (nat_of_ascii c) (nat_of_ascii b))%bool.

Definition is_digit (c : ascii) : bool := between "0" "9" c.

(** The characters a name may start with, and those it may go on with. *)
Definition is_start (c : ascii) : bool :=
  (between "a" "z" c || between "A" "Z" c || Ascii.eqb c "_")%bool.
Definition is_cont (c : ascii) : bool := (is_start c || is_digit c)%bool.

Definition is_quote (c : ascii) : bool := Ascii.eqb c "'".
Definition is_backslash (c : ascii) : bool := Ascii.eqb c "\".

(** The one-character tokens that occur. *)
Definition is_op (c : ascii) : bool :=
  existsb (Ascii.eqb c) ["="; "("; ")"; "["; "]"; ","; "."; ":"; "@"]%char.

Inductive token :=
| TName (x : string)
| TNum (x : string)
| TStr (x : string)
| TOp (c : ascii).

(** The reader is inside nothing, a name, a number, a string literal, or after a backslash in
    one. *)
Inductive lstate := LStart | LName (a : string) | LNum (a : string) | LStr (a : string)
| LEsc (a : string).

Definition one (c : ascii) : string := String c "".

(** Escapes in a string literal: an unknown one stands for itself, backslash included. *)
Definition escape (c : ascii) : option string :=
  if is_quote c then Some "'"
  else if is_backslash c then Some "\"
  else if Ascii.eqb c "n" then Some (one lf)
  else if Ascii.eqb c "t" then Some (one "009")
  else if Ascii.eqb c "r" then Some (one cr)
  else if Ascii.eqb c "b" then Some (one "008")
  else if Ascii.eqb c "f" then Some (one "012")
  else if Ascii.eqb c "v" then Some (one "011")
  else if Ascii.eqb c "a" then Some (one "007")
  else if (is_digit c || existsb (Ascii.eqb c) ["x"; "u"; "U"; "N"]%char)%bool then None
  else Some (String "\" (one c)).

Definition cons_tok (t : token) (o : option (list token)) : option (list token) :=
  match o with Some l => Some (t :: l) | None => None end.

Fixpoint lex (st : lstate) (s : string) : option (list token) :=
  match s with
  | EmptyString =>
      match st with
      | LStart => Some []
      | LName a => Some [TName a]
      | LNum a => Some [TNum a]
      | _ => None
      end
  | String c s' =>
      let fresh :=
        if is_start c then lex (LName (one c)) s'
        else if is_digit c then lex (LNum (one c)) s'
        else if is_quote c then lex (LStr "") s'
        else if Ascii.eqb c " " then lex LStart s'
        else if Ascii.eqb c "#" then Some []
        else if is_op c then cons_tok (TOp c) (lex LStart s')
        else None in
      match st with
      | LStart => fresh
      | LName a =>
          if is_cont c then lex (LName (a ++ one c)) s'
          else if is_quote c then None
          else cons_tok (TName a) fresh
      | LNum a =>
          if is_digit c then lex (LNum (a ++ one c)) s'
          else if is_start c then None
          else cons_tok (TNum a) fresh
      | LStr a =>
          if is_quote c then cons_tok (TStr a) (lex LStart s')
          else if is_backslash c then lex (LEsc a) s'
          else if Ascii.eqb c nul then None
          else lex (LStr (a ++ one c)) s'
      | LEsc a =>
          match escape c with
          | Some e => lex (LStr (a ++ e)) s'
          | None => None
          end
      end
  end.

(** The number of leading blanks of a line, and the line without them. *)
Fixpoint indent (s : string) : nat * string :=
  match s with
  | String c s' => if Ascii.eqb c " " then let '(n, r) := indent s' in (S n, r) else (0, s)
  | EmptyString => (0, s)
  end.

(** Logical lines: indentation and tokens; lines without tokens are skipped. *)
Fixpoint logical (ls : list string) : option (list (nat * list token)) :=
  match ls with
  | [] => Some []
  | l :: ls' =>
      let '(n, r) := indent l in
      match lex LStart r, logical ls' with
      | Some [], Some rest => Some rest
      | Some ts, Some rest => Some ((n, ts) :: rest)
      | _, _ => None
      end
  end.

(* ------------------------------------------------------------------ *)
(** * Reading Python: statements *)

Definition keywords : list string :=
  ["False"; "None"; "True"; "and"; "as"; "assert"; "async"; "await"; "break"; "class";
   "continue"; "def"; "del"; "elif"; "else"; "except"; "finally"; "for"; "from"; "global"; "if";
   "import"; "in"; "is"; "lambda"; "nonlocal"; "not"; "or"; "pass"; "raise"; "return"; "try";
   "while"; "with"; "yield"].

Definition not_keyword (x : string) : bool := negb (mem x keywords).

(** Statements before the function: [from m.n import x] and [x = c('s')]. *)
Inductive pystmt :=
| PImport (modules : list string) (x : string)
| PInst (x cls arg : string).

(** [@jit] and [@partial(jit, static_argnums=(1, ))]. *)
Inductive pydeco :=
| DPlain (j : string)
| DStatic (p j : string).

(** [x1, ..., xn = f(y1, ..., ym)]. *)
Record pycall := mk_pycall { pc_targets : list string; pc_callee : string; pc_args : list string }.

(** [def name(params):] with its calls, ended by [return k, [x1, ..., xn]]. *)
Record pydef := mk_pydef {
  pd_deco : pydeco;
  pd_name : string;
  pd_params : list string;
  pd_body : list pycall;
  pd_key : string;
  pd_return : list string
}.

Record pymodule := mk_pymodule { pm_stmts : list pystmt; pm_def : pydef }.

(** A list of names separated by commas, a comma at the end being allowed, and what follows. *)
Fixpoint names (ts : list token) : list string * list token :=
  match ts with
  | TName a :: TOp c :: rest =>
      if Ascii.eqb c "," then let '(l, r) := names rest in (a :: l, r)
      else ([a], TOp c :: rest)
  | TName a :: rest => ([a], rest)
  | _ => ([], ts)
  end.

Definition op_is (c : ascii) (t : token) : bool :=
  match t with TOp d => Ascii.eqb d c | _ => false end.

(** [m.n] up to the keyword import. *)
Fixpoint dotted (ts : list token) : option (list string * string) :=
  match ts with
  | TName a :: TName i :: TName x :: [] =>
      if (not_keyword a && String.eqb i "import" && not_keyword x)%bool then Some ([a], x)
      else None
  | TName a :: TOp c :: rest =>
      if (not_keyword a && Ascii.eqb c ".")%bool then
        match dotted rest with
        | Some (m, x) => Some (a :: m, x)
        | None => None
        end
      else None
  | _ => None
  end.

(** Adjacent string literals are one literal; then the closing bracket. *)
Fixpoint literal (ts : list token) : option string :=
  match ts with
  | TStr s :: t :: [] => if op_is ")" t then Some s else None
  | TStr s :: rest => match literal rest with Some s' => Some (s ++ s') | None => None end
  | _ => None
  end.

Definition parse_stmt (ts : list token) : option pystmt :=
  match ts with
  | TName x :: t1 :: TName c :: t2 :: rest =>
      if (op_is "=" t1 && op_is "(" t2)%bool then
        if (not_keyword x && not_keyword c)%bool then
          match literal rest with Some s => Some (PInst x c s) | None => None end
        else None
      else if String.eqb x "from" then
        match dotted (t1 :: TName c :: t2 :: rest) with
        | Some (m, y) => Some (PImport m y)
        | None => None
        end
      else None
  | TName x :: rest =>
      if String.eqb x "from" then
        match dotted rest with Some (m, y) => Some (PImport m y) | None => None end
      else None
  | _ => None
  end.

Definition parse_deco (ts : list token) : option pydeco :=
  match ts with
  | [t; TName j] => if (op_is "@" t && not_keyword j)%bool then Some (DPlain j) else None
  | [t; TName p; t1; TName j; t2; TName a; t3; t4; TNum n; t5; t6; t7] =>
      if (op_is "@" t && not_keyword p && op_is "(" t1 && not_keyword j && op_is "," t2
          && String.eqb a "static_argnums" && op_is "=" t3 && op_is "(" t4 && String.eqb n "1"
          && op_is "," t5 && op_is ")" t6 && op_is ")" t7)%bool
      then Some (DStatic p j) else None
  | _ => None
  end.

(** No name occurs twice: Python refuses [def f(x, x)]. *)
Fixpoint distinct (l : list string) : bool :=
  match l with
  | [] => true
  | x :: l' => (negb (mem x l') && distinct l')%bool
  end.

Definition parse_header (ts : list token) : option (string * list string) :=
  match ts with
  | TName d :: TName f :: t :: rest =>
      if (String.eqb d "def" && not_keyword f && op_is "(" t)%bool then
        match names rest with
        | (ps, [t1; t2]) =>
            if (op_is ")" t1 && op_is ":" t2 && forallb not_keyword ps && distinct ps)%bool
            then Some (f, ps) else None
        | _ => None
        end
      else None
  | _ => None
  end.

(** The targets are a tuple: there is a comma after the first name. *)
Definition parse_call (ts : list token) : option pycall :=
  match ts with
  | TName k :: t :: rest =>
      if op_is "," t then
        match names rest with
        | (xs, t1 :: TName f :: t2 :: rest2) =>
            if (op_is "=" t1 && op_is "(" t2 && forallb not_keyword (k :: f :: xs))%bool then
              match names rest2 with
              | (ys, [t3]) =>
                  if (op_is ")" t3 && forallb not_keyword ys)%bool
                  then Some (mk_pycall (k :: xs) f ys) else None
              | _ => None
              end
            else None
        | _ => None
        end
      else None
  | _ => None
  end.

Definition parse_return (ts : list token) : option (string * list string) :=
  match ts with
  | TName r :: TName k :: t1 :: t2 :: rest =>
      if (String.eqb r "return" && not_keyword k && op_is "," t1 && op_is "[" t2)%bool then
        match names rest with
        | (xs, [t3]) =>
            if (op_is "]" t3 && forallb not_keyword xs)%bool then Some (k, xs) else None
        | _ => None
        end
      else None
  | _ => None
  end.

(** The indented block: calls, then the return statement as the last line. *)
Fixpoint parse_body (n : nat) (ls : list (nat * list token))
  : option (list pycall * (string * list string)) :=
  match ls with
  | [] => None
  | (m, ts) :: ls' =>
      if Nat.eqb m n then
        match parse_call ts with
        | Some c =>
            match parse_body n ls' with
            | Some (cs, r) => Some (c :: cs, r)
            | None => None
            end
        | None =>
            match ls' with
            | [] => match parse_return ts with Some r => Some ([], r) | None => None end
            | _ :: _ => None
            end
        end
      else None
  end.

Definition parse_def (d : pydeco) (ls : list (nat * list token)) : option pydef :=
  match ls with
  | (O, h) :: (S n, ts) :: ls' =>
      match parse_header h, parse_body (S n) ((S n, ts) :: ls') with
      | Some (f, ps), Some (cs, (k, xs)) => Some (mk_pydef d f ps cs k xs)
      | _, _ => None
      end
  | _ => None
  end.

Fixpoint parse_module (ls : list (nat * list token)) : option pymodule :=
  match ls with
  | (O, ts) :: ls' =>
      match parse_stmt ts with
      | Some st =>
          match parse_module ls' with
          | Some m => Some (mk_pymodule (st :: pm_stmts m) (pm_def m))
          | None => None
          end
      | None =>
          match parse_deco ts with
          | Some d => match parse_def d ls' with Some df => Some (mk_pymodule [] df) | None => None end
          | None => None
          end
      end
  | _ => None
  end.

(** Reading a whole text. *)
Definition py_read (s : string) : result pymodule :=
  match logical (lines s) with
  | None => Err SyntaxError
  | Some ls => match parse_module ls with Some m => Ok m | None => Err SyntaxError end
  end.

(* ------------------------------------------------------------------ *)
(** * Executing the text *)

(** What the module level names stand for: objects of other packages, plugin classes with the name
    they are imported under, plugin instances, functions. *)
Inductive gval :=
| GExt (x : string)
| GClass (pname : string) (p : plugin)
| GInst (i : instance)
| GFun (d : pydef).

Definition globals := dict gval.

(** [from ... import x]. *)
Definition import1 (plugins : string -> option plugin) (modules : list string) (x : string)
  : option gval :=
  match modules with
  | [m] =>
      if (String.eqb m "functools" && String.eqb x "partial")%bool then Some (GExt "partial")
      else if (String.eqb m "jax" && String.eqb x "jit")%bool then Some (GExt "jit")
      else None
  | [m; n] =>
      if (String.eqb m "appletree" && String.eqb n "plugins")%bool then
        match plugins x with Some p => Some (GClass x p) | None => None end
      else None
  | _ => None
  end.

(** Executing the statements before the function. Calling anything but a class with a string is
    a TypeError: partial and jit want a function, a plugin instance and a simulation function
    want more arguments. *)
Fixpoint exec_stmts (f : fs) (plugins : string -> option plugin) (ss : list pystmt)
    (ns : globals) (w : world) : world * globals * result unit :=
  match ss with
  | [] => (w, ns, Ok tt)
  | PImport m x :: ss' =>
      match import1 plugins m x with
      | None => (w, ns, Err ImportError)
      | Some g => exec_stmts f plugins ss' (set x g ns) w
      end
  | PInst x c s :: ss' =>
      match get c ns with
      | None => (w, ns, Err NameError)
      | Some (GClass pname p) =>
          let '(c1, bs, r) := plugin_init f p (Some s) (w_cache w) in
          let w1 := mk_world c1 (w_fn w) (w_heap w) (set pname bs (w_class w)) in
          match r with
          | Err e => (w1, ns, Err e)
          | Ok i => exec_stmts f plugins ss' (set x (GInst i) ns) w1
          end
      | Some _ => (w, ns, Err TypeError)
      end
  end.

(** The decorator has to be jit, or partial of jit. *)
Definition exec_deco (d : pydeco) (ns : globals) : result unit :=
  let is x y := match get x ns with
                | None => Err NameError
                | Some (GExt z) => if String.eqb z y then Ok tt else Err TypeError
                | Some _ => Err TypeError
                end in
  match d with
  | DPlain j => is j "jit"
  | DStatic p j => bind (is p "partial") (fun _ => is j "jit")
  end.

(** component.py:401, 437 [exec(code, namespace)]: a text that cannot be read is not executed at
    all, an exception leaves what was executed before it in the namespace. *)
Definition py_exec (f : fs) (plugins : string -> option plugin) (text : string)
    (ns : globals) (w : world) : world * globals * result unit :=
  match py_read text with
  | Err e => (w, ns, Err e)
  | Ok m =>
      let '(w1, ns1, r) := exec_stmts f plugins (pm_stmts m) ns w in
      match r with
      | Err e => (w1, ns1, Err e)
      | Ok _ =>
          match exec_deco (pd_deco (pm_def m)) ns1 with
          | Err e => (w1, ns1, Err e)
          | Ok _ => (w1, set (pd_name (pm_def m)) (GFun (pm_def m)) ns1, Ok tt)
          end
      end
  end.

(** Calling the function. Names assigned anywhere in the function, its parameters included, are
    local; every other name is looked up in the namespace at the time of the call. *)
Section Call.
  Variable V : Type.
  Variable isem : instance -> list V -> result (list V).

  Definition locals_of (d : pydef) : list string :=
    (pd_params d ++ flat_map pc_targets (pd_body d))%list.

  Definition read_data (locals : list string) (ns : globals) (e : dict V) (x : string) : result V :=
    if mem x locals then match get x e with Some v => Ok v | None => Err NameError end
    else match get x ns with Some _ => Err TypeError | None => Err NameError end.

  Fixpoint read_all (locals : list string) (ns : globals) (e : dict V) (xs : list string)
    : result (list V) :=
    match xs with
    | [] => Ok []
    | x :: xs' =>
        bind (read_data locals ns e x) (fun v =>
        bind (read_all locals ns e xs') (fun vs => Ok (v :: vs)))
    end.

  (** The callee is evaluated before the arguments; calling an array is a TypeError. *)
  Definition exec_call (locals : list string) (ns : globals) (e : dict V) (c : pycall)
    : result (dict V) :=
    if mem (pc_callee c) locals then
      match get (pc_callee c) e with
      | None => Err NameError
      | Some _ => bind (read_all locals ns e (pc_args c)) (fun _ => Err TypeError)
      end
    else
      match get (pc_callee c) ns with
      | None => Err NameError
      | Some (GInst i) =>
          bind (read_all locals ns e (pc_args c)) (fun args =>
          bind (isem i args) (fun vs => assign V e (pc_targets c) vs))
      | Some _ => bind (read_all locals ns e (pc_args c)) (fun _ => Err TypeError)
      end.

  Fixpoint exec_calls (locals : list string) (ns : globals) (e : dict V) (cs : list pycall)
    : result (dict V) :=
    match cs with
    | [] => Ok e
    | c :: cs' => bind (exec_call locals ns e c) (fun e' => exec_calls locals ns e' cs')
    end.

  Definition call_def (d : pydef) (ns : globals) (args : list V) : result (V * list V) :=
    match assign V [] (pd_params d) args with
    | Err _ => Err TypeError
    | Ok e0 =>
        bind (exec_calls (locals_of d) ns e0 (pd_body d)) (fun e =>
        bind (read_data (locals_of d) ns e (pd_key d)) (fun k =>
        bind (read_all (locals_of d) ns e (pd_return d)) (fun vs => Ok (k, vs))))
    end.

  (** component.py:438, 449: the function found under [func] in the namespace, called. *)
  Definition py_call (func : string) (ns : globals) (key nodep_value params : V)
    : result (V * list V) :=
    match get func ns with
    | None => Err KeyError
    | Some (GFun d) => call_def d ns [key; nodep_value; params]
    | Some _ => Err TypeError
    end.
End Call.

(** component.py:335-392 flush_source_code as called by deduce (433): the text that [self.code] of
    a component holds after deduce, written from its name, its likelihood's name and its
    worksheet; save_code (486-489) writes exactly this text to the file. *)
Definition code_text (data_names : list string) (nodep : string) (noeff : bool) (k : component)
  : string :=
  source (k_name k) (k_llh k) (k_func k) nodep (k_worksheet k) (output_names data_names noeff).
