(** Model of Component.multiple_simulations_compile (appletree/component.py): a simulation repeated
    with a new compilation before every run. No proofs in this file. *)
From Verif Require Import Base ModelShare ModelConfig ModelComponent ModelCompile ModelFloat
  ModelLikelihood.
Local Open Scope string_scope.

(** Python's truth value of a configuration value (component.py:116 [if _cached_configs["g4"] and]). *)
Definition truthy (v : value) : bool :=
  match v with
  | VNone => false
  | VBool b => b
  | VNum z => negb (Z.eqb z 0)
  | VStr s => negb (String.eqb s "")
  | VList l => match l with [] => false | _ => true end
  | VDict d => match d with [] => false | _ => true end
  end.

(** [v[0]] (component.py:118, 125). Of a string it is the first character; a dictionary with string
    keys has no key 0. *)
Definition first_item (v : value) : result value :=
  match v with
  | VList (x :: _) => Ok x
  | VList [] => Err IndexError
  | VStr (String a _) => Ok (VStr (String a ""))
  | VStr EmptyString => Err IndexError
  | VDict _ => Err KeyError
  | VNone | VBool _ | VNum _ => Err TypeError
  end.

(** component.py:81-83 _use_mcinput: the name of the class that provides energy contains
    "Bootstrap". *)
Definition has_bootstrap (name : string) : bool :=
  match index 0 "Bootstrap" name with Some _ => true | None => false end.
Definition use_mcinput (k : component) : result bool :=
  match get "energy" (k_registry k) with
  | None => Err KeyError
  | Some p => Ok (has_bootstrap (p_name p))
  end.

Section Recompile.
  Variable K : Type.
  (** [key.sum().item()] (component.py:122, 126). *)
  Variable key_sum : K -> Z.
  (** What calling a compiled function returns (component.py:94): the outputs as columns. *)
  Variable csem : closure -> K -> nat -> params -> result (K * list (list fl)).

  (** component.py:94 [self.simulate(key, batch_size, parameters)]. *)
  Definition sim_of (k : component) (key : K) (b : nat) (p : params)
    : result (K * list (list fl)) :=
    match k_simulate k with
    | None => Err AttributeError
    | Some cl => csem cl key b p
    end.

  (** component.py:119-123, 126: the new entry. *)
  Definition new_entry (file : value) (b : nat) (key : K) : value :=
    VList [file; VNum (Z.of_nat b); VNum (key_sum key)].

  (** component.py:116-126. Every [_cached_configs["g4"]] records the access; the table of line 119
      is a plain dictionary changed in place. Simplified: the table is the same object as the one
      the user passed to set_config, which is changed as well. *)
  Definition refresh (k : component) (key : K) (b : nat) (c : rdict) : rdict * result unit :=
    let '(c1, r) := rd_getitem "g4" c in
    match r with
    | Err e => (c1, Err e)
    | Ok v =>
        if truthy v then
          match use_mcinput k with
          | Err e => (c1, Err e)
          | Ok false => (c1, Ok tt)
          | Ok true =>
              match v with
              | VDict d =>
                  match get (k_llh k) d with
                  | None => (c1, Err KeyError)
                  | Some x =>
                      match first_item x with
                      | Err e => (c1, Err e)
                      | Ok file =>
                          (mk_rdict (set "g4" (VDict (set (k_llh k) (new_entry file b key) d))
                                         (contents c1)) (accessed c1), Ok tt)
                      end
                  end
              | _ =>
                  match first_item v with
                  | Err e => (c1, Err e)
                  | Ok file => (rd_setitem "g4" (new_entry file b key) c1, Ok tt)
                  end
              end
          end
        else (c1, Ok tt)
    end.

  (** component.py:115-129: the loop. *)
  Fixpoint turns (f : fs) (plugins : string -> option plugin) (apply_eff : bool) (times : nat)
      (key : K) (b : nat) (p : params) (k : component) (w : world) (acc : list (list (list fl)))
    : world * component * result (K * list (list (list fl))) :=
    match times with
    | 0 => (w, k, Ok (key, acc))
    | S n =>
        let '(c1, r) := refresh k key b (w_cache w) in
        let w1 := with_cache w c1 in
        match r with
        | Err e => (w1, k, Err e)
        | Ok _ =>
            let '(w2, k2, r2) := compile f plugins k w1 in
            match r2 with
            | Err e => (w2, k2, Err e)
            | Ok _ =>
                match multiple_simulations (sim_of k2) (k_noeff k2) apply_eff 1 key b p with
                | Err e => (w2, k2, Err e)
                | Ok (key', cols) =>
                    turns f plugins apply_eff n key' b p k2 w2 (acc ++ [cols])%list
                end
            end
        end
    end.

  (** component.py:111-133 multiple_simulations_compile. Without a turn the name [results] of line
      131 is unbound. *)
  Definition multiple_simulations_compile (f : fs) (plugins : string -> option plugin)
      (apply_eff : bool) (times : nat) (key : K) (b : nat) (p : params) (k : component) (w : world)
    : world * component * result (K * list (list fl)) :=
    let '(w', k', r) := turns f plugins apply_eff times key b p k w [] in
    match r with
    | Err e => (w', k', Err e)
    | Ok (key', runs) =>
        match times with
        | 0 => (w', k', Err UnboundLocalError)
        | _ =>
            (w', k', match hstack_runs runs with
                     | Ok cols => Ok (key', cols)
                     | Err e => Err e
                     end)
        end
    end.
End Recompile.
