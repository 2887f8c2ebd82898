(** Model of appletree/profiler.py: timing the plugins of a component one by one, and whole
    simulations. No proofs in this file.
    Printing (print_profile_summary, print_component_code, print_worksheet and everything done only
    if verbose) is left out; [block_until_ready] has no effect here. *)
From Coq Require Import Reals.
From Verif Require Import Base ModelFloat ModelShare ModelConfig ModelComponent ModelCompile
  ModelLikelihood.
Local Open Scope string_scope.
Local Open Scope list_scope.

(** np.mean of a list of times, which is NaN for an empty list, and np.std. *)
Definition mean_time (l : list R) : fl :=
  match l with
  | [] => NaN
  | _ => Fin (fold_right Rplus 0%R l / INR (List.length l))
  end.
Definition std_time (l : list R) : fl :=
  match mean_time l with
  | Fin m => match mean_time (map (fun t => (t - m) * (t - m))%R l) with
             | Fin v => Fin (sqrt v)
             | x => x
             end
  | x => x
  end.

(** profiler.py:127-133 one entry of the result. *)
Record prof := mk_prof {
  f_plugin : string;
  f_provides : list string;
  f_depends : list string;
  f_mean : fl;
  f_std : fl
}.

Section Profiler.
  Variable V : Type.
  Variable isem : instance -> list V -> result (list V).
  (** The readings of time.perf_counter, in seconds. *)
  Variable clock : nat -> R.

  (** The random key, how often the clock has been read, and the calls of simulate so far. *)
  Record pst := mk_pst { s_key : V; s_tick : nat; s_calls : list (instance * list V) }.

  (** profiler.py:43 and 51: [key, *outputs = plugin_instance.simulate(key, parameters, *args)]. *)
  Definition call_once (i : instance) (pars : V) (args : list V) (s : pst) : pst * result (list V) :=
    let full := s_key s :: pars :: args in
    let calls := s_calls s ++ [(i, full)] in
    match isem i full with
    | Err e => (mk_pst (s_key s) (s_tick s) calls, Err e)
    | Ok [] => (mk_pst (s_key s) (s_tick s) calls, Err ValueError)
    | Ok (k :: outs) => (mk_pst k (s_tick s) calls, Ok outs)
    end.

  Definition read_clock (s : pst) : pst * R :=
    (mk_pst (s_key s) (S (s_tick s)) (s_calls s), clock (s_tick s)).

  (** profiler.py:42-45 the warmup runs; [last] is what outputs refers to, if it is bound. *)
  Fixpoint warmup (n : nat) (i : instance) (pars : V) (args : list V) (last : option (list V)) (s : pst)
    : pst * result (option (list V)) :=
    match n with
    | O => (s, Ok last)
    | S n' =>
        let '(s1, r) := call_once i pars args s in
        match r with
        | Err e => (s1, Err e)
        | Ok outs => warmup n' i pars args (Some outs) s1
        end
    end.

  (** profiler.py:48-55 the timed runs, in milliseconds. *)
  Fixpoint timed (n : nat) (i : instance) (pars : V) (args : list V) (last : option (list V))
      (times : list R) (s : pst) : pst * result (option (list V) * list R) :=
    match n with
    | O => (s, Ok (last, times))
    | S n' =>
        let '(s0, start) := read_clock s in
        let '(s1, r) := call_once i pars args s0 in
        match r with
        | Err e => (s1, Err e)
        | Ok outs =>
            let '(s2, stop) := read_clock s1 in
            timed n' i pars args (Some outs) (times ++ [((stop - start) * 1000)%R]) s2
        end
    end.

  (** profiler.py:39 [input_data[dep]] *)
  Fixpoint inputs (store : dict V) (names : list string) : result (list V) :=
    match names with
    | [] => Ok []
    | x :: names' =>
        match get x store with
        | None => Err KeyError
        | Some v => match inputs store names' with Ok vs => Ok (v :: vs) | Err e => Err e end
        end
    end.

  (** profiler.py:57-59 [output_data[name] = outputs[i]]; too many outputs go unnoticed. *)
  Fixpoint outputs (names : list string) (outs : list V) (out : dict V) : result (dict V) :=
    match names, outs with
    | [], _ => Ok out
    | x :: names', v :: outs' => outputs names' outs' (set x v out)
    | _ :: _, [] => Err IndexError
    end.

  (** profiler.py:17-61 profile_plugin: the outputs, and the times. [outputs] is not bound if nothing
      has been run. *)
  Definition profile_plugin (i : instance) (pars : V) (store : dict V) (n_warmup n_runs : nat) (s : pst)
    : pst * result (dict V * fl * fl) :=
    match inputs store (p_depends (i_class i)) with
    | Err e => (s, Err e)
    | Ok args =>
        let '(s1, r1) := warmup n_warmup i pars args None s in
        match r1 with
        | Err e => (s1, Err e)
        | Ok last =>
            let '(s2, r2) := timed n_runs i pars args last [] s1 in
            match r2 with
            | Err e => (s2, Err e)
            | Ok (last', times) =>
                (s2, match p_provides (i_class i), last' with
                     | [], _ => Ok ([], mean_time times, std_time times)
                     | _ :: _, None => Err UnboundLocalError
                     | _ :: _, Some outs =>
                         match outputs (p_provides (i_class i)) outs [] with
                         | Err e => Err e
                         | Ok o => Ok (o, mean_time times, std_time times)
                         end
                     end)
            end
        end
    end.

  (** profiler.py:108-134 the loop over the worksheet. The class is looked up in the registry by the
      first name that the entry provides, and instantiated anew. *)
  Fixpoint profile_works (f : fs) (k : component) (pars : V) (n_warmup n_runs : nat) (ws : list work)
      (store : dict V) (s : pst) (w : world) : world * pst * result (list prof) :=
    match ws with
    | [] => (w, s, Ok [])
    | wk :: ws' =>
        match w_provides wk with
        | [] => (w, s, Err IndexError)
        | d :: _ =>
            match get d (k_registry k) with
            | None => (w, s, Err KeyError)
            | Some p =>
                let '(c1, bs, r) := plugin_init f p (Some (k_llh k)) (w_cache w) in
                let w1 := mk_world c1 (w_fn w) (w_heap w) (set (p_name p) bs (w_class w)) in
                match r with
                | Err e => (w1, s, Err e)
                | Ok i =>
                    let '(s1, r1) := profile_plugin i pars store n_warmup n_runs s in
                    match r1 with
                    | Err e => (w1, s1, Err e)
                    | Ok (o, m, sd) =>
                        let '(w2, s2, r2) :=
                          profile_works f k pars n_warmup n_runs ws' (update store o) s1 w1 in
                        (w2, s2, match r2 with
                                 | Err e => Err e
                                 | Ok res => Ok (mk_prof (w_plugin wk) (w_provides wk) (w_depends wk) m sd :: res)
                                 end)
                    end
                end
            end
        end
    end.

  (** A component has the attribute worksheet once deduce has reached dependencies_simplify
      (component.py:314); the worksheet of a component that has none is empty here. *)
  Definition has_worksheet (k : component) : bool :=
    match k_worksheet k, k_code k with [], None => false | _, _ => true end.

  (** profiler.py:65-145 profile_component; [key] is the fresh key of line 93. *)
  Definition profile_component (f : fs) (k : component) (pars batch : V) (n_warmup n_runs : nat)
      (key : V) (tick : nat) (w : world) : world * pst * result (list prof) :=
    let s := mk_pst key tick [] in
    if has_worksheet k
    then profile_works f k pars n_warmup n_runs (k_worksheet k) [("batch_size", batch)] s w
    else (w, s, Err RuntimeError).

  (** A likelihood as the profiler sees it: its aliases and its components; [None] is a component
      that is not a ComponentSim (profiler.py:191). *)
  Definition plikelihood := (dict string * dict (option component))%type.

  Variable as_params : params -> V.

  (** profiler.py:190-209 the components of one likelihood. [fresh] are the keys that get_key
      returns. *)
  Fixpoint profile_components (f : fs) (lname : string) (cs : dict (option component)) (pars batch : V)
      (n_warmup n_runs : nat) (fresh : nat -> V) (n tick : nat) (out : dict (list prof)) (w : world)
    : world * (nat * nat) * result (dict (list prof)) :=
    match cs with
    | [] => (w, (n, tick), Ok out)
    | (_, None) :: rest => profile_components f lname rest pars batch n_warmup n_runs fresh n tick out w
    | (cname, Some k) :: rest =>
        if has_worksheet k then
          let '(w1, s1, r) := profile_component f k pars batch n_warmup n_runs (fresh n) tick w in
          match r with
          | Err e => (w1, (S n, s_tick s1), Err e)
          | Ok res =>
              profile_components f lname rest pars batch n_warmup n_runs fresh (S n) (s_tick s1)
                (set (lname ++ "/" ++ cname)%string res out) w1
          end
        else (w, (n, tick), Err AssertionError)
    end.

  (** profiler.py:149-214 profile_context with the parameters given (or sampled before). *)
  Fixpoint profile_context (f : fs) (ls : dict plikelihood) (pars : params) (batch : V)
      (n_warmup n_runs : nat) (fresh : nat -> V) (n tick : nat) (out : dict (list prof)) (w : world)
    : world * (nat * nat) * result (dict (list prof)) :=
    match ls with
    | [] => (w, (n, tick), Ok out)
    | (lname, (alias, cs)) :: rest =>
        let '(w1, (n1, t1), r) :=
          profile_components f lname cs (as_params (replace_alias alias pars)) batch n_warmup n_runs
            fresh n tick out w in
        match r with
        | Err e => (w1, (n1, t1), Err e)
        | Ok out1 => profile_context f rest pars batch n_warmup n_runs fresh n1 t1 out1 w1
        end
    end.

  (** profiler.py:296-309: [n] runs of the whole simulation; the clock is read before and after each
      if they are timed. *)
  Fixpoint full_runs (n : nat) (time_it : bool) (k : component) (pars batch key : V) (tick : nat)
      (times : list R) : result (V * nat * list R) :=
    match n with
    | O => Ok (key, tick, times)
    | S n' =>
        match simulate V isem k key batch pars with
        | Err e => Err e
        | Ok (key', _) =>
            if time_it
            then full_runs n' time_it k pars batch key' (S (S tick))
                   (times ++ [((clock (S tick) - clock tick) * 1000)%R])
            else full_runs n' time_it k pars batch key' tick times
        end
    end.

  (** profiler.py:284-315 *)
  Fixpoint full_components (lname : string) (cs : dict (option component)) (pars batch : V)
      (n_warmup n_runs : nat) (fresh : nat -> V) (n tick : nat) (out : dict (fl * fl))
    : result (nat * nat * dict (fl * fl)) :=
    match cs with
    | [] => Ok (n, tick, out)
    | (_, None) :: rest => full_components lname rest pars batch n_warmup n_runs fresh n tick out
    | (cname, Some k) :: rest =>
        match k_simulate k with
        | None => Err AssertionError
        | Some _ =>
            match full_runs n_warmup false k pars batch (fresh n) tick [] with
            | Err e => Err e
            | Ok (key, tick1, _) =>
                match full_runs n_runs true k pars batch key tick1 [] with
                | Err e => Err e
                | Ok (_, tick2, times) =>
                    full_components lname rest pars batch n_warmup n_runs fresh (S n) tick2
                      (set (lname ++ "/" ++ cname)%string (mean_time times, std_time times) out)
                end
            end
        end
    end.

  (** profiler.py:254-323 profile_full_simulation *)
  Fixpoint profile_full (ls : dict plikelihood) (pars : params) (batch : V) (n_warmup n_runs : nat)
      (fresh : nat -> V) (n tick : nat) (out : dict (fl * fl)) : result (nat * nat * dict (fl * fl)) :=
    match ls with
    | [] => Ok (n, tick, out)
    | (lname, (alias, cs)) :: rest =>
        match full_components lname cs (as_params (replace_alias alias pars)) batch n_warmup n_runs
                fresh n tick out with
        | Err e => Err e
        | Ok (n1, t1, out1) => profile_full rest pars batch n_warmup n_runs fresh n1 t1 out1
        end
    end.
End Profiler.
Arguments mk_pst {V} _ _ _.
Arguments s_key {V} _.
Arguments s_tick {V} _.
Arguments s_calls {V} _.
