(** Model of the reports of appletree/profiler.py: what is printed, as rows of a table instead of text
    (the number of decimals and the width of columns are left out). No proofs in this file. *)
From Coq Require Import Reals ZArith.
From Verif Require Import Base ModelFloat ModelShare ModelConfig ModelComponent ModelCompile ModelLikelihood ModelProfiler.
Local Open Scope string_scope.
Local Open Scope list_scope.

(** profiler.py:231, 364: [sum(r["mean_time_ms"] for r in results)], from the left. *)
Definition total_ms (rs : list prof) : fl := fold_left fadd (map f_mean rs) (Fin 0).

(** profiler.py:229-233: one row per component, and the sum of the totals. *)
Definition component_row (kr : string * list prof) : string * fl * nat := (fst kr, total_ms (snd kr), List.length (snd kr)).
Definition grand_total (all : dict (list prof)) : fl := fold_left (fun s kr => fadd s (total_ms (snd kr))) all (Fin 0).

(** profiler.py:239-242: plugin, time and component of every entry. *)
Definition all_plugins (all : dict (list prof)) : list (string * fl * string) :=
  flat_map (fun kr => map (fun r => (f_plugin r, f_mean r, fst kr)) (snd kr)) all.

(** profiler.py:244: [sort(key=lambda x: x[1], reverse=True)] keeps the order of equal times. For times
    that are NaN the order of Python's sort is not this one (it depends on which pairs are compared). *)
Fixpoint insert_slow (x : string * fl * string) (l : list (string * fl * string)) : list (string * fl * string) :=
  match l with
  | [] => [x]
  | y :: l' => if flt (snd (fst x)) (snd (fst y)) then y :: insert_slow x l' else x :: l
  end.
Definition by_time (l : list (string * fl * string)) : list (string * fl * string) := fold_right insert_slow [] l.

(** [l[:n]] *)
Definition slice_to {A} (n : Z) (l : list A) : list A :=
  if Z.ltb n 0 then firstn (List.length l - Z.to_nat (- n)) l else firstn (Z.to_nat n) l.

(** profiler.py:217-250 print_profile_summary *)
Record summary := mk_summary {
  sm_rows : list (string * fl * nat);
  sm_total : fl;
  sm_top : list (nat * (string * fl * string))
}.
Definition print_profile_summary (all : dict (list prof)) (top_n : Z) : summary :=
  let top := slice_to top_n (by_time (all_plugins all)) in
  mk_summary (map component_row all) (grand_total all) (combine (seq 1 (List.length top)) top).

(** profiler.py:363-371: key, the two times and the overhead in percent. *)
Definition overhead (plugin_total full_time : fl) : fl :=
  if flt (Fin 0) full_time then fmul (fsub (fdiv plugin_total full_time) (Fin 1)) (Fin 100) else Fin 0.
Fixpoint compare_rows (plugins : dict (list prof)) (full : dict (fl * fl)) : result (list (string * fl * fl * fl)) :=
  match plugins with
  | [] => Ok []
  | (key, rs) :: rest =>
      match get key full with
      | None => Err KeyError
      | Some (mean, _) =>
          match compare_rows rest full with
          | Err e => Err e
          | Ok rows => Ok ((key, total_ms rs, mean, overhead (total_ms rs) mean) :: rows)
          end
      end
  end.

Section Compare.
  Variable V : Type.
  Variable isem : instance -> list V -> result (list V).
  Variable clock : nat -> R.
  Variable as_params : params -> V.

  (** profiler.py:326-375 compare_plugin_vs_full with the parameters given (or sampled before). *)
  Definition compare_plugin_vs_full (f : fs) (ls : dict plikelihood) (pars : params) (batch : V) (n_warmup n_runs : nat)
      (fresh : nat -> V) (n tick : nat) (w : world) : result (list (string * fl * fl * fl)) :=
    match profile_context V isem clock as_params f ls pars batch n_warmup n_runs fresh n tick [] w with
    | (_, _, Err e) => Err e
    | (_, (n1, t1), Ok plugins) =>
        match profile_full V isem clock as_params ls pars batch n_warmup n_runs fresh n1 t1 [] with
        | Err e => Err e
        | Ok (_, _, full) => compare_rows plugins full
        end
    end.
End Compare.

(** profiler.py:397-425 print_worksheet: number, plugin, what it provides and what it depends on. *)
Fixpoint comma (l : list string) : string :=
  match l with
  | [] => ""
  | [x] => x
  | x :: l' => x ++ ", " ++ comma l'
  end.
Definition depends_text (l : list string) : string := match l with [] => "(none)" | _ => comma l end.
Definition print_worksheet (k : component) : list (nat * string * string * string) :=
  map (fun iw => (fst iw, w_plugin (snd iw), comma (w_provides (snd iw)), depends_text (w_depends (snd iw))))
    (combine (seq 1 (List.length (k_worksheet k))) (k_worksheet k)).
