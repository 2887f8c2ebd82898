(** Vocabulary for the property about the normalisation on the number of simulated events. *)
From Coq Require Import Reals.
From Verif Require Import Base ModelFloat ModelHist ModelLikelihood SpecHist SpecWeighted
  ModelShare ModelConfig ModelComponent SpecRecompile.
Local Open Scope string_scope.

(** The operation is one of another component than [k]: not a compilation in the namespace of [k]. *)
Definition of_another (k : component) (o : wop) : Prop :=
  match o with
  | OCompile _ _ k2 =>
      forall pr a pr2 a2, k_compile k = Some (pr, a) -> k_compile k2 = Some (pr2, a2) -> a2 <> a
  | OClear => False
  | _ => True
  end.

(** The plugin instance of class [p] that the compiled function of [k] calls. *)
Definition calls_instance (k : component) (p : plugin) (i : instance) : Prop :=
  exists cl, k_simulate k = Some cl /\ get (p_name p ++ "_" ++ k_name k) (cl_insts cl) = Some i.

(** What may happen after [k] was compiled: operations of other components, changes of the
    configuration and further compilations of [k] that succeed. *)
Inductive later (k : component) (w : world) : component -> world -> Prop :=
| la_here : later k w k w
| la_other k2 w2 o : later k w k2 w2 -> of_another k2 o -> later k w k2 (fst (wstep o w2))
| la_compile k2 w2 f plugins w3 k3 :
    later k w k2 w2 -> compile f plugins k2 w2 = (w3, k3, Ok tt) -> later k w k3 w3.

(** The number of events that a histogram of [batch] events stands for: the events that the
    bootstrap instance selected ([selected]) if the energy comes from a bootstrap that the compiled
    function calls, the batch size if it comes from another class. *)
Inductive counted (selected : instance -> result fl) (k : component) (batch : nat) : R -> Prop :=
| co_batch : other_energy k -> counted selected k batch (INR batch)
| co_bootstrap p a c i n :
    get "energy" (k_registry k) = Some p -> p_name p = a ++ "Bootstrap" ++ c ->
    calls_instance k p i -> selected i = Ok (Fin n) -> counted selected k batch n.

(** The efficiencies of the events are numbers between 0 and 1. *)
Definition efficiency_ok (no_eff : bool) (rows : list (list fl)) : Prop :=
  forall r, In r rows -> exists e, snd (sim_event no_eff r) = Fin e /\ (0 <= e <= 1)%R.

(** The sum of the efficiencies of the events that satisfy [P]. *)
Definition eff_sum (no_eff : bool) (P : list fl -> bool) (rows : list (list fl)) : R :=
  fold_right Rplus 0%R
    (map (fun r => match snd (sim_event no_eff r) with Fin e => e | _ => 0%R end)
         (filter (fun r => P (fst (sim_event no_eff r))) rows)).
