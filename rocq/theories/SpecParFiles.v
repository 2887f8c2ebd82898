(** Vocabulary for the parameter files that appletree ships (C91). No proofs. *)
From Coq Require Import Reals.
From Verif Require Import Base ModelFloat ModelParameter SpecParameter.
Local Open Scope string_scope.
Local Open Scope R_scope.

(** The root finder of utils.py:652-675 finds widths for the errors in the file. *)
Definition solvable (sigmas : fl -> fl -> result (fl * fl)) (cfg : dict setting) : Prop :=
  forall n s args ep en, In (n, s) cfg -> s_type s = Some "twohalfnorm" -> s_args s = Some args ->
    get "sigma_pos" args = Some ep -> get "sigma_neg" args = Some en ->
    exists sp sn, sigmas ep en = Ok (Fin sp, Fin sn) /\ 0 < sp /\ 0 < sn.

(** A setting that can be used for everything: values can be drawn from its prior and around its
    initial guess, the prior can be evaluated, the initial guess and the centre of the prior are
    allowed values, and a uniform prior has the allowed range as its support. *)
Record sound_setting (sigmas : fl -> fl -> result (fl * fl)) (s : setting) : Prop := {
  ss_type : exists ty, s_type s = Some ty /\ In ty ("fixed" :: known_types);
  ss_draw : drawable sigmas s;
  ss_start : startable s;
  ss_free : s_type s <> Some "fixed" -> proper sigmas s /\ reachable_range s /\
    exists m, s_mean s = Some m /\ in_range s m;
  ss_centre : forall args m, s_args s = Some args -> get "mean" args = Some m \/ get "mu" args = Some m -> in_range s m;
  ss_support : s_type s = Some "uniform" -> exists args lo hi, s_args s = Some args /\
    get "lower" args = Some lo /\ get "upper" args = Some hi /\ s_range s = Some (lo, hi)
}.
