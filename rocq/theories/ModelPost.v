(** Model of Context.get_template (appletree/context.py:392-416) for the contexts of ModelWhole after a fit as in ModelFit.
    No proofs in this file. The key is the one made by randgen.get_key (ModelRandgen). *)
From Coq Require Import Reals.
From Verif Require Import Base ModelFloat ModelParameter ModelLikelihood ModelLit ModelContext ModelFit ModelWhole.
Local Open Scope list_scope.

Section Template.
  Variables K Rng : Type.

  (** context.py:411-416: the method simulate of a component (context.py:73-75, likelihood.py:102-104), called with the
      parameters as they are; the columns it returns. *)
  Definition template (c : context K) (lname cname : string) (key : K) (batch : nat) (p : params) : result (list (list fl)) :=
    match get lname (cx_llhs c) with
    | None => Err KeyError
    | Some L =>
        match get cname (wl_sims L) with
        | None => Err KeyError
        | Some sim => do kr <- sim key batch p; Ok (snd kr)
        end
    end.

  (** context.py:408-416: the parameters are those of the best sample. *)
  Definition get_template (c : context K) (lname cname : string) (key : K) (batch : nat) (x : fctx Rng)
      : fctx Rng * result (list (list fl)) :=
    match post_parameters Rng Mpe x with
    | (x', Err e) => (x', Err e)
    | (x', Ok d) => (x', template c lname cname key batch d)
    end.
End Template.
