(** C132: vocabulary for what random numbers a Parameter object asks for, and what it makes of them. *)
From Coq Require Import Reals.
From Verif Require Import Base ModelFloat ModelParameter.
Local Open Scope R_scope.
Local Open Scope string_scope.
Local Open Scope list_scope.

(** A call of np.random.normal or np.random.uniform. *)
Inductive request := AskNormal (mean std : R) | AskUniform (low high : R).

(** A generator that remembers what it was asked: its state is the list of requests so far, and it
    answers the i-th one with [answer i]. Every sequence of numbers that numpy can produce is such an
    [answer]. *)
Section Recorder.
  Variable answer : nat -> request -> R.
  Definition rec_normal (m sd : fl) (g : list request) : result (fl * list request) :=
    match m, sd with
    | Fin m, Fin sd => if Rlt_dec sd 0 then Err ValueError
                       else Ok (Fin (answer (List.length g) (AskNormal m sd)), g ++ [AskNormal m sd])
    | _, _ => Err ValueError
    end.
  Definition rec_uniform (a b : fl) (g : list request) : result (fl * list request) :=
    match a, b with
    | Fin a, Fin b => Ok (Fin (answer (List.length g) (AskUniform a b)), g ++ [AskUniform a b])
    | _, _ => Err ValueError
    end.
  (** The answers to the requests [rs] if [k] requests came before. *)
  Fixpoint answers (k : nat) (rs : list request) : list R :=
    match rs with
    | [] => []
    | r :: rest => answer k r :: answers (S k) rest
    end.
End Recorder.

(** The point of the range that is nearest to a number. *)
Definition nearest (s : setting) (x : R) (v : fl) : Prop :=
  exists lo hi, s_range s = Some (lo, hi) /\
    (fle lo (Fin x) = true -> fle (Fin x) hi = true -> v = Fin x) /\
    (fle lo (Fin x) = false -> v = lo) /\ (fle (Fin x) hi = false -> v = hi).

(** What drawing a parameter from its prior asks for ([rs]), and its value for the answers [xs]. *)
Inductive drawn (sigmas : fl -> fl -> result (fl * fl)) (s : setting) : list request -> list R -> fl -> Prop :=
| drawn_norm args m sd x v :
    s_type s = Some "norm" -> s_args s = Some args -> get "mean" args = Some (Fin m) -> get "std" args = Some (Fin sd) ->
    nearest s x v -> drawn sigmas s [AskNormal m sd] [x] v
| drawn_above args ep en mu sp sn u z v :
    s_type s = Some "twohalfnorm" -> s_args s = Some args ->
    get "mu" args = Some (Fin mu) -> get "sigma_pos" args = Some ep -> get "sigma_neg" args = Some en ->
    sigmas ep en = Ok (Fin sp, Fin sn) -> u < sp / (sp + sn) ->
    nearest s (mu + Rabs z * sp) v -> drawn sigmas s [AskUniform 0 1; AskNormal 0 1] [u; z] v
| drawn_below args ep en mu sp sn u z v :
    s_type s = Some "twohalfnorm" -> s_args s = Some args ->
    get "mu" args = Some (Fin mu) -> get "sigma_pos" args = Some ep -> get "sigma_neg" args = Some en ->
    sigmas ep en = Ok (Fin sp, Fin sn) -> sp / (sp + sn) <= u ->
    nearest s (mu - Rabs z * sn) v -> drawn sigmas s [AskUniform 0 1; AskNormal 0 1] [u; z] v
| drawn_uniform args a b x v :
    s_type s = Some "uniform" -> s_args s = Some args -> get "lower" args = Some (Fin a) -> get "upper" args = Some (Fin b) ->
    nearest s x v -> drawn sigmas s [AskUniform a b] [x] v
| drawn_free m sd x v :
    s_type s = Some "free" -> s_mean s = Some (Fin m) -> s_std s = Some (Fin sd) ->
    nearest s x v -> drawn sigmas s [AskNormal m sd] [x] v
| drawn_fixed args v :
    s_type s = Some "fixed" -> s_args s = Some args -> get "val" args = Some v -> drawn sigmas s [] [] v.

(** The same for the start values: one normal draw around the initial guess, whatever the prior. *)
Inductive started (s : setting) : list request -> list R -> fl -> Prop :=
| started_guess ty m sd x v :
    s_type s = Some ty -> ty <> "fixed" -> s_mean s = Some (Fin m) -> s_std s = Some (Fin sd) ->
    nearest s x v -> started s [AskNormal m sd] [x] v
| started_fixed args v :
    s_type s = Some "fixed" -> s_args s = Some args -> get "val" args = Some v -> started s [] [] v.

(** Every parameter in turn, with requests of its own. [D] is [drawn] or [started]. *)
Definition each_its_own (D : setting -> list request -> list R -> fl -> Prop) (answer : nat -> request -> R)
    (st st' : pstate) (k : nat) (rss : list (list request)) : Prop :=
  List.length rss = List.length (keys (p_values st)) /\
  forall i n rs, nth_error (keys (p_values st)) i = Some n -> nth_error rss i = Some rs ->
    exists s v, get n (p_config st) = Some s /\ get n (p_values st') = Some v /\
      D s rs (answers answer (k + List.length (List.concat (firstn i rss)))%nat rs) v.
