(** Model of the jax samplers of appletree/randgen.py (lines 35-515 and 618-647). No proofs in this
    file.

    Keys are the nodes of the splitting tree of jax.random, written as paths. What jax.random draws
    from a key is arbitrary: an [oracle] gives a number for each key and each position in the array.
    Arrays are functions from positions to values; broadcasting is not modelled. Floats are the
    idealised numbers of ModelFloat, integers are unbounded. A sampler threads the key as the source
    does and records every key handed to jax.random. *)
From Coq Require Import Reals ZArith.
From Verif Require Import Base ModelFloat.
Local Open Scope R_scope.

Declare Scope fl_scope.
Delimit Scope fl_scope with fl.
Bind Scope fl_scope with fl.
Infix "+" := fadd : fl_scope.
Infix "-" := fsub : fl_scope.
Infix "*" := fmul : fl_scope.
Infix "/" := fdiv : fl_scope.
Notation "# r" := (Fin r) (at level 0, r at level 0) : fl_scope.

(** A key: the root key, then which child at every split. *)
Definition key := list nat.
(** jax.random.split(key, n)[i] *)
Definition child (k : key) (i : nat) : key := k ++ [i].

Definition arr (A : Type) := nat -> A.

(** What jax.random returns for a key at a position of the array. Casting a non-finite float to an
    integer and raising a negative number or an infinity to a power are arbitrary too. *)
Record oracle := mk_oracle {
  o_unif : key -> nat -> R;             (* random.uniform on [0,1) *)
  o_norm : key -> nat -> R;             (* random.normal *)
  o_pois : key -> nat -> fl -> Z;       (* random.poisson *)
  o_gamma : key -> nat -> fl -> fl;     (* random.gamma *)
  o_bern : key -> nat -> fl -> bool;    (* random.bernoulli *)
  o_binom : key -> nat -> Z -> fl -> Z; (* random.binomial, cast to integer *)
  o_cast : fl -> Z;
  o_pow : fl -> fl -> fl;
  o_erf : R -> R }.

(** Computations that thread a key. *)
Definition M (A : Type) := key -> A * key * list key.
Definition ret {A} (a : A) : M A := fun k => (a, k, []).
Definition bind {A B} (m : M A) (f : A -> M B) : M B :=
  fun k => let '(a, k1, u1) := m k in let '(b, k2, u2) := f a k1 in (b, k2, (u1 ++ u2)%list).
Notation "x <- m ;; f" := (bind m (fun x => f)) (at level 61, m at next level, right associativity).

(** key, seed = random.split(key) *)
Definition split2 : M key := fun k => (child k 1, child k 0, [k]).
(** A draw from a seed. *)
Definition use (s : key) : M unit := fun k => (tt, k, [s]).

(* ------------------------------------------------------------------ *)
(** * Elementary functions on floats *)

Definition fsqrt (x : fl) : fl :=
  match x with
  | Fin r => if Rlt_dec r 0 then NaN else Fin (sqrt r)
  | PInf => PInf | NInf => NaN | NaN => NaN
  end.
Definition fexp (x : fl) : fl :=
  match x with Fin r => Fin (exp r) | PInf => PInf | NInf => Fin 0 | NaN => NaN end.
Definition fabsf (x : fl) : fl :=
  match x with Fin r => Fin (Rabs r) | PInf | NInf => PInf | NaN => NaN end.
(** x ** y *)
Definition fpow (o : oracle) (x y : fl) : fl :=
  match x, y with
  | Fin a, Fin b =>
      if Rlt_dec 0 a then Fin (Rpower a b)
      else if Req_EM_T a 0
           then (if Rlt_dec 0 b then Fin 0 else if Req_EM_T b 0 then Fin 1 else PInf)
           else o_pow o x y
  | _, _ => o_pow o x y
  end.

(** jnp.round: to the nearest integer, ties to even. *)
Definition roundZ (r : R) : Z :=
  let n := Int_part r in
  if Rlt_dec (r - IZR n) (/ 2) then n
  else if Rlt_dec (/ 2) (r - IZR n) then (n + 1)%Z
  else if Z.even n then n else (n + 1)%Z.
Definition fround (x : fl) : fl := match x with Fin r => Fin (IZR (roundZ r)) | _ => x end.
(** astype(int): towards zero. *)
Definition truncZ (r : R) : Z := if Rle_dec 0 r then Int_part r else (- Int_part (- r))%Z.
Definition to_int (o : oracle) (x : fl) : Z := match x with Fin r => truncZ r | _ => o_cast o x end.
Definition of_int (n : Z) : fl := Fin (IZR n).
(** jnp.where(c, a, b) *)
Definition where_ {A} (c : bool) (a b : A) : A := if c then a else b.

(* ------------------------------------------------------------------ *)
(** * Samplers *)

(** randgen.py 43-66; random.uniform(seed, shape, minval, maxval). *)
Definition uniform (o : oracle) (vmin vmax : arr fl) : M (arr fl) :=
  seed <- split2;; _ <- use seed;;
  ret (fun e => fmax (vmin e) (#(o_unif o seed e) * (vmax e - vmin e) + vmin e)%fl).

(** randgen.py 69-89 *)
Definition poisson (o : oracle) (lam : arr fl) : M (arr Z) :=
  seed <- split2;; _ <- use seed;; ret (fun e => o_pois o seed e (lam e)).

(** randgen.py 92-115 *)
Definition gamma (o : oracle) (alpha beta : arr fl) : M (arr fl) :=
  seed <- split2;; _ <- use seed;; ret (fun e => (o_gamma o seed e (alpha e) / beta e)%fl).

(** randgen.py 118-141 *)
Definition normal (o : oracle) (mean std : arr fl) : M (arr fl) :=
  seed <- split2;; _ <- use seed;; ret (fun e => (#(o_norm o seed e) * std e + mean e)%fl).

(** randgen.py 144-165; a bound that is None is not applied. *)
Definition clip_opt (x : fl) (vmin vmax : option fl) : fl :=
  let x := match vmin with Some v => fmax x v | None => x end in
  match vmax with Some v => fmin x v | None => x end.
Definition truncate_normal (o : oracle) (mean std : arr fl) (vmin vmax : option fl) : M (arr fl) :=
  rvs <- normal o mean std;; ret (fun e => clip_opt (rvs e) vmin vmax).

(** randgen.py 168-201 *)
Definition skewnormal (o : oracle) (a loc scale : arr fl) : M (arr fl) :=
  seed0 <- split2;; _ <- use seed0;;
  seed1 <- split2;; _ <- use seed1;;
  ret (fun e => ((a e * fabsf #(o_norm o seed0 e) + #(o_norm o seed1 e)) / fsqrt (#1 + a e * a e) * scale e + loc e)%fl).

(** randgen.py 204-224 *)
Definition bernoulli (o : oracle) (p : arr fl) : M (arr Z) :=
  seed <- split2;; _ <- use seed;; ret (fun e => if o_bern o seed e (p e) then 1%Z else 0%Z).

(** randgen.py 250-297: the Cornish-Fisher value from a standard normal number. *)
Definition tiny : fl := #(/ 1000000000000)%fl.
Definition cornish_fisher (z p n : fl) : fl :=
  (let flip := flt #(/ 2) p in
   let p0 := where_ flip (#1 - p) p in
   let q0 := #1 - p0 in
   let mu := n * p0 in
   let var := n * p0 * q0 in
   let sigma := fsqrt (var + tiny) in
   let var_safe := var + tiny in
   let gamma1 := (q0 - p0) / (sigma + tiny) in
   let gamma2 := (#1 - #6 * p0 * q0) / var_safe in
   let z2 := z * z in
   let z3 := z2 * z in
   let gamma1_sq := gamma1 * gamma1 in
   let z_cf := z + (gamma1 / #6) * (z2 - #1) + (gamma2 / #24) * (z3 - #3 * z)
               - (gamma1_sq / #36) * (#2 * z3 - #5 * z) in
   let x_cf := fround (mu + sigma * z_cf) in
   let x_cf := fclip x_cf #0 n in
   where_ flip (n - x_cf) x_cf)%fl.

(** randgen.py 299-315: number of successes among the first n of [threshold] trials. *)
Definition bernoulli_sum (u : nat -> R) (threshold : nat) (p n : fl) : Z :=
  Z.of_nat (List.length (filter (fun t => flt #(u t)%fl p && flt #(INR t)%fl n) (seq 0 threshold))).

(** randgen.py 227-323: binomial_hybrid. *)
Definition binomial_hybrid (o : oracle) (threshold : nat) (p : arr fl) (n : arr Z) : M (arr Z) :=
  fun k =>
    let key := child k 0 in
    let key_cf := child k 1 in
    let key_bernoulli := child k 2 in
    let value := fun e =>
      (let n := of_int (n e) in
       let p := p e in
       let x_cf := cornish_fisher #(o_norm o key_cf e) p n in
       let x_bernoulli := of_int (bernoulli_sum (fun t => o_unif o key_bernoulli (e * threshold + t)) threshold p n) in
       let x := where_ (fle n #(INR threshold)) x_bernoulli x_cf in
       let x := where_ (fle p #0) #0 x in
       let x := where_ (fle #1 p) n x in
       where_ (fle n #0) #0 x)%fl in
    (fun e => to_int o (value e), key, [k; key_cf; key_bernoulli]).

(** randgen.py 347-377: binomial with jax.random.binomial. *)
Definition binomial_jax (o : oracle) (p : arr fl) (n : arr Z) : M (arr Z) :=
  seed <- split2;; _ <- use seed;; ret (fun e => o_binom o seed e (n e) (p e)).

(** randgen.py 411-416: the normal approximation, for one element. *)
Definition binomial_normal_approx (o : oracle) (seed : key) (p : fl) (n : Z) : Z :=
  (let q := #1 - p in
   let mean := of_int n * p in
   let std := fsqrt (of_int n * p * q) in
   let rvs := fclip (#(o_norm o seed 0) * std + mean) #0 (of_int n) in
   to_int o (fround rvs))%fl.

(** randgen.py 379-442: binomial without jax.random.binomial, for an array of [size] elements; the
    exact sampler of numpyro is the oracle's. *)
Definition binomial_numpyro (o : oracle) (always_use_normal : bool) (size : nat) (p : arr fl) (n : arr Z) : M (arr Z) :=
  seed <- split2;;
  fun k =>
    let dispatch := fun e =>
      let s := child seed e in
      if always_use_normal || fle #5%fl (of_int (n e) * p e)%fl
      then binomial_normal_approx o s (p e) (n e)
      else o_binom o s 0 (n e) (p e) in
    (dispatch, k, seed :: map (child seed) (seq 0 size)).

(** The sampler chosen when the module is imported (randgen.py 326, 347, 379). *)
Inductive binmode := Hybrid | JaxBinomial | Numpyro (always_use_normal : bool).
Definition HYBRID_BERNOULLI_THRESHOLD : nat := 128.
Definition binomial (o : oracle) (mode : binmode) (size : nat) (p : arr fl) (n : arr Z) : M (arr Z) :=
  match mode with
  | Hybrid => binomial_hybrid o HYBRID_BERNOULLI_THRESHOLD p n
  | JaxBinomial => binomial_jax o p n
  | Numpyro b => binomial_numpyro o b size p n
  end.

(** randgen.py 445-470 *)
Definition negative_binomial (o : oracle) (p n : arr fl) : M (arr Z) :=
  lam <- gamma o n (fun e => (p e / (#1 - p e))%fl);; poisson o lam.

(** randgen.py 473-515: generalized_poisson. The while loop runs at most [fuel] times here; the
    result is None if it has not stopped by then. *)
Fixpoint gp_loop (o : oracle) (size fuel : nat) (eta : arr fl) (offspring population : arr Z) : M (option (arr Z)) :=
  if existsb (fun e => Z.ltb 0 (offspring e)) (seq 0 size) then
    match fuel with
    | O => ret None
    | S fuel' =>
        offspring' <- poisson o (fun e => (eta e * of_int (offspring e))%fl);;
        gp_loop o size fuel' eta offspring' (fun e => (population e + offspring' e)%Z)
    end
  else ret (Some population).
Definition generalized_poisson (o : oracle) (size fuel : nat) (lam eta : arr fl) : M (option (arr Z)) :=
  population <- poisson o (fun e => (lam e * (#1 - eta e))%fl);;
  gp_loop o size fuel eta population population.

(** randgen.py 618-647: twohalfnorm; the uniform and the normal number come from the same seed. *)
Definition twohalfnorm (o : oracle) (mu sigma_pos sigma_neg : arr fl) : M (arr fl) :=
  seed <- split2;; _ <- use seed;; _ <- use seed;;
  ret (fun e =>
    let pos_half_prob := (sigma_pos e / (sigma_pos e + sigma_neg e))%fl in
    let use_pos_half := flt #(o_unif o seed e)%fl pos_half_prob in
    let n_sigma := fabsf #(o_norm o seed e)%fl in
    let b := fun c : bool => #(if c then 1 else 0)%fl in
    (b use_pos_half * n_sigma * sigma_pos e - b (negb use_pos_half) * n_sigma * sigma_neg e + mu e)%fl).
