(** Model of randgen.get_key (appletree/randgen.py:36-40) and of what jax.random.PRNGKey makes of a seed.
    No proofs in this file. *)
From Coq Require Import Reals ZArith.

(** jax.random.PRNGKey of a Python integer (threefry, jax/_src/prng.py): the integer as int64 ([None] is the
    OverflowError of np.int64), cut to 32 bits unless x64 is enabled; the key is the upper and the lower 32 bits, of a
    32 bit integer 0 and its bits. *)
Definition prng_key (x64 : bool) (seed : Z) : option (Z * Z) :=
  if ((- 2 ^ 63 <=? seed) && (seed <? 2 ^ 63))%bool%Z then
    Some (if x64 then (((seed mod 2 ^ 64) / 2 ^ 32)%Z, (seed mod 2 ^ 32)%Z) else (0%Z, (seed mod 2 ^ 32)%Z))
  else None.

Section Clock.
  (** The rounding of the product of two floats. *)
  Variable rnd : R -> R.

  (** randgen.py:38-39 [int(time() * 1e6)]: [int] cuts off; the clock is not negative. *)
  Definition time_seed (t : R) : Z := Int_part (rnd (t * 1000000)).

  (** randgen.py:36-40 get_key: with the seed given, or with the time [t] at which it is called. *)
  Definition get_key (x64 : bool) (seed : option Z) (t : R) : option (Z * Z) :=
    prng_key x64 (match seed with Some s => s | None => time_seed t end).
End Clock.
