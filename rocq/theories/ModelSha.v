(** Model of utils.calculate_sha256 (appletree/utils.py:208-215): the file is read and hashed in blocks. No proofs in this
    file. *)
From Coq Require Import List.
Import ListNotations.

Section Sha.
  Variables Byte State Digest : Type.
  (** hashlib.sha256(), .update(block) and .hexdigest() *)
  Variable start : State.
  Variable update : State -> list Byte -> State.
  Variable hexdigest : State -> Digest.
  (** The size of a block, 4096 in the code. *)
  Variable size : nat.

  (** [f.read(size)]: at most [size] bytes, and what is left in the file. *)
  Definition read (rest : list Byte) : list Byte * list Byte := (firstn size rest, skipn size rest).

  (** utils.py:211-214: until a block is empty; [fuel] bounds the number of blocks, [None] is an endless loop. *)
  Fixpoint feed (fuel : nat) (s : State) (rest : list Byte) : option State :=
    match fuel with
    | O => None
    | S fuel' =>
        let '(block, rest') := read rest in
        match block with
        | [] => Some s
        | _ => feed fuel' (update s block) rest'
        end
    end.

  Definition calculate_sha256 (fuel : nat) (bytes : list Byte) : option Digest :=
    match feed fuel start bytes with Some s => Some (hexdigest s) | None => None end.
End Sha.
