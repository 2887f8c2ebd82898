(** C102: the hash of a file in a lineage is that of its bytes, however long the file is. *)
From Coq Require Import List Lia PeanoNat.
From Verif Require Import ModelSha.
Import ListNotations.

(** hashlib documents that updating with two blocks is updating with their concatenation. *)
Theorem C102_blocks {Byte State Digest} (start : State) (update : State -> list Byte -> State) (hexdigest : State -> Digest) size fuel bytes :
  (forall s a b, update (update s a) b = update s (a ++ b)) -> (forall s, update s [] = s) ->
  0 < size -> List.length bytes < fuel ->
  calculate_sha256 Byte State Digest start update hexdigest size fuel bytes = Some (hexdigest (update start bytes)).
Proof.
  intros Hu Hn Hs Hf. unfold calculate_sha256.
  assert (G : forall fuel s bytes, List.length bytes < fuel -> feed Byte State update size fuel s bytes = Some (update s bytes)).
  { clear fuel bytes Hf. induction fuel as [|fuel IH]; intros s bytes Hf; [lia|]. cbn [feed read].
    destruct (firstn size bytes) as [|b bs] eqn:Eb.
    - destruct bytes as [|b bytes]; [rewrite Hn; reflexivity|]. destruct size; [lia|discriminate].
    - rewrite <- Eb. rewrite IH.
      + rewrite Hu, firstn_skipn. reflexivity.
      + rewrite skipn_length. destruct bytes; [rewrite firstn_nil in Eb; discriminate|]. cbn [List.length] in *. lia. }
  rewrite G by exact Hf. reflexivity.
Qed.
(** With the bytes themselves as state: five bytes in blocks of two. *)
Example C102_blocks_case :
  calculate_sha256 nat (list nat) (list nat) [] (@app nat) (fun s => s) 2 9 [1; 2; 3; 4; 5] = Some [1; 2; 3; 4; 5].
Proof. reflexivity. Qed.

Print Assumptions C102_blocks.
