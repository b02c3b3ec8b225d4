(** Specification of bit-sliced arrays and of the index-compressed masks. *)
From Verif Require Import Base BitModel BitSpec.

(** Masked sum of the numbers [vals 0 .. vals (n-1)]. *)
Definition masked_sum (n : nat) (m : nat -> bool) (vals : nat -> N) : N :=
  sumf n (fun p => if m p then vals p else 0%N).

(** Position addressed in the full vector by position [p] of a compressed vector whose 32-bit block [j]
    stands for block [ix j] of the full vector. *)
Definition expand_pos (ix : nat -> nat) (p : nat) : nat := 32 * ix (p / 32) + p mod 32.

(** 32-bit block number [j] of an array read as a little-endian number: the sum of its bits' weights. *)
Definition u32_at (bs : blocks) (j : nat) : N :=
  sumf 32 (fun t => (2 ^ N.of_nat t * b2n (bbit bs (32 * j + t)))%N).

(** A compressed set: 32-bit block [j] of [bset] stands for block [u32_at idxs j] of the full set.
    Element [x] belongs to it iff some block [j] stands for block [x / 32] and has bit [x mod 32] set. *)
Definition in_compr_set (idxs bset : blocks) (x : nat) : bool :=
  existsb (fun j => (N.to_nat (u32_at idxs j) =? x / 32) && bbit bset (32 * j + x mod 32)) (seq 0 (length idxs * 8)).

(** The block indices are strictly increasing up to the last non-empty block (the rest is padding). *)
Definition increasing_blocks (idxs bset : blocks) : Prop :=
  forall i j, i < j -> j < length idxs * 8 -> u32_at bset j <> 0%N -> (u32_at idxs i < u32_at idxs j)%N.
