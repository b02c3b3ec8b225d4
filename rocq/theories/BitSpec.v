(** Specification of bit memory, independent of the access functions of the model: which bit
    positions of a byte string are set. *)
From Verif Require Import Base BitModel.

(** Bit [i] of a byte string: bit [i mod 8] of byte [i / 8]; false beyond the end. *)
Definition bitAt (m : list N) (i : nat) : bool :=
  N.testbit (nth (i / 8) m 0%N) (N.of_nat (i mod 8)).

(** Bit [i] of an array of 32-byte blocks. *)
Definition bbit (bs : blocks) (i : nat) : bool := bitAt (concat bs) i.

(** Bytes are below 256, blocks have 32 bytes. *)
Definition wf_bytes (m : list N) : Prop := Forall (fun b => (b < 256)%N) m.
Definition wf_block (b : block) : Prop := length b = 32 /\ wf_bytes b.
Definition wf_blocks (bs : blocks) : Prop := Forall wf_block bs.

(** Sum of a function over 0..n-1. *)
Definition sumf (n : nat) (f : nat -> N) : N := sumN (map f (seq 0 n)).

(** Number of positions below [n] satisfying [p]. *)
Definition countf (n : nat) (p : nat -> bool) : N := N.of_nat (length (filter p (seq 0 n))).
