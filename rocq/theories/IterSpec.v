(** Specification of bit iteration. *)
From Verif Require Import Base BitModel BitSpec SliceSpec.

(** Positions below [n] satisfying [p], in increasing order. *)
Definition positions (n : nat) (p : nat -> bool) : list nat := filter p (seq 0 n).

(** The same for a compressed vector: positions are mapped to the positions they stand for. *)
Definition positions_compr (n : nat) (ix : nat -> nat) (p : nat -> bool) : list nat :=
  map (expand_pos ix) (filter p (seq 0 n)).

(** Calling a visitor on the elements of a list until it asks to stop. *)
Fixpoint visit {S} (f : S -> nat -> S * bool) (s : S) (l : list nat) : S :=
  match l with
  | [] => s
  | x :: t => let '(s', stop) := f s x in if stop then s' else visit f s' t
  end.
