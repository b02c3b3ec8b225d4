(** Specification for predicting new data (C51): what the data must offer, and when two rows are the same. *)
From Verif Require Import Base Num DataModel.

(** A table with at least [nf] columns (and at least one), all with one value per example.  Its kinds, limits and cardinalities do not matter. *)
Definition has_columns {O} (nf : nat) (d : data O) : Prop :=
  0 < length (d_features d) /\ nf <= length (d_features d) /\ forall col, In col (d_features d) -> length col = d_nexamples d.

(** The value of column [f] in row [i]. *)
Definition value_at {O} (d : data O) (f i : nat) : option (num O) :=
  match nth_error (d_features d) f with Some col => nth_error col i | None => None end.
(** Row [i] of one table and row [j] of another agree on the first [nf] columns. *)
Definition same_row {O} (nf : nat) (d : data O) (i : nat) (d' : data O) (j : nat) : Prop := forall f, f < nf -> value_at d f i = value_at d' f j.
