(** Specification of boosting: when two predictions are the same, and the data training accepts. *)
From Coq Require Import Permutation.
From Flocq Require Import BinarySingleNaN.
From Verif Require Import Base F32 Num DataModel Config DatasetModel LearnerModel ObjectiveModel MetricModel.

(** The same number: the same f32, or zeros of any sign. *)
Definition is_zero (x : f32) : Prop := exists s, x = B754_zero s.
Definition same_number (x y : f32) : Prop := x = y \/ is_zero x /\ is_zero y.

(** At least one example; all columns (the last one is the target) have one value per example. *)
Definition well_formed {O} (d : data O) : Prop :=
  0 < d_nexamples d /\ d_nfeatures d < length (d_features d) /\ forall col, In col (d_features d) -> length col = d_nexamples d.

(** In every iteration, every job of every node runs once, in any order. *)
Definition any_order (sched : nat -> nat -> list job -> list job) : Prop := forall i k js, Permutation js (sched i k js).
