(** Specification of how far single-precision results may be from the exact ones. *)
From Coq Require Import Reals ZArith List.
From Flocq Require Import Core BinarySingleNaN.
From Verif Require Import F32 Num DatasetModel LearnerModel.
Import ListNotations.

(** The f32 [x] is a number (no NaN, no infinity) within [e] of the real number [r]. *)
Definition close (x : f32) (r e : R) : Prop := is_finite x = true /\ (Rabs (B2R x - r) <= e)%R.

(** Usable bounds for the gradients: finite, not empty, none larger than [B] in magnitude. *)
Definition bounded_by (B : R) (lo hi : f32) : Prop :=
  is_finite lo = true /\ is_finite hi = true /\ (B2R lo < B2R hi)%R /\ (Rabs (B2R lo) <= B)%R /\ (Rabs (B2R hi) <= B)%R.

(** Nodes are numbered level by level: the root is 0, the children of node [i] are 2i+1 and 2i+2; the root has depth 0. *)
Definition node_depth {O} (nd : node O) : nat := Nat.log2 (nd_id nd + 1).

Definition clamp (lo hi v : R) : R := Rmin hi (Rmax lo v).

(** The sum of the gradients of the examples [l] (example [k] is row [nth k rows] of the data), each clamped to the bounds, before any rounding. *)
Definition clamped_gradient (lo hi : f32) (gradients : list f32) (rows : list nat) (k : nat) : R :=
  match nth_error rows k with
  | Some j => match nth_error gradients j with Some g => clamp (B2R lo) (B2R hi) (B2R g) | None => 0%R end
  | None => 0%R
  end.
Definition true_sum (lo hi : f32) (gradients : list f32) (rows l : list nat) : R :=
  fold_right Rplus 0%R (map (clamped_gradient lo hi gradients rows) l).
