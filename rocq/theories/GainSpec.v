(** Specification of the gain of a split in exact arithmetic. *)
From Coq Require Import Reals ZArith List.
Import ListNotations.

(** The value a discretised gradient [v] of [w] bits stands for: [2^w] values evenly spread over [lo .. hi]. *)
Definition dequantised (w : nat) (lo hi : R) (v : N) : R := (lo + IZR (Z.of_N v) * ((hi - lo) / (2 ^ w - 1)))%R.
Definition Rsum (l : list R) : R := fold_right Rplus 0%R l.
(** The sum of the gradients of the examples [l], with discretised gradients [gv]. *)
Definition gradient_sum (w : nat) (lo hi : R) (gv : nat -> N) (l : list nat) : R := Rsum (map (fun k => dequantised w lo hi (gv k)) l).
(** (sum of the gradients)^2 / (number of examples + lambda) *)
Definition score (w : nat) (lo hi : R) (gv : nat -> N) (lambda : R) (l : list nat) : R :=
  ((gradient_sum w lo hi gv l) ^ 2 / (INR (length l) + lambda))%R.
(** The gain of dividing the examples [l] into those with [left k = true] and the others. *)
Definition split_gain (w : nat) (lo hi : R) (gv : nat -> N) (lambda : R) (left : nat -> bool) (l : list nat) : R :=
  (/ 2 * (score w lo hi gv lambda (filter left l) + score w lo hi gv lambda (filter (fun k => negb (left k)) l) - score w lo hi gv lambda l))%R.
