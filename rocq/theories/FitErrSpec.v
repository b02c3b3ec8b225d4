(** Specification of the fit of f32 predictions: the real numbers the floats stand for, compared without rounding.  Independent of the code. *)
From Coq Require Import Reals List.
From Flocq Require Import Core BinarySingleNaN.
From Verif Require Import Base F32 MetricSpec FitSpec.
Local Open Scope R_scope.

Definition reals (l : list f32) : list R := map B2R l.
(** The root of the sum of the squared errors over [examples]. *)
Definition root_error (target ps : list f32) (examples : list nat) : R := sqrt (sq_error (reals target) (reals ps) examples).
(** The root of the sum of the squared targets over [examples]. *)
Definition root_size (target : list f32) (examples : list nat) : R := sqrt (Rsum (map (fun i => nth i (reals target) 0 ^ 2) examples)).
(** What rounding can add to the root of the squared errors in one iteration: half a unit in the last place of every target, and the underflow threshold. *)
Definition round_off (target : list f32) (examples : list nat) : R := / 2 ^ 24 * root_size target examples + / 2 ^ 148 * sqrt (INR (length examples)).
