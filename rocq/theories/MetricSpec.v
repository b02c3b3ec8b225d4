(** What the metrics are supposed to compute, in exact arithmetic.  Independent of the model. *)
From Coq Require Import Reals List.
Import ListNotations.
Local Open Scope R_scope.

Fixpoint Rsum (l : list R) : R := match l with [] => 0 | x :: t => x + Rsum t end.
(** The average of a quantity over the (target, prediction) pairs. *)
Definition average (f : R -> R -> R) (pairs : list (R * R)) : R :=
  Rsum (map (fun tp => f (fst tp) (snd tp)) pairs) / INR (length pairs).

Definition squared_error (t p : R) : R := (t - p) ^ 2.
(** Logistic loss with labels -1 and 1 (target 0 and 1) and margin twice the prediction. *)
Definition log_loss (t p : R) : R := ln (1 + exp (- 2 * (2 * t - 1) * p)).
(** A target of at least one half means the positive class; so does a prediction of at least [threshold]. *)
Definition wrong (threshold t p : R) : Prop := (t < 1 / 2 /\ threshold <= p) \/ (1 / 2 <= t /\ p < threshold).
(** [k] of the pairs satisfy [P]. *)
Inductive count_of (P : R -> R -> Prop) : list (R * R) -> nat -> Prop :=
| count_nil : count_of P [] 0
| count_yes t p l k : P t p -> count_of P l k -> count_of P ((t, p) :: l) (S k)
| count_no t p l k : ~ P t p -> count_of P l k -> count_of P ((t, p) :: l) k.
