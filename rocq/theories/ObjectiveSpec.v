(** The losses the objectives are named after, in exact arithmetic.  Independent of the code except for the names of the objectives. *)
From Coq Require Import Reals List.
From Verif Require Import ObjectiveModel MetricSpec.
Import ListNotations.
Local Open Scope R_scope.

(** The class -1 or 1 of a target 0 or 1. *)
Definition label (t : R) : R := 2 * t - 1.
(** Huber's loss of the error [e]: quadratic up to [delta], linear beyond. *)
Definition huber (delta e : R) : R := if Rle_dec (Rabs e) delta then e ^ 2 / 2 else delta * (Rabs e - delta / 2).
(** The loss of prediction [p] for target [t]. *)
Definition loss (k : obj_kind) (delta t p : R) : R :=
  match k with
  | L2 => (t - p) ^ 2 / 2
  | L1 => Rabs (t - p)
  | Huber => huber delta (t - p)
  | Binary => ln (1 + exp (- 2 * label t * p))
  | Hinge => Rmax 0 (1 - label t * p)
  end.
(** The loss over [examples] when [v] is added to their predictions. *)
Definition total_loss (k : obj_kind) (delta : R) (targets preds : list R) (examples : list nat) (v : R) : R :=
  Rsum (map (fun i => loss k delta (nth i targets 0) (nth i preds 0 + v)) examples).
(** [v] is the best constant to add. *)
Definition minimises (f : R -> R) (v : R) : Prop := forall w, f v <= f w.
