(** Specification for C74: the draws of the samplers. *)
From Verif Require Import Base.

(** [k] independent draws below [n]. *)
Definition independent_draws (n k : nat) (ds : list nat) : Prop := length ds = k /\ forall o, In o ds -> o < n.
(** The [m] draws of a reservoir of [k] entries for the elements [k], [k+1], ..., [k+m-1]: the draw for element [i] is below [i+1]. *)
Definition reservoir_draws (k m : nat) (ds : list nat) : Prop := length ds = m /\ forall i o, nth_error ds i = Some o -> o < k + i + 1.
