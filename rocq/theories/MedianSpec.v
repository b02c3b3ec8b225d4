(** When training with the absolute or the Huber error stops. *)
From Coq Require Import Reals List.
From Verif Require Import Base Num DataModel Config ObjectiveModel TotalSpec.
Local Open Scope R_scope.

(** All examples have the same residual. *)
Definition same_residuals (target preds : list R) : Prop := exists r, forall i t p, nth_error target i = Some t -> nth_error preds i = Some p -> t - p = r.
(** The settings training with these objectives needs: for Huber, a level strictly between 0 and 1, and no high-cardinality features (the bound of its gradients can be zero). *)
Definition median_settings (cfg : config Rops) (d : data Rops) (kind : obj_kind) : Prop :=
  kind = L1 \/ kind = Huber /\ no_hicard d /\ Rlt (IZR 0) (c_huber_alpha cfg) /\ Rlt (c_huber_alpha cfg) (IZR 1).
