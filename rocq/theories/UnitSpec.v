(** Tables and models in other units (exact arithmetic): column [f] is measured as [p f * x + q f] instead of [x]. *)
From Coq Require Import Reals List.
From Verif Require Import Base Num DataModel TreeModel.
Import ListNotations.
Local Open Scope R_scope.

Section Units.
Variables p q : nat -> R.
(** The new measurement. *)
Definition in_unit (f : nat) (x : R) : R := p f * x + q f.

(** The tables [d] and [d'] differ in the units of the numerical columns (the target is the column after the features): all values and limits are
    converted; categorical columns, shape, kinds and cardinalities are the same. *)
Definition rescaled (d d' : data Rops) : Prop :=
  d_nfeatures d' = d_nfeatures d /\ d_nexamples d' = d_nexamples d /\ d_max_nbins d' = d_max_nbins d /\ d_ftypes d' = d_ftypes d /\ d_cards d' = d_cards d /\
  length (d_features d') = length (d_features d) /\ length (d_limits d') = length (d_limits d) /\
  (forall f, 0 < p f) /\
  (forall f ft, nth_error (d_ftypes d) f = Some ft -> ft <> Numerical -> p f = 1 /\ q f = 0) /\
  (forall f col, nth_error (d_features d) f = Some col -> nth_error (d_features d') f = Some (map (in_unit f) col)) /\
  (forall f lo hi, nth_error (d_limits d) f = Some (lo, hi) -> nth_error (d_limits d') f = Some (in_unit f lo, in_unit f hi)).

(** Rows to predict, in the new units; kinds and limits do not matter. *)
Definition rows_rescaled (D D' : data Rops) : Prop :=
  d_nexamples D' = d_nexamples D /\ forall f col, nth_error (d_features D) f = Some col -> nth_error (d_features D') f = Some (map (in_unit f) col).

(** The same split with the threshold of a numerical split in the new unit. *)
Definition crit_in_unit (c : split_crit Rops) : split_crit Rops :=
  match sc_type c with NumLt => @mk_crit Rops NumLt (sc_feature c) (in_unit (sc_feature c) (sc_value c)) | _ => c end.
(** The same tree with converted thresholds. *)
Definition tree_in_unit (t : tree Rops) : tree Rops :=
  @mk_tree Rops (t_ninternal t) (t_max_depth t) (map crit_in_unit (t_crits t)) (t_values t) (t_shrinkage t) (t_bias t) (t_supercats t).
End Units.
(** The same tree with all values multiplied by [a]. *)
Definition tree_times (a : R) (t : tree Rops) : tree Rops :=
  @mk_tree Rops (t_ninternal t) (t_max_depth t) (t_crits t) (map (fun v : R => a * v) (t_values t)) (t_shrinkage t) (t_bias t) (t_supercats t).
