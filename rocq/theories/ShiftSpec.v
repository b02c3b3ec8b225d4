(** The same table with a constant added to every target. *)
From Coq Require Import Reals.
From Verif Require Import Base Num DataModel DatasetSpec AlikeSpec.
Local Open Scope R_scope.

Definition shifted (c : R) (d d' : data Rops) : Prop :=
  d_nfeatures d' = d_nfeatures d /\ d_nexamples d' = d_nexamples d /\ d_max_nbins d' = d_max_nbins d /\ length (d_limits d') = length (d_limits d) /\
  (forall col, In col (d_features d) \/ In col (d_features d') -> length col = d_nexamples d) /\ length (d_features d') = length (d_features d) /\
  (forall f, (f < d_nfeatures d)%nat -> same_column d d' f) /\
  exists target : list R, get_target d = Ok target /\ get_target d' = Ok (map (fun y => y + c) target).
