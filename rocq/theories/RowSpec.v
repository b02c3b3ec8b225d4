(** The same data with its rows in another order. *)
From Coq Require Import Permutation.
From Verif Require Import Base Num DataModel.

(** [l'] consists of the elements of [l] at the positions [order], in that order. *)
Definition in_order {A} (order : list nat) (l l' : list A) : Prop := map Some l' = map (nth_error l) order.
(** Every column (the target included) of [d'] is that of [d] in the given order, an order of all rows; everything else is the same. *)
Definition reordered {O} (order : list nat) (d d' : data O) : Prop :=
  Permutation order (seq 0 (d_nexamples d)) /\
  d_max_nbins d' = d_max_nbins d /\ d_nfeatures d' = d_nfeatures d /\ d_nexamples d' = d_nexamples d /\
  d_limits d' = d_limits d /\ d_ftypes d' = d_ftypes d /\ d_cards d' = d_cards d /\
  Forall2 (in_order order) (d_features d) (d_features d').
