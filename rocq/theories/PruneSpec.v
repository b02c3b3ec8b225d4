(** Specification for C69: settings that grow smaller trees, and cut trees. *)
From Verif Require Import Base Num DataModel Config TreeModel.

(** [cfg'] asks for smaller trees than [cfg]: at most as deep, with a smallest gain that is the same or larger; the other settings that take part in learning are the same. *)
Definition smaller_trees {O} (cfg cfg' : config O) : Prop :=
  c_learning_rate cfg' = c_learning_rate cfg /\ c_reg_lambda cfg' = c_reg_lambda cfg /\ c_min_examples_leaf cfg' = c_min_examples_leaf cfg /\ c_huber_alpha cfg' = c_huber_alpha cfg /\
  c_max_nbins cfg' = c_max_nbins cfg /\ c_discr_nbits cfg' = c_discr_nbits cfg /\ c_compression_threshold cfg' = c_compression_threshold cfg /\
  c_binary_gradient_bound cfg' = c_binary_gradient_bound cfg /\ c_feature_fraction cfg' = c_feature_fraction cfg /\ c_example_fraction cfg' = c_example_fraction cfg /\ c_sample_freq cfg' = c_sample_freq cfg /\
  c_max_tree_depth cfg' <= c_max_tree_depth cfg /\ (c_min_gain cfg' = c_min_gain cfg \/ nle O (c_min_gain cfg) (c_min_gain cfg') = true).

(** Every split of [t'] is the split of [t] at the same place (place [m] has the places [2m+1] and [2m+2] below it): [t'] is [t] with some nodes made leaves. *)
Definition cut_of {O} (t t' : tree O) : Prop :=
  t_supercats t' = t_supercats t /\ forall m c, nth_error (t_crits t') m = Some c -> sc_type c <> NoSplit -> nth_error (t_crits t) m = Some c.

(** Place [k] is place [m] or below it. *)
Inductive below (m : nat) : nat -> Prop :=
| below_here : below m m
| below_left k : below m k -> below m (2 * k + 1)
| below_right k : below m k -> below m (2 * k + 2).
