(** The settings that take part in learning: all but the files and their format, the names of objective and metrics (given to the learner separately), how often metrics are reported, the number of iterations and the seed (the draws are an argument). *)
From Verif Require Import Base Num Config.

Definition same_learning {O} (c c' : config O) : Prop :=
  c_learning_rate c' = c_learning_rate c /\ c_reg_lambda c' = c_reg_lambda c /\ c_min_examples_leaf c' = c_min_examples_leaf c /\ c_min_gain c' = c_min_gain c /\ c_huber_alpha c' = c_huber_alpha c /\
  c_max_nbins c' = c_max_nbins c /\ c_discr_nbits c' = c_discr_nbits c /\ c_max_tree_depth c' = c_max_tree_depth c /\ c_compression_threshold c' = c_compression_threshold c /\
  c_binary_gradient_bound c' = c_binary_gradient_bound c /\ c_feature_fraction c' = c_feature_fraction c /\ c_example_fraction c' = c_example_fraction c /\ c_sample_freq c' = c_sample_freq c.
