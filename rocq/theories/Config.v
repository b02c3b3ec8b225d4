(** The configuration record, src/config.rs:115-191 (parsing is in ConfigModel.v).  Definitions only. *)
From Coq Require Import String.
From Verif Require Import Base Num.

Record config (O : numops) : Type := mk_config {
  c_train : string;
  c_test : string;
  c_objective : string;
  c_metrics : list string;
  c_metric_frequency : N;
  c_csv_has_header : bool;
  c_csv_delimiter : N;
  c_categorical_features : list nat;
  c_niterations : nat;
  c_learning_rate : num O;
  c_reg_lambda : num O;
  c_min_examples_leaf : N;
  c_min_gain : num O;
  c_huber_alpha : num O;
  c_max_nbins : nat;
  c_discr_nbits : nat;
  c_max_tree_depth : nat;
  c_compression_threshold : num O;
  c_binary_gradient_bound : num O;
  c_random_seed : N;
  c_feature_fraction : num O;
  c_example_fraction : num O;
  c_sample_freq : nat
}.
Arguments mk_config {O}. Arguments c_train {O}. Arguments c_test {O}. Arguments c_objective {O}. Arguments c_metrics {O}.
Arguments c_metric_frequency {O}. Arguments c_csv_has_header {O}. Arguments c_csv_delimiter {O}. Arguments c_categorical_features {O}.
Arguments c_niterations {O}. Arguments c_learning_rate {O}. Arguments c_reg_lambda {O}. Arguments c_min_examples_leaf {O}.
Arguments c_min_gain {O}. Arguments c_huber_alpha {O}. Arguments c_max_nbins {O}. Arguments c_discr_nbits {O}.
Arguments c_max_tree_depth {O}. Arguments c_compression_threshold {O}. Arguments c_binary_gradient_bound {O}.
Arguments c_random_seed {O}. Arguments c_feature_fraction {O}. Arguments c_example_fraction {O}. Arguments c_sample_freq {O}.
