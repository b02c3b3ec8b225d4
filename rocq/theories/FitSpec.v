(** Specification of the fit of a model to examples.  Independent of the code. *)
From Coq Require Import Reals List.
From Verif Require Import Base Num Config MetricSpec.
Local Open Scope R_scope.

(** The sum of the squared errors of the predictions [ps] over [examples]. *)
Definition sq_error (target ps : list R) (examples : list nat) : R := Rsum (map (fun i => squared_error (nth i target 0) (nth i ps 0)) examples).

(** The same settings with another number of iterations. *)
Definition with_iterations {O} (cfg : config O) (n : nat) : config O :=
  @mk_config O (c_train cfg) (c_test cfg) (c_objective cfg) (c_metrics cfg) (c_metric_frequency cfg) (c_csv_has_header cfg) (c_csv_delimiter cfg) (c_categorical_features cfg)
    n (c_learning_rate cfg) (c_reg_lambda cfg) (c_min_examples_leaf cfg) (c_min_gain cfg) (c_huber_alpha cfg) (c_max_nbins cfg) (c_discr_nbits cfg) (c_max_tree_depth cfg)
    (c_compression_threshold cfg) (c_binary_gradient_bound cfg) (c_random_seed cfg) (c_feature_fraction cfg) (c_example_fraction cfg) (c_sample_freq cfg).
