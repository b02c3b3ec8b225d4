(** Settings and tables for a target measured in another unit. *)
From Coq Require Import Reals List.
From Verif Require Import Base Num DataModel Config.

(** The same settings with another smallest gain. *)
Definition with_min_gain {O} (cfg : config O) (m : num O) : config O :=
  @mk_config O (c_train cfg) (c_test cfg) (c_objective cfg) (c_metrics cfg) (c_metric_frequency cfg) (c_csv_has_header cfg) (c_csv_delimiter cfg) (c_categorical_features cfg)
    (c_niterations cfg) (c_learning_rate cfg) (c_reg_lambda cfg) (c_min_examples_leaf cfg) m (c_huber_alpha cfg) (c_max_nbins cfg) (c_discr_nbits cfg) (c_max_tree_depth cfg)
    (c_compression_threshold cfg) (c_binary_gradient_bound cfg) (c_random_seed cfg) (c_feature_fraction cfg) (c_example_fraction cfg) (c_sample_freq cfg).

(** No feature is numerical (the target, the column after the features, may be). *)
Definition all_categorical {O} (d : data O) : Prop := forall f, f < d_nfeatures d -> nth_error (d_ftypes d) f <> Some Numerical.

(** The tables [d] and [d'] differ in the unit of the target, the column after the features: it is measured as [a * y + c] instead of [y].  The target is not
    declared categorical. *)
Definition target_rescaled (a c : R) (d d' : data Rops) : Prop :=
  d_nfeatures d' = d_nfeatures d /\ d_nexamples d' = d_nexamples d /\ d_max_nbins d' = d_max_nbins d /\ d_ftypes d' = d_ftypes d /\ d_cards d' = d_cards d /\
  length (d_features d') = length (d_features d) /\ length (d_limits d') = length (d_limits d) /\
  (forall f, f <> d_nfeatures d -> nth_error (d_features d') f = nth_error (d_features d) f /\ nth_error (d_limits d') f = nth_error (d_limits d) f) /\
  (forall ft, nth_error (d_ftypes d) (d_nfeatures d) = Some ft -> ft = Numerical) /\
  (forall col, nth_error (d_features d) (d_nfeatures d) = Some col -> nth_error (d_features d') (d_nfeatures d) = Some (map (fun y : R => (a * y + c)%R) col)) /\
  (forall lo hi : R, nth_error (d_limits d) (d_nfeatures d) = Some (lo, hi) -> nth_error (d_limits d') (d_nfeatures d) = Some ((a * lo + c)%R, (a * hi + c)%R)).
