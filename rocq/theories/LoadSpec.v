(** Specification: the files and settings whose data training accepts. *)
From Coq Require Import Reals.
From Flocq Require Import Core BinarySingleNaN.
From Verif Require Import Base F32 Num DataModel DataSpec Config DatasetModel.
Local Close Scope R_scope.

(** The table: every field a number, non-negative whole numbers in the categorical columns; finite numbers in the other feature columns (all but the last); at most [2^24] rows and columns.
    The settings: at least one bin; fractions of examples and features in [0, 1], with at least one example in every sample. *)
Definition sound_file (cfg : config f32ops) (items : list csv_item) : Prop :=
  acceptable (c_categorical_features cfg) items /\
  (forall j vs v, S j < columns_of items -> ~ In j (c_categorical_features cfg) -> column items j vs -> In v vs -> is_finite v = true) /\
  (Z.of_nat (length items) <= 2 ^ 24)%Z /\ (Z.of_nat (columns_of items) <= 2 ^ 24)%Z /\ 0 < c_max_nbins cfg /\
  is_finite (c_example_fraction cfg : f32) = true /\ (0 <= B2R (c_example_fraction cfg : f32) <= 1)%R /\ 0 < scaled_count (length items) (c_example_fraction cfg) /\
  is_finite (c_feature_fraction cfg : f32) = true /\ (0 <= B2R (c_feature_fraction cfg : f32) <= 1)%R.

(** The settings [Data::from_csv] uses (data.rs:50-126). *)
Definition load_config (cfg : config f32ops) : data_config := mk_dcfg (c_max_nbins cfg) (c_categorical_features cfg).
