(** Specification: the data on which the debug assertions hold. *)
From Coq Require Import Reals.
From Flocq Require Import Core BinarySingleNaN.
From Verif Require Import Base F32 Num DataModel Config DatasetModel DatasetSpec BoostSpec TotalSpec.
Local Close Scope R_scope.

(** A categorical column: every value is a whole number that is not negative and below the cardinality. *)
Definition whole {O} (v : num O) : Prop := nle O (nofZ O 0) v = true /\ neq O (nround O v) v = true.
Definition whole_categories {O} (d : data O) : Prop :=
  forall f ft col card v, useful_feature d f -> feat_type_of d f = Ok ft -> ft <> Numerical -> get_feature d f = Ok col -> feat_card d f = Ok card -> In v col ->
    whole v /\ into_cat v < card.

(** f32 only: the sums of the weights of [n] examples and their ranks among [m + 1] parts are exact enough: about [n * m <= 2^23]; and gradients of ordinary size. *)
Definition few_enough (n m : nat) : Prop := ((Z.of_nat n + 257) * (Z.of_nat m + 1) <= 2 ^ 23)%Z.
Definition ordinary_gradients (grad : list f32) : Prop := forall g, In g grad -> is_finite g = true /\ (Rabs (B2R g) <= bpow radix2 100)%R.

(** New data for a model trained on [d]: in the columns that are high-cardinality categorical ones in [d], every value is a non-negative whole number. *)
Definition whole_columns {O} (d d2 : data O) : Prop :=
  forall f col v, feat_type_of d f = Ok HiCardCat -> get_feature d2 f = Ok col -> In v col -> whole v.
