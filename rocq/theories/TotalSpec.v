(** Specification of the input training accepts. *)
From Coq Require Import Reals.
From Flocq Require Import Core BinarySingleNaN.
From Verif Require Import Base F32 Num DataModel Config DatasetModel DatasetSpec ObjectiveModel BoostSpec.
Local Close Scope R_scope.

(** Limits of a column that can be divided into bins. *)
Definition proper_limits {O} (l : num O * num O) : Prop := nisfin O (fst l) = true /\ nisfin O (snd l) = true /\ nlt O (fst l) (snd l) = true.

(** The data and the configuration fit together: every feature has a type, limits and a cardinality; categories are below the cardinality; numerical features have finite limits;
    the number of active examples is positive, at most the number of examples, and all of them without sampling; no more features are sampled than there are. *)
Definition trainable {O} (cfg : config O) (d : data O) : Prop :=
  well_formed d /\ d_nfeatures d <= length (d_limits d) /\ d_nfeatures d <= length (d_ftypes d) /\ d_nfeatures d <= length (d_cards d) /\
  0 < c_max_nbins cfg <= d_max_nbins d /\
  (forall f col card v, useful_feature d f -> feat_type_of d f = Ok HiCardCat -> get_feature d f = Ok col -> feat_card d f = Ok card -> In v col -> into_cat v < card) /\
  (forall f l, useful_feature d f -> feat_type_of d f = Ok Numerical -> feat_limits d f = Ok l -> proper_limits l) /\
  0 < scaled_count (d_nexamples d) (c_example_fraction cfg) <= d_nexamples d /\
  (nlt O (c_example_fraction cfg) (nofZ O 1) = false -> scaled_count (d_nexamples d) (c_example_fraction cfg) = d_nexamples d) /\
  (forall n, n <= d_nfeatures d -> scaled_count n (c_feature_fraction cfg) <= n).

(** No useful feature is a categorical one with many categories. *)
Definition no_hicard {O} (d : data O) : Prop := forall f, useful_feature d f -> feat_type_of d f <> Ok HiCardCat.
(** The gradients and their bounds given to an update: one gradient (a number) per example; bounds that can be divided into bins if there are high-cardinality features; in a debug build also
    at least one example per two bins of such a feature. *)
Definition usable_gradients {O} (dbg : bool) (cfg : config O) (d : data O) (grad : list (num O)) (bounds : num O * num O) : Prop :=
  length grad = d_nexamples d /\ (forall g, In g grad -> neq O g g = true) /\
  (no_hicard d \/ proper_limits bounds /\ (dbg = true -> c_max_nbins cfg + 1 <= 2 * scaled_count (d_nexamples d) (c_example_fraction cfg))).

(** The objectives training succeeds with, in exact arithmetic. *)
Definition accepts (dbg : bool) (cfg : config Rops) (d : data Rops) (target : list R) (k : obj_kind) : Prop :=
  match k with
  | L2 => no_hicard d
  | Binary => (dbg = true -> forall t, In t target -> t = IZR 0 \/ t = IZR 1) /\ (no_hicard d \/ Rlt (IZR 0) (c_binary_gradient_bound cfg))
  | Hinge => (dbg = true -> forall t, In t target -> t = IZR 0 \/ t = IZR 1) /\ c_discr_nbits cfg = 2
  | L1 | Huber => False
  end.

(** What every [exp] and [ln] on f32 satisfies: [exp] of a number is a number and not negative; [ln] of a positive finite number is at most 128 in size (the true one is at most 104). *)
Definition ordinary (fexp fln : f32 -> f32) : Prop :=
  (forall x, is_nan x = false -> f_le f_zero (fexp x) = true) /\
  (forall x, is_finite x = true -> f_lt f_zero x = true -> is_finite (fln x) = true /\ f_le (f_abs (fln x)) (f_of_Z 128) = true).

(** The objectives f32 training succeeds with.
    L2: no high-cardinality features; targets of at most [2^a] and at most [2^m] examples, with [a + m] plus the number of iterations at most 127 (the size of the predictions can double in an iteration, and [2^m] residuals are summed).
    Binary: targets 0 and 1, both of them; a positive gradient bound if there are high-cardinality features. *)
Definition accepts_f32 (cfg : config f32ops) (d : data f32ops) (target : list f32) (k : obj_kind) : Prop :=
  match k with
  | L2 => no_hicard d /\ exists (a : Z) (m : nat), (0 <= a)%Z /\ 1 <= m <= 24 /\ (Z.of_nat (d_nexamples d) <= 2 ^ Z.of_nat m)%Z /\ (a + Z.of_nat m + Z.of_nat (c_niterations cfg) <= 127)%Z /\
      forall t, In t target -> is_finite t = true /\ (Rabs (B2R t) <= bpow radix2 a)%R
  | Binary => (forall t, In t target -> f_eq t (f_of_Z 0) = true \/ f_eq t (f_of_Z 1) = true) /\ (exists t, In t target /\ f_eq t (f_of_Z 0) = true) /\ (exists t, In t target /\ f_eq t (f_of_Z 1) = true) /\
      (Z.of_nat (c_niterations cfg) < 2 ^ 24)%Z /\ (no_hicard d \/ is_finite (c_binary_gradient_bound cfg : f32) = true /\ f_lt f_zero (c_binary_gradient_bound cfg) = true)
  | L1 | Huber | Hinge => False
  end.
