(** Specification for C70: tables with the columns in another order. *)
From Coq Require Import Permutation.
From Verif Require Import Base Num DataModel Config TreeModel DatasetModel LearnerModel LearnerSpec ObjectiveModel MetricModel BoostModel.

(** [d'] is [d] with its features in another order: feature [f] of [d] is feature [p f] of [d'] (values, limits, kind, cardinality); the target is the same. *)
Definition reordered_columns {O} (p : nat -> nat) (d d' : data O) : Prop :=
  (forall f, f < d_nfeatures d -> p f < d_nfeatures d) /\ (forall f g, f < d_nfeatures d -> g < d_nfeatures d -> p f = p g -> f = g) /\
  d_nfeatures d' = d_nfeatures d /\ d_nexamples d' = d_nexamples d /\ d_max_nbins d' = d_max_nbins d /\ length (d_features d) = S (d_nfeatures d) /\ length (d_features d') = S (d_nfeatures d) /\
  (forall f, f < d_nfeatures d -> get_feature d' (p f) = get_feature d f /\ feat_limits d' (p f) = feat_limits d f /\ feat_type_of d' (p f) = feat_type_of d f /\ feat_card d' (p f) = feat_card d f) /\
  get_target d' = get_target d /\ (forall col, In col (d_features d) \/ In col (d_features d') -> length col = d_nexamples d).

(** The same tree with feature [f] called [p f] (a leaf has no feature). *)
Definition renamed_crit {O} (p : nat -> nat) (c : split_crit O) : split_crit O := if is_no_split c then c else mk_crit (sc_type c) (p (sc_feature c)) (sc_value c).
Definition renamed_tree {O} (p : nat -> nat) (n : nat) (t t' : tree O) : Prop :=
  t_ninternal t' = t_ninternal t /\ t_max_depth t' = t_max_depth t /\ t_crits t' = map (renamed_crit p) (t_crits t) /\ t_values t' = t_values t /\ t_shrinkage t' = t_shrinkage t /\ t_bias t' = t_bias t /\
  length (t_supercats t') = length (t_supercats t) /\ forall f, f < n -> nth_error (t_supercats t') (p f) = nth_error (t_supercats t) f.

(** At no node does it happen that bins of two different features have the same gain, larger than the smallest gain. *)
Definition no_ties_at {O} (cfg : config O) (s : dataset O) (nd : node O) : Prop :=
  forall f1 b1 v1 f2 b2 v2, f1 <> f2 -> admissible cfg s nd f1 b1 v1 -> admissible cfg s nd f2 b2 v2 ->
    nlt O (c_min_gain cfg) (gain cfg nd v1) = true -> nlt O (c_min_gain cfg) (gain cfg nd v2) = true ->
    nlt O (gain cfg nd v1) (gain cfg nd v2) = true \/ nlt O (gain cfg nd v2) (gain cfg nd v1) = true.
(** The same for all nodes of the first [n] iterations of a training. *)
Definition no_ties {O} (M : mathops O) (dbg : bool) (cfg : config O) (d : data O) (sched : nat -> nat -> list job -> list job) (kind : obj_kind) (metrics : list metric) (g : rng) (n : nat) : Prop :=
  forall k b target ob s sizes nd, k < n -> boost_run M dbg cfg d sched kind metrics g k = Ok b -> get_target d = Ok target -> obj_update M target (bs_objective b) = Ok ob ->
    dataset_update dbg cfg (bs_dataset b) (ob_grads ob) (obj_bounds ob) = Ok s -> hist_sizes d = Ok sizes ->
    grown dbg cfg s sizes (obj_bounds ob) (sched (S (bs_iter b))) (ob_grads ob) nd -> no_ties_at cfg s nd.

(** No feature is left out: the number of active features is the number of useful ones. *)
Definition all_features {O} (cfg : config O) (d : data O) : Prop := forall n, n <= d_nfeatures d -> scaled_count n (c_feature_fraction cfg) = n.
(** The same model with the features of the trees renamed. *)
Definition renamed_model {O} (p : nat -> nat) (n : nat) (m m' : additive_tree O) : Prop := at_bias m' = at_bias m /\ Forall2 (renamed_tree p n) (at_trees m) (at_trees m').
