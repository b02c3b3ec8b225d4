(** Specification for C71: tables with extra columns. *)
From Verif Require Import Base Num F32 DataModel DataSpec TreeModel ColSpec.

(** The table [D'] has the features of [D] in the same order and extra features between, before or after them: feature [f] of [D] is feature [p f] of [D']. *)
Definition wider {O} (p : nat -> nat) (D D' : data O) : Prop :=
  (forall f g, f < g -> p f < p g) /\ (forall f, f < d_nfeatures D -> p f < d_nfeatures D') /\ d_nexamples D' = d_nexamples D /\
  length (d_features D) = S (d_nfeatures D) /\ length (d_features D') = S (d_nfeatures D') /\ (forall f, f < d_nfeatures D -> get_feature D' (p f) = get_feature D f) /\
  (forall col, In col (d_features D) \/ In col (d_features D') -> length col = d_nexamples D).

(** The extra features are constant: smallest and largest value are equal (or the feature has no bins, as a category column with one category). *)
Definition extra_constant {O} (p : nat -> nat) (d d' : data O) : Prop := forall g, g < d_nfeatures d' -> (forall f, f < d_nfeatures d -> p f <> g) ->
  (exists nb, max_nbins d' g = Ok nb) /\ (max_nbins d' g = Ok 0 \/ exists lim, feat_limits d' g = Ok lim /\ neq O (fst lim) (snd lim) = true).
(** The other features have the same limits, kinds and cardinalities, and the target is the same. *)
Definition same_columns {O} (p : nat -> nat) (d d' : data O) : Prop :=
  d_max_nbins d' = d_max_nbins d /\ get_target d' = get_target d /\ forall f, f < d_nfeatures d -> feat_limits d' (p f) = feat_limits d f /\ feat_type_of d' (p f) = feat_type_of d f /\ feat_card d' (p f) = feat_card d f.

(** The same tree with feature [f] called [p f]. *)
Definition widened_tree {O} (p : nat -> nat) (n : nat) (t t' : tree O) : Prop :=
  t_ninternal t' = t_ninternal t /\ t_max_depth t' = t_max_depth t /\ t_crits t' = map (renamed_crit p) (t_crits t) /\ t_values t' = t_values t /\ t_shrinkage t' = t_shrinkage t /\ t_bias t' = t_bias t /\
  forall f, f < n -> nth_error (t_supercats t') (p f) = nth_error (t_supercats t) f.
Definition widened_model {O} (p : nat -> nat) (n : nat) (m m' : additive_tree O) : Prop := at_bias m' = at_bias m /\ Forall2 (widened_tree p n) (at_trees m) (at_trees m').

(** The same for the records of two CSV files: column [f] of the first is column [p f] of the second, the target is the last column of both, and every other column of the second holds one number in all records. *)
Definition widened_csv (p : nat -> nat) (cfg cfg' : data_config) (items items' : list csv_item) : Prop :=
  let n := columns_of items - 1 in let n' := columns_of items' - 1 in
  (forall f g, f < g -> p f < p g) /\ (forall f, f < n -> p f < n') /\ length items' = length items /\ dc_max_nbins cfg' = dc_max_nbins cfg /\
  (forall f vs, f < n -> column items f vs -> column items' (p f) vs) /\ (forall vs, column items n vs -> column items' n' vs) /\
  (forall f, f < n -> (In f (dc_categorical cfg) <-> In (p f) (dc_categorical cfg'))) /\
  (forall g, g < n' -> (forall f, f < n -> p f <> g) -> exists v, f_is_nan v = false /\ column items' g (repeat v (length items))).
