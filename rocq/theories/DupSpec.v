(** Specification for C72: tables with copies of columns. *)
From Verif Require Import Base Num F32 DataModel DataSpec TreeModel ColSpec WideSpec.

(** [d'] has the features of [d] in the same order (feature [f] is feature [p f]) and, somewhere after the originals, copies of some of them: feature [g] of [d'] is feature [q g] of [d], in values, limits, kind and cardinality. *)
Definition duplicated {O} (p q : nat -> nat) (d d' : data O) : Prop :=
  wider p d d' /\ d_max_nbins d' = d_max_nbins d /\ get_target d' = get_target d /\ (forall f, f < d_nfeatures d -> q (p f) = f) /\
  forall g, g < d_nfeatures d' -> q g < d_nfeatures d /\ p (q g) <= g /\
    get_feature d' g = get_feature d (q g) /\ feat_limits d' g = feat_limits d (q g) /\ feat_type_of d' g = feat_type_of d (q g) /\ feat_card d' g = feat_card d (q g).

(** The same for the records of two CSV files: feature [g] of the second has the values of feature [q g] of the first and is categorical when that is. *)
Definition copied_csv (p q : nat -> nat) (cfg cfg' : data_config) (items items' : list csv_item) : Prop :=
  let n := columns_of items - 1 in let n' := columns_of items' - 1 in
  (forall f g, f < g -> p f < p g) /\ (forall f, f < n -> p f < n') /\ length items' = length items /\ dc_max_nbins cfg' = dc_max_nbins cfg /\
  (forall f, f < n -> q (p f) = f) /\ (forall vs, column items n vs -> column items' n' vs) /\
  forall g, g < n' -> q g < n /\ p (q g) <= g /\ (forall vs, column items (q g) vs -> column items' g vs) /\ (In (q g) (dc_categorical cfg) <-> In g (dc_categorical cfg')).
