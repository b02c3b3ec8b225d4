(** Tables that agree on the informative columns. *)
From Verif Require Import Base Num DataModel DatasetSpec TreeModel.

(** The column [f] is the same in both tables: values, smallest and largest value, kind and cardinality. *)
Definition same_column {O} (d d' : data O) (f : nat) : Prop :=
  get_feature d' f = get_feature d f /\ feat_limits d' f = feat_limits d f /\ feat_type_of d' f = feat_type_of d f /\ feat_card d' f = feat_card d f.
(** Both tables have the same shape and the same informative columns (at least one bin and different limits); the other columns, and the target, may differ.  (Columns that are not informative have the same number of bins.) *)
Definition alike {O} (d d' : data O) : Prop :=
  d_nfeatures d' = d_nfeatures d /\ d_nexamples d' = d_nexamples d /\ d_max_nbins d' = d_max_nbins d /\ length (d_limits d') = length (d_limits d) /\
  (forall col, In col (d_features d) \/ In col (d_features d') -> length col = d_nexamples d) /\ length (d_features d') = length (d_features d) /\
  forall f, f < d_nfeatures d -> max_nbins d' f = max_nbins d f /\ (useful_feature d' f <-> useful_feature d f) /\ (useful_feature d f -> same_column d d' f).

(** The columns a model looks at are among [P]. *)
Definition looks_at {O} (t : tree O) (f : nat) : Prop := exists n c, nth_error (t_crits t) n = Some c /\ is_no_split c = false /\ sc_feature c = f.
