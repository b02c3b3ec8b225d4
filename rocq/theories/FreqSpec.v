(** What training cannot do without. *)
From Verif Require Import Base Num DataModel DatasetSpec Config DatasetModel.

(** Gradients of 1, 2, 4 or 8 bits; trees of at least one level; the fraction of the examples is at least one example, and not more than there are (without sampling, that is, with a fraction not below one or a table without rows: not more than there are target values; in any case a count below [u32::MAX]);
    the fraction of the informative features is not more than all of them; some feature has a bin: it is numerical, or categorical with at least two categories. *)
Definition needed {O} (cfg : config O) (d : data O) : Prop :=
  In (c_discr_nbits cfg) [1; 2; 4; 8] /\ 0 < c_max_tree_depth cfg /\
  (exists target, get_target d = Ok target /\ let m := scaled_count (d_nexamples d) (c_example_fraction cfg) in
     0 < m /\ (N.of_nat m < 4294967295)%N /\ if nlt O (c_example_fraction cfg) (nofZ O 1) && (0 <? d_nexamples d) then m <= d_nexamples d else m <= length target) /\
  (exists informative, NoDup informative /\ (forall f, In f informative <-> useful_feature d f) /\ scaled_count (length informative) (c_feature_fraction cfg) <= length informative) /\
  exists f nb, f < d_nfeatures d /\ max_nbins d f = Ok nb /\ 0 < nb.
