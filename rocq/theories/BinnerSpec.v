(** Specification of histograms over bins and of rank queries. *)
From Coq Require Import Sorting.Sorted Sorting.Permutation.
From Verif Require Import Base.

(** Cumulative weight of the first [k] bins, accumulated from the left with the weights' own addition. *)
Definition cumulative {B R} (rzero : R) (radd : R -> R -> R) (weight : B -> R) (bins : list B) (k : nat) : R :=
  fold_left radd (map weight (firstn k bins)) rzero.

(** [i] is the bin of rank [r]: all bins before [i] leave the cumulative weight at or below [r], and [i] brings it above
    [r] unless [i] is the last bin. *)
Definition bin_of_rank {B R} (rzero : R) (rle : R -> R -> bool) (radd : R -> R -> R) (weight : B -> R)
  (bins : list B) (r : R) (i : nat) : Prop :=
  i < length bins /\
  (forall j, j <= i -> rle (cumulative rzero radd weight bins j) r = true) /\
  (i + 1 < length bins -> rle (cumulative rzero radd weight bins (i + 1)) r = false).

(** [s] lists the values of [l] in ascending order. *)
Definition sorted_version {A} (le : A -> A -> bool) (l s : list A) : Prop :=
  Permutation l s /\ StronglySorted (fun x y => le x y = true) s.
