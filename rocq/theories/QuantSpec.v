(** Specification of how the bins of a feature are chosen: histograms over equal bins, quantiles, groups of categories. *)
From Coq Require Import Sorting.Sorted.
From Verif Require Import Base Num DataModel BinnerModel BinnerSpec Config DatasetModel DatasetSpec.

(** [n] bins of equal width that cover [lo .. hi]. *)
Definition equal_bins {O W} (b : binner O W) (n : nat) (lo hi : num O) : Prop :=
  length (bn_bins b) = n /\ bn_min b = lo /\ bn_delta b = ndiv O (nsub O hi lo) (nofnat O n).
(** Every bin holds the total weight of the items [(value, weight)] that fall into it. *)
Definition holds {O W} (zero : W) (plus : W -> W -> W) (b : binner O W) (items : list (num O * W)) : Prop :=
  forall i, i < length (bn_bins b) ->
    nth_error (bn_bins b) i = Some (fold_left plus (map snd (filter (fun it => get_bin b (fst it) =? i) items)) zero).
(** [edges]: the upper edges, in increasing order of the bins and without repetition, of exactly the bins in which the ranks
    [ranks] lie. *)
Definition quantile_edges {O W} (zero : W) (le : W -> W -> bool) (plus : W -> W -> W) (b : binner O W) (ranks : list W) (edges : list (num O)) : Prop :=
  exists qs, increasing qs /\ edges = map (fun q => bin_representative b (q + 1)) qs /\
    forall q, In q qs <-> exists r, In r ranks /\ bin_of_rank zero le plus (fun x => x) (bn_bins b) r q.

(** The gradients of the examples of category [c], in order. *)
Definition own_gradients {O} (feat grad : list (num O)) (examples : list nat) (c : nat) : list (num O) :=
  flat_map (fun j => match nth_error feat j, nth_error grad j with Some v, Some g => if into_cat v =? c then [g] else [] | _, _ => [] end) examples.
(** The sum (in order) and the number of the gradients of a category. *)
Definition category_stats {O} (gs : list (num O)) : num O * N := (fold_left (nadd O) gs (nofZ O 0), N.of_nat (length gs)).
(** The weight of a category: the mean of the gradients of its examples, 0 if it has none. *)
Definition category_weight {O} (gs : list (num O)) : num O :=
  match gs with [] => nofZ O 0 | _ => ndiv O (fold_left (nadd O) gs (nofZ O 0)) (nofnat O (length gs)) end.
(** Weight and number of examples of the categories [0 .. card - 1] that have examples. *)
Definition category_items {O} (feat grad : list (num O)) (examples : list nat) (card : nat) : list (num O * N) :=
  flat_map (fun c => match own_gradients feat grad examples c with [] => [] | gs => [(category_weight gs, N.of_nat (length gs))] end) (seq 0 card).
(** [k] is the group of weight [w] among the groups separated by [splits]: the first [k] splits are below [w], the next one is not. *)
Definition in_group {O} (splits : list (num O)) (w : num O) (k : nat) : Prop :=
  k <= length splits /\ (forall b x, b < k -> nth_error splits b = Some x -> nlt O x w = true) /\
  (forall x, nth_error splits k = Some x -> nlt O x w = false).

(** An update of the data set [s] with gradients that is due (not skipped) and returns [s']. *)
Definition due_update {O} (dbg : bool) (cfg : config O) (d : data O) (s : dataset O) (grad : list (num O)) (bounds : num O * num O) (s' : dataset O) : Prop :=
  reachable dbg cfg d s /\ resamples (c_sample_freq cfg) (S (ds_update_count s)) /\ dataset_update dbg cfg s grad bounds = Ok s'.
