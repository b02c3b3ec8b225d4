(** Specification of the data set: samples, histories, and what the bit vector of a bin means. *)
From Coq Require Import Sorting.Sorted.
From Verif Require Import Base BitModel BitSpec Num DataModel Config DatasetModel.

(** An increasing list without duplicates. *)
Definition increasing (l : list nat) : Prop := StronglySorted lt l.

(** An update is effective (the data set is sampled anew): the first one, and every [freq]-th one. *)
Definition resamples (freq count : nat) : Prop := 0 < freq /\ (count = 1 \/ exists k, count = k * freq).

(** [s] is a state of the data set after some history of updates with gradients and gradient bounds. *)
Definition ds_run {O} (dbg : bool) (cfg : config O) (updates : list (list (num O) * (num O * num O))) (s : dataset O) : res (dataset O) :=
  foldM (fun s u => dataset_update dbg cfg s (fst u) (snd u)) updates s.
Definition reachable {O} (dbg : bool) (cfg : config O) (d : data O) (s : dataset O) : Prop :=
  exists g updates s0, dataset_new cfg d g = Ok s0 /\ ds_run dbg cfg updates s0 = Ok s.

(** The features of which something can be learned: at least one bin, and different limits. *)
Definition useful_feature {O} (d : data O) (f : nat) : Prop :=
  f < d_nfeatures d /\ (exists nb, max_nbins d f = Ok nb /\ 0 < nb) /\ (exists lo hi, feat_limits d f = Ok (lo, hi) /\ neq O lo hi = false).

(** [in_bin s f b j r]: [r] says whether example [j] (a row of the data) belongs to bin [b] of feature [f]: its category is
    [b]; the super-category of its category is at most [b]; the number of split candidates below the upper edge of
    its histogram bin is at most [b]. *)
Definition in_bin {O} (s : dataset O) (f b j : nat) (r : bool) : Prop :=
  let d := in_data (ds_inner s) in
  exists col v ft, get_feature d f = Ok col /\ nth_error col j = Some v /\ feat_type_of d f = Ok ft /\
  match ft with
  | LoCardCat => r = (into_cat v =? b)
  | HiCardCat => exists table k, nth_error (get_supercats s) f = Some table /\ nth_error table (into_cat v) = Some k /\ r = (k <=? b)
  | Numerical => exists cands lo hi bn, nth_error (in_split_candidates (ds_inner s)) f = Some cands /\ feat_limits d f = Ok (lo, hi) /\
      BinnerModel.binner_new (repeat 0 QUANTILE_EST_NBINS) lo hi = Ok bn /\
      r = (leading_below (nlt O) cands (BinnerModel.bin_representative bn (BinnerModel.get_bin bn v + 1)) <=? b)
  end.
