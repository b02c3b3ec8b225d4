(** Model of src/boost.rs.  Definitions only.  Timings and printed output are not modelled, except the values of the metrics. *)
From Verif Require Import Base Num DataModel Config TreeModel DatasetModel LearnerModel ObjectiveModel MetricModel.

Section Boost.
Variable O : numops.
Variable M : mathops O.
Variable dbg : bool.
Variable cfg : config O.
Variable d : data O.
(** The order in which the jobs of a node get the lock, for each iteration and node. *)
Variable sched : nat -> nat -> list job -> list job.

(** boost.rs:29-38: the part of the state that changes.  [bs_evals]: the metric values printed so far, one list per evaluation. *)
Record booster : Type := mk_booster {
  bs_dataset : dataset O;
  bs_objective : objective O;
  bs_iter : nat;
  bs_ensemble : additive_tree O;
  bs_evals : list (list (num O))
}.

(** boost.rs:98-100 *)
Definition run_metrics (metrics : list metric) (iter : nat) : bool :=
  negb (length metrics =? 0) && (0 <? N.to_nat (c_metric_frequency cfg)) && (iter mod N.to_nat (c_metric_frequency cfg) =? 0).

(** boost.rs:78-116 *)
Definition train_one_iter (sizes : list nat) (metrics : list metric) (b : booster) : res booster :=
  let* target := get_target d in
  let iter := S (bs_iter b) in
  let* ob := obj_update M target (bs_objective b) in
  let* s := dataset_update dbg cfg (bs_dataset b) (ob_grads ob) (obj_bounds ob) in
  let* (t, ob') := train dbg cfg s sizes (obj_bounds ob) (sched iter) (objective O) (obj_leaf_value M target) update_out_of_bag (ob_grads ob) ob in
  let evals := if run_metrics metrics iter then bs_evals b ++ [map (fun m => metric_eval M m target (ob_preds ob')) metrics] else bs_evals b in
  Ok (mk_booster s ob' iter (push_tree (bs_ensemble b) t) evals).

(** boost.rs:59-76: the state before the first iteration, and after [k] iterations.  learner.rs:140-141: the context computes the histogram sizes. *)
Definition boost_start (kind : obj_kind) (g : rng) : res booster :=
  let* s := dataset_new cfg d g in
  let* target := get_target d in
  let* ob := obj_initialize M dbg cfg target (objective_new O kind) in
  Ok (mk_booster s ob 0 (additive_set_bias (additive_new O) (ob_bias ob)) []).
Definition boost_run (kind : obj_kind) (metrics : list metric) (g : rng) (k : nat) : res booster :=
  let* b0 := boost_start kind g in
  let* sizes := hist_sizes d in
  foldM (fun b _ => train_one_iter sizes metrics b) (seq 0 k) b0.
Definition boost_train (kind : obj_kind) (metrics : list metric) (g : rng) : res (additive_tree O) :=
  let* b := boost_run kind metrics g (c_niterations cfg) in Ok (bs_ensemble b).
End Boost.
Arguments mk_booster {O}. Arguments bs_dataset {O}. Arguments bs_objective {O}. Arguments bs_iter {O}. Arguments bs_ensemble {O}. Arguments bs_evals {O}.
Arguments run_metrics {O}. Arguments train_one_iter {O}. Arguments boost_start {O}. Arguments boost_run {O}. Arguments boost_train {O}.
