(** Specification of tree growing: the examples of a node, histogram bins, gains. *)
From Coq Require Import Permutation.
From Verif Require Import Base BitModel BitSpec SliceModel SliceSpec Num ScaledModel DataModel Config TreeModel DatasetModel DatasetSpec IterSpec LearnerModel.

(** The examples of a node, as positions in the list of [n] active examples: those its (compressed) mask selects. *)
Definition members {O} (n : nat) (nd : node O) : list nat := positions n (in_compr_set (nd_idx nd) (nd_mask nd)).

(** The rows of the data the positions stand for. *)
Definition example_rows {O} (s : dataset O) : res (list nat) :=
  if example_sampling_enabled s then active_examples s else Ok (seq 0 (nactive_examples s)).

(** The gradient of a row as discretised to [w] bits. *)
Definition stored_gradient {O} (cfg : config O) (bounds : num O * num O) (g : num O) : N :=
  (Z.to_N (discretise O (c_discr_nbits cfg) g bounds) mod 2 ^ N.of_nat (c_discr_nbits cfg))%N.
Definition gradient_at {O} (cfg : config O) (bounds : num O * num O) (gradients : list (num O)) (rows : list nat) (k : nat) : N :=
  match nth_error rows k with
  | Some j => match nth_error gradients j with Some g => stored_gradient cfg bounds g | None => 0%N end
  | None => 0%N
  end.

(** What a histogram bin says about a list [l] of examples with discretised gradients [gv]: their number and, if they are at least
    [min_examples_leaf], the sum of their gradients, projected back to the interval of the bounds; else 0. *)
Definition bin_summary {O} (cfg : config O) (bounds : num O * num O) (gv : nat -> N) (l : list nat) : histval O :=
  let c := N.of_nat (length l) in
  (if (c <? c_min_examples_leaf cfg)%N then nofZ O 0
   else linproj O (c_discr_nbits cfg) (nofN O (sumN (map gv l))) (nofN O c) bounds, c).

(** The bin [b] of feature [f] in the histograms of a node. *)
Definition bin_of {O} (nd : node O) (f b : nat) : option (histval O) :=
  match nth_error (nd_hists nd) f with Some h => nth_error h b | None => None end.

(** Nodes that occur while a tree is grown: the root, and the children of a split node. *)
Inductive grown {O} (dbg : bool) (cfg : config O) (s : dataset O) (sizes : list nat) (bounds : num O * num O)
  (sched : nat -> list job -> list job) (gradients : list (num O)) : node O -> Prop :=
| grown_root nd : get_root_n2s cfg s sizes bounds sched gradients = Ok nd -> grown dbg cfg s sizes bounds sched gradients nd
| grown_left p sp l r : grown dbg cfg s sizes bounds sched gradients p -> find_best_split dbg cfg s p = Ok sp ->
    is_no_split (sp_crit sp) = false -> get_left_right_n2s dbg cfg s sizes bounds sched p sp = Ok (l, r) ->
    grown dbg cfg s sizes bounds sched gradients l
| grown_right p sp l r : grown dbg cfg s sizes bounds sched gradients p -> find_best_split dbg cfg s p = Ok sp ->
    is_no_split (sp_crit sp) = false -> get_left_right_n2s dbg cfg s sizes bounds sched p sp = Ok (l, r) ->
    grown dbg cfg s sizes bounds sched gradients r.

(** A split on bin [b] of feature [f] is a candidate at a node. *)
Definition candidate {O} (s : dataset O) (f b : nat) : Prop :=
  exists fs nb, active_features s = Ok fs /\ In f fs /\ get_nbins s f = Ok nb /\ b < nb.

(** The gain of a split as computed for a bin [l] of a node: the loss of the node, minus the losses of its two sides. *)
Definition node_loss {O} (cfg : config O) (g : num O) (c : N) : num O :=
  nmul O (nneg O (ndiv O (nofZ O 1) (nofZ O 2))) (ndiv O (nmul O g g) (nadd O (nofN O c) (c_reg_lambda cfg))).
Definition gain {O} (cfg : config O) (nd : node O) (l : histval O) : num O :=
  nsub O (nsub O (node_loss cfg (nd_grad nd) (nd_count nd)) (node_loss cfg (fst l) (snd l)))
         (node_loss cfg (nsub O (nd_grad nd) (fst l)) (nd_count nd - snd l)).
(** A candidate split leaves at least [min_examples_leaf] examples on either side. *)
Definition admissible {O} (cfg : config O) (s : dataset O) (nd : node O) (f b : nat) (l : histval O) : Prop :=
  candidate s f b /\ bin_of nd f b = Some l /\
  (c_min_examples_leaf cfg <= snd l)%N /\ (snd l + c_min_examples_leaf cfg <= nd_count nd)%N.

(** The state of affairs when a tree is grown: a data set [s] with some history, made from the data [d]; the histogram sizes the
    learner computes from [d]; the jobs of a node are all run, in any order; at most 2^31 active examples. *)
Definition setting {O} (dbg : bool) (cfg : config O) (d : data O) (s : dataset O) (sizes : list nat) (sched : nat -> list job -> list job) : Prop :=
  reachable dbg cfg d s /\ hist_sizes d = Ok sizes /\ (forall k js, Permutation js (sched k js)) /\ (N.of_nat (nactive_examples s) <= 2 ^ 31)%N.

(** The node stores the discretised gradient [v] for the example at position [k]: an enabled slot [p] of the node stands for [k]. *)
Definition stores {O} (cfg : config O) (nd : node O) (k : nat) (v : N) : Prop :=
  exists p, p < 256 * length (nd_idx nd) /\ bbit (nd_mask nd) p = true /\ k = 32 * N.to_nat (u32_at (nd_idx nd) (p / 32)) + p mod 32 /\
    get_value (c_discr_nbits cfg) (nd_grads nd) p = Ok v.

(** Jobs run by a pool of threads: a thread first computes the value of its bin, which only reads the node and the data set, and later
    gets the lock and writes it.  [pool_run f g todo done h h']: [f j] is the value computed for job [j], [g h j v] writes it into [h]; [todo]
    are the jobs not started, [computed] those with a value but not yet written. *)
Inductive pool_run {T V} (f : job -> res V) (g : T -> job -> V -> res T) : list job -> list (job * V) -> T -> T -> Prop :=
| pool_done h : pool_run f g [] [] h h
| pool_compute l1 j l2 computed v h h' : f j = Ok v -> pool_run f g (l1 ++ l2) ((j, v) :: computed) h h' -> pool_run f g (l1 ++ j :: l2) computed h h'
| pool_write todo c1 j v c2 h h1 h' : g h j v = Ok h1 -> pool_run f g todo (c1 ++ c2) h1 h' -> pool_run f g todo (c1 ++ (j, v) :: c2) h h'.

(** The configuration with another compression threshold. *)
Definition with_threshold {O} (cfg : config O) (x : num O) : config O :=
  mk_config (c_train cfg) (c_test cfg) (c_objective cfg) (c_metrics cfg) (c_metric_frequency cfg) (c_csv_has_header cfg) (c_csv_delimiter cfg)
    (c_categorical_features cfg) (c_niterations cfg) (c_learning_rate cfg) (c_reg_lambda cfg) (c_min_examples_leaf cfg) (c_min_gain cfg) (c_huber_alpha cfg)
    (c_max_nbins cfg) (c_discr_nbits cfg) (c_max_tree_depth cfg) x (c_binary_gradient_bound cfg) (c_random_seed cfg) (c_feature_fraction cfg)
    (c_example_fraction cfg) (c_sample_freq cfg).
