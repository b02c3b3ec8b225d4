(** Specification of gradient boosting in exact arithmetic: what each tree of the model is fitted to. *)
From Coq Require Import Reals.
From Verif Require Import Base BitSpec Num DataModel Config TreeModel TreeSpec DatasetModel LearnerModel LearnerSpec GainSpec LearnerProps GreedySpec.
Local Close Scope R_scope.

(** The tree [t] is a tree of boosting for the examples active in the data set [s]:
    it is grown greedily, to at most [max_tree_depth] levels, for the gradients [grad j] of the examples [j], discretised between [lo] and [hi];
    a node is split on the bin of the largest gain, if that is above [min_gain];
    each leaf is reached by some examples, and its value is the learning rate times a value [v] that fits these examples. *)
Definition boosting_tree (cfg : config Rops) (s : dataset Rops) (t : tree Rops) (lo hi : R) (grad : nat -> R) (fits : list nat -> R -> Prop) : Prop :=
  exists rows, example_rows s = Ok rows /\
  let gv := fun k => match nth_error rows k with Some j => stored_gradient cfg (lo, hi) (grad j) | None => 0%N end in
  let gain := fun fm l => split_gain (c_discr_nbits cfg) lo hi gv (c_reg_lambda cfg) (bbit fm) l in
  greedy s t
    (fun l => forall f b fm, divides s l f b fm -> (gain fm l <= c_min_gain cfg)%R)
    (fun l f b fm => divides s l f b fm /\ (c_min_gain cfg < gain fm l)%R /\ forall f' b' fm', divides s l f' b' fm' -> (gain fm' l <= gain fm l)%R)
    (fun m l => l <> [] /\ exists v, fits (map (fun k => nth k rows 0) l) v /\ node_value t m = Ok (c_learning_rate cfg * v)%R)
    (c_max_tree_depth cfg) 0 (seq 0 (length rows)).

(** The residual of example [j]. *)
Definition error_of (target ps : list R) (j : nat) : R := (nth j target 0 - nth j ps 0)%R.
(** The smaller magnitude of the least and the largest residual. *)
Definition clip_bound (target ps : list R) (B : R) : Prop :=
  exists i j, i < length target /\ j < length target /\ (forall m, m < length target -> (error_of target ps i <= error_of target ps m <= error_of target ps j)%R) /\
    B = Rmin (Rabs (error_of target ps i)) (Rabs (error_of target ps j)).
(** The mean of a quantity over a list of examples. *)
Definition mean_over (f : nat -> R) (l : list nat) : R := (Rsum (map f l) / INR (length l))%R.
