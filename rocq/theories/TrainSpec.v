(** Specification of training one tree: the calls made on the objective, and the way of an example through the tree in training. *)
From Verif Require Import Base BitModel BitSpec Num DataModel Config TreeModel TreeSpec DatasetModel LearnerModel LearnerSpec RouteProps.

(** A leaf, the examples it gets and its value. *)
Definition group (O : numops) : Type := (nat * list nat * num O)%type.
Definition g_leaf {O} (g : group O) : nat := fst (fst g).
Definition g_examples {O} (g : group O) : list nat := snd (fst g).
Definition g_value {O} (g : group O) : num O := snd g.

(** The objective is asked, in this order, for the values of the groups; it goes from state [st] to [st']. *)
Fixpoint leaf_calls {O St} (leaf_value : list nat -> St -> res (num O * St)) (gs : list (group O)) (st st' : St) : Prop :=
  match gs with
  | [] => st' = st
  | g :: rest => exists st1, leaf_value (g_examples g) st = Ok (g_value g, st1) /\ leaf_calls leaf_value rest st1 st'
  end.

(** The objective is told, in this order, the predictions [v] of the examples [i]. *)
Fixpoint oob_calls {O St} (oob : nat -> num O -> St -> res St) (l : list (nat * num O)) (st st' : St) : Prop :=
  match l with
  | [] => st' = st
  | (i, v) :: rest => exists st1, oob i v st = Ok st1 /\ oob_calls oob rest st1 st'
  end.

(** [fm] is the mask of a split [c]: the mask of the bin the split was made for. *)
Definition split_mask {O} (s : dataset O) (c : split_crit O) (fm : blocks) : Prop :=
  exists b, candidate s (sc_feature c) b /\ split_on s (sc_feature c) b c /\ ds_get_bitvec s (sc_feature c) b = Ok fm.

(** Training sends the example at position [k] to node [m], when [W x] is the mask used at inner node [x]: at every inner node on the
    way it goes left iff its bit in the mask is set. *)
Inductive sent {O} (t : tree O) (W : nat -> blocks) (k : nat) : nat -> Prop :=
| sent_root : sent t W k 0
| sent_left m : sent t W k m -> inner_crit t m -> bbit (W m) k = true -> sent t W k (2 * m + 1)
| sent_right m : sent t W k m -> inner_crit t m -> bbit (W m) k = false -> sent t W k (2 * m + 2).
