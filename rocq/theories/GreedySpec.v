(** Specification of greedy tree growing. *)
From Coq Require Import Reals.
From Verif Require Import Base BitModel BitSpec Num DataModel Config TreeModel TreeSpec DatasetModel LearnerModel LearnerSpec GainSpec RouteProps.

(** [greedy stops picks leaf r m l]: the part of the tree [t] below node [m] is grown greedily for the examples [l] (positions in the list of active examples), with at most [r] levels of splits.
    Either [m] is a leaf, because no level is left or the examples give a reason to stop; or it is split on a bin [b] of an active feature whose mask [fm] was picked for the examples, those in the mask go left and
    the others right, and both parts are grown greedily. *)
Inductive greedy {O} (s : dataset O) (t : tree O) (stops : list nat -> Prop) (picks : list nat -> nat -> nat -> blocks -> Prop) (leaf : nat -> list nat -> Prop) : nat -> nat -> list nat -> Prop :=
| greedy_leaf r m l : ~ inner_crit t m -> r = 0 \/ stops l -> leaf m l -> greedy s t stops picks leaf r m l
| greedy_split r m l c b fm : nth_error (t_crits t) m = Some c -> sc_type c <> NoSplit ->
    candidate s (sc_feature c) b -> ds_get_bitvec s (sc_feature c) b = Ok fm -> split_on s (sc_feature c) b c -> picks l (sc_feature c) b fm ->
    greedy s t stops picks leaf r (2 * m + 1) (filter (bbit fm) l) -> greedy s t stops picks leaf r (2 * m + 2) (filter (fun k => negb (bbit fm k)) l) ->
    greedy s t stops picks leaf (S r) m l.

(** Both sides of a split get at least [k] examples. *)
Definition both_sides (k : nat) (fm : blocks) (l : list nat) : Prop := k <= length (filter (bbit fm) l) /\ k <= length (filter (fun x => negb (bbit fm x)) l).
