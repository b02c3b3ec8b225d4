(** Specification of trees: which nodes a tree has. *)
From Verif Require Import Base Num DataModel TreeModel.

(** [tree_node t k n]: node [n] belongs to the tree, at depth [k] ([n] is the root, or a child of an inner node). *)
Definition inner_crit {O} (t : tree O) (n : nat) : Prop := exists c, nth_error (t_crits t) n = Some c /\ sc_type c <> NoSplit.
Inductive tree_node {O} (t : tree O) : nat -> nat -> Prop :=
| tn_root : tree_node t 0 0
| tn_left k n : tree_node t k n -> inner_crit t n -> tree_node t (S k) (2 * n + 1)
| tn_right k n : tree_node t k n -> inner_crit t n -> tree_node t (S k) (2 * n + 2).
Definition inner_node {O} (t : tree O) (n : nat) : Prop := (exists k, tree_node t k n) /\ inner_crit t n.
Definition leaf_node {O} (t : tree O) (n : nat) : Prop := (exists k, tree_node t k n) /\ ~ inner_crit t n.

(** [P] has exactly [k] elements. *)
Definition has_count (P : nat -> Prop) (k : nat) : Prop :=
  exists l, NoDup l /\ (forall n, In n l <-> P n) /\ length l = k.

(** A history of a tree: every split is applied to a leaf of the tree as it is then. *)
Fixpoint splits_leaves {O} (ops : list (tree_op O)) (t : tree O) : Prop :=
  match ops with
  | [] => True
  | o :: rest =>
    match o with TSplit n _ => leaf_node t n | _ => True end /\
    forall t', tree_exec t o = Ok t' -> splits_leaves rest t'
  end.

(** A node of the complete tree of depth [d] that is at depth [k]. *)
Definition at_depth (k n : nat) : Prop := 2 ^ k - 1 <= n < 2 ^ (k + 1) - 1.

(** The data can be routed through the tree: it has the example, every tested column (and column 0, which is also read at
    leaves), and the category tables cover the hi-cardinality splits. *)
Definition routable {O} (t : tree O) (d : data O) (i : nat) : Prop :=
  (forall c, In c (t_crits t) -> exists col, nth_error (d_features d) (sc_feature c) = Some col /\ i < length col) /\
  (forall c, In c (t_crits t) -> sc_type c = HiCardCatLt -> sc_feature c < length (t_supercats t)).

(** What a history of operations makes of a tree: its splits, the values of its nodes, its scale and its bias. *)
Section History.
Variable O : numops.
Definition split_of (ops : list (tree_op O)) (n : nat) : split_crit O := fold_left (fun c o => match o with TSplit m c' => if m =? n then c' else c | _ => c end) ops (no_split O).
Definition value_of (ops : list (tree_op O)) (n : nat) : num O := fold_left (fun v o => match o with TSetValue m v' => if m =? n then v' else v | _ => v end) ops (nofZ O 0).
Definition scale_of (ops : list (tree_op O)) : num O := fold_left (fun s o => match o with TShrink s' => nmul O s s' | _ => s end) ops (nofZ O 1).
Definition bias_of (ops : list (tree_op O)) : num O := fold_left (fun b o => match o with TBias b' => b' | _ => b end) ops (nofZ O 0).
End History.
Arguments split_of {O}. Arguments value_of {O}. Arguments scale_of {O}. Arguments bias_of {O}.

(** A history of a model: settings of its bias and pushes of trees. *)
Inductive model_op (O : numops) : Type := MBias (b : num O) | MPush (t : tree O).
Arguments MBias {O}. Arguments MPush {O}.
Definition model_exec {O} (m : additive_tree O) (o : model_op O) : additive_tree O := match o with MBias b => additive_set_bias m b | MPush t => push_tree m t end.
Definition trees_of {O} (ops : list (model_op O)) : list (tree O) := flat_map (fun o => match o with MPush t => [t] | _ => [] end) ops.
Definition model_bias_of {O} (ops : list (model_op O)) : num O := fold_left (fun b o => match o with MBias b' => b' | _ => b end) ops (nofZ O 0).
