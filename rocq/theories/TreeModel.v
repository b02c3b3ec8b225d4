(** Model of src/tree/tree.rs.  Definitions only.  Numbers of nodes are naturals (the [1 << depth] of a depth of 63 or
    more overflows [usize] in the code; not modelled).  [Debug] output is not modelled. *)
From Verif Require Import Base Num DataModel.

(** tree.rs:12-19 *)
Inductive split_type := NoSplit | LoCardCatEq | HiCardCatLt | NumLt.
Definition is_no_split_type (t : split_type) : bool := match t with NoSplit => true | _ => false end.

Section Tree.
Variable O : numops.

(** tree.rs:21-26 *)
Record split_crit : Type := mk_crit { sc_type : split_type; sc_feature : nat; sc_value : num O }.
(** tree.rs:29-39 *)
Definition no_split : split_crit := mk_crit NoSplit 0 (nofZ O 0).
Definition is_no_split (c : split_crit) : bool := is_no_split_type (sc_type c).

(** tree.rs:42-53 *)
Record tree : Type := mk_tree {
  t_ninternal : nat;
  t_max_depth : nat;
  t_crits : list split_crit;
  t_values : list (num O);
  t_shrinkage : num O;
  t_bias : num O;
  t_supercats : list (list nat)
}.

(** tree.rs:77-87 *)
Definition left_child (n : nat) : nat := 2 * n + 1.
Definition right_child (n : nat) : nat := 2 * n + 2.
Definition max_ninternal (t : tree) : nat := 2 ^ t_max_depth t - 1.
Definition max_nleafs (t : tree) : nat := 2 ^ t_max_depth t.
Definition ninternal (t : tree) : nat := t_ninternal t.
Definition nleafs (t : tree) : nat := t_ninternal t + 1.
Definition max_nnodes (t : tree) : nat := 2 ^ (t_max_depth t + 1) - 1.
Definition nnodes (t : tree) : nat := ninternal t + nleafs t.
Definition is_valid_node_id (t : tree) (n : nat) : bool := n <? nnodes t.

(** tree.rs:56-75 [new] *)
Definition tree_new (max_depth : nat) (supercats : list (list nat)) : res tree :=
  let* _ := rassert (0 <? max_depth) in
  let n := 2 ^ (max_depth + 1) - 1 in
  Ok (mk_tree 0 max_depth (repeat no_split n) (repeat (nofZ O 0) n) (nofZ O 1) (nofZ O 0) supercats).

(** tree.rs:89 *)
Definition node_value (t : tree) (n : nat) : res (num O) := idx (t_values t) n.
(** tree.rs:92-95 ([safety_check!] is [assert!], lib.rs:8-11) *)
Definition set_node_value (t : tree) (n : nat) (v : num O) : res tree :=
  let* _ := rassert (nisfin O v) in
  let* vs := set_idx (t_values t) n v in
  Ok (mk_tree (t_ninternal t) (t_max_depth t) (t_crits t) vs (t_shrinkage t) (t_bias t) (t_supercats t)).
(** tree.rs:98-100 *)
Definition is_max_leaf_node (t : tree) (n : nat) : bool := max_ninternal t <=? n.
(** tree.rs:102-109 *)
Definition split_node (t : tree) (n : nat) (c : split_crit) : res tree :=
  let* old := idx (t_crits t) n in
  let* _ := rassert (is_no_split old) in
  let* _ := rassert (negb (is_no_split c)) in
  let* _ := rassert (negb (is_max_leaf_node t n)) in
  let* cs := set_idx (t_crits t) n c in
  Ok (mk_tree (t_ninternal t + 1) (t_max_depth t) cs (t_values t) (t_shrinkage t) (t_bias t) (t_supercats t)).
(** tree.rs:111-113 *)
Definition get_supercat (t : tree) (f c : nat) : res nat := let* s := idx (t_supercats t) f in idx s c.
(** tree.rs:162-168 *)
Definition set_shrinkage (t : tree) (s : num O) : tree :=
  mk_tree (t_ninternal t) (t_max_depth t) (t_crits t) (t_values t) (nmul O (t_shrinkage t) s) (t_bias t) (t_supercats t).
Definition set_tree_bias (t : tree) (b : num O) : tree :=
  mk_tree (t_ninternal t) (t_max_depth t) (t_crits t) (t_values t) (t_shrinkage t) b (t_supercats t).

(** tree.rs:123-156: the test of one node on a value ([None]: the node is a leaf). *)
Definition goes_left (t : tree) (c : split_crit) (value : num O) : res (option bool) :=
  match sc_type c with
  | LoCardCatEq => Ok (Some (neq O value (sc_value c)))
  | HiCardCatLt =>
    let* _ := rassert (sc_feature c <? length (t_supercats t)) in
    let* supercats := idx (t_supercats t) (sc_feature c) in
    let cat_value := into_cat value in
    let* spcat := (if cat_value <? length supercats then idx supercats cat_value else Ok (length supercats)) in
    Ok (Some (spcat <=? into_cat (sc_value c)))
  | NumLt => Ok (Some (nlt O value (sc_value c)))
  | NoSplit => Ok None
  end.

(** tree.rs:115-160 [predict_leaf_id_of_example]; one unit of [fuel] per visited node. *)
Fixpoint leaf_id_loop (fuel : nat) (t : tree) (d : data O) (i node : nat) : res nat :=
  match fuel with
  | 0 => OutOfFuel
  | S fuel' =>
    let* c := idx (t_crits t) node in
    let* feat := get_feature d (sc_feature c) in
    let* value := idx feat i in
    let* r := goes_left t c value in
    match r with
    | Some true => leaf_id_loop fuel' t d i (left_child node)
    | Some false => leaf_id_loop fuel' t d i (right_child node)
    | None => Ok node
    end
  end.
Definition predict_leaf_id (t : tree) (d : data O) (i : nat) : res nat :=
  leaf_id_loop (S (length (t_crits t))) t d i 0.

(** tree.rs:170-174 *)
Definition predict_single (t : tree) (d : data O) (i : nat) : res (num O) :=
  let* leaf := predict_leaf_id t d i in
  let* v := idx (t_values t) leaf in
  Ok (nmul O (t_shrinkage t) (nadd O v (t_bias t))).

(** tree.rs:177-188; the closure [f] stores [f prediction old]. *)
Definition predict_and (t : tree) (d : data O) (f : num O -> num O -> num O) (buf : list (num O)) : res (list (num O)) :=
  let* _ := rassert (length buf =? d_nexamples d) in
  foldM (fun buf i => let* p := predict_single t d i in let* x := idx buf i in set_idx buf i (f p x))
        (seq 0 (d_nexamples d)) buf.
(** tree.rs:190-200 *)
Definition tree_predict_buf (t : tree) (d : data O) (buf : list (num O)) : res (list (num O)) := predict_and t d (fun p _ => p) buf.
Definition tree_predict (t : tree) (d : data O) : res (list (num O)) :=
  tree_predict_buf t d (repeat (nofZ O 0) (d_nexamples d)).

(** tree.rs:237-241 *)
Record additive_tree : Type := mk_add { at_bias : num O; at_trees : list tree }.
(** tree.rs:244-257 *)
Definition additive_new : additive_tree := mk_add (nofZ O 0) [].
Definition additive_set_bias (m : additive_tree) (b : num O) : additive_tree := mk_add b (at_trees m).
Definition push_tree (m : additive_tree) (t : tree) : additive_tree := mk_add (at_bias m) (at_trees m ++ [t]).
(** tree.rs:266-273 *)
Definition additive_predict_buf (m : additive_tree) (d : data O) (buf : list (num O)) : res (list (num O)) :=
  foldM (fun buf t => predict_and t d (fun p acc => nadd O acc p) buf) (at_trees m) (map (fun _ => at_bias m) buf).
(** tree.rs:259-264 *)
Definition additive_predict (m : additive_tree) (d : data O) : res (list (num O)) :=
  additive_predict_buf m d (repeat (nofZ O 0) (d_nexamples d)).

(** The mutations of a tree a client can perform. *)
Inductive tree_op : Type :=
| TSplit (n : nat) (c : split_crit)
| TSetValue (n : nat) (v : num O)
| TShrink (s : num O)
| TBias (b : num O).
Definition tree_exec (t : tree) (o : tree_op) : res tree :=
  match o with
  | TSplit n c => split_node t n c
  | TSetValue n v => set_node_value t n v
  | TShrink s => Ok (set_shrinkage t s)
  | TBias b => Ok (set_tree_bias t b)
  end.
End Tree.
Arguments mk_crit {O}. Arguments sc_type {O}. Arguments sc_feature {O}. Arguments sc_value {O}. Arguments is_no_split {O}.
Arguments mk_tree {O}. Arguments t_ninternal {O}. Arguments t_max_depth {O}. Arguments t_crits {O}. Arguments t_values {O}.
Arguments t_shrinkage {O}. Arguments t_bias {O}. Arguments t_supercats {O}.
Arguments max_ninternal {O}. Arguments max_nleafs {O}. Arguments ninternal {O}. Arguments nleafs {O}. Arguments max_nnodes {O}.
Arguments nnodes {O}. Arguments is_valid_node_id {O}. Arguments node_value {O}. Arguments set_node_value {O}.
Arguments is_max_leaf_node {O}. Arguments split_node {O}. Arguments get_supercat {O}. Arguments set_shrinkage {O}. Arguments set_tree_bias {O}.
Arguments goes_left {O}. Arguments leaf_id_loop {O}. Arguments predict_leaf_id {O}. Arguments predict_single {O}. Arguments predict_and {O}.
Arguments tree_predict_buf {O}. Arguments tree_predict {O}. Arguments mk_add {O}. Arguments at_bias {O}. Arguments at_trees {O}.
Arguments additive_set_bias {O}. Arguments push_tree {O}. Arguments additive_predict_buf {O}. Arguments additive_predict {O}.
Arguments TSplit {O}. Arguments TSetValue {O}. Arguments TShrink {O}. Arguments TBias {O}. Arguments tree_exec {O}.
