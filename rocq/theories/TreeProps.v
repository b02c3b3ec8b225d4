(** Properties C21, C22, C23, C42: trees and prediction.  Stated for any arithmetic [O]; the program's is [f32ops]. *)
From Verif Require Import Base BaseProofs F32 Num DataModel TreeModel TreeSpec TreeProofs TreeProofs2.

Definition fz (z : Z) : num f32ops := f_of_Z z.
(** A tree with three splits on three features: node 0 numerical (< 5), node 1 hi-cardinality (super-category <= 1), node 2
    low-cardinality (= 3). *)
Definition ex_ops : list (tree_op f32ops) :=
  [TSplit 0 (mk_crit NumLt 0 (fz 5)); TSetValue 4 (fz 8); TSplit 1 (mk_crit HiCardCatLt 1 (fz 1));
   TSplit 2 (mk_crit LoCardCatEq 2 (fz 3)); TShrink (fz 2); TBias (fz 1)].
Definition ex_supercats : list (list nat) := [[]; [0; 2; 1; 0]; []].
Definition ex_tree : res (tree f32ops) := let* t := tree_new f32ops 2 ex_supercats in foldM tree_exec ex_ops t.
Definition ex_data : data f32ops :=
  @mk_data f32ops 16 3 3 [[fz 1; fz 9; f_nan]; [fz 1; fz 7; f_nan]; [fz 3; fz 3; f_nan]; [f_zero; f_zero; f_zero]] [] [] [].

(* ---- C21 ---- *)

(** However a tree is built, if every split was applied to a leaf, then the counts reported by the tree are the numbers of
    its inner nodes, leaves and nodes; they satisfy nnodes = 2 * ninternal + 1 and nleafs = ninternal + 1 and the size
    bounds of the depth. *)
Theorem C21_counts : forall O d sup t0 ops t, tree_new O d sup = Ok t0 -> foldM tree_exec ops t0 = Ok t -> splits_leaves ops t0 ->
  has_count (inner_node t) (ninternal t) /\ has_count (leaf_node t) (nleafs t) /\
  has_count (fun n => exists k, tree_node t k n) (nnodes t) /\
  nnodes t = 2 * ninternal t + 1 /\ nleafs t = ninternal t + 1 /\
  ninternal t <= 2 ^ d - 1 /\ nleafs t <= 2 ^ d /\ nnodes t <= 2 ^ (d + 1) - 1.
Proof.
  intros O d sup t0 ops t E1 E2 HS. pose proof (ginv_run O ops t0 t (ginv_new O d sup t0 E1) HS E2) as G.
  destruct (tree_new_inv O d sup t0 E1) as (I0 & Hd). pose proof (tree_run_inv O d ops t0 t I0 E2) as I.
  pose proof (ninternal_bound O d t I G) as HB. assert (2 ^ d <> 0) as Hpz by (apply Nat.pow_nonzero; lia). rewrite (Nat.add_1_r d).
  replace (2 ^ S d) with (2 * 2 ^ d) by reflexivity.
  unfold nnodes, nleafs, ninternal. split; [apply (gi_inner O t G)|]. split; [apply (gi_leaf O t G)|]. split; [|lia].
  destruct (gi_inner O t G) as (l1 & A1 & A2 & A3). destruct (gi_leaf O t G) as (l2 & B1 & B2 & B3).
  exists (l1 ++ l2). split; [|split; [|rewrite app_length; lia]].
  - apply nodup_app; [exact A1|exact B1|]. intros n H1 H2. apply A2 in H1 as (_ & H1). apply B2 in H2 as (_ & H2). contradiction.
  - intros n. rewrite in_app_iff, A2, B2. split; [intros [(H1 & _)|(H1 & _)]; exact H1|]. intros Hn.
    assert (inner_crit t n \/ ~ inner_crit t n) as [Hi|Hi]; [|left; split; assumption|right; split; assumption].
    unfold inner_crit. destruct (nth_error (t_crits t) n) as [c|]; [|right; intros (c & Ec & _); discriminate].
    destruct (sc_type c) eqn:Et; [right; intros (c' & Ec & Hc); congruence|left; exists c; split; congruence..].
Qed.
Print Assumptions C21_counts.

(** A split turns a leaf criterion into an inner one, changes no other node, and is refused for inner nodes, for nodes at the
    maximum depth and for nodes outside the tree. *)
Theorem C21_split : forall O d sup t0 ops (t : tree O) n c t', tree_new O d sup = Ok t0 -> foldM tree_exec ops t0 = Ok t ->
  split_node t n c = Ok t' ->
  ~ inner_crit t n /\ inner_crit t' n /\ (forall k, at_depth k n -> k < d) /\ ninternal t' = ninternal t + 1 /\
  forall m, m <> n -> nth_error (t_crits t') m = nth_error (t_crits t) m.
Proof.
  intros O d sup t0 ops t n c t' E1 E2 E. destruct (tree_new_inv O d sup t0 E1) as (I0 & _). pose proof (tree_run_inv O d ops t0 t I0 E2) as I.
  apply split_node_ok in E as (old & H1 & H2 & H3 & H4 & ->). split; [intros (c' & Ec & Hc); congruence|].
  assert (n < length (t_crits t)) as Hl by (apply nth_error_Some; congruence).
  split; [exists c; cbn [t_crits]; rewrite nth_error_upd, Nat.eqb_refl; replace (n <? length (t_crits t)) with true by lia; auto|].
  split; [|split; [reflexivity|]].
  - intros k (Hk & _). unfold max_ninternal in H4. rewrite (ti_depth O d t I) in H4. apply Nat.pow_lt_mono_r_iff with (a := 2); lia.
  - intros m Hm. cbn [t_crits]. rewrite nth_error_upd. replace (n =? m) with false by lia. reflexivity.
Qed.
Print Assumptions C21_split.

(** Even for arbitrary splits, the number of inner nodes is the number of nodes with a split criterion. *)
Theorem C21_ninternal : forall O d sup t0 ops (t : tree O), tree_new O d sup = Ok t0 -> foldM tree_exec ops t0 = Ok t ->
  ninternal t = length (filter (fun c => negb (is_no_split c)) (t_crits t)) /\ length (t_crits t) = max_nnodes t.
Proof.
  intros O d sup t0 ops t E1 E2. destruct (tree_new_inv O d sup t0 E1) as (I0 & _). pose proof (tree_run_inv O d ops t0 t I0 E2) as I.
  split; [apply (ti_count O d t I)|]. unfold max_nnodes. rewrite (ti_depth O d t I). apply (ti_crits O d t I).
Qed.
Print Assumptions C21_ninternal.

(** The sizes a tree reports never exceed the maximal sizes it reports, and these are those of the full tree of its depth. *)
Theorem C21_limits : forall O d sup t0 ops (t : tree O), tree_new O d sup = Ok t0 -> foldM tree_exec ops t0 = Ok t -> splits_leaves ops t0 ->
  ninternal t <= max_ninternal t /\ nleafs t <= max_nleafs t /\ nnodes t <= max_nnodes t /\ max_ninternal t = 2 ^ d - 1 /\ max_nleafs t = 2 ^ d /\ max_nnodes t = 2 ^ d - 1 + 2 ^ d.
Proof.
  intros O d sup t0 ops t E1 E2 HS. destruct (C21_counts O d sup t0 ops t E1 E2 HS) as (_ & _ & _ & _ & _ & H1 & H2 & H3).
  destruct (tree_new_inv O d sup t0 E1) as (I0 & _). pose proof (tree_run_inv O d ops t0 t I0 E2) as I.
  unfold max_ninternal, max_nleafs, max_nnodes. rewrite (ti_depth O d t I). assert (2 ^ d <> 0) as Hpz by (apply Nat.pow_nonzero; lia). rewrite (Nat.add_1_r d) in *.
  replace (2 ^ S d) with (2 * 2 ^ d) in * by reflexivity. lia.
Qed.
Print Assumptions C21_limits.

(** The super-category of a category is the one in the table the tree was made with, whatever was done to the tree. *)
Theorem C21_supercat : forall O d sup t0 ops (t : tree O) f c b, tree_new O d sup = Ok t0 -> foldM tree_exec ops t0 = Ok t ->
  (get_supercat t f c = Ok b <-> exists table, nth_error sup f = Some table /\ nth_error table c = Some b).
Proof.
  intros O d sup t0 ops t f c b E1 E2. assert (t_supercats t = sup) as Hs.
  { assert (t_supercats t0 = sup) as H0. { unfold tree_new in E1. apply rbind_ok in E1 as (? & _ & E1). injection E1 as <-. reflexivity. } rewrite <- H0. clear E1 H0.
    revert t0 E2. induction ops as [|op ops IH]; intros t0 E2; cbn [foldM] in E2; [injection E2 as <-; reflexivity|]. apply rbind_ok in E2 as (t1 & E & E2). rewrite (IH _ E2).
    destruct op; cbn [tree_exec] in E.
    - unfold split_node in E. repeat (apply rbind_ok in E as (? & _ & E)). injection E as <-. reflexivity.
    - unfold set_node_value in E. repeat (apply rbind_ok in E as (? & _ & E)). injection E as <-. reflexivity.
    - injection E as <-. reflexivity.
    - injection E as <-. reflexivity. }
  unfold get_supercat. rewrite Hs. split.
  - intros E. apply rbind_ok in E as (table & Et & E). apply idx_ok in Et. apply idx_ok in E. eauto.
  - intros (table & Et & Ec). apply idx_ok in Et. rewrite Et. apply idx_ok in Ec. exact Ec.
Qed.
Print Assumptions C21_supercat.
Example C21_limits_ex : (match ex_tree with Ok t => max_nleafs t = 4 /\ max_ninternal t = 3 /\ max_nnodes t = 7 /\ nleafs t = 4 /\ get_supercat t 1 1 = Ok 2 /\ get_supercat t 1 4 = Panic | _ => False end).
Proof. vm_compute. repeat split. Qed.

Example C21_ex : exists t0 t, tree_new f32ops 2 ex_supercats = Ok t0 /\ foldM tree_exec ex_ops t0 = Ok t /\ splits_leaves ex_ops t0 /\
  ninternal t = 3 /\ nleafs t = 4 /\ nnodes t = 7.
Proof.
  do 2 eexists. split; [reflexivity|]. split; [reflexivity|]. split; [|repeat split].
  assert (forall (t : tree f32ops) n c, nth_error (t_crits t) n = Some c -> sc_type c = NoSplit -> ~ inner_crit t n) as Hno
    by (intros t n c H1 H2 (c' & H3 & H4); congruence).
  cbn [splits_leaves ex_ops]. split.
  { split; [exists 0; constructor|]. eapply Hno; reflexivity. }
  intros t1 E. injection E as <-. split; [exact I|]. intros t2 E. injection E as <-. split.
  { split; [exists 1; apply (tn_left _ 0 0); [constructor|]; eexists; split; [reflexivity|discriminate]|]. eapply Hno; reflexivity. }
  intros t3 E. injection E as <-. split.
  { split; [exists 1; apply (tn_right _ 0 0); [constructor|]; eexists; split; [reflexivity|discriminate]|]. eapply Hno; reflexivity. }
  intros t4 E. injection E as <-. split; [exact I|]. intros t5 E. injection E as <-. split; [exact I|]. auto.
Qed.

(** [is_valid_node_id] does not decide membership: in the tree that splits 0 and then 2, node 6 is a leaf although the tree
    says its 5 nodes are 0..4, and 3 is not a node. *)
Theorem C21_is_valid_node_id_refuted : exists t0 (t : tree f32ops),
  tree_new f32ops 2 [] = Ok t0 /\ foldM tree_exec [TSplit 0 (mk_crit NumLt 0 (fz 0)); TSplit 2 (mk_crit NumLt 0 (fz 0))] t0 = Ok t /\
  leaf_node t 6 /\ is_valid_node_id t 6 = false /\ (forall k, ~ tree_node t k 3) /\ is_valid_node_id t 3 = true.
Proof.
  do 2 eexists. split; [reflexivity|]. split; [reflexivity|]. split; [|split; [reflexivity|split; [|reflexivity]]].
  - split; [|intros (c & E & H); injection E as <-; apply H; reflexivity].
    exists 2. apply (tn_right _ 1 2). { apply (tn_right _ 0 0); [constructor|]. eexists. split; [reflexivity|discriminate]. }
    eexists. split; [reflexivity|discriminate].
  - intros k H. apply (child_inv _ _ 1 3) in H; [|left; reflexivity]. destruct H as (c & E & H). injection E as <-. apply H. reflexivity.
Qed.
Print Assumptions C21_is_valid_node_id_refuted.
(** What it does: it accepts as many ids as the tree has nodes, those below the number of nodes; so it does decide membership if the ids of the tree's nodes have no gaps. *)
Theorem C21_valid_ids : forall O d sup t0 ops (t : tree O), tree_new O d sup = Ok t0 -> foldM tree_exec ops t0 = Ok t -> splits_leaves ops t0 ->
  (exists count, has_count (fun n => exists k, tree_node t k n) count /\ forall n, is_valid_node_id t n = true <-> n < count) /\
  ((forall n m, m < n -> (exists k, tree_node t k n) -> exists k, tree_node t k m) -> forall n, is_valid_node_id t n = true <-> exists k, tree_node t k n).
Proof.
  intros O d sup t0 ops t E1 E2 HS. destruct (C21_counts O d sup t0 ops t E1 E2 HS) as (_ & _ & HC & _). split; [exists (nnodes t); split; [exact HC|intros n; apply Nat.ltb_lt]|].
  intros Hd n. unfold is_valid_node_id. rewrite Nat.ltb_lt. destruct HC as (l & Hnd & Hl & <-). split.
  - intros Hn. destruct (in_dec Nat.eq_dec n l) as [Hin|Hin]; [apply Hl, Hin|]. exfalso. assert (length l <= length (seq 0 n)) as Hle; [|rewrite seq_length in Hle; lia].
    apply NoDup_incl_length; [exact Hnd|]. intros x Hx. apply in_seq. destruct (Nat.lt_trichotomy x n) as [H|[->|H]]; [lia|contradiction|]. exfalso. apply Hin, Hl. apply (Hd x n H), Hl, Hx.
  - intros Hn. assert (length (seq 0 (S n)) <= length l) as Hle; [|rewrite seq_length in Hle; lia]. apply NoDup_incl_length; [apply seq_NoDup|]. intros x Hx. apply in_seq in Hx. apply Hl.
    destruct (Nat.eq_dec x n) as [->|Hne]; [exact Hn|]. apply (Hd n x); [lia|exact Hn].
Qed.
Print Assumptions C21_valid_ids.

(* ---- C22 ---- *)

(** However the tree was built, routing an example visits at most [d] inner nodes and ends at a leaf of the tree; prediction
    does not fail.  Any feature values, NaN included. *)
Theorem C22_reaches_leaf : forall O d sup t0 ops (t : tree O) data i, tree_new O d sup = Ok t0 -> foldM tree_exec ops t0 = Ok t ->
  routable t data i ->
  exists leaf k v, leaf_id_loop (S d) t data i 0 = Ok leaf /\ predict_leaf_id t data i = Ok leaf /\
    leaf_node t leaf /\ tree_node t k leaf /\ k <= d /\ node_value t leaf = Ok v /\
    predict_single t data i = Ok (nmul O (t_shrinkage t) (nadd O v (t_bias t))).
Proof.
  intros O d sup t0 ops t data i E1 E2 R. destruct (tree_new_inv O d sup t0 E1) as (I0 & _). pose proof (tree_run_inv O d ops t0 t I0 E2) as I.
  destruct (leaf_loop_ok O d t data i I R d 0 0 (tn_root t) eq_refl) as (leaf & E & ((k & Hk) & Hl)).
  assert (d < 2 ^ (d + 1)) as Hp. { pose proof (Nat.pow_gt_lin_r 2 (d + 1)). lia. }
  assert (predict_leaf_id t data i = Ok leaf) as Ep.
  { apply (leaf_loop_mono O (S d)); [exact E|]. rewrite (ti_crits O d t I). lia. }
  pose proof (tree_node_max O d t k leaf I Hk) as Hkd.
  assert (leaf < length (t_values t)) as Hlen.
  { rewrite (ti_values O d t I). apply tree_node_depth in Hk. unfold at_depth in Hk. assert (2 ^ (k + 1) <= 2 ^ (d + 1)) by (apply Nat.pow_le_mono_r; lia). lia. }
  exists leaf, k, (nth leaf (t_values t) (nofZ O 0)). split; [exact E|]. split; [exact Ep|]. split; [split; [exists k; exact Hk|exact Hl]|]. split; [exact Hk|].
  split; [exact Hkd|]. unfold node_value, predict_single. rewrite Ep. cbn [rbind]. rewrite (idx_lt _ _ _ (nofZ O 0) Hlen). cbn [rbind]. auto.
Qed.
Print Assumptions C22_reaches_leaf.

Example C22_ex : exists t0 t, tree_new f32ops 2 ex_supercats = Ok t0 /\ foldM tree_exec ex_ops t0 = Ok t /\
  (forall i, i < 3 -> routable t ex_data i) /\ map (predict_leaf_id t ex_data) [0; 1; 2] = [Ok 4; Ok 5; Ok 6].
Proof.
  do 2 eexists. split; [reflexivity|]. split; [reflexivity|]. split; [|vm_compute; reflexivity].
  intros i Hi. split.
  - intros c Hc. cbn [t_crits] in Hc. repeat (destruct Hc as [<-|Hc]; [eexists; split; [reflexivity|cbn; lia]|]). destruct Hc.
  - intros c Hc. cbn [t_crits t_supercats ex_supercats length] in *. repeat (destruct Hc as [<-|Hc]; [intros _; cbn; lia|]). destruct Hc.
Qed.

(* ---- C23 ---- *)

(** A hi-cardinality split with the category table [s] of its feature and the super-category number [j], when [j] is smaller
    than the number of categories (which holds for every split made in training, see C23_trained in DatasetProps): the example goes left exactly if
    its category is in the table with a super-category of at most [j].  In particular categories that are not in the table go right. *)
Theorem C23_hicard : forall O (t : tree O) c s (v : num O), sc_type c = HiCardCatLt -> nth_error (t_supercats t) (sc_feature c) = Some s ->
  into_cat (sc_value c) < length s ->
  exists left, goes_left t c v = Ok (Some left) /\
    (left = true <-> exists k, nth_error s (into_cat v) = Some k /\ k <= into_cat (sc_value c)).
Proof.
  intros O t c s v Ht Hs Hj. unfold goes_left. rewrite Ht.
  assert (sc_feature c < length (t_supercats t)) as Hl by (apply nth_error_Some; congruence).
  replace (sc_feature c <? length (t_supercats t)) with true by lia. cbn [rassert rbind]. rewrite (proj2 (idx_ok _ _ _ _) Hs). cbn [rbind].
  destruct (into_cat v <? length s) eqn:E.
  - destruct (nth_error s (into_cat v)) as [k|] eqn:Ek; [|apply nth_error_None in Ek; lia]. rewrite (proj2 (idx_ok _ _ _ _) Ek). cbn [rbind].
    eexists. split; [reflexivity|]. split; [intros H; exists k; split; [reflexivity|lia]|]. intros (k' & Ek' & H). injection Ek' as <-. lia.
  - cbn [rbind]. eexists. split; [reflexivity|]. split; [intros H; lia|]. intros (k & Ek & _).
    assert (into_cat v < length s) by (apply nth_error_Some; congruence). lia.
Qed.
Print Assumptions C23_hicard.

(** The right child is taken. *)
Theorem C23_unseen_goes_right : forall O (t : tree O) data i n c s col v fuel, nth_error (t_crits t) n = Some c ->
  sc_type c = HiCardCatLt -> nth_error (t_supercats t) (sc_feature c) = Some s -> into_cat (sc_value c) < length s ->
  nth_error (d_features data) (sc_feature c) = Some col -> nth_error col i = Some v -> length s <= into_cat v ->
  leaf_id_loop (S fuel) t data i n = leaf_id_loop fuel t data i (2 * n + 2).
Proof.
  intros O t data i n c s col v fuel Hc Ht Hs Hj Hcol Hv Hun. cbn [leaf_id_loop]. rewrite (proj2 (idx_ok _ _ _ _) Hc). cbn [rbind].
  unfold get_feature. rewrite (proj2 (idx_ok _ _ _ _) Hcol). cbn [rbind]. rewrite (proj2 (idx_ok _ _ _ _) Hv). cbn [rbind].
  destruct (C23_hicard O t c s v Ht Hs Hj) as (left & E & HL). rewrite E. cbn [rbind]. destruct left; [|reflexivity].
  destruct (proj1 HL eq_refl) as (k & Ek & _). exfalso. assert (into_cat v < length s) by (apply nth_error_Some; congruence). lia.
Qed.
Print Assumptions C23_unseen_goes_right.

(** In the example tree: category 2 (super-category 1) goes left, categories 1 (super-category 2), 4 and 7 (unseen) right. *)
Example C23_ex : exists t, ex_tree = Ok t /\
  map (fun z => goes_left t (mk_crit HiCardCatLt 1 (fz 1)) (fz z)) [2; 1; 4; 7]%Z = [Ok (Some true); Ok (Some false); Ok (Some false); Ok (Some false)] /\
  @into_cat f32ops (fz 1) < length (nth 1 (t_supercats t) []).
Proof. eexists. split; [reflexivity|]. split; [vm_compute; reflexivity|]. vm_compute. lia. Qed.

(* ---- C42 ---- *)

(** The prediction of a model for example [i] is its bias plus the trees' predictions, added in order. *)
Theorem C42_sum : forall O (m : additive_tree O) (d : data O),
  (forall t i, In t (at_trees m) -> i < d_nexamples d -> exists p, predict_single t d i = Ok p) ->
  exists preds, additive_predict m d = Ok preds /\ length preds = d_nexamples d /\
    forall i outs, i < d_nexamples d -> mapM (fun t => predict_single t d i) (at_trees m) = Ok outs ->
      nth_error preds i = Some (fold_left (nadd O) outs (at_bias m)).
Proof.
  intros O m d. unfold additive_predict, additive_predict_buf. rewrite map_const_repeat. generalize (at_bias m). induction (at_trees m) as [|t ts IH] using rev_ind; intros b H.
  - eexists. split; [reflexivity|]. split; [apply repeat_length|]. intros i outs Hi E. injection E as <-. apply nth_error_repeat, Hi.
  - destruct (IH b) as (preds & E & L & Hp); [intros t' i Ht; apply H, in_or_app; auto|]. rewrite foldM_app, E. cbn [rbind foldM].
    destruct (predict_and_ok O t d (fun p acc => nadd O acc p) preds L) as (preds' & E' & L' & Hp'); [intros i Hi; apply H; [apply in_or_app; cbn; auto|exact Hi]|].
    rewrite E'. cbn [rbind]. exists preds'. split; [reflexivity|]. split; [congruence|]. intros i outs Hi Eo.
    apply mapM_ok in Eo. apply Forall2_app_inv_l in Eo as (o1 & o2 & F1 & F2 & ->). inversion F2 as [|? p ? ? Ep F3]; subst. inversion F3; subst.
    rewrite fold_left_app. cbn [fold_left]. apply (Hp' i p); [exact Ep|]. apply Hp; [exact Hi|]. apply mapM_ok. exact F1.
Qed.
Print Assumptions C42_sum.

(** Pushing a tree adds exactly the prediction of that tree, for every example. *)
Theorem C42_push : forall O (m : additive_tree O) t (d : data O) preds outs,
  additive_predict m d = Ok preds -> tree_predict t d = Ok outs ->
  exists preds', additive_predict (push_tree m t) d = Ok preds' /\ length preds' = length preds /\
    forall i p x, nth_error preds i = Some p -> nth_error outs i = Some x -> nth_error preds' i = Some (nadd O p x).
Proof.
  intros O m t d preds outs E1 E2.
  assert (forall i, i < d_nexamples d -> exists p, predict_single t d i = Ok p) as Hs.
  { unfold tree_predict, tree_predict_buf, predict_and in E2. rewrite repeat_length, Nat.eqb_refl in E2. cbn [rassert rbind] in E2.
    clear E1. revert E2. generalize (repeat (nofZ O 0) (d_nexamples d)). intros buf E2 i Hi.
    assert (In i (seq 0 (d_nexamples d))) as Hin by (apply in_seq; lia). clear Hi. revert buf E2. induction (seq 0 (d_nexamples d)) as [|a l IH]; intros buf E2; [destruct Hin|].
    cbn [foldM] in E2. apply rbind_ok in E2 as (b1 & E2 & E3). destruct Hin as [->|Hin]; [|eapply IH; eassumption].
    apply rbind_ok in E2 as (p & Ep & _). exists p. exact Ep. }
  assert (length preds = d_nexamples d) as Hl.
  { unfold additive_predict, additive_predict_buf in E1. rewrite map_const_repeat in E1.
    assert (forall ts buf preds, foldM (fun buf t => predict_and t d (fun p acc => nadd O acc p) buf) ts buf = Ok preds -> length buf = d_nexamples d -> length preds = d_nexamples d) as H.
    { induction ts as [|t' ts IH]; intros buf ps E Hb; cbn [foldM] in E; [injection E as <-; exact Hb|]. apply rbind_ok in E as (b1 & E & E'). eapply IH; [exact E'|].
      unfold predict_and in E. apply rbind_ok in E as (u & _ & E). clear E' IH ps. revert buf Hb E. induction (seq 0 (d_nexamples d)) as [|a l IHl]; intros buf Hb E; cbn [foldM] in E; [injection E as <-; exact Hb|].
      apply rbind_ok in E as (b2 & E2' & E3). eapply IHl; [|exact E3]. apply rbind_ok in E2' as (p & _ & E2'). apply rbind_ok in E2' as (x & _ & E2'). apply set_idx_ok in E2' as (_ & ->). rewrite upd_length. exact Hb. }
    eapply H; [exact E1|apply repeat_length]. }
  unfold additive_predict, additive_predict_buf in *. cbn [push_tree at_trees at_bias]. rewrite foldM_app, E1. cbn [rbind foldM].
  destruct (predict_and_ok O t d (fun p acc => nadd O acc p) preds Hl Hs) as (preds' & E' & L' & Hp').
  rewrite E'. cbn [rbind]. exists preds'. split; [reflexivity|]. split; [exact L'|]. intros i p x Hp Hx.
  assert (i < length preds) as Hi by (apply nth_error_Some; congruence). destruct (Hs i) as (y & Ey); [lia|].
  destruct (predict_and_ok O t d (fun p _ => p) (repeat (nofZ O 0) (d_nexamples d)) (repeat_length _ _) Hs) as (o' & Eo & _ & Ho).
  unfold tree_predict, tree_predict_buf in E2. assert (o' = outs) by congruence. subst o'.
  rewrite (Ho i y (nofZ O 0) Ey) in Hx by (apply nth_error_repeat; lia). injection Hx as <-. apply (Hp' i y p Ey Hp).
Qed.
Print Assumptions C42_push.

(** A model made by any sequence of pushes and bias settings predicts the bias set last plus the predictions of all trees pushed, in the order of the pushes. *)
Theorem C42_model_history : forall O (ops : list (model_op O)) (d : data O), let m := fold_left model_exec ops (additive_new O) in
  (forall t i, In (MPush t) ops -> i < d_nexamples d -> exists p, predict_single t d i = Ok p) ->
  exists preds, additive_predict m d = Ok preds /\ length preds = d_nexamples d /\
    forall i outs, i < d_nexamples d -> mapM (fun t => predict_single t d i) (trees_of ops) = Ok outs -> nth_error preds i = Some (fold_left (nadd O) outs (model_bias_of ops)).
Proof.
  intros O ops d m H. assert (at_trees m = trees_of ops /\ at_bias m = model_bias_of ops) as (Ht & Hb).
  { subst m. clear H. induction ops as [|op ops IH] using rev_ind; [split; reflexivity|]. unfold trees_of, model_bias_of in *. rewrite flat_map_app, !fold_left_app. cbn [fold_left flat_map]. destruct IH as (I1 & I2). destruct op as [b|t]; cbn [model_exec additive_set_bias push_tree at_trees at_bias app].
    - rewrite app_nil_r. auto.
    - rewrite I1. auto. }
  rewrite <- Ht, <- Hb. apply C42_sum. intros t i Hin Hi. apply (H t i); [|exact Hi]. rewrite Ht in Hin. unfold trees_of in Hin. apply in_flat_map in Hin as ([b|t'] & Ho & Hin); [destruct Hin|destruct Hin as [<-|[]]; exact Ho].
Qed.
Print Assumptions C42_model_history.
Example C42_model_history_ex : match ex_tree with Ok t => match additive_predict (fold_left model_exec [MPush t; MBias (fz 9); MPush t; MBias (fz 3)] (additive_new f32ops)) ex_data with
  | Ok preds => map (fun z => match nth_error preds z with Some x => f_eq x (fz (nth z [39; 7; 7]%Z 0%Z)) | None => false end) [0; 1; 2] = [true; true; true] | _ => False end | _ => False end.
Proof. vm_compute. reflexivity. Qed.

Example C42_ex : exists t preds, ex_tree = Ok t /\ additive_predict (push_tree (push_tree (additive_set_bias (additive_new f32ops) (fz 3)) t) t) ex_data = Ok preds /\
  map (fun z => match nth_error preds z with Some x => f_eq x (fz (nth z [39; 7; 7]%Z 0%Z)) | None => false end) [0; 1; 2] = [true; true; true].
Proof. do 2 eexists. split; [reflexivity|]. split; [reflexivity|]. vm_compute. reflexivity. Qed.

(** The prediction of a tree with any history: all shrinkage factors, multiplied in order, times the last value of the leaf plus the last bias; the leaf is found by the splits of the history. *)
Theorem C42_history : forall O D sup t0 ops (t : tree O), tree_new O D sup = Ok t0 -> foldM tree_exec ops t0 = Ok t ->
  (forall n, n < 2 ^ (D + 1) - 1 -> nth_error (t_crits t) n = Some (split_of ops n) /\ node_value t n = Ok (value_of ops n)) /\
  forall d i p, predict_single t d i = Ok p <-> exists leaf, predict_leaf_id t d i = Ok leaf /\ leaf < 2 ^ (D + 1) - 1 /\ p = nmul O (scale_of ops) (nadd O (value_of ops leaf) (bias_of ops)).
Proof.
  intros O D sup t0 ops t E0 E.
  assert (length (t_values t) = 2 ^ (D + 1) - 1 /\ t_shrinkage t = scale_of ops /\ t_bias t = bias_of ops /\ (forall n, n < 2 ^ (D + 1) - 1 -> nth_error (t_crits t) n = Some (split_of ops n) /\ nth_error (t_values t) n = Some (value_of ops n))) as (LV & HS & HB & HN).
  { unfold tree_new in E0. apply rbind_ok in E0 as (u & _ & E0). injection E0 as <-. revert t E. induction ops as [|o ops IH] using rev_ind; intros t E.
    - injection E as <-. cbn [t_values t_shrinkage t_bias t_crits]. split; [apply repeat_length|]. split; [reflexivity|]. split; [reflexivity|]. intros n Hn. split; apply nth_error_repeat, Hn.
    - rewrite foldM_app in E. apply rbind_ok in E as (t1 & E1 & E). destruct (IH t1 E1) as (LV & HS & HB & HN). clear IH E1. cbn [foldM] in E. apply rbind_ok in E as (t2 & E & X). injection X as ->.
      unfold scale_of, bias_of in *. rewrite !fold_left_app. cbn [fold_left]. destruct o as [n c|n v|x|b]; cbn [tree_exec] in E.
      + unfold split_node in E. apply rbind_ok in E as (old & _ & E). apply rbind_ok in E as (? & _ & E). apply rbind_ok in E as (? & _ & E). apply rbind_ok in E as (? & _ & E). apply rbind_ok in E as (cs & Es & E). injection E as <-. cbn [t_values t_shrinkage t_bias t_crits].
        split; [exact LV|]. split; [exact HS|]. split; [exact HB|]. intros k Hk. unfold split_of, value_of. rewrite !fold_left_app. cbn [fold_left]. destruct (HN k Hk) as [H1 H2]. split; [|exact H2]. apply set_idx_ok in Es as [Hlt ->]. rewrite nth_error_upd.
        destruct (Nat.eqb_spec n k) as [->|]; [rewrite (proj2 (Nat.ltb_lt _ _) Hlt); reflexivity|exact H1].
      + unfold set_node_value in E. apply rbind_ok in E as (? & _ & E). apply rbind_ok in E as (vs & Es & E). injection E as <-. cbn [t_values t_shrinkage t_bias t_crits]. apply set_idx_ok in Es as [Hlt ->].
        split; [rewrite upd_length; exact LV|]. split; [exact HS|]. split; [exact HB|]. intros k Hk. unfold split_of, value_of. rewrite !fold_left_app. cbn [fold_left]. destruct (HN k Hk) as [H1 H2]. split; [exact H1|]. rewrite nth_error_upd.
        destruct (Nat.eqb_spec n k) as [->|]; [rewrite (proj2 (Nat.ltb_lt _ _) Hlt); reflexivity|exact H2].
      + injection E as <-. cbn [set_shrinkage t_values t_shrinkage t_bias t_crits]. split; [exact LV|]. split; [rewrite HS; reflexivity|]. split; [exact HB|]. intros k Hk. unfold split_of, value_of. rewrite !fold_left_app. cbn [fold_left]. apply HN, Hk.
      + injection E as <-. cbn [set_tree_bias t_values t_shrinkage t_bias t_crits]. split; [exact LV|]. split; [exact HS|]. split; [reflexivity|]. intros k Hk. unfold split_of, value_of. rewrite !fold_left_app. cbn [fold_left]. apply HN, Hk. }
  split; [intros n Hn; destruct (HN n Hn) as [H1 H2]; split; [exact H1|apply idx_ok, H2]|]. intros d i p. unfold predict_single. split.
  - intros H. apply rbind_ok in H as (leaf & El & H). apply rbind_ok in H as (v & Ev & H). injection H as <-. exists leaf. split; [exact El|]. apply idx_ok in Ev. assert (leaf < 2 ^ (D + 1) - 1) as Hl by (rewrite <- LV; apply nth_error_Some; congruence).
    split; [exact Hl|]. destruct (HN leaf Hl) as [_ H2]. rewrite HS, HB. congruence.
  - intros (leaf & -> & Hl & ->). cbn [rbind]. destruct (HN leaf Hl) as [_ H2]. apply idx_ok in H2. rewrite H2. cbn [rbind]. rewrite HS, HB. reflexivity.
Qed.
Print Assumptions C42_history.
(** A split, two leaf values, two shrinkage factors and a bias: [2 * 3 * (5 + 1)] for the left example. *)
Definition hist_ops : list (tree_op f32ops) :=
  [TSplit 0 (mk_crit LoCardCatEq 0 (fz 1)); TSetValue 1 (fz 5); TSetValue 2 (fz 7); TShrink (fz 2); TBias (fz 9); TShrink (fz 3); TBias (fz 1)].
Example C42_history_ex : match tree_new f32ops 1 [] with Ok t0 => match foldM tree_exec hist_ops t0 with
  | Ok t => match predict_single t (@mk_data f32ops 4 1 2 [[fz 1; fz 0]; [fz 0; fz 0]] [] [] []) 0 with Ok p => f_eq p (fz 36) | _ => false end | _ => false end | _ => false end = true.
Proof. vm_compute. reflexivity. Qed.
