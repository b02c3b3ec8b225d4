(** C69: a smaller maximum depth or a larger smallest gain only cuts the tree. *)
From Coq Require Import Reals.
From Verif Require RowProps.
From Verif Require Import Base BaseProofs BitModel Num F32 DataModel Config TreeModel DatasetModel LearnerModel ObjectiveModel MetricModel BoostModel TreeProps DatasetProps LearnerProps BoostProofs BoostProps PrefixProps PruneSpec PruneProofs PruneProofs2.
Local Open Scope nat_scope.

Lemma orders_two O : O = f32ops \/ O = Rops -> orders O.
Proof. intros [->| ->]; [apply orders_f32|apply orders_R]. Qed.
Lemma smaller_like O (cfg cfg' : config O) : smaller_trees cfg cfg' -> like O cfg cfg' /\ c_max_tree_depth cfg' <= c_max_tree_depth cfg /\ (c_min_gain cfg' = c_min_gain cfg \/ nle O (c_min_gain cfg) (c_min_gain cfg') = true).
Proof. unfold smaller_trees, like. tauto. Qed.
Lemma like_sym O (cfg cfg' : config O) : like O cfg cfg' -> like O cfg' cfg.
Proof. unfold like. intuition. Qed.
Lemma pow_le a b : a <= b -> 2 ^ a - 1 <= 2 ^ b - 1.
Proof. intros H. apply (Nat.pow_le_mono_r 2) in H; lia. Qed.

(** Two trees learned from the same data set, gradients and objective state, in single precision or exact arithmetic, with settings that ask for a smaller tree the second time: the second tree is the first one with some
    nodes made leaves.  For every order of the jobs; the objective is any. *)
Theorem C69_tree : forall O dbg (cfg cfg' : config O) s sizes bounds sched gradients St leaf_value oob (st : St) t st1 t' st1', O = f32ops \/ O = Rops -> smaller_trees cfg cfg' ->
  train dbg cfg s sizes bounds sched St leaf_value oob gradients st = Ok (t, st1) -> train dbg cfg' s sizes bounds sched St leaf_value oob gradients st = Ok (t', st1') ->
  cut_of t t' /\ nleafs t' <= nleafs t.
Proof.
  intros O dbg cfg cfg' s sizes bounds sched gradients St leaf_value oob st t st1 t' st1' HO HS E E'. apply smaller_like in HS as (HL & HD & HG).
  pose proof (train_places _ _ _ _ _ _ _ _ _ _ _ _ _ _ E) as P. pose proof (train_places _ _ _ _ _ _ _ _ _ _ _ _ _ _ E') as P'.
  assert (cut_of t t') as HC.
  { split; [rewrite (pl_supercats _ _ _ _ _ _ _ _ _ _ P), (pl_supercats _ _ _ _ _ _ _ _ _ _ P'); reflexivity|]. intros m c Ec Hn.
    assert (m < 2 ^ c_max_tree_depth cfg - 1) as Hm. { destruct (pl_sound _ _ _ _ _ _ _ _ _ _ P' m c Ec Hn) as (_ & _ & _ & _ & _ & Hm). pose proof (pow_le _ _ HD). lia. }
    eapply (crits_same O (orders_two O HO) cfg cfg' HL dbg s HG); eassumption. }
  split; [exact HC|]. unfold nleafs. rewrite (pl_count _ _ _ _ _ _ _ _ _ _ P), (pl_count _ _ _ _ _ _ _ _ _ _ P'). pose proof (cut_splits O t t' HC). lia.
Qed.
Print Assumptions C69_tree.

(** If only the depth differs, the two trees have the same splits on all levels of the smaller depth (the places below [2^depth - 1]). *)
Theorem C69_levels : forall O dbg (cfg cfg' : config O) s sizes bounds sched gradients St leaf_value oob (st : St) t st1 t' st1' m c, O = f32ops \/ O = Rops -> smaller_trees cfg cfg' -> c_min_gain cfg' = c_min_gain cfg ->
  train dbg cfg s sizes bounds sched St leaf_value oob gradients st = Ok (t, st1) -> train dbg cfg' s sizes bounds sched St leaf_value oob gradients st = Ok (t', st1') ->
  m < 2 ^ c_max_tree_depth cfg' - 1 -> sc_type c <> NoSplit -> (nth_error (t_crits t') m = Some c <-> nth_error (t_crits t) m = Some c).
Proof.
  intros O dbg cfg cfg' s sizes bounds sched gradients St leaf_value oob st t st1 t' st1' m c HO HS HG E E' Hm Hn. apply smaller_like in HS as (HL & HD & _). pose proof (pow_le _ _ HD) as Hp.
  pose proof (train_places _ _ _ _ _ _ _ _ _ _ _ _ _ _ E) as P. pose proof (train_places _ _ _ _ _ _ _ _ _ _ _ _ _ _ E') as P'. split; intros Ec.
  - eapply (crits_same O (orders_two O HO) cfg cfg' HL dbg s (or_introl HG)); try eassumption. lia.
  - eapply (crits_same O (orders_two O HO) cfg' cfg (like_sym _ _ _ HL) dbg s (or_introl (eq_sym HG))); try eassumption.
Qed.
Print Assumptions C69_levels.

(** A cut tree puts a row in the leaf above or at the leaf of the whole tree: leaves of the cut tree are unions of leaves. *)
Theorem C69_rows : forall O (t t' : tree O) d i k k', cut_of t t' -> predict_leaf_id t d i = Ok k -> predict_leaf_id t' d i = Ok k' -> below k' k.
Proof. intros O t t' d i k k' HC E E'. eapply loop_cut; eassumption. Qed.
Print Assumptions C69_rows.

(** The first tree of a model. *)
Lemma first_tree O (M : mathops O) dbg cfg d sched kind ms g m : 1 <= c_niterations cfg -> boost_train M dbg cfg d sched kind ms g = Ok m ->
  exists s0 target ob0 ob s sizes t ob' ts, dataset_new cfg d g = Ok s0 /\ get_target d = Ok target /\ obj_initialize M dbg cfg target (objective_new O kind) = Ok ob0 /\ obj_update M target ob0 = Ok ob /\
    dataset_update dbg cfg s0 (ob_grads ob) (obj_bounds ob) = Ok s /\ hist_sizes d = Ok sizes /\
    train dbg cfg s sizes (obj_bounds ob) (sched 1) (objective O) (obj_leaf_value M target) update_out_of_bag (ob_grads ob) ob = Ok (t, ob') /\ m = mk_add (ob_bias ob0) (t :: ts).
Proof.
  intros Hk E. unfold boost_train in E. apply rbind_ok in E as (b & E & Em). apply Ok_eq in Em. subst m. unfold boost_run in E. apply rbind_ok in E as (b0 & E0 & E). apply rbind_ok in E as (sizes & Esz & E).
  unfold boost_start in E0. apply rbind_ok in E0 as (s0 & Es0 & E0). apply rbind_ok in E0 as (target & Et & E0). apply rbind_ok in E0 as (ob0 & Eo & E0). apply Ok_eq in E0. subst b0.
  destruct (c_niterations cfg) as [|k]; [lia|]. cbn [seq foldM] in E. apply rbind_ok in E as (b1 & E1 & E). unfold train_one_iter in E1. cbn [bs_iter bs_objective bs_dataset bs_ensemble] in E1. rewrite Et in E1. cbn [rbind] in E1.
  apply rbind_ok in E1 as (ob & Eu & E1). apply rbind_ok in E1 as (s & Es & E1). apply rbind_ok in E1 as ((t & ob') & Etr & E1). apply Ok_eq in E1. subst b1.
  apply iters_push in E as (ts & _ & E). rewrite E. cbn [bs_ensemble push_tree additive_set_bias additive_new at_bias at_trees app]. exists s0, target, ob0, ob, s, sizes, t, ob', ts. auto 10.
Qed.
Lemma like_init O (M : mathops O) dbg (cfg cfg' : config O) target ob : like O cfg cfg' -> obj_initialize M dbg cfg' target ob = obj_initialize M dbg cfg target ob.
Proof. destruct cfg, cfg'. unfold like. cbn. intros (-> & -> & -> & -> & -> & -> & -> & -> & -> & -> & ->). reflexivity. Qed.

(** The models of two trainings with the same data, objective and random draws, whatever the numbers of iterations and the metrics: they start from the same constant, and the first tree of the training that asks for smaller trees is the other's
    first tree with some nodes made leaves (later trees are fitted to different residuals). *)
Theorem C69_model : forall O (M : mathops O) dbg (cfg cfg' : config O) d sched kind metrics metrics' g m m', O = f32ops \/ O = Rops -> smaller_trees cfg cfg' -> 1 <= c_niterations cfg -> 1 <= c_niterations cfg' ->
  boost_train M dbg cfg d sched kind metrics g = Ok m -> boost_train M dbg cfg' d sched kind metrics' g = Ok m' ->
  at_bias m' = at_bias m /\ exists t t' ts ts', at_trees m = t :: ts /\ at_trees m' = t' :: ts' /\ cut_of t t' /\ nleafs t' <= nleafs t.
Proof.
  intros O M dbg cfg cfg' d sched kind metrics metrics' g m m' HO HS Hk Hk' E E'. pose proof (proj1 (smaller_like _ _ _ HS)) as HL.
  apply first_tree in E as (s0 & target & ob0 & ob & s & sizes & t & o1 & ts & A1 & A2 & A3 & A4 & A5 & A6 & A7 & ->); [|exact Hk].
  apply first_tree in E' as (s0' & target' & ob0' & ob' & s' & sizes' & t' & o1' & ts' & B1 & B2 & B3 & B4 & B5 & B6 & B7 & ->); [|exact Hk'].
  rewrite (like_new O cfg cfg' HL), A1 in B1. apply Ok_eq in B1. subst s0'. rewrite A2 in B2. apply Ok_eq in B2. subst target'. rewrite (like_init O M dbg cfg cfg' _ _ HL), A3 in B3. apply Ok_eq in B3. subst ob0'.
  rewrite A4 in B4. apply Ok_eq in B4. subst ob'. rewrite (like_update O cfg cfg' HL), A5 in B5. apply Ok_eq in B5. subst s'. rewrite A6 in B6. apply Ok_eq in B6. subst sizes'.
  split; [reflexivity|]. exists t, t', ts, ts'. split; [reflexivity|]. split; [reflexivity|]. eapply C69_tree; eassumption.
Qed.
Print Assumptions C69_model.

(** Six examples ([bst_data]), depth 2 against depth 1, and against a larger smallest gain. *)
Definition prune_cfg (depth : nat) (gain : f32) : config f32ops :=
  @mk_config f32ops String.EmptyString String.EmptyString String.EmptyString [] 2%N true 44%N [0; 1] 2 f_half (fz 0) 1%N gain (fz 1) 4 4 depth f_half (fz 1) 1%N (fz 1) f_one 1.
Example C69_ex : smaller_trees (prune_cfg 2 (fz 0)) (prune_cfg 1 (fz 0)) /\ smaller_trees (prune_cfg 2 (fz 0)) (prune_cfg 2 f_one) /\
  map (fun cfg => match boost_train bst_math true cfg bst_data bst_sched L1 [] ex_rng with Ok m => map nleafs (at_trees m) | _ => [] end) [prune_cfg 2 (fz 0); prune_cfg 1 (fz 0); prune_cfg 2 f_one] = [[3; 3]; [2; 2]; [2; 2]].
Proof.
  split; [|split].
  - do 11 (split; [reflexivity|]). split; [cbn; lia|]. left. reflexivity.
  - do 11 (split; [reflexivity|]). split; [cbn; lia|]. right. vm_compute. reflexivity.
  - vm_compute. reflexivity.
Qed.
