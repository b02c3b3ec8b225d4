(** Boosting succeeds on trainable input, for an objective that answers. *)
From Coq Require Import Permutation.
From Verif Require Import Base BaseProofs SliceModel Num DataModel Config TreeModel DatasetModel DatasetSpec DatasetProofs3 DatasetProofs4 DatasetProofs5
  LearnerModel LearnerSpec TrainProps ObjectiveModel MetricModel BoostModel BoostSpec BoostProofs TotalSpec TotalProofs.

Section RunTotal.
Variable O : numops.
Variable M : mathops O.
Variable dbg : bool.
Variable cfg : config O.
Variable d : data O.
Variable sched : nat -> nat -> list job -> list job.
Hypothesis laws : num_laws O (c_max_nbins cfg) (d_nexamples d).
Hypothesis HT : trainable cfg d.
Hypothesis Hsched : any_order sched.
Hypothesis Hcount : (N.of_nat (scaled_count (d_nexamples d) (c_example_fraction cfg)) <= 2 ^ 31)%N.
Hypothesis Hbins : exists f nb, f < d_nfeatures d /\ max_nbins d f = Ok nb /\ 0 < nb.
Hypothesis Hwidth : valid_width (c_discr_nbits cfg) = true.
Hypothesis Hdepth : 0 < c_max_tree_depth cfg.
Hypothesis Hmin : (1 <= c_min_examples_leaf cfg)%N.
(** The objective: [I] holds before and after an iteration, [J] within the construction of a tree. *)
Variable target : list (num O).
Hypothesis Htarget : get_target d = Ok target.
Variables (I J : objective O -> Prop) (V : num O -> Prop).
Hypothesis Hupd : forall ob, I ob -> exists ob', obj_update M target ob = Ok ob' /\ usable_gradients dbg cfg d (ob_grads ob') (obj_bounds ob') /\ J ob'.
Hypothesis Hleaf : forall ex ob, J ob -> ex <> [] -> (forall j, In j ex -> j < d_nexamples d) -> exists v ob', obj_leaf_value M target ex ob = Ok (v, ob') /\ nisfin O v = true /\ V v /\ J ob'.
Hypothesis Hoob : forall i v ob, J ob -> i < d_nexamples d -> V v -> exists ob', update_out_of_bag i (nmul O (nofZ O 1) (nadd O v (nofZ O 0))) ob = Ok ob' /\ J ob'.
Hypothesis HJI : forall ob, J ob -> I ob.

Lemma rows_total s : dsinv O cfg d s -> exists rows, example_rows s = Ok rows /\ (forall j, In j rows -> j < d_nexamples d).
Proof using HT.
  clear - HT.
  intros Hds. pose proof (ds_inv _ _ _ s Hds) as Hinv. pose proof HT as ((Hn & _) & _ & _ & _ & _ & _ & _ & Hna & _). unfold example_rows. destruct (example_sampling_enabled s) eqn:Es.
  - destruct (buffer_sampling _ _ _ s Hds Es) as [_ HP]. unfold active_examples, nactive_examples. rewrite (dv_nact _ _ _ _ Hinv). unfold nact.
    exists (firstn (scaled_count (d_nexamples d) (c_example_fraction cfg)) (ds_index_buffer s)). split.
    + apply subslice_ok. split; [lia|]. split; [rewrite <- (Permutation_length HP), seq_length; lia|]. unfold sub. rewrite Nat.sub_0_r. reflexivity.
    + intros j Hj. assert (In j (ds_index_buffer s)) as Hb. { rewrite <- (firstn_skipn (scaled_count (d_nexamples d) (c_example_fraction cfg))). apply in_or_app. left. exact Hj. }
      apply (Permutation_in _ (Permutation_sym HP)) in Hb. apply in_seq in Hb. lia.
  - exists (seq 0 (nactive_examples s)). split; [reflexivity|]. intros j Hj. apply in_seq in Hj. unfold nactive_examples in Hj. rewrite (dv_nact _ _ _ _ Hinv) in Hj. unfold nact in Hj. lia.
Qed.
Lemma features_total s : dsinv O cfg d s -> exists fs, active_features s = Ok fs.
Proof using HT.
  clear - HT.
  intros Hds. pose proof (ds_inv _ _ _ s Hds) as Hinv. unfold active_features, in_active_features.
  exists (firstn (in_nactive_features (ds_inner s)) (in_useful (ds_inner s))). apply subslice_ok. split; [lia|]. split; [apply (nfeat_le _ _ _ HT _ Hinv)|]. unfold sub. rewrite Nat.sub_0_r. reflexivity.
Qed.
Lemma sizes_total : exists sizes, hist_sizes d = Ok sizes /\ 0 < list_sum sizes.
Proof using HT Hbins.
  clear - HT Hbins.
  unfold hist_sizes. destruct (mapM_exists _ _ (max_nbins d) (seq 0 (d_nfeatures d))) as [sizes E].
  { intros f Hf. apply in_seq in Hf. apply (max_nbins_total _ _ _ HT). lia. }
  exists sizes. split; [exact E|]. destruct Hbins as (f & nb & Hf & Enb & Hp). apply mapM_ok in E.
  assert (In nb sizes) as Hin.
  { assert (In f (seq 0 (d_nfeatures d))) as Hs by (apply in_seq; lia). clear -E Hs Enb. induction E as [|x y l l' Hxy _ IH]; [destruct Hs|]. destruct Hs as [->|Hs]; [left; congruence|right; auto]. }
  clear -Hin Hp. induction sizes as [|x t IH]; [destruct Hin|]. cbn [list_sum fold_right]. fold (list_sum t). destruct Hin as [->|Hin]; [lia|]. specialize (IH Hin). lia.
Qed.

(** The predictions of a tree are made from values with the property [V]. *)
Definition from_values (t : tree O) : Prop := forall i, i < d_nexamples d -> exists v, V v /\ predict_single t d i = Ok (nmul O (nofZ O 1) (nadd O v (nofZ O 0))).
Lemma iter_total sizes metrics b : hist_sizes d = Ok sizes -> 0 < list_sum sizes -> reachable dbg cfg d (bs_dataset b) -> I (bs_objective b) ->
  exists b', train_one_iter M dbg cfg d sched sizes metrics b = Ok b' /\ reachable dbg cfg d (bs_dataset b') /\ I (bs_objective b') /\
    exists t, bs_ensemble b' = push_tree (bs_ensemble b) t /\ from_values t.
Proof.
  intros Hsz Hpos HR HI. unfold train_one_iter. rewrite Htarget. cbn [rbind]. destruct (Hupd _ HI) as (ob & Eo & Hg & HJ). rewrite Eo. cbn [rbind].
  destruct (dataset_update_total O cfg d laws HT dbg (bs_dataset b) (ob_grads ob) (obj_bounds ob) (reachable_ok _ _ _ _ _ HR) Hg) as [s Es]. rewrite Es. cbn [rbind].
  assert (reachable dbg cfg d s) as HRs.
  { destruct HR as (g & us & s0 & E0 & E1). exists g, (us ++ [(ob_grads ob, obj_bounds ob)]), s0. split; [exact E0|]. unfold ds_run in *. rewrite foldM_app, E1. cbn [rbind foldM fst snd]. rewrite Es. reflexivity. }
  pose proof (reachable_ok _ _ _ _ _ HRs) as Hds. pose proof (dv_nact _ _ _ _ (ds_inv _ _ _ _ Hds)) as Hna.
  assert (setting dbg cfg d s sizes (sched (S (bs_iter b)))) as HS.
  { split; [exact HRs|]. split; [exact Hsz|]. split; [apply Hsched|]. unfold nactive_examples. rewrite Hna. exact Hcount. }
  destruct (rows_total s Hds) as (rows & Erows & Hrows). destruct (features_total s Hds) as (fs & Efs). pose proof HT as (HW & _ & _ & _ & _ & _ & _ & Hact & _). pose proof HW as (Hn & Hnf & Hcol).
  destruct Hg as (Hlg & _).
  destruct (C43_total O dbg dbg cfg d s sizes (obj_bounds ob) (sched (S (bs_iter b))) (ob_grads ob) (objective O) (obj_leaf_value M target) update_out_of_bag rows fs J V ob HS) as (t & ob' & Et & HJ' & HV);
    try assumption.
  - split; [lia|]. split; [lia|exact Hcol].
  - intros j Hj. rewrite Hlg. apply Hrows, Hj.
  - unfold nactive_examples. rewrite Hna. unfold nact. lia.
  - intros ex st HJst Hne Hex. apply Hleaf; auto.
  - rewrite Et. cbn [rbind]. eexists. split; [reflexivity|]. cbn [bs_dataset bs_objective bs_ensemble]. split; [exact HRs|]. split; [apply HJI, HJ'|]. exists t. split; [reflexivity|exact HV].
Qed.

Lemma run_total kind metrics g k ob0 : obj_initialize M dbg cfg target (objective_new O kind) = Ok ob0 -> I ob0 ->
  exists b, boost_run M dbg cfg d sched kind metrics g k = Ok b /\ I (bs_objective b) /\ length (at_trees (bs_ensemble b)) = k /\ at_bias (bs_ensemble b) = ob_bias ob0 /\ Forall from_values (at_trees (bs_ensemble b)).
Proof.
  intros E0 HI0. unfold boost_run, boost_start. destruct (dataset_new_total O cfg d HT g) as [s Es]. rewrite Es. cbn [rbind]. rewrite Htarget. cbn [rbind]. rewrite E0. cbn [rbind].
  destruct sizes_total as (sizes & Hsz & Hpos). rewrite Hsz. cbn [rbind].
  set (b0 := mk_booster _ _ _ _ _).
  assert (exists b, foldM (fun b _ => train_one_iter M dbg cfg d sched sizes metrics b) (seq 0 k) b0 = Ok b /\ reachable dbg cfg d (bs_dataset b) /\ I (bs_objective b) /\ length (at_trees (bs_ensemble b)) = k /\ at_bias (bs_ensemble b) = ob_bias ob0 /\ Forall from_values (at_trees (bs_ensemble b))) as (b & A & B & C & D).
  { induction k as [|k IH].
    - exists b0. split; [reflexivity|]. split; [exists g, [], s; split; [exact Es|reflexivity]|]. split; [exact HI0|]. split; [reflexivity|]. split; [reflexivity|constructor].
    - destruct IH as (b & A & B & C & D & F & G). rewrite seq_S, foldM_app, A. cbn [rbind foldM]. destruct (iter_total sizes metrics b Hsz Hpos B C) as (b' & A' & B' & C' & t & D' & HV). rewrite A'. cbn [rbind].
      exists b'. split; [reflexivity|]. split; [exact B'|]. split; [exact C'|]. rewrite D'. cbn [push_tree at_trees at_bias]. split; [rewrite app_length, D; cbn; lia|]. split; [exact F|]. apply Forall_app. split; [exact G|]. constructor; [exact HV|constructor]. }
  exists b. auto.
Qed.
End RunTotal.
