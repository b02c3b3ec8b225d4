(** C60: more iterations extend the model; reporting and the other settings do not change it. *)
From Verif Require Import Base BaseProofs Num F32 DataModel Config TreeModel DatasetModel LearnerModel ObjectiveModel MetricModel BoostModel BoostSpec PrefixSpec TreeProps DatasetProps LearnerProps BoostProofs BoostProps.

Section Same.
Variable O : numops.
Variables cfg cfg' : config O.
Hypothesis Hsame : same_learning cfg cfg'.
Lemma update_same dbg s g bounds : dataset_update dbg cfg' s g bounds = dataset_update dbg cfg s g bounds.
Proof.
  revert Hsame. destruct cfg, cfg'. unfold same_learning. cbn.
  intros (-> & -> & -> & -> & -> & -> & -> & -> & -> & -> & -> & -> & ->). reflexivity.
Qed.
Lemma new_same d g : dataset_new cfg' d g = dataset_new cfg d g.
Proof.
  revert Hsame. destruct cfg, cfg'. unfold same_learning. cbn.
  intros (-> & -> & -> & -> & -> & -> & -> & -> & -> & -> & -> & -> & ->). reflexivity.
Qed.
Lemma init_same M dbg target ob : obj_initialize M dbg cfg' target ob = obj_initialize M dbg cfg target ob.
Proof.
  revert Hsame. destruct cfg, cfg'. unfold same_learning. cbn.
  intros (-> & -> & -> & -> & -> & -> & -> & -> & -> & -> & -> & -> & ->). reflexivity.
Qed.
Lemma train_same dbg s sizes bounds sched St lv oob grads (st : St) : train dbg cfg' s sizes bounds sched St lv oob grads st = train dbg cfg s sizes bounds sched St lv oob grads st.
Proof.
  revert Hsame. destruct cfg, cfg'. unfold same_learning. cbn.
  intros (-> & -> & -> & -> & -> & -> & -> & -> & -> & -> & -> & -> & ->). reflexivity.
Qed.

Variable M : mathops O.
Variable dbg : bool.
Variable d : data O.
Variable sched : nat -> nat -> list job -> list job.
(** Equal but for the reported metric values. *)
Definition brief (b b' : booster O) : Prop := bs_dataset b' = bs_dataset b /\ bs_objective b' = bs_objective b /\ bs_iter b' = bs_iter b /\ bs_ensemble b' = bs_ensemble b.
Lemma iter_same sizes ms ms' b b' b1 : brief b b' -> train_one_iter M dbg cfg d sched sizes ms b = Ok b1 -> exists b1', train_one_iter M dbg cfg' d sched sizes ms' b' = Ok b1' /\ brief b1 b1'.
Proof.
  intros (H1 & H2 & H3 & H4) E. unfold train_one_iter in *. rewrite H1, H2, H3, H4. apply rbind_ok in E as (t & Et & E). rewrite Et. cbn [rbind]. apply rbind_ok in E as (ob & Eo & E). rewrite Eo. cbn [rbind].
  rewrite update_same. apply rbind_ok in E as (s & Es & E). rewrite Es. cbn [rbind]. rewrite train_same. apply rbind_ok in E as ((t1 & ob1) & E1 & E). rewrite E1. cbn [rbind]. injection E as <-. eexists. split; [reflexivity|]. repeat split.
Qed.
Lemma iters_same sizes ms ms' l : forall b b' b1, brief b b' -> foldM (fun b _ => train_one_iter M dbg cfg d sched sizes ms b) l b = Ok b1 -> exists b1', foldM (fun b (_ : nat) => train_one_iter M dbg cfg' d sched sizes ms' b) l b' = Ok b1' /\ brief b1 b1'.
Proof.
  induction l as [|x l IH]; intros b b' b1 HB E; cbn [foldM] in *; [injection E as <-; eauto|]. apply rbind_ok in E as (b2 & E2 & E). destruct (iter_same sizes ms ms' b b' b2 HB E2) as (b2' & E2' & HB2). rewrite E2'. cbn [rbind]. eapply IH; eassumption.
Qed.
Lemma run_same kind ms ms' g k b : boost_run M dbg cfg d sched kind ms g k = Ok b -> exists b', boost_run M dbg cfg' d sched kind ms' g k = Ok b' /\ brief b b'.
Proof.
  unfold boost_run, boost_start. intros E. rewrite new_same. apply rbind_ok in E as (b0 & E0 & E). apply rbind_ok in E0 as (s & Es & E0). rewrite Es. cbn [rbind]. apply rbind_ok in E0 as (t & Et & E0). rewrite Et. cbn [rbind]. rewrite init_same. apply rbind_ok in E0 as (ob & Eo & E0). rewrite Eo. cbn [rbind]. injection E0 as <-.
  apply rbind_ok in E as (sz & Esz & E). rewrite Esz. cbn [rbind]. eapply iters_same; [|exact E]. repeat split.
Qed.
End Same.

(** The iterations of a run extend the ensemble. *)
Lemma iter_pushes O (M : mathops O) dbg cfg d sched sizes ms b b1 : train_one_iter M dbg cfg d sched sizes ms b = Ok b1 -> exists t, bs_ensemble b1 = push_tree (bs_ensemble b) t.
Proof.
  intros E. unfold train_one_iter in E. apply rbind_ok in E as (t & _ & E). apply rbind_ok in E as (ob & _ & E). apply rbind_ok in E as (s & _ & E). apply rbind_ok in E as ((t1 & ob1) & _ & E). injection E as <-. exists t1. reflexivity.
Qed.
Lemma iters_push O (M : mathops O) dbg cfg d sched sizes ms l : forall b b1, foldM (fun b (_ : nat) => train_one_iter M dbg cfg d sched sizes ms b) l b = Ok b1 ->
  exists ts, length ts = length l /\ bs_ensemble b1 = mk_add (at_bias (bs_ensemble b)) (at_trees (bs_ensemble b) ++ ts).
Proof.
  induction l as [|x l IH]; intros b b1 E; cbn [foldM] in E.
  - injection E as <-. exists []. split; [reflexivity|]. rewrite app_nil_r. destruct (bs_ensemble b). reflexivity.
  - apply rbind_ok in E as (b2 & E2 & E). apply iter_pushes in E2 as [t Et]. apply IH in E as (ts & L & E). exists (t :: ts). split; [cbn [length]; lia|]. rewrite E, Et. cbn [push_tree at_bias at_trees]. rewrite <- List.app_assoc. reflexivity.
Qed.
Lemma run_prefix O (M : mathops O) dbg cfg d sched kind ms g k k' b' : k <= k' -> boost_run M dbg cfg d sched kind ms g k' = Ok b' ->
  exists b, boost_run M dbg cfg d sched kind ms g k = Ok b /\ bs_ensemble b = mk_add (at_bias (bs_ensemble b')) (firstn k (at_trees (bs_ensemble b'))) /\ length (at_trees (bs_ensemble b')) = k'.
Proof.
  intros Hk E. unfold boost_run in *. apply rbind_ok in E as (b0 & E0 & E). rewrite E0. cbn [rbind]. apply rbind_ok in E as (sz & Esz & E). rewrite Esz. cbn [rbind].
  assert (at_trees (bs_ensemble b0) = []) as HT. { unfold boost_start in E0. apply rbind_ok in E0 as (s & _ & E0). apply rbind_ok in E0 as (t & _ & E0). apply rbind_ok in E0 as (ob & _ & E0). injection E0 as <-. reflexivity. }
  replace k' with (k + (k' - k)) in E by lia. rewrite seq_app, foldM_app in E. apply rbind_ok in E as (b & Eb & E). exists b. split; [exact Eb|].
  apply iters_push in Eb as (ts & L & Eb). apply iters_push in E as (ts' & L' & E). rewrite seq_length in L, L'. rewrite E, Eb, HT. cbn [at_bias at_trees app]. split.
  - f_equal. rewrite firstn_app, L, Nat.sub_diag, firstn_O, app_nil_r. symmetry. apply firstn_all2. lia.
  - rewrite app_length. lia.
Qed.

(** If training for some number of iterations succeeds, then training for fewer succeeds, with the first trees of that model, whatever metrics are reported and how often: the settings that do not take part in learning have no influence.
    For every arithmetic, objective, data set, order of the jobs and random draws. *)
Theorem C60_prefix : forall O (M : mathops O) dbg (cfg cfg' : config O) d sched kind metrics metrics' g m, same_learning cfg cfg' -> c_niterations cfg' <= c_niterations cfg ->
  boost_train M dbg cfg d sched kind metrics g = Ok m ->
  exists m', boost_train M dbg cfg' d sched kind metrics' g = Ok m' /\ at_bias m' = at_bias m /\ at_trees m' = firstn (c_niterations cfg') (at_trees m) /\ length (at_trees m) = c_niterations cfg.
Proof.
  intros O M dbg cfg cfg' d sched kind metrics metrics' g m HS Hk E. unfold boost_train in *. apply rbind_ok in E as (b & E & Em). injection Em as <-.
  destruct (run_prefix O M dbg cfg d sched kind metrics g (c_niterations cfg') _ b Hk E) as (b1 & E1 & H1 & HL).
  destruct (run_same O cfg cfg' HS M dbg d sched kind metrics metrics' g _ b1 E1) as (b2 & E2 & _ & _ & _ & H2). rewrite E2. cbn [rbind]. eexists. split; [reflexivity|]. rewrite H2, H1. cbn [at_bias at_trees]. auto.
Qed.
Print Assumptions C60_prefix.
(** Each iteration of a longer run starts from the state the shorter run ends in: running predictions, random draws and bins do not depend on what comes later, nor on the reports. *)
Theorem C60_resume : forall O (M : mathops O) dbg (cfg cfg' : config O) d sched kind metrics metrics' g k k' b, same_learning cfg cfg' -> k' <= k -> boost_run M dbg cfg d sched kind metrics g k = Ok b ->
  exists b0 b1, boost_run M dbg cfg d sched kind metrics g k' = Ok b0 /\ boost_run M dbg cfg' d sched kind metrics' g k' = Ok b1 /\
    bs_dataset b1 = bs_dataset b0 /\ bs_objective b1 = bs_objective b0 /\ bs_ensemble b1 = bs_ensemble b0 /\ at_trees (bs_ensemble b1) = firstn k' (at_trees (bs_ensemble b)).
Proof.
  intros O M dbg cfg cfg' d sched kind metrics metrics' g k k' b HS Hk E. destruct (run_prefix O M dbg cfg d sched kind metrics g k' k b Hk E) as (b1 & E1 & H1 & _).
  destruct (run_same O cfg cfg' HS M dbg d sched kind metrics metrics' g _ b1 E1) as (b2 & E2 & P1 & P2 & _ & P4). exists b1, b2. repeat (split; [assumption|]). rewrite P4, H1. reflexivity.
Qed.
Print Assumptions C60_resume.

(** Two iterations with a reported metric, and one without. *)
Definition pre_cfg : config f32ops :=
  @mk_config f32ops String.EmptyString String.EmptyString String.EmptyString [] 7%N false 59%N [] 1 f_half (fz 0) 1%N (fz 0) (fz 1) 4 4 2 f_half (fz 1) 99%N (fz 1) f_half 1.
Example C60_ex : same_learning bst_cfg pre_cfg /\ c_niterations pre_cfg < c_niterations bst_cfg /\
  (match boost_train bst_math true bst_cfg bst_data bst_sched L2 [ML2] ex_rng with Ok m => map nleafs (at_trees m) | _ => [] end) = [3; 3] /\
  (match boost_train bst_math true pre_cfg bst_data bst_sched L2 [] ex_rng with Ok m => map nleafs (at_trees m) | _ => [] end) = [3].
Proof. split; [repeat split|]. split; [cbn; lia|]. split; vm_compute; reflexivity. Qed.
