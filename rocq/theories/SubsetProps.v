(** C80: a tree splits on features of one sample of the informative features. *)
From Coq Require Import Permutation.
From Verif Require Import Base BaseProofs BitModel Num F32 F32Proofs DataModel Config TreeModel DatasetModel DatasetSpec DatasetProofs3 DatasetProofs4 DatasetProofs5 LearnerModel LearnerSpec LearnerProofs4 LearnerProofs5
  ObjectiveModel MetricModel BoostModel BoostSpec BoostProps TreeProps ColProps WideProps DatasetProps LearnerProps FreqProofs FreqProps.
Local Open Scope nat_scope.

Section Among.
Variable O : numops.
Variable dbg : bool.
Variable cfg : config O.
Variable s : dataset O.
Variable sizes : list nat.
Variable bounds : num O * num O.
Variable sched : nat -> list job -> list job.
Variable St : Type.
Variable leaf_value : list nat -> St -> res (num O * St).
Variable oob : nat -> num O -> St -> res St.

(** A split is on an active feature. *)
Definition among (c : split_crit O) : Prop := is_no_split c = true \/ exists fs, active_features s = Ok fs /\ In (sc_feature c) fs.

Lemma best_among nd sp : find_best_split dbg cfg s nd = Ok sp -> among (sp_crit sp).
Proof.
  intros E. unfold find_best_split in E. apply rbind_ok in E as (fs & Ef & E). apply rbind_ok in E as (st & E & E'). injection E' as <-.
  set (Q := fun st : num O * split O => among (sp_crit (snd st))). change (Q st). revert E. apply (foldM_inv _ _ _ Q); [|left; reflexivity].
  intros st1 f st2 Hin H E. apply rbind_ok in E as (hist & _ & E). apply rbind_ok in E as (nb & Enb & E). revert H E. apply (foldM_inv _ _ _ Q).
  intros st3 b st4 Hb H E. unfold split_step in E. apply rbind_ok in E as (l & _ & E). apply rbind_ok in E as (rc & _ & E). cbv zeta in E.
  destruct (_ || _) in E; [injection E as <-; exact H|]. destruct (nlt O _ _) in E; [|injection E as <-; exact H].
  apply rbind_ok in E as (c & Ec & E). injection E as <-. right. cbn [snd sp_crit]. apply make_crit_ok in Ec. destruct Ec as (-> & _). exists fs. split; [exact Ef|exact Hin].
Qed.
Lemma step_among nd stack t st stack' t' st' : Forall among (t_crits t) -> train_step dbg cfg s sizes bounds sched St leaf_value nd stack t st = Ok (stack', t', st') -> Forall among (t_crits t').
Proof.
  intros Ht E. unfold train_step in E. apply rbind_ok in E as (sp & Esp & E). pose proof (best_among _ _ Esp) as Hb.
  destruct (is_no_split (sp_crit sp)); [|destruct (negb _)].
  - apply rbind_ok in E as ([t1 st1] & E1 & E). injection E as <- <- <-. unfold predict_leaf_value in E1. apply rbind_ok in E1 as (ex & _ & E1). apply rbind_ok in E1 as ([v st2] & _ & E1).
    apply rbind_ok in E1 as (t2 & E2 & E1). injection E1 as <- <-. rewrite (set_value_crits _ _ _ _ _ E2). exact Ht.
  - apply rbind_ok in E as ([l r] & _ & E). apply rbind_ok in E as (t1 & E1 & E). injection E as <- <- <-. exact (split_node_crits _ _ _ _ _ _ Ht Hb E1).
  - apply rbind_ok in E as ([t1 st1] & E1 & E). apply rbind_ok in E as (t2 & E2 & E). injection E as <- <- <-. refine (split_node_crits _ _ _ _ _ _ _ Hb E2).
    unfold predict_child_leaf_values in E1. apply rbind_ok in E1 as (fm & _ & E1). apply rbind_ok in E1 as (el & _ & E1). apply rbind_ok in E1 as ([vl st2] & _ & E1). apply rbind_ok in E1 as (er & _ & E1).
    apply rbind_ok in E1 as ([vr st3] & _ & E1). apply rbind_ok in E1 as (t3 & E3 & E1). apply rbind_ok in E1 as (t4 & E4 & E1). injection E1 as <- <-.
    rewrite (set_value_crits _ _ _ _ _ E4), (set_value_crits _ _ _ _ _ E3). exact Ht.
Qed.
Lemma loop_among fuel : forall stack t st t' st', Forall among (t_crits t) -> train_loop dbg cfg s sizes bounds sched St leaf_value fuel stack t st = Ok (t', st') -> Forall among (t_crits t').
Proof.
  induction fuel as [|fuel IH]; intros [|nd stack] t st t' st' Ht E; cbn [train_loop] in E; try discriminate; try (injection E as <- <-; exact Ht).
  apply rbind_ok in E as ([[stack1 t1] st1] & E1 & E). cbn [fst snd] in E. exact (IH _ _ _ _ _ (step_among _ _ _ _ _ _ _ Ht E1) E).
Qed.
Lemma train_among gradients st t st' : train dbg cfg s sizes bounds sched St leaf_value oob gradients st = Ok (t, st') -> Forall among (t_crits t).
Proof.
  intros E. unfold train in E. apply rbind_ok in E as (t0 & E0 & E). apply rbind_ok in E as (root & _ & E). apply rbind_ok in E as ([t1 st1] & E1 & E). apply rbind_ok in E as (st2 & _ & E). injection E as <- _.
  refine (loop_among _ _ _ _ _ _ _ E1). unfold tree_new in E0. apply rbind_ok in E0 as (u & _ & E0). injection E0 as <-. cbn [t_crits]. apply Forall_forall. intros c Hc. apply repeat_spec in Hc as ->. left. reflexivity.
Qed.
End Among.

(** The splits of a tree are on features of [sample]. *)
Definition splits_among {O} (sample : list nat) (t : tree O) : Prop := forall c, In c (t_crits t) -> is_no_split c = false -> In (sc_feature c) sample.
(** A sample of a fraction of the informative features. *)
Definition feature_sample {O} (cfg : config O) (d : data O) (sample : list nat) : Prop :=
  NoDup sample /\ (forall f, In f sample -> useful_feature d f) /\
  forall informative, NoDup informative -> (forall f, In f informative <-> useful_feature d f) -> length sample = scaled_count (length informative) (c_feature_fraction cfg).

Lemma run_among O (M : mathops O) dbg (cfg : config O) d sched kind metrics g k b : boost_run M dbg cfg d sched kind metrics g k = Ok b ->
  reachable dbg cfg d (bs_dataset b) /\ Forall (fun t => exists sample, feature_sample cfg d sample /\ splits_among sample t) (at_trees (bs_ensemble b)).
Proof.
  unfold boost_run. intros E. apply rbind_ok in E as (b0 & E0 & E). apply rbind_ok in E as (sizes & Hsz & E). revert b E. induction k as [|k IH]; intros b E.
  - injection E as <-. unfold boost_start in E0. apply rbind_ok in E0 as (s & Es & E0). apply rbind_ok in E0 as (t & _ & E0). apply rbind_ok in E0 as (ob & _ & E0). injection E0 as <-.
    cbn [bs_dataset bs_ensemble additive_set_bias additive_new at_trees]. split; [|constructor]. exists g, [], s. split; [exact Es|reflexivity].
  - rewrite seq_S, foldM_app in E. apply rbind_ok in E as (b1 & E1 & E). cbn [foldM] in E. apply rbind_ok in E as (b2 & E & E2). injection E2 as <-. destruct (IH b1 E1) as (L1 & F1). unfold train_one_iter in E.
    apply rbind_ok in E as (target & Et & E). cbv zeta in E. apply rbind_ok in E as (ob & Eob & E). apply rbind_ok in E as (s & Es & E). apply rbind_ok in E as ([t ob'] & Etr & E). injection E as <-. cbn [bs_dataset bs_ensemble push_tree at_trees].
    assert (reachable dbg cfg d s) as HR.
    { destruct L1 as (g0 & us & s0 & E3 & E4). exists g0, (us ++ [(ob_grads ob, obj_bounds ob)]), s0. split; [exact E3|]. unfold ds_run in *. rewrite foldM_app, E4. cbn [rbind foldM fst snd]. rewrite Es. reflexivity. }
    split; [exact HR|]. apply Forall_app. split; [exact F1|]. constructor; [|constructor].
    destruct (active_features s) as [fs| | |] eqn:Ef.
    2-4: exfalso; unfold train in Etr; apply rbind_ok in Etr as (t0 & _ & Etr); apply rbind_ok in Etr as (root & _ & Etr); apply rbind_ok in Etr as ([t1 st1] & El & _); destruct (2 ^ (c_max_tree_depth cfg + 1)) as [|fuel]; cbn [train_loop] in El; [discriminate El|];
      apply rbind_ok in El as (x & El & _); unfold train_step, find_best_split in El; rewrite Ef in El; discriminate El.
    exists fs. destruct (C27_active_features O dbg cfg d s fs HR Ef) as (H1 & H2 & H3 & H4). split.
    + split; [exact H1|]. split; [rewrite Forall_forall in H2; exact H2|]. intros inf Hnd Hinf. pose proof (ds_inv _ _ _ _ (reachable_ok _ _ _ _ _ HR)) as HI.
      rewrite H3. unfold nactive_features. rewrite (dv_nfeat _ _ _ _ HI). f_equal. apply Permutation_length, NoDup_Permutation; [exact (dv_nodup _ _ _ _ HI)|exact Hnd|]. intros f. rewrite Hinf. exact (dv_useful _ _ _ _ HI f).
    + intros c Hc Hs. pose proof (train_among _ _ _ _ _ _ _ _ _ _ _ _ _ _ Etr) as H. rewrite Forall_forall in H. destruct (H c Hc) as [X|(fs' & Ef' & X)]; [congruence|]. assert (fs' = fs) as -> by congruence. exact X.
Qed.

(** For every tree of a model there is one sample of the informative features, of [feature_fraction] of them (as [scaled_count] rounds), that has all features the tree splits on; in any arithmetic, for all data and settings, every objective, random numbers and order of the jobs.
    So no tree splits on the target, on a column with one value, or on more features than the fraction allows. *)
Theorem C80_features : forall O (M : mathops O) dbg (cfg : config O) d sched kind metrics g k b, boost_run M dbg cfg d sched kind metrics g k = Ok b ->
  forall t, In t (at_trees (bs_ensemble b)) -> exists sample, feature_sample cfg d sample /\ splits_among sample t.
Proof.
  intros O M dbg cfg d sched kind metrics g k b E t Ht. destruct (run_among O M dbg cfg d sched kind metrics g k b E) as [_ H]. rewrite Forall_forall in H. exact (H t Ht).
Qed.
Print Assumptions C80_features.

(** In particular: the features a tree splits on, listed without repetition, are not more than the fraction of the informative ones. *)
Theorem C80_count : forall O (M : mathops O) dbg (cfg : config O) d sched kind metrics g k b, boost_run M dbg cfg d sched kind metrics g k = Ok b ->
  forall t fs informative, In t (at_trees (bs_ensemble b)) -> NoDup fs -> (forall f, In f fs -> exists c, In c (t_crits t) /\ is_no_split c = false /\ sc_feature c = f) ->
  NoDup informative -> (forall f, In f informative <-> useful_feature d f) -> length fs <= scaled_count (length informative) (c_feature_fraction cfg).
Proof.
  intros O M dbg cfg d sched kind metrics g k b E t fs inf Ht Hnd Hfs Hndi Hinf. destruct (C80_features O M dbg cfg d sched kind metrics g k b E t Ht) as (sample & (H1 & H2 & H3) & H4).
  rewrite <- (H3 inf Hndi Hinf). apply NoDup_incl_length; [exact Hnd|]. intros f Hf. destruct (Hfs f Hf) as (c & Hc & Hs & <-). exact (H4 c Hc Hs).
Qed.
Print Assumptions C80_count.

Definition sub_cfg (ff : f32) : config f32ops :=
  @mk_config f32ops String.EmptyString String.EmptyString String.EmptyString [] 2%N true 44%N [0] 4 f_half (fz 0) 1%N (fz 0) (fz 1) 4 4 2 f_half (fz 1) 1%N ff f_one 1.
(** Both columns are informative; with half of the features no tree splits on both. *)
Example C80_ex : (forall f, useful_feature freq_d f <-> In f [0; 1]) /\
  map (fun ff => splits_of (boost_train bst_math true (sub_cfg ff) freq_d bst_sched L2 [ML2] wide_rng)) [f_one; f_half] =
  [Some [[1; 0; 1]; [1; 0; 1]; [1; 1; 0]; [1; 0; 1]]; Some [[0; 0]; [1; 1; 1]; [1; 1; 1]; [0; 0]]].
Proof. split; [exact one_useful|]. vm_compute. reflexivity. Qed.
