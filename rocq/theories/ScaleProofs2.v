(** Whole runs on a table whose target is measured in another unit, for two objectives whose gradients differ in their unit. *)
From Coq Require Import Permutation.
From Verif Require Import Base BaseProofs BitModel Num ScaledModel DataModel BinnerModel Config TreeModel DatasetModel DatasetSpec LearnerModel ObjectiveModel MetricModel BoostModel AlikeProofs AlikeProofs3 UnitProofs UnitProofs2 UnitProofs3 ScaleSpec ScaleProofs.

Section Scale2.
Variable O : numops.
Variables u u2 : num O -> num O.
Hypothesis Hlin : forall w x n lo hi, linproj O w x n (u lo, u hi) = u (linproj O w x n (lo, hi)).
Hypothesis Hdisc : forall w v lo hi, discretise O w (u v) (u lo, u hi) = discretise O w v (lo, hi).
Hypothesis Hu0 : u (nofZ O 0) = nofZ O 0.
Hypothesis Hsub : forall x y, nsub O (u x) (u y) = u (nsub O x y).
Hypothesis Hadd : forall x y, nadd O (u x) (u y) = u (nadd O x y).
Hypothesis Hdiv : forall x y, ndiv O (u x) y = u (ndiv O x y).
Hypothesis Hloss : forall (cfg : config O) g c, get_loss cfg (u g) c = u2 (get_loss cfg g c).
Hypothesis Hsub2 : forall x y, nsub O (u2 x) (u2 y) = u2 (nsub O x y).
Hypothesis Hlt2 : forall x y, nlt O (u2 x) (u2 y) = nlt O x y.
Hypothesis Hunit : unit_map u.
Hypothesis Hufin : forall v, nisfin O (u v) = nisfin O v.
Hypothesis Hu1 : forall v, nmul O (nofZ O 1) (nadd O (u v) (nofZ O 0)) = u (nmul O (nofZ O 1) (nadd O v (nofZ O 0))).

Variables d d' : data O.
Variable h : nat -> num O -> num O.
Hypothesis Hh : forall f, unit_map (h f).
Hypothesis Hcat : forall f ft, feat_type_of d f = Ok ft -> ft <> Numerical -> forall x, h f x = x.
Hypothesis Hd : d' = mk_data (d_max_nbins d) (d_nfeatures d) (d_nexamples d) (mapi (fun f => map (h f)) 0 (d_features d)) (mapi (fun f l => (h f (fst l), h f (snd l))) 0 (d_limits d)) (d_ftypes d) (d_cards d).
Hypothesis Hall : all_categorical d.
Notation cnv := (conv O d' h).

Variable dbg : bool.
Variable cfg : config O.
Let cfg' := with_min_gain cfg (u2 (c_min_gain cfg)).
Variable M : mathops O.
Variable sched : nat -> nat -> list job -> list job.
Variables target target' : list (num O).
Hypothesis Ht : get_target d = Ok target.
Hypothesis Ht' : get_target d' = Ok target'.
Variable R : objective O -> objective O -> Prop.
Hypothesis Hgrads : forall ob ob', R ob ob' -> obj_bounds ob' = (u (fst (obj_bounds ob)), u (snd (obj_bounds ob))).
Hypothesis Hupd : forall ob ob' ob1, R ob ob' -> obj_update M target ob = Ok ob1 -> exists ob1', obj_update M target' ob' = Ok ob1' /\ R ob1 ob1' /\ ob_grads ob1' = map u (ob_grads ob1).
Hypothesis Hlv : forall ex st st' v st1, R st st' -> obj_leaf_value M target ex st = Ok (v, st1) -> exists st1', obj_leaf_value M target' ex st' = Ok (u v, st1') /\ R st1 st1'.
Hypothesis Hoob : forall i v st st' st1, R st st' -> update_out_of_bag i v st = Ok st1 -> exists st1', update_out_of_bag i (u v) st' = Ok st1' /\ R st1 st1'.

Definition scale_state (b b' : booster O) : Prop :=
  in_data (ds_inner (bs_dataset b)) = d /\ cats O (ds_inner (bs_dataset b)) /\ bs_dataset b' = cnv (bs_dataset b) /\ R (bs_objective b) (bs_objective b') /\ bs_iter b' = bs_iter b /\
  at_trees (bs_ensemble b') = map (convt O h u) (at_trees (bs_ensemble b)) /\ (forall t, In t (at_trees (bs_ensemble b)) -> typed O d t /\ no_num O t).
Lemma scale_iter sizes b b' b1 : scale_state b b' -> train_one_iter M dbg cfg d sched sizes [] b = Ok b1 ->
  exists b1', train_one_iter M dbg cfg' d' sched sizes [] b' = Ok b1' /\ scale_state b1 b1' /\ at_bias (bs_ensemble b1') = at_bias (bs_ensemble b') /\ at_bias (bs_ensemble b1) = at_bias (bs_ensemble b).
Proof.
  intros (G & GC & A1 & A2 & A3 & A4 & A5) E. unfold train_one_iter in *. rewrite Ht in E. rewrite Ht'. cbn [rbind] in *. apply rbind_ok in E as (ob & Eo & E). destruct (Hupd _ _ _ A2 Eo) as (ob' & -> & HR & EG). cbn [rbind].
  pose proof (Hgrads _ _ HR) as EB. rewrite EG, EB, A1, A3. apply rbind_ok in E as (s & Es & E).
  destruct (sc_update O u u2 Hu0 Hadd Hdiv Hunit dbg cfg (bs_dataset b) (obj_bounds ob) (ob_grads ob) GC) as [ES HS]. pose proof (HS _ Es) as GC1.
  destruct (conv_update O d d' h Hh Hcat Hd dbg cfg' (bs_dataset b) (map u (ob_grads ob)) (u (fst (obj_bounds ob)), u (snd (obj_bounds ob))) G) as [EU HU]. fold cfg' in ES. rewrite ES, Es in EU. rewrite ES, Es in HU. assert (G1 := HU _ eq_refl). rewrite EU. cbn [rbind rmap].
  apply rbind_ok in E as ((t & ob1) & E1 & E). pose proof (train_no_num O dbg cfg s GC1 _ _ _ _ _ _ _ _ _ _ E1) as HNN. rewrite <- (sc_train O u u2 Hlin Hdisc Hu0 Hsub Hloss Hsub2 Hlt2) in E1. fold cfg' in E1.
  destruct (conv_train O d d' h Hh Hcat Hd u Hu0 Hufin Hu1 dbg cfg' s G1 sizes (u (fst (obj_bounds ob)), u (snd (obj_bounds ob))) (sched (S (bs_iter b))) _ _ _ (obj_leaf_value M target') _ update_out_of_bag R Hlv Hoob (map u (ob_grads ob)) ob ob' t ob1 HR E1) as (ob1' & E1' & HR1 & HI). rewrite E1'. cbn [rbind]. injection E as <-.
  eexists. split; [reflexivity|]. cbn [bs_ensemble push_tree at_bias]. split; [|auto]. unfold scale_state. cbn [bs_dataset bs_objective bs_iter bs_ensemble bs_evals push_tree at_trees]. split; [exact G1|]. split; [exact GC1|]. split; [reflexivity|]. split; [exact HR1|]. split; [reflexivity|]. split; [rewrite A4, map_app; reflexivity|].
  intros t0 Ht0. apply in_app_iff in Ht0 as [Ht0|[<-|[]]]; auto.
Qed.
Lemma new_cats g s : dataset_new cfg d g = Ok s -> cats O (ds_inner s).
Proof.
  unfold dataset_new, inner_new. intros E. apply rbind_ok in E as (i0 & E0 & E). apply rbind_ok in E0 as (((us & bv) & nl) & Eu & E0). injection E0 as <-.
  assert (forall f, In f us -> feat_type_of d f <> Ok Numerical) as HU.
  { intros f Hf Et. assert (useful_feature d f) as (Hl & _); [refine (useful_step_good O d _ _ _ _ _ _ _ _ _ _ Eu f Hf); [intros f0 Hf0; apply in_seq in Hf0; lia|intros f0 []]|]. unfold feat_type_of in Et. apply idx_ok in Et. exact (Hall f Hl Et). }
  destruct (nlt O _ _); [injection E as <-; exact HU|]. apply rbind_ok in E as (i1 & E1 & E). injection E as <-. cbn [ds_inner].
  cbn [in_useful] in E1. set (i0 := mk_inner g d us _ _ bv [] _ _ nl) in E1. assert (cats O i0) as HC by exact HU. clearbody i0. clear Eu HU. revert i0 HC E1. induction us as [|x l IH]; intros i0 HC E1; cbn [foldM] in E1; [injection E1 as <-; exact HC|].
  apply rbind_ok in E1 as (i2 & E2 & E1). eapply IH; [|exact E1]. apply rbind_ok in E2 as (ft & _ & E2). destruct (is_locard ft); [|injection E2 as <-; exact HC]. unfold update_locard_cat in E2. repeat (apply rbind_ok in E2 as (? & _ & E2)). injection E2 as <-. exact HC.
Qed.
Variable kind : obj_kind.
Variable g : rng.
Variables ob0 ob0' : objective O.
Hypothesis Hinit : obj_initialize M dbg cfg target (objective_new O kind) = Ok ob0.
Hypothesis Hinit' : obj_initialize M dbg cfg' target' (objective_new O kind) = Ok ob0'.
Hypothesis HR0 : R ob0 ob0'.
Lemma scale_run k b : boost_run M dbg cfg d sched kind [] g k = Ok b ->
  exists b', boost_run M dbg cfg' d' sched kind [] g k = Ok b' /\ scale_state b b' /\ at_bias (bs_ensemble b') = ob_bias ob0' /\ at_bias (bs_ensemble b) = ob_bias ob0.
Proof.
  intros E. unfold boost_run, boost_start in *. rewrite Ht in E. rewrite Ht', (conv_sizes O d d' h Hd). cbn [rbind] in *. rewrite Hinit in E. rewrite Hinit'. cbn [rbind] in *. apply rbind_ok in E as (b0 & E0 & E). apply rbind_ok in E0 as (s & Es & E0). injection E0 as <-.
  destruct (conv_new O d d' h Hh Hcat Hd cfg g) as [EN HN]. assert (G := HN _ Es). change (dataset_new cfg' d' g) with (dataset_new cfg d' g). rewrite EN, Es. cbn [rbind rmap]. apply rbind_ok in E as (sz & -> & E). cbn [rbind]. pose proof (new_cats g s Es) as GC.
  set (c0 := mk_booster s ob0 0 (additive_set_bias (additive_new O) (ob_bias ob0)) []) in *. set (c0' := mk_booster (cnv s) ob0' 0 (additive_set_bias (additive_new O) (ob_bias ob0')) []).
  assert (scale_state c0 c0') as A by (unfold scale_state; cbn; split; [exact G|]; split; [exact GC|]; repeat (split; [first [reflexivity|exact HR0]|]); intros t []).
  assert (at_bias (bs_ensemble c0') = ob_bias ob0') as B1 by reflexivity. assert (at_bias (bs_ensemble c0) = ob_bias ob0) as B2 by reflexivity.
  clearbody c0 c0'. revert c0 c0' A B1 B2 E. generalize (seq 0 k). clear G GC Es EN HN s. intros l. induction l as [|x l IH]; intros c c' A B1 B2 E; cbn [foldM] in *; [injection E as <-; eauto|].
  apply rbind_ok in E as (c1 & E1 & E). destruct (scale_iter _ _ _ _ A E1) as (c1' & -> & A1 & C1 & C2). cbn [rbind]. eapply IH; [exact A1|congruence|congruence|exact E].
Qed.
End Scale2.
