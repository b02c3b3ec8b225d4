(** Tables with the columns in another order: boosting. *)
From Coq Require Import Permutation.
From Verif Require Import Base BaseProofs BitModel Num DataModel BinnerModel Config TreeModel DatasetModel DatasetSpec DatasetProofs3 DatasetProofs4 DatasetProofs5 LearnerModel LearnerSpec LearnerProps ObjectiveModel MetricModel BoostModel BoostSpec AlikeProofs
  ColSpec ColProofs ColProofs2 ColProofs3 ColProofs4 ColProofs5.

Section Run.
Variable O : numops.
Variable M : mathops O.
Variable dbg : bool.
Variable cfg : config O.
Variable p : nat -> nat.
Variables d d' : data O.
Hypothesis HR : reordered_columns p d d'.
Notation nf := (d_nfeatures d).
Hypothesis HA : all_features cfg d.
Variables sched sched' : nat -> nat -> list job -> list job.
Hypothesis Hsched : any_order sched.
Hypothesis Hsched' : any_order sched'.
Hypothesis Hne : 0 < d_nexamples d.
Hypothesis Hcount : (N.of_nat (scaled_count (d_nexamples d) (c_example_fraction cfg)) <= 2 ^ 31)%N.
Hypothesis Hirr : forall a, nlt O a a = false.
Hypothesis Htrans : forall a b c, nlt O a b = true -> nlt O b c = true -> nlt O a c = true.
Hypothesis Hco : forall m a b c, nlt O a b = true -> nlt O m c = true -> nlt O a c = true \/ nlt O c b = true.
Variable kind : obj_kind.
Variable metrics : list metric.
Variable g : rng.

Record rbst (b b' : booster O) : Prop := { rb_ds : rds O p d d' (bs_dataset b) (bs_dataset b'); rb_ob : bs_objective b' = bs_objective b; rb_iter : bs_iter b' = bs_iter b; rb_evals : bs_evals b' = bs_evals b;
  rb_bias : at_bias (bs_ensemble b') = at_bias (bs_ensemble b); rb_trees : Forall2 (rtree O p nf) (at_trees (bs_ensemble b)) (at_trees (bs_ensemble b'));
  rb_reach : reachable dbg cfg d (bs_dataset b); rb_reach' : reachable dbg cfg d' (bs_dataset b') }.
Lemma reach_update (D : data O) s1 grad bounds s2 : reachable dbg cfg D s1 -> dataset_update dbg cfg s1 grad bounds = Ok s2 -> reachable dbg cfg D s2.
Proof. intros (g0 & us & s0 & E0 & E1) E. exists g0, (us ++ [(grad, bounds)]), s0. split; [exact E0|]. unfold ds_run in *. rewrite foldM_app, E1. cbn [rbind foldM fst snd]. rewrite E. reflexivity. Qed.
Lemma reach_setting (D : data O) s1 sz sch : reachable dbg cfg D s1 -> d_nexamples D = d_nexamples d -> hist_sizes D = Ok sz -> (forall k js, Permutation js (sch k js)) -> setting dbg cfg D s1 sz sch.
Proof. intros H En Es Hs. split; [exact H|]. split; [exact Es|]. split; [exact Hs|]. unfold nactive_examples. rewrite (dv_nact _ _ _ _ (ds_inv _ _ _ _ (reachable_ok _ _ _ _ _ H))). unfold DatasetProofs3.nact. rewrite En. exact Hcount. Qed.
Lemma start_sim b : boost_start M dbg cfg d kind g = Ok b -> exists b', boost_start M dbg cfg d' kind g = Ok b' /\ rbst b b'.
Proof.
  unfold boost_start. intros E. apply rbind_ok in E as (s & Es & E). destruct (dataset_new_sim O cfg p d d' HR HA g s Es) as (s' & Es' & Hs). rewrite Es'. cbn [rbind]. assert (get_target d' = get_target d) as -> by apply HR. apply rbind_ok in E as (target & -> & E). cbn [rbind].
  apply rbind_ok in E as (ob & -> & E). cbn [rbind]. apply Ok_eq in E. subst b. eexists. split; [reflexivity|]. constructor; cbn; try reflexivity; [exact Hs|constructor| |].
  - exists g, [], s. split; [exact Es|reflexivity].
  - exists g, [], s'. split; [exact Es'|reflexivity].
Qed.
Lemma run_sim k b : no_ties M dbg cfg d sched kind metrics g k -> boost_run M dbg cfg d sched kind metrics g k = Ok b -> exists b', boost_run M dbg cfg d' sched' kind metrics g k = Ok b' /\ rbst b b'.
Proof.
  intros HT E. pose proof E as E0. unfold boost_run in E0. apply rbind_ok in E0 as (b0 & Eb0 & E0). apply rbind_ok in E0 as (sizes & Esz & _). destruct (sizes_sim O p d d' HR sizes Esz) as (sizes' & Esz' & Hsz).
  revert b E. induction k as [|k IH]; intros b E.
  - unfold boost_run in *. rewrite Eb0, Esz in E. cbn [rbind seq foldM] in E. apply Ok_eq in E. subst b0. destruct (start_sim _ Eb0) as (b' & -> & H). rewrite Esz'. cbn [rbind seq foldM]. eauto.
  - assert (exists b1, boost_run M dbg cfg d sched kind metrics g k = Ok b1 /\ train_one_iter M dbg cfg d sched sizes metrics b1 = Ok b) as (b1 & Eb1 & E1).
    { unfold boost_run in *. rewrite Eb0, Esz in *. cbn [rbind] in *. rewrite seq_S, foldM_app in E. apply rbind_ok in E as (b1 & -> & E). exists b1. split; [reflexivity|]. cbn [foldM] in E. apply rbind_ok in E as (b2 & -> & E). exact E. }
    destruct (IH) with (b := b1) as (b1' & Eb1' & H); [intros j b2 target ob s sz nd Hj; apply (HT j b2 target ob s sz nd); lia|exact Eb1|].
    assert (forall b', train_one_iter M dbg cfg d' sched' sizes' metrics b1' = Ok b' -> boost_run M dbg cfg d' sched' kind metrics g (S k) = Ok b') as Hstep.
    { intros b' E'. unfold boost_run in *. apply rbind_ok in Eb1' as (b0' & -> & Eb1'). rewrite Esz' in *. cbn [rbind] in *. rewrite seq_S, foldM_app, Eb1'. cbn [rbind foldM]. rewrite E'. reflexivity. }
    unfold train_one_iter in E1. apply rbind_ok in E1 as (target & Et & E1). apply rbind_ok in E1 as (ob & Eu & E1). apply rbind_ok in E1 as (s & Es & E1). apply rbind_ok in E1 as ((t & ob') & Etr & E1). apply Ok_eq in E1. subst b.
    destruct (dataset_update_sim O dbg cfg p d d' HR HA _ _ _ _ _ (rb_ds _ _ H) Es) as (s' & Es' & Hs). pose proof (reach_update _ _ _ _ _ (rb_reach _ _ H) Es) as HRe. pose proof (reach_update _ _ _ _ _ (rb_reach' _ _ H) Es') as HRe'.
    destruct (train_sim O dbg cfg p d d' HR s s' Hs sizes sizes' (obj_bounds ob) (sched (S (bs_iter b1))) (sched' (S (bs_iter b1))) (reach_setting _ _ _ _ HRe eq_refl Esz (Hsched _)) (reach_setting _ _ _ _ HRe' (same_ne O p d d' HR) Esz' (Hsched' _)) Hsz Hne Hirr Htrans Hco (ob_grads ob))
      with (St := objective O) (leaf_value := obj_leaf_value M target) (oob := @update_out_of_bag O) (t := t) (st := ob) (st1 := ob') as (t' & Etr' & Ht); [|exact Etr|].
    { intros nd Hg. eapply (HT k); try eassumption. lia. }
    eexists. split; [apply Hstep|]; [unfold train_one_iter; assert (get_target d' = get_target d) as -> by apply HR; rewrite Et; cbn [rbind]; rewrite (rb_ob _ _ H), Eu; cbn [rbind]; rewrite Es'; cbn [rbind]; rewrite (rb_iter _ _ H), Etr'; cbn [rbind]; reflexivity|].
    constructor; cbn [bs_dataset bs_objective bs_iter bs_ensemble bs_evals push_tree at_bias at_trees]; try assumption; try reflexivity.
    + rewrite (rb_evals _ _ H). reflexivity.
    + apply H.
    + apply Forall2_app; [apply H|constructor; [exact Ht|constructor]].
Qed.
End Run.
