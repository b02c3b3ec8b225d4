(** Tables with extra constant columns: boosting. *)
From Coq Require Import Permutation.
From Verif Require Import Base BaseProofs BitModel Num DataModel BinnerModel Config TreeModel DatasetModel LearnerModel ObjectiveModel MetricModel BoostModel BoostSpec AlikeProofs
  ColSpec ColProofs WideSpec WideProofs WideProofs2 WideProofs3 WideProofs4.

Section Run.
Variable O : numops.
Variable M : mathops O.
Variable dbg : bool.
Variable cfg : config O.
Variable p : nat -> nat.
Variables d d' : data O.
Hypothesis HW : wider p d d'.
Hypothesis HX : extra_constant p d d'.
Hypothesis HC : same_columns p d d'.
Notation nf := (d_nfeatures d).
Variables sched sched' : nat -> nat -> list job -> list job.
Hypothesis Hsched : any_order sched.
Hypothesis Hsched' : any_order sched'.
Variable kind : obj_kind.
Variable metrics : list metric.
Variable g : rng.

Record wbst (b b' : booster O) : Prop := { wb_ds : wds O p d d' (bs_dataset b) (bs_dataset b'); wb_ob : bs_objective b' = bs_objective b; wb_iter : bs_iter b' = bs_iter b; wb_evals : bs_evals b' = bs_evals b;
  wb_bias : at_bias (bs_ensemble b') = at_bias (bs_ensemble b); wb_trees : Forall2 (wtree O p nf) (at_trees (bs_ensemble b)) (at_trees (bs_ensemble b')) }.
Lemma w_target : get_target d' = get_target d. Proof. apply HC. Qed.
Lemma wstart b : boost_start M dbg cfg d kind g = Ok b -> exists b', boost_start M dbg cfg d' kind g = Ok b' /\ wbst b b'.
Proof.
  unfold boost_start. intros E. apply rbind_ok in E as (s & Es & E). destruct (wdataset_new O cfg p d d' HW HX HC g s Es) as (s' & Es' & Hs). rewrite Es'. cbn [rbind]. rewrite w_target. apply rbind_ok in E as (target & -> & E). cbn [rbind].
  apply rbind_ok in E as (ob & -> & E). cbn [rbind]. apply Ok_eq in E. subst b. eexists. split; [reflexivity|]. constructor; cbn; try reflexivity; [exact Hs|constructor].
Qed.
Lemma wrun k b : boost_run M dbg cfg d sched kind metrics g k = Ok b -> exists b', boost_run M dbg cfg d' sched' kind metrics g k = Ok b' /\ wbst b b'.
Proof.
  intros E. pose proof E as E0. unfold boost_run in E0. apply rbind_ok in E0 as (b0 & Eb0 & E0). apply rbind_ok in E0 as (sizes & Esz & _). destruct (wsizes_sim O p d d' HW HX HC sizes Esz) as (sizes' & Esz' & Hsz).
  revert b E. induction k as [|k IH]; intros b E.
  - unfold boost_run in *. rewrite Eb0, Esz in E. cbn [rbind seq foldM] in E. apply Ok_eq in E. subst b0. destruct (wstart _ Eb0) as (b' & -> & H). rewrite Esz'. cbn [rbind seq foldM]. eauto.
  - assert (exists b1, boost_run M dbg cfg d sched kind metrics g k = Ok b1 /\ train_one_iter M dbg cfg d sched sizes metrics b1 = Ok b) as (b1 & Eb1 & E1).
    { unfold boost_run in *. rewrite Eb0, Esz in *. cbn [rbind] in *. rewrite seq_S, foldM_app in E. apply rbind_ok in E as (b1 & -> & E). exists b1. split; [reflexivity|]. cbn [foldM] in E. apply rbind_ok in E as (b2 & -> & E). exact E. }
    destruct (IH b1 Eb1) as (b1' & Eb1' & H).
    assert (forall b', train_one_iter M dbg cfg d' sched' sizes' metrics b1' = Ok b' -> boost_run M dbg cfg d' sched' kind metrics g (S k) = Ok b') as Hstep.
    { intros b' E'. unfold boost_run in *. apply rbind_ok in Eb1' as (b0' & -> & Eb1'). rewrite Esz' in *. cbn [rbind] in *. rewrite seq_S, foldM_app, Eb1'. cbn [rbind foldM]. rewrite E'. reflexivity. }
    unfold train_one_iter in E1. apply rbind_ok in E1 as (target & Et & E1). apply rbind_ok in E1 as (ob & Eu & E1). apply rbind_ok in E1 as (s & Es & E1). apply rbind_ok in E1 as ((t & ob') & Etr & E1). apply Ok_eq in E1. subst b.
    destruct (wdataset_update O dbg cfg p d d' HW HC _ _ _ _ _ (wb_ds _ _ H) Es) as (s' & Es' & Hs).
    destruct (wtrain O dbg cfg p d d' HW HC s s' Hs sizes sizes' Hsz (obj_bounds ob) (sched (S (bs_iter b1))) (sched' (S (bs_iter b1))) (Hsched _) (Hsched' _) (ob_grads ob) (objective O) (obj_leaf_value M target) (@update_out_of_bag O) t ob ob' Etr) as (t' & Etr' & Ht).
    eexists. split; [apply Hstep|]; [unfold train_one_iter; rewrite w_target, Et; cbn [rbind]; rewrite (wb_ob _ _ H), Eu; cbn [rbind]; rewrite Es'; cbn [rbind]; rewrite (wb_iter _ _ H), Etr'; cbn [rbind]; reflexivity|].
    constructor; cbn [bs_dataset bs_objective bs_iter bs_ensemble bs_evals push_tree at_bias at_trees]; try assumption; try reflexivity.
    + rewrite (wb_evals _ _ H). reflexivity.
    + apply H.
    + apply Forall2_app; [apply H|constructor; [exact Ht|constructor]].
Qed.
End Run.
