From Coq Require Import Permutation.
From Verif Require Import Base BaseProofs Num DataModel Config TreeModel DatasetModel DatasetSpec LearnerModel ObjectiveModel MetricModel BoostModel TotalProofs3 SafeSpec SafeProofs SafeProofs2.

Section BoostSafe.
Variable O : numops.
Variable M : mathops O.
Variable dbg : bool.
Variable cfg : config O.
Variable d : data O.
Variable sched : nat -> nat -> list job -> list job.
Hypothesis Hsched : forall k i js, Permutation js (sched k i js).

Lemma update_length target (ob ob' : objective O) : obj_update M target ob = Ok ob' -> length (ob_grads ob') = length target.
Proof.
  unfold obj_update. intros E. apply rbind_ok in E as (? & L1 & E). apply rassert_ok, Nat.eqb_eq in L1. apply rbind_ok in E as (? & L2 & E).
  assert (forall k dl, length (pair_gradients M k dl target (ob_preds ob)) = length target) as HL by (intros; unfold pair_gradients; rewrite map_length, combine_length; lia).
  destruct (ob_kind ob).
  - destruct (m_limits M _) as [mn mx]. injection E as <-. apply HL.
  - injection E as <-. apply HL.
  - apply rbind_ok in E as (q & _ & E). injection E as <-. apply HL.
  - injection E as <-. apply HL.
  - injection E as <-. apply HL.
Qed.

Lemma boost_safe kind metrics g : (forall target, get_target d = Ok target -> (N.of_nat (length target) <= 2 ^ 31)%N) -> safe (boost_train M dbg cfg d sched kind metrics g).
Proof.
  intros Ht. unfold boost_train. apply safe_bind; [|intros; apply safe_Ok]. unfold boost_run. apply safe_bind.
  { unfold boost_start. apply safe_bind; [apply safe_dataset_new|]. intros s _. apply safe_bind; [apply safe_get_target|]. intros t _. apply safe_bind; [apply safe_obj_initialize|]. intros; apply safe_Ok. }
  intros b0 E0. apply safe_bind; [apply safe_hist_sizes|]. intros sizes Hsz. apply safe_foldM_inv with (I := fun b => reachable dbg cfg d (bs_dataset b)).
  2:{ unfold boost_start in E0. apply rbind_ok in E0 as (s & Es & E0). apply rbind_ok in E0 as (t & _ & E0). apply rbind_ok in E0 as (ob & _ & E0). injection E0 as <-. exists g, [], s. split; [exact Es|reflexivity]. }
  intros b _ _ (g0 & us & s0 & Es0 & Eus). 
  assert (forall s ob, dataset_update dbg cfg (bs_dataset b) (ob_grads ob) (obj_bounds ob) = Ok s -> reachable dbg cfg d s) as HR.
  { intros s ob E. exists g0, (us ++ [(ob_grads ob, obj_bounds ob)]), s0. split; [exact Es0|]. unfold ds_run in *. rewrite foldM_app, Eus. cbn [rbind foldM fst snd]. rewrite E. reflexivity. }
  unfold train_one_iter. split.
  - apply safe_bind; [apply safe_get_target|]. intros target Et. cbv zeta. apply safe_bind; [apply safe_obj_update|]. intros ob Eob. apply safe_bind; [apply safe_dataset_update|]. intros s Es.
    apply safe_bind; [|intros [t ob'] _; apply safe_Ok]. eapply train_safe.
    + eapply HR, Es.
    + exact Hsz.
    + intros k js. apply Hsched.
    + rewrite (update_length _ _ _ Eob). apply Ht, Et.
    + intros; apply safe_leaf_value.
    + intros; apply safe_oob.
  - intros b' E. apply rbind_ok in E as (target & _ & E). cbv zeta in E. apply rbind_ok in E as (ob & _ & E). apply rbind_ok in E as (s & Es & E). apply rbind_ok in E as ([t ob'] & _ & E). injection E as <-. cbn [bs_dataset]. eapply HR, Es.
Qed.
End BoostSafe.
