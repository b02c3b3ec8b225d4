(** C62: a constant added to the targets is added to the predictions. *)
From Coq Require Import Reals Lra.
From Verif Require Import Base BaseProofs Num F32 DataModel Config TreeModel DatasetModel DatasetSpec LearnerModel ObjectiveModel MetricModel BoostModel BoostSpec DatasetProps LearnerProps BoostProofs BoostProps PrefixSpec PrefixProps TotalSpec TotalProps
  AlikeSpec AlikeProofs AlikeProofs2 AlikeProofs3 ShiftSpec ShiftProofs.
From Flocq Require Import Core.
Local Open Scope R_scope.
Local Open Scope nat_scope.

Section ShiftR.
Variable c : R.
Notation h := (fun y : R => (y + c)%R).
Lemma R_sub (a b : R) : nsub Rops (h a) (h b) = nsub Rops a b.
Proof. change (((a + c) - (b + c))%R = (a - b)%R). ring. Qed.
Lemma R_add (a v : R) : nadd Rops (h a) v = h (nadd Rops a v).
Proof. change (((a + c) + v)%R = ((a + v) + c)%R). ring. Qed.
Lemma R_lt (a b : R) : nlt Rops (h a) (h b) = nlt Rops a b.
Proof. change (Rlt_bool (a + c) (b + c) = Rlt_bool a b). destruct (Rlt_bool_spec a b), (Rlt_bool_spec (a + c) (b + c)); try reflexivity; exfalso; lra. Qed.
Lemma R_limits_h (l : list R) : l <> [] -> m_limits Rmath (map h l) = (h (fst (m_limits Rmath l)), h (snd (m_limits Rmath l))).
Proof.
  intros Hl. destruct l as [|x t]; [contradiction|]. unfold m_limits, Rmath, R_limits. cbn [map fst snd]. f_equal.
  - clear Hl. revert x. induction t as [|y t IH]; intros x; [reflexivity|]. cbn [map fold_left]. rewrite <- IH. f_equal. unfold Rmin. destruct (Rle_dec x y), (Rle_dec (x + c) (y + c)); try reflexivity; exfalso; lra.
  - clear Hl. revert x. induction t as [|y t IH]; intros x; [reflexivity|]. cbn [map fold_left]. rewrite <- IH. f_equal. unfold Rmax. destruct (Rle_dec x y), (Rle_dec (x + c) (y + c)); try reflexivity; exfalso; lra.
Qed.
Lemma R_sum_h (l : list R) : nsum (O := Rops) (map h l) = (nsum (O := Rops) l + INR (length l) * c)%R.
Proof.
  unfold nsum. cbn [nadd Rops]. assert (forall a b, fold_left Rplus (map h l) (a + b) = fold_left Rplus l a + (b + INR (length l) * c))%R as H.
  { induction l as [|x l IH]; intros a b; [cbn; ring|]. cbn [map fold_left length]. replace (a + b + (x + c))%R with ((a + x) + (b + c))%R by ring. rewrite IH, S_INR. ring. }
  specialize (H 0%R 0%R). rewrite Rplus_0_r, Rplus_0_l in H. exact H.
Qed.
Lemma R_mean_h (l : list R) : l <> [] -> ndiv Rops (nsum (O := Rops) (map h l)) (nofnat Rops (length l)) = h (ndiv Rops (nsum (O := Rops) l) (nofnat Rops (length l))).
Proof.
  intros Hl. assert (H := R_sum_h l). cbv beta in H. set (x := nsum (O := Rops) (map h l)) in *. set (y := nsum (O := Rops) l) in *. clearbody x y. change (num Rops) with R in x, y.
  change ((x / IZR (Z.of_nat (length l)))%R = (y / IZR (Z.of_nat (length l)) + c)%R). rewrite H, <- INR_IZR_INZ. field. destruct l; [contradiction|]. cbn [length]. apply not_0_INR. discriminate.
Qed.
End ShiftR.

Lemma shifted_alike c d d' : shifted c d d' -> alike d d'.
Proof.
  intros (A1 & A2 & A3 & A4 & A5 & A6 & A7 & _). do 6 (split; [assumption|]). intros f Hf. destruct (A7 f Hf) as (E1 & E2 & E3 & E4).
  assert (max_nbins d' f = max_nbins d f) as EB by (unfold max_nbins; rewrite E3, E4, A3; reflexivity). split; [exact EB|]. split; [|intros _; repeat split; assumption]. unfold useful_feature. rewrite A1, EB, E2. tauto.
Qed.
Lemma shifted_run c dbg cfg d d' sched kind metrics g k b : shifted c d d' -> 0 < d_nexamples d -> kind = L2 \/ kind = L1 \/ kind = Huber -> (forall m, In m metrics -> m = ML2 \/ m = MRmse) ->
  boost_run Rmath dbg cfg d sched kind metrics g k = Ok b ->
  exists b', boost_run Rmath dbg cfg d' sched kind metrics g k = Ok b' /\ alike_state Rops d d' (shifted_obj Rops (fun y : R => (y + c)%R)) b b' /\ at_bias (bs_ensemble b') = (at_bias (bs_ensemble b) + c)%R.
Proof.
  intros HS Hn Hk Hm E. assert (HA := shifted_alike c d d' HS). destruct HS as (_ & _ & _ & _ & HC & _ & _ & target & Et & Et').
  assert (target <> []) as Hne. { unfold get_target, get_feature in Et. apply idx_ok, nth_error_In in Et. assert (length target = d_nexamples d) as L by (apply HC; left; exact Et). intros ->. cbn in L. lia. }
  assert (exists ob, obj_initialize Rmath dbg cfg target (objective_new Rops kind) = Ok ob) as [ob Eo]. { unfold boost_run, boost_start in E. apply rbind_ok in E as (b0 & E & _). apply rbind_ok in E as (s & _ & E). rewrite Et in E. cbn [rbind] in E. apply rbind_ok in E as (ob & Eo & _). eauto. }
  destruct (init_shift Rops Rmath (fun y : R => (y + c)%R) (R_sub c) (R_add c) (R_lt c) (fun _ => eq_refl) (R_limits_h c) (R_mean_h c) dbg cfg kind target ob Hk Hne Eo) as (ob' & Eo' & HR).
  destruct (swap_run Rops d d' HA Rmath dbg cfg sched target _ Et Et' (shifted_obj Rops (fun y : R => (y + c)%R))) with (metrics := metrics) (kind := kind) (g := g) (ob0 := ob) (ob0' := ob') (k := k) (b := b) as (b' & E' & A & B1 & B2); try assumption.
  - intros o o' (_ & K1 & _ & _ & _ & K2 & K3 & _ & K4 & K5). split; [exact K2|]. unfold obj_bounds. rewrite K1, K3, K4, K5. reflexivity.
  - intros. eapply upd_shift; try eassumption; try apply R_sub.
  - intros. eapply leaf_shift; try eassumption; try apply R_sub; try apply R_add; try reflexivity.
  - intros. eapply oob_shift; try eassumption; try apply R_add; try reflexivity.
  - intros m o o' Hin HR'. apply metric_shift; [apply R_sub|apply Hm, Hin|exact HR'].
  - exists b'. split; [exact E'|]. split; [exact A|]. rewrite B1, B2. apply HR.
Qed.

(** In exact arithmetic, for the squared, absolute and Huber error: adding a constant to every target gives the model with the same trees and the constant added to the bias. *)
Theorem C62_training : forall c dbg cfg d d' sched kind metrics g m, shifted c d d' -> 0 < d_nexamples d -> kind = L2 \/ kind = L1 \/ kind = Huber ->
  boost_train Rmath dbg cfg d sched kind metrics g = Ok m -> boost_train Rmath dbg cfg d' sched kind metrics g = Ok (@mk_add Rops (at_bias m + c)%R (at_trees m)).
Proof.
  intros c dbg cfg d d' sched kind metrics g m HS Hn Hk E. unfold boost_train in *. apply rbind_ok in E as (b & E & Em). injection Em as <-.
  assert (forall k : config Rops, same_learning k k) as Href by (intros k; repeat split).
  destruct (run_same Rops cfg cfg (Href cfg) Rmath dbg d sched kind metrics [] g _ b E) as (b1 & E1 & _ & _ & _ & H1).
  destruct (shifted_run c dbg cfg d d' sched kind [] g _ b1 HS Hn Hk ltac:(intros ? []) E1) as (b2 & E2 & (_ & _ & _ & _ & A & _) & B).
  destruct (run_same Rops cfg cfg (Href cfg) Rmath dbg d' sched kind [] metrics g _ b2 E2) as (b3 & E3 & _ & _ & _ & H3). rewrite E3. cbn [rbind]. rewrite H3, <- H1. f_equal.
  destruct (bs_ensemble b2) as [bi ts]. cbn [at_bias at_trees] in *. rewrite A, B. reflexivity.
Qed.
Print Assumptions C62_training.
(** The running predictions are shifted by the constant after every number of iterations, and the metrics for regression are the same. *)
Theorem C62_run : forall c dbg cfg d d' sched kind metrics g k b, shifted c d d' -> 0 < d_nexamples d -> kind = L2 \/ kind = L1 \/ kind = Huber -> (forall m, In m metrics -> m = ML2 \/ m = MRmse) ->
  boost_run Rmath dbg cfg d sched kind metrics g k = Ok b -> exists b', boost_run Rmath dbg cfg d' sched kind metrics g k = Ok b' /\
    ob_preds (bs_objective b') = map (fun y => (y + c)%R) (ob_preds (bs_objective b)) /\ ob_grads (bs_objective b') = ob_grads (bs_objective b) /\ bs_evals b' = bs_evals b /\
    at_trees (bs_ensemble b') = at_trees (bs_ensemble b) /\ at_bias (bs_ensemble b') = (at_bias (bs_ensemble b) + c)%R.
Proof.
  intros c dbg cfg d d' sched kind metrics g k b HS Hn Hk Hm E. destruct (shifted_run c dbg cfg d d' sched kind metrics g k b HS Hn Hk Hm E) as (b' & E' & (_ & _ & HR & _ & A & _ & B) & C). exists b'. split; [exact E'|].
  destruct HR as (_ & _ & _ & _ & R1 & R2 & _). auto.
Qed.
Print Assumptions C62_run.
(** So the predictions of the two models differ by the constant, on every table that is predicted. *)
Theorem C62_predict : forall c dbg cfg d d' sched kind metrics g m D ps, shifted c d d' -> 0 < d_nexamples d -> kind = L2 \/ kind = L1 \/ kind = Huber ->
  boost_train Rmath dbg cfg d sched kind metrics g = Ok m -> additive_predict m D = Ok ps ->
  exists m', boost_train Rmath dbg cfg d' sched kind metrics g = Ok m' /\ additive_predict m' D = Ok (map (fun y => (y + c)%R) ps).
Proof.
  intros c dbg cfg d d' sched kind metrics g m D ps HS Hn Hk E Ep. eexists. split; [eapply C62_training; eassumption|].
  rewrite (additive_shift Rops (fun y : R => (y + c)%R) (R_add c) (at_bias m) (at_trees m) D). destruct m as [bi ts]. cbn [at_bias at_trees]. rewrite Ep. reflexivity.
Qed.
Print Assumptions C62_predict.

(** The data of [exr_data] with 10 added to the targets. *)
Definition exr_data10 : data Rops :=
  @mk_data Rops 4 2 6 [[0; 0; 1; 1; 2; 2]; [1; 2; 3; 5; 8; 13]; [11; 10; 11; 10; 11; 11]]%R [(0, 2); (1, 13); (10, 11)]%R [LoCardCat; Numerical; Numerical] [3; 0; 0].
Example C62_ex : shifted 10%R exr_data exr_data10 /\ exists m, boost_train Rmath true exr_cfg exr_data bst_sched L2 [] ex_rng = Ok m /\ boost_train Rmath true exr_cfg exr_data10 bst_sched L2 [] ex_rng = Ok (@mk_add Rops (at_bias m + 10)%R (at_trees m)) /\ length (at_trees m) = 2.
Proof.
  assert (shifted 10%R exr_data exr_data10) as HS.
  { do 4 (split; [reflexivity|]). split; [|split; [reflexivity|split]].
    - intros col [Hc|Hc]; cbn [exr_data exr_data10 d_features In] in Hc; repeat (destruct Hc as [<-|Hc]; [reflexivity|]); destruct Hc.
    - intros [|[|f]] Hf; [repeat split..|cbn in Hf; lia].
    - exists [1; 0; 1; 0; 1; 1]%R. split; [reflexivity|]. unfold get_target, get_feature, exr_data10. cbn [d_features d_nfeatures idx nth_error map]. f_equal. repeat (apply f_equal2; [lra|]). reflexivity. }
  split; [exact HS|]. destruct C49_training_ex as (HT & Htgt & HA & HN & _ & _ & Hb & Hdep & Hmin).
  destruct (C49_training true exr_cfg exr_data bst_sched L2 [] ex_rng _ HT Htgt (HA L2 (or_introl eq_refl)) exr_perm) as (m & Em & Lm); try assumption; try (cbn; lia); auto.
  exists m. split; [exact Em|]. split; [|exact Lm]. eapply C62_training; [exact HS|cbn; lia|auto|exact Em].
Qed.
