(** Training on tables that agree on the informative columns: whole runs, for two objectives that give the same gradients and leaf values. *)
From Coq Require Import Permutation.
From Verif Require Import Base BaseProofs BitModel Num DataModel BinnerModel Config TreeModel DatasetModel DatasetSpec DatasetProofs DatasetProofs3 DatasetProofs4 DatasetProofs5
  LearnerModel LearnerSpec LearnerProofs3 LearnerProofs4 ObjectiveModel MetricModel BoostModel BoostSpec AlikeSpec AlikeProofs AlikeProofs2.

Section Alike3.
Variable O : numops.
Variables d d' : data O.
Hypothesis Hal : alike d d'.
Notation swp := (swap O d').
Notation gd := (good O d).

(* ---- creating the data set ---- *)
Lemma useful_step_swap n st f : f < d_nfeatures d -> useful_step d' n st f = useful_step d n st f.
Proof.
  intros Hf. destruct Hal as (_ & _ & _ & HL & _ & _ & H). destruct (H f Hf) as (HB & HU & HS). unfold useful_step. destruct st as ((us & bv) & nl). rewrite HB.
  destruct (max_nbins d f) as [nb| | |] eqn:EB; cbn [rbind]; try reflexivity. destruct (nb =? 0) eqn:E0; [reflexivity|]. apply Nat.eqb_neq in E0.
  destruct (feat_limits d f) as [[lo hi]| | |] eqn:E1.
  - destruct (neq O lo hi) eqn:EN.
    + cbn [rbind fst snd]. rewrite EN. unfold feat_limits, idx in *. assert (f < length (d_limits d)) as L by (apply nth_error_Some; destruct (nth_error (d_limits d) f); discriminate).
      destruct (nth_error (d_limits d') f) as [[lo' hi']|] eqn:E1'; [|apply nth_error_None in E1'; lia]. cbn [rbind fst snd]. destruct (neq O lo' hi') eqn:EN'; [reflexivity|].
      exfalso. assert (useful_feature d' f) as U. { split; [rewrite (al_nf O d d' Hal); exact Hf|]. split; [exists nb; split; [congruence|lia]|]. exists lo', hi'. split; [unfold feat_limits, idx; rewrite E1'; reflexivity|exact EN']. }
      apply HU in U as (_ & _ & lo2 & hi2 & E2 & EN2). unfold feat_limits, idx in E2. destruct (nth_error (d_limits d) f); [|discriminate]. injection E1 as ->. injection E2 as <- <-. congruence.
    + assert (useful_feature d f) as U. { split; [exact Hf|]. split; [exists nb; split; [exact EB|lia]|]. exists lo, hi. split; assumption. }
      destruct (HS U) as (_ & E2 & E3 & _). rewrite E2, E3. rewrite E1. reflexivity.
  - unfold feat_limits, idx in *. destruct (nth_error (d_limits d) f) eqn:E; [discriminate|]. apply nth_error_None in E. destruct (nth_error (d_limits d') f) eqn:E'; [exfalso; assert (f < length (d_limits d')) by (apply nth_error_Some; congruence); lia|]. reflexivity.
  - unfold feat_limits, idx in E1. destruct (nth_error (d_limits d) f); discriminate.
  - unfold feat_limits, idx in E1. destruct (nth_error (d_limits d) f); discriminate.
Qed.
Lemma useful_step_good n l : forall u bv nl u' bv' nl', (forall f, In f l -> f < d_nfeatures d) -> (forall f, In f u -> useful_feature d f) ->
  foldM (useful_step d n) l (u, bv, nl) = Ok (u', bv', nl') -> forall f, In f u' -> useful_feature d f.
Proof.
  induction l as [|x l IH]; intros u bv nl u' bv' nl' HL HU E f Hf; cbn [foldM] in E; [injection E as <- _ _; auto|]. apply rbind_ok in E as (((u1 & bv1) & nl1) & E1 & E).
  refine (IH u1 bv1 nl1 u' bv' nl' _ _ E f Hf); [intros; apply HL; right; assumption|]. clear E IH Hf f. unfold useful_step in E1. apply rbind_ok in E1 as (nb & EB & E1). destruct (nb =? 0) eqn:E0; [injection E1 as <- _ _; exact HU|].
  apply rbind_ok in E1 as ((lo & hi) & EL & E1). cbn [fst snd] in E1. destruct (neq O lo hi) eqn:EN; [injection E1 as <- _ _; exact HU|]. do 3 (apply rbind_ok in E1 as (? & _ & E1)). injection E1 as <- _ _.
  intros f Hf. apply in_app_iff in Hf as [Hf|[<-|[]]]; [auto|]. split; [apply HL; left; reflexivity|]. apply Nat.eqb_neq in E0. split; [exists nb; split; [exact EB|lia]|]. exists lo, hi. auto.
Qed.
Lemma swap_new cfg g s : dataset_new cfg d g = Ok s -> dataset_new cfg d' g = Ok (swp s) /\ gd (ds_inner s).
Proof.
  intros E. unfold dataset_new, inner_new in *. rewrite (al_nf O d d' Hal), (al_n O d d' Hal). apply rbind_ok in E as (s0 & E0 & E). apply rbind_ok in E0 as (((u & bv) & nl) & Eu & E0).
  assert (foldM (useful_step d' (scaled_count (d_nexamples d) (c_example_fraction cfg))) (seq 0 (d_nfeatures d)) ([], repeat [] (d_nfeatures d), false) = Ok (u, bv, nl)) as ->.
  { rewrite <- Eu. apply foldM_ext_in. intros st f Hf. apply in_seq in Hf. apply useful_step_swap. lia. }
  cbn [rbind]. injection E0 as <-.
  assert (forall f, In f u -> useful_feature d f) as HU. { refine (useful_step_good _ _ _ _ _ _ _ _ _ _ Eu); [intros f Hf; apply in_seq in Hf; lia|intros f []]. }
  destruct (nlt O (c_example_fraction cfg) (nofZ O 1)).
  - injection E as <-. split; [reflexivity|]. split; [reflexivity|exact HU].
  - apply rbind_ok in E as (s1 & E1 & E). injection E as <-. cbn [in_useful] in *.
    set (i0 := mk_inner g d u (scaled_count (length u) (c_feature_fraction cfg)) (scaled_count (d_nexamples d) (c_example_fraction cfg)) bv [] (repeat [] (d_nfeatures d)) (repeat 0 (d_nfeatures d)) nl) in *.
    assert (gd i0) as G0 by (split; [reflexivity|exact HU]).
    change (mk_inner g d' u (scaled_count (length u) (c_feature_fraction cfg)) (scaled_count (d_nexamples d) (c_example_fraction cfg)) bv [] (repeat [] (d_nfeatures d)) (repeat 0 (d_nfeatures d)) nl) with (swap_inner O d' i0).
    revert E1 G0. generalize i0. revert HU. generalize u. clear - Hal. intros l. induction l as [|f l IH]; intros HU i E G; cbn [foldM] in *; [injection E as <-; split; [reflexivity|exact G]|].
    apply rbind_ok in E as (i1 & E1 & E). assert (useful_feature d f) as Hf by (apply HU; left; reflexivity). destruct (al_same O d d' Hal f Hf) as (_ & _ & ET & _). rewrite ET.
    apply rbind_ok in E1 as (ft & Eft & E1). rewrite Eft. cbn [rbind].
    assert ((if is_locard ft then update_locard_cat (swap_inner O d' i) f (seq 0 (d_nexamples d)) else Ok (swap_inner O d' i)) = Ok (swap_inner O d' i1) /\ gd i1) as [-> G1].
    { destruct (is_locard ft); [|injection E1 as <-; auto]. rewrite (swap_locard O d d' Hal i f _ (proj1 G) Hf), E1. split; [reflexivity|]. unfold update_locard_cat in E1. repeat (apply rbind_ok in E1 as (? & _ & E1)). injection E1 as <-. exact G. }
    cbn [rbind]. apply IH; [intros; apply HU; right; assumption|exact E|exact G1].
Qed.
Lemma features_good dbg cfg locard ex grad bounds l : forall i i1, gd i -> foldM (update_feature dbg cfg locard ex grad bounds) l i = Ok i1 -> gd i1.
Proof.
  induction l as [|x l IH]; intros i i1 G E; cbn [foldM] in E; [injection E as <-; exact G|]. apply rbind_ok in E as (i2 & E2 & E). eapply IH; [|exact E]. apply keeps_useful in E2 as [A B]. unfold good, useful. rewrite A, B. exact G.
Qed.
Lemma update_good dbg cfg s grad bounds s1 : gd (ds_inner s) -> dataset_update dbg cfg s grad bounds = Ok s1 -> gd (ds_inner s1).
Proof.
  intros G E. unfold dataset_update in E. assert (gd (initialize_supercats (ds_inner s))) as G0 by exact G. revert G0 E. generalize (initialize_supercats (ds_inner s)). intros i0 G0 E.
  destruct (skip_update _ _); [injection E as <-; exact G0|]. apply rbind_ok in E as (i1 & E1 & E).
  assert (gd i1) as G1.
  { unfold sample_features in E1. destruct (in_feature_sampling_enabled i0); [|injection E1 as <-; exact G0]. apply rbind_ok in E1 as ((u & g) & Es & E1). injection E1 as <-. destruct G0 as [A B]. split; [exact A|]. cbn [in_useful]. intros f Hf. apply B. apply shuffle_perm in Es. eapply Permutation_in; [apply Permutation_sym; exact Es|exact Hf]. }
  destruct (example_sampling_enabled _).
  - apply rbind_ok in E as (s2 & E2 & E). apply (sample_good O d) in E2; [|exact G1]. apply rbind_ok in E as (ex & _ & E). apply rbind_ok in E as (i3 & E3 & E). injection E as <-. eapply features_good; [exact E2|exact E3].
  - destruct (in_has_non_locard i1); [|injection E as <-; exact G1]. apply rbind_ok in E as (i3 & E3 & E). injection E as <-. eapply features_good; [exact G1|exact E3].
Qed.
Lemma swap_sizes : hist_sizes d' = hist_sizes d.
Proof.
  unfold hist_sizes. rewrite (al_nf O d d' Hal).
  assert (forall l, (forall f, In f l -> f < d_nfeatures d) -> mapM (max_nbins d') l = mapM (max_nbins d) l) as H.
  { induction l as [|f l IH]; intros HL; [reflexivity|]. cbn [mapM]. rewrite (al_nb O d d' Hal) by (apply HL; left; reflexivity). rewrite IH by (intros; apply HL; right; assumption). reflexivity. }
  apply H. intros f Hf. apply in_seq in Hf. lia.
Qed.

(* ---- runs ---- *)
Variable M : mathops O.
Variable dbg : bool.
Variable cfg : config O.
Variable sched : nat -> nat -> list job -> list job.
Variables target target' : list (num O).
Hypothesis Ht : get_target d = Ok target.
Hypothesis Ht' : get_target d' = Ok target'.
Variable R : objective O -> objective O -> Prop.
Hypothesis Hgrads : forall ob ob', R ob ob' -> ob_grads ob' = ob_grads ob /\ obj_bounds ob' = obj_bounds ob.
Hypothesis Hupd : forall ob ob' ob1, R ob ob' -> obj_update M target ob = Ok ob1 -> exists ob1', obj_update M target' ob' = Ok ob1' /\ R ob1 ob1'.
Hypothesis Hlv : forall ex st st' v st1, R st st' -> obj_leaf_value M target ex st = Ok (v, st1) -> exists st1', obj_leaf_value M target' ex st' = Ok (v, st1') /\ R st1 st1'.
Hypothesis Hoob : forall i v st st' st1, R st st' -> update_out_of_bag i v st = Ok st1 -> exists st1', update_out_of_bag i v st' = Ok st1' /\ R st1 st1'.
Variable metrics : list metric.
Hypothesis Hmet : forall m ob ob', In m metrics -> R ob ob' -> metric_eval M m target' (ob_preds ob') = metric_eval M m target (ob_preds ob).

Definition alike_state (b b' : booster O) : Prop :=
  gd (ds_inner (bs_dataset b)) /\ bs_dataset b' = swp (bs_dataset b) /\ R (bs_objective b) (bs_objective b') /\ bs_iter b' = bs_iter b /\ at_trees (bs_ensemble b') = at_trees (bs_ensemble b) /\ (forall t, In t (at_trees (bs_ensemble b)) -> informed O d t) /\ bs_evals b' = bs_evals b.
Lemma swap_iter sizes b b' b1 : alike_state b b' -> train_one_iter M dbg cfg d sched sizes metrics b = Ok b1 ->
  exists b1', train_one_iter M dbg cfg d' sched sizes metrics b' = Ok b1' /\ alike_state b1 b1' /\ at_bias (bs_ensemble b1') = at_bias (bs_ensemble b') /\ at_bias (bs_ensemble b1) = at_bias (bs_ensemble b).
Proof.
  intros (G & A1 & A2 & A3 & A4 & A5 & A6) E. unfold train_one_iter in *. rewrite Ht in E. rewrite Ht'. cbn [rbind] in *. apply rbind_ok in E as (ob & Eo & E). destruct (Hupd _ _ _ A2 Eo) as (ob' & -> & HR). cbn [rbind].
  destruct (Hgrads _ _ HR) as [EG EB]. rewrite EG, EB, A1, A3. apply rbind_ok in E as (s & Es & E). assert (G1 := update_good _ _ _ _ _ _ G Es). rewrite (swap_update O d d' Hal) by apply G. rewrite Es. cbn [rbind rmap].
  apply rbind_ok in E as ((t & ob1) & E1 & E).
  destruct (swap_train O d d' Hal dbg cfg s G1 sizes (obj_bounds ob) (sched (S (bs_iter b))) _ _ _ (obj_leaf_value M target') _ update_out_of_bag R Hlv Hoob (ob_grads ob) ob ob' t ob1 HR E1) as (ob1' & E1' & HR1 & HI). unfold rmap. rewrite E1'. cbn [rbind]. injection E as <-.
  eexists. split; [reflexivity|]. cbn [bs_ensemble push_tree at_bias]. split; [|auto]. unfold alike_state. cbn [bs_dataset bs_objective bs_iter bs_ensemble bs_evals push_tree at_trees]. split; [exact G1|]. split; [reflexivity|]. split; [exact HR1|]. split; [reflexivity|]. split; [rewrite A4; reflexivity|]. split.
  - intros t0 Ht0. apply in_app_iff in Ht0 as [Ht0|[<-|[]]]; auto.
  - rewrite A6. destruct (run_metrics cfg metrics (S (bs_iter b))); [|reflexivity]. do 2 f_equal. apply map_ext_in. intros m Hm. apply Hmet; assumption.
Qed.
Variable kind : obj_kind.
Variable g : rng.
Variables ob0 ob0' : objective O.
Hypothesis Hinit : obj_initialize M dbg cfg target (objective_new O kind) = Ok ob0.
Hypothesis Hinit' : obj_initialize M dbg cfg target' (objective_new O kind) = Ok ob0'.
Hypothesis HR0 : R ob0 ob0'.
Lemma swap_run k b : boost_run M dbg cfg d sched kind metrics g k = Ok b ->
  exists b', boost_run M dbg cfg d' sched kind metrics g k = Ok b' /\ alike_state b b' /\ at_bias (bs_ensemble b') = ob_bias ob0' /\ at_bias (bs_ensemble b) = ob_bias ob0.
Proof.
  intros E. unfold boost_run, boost_start in *. rewrite Ht in E. rewrite Ht', swap_sizes. cbn [rbind] in *. rewrite Hinit in E. rewrite Hinit'. cbn [rbind] in *. apply rbind_ok in E as (b0 & E0 & E). apply rbind_ok in E0 as (s & Es & E0). injection E0 as <-.
  apply swap_new in Es as [-> G]. cbn [rbind]. apply rbind_ok in E as (sz & -> & E). cbn [rbind].
  set (c0 := mk_booster s ob0 0 (additive_set_bias (additive_new O) (ob_bias ob0)) []) in *. set (c0' := mk_booster (swp s) ob0' 0 (additive_set_bias (additive_new O) (ob_bias ob0')) []).
  assert (alike_state c0 c0') as A by (unfold alike_state; cbn; split; [exact G|]; repeat (split; [first [reflexivity|exact HR0]|]); split; [intros t []|reflexivity]).
  assert (at_bias (bs_ensemble c0') = ob_bias ob0') as B1 by reflexivity. assert (at_bias (bs_ensemble c0) = ob_bias ob0) as B2 by reflexivity.
  clearbody c0 c0'. revert c0 c0' A B1 B2 E. generalize (seq 0 k). clear G s. intros l. induction l as [|x l IH]; intros c c' A B1 B2 E; cbn [foldM] in *; [injection E as <-; eauto|].
  apply rbind_ok in E as (c1 & E1 & E). destruct (swap_iter _ _ _ _ A E1) as (c1' & -> & A1 & C1 & C2). cbn [rbind]. eapply IH; [exact A1|congruence|congruence|exact E].
Qed.
End Alike3.
