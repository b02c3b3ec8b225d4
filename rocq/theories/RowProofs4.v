(** Boosting with the rows in another order. *)
From Coq Require Import Permutation.
From Verif Require Import Base BaseProofs BitModel Num DataModel BinnerModel Config TreeModel DatasetModel DatasetSpec DatasetProofs3 DatasetProofs4 DatasetProofs5
  LearnerModel LearnerSpec LearnerProofs3 ObjectiveModel MetricModel BoostModel BoostSpec RowSpec RowProofs RowProofs2 RowProofs3.

Section Boost.
Variable O : numops.
Variable M : mathops O.
Variables dbg dbg' : bool.
Variable cfg : config O.
Variables d d' : data O.
Variable order : list nat.
Hypothesis Hre : reordered order d d'.
Variables sched sched' : nat -> nat -> list job -> list job.
Hypothesis Hsched : any_order sched.
Hypothesis Hsched' : any_order sched'.
Variables target target' : list (num O).
Notation n := (d_nexamples d).
Notation row := (row order).
Notation rows_of := (rows_of O d order).
Hypothesis Htarget : get_target d = Ok target.
Hypothesis Htarget' : get_target d' = Ok target'.
Hypothesis Hlen : length target = n.
Variable kind : obj_kind.
Hypothesis Hsum : kind = L1 \/ ((forall x a b, nadd O (nadd O x a) b = nadd O (nadd O x b) a) /\ (forall x a b, nsub O (nadd O x a) b = nadd O (nsub O x b) a) /\ (forall x a b, nsub O (nsub O x a) b = nsub O (nsub O x b) a)).
Notation allfin preds := (forall x : num O, In x preds -> nisfin O x = true).
Hypothesis Hlim : forall l, Permutation target l -> m_limits M l = m_limits M target.
Hypothesis Hlim2 : forall preds l, length preds = n -> allfin preds -> Permutation (residuals target preds) l -> m_limits M l = m_limits M (residuals target preds).
Hypothesis Hbias : forall ob, obj_initialize M dbg cfg target (objective_new O kind) = Ok ob -> nisfin O (ob_bias ob) = true.
Variables Gw Gg : num O -> Prop.
Hypothesis Hw : forall x a b, Gw a -> Gw b -> nadd O (nadd O x a) b = nadd O (nadd O x b) a.
Hypothesis Hg : forall x a b, Gg a -> Gg b -> nadd O (nadd O x a) b = nadd O (nadd O x b) a.
Hypothesis Hgrads : forall ob ob1, ob_kind ob = kind -> allfin (ob_preds ob) -> obj_update M target ob = Ok ob1 ->
  (forall g, In g (ob_grads ob1) -> Gw (nadd O (nabs O g) (EPSILON O))) /\ ((forall f, feat_type_of d f <> Ok HiCardCat) \/ forall g, In g (ob_grads ob1) -> Gg g).
Hypothesis Hfrac : nlt O (c_example_fraction cfg) (nofZ O 1) = false.
Hypothesis Hcount : scaled_count n (c_example_fraction cfg) = n.
Hypothesis Hsmall : (N.of_nat n <= 2 ^ 31)%N.
Hypothesis Hmin : (1 <= c_min_examples_leaf cfg)%N.
Hypothesis Hfreq : 0 < c_sample_freq cfg.
Variable metrics : list metric.
Notation orel := (orel O d order kind).
Notation drel := (drel O d d').

Lemma target_rows : rows_of target target'.
Proof.
  unfold get_target in *. rewrite (re_nf O d d' order Hre) in Htarget'. destruct (re_feature O d d' order Hre _ _ _ Htarget Htarget') as [H1 H2]. split; [exact Hlen|]. split; assumption.
Qed.
Record brel (b b' : booster O) : Prop := {
  br_ds : drel (bs_dataset b) (bs_dataset b');
  br_ob : orel (bs_objective b) (bs_objective b');
  br_iter : bs_iter b' = bs_iter b;
  br_ens : bs_ensemble b' = bs_ensemble b;
  br_evals : (forall m ps ps', In m metrics -> rows_of ps ps' -> metric_eval M m target' ps' = metric_eval M m target ps) -> bs_evals b' = bs_evals b;
  br_reach : reachable dbg cfg d (bs_dataset b);
  br_reach' : reachable dbg' cfg d' (bs_dataset b')
}.
Lemma sizes_rel sizes : hist_sizes d = Ok sizes -> hist_sizes d' = Ok sizes.
Proof.
  unfold hist_sizes. rewrite (re_nf O d d' order Hre). intros H. rewrite <- H. apply mapM_ext_in. intros f _. apply (re_max_nbins O d d' order Hre).
Qed.
Lemma reach_step dbg0 d0 s grad bounds s1 : reachable dbg0 cfg d0 s -> dataset_update dbg0 cfg s grad bounds = Ok s1 -> reachable dbg0 cfg d0 s1.
Proof.
  intros (g & us & s0 & E0 & E1) E. exists g, (us ++ [(grad, bounds)]), s0. split; [exact E0|]. unfold ds_run in *. rewrite foldM_app, E1. cbn [rbind foldM fst snd]. rewrite E. reflexivity.
Qed.
Lemma iter_rel sizes b b' b1 b1' : hist_sizes d = Ok sizes -> brel b b' -> train_one_iter M dbg cfg d sched sizes metrics b = Ok b1 -> train_one_iter M dbg' cfg d' sched' sizes metrics b' = Ok b1' -> brel b1 b1'.
Proof.
  intros Hsizes [B1 B2 B3 B4 B5 B6 B7] E E'. unfold train_one_iter in *. rewrite Htarget in E. rewrite Htarget' in E'. cbn [rbind] in *.
  apply rbind_ok in E as (ob & Eo & E). apply rbind_ok in E' as (ob' & Eo' & E'). pose proof target_rows as HT.
  pose proof (obj_update_rel O M d d' order Hre target target' HT kind Hlim2 _ _ _ _ B2 Eo Eo') as HO.
  destruct (Hgrads _ _ (or_kind _ _ _ _ _ _ B2) (or_fin _ _ _ _ _ _ B2) Eo) as [HGw HGg].
  apply rbind_ok in E as (s & Es & E). apply rbind_ok in E' as (s' & Es' & E'). rewrite (orel_bounds _ _ _ _ _ _ HO) in *.
  assert (drel s s') as HD.
  { eapply (update_rel O dbg dbg' cfg d d' order Hre Gw Gg Hw Hg); [|exact B1|exact Es|exact Es']. constructor; [apply (or_grads _ _ _ _ _ _ HO)|exact HGw|exact HGg]. }
  pose proof (reach_step _ _ _ _ _ _ B6 Es) as HR. pose proof (reach_step _ _ _ _ _ _ B7 Es') as HR'.
  assert (0 < ds_update_count s) as Hcnt by (destruct (dataset_update_ok _ _ _ _ _ _ _ _ (reachable_ok _ _ _ _ _ B6) Es) as [_ ->]; lia).
  pose proof (dv_nact _ _ _ _ (ds_inv _ _ _ _ (reachable_ok _ _ _ _ _ HR))) as Hna. unfold nact in Hna. rewrite Hcount in Hna.
  apply rbind_ok in E as ((t & ob1) & Et & E). apply rbind_ok in E' as ((t' & ob1') & Et' & E').
  pose proof HD as [[D1 D2 D3 D4 D5 D6 D7 D8 D9 D10] DB DB' DC].
  assert (nactive_examples s = n) as Hn by exact Hna.
  assert (forall k, nactive_examples s = k -> k = n) as Hn2 by (intros k <-; exact Hn).
  destruct (rows_train O dbg dbg' dbg dbg' cfg d d' s s' sizes (obj_bounds ob) (sched (S (bs_iter b))) (sched' (S (bs_iter b'))) (ob_grads ob) (ob_grads ob') (objective O) (objective O) (obj_leaf_value M target) (obj_leaf_value M target')
    update_out_of_bag update_out_of_bag orel row) with (st := ob) (st' := ob') (t := t) (st1 := ob1) as (ob1'' & Et2 & HO1); try assumption.
  - apply sizes_rel, Hsizes.
  - apply Hsched.
  - apply Hsched'.
  - rewrite Hn. exact Hsmall.
  - unfold example_sampling_enabled. rewrite DB. reflexivity.
  - unfold example_sampling_enabled. rewrite DB'. reflexivity.
  - unfold active_features, in_active_features. rewrite D4, D5. reflexivity.
  - intros f. unfold get_nbins. rewrite D9. reflexivity.
  - intros f c. apply (crit_rel O d d' order Hre _ _ _ _ HD).
  - rewrite Hn. intros f c fm fm' Hc Em Em' k Hk. eapply (mask_rel O cfg d d' order Hre); try eassumption. lia.
  - rewrite Hn. apply (row_perm O d d' order Hre).
  - rewrite Hn. apply (or_grads _ _ _ _ _ _ HO).
  - rewrite Hn. intros ex ex' st st' v st1 Hst Hex _ _ Hlt Ev. eapply (leaf_rel O M d d' order Hre target target' HT kind Hsum Hlim Hlim2); eassumption.
  - rewrite Et' in Et2. injection Et2 as -> ->. injection E as <-. injection E' as <-. constructor; cbn [bs_dataset bs_objective bs_iter bs_ensemble bs_evals]; try assumption.
    + rewrite B3. reflexivity.
    + rewrite B4. reflexivity.
    + intros Hm. rewrite B3, (B5 Hm). destruct (run_metrics cfg metrics (S (bs_iter b))); [|reflexivity]. f_equal. f_equal. apply map_ext_in. intros m Hin. apply Hm; [exact Hin|apply (or_preds _ _ _ _ _ _ HO1)].
Qed.
Lemma run_rel g k b b' : boost_run M dbg cfg d sched kind metrics g k = Ok b -> boost_run M dbg' cfg d' sched' kind metrics g k = Ok b' -> brel b b'.
Proof.
  intros E E'. unfold boost_run in *. apply rbind_ok in E as (b0 & E0 & E). apply rbind_ok in E' as (b0' & E0' & E'). apply rbind_ok in E as (sizes & Es & E). rewrite (sizes_rel sizes Es) in E'. cbn [rbind] in E'.
  refine (foldM_rel _ _ _ brel _ _ (seq 0 k) _ b0 b0' b b' _ E E').
  - intros s s' x t t' _ HB E1 E1'. eapply iter_rel; eassumption.
  - unfold boost_start in *. apply rbind_ok in E0 as (s & Ed & E0). apply rbind_ok in E0' as (s' & Ed' & E0'). rewrite Htarget in E0. rewrite Htarget' in E0'. cbn [rbind] in *. apply rbind_ok in E0 as (ob & Eo & E0). apply rbind_ok in E0' as (ob' & Eo' & E0'). injection E0 as <-. injection E0' as <-.
    pose proof (init_rel O M dbg dbg' cfg d d' order Hre target target' target_rows kind Hsum Hlim ob ob' Eo Eo' (Hbias ob Eo)) as HO.
    constructor; cbn [bs_dataset bs_objective bs_iter bs_ensemble bs_evals]; try reflexivity; [eapply new_rel; eassumption|exact HO|rewrite (or_bias _ _ _ _ _ _ HO); reflexivity|exists g, [], s; split; [exact Ed|reflexivity]|exists g, [], s'; split; [exact Ed'|reflexivity]].
Qed.
End Boost.
