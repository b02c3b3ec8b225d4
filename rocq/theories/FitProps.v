(** Property C56: a round of boosting with the objective L2 does not fit the training examples worse. *)
From Coq Require Import Reals Lra Permutation Sorting.Sorted.
From Flocq Require Import Core.
From Verif Require Import Base BaseProofs F32 Num DataModel DataSpec Config TreeModel TreeSpec DatasetModel DatasetSpec DatasetProofs3 DatasetProofs4 DatasetProofs5 DatasetProps
  RouteProps LearnerModel LearnerSpec TrainSpec LearnerProps TrainProps ObjectiveModel ObjectiveSpec ObjectiveProofs ObjectiveProps MetricModel MetricSpec MetricProps BoostModel BoostSpec BoostProofs BoostProps TotalSpec TotalProps FitSpec.
Local Close Scope R_scope.

(** Adding the scaled mean of the residuals. *)
Lemma mean_step (rs : list R) (lr : R) : (0 <= lr <= 2)%R -> rs <> [] ->
  (Rsum (map (fun r => (r - lr * (Rsum rs / INR (length rs))) ^ 2) rs) <= Rsum (map (fun r => r ^ 2) rs))%R.
Proof.
  intros Hlr Hne. set (n := INR (length rs)). set (m := (Rsum rs / n)%R).
  assert (0 < n)%R as Hn by (subst n; apply lt_0_INR; destruct rs; [congruence|cbn; lia]).
  assert (forall v l, Rsum (map (fun r => ((r - v) ^ 2)%R) l) = (Rsum (map (fun r => (r ^ 2)%R) l) - 2 * v * Rsum l + INR (length l) * v ^ 2)%R) as HE.
  { intros v. induction l as [|r l IH]; [cbn [map Rsum length INR]; ring|]. cbn [map Rsum]. rewrite IH. change (length (r :: l)) with (S (length l)). rewrite S_INR. ring. }
  rewrite HE. fold n. assert (Rsum rs = (n * m)%R) as -> by (subst m; field; lra). assert (0 <= n * m ^ 2 * (lr * (2 - lr)))%R; [|nra]. apply Rmult_le_pos; [apply Rmult_le_pos; [lra|apply pow2_ge_0]|nra].
Qed.

Lemma sq_error_app target ps l l' : sq_error target ps (l ++ l') = (sq_error target ps l + sq_error target ps l')%R.
Proof. unfold sq_error. rewrite map_app. apply Rsum_app. Qed.
Lemma sq_error_perm target ps l l' : Permutation l l' -> sq_error target ps l = sq_error target ps l'.
Proof. intros H. apply Rsum_perm, Permutation_map, H. Qed.
Lemma sq_error_ext target ps ps' l : (forall i, In i l -> nth i ps' 0%R = nth i ps 0%R) -> sq_error target ps' l = sq_error target ps l.
Proof. intros H. unfold sq_error. apply Rsum_ext. intros i Hi. unfold squared_error. rewrite (H i Hi). reflexivity. Qed.

(** One leaf. *)
Lemma leaf_step (target : list R) ex (ob ob' : objective Rops) v : ob_kind ob = L2 -> (0 <= ob_lr ob <= 2)%R -> NoDup ex -> ex <> [] -> in_range target (ob_preds ob) ex ->
  obj_leaf_value Rmath target ex ob = Ok (v, ob') -> (sq_error target (ob_preds ob') ex <= sq_error target (ob_preds ob) ex)%R.
Proof.
  intros Ek Hlr Hnd Hne Hr E. destruct (C40_apply _ _ _ _ _ _ _ Hnd E) as (raw & Eraw & -> & Hl & Hp).
  assert (raw = (Rsum (map (resid target (ob_preds ob)) ex) / INR (length ex))%R) as ->.
  { unfold raw_leaf_value in Eraw. rewrite Ek in Eraw. pose proof (sum_residual target (ob_preds ob) ex 0 Hr) as S. apply rbind_ok in Eraw as (sm & Es & Eraw).
    assert (sm = (0 + Rsum (map (resid target (ob_preds ob)) ex))%R) as -> by (symmetry; exact (Ok_inj _ _ (eq_trans (eq_sym S) Es))). apply Ok_inj in Eraw. subst raw. unfold nofnat. cbn [Rops ndiv nofZ]. rewrite Rplus_0_l, <- INR_IZR_INZ. reflexivity. }
  pose proof (mean_step (map (resid target (ob_preds ob)) ex) (ob_lr ob) Hlr) as HM. rewrite map_length in HM. set (m := (Rsum (map (resid target (ob_preds ob)) ex) / INR (length ex))%R) in *.
  rewrite !map_map in HM. assert (map (resid target (ob_preds ob)) ex <> []) as Hne' by (destruct ex; [congruence|discriminate]). specialize (HM Hne').
  eapply Rle_trans; [|eapply Rle_trans; [exact HM|]]; apply Req_le; unfold sq_error; apply Rsum_ext; intros i Hi; unfold squared_error.
  - unfold in_range in Hr. rewrite Forall_forall in Hr. destruct (Hr i Hi) as (_ & Hi'). destruct (Hp i _ (nth_error_nth' (ob_preds ob) 0%R Hi')) as (HA & _). specialize (HA Hi). apply nth_error_nth with (d := 0%R) in HA. change (num Rops) with R in *. rewrite HA. unfold resid. cbn [Rops nadd nmul]. f_equal. ring.
  - reflexivity.
Qed.

(** All the leaves of a tree. *)
Lemma leaves_step (target : list R) : forall (gs : list (group Rops)) (ob ob' : objective Rops), ob_kind ob = L2 -> (0 <= ob_lr ob <= 2)%R -> NoDup (concat (map g_examples gs)) ->
  (forall g, In g gs -> g_examples g <> []) -> in_range target (ob_preds ob) (concat (map g_examples gs)) -> leaf_calls (obj_leaf_value Rmath target) gs ob ob' ->
  (sq_error target (ob_preds ob') (concat (map g_examples gs)) <= sq_error target (ob_preds ob) (concat (map g_examples gs)))%R.
Proof.
  induction gs as [|g gs IH]; intros ob ob' Ek Hlr Hnd Hne Hr H; [cbn [map concat]; apply Rle_refl|].
  pose proof H as H0. cbn [leaf_calls] in H. destruct H as (ob1 & E1 & H). cbn [map concat] in *. pose proof Hnd as Hnd0. apply nodup_app in Hnd as (Hn1 & Hn2 & Hd). unfold in_range in Hr. apply Forall_app in Hr. destruct Hr as (Hr1 & Hr2).
  destruct (leaf_calls_preds Rops Rmath target [g] ob ob1) as (S1 & L1 & P1); [cbn [map concat]; rewrite app_nil_r; exact Hn1|cbn [leaf_calls]; exists ob1; auto|]. cbn [map concat] in P1. rewrite app_nil_r in P1.
  destruct S1 as (Sk & Slr & _). change (num Rops) with R in *.
  assert (forall i, ~ In i (g_examples g) -> i < length (ob_preds ob) -> nth i (ob_preds ob1) 0%R = nth i (ob_preds ob) 0%R) as Hsame1.
  { intros i Hi Hlt. destruct (P1 i _ (nth_error_nth' (ob_preds ob) 0%R Hlt)) as (_ & HB). apply nth_error_nth, HB, Hi. }
  destruct (leaf_calls_preds Rops Rmath target gs ob1 ob' Hn2 H) as (_ & L2 & P2).
  assert (forall i, ~ In i (concat (map g_examples gs)) -> i < length (ob_preds ob1) -> nth i (ob_preds ob') 0%R = nth i (ob_preds ob1) 0%R) as Hsame2.
  { intros i Hi Hlt. destruct (P2 i _ (nth_error_nth' (ob_preds ob1) 0%R Hlt)) as (_ & HB). apply nth_error_nth, HB, Hi. }
  rewrite !sq_error_app. apply Rplus_le_compat.
  - eapply Rle_trans; [|apply (leaf_step target (g_examples g) ob ob1 (g_value g) Ek Hlr Hn1); [apply Hne; left; reflexivity|exact Hr1|exact E1]]. apply Req_le, sq_error_ext. intros i Hi.
    apply Hsame2; [apply Hd, Hi|]. eapply Nat.lt_le_trans; [|apply Nat.eq_le_incl; symmetry; exact L1]. rewrite Forall_forall in Hr1. apply (Hr1 i Hi).
  - eapply Rle_trans; [apply IH; [exact (eq_trans Sk Ek)|rewrite Slr; exact Hlr|exact Hn2|intros g' Hg; apply Hne; right; exact Hg| |exact H]|].
    + unfold in_range. revert Hr2. apply Forall_impl. intros i (Hi1 & Hi2). split; [exact Hi1|]. eapply Nat.lt_le_trans; [exact Hi2|apply Nat.eq_le_incl; symmetry; exact L1].
    + apply Req_le, sq_error_ext. intros i Hi. apply Hsame1; [intros Hc; exact (Hd i Hc Hi)|]. rewrite Forall_forall in Hr2. apply (Hr2 i Hi).
Qed.

(** The objective keeps its kind and learning rate. *)
Lemma update_keeps (target : list R) (ob ob' : objective Rops) : ob_kind ob = L2 -> obj_update Rmath target ob = Ok ob' -> ob_kind ob' = L2 /\ ob_lr ob' = ob_lr ob /\ ob_preds ob' = ob_preds ob /\ length (ob_preds ob) = length target.
Proof.
  intros Ek E. destruct (C40_update _ _ _ _ _ E) as (L & P & K & _). split; [congruence|]. split; [|auto]. unfold obj_update in E. rewrite Ek in E.
  apply rbind_ok in E as (? & _ & E). apply rbind_ok in E as (? & _ & E).
  destruct (m_limits Rmath _). apply Ok_inj in E. subst ob'. reflexivity.
Qed.

Lemma boost_run_S O (M : mathops O) dbg cfg d sched kind metrics g k b' : boost_run M dbg cfg d sched kind metrics g (S k) = Ok b' ->
  exists b sizes, boost_run M dbg cfg d sched kind metrics g k = Ok b /\ hist_sizes d = Ok sizes /\ train_one_iter M dbg cfg d sched sizes metrics b = Ok b'.
Proof.
  unfold boost_run. intros E. apply rbind_ok in E as (b0 & E0 & E). apply rbind_ok in E as (sz & Esz & E). rewrite seq_S, foldM_app in E. apply rbind_ok in E as (b1 & E1 & E).
  cbn [foldM] in E. apply rbind_ok in E as (b2 & E2 & E). injection E as ->. exists b1, sz. rewrite E0. cbn [rbind]. rewrite Esz. cbn [rbind]. auto.
Qed.

Lemma run_rows_lt O dbg (cfg : config O) d s rows i : reachable dbg cfg d s -> (scaled_count (d_nexamples d) (c_example_fraction cfg) <= d_nexamples d) -> example_rows s = Ok rows -> In i rows -> i < d_nexamples d.
Proof.
  intros HR Hc E Hi. unfold example_rows in E. destruct (example_sampling_enabled s).
  - destruct (C27_active_examples _ _ _ _ _ _ HR E) as (_ & HF & _). rewrite Forall_forall in HF. apply HF, Hi.
  - injection E as <-. apply in_seq in Hi. unfold nactive_examples in Hi. rewrite (dv_nact _ _ _ _ (ds_inv _ _ _ _ (reachable_ok _ _ _ _ _ HR))) in Hi. unfold nact in Hi. lia.
Qed.

Section Fit.
Variable dbg : bool.
Variable cfg : config Rops.
Variable d : data Rops.
Variable sched : nat -> nat -> list job -> list job.
Variable metrics : list metric.
Variable g : rng.
Hypothesis HW : well_formed d.
Hypothesis HO : any_order sched.
Hypothesis Hn31 : (Z.of_nat (d_nexamples d) <= 2 ^ 31)%Z.
Hypothesis Hf1 : (c_example_fraction cfg <= 1)%R.
Hypothesis Hlr : (0 <= c_learning_rate cfg <= 2)%R.

Lemma run_facts k b : boost_run Rmath dbg cfg d sched L2 metrics g k = Ok b ->
  ob_kind (bs_objective b) = L2 /\ ob_lr (bs_objective b) = c_learning_rate cfg /\ length (ob_preds (bs_objective b)) = d_nexamples d /\ reachable dbg cfg d (bs_dataset b).
Proof.
  revert b. induction k as [|k IH]; intros b E.
  - unfold boost_run in E. apply rbind_ok in E as (b0 & E0 & E). apply rbind_ok in E as (sz & _ & E). cbn in E. apply Ok_inj in E. subst b0. unfold boost_start in E0.
    apply rbind_ok in E0 as (s & Es & E0). apply rbind_ok in E0 as (target & Et & E0). apply rbind_ok in E0 as (ob & Eo & E0). apply Ok_inj in E0. subst b. cbn [bs_objective bs_dataset].
    destruct (C40_initialize _ _ _ _ _ _ _ Eo) as (Hk & Hp & Hl & _). split; [exact Hk|]. split; [exact Hl|]. split.
    + rewrite Hp, repeat_length. eapply target_len; [apply well_formed_cols, HW|exact Et].
    + exists g, [], s. split; [exact Es|reflexivity].
  - apply boost_run_S in E as (b1 & sz & E1 & Esz & E). destruct (IH b1 E1) as (K1 & R1 & L1 & G1). unfold train_one_iter in E.
    apply rbind_ok in E as (target & Etg & E). apply rbind_ok in E as (ob & Eu & E). apply rbind_ok in E as (s & Es & E). apply rbind_ok in E as ((t & ob') & Et & E). apply Ok_inj in E. subst b. cbn [bs_objective bs_dataset].
    destruct (update_keeps _ _ _ K1 Eu) as (K2 & R2 & P2 & L2). 
    assert (reachable dbg cfg d s) as HR.
    { destruct G1 as (g0 & us & s0 & E0 & E2). exists g0, (us ++ [(ob_grads ob, obj_bounds ob)]), s0. split; [exact E0|]. unfold ds_run in *. rewrite foldM_app, E2. cbn [rbind foldM fst snd]. rewrite Es. reflexivity. }
    assert (setting dbg cfg d s sz (sched (S (bs_iter b1)))) as HS.
    { split; [exact HR|]. split; [exact Esz|]. split; [apply HO|]. unfold nactive_examples. rewrite (dv_nact _ _ _ _ (ds_inv _ _ _ _ (reachable_ok _ _ _ _ _ HR))). unfold nact. pose proof (scaled_R (d_nexamples d) (c_example_fraction cfg) Hf1 ltac:(lia)) as (Hle & _). lia. }
    destruct (C26_leaves _ _ _ _ _ _ _ _ _ _ _ _ _ _ _ _ HS Et) as (rows & gs & others & ob1 & Hrows & _ & _ & HP & Hnd & _ & HL & HB & Ho1 & Ho2).
    assert (NoDup (map fst others)) as Hnd2. { destruct (example_sampling_enabled s); [apply increasing_nodup, Ho2; reflexivity|rewrite (Ho1 eq_refl); constructor]. }
    destruct (leaf_calls_preds _ _ _ _ _ _ Hnd HL) as (S1 & La & _). destruct (oob_calls_preds _ _ _ _ Hnd2 HB) as (S2 & Lb & _). destruct S1 as (Sk1 & Sl1 & _), S2 as (Sk2 & Sl2 & _).
    split; [congruence|]. split; [congruence|]. split; [congruence|exact HR].
Qed.

(** One iteration, over the examples it is trained on. *)
Lemma round_running k b b' target rows : boost_run Rmath dbg cfg d sched L2 metrics g k = Ok b -> boost_run Rmath dbg cfg d sched L2 metrics g (S k) = Ok b' ->
  get_target d = Ok target -> example_rows (bs_dataset b') = Ok rows ->
  (sq_error target (ob_preds (bs_objective b')) rows <= sq_error target (ob_preds (bs_objective b)) rows)%R.
Proof.
  intros E E' Etgt Hrows. pose proof (run_facts _ _ E) as (K1 & R1 & L1 & G1). apply boost_run_S in E' as (b1 & sz & E1 & Esz & E'). assert (b1 = b) as -> by exact (Ok_inj _ _ (eq_trans (eq_sym E1) E)).
  unfold train_one_iter in E'. apply rbind_ok in E' as (tg & Etg & E'). assert (tg = target) as -> by exact (Ok_inj _ _ (eq_trans (eq_sym Etg) Etgt)).
  apply rbind_ok in E' as (ob & Eu & E'). apply rbind_ok in E' as (s & Es & E'). apply rbind_ok in E' as ((t & ob') & Et & E'). apply Ok_inj in E'. subst b'. cbn [bs_objective bs_dataset] in *.
  destruct (update_keeps _ _ _ K1 Eu) as (K2 & R2 & P2 & L2).
  assert (reachable dbg cfg d s) as HR.
  { destruct G1 as (g0 & us & s0 & E0 & E2). exists g0, (us ++ [(ob_grads ob, obj_bounds ob)]), s0. split; [exact E0|]. unfold ds_run in *. rewrite foldM_app, E2. cbn [rbind foldM fst snd]. rewrite Es. reflexivity. }
  assert (setting dbg cfg d s sz (sched (S (bs_iter b)))) as HS.
  { split; [exact HR|]. split; [exact Esz|]. split; [apply HO|]. unfold nactive_examples. rewrite (dv_nact _ _ _ _ (ds_inv _ _ _ _ (reachable_ok _ _ _ _ _ HR))). unfold nact. pose proof (scaled_R (d_nexamples d) (c_example_fraction cfg) Hf1 ltac:(lia)) as (Hle & _). lia. }
  destruct (C26_leaves _ _ _ _ _ _ _ _ _ _ _ _ _ _ _ _ HS Et) as (rows' & gs & others & ob1 & Hrows' & _ & _ & HP & Hnd & Hgs & HL & HB & Ho1 & Ho2).
  assert (rows' = rows) as -> by exact (Ok_inj _ _ (eq_trans (eq_sym Hrows') Hrows)).
  assert (NoDup (map fst others)) as Hnd2. { destruct (example_sampling_enabled s); [apply increasing_nodup, Ho2; reflexivity|rewrite (Ho1 eq_refl); constructor]. }
  destruct (leaf_calls_preds _ _ _ _ _ _ Hnd HL) as (_ & La & _). destruct (oob_calls_preds _ _ _ _ Hnd2 HB) as (_ & Lb & P3).
  assert (forall i, In i rows -> i < length (ob_preds ob)) as Hin.
  { intros i Hi. rewrite P2, L1. eapply run_rows_lt; [exact HR| |exact Hrows|exact Hi]. apply (scaled_R (d_nexamples d) (c_example_fraction cfg) Hf1 ltac:(lia)). }
  rewrite <- P2. rewrite <- (sq_error_perm target (ob_preds ob') _ _ HP), <- (sq_error_perm target (ob_preds ob) _ _ HP).
  eapply Rle_trans; [|apply (leaves_step target gs ob ob1 K2); [rewrite R2, R1; exact Hlr|exact Hnd|intros gr Hg; apply Hgs, Hg| |exact HL]].
  - apply Req_le, sq_error_ext. intros i Hi. pose proof (Permutation_in i HP Hi) as Hir. assert (i < length (ob_preds ob1)) as Hlt by (rewrite La; apply Hin, Hir).
    destruct (P3 i _ (nth_error_nth' (ob_preds ob1) 0%R Hlt)) as (_ & HNo). apply nth_error_nth, HNo. intros Hc. destruct (example_sampling_enabled s); [|rewrite (Ho1 eq_refl) in Hc; destruct Hc].
    apply Ho2 in Hc; [tauto|reflexivity].
  - apply Forall_forall. intros i Hi. pose proof (Permutation_in i HP Hi) as Hir. split; [rewrite <- L2, <- P2; apply Hin, Hir|apply Hin, Hir].
Qed.
End Fit.

(* ---- C56 ---- *)

(** Exact arithmetic, objective L2, learning rate between 0 and 2.  One more iteration: over the examples the new tree was trained on (all, or those sampled for it), the model with the new tree
    has at most the squared error of the model without it. *)
Theorem C56_round : forall dbg (cfg : config Rops) (d : data Rops) sched metrics g k b b' target ps ps' rows,
  well_formed d -> any_order sched -> 0 < c_sample_freq cfg -> (Z.of_nat (d_nexamples d) <= 2 ^ 31)%Z -> (1 <= c_min_examples_leaf cfg)%N -> (c_example_fraction cfg <= 1)%R ->
  (forall f col v, feat_type_of d f <> Ok Numerical -> get_feature d f = Ok col -> In v col -> category_R v) -> (forall f nb, max_nbins d f = Ok nb -> (Z.of_nat nb <= 2 ^ 32)%Z) ->
  (0 <= c_learning_rate cfg <= 2)%R ->
  boost_run Rmath dbg cfg d sched L2 metrics g k = Ok b -> boost_run Rmath dbg cfg d sched L2 metrics g (S k) = Ok b' -> get_target d = Ok target ->
  additive_predict (bs_ensemble b) d = Ok ps -> additive_predict (bs_ensemble b') d = Ok ps' -> example_rows (bs_dataset b') = Ok rows ->
  (sq_error target ps' rows <= sq_error target ps rows)%R.
Proof.
  intros dbg cfg d sched metrics g k b b' target ps ps' rows HW HO Hfr Hn Hmin Hf1 Hval Hnb Hlr E E' Et Ep Ep' Er.
  destruct (C25_running_predictions_exact _ _ _ _ _ _ _ _ _ HW HO Hfr Hn Hmin Hf1 Hval Hnb E) as (Q & _). destruct (C25_running_predictions_exact _ _ _ _ _ _ _ _ _ HW HO Hfr Hn Hmin Hf1 Hval Hnb E') as (Q' & _).
  assert (ps = ob_preds (bs_objective b)) as -> by exact (Ok_inj _ _ (eq_trans (eq_sym Ep) Q)). assert (ps' = ob_preds (bs_objective b')) as -> by exact (Ok_inj _ _ (eq_trans (eq_sym Ep') Q')).
  eapply (round_running dbg cfg d sched metrics g); eassumption.
Qed.
Print Assumptions C56_round.

Lemma all_rows dbg (cfg : config Rops) (d : data Rops) sched metrics g k b : well_formed d -> any_order sched -> (Z.of_nat (d_nexamples d) <= 2 ^ 31)%Z -> c_example_fraction cfg = 1%R ->
  boost_run Rmath dbg cfg d sched L2 metrics g k = Ok b -> example_rows (bs_dataset b) = Ok (seq 0 (d_nexamples d)).
Proof.
  intros HW HO Hn Hf E. assert (c_example_fraction cfg <= 1)%R as Hf1 by lra. destruct (run_facts dbg cfg d sched metrics g HW HO Hn Hf1 k b E) as (_ & _ & _ & HR). pose proof (reachable_ok _ _ _ _ _ HR) as HI.
  assert (nlt Rops (c_example_fraction cfg) (nofZ Rops 1) = false) as Hlt by (cbn; apply Rlt_bool_false; lra).
  pose proof (ds_buf _ _ _ _ HI) as HB. rewrite Hlt in HB. unfold example_rows, example_sampling_enabled. rewrite HB. cbn [length Nat.eqb negb]. do 2 f_equal. unfold nactive_examples. rewrite (dv_nact _ _ _ _ (ds_inv _ _ _ _ HI)).
  unfold nact. apply (scaled_R (d_nexamples d) (c_example_fraction cfg) Hf1 ltac:(lia)), Hlt.
Qed.

(** Without example sampling: over all examples, the model after [k] iterations has at most the squared error of the model after [j <= k] iterations, and at most that of any constant prediction. *)
Theorem C56_rounds : forall dbg (cfg : config Rops) (d : data Rops) sched metrics g j k b b' target ps ps',
  well_formed d -> any_order sched -> 0 < c_sample_freq cfg -> (Z.of_nat (d_nexamples d) <= 2 ^ 31)%Z -> (1 <= c_min_examples_leaf cfg)%N -> c_example_fraction cfg = 1%R ->
  (forall f col v, feat_type_of d f <> Ok Numerical -> get_feature d f = Ok col -> In v col -> category_R v) -> (forall f nb, max_nbins d f = Ok nb -> (Z.of_nat nb <= 2 ^ 32)%Z) ->
  (0 <= c_learning_rate cfg <= 2)%R -> j <= k ->
  boost_run Rmath dbg cfg d sched L2 metrics g j = Ok b -> boost_run Rmath dbg cfg d sched L2 metrics g k = Ok b' -> get_target d = Ok target ->
  additive_predict (bs_ensemble b) d = Ok ps -> additive_predict (bs_ensemble b') d = Ok ps' ->
  (sq_error target ps' (seq 0 (d_nexamples d)) <= sq_error target ps (seq 0 (d_nexamples d)))%R /\
  forall c : R, (sq_error target ps' (seq 0 (d_nexamples d)) <= sq_error target (repeat c (d_nexamples d)) (seq 0 (d_nexamples d)))%R.
Proof.
  intros dbg cfg d sched metrics g j k b b' target ps ps' HW HO Hfr Hn Hmin Hf1 Hval Hnb Hlr Hjk E E' Et Ep Ep'. assert (c_example_fraction cfg <= 1)%R as Hle by lra.
  assert (forall j k b b' ps ps', j <= k -> boost_run Rmath dbg cfg d sched L2 metrics g j = Ok b -> boost_run Rmath dbg cfg d sched L2 metrics g k = Ok b' ->
    additive_predict (bs_ensemble b) d = Ok ps -> additive_predict (bs_ensemble b') d = Ok ps' -> (sq_error target ps' (seq 0 (d_nexamples d)) <= sq_error target ps (seq 0 (d_nexamples d)))%R) as K.
  { clear j k b b' ps ps' Hjk E E' Ep Ep'. intros j k b b' ps ps' Hjk E E' Ep Ep'. revert b' ps' E' Ep'. induction Hjk as [|k Hjk IH]; intros b' ps' E' Ep'.
    - assert (b' = b) as -> by exact (Ok_inj _ _ (eq_trans (eq_sym E') E)). assert (ps' = ps) as -> by exact (Ok_inj _ _ (eq_trans (eq_sym Ep') Ep)). apply Rle_refl.
    - pose proof (boost_run_S _ _ _ _ _ _ _ _ _ _ _ E') as (b1 & sz & E1 & _). destruct (C25_running_predictions_exact _ _ _ _ _ _ _ _ _ HW HO Hfr Hn Hmin Hle Hval Hnb E1) as (Q & _).
      eapply Rle_trans; [eapply (C56_round dbg cfg d sched metrics g k b1 b'); try eassumption; eapply all_rows; eassumption|exact (IH b1 _ E1 Q)]. }
  split; [exact (K _ _ _ _ _ _ Hjk E E' Ep Ep')|]. intros c.
  assert (exists b0, boost_run Rmath dbg cfg d sched L2 metrics g 0 = Ok b0) as (b0 & E0).
  { unfold boost_run in E |- *. apply rbind_ok in E as (b0 & E0 & E). apply rbind_ok in E as (sz & Esz & E). exists b0. rewrite E0. cbn [rbind]. rewrite Esz. reflexivity. }
  destruct (C25_running_predictions_exact _ _ _ _ _ _ _ _ _ HW HO Hfr Hn Hmin Hle Hval Hnb E0) as (Q & _). eapply Rle_trans; [exact (K _ _ _ _ _ _ (Nat.le_0_l k) E0 E' Q Ep')|].
  unfold boost_run in E0. apply rbind_ok in E0 as (b1 & E0 & X). apply rbind_ok in X as (sz & _ & X). cbn [seq foldM] in X. apply Ok_inj in X. subst b1. unfold boost_start in E0.
  apply rbind_ok in E0 as (s & Es & E0). apply rbind_ok in E0 as (tg & Etg & E0). assert (tg = target) as -> by exact (Ok_inj _ _ (eq_trans (eq_sym Etg) Et)). apply rbind_ok in E0 as (ob & Eo & E0). apply Ok_inj in E0. subst b0. cbn [bs_objective] in *.
  pose proof (target_len _ d (well_formed_cols _ d HW) target Et) as Htl. destruct (C40_initialize _ _ _ _ _ _ _ Eo) as (_ & Hp & _). rewrite Hp, Htl.
  assert (target <> []) as Hne by (destruct HW as (Hpos & _); intros ->; cbn in Htl; lia).
  pose proof (C40_l2_bias dbg cfg target ob Hne Eo c) as HM. unfold constant_loss in HM.
  assert (forall v, sq_error target (repeat v (d_nexamples d)) (seq 0 (d_nexamples d)) = (2 * Rsum (map (fun t => loss L2 0 t v) target))%R) as HE.
  { intros v. rewrite <- Htl. unfold sq_error. clear. revert target. assert (forall target a pre, length pre = a -> Rsum (map (fun i => squared_error (nth i (pre ++ target) 0%R) (nth i (repeat v (a + length target)) 0%R)) (seq a (length target))) = (2 * Rsum (map (fun t => loss L2 0 t v) target))%R) as K.
    { induction target as [|x target IH]; intros a pre Ha; cbn [length seq map Rsum]; [ring|]. rewrite Rmult_plus_distr_l. f_equal.
      - rewrite app_nth2 by lia. rewrite Ha, Nat.sub_diag. cbn [nth]. rewrite (nth_indep _ 0%R v) by (rewrite repeat_length; lia). rewrite nth_repeat. unfold squared_error, loss. field.
      - specialize (IH (S a) (pre ++ [x])). rewrite <- app_assoc in IH. cbn [app] in IH. rewrite Nat.add_succ_comm in IH. rewrite Nat.add_succ_r, <- Nat.add_succ_l in IH |- *. apply IH. rewrite app_length. cbn. lia. }
    intros target. apply (K target 0 []). reflexivity. }
  rewrite !HE. apply Rmult_le_compat_l; [lra|]. exact HM.
Qed.
Print Assumptions C56_rounds.

(** Training with more iterations and otherwise the same settings does not give a model that fits the training data worse. *)
Theorem C56_iterations : forall dbg (cfg : config Rops) (d : data Rops) sched metrics g n n' m m' target ps ps',
  well_formed d -> any_order sched -> 0 < c_sample_freq cfg -> (Z.of_nat (d_nexamples d) <= 2 ^ 31)%Z -> (1 <= c_min_examples_leaf cfg)%N -> c_example_fraction cfg = 1%R ->
  (forall f col v, feat_type_of d f <> Ok Numerical -> get_feature d f = Ok col -> In v col -> category_R v) -> (forall f nb, max_nbins d f = Ok nb -> (Z.of_nat nb <= 2 ^ 32)%Z) ->
  (0 <= c_learning_rate cfg <= 2)%R -> n <= n' ->
  boost_train Rmath dbg (with_iterations cfg n) d sched L2 metrics g = Ok m -> boost_train Rmath dbg (with_iterations cfg n') d sched L2 metrics g = Ok m' -> get_target d = Ok target ->
  additive_predict m d = Ok ps -> additive_predict m' d = Ok ps' ->
  (sq_error target ps' (seq 0 (d_nexamples d)) <= sq_error target ps (seq 0 (d_nexamples d)))%R.
Proof.
  intros dbg cfg d sched metrics g n n' m m' target ps ps' HW HO Hfr Hn Hmin Hf1 Hval Hnb Hlr Hle E E' Et Ep Ep'. unfold boost_train in E, E'. apply rbind_ok in E as (b & E & Em). apply rbind_ok in E' as (b' & E' & Em'). apply Ok_inj in Em, Em'. subst m m'.
  change (boost_run Rmath dbg cfg d sched L2 metrics g n = Ok b) in E. change (boost_run Rmath dbg cfg d sched L2 metrics g n' = Ok b') in E'.
  exact (proj1 (C56_rounds dbg cfg d sched metrics g n n' b b' target ps ps' HW HO Hfr Hn Hmin Hf1 Hval Hnb Hlr Hle E E' Et Ep Ep')).
Qed.
Print Assumptions C56_iterations.

(** The hypotheses of the three theorems: six examples with a categorical and a numerical feature, two iterations. *)
Example C56_ex : well_formed exr_data /\ any_order bst_sched /\ 0 < c_sample_freq exr_cfg /\ (Z.of_nat (d_nexamples exr_data) <= 2 ^ 31)%Z /\ (1 <= c_min_examples_leaf exr_cfg)%N /\ c_example_fraction exr_cfg = 1%R /\
  (forall f col v, feat_type_of exr_data f <> Ok Numerical -> get_feature exr_data f = Ok col -> In v col -> category_R v) /\ (forall f nb, max_nbins exr_data f = Ok nb -> (Z.of_nat nb <= 2 ^ 32)%Z) /\
  (0 <= c_learning_rate exr_cfg <= 2)%R /\
  exists b b' target ps ps' rows, boost_run Rmath true exr_cfg exr_data bst_sched L2 [] ex_rng 1 = Ok b /\ boost_run Rmath true exr_cfg exr_data bst_sched L2 [] ex_rng 2 = Ok b' /\ get_target exr_data = Ok target /\
    additive_predict (bs_ensemble b) exr_data = Ok ps /\ additive_predict (bs_ensemble b') exr_data = Ok ps' /\ example_rows (bs_dataset b') = Ok rows /\ length rows = 6 /\
    boost_train Rmath true (with_iterations exr_cfg 1) exr_data bst_sched L2 [] ex_rng = Ok (bs_ensemble b) /\ boost_train Rmath true (with_iterations exr_cfg 2) exr_data bst_sched L2 [] ex_rng = Ok (bs_ensemble b').
Proof.
  destruct C49_training_ex as (HT & Htgt & HA & HN & HU0 & HU1 & Hb & Hd & Hm).
  assert (well_formed exr_data) as HW by apply HT.
  assert (forall f col v, feat_type_of exr_data f <> Ok Numerical -> get_feature exr_data f = Ok col -> In v col -> category_R v) as Hval.
  { intros [|[|[|f]]] col v Hf E Hin; try (destruct Hf; reflexivity).
    - unfold get_feature, exr_data in E; cbn [d_features idx nth_error] in E. apply Ok_inj in E. subst col. cbn [In] in Hin. repeat destruct Hin as [<-|Hin]; try destruct Hin; eexists; (split; [|reflexivity]); lia.
    - unfold get_feature, exr_data in E; cbn [d_features idx nth_error] in E. destruct f; discriminate. }
  assert (forall f nb, max_nbins exr_data f = Ok nb -> (Z.of_nat nb <= 2 ^ 32)%Z) as Hnb.
  { intros [|[|[|f]]] nb E; unfold max_nbins, exr_data in E; cbn in E; [injection E as <-; lia..|]. destruct f; discriminate. }
  assert (c_example_fraction exr_cfg = 1%R) as Hf by reflexivity. assert (c_example_fraction exr_cfg <= 1)%R as Hf' by (rewrite Hf; apply Rle_refl).
  split; [exact HW|]. split; [exact exr_perm|]. split; [cbn; lia|]. split; [cbn; lia|]. split; [exact Hm|]. split; [exact Hf|]. split; [exact Hval|]. split; [exact Hnb|]. split; [cbn; lra|].
  destruct C25_exact_ex as (b' & E' & _ & Q'). pose proof (boost_run_S _ _ _ _ _ _ _ _ _ _ _ E') as (b & sz & E & _).
  assert (additive_predict (bs_ensemble b) exr_data = Ok (ob_preds (bs_objective b))) as Q.
  { eapply (C25_running_predictions_exact true exr_cfg exr_data bst_sched L2 [] ex_rng 1 b HW exr_perm); try assumption; cbn; lia. }
  exists b, b', [1; 0; 1; 0; 1; 1]%R, (ob_preds (bs_objective b)), (ob_preds (bs_objective b')), (seq 0 6).
  split; [exact E|]. split; [exact E'|]. split; [exact Htgt|]. split; [exact Q|]. split; [exact Q'|]. split.
  { eapply (all_rows true exr_cfg exr_data bst_sched [] ex_rng 2 b' HW exr_perm); [cbn; lia|exact Hf|exact E']. }
  split; [reflexivity|]. split; unfold boost_train.
  - change (rbind (boost_run Rmath true exr_cfg exr_data bst_sched L2 [] ex_rng 1) (fun b => Ok (bs_ensemble b)) = Ok (bs_ensemble b)). rewrite E. reflexivity.
  - change (rbind (boost_run Rmath true exr_cfg exr_data bst_sched L2 [] ex_rng 2) (fun b => Ok (bs_ensemble b)) = Ok (bs_ensemble b')). rewrite E'. reflexivity.
Qed.
