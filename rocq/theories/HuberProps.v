(** Property C66 for the objectives Huber and Hinge. *)
From Coq Require Import Reals Lra Permutation.
From Flocq Require Import Core.
From Verif Require Import Base BaseProofs BitModel BitSpec F32 Num DataModel DataSpec Config TreeModel TreeSpec DatasetModel DatasetSpec DatasetProofs3 DatasetProofs4 DatasetProofs5 DatasetProps
  RouteProps LearnerModel LearnerSpec GainSpec TrainSpec LearnerProofs3 LearnerProps TrainProps BinnerModel BinnerSpec BinnerProofs ObjectiveModel ObjectiveSpec ObjectiveProofs ObjectiveProps MetricModel MetricSpec MetricProps BoostModel BoostSpec BoostProofs BoostProps TotalSpec TotalProps
  GreedySpec GreedyProofs GreedyProps FitSpec FitProps PrefixProps MedianProps BoostingSpec BoostingProofs BoostingProps.
Local Close Scope R_scope.

(** [x] is the [alpha]-quantile of the residuals: the one at index floor(n alpha) when they are sorted. *)
Definition residual_quantile (target ps : list R) (alpha x : R) : Prop :=
  exists sorted rank, sorted_version Rle_bool (map (error_of target ps) (seq 0 (length target))) sorted /\ Zfloor (INR (length target) * alpha) = Z.of_nat rank /\ rank < length target /\ x = nth rank sorted 0%R.
(** The value limited to [-delta, delta]. *)
Definition clamp (delta x : R) : R := Rmax (- delta) (Rmin delta x).

Lemma residuals_seq (target ps : list R) : length ps = length target -> @residuals Rops target ps = map (error_of target ps) (seq 0 (length target)).
Proof.
  unfold residuals. revert ps. induction target as [|x l IH]; intros [|p ps] H; try discriminate; [reflexivity|]. cbn [combine map length seq]. f_equal. rewrite <- seq_shift, map_map.
  etransitivity; [apply IH; injection H; auto|]. apply map_ext. reflexivity.
Qed.
Lemma floor_rank n (a : R) : 0 < n -> (0 < a < 1)%R -> exists r, Zfloor (INR n * a) = Z.of_nat r /\ r < n.
Proof.
  intros Hn Ha. assert (0 < INR n)%R by (apply lt_0_INR; exact Hn). assert (0 <= Zfloor (INR n * a))%Z as H0 by (apply Zfloor_lub; cbn; nra).
  exists (Z.to_nat (Zfloor (INR n * a))). split; [lia|]. assert (IZR (Zfloor (INR n * a)) < IZR (Z.of_nat n))%R as H1 by (eapply Rle_lt_trans; [apply Zfloor_lb|]; rewrite <- INR_IZR_INZ; nra). apply lt_IZR in H1. lia.
Qed.
(** The value of a leaf: the median of the residuals there, plus the mean of the residuals from it, each limited to [-delta, delta]. *)
Lemma huber_raw (targets : list R) examples (ob : objective Rops) (v : R) : ob_kind ob = Huber -> (0 <= ob_delta ob)%R -> in_range targets (ob_preds ob) examples -> raw_leaf_value Rmath targets examples ob = Ok v ->
  exists m, median (ob_bounds ob) (map (resid targets (ob_preds ob)) examples) = Ok m /\ v = (m + mean_over (fun j => clamp (ob_delta ob) (error_of targets (ob_preds ob) j - m)) examples)%R.
Proof.
  intros Ek Hd Hr E. unfold raw_leaf_value in E. rewrite Ek in E.
  pose proof (mapM_residual targets (ob_preds ob) examples Hr) as Em. set (rs := map (resid targets (ob_preds ob)) examples) in *.
  apply rbind_ok in E as (rs' & E1 & E). assert (rs' = rs) as -> by exact (Ok_inj _ _ (eq_trans (eq_sym E1) Em)). clear E1 Em.
  apply rbind_ok in E as (m & E1 & E). exists m. split; [exact E1|]. set (d := ob_delta ob : R) in *.
  assert (m + fold_left (fun s e => s + R_signum (e - m) * Rmin d (Rabs (e - m))) rs 0 / IZR (Z.of_nat (length examples)) = v)%R as <- by exact (Ok_inj _ _ E).
  rewrite <- INR_IZR_INZ. pose proof (fold_Rsum (fun e => (R_signum (e - m) * Rmin d (Rabs (e - m)))%R) rs 0%R) as X. cbn beta in X. rewrite X, Rplus_0_l. unfold mean_over. f_equal. f_equal.
  unfold rs. rewrite map_map. change GainSpec.Rsum with MetricSpec.Rsum. apply Rsum_ext. intros j _. change (resid targets (ob_preds ob) j) with (error_of targets (ob_preds ob) j). change (clamp d) with (psi d). set (r := error_of targets (ob_preds ob) j).
  unfold R_signum. clear - Hd. destruct (psi_cases d (r - m)%R Hd) as [(A & ->)|[(A & ->)|(A & ->)]].
  - destruct (Rlt_bool_spec (r - m) 0); [rewrite Rabs_left in * by lra|rewrite Rabs_pos_eq in * by lra]; rewrite Rmin_right by lra; lra.
  - rewrite Rlt_bool_false, Rabs_pos_eq, Rmin_left by lra. lra.
  - rewrite Rlt_bool_true, Rabs_left, Rmin_left by lra. lra.
Qed.
(** The median of the residuals of a leaf is within r/1024 of a best constant for the absolute loss. *)
Lemma median_leaf (targets preds : list R) examples (lo hi m : R) : examples <> [] -> (N.of_nat (length examples) < 2 ^ 32)%N -> (lo < hi)%R -> Forall (fun i => lo <= resid targets preds i <= hi)%R examples ->
  in_range targets preds examples -> @median Rops (lo, hi) (map (resid targets preds) examples) = Ok m -> exists m0, minimises (total_loss L1 0 targets preds examples) m0 /\ (Rabs (m - m0) <= (hi - lo) / 1024)%R.
Proof.
  intros Hne Hc Hlt Hf Hr E. set (ob := @mk_obj Rops L1 0%R 0%R preds [] (lo, hi) 0%R 0%R 0%R).
  destruct (C40_l1_leaf targets examples ob lo hi eq_refl Hr Hne Hc eq_refl Hlt Hf) as (v & m0 & Ev & Hm & Hv & _). exists m0. split; [exact Hm|].
  assert (v = m) as <-; [|exact Hv]. unfold raw_leaf_value in Ev. cbn [ob_kind ob] in Ev. apply rbind_ok in Ev as (rs & E1 & Ev). pose proof (mapM_residual targets preds examples Hr) as Em.
  assert (rs = map (resid targets preds) examples) as -> by exact (Ok_inj _ _ (eq_trans (eq_sym E1) Em)). exact (Ok_inj _ _ (eq_trans (eq_sym Ev) E)).
Qed.

(** Huber: with delta the magnitude of (a value within r/1024 of) the [huber_alpha]-quantile of the residuals, r being their range, each tree is grown for the residuals limited to [-delta, delta]
    (minus the derivative of the loss, C40_huber_gradient), discretised between -delta and delta; each of its leaves adds the learning rate times m plus the mean of the residuals from m, each limited
    to [-delta, delta], for an m within r/1024 of a median of the residuals there. *)
Theorem C66_huber : forall dbg cfg d sched metrics g k b (target : list R), boostable cfg d sched -> boost_run Rmath dbg cfg d sched Huber metrics g k = Ok b -> get_target d = Ok target ->
  length (at_trees (bs_ensemble b)) = k /\
  forall i t, nth_error (at_trees (bs_ensemble b)) i = Some t -> exists (ps : list R) (r q delta : R) s,
    additive_predict (mk_add (at_bias (bs_ensemble b)) (firstn i (at_trees (bs_ensemble b)))) d = Ok ps /\ residual_range target ps r /\ (0 < r)%R /\ reachable dbg cfg d s /\
    residual_quantile target ps (c_huber_alpha cfg) q /\ (exists q', (Rabs (q' - q) <= r / 1024)%R /\ delta = Rabs q') /\
    ((0 < delta)%R -> boosting_tree cfg s t (- delta) delta (fun j => clamp delta (error_of target ps j))
      (fun examples v => exists m m0, minimises (total_loss L1 0 target ps examples) m0 /\ (Rabs (m - m0) <= r / 1024)%R /\ v = (m + mean_over (fun j => clamp delta (error_of target ps j - m)) examples)%R)).
Proof.
  intros dbg cfg d sched metrics g k b target HB E Et. destruct (start_bias _ _ _ _ _ _ _ _ _ E) as (tg0 & ob00 & Etg0 & Ei & _ & HLk). split; [exact HLk|].
  assert (0 < c_huber_alpha cfg < 1)%R as Ha.
  { unfold obj_initialize in Ei. cbn [ob_kind objective_new] in Ei. apply rbind_ok in Ei as (? & _ & Ei). apply rbind_ok in Ei as (? & X & _). destruct (nlt Rops (zero Rops) (c_huber_alpha cfg) && nlt Rops (c_huber_alpha cfg) (one Rops)) eqn:Q; [|discriminate].
    apply andb_prop in Q as (Q1 & Q2). cbn in Q1, Q2. destruct (Rlt_bool_spec 0 (c_huber_alpha cfg)); [|discriminate]. destruct (Rlt_bool_spec (c_huber_alpha cfg) 1); [|discriminate]. split; assumption. }
  clear Ei Etg0 ob00 tg0.
  intros i t Ht. destruct (trees_round _ _ _ _ _ _ _ _ _ _ _ HB E Ht) as (ob0 & ps & tg & ob & s & K & Kb & Eps & Ep & Lp & Etg & Lt & Eu & HR & Hrows & HT).
  assert (tg = target) as -> by exact (Ok_inj _ _ (eq_trans (eq_sym Etg) Et)). change (num Rops) with R in *.
  assert (target <> []) as Hne. { destruct HB as ((Hpos & _) & _). intros ->. cbn in Lt. lia. }
  assert (0 < length target) as Hpos by (destruct target; [congruence|cbn; lia]).
  assert (Z.of_nat (d_nexamples d) <= 2 ^ 31)%Z as Hn by apply HB.
  assert (length ps = length target) as HL by congruence. destruct (residual_limits target ps HL Hne) as (a & c & Ha' & Hc & Hac & El).
  destruct (update_settings _ _ _ _ _ Eu) as (R2 & _ & K2 & P2).
  assert (exists q', quantile Rops NBINS (c_huber_alpha cfg) (error_of target ps a, error_of target ps c) (@residuals Rops target ps) = Ok q' /\ ob_delta ob = Rabs q' /\ ob_bounds ob = (error_of target ps a, error_of target ps c)) as (q' & Eq & Hdl & Hbs).
  { unfold obj_update in Eu. rewrite K in Eu. apply rbind_ok in Eu as (? & _ & Eu). apply rbind_ok in Eu as (? & _ & Eu). rewrite Eps in Eu. rewrite (El : m_limits Rmath (@residuals Rops target ps) = _) in Eu. rewrite (proj2 Kb eq_refl) in Eu.
    apply rbind_ok in Eu as (q' & Eq & Eu). exists q'. split; [exact Eq|]. apply Ok_inj in Eu. subst ob. split; reflexivity. }
  assert (error_of target ps a < error_of target ps c)%R as Hlt.
  { destruct (Rlt_le_dec (error_of target ps a) (error_of target ps c)) as [H|H]; [exact H|exfalso].
    assert (error_of target ps c = error_of target ps a) as Heq by (pose proof (Hac a Ha'); lra). rewrite Heq in Eq. exact (quantile_stuck _ _ _ _ _ Eq). }
  destruct (floor_rank _ _ Hpos Ha) as (rank & Hrank & Hrk).
  destruct (sorted_exists (@residuals Rops target ps)) as (srt & Hsrt).
  assert (length (@residuals Rops target ps) = length target) as Hlr by (rewrite residuals_seq by exact HL; rewrite map_length, seq_length; reflexivity).
  destruct (quantile_R NBINS (c_huber_alpha cfg) (error_of target ps a) (error_of target ps c) (@residuals Rops target ps) srt rank) as (q'' & Eq' & Hq).
  { unfold NBINS. lia. } { unfold NBINS. lia. } { exact Hlt. }
  { apply Forall_forall. intros x Hx. apply (residuals_error target ps x HL) in Hx as (j & Hj & ->). apply Hac, Hj. }
  { exact Hsrt. } { change (num Rops) with R in *. rewrite Hlr. lia. } { change (num Rops) with R in *. rewrite Hlr. exact Hrank. } { change (num Rops) with R in *. rewrite Hlr. exact Hrk. }
  assert (q'' = q') as -> by exact (Ok_inj _ _ (eq_trans (eq_sym Eq') Eq)).
  replace (INR NBINS) with 1024%R in Hq by (rewrite INR_IZR_INZ; reflexivity).
  exists ps, (error_of target ps c - error_of target ps a)%R, (nth rank srt 0%R), (ob_delta ob), s. split; [exact Ep|]. split; [exists a, c; auto|]. split; [lra|]. split; [exact HR|].
  split; [exists srt, rank; rewrite <- residuals_seq by exact HL; auto|]. split; [exists q'; auto|]. intros Hdp. change (num Rops) with R in *.
  assert (obj_bounds ob = (- ob_delta ob, ob_delta ob)%R) as Hbd by (unfold obj_bounds; rewrite K2, K; reflexivity).
  specialize (HT _ _ Hbd ltac:(lra)). revert HT. apply boosting_tree_mono. intros rows Er. destruct (Hrows rows Er) as (Hrows' & HND). clear Hrows. rename Hrows' into Hrows. split; [|split; [exact HND|]].
  - intros j Hj. apply Hrows in Hj. rewrite <- Lt in Hj. pose proof (grads_nth target ob0 ob j Eu Hj) as X. rewrite K, Eps in X. etransitivity; [exact X|]. etransitivity; [apply huber_gradient_R; lra|]. reflexivity.
  - intros ex v Hex Hnd Hin Ev.
    assert (in_range target (ob_preds ob) ex) as Hr. { apply Forall_forall. intros j Hj. rewrite P2, Eps. change (num Rops) with R in *. rewrite Lt, Lp. split; apply Hrows, Hin, Hj. }
    assert (length ex <= d_nexamples d) as Hlen.
    { rewrite <- (seq_length (d_nexamples d) 0). apply NoDup_incl_length; [exact Hnd|]. intros j Hj. apply in_seq. pose proof (Hrows j (Hin j Hj)). lia. }
    destruct (huber_raw target ex ob v (eq_trans K2 K) ltac:(change (num Rops) with R in *; lra) Hr Ev) as (m & Em & Hv). rewrite Hbs in Em. rewrite P2, Eps in *.
    destruct (median_leaf target ps ex (error_of target ps a) (error_of target ps c) m Hex ltac:(lia) Hlt) as (m0 & Hm0 & Hmm); [|exact Hr|exact Em|].
    { apply Forall_forall. intros j Hj. apply Hac. rewrite Lt. apply Hrows, Hin, Hj. }
    exists m, m0. auto.
Qed.
Print Assumptions C66_huber.

(** Hinge (targets 0 and 1, two bits per gradient): training starts from the mean of the labels (-1 and 1).  Each tree is grown for the derivative of the hinge loss, between -1 and 2; each of its leaves adds the learning rate times
    the mean over the examples there of label * max(0, 2 - label * prediction)^2. *)
Lemma hinge_sum (target ps : list R) : forall ex v0 v, Forall class_target target ->
  foldM (fun v i => let* t := idx target i in let* p := idx ps i in if Rlt_bool t (1 / 2) then Ok (v - Rmax (2 + p) 0 * Rmax (2 + p) 0)%R else Ok (v + Rmax (2 - p) 0 * Rmax (2 - p) 0)%R) ex v0 = Ok v ->
  v = (v0 + GainSpec.Rsum (map (fun j => label (nth j target 0) * (Rmax 0 (2 - label (nth j target 0) * nth j ps 0)) ^ 2) ex))%R.
Proof.
  induction ex as [|j ex IH]; intros v0 v HC E; cbn [foldM map GainSpec.Rsum] in *; [apply Ok_inj in E; subst v; change (v0 = v0 + 0)%R; ring|].
  apply rbind_ok in E as (v1 & E1 & E). apply IH in E; [|exact HC]. apply rbind_ok in E1 as (t & Et & E1). apply rbind_ok in E1 as (p & Ep & E1). apply idx_ok in Et. apply idx_ok in Ep.
  rewrite (nth_error_nth _ _ 0%R Et), (nth_error_nth _ _ 0%R Ep). subst v. change (GainSpec.Rsum (?x :: ?l)) with (x + GainSpec.Rsum l)%R. set (S := GainSpec.Rsum (map _ ex)). unfold label.
  rewrite Forall_forall in HC. assert (class_target t) as [Ht|Ht] by (apply HC; eapply nth_error_In; exact Et); subst t.
  - rewrite Rlt_bool_true in E1 by lra. apply Ok_inj in E1. subst v1. rewrite (Rmax_comm 0). replace (2 - (2 * 0 - 1) * p)%R with (2 + p)%R by ring. ring.
  - rewrite Rlt_bool_false in E1 by lra. apply Ok_inj in E1. subst v1. rewrite (Rmax_comm 0). replace (2 - (2 * 1 - 1) * p)%R with (2 - p)%R by ring. ring.
Qed.
Lemma label_sum (target : list R) : Forall class_target target -> GainSpec.Rsum (map label target) = (IZR (Z.of_nat (length target)) - 2 * IZR (Z.of_nat (@count_neg Rops target)))%R.
Proof.
  induction 1 as [|t l Ht _ IH]; [cbn; ring|]. cbn [map length]. change (GainSpec.Rsum (label t :: map label l)) with (label t + GainSpec.Rsum (map label l))%R. rewrite IH. unfold count_neg. cbn [filter]. unfold label.
  destruct Ht as [-> | ->].
  - change (nlt Rops 0%R (half Rops)) with (Rlt_bool 0 (1 / 2)). rewrite Rlt_bool_true by lra. cbn [length]. rewrite !Nat2Z.inj_succ, !succ_IZR. ring.
  - change (nlt Rops 1%R (half Rops)) with (Rlt_bool 1 (1 / 2)). rewrite Rlt_bool_false by lra. rewrite !Nat2Z.inj_succ, !succ_IZR. ring.
Qed.
Theorem C66_hinge : forall dbg cfg d sched metrics g k b (target : list R), boostable cfg d sched -> Forall class_target target -> boost_run Rmath dbg cfg d sched Hinge metrics g k = Ok b -> get_target d = Ok target ->
  at_bias (bs_ensemble b) = mean_over (fun j => label (nth j target 0%R)) (seq 0 (length target)) /\ c_discr_nbits cfg = 2 /\ length (at_trees (bs_ensemble b)) = k /\
  forall i t, nth_error (at_trees (bs_ensemble b)) i = Some t -> exists (ps : list R) s,
    additive_predict (mk_add (at_bias (bs_ensemble b)) (firstn i (at_trees (bs_ensemble b)))) d = Ok ps /\ reachable dbg cfg d s /\
    boosting_tree cfg s t (-1) 2 (fun j => if Rlt_dec (label (nth j target 0%R) * nth j ps 0%R) 1 then (- label (nth j target 0%R))%R else 0%R)
      (fun examples v => v = mean_over (fun j => label (nth j target 0) * (Rmax 0 (2 - label (nth j target 0) * nth j ps 0)) ^ 2)%R examples).
Proof.
  intros dbg cfg d sched metrics g k b target HB HC E Et. destruct (start_bias _ _ _ _ _ _ _ _ _ E) as (tg0 & ob00 & Etg0 & Ei & Hbias & HLk). assert (tg0 = target) as -> by exact (Ok_inj _ _ (eq_trans (eq_sym Etg0) Et)).
  split; [|split; [|split; [exact HLk|]]].
  - rewrite Hbias. unfold obj_initialize in Ei. cbn [ob_kind objective_new] in Ei. apply rbind_ok in Ei as (? & _ & Ei). apply rbind_ok in Ei as (? & _ & Ei). apply Ok_inj in Ei. subst ob00. cbn [initialize_base ob_bias].
    change ((IZR (Z.of_nat (@count_neg Rops target)) * -1 + (IZR (Z.of_nat (length target)) - IZR (Z.of_nat (@count_neg Rops target)))) / IZR (Z.of_nat (length target)) = mean_over (fun j => label (nth j target 0)) (seq 0 (length target)))%R.
    unfold mean_over. rewrite seq_length, INR_IZR_INZ. f_equal. rewrite <- (map_map (fun j => nth j target 0%R) label).
    assert (map (fun j => nth j target 0%R) (seq 0 (length target)) = target) as -> by (clear; induction target as [|x l IH]; [reflexivity|]; cbn [length seq map nth]; f_equal; rewrite <- seq_shift, map_map; exact IH).
    rewrite (label_sum _ HC). ring.
  - unfold obj_initialize in Ei. cbn [ob_kind objective_new] in Ei. apply rbind_ok in Ei as (? & _ & Ei). apply rbind_ok in Ei as (? & X & _). destruct (c_discr_nbits cfg =? 2) eqn:Q; [apply Nat.eqb_eq, Q|discriminate].
  - intros i t Ht. destruct (trees_round _ _ _ _ _ _ _ _ _ _ _ HB E Ht) as (ob0 & ps & tg & ob & s & K & _ & Eps & Ep & Lp & Etg & Lt & Eu & HR & Hrows & HT).
    assert (tg = target) as -> by exact (Ok_inj _ _ (eq_trans (eq_sym Etg) Et)). change (num Rops) with R in *.
    destruct (update_settings _ _ _ _ _ Eu) as (R2 & B2 & K2 & P2).
    assert (obj_bounds ob = (-1, 2)%R) as Hbd by (unfold obj_bounds; rewrite K2, K; reflexivity).
    specialize (HT _ _ Hbd ltac:(lra)). exists ps, s. split; [exact Ep|]. split; [exact HR|].
    revert HT. apply boosting_tree_mono. intros rows Er. destruct (Hrows rows Er) as (Hrows' & HND). clear Hrows. rename Hrows' into Hrows. split; [|split; [exact HND|]].
    + intros j Hj. apply Hrows in Hj. rewrite <- Lt in Hj. pose proof (grads_nth target ob0 ob j Eu Hj) as X. rewrite K, Eps in X. etransitivity; [exact X|].
      assert (class_target (nth j target 0%R)) as Hcl by (rewrite Forall_forall in HC; apply HC, nth_In, Hj). set (tj := nth j target 0%R) in *. set (pj := nth j ps 0%R).
      change ((if Rlt_bool tj (1 / 2) then (if Rlt_bool (-1) pj then 1 else 0) else (if Rlt_bool pj 1 then -1 else 0)) = if Rlt_dec (label tj * pj) 1 then - label tj else 0)%R. unfold label.
      destruct Hcl as [-> | ->]; [rewrite Rlt_bool_true by lra; destruct (Rlt_bool_spec (-1) pj) as [H|H]|rewrite Rlt_bool_false by lra; destruct (Rlt_bool_spec pj 1) as [H|H]]; destruct (Rlt_dec _ 1); lra.
    + intros ex v Hex Hnd Hin Ev. unfold raw_leaf_value in Ev. rewrite K2, K in Ev. apply rbind_ok in Ev as (sm & Es & Ev). apply Ok_inj in Ev. subst v. rewrite P2, Eps in Es.
      pose proof (hinge_sum target ps ex 0%R sm HC Es) as X. change (sm / IZR (Z.of_nat (length ex)) = mean_over (fun j => label (nth j target 0) * (Rmax 0 (2 - label (nth j target 0) * nth j ps 0)) ^ 2) ex)%R.
      unfold mean_over. rewrite <- INR_IZR_INZ, X. f_equal. ring.
Qed.
Print Assumptions C66_hinge.

(** The prediction training starts from: the best constant for L2 and (targets 0 and 1, both present) Binary; within 1/1024 of the range of the targets of a best constant for the absolute loss with L1 and Huber. *)
Theorem C66_start : forall dbg cfg d sched kind metrics g k b (target : list R), target <> [] -> (Z.of_nat (length target) <= 2 ^ 31)%Z -> boost_run Rmath dbg cfg d sched kind metrics g k = Ok b -> get_target d = Ok target ->
  match kind with
  | L2 => minimises (constant_loss L2 target) (at_bias (bs_ensemble b))
  | L1 | Huber => exists m lo hi, minimises (constant_loss L1 target) m /\ In lo target /\ In hi target /\ (forall t, In t target -> lo <= t <= hi)%R /\ (Rabs (at_bias (bs_ensemble b) - m) <= (hi - lo) / 1024)%R
  | Binary => Forall class_target target -> In 0%R target -> In 1%R target -> minimises (constant_loss Binary target) (at_bias (bs_ensemble b))
  | Hinge => True
  end.
Proof.
  intros dbg cfg d sched kind metrics g k b target Hne Hn E Et. destruct (start_bias _ _ _ _ _ _ _ _ _ E) as (tg0 & ob & Etg0 & Ei & Hbias & HLk). assert (tg0 = target) as -> by exact (Ok_inj _ _ (eq_trans (eq_sym Etg0) Et)).
  rewrite Hbias. clear E Et Etg0 Hbias HLk.
  assert (kind = L1 \/ kind = Huber -> exists m lo hi, minimises (constant_loss L1 target) m /\ In lo target /\ In hi target /\ (forall t, In t target -> lo <= t <= hi)%R /\ (Rabs (ob_bias ob - m) <= (hi - lo) / 1024)%R) as HM.
  { intros Hk. destruct (C40_l1_bias dbg cfg target kind ob Hk ltac:(change (num Rops) with R in *; lia) Hne Ei) as (m & Hm & Hb). destruct (limits_attained target Hne) as (A1 & A2).
    exists m, (fst (R_limits target)), (snd (R_limits target)). split; [exact Hm|]. split; [exact A1|]. split; [exact A2|]. split; [apply R_limits_range|exact Hb]. }
  destruct kind; [exact (C40_l2_bias dbg cfg target ob Hne Ei)|auto|auto| |exact I].
  intros HC H0 H1. exact (C40_binary_bias dbg cfg target ob HC H0 H1 Ei).
Qed.
Print Assumptions C66_start.

(** The hypotheses: a run with one tree for Huber and one with two trees for Hinge.  At the start (predictions all 1) the residuals range over 1 and the 0.5-quantile is 0. *)
Example C66_ex2 : boostable exr_cfg exr_data bst_sched /\ boostable exr_cfg1 exr_data bst_sched /\ get_target exr_data = Ok [1; 0; 1; 0; 1; 1]%R /\ Forall class_target [1; 0; 1; 0; 1; 1]%R /\ In 0%R [1; 0; 1; 0; 1; 1]%R /\ In 1%R [1; 0; 1; 0; 1; 1]%R /\
  (exists b, boost_run Rmath true exr_cfg1 exr_data bst_sched Huber [] ex_rng 1 = Ok b /\ length (at_trees (bs_ensemble b)) = 1) /\
  (exists b, boost_run Rmath true exr_cfg exr_data bst_sched Hinge [] ex_rng 2 = Ok b /\ length (at_trees (bs_ensemble b)) = 2) /\
  residual_range [1; 0; 1; 0; 1; 1]%R (repeat 1%R 6) 1 /\ residual_quantile [1; 0; 1; 0; 1; 1]%R (repeat 1%R 6) (1 / 2) 0 /\ residual_quantile [1; 0; 1; 0; 1; 1]%R (repeat 1%R 6) (1 / 4) (-1) /\ clamp 1 3 = 1%R.
Proof.
  destruct C49_training_ex as (HT & Htgt & HA & HN & HU0 & HU1 & Hb & Hd & Hm). destruct C66_ex as (B1 & B2 & _ & HC & _ & _ & _ & _ & _ & HRg). split; [exact B1|]. split; [exact B2|]. split; [exact Htgt|]. split; [exact HC|].
  split; [cbn; auto|]. split; [cbn; auto|]. split; [destruct C49_median_ex as (_ & _ & _ & X); exact (X Huber (or_intror eq_refl))|]. split.
  { destruct (C49_training true exr_cfg exr_data bst_sched Hinge [] ex_rng _ HT Htgt (HA Hinge (or_intror (or_intror eq_refl))) exr_perm) as (m & Em & Lm); try assumption.
    - cbn. lia.
    - cbn. auto.
    - intros _. left. exact HN.
    - unfold boost_train in Em. apply rbind_ok in Em as (b & Eb & Em). injection Em as <-. exists b. split; [exact Eb|exact Lm]. }
  split; [exact HRg|].
  assert (sorted_version Rle_bool (map (error_of [1; 0; 1; 0; 1; 1]%R (repeat 1%R 6)) (seq 0 6)) [-1; -1; 0; 0; 0; 0]%R) as HS.
  { unfold error_of. cbn. split; [|repeat constructor; apply Rle_bool_true; lra].
    replace (1 - 1)%R with 0%R by ring. replace (0 - 1)%R with (-1)%R by ring. etransitivity; [apply perm_swap|]. apply perm_skip. etransitivity; [apply perm_skip, perm_swap|]. apply perm_swap. }
  split; [|split].
  - exists [-1; -1; 0; 0; 0; 0]%R, 3. split; [exact HS|]. split; [|split; [cbn; lia|reflexivity]]. apply Zfloor_imp. cbn. lra.
  - exists [-1; -1; 0; 0; 0; 0]%R, 1. split; [exact HS|]. split; [|split; [cbn; lia|reflexivity]]. apply Zfloor_imp. cbn. lra.
  - unfold clamp. rewrite Rmin_left, Rmax_right by lra. reflexivity.
Qed.
