(** Property C77: the predictions of a model trained with the squared loss stay within a bound that the targets, the learning rate and the number of iterations give, for every table (exact arithmetic). *)
From Coq Require Import Reals Lra Permutation.
From Verif Require Import Base BaseProofs BitModel BitSpec F32 Num DataModel DataSpec Config TreeModel TreeSpec DatasetModel DatasetSpec DatasetProofs3 DatasetProofs4 DatasetProofs5 DatasetProps
  RouteProps LearnerModel LearnerSpec GainSpec TrainSpec LearnerProofs3 LearnerProps TrainProps ObjectiveModel ObjectiveSpec ObjectiveProofs ObjectiveProps MetricModel MetricSpec MetricProps BoostModel BoostSpec BoostProofs BoostProps TotalSpec TotalProps
  PredProofs GreedySpec GreedyProofs GreedyProps FitSpec FitProps PrefixProps MedianProps AbsFitProps BoostingSpec BoostingProofs BoostingProps BinnerModel BinnerProofs HuberProps BoundProofs.
Local Close Scope R_scope.

(** The mean of the targets. *)
Definition mean_target (target : list R) : R := mean_over (fun j => nth j target 0%R) (seq 0 (length target)).

Lemma mean_between (f : nat -> R) ex lo hi : ex <> [] -> (forall j, In j ex -> (lo <= f j <= hi)%R) -> (lo <= mean_over f ex <= hi)%R.
Proof.
  intros Hne H. unfold mean_over. assert (0 < INR (length ex))%R as Hp by (apply lt_0_INR; destruct ex; [congruence|cbn; lia]).
  assert (INR (length ex) * lo <= GainSpec.Rsum (map f ex) <= INR (length ex) * hi)%R as [H1 H2].
  { clear Hne Hp. induction ex as [|x l IH]; [cbn; lra|]. cbn [length map GainSpec.Rsum]. rewrite S_INR. specialize (IH (fun j Hj => H j (or_intror Hj))). specialize (H x (or_introl eq_refl)). destruct IH, H. change (GainSpec.Rsum (f x :: map f l)) with (f x + GainSpec.Rsum (map f l))%R. split; lra. }
  split; apply (Rmult_le_reg_r (INR (length ex)) _ _ Hp); unfold Rdiv; rewrite Rmult_assoc, Rinv_l by lra; lra.
Qed.

Section L2.
Variable dbg : bool.
Variable cfg : config Rops.
Variable d : data Rops.
Variable sched : nat -> nat -> list job -> list job.
Variable metrics : list metric.
Variable g : rng.
Hypothesis HF : fittable cfg d sched.

Lemma bias_mean k b (target : list R) : boost_run Rmath dbg cfg d sched L2 metrics g k = Ok b -> get_target d = Ok target -> at_bias (bs_ensemble b) = mean_target target /\ length (at_trees (bs_ensemble b)) = k.
Proof.
  intros E Et. destruct (start_bias _ _ _ _ _ _ _ _ _ E) as (tg & ob & Etg & Eo & -> & HL). split; [|exact HL]. assert (tg = target) as -> by exact (Ok_inj _ _ (eq_trans (eq_sym Etg) Et)).
  cbn [obj_initialize objective_new ob_kind] in Eo. apply Ok_inj in Eo. subst ob. cbn [initialize_base ob_bias]. unfold mean_target, mean_over. rewrite seq_length. change (num Rops) with R in *.
  assert (map (fun j => nth j target 0%R) (seq 0 (length target)) = target) as -> by (clear; induction target as [|x l IH]; [reflexivity|]; cbn [length seq map nth]; f_equal; rewrite <- seq_shift, map_map; exact IH).
  pose proof (fold_Rsum (fun x => x) target 0%R) as X. cbn beta in X. rewrite map_id, Rplus_0_l in X. change (@nsum Rops target / IZR (Z.of_nat (length target)) = GainSpec.Rsum target / INR (length target))%R.
  rewrite <- INR_IZR_INZ. f_equal. exact X.
Qed.

(** One more tree. *)
Lemma round_l2 k b' (target : list R) : boost_run Rmath dbg cfg d sched L2 metrics g (S k) = Ok b' -> get_target d = Ok target ->
  exists b t (ps : list R), boost_run Rmath dbg cfg d sched L2 metrics g k = Ok b /\ additive_predict (bs_ensemble b) d = Ok ps /\ bs_ensemble b' = push_tree (bs_ensemble b) t /\ length target = d_nexamples d /\ length ps = d_nexamples d /\
    forall D i (p : R), predict_single t D i = Ok p -> exists ex, ex <> [] /\ (forall j, In j ex -> j < d_nexamples d) /\ p = (c_learning_rate cfg * mean_over (error_of target ps) ex)%R.
Proof.
  intros E' Et. destruct (round_leaf dbg cfg d sched L2 metrics g HF k b' E') as (b & tg & ob & t & E & Etg & Eu & Hpush & Lt & HP). assert (tg = target) as -> by exact (Ok_inj _ _ (eq_trans (eq_sym Etg) Et)).
  destruct HF as (HW & HO & Hfr & Hn & Hmin & Hf1 & Hval & Hnb).
  destruct (C25_running_predictions_exact dbg cfg d sched L2 metrics g k b HW HO Hfr Hn Hmin Hf1 Hval Hnb E) as (Q & Lq & _).
  destruct (kind_facts dbg cfg d sched L2 metrics g HO Hn Hf1 k b E) as (K & _). destruct (update_settings _ _ _ _ _ Eu) as (R2 & _ & K2 & P2).
  exists b, t, (ob_preds (bs_objective b)). split; [exact E|]. split; [exact Q|]. split; [exact Hpush|]. split; [exact Lt|]. split; [exact Lq|]. intros D i p Ep. destruct (HP D i p Ep) as (ex & raw & Hne & Hex & Er & ->).
  exists ex. split; [exact Hne|]. split; [exact Hex|]. f_equal. unfold raw_leaf_value in Er. rewrite K2, K in Er. change (num Rops) with R in *.
  assert (in_range target (ob_preds ob) ex) as Hr. { apply Forall_forall. intros j Hj. rewrite P2. rewrite Lt, Lq. split; apply Hex, Hj. }
  pose proof (sum_residual target (ob_preds ob) ex 0 Hr) as S. apply rbind_ok in Er as (sm & Es & Er). assert (sm = (0 + MetricSpec.Rsum (map (resid target (ob_preds ob)) ex))%R) as -> by (symmetry; exact (Ok_inj _ _ (eq_trans (eq_sym S) Es))).
  apply Ok_inj in Er. subst raw. unfold mean_over. change ((0 + MetricSpec.Rsum (map (resid target (ob_preds ob)) ex)) / IZR (Z.of_nat (length ex)) = GainSpec.Rsum (map (error_of target (ob_preds (bs_objective b))) ex) / INR (length ex))%R.
  rewrite Rplus_0_l, <- INR_IZR_INZ, P2. reflexivity.
Qed.

(** A quantile is within the limits it is looked for in. *)
Lemma quantile_range nbins (al lo hi v : R) (vs : list R) : quantile Rops nbins al (lo, hi) vs = Ok v -> (lo <= v <= hi)%R.
Proof.
  unfold quantile, binner_new. cbn [fst snd nisfin nlt Rops rassert rbind]. rewrite repeat_length. intros E.
  apply rbind_ok in E as (b0 & E0 & E). apply rbind_ok in E0 as (u1 & Hlt & E0). apply rbind_ok in E0 as (u2 & Hn & E0). apply Ok_inj in E0. apply rassert_ok in Hlt, Hn. destruct (Flocq.Core.Raux.Rlt_bool_spec lo hi) as [Hl|]; [|discriminate]. clear u1 u2 Hlt.
  destruct (Nat.eqb_spec nbins 0) as [->|Hz]; [discriminate|]. apply rbind_ok in E as (b & Eb & E). apply rbind_ok in E as (bin & _ & E). apply Ok_inj in E.
  destruct (insert_all_ok Rops N (map (fun v => (v, u32_inc 1)) vs) b0) as (b' & Eb' & Hm & Hd & HL & _). { subst b0. cbn. destruct nbins; [congruence|discriminate]. }
  assert (b' = b) as -> by exact (Ok_inj _ _ (eq_trans (eq_sym Eb') Eb)). unfold bin_representative in E. rewrite HL, Hm, Hd in E. subst b0. cbn [bn_bins bn_min bn_delta] in E. rewrite repeat_length in E.
  change (lo + IZR (Z.of_nat (Nat.min (bin + 1) (nbins - 1))) * ((hi - lo) / IZR (Z.of_nat nbins)) = v)%R in E. rewrite <- !INR_IZR_INZ in E. set (i := Nat.min (bin + 1) (nbins - 1)) in *.
  assert (INR i <= INR nbins)%R as H1 by (apply le_INR; unfold i; lia). assert (0 < INR nbins)%R as H2 by (apply lt_0_INR; lia). pose proof (pos_INR i) as H3.
  subst v. assert (0 <= INR i * ((hi - lo) / INR nbins) <= hi - lo)%R; [|lra]. unfold Rdiv. split.
  - apply Rmult_le_pos; [exact H3|]. apply Rmult_le_pos; [lra|]. apply Rlt_le, Rinv_0_lt_compat, H2.
  - apply (Rmult_le_reg_r (INR nbins) _ _ H2). replace (INR i * ((hi - lo) * / INR nbins) * INR nbins)%R with (INR i * (hi - lo))%R by (field; lra). nra.
Qed.

(** The objectives L2, L1 and Huber: the bias is within the range of the targets, and what a leaf adds, before the learning rate, is within the range of the residuals. *)
Definition error_objective (kind : obj_kind) : Prop := kind = L2 \/ kind = L1 \/ kind = Huber.
Lemma raw_range (target : list R) (ob0 ob : objective Rops) ex (raw lo hi : R) : error_objective (ob_kind ob0) -> obj_update Rmath target ob0 = Ok ob -> length (ob_preds ob0) = length target -> target <> [] -> ex <> [] -> (forall j, In j ex -> j < length target) ->
  (forall j, j < length target -> (lo <= error_of target (ob_preds ob0) j <= hi)%R) -> raw_leaf_value Rmath target ex ob = Ok raw -> (lo <= raw <= hi)%R.
Proof.
  intros HK Eu HL Htne Hne Hex Hb Er. destruct (update_settings _ _ _ _ _ Eu) as (_ & _ & K2 & P2). change (num Rops) with R in *. set (ps := ob_preds ob0) in *.
  assert (in_range target (ob_preds ob) ex) as Hr. { apply Forall_forall. intros j Hj. rewrite P2. fold ps. change (num Rops) with R in *. rewrite HL. split; apply Hex, Hj. }
  destruct (residual_limits target ps HL Htne) as (a & c & Ha & Hc & _ & El).
  assert (forall m : R, @median Rops (error_of target ps a, error_of target ps c) (map (resid target ps) ex) = Ok m -> (lo <= m <= hi)%R) as Hmed. { intros m Em. apply quantile_range in Em. pose proof (Hb a Ha). pose proof (Hb c Hc). lra. }
  destruct HK as [K|[K|K]].
  - unfold raw_leaf_value in Er. rewrite K2, K in Er. pose proof (sum_residual target (ob_preds ob) ex 0 Hr) as S. apply rbind_ok in Er as (sm & Es & Er).
    assert (sm = (0 + MetricSpec.Rsum (map (resid target (ob_preds ob)) ex))%R) as -> by (symmetry; exact (Ok_inj _ _ (eq_trans (eq_sym S) Es))). apply Ok_inj in Er.
    assert (raw = mean_over (error_of target ps) ex) as ->. { rewrite <- Er. unfold mean_over. change ((0 + MetricSpec.Rsum (map (resid target (ob_preds ob)) ex)) / IZR (Z.of_nat (length ex)) = GainSpec.Rsum (map (error_of target ps) ex) / INR (length ex))%R. rewrite Rplus_0_l, <- INR_IZR_INZ, P2. reflexivity. }
    apply mean_between; [exact Hne|]. intros j Hj. apply Hb, Hex, Hj.
  - assert (ob_bounds ob = (error_of target ps a, error_of target ps c)) as Hbs.
    { unfold obj_update in Eu. rewrite K in Eu. apply rbind_ok in Eu as (? & _ & Eu). apply rbind_ok in Eu as (? & _ & Eu). fold ps in Eu. rewrite (El : m_limits Rmath (@residuals Rops target ps) = _) in Eu. apply Ok_inj in Eu. subst ob. reflexivity. }
    unfold raw_leaf_value in Er. rewrite K2, K, Hbs in Er. pose proof (mapM_residual target (ob_preds ob) ex Hr) as Em. apply rbind_ok in Er as (rs & E1 & Er). assert (rs = map (resid target (ob_preds ob)) ex) as -> by exact (Ok_inj _ _ (eq_trans (eq_sym E1) Em)).
    rewrite P2 in Er. exact (Hmed raw Er).
  - assert (ob_bounds ob = (error_of target ps a, error_of target ps c) /\ (0 <= (ob_delta ob : R))%R) as (Hbs & Hd).
    { unfold obj_update in Eu. rewrite K in Eu. apply rbind_ok in Eu as (? & _ & Eu). apply rbind_ok in Eu as (? & _ & Eu). fold ps in Eu. rewrite (El : m_limits Rmath (@residuals Rops target ps) = _) in Eu. apply rbind_ok in Eu as (q & _ & Eu). apply Ok_inj in Eu. subst ob. split; [reflexivity|]. cbn. apply Rabs_pos. }
    destruct (huber_raw target ex ob raw (eq_trans K2 K) Hd Hr Er) as (m & Em & ->). rewrite Hbs, P2 in Em. specialize (Hmed m Em). rewrite P2.
    assert (lo - m <= mean_over (fun j => clamp (ob_delta ob) (error_of target ps j - m)) ex <= hi - m)%R as Hc'; [|fold ps; lra].
    apply mean_between; [exact Hne|]. intros j Hj. specialize (Hb j (Hex j Hj)). unfold clamp, Rmax, Rmin. change (num Rops) with R in *. destruct (Rle_dec (ob_delta ob) (error_of target ps j - m)%R), (Rle_dec _ _); lra.
Qed.

Lemma bias_range kind k b (target : list R) (lo hi : R) : error_objective kind -> boost_run Rmath dbg cfg d sched kind metrics g k = Ok b -> get_target d = Ok target -> (forall t, In t target -> (lo <= t <= hi)%R) ->
  (lo <= at_bias (bs_ensemble b) <= hi)%R /\ length (at_trees (bs_ensemble b)) = k.
Proof.
  intros HK E Et HT. destruct (start_bias _ _ _ _ _ _ _ _ _ E) as (tg & ob & Etg & Eo & -> & HL). split; [|exact HL]. assert (tg = target) as -> by exact (Ok_inj _ _ (eq_trans (eq_sym Etg) Et)).
  assert (length target = d_nexamples d) as Lt by (apply (target_len _ d (well_formed_cols _ d (proj1 HF)) target Et)). assert (0 < d_nexamples d) as Hpos by apply HF.
  assert (target <> []) as Htne by (intros ->; cbn in Lt; lia). destruct (limits_attained _ Htne) as [A1 A2]. apply HT in A1, A2.
  assert (forall m : R, @median Rops (m_limits Rmath target) target = Ok m -> (lo <= m <= hi)%R) as Hmed.
  { intros m Em. unfold median in Em. change (m_limits Rmath target) with (R_limits target) in Em. rewrite (surjective_pairing (R_limits target)) in Em. apply quantile_range in Em. lra. }
  destruct HK as [-> | [-> | ->]].
  - destruct (bias_mean k b target E Et) as (HB & _). destruct (start_bias _ _ _ _ _ _ _ _ _ E) as (tg2 & ob2 & Etg2 & Eo2 & HB2 & _). assert (tg2 = target) as -> by exact (Ok_inj _ _ (eq_trans (eq_sym Etg2) Et)).
    assert (ob2 = ob) as -> by exact (Ok_inj _ _ (eq_trans (eq_sym Eo2) Eo)). rewrite <- HB2, HB. apply mean_between.
    + intros X. apply (f_equal (@length nat)) in X. rewrite seq_length in X. cbn in X. change (num Rops) with R in *. lia.
    + intros j Hj. apply HT, nth_In. apply in_seq in Hj. lia.
  - cbn [obj_initialize objective_new ob_kind] in Eo. apply rbind_ok in Eo as (m & Em & Eo). apply Ok_inj in Eo. subst ob. exact (Hmed m Em).
  - cbn [obj_initialize objective_new ob_kind] in Eo. apply rbind_ok in Eo as (m & Em & Eo). apply rbind_ok in Eo as (u & _ & Eo). apply Ok_inj in Eo. subst ob. exact (Hmed m Em).
Qed.

Lemma round_any kind k b' (target : list R) : error_objective kind -> boost_run Rmath dbg cfg d sched kind metrics g (S k) = Ok b' -> get_target d = Ok target ->
  exists b t (ps : list R), boost_run Rmath dbg cfg d sched kind metrics g k = Ok b /\ additive_predict (bs_ensemble b) d = Ok ps /\ bs_ensemble b' = push_tree (bs_ensemble b) t /\ length target = d_nexamples d /\ length ps = d_nexamples d /\
    forall D i (p : R), predict_single t D i = Ok p -> exists raw : R, p = (c_learning_rate cfg * raw)%R /\ forall lo hi : R, (forall j, j < d_nexamples d -> (lo <= error_of target ps j <= hi)%R) -> (lo <= raw <= hi)%R.
Proof.
  intros HK E' Et. destruct (round_leaf dbg cfg d sched kind metrics g HF k b' E') as (b & tg & ob & t & E & Etg & Eu & Hpush & Lt & HP). assert (tg = target) as -> by exact (Ok_inj _ _ (eq_trans (eq_sym Etg) Et)).
  destruct HF as (HW & HO & Hfr & Hn & Hmin & Hf1 & Hval & Hnb).
  destruct (C25_running_predictions_exact dbg cfg d sched kind metrics g k b HW HO Hfr Hn Hmin Hf1 Hval Hnb E) as (Q & Lq & _).
  destruct (kind_facts dbg cfg d sched kind metrics g HO Hn Hf1 k b E) as (K & _).
  exists b, t, (ob_preds (bs_objective b)). split; [exact E|]. split; [exact Q|]. split; [exact Hpush|]. split; [exact Lt|]. split; [exact Lq|]. intros D i p Ep. destruct (HP D i p Ep) as (ex & raw & Hne & Hex & Er & ->).
  exists raw. split; [reflexivity|]. intros lo hi Hb. change (num Rops) with R in *. refine (raw_range target _ ob ex raw lo hi _ Eu _ _ Hne _ _ Er).
  - rewrite K. exact HK.
  - change (num Rops) with R in *. rewrite Lq, Lt. reflexivity.
  - intros ->. cbn in Lt. destruct HW as (Hpos & _). lia.
  - intros j Hj. rewrite Lt. apply Hex, Hj.
  - intros j Hj. apply Hb. lia.
Qed.

(** The predictions of the longer model are those of the shorter one plus what the tree predicts. *)
Lemma push_predict (m : additive_tree Rops) t (D : data Rops) (ps' : list R) : additive_predict (push_tree m t) D = Ok ps' -> exists ps, additive_predict m D = Ok ps /\ predict_and t D (fun p acc => nadd Rops acc p) ps = Ok ps'.
Proof.
  unfold additive_predict, additive_predict_buf, push_tree. cbn [at_trees at_bias]. rewrite foldM_app. intros E. apply rbind_ok in E as (ps & E1 & E). exists ps. split; [exact E1|]. cbn [foldM] in E. apply rbind_ok in E as (q & Eq & E). apply Ok_inj in E. subst q. exact Eq.
Qed.
Lemma no_trees (m : additive_tree Rops) (D : data Rops) (ps : list R) : at_trees m = [] -> additive_predict m D = Ok ps -> Forall (fun p => p = at_bias m) ps.
Proof.
  intros H E. unfold additive_predict, additive_predict_buf in E. rewrite H in E. cbn [foldM] in E. apply Ok_inj in E. subst ps. apply Forall_forall. intros p Hp. apply in_map_iff in Hp as (x & <- & _). reflexivity.
Qed.
End L2.

(** One iteration with a learning rate between 0 and 1 (L2, L1 and Huber): no prediction, for no row of no table, is below the least or above the largest target. *)
Theorem C77_first : forall dbg (cfg : config Rops) (d : data Rops) sched kind metrics g b (target : list R) (lo hi : R), fittable cfg d sched -> error_objective kind -> (0 <= c_learning_rate cfg <= 1)%R ->
  boost_run Rmath dbg cfg d sched kind metrics g 1 = Ok b -> get_target d = Ok target -> (forall t, In t target -> (lo <= t <= hi)%R) ->
  forall (D : data Rops) (ps : list R), additive_predict (bs_ensemble b) D = Ok ps -> forall p, In p ps -> (lo <= p <= hi)%R.
Proof.
  intros dbg cfg d sched kind metrics g b target lo hi HF HK Hlr E Et HT D ps Ep.
  destruct (round_any dbg cfg d sched metrics g HF kind 0 b target HK E Et) as (b0 & t & ps0 & E0 & Q0 & Hpush & Lt & L0 & HP). destruct (bias_range dbg cfg d sched metrics g HF kind 0 b0 target lo hi HK E0 Et HT) as (HB & H0). apply length_zero_iff_nil in H0.
  assert (forall j, j < d_nexamples d -> (lo <= nth j target 0 <= hi)%R) as HT' by (intros j Hj; apply HT, nth_In; change (num Rops) with R in *; lia).
  rewrite Hpush in Ep. apply push_predict in Ep as (ps1 & E1 & E2). apply (no_trees _ _ _ H0) in E1. apply Forall_forall.
  refine (proj1 (and_forall Rops t D _ (fun p => p = at_bias (bs_ensemble b0)) (fun p => (lo <= p <= hi)%R) ps1 ps _ E1 E2)).
  intros i p x Hp ->. destruct (HP D i p Hp) as (m & -> & Hm). change (lo <= at_bias (bs_ensemble b0) + c_learning_rate cfg * m <= hi)%R.
  pose proof (no_trees _ _ _ H0 Q0) as Hps0. rewrite Forall_forall in Hps0. set (M := at_bias (bs_ensemble b0) : R) in *.
  destruct (Hm (lo - M)%R (hi - M)%R) as [A1 A2]. { intros j Hj. unfold error_of. rewrite (Hps0 (nth j ps0 0%R)) by (apply nth_In; change (num Rops) with R in *; lia). specialize (HT' j Hj). lra. }
  set (l := c_learning_rate cfg) in *. change (num Rops) with R in *.
  pose proof (Rmult_le_compat_l l _ _ (proj1 Hlr) A1). pose proof (Rmult_le_compat_l l _ _ (proj1 Hlr) A2).
  assert (0 <= (1 - l) * (M - lo))%R by (apply Rmult_le_pos; lra). assert (0 <= (1 - l) * (hi - M))%R by (apply Rmult_le_pos; lra). nra.
Qed.
Print Assumptions C77_first.

(** k iterations (L2, L1 and Huber), targets no farther than A from the bias of the model: no prediction, for no row of no table, is farther than ((1 + learning_rate)^k - 1) A from the bias,
    which lies between the least and the largest target (for L2 it is their mean, C66). *)
Theorem C77_bound : forall dbg (cfg : config Rops) (d : data Rops) sched kind metrics g k b (target : list R) (A : R), fittable cfg d sched -> error_objective kind -> (0 <= c_learning_rate cfg)%R ->
  boost_run Rmath dbg cfg d sched kind metrics g k = Ok b -> get_target d = Ok target -> (forall t, In t target -> (Rabs (t - at_bias (bs_ensemble b)) <= A)%R) ->
  (forall lo hi : R, (forall t, In t target -> (lo <= t <= hi)%R) -> (lo <= at_bias (bs_ensemble b) <= hi)%R) /\
  forall (D : data Rops) (ps : list R), additive_predict (bs_ensemble b) D = Ok ps -> forall p, In p ps -> (Rabs (p - at_bias (bs_ensemble b)) <= ((1 + c_learning_rate cfg) ^ k - 1) * A)%R.
Proof.
  intros dbg cfg d sched kind metrics g k b target A HF HK Hlr E Et HT. split; [intros lo hi H; exact (proj1 (bias_range dbg cfg d sched metrics g HF kind k b target lo hi HK E Et H))|].
  revert b E HT. induction k as [|k IH]; intros b E HT D ps Ep.
  - destruct (start_bias _ _ _ _ _ _ _ _ _ E) as (_ & _ & _ & _ & _ & H0). apply length_zero_iff_nil in H0. apply (no_trees _ _ _ H0) in Ep. rewrite Forall_forall in Ep. intros p Hp. rewrite (Ep p Hp).
    cbn [pow]. rewrite Rminus_diag_eq, Rabs_R0 by reflexivity. lra.
  - destruct (round_any dbg cfg d sched metrics g HF kind k b target HK E Et) as (b0 & t & ps0 & E0 & Q0 & Hpush & Lt & L0 & HP).
    assert (at_bias (bs_ensemble b) = at_bias (bs_ensemble b0)) as HB by (rewrite Hpush; reflexivity). rewrite HB in *. specialize (IH b0 E0 HT). set (M := at_bias (bs_ensemble b0) : R) in *.
    assert (forall j, j < d_nexamples d -> (Rabs (error_of target ps0 j) <= (1 + c_learning_rate cfg) ^ k * A)%R) as Herr.
    { intros j Hj. change (num Rops) with R in *. assert (In (nth j target 0%R) target) as H1 by (apply nth_In; lia). assert (In (nth j ps0 0%R) ps0) as H2 by (apply nth_In; lia). pose proof (HT _ H1) as A1. pose proof (IH d ps0 Q0 _ H2) as A2.
      unfold error_of. revert A1 A2. generalize (nth j target 0%R) (nth j ps0 0%R) M. intros x y z A1 A2. replace (x - y)%R with ((x - z) + - (y - z))%R by ring. eapply Rle_trans; [apply Rabs_triang|]. rewrite Rabs_Ropp. lra. }
    rewrite Hpush in Ep. apply push_predict in Ep as (ps1 & E1 & E2). assert (Forall (fun p => (Rabs (p - M) <= ((1 + c_learning_rate cfg) ^ k - 1) * A)%R) ps1) as HQ by (apply Forall_forall; intros p Hp; exact (IH D ps1 E1 p Hp)).
    apply Forall_forall. refine (proj1 (and_forall Rops t D _ (fun p => (Rabs (p - M) <= ((1 + c_learning_rate cfg) ^ k - 1) * A)%R) (fun p => (Rabs (p - M) <= ((1 + c_learning_rate cfg) ^ S k - 1) * A)%R) ps1 ps _ HQ E2)).
    intros i p x Hp Hx. destruct (HP D i p Hp) as (m & -> & Hm). change (Rabs ((x : R) + c_learning_rate cfg * m - M) <= ((1 + c_learning_rate cfg) ^ S k - 1) * A)%R.
    assert (Rabs m <= (1 + c_learning_rate cfg) ^ k * A)%R as Hm'.
    { apply Rabs_le, Hm. intros j Hj. specialize (Herr j Hj). pose proof (Rle_abs (error_of target ps0 j)). pose proof (Rle_abs (- error_of target ps0 j)) as X. rewrite Rabs_Ropp in X. split; lra. }
    cbn [pow]. change (num Rops) with R in *. set (l := c_learning_rate cfg) in *. set (q := ((1 + l) ^ k)%R) in *.
    replace (x + l * m - M)%R with ((x - M) + l * m)%R by ring. eapply Rle_trans; [apply Rabs_triang|]. rewrite Rabs_mult, (Rabs_pos_eq l) by exact Hlr.
    pose proof (Rmult_le_compat_l l _ _ Hlr Hm'). nra.
Qed.
Print Assumptions C77_bound.

Lemma sq_const (target : list R) (M : R) : sq_error target (repeat M (length target)) (seq 0 (length target)) = GainSpec.Rsum (map (fun t => (t - M) ^ 2)%R target).
Proof.
  unfold sq_error, squared_error. change GainSpec.Rsum with MetricSpec.Rsum. induction target as [|x l IH]; [reflexivity|]. cbn [length repeat seq map nth MetricSpec.Rsum]. f_equal.
  rewrite <- seq_shift, map_map. exact IH.
Qed.
Lemma sq_one (target ps : list R) j ex : In j ex -> ((error_of target ps j) ^ 2 <= sq_error target ps ex)%R.
Proof.
  unfold sq_error, squared_error, error_of. intros H. assert (forall l, (0 <= MetricSpec.Rsum (map (fun i => ((nth i target 0 - nth i ps 0) ^ 2)%R) l))%R) as HN.
  { induction l as [|x l IH]; cbn [map MetricSpec.Rsum]; [lra|]. pose proof (pow2_ge_0 (nth x target 0 - nth x ps 0)%R). lra. }
  induction ex as [|x l IH]; [destruct H|]. cbn [map MetricSpec.Rsum]. destruct H as [->|H].
  - specialize (HN l). lra.
  - specialize (IH H). pose proof (pow2_ge_0 (nth x target 0 - nth x ps 0)%R). lra.
Qed.

(** L2, all examples used for all trees, learning rate between 0 and 2: after k iterations no prediction, for no row of no table, is farther than k times the learning rate times the root of the sum of the squared deviations
    of the targets from their mean. *)
Theorem C77_linear : forall dbg (cfg : config Rops) (d : data Rops) sched metrics g k b (target : list R), fittable cfg d sched -> c_example_fraction cfg = 1%R -> (0 <= c_learning_rate cfg <= 2)%R ->
  boost_run Rmath dbg cfg d sched L2 metrics g k = Ok b -> get_target d = Ok target ->
  forall (D : data Rops) (ps : list R), additive_predict (bs_ensemble b) D = Ok ps -> forall p, In p ps ->
    (Rabs (p - mean_target target) <= INR k * c_learning_rate cfg * sqrt (GainSpec.Rsum (map (fun t => (t - mean_target target) ^ 2) target)))%R.
Proof.
  intros dbg cfg d sched metrics g k b target HF Hf Hlr E Et. set (S0 := sqrt _). revert b E. induction k as [|k IH]; intros b E D ps Ep.
  - destruct (bias_mean dbg cfg d sched metrics g 0 b target E Et) as (HB & H0). apply length_zero_iff_nil in H0. apply (no_trees _ _ _ H0) in Ep. rewrite HB in Ep. rewrite Forall_forall in Ep. intros p Hp. rewrite (Ep p Hp).
    cbn [INR]. rewrite Rminus_diag_eq, Rabs_R0 by reflexivity. lra.
  - destruct (round_l2 dbg cfg d sched metrics g HF k b target E Et) as (b0 & t & ps0 & E0 & Q0 & Hpush & Lt & L0 & HP). specialize (IH b0 E0).
    assert (forall j, j < d_nexamples d -> (Rabs (error_of target ps0 j) <= S0)%R) as Herr.
    { destruct HF as (HW & HO & Hfr & Hn & Hmin & Hf1 & Hval & Hnb).
      destruct (C56_rounds dbg cfg d sched metrics g k k b0 b0 target ps0 ps0 HW HO Hfr Hn Hmin Hf Hval Hnb Hlr (le_n k) E0 E0 Et Q0 Q0) as (_ & X). specialize (X (mean_target target)).
      assert (sq_error target (repeat (mean_target target) (d_nexamples d)) (seq 0 (d_nexamples d)) = GainSpec.Rsum (map (fun t => (t - mean_target target) ^ 2)%R target)) as HS.
      { generalize (mean_target target) as M. intros M. rewrite <- Lt. apply sq_const. }
      intros j Hj. assert ((error_of target ps0 j) ^ 2 <= GainSpec.Rsum (map (fun t => (t - mean_target target) ^ 2)%R target))%R as X'.
      { eapply Rle_trans; [|eapply Rle_trans; [exact X|right; exact HS]]. apply sq_one, in_seq. lia. }
      rewrite <- (sqrt_Rsqr_abs (error_of target ps0 j)). apply sqrt_le_1_alt. unfold Rsqr. cbn [pow] in X'. rewrite Rmult_1_r in X'. exact X'. }
    rewrite Hpush in Ep. apply push_predict in Ep as (ps1 & E1 & E2). assert (Forall (fun p => (Rabs (p - mean_target target) <= INR k * c_learning_rate cfg * S0)%R) ps1) as HQ by (apply Forall_forall; intros p Hp; exact (IH D ps1 E1 p Hp)).
    apply Forall_forall. refine (proj1 (and_forall Rops t D _ (fun p => (Rabs (p - mean_target target) <= INR k * c_learning_rate cfg * S0)%R) (fun p => (Rabs (p - mean_target target) <= INR (S k) * c_learning_rate cfg * S0)%R) ps1 ps _ HQ E2)).
    intros i p x Hp Hx. destruct (HP D i p Hp) as (ex & Hne & Hex & ->). change (Rabs ((x : R) + c_learning_rate cfg * mean_over (error_of target ps0) ex - mean_target target) <= INR (S k) * c_learning_rate cfg * S0)%R.
    assert (Rabs (mean_over (error_of target ps0) ex) <= S0)%R as Hm.
    { apply Rabs_le. apply mean_between; [exact Hne|]. intros j Hj. specialize (Herr j (Hex j Hj)). pose proof (Rle_abs (error_of target ps0 j)). pose proof (Rle_abs (- error_of target ps0 j)) as X. rewrite Rabs_Ropp in X. split; lra. }
    rewrite S_INR. set (m := mean_over _ _) in *. set (M := mean_target target) in *. change (num Rops) with R in *. set (l := c_learning_rate cfg) in *. 
    replace (x + l * m - M)%R with ((x - M) + l * m)%R by ring. eapply Rle_trans; [apply Rabs_triang|]. rewrite Rabs_mult, (Rabs_pos_eq l) by apply Hlr.
    pose proof (Rmult_le_compat_l l _ _ (proj1 Hlr) Hm). lra.
Qed.
Print Assumptions C77_linear.

(** The hypotheses of the theorems: two trees (L2), one (L1 and Huber), for the targets 1 0 1 0 1 1, whose mean is 2/3. *)
Example C77_ex : fittable exr_cfg exr_data bst_sched /\ c_example_fraction exr_cfg = 1%R /\ (0 <= c_learning_rate exr_cfg <= 1)%R /\ get_target exr_data = Ok [1; 0; 1; 0; 1; 1]%R /\
  mean_target [1; 0; 1; 0; 1; 1]%R = (2 / 3)%R /\ (forall t, In t [1; 0; 1; 0; 1; 1]%R -> (0 <= t <= 1)%R) /\
  (forall k, k = 1 \/ k = 2 -> exists b (ps : list R), boost_run Rmath true exr_cfg exr_data bst_sched L2 [] ex_rng k = Ok b /\ additive_predict (bs_ensemble b) exr_data = Ok ps /\ length ps = 6) /\
  fittable exr_cfg1 exr_data bst_sched /\ (0 <= c_learning_rate exr_cfg1 <= 1)%R /\
  (forall kind, kind = L1 \/ kind = Huber -> exists b (ps : list R), boost_run Rmath true exr_cfg1 exr_data bst_sched kind [] ex_rng 1 = Ok b /\ additive_predict (bs_ensemble b) exr_data = Ok ps).
Proof.
  destruct C56_ex as (HW & HO & Hfr & Hn & Hmin & Hf & Hval & Hnb & _ & b & b' & target & ps & ps' & rows & E & E' & _ & Q & Q' & _). destruct C66_ex as (_ & _ & Htgt & _). destruct C67_ex as (HF1 & Hl1 & _ & _ & H1 & _).
  split; [do 4 (split; [assumption|]); split; [exact Hmin|]; split; [right; exact Hf|]; auto|]. split; [exact Hf|]. split; [cbn; lra|]. split; [exact Htgt|]. split; [unfold mean_target, mean_over; cbn; lra|]. split; [|split; [|split; [exact HF1|split; [exact Hl1|]]]].
  - intros t Ht. cbn in Ht. destruct Ht as [<-|[<-|[<-|[<-|[<-|[<-|[]]]]]]]; lra.
  - intros k [-> | ->]; [exists b, ps; split; [exact E|]; split; [exact Q|] | exists b', ps'; split; [exact E'|]; split; [exact Q'|]].
    + destruct (C25_running_predictions_exact _ _ _ _ _ _ _ _ _ HW HO Hfr Hn Hmin ltac:(right; exact Hf) Hval Hnb E) as (X & L & _). assert (ps = ob_preds (bs_objective b)) as -> by exact (Ok_inj _ _ (eq_trans (eq_sym Q) X)). exact L.
    + destruct (C25_running_predictions_exact _ _ _ _ _ _ _ _ _ HW HO Hfr Hn Hmin ltac:(right; exact Hf) Hval Hnb E') as (X & L & _). assert (ps' = ob_preds (bs_objective b')) as -> by exact (Ok_inj _ _ (eq_trans (eq_sym Q') X)). exact L.
  - intros kind Hk. destruct (H1 kind Hk) as (b0 & b1 & q & q' & r & _ & E1 & _ & Q1 & _). exists b1, q'. auto.
Qed.
