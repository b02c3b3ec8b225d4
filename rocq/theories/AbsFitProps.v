(** Property C67: a round of boosting with the absolute error (L1) or Huber's loss does not fit the examples worse, up to the precision of the medians it works with (exact arithmetic). *)
From Coq Require Import Reals Lra Permutation.
From Flocq Require Import Core.
From Verif Require Import Base BaseProofs BitModel BitSpec F32 Num DataModel DataSpec Config TreeModel TreeSpec DatasetModel DatasetSpec DatasetProofs3 DatasetProofs4 DatasetProofs5 DatasetProps
  RouteProps LearnerModel LearnerSpec TrainSpec LearnerProps TrainProps BinnerModel BinnerSpec BinnerProofs ObjectiveModel ObjectiveSpec ObjectiveProofs ObjectiveProps MetricModel MetricSpec MetricProps BoostModel BoostSpec BoostProofs BoostProps TotalSpec TotalProps
  GreedySpec GreedyProofs GreedyProps FitSpec FitProps PrefixProps MedianProps BoostingSpec BoostingProofs BoostingProps HuberProps.
Local Close Scope R_scope.

(** The sum of the losses of the predictions [ps] over [examples]. *)
Definition fit_loss (kind : obj_kind) (delta : R) (target ps : list R) (examples : list nat) : R := Rsum (map (fun i => loss kind delta (nth i target 0%R) (nth i ps 0%R)) examples).

Lemma Rsum_const {A} (c : R) (l : list A) : Rsum (map (fun _ => c) l) = (INR (length l) * c)%R.
Proof. induction l as [|x l IH]; [cbn; ring|]. cbn [map Rsum]. rewrite IH. change (length (x :: l)) with (S (length l)). rewrite S_INR. ring. Qed.
Lemma Rsum_scale {A} (c : R) (f : A -> R) l : Rsum (map (fun x => (c * f x)%R) l) = (c * Rsum (map f l))%R.
Proof. induction l as [|x l IH]; [cbn; ring|]. cbn [map Rsum]. rewrite IH. ring. Qed.
Lemma fit_loss_app kind delta target ps l l' : fit_loss kind delta target ps (l ++ l') = (fit_loss kind delta target ps l + fit_loss kind delta target ps l')%R.
Proof. unfold fit_loss. rewrite map_app. apply Rsum_app. Qed.
Lemma fit_loss_perm kind delta target ps l l' : Permutation l l' -> fit_loss kind delta target ps l = fit_loss kind delta target ps l'.
Proof. intros H. apply Rsum_perm, Permutation_map, H. Qed.
Lemma total_loss_0 kind delta target ps l : total_loss kind delta target ps l 0 = fit_loss kind delta target ps l.
Proof. unfold total_loss, fit_loss. apply Rsum_ext. intros i _. rewrite Rplus_0_r. reflexivity. Qed.

(** The losses L1 and Huber are convex in the prediction. *)
Lemma huber_dual d e u : (0 <= d)%R -> (Rabs u <= d)%R -> (u * e - u ^ 2 / 2 <= huber d e)%R.
Proof.
  intros Hd Hu. unfold huber. destruct (Rle_dec (Rabs e) d) as [H|H]; [pose proof (pow2_ge_0 (e - u)); lra|].
  assert (u * e <= Rabs u * Rabs e)%R as H1 by (rewrite <- Rabs_mult; apply Rle_abs). rewrite <- (pow2_abs u). pose proof (Rabs_pos u). set (a := Rabs u) in *. set (x := Rabs e) in *. clearbody a x. nra.
Qed.
Lemma huber_attained d e : (0 <= d)%R -> exists u, (Rabs u <= d)%R /\ huber d e = (u * e - u ^ 2 / 2)%R.
Proof.
  intros Hd. unfold huber. destruct (Rle_dec (Rabs e) d) as [H|H]; [exists e; split; [exact H|lra]|]. destruct (Rle_lt_dec 0 e) as [He|He].
  - exists d. rewrite Rabs_pos_eq in H |- * by lra. rewrite (Rabs_pos_eq e) by lra. split; lra.
  - exists (- d)%R. rewrite Rabs_Ropp, (Rabs_left e), Rabs_pos_eq by lra. split; lra.
Qed.
Lemma huber_convex d a b l : (0 <= d)%R -> (0 <= l <= 1)%R -> (huber d ((1 - l) * a + l * b) <= (1 - l) * huber d a + l * huber d b)%R.
Proof.
  intros Hd Hl. destruct (huber_attained d ((1 - l) * a + l * b) Hd) as (u & Hu & ->). pose proof (huber_dual d a u Hd Hu). pose proof (huber_dual d b u Hd Hu). nra.
Qed.
Lemma huber_near d e : (0 <= d)%R -> (d * Rabs e - d ^ 2 / 2 <= huber d e <= d * Rabs e)%R.
Proof.
  intros Hd. unfold huber. pose proof (Rabs_pos e). destruct (Rle_dec (Rabs e) d) as [H1|H1]; [|split; nra]. rewrite <- (pow2_abs e). set (x := Rabs e) in *. clearbody x. split; [pose proof (pow2_ge_0 (x - d)); nra|nra].
Qed.
Lemma loss_convex kind d t p v l : kind = L1 \/ kind = Huber -> (0 <= d)%R -> (0 <= l <= 1)%R -> (loss kind d t (p + l * v) <= (1 - l) * loss kind d t p + l * loss kind d t (p + v))%R.
Proof.
  intros [-> | ->] Hd Hl; cbn [loss].
  - replace (t - (p + l * v))%R with ((1 - l) * (t - p) + l * (t - (p + v)))%R by ring. eapply Rle_trans; [apply Rabs_triang|]. rewrite !Rabs_mult, (Rabs_pos_eq (1 - l)), (Rabs_pos_eq l) by lra. apply Rle_refl.
  - replace (t - (p + l * v))%R with ((1 - l) * (t - p) + l * (t - (p + v)))%R by ring. apply huber_convex; assumption.
Qed.
(** If adding [v] costs at most [c] per example, so does adding the fraction [l] of it, in proportion. *)
Lemma partial_step kind d target ps ex v l c : kind = L1 \/ kind = Huber -> (0 <= d)%R -> (0 <= l <= 1)%R ->
  (total_loss kind d target ps ex v <= fit_loss kind d target ps ex + INR (length ex) * c)%R -> (total_loss kind d target ps ex (l * v) <= fit_loss kind d target ps ex + INR (length ex) * (l * c))%R.
Proof.
  intros Hk Hd Hl H. eapply Rle_trans; [apply (Rsum_le _ (fun i => (1 - l) * loss kind d (nth i target 0) (nth i ps 0) + l * loss kind d (nth i target 0) (nth i ps 0 + v)))%R; intros i _; apply loss_convex; assumption|].
  rewrite Rsum_plus, (Rsum_scale (1 - l)), (Rsum_scale l). change ((1 - l) * fit_loss kind d target ps ex + l * total_loss kind d target ps ex v <= fit_loss kind d target ps ex + INR (length ex) * (l * c))%R. nra.
Qed.

(** All the leaves of a tree: if each raises the loss of its examples by at most [c] per example, so does the tree. *)
Lemma leaves_fit kind delta (target : list R) (c : R) (ob ob' : objective Rops) : forall gs : list (group Rops), NoDup (concat (map g_examples gs)) -> leaf_calls (obj_leaf_value Rmath target) gs ob ob' ->
  in_range target (ob_preds ob) (concat (map g_examples gs)) ->
  (forall gr v, In gr gs -> raw_leaf_value Rmath target (g_examples gr) ob = Ok v -> (total_loss kind delta target (ob_preds ob) (g_examples gr) (ob_lr ob * v) <= fit_loss kind delta target (ob_preds ob) (g_examples gr) + INR (length (g_examples gr)) * c)%R) ->
  (fit_loss kind delta target (ob_preds ob') (concat (map g_examples gs)) <= fit_loss kind delta target (ob_preds ob) (concat (map g_examples gs)) + INR (length (concat (map g_examples gs))) * c)%R.
Proof.
  intros gs Hnd H Hr Hc. destruct (leaf_calls_preds Rops Rmath target gs ob ob' Hnd H) as (_ & _ & P). pose proof (leaves_raw Rops Rmath target gs ob ob' Hnd H) as HR. clear H Hnd.
  assert (forall gr, In gr gs -> (fit_loss kind delta target (ob_preds ob') (g_examples gr) <= fit_loss kind delta target (ob_preds ob) (g_examples gr) + INR (length (g_examples gr)) * c)%R) as HG.
  { intros gr Hg. destruct (HR gr Hg) as (raw & Er & Ev). eapply Rle_trans; [|apply (Hc gr raw Hg Er)]. apply Req_le. apply Rsum_ext. intros i Hi. f_equal.
    assert (i < length (ob_preds ob)) as Hlt. { unfold in_range in Hr. rewrite Forall_forall in Hr. apply Hr. apply in_concat. exists (g_examples gr). split; [apply in_map, Hg|exact Hi]. }
    destruct (P i _ (nth_error_nth' (ob_preds ob) (0%R : num Rops) Hlt)) as (HA & _). specialize (HA gr Hg Hi). apply nth_error_nth with (d := (0%R : num Rops)) in HA. etransitivity; [exact HA|]. rewrite Ev. reflexivity. }
  clear - HG. induction gs as [|gr gs IH]; [cbn; lra|]. cbn [map concat]. rewrite !fit_loss_app, app_length, plus_INR. pose proof (HG gr (or_introl eq_refl)). pose proof (IH (fun g' Hg' => HG g' (or_intror Hg'))). lra.
Qed.

Section Round.
Variable dbg : bool.
Variable cfg : config Rops.
Variable d : data Rops.
Variable sched : nat -> nat -> list job -> list job.
Variable kind : obj_kind.
Variable metrics : list metric.
Variable g : rng.
Hypothesis HW : well_formed d.
Hypothesis HO : any_order sched.
Hypothesis Hn31 : (Z.of_nat (d_nexamples d) <= 2 ^ 31)%Z.
Hypothesis Hf1 : (c_example_fraction cfg <= 1)%R.

(** One iteration, over the examples it is trained on: the objective with its gradients, and what the leaves can cost. *)
Lemma round_loss k b b' target rows : boost_run Rmath dbg cfg d sched kind metrics g k = Ok b -> boost_run Rmath dbg cfg d sched kind metrics g (S k) = Ok b' ->
  length (ob_preds (bs_objective b)) = d_nexamples d -> get_target d = Ok target -> example_rows (bs_dataset b') = Ok rows ->
  exists ob, obj_update Rmath target (bs_objective b) = Ok ob /\ length target = d_nexamples d /\ (forall j, In j rows -> j < d_nexamples d) /\
  forall delta c, (forall ex v, ex <> [] -> length ex <= d_nexamples d -> incl ex rows -> raw_leaf_value Rmath target ex ob = Ok v -> (total_loss kind delta target (ob_preds (bs_objective b)) ex (c_learning_rate cfg * v) <= fit_loss kind delta target (ob_preds (bs_objective b)) ex + INR (length ex) * c)%R) ->
    (fit_loss kind delta target (ob_preds (bs_objective b')) rows <= fit_loss kind delta target (ob_preds (bs_objective b)) rows + INR (length rows) * c)%R.
Proof.
  intros E E' L1 Etgt Hrows. pose proof (kind_facts dbg cfg d sched kind metrics g HO Hn31 Hf1 k b E) as (K1 & R1 & _ & G1). apply boost_run_S in E' as (b1 & sz & E1 & Esz & E'). assert (b1 = b) as -> by exact (Ok_inj _ _ (eq_trans (eq_sym E1) E)).
  unfold train_one_iter in E'. apply rbind_ok in E' as (tg & Etg & E'). assert (tg = target) as -> by exact (Ok_inj _ _ (eq_trans (eq_sym Etg) Etgt)).
  apply rbind_ok in E' as (ob & Eu & E'). apply rbind_ok in E' as (s & Es & E'). apply rbind_ok in E' as ((t & ob') & Et & E'). apply Ok_inj in E'. subst b'. cbn [bs_objective bs_dataset] in *.
  destruct (update_settings _ _ _ _ _ Eu) as (R2 & B2 & K2 & P2).
  assert (reachable dbg cfg d s) as HR.
  { destruct G1 as (g0 & us & s0 & E0 & E2). exists g0, (us ++ [(ob_grads ob, obj_bounds ob)]), s0. split; [exact E0|]. unfold ds_run in *. rewrite foldM_app, E2. cbn [rbind foldM fst snd]. rewrite Es. reflexivity. }
  assert (setting dbg cfg d s sz (sched (S (bs_iter b)))) as HS.
  { split; [exact HR|]. split; [exact Esz|]. split; [apply HO|]. unfold nactive_examples. rewrite (dv_nact _ _ _ _ (ds_inv _ _ _ _ (reachable_ok _ _ _ _ _ HR))). unfold nact. pose proof (scaled_R (d_nexamples d) (c_example_fraction cfg) Hf1 ltac:(lia)) as (Hle & _). lia. }
  destruct (C26_leaves _ _ _ _ _ _ _ _ _ _ _ _ _ _ _ _ HS Et) as (rows' & gs & others & ob1 & Hrows' & _ & _ & HP & Hnd & Hgs & HL & HB & Ho1 & Ho2).
  assert (rows' = rows) as -> by exact (Ok_inj _ _ (eq_trans (eq_sym Hrows') Hrows)).
  assert (NoDup (map fst others)) as Hnd2. { destruct (example_sampling_enabled s); [apply increasing_nodup, Ho2; reflexivity|rewrite (Ho1 eq_refl); constructor]. }
  destruct (leaf_calls_preds _ _ _ _ _ _ Hnd HL) as (_ & La & _). destruct (oob_calls_preds _ _ _ _ Hnd2 HB) as (_ & Lb & P3).
  assert (forall i, In i rows -> i < d_nexamples d) as Hin0 by (intros i Hi; eapply run_rows_lt; [exact HR| |exact Hrows|exact Hi]; apply (scaled_R (d_nexamples d) (c_example_fraction cfg) Hf1 ltac:(lia))).
  assert (forall i, In i rows -> i < length (ob_preds ob)) as Hin by (intros i Hi; rewrite P2, L1; apply Hin0, Hi).
  pose proof (target_len _ d (well_formed_cols _ d HW) target Etg) as Htl.
  exists ob. split; [exact Eu|]. split; [exact Htl|]. split; [exact Hin0|]. intros delta c Hc.
  rewrite <- P2 in *. rewrite <- (fit_loss_perm kind delta target (ob_preds ob') _ _ HP), <- (fit_loss_perm kind delta target (ob_preds ob) _ _ HP), <- (Permutation_length HP).
  eapply Rle_trans; [|apply (leaves_fit kind delta target c ob ob1 gs Hnd HL)].
  - apply Req_le, Rsum_ext. intros i Hi. f_equal. pose proof (Permutation_in i HP Hi) as Hir. assert (i < length (ob_preds ob1)) as Hlt by (rewrite La; apply Hin, Hir).
    destruct (P3 i _ (nth_error_nth' (ob_preds ob1) (0%R : num Rops) Hlt)) as (_ & HNo). apply nth_error_nth, HNo. intros Hcc. destruct (example_sampling_enabled s); [|rewrite (Ho1 eq_refl) in Hcc; destruct Hcc].
    apply Ho2 in Hcc; [tauto|reflexivity].
  - apply Forall_forall. intros i Hi. pose proof (Permutation_in i HP Hi) as Hir. split; [change (i < @length (num Rops) target); rewrite Htl; apply Hin0, Hir|apply Hin, Hir].
  - intros gr v Hg Er. rewrite R2, R1.
    assert (incl (g_examples gr) rows) as Hinc. { intros i Hi. eapply Permutation_in; [exact HP|]. apply in_concat. exists (g_examples gr). split; [apply in_map, Hg|exact Hi]. }
    apply (Hc (g_examples gr) v); [apply Hgs, Hg| |exact Hinc|exact Er].
    rewrite <- (seq_length (d_nexamples d) 0). apply NoDup_incl_length; [|intros i Hi; apply in_seq; pose proof (Hin0 i (Hinc i Hi)); lia].
    clear - Hnd Hg. induction gs as [|g0 gs IH]; [destruct Hg|]. cbn [map concat] in Hnd. apply nodup_app in Hnd as (Hn1 & Hn2 & _). destruct Hg as [<-|Hg]; auto.
Qed.
End Round.

(** What the theorems ask of the data and settings: as C56. *)
Definition fittable (cfg : config Rops) (d : data Rops) (sched : nat -> nat -> list job -> list job) : Prop :=
  well_formed d /\ any_order sched /\ 0 < c_sample_freq cfg /\ (Z.of_nat (d_nexamples d) <= 2 ^ 31)%Z /\ (1 <= c_min_examples_leaf cfg)%N /\ (c_example_fraction cfg <= 1)%R /\
  (forall f col v, feat_type_of d f <> Ok Numerical -> get_feature d f = Ok col -> In v col -> category_R v) /\ (forall f nb, max_nbins d f = Ok nb -> (Z.of_nat nb <= 2 ^ 32)%Z).

(** L1, learning rate between 0 and 1.  One more iteration: over the examples the new tree was trained on, the sum of the absolute errors grows by at most the learning rate times r/1024 per example,
    r being the range of the residuals of the model without the new tree. *)
Theorem C67_l1 : forall dbg (cfg : config Rops) (d : data Rops) sched metrics g k b b' (target ps ps' : list R) rows (r : R), fittable cfg d sched -> (0 <= c_learning_rate cfg <= 1)%R ->
  boost_run Rmath dbg cfg d sched L1 metrics g k = Ok b -> boost_run Rmath dbg cfg d sched L1 metrics g (S k) = Ok b' -> get_target d = Ok target ->
  additive_predict (bs_ensemble b) d = Ok ps -> additive_predict (bs_ensemble b') d = Ok ps' -> example_rows (bs_dataset b') = Ok rows -> residual_range target ps r ->
  (Rsum (map (fun i => Rabs (nth i target 0 - nth i ps' 0)) rows) <= Rsum (map (fun i => Rabs (nth i target 0 - nth i ps 0)) rows) + INR (length rows) * (c_learning_rate cfg * (r / 1024)))%R.
Proof.
  intros dbg cfg d sched metrics g k b b' target ps ps' rows r (HW & HO & Hfr & Hn & Hmin & Hf1 & Hval & Hnb) Hlr E E' Et Ep Ep' Er Hrng.
  destruct (C25_running_predictions_exact _ _ _ _ _ _ _ _ _ HW HO Hfr Hn Hmin Hf1 Hval Hnb E) as (Q & Lq & _). destruct (C25_running_predictions_exact _ _ _ _ _ _ _ _ _ HW HO Hfr Hn Hmin Hf1 Hval Hnb E') as (Q' & _).
  assert (ps = ob_preds (bs_objective b)) as Hps by exact (Ok_inj _ _ (eq_trans (eq_sym Ep) Q)). assert (ps' = ob_preds (bs_objective b')) as -> by exact (Ok_inj _ _ (eq_trans (eq_sym Ep') Q')).
  destruct (round_loss dbg cfg d sched L1 metrics g HW HO Hn Hf1 k b b' target rows E E' Lq Et Er) as (ob & Eu & Lt & Hin & HC). rewrite <- Hps in *. change (num Rops) with R in *.
  destruct (kind_facts dbg cfg d sched L1 metrics g HO Hn Hf1 k b E) as (K & _). destruct (update_settings _ _ _ _ _ Eu) as (_ & _ & K2 & P2). rewrite <- Hps in P2. change (num Rops) with R in *.
  destruct Hrng as (i & j & Hi & Hj & Hij & Hr).
  assert (target <> []) as Hne by (intros ->; cbn in Hi; lia). assert (length ps = length target) as HL by congruence. destruct (residual_limits target ps HL Hne) as (a & c & Ha & Hc & Hac & El).
  assert (ob_bounds ob = (error_of target ps a, error_of target ps c)) as Hbs.
  { unfold obj_update in Eu. rewrite K in Eu. apply rbind_ok in Eu as (? & _ & Eu). apply rbind_ok in Eu as (? & _ & Eu). rewrite <- Hps in Eu. rewrite (El : m_limits Rmath (@residuals Rops target ps) = _) in Eu. apply Ok_inj in Eu. subst ob. reflexivity. }
  assert (error_of target ps a = error_of target ps i /\ error_of target ps c = error_of target ps j) as (Hai & Hcj). { pose proof (Hac i Hi). pose proof (Hac j Hj). pose proof (Hij a Ha). pose proof (Hij c Hc). lra. }
  rewrite Hai, Hcj in Hbs. clear a c Ha Hc Hac El Hai Hcj. apply (HC 0%R (c_learning_rate cfg * (r / 1024))%R). intros ex v Hex Hlen Hinc Ev. apply partial_step; [auto|lra|exact Hlr|].
  assert (error_of target ps i < error_of target ps j)%R as Hlt.
  { unfold raw_leaf_value in Ev. rewrite K2, K, Hbs in Ev. apply rbind_ok in Ev as (rs & _ & Ev). unfold median in Ev.
    destruct (Rlt_le_dec (error_of target ps i) (error_of target ps j)) as [H|H]; [exact H|exfalso].
    assert (error_of target ps j = error_of target ps i) as Heq by (pose proof (Hij i Hi); lra). rewrite Heq in Ev. exact (quantile_stuck _ _ _ _ _ Ev). }
  assert (in_range target (ob_preds ob) ex) as Hr2. { apply Forall_forall. intros m Hm. rewrite P2. change (num Rops) with R in *. rewrite HL, Lt. split; apply Hin, Hinc, Hm. }
  destruct (C40_l1_leaf target ex ob (error_of target ps i) (error_of target ps j) (eq_trans K2 K) Hr2 Hex ltac:(lia) Hbs Hlt) as (v' & m & Ev' & _ & _ & Hv).
  { apply Forall_forall. intros m Hm. rewrite P2. apply Hij. rewrite Lt. apply Hin, Hinc, Hm. }
  assert (v' = v) as -> by exact (Ok_inj _ _ (eq_trans (eq_sym Ev') Ev)). rewrite P2 in Hv. specialize (Hv 0%R). rewrite total_loss_0 in Hv. rewrite Hr. exact Hv.
Qed.
Print Assumptions C67_l1.

Lemma all_rows_kind dbg (cfg : config Rops) (d : data Rops) sched kind metrics g k b : any_order sched -> (Z.of_nat (d_nexamples d) <= 2 ^ 31)%Z -> c_example_fraction cfg = 1%R ->
  boost_run Rmath dbg cfg d sched kind metrics g k = Ok b -> example_rows (bs_dataset b) = Ok (seq 0 (d_nexamples d)).
Proof.
  intros HO Hn Hf E. assert (c_example_fraction cfg <= 1)%R as Hf1 by lra. destruct (kind_facts dbg cfg d sched kind metrics g HO Hn Hf1 k b E) as (_ & _ & _ & HR). pose proof (reachable_ok _ _ _ _ _ HR) as HI.
  assert (nlt Rops (c_example_fraction cfg) (nofZ Rops 1) = false) as Hlt by (cbn; apply Rlt_bool_false; lra).
  pose proof (ds_buf _ _ _ _ HI) as HB. rewrite Hlt in HB. unfold example_rows, example_sampling_enabled. rewrite HB. cbn [length Nat.eqb negb]. do 2 f_equal. unfold nactive_examples. rewrite (dv_nact _ _ _ _ (ds_inv _ _ _ _ HI)).
  unfold nact. apply (scaled_R (d_nexamples d) (c_example_fraction cfg) Hf1 ltac:(lia)), Hlt.
Qed.

(** L1 without example sampling, from [j] to [k] iterations: the sum of the absolute errors over all examples grows by at most the learning rate times r_i/1024 per example for each iteration i between,
    r_i being the range of the residuals after i iterations. *)
Theorem C67_rounds : forall dbg (cfg : config Rops) (d : data Rops) sched metrics g j k b b' (target ps ps' : list R) (r : nat -> R), fittable cfg d sched -> (0 <= c_learning_rate cfg <= 1)%R -> c_example_fraction cfg = 1%R -> j <= k ->
  boost_run Rmath dbg cfg d sched L1 metrics g j = Ok b -> boost_run Rmath dbg cfg d sched L1 metrics g k = Ok b' -> get_target d = Ok target -> additive_predict (bs_ensemble b) d = Ok ps -> additive_predict (bs_ensemble b') d = Ok ps' ->
  (forall i bi psi, j <= i < k -> boost_run Rmath dbg cfg d sched L1 metrics g i = Ok bi -> additive_predict (bs_ensemble bi) d = Ok psi -> residual_range target psi (r i)) ->
  (Rsum (map (fun i => Rabs (nth i target 0 - nth i ps' 0)) (seq 0 (d_nexamples d))) <=
   Rsum (map (fun i => Rabs (nth i target 0 - nth i ps 0)) (seq 0 (d_nexamples d))) + INR (d_nexamples d) * (c_learning_rate cfg * Rsum (map (fun i => r i / 1024) (seq j (k - j)))))%R.
Proof.
  intros dbg cfg d sched metrics g j k b b' target ps ps' r HF Hlr Hf Hjk E E' Et Ep Ep' Hr. revert b' ps' E' Ep' Hr. induction Hjk as [|k Hjk IH]; intros b' ps' E' Ep' Hr.
  - assert (b' = b) as -> by exact (Ok_inj _ _ (eq_trans (eq_sym E') E)). assert (ps' = ps) as -> by exact (Ok_inj _ _ (eq_trans (eq_sym Ep') Ep)). rewrite Nat.sub_diag. cbn [seq map Rsum]. lra.
  - pose proof HF as (HW & HO & Hfr & Hn & Hmin & Hf1 & Hval & Hnb). pose proof (boost_run_S _ _ _ _ _ _ _ _ _ _ _ E') as (b1 & sz & E1 & _). destruct (C25_running_predictions_exact _ _ _ _ _ _ _ _ _ HW HO Hfr Hn Hmin Hf1 Hval Hnb E1) as (Q & _).
    pose proof (C67_l1 dbg cfg d sched metrics g k b1 b' target _ ps' _ (r k) HF Hlr E1 E' Et Q Ep' (all_rows_kind _ _ _ _ _ _ _ _ _ HO Hn Hf E') (Hr k b1 _ ltac:(lia) E1 Q)) as HS. rewrite seq_length in HS.
    specialize (IH b1 _ E1 Q (fun i bi psi Hi => Hr i bi psi ltac:(lia))). replace (S k - j) with (S (k - j)) by lia. rewrite seq_S, map_app, Rsum_app. replace (j + (k - j)) with k by lia. cbn [map Rsum]. lra.
Qed.
Print Assumptions C67_rounds.

(** Huber, learning rate between 0 and 1.  With delta the magnitude of (a value within r/1024 of) the [huber_alpha]-quantile of the residuals, the sum of Huber's losses for that delta grows by at most the learning rate times
    delta^2/2 + delta r/1024 per example. *)
Theorem C67_huber : forall dbg (cfg : config Rops) (d : data Rops) sched metrics g k b b' (target ps ps' : list R) rows (r : R), fittable cfg d sched -> (0 <= c_learning_rate cfg <= 1)%R ->
  boost_run Rmath dbg cfg d sched Huber metrics g k = Ok b -> boost_run Rmath dbg cfg d sched Huber metrics g (S k) = Ok b' -> get_target d = Ok target ->
  additive_predict (bs_ensemble b) d = Ok ps -> additive_predict (bs_ensemble b') d = Ok ps' -> example_rows (bs_dataset b') = Ok rows -> residual_range target ps r ->
  exists q q' delta, residual_quantile target ps (c_huber_alpha cfg) q /\ (Rabs (q' - q) <= r / 1024)%R /\ delta = Rabs q' /\
  (Rsum (map (fun i => huber delta (nth i target 0 - nth i ps' 0)) rows) <= Rsum (map (fun i => huber delta (nth i target 0 - nth i ps 0)) rows) + INR (length rows) * (c_learning_rate cfg * (delta ^ 2 / 2 + delta * (r / 1024))))%R.
Proof.
  intros dbg cfg d sched metrics g k b b' target ps ps' rows r (HW & HO & Hfr & Hn & Hmin & Hf1 & Hval & Hnb) Hlr E E' Et Ep Ep' Er Hrng.
  destruct (C25_running_predictions_exact _ _ _ _ _ _ _ _ _ HW HO Hfr Hn Hmin Hf1 Hval Hnb E) as (Q & Lq & _). destruct (C25_running_predictions_exact _ _ _ _ _ _ _ _ _ HW HO Hfr Hn Hmin Hf1 Hval Hnb E') as (Q' & _).
  assert (ps = ob_preds (bs_objective b)) as Hps by exact (Ok_inj _ _ (eq_trans (eq_sym Ep) Q)). assert (ps' = ob_preds (bs_objective b')) as -> by exact (Ok_inj _ _ (eq_trans (eq_sym Ep') Q')).
  destruct (round_loss dbg cfg d sched Huber metrics g HW HO Hn Hf1 k b b' target rows E E' Lq Et Er) as (ob & Eu & Lt & Hin & HC). rewrite <- Hps in *. change (num Rops) with R in *.
  destruct (kind_facts dbg cfg d sched Huber metrics g HO Hn Hf1 k b E) as (K & _ & (_ & Kb) & _). specialize (Kb eq_refl). destruct (update_settings _ _ _ _ _ Eu) as (_ & _ & K2 & P2). rewrite <- Hps in P2. change (num Rops) with R in *.
  assert (0 < c_huber_alpha cfg < 1)%R as Ha.
  { destruct (start_bias _ _ _ _ _ _ _ _ _ E) as (tg0 & ob00 & Etg0 & Ei & _). unfold obj_initialize in Ei. cbn [ob_kind objective_new] in Ei. apply rbind_ok in Ei as (? & _ & Ei). apply rbind_ok in Ei as (? & X & _). destruct (nlt Rops (zero Rops) (c_huber_alpha cfg) && nlt Rops (c_huber_alpha cfg) (one Rops)) eqn:Qb; [|discriminate].
    apply andb_prop in Qb as (Q1 & Q2). cbn in Q1, Q2. destruct (Rlt_bool_spec 0 (c_huber_alpha cfg)); [|discriminate]. destruct (Rlt_bool_spec (c_huber_alpha cfg) 1); [|discriminate]. split; assumption. }
  destruct Hrng as (i & j & Hi & Hj & Hij & Hr). assert (0 < length target) as Hpos by lia.
  assert (target <> []) as Hne by (intros ->; cbn in Hi; lia). assert (length ps = length target) as HL by congruence. destruct (residual_limits target ps HL Hne) as (a & c & Ha' & Hc & Hac & El).
  assert (exists q', quantile Rops NBINS (c_huber_alpha cfg) (error_of target ps a, error_of target ps c) (@residuals Rops target ps) = Ok q' /\ ob_delta ob = Rabs q' /\ ob_bounds ob = (error_of target ps a, error_of target ps c)) as (q' & Eq & Hdl & Hbs).
  { unfold obj_update in Eu. rewrite K in Eu. apply rbind_ok in Eu as (? & _ & Eu). apply rbind_ok in Eu as (? & _ & Eu). rewrite <- Hps in Eu. rewrite (El : m_limits Rmath (@residuals Rops target ps) = _) in Eu. rewrite Kb in Eu.
    apply rbind_ok in Eu as (q' & Eq & Eu). exists q'. split; [exact Eq|]. apply Ok_inj in Eu. subst ob. split; reflexivity. }
  assert (error_of target ps a = error_of target ps i /\ error_of target ps c = error_of target ps j) as (Hai & Hcj). { pose proof (Hac i Hi). pose proof (Hac j Hj). pose proof (Hij a Ha'). pose proof (Hij c Hc). lra. }
  rewrite Hai, Hcj in Hbs, Eq. clear a c Ha' Hc Hac El Hai Hcj.
  assert (error_of target ps i < error_of target ps j)%R as Hlt.
  { destruct (Rlt_le_dec (error_of target ps i) (error_of target ps j)) as [H|H]; [exact H|exfalso].
    assert (error_of target ps j = error_of target ps i) as Heq by (pose proof (Hij i Hi); lra). rewrite Heq in Eq. exact (quantile_stuck _ _ _ _ _ Eq). }
  destruct (floor_rank _ _ Hpos Ha) as (rank & Hrank & Hrk).
  destruct (sorted_exists (@residuals Rops target ps)) as (srt & Hsrt).
  assert (length (@residuals Rops target ps) = length target) as Hlr' by (rewrite residuals_seq by exact HL; rewrite map_length, seq_length; reflexivity).
  destruct (quantile_R NBINS (c_huber_alpha cfg) (error_of target ps i) (error_of target ps j) (@residuals Rops target ps) srt rank) as (q'' & Eq' & Hq).
  { unfold NBINS. lia. } { unfold NBINS. lia. } { exact Hlt. }
  { apply Forall_forall. intros x Hx. apply (residuals_error target ps x HL) in Hx as (m & Hm & ->). apply Hij, Hm. }
  { exact Hsrt. } { change (num Rops) with R in *. rewrite Hlr'. lia. } { change (num Rops) with R in *. rewrite Hlr'. exact Hrank. } { change (num Rops) with R in *. rewrite Hlr'. exact Hrk. }
  assert (q'' = q') as -> by exact (Ok_inj _ _ (eq_trans (eq_sym Eq') Eq)).
  replace (INR NBINS) with 1024%R in Hq by (rewrite INR_IZR_INZ; reflexivity).
  exists (nth rank srt 0%R), q', (Rabs q'). split; [exists srt, rank; rewrite <- residuals_seq by exact HL; auto|]. split; [rewrite Hr; exact Hq|]. split; [reflexivity|].
  set (delta := Rabs q') in *. assert (0 <= delta)%R as Hd0 by (subst delta; apply Rabs_pos). clearbody delta.
  apply (HC delta (c_learning_rate cfg * (delta ^ 2 / 2 + delta * (r / 1024)))%R). intros ex v Hex Hlen Hinc Ev. apply partial_step; [auto|exact Hd0|exact Hlr|].
  assert (in_range target (ob_preds ob) ex) as Hr2. { apply Forall_forall. intros m Hm. rewrite P2. change (num Rops) with R in *. rewrite HL, Lt. split; apply Hin, Hinc, Hm. }
  destruct (C40_huber_leaf target ex ob v (eq_trans K2 K) ltac:(rewrite Hdl; exact Hd0) Hr2 Hex Ev) as (m & Em & Hvm). rewrite Hdl, P2 in Hvm. rewrite Hbs, P2 in Em. change (num Rops) with R in *. rewrite P2 in Hr2.
  destruct (median_leaf target ps ex (error_of target ps i) (error_of target ps j) m Hex ltac:(lia) Hlt) as (m0 & Hm0 & Hmm); [|exact Hr2|exact Em|].
  { apply Forall_forall. intros x Hx. apply Hij. rewrite Lt. apply Hin, Hinc, Hx. }
  eapply Rle_trans; [exact Hvm|]. rewrite <- Hr in Hmm. specialize (Hm0 0%R). rewrite total_loss_0 in Hm0. unfold total_loss, fit_loss in *. cbn [loss] in *.
  eapply Rle_trans; [apply (Rsum_le _ (fun x => delta * (Rabs (nth x target 0 - (nth x ps 0 + m0)) + r / 1024)))%R|].
  { intros x _. eapply Rle_trans; [apply huber_near, Hd0|]. apply Rmult_le_compat_l; [exact Hd0|]. pose proof (Rabs_triang (nth x target 0 - (nth x ps 0 + m0)) (m0 - m))%R as T. rewrite (Rabs_minus_sym m0 m) in T.
    replace (nth x target 0 - (nth x ps 0 + m0) + (m0 - m))%R with (nth x target 0 - (nth x ps 0 + m))%R in T by ring. lra. }
  rewrite Rsum_scale, Rsum_plus, Rsum_const. 
  assert (delta * Rsum (map (fun x => Rabs (nth x target 0 - nth x ps 0)) ex) <= Rsum (map (fun x => huber delta (nth x target 0 - nth x ps 0)) ex) + INR (length ex) * (delta ^ 2 / 2))%R as HA.
  { rewrite <- Rsum_scale, <- Rsum_const, <- Rsum_plus. apply Rsum_le. intros x _. pose proof (huber_near delta (nth x target 0 - nth x ps 0)%R Hd0). lra. }
  pose proof (Rmult_le_compat_l _ _ _ Hd0 Hm0). lra.
Qed.
Print Assumptions C67_huber.

(** The hypotheses of the theorems: six examples with the residuals 0 and -1 before the first tree (range 1). *)
Example C67_ex : fittable exr_cfg1 exr_data bst_sched /\ (0 <= c_learning_rate exr_cfg1 <= 1)%R /\ c_example_fraction exr_cfg1 = 1%R /\ get_target exr_data = Ok [1; 0; 1; 0; 1; 1]%R /\
  (forall kind, kind = L1 \/ kind = Huber -> exists b b' ps ps' rows, boost_run Rmath true exr_cfg1 exr_data bst_sched kind [] ex_rng 0 = Ok b /\ boost_run Rmath true exr_cfg1 exr_data bst_sched kind [] ex_rng 1 = Ok b' /\
    additive_predict (bs_ensemble b) exr_data = Ok ps /\ additive_predict (bs_ensemble b') exr_data = Ok ps' /\ example_rows (bs_dataset b') = Ok rows) /\ residual_range [1; 0; 1; 0; 1; 1]%R (repeat 1%R 6) 1.
Proof.
  destruct C66_ex as (_ & (HW & HO & Hfr & Hn & Hmin & Hf1 & Hval & Hnb) & Htgt & _ & _ & _ & _ & _ & _ & HR).
  assert (fittable exr_cfg1 exr_data bst_sched) as HB by (do 4 (split; [assumption|]); split; [rewrite Hmin; lia|]; auto).
  split; [exact HB|]. split; [cbn; lra|]. split; [reflexivity|]. split; [exact Htgt|]. split; [|exact HR]. intros kind Hk. destruct C49_median_ex as (_ & _ & _ & X). destruct (X kind Hk) as (b' & E' & _).
  destruct (boost_run_S _ _ _ _ _ _ _ _ _ _ _ E') as (b & sz & E & _). assert (1 <= c_min_examples_leaf exr_cfg1)%N as Hmin' by (rewrite Hmin; lia).
  destruct (C25_running_predictions_exact _ _ _ _ _ _ _ _ _ HW HO Hfr Hn Hmin' Hf1 Hval Hnb E) as (Q & _). destruct (C25_running_predictions_exact _ _ _ _ _ _ _ _ _ HW HO Hfr Hn Hmin' Hf1 Hval Hnb E') as (Q' & _).
  exists b, b', (ob_preds (bs_objective b)), (ob_preds (bs_objective b')), (seq 0 6). split; [exact E|]. split; [exact E'|]. split; [exact Q|]. split; [exact Q'|].
  apply (all_rows_kind true exr_cfg1 exr_data bst_sched kind [] ex_rng 1 b' HO Hn eq_refl E').
Qed.
