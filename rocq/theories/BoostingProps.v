(** Property C66: each tree of the model is fitted to the gradients of the objective at the predictions of the trees before it (exact arithmetic). *)
From Coq Require Import Reals Lra Permutation.
From Verif Require Import Base BaseProofs BitModel BitSpec F32 Num DataModel DataSpec Config TreeModel TreeSpec DatasetModel DatasetSpec DatasetProofs3 DatasetProofs4 DatasetProofs5 DatasetProps
  RouteProps LearnerModel LearnerSpec GainSpec TrainSpec LearnerProofs3 LearnerProps TrainProps ObjectiveModel ObjectiveSpec ObjectiveProofs ObjectiveProps MetricModel MetricSpec MetricProps BoostModel BoostSpec BoostProofs BoostProps TotalSpec TotalProps
  GreedySpec GreedyProofs GreedyProps FitSpec FitProps PrefixProps MedianProps BoostingSpec BoostingProofs.
Local Close Scope R_scope.

(** What the theorems ask of the data and settings (as C25). *)
Definition boostable (cfg : config Rops) (d : data Rops) (sched : nat -> nat -> list job -> list job) : Prop :=
  well_formed d /\ any_order sched /\ 0 < c_sample_freq cfg /\ (Z.of_nat (d_nexamples d) <= 2 ^ 31)%Z /\ c_min_examples_leaf cfg = 1%N /\ (c_example_fraction cfg <= 1)%R /\
  (forall f col v, feat_type_of d f <> Ok Numerical -> get_feature d f = Ok col -> In v col -> category_R v) /\ (forall f nb, max_nbins d f = Ok nb -> (Z.of_nat nb <= 2 ^ 32)%Z).

Lemma trees_round dbg cfg d sched kind metrics g k b i t : boostable cfg d sched -> boost_run Rmath dbg cfg d sched kind metrics g k = Ok b -> nth_error (at_trees (bs_ensemble b)) i = Some t ->
  exists ob0 ps target ob s, ob_kind ob0 = kind /\ ((kind = Binary -> ob_bound ob0 = c_binary_gradient_bound cfg) /\ (kind = Huber -> ob_alpha ob0 = c_huber_alpha cfg)) /\ ob_preds ob0 = ps /\ additive_predict (mk_add (at_bias (bs_ensemble b)) (firstn i (at_trees (bs_ensemble b)))) d = Ok ps /\ length ps = d_nexamples d /\
    get_target d = Ok target /\ length target = d_nexamples d /\ obj_update Rmath target ob0 = Ok ob /\ reachable dbg cfg d s /\ (forall rows, example_rows s = Ok rows -> (forall j, In j rows -> j < d_nexamples d) /\ NoDup rows) /\
    forall lo hi : R, obj_bounds ob = (lo, hi) -> (lo < hi)%R -> boosting_tree cfg s t lo hi (fun j => nth j (ob_grads ob) 0%R) (fun ex v => raw_leaf_value Rmath target ex ob = Ok v).
Proof.
  intros (HW & HO & Hfr & Hn & Hmin & Hf1 & Hval & Hnb) E Ht.
  assert (i < length (at_trees (bs_ensemble b))) as Hi by (apply nth_error_Some; rewrite Ht; discriminate).
  assert (length (at_trees (bs_ensemble b)) = k) as HL by (destruct (run_prefix Rops Rmath dbg cfg d sched kind metrics g k k b (le_n k) E) as (? & _ & _ & X); exact X).
  destruct (run_prefix Rops Rmath dbg cfg d sched kind metrics g (S i) k b ltac:(lia) E) as (b1 & E1 & H1 & _).
  destruct (round dbg cfg d sched kind metrics g HW HO Hn Hf1 i b1 Hmin E1) as (b0 & target & ob & s & t' & E0 & Etg & Eu & HR & Hpush & HB).
  destruct (run_prefix Rops Rmath dbg cfg d sched kind metrics g i k b ltac:(lia) E) as (b0' & E0' & H0 & _). assert (b0' = b0) as -> by exact (Ok_inj _ _ (eq_trans (eq_sym E0') E0)).
  destruct (C25_running_predictions_exact dbg cfg d sched kind metrics g i b0 HW HO Hfr Hn ltac:(rewrite Hmin; lia) Hf1 Hval Hnb E0) as (Q & Lq & _).
  assert (t' = t) as ->.
  { rewrite H1, H0 in Hpush. unfold push_tree in Hpush. cbn [at_bias at_trees] in Hpush. assert (firstn (S i) (at_trees (bs_ensemble b)) = firstn i (at_trees (bs_ensemble b)) ++ [t']) as X by (injection Hpush as X; exact X).
    apply (f_equal (fun l => nth_error l i)) in X. assert (length (firstn i (at_trees (bs_ensemble b))) = i) as Lf by (apply firstn_length_le; lia).
    rewrite nth_error_app2 in X by lia. rewrite Lf, Nat.sub_diag in X. cbn [nth_error] in X. rewrite <- (firstn_skipn (S i) (at_trees (bs_ensemble b))) in Ht.
    rewrite nth_error_app1 in Ht by (rewrite firstn_length_le; lia). rewrite Ht in X. injection X as ->. reflexivity. }
  destruct (kind_facts dbg cfg d sched kind metrics g HO Hn Hf1 i b0 E0) as (K & _ & Kb & _).
  exists (bs_objective b0), (ob_preds (bs_objective b0)), target, ob, s. split; [exact K|]. split; [exact Kb|]. split; [reflexivity|]. split; [rewrite <- H0; exact Q|]. split; [exact Lq|]. split; [exact Etg|].
  split; [apply (target_len _ d (well_formed_cols _ d HW) target Etg)|]. split; [exact Eu|]. split; [exact HR|]. split; [|exact HB].
  intros rows Hrows. split; [|eapply rows_nodup; eassumption]. intros j Hj. eapply run_rows_lt; [exact HR| |exact Hrows|exact Hj]. apply (scaled_R (d_nexamples d) (c_example_fraction cfg) Hf1 ltac:(lia)).
Qed.

Lemma start_bias dbg cfg d sched kind metrics g k b : boost_run Rmath dbg cfg d sched kind metrics g k = Ok b ->
  exists target ob, get_target d = Ok target /\ obj_initialize Rmath dbg cfg target (objective_new Rops kind) = Ok ob /\ at_bias (bs_ensemble b) = ob_bias ob /\ length (at_trees (bs_ensemble b)) = k.
Proof.
  intros E. destruct (run_prefix Rops Rmath dbg cfg d sched kind metrics g 0 k b ltac:(lia) E) as (b0 & E0 & H0 & HL).
  unfold boost_run in E0. apply rbind_ok in E0 as (b1 & E0 & X). apply rbind_ok in X as (sz & _ & X). cbn [seq foldM] in X. apply Ok_inj in X. subst b1. unfold boost_start in E0.
  apply rbind_ok in E0 as (s & Es & E0). apply rbind_ok in E0 as (tg & Etg & E0). apply rbind_ok in E0 as (ob & Eo & E0). apply Ok_inj in E0. subst b0. exists tg, ob. split; [exact Etg|]. split; [exact Eo|]. split; [|exact HL].
  cbn [bs_ensemble] in H0. apply (f_equal at_bias) in H0. cbn in H0. symmetry. exact H0.
Qed.

(** The gradients after an update, one by one. *)
Lemma grads_nth target (ob ob' : objective Rops) j : obj_update Rmath target ob = Ok ob' -> j < length target -> nth j (ob_grads ob') 0%R = gradient Rmath (ob_kind ob) (ob_delta ob') (nth j target 0%R) (nth j (ob_preds ob) 0%R).
Proof.
  intros E Hj. destruct (C40_update _ _ _ _ _ E) as (L & _ & _ & Lg & H). apply nth_error_nth. apply H; apply nth_error_nth'; [exact Hj|]. change (num Rops) with R in *. rewrite L. exact Hj.
Qed.
Lemma limits_attained (l : list R) : l <> [] -> In (fst (R_limits l)) l /\ In (snd (R_limits l)) l.
Proof.
  destruct l as [|a l]; [congruence|]. intros _. cbn [R_limits fst snd]. revert a. induction l as [|b l IH]; intros a; [cbn; auto|]. cbn [fold_left].
  destruct (IH (Rmin a b)) as [H1 _], (IH (Rmax a b)) as [_ H2]. split.
  - destruct H1 as [H1|H1]; [|right; right; exact H1]. rewrite <- H1. unfold Rmin. destruct (Rle_dec a b); [left|right; left]; reflexivity.
  - destruct H2 as [H2|H2]; [|right; right; exact H2]. rewrite <- H2. unfold Rmax. destruct (Rle_dec a b); [right; left|left]; reflexivity.
Qed.
Lemma residuals_error (target ps : list R) x : length ps = length target -> (In x (@residuals Rops target ps) <-> exists i, i < length target /\ x = error_of target ps i).
Proof.
  intros HL. unfold residuals, error_of. rewrite in_map_iff. split.
  - intros ((t & p) & <- & Hin). apply (In_nth _ _ (0%R, 0%R)) in Hin as (i & Hi & Ei). rewrite combine_length in Hi. exists i. split; [change (num Rops) with R in *; lia|].
    rewrite combine_nth in Ei by (symmetry; exact HL). injection Ei as <- <-. reflexivity.
  - intros (i & Hi & ->). exists (nth i target 0%R, nth i ps 0%R). split; [reflexivity|]. rewrite <- combine_nth by (symmetry; exact HL). apply nth_In. rewrite combine_length. change (num Rops) with R in *. lia.
Qed.
Lemma residual_limits (target ps : list R) : length ps = length target -> target <> [] -> exists i j, i < length target /\ j < length target /\
  (forall m, m < length target -> (error_of target ps i <= error_of target ps m <= error_of target ps j)%R) /\ R_limits (@residuals Rops target ps) = (error_of target ps i, error_of target ps j).
Proof.
  intros HL Hne. assert (@residuals Rops target ps <> []) as Hr. { destruct target, ps; cbn in *; congruence. }
  destruct (limits_attained _ Hr) as [A1 A2]. apply (residuals_error target ps _ HL) in A1 as (i & Hi & Ei). apply (residuals_error target ps _ HL) in A2 as (j & Hj & Ej).
  exists i, j. split; [exact Hi|]. split; [exact Hj|]. split.
  - intros m Hm. rewrite <- Ei, <- Ej. apply R_limits_range. apply (residuals_error target ps _ HL). eauto.
  - rewrite <- Ei, <- Ej. apply surjective_pairing.
Qed.

(** L2: training starts from the mean of the targets.  Each tree is grown for the gradients prediction - target, where the predictions are those of the model without it and the later trees,
    discretised between -B and B for the smaller magnitude B of the least and the largest residual, and each of its leaves adds the learning rate times the mean residual of the examples there. *)
Theorem C66_l2 : forall dbg cfg d sched metrics g k b (target : list R), boostable cfg d sched -> boost_run Rmath dbg cfg d sched L2 metrics g k = Ok b -> get_target d = Ok target ->
  at_bias (bs_ensemble b) = mean_over (fun j => nth j target 0%R) (seq 0 (length target)) /\ length (at_trees (bs_ensemble b)) = k /\
  forall i t, nth_error (at_trees (bs_ensemble b)) i = Some t -> exists (ps : list R) (B : R) s,
    additive_predict (mk_add (at_bias (bs_ensemble b)) (firstn i (at_trees (bs_ensemble b)))) d = Ok ps /\ clip_bound target ps B /\ reachable dbg cfg d s /\
    ((0 < B)%R -> boosting_tree cfg s t (- B) B (fun j => (nth j ps 0 - nth j target 0)%R) (fun examples v => v = mean_over (error_of target ps) examples)).
Proof.
  intros dbg cfg d sched metrics g k b target HB E Et. split; [|split].
  - destruct (start_bias _ _ _ _ _ _ _ _ _ E) as (tg & ob & Etg & Eo & -> & _). assert (tg = target) as -> by exact (Ok_inj _ _ (eq_trans (eq_sym Etg) Et)).
    cbn [obj_initialize objective_new ob_kind] in Eo. apply Ok_inj in Eo. subst ob. cbn [initialize_base ob_bias]. unfold mean_over. rewrite seq_length. change (num Rops) with R in *.
    assert (map (fun j => nth j target 0%R) (seq 0 (length target)) = target) as -> by (clear; induction target as [|x l IH]; [reflexivity|]; cbn [length seq map nth]; f_equal; rewrite <- seq_shift, map_map; exact IH).
    pose proof (fold_Rsum (fun x => x) target 0%R) as X. cbn beta in X. rewrite map_id, Rplus_0_l in X. change (@nsum Rops target / IZR (Z.of_nat (length target)) = GainSpec.Rsum target / INR (length target))%R.
    rewrite <- INR_IZR_INZ. f_equal. exact X.
  - destruct (start_bias _ _ _ _ _ _ _ _ _ E) as (tg & ob & _ & _ & _ & HL). exact HL.
  - intros i t Ht. destruct (trees_round _ _ _ _ _ _ _ _ _ _ _ HB E Ht) as (ob0 & ps & tg & ob & s & K & _ & Eps & Ep & Lp & Etg & Lt & Eu & HR & Hrows & HT).
    assert (tg = target) as -> by exact (Ok_inj _ _ (eq_trans (eq_sym Etg) Et)). change (num Rops) with R in *.
    assert (target <> []) as Hne. { destruct HB as ((Hpos & _) & _). intros ->. cbn in Lt. lia. }
    assert (length ps = length target) as HL by congruence. destruct (residual_limits target ps HL Hne) as (a & c & Ha & Hc & Hac & El).
    exists ps, (Rmin (Rabs (error_of target ps a)) (Rabs (error_of target ps c))), s. split; [exact Ep|]. split; [exists a, c; auto|]. split; [exact HR|]. intros HBp. set (B := Rmin _ _) in *.
    destruct (update_settings _ _ _ _ _ Eu) as (R2 & _ & K2 & P2).
    assert (obj_bounds ob = (- B, B)%R) as Hbd.
    { unfold obj_update in Eu. rewrite K in Eu. apply rbind_ok in Eu as (? & _ & Eu). apply rbind_ok in Eu as (? & _ & Eu). rewrite Eps in Eu. rewrite (El : m_limits Rmath (@residuals Rops target ps) = _) in Eu. apply Ok_inj in Eu. subst ob. unfold obj_bounds. cbn [ob_kind]. reflexivity. }
    specialize (HT (- B)%R B Hbd ltac:(lra)). revert HT. apply boosting_tree_mono. intros rows Er. destruct (Hrows rows Er) as (Hrows' & HND). clear Hrows. rename Hrows' into Hrows. split; [|split; [exact HND|]].
    + intros j Hj. apply Hrows in Hj. rewrite <- Lt in Hj. pose proof (grads_nth target ob0 ob j Eu Hj) as X. rewrite K, Eps in X. etransitivity; [exact X|]. change (- (nth j target 0 - nth j ps 0) = nth j ps 0 - nth j target 0)%R. ring.
    + intros ex v Hex Hnd Hin Ev. unfold raw_leaf_value in Ev. rewrite K2, K in Ev.
      assert (in_range target (ob_preds ob) ex) as Hr. { apply Forall_forall. intros j Hj. rewrite P2, Eps. change (num Rops) with R in *. rewrite Lt, Lp. split; apply Hrows, Hin, Hj. }
      pose proof (sum_residual target (ob_preds ob) ex 0 Hr) as S. apply rbind_ok in Ev as (sm & Es & Ev). assert (sm = (0 + MetricSpec.Rsum (map (resid target (ob_preds ob)) ex))%R) as -> by (symmetry; exact (Ok_inj _ _ (eq_trans (eq_sym S) Es))).
      apply Ok_inj in Ev. subst v. unfold mean_over. change ((0 + MetricSpec.Rsum (map (resid target (ob_preds ob)) ex)) / IZR (Z.of_nat (length ex)) = GainSpec.Rsum (map (error_of target ps) ex) / INR (length ex))%R.
     
      rewrite Rplus_0_l, <- INR_IZR_INZ, P2, Eps. reflexivity.
Qed.
Print Assumptions C66_l2.

(** L1: each tree is grown for the gradients -1 (target at or above the prediction) and 1 (below), between -1 and 1; each of its leaves adds the learning rate times a value
    within 1/1024 of the range of the residuals of a best constant for the examples there. *)
Definition residual_range (target ps : list R) (r : R) : Prop :=
  exists i j, i < length target /\ j < length target /\ (forall m, m < length target -> (error_of target ps i <= error_of target ps m <= error_of target ps j)%R) /\ r = (error_of target ps j - error_of target ps i)%R.
Theorem C66_l1 : forall dbg cfg d sched metrics g k b (target : list R), boostable cfg d sched -> boost_run Rmath dbg cfg d sched L1 metrics g k = Ok b -> get_target d = Ok target ->
  length (at_trees (bs_ensemble b)) = k /\
  forall i t, nth_error (at_trees (bs_ensemble b)) i = Some t -> exists (ps : list R) (r : R) s,
    additive_predict (mk_add (at_bias (bs_ensemble b)) (firstn i (at_trees (bs_ensemble b)))) d = Ok ps /\ residual_range target ps r /\ (0 < r)%R /\ reachable dbg cfg d s /\
    boosting_tree cfg s t (-1) 1 (fun j => if Rlt_dec (error_of target ps j) 0 then 1%R else (-1)%R)
      (fun examples v => exists m, minimises (total_loss L1 0 target ps examples) m /\ (Rabs (v - m) <= r / 1024)%R).
Proof.
  intros dbg cfg d sched metrics g k b target HB E Et. split.
  - destruct (start_bias _ _ _ _ _ _ _ _ _ E) as (tg & ob & _ & _ & _ & HL). exact HL.
  - intros i t Ht. destruct (trees_round _ _ _ _ _ _ _ _ _ _ _ HB E Ht) as (ob0 & ps & tg & ob & s & K & _ & Eps & Ep & Lp & Etg & Lt & Eu & HR & Hrows & HT).
    assert (tg = target) as -> by exact (Ok_inj _ _ (eq_trans (eq_sym Etg) Et)). change (num Rops) with R in *.
    assert (target <> []) as Hne. { destruct HB as ((Hpos & _) & _). intros ->. cbn in Lt. lia. }
    assert (length ps = length target) as HL by congruence. destruct (residual_limits target ps HL Hne) as (a & c & Ha & Hc & Hac & El).
    destruct (update_settings _ _ _ _ _ Eu) as (R2 & _ & K2 & P2).
    assert (obj_bounds ob = (-1, 1)%R /\ ob_bounds ob = (error_of target ps a, error_of target ps c)) as (Hbd & Hbs).
    { unfold obj_update in Eu. rewrite K in Eu. apply rbind_ok in Eu as (? & _ & Eu). apply rbind_ok in Eu as (? & _ & Eu). rewrite Eps in Eu. rewrite (El : m_limits Rmath (@residuals Rops target ps) = _) in Eu. apply Ok_inj in Eu. subst ob. unfold obj_bounds. cbn [ob_kind ob_bounds]. split; reflexivity. }
    specialize (HT (-1)%R 1%R Hbd ltac:(lra)).
    assert (forall ex v, ex <> [] -> raw_leaf_value Rmath target ex ob = Ok v -> (error_of target ps a < error_of target ps c)%R) as Hlt.
    { intros ex v _ Ev. unfold raw_leaf_value in Ev. rewrite K2, K, Hbs in Ev. apply rbind_ok in Ev as (rs & _ & Ev). unfold median in Ev.
      destruct (Rlt_le_dec (error_of target ps a) (error_of target ps c)) as [H|H]; [exact H|exfalso].
      assert (error_of target ps c = error_of target ps a) as Heq by (pose proof (Hac a Ha); lra). rewrite Heq in Ev. exact (quantile_stuck _ _ _ _ _ Ev). }
    assert (error_of target ps a < error_of target ps c)%R as Hlt'.
    { destruct HT as (rows & _ & HG). cbv zeta in HG. clear - HG Hlt. induction HG as [r m l Hi Hs (Hn & v & Hf & Hv)|]; [|assumption]. eapply Hlt; [|exact Hf]. destruct l; [congruence|discriminate]. }
    exists ps, (error_of target ps c - error_of target ps a)%R, s. split; [exact Ep|]. split; [exists a, c; auto|]. split; [lra|]. split; [exact HR|].
    revert HT. apply boosting_tree_mono. intros rows Er. destruct (Hrows rows Er) as (Hrows' & HND). clear Hrows. rename Hrows' into Hrows. split; [|split; [exact HND|]].
    + intros j Hj. apply Hrows in Hj. rewrite <- Lt in Hj. pose proof (grads_nth target ob0 ob j Eu Hj) as X. rewrite K, Eps in X. etransitivity; [exact X|].
      change (- (if Flocq.Core.Raux.Rlt_bool (error_of target ps j) 0 then -1 else 1) = if Rlt_dec (error_of target ps j) 0 then 1 else -1)%R.
      destruct (Rlt_dec (error_of target ps j) 0) as [H|H]; [rewrite Flocq.Core.Raux.Rlt_bool_true by exact H; ring|rewrite Flocq.Core.Raux.Rlt_bool_false by lra; ring].
    + intros ex v Hex Hnd Hin Ev.
      assert (in_range target (ob_preds ob) ex) as Hr. { apply Forall_forall. intros j Hj. rewrite P2, Eps. change (num Rops) with R in *. rewrite Lt, Lp. split; apply Hrows, Hin, Hj. }
      assert (length ex <= d_nexamples d) as Hlen.
      { rewrite <- (seq_length (d_nexamples d) 0). apply NoDup_incl_length; [exact Hnd|]. intros j Hj. apply in_seq. pose proof (Hrows j (Hin j Hj)). lia. }
      assert (Z.of_nat (d_nexamples d) <= 2 ^ 31)%Z as Hn by apply HB.
      destruct (C40_l1_leaf target ex ob (error_of target ps a) (error_of target ps c) (eq_trans K2 K) Hr Hex ltac:(lia) Hbs Hlt') as (v' & m & Ev' & Hm & Hv & _).
      { apply Forall_forall. intros j Hj. rewrite P2, Eps. apply Hac. rewrite Lt. apply Hrows, Hin, Hj. }
      assert (v' = v) as -> by exact (Ok_inj _ _ (eq_trans (eq_sym Ev') Ev)). rewrite P2, Eps in Hm. exists m. auto.
Qed.
Print Assumptions C66_l1.

(** Binary (targets 0 and 1): each tree is grown for the derivatives of the logistic loss of the examples at the predictions, between -[binary_gradient_bound] and [binary_gradient_bound]; each of its leaves adds the
    learning rate times one Newton step for the loss of the examples there: minus its first derivative over the second plus 2^-23. *)
Theorem C66_binary : forall dbg cfg d sched metrics g k b (target : list R), boostable cfg d sched -> Forall class_target target -> (0 < c_binary_gradient_bound cfg)%R ->
  boost_run Rmath dbg cfg d sched Binary metrics g k = Ok b -> get_target d = Ok target ->
  length (at_trees (bs_ensemble b)) = k /\
  forall i t, nth_error (at_trees (bs_ensemble b)) i = Some t -> exists (ps : list R) s grad,
    additive_predict (mk_add (at_bias (bs_ensemble b)) (firstn i (at_trees (bs_ensemble b)))) d = Ok ps /\ reachable dbg cfg d s /\
    (forall j, derivable_pt_lim (loss Binary 0 (nth j target 0%R)) (nth j ps 0%R) (grad j)) /\
    boosting_tree cfg s t (- c_binary_gradient_bound cfg) (c_binary_gradient_bound cfg) grad
      (fun examples v => exists (G : R -> R) (H : R), (forall u, derivable_pt_lim (total_loss Binary 0 target ps examples) u (G u)) /\ derivable_pt_lim G 0 H /\ v = (- G 0 / (H + / 8388608))%R).
Proof.
  intros dbg cfg d sched metrics g k b target HB HC Hbp E Et. split.
  - destruct (start_bias _ _ _ _ _ _ _ _ _ E) as (tg & ob & _ & _ & _ & HL). exact HL.
  - intros i t Ht. destruct (trees_round _ _ _ _ _ _ _ _ _ _ _ HB E Ht) as (ob0 & ps & tg & ob & s & K & Kb & Eps & Ep & Lp & Etg & Lt & Eu & HR & Hrows & HT).
    assert (tg = target) as -> by exact (Ok_inj _ _ (eq_trans (eq_sym Etg) Et)). change (num Rops) with R in *.
    assert (length ps = length target) as HL by congruence.
    destruct (update_settings _ _ _ _ _ Eu) as (R2 & B2 & K2 & P2).
    assert (obj_bounds ob = (- c_binary_gradient_bound cfg, c_binary_gradient_bound cfg)%R) as Hbd by (unfold obj_bounds; rewrite K2, K, B2, (proj1 Kb eq_refl); reflexivity).
    specialize (HT _ _ Hbd ltac:(lra)).
    exists ps, s, (fun j => gradient Rmath Binary 0%R (nth j target 0%R) (nth j ps 0%R)). split; [exact Ep|]. split; [exact HR|]. split; [intros j; apply C40_gradient; discriminate|].
    revert HT. apply boosting_tree_mono. intros rows Er. destruct (Hrows rows Er) as (Hrows' & HND). clear Hrows. rename Hrows' into Hrows. split; [|split; [exact HND|]].
    + intros j Hj. apply Hrows in Hj. rewrite <- Lt in Hj. pose proof (grads_nth target ob0 ob j Eu Hj) as X. rewrite K, Eps in X. exact X.
    + intros ex v Hex Hnd Hin Ev.
      destruct (C40_binary_leaf target ex ob v (eq_trans K2 K)) as (G & H & HG & HH & Hv); [| |exact Ev|].
      { apply Forall_forall. intros j Hj. rewrite Forall_forall in HC. apply HC, nth_In. rewrite Lt. apply Hrows, Hin, Hj. }
      { intros j Hj. assert (j < length target) as Hlt by (rewrite Lt; apply Hrows, Hin, Hj). destruct (C40_update _ _ _ _ _ Eu) as (L & _ & _ & Lg & HU).
        assert (nth_error (ob_preds ob0) j = Some (nth j ps 0%R)) as Hpj by (rewrite Eps; apply nth_error_nth'; change (num Rops) with R in *; lia).
        pose proof (HU j _ _ (nth_error_nth' target 0%R Hlt) Hpj) as X. rewrite K in X. rewrite P2, Eps. etransitivity; [exact X|]. reflexivity. }
      rewrite P2, Eps in *. set (g0 := fun u => MetricSpec.Rsum (map (fun j => gradient Rmath Binary 0%R (nth j target 0%R) (nth j ps 0%R + u)%R) ex)) in *. exists g0, H.
      assert (forall u, derivable_pt_lim (total_loss Binary 0 target ps ex) u (g0 u)) as HGu.
      { intros u. unfold total_loss, g0. apply (Rsum_derivable (fun j u => loss Binary 0 (nth j target 0%R) (nth j ps 0%R + u)%R) (fun j u => gradient Rmath Binary 0%R (nth j target 0%R) (nth j ps 0%R + u)%R)).
        intros j _. assert (derivable_pt_lim (loss Binary 0 (nth j target 0%R)) (nth j ps 0 + u)%R (gradient Rmath Binary 0%R (nth j target 0%R) (nth j ps 0 + u)%R)) as HD by (apply C40_gradient; discriminate).
        intros eps He. destruct (HD eps He) as (dl & Hdl). exists dl. intros h H1 H2. specialize (Hdl h H1 H2). rewrite <- Rplus_assoc. exact Hdl. }
      split; [exact HGu|]. split; [exact HH|]. rewrite Hv. rewrite (uniqueness_limite _ _ _ _ HG (HGu 0%R)). reflexivity.
Qed.
Print Assumptions C66_binary.

(** The hypotheses of the three theorems, with two trees (L2 and Binary) and one (L1); the first tree with L2 has B = 1/3. *)
Lemma exr_boostable (cfg : config Rops) : 0 < c_sample_freq cfg -> c_min_examples_leaf cfg = 1%N -> (c_example_fraction cfg <= 1)%R -> boostable cfg exr_data bst_sched.
Proof.
  intros H1 H2 H3. destruct C56_ex as (HW & HO & _ & Hn & _ & _ & Hval & Hnb & _). split; [exact HW|]. split; [exact HO|]. split; [exact H1|]. split; [exact Hn|]. split; [exact H2|]. split; [exact H3|]. split; [exact Hval|exact Hnb].
Qed.
Example C66_ex : boostable exr_cfg exr_data bst_sched /\ boostable exr_cfg1 exr_data bst_sched /\ get_target exr_data = Ok [1; 0; 1; 0; 1; 1]%R /\ Forall class_target [1; 0; 1; 0; 1; 1]%R /\ (0 < c_binary_gradient_bound exr_cfg)%R /\
  (exists b, boost_run Rmath true exr_cfg exr_data bst_sched L2 [] ex_rng 2 = Ok b /\ length (at_trees (bs_ensemble b)) = 2) /\
  (exists b, boost_run Rmath true exr_cfg exr_data bst_sched Binary [] ex_rng 2 = Ok b /\ length (at_trees (bs_ensemble b)) = 2) /\
  (exists b, boost_run Rmath true exr_cfg1 exr_data bst_sched L1 [] ex_rng 1 = Ok b /\ length (at_trees (bs_ensemble b)) = 1) /\
  clip_bound [1; 0; 1; 0; 1; 1]%R (repeat (4 / 6)%R 6) (1 / 3) /\ residual_range [1; 0; 1; 0; 1; 1]%R (repeat 1%R 6) 1.
Proof.
  destruct C49_training_ex as (HT & Htgt & HA & HN & HU0 & HU1 & Hb & Hd & Hm). split; [apply exr_boostable; [cbn; lia|reflexivity|cbn; lra]|]. split; [apply exr_boostable; [cbn; lia|reflexivity|cbn; lra]|]. split; [exact Htgt|].
  split; [repeat constructor; (right; reflexivity) || (left; reflexivity)|]. split; [cbn; lra|]. split; [destruct C25_exact_ex as (b & E & L & _); exists b; auto|]. split.
  { destruct (C49_training true exr_cfg exr_data bst_sched Binary [] ex_rng _ HT Htgt (HA Binary (or_intror (or_introl eq_refl))) exr_perm) as (m & Em & Lm); try assumption.
    - cbn. lia.
    - cbn. auto.
    - intros _. left. exact HN.
    - unfold boost_train in Em. apply rbind_ok in Em as (b & Eb & Em). injection Em as <-. exists b. split; [exact Eb|exact Lm]. }
  split; [destruct C49_median_ex as (_ & _ & _ & X); exact (X L1 (or_introl eq_refl))|]. split.
  - exists 1, 0. split; [cbn; lia|]. split; [cbn; lia|]. split.
    + intros m Hm6. cbn in Hm6. unfold error_of. do 6 (destruct m as [|m]; [cbn; lra|]). lia.
    + unfold error_of. cbn. rewrite Rabs_left, Rabs_pos_eq, Rmin_right by lra. lra.
  - exists 1, 0. split; [cbn; lia|]. split; [cbn; lia|]. split; [|unfold error_of; cbn; lra].
    intros m Hm6. cbn in Hm6. unfold error_of. do 6 (destruct m as [|m]; [cbn; lra|]). lia.
Qed.
