(** C81: in the first iteration the learning rate only scales the values of the leaves. *)
From Flocq Require Import Core BinarySingleNaN.
From Coq Require Import String Reals Lra.
From Verif Require Import Base BaseProofs BitModel Num F32 F32Proofs DataModel Config ConfigModel TreeModel DatasetModel DatasetProofs3 DatasetProofs4 DatasetProofs5 DatasetSpec LearnerModel LearnerSpec
  ObjectiveModel ObjectiveProps MetricModel BoostModel BoostSpec TreeProofs2 TreeProps BoostProofs BoostProps BoostingProofs SafeProps TotalProps BoundProps DatasetProps LearnerProps ColProps WideProps FreqProofs FreqProps FitProps ShrinkProofs.
Local Open Scope nat_scope.

Lemma forall2_nth A B (V : A -> B -> Prop) l l' n x y : Forall2 V l l' -> nth_error l n = Some x -> nth_error l' n = Some y -> V x y.
Proof. intros H. revert n. induction H as [|a b l l' Ha H IH]; intros [|n]; cbn; try discriminate; intros E1 E2; [congruence|eauto]. Qed.

Section One.
Variable O : numops.
Variable M : mathops O.
Lemma set_train dbg (cfg : config O) r s sizes bounds sched St leaf oob g st : train dbg (set_learning_rate r cfg) s sizes bounds sched St leaf oob g st = train dbg cfg s sizes bounds sched St leaf oob g st.
Proof. destruct cfg. reflexivity. Qed.
Lemma set_new (cfg : config O) r d g : dataset_new (set_learning_rate r cfg) d g = dataset_new cfg d g.
Proof. destruct cfg. reflexivity. Qed.
Lemma set_update dbg (cfg : config O) r s g b : dataset_update dbg (set_learning_rate r cfg) s g b = dataset_update dbg cfg s g b.
Proof. destruct cfg. reflexivity. Qed.

Lemma first_two dbg (cfg : config O) r d sched kind metrics g b b' : any_order sched -> (N.of_nat (scaled_count (O := O) (d_nexamples d) (c_example_fraction cfg)) <= 2 ^ 31)%N ->
  boost_run M dbg cfg d sched kind metrics g 1 = Ok b -> boost_run M dbg (set_learning_rate r cfg) d sched kind metrics g 1 = Ok b' ->
  at_bias (bs_ensemble b) = at_bias (bs_ensemble b') /\ exists t t', at_trees (bs_ensemble b) = [t] /\ at_trees (bs_ensemble b') = [t'] /\ alike O t t' /\ Forall2 (rated O (c_learning_rate cfg) r) (t_values t) (t_values t') /\
    t_shrinkage t = nofZ O 1 /\ t_bias t = nofZ O 0.
Proof.
  intros HO Hn E E'. unfold boost_run in E, E'. apply rbind_ok in E as (b0 & E0 & E). apply rbind_ok in E as (sizes & Hsz & E). apply rbind_ok in E' as (b0' & E0' & E'). rewrite Hsz in E'. cbn [rbind] in E'.
  cbn [seq foldM] in E, E'. apply rbind_ok in E as (b1 & E & X). apply Ok_inj in X. subst b1. apply rbind_ok in E' as (b1 & E' & X). apply Ok_inj in X. subst b1.
  unfold boost_start in E0, E0'. rewrite set_new in E0'. apply rbind_ok in E0 as (s & Es & E0). rewrite Es in E0'. cbn [rbind] in E0'. apply rbind_ok in E0 as (target & Et & E0). rewrite Et in E0'. cbn [rbind] in E0'.
  apply rbind_ok in E0 as (ob & Eo & E0). pose proof (init_lr O M dbg cfg r target kind ob Eo) as Eo'. rewrite Eo' in E0'. cbn [rbind] in E0'. apply Ok_inj in E0. subst b0. apply Ok_inj in E0'. subst b0'.
  unfold train_one_iter in E, E'. rewrite Et in E, E'. cbn [rbind bs_objective bs_dataset bs_iter bs_ensemble] in E, E'.
  apply rbind_ok in E as (ob1 & Eu & E). rewrite (update_lr O M r target ob ob1 Eu) in E'. cbn [rbind] in E'. cbn [with_lr ob_grads] in E'. rewrite set_update in E'.
  change (obj_bounds (with_lr O r ob1)) with (obj_bounds ob1) in E'. apply rbind_ok in E as (s1 & Eds & E). rewrite Eds in E'. cbn [rbind] in E'. rewrite set_train in E'.
  apply rbind_ok in E as ([t oa] & ET & E). apply Ok_inj in E. subst b. apply rbind_ok in E' as ([t' oa'] & ET' & E'). apply Ok_inj in E'. subst b'. cbn [bs_ensemble push_tree at_bias at_trees additive_set_bias additive_new app].
  split; [reflexivity|]. exists t, t'. split; [reflexivity|]. split; [reflexivity|].
  assert (setting dbg cfg d s1 sizes (sched 1)) as HS.
  { assert (reachable dbg cfg d s1) as HR. { exists g, [(ob_grads ob1, obj_bounds ob1)], s. split; [exact Es|]. unfold ds_run. cbn [foldM fst snd]. rewrite Eds. reflexivity. }
    split; [exact HR|]. split; [exact Hsz|]. split; [apply HO|]. unfold nactive_examples. rewrite (dv_nact _ _ _ _ (ds_inv _ _ _ _ (reachable_ok _ _ _ _ _ HR))). exact Hn. }
  destruct (train_two O M dbg cfg d s1 sizes (obj_bounds ob1) (sched 1) target (ob_grads ob1) ob1 r t oa t' oa' HS ET ET') as (HA & HV). destruct (train_plain _ _ _ _ _ _ _ _ _ _ _ _ _ _ ET) as [H1 H2].
  destruct (update_settings _ _ _ _ _ Eu) as (Hl & _). destruct (C40_initialize _ _ _ _ _ _ _ Eo) as (_ & _ & Hl0 & _). rewrite Hl, Hl0 in HV. auto.
Qed.
End One.

(** Two trainings from the same random numbers whose settings differ in the learning rate: the same bias, and first trees that split on the same criteria at the same nodes; a value of a node of the one is the learning rate of that one times a number,
    and the value of the other at that node is the other learning rate times the same number (or both are the 0 of nodes without examples of their own).  In any arithmetic, for all data and settings, every objective, debug or release, any order of the jobs. *)
Theorem C81_first_tree : forall O (M : mathops O) dbg (cfg : config O) r d sched kind metrics g b b', any_order sched -> (N.of_nat (scaled_count (O := O) (d_nexamples d) (c_example_fraction cfg)) <= 2 ^ 31)%N ->
  boost_run M dbg cfg d sched kind metrics g 1 = Ok b -> boost_run M dbg (set_learning_rate r cfg) d sched kind metrics g 1 = Ok b' ->
  at_bias (bs_ensemble b) = at_bias (bs_ensemble b') /\ exists t t', at_trees (bs_ensemble b) = [t] /\ at_trees (bs_ensemble b') = [t'] /\ t_crits t = t_crits t' /\ (forall D i, predict_leaf_id t D i = predict_leaf_id t' D i) /\
    Forall2 (fun v v' => (v = nofZ O 0 /\ v' = nofZ O 0) \/ exists raw, v = nmul O (c_learning_rate cfg) raw /\ v' = nmul O r raw) (t_values t) (t_values t').
Proof.
  intros O M dbg cfg r d sched kind metrics g b b' HO Hn E E'. destruct (first_two O M dbg cfg r d sched kind metrics g b b' HO Hn E E') as (HB & t & t' & H1 & H2 & HA & HV & _).
  split; [exact HB|]. exists t, t'. split; [exact H1|]. split; [exact H2|]. split; [apply HA|]. split; [intros D i; symmetry; apply leaf_alike, HA|exact HV].
Qed.
Print Assumptions C81_first_tree.

(** A longer training starts with the same tree. *)
Lemma run_prefix O (M : mathops O) dbg cfg d sched kind metrics g k b : boost_run M dbg cfg d sched kind metrics g (S k) = Ok b ->
  exists b1 rest, boost_run M dbg cfg d sched kind metrics g 1 = Ok b1 /\ at_bias (bs_ensemble b) = at_bias (bs_ensemble b1) /\ at_trees (bs_ensemble b) = at_trees (bs_ensemble b1) ++ rest.
Proof.
  revert b. induction k as [|k IH]; intros b E; [exists b, []; rewrite app_nil_r; auto|].
  apply boost_run_S in E as (b2 & sizes & E2 & _ & E). destruct (IH b2 E2) as (b1 & rest & E1 & HB & HT). unfold train_one_iter in E.
  apply rbind_ok in E as (target & _ & E). cbv zeta in E. apply rbind_ok in E as (ob & _ & E). apply rbind_ok in E as (s & _ & E). apply rbind_ok in E as ([t ob'] & _ & E). apply Ok_inj in E. subst b.
  exists b1, (rest ++ [t]). cbn [bs_ensemble push_tree at_bias at_trees]. split; [exact E1|]. split; [exact HB|]. rewrite HT, app_assoc. reflexivity.
Qed.

(** The same for whole models of at least one iteration: the same bias, and first trees that differ in the scale of their values only. *)
Theorem C81_model : forall O (M : mathops O) dbg (cfg : config O) r d sched kind metrics g m m', any_order sched -> (N.of_nat (scaled_count (O := O) (d_nexamples d) (c_example_fraction cfg)) <= 2 ^ 31)%N -> 0 < c_niterations cfg ->
  boost_train M dbg cfg d sched kind metrics g = Ok m -> boost_train M dbg (set_learning_rate r cfg) d sched kind metrics g = Ok m' ->
  at_bias m = at_bias m' /\ exists t t', nth_error (at_trees m) 0 = Some t /\ nth_error (at_trees m') 0 = Some t' /\ t_crits t = t_crits t' /\ (forall D i, predict_leaf_id t D i = predict_leaf_id t' D i) /\
    Forall2 (fun v v' => (v = nofZ O 0 /\ v' = nofZ O 0) \/ exists raw, v = nmul O (c_learning_rate cfg) raw /\ v' = nmul O r raw) (t_values t) (t_values t').
Proof.
  intros O M dbg cfg r d sched kind metrics g m m' HO Hn Hi E E'. unfold boost_train in E, E'. apply rbind_ok in E as (b & E & X). apply Ok_inj in X. subst m. apply rbind_ok in E' as (b' & E' & X). apply Ok_inj in X. subst m'.
  change (c_niterations (set_learning_rate r cfg)) with (c_niterations cfg) in E'. destruct (c_niterations cfg) as [|k]; [lia|].
  apply run_prefix in E as (b1 & rest & E & HB & HT). apply run_prefix in E' as (b1' & rest' & E' & HB' & HT').
  destruct (C81_first_tree O M dbg cfg r d sched kind metrics g b1 b1' HO Hn E E') as (H & t & t' & H1 & H2 & H3). split; [congruence|]. exists t, t'. rewrite HT, HT', H1, H2. cbn. auto.
Qed.
Print Assumptions C81_model.

(** On the real numbers: how far the model of one iteration moves a prediction away from the bias is in proportion to the learning rate, for all rows of all tables. *)
Theorem C81_proportional : forall (M : mathops Rops) dbg (cfg : config Rops) r d sched kind metrics g b b', any_order sched -> (N.of_nat (scaled_count (O := Rops) (d_nexamples d) (c_example_fraction cfg)) <= 2 ^ 31)%N ->
  boost_run M dbg cfg d sched kind metrics g 1 = Ok b -> boost_run M dbg (set_learning_rate r cfg) d sched kind metrics g 1 = Ok b' ->
  forall D (ps ps' : list R) i (p p' : R), additive_predict (bs_ensemble b) D = Ok ps -> additive_predict (bs_ensemble b') D = Ok ps' -> nth_error ps i = Some p -> nth_error ps' i = Some p' ->
  ((p - at_bias (bs_ensemble b)) * r = (p' - at_bias (bs_ensemble b)) * c_learning_rate cfg)%R.
Proof.
  intros M dbg cfg r d sched kind metrics g b b' HO Hn E E' D ps ps' i p p' Ep Ep' Hp Hp'. destruct (first_two Rops M dbg cfg r d sched kind metrics g b b' HO Hn E E') as (HB & t & t' & H1 & H2 & HA & HV & Hs & Hbi).
  clear E E'. destruct (bs_ensemble b) as [bias ts], (bs_ensemble b') as [bias' ts']. cbn [at_bias at_trees] in *. subst bias' ts ts'.
  assert (forall (t : tree Rops) (ps : list R) (p : R), additive_predict (mk_add bias [t]) D = Ok ps -> nth_error ps i = Some p -> exists q, predict_single t D i = Ok q /\ p = (bias + q)%R) as K.
  { clear. intros t ps p E Hp. unfold additive_predict, additive_predict_buf in E. cbn [at_bias at_trees foldM] in E. apply rbind_ok in E as (o & E & X). apply Ok_inj in X. subst o. rewrite map_const_repeat in E.
    assert (forall j, j < d_nexamples D -> exists q, predict_single t D j = Ok q) as HQ.
    { intros j Hj. unfold predict_and in E. apply rbind_ok in E as (u & _ & E). assert (In j (seq 0 (d_nexamples D))) as Hin by (apply in_seq; lia). revert E Hin. generalize (repeat bias (d_nexamples D)) as buf. induction (seq 0 (d_nexamples D)) as [|a l IH]; intros buf E [].
      - subst a. cbn [foldM] in E. apply rbind_ok in E as (x & E & _). apply rbind_ok in E as (q & E & _). eauto.
      - cbn [foldM] in E. apply rbind_ok in E as (x & _ & E). eapply IH; eassumption. }
    destruct (predict_and_ok Rops t D (fun p acc => nadd Rops acc p) (repeat bias (d_nexamples D)) (repeat_length _ _) HQ) as (o & Eo & Lo & Ho).
    assert (o = ps) as -> by exact (Ok_inj _ _ (eq_trans (eq_sym Eo) E)). assert (i < d_nexamples D) as Hi. { rewrite <- (repeat_length bias (d_nexamples D)), <- Lo. apply nth_error_Some. change (num Rops) with R. rewrite Hp. discriminate. }
    destruct (HQ i Hi) as (q & Eq). exists q. split; [exact Eq|]. specialize (Ho i q bias Eq (nth_error_repeat _ Hi)). change (num Rops) with R in *. rewrite Hp in Ho. injection Ho as ->. reflexivity. }
  destruct (K t ps p Ep Hp) as (q & Eq & ->). destruct (K t' ps' p' Ep' Hp') as (q' & Eq' & ->). clear K. unfold predict_single in Eq, Eq'. rewrite (leaf_alike Rops t t' D i HA) in Eq'.
  apply rbind_ok in Eq as (n & En & Eq). rewrite En in Eq'. cbn [rbind] in Eq'. apply rbind_ok in Eq as (v & Ev & Eq). apply rbind_ok in Eq' as (v' & Ev' & Eq'). apply Ok_inj in Eq. subst q. apply Ok_inj in Eq'. subst q'.
  destruct HA as (_ & _ & _ & HA1 & HA2 & _). rewrite <- HA1, <- HA2, Hs, Hbi. unfold idx in Ev, Ev'. destruct (nth_error (t_values t) n) as [v1|] eqn:N1; [|discriminate]. destruct (nth_error (t_values t') n) as [v2|] eqn:N2; [|discriminate].
  apply Ok_inj in Ev. apply Ok_inj in Ev'. subst v1 v2. destruct (forall2_nth _ _ _ _ _ _ _ _ HV N1 N2) as [[-> ->]|(raw & -> & ->)]; cbn; ring.
Qed.
Print Assumptions C81_proportional.

Definition shrink_cfg (r : f32) : config f32ops :=
  @mk_config f32ops String.EmptyString String.EmptyString String.EmptyString [] 2%N true 44%N [0] 1 r (fz 0) 1%N (fz 0) (fz 1) 4 4 2 f_half (fz 1) 1%N f_one f_one 1.
(** The table of C75 with the learning rates 1/2, 1 and 2: the trainings succeed, with the same splits. *)
Example C81_ex :
  map (fun r => splits_of (boost_train bst_math true (shrink_cfg r) freq_d bst_sched L2 [ML2] wide_rng)) [f_half; f_one; fz 2] = [Some [[1; 0; 1]]; Some [[1; 0; 1]]; Some [[1; 0; 1]]].
Proof. vm_compute. reflexivity. Qed.
Example C81_hyp : any_order bst_sched /\ (N.of_nat (scaled_count (O := f32ops) (d_nexamples freq_d) (c_example_fraction (shrink_cfg f_half))) <= 2 ^ 31)%N /\ set_learning_rate (O := f32ops) f_one (shrink_cfg f_half) = shrink_cfg f_one.
Proof. split; [intros i k js; apply rev_sched_perm|]. split; [|reflexivity]. assert (scaled_count (O := f32ops) (d_nexamples freq_d) (c_example_fraction (shrink_cfg f_half)) = 6) as -> by (vm_compute; reflexivity). lia. Qed.

(** And over the real numbers. *)
Example C81_exact_ex : any_order bst_sched /\ (N.of_nat (scaled_count (O := Rops) (d_nexamples exr_data) (c_example_fraction exr_cfg)) <= 2 ^ 31)%N /\
  exists b b', boost_run Rmath true exr_cfg exr_data bst_sched L2 [] ex_rng 1 = Ok b /\ boost_run Rmath true (set_learning_rate (O := Rops) (1 / 8)%R exr_cfg) exr_data bst_sched L2 [] ex_rng 1 = Ok b' /\
    exists ps : list R, additive_predict (bs_ensemble b) exr_data = Ok ps /\ length ps = 6.
Proof.
  split; [exact exr_perm|]. split.
  { replace (scaled_count (O := Rops) (d_nexamples exr_data) (c_example_fraction exr_cfg)) with (d_nexamples exr_data); [vm_compute; discriminate|]. symmetry. apply scaled_R; [cbn; lra|cbn; lia|]. cbn. apply Rlt_bool_false. lra. }
  destruct C49_training_ex as (HT & Htgt & HA & HN & HU0 & HU1 & Hb & Hd & Hm). destruct C77_ex as (_ & _ & _ & _ & _ & _ & HK & _). destruct (HK 1 (or_introl eq_refl)) as (b & ps & E1 & Ep & Lp).
  assert (exists m, boost_train Rmath true (set_learning_rate (O := Rops) (1 / 8)%R exr_cfg) exr_data bst_sched L2 [] ex_rng = Ok m) as (m & Em).
  { destruct (C49_training true (set_learning_rate (O := Rops) (1 / 8)%R exr_cfg) exr_data bst_sched L2 [] ex_rng _ HT Htgt (HA L2 (or_introl eq_refl)) exr_perm) as (m & Em & Lm); try assumption; [cbn; lia|cbn; auto|intros _; left; exact HN|]. eauto. }
  unfold boost_train in Em. apply rbind_ok in Em as (b' & E' & _). change (c_niterations (set_learning_rate (O := Rops) (1 / 8)%R exr_cfg)) with 2 in E'.
  apply boost_run_S in E' as (b2 & s2 & E2 & _). exists b, b2. split; [exact E1|]. split; [exact E2|]. exists ps. split; assumption.
Qed.
