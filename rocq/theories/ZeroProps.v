(** C82: with a learning rate of zero the model predicts its bias. *)
From Flocq Require Import Core BinarySingleNaN.
From Coq Require Import String Reals Lra.
From Verif Require Import Base BaseProofs BitModel Num F32 F32Proofs DataModel Config ConfigModel TreeModel DatasetModel DatasetSpec LearnerModel
  ObjectiveModel ObjectiveProps MetricModel BoostModel BoostSpec TreeProofs2 TreeProps BoostProofs BoostProps BoostingProofs SafeProps TotalProps BoundProps DatasetProps LearnerProps ColProps WideProps FreqProofs FreqProps FitProps.
Local Open Scope nat_scope.

Section Zero.
Variable O : numops.
Variable M : mathops O.
Variable dbg : bool.
Variable cfg : config O.
Variable V : num O -> Prop.
Hypothesis V0 : V (nofZ O 0).
Hypothesis VM : forall x, nisfin O (nmul O (c_learning_rate cfg) x) = true -> V (nmul O (c_learning_rate cfg) x).

Lemma leaf_V target ex (ob ob' : objective O) v : ob_lr ob = c_learning_rate cfg -> obj_leaf_value M target ex ob = Ok (v, ob') -> ob_lr ob' = c_learning_rate cfg /\ (nisfin O v = true -> V v).
Proof.
  intros H E. destruct (leaf_call_settings _ _ _ _ _ _ _ E) as (_ & Hl & _). split; [congruence|]. unfold obj_leaf_value in E. apply rbind_ok in E as (raw & _ & E). unfold update_predictions in E. apply rbind_ok in E as (ps & _ & E).
  assert (v = nmul O (ob_lr ob) raw) as -> by congruence. rewrite H. apply VM.
Qed.
Lemma set_V (t t' : tree O) n v : Forall V (t_values t) -> (nisfin O v = true -> V v) -> set_node_value t n v = Ok t' -> Forall V (t_values t') /\ t_shrinkage t' = t_shrinkage t /\ t_bias t' = t_bias t.
Proof.
  intros Ht Hv E. unfold set_node_value in E. apply rbind_ok in E as (u & Eu & E). apply rassert_ok in Eu. apply rbind_ok in E as (vs & E1 & E). apply Ok_inj in E. subst t'. cbn [t_values t_shrinkage t_bias]. split; [|split; reflexivity].
  apply set_idx_ok in E1 as (_ & ->). apply upd_forall; auto.
Qed.
Lemma split_V (t t' : tree O) n c : split_node t n c = Ok t' -> t_values t' = t_values t /\ t_shrinkage t' = t_shrinkage t /\ t_bias t' = t_bias t.
Proof. intros E. unfold split_node in E. repeat (apply rbind_ok in E as (? & ? & E)). apply Ok_inj in E. subst t'. repeat split. Qed.

Definition calm (t : tree O) : Prop := Forall V (t_values t) /\ t_shrinkage t = nofZ O 1 /\ t_bias t = nofZ O 0.

Lemma loop_V s sizes bounds sch target fuel : forall stack t (ob : objective O) t' ob', calm t -> ob_lr ob = c_learning_rate cfg ->
  train_loop dbg cfg s sizes bounds sch (objective O) (obj_leaf_value M target) fuel stack t ob = Ok (t', ob') -> calm t' /\ ob_lr ob' = c_learning_rate cfg.
Proof.
  induction fuel as [|fuel IH]; intros [|nd stack] t ob t' ob' Ht Hl E; cbn [train_loop] in E; try discriminate; try (apply Ok_inj in E; injection E as <- <-; auto).
  apply rbind_ok in E as ([[stack1 t1] ob1] & E1 & E). cbn [fst snd] in E. enough (calm t1 /\ ob_lr ob1 = c_learning_rate cfg) as [H1 H2] by exact (IH _ _ _ _ _ H1 H2 E). clear E IH.
  unfold train_step in E1. apply rbind_ok in E1 as (sp & _ & E1). destruct Ht as (Hv & Hs & Hb). unfold calm. destruct (is_no_split (sp_crit sp)); [|destruct (negb _)].
  - apply rbind_ok in E1 as ([t2 ob2] & E2 & E1). apply Ok_inj in E1. injection E1 as <- <- <-. unfold predict_leaf_value in E2. apply rbind_ok in E2 as (ex & _ & E2). apply rbind_ok in E2 as ([v ob3] & Ev & E2). apply rbind_ok in E2 as (t3 & E3 & E2). apply Ok_inj in E2. injection E2 as <- <-.
    destruct (leaf_V _ _ _ _ _ Hl Ev) as [Hl' Hf]. destruct (set_V _ _ _ _ Hv Hf E3) as (H1 & -> & ->). auto.
  - apply rbind_ok in E1 as ([l r] & _ & E1). apply rbind_ok in E1 as (t2 & E2 & E1). apply Ok_inj in E1. injection E1 as <- <- <-. destruct (split_V _ _ _ _ E2) as (-> & -> & ->). auto.
  - apply rbind_ok in E1 as ([t2 ob2] & E2 & E1). apply rbind_ok in E1 as (t6 & E6 & E1). apply Ok_inj in E1. injection E1 as <- <- <-. unfold predict_child_leaf_values in E2. apply rbind_ok in E2 as (fm & _ & E2). apply rbind_ok in E2 as (el & _ & E2). apply rbind_ok in E2 as ([vl ob3] & Evl & E2).
    apply rbind_ok in E2 as (er & _ & E2). apply rbind_ok in E2 as ([vr ob4] & Evr & E2). apply rbind_ok in E2 as (t3 & E3 & E2). apply rbind_ok in E2 as (t4 & E4 & E2). apply Ok_inj in E2. injection E2 as <- <-.
    destruct (leaf_V _ _ _ _ _ Hl Evl) as [Hl1 Hf1]. destruct (leaf_V _ _ _ _ _ Hl1 Evr) as [Hl2 Hf2]. destruct (set_V _ _ _ _ Hv Hf1 E3) as (H1 & H2 & H3). destruct (set_V _ _ _ _ H1 Hf2 E4) as (H4 & H5 & H6). destruct (split_V _ _ _ _ E6) as (-> & -> & ->). rewrite H5, H6, H2, H3. auto.
Qed.
Lemma train_V s sizes bounds sch target gradients t (ob ob' : objective O) : ob_lr ob = c_learning_rate cfg ->
  train dbg cfg s sizes bounds sch (objective O) (obj_leaf_value M target) update_out_of_bag gradients ob = Ok (t, ob') -> calm t /\ ob_lr ob' = c_learning_rate cfg.
Proof.
  intros Hl E. unfold train in E. apply rbind_ok in E as (t0 & E0 & E). apply rbind_ok in E as (root & _ & E). apply rbind_ok in E as ([t1 ob1] & E1 & E). apply rbind_ok in E as (ob2 & E2 & E). apply Ok_inj in E. injection E as <- <-.
  assert (calm t0) as H0. { unfold tree_new in E0. apply rbind_ok in E0 as (u & _ & E0). apply Ok_inj in E0. subst t0. split; [|split; reflexivity]. cbn [t_values]. apply Forall_forall. intros x Hx. apply repeat_spec in Hx as ->. exact V0. }
  destruct (loop_V _ _ _ _ _ _ _ _ _ _ _ H0 Hl E1) as [Hc Hl1]. split; [exact Hc|].
  unfold predict_out_of_bag in E2. destruct (example_sampling_enabled s); [|apply Ok_inj in E2; congruence]. apply rbind_ok in E2 as (is & _ & E2). clear - E2 Hl1. revert ob1 Hl1 E2. induction is as [|i is IH]; intros ob1 Hl1 E2; cbn [foldM] in E2; [apply Ok_inj in E2; congruence|].
  apply rbind_ok in E2 as (ob3 & E3 & E2). refine (IH _ _ E2). apply rbind_ok in E3 as (p & _ & E3). unfold update_out_of_bag in E3. apply rbind_ok in E3 as (x & _ & E3). apply rbind_ok in E3 as (? & _ & E3). apply rbind_ok in E3 as (? & _ & E3). apply Ok_inj in E3. subst ob3. exact Hl1.
Qed.
Lemma run_V d sched kind metrics g k b : boost_run M dbg cfg d sched kind metrics g k = Ok b -> Forall calm (at_trees (bs_ensemble b)) /\ ob_lr (bs_objective b) = c_learning_rate cfg.
Proof.
  revert b. induction k as [|k IH]; intros b E.
  - unfold boost_run in E. apply rbind_ok in E as (b0 & E0 & E). apply rbind_ok in E as (sizes & _ & E). cbn [seq foldM] in E. apply Ok_inj in E. subst b0. unfold boost_start in E0. apply rbind_ok in E0 as (s & _ & E0). apply rbind_ok in E0 as (t & _ & E0). apply rbind_ok in E0 as (ob & Eo & E0). apply Ok_inj in E0. subst b.
    cbn. split; [constructor|apply (C40_initialize _ _ _ _ _ _ _ Eo)].
  - apply boost_run_S in E as (b1 & sizes & E1 & _ & E). destruct (IH _ E1) as (HF & Hl). unfold train_one_iter in E. apply rbind_ok in E as (target & _ & E). cbv zeta in E. apply rbind_ok in E as (ob & Eu & E). apply rbind_ok in E as (s & _ & E). apply rbind_ok in E as ([t ob'] & Et & E). apply Ok_inj in E. subst b.
    cbn [bs_ensemble push_tree at_trees bs_objective]. destruct (update_settings _ _ _ _ _ Eu) as (Hl1 & _). destruct (train_V _ _ _ _ _ _ _ _ _ (eq_trans Hl1 Hl) Et) as [Hc Hl2]. split; [|exact Hl2]. apply Forall_app. split; [exact HF|]. constructor; [exact Hc|constructor].
Qed.

(** Predictions stay where they are if adding what a tree says does not move them. *)
Variable P : num O -> Prop.
Hypothesis HP : forall p v, P p -> V v -> P (nadd O p (nmul O (nofZ O 1) (nadd O v (nofZ O 0)))).
Lemma stays (m : additive_tree O) D ps : Forall calm (at_trees m) -> P (at_bias m) -> additive_predict m D = Ok ps -> Forall P ps.
Proof.
  intros HF Hb E. unfold additive_predict, additive_predict_buf in E. assert (Forall P (map (fun _ => at_bias m) (repeat (nofZ O 0) (d_nexamples D)))) as H0 by (apply Forall_forall; intros x Hx; apply in_map_iff in Hx as (y & <- & _); exact Hb).
  revert H0 E. generalize (map (fun _ => at_bias m) (repeat (nofZ O 0) (d_nexamples D))). induction HF as [|t ts (Hv & Hs & Hbi) HF IH]; intros buf H0 E; cbn [foldM] in E; [apply Ok_inj in E; subst; exact H0|].
  apply rbind_ok in E as (buf1 & E1 & E). refine (IH buf1 _ E). clear E IH. unfold predict_and in E1. apply rbind_ok in E1 as (u & _ & E1). revert buf H0 E1. induction (seq 0 (d_nexamples D)) as [|i l IHl]; intros buf H0 E1; cbn [foldM] in E1; [apply Ok_inj in E1; subst; exact H0|].
  apply rbind_ok in E1 as (buf2 & E2 & E1). refine (IHl buf2 _ E1). apply rbind_ok in E2 as (p & Ep & E2). apply rbind_ok in E2 as (x & Ex & E2). apply set_idx_ok in E2 as (_ & ->). apply upd_forall; [exact H0|].
  unfold predict_single in Ep. apply rbind_ok in Ep as (n & _ & Ep). apply rbind_ok in Ep as (v & Ev & Ep). apply Ok_inj in Ep. subst p. rewrite Hs, Hbi. apply HP.
  - unfold idx in Ex. destruct (nth_error buf i) as [y|] eqn:En; [|discriminate]. apply Ok_inj in Ex. subst y. rewrite Forall_forall in H0. eapply H0, nth_error_In, En.
  - unfold idx in Ev. destruct (nth_error (t_values t) n) as [y|] eqn:En; [|discriminate]. apply Ok_inj in Ev. subst y. rewrite Forall_forall in Hv. eapply Hv, nth_error_In, En.
Qed.
End Zero.

(** Without rounding: a learning rate of 0 makes every model predict its bias, for all rows of all tables, after any number of iterations. *)
Theorem C82_exact : forall (M : mathops Rops) dbg (cfg : config Rops) d sched kind metrics g m, c_learning_rate cfg = 0%R -> boost_train M dbg cfg d sched kind metrics g = Ok m ->
  forall D (ps : list R), additive_predict m D = Ok ps -> forall p, In p ps -> p = at_bias m.
Proof.
  intros M dbg cfg d sched kind metrics g m H E D ps Ep p Hp. unfold boost_train in E. apply rbind_ok in E as (b & E & X). apply Ok_inj in X. subst m.
  destruct (run_V Rops M dbg cfg (fun v => v = 0%R) eq_refl ltac:(intros x _; cbn; rewrite H; apply Rmult_0_l) d sched kind metrics g _ b E) as (HF & _).
  assert (Forall (fun p => p = at_bias (bs_ensemble b)) ps) as HA by (refine (stays Rops (fun v => v = 0%R) (fun p => p = at_bias (bs_ensemble b)) _ (bs_ensemble b) D ps HF eq_refl Ep); intros q v -> ->; cbn; ring).
  rewrite Forall_forall in HA. exact (HA p Hp).
Qed.
Print Assumptions C82_exact.

Definition is_zero (x : f32) : bool := match x with B754_zero _ => true | _ => false end.
Lemma zero_mul (x y : f32) : is_zero x = true -> f_is_finite (f_mul x y) = true -> is_zero (f_mul x y) = true.
Proof. destruct x; try discriminate. intros _. destruct y as [[]|[]| |[]]; cbn; auto; discriminate. Qed.
Lemma zero_term (v : f32) : is_zero v = true -> is_zero (nmul f32ops (nofZ f32ops 1) (nadd f32ops v (nofZ f32ops 0))) = true.
Proof. destruct v as [[]| | |]; try discriminate; intros _; vm_compute; reflexivity. Qed.
Lemma zero_add (p t : f32) : is_zero t = true -> f_add p t = p \/ (is_zero p = true /\ is_zero (f_add p t) = true).
Proof. destruct t as [[]| | |]; try discriminate; intros _; destruct p as [[]|[]| |[]]; cbn; auto. Qed.

(** In 32-bit floating point, with a learning rate of 0 or -0: every prediction is the bias (if the bias is a zero, a zero). *)
Theorem C82_f32 : forall (M : mathops f32ops) dbg (cfg : config f32ops) d sched kind metrics g m, is_zero (c_learning_rate cfg) = true -> boost_train M dbg cfg d sched kind metrics g = Ok m ->
  forall D (ps : list f32), additive_predict m D = Ok ps -> forall p, In p ps -> p = at_bias m \/ (is_zero p = true /\ is_zero (at_bias m) = true).
Proof.
  intros M dbg cfg d sched kind metrics g m H E D ps Ep p Hp. unfold boost_train in E. apply rbind_ok in E as (b & E & X). apply Ok_inj in X. subst m.
  destruct (run_V f32ops M dbg cfg (fun v => is_zero v = true) eq_refl (fun x Hx => zero_mul _ _ H Hx) d sched kind metrics g _ b E) as (HF & _).
  assert (Forall (fun p : f32 => p = at_bias (bs_ensemble b) \/ (is_zero p = true /\ is_zero (at_bias (bs_ensemble b)) = true)) ps) as HA.
  { refine (stays f32ops (fun v => is_zero v = true) (fun p : f32 => p = at_bias (bs_ensemble b) \/ (is_zero p = true /\ is_zero (at_bias (bs_ensemble b)) = true)) _ (bs_ensemble b) D ps HF (or_introl eq_refl) Ep).
    intros q v Hq Hv. apply zero_term in Hv. destruct (zero_add q _ Hv) as [Hs|[Hz Hs]].
    - change (nadd f32ops q ?t) with (f_add q t). rewrite Hs. exact Hq.
    - right. split; [exact Hs|]. destruct Hq as [->|[_ Hq]]; assumption. }
  rewrite Forall_forall in HA. exact (HA p Hp).
Qed.
Print Assumptions C82_f32.

Definition zero_cfg (r : f32) : config f32ops :=
  @mk_config f32ops String.EmptyString String.EmptyString String.EmptyString [] 2%N true 44%N [0] 2 r (fz 0) 1%N (fz 0) (fz 1) 4 4 2 f_half (fz 1) 1%N f_one f_one 1.
(** With the rates 0 and -0 training succeeds, the trees have splits and predict. *)
Example C82_ex :
  map (fun r => (splits_of (boost_train bst_math true (zero_cfg r) freq_d bst_sched L2 [ML2] wide_rng),
    match boost_train bst_math true (zero_cfg r) freq_d bst_sched L2 [ML2] wide_rng with Ok m => match additive_predict m freq_d with Ok ps => Some (length ps) | _ => None end | _ => None end)) [fz 0; f_neg (fz 0)] =
  [(Some [[1; 0; 1]; [1; 0; 1]], Some 6); (Some [[1; 0; 1]; [1; 0; 1]], Some 6)].
Proof. vm_compute. reflexivity. Qed.
(** Over the real numbers such a training succeeds too, with two trees. *)
Example C82_exact_ex : c_learning_rate (set_learning_rate (O := Rops) 0%R exr_cfg) = 0%R /\
  exists m, boost_train Rmath true (set_learning_rate (O := Rops) 0%R exr_cfg) exr_data bst_sched L2 [] ex_rng = Ok m /\ length (at_trees m) = 2.
Proof.
  split; [reflexivity|]. destruct C49_training_ex as (HT & Htgt & HA & HN & HU0 & HU1 & Hb & Hd & Hm).
  destruct (C49_training true (set_learning_rate (O := Rops) 0%R exr_cfg) exr_data bst_sched L2 [] ex_rng _ HT Htgt (HA L2 (or_introl eq_refl)) exr_perm) as (m & Em & Lm); try assumption; [cbn; lia|cbn; auto|intros _; left; exact HN|].
  exists m. split; [exact Em|exact Lm].
Qed.
