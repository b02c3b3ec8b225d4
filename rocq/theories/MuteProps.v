(** C79: settings that are not numbers turn learning off. *)
From Flocq Require Import Core BinarySingleNaN.
From Coq Require Import String.
From Verif Require Import Base BaseProofs BitModel Num F32 F32Proofs DataModel Config TreeModel DatasetModel DatasetSpec LearnerModel
  ObjectiveModel ObjectiveProps MetricModel BoostModel BoostSpec BoostProofs BoostProps BoostingProofs SafeProps TreeProps ColProps WideProps DatasetProps LearnerProps FreqProofs FreqProps.
Local Open Scope nat_scope.

Section Mute.
Variable O : numops.
Variable M : mathops O.
Variable dbg : bool.
Variable cfg : config O.
Variable d : data O.
Variable sched : nat -> nat -> list job -> list job.
Hypothesis Hmute : forall s nd sp, find_best_split dbg cfg s nd = Ok sp -> is_no_split (sp_crit sp) = true.

Lemma mute_bare s sizes bounds sch gradients St leaf_value oob (st : St) t st' : train dbg cfg s sizes bounds sch St leaf_value oob gradients st = Ok (t, st') -> bare O t.
Proof.
  intros E. unfold train in E. apply rbind_ok in E as (t0 & E0 & E). apply rbind_ok in E as (root & _ & E). apply rbind_ok in E as ([t1 st1] & E1 & E). apply rbind_ok in E as (st2 & _ & E). injection E as <- _.
  assert (bare O t0) as B0. { unfold tree_new in E0. apply rbind_ok in E0 as (u & _ & E0). injection E0 as <-. apply Forall_forall. intros c Hin. apply repeat_spec in Hin as ->. reflexivity. }
  destruct (2 ^ (c_max_tree_depth cfg + 1)) as [|fuel]; cbn [train_loop] in E1; [discriminate|].
  apply rbind_ok in E1 as ([[stack ta] sta] & Es & E1). unfold train_step in Es. apply rbind_ok in Es as (sp & Esp & Es). rewrite (Hmute _ _ _ Esp) in Es.
  apply rbind_ok in Es as ([t2 st3] & E2 & Es). injection Es as <- <- <-. cbn [fst snd] in E1.
  assert (t1 = t2) as ->. { destruct fuel; cbn [train_loop] in E1; injection E1 as <- _; reflexivity. }
  unfold predict_leaf_value in E2. apply rbind_ok in E2 as (ex & _ & E2). apply rbind_ok in E2 as ([w st4] & _ & E2). apply rbind_ok in E2 as (t3 & E3 & E2). injection E2 as <- _. unfold bare. rewrite (set_value_crits _ _ _ _ _ E3). exact B0.
Qed.

Lemma run_mute kind metrics g k b : boost_run M dbg cfg d sched kind metrics g k = Ok b -> Forall (bare O) (at_trees (bs_ensemble b)).
Proof.
  unfold boost_run. intros E. apply rbind_ok in E as (b0 & E0 & E). apply rbind_ok in E as (sizes & Hsz & E). revert b E. induction k as [|k IH]; intros b E.
  - injection E as <-. unfold boost_start in E0. apply rbind_ok in E0 as (s & Es & E0). apply rbind_ok in E0 as (t & _ & E0). apply rbind_ok in E0 as (ob & _ & E0). injection E0 as <-. constructor.
  - rewrite seq_S, foldM_app in E. apply rbind_ok in E as (b1 & E1 & E). cbn [foldM] in E. apply rbind_ok in E as (b2 & E & E2). injection E2 as <-. pose proof (IH b1 E1) as F1. unfold train_one_iter in E.
    apply rbind_ok in E as (target & Et & E). cbv zeta in E. apply rbind_ok in E as (ob & Eob & E). apply rbind_ok in E as (s & Es & E). apply rbind_ok in E as ([t ob'] & Etr & E). injection E as <-. cbn [bs_ensemble push_tree at_trees].
    apply Forall_app. split; [exact F1|]. constructor; [|constructor]. exact (mute_bare _ _ _ _ _ _ _ _ _ _ _ Etr).
Qed.
End Mute.

(** If no computed gain is above the required one, no split is found. *)
Lemma best_none O dbg (cfg : config O) s nd sp : (forall f b v rc, nlt O (c_min_gain cfg)
    (nsub O (nsub O (get_loss cfg (nd_grad nd) (nd_count nd)) (get_loss cfg f b)) (get_loss cfg v rc)) = false) -> find_best_split dbg cfg s nd = Ok sp -> is_no_split (sp_crit sp) = true.
Proof.
  intros H E. unfold find_best_split in E. apply rbind_ok in E as (fs & _ & E). apply rbind_ok in E as (st & E & E'). injection E' as <-.
  set (Q := fun st : num O * split O => st = (c_min_gain cfg, split_none O)). enough (Q st) as -> by reflexivity. revert E. apply (LearnerProofs5.foldM_inv _ _ _ Q); [|reflexivity].
  intros st1 f st2 _ H1 E. apply rbind_ok in E as (hist & _ & E). apply rbind_ok in E as (nb & _ & E). revert H1 E. apply (LearnerProofs5.foldM_inv _ _ _ Q).
  intros st3 b st4 _ -> E. unfold split_step in E. apply rbind_ok in E as (l & _ & E). apply rbind_ok in E as (rc & _ & E). cbv zeta in E. cbn [fst] in E.
  rewrite H in E. destruct (_ || _) in E; injection E as <-; reflexivity.
Qed.

Lemma nan_add_r (x y : f32) : f_is_nan y = true -> f_is_nan (f_add x y) = true.
Proof. destruct y; try discriminate. intros _. destruct x; reflexivity. Qed.
Lemma nan_sub_r (x y : f32) : f_is_nan y = true -> f_is_nan (f_sub x y) = true.
Proof. destruct y; try discriminate. intros _. destruct x; reflexivity. Qed.
Lemma nan_mul_r (x y : f32) : f_is_nan y = true -> f_is_nan (f_mul x y) = true.
Proof. destruct y; try discriminate. intros _. destruct x; reflexivity. Qed.
Lemma nan_div_r (x y : f32) : f_is_nan y = true -> f_is_nan (f_div x y) = true.
Proof. destruct y; try discriminate. intros _. destruct x; reflexivity. Qed.
Lemma nan_lt_r (x y : f32) : f_is_nan y = true -> f_lt x y = false.
Proof. destruct y; try discriminate. intros _. destruct x as [[]|[]| |[]]; reflexivity. Qed.
Lemma nan_lt_l (x y : f32) : f_is_nan x = true -> f_lt x y = false.
Proof. destruct x; try discriminate. intros _. destruct y; reflexivity. Qed.
Lemma inf_lt_l (y : f32) : f_lt f_inf y = false.
Proof. destruct y as [[]|[]| |[]]; reflexivity. Qed.

(** The required gain is NaN or infinite, or the regularisation is NaN. *)
Definition switched_off (cfg : config f32ops) : Prop := f_is_nan (c_min_gain cfg) = true \/ c_min_gain cfg = f_inf \/ f_is_nan (c_reg_lambda cfg) = true.

Lemma off_mute dbg cfg s nd sp : switched_off cfg -> find_best_split dbg cfg s nd = Ok sp -> is_no_split (sp_crit sp) = true.
Proof.
  intros H. apply best_none. intros f b v rc. cbn [f32ops nlt]. destruct H as [H|[H|H]].
  - apply nan_lt_l. exact H.
  - change (f_lt (c_min_gain cfg) (nsub f32ops (nsub f32ops (get_loss cfg (nd_grad nd) (nd_count nd)) (get_loss cfg f b)) (get_loss cfg v rc)) = false). rewrite H. apply inf_lt_l.
  - apply nan_lt_r. cbn [f32ops nsub]. apply nan_sub_r. unfold get_loss. cbn [f32ops nmul ndiv nadd]. apply nan_mul_r, nan_div_r, nan_add_r. exact H.
Qed.

(** With such a setting no tree of any model has a split: for all data and other settings, every objective, random numbers and order of the jobs, in 32-bit floating point. *)
Theorem C79_no_splits : forall (M : mathops f32ops) dbg (cfg : config f32ops) d sched kind metrics g k b, switched_off cfg ->
  boost_run M dbg cfg d sched kind metrics g k = Ok b -> forall t c, In t (at_trees (bs_ensemble b)) -> In c (t_crits t) -> is_no_split c = true.
Proof.
  intros M dbg cfg d sched kind metrics g k b Hoff E t c Ht Hc. pose proof (run_mute f32ops M dbg cfg d sched (fun s nd sp => off_mute dbg cfg s nd sp Hoff) kind metrics g k b E) as H.
  rewrite Forall_forall in H. specialize (H t Ht). unfold bare in H. rewrite Forall_forall in H. exact (H c Hc).
Qed.
Print Assumptions C79_no_splits.

(** So the model predicts one number, the same for all rows of all tables. *)
Theorem C79_constant : forall (M : mathops f32ops) dbg (cfg : config f32ops) d sched kind metrics g m, switched_off cfg ->
  boost_train M dbg cfg d sched kind metrics g = Ok m ->
  exists v, forall D ps, additive_predict m D = Ok ps -> ps = repeat v (d_nexamples D).
Proof.
  intros M dbg cfg d sched kind metrics g m Hoff E. unfold boost_train in E. apply rbind_ok in E as (b & E & Em). apply Ok_inj in Em. subst m. eexists. intros D ps Ep. apply (bare_additive f32ops (bs_ensemble b) D ps); [|exact Ep].
  exact (run_mute f32ops M dbg cfg d sched (fun s nd sp => off_mute dbg cfg s nd sp Hoff) kind metrics g _ b E).
Qed.
Print Assumptions C79_constant.

Definition mute_cfg (lambda gain : f32) : config f32ops :=
  @mk_config f32ops String.EmptyString String.EmptyString String.EmptyString [] 2%N true 44%N [0] 2 f_half lambda 1%N gain (fz 1) 4 4 2 f_half (fz 1) 1%N f_one f_one 1.
(** Settings that are numbers, and one that is not: the trainings succeed, without splits. *)
Example C79_ex :
  map (fun p => splits_of (boost_train bst_math true (mute_cfg (fst p) (snd p)) freq_d bst_sched L2 [ML2] wide_rng)) [(fz 0, fz 0); (f_nan, fz 0); (fz 0, f_nan); (fz 0, f_inf); (fz 1, fz 1)] =
  [Some [[1; 0; 1]; [1; 0; 1]]; Some [[]; []]; Some [[]; []]; Some [[]; []]; Some [[1]; [1; 1]]].
Proof. vm_compute. reflexivity. Qed.

(** A learning rate that is not finite: the value of the first leaf is not finite, which the code asserts. *)
Lemma unfinite_mul (x y : f32) : f_is_finite x = false -> f_is_finite (f_mul x y) = false.
Proof. destruct x as [| [] | |]; try discriminate; intros _; destruct y as [[]|[]| |[]]; reflexivity. Qed.
Lemma unfinite_leaf (M : mathops f32ops) targets ex (ob ob' : objective f32ops) v : f_is_finite (ob_lr ob) = false -> obj_leaf_value M targets ex ob = Ok (v, ob') -> f_is_finite v = false.
Proof.
  intros H E. unfold obj_leaf_value in E. apply rbind_ok in E as (raw & _ & E). unfold update_predictions in E. apply rbind_ok in E as (ps & _ & E). injection E as <- _. apply unfinite_mul. exact H.
Qed.
Lemma set_value_finite (t t' : tree f32ops) n (v : f32) : set_node_value t n v = Ok t' -> f_is_finite v = true.
Proof. intros E. unfold set_node_value in E. apply rbind_ok in E as (u & E & _). apply rassert_ok in E. exact E. Qed.

Section Rate.
Variable M : mathops f32ops.
Variable dbg : bool.
Variable cfg : config f32ops.

Lemma loop_unfinite s sizes bounds sch targets fuel : forall stack t (ob : objective f32ops) x, stack <> [] -> f_is_finite (ob_lr ob) = false ->
  train_loop dbg cfg s sizes bounds sch (objective f32ops) (obj_leaf_value M targets) fuel stack t ob <> Ok x.
Proof.
  induction fuel as [|fuel IH]; intros [|nd stack] t ob x Hs Hf E; cbn [train_loop] in E; [congruence|discriminate|congruence|].
  apply rbind_ok in E as ([[stack1 t1] ob1] & E1 & E). cbn [fst snd] in E. unfold train_step in E1. apply rbind_ok in E1 as (sp & _ & E1). destruct (is_no_split (sp_crit sp)); [|destruct (negb _)].
  - apply rbind_ok in E1 as ([t2 ob2] & E2 & _). unfold predict_leaf_value in E2. apply rbind_ok in E2 as (ex & _ & E2). apply rbind_ok in E2 as ([v ob3] & Ev & E2). apply rbind_ok in E2 as (t3 & E3 & _).
    apply set_value_finite in E3. pose proof (unfinite_leaf M _ _ _ _ _ Hf Ev). congruence.
  - apply rbind_ok in E1 as ([l r] & _ & E1). apply rbind_ok in E1 as (t2 & _ & E1). injection E1 as <- <- <-. refine (IH _ _ _ _ _ Hf E). discriminate.
  - apply rbind_ok in E1 as ([t2 ob2] & E2 & _). unfold predict_child_leaf_values in E2. apply rbind_ok in E2 as (fm & _ & E2). apply rbind_ok in E2 as (el & _ & E2). apply rbind_ok in E2 as ([vl ob3] & Ev & E2).
    apply rbind_ok in E2 as (er & _ & E2). apply rbind_ok in E2 as ([vr ob4] & _ & E2). apply rbind_ok in E2 as (t3 & E3 & _).
    apply set_value_finite in E3. pose proof (unfinite_leaf M _ _ _ _ _ Hf Ev). congruence.
Qed.

Lemma run_unfinite d sched kind metrics g k b : f_is_finite (c_learning_rate cfg) = false -> boost_run M dbg cfg d sched kind metrics g (S k) <> Ok b.
Proof.
  intros Hf E. unfold boost_run in E. apply rbind_ok in E as (b0 & E0 & E). apply rbind_ok in E as (sizes & _ & E). cbn [seq foldM] in E. apply rbind_ok in E as (b1 & E & _).
  unfold boost_start in E0. apply rbind_ok in E0 as (s & _ & E0). apply rbind_ok in E0 as (t & _ & E0). apply rbind_ok in E0 as (ob & Eo & E0). apply Ok_inj in E0. subst b0.
  destruct (C40_initialize _ _ _ _ _ _ _ Eo) as (_ & _ & Hl & _).
  unfold train_one_iter in E. cbn [bs_objective] in E. apply rbind_ok in E as (target & _ & E). cbv zeta in E. apply rbind_ok in E as (ob1 & Eu & E). apply rbind_ok in E as (s1 & _ & E). apply rbind_ok in E as ([t1 ob2] & Etr & _).
  destruct (update_settings _ _ _ _ _ Eu) as (Hl1 & _). unfold train in Etr. apply rbind_ok in Etr as (t0 & _ & Etr). apply rbind_ok in Etr as (root & _ & Etr). apply rbind_ok in Etr as ([t2 ob3] & El & _).
  refine (loop_unfinite _ _ _ _ _ _ _ _ _ _ _ _ El); [discriminate|]. rewrite Hl1, Hl. exact Hf.
Qed.
End Rate.

(** A learning rate that is NaN or infinite makes every training of at least one iteration panic. *)
Theorem C79_learning_rate : forall (M : mathops f32ops) dbg (cfg : config f32ops) d sched kind metrics g, f_is_finite (c_learning_rate cfg) = false -> 0 < c_niterations cfg -> any_order sched ->
  (forall target, get_target d = Ok target -> (N.of_nat (List.length target) <= 2 ^ 31)%N) -> boost_train M dbg cfg d sched kind metrics g = Panic.
Proof.
  intros M dbg cfg d sched kind metrics g Hf Hn HS Ht. destruct (C50_train f32ops M dbg cfg d sched kind metrics g HS Ht) as [H1 H2].
  destruct (boost_train M dbg cfg d sched kind metrics g) as [m| | |] eqn:E; [|reflexivity|congruence|congruence]. exfalso. unfold boost_train in E. apply rbind_ok in E as (b & E & _). destruct (c_niterations cfg) as [|k]; [lia|].
  exact (run_unfinite M dbg cfg d sched kind metrics g k b Hf E).
Qed.
Print Assumptions C79_learning_rate.

Definition rate_cfg (rate : f32) : config f32ops :=
  @mk_config f32ops String.EmptyString String.EmptyString String.EmptyString [] 2%N true 44%N [0] 2 rate (fz 0) 1%N (fz 0) (fz 1) 4 4 2 f_half (fz 1) 1%N f_one f_one 1.
Example C79_learning_rate_ex :
  map (fun r => is_panic (boost_train bst_math true (rate_cfg r) freq_d bst_sched L2 [ML2] wide_rng)) [f_half; f_nan; f_inf; f_ninf] = [false; true; true; true].
Proof. vm_compute. reflexivity. Qed.
