(** What the updates of the dataset make splittable: a tree only splits on a feature with bins. *)
From Coq Require Import Permutation.
From Verif Require Import Base BaseProofs BitModel Num DataModel Config TreeModel DatasetModel LearnerModel LearnerSpec LearnerProofs4 LearnerProofs5 ObjectiveModel MetricModel BoostModel.

Section Split.
Variable O : numops.
Variable dbg : bool.
Variable cfg : config O.
Variable s : dataset O.
Variable sizes : list nat.
Variable bounds : num O * num O.
Variable sched : nat -> list job -> list job.
Variable St : Type.
Variable leaf_value : list nat -> St -> res (num O * St).
Variable oob : nat -> num O -> St -> res St.

(** The feature of a split has at least one bin. *)
Definition binned (c : split_crit O) : Prop := is_no_split c = true \/ exists nb, get_nbins s (sc_feature c) = Ok nb /\ 0 < nb.

Lemma best_binned nd sp : find_best_split dbg cfg s nd = Ok sp -> binned (sp_crit sp).
Proof.
  intros E. unfold find_best_split in E. apply rbind_ok in E as (fs & _ & E). apply rbind_ok in E as (st & E & E'). injection E' as <-.
  set (Q := fun st : num O * split O => binned (sp_crit (snd st))). change (Q st). revert E. apply (foldM_inv _ _ _ Q); [|left; reflexivity].
  intros st1 f st2 _ H E. apply rbind_ok in E as (hist & _ & E). apply rbind_ok in E as (nb & Enb & E). revert H E. apply (foldM_inv _ _ _ Q).
  intros st3 b st4 Hb H E. apply in_seq in Hb. unfold split_step in E. apply rbind_ok in E as (l & _ & E). apply rbind_ok in E as (rc & _ & E). cbv zeta in E.
  destruct (_ || _) in E; [injection E as <-; exact H|]. destruct (nlt O _ _) in E; [|injection E as <-; exact H].
  apply rbind_ok in E as (c & Ec & E). injection E as <-. right. cbn [snd sp_crit]. apply make_crit_ok in Ec. destruct Ec as (-> & _). exists nb. split; [exact Enb|lia].
Qed.

Lemma upd_forall A (P : A -> Prop) l k (x : A) : Forall P l -> P x -> Forall P (upd l k x).
Proof. intros H Hx. revert k. induction H as [|a l Ha H IH]; intros [|k]; cbn; constructor; auto. Qed.
Lemma split_node_crits (P : split_crit O -> Prop) t n c t' : Forall P (t_crits t) -> P c -> split_node t n c = Ok t' -> Forall P (t_crits t').
Proof.
  intros Ht Hc E. unfold split_node in E. repeat (apply rbind_ok in E as (? & ? & E)). injection E as <-. cbn [t_crits].
  match goal with H : set_idx _ _ _ = Ok _ |- _ => apply set_idx_ok in H as (_ & ->) end. apply upd_forall; assumption.
Qed.
Lemma set_value_crits t n v t' : set_node_value t n v = Ok t' -> t_crits t' = t_crits (O := O) t.
Proof. intros E. unfold set_node_value in E. repeat (apply rbind_ok in E as (? & ? & E)). injection E as <-. reflexivity. Qed.

Lemma step_binned nd stack t st stack' t' st' : Forall binned (t_crits t) -> train_step dbg cfg s sizes bounds sched St leaf_value nd stack t st = Ok (stack', t', st') -> Forall binned (t_crits t').
Proof.
  intros Ht E. unfold train_step in E. apply rbind_ok in E as (sp & Esp & E). pose proof (best_binned _ _ Esp) as Hb.
  destruct (is_no_split (sp_crit sp)); [|destruct (negb _)].
  - apply rbind_ok in E as ([t1 st1] & E1 & E). injection E as <- <- <-. unfold predict_leaf_value in E1. apply rbind_ok in E1 as (ex & _ & E1). apply rbind_ok in E1 as ([v st2] & _ & E1).
    apply rbind_ok in E1 as (t2 & E2 & E1). injection E1 as <- <-. rewrite (set_value_crits _ _ _ _ E2). exact Ht.
  - apply rbind_ok in E as ([l r] & _ & E). apply rbind_ok in E as (t1 & E1 & E). injection E as <- <- <-. exact (split_node_crits _ _ _ _ _ Ht Hb E1).
  - apply rbind_ok in E as ([t1 st1] & E1 & E). apply rbind_ok in E as (t2 & E2 & E). injection E as <- <- <-. refine (split_node_crits _ _ _ _ _ _ Hb E2).
    unfold predict_child_leaf_values in E1. apply rbind_ok in E1 as (fm & _ & E1). apply rbind_ok in E1 as (el & _ & E1). apply rbind_ok in E1 as ([vl st2] & _ & E1). apply rbind_ok in E1 as (er & _ & E1).
    apply rbind_ok in E1 as ([vr st3] & _ & E1). apply rbind_ok in E1 as (t3 & E3 & E1). apply rbind_ok in E1 as (t4 & E4 & E1). injection E1 as <- <-.
    rewrite (set_value_crits _ _ _ _ E4), (set_value_crits _ _ _ _ E3). exact Ht.
Qed.
Lemma loop_binned fuel : forall stack t st t' st', Forall binned (t_crits t) -> train_loop dbg cfg s sizes bounds sched St leaf_value fuel stack t st = Ok (t', st') -> Forall binned (t_crits t').
Proof.
  induction fuel as [|fuel IH]; intros [|nd stack] t st t' st' Ht E; cbn [train_loop] in E; try discriminate; try (injection E as <- <-; exact Ht).
  apply rbind_ok in E as ([[stack1 t1] st1] & E1 & E). cbn [fst snd] in E. exact (IH _ _ _ _ _ (step_binned _ _ _ _ _ _ _ Ht E1) E).
Qed.
Lemma train_binned gradients st t st' : train dbg cfg s sizes bounds sched St leaf_value oob gradients st = Ok (t, st') -> Forall binned (t_crits t).
Proof.
  intros E. unfold train in E. apply rbind_ok in E as (t0 & E0 & E). apply rbind_ok in E as (root & _ & E). apply rbind_ok in E as ([t1 st1] & E1 & E). apply rbind_ok in E as (st2 & _ & E). injection E as <- _.
  refine (loop_binned _ _ _ _ _ _ _ E1). unfold tree_new in E0. apply rbind_ok in E0 as (u & _ & E0). injection E0 as <-. cbn [t_crits]. apply Forall_forall. intros c Hc. apply repeat_spec in Hc as ->. left. reflexivity.
Qed.
End Split.

Section Freq.
Variable O : numops.
Variable M : mathops O.
Variable dbg : bool.
Variable cfg : config O.
Variable d : data O.
Variable sched : nat -> nat -> list job -> list job.

(** Only low-cardinality features have bins, and only when the examples are not sampled. *)
Definition locard_only (s : dataset O) : Prop :=
  in_data (ds_inner s) = d /\ forall f nb, get_nbins s f = Ok nb -> 0 < nb -> feat_type_of d f = Ok LoCardCat /\ nlt O (c_example_fraction cfg) (nofZ O 1) = false.

Lemma new_locard g s : dataset_new cfg d g = Ok s -> locard_only s.
Proof.
  intros E. unfold dataset_new in E. apply rbind_ok in E as (i & Ei & E).
  assert (in_data i = d /\ in_used_nbins i = repeat 0 (d_nfeatures d)) as [Hd Hu].
  { unfold inner_new in Ei. apply rbind_ok in Ei as ([[us bv] nl] & _ & Ei). injection Ei as <-. split; reflexivity. }
  destruct (nlt O (c_example_fraction cfg) (nofZ O 1)) eqn:Ef.
  - injection E as <-. split; [exact Hd|]. cbn [ds_inner]. intros f nb Hnb Hp. unfold get_nbins in Hnb. cbn [ds_inner] in Hnb. rewrite Hu in Hnb. apply idx_ok in Hnb. apply nth_error_In, repeat_spec in Hnb. lia.
  - apply rbind_ok in E as (i' & Ei' & E). injection E as <-. unfold locard_only, get_nbins. cbn [ds_inner].
    set (Q := fun i : inner O => in_data i = d /\ forall f nb, idx (in_used_nbins i) f = Ok nb -> 0 < nb -> feat_type_of d f = Ok LoCardCat /\ nlt O (c_example_fraction cfg) (nofZ O 1) = false).
    change (Q i'). revert Ei'. apply (foldM_inv _ _ _ Q).
    + intros i1 f i2 _ [H1 H2] E1. apply rbind_ok in E1 as (ft & Eft & E1). destruct (is_locard ft) eqn:El; [|injection E1 as <-; split; assumption].
      destruct ft; try discriminate El. unfold update_locard_cat in E1. apply rbind_ok in E1 as (feat & _ & E1). apply rbind_ok in E1 as (nb & _ & E1). apply rbind_ok in E1 as (used & Eu & E1).
      repeat (apply rbind_ok in E1 as (? & ? & E1)). injection E1 as <-. split; [exact H1|]. cbn [in_used_nbins]. intros f' nb' Hi Hp. apply set_idx_ok in Eu as (_ & ->). apply idx_ok in Hi.
      destruct (Nat.eq_dec f' f) as [->|Hn]; [split; [exact Eft|exact Ef]|]. rewrite nth_error_upd in Hi. replace (f =? f') with false in Hi by (symmetry; apply Nat.eqb_neq; congruence). cbn [andb] in Hi. apply (H2 f' nb'); [apply idx_ok; exact Hi|exact Hp].
    + split; [exact Hd|]. rewrite Hu. intros f nb Hi Hp. apply idx_ok in Hi. apply nth_error_In, repeat_spec in Hi. lia.
Qed.
Lemma update_locard s grad bounds s' : c_sample_freq cfg = 0 -> dataset_update dbg cfg s grad bounds = Ok s' -> locard_only s -> locard_only s'.
Proof. intros Hf E H. unfold dataset_update in E. cbv zeta in E. rewrite Hf in E. cbn [skip_update Nat.eqb orb] in E. injection E as <-. exact H. Qed.

Lemma run_locard kind metrics g k b : c_sample_freq cfg = 0 -> boost_run M dbg cfg d sched kind metrics g k = Ok b ->
  Forall (fun t => Forall (fun c => is_no_split c = true \/ (feat_type_of d (sc_feature c) = Ok LoCardCat /\ nlt O (c_example_fraction cfg) (nofZ O 1) = false)) (t_crits t)) (at_trees (bs_ensemble b)).
Proof.
  intros Hf E. unfold boost_run in E. apply rbind_ok in E as (b0 & E0 & E). apply rbind_ok in E as (sizes & _ & E).
  match goal with |- ?G => enough (locard_only (bs_dataset b) /\ G) by tauto end. revert b E. induction k as [|k IH]; intros b E.
  - injection E as <-. unfold boost_start in E0. apply rbind_ok in E0 as (s & Es & E0). apply rbind_ok in E0 as (t & _ & E0). apply rbind_ok in E0 as (ob & _ & E0). injection E0 as <-.
    cbn [bs_dataset bs_ensemble additive_set_bias additive_new at_trees]. split; [exact (new_locard _ _ Es)|constructor].
  - rewrite seq_S, foldM_app in E. apply rbind_ok in E as (b1 & E1 & E). cbn [foldM] in E. apply rbind_ok in E as (b2 & E & E2). injection E2 as <-. destruct (IH b1 E1) as (L1 & F1). unfold train_one_iter in E.
    apply rbind_ok in E as (target & Et & E). cbv zeta in E. apply rbind_ok in E as (ob & Eob & E). apply rbind_ok in E as (s & Es & E). apply rbind_ok in E as ([t ob'] & Etr & E). injection E as <-. cbn [bs_dataset bs_ensemble push_tree at_trees].
    pose proof (update_locard _ _ _ _ Hf Es L1) as L2. split; [exact L2|]. apply Forall_app. split; [exact F1|]. constructor; [|constructor].
    pose proof (train_binned _ _ _ _ _ _ _ _ _ _ _ _ _ _ Etr) as Hb. revert Hb. apply Forall_impl. intros c [H|(nb & Hnb & Hp)]; [left; exact H|right]. exact (proj2 L2 _ _ Hnb Hp).
Qed.
End Freq.

(** A tree without splits predicts one number. *)
Section Stump.
Variable O : numops.

Lemma map_repeat' A B (f : A -> B) x n : map f (repeat x n) = repeat (f x) n.
Proof. induction n; cbn; congruence. Qed.
Definition bare (t : tree O) : Prop := Forall (fun c => is_no_split c = true) (t_crits t).
Definition only_value (t : tree O) : num O := nmul O (t_shrinkage t) (nadd O (nth 0 (t_values t) (nofZ O 0)) (t_bias t)).

Lemma bare_single t D i p : bare t -> predict_single t D i = Ok p -> p = only_value t.
Proof.
  intros HB E. unfold predict_single in E. apply rbind_ok in E as (leaf & El & E). apply rbind_ok in E as (v & Ev & E). injection E as <-.
  unfold predict_leaf_id in El. cbn [leaf_id_loop] in El. apply rbind_ok in El as (c & Ec & El). apply rbind_ok in El as (col & _ & El). apply rbind_ok in El as (x & _ & El).
  apply idx_ok, nth_error_In in Ec. unfold bare in HB. rewrite Forall_forall in HB. specialize (HB c Ec). unfold is_no_split in HB. unfold goes_left in El. destruct (sc_type c); try discriminate HB. cbn [rbind] in El. injection El as <-.
  apply idx_ok in Ev. unfold only_value. rewrite (nth_error_nth _ _ (nofZ O 0) Ev). reflexivity.
Qed.
Lemma upd_repeat A (y x : A) a m : upd (repeat y a ++ repeat x (S m)) a y = repeat y (S a) ++ repeat x m.
Proof. induction a as [|a IH]; cbn; [reflexivity|]. f_equal. exact IH. Qed.
Lemma bare_loop t (D : data O) (f : num O -> num O -> num O) x (HB : bare t) m : forall a (buf : list (num O)),
  foldM (fun (buf : list (num O)) i => let* p := predict_single t D i in let* z := idx buf i in set_idx buf i (f p z)) (seq a m) (repeat (f (only_value t) x) a ++ repeat x m) = Ok buf -> buf = repeat (f (only_value t) x) (a + m).
Proof.
  induction m as [|m IH]; intros a buf E; cbn [seq foldM] in E.
  - injection E as <-. cbn [repeat]. rewrite app_nil_r, Nat.add_0_r. reflexivity.
  - apply rbind_ok in E as (b1 & E1 & E). apply rbind_ok in E1 as (p & Ep & E1). apply rbind_ok in E1 as (z & Ez & E1). apply (bare_single _ _ _ _ HB) in Ep. subst p.
    apply idx_ok in Ez. rewrite nth_error_app2 in Ez by (rewrite repeat_length; lia). rewrite repeat_length, Nat.sub_diag in Ez. cbn in Ez. injection Ez as <-. apply set_idx_ok in E1 as (_ & ->). rewrite upd_repeat in E. rewrite (IH _ _ E). f_equal. lia.
Qed.
Lemma bare_and t D f x buf : bare t -> predict_and t D f (repeat x (d_nexamples D)) = Ok buf -> buf = repeat (f (only_value t) x) (d_nexamples D).
Proof. intros HB E. unfold predict_and in E. apply rbind_ok in E as (u & _ & E). exact (bare_loop t D f x HB (d_nexamples D) 0 buf E). Qed.
Lemma bare_additive (m : additive_tree O) D ps : Forall bare (at_trees m) -> additive_predict m D = Ok ps -> ps = repeat (fold_left (fun acc t => nadd O acc (only_value t)) (at_trees m) (at_bias m)) (d_nexamples D).
Proof.
  intros HB E. unfold additive_predict, additive_predict_buf in E. rewrite map_repeat' in E. revert E. generalize (at_bias m) as x. induction HB as [|t ts Ht _ IH]; intros x E; cbn [foldM fold_left] in *; [injection E as <-; reflexivity|].
  apply rbind_ok in E as (b1 & E1 & E). apply (bare_and _ _ _ _ _ Ht) in E1. subst b1. exact (IH _ E).
Qed.
End Stump.
