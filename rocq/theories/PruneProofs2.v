From Coq Require Import Reals Lra.
From Flocq Require Import BinarySingleNaN Core.
From Verif Require Import Base BaseProofs BitModel Num F32 F32Proofs DataModel Config TreeModel DatasetModel LearnerModel PruneSpec PruneProofs.
Local Open Scope nat_scope.

Definition orders (O : numops) : Prop :=
  (forall a b x : num O, nle O a b = true -> nlt O b x = true -> nlt O a x = true) /\
  (forall a b x : num O, nle O a b = true -> nlt O a x = true -> nlt O b x = false -> nle O x b = true).
Lemma orders_f32 : orders f32ops.
Proof.
  split; intros a b x.
  - change (f_le a b = true -> f_lt b x = true -> f_lt a x = true). intros H1 H2. destruct (f_le_nan_l _ _ H1) as [Na Nb]. destruct (f_lt_nan_l _ _ H2) as [_ Nx]. apply f_le_key in H1; auto. apply f_lt_key in H2; auto. apply f_lt_key; auto. lra.
  - change (f_le a b = true -> f_lt a x = true -> f_lt b x = false -> f_le x b = true). intros H1 H2 H3. destruct (f_le_nan_l _ _ H1) as [Na Nb]. destruct (f_lt_nan_l _ _ H2) as [_ Nx]. apply f_le_key; auto.
    destruct (Rle_or_lt (key x) (key b)) as [H|H]; [exact H|]. apply f_lt_key in H; auto. congruence.
Qed.
Lemma orders_R : orders Rops.
Proof.
  split; intros a b x.
  - change (Rle_bool a b = true -> Rlt_bool b x = true -> Rlt_bool a x = true). intros H1 H2. destruct (Rle_bool_spec a b), (Rlt_bool_spec b x); try discriminate. apply Rlt_bool_true. lra.
  - change (Rle_bool a b = true -> Rlt_bool a x = true -> Rlt_bool b x = false -> Rle_bool x b = true). intros H1 H2 H3. destruct (Rlt_bool_spec b x); try discriminate. apply Rle_bool_true. lra.
Qed.

Section Smaller.
Variable O : numops.
Hypothesis HO : orders O.
Variables cfg cfg' : config O.
(** The settings of [smaller_trees] except for the depth. *)
Definition like (cfg cfg' : config O) : Prop :=
  c_learning_rate cfg' = c_learning_rate cfg /\ c_reg_lambda cfg' = c_reg_lambda cfg /\ c_min_examples_leaf cfg' = c_min_examples_leaf cfg /\ c_huber_alpha cfg' = c_huber_alpha cfg /\
  c_max_nbins cfg' = c_max_nbins cfg /\ c_discr_nbits cfg' = c_discr_nbits cfg /\ c_compression_threshold cfg' = c_compression_threshold cfg /\
  c_binary_gradient_bound cfg' = c_binary_gradient_bound cfg /\ c_feature_fraction cfg' = c_feature_fraction cfg /\ c_example_fraction cfg' = c_example_fraction cfg /\ c_sample_freq cfg' = c_sample_freq cfg.
Hypothesis HL : like cfg cfg'.
Ltac same := revert HL; destruct cfg, cfg'; unfold like; cbn; intros (-> & -> & -> & -> & -> & -> & -> & -> & -> & -> & ->); reflexivity.
Lemma like_update dbg s g bounds : dataset_update dbg cfg' s g bounds = dataset_update dbg cfg s g bounds.
Proof. same. Qed.
Lemma like_new d g : dataset_new cfg' d g = dataset_new cfg d g.
Proof. same. Qed.
Lemma like_root s sizes bounds sched g : get_root_n2s cfg' s sizes bounds sched g = get_root_n2s cfg s sizes bounds sched g.
Proof. same. Qed.
Lemma like_children dbg s sizes bounds sched p sp : get_left_right_n2s dbg cfg' s sizes bounds sched p sp = get_left_right_n2s dbg cfg s sizes bounds sched p sp.
Proof. same. Qed.
Lemma like_step dbg s nd f h st b : split_step dbg cfg' s nd f h st b = split_step dbg cfg s nd f h st b.
Proof. same. Qed.

Variable dbg : bool.
Variable s : dataset O.
Hypothesis HG : c_min_gain cfg' = c_min_gain cfg \/ nle O (c_min_gain cfg) (c_min_gain cfg') = true.

(** The states of the two searches for the best bin: the same, or nothing has exceeded the larger smallest gain yet. *)
Definition track (st st' : num O * split O) : Prop := st' = st \/ (is_no_split (sp_crit (snd st')) = true /\ nle O (fst st) (fst st') = true).
Lemma track_step nd f h st st' b r r' : track st st' -> split_step dbg cfg s nd f h st b = Ok r -> split_step dbg cfg' s nd f h st' b = Ok r' -> track r r'.
Proof.
  intros H E E'. rewrite like_step in E'. destruct H as [->|[Hn Hle]]; [left; congruence|]. unfold split_step in *. apply rbind_ok in E as (l & El & E). rewrite El in E'. cbn [rbind] in E'.
  apply rbind_ok in E as (rc & Er & E). rewrite Er in E'. cbn [rbind] in E'. destruct (_ || _); [apply Ok_eq in E, E'; subst; right; auto|].
  set (gain := nsub O _ _) in *. destruct (nlt O (fst st') gain) eqn:E1.
  - rewrite (proj1 HO _ _ _ Hle E1) in E. apply rbind_ok in E as (c & Ec & E). rewrite Ec in E'. cbn [rbind] in E'. apply Ok_eq in E, E'. subst. left. reflexivity.
  - apply Ok_eq in E'. subst r'. right. split; [exact Hn|]. destruct (nlt O (fst st) gain) eqn:E2.
    + apply rbind_ok in E as (c & Ec & E). apply Ok_eq in E. subst r. cbn [fst]. exact (proj2 HO _ _ _ Hle E2 E1).
    + apply Ok_eq in E. subst r. exact Hle.
Qed.
Lemma track_bins nd f h bs : forall st st' r r', track st st' -> foldM (split_step dbg cfg s nd f h) bs st = Ok r -> foldM (split_step dbg cfg' s nd f h) bs st' = Ok r' -> track r r'.
Proof.
  induction bs as [|b bs IH]; intros st st' r r' H E E'; cbn [foldM] in *; [apply Ok_eq in E, E'; subst; exact H|]. apply rbind_ok in E as (a & Ea & E). apply rbind_ok in E' as (a' & Ea' & E'). eapply IH; [|exact E|exact E']. eapply track_step; eassumption.
Qed.
Lemma track_features nd fs : forall st st' r r', track st st' ->
  foldM (fun st f => let* hist := idx (nd_hists nd) f in let* nb := get_nbins s f in foldM (split_step dbg cfg s nd f hist) (seq 0 nb) st) fs st = Ok r ->
  foldM (fun st f => let* hist := idx (nd_hists nd) f in let* nb := get_nbins s f in foldM (split_step dbg cfg' s nd f hist) (seq 0 nb) st) fs st' = Ok r' -> track r r'.
Proof.
  induction fs as [|f fs IH]; intros st st' r r' H E E'; cbn [foldM] in *; [apply Ok_eq in E, E'; subst; exact H|]. apply rbind_ok in E as (a & Ea & E). apply rbind_ok in E' as (a' & Ea' & E'). eapply IH; [|exact E|exact E'].
  apply rbind_ok in Ea as (h & Eh & Ea). rewrite Eh in Ea'. cbn [rbind] in Ea'. apply rbind_ok in Ea as (nb & En & Ea). rewrite En in Ea'. cbn [rbind] in Ea'. eapply track_bins; eassumption.
Qed.
Lemma best_same nd sp sp' : find_best_split dbg cfg s nd = Ok sp -> find_best_split dbg cfg' s nd = Ok sp' -> is_no_split (sp_crit sp') = false -> sp' = sp.
Proof.
  unfold find_best_split. intros E E' Hn. apply rbind_ok in E as (fs & Ef & E). rewrite Ef in E'. cbn [rbind] in E'. apply rbind_ok in E as (r & Er & E). apply rbind_ok in E' as (r' & Er' & E'). apply Ok_eq in E, E'. subst.
  assert (track (c_min_gain cfg, split_none O) (c_min_gain cfg', split_none O)) as H0 by (destruct HG as [->|H]; [left; reflexivity|right; auto]).
  destruct (track_features nd fs _ _ r r' H0 Er Er') as [->|[H _]]; [reflexivity|congruence].
Qed.

Variable sizes : list nat.
Variable bounds : num O * num O.
Variable sched : nat -> list job -> list job.
Variable gradients : list (num O).
Variables St St' : Type.
Variable leaf_value : list nat -> St -> res (num O * St).
Variable oob : nat -> num O -> St -> res St.
Variable leaf_value' : list nat -> St' -> res (num O * St').
Variable oob' : nat -> num O -> St' -> res St'.
Notation D := (c_max_tree_depth cfg).
Notation node_at := (node_at O dbg s sizes bounds sched gradients).
Variables (t t' : tree O).
Hypothesis HP : places O dbg s sizes bounds sched gradients cfg [] t.
Lemma node_at_same m nd : node_at cfg' m nd -> m < 2 ^ D - 1 -> node_at cfg m nd.
Proof.
  induction 1 as [nd E|m p sp l r H IH E Hn Elr|m p sp l r H IH E Hn Elr]; intros Hm.
  - apply at_root. rewrite <- like_root. exact E.
  - assert (node_at cfg m p) as Hp by (apply IH; lia). destruct (pl_full _ _ _ _ _ _ _ _ _ _ HP m p Hp ltac:(lia)) as [(sp0 & E0 & _)|(? & [] & _)].
    assert (sp = sp0) as <- by (eapply best_same; eassumption). rewrite like_children in Elr. eapply at_left; eassumption.
  - assert (node_at cfg m p) as Hp by (apply IH; lia). destruct (pl_full _ _ _ _ _ _ _ _ _ _ HP m p Hp ltac:(lia)) as [(sp0 & E0 & _)|(? & [] & _)].
    assert (sp = sp0) as <- by (eapply best_same; eassumption). rewrite like_children in Elr. eapply at_right; eassumption.
Qed.
Lemma crits_same m c : places O dbg s sizes bounds sched gradients cfg' [] t' -> m < 2 ^ D - 1 -> nth_error (t_crits t') m = Some c -> sc_type c <> NoSplit -> nth_error (t_crits t) m = Some c.
Proof.
  intros HP' Hm Ec Hn. destruct (pl_sound _ _ _ _ _ _ _ _ _ _ HP' m c Ec Hn) as (nd & sp & H & E & -> & _). pose proof (node_at_same m nd H Hm) as H'.
  destruct (pl_full _ _ _ _ _ _ _ _ _ _ HP m nd H' Hm) as [(sp0 & E0 & Hs)|(? & [] & _)].
  assert (is_no_split (sp_crit sp) = false) as Hns by (unfold is_no_split; destruct (sc_type (sp_crit sp)); [destruct Hn; reflexivity|reflexivity..]).
  assert (sp = sp0) as <- by (eapply best_same; eassumption). apply Hs, Hns.
Qed.
End Smaller.

(** Rows. *)
Section Rows.
Variable O : numops.
Variables t t' : tree O.
Hypothesis HC : cut_of t t'.
Lemma loop_below (u : tree O) d i : forall f m k, leaf_id_loop f u d i m = Ok k -> below m k.
Proof.
  induction f as [|f IH]; intros m k E; cbn [leaf_id_loop] in E; [discriminate|]. apply rbind_ok in E as (c & _ & E). apply rbind_ok in E as (ft & _ & E). apply rbind_ok in E as (v & _ & E). apply rbind_ok in E as (r & _ & E).
  destruct r as [[|]|].
  - eapply below_trans; [|apply (IH _ _ E)]. apply below_left, below_here.
  - eapply below_trans; [|apply (IH _ _ E)]. apply below_right, below_here.
  - apply Ok_eq in E. subst k. constructor.
Qed.
Lemma loop_cut d i : forall f f' m k k', leaf_id_loop f t d i m = Ok k -> leaf_id_loop f' t' d i m = Ok k' -> below k' k.
Proof.
  induction f as [|f IH]; intros f' m k k' E E'; [discriminate|]. destruct f' as [|f']; [discriminate|]. pose proof (loop_below t d i _ _ _ E) as HB. cbn [leaf_id_loop] in E, E'.
  apply rbind_ok in E' as (c' & Ec' & E'). apply idx_ok in Ec'. destruct (is_no_split c') eqn:En.
  - apply rbind_ok in E' as (ft & _ & E'). apply rbind_ok in E' as (v & _ & E'). apply rbind_ok in E' as (r & Er & E'). unfold goes_left in Er. unfold is_no_split in En. destruct (sc_type c'); try discriminate. apply Ok_eq in Er. subst r. apply Ok_eq in E'. subst k'. exact HB.
  - destruct HC as [HS HX]. assert (nth_error (t_crits t) m = Some c') as Ec by (apply HX; [exact Ec'|intros X; unfold is_no_split in En; rewrite X in En; discriminate]).
    apply rbind_ok in E as (c & Ec2 & E). apply idx_ok in Ec2. rewrite Ec in Ec2. injection Ec2 as <-. apply rbind_ok in E as (ft & Ef & E). rewrite Ef in E'. cbn [rbind] in E'. apply rbind_ok in E as (v & Ev & E). rewrite Ev in E'. cbn [rbind] in E'.
    assert (goes_left t' c' v = goes_left t c' v) as EG by (unfold goes_left; rewrite HS; reflexivity). rewrite EG in E'. apply rbind_ok in E as (r & Er & E). rewrite Er in E'. cbn [rbind] in E'.
    destruct r as [[|]|]; [eapply IH; eassumption..|]. exfalso. unfold goes_left in Er. unfold is_no_split in En. destruct (sc_type c'); try discriminate. repeat (apply rbind_ok in Er as (? & _ & Er)). discriminate.
Qed.
(** Sizes. *)
Definition split_places (u : tree O) : list nat := filter (fun m => match nth_error (t_crits u) m with Some c => negb (is_no_split c) | None => false end) (seq 0 (length (t_crits u))).
Lemma count_places (l pre : list (split_crit O)) :
  length (filter (fun m => match nth_error (pre ++ l) m with Some c => negb (is_no_split c) | None => false end) (seq (length pre) (length l))) = length (filter (fun c => negb (is_no_split c)) l).
Proof.
  revert pre. induction l as [|x l IH]; intros pre; [reflexivity|]. cbn [length seq filter]. rewrite nth_error_app2 by lia. rewrite Nat.sub_diag. cbn [nth_error].
  specialize (IH (pre ++ [x])). rewrite <- List.app_assoc, List.app_length in IH. cbn [app length] in IH. replace (length pre + 1) with (S (length pre)) in IH by lia. destruct (negb (is_no_split x)); cbn [length]; rewrite IH; reflexivity.
Qed.
Lemma splits_places (u : tree O) : splits O u = length (split_places u).
Proof. unfold splits, split_places. symmetry. apply (count_places (t_crits u) []). Qed.
Lemma cut_splits : splits O t' <= splits O t.
Proof.
  rewrite !splits_places. apply NoDup_incl_length; [apply NoDup_filter, seq_NoDup|]. intros m. unfold split_places. rewrite !filter_In. intros [_ H]. destruct (nth_error (t_crits t') m) as [c|] eqn:E; [|discriminate].
  assert (nth_error (t_crits t) m = Some c) as Ec by (apply HC; [exact E|intros X; unfold is_no_split in H; rewrite X in H; discriminate]). rewrite Ec. split; [|exact H]. apply in_seq. assert (m < length (t_crits t)) by (apply nth_error_Some; congruence). lia.
Qed.
End Rows.
