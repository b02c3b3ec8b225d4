(** What the learning rate does to one iteration. *)
From Coq Require Import Permutation.
From Verif Require Import Base BaseProofs Num DataModel Config ConfigModel TreeModel DatasetModel DatasetProofs5 LearnerModel LearnerSpec TrainSpec TrainProps ObjectiveModel ObjectiveProps
  MetricModel BoostModel BoostProofs BoostProps BoostingProofs FreqProofs.

Lemma forall2_upd A B (V : A -> B -> Prop) l l' n x y : Forall2 V l l' -> V x y -> Forall2 V (upd l n x) (upd l' n y).
Proof. intros H Hx. revert n. induction H as [|a b l l' Ha H IH]; intros [|n]; cbn; constructor; auto. Qed.

(* ---- the examples of the leaves, remembered ---- *)
Section Log.
Variable O : numops.
Variable dbg : bool.
Variable cfg : config O.
Variable s : dataset O.
Variable sizes : list nat.
Variable bounds : num O * num O.
Variable sched : nat -> list job -> list job.
Variable St : Type.
Variable leaf : list nat -> St -> res (num O * St).
Variable oob : nat -> num O -> St -> res St.

Definition leafL (ex : list nat) (x : list nat * St) : res (num O * (list nat * St)) := let* (v, st') := leaf ex (snd x) in Ok (v, (fst x ++ ex, st')).
Definition oobL (i : nat) (v : num O) (x : list nat * St) : res (list nat * St) := let* st' := oob i v (snd x) in Ok (fst x, st').

Lemma step_log nd stack t st l stack' t' st' : train_step dbg cfg s sizes bounds sched St leaf nd stack t st = Ok (stack', t', st') ->
  exists l', train_step dbg cfg s sizes bounds sched _ leafL nd stack t (l, st) = Ok (stack', t', (l', st')).
Proof.
  unfold train_step. intros E. apply rbind_ok in E as (sp & E0 & E). rewrite E0. cbn [rbind]. destruct (is_no_split (sp_crit sp)); [|destruct (negb _)].
  - apply rbind_ok in E as ([t1 x1] & E1 & E). injection E as <- <- <-. unfold predict_leaf_value in *. apply rbind_ok in E1 as (ex & E2 & E1). apply rbind_ok in E1 as ([v st2] & E3 & E1). apply rbind_ok in E1 as (t2 & E4 & E1). injection E1 as <- <-.
    exists (l ++ ex). rewrite E2. cbn [rbind]. unfold leafL. cbn [fst snd]. rewrite E3. cbn [rbind]. rewrite E4. reflexivity.
  - apply rbind_ok in E as ([x y] & E1 & E). apply rbind_ok in E as (t1 & E2 & E). injection E as <- <- <-. exists l. rewrite E1. cbn [rbind]. rewrite E2. reflexivity.
  - apply rbind_ok in E as ([t1 x1] & E1 & E). apply rbind_ok in E as (t2 & E2 & E). injection E as <- <- <-. unfold predict_child_leaf_values in *. apply rbind_ok in E1 as (fm & E3 & E1). apply rbind_ok in E1 as (el & E4 & E1).
    apply rbind_ok in E1 as ([vl st2] & E5 & E1). apply rbind_ok in E1 as (er & E6 & E1). apply rbind_ok in E1 as ([vr st3] & E7 & E1). apply rbind_ok in E1 as (t3 & E8 & E1). apply rbind_ok in E1 as (t4 & E9 & E1). injection E1 as <- <-.
    exists ((l ++ el) ++ er). rewrite E3. cbn [rbind]. rewrite E4. cbn [rbind]. unfold leafL. cbn [fst snd]. rewrite E5. cbn [rbind]. rewrite E6. cbn [rbind fst snd]. rewrite E7. cbn [rbind]. rewrite E8. cbn [rbind]. rewrite E9. cbn [rbind]. rewrite E2. reflexivity.
Qed.
Lemma loop_log fuel : forall stack t st l t' st', train_loop dbg cfg s sizes bounds sched St leaf fuel stack t st = Ok (t', st') ->
  exists l', train_loop dbg cfg s sizes bounds sched _ leafL fuel stack t (l, st) = Ok (t', (l', st')).
Proof.
  induction fuel as [|fuel IH]; intros [|nd stack] t st l t' st' E; cbn [train_loop] in *; try discriminate; try (injection E as <- <-; eexists; reflexivity).
  apply rbind_ok in E as ([[stack1 t1] st1] & E1 & E). cbn [fst snd] in E. destruct (step_log _ _ _ _ l _ _ _ E1) as (l1 & F1). rewrite F1. cbn [rbind fst snd]. exact (IH _ _ _ _ _ _ E).
Qed.
Lemma train_log gradients t st st' : train dbg cfg s sizes bounds sched St leaf oob gradients st = Ok (t, st') ->
  exists l', train dbg cfg s sizes bounds sched _ leafL oobL gradients ([], st) = Ok (t, (l', st')).
Proof.
  unfold train. intros E. apply rbind_ok in E as (t0 & E0 & E). apply rbind_ok in E as (root & E1 & E). apply rbind_ok in E as ([t1 x1] & E2 & E). apply rbind_ok in E as (x2 & E3 & E). injection E as <- <-.
  rewrite E0. cbn [rbind]. rewrite E1. cbn [rbind]. destruct (loop_log _ _ _ _ [] _ _ E2) as (l & F2). rewrite F2. cbn [rbind]. exists l.
  enough (predict_out_of_bag s _ oobL t1 (l, x1) = Ok (l, x2)) as -> by reflexivity. unfold predict_out_of_bag in *. destruct (example_sampling_enabled s); [|injection E3 as <-; reflexivity].
  apply rbind_ok in E3 as (is & Eis & E3). rewrite Eis. cbn [rbind]. clear - E3. revert x1 E3. induction is as [|i is IH]; intros x1 E3; cbn [foldM] in *; [injection E3 as <-; reflexivity|].
  apply rbind_ok in E3 as (x3 & E1 & E3). apply rbind_ok in E1 as (q & Eq & E4). rewrite Eq. cbn [rbind]. unfold oobL at 1. cbn [fst snd]. rewrite E4. cbn [rbind]. exact (IH _ E3).
Qed.
Lemma oob_log t x x' : predict_out_of_bag s _ oobL t x = Ok x' -> fst x' = fst x.
Proof.
  unfold predict_out_of_bag. destruct (example_sampling_enabled s); [|intros E; injection E as <-; reflexivity]. intros E. apply rbind_ok in E as (is & _ & E). revert x E. induction is as [|i is IH]; intros x E; cbn [foldM] in E; [injection E as <-; reflexivity|].
  apply rbind_ok in E as (x1 & E1 & E). rewrite (IH _ E). apply rbind_ok in E1 as (q & _ & E1). unfold oobL in E1. apply rbind_ok in E1 as (st & _ & E1). injection E1 as <-. reflexivity.
Qed.
Lemma calls_log : forall (gs : list (group O)) x x', leaf_calls leafL gs x x' -> fst x' = fst x ++ concat (map g_examples gs).
Proof.
  induction gs as [|g gs IH]; intros x x' H; cbn [leaf_calls map concat] in *; [subst; rewrite app_nil_r; reflexivity|]. destruct H as (x1 & E & H). rewrite (IH _ _ H).
  unfold leafL in E. apply rbind_ok in E as ([v st] & _ & E). injection E as _ <-. cbn [fst]. rewrite <- app_assoc. reflexivity.
Qed.
Lemma oobs_log : forall l x x', oob_calls oobL l x x' -> fst x' = fst x.
Proof.
  induction l as [|[i v] l IH]; intros x x' H; cbn [oob_calls] in H; [subst; reflexivity|]. destruct H as (x1 & E & H). rewrite (IH _ _ H).
  unfold oobL in E. apply rbind_ok in E as (st & _ & E). injection E as <-. reflexivity.
Qed.
End Log.

(* ---- two trainings side by side ---- *)
Section Two.
Variable O : numops.
Variable dbg : bool.
Variable cfg : config O.
Variable s : dataset O.
Variable sizes : list nat.
Variable bounds : num O * num O.
Variable sched : nat -> list job -> list job.
Variables SA SB : Type.
Variable leafA : list nat -> SA -> res (num O * SA).
Variable leafB : list nat -> SB -> res (num O * SB).
Variable good : SA -> Prop.
Variable RS : SA -> SB -> Prop.
Variable V : num O -> num O -> Prop.
Hypothesis Hl : forall ex a v a' b w b', leafA ex a = Ok (v, a') -> leafB ex b = Ok (w, b') -> good a' -> good a /\ (RS a b -> V v w /\ RS a' b').

(** The same shape and criteria, related values. *)
Definition alike (t t' : tree O) : Prop :=
  t_ninternal t = t_ninternal t' /\ t_max_depth t = t_max_depth t' /\ t_crits t = t_crits t' /\ t_shrinkage t = t_shrinkage t' /\ t_bias t = t_bias t' /\ t_supercats t = t_supercats t'.
Definition vals (t t' : tree O) : Prop := Forall2 V (t_values t) (t_values t').

Lemma set_alike ta tb n v w ta' tb' : alike ta tb -> set_node_value ta n v = Ok ta' -> set_node_value tb n w = Ok tb' -> alike ta' tb' /\ (vals ta tb -> V v w -> vals ta' tb').
Proof.
  intros HA EA EB. unfold set_node_value in *. apply rbind_ok in EA as (? & _ & EA). apply rbind_ok in EA as (vs & E1 & EA). injection EA as <-. apply rbind_ok in EB as (? & _ & EB). apply rbind_ok in EB as (ws & E2 & EB). injection EB as <-.
  split; [exact HA|]. unfold vals. cbn [t_values]. apply set_idx_ok in E1 as (_ & ->). apply set_idx_ok in E2 as (_ & ->). intros H1 H2. apply forall2_upd; assumption.
Qed.
Lemma split_alike ta tb n c ta' tb' : alike ta tb -> split_node ta n c = Ok ta' -> split_node tb n c = Ok tb' -> alike ta' tb' /\ (vals ta tb -> vals ta' tb').
Proof.
  intros (H1 & H2 & H3 & H4 & H5 & H6) EA EB. unfold split_node in *. repeat (apply rbind_ok in EA as (? & ? & EA)). repeat (apply rbind_ok in EB as (? & ? & EB)). injection EA as <-. injection EB as <-.
  repeat match goal with H : set_idx _ _ _ = Ok _ |- _ => apply set_idx_ok in H as (_ & ->) end.
  split; [|intros HV; exact HV]. unfold alike. cbn. rewrite H1, H3. repeat split; assumption.
Qed.

Lemma step_two nd stack ta a stack' ta' a' tb b stackb tb' b' : alike ta tb -> train_step dbg cfg s sizes bounds sched SA leafA nd stack ta a = Ok (stack', ta', a') ->
  train_step dbg cfg s sizes bounds sched SB leafB nd stack tb b = Ok (stackb, tb', b') -> stack' = stackb /\ alike ta' tb' /\ (good a' -> good a /\ (vals ta tb -> RS a b -> vals ta' tb' /\ RS a' b')).
Proof.
  intros HA EA EB. unfold train_step in *. apply rbind_ok in EA as (sp & Esp & EA). rewrite Esp in EB. cbn [rbind] in EB. destruct (is_no_split (sp_crit sp)).
  - apply rbind_ok in EA as ([t1 a1] & E1 & EA). injection EA as <- <- <-. apply rbind_ok in EB as ([t2 b1] & E2 & EB). injection EB as <- <- <-. split; [reflexivity|]. unfold predict_leaf_value in *.
    apply rbind_ok in E1 as (ex & Ex & E1). rewrite Ex in E2. cbn [rbind] in E2. apply rbind_ok in E1 as ([v a2] & Ea & E1). apply rbind_ok in E1 as (t3 & Et & E1). injection E1 as <- <-.
    apply rbind_ok in E2 as ([w b2] & Eb & E2). apply rbind_ok in E2 as (t4 & Et' & E2). injection E2 as <- <-. destruct (set_alike _ _ _ _ _ _ _ HA Et Et') as (HA' & Hv).
    split; [exact HA'|]. intros G. destruct (Hl _ _ _ _ _ _ _ Ea Eb G) as (G1 & HR). split; [exact G1|]. intros H1 H2. destruct (HR H2). auto.
  - assert (is_max_leaf_node tb (left_child (nd_id nd)) = is_max_leaf_node ta (left_child (nd_id nd))) as Em by (unfold is_max_leaf_node, max_ninternal; destruct HA as (_ & -> & _); reflexivity).
    rewrite Em in EB. destruct (negb _).
    + apply rbind_ok in EA as ([l r] & Elr & EA). rewrite Elr in EB. cbn [rbind] in EB. apply rbind_ok in EA as (t1 & E1 & EA). injection EA as <- <- <-. apply rbind_ok in EB as (t2 & E2 & EB). injection EB as <- <- <-.
      destruct (split_alike _ _ _ _ _ _ HA E1 E2) as (HA' & Hv). split; [reflexivity|]. split; [exact HA'|]. auto.
    + apply rbind_ok in EA as ([t1 a1] & E1 & EA). apply rbind_ok in EA as (t2 & E2 & EA). injection EA as <- <- <-. apply rbind_ok in EB as ([t3 b1] & E3 & EB). apply rbind_ok in EB as (t4 & E4 & EB). injection EB as <- <- <-.
      split; [reflexivity|]. unfold predict_child_leaf_values in *. apply rbind_ok in E1 as (fm & Ef & E1). rewrite Ef in E3. cbn [rbind] in E3. apply rbind_ok in E1 as (el & El & E1). rewrite El in E3. cbn [rbind] in E3.
      apply rbind_ok in E1 as ([vl a2] & Ea & E1). apply rbind_ok in E3 as ([wl b2] & Eb & E3). apply rbind_ok in E1 as (er & Er & E1). rewrite Er in E3. cbn [rbind] in E3.
      apply rbind_ok in E1 as ([vr a3] & Ea' & E1). apply rbind_ok in E3 as ([wr b3] & Eb' & E3). apply rbind_ok in E1 as (t5 & E5 & E1). apply rbind_ok in E1 as (t6 & E6 & E1). injection E1 as <- <-.
      apply rbind_ok in E3 as (t7 & E7 & E3). apply rbind_ok in E3 as (t8 & E8 & E3). injection E3 as <- <-.
      destruct (set_alike _ _ _ _ _ _ _ HA E5 E7) as (HA1 & Hv1). destruct (set_alike _ _ _ _ _ _ _ HA1 E6 E8) as (HA2 & Hv2). destruct (split_alike _ _ _ _ _ _ HA2 E2 E4) as (HA3 & Hv3). split; [exact HA3|].
      intros G. destruct (Hl _ _ _ _ _ _ _ Ea' Eb' G) as (G1 & HR1). destruct (Hl _ _ _ _ _ _ _ Ea Eb G1) as (G2 & HR2). split; [exact G2|]. intros H1 H2. destruct (HR2 H2) as (H3 & H4). destruct (HR1 H4). auto.
Qed.
Lemma loop_two fuel : forall stack ta a ta' a' tb b tb' b', alike ta tb -> train_loop dbg cfg s sizes bounds sched SA leafA fuel stack ta a = Ok (ta', a') ->
  train_loop dbg cfg s sizes bounds sched SB leafB fuel stack tb b = Ok (tb', b') -> alike ta' tb' /\ (good a' -> good a /\ (vals ta tb -> RS a b -> vals ta' tb' /\ RS a' b')).
Proof.
  induction fuel as [|fuel IH]; intros [|nd stack] ta a ta' a' tb b tb' b' HA EA EB; cbn [train_loop] in *; try discriminate; try (injection EA as <- <-; injection EB as <- <-; auto).
  apply rbind_ok in EA as ([[stack1 t1] a1] & E1 & EA). apply rbind_ok in EB as ([[stack2 t2] b1] & E2 & EB). cbn [fst snd] in *.
  destruct (step_two _ _ _ _ _ _ _ _ _ _ _ _ HA E1 E2) as (<- & HA1 & H1). destruct (IH _ _ _ _ _ _ _ _ _ HA1 EA EB) as (HA2 & H2). split; [exact HA2|].
  intros G. destruct (H2 G) as (G1 & K1). destruct (H1 G1) as (G2 & K2). split; [exact G2|]. intros X Y. destruct (K2 X Y) as (X1 & Y1). exact (K1 X1 Y1).
Qed.
End Two.

(* ---- a trained tree keeps the scale and the bias of a new one ---- *)
Section Plain.
Variable O : numops.
Lemma set_plain (t t' : tree O) n v : set_node_value t n v = Ok t' -> t_shrinkage t' = t_shrinkage t /\ t_bias t' = t_bias t.
Proof. intros E. unfold set_node_value in E. repeat (apply rbind_ok in E as (? & ? & E)). injection E as <-. split; reflexivity. Qed.
Lemma split_plain (t t' : tree O) n c : split_node t n c = Ok t' -> t_shrinkage t' = t_shrinkage t /\ t_bias t' = t_bias t.
Proof. intros E. unfold split_node in E. repeat (apply rbind_ok in E as (? & ? & E)). injection E as <-. split; reflexivity. Qed.
Lemma loop_plain dbg (cfg : config O) s sizes bounds sched St leaf fuel : forall stack t st t' st', train_loop dbg cfg s sizes bounds sched St leaf fuel stack t st = Ok (t', st') -> t_shrinkage t' = t_shrinkage t /\ t_bias t' = t_bias t.
Proof.
  induction fuel as [|fuel IH]; intros [|nd stack] t st t' st' E; cbn [train_loop] in E; try discriminate; try (injection E as <- <-; auto).
  apply rbind_ok in E as ([[stack1 t1] st1] & E1 & E). cbn [fst snd] in E. destruct (IH _ _ _ _ _ E) as [-> ->]. clear - E1. unfold train_step in E1. apply rbind_ok in E1 as (sp & _ & E1). destruct (is_no_split _); [|destruct (negb _)].
  - apply rbind_ok in E1 as ([t2 st2] & E2 & E1). injection E1 as <- <- <-. unfold predict_leaf_value in E2. apply rbind_ok in E2 as (ex & _ & E2). apply rbind_ok in E2 as ([v st3] & _ & E2). apply rbind_ok in E2 as (t3 & E3 & E2). injection E2 as <- <-. exact (set_plain _ _ _ _ E3).
  - apply rbind_ok in E1 as ([l r] & _ & E1). apply rbind_ok in E1 as (t2 & E2 & E1). injection E1 as <- <- <-. exact (split_plain _ _ _ _ E2).
  - apply rbind_ok in E1 as ([t2 st2] & E2 & E1). apply rbind_ok in E1 as (t3 & E3 & E1). injection E1 as <- <- <-. unfold predict_child_leaf_values in E2. apply rbind_ok in E2 as (fm & _ & E2). apply rbind_ok in E2 as (el & _ & E2). apply rbind_ok in E2 as ([vl x] & _ & E2). apply rbind_ok in E2 as (er & _ & E2).
    apply rbind_ok in E2 as ([vr y] & _ & E2). apply rbind_ok in E2 as (t4 & E4 & E2). apply rbind_ok in E2 as (t5 & E5 & E2). injection E2 as <- <-. destruct (set_plain _ _ _ _ E4) as [A1 A2]. destruct (set_plain _ _ _ _ E5) as [B1 B2]. destruct (split_plain _ _ _ _ E3) as [C1 C2]. split; congruence.
Qed.
Lemma train_plain dbg (cfg : config O) s sizes bounds sched St leaf oob g t st st' : train dbg cfg s sizes bounds sched St leaf oob g st = Ok (t, st') -> t_shrinkage t = nofZ O 1 /\ t_bias t = nofZ O 0.
Proof.
  intros E. unfold train in E. apply rbind_ok in E as (t0 & E0 & E). apply rbind_ok in E as (root & _ & E). apply rbind_ok in E as ([t1 st1] & E1 & E). apply rbind_ok in E as (st2 & _ & E). injection E as <- _.
  destruct (loop_plain _ _ _ _ _ _ _ _ _ _ _ _ _ _ E1) as [-> ->]. unfold tree_new in E0. apply rbind_ok in E0 as (u & _ & E0). injection E0 as <-. split; reflexivity.
Qed.

(** Alike trees send a row to the same leaf. *)
Lemma goes_alike (t t' : tree O) c v : alike O t t' -> goes_left t' c v = goes_left t c v.
Proof. intros (_ & _ & _ & _ & _ & H). unfold goes_left. rewrite H. reflexivity. Qed.
Lemma leaf_alike (t t' : tree O) D i : alike O t t' -> predict_leaf_id t' D i = predict_leaf_id t D i.
Proof.
  intros H. unfold predict_leaf_id. assert (t_crits t' = t_crits t) as Hc by (symmetry; apply H). rewrite Hc. generalize 0 as n. generalize (S (length (t_crits t))) as fuel. induction fuel as [|fuel IH]; intros n; [reflexivity|]. cbn [leaf_id_loop]. rewrite Hc.
  destruct (idx (t_crits t) n) as [c| | |]; cbn [rbind]; try reflexivity. destruct (get_feature D _); cbn [rbind]; try reflexivity. destruct (idx _ i); cbn [rbind]; try reflexivity. rewrite (goes_alike t t' _ _ H).
  destruct (goes_left t c _) as [[[]|]| | |]; cbn [rbind]; try reflexivity; apply IH.
Qed.
End Plain.

(* ---- one iteration ---- *)
Section Rate.
Variable O : numops.
Variable M : mathops O.
Definition with_lr (r : num O) (ob : objective O) : objective O :=
  mk_obj (ob_kind ob) r (ob_bias ob) (ob_preds ob) (ob_grads ob) (ob_bounds ob) (ob_alpha ob) (ob_delta ob) (ob_bound ob).

Lemma init_lr dbg cfg r target kind ob : obj_initialize M dbg cfg target (objective_new O kind) = Ok ob -> obj_initialize M dbg (set_learning_rate r cfg) target (objective_new O kind) = Ok (with_lr r ob).
Proof.
  destruct cfg. unfold obj_initialize, set_learning_rate. cbn. intros E. destruct kind; repeat (apply rbind_ok in E as (? & E0 & E); rewrite E0; cbn [rbind]; clear E0); apply Ok_inj in E; subst ob; reflexivity.
Qed.
Lemma update_lr r target ob ob' : obj_update M target ob = Ok ob' -> obj_update M target (with_lr r ob) = Ok (with_lr r ob').
Proof.
  destruct ob as [k lr bi ps gs bo al de bd]. unfold obj_update, with_lr. cbn [ob_kind ob_bias ob_preds ob_grads ob_bounds ob_alpha ob_delta ob_bound]. intros E.
  apply rbind_ok in E as (? & E0 & E). rewrite E0. cbn [rbind]. apply rbind_ok in E as (? & E1 & E). rewrite E1. cbn [rbind]. destruct k.
  - destruct (m_limits M _). apply Ok_inj in E. subst ob'. reflexivity.
  - apply Ok_inj in E. subst ob'. reflexivity.
  - apply rbind_ok in E as (? & E2 & E). rewrite E2. cbn [rbind]. apply Ok_inj in E. subst ob'. reflexivity.
  - apply Ok_inj in E. subst ob'. reflexivity.
  - apply Ok_inj in E. subst ob'. reflexivity.
Qed.


Lemma raw_lr r target ex ob : raw_leaf_value M target ex (with_lr r ob) = raw_leaf_value M target ex ob.
Proof. destruct ob as [[] lr bi ps gs bo al de bd]; reflexivity. Qed.

(** The objective after leaves with the examples [l]. *)
Definition after (ob : objective O) (l : list nat) (ob1 : objective O) : Prop := same_settings ob ob1 /\ forall i, ~ In i l -> nth_error (ob_preds ob1) i = nth_error (ob_preds ob) i.
Lemma leaf_after target ob l ex ob1 v ob2 : after ob l ob1 -> NoDup (l ++ ex) -> obj_leaf_value M target ex ob1 = Ok (v, ob2) ->
  exists raw, raw_leaf_value M target ex ob = Ok raw /\ v = nmul O (ob_lr ob) raw /\ after ob (l ++ ex) ob2.
Proof.
  intros (H1 & H2) HN E. apply nodup_app in HN as (_ & HN & Hd). destruct (C40_apply _ _ _ _ _ _ _ HN E) as (raw & Er & Ev & Hlen & Hp). exists raw. split.
  - rewrite <- Er. symmetry. apply raw_leaf_ext; [exact H1|]. intros i Hi. apply H2. intros Hc. exact (Hd i Hc Hi).
  - split; [rewrite Ev; destruct H1 as (_ & -> & _); reflexivity|]. split; [exact (same_settings_trans _ _ _ _ H1 (leaf_call_settings _ _ _ _ _ _ _ E))|].
    intros i Hi. rewrite in_app_iff in Hi. rewrite <- H2 by tauto. destruct (nth_error (ob_preds ob1) i) as [p|] eqn:Ep; [apply (Hp i p Ep); tauto|]. apply nth_error_None in Ep. apply nth_error_None. rewrite Hlen. exact Ep.
Qed.

(** Two values of a leaf: one number times the one and the other rate, or both 0. *)
Definition rated (a b v w : num O) : Prop := (v = nofZ O 0 /\ w = nofZ O 0) \/ exists raw, v = nmul O a raw /\ w = nmul O b raw.

Lemma train_two dbg (cfg : config O) d s sizes bounds sched target gradients ob r ta oa tb obb : setting dbg cfg d s sizes sched ->
  train dbg cfg s sizes bounds sched (objective O) (obj_leaf_value M target) update_out_of_bag gradients ob = Ok (ta, oa) ->
  train dbg cfg s sizes bounds sched (objective O) (obj_leaf_value M target) update_out_of_bag gradients (with_lr r ob) = Ok (tb, obb) ->
  alike O ta tb /\ Forall2 (rated (ob_lr ob) r) (t_values ta) (t_values tb).
Proof.
  intros HS EA EB. destruct (train_log _ _ _ _ _ _ _ _ _ _ _ _ _ _ EA) as (la & FA). destruct (train_log _ _ _ _ _ _ _ _ _ _ _ _ _ _ EB) as (lb & FB).
  destruct (C26_leaves _ _ _ _ _ _ _ _ _ _ _ _ _ _ _ _ HS FA) as (rows & gs & others & st1 & _ & _ & _ & _ & Hnd & _ & HC & HO & _).
  apply calls_log in HC. apply oobs_log in HO. cbn [fst app] in HC, HO.
  unfold train in FA, FB. apply rbind_ok in FA as (t0 & E0 & FA). rewrite E0 in FB. cbn [rbind] in FB. apply rbind_ok in FA as (root & E1 & FA). rewrite E1 in FB. cbn [rbind] in FB.
  apply rbind_ok in FA as ([t1 x1] & EL & FA). apply rbind_ok in FA as (x2 & EO & FA). injection FA as -> ->. apply rbind_ok in FB as ([t2 y1] & EL' & FB). apply rbind_ok in FB as (y2 & EO' & FB). injection FB as -> ->.
  apply oob_log in EO. cbn [fst] in EO.
  destruct (loop_two O dbg cfg s sizes bounds sched _ _ (leafL O (objective O) (obj_leaf_value M target)) (leafL O (objective O) (obj_leaf_value M target))
    (fun a => NoDup (fst a)) (fun a b => fst a = fst b /\ after ob (fst a) (snd a) /\ after (with_lr r ob) (fst b) (snd b)) (rated (ob_lr ob) r)) with (3 := EL) (4 := EL') as (HA & HG).
  - intros ex [l a] v [l1 a1] [m b] w [m1 b1] Ea Eb G. unfold leafL in Ea, Eb. cbn [fst snd] in *. apply rbind_ok in Ea as ([v' a'] & Ea & E). injection E as -> <- ->. apply rbind_ok in Eb as ([w' b'] & Eb & E). injection E as -> <- ->.
    split; [apply nodup_app in G; apply G|]. intros (<- & HA & HB). destruct (leaf_after _ _ _ _ _ _ _ HA G Ea) as (raw & Er & Ev & HA'). destruct (leaf_after _ _ _ _ _ _ _ HB G Eb) as (raw' & Er' & Ew & HB').
    rewrite raw_lr in Er'. assert (raw' = raw) as -> by congruence. split; [right; exists raw; split; assumption|]. auto.
  - repeat split.
  - split; [exact HA|]. destruct HG as (_ & HG). { rewrite <- EO, HO, HC. exact Hnd. }
    apply HG.
    + unfold vals. unfold tree_new in E0. apply rbind_ok in E0 as (u & _ & E0). injection E0 as <-. cbn [t_values]. clear. match goal with |- Forall2 _ (repeat _ ?n) _ => induction n; cbn; constructor; auto end. left. auto.
    + split; [reflexivity|]. split; (split; [apply same_settings_refl|reflexivity]).
Qed.
End Rate.
