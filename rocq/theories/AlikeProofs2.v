(** Training on tables that agree on the informative columns: the learner, for two objectives that give the same leaf values. *)
From Coq Require Import Permutation.
From Verif Require Import Base BaseProofs BitModel Num DataModel BinnerModel Config TreeModel DatasetModel DatasetSpec DatasetProofs DatasetProofs3 DatasetProofs4 DatasetProofs5
  LearnerModel LearnerSpec LearnerProofs3 LearnerProofs4 ObjectiveModel MetricModel BoostModel BoostSpec AlikeSpec AlikeProofs.

Section Alike2.
Variable O : numops.
Variables d d' : data O.
Hypothesis Hal : alike d d'.
Notation swp := (swap O d').
Notation gd := (good O d).

(* ---- predictions ---- *)
(** Every split of the tree is on an informative feature. *)
Definition informed (t : tree O) : Prop := forall f, looks_at t f -> useful_feature d f.
Lemma alike_row f col i v : get_feature d f = Ok col -> idx col i = Ok v -> exists col' v', get_feature d' f = Ok col' /\ idx col' i = Ok v'.
Proof.
  intros H1 H2. destruct Hal as (_ & _ & _ & _ & HC & HL & _). unfold get_feature in *. apply idx_ok in H1, H2.
  assert (f < length (d_features d')) as L by (rewrite HL; apply nth_error_Some; rewrite H1; discriminate).
  destruct (nth_error (d_features d') f) as [col'|] eqn:E; [|apply nth_error_None in E; lia].
  assert (i < length col') as Li. { rewrite (HC col') by (right; eapply nth_error_In, E). rewrite <- (HC col) by (left; eapply nth_error_In, H1). apply nth_error_Some. rewrite H2. discriminate. }
  destruct (nth_error col' i) as [v'|] eqn:E2; [|apply nth_error_None in E2; lia]. exists col', v'. split; apply idx_ok; assumption.
Qed.
Lemma swap_leaf t i : informed t -> forall fuel n l, leaf_id_loop fuel t d i n = Ok l -> leaf_id_loop fuel t d' i n = Ok l.
Proof.
  intros HI fuel. induction fuel as [|fuel IH]; intros n l E; [discriminate|]. cbn [leaf_id_loop] in *. apply rbind_ok in E as (c & Ec & E). rewrite Ec. cbn [rbind].
  apply rbind_ok in E as (col & E1 & E). apply rbind_ok in E as (v & E2 & E). apply idx_ok in Ec. destruct (is_no_split c) eqn:EN.
  - destruct (alike_row _ _ _ _ E1 E2) as (col' & v' & -> & Ev). cbn [rbind]. rewrite Ev. cbn [rbind]. unfold is_no_split in EN. unfold goes_left in *. destruct (sc_type c); try discriminate. exact E.
  - assert (useful_feature d (sc_feature c)) as Hf by (apply HI; exists n, c; auto). destruct (al_same O d d' Hal _ Hf) as (-> & _). rewrite E1. cbn [rbind]. rewrite E2. cbn [rbind].
    apply rbind_ok in E as (r & Er & E). rewrite Er. cbn [rbind]. destruct r as [[]|]; [apply IH; exact E|apply IH; exact E|exact E].
Qed.
Lemma swap_predict t i p : informed t -> predict_single t d i = Ok p -> predict_single t d' i = Ok p.
Proof.
  intros HI E. unfold predict_single, predict_leaf_id in *. apply rbind_ok in E as (l & El & E). rewrite (swap_leaf t i HI _ _ _ El). exact E.
Qed.

(* ---- the learner ---- *)
Variable dbg : bool.
Variable cfg : config O.
Variable s : dataset O.
Hypothesis Hs : gd (ds_inner s).
Variable sizes : list nat.
Variable bounds : num O * num O.
Variable sched : nat -> list job -> list job.
Notation tr := (fun A => A) (only parsing).

Lemma active_useful fs : active_features s = Ok fs -> forall f, In f fs -> useful_feature d f.
Proof.
  intros E f Hf. apply (proj2 Hs). unfold active_features, in_active_features, subslice in E.
  destruct (_ && _); [|discriminate]. injection E as <-. clear - Hf. unfold sub in Hf.
  assert (forall k (l : list nat), In f (firstn k l) -> In f l) as H by (induction k; intros [|y l]; cbn; intros H; try tauto; destruct H; [left; assumption|right; auto]). 
  assert (forall k (l : list nat), In f (skipn k l) -> In f l) as H2 by (induction k; intros [|y l]; cbn; intros H'; try tauto; right; auto).
  eauto.
Qed.
Lemma swap_crit f b : useful_feature d f -> make_crit (swp s) f b = make_crit s f b.
Proof.
  intros Hf. destruct (al_same O d d' Hal _ Hf) as (_ & _ & E & _). unfold make_crit, get_split_value. change (in_data (ds_inner (swp s))) with d'. rewrite (proj1 Hs), E. reflexivity.
Qed.
Lemma swap_best nd : find_best_split dbg cfg (swp s) nd = find_best_split dbg cfg s nd.
Proof.
  unfold find_best_split. change (active_features (swp s)) with (active_features s). destruct (active_features s) as [fs| | |] eqn:Ea; cbn [rbind]; try reflexivity. f_equal.
  apply foldM_ext_in. intros st f Hf. destruct (idx (nd_hists nd) f) as [h| | |]; cbn [rbind]; try reflexivity. change (get_nbins (swp s) f) with (get_nbins s f). destruct (get_nbins s f) as [nb| | |]; cbn [rbind]; try reflexivity.
  apply foldM_ext_in. intros st' b _. unfold split_step. rewrite swap_crit by (eapply active_useful; eassumption). reflexivity.
Qed.
Lemma best_informed nd sp : find_best_split dbg cfg s nd = Ok sp -> is_no_split (sp_crit sp) = true \/ useful_feature d (sc_feature (sp_crit sp)).
Proof.
  intros E. unfold find_best_split in E. apply rbind_ok in E as (fs & Ea & E). apply rbind_ok in E as (st & Ef & E). injection E as <-.
  assert (forall (P : num O * split O -> Prop) l st0 st1, P st0 -> (forall a x b, In x l -> P a -> (let* hist := idx (nd_hists nd) x in let* nb := get_nbins s x in foldM (split_step dbg cfg s nd x hist) (seq 0 nb) a) = Ok b -> P b) ->
    foldM (fun st f => let* hist := idx (nd_hists nd) f in let* nb := get_nbins s f in foldM (split_step dbg cfg s nd f hist) (seq 0 nb) st) l st0 = Ok st1 -> P st1) as HF.
  { intros P l. induction l as [|x l IH]; intros st0 st1 H0 HS H; cbn [foldM] in H; [injection H as <-; exact H0|]. apply rbind_ok in H as (st2 & H2 & H). eapply IH; [|intros a y b Hy; apply HS; right; exact Hy|exact H]. eapply HS; [left; reflexivity|exact H0|exact H2]. }
  apply (HF (fun st => is_no_split (sp_crit (snd st)) = true \/ useful_feature d (sc_feature (sp_crit (snd st)))) fs _ _) in Ef; [exact Ef|left; reflexivity|].
  intros a f b Hf Ha E. apply rbind_ok in E as (hist & _ & E). apply rbind_ok in E as (nb & _ & E). revert a Ha E. generalize (seq 0 nb). intros l. induction l as [|x l IH]; intros a Ha E; cbn [foldM] in E; [injection E as <-; exact Ha|].
  apply rbind_ok in E as (st2 & E2 & E). eapply IH; [|exact E]. clear IH E. unfold split_step in E2. apply rbind_ok in E2 as (l0 & _ & E2). apply rbind_ok in E2 as (rc & _ & E2).
  destruct (_ || _); [injection E2 as <-; exact Ha|]. destruct (nlt O _ _); [|injection E2 as <-; exact Ha]. apply rbind_ok in E2 as (c & Ec & E2). injection E2 as <-. cbn [snd sp_crit]. right.
  unfold make_crit in Ec. apply rbind_ok in Ec as (v & _ & Ec). apply rbind_ok in Ec as (ft & _ & Ec). injection Ec as <-. cbn [sc_feature]. eapply active_useful; eassumption.
Qed.

(** The two objectives. *)
Variables St St' : Type.
Variable lv : list nat -> St -> res (num O * St).
Variable lv' : list nat -> St' -> res (num O * St').
Variable oob : nat -> num O -> St -> res St.
Variable oob' : nat -> num O -> St' -> res St'.
Variable R : St -> St' -> Prop.
Hypothesis Hlv : forall ex st st' v st1, R st st' -> lv ex st = Ok (v, st1) -> exists st1', lv' ex st' = Ok (v, st1') /\ R st1 st1'.
Hypothesis Hoob : forall i v st st' st1, R st st' -> oob i v st = Ok st1 -> exists st1', oob' i v st' = Ok st1' /\ R st1 st1'.

Lemma set_informed t n v t1 : set_node_value t n v = Ok t1 -> informed t -> informed t1.
Proof.
  intros E H. unfold set_node_value in E. apply rbind_ok in E as (? & _ & E). apply rbind_ok in E as (vs & _ & E). injection E as <-. exact H.
Qed.
Lemma split_informed t n c t1 : split_node t n c = Ok t1 -> (is_no_split c = true \/ useful_feature d (sc_feature c)) -> informed t -> informed t1.
Proof.
  intros E Hc H. unfold split_node in E. do 4 (apply rbind_ok in E as (? & _ & E)). apply rbind_ok in E as (cs & Ecs & E). injection E as <-.
  intros f (m & c0 & Hm & HN & Hf). cbn [t_crits] in Hm. apply set_idx_ok in Ecs as [L ->]. rewrite nth_error_upd in Hm.
  match type of Hm with (if ?b then _ else _) = _ => destruct b end.
  - injection Hm as <-. destruct Hc as [Hc|Hc]; [congruence|]. subst f. exact Hc.
  - apply H. exists m, c0. auto.
Qed.
Lemma swap_leaf_value nd t st st' t1 st1 : R st st' -> informed t -> predict_leaf_value s St lv nd t st = Ok (t1, st1) ->
  exists st1', predict_leaf_value (swp s) St' lv' nd t st' = Ok (t1, st1') /\ R st1 st1' /\ informed t1.
Proof.
  intros HR HI E. unfold predict_leaf_value in *. change (node_examples (swp s) nd) with (node_examples s nd). apply rbind_ok in E as (ex & -> & E). cbn [rbind]. apply rbind_ok in E as ((v & st2) & Ev & E).
  destruct (Hlv _ _ _ _ _ HR Ev) as (st2' & -> & HR2). cbn [rbind]. apply rbind_ok in E as (t2 & Et & E). rewrite Et. cbn [rbind]. injection E as <- <-. eexists. split; [reflexivity|]. split; [exact HR2|]. eapply set_informed; eassumption.
Qed.
Lemma swap_child_values nd sp t st st' t1 st1 : R st st' -> informed t -> predict_child_leaf_values s St lv nd sp t st = Ok (t1, st1) ->
  exists st1', predict_child_leaf_values (swp s) St' lv' nd sp t st' = Ok (t1, st1') /\ R st1 st1' /\ informed t1.
Proof.
  intros HR HI E. unfold predict_child_leaf_values in *. change (ds_get_bitvec (swp s)) with (ds_get_bitvec s). apply rbind_ok in E as (fm & -> & E). cbn [rbind]. change (left_examples (swp s) nd fm) with (left_examples s nd fm). change (right_examples (swp s) nd fm) with (right_examples s nd fm).
  apply rbind_ok in E as (exl & -> & E). cbn [rbind]. apply rbind_ok in E as ((v & st2) & Ev & E). destruct (Hlv _ _ _ _ _ HR Ev) as (st2' & -> & HR2). cbn [rbind].
  apply rbind_ok in E as (exr & -> & E). cbn [rbind]. apply rbind_ok in E as ((v3 & st3) & Ev3 & E). destruct (Hlv _ _ _ _ _ HR2 Ev3) as (st3' & -> & HR3). cbn [rbind].
  apply rbind_ok in E as (t2 & Et & E). rewrite Et. cbn [rbind]. apply rbind_ok in E as (t3 & Et3 & E). rewrite Et3. cbn [rbind]. injection E as <- <-. eexists. split; [reflexivity|]. split; [exact HR3|]. eapply set_informed; [eassumption|]. eapply set_informed; eassumption.
Qed.
Lemma swap_step nd stack t st st' stack1 t1 st1 : R st st' -> informed t -> train_step dbg cfg s sizes bounds sched St lv nd stack t st = Ok (stack1, t1, st1) ->
  exists st1', train_step dbg cfg (swp s) sizes bounds sched St' lv' nd stack t st' = Ok (stack1, t1, st1') /\ R st1 st1' /\ informed t1.
Proof.
  intros HR HI E. unfold train_step in *. rewrite swap_best. apply rbind_ok in E as (sp & Esp & E). rewrite Esp. cbn [rbind]. apply best_informed in Esp. destruct (is_no_split (sp_crit sp)) eqn:EN.
  - apply rbind_ok in E as ((t2 & st2) & E2 & E). destruct (swap_leaf_value _ _ _ _ _ _ HR HI E2) as (st2' & -> & HR2 & HI2). cbn [rbind]. injection E as <- <- <-. eauto.
  - destruct (negb (is_max_leaf_node t (left_child (nd_id nd)))).
    + change (get_left_right_n2s dbg cfg (swp s) sizes bounds sched nd sp) with (get_left_right_n2s dbg cfg s sizes bounds sched nd sp). apply rbind_ok in E as ((ln & rn) & -> & E). cbn [rbind]. apply rbind_ok in E as (t2 & Et & E). rewrite Et. cbn [rbind]. injection E as <- <- <-. exists st'. split; [reflexivity|]. split; [exact HR|]. eapply split_informed; [exact Et|rewrite EN; exact Esp|exact HI].
    + apply rbind_ok in E as ((t2 & st2) & E2 & E). destruct (swap_child_values _ _ _ _ _ _ _ HR HI E2) as (st2' & -> & HR2 & HI2). cbn [rbind]. apply rbind_ok in E as (t3 & Et & E). rewrite Et. cbn [rbind]. injection E as <- <- <-. exists st2'. split; [reflexivity|]. split; [exact HR2|]. eapply split_informed; [exact Et|rewrite EN; exact Esp|exact HI2].
Qed.
Lemma swap_loop fuel : forall stack t st st' t1 st1, R st st' -> informed t -> train_loop dbg cfg s sizes bounds sched St lv fuel stack t st = Ok (t1, st1) ->
  exists st1', train_loop dbg cfg (swp s) sizes bounds sched St' lv' fuel stack t st' = Ok (t1, st1') /\ R st1 st1' /\ informed t1.
Proof.
  induction fuel as [|fuel IH]; intros stack t st st' t1 st1 HR HI E; cbn [train_loop] in *; (destruct stack as [|nd rest]; [injection E as <- <-; eauto|]); [discriminate|].
  apply rbind_ok in E as (((stack2 & t2) & st2) & E2 & E). destruct (swap_step _ _ _ _ _ _ _ _ HR HI E2) as (st2' & -> & HR2 & HI2). cbn [rbind fst snd] in *. eapply IH; eassumption.
Qed.
Lemma swap_inactive : inactive_examples (swp s) = inactive_examples s.
Proof. unfold inactive_examples. change (in_data (ds_inner (swp s))) with d'. rewrite (proj1 Hs), (al_n O d d' Hal). reflexivity. Qed.
Lemma swap_bag t st st' st1 : R st st' -> informed t -> predict_out_of_bag s St oob t st = Ok st1 -> exists st1', predict_out_of_bag (swp s) St' oob' t st' = Ok st1' /\ R st1 st1'.
Proof.
  intros HR HI E. unfold predict_out_of_bag in *. change (example_sampling_enabled (swp s)) with (example_sampling_enabled s). destruct (example_sampling_enabled s); [|injection E as <-; eauto].
  rewrite swap_inactive. apply rbind_ok in E as (is & -> & E). cbn [rbind]. revert st st' HR E. induction is as [|i is IH]; intros st st' HR E; cbn [foldM] in *; [injection E as <-; eauto|].
  apply rbind_ok in E as (st2 & E2 & E). apply rbind_ok in E2 as (p & Ep & E2). change (in_data (ds_inner (swp s))) with d'. rewrite (proj1 Hs) in Ep. rewrite (swap_predict t i p HI Ep). cbn [rbind].
  destruct (Hoob _ _ _ _ _ HR E2) as (st2' & -> & HR2). cbn [rbind]. eapply IH; eassumption.
Qed.
Lemma new_informed depth sc t : tree_new O depth sc = Ok t -> informed t.
Proof.
  intros E. unfold tree_new in E. apply rbind_ok in E as (? & _ & E). injection E as <-. intros f (n & c & Hn & HN & _). cbn [t_crits] in Hn. apply nth_error_In, repeat_spec in Hn. subst c. discriminate.
Qed.
Lemma swap_train grads st st' t st1 : R st st' -> train dbg cfg s sizes bounds sched St lv oob grads st = Ok (t, st1) ->
  exists st1', train dbg cfg (swp s) sizes bounds sched St' lv' oob' grads st' = Ok (t, st1') /\ R st1 st1' /\ informed t.
Proof.
  intros HR E. unfold train in *. change (get_supercats (swp s)) with (get_supercats s). apply rbind_ok in E as (t0 & Et0 & E). rewrite Et0. cbn [rbind].
  change (get_root_n2s cfg (swp s) sizes bounds sched grads) with (get_root_n2s cfg s sizes bounds sched grads). apply rbind_ok in E as (root & -> & E). cbn [rbind].
  apply rbind_ok in E as ((t2 & st2) & E2 & E). destruct (swap_loop _ _ _ _ _ _ _ HR (new_informed _ _ _ Et0) E2) as (st2' & -> & HR2 & HI2). cbn [rbind].
  apply rbind_ok in E as (st3 & E3 & E). destruct (swap_bag _ _ _ _ HR2 HI2 E3) as (st3' & -> & HR3). cbn [rbind]. injection E as <- <-. eauto.
Qed.
End Alike2.
