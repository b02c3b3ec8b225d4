(** Training on a table whose numerical columns are measured in other units: the learner and whole runs, for two objectives with the same gradients and corresponding leaf values. *)
From Coq Require Import Permutation.
From Verif Require Import Base BaseProofs BitModel Num ScaledModel DataModel BinnerModel Config TreeModel DatasetModel LearnerModel ObjectiveModel MetricModel BoostModel AlikeProofs UnitProofs UnitProofs2.

Section Unit3.
Variable O : numops.
Variables d d' : data O.
Variable h : nat -> num O -> num O.
Hypothesis Hu : forall f, unit_map (h f).
Hypothesis Hcat : forall f ft, feat_type_of d f = Ok ft -> ft <> Numerical -> forall x, h f x = x.
Hypothesis Hd : d' = mk_data (d_max_nbins d) (d_nfeatures d) (d_nexamples d) (mapi (fun f => map (h f)) 0 (d_features d)) (mapi (fun f l => (h f (fst l), h f (snd l))) 0 (d_limits d)) (d_ftypes d) (d_cards d).
(** The new unit of the values of the leaves. *)
Variable u : num O -> num O.
Hypothesis Hu0 : u (nofZ O 0) = nofZ O 0.
Hypothesis Hufin : forall v, nisfin O (u v) = nisfin O v.
Hypothesis Hu1 : forall v, nmul O (nofZ O 1) (nadd O (u v) (nofZ O 0)) = u (nmul O (nofZ O 1) (nadd O v (nofZ O 0))).
Notation cnv := (conv O d' h).

Definition convc (c : split_crit O) : split_crit O := match sc_type c with NumLt => mk_crit NumLt (sc_feature c) (h (sc_feature c) (sc_value c)) | _ => c end.
Definition convt (t : tree O) : tree O := mk_tree (t_ninternal t) (t_max_depth t) (map convc (t_crits t)) (map u (t_values t)) (t_shrinkage t) (t_bias t) (t_supercats t).
Definition convs (sp : split O) : split O := mk_split (convc (sp_crit sp)) (sp_id sp).
(** Splits are of the kind of their feature. *)
Definition typed_crit (c : split_crit O) : Prop := sc_type c = LoCardCatEq \/ sc_type c = HiCardCatLt -> exists ft, feat_type_of d (sc_feature c) = Ok ft /\ ft <> Numerical.
Definition typed (t : tree O) : Prop := t_shrinkage t = nofZ O 1 /\ t_bias t = nofZ O 0 /\ forall c, In c (t_crits t) -> typed_crit c.
Lemma convc_none c : is_no_split (convc c) = is_no_split c.
Proof. unfold convc, is_no_split. destruct (sc_type c) eqn:E; cbn [sc_type]; rewrite ?E; reflexivity. Qed.
Lemma convc_feature c : sc_feature (convc c) = sc_feature c.
Proof. unfold convc. destruct (sc_type c); reflexivity. Qed.

(* ---- predictions ---- *)
Lemma conv_goes t c v : typed_crit c -> goes_left (convt t) (convc c) (h (sc_feature c) v) = goes_left t c v.
Proof.
  intros HT. unfold convc, goes_left. destruct (sc_type c) eqn:E; cbn [sc_type sc_value sc_feature]; rewrite ?E.
  - reflexivity.
  - destruct HT as (ft & E1 & E2); [auto|]. rewrite (Hcat _ _ E1 E2). reflexivity.
  - destruct HT as (ft & E1 & E2); [auto|]. rewrite (Hcat _ _ E1 E2). reflexivity.
  - rewrite (um_lt _ (Hu _)). reflexivity.
Qed.
Lemma conv_leaf t i : (forall c, In c (t_crits t) -> typed_crit c) -> forall fuel n, leaf_id_loop fuel (convt t) d' i n = leaf_id_loop fuel t d i n.
Proof.
  intros HT fuel. induction fuel as [|fuel IH]; intros n; [reflexivity|]. cbn [leaf_id_loop]. change (t_crits (convt t)) with (map convc (t_crits t)). rewrite idx_maph. unfold rmap. destruct (idx (t_crits t) n) as [c| | |] eqn:Ec; cbn [rbind]; try reflexivity.
  rewrite convc_feature, (un_feature O d d' h Hd). unfold rmap. destruct (get_feature d (sc_feature c)) as [col| | |]; cbn [rbind]; try reflexivity. rewrite idx_maph. unfold rmap. destruct (idx col i) as [v| | |]; cbn [rbind]; try reflexivity.
  rewrite conv_goes by (apply HT; apply idx_ok in Ec; eapply nth_error_In, Ec). destruct (goes_left t c v) as [[[]|]| | |]; cbn [rbind]; try reflexivity; apply IH.
Qed.
Lemma conv_predict t i : typed t -> predict_single (convt t) d' i = rmap u (predict_single t d i).
Proof.
  intros (T1 & T2 & HT). unfold predict_single, predict_leaf_id, rmap. change (length (t_crits (convt t))) with (length (map convc (t_crits t))). rewrite map_length, conv_leaf by exact HT. destruct (leaf_id_loop _ t d i 0) as [l| | |]; cbn [rbind]; try reflexivity.
  change (t_values (convt t)) with (map u (t_values t)). rewrite idx_maph. unfold rmap. destruct (idx (t_values t) l) as [v| | |]; cbn [rbind]; try reflexivity. cbn [convt t_shrinkage t_bias]. rewrite T1, T2, Hu1. reflexivity.
Qed.

(* ---- the learner ---- *)
Variable dbg : bool.
Variable cfg : config O.
Section Learn.
Variable s : dataset O.
Hypothesis Hs : in_data (ds_inner s) = d.
Variable sizes : list nat.
Variable bounds : num O * num O.
Variable sched : nat -> list job -> list job.

Lemma conv_crit f b : make_crit (cnv s) f b = rmap convc (make_crit s f b) /\ forall c, make_crit s f b = Ok c -> typed_crit c.
Proof.
  unfold make_crit, get_split_value, rmap. change (in_data (ds_inner (cnv s))) with d'. rewrite Hs, (un_type O d d' h Hd). destruct (feat_type_of d f) as [ft| | |] eqn:Et; cbn [rbind]; [|split; [reflexivity|discriminate]..].
  destruct ft; cbn [rbind].
  - split; [reflexivity|]. intros c E. injection E as <-. intros _. exists LoCardCat. split; [exact Et|discriminate].
  - split; [reflexivity|]. intros c E. injection E as <-. intros _. exists HiCardCat. split; [exact Et|discriminate].
  - change (in_split_candidates (ds_inner (cnv s))) with (cands O h (in_split_candidates (ds_inner s))). unfold cands. rewrite (idx_mapi (fun f => map (h f))). unfold rmap. destruct (idx (in_split_candidates (ds_inner s)) f) as [l| | |]; cbn [rbind]; [|split; [reflexivity|discriminate]..].
    rewrite idx_maph. unfold rmap. destruct (idx l b) as [v| | |]; cbn [rbind]; [|split; [reflexivity|discriminate]..]. split; [reflexivity|]. intros c E. injection E as <-. intros [H|H]; discriminate.
Qed.
Definition convst (st : num O * split O) : num O * split O := (fst st, convs (snd st)).
Lemma conv_step nd f hist st b : split_step dbg cfg (cnv s) nd f hist (convst st) b = rmap convst (split_step dbg cfg s nd f hist st b) /\
  forall st1, typed_crit (sp_crit (snd st)) -> split_step dbg cfg s nd f hist st b = Ok st1 -> typed_crit (sp_crit (snd st1)).
Proof.
  unfold split_step, rmap. cbn [convst fst snd]. destruct (idx hist b) as [l| | |]; cbn [rbind]; [|split; [reflexivity|discriminate]..]. destruct (u32_sub _ _ _) as [rc| | |]; cbn [rbind]; [|split; [reflexivity|discriminate]..].
  destruct (_ || _); [cbn [rbind]; split; [reflexivity|intros st1 HT E; injection E as <-; exact HT]|]. destruct (nlt O (fst st) _); [|cbn [rbind]; split; [reflexivity|intros st1 HT E; injection E as <-; exact HT]].
  destruct (conv_crit f b) as [EC ET]. rewrite EC. unfold rmap. destruct (make_crit s f b) as [c| | |]; cbn [rbind]; [|split; [reflexivity|discriminate]..]. split; [reflexivity|]. intros st1 _ E. injection E as <-. apply ET. reflexivity.
Qed.
Lemma conv_best nd sp : find_best_split dbg cfg s nd = Ok sp -> find_best_split dbg cfg (cnv s) nd = Ok (convs sp) /\ typed_crit (sp_crit sp).
Proof.
  intros E. unfold find_best_split in *. change (active_features (cnv s)) with (active_features s). apply rbind_ok in E as (fs & -> & E). cbn [rbind]. apply rbind_ok in E as (st & Ef & E). injection E as <-.
  assert ((c_min_gain cfg, split_none O) = convst (c_min_gain cfg, split_none O)) as H0 by reflexivity. rewrite H0 at 1. clear H0.
  assert (typed_crit (sp_crit (snd (c_min_gain cfg, split_none O)))) as HT by (intros [H|H]; discriminate). revert HT Ef. generalize (c_min_gain cfg, split_none O). induction fs as [|f fs IH]; intros st0 HT Ef; cbn [foldM] in *; [injection Ef as <-; cbn [rbind]; split; [reflexivity|exact HT]|].
  apply rbind_ok in Ef as (st2 & E2 & Ef). change (get_nbins (cnv s) f) with (get_nbins s f). apply rbind_ok in E2 as (hist & -> & E2). cbn [rbind]. apply rbind_ok in E2 as (nb & -> & E2). cbn [rbind].
  assert (foldM (split_step dbg cfg (cnv s) nd f hist) (seq 0 nb) (convst st0) = Ok (convst st2) /\ typed_crit (sp_crit (snd st2))) as [-> HT2]; [|cbn [rbind]; apply IH; assumption].
  clear IH Ef. revert st0 HT E2. generalize (seq 0 nb). intros l. induction l as [|b l IH]; intros st0 HT E2; cbn [foldM] in *; [injection E2 as <-; auto|]. apply rbind_ok in E2 as (st3 & E3 & E2). destruct (conv_step nd f hist st0 b) as [E4 E5]. rewrite E4, E3. cbn [rmap rbind]. apply IH; [apply E5; assumption|exact E2].
Qed.
Variables St St' : Type.
Variable lv : list nat -> St -> res (num O * St).
Variable lv' : list nat -> St' -> res (num O * St').
Variable oob : nat -> num O -> St -> res St.
Variable oob' : nat -> num O -> St' -> res St'.
Variable R : St -> St' -> Prop.
Hypothesis Hlv : forall ex st st' v st1, R st st' -> lv ex st = Ok (v, st1) -> exists st1', lv' ex st' = Ok (u v, st1') /\ R st1 st1'.
Hypothesis Hoob : forall i v st st' st1, R st st' -> oob i v st = Ok st1 -> exists st1', oob' i (u v) st' = Ok st1' /\ R st1 st1'.

Lemma conv_set_value t n v t1 : set_node_value t n v = Ok t1 -> set_node_value (convt t) n (u v) = Ok (convt t1) /\ (typed t -> typed t1).
Proof.
  intros E. unfold set_node_value in *. rewrite Hufin. apply rbind_ok in E as (? & -> & E). cbn [rbind]. apply rbind_ok in E as (vs & Ev & E). change (t_values (convt t)) with (map u (t_values t)).
  assert (set_idx (map u (t_values t)) n (u v) = Ok (map u vs)) as ->. { apply set_idx_ok in Ev as [L ->]. unfold set_idx. rewrite map_length. apply Nat.ltb_lt in L. rewrite L. f_equal. clear. revert n. induction (t_values t) as [|y l IH]; intros [|n]; cbn; try reflexivity. f_equal. apply IH. }
  cbn [rbind]. injection E as <-. split; [reflexivity|]. intros H. exact H.
Qed.
Lemma conv_split_node t n c t1 : split_node t n c = Ok t1 -> typed_crit c -> split_node (convt t) n (convc c) = Ok (convt t1) /\ (typed t -> typed t1).
Proof.
  intros E Hc. unfold split_node in *. change (t_crits (convt t)) with (map convc (t_crits t)). rewrite idx_maph. unfold rmap. apply rbind_ok in E as (old & -> & E). cbn [rbind]. rewrite !convc_none. change (is_max_leaf_node (convt t) n) with (is_max_leaf_node t n).
  do 3 (apply rbind_ok in E as (? & -> & E); cbn [rbind]). apply rbind_ok in E as (cs & Ecs & E). injection E as <-. apply set_idx_ok in Ecs as [L ->].
  assert (set_idx (map convc (t_crits t)) n (convc c) = Ok (map convc (upd (t_crits t) n c))) as ->. { unfold set_idx. rewrite map_length. apply Nat.ltb_lt in L. rewrite L. f_equal. clear. revert n. induction (t_crits t) as [|y l IH]; intros [|n]; cbn; try reflexivity. f_equal. apply IH. }
  cbn [rbind]. split; [reflexivity|]. intros (T1 & T2 & T3). split; [exact T1|]. split; [exact T2|]. cbn [t_crits]. intros c0 Hin. apply In_nth_error in Hin as [m Hm]. rewrite nth_error_upd in Hm. match type of Hm with (if ?b then _ else _) = _ => destruct b end; [injection Hm as <-; exact Hc|]. apply T3. eapply nth_error_In, Hm.
Qed.
Lemma conv_leaf_value nd t st st' t1 st1 : R st st' -> typed t -> predict_leaf_value s St lv nd t st = Ok (t1, st1) ->
  exists st1', predict_leaf_value (cnv s) St' lv' nd (convt t) st' = Ok (convt t1, st1') /\ R st1 st1' /\ typed t1.
Proof.
  intros HR HI E. unfold predict_leaf_value in *. change (node_examples (cnv s) nd) with (node_examples s nd). apply rbind_ok in E as (ex & -> & E). cbn [rbind]. apply rbind_ok in E as ((v & st2) & Ev & E).
  destruct (Hlv _ _ _ _ _ HR Ev) as (st2' & -> & HR2). cbn [rbind]. apply rbind_ok in E as (t2 & Et & E). destruct (conv_set_value _ _ _ _ Et) as [-> HT]. cbn [rbind]. injection E as <- <-. eauto.
Qed.
Lemma conv_child_values nd sp t st st' t1 st1 : R st st' -> typed t -> predict_child_leaf_values s St lv nd sp t st = Ok (t1, st1) ->
  exists st1', predict_child_leaf_values (cnv s) St' lv' nd (convs sp) (convt t) st' = Ok (convt t1, st1') /\ R st1 st1' /\ typed t1.
Proof.
  intros HR HI E. unfold predict_child_leaf_values in *. change (ds_get_bitvec (cnv s)) with (ds_get_bitvec s). cbn [convs sp_crit sp_id]. rewrite convc_feature. apply rbind_ok in E as (fm & -> & E). cbn [rbind]. change (left_examples (cnv s) nd fm) with (left_examples s nd fm). change (right_examples (cnv s) nd fm) with (right_examples s nd fm).
  apply rbind_ok in E as (exl & -> & E). cbn [rbind]. apply rbind_ok in E as ((v & st2) & Ev & E). destruct (Hlv _ _ _ _ _ HR Ev) as (st2' & -> & HR2). cbn [rbind].
  apply rbind_ok in E as (exr & -> & E). cbn [rbind]. apply rbind_ok in E as ((v3 & st3) & Ev3 & E). destruct (Hlv _ _ _ _ _ HR2 Ev3) as (st3' & -> & HR3). cbn [rbind].
  apply rbind_ok in E as (t2 & Et & E). destruct (conv_set_value _ _ _ _ Et) as [-> HT2]. cbn [rbind]. apply rbind_ok in E as (t3 & Et3 & E). destruct (conv_set_value _ _ _ _ Et3) as [-> HT3]. cbn [rbind]. injection E as <- <-. exists st3'. split; [reflexivity|]. split; [exact HR3|auto].
Qed.
Lemma conv_lr nd sp : get_left_right_n2s dbg cfg (cnv s) sizes bounds sched nd (convs sp) = get_left_right_n2s dbg cfg s sizes bounds sched nd sp.
Proof.
  unfold get_left_right_n2s, split_examples. cbn [convs sp_crit sp_id]. rewrite convc_feature. reflexivity.
Qed.
Lemma conv_train_step nd stack t st st' stack1 t1 st1 : R st st' -> typed t -> train_step dbg cfg s sizes bounds sched St lv nd stack t st = Ok (stack1, t1, st1) ->
  exists st1', train_step dbg cfg (cnv s) sizes bounds sched St' lv' nd stack (convt t) st' = Ok (stack1, convt t1, st1') /\ R st1 st1' /\ typed t1.
Proof.
  intros HR HI E. unfold train_step in *. apply rbind_ok in E as (sp & Esp & E). destruct (conv_best _ _ Esp) as [-> HC]. cbn [rbind]. change (sp_crit (convs sp)) with (convc (sp_crit sp)). rewrite convc_none. change (is_max_leaf_node (convt t)) with (is_max_leaf_node t). destruct (is_no_split (sp_crit sp)) eqn:EN.
  - apply rbind_ok in E as ((t2 & st2) & E2 & E). destruct (conv_leaf_value _ _ _ _ _ _ HR HI E2) as (st2' & -> & HR2 & HI2). cbn [rbind]. injection E as <- <- <-. eauto.
  - destruct (negb (is_max_leaf_node t (left_child (nd_id nd)))).
    + rewrite conv_lr. apply rbind_ok in E as ((ln & rn) & -> & E). cbn [rbind]. apply rbind_ok in E as (t2 & Et & E). destruct (conv_split_node _ _ _ _ Et HC) as [-> HT2]. cbn [rbind]. injection E as <- <- <-. exists st'. auto.
    + apply rbind_ok in E as ((t2 & st2) & E2 & E). destruct (conv_child_values _ _ _ _ _ _ _ HR HI E2) as (st2' & -> & HR2 & HI2). cbn [rbind]. apply rbind_ok in E as (t3 & Et & E). destruct (conv_split_node _ _ _ _ Et HC) as [-> HT3]. cbn [rbind]. injection E as <- <- <-. exists st2'. auto.
Qed.
Lemma conv_loop fuel : forall stack t st st' t1 st1, R st st' -> typed t -> train_loop dbg cfg s sizes bounds sched St lv fuel stack t st = Ok (t1, st1) ->
  exists st1', train_loop dbg cfg (cnv s) sizes bounds sched St' lv' fuel stack (convt t) st' = Ok (convt t1, st1') /\ R st1 st1' /\ typed t1.
Proof.
  induction fuel as [|fuel IH]; intros stack t st st' t1 st1 HR HI E; cbn [train_loop] in *; (destruct stack as [|nd rest]; [injection E as <- <-; eauto|]); [discriminate|].
  apply rbind_ok in E as (((stack2 & t2) & st2) & E2 & E). destruct (conv_train_step _ _ _ _ _ _ _ _ HR HI E2) as (st2' & -> & HR2 & HI2). cbn [rbind fst snd] in *. eapply IH; eassumption.
Qed.
Lemma conv_bag t st st' st1 : R st st' -> typed t -> predict_out_of_bag s St oob t st = Ok st1 -> exists st1', predict_out_of_bag (cnv s) St' oob' (convt t) st' = Ok st1' /\ R st1 st1'.
Proof.
  intros HR HI E. unfold predict_out_of_bag in *. change (example_sampling_enabled (cnv s)) with (example_sampling_enabled s). destruct (example_sampling_enabled s); [|injection E as <-; eauto].
  assert (inactive_examples (cnv s) = inactive_examples s) as ->. { unfold inactive_examples. change (in_data (ds_inner (cnv s))) with d'. rewrite Hs, (un_n O d d' h Hd). reflexivity. }
  apply rbind_ok in E as (is & -> & E). cbn [rbind]. revert st st' HR E. induction is as [|i is IH]; intros st st' HR E; cbn [foldM] in *; [injection E as <-; eauto|].
  apply rbind_ok in E as (st2 & E2 & E). apply rbind_ok in E2 as (p & Ep & E2). change (in_data (ds_inner (cnv s))) with d'. rewrite Hs in Ep. rewrite conv_predict, Ep by exact HI. cbn [rbind rmap].
  destruct (Hoob _ _ _ _ _ HR E2) as (st2' & -> & HR2). cbn [rbind]. eapply IH; eassumption.
Qed.
Lemma conv_train grads st st' t st1 : R st st' -> train dbg cfg s sizes bounds sched St lv oob grads st = Ok (t, st1) ->
  exists st1', train dbg cfg (cnv s) sizes bounds sched St' lv' oob' grads st' = Ok (convt t, st1') /\ R st1 st1' /\ typed t.
Proof.
  intros HR E. unfold train in *. change (get_supercats (cnv s)) with (get_supercats s). apply rbind_ok in E as (t0 & Et0 & E). rewrite Et0. cbn [rbind].
  change (get_root_n2s cfg (cnv s) sizes bounds sched grads) with (get_root_n2s cfg s sizes bounds sched grads). apply rbind_ok in E as (root & -> & E). cbn [rbind].
  assert (convt t0 = t0 /\ typed t0) as [HC HT].
  { unfold tree_new in Et0. apply rbind_ok in Et0 as (? & _ & Et0). injection Et0 as <-. split.
    - unfold convt. cbn [t_ninternal t_max_depth t_crits t_values t_shrinkage t_bias t_supercats]. f_equal; generalize (2 ^ (c_max_tree_depth cfg + 1) - 1); intros n; induction n; cbn; try reflexivity; f_equal; auto.
    - split; [reflexivity|]. split; [reflexivity|]. intros c Hc. cbn [t_crits] in Hc. apply repeat_spec in Hc. subst c. intros [H|H]; discriminate. }
  apply rbind_ok in E as ((t2 & st2) & E2 & E). destruct (conv_loop _ _ _ _ _ _ _ HR HT E2) as (st2' & E2' & HR2 & HI2). rewrite HC in E2'. rewrite E2'. cbn [rbind].
  apply rbind_ok in E as (st3 & E3 & E). destruct (conv_bag _ _ _ _ HR2 HI2 E3) as (st3' & -> & HR3). cbn [rbind]. injection E as <- <-. eauto.
Qed.
End Learn.

(* ---- runs ---- *)
Variable M : mathops O.
Variable sched : nat -> nat -> list job -> list job.
Variables target target' : list (num O).
Hypothesis Ht : get_target d = Ok target.
Hypothesis Ht' : get_target d' = Ok target'.
Variable R : objective O -> objective O -> Prop.
Hypothesis Hgrads : forall ob ob', R ob ob' -> ob_grads ob' = ob_grads ob /\ obj_bounds ob' = obj_bounds ob.
Hypothesis Hupd : forall ob ob' ob1, R ob ob' -> obj_update M target ob = Ok ob1 -> exists ob1', obj_update M target' ob' = Ok ob1' /\ R ob1 ob1'.
Hypothesis Hlv : forall ex st st' v st1, R st st' -> obj_leaf_value M target ex st = Ok (v, st1) -> exists st1', obj_leaf_value M target' ex st' = Ok (u v, st1') /\ R st1 st1'.
Hypothesis Hoob : forall i v st st' st1, R st st' -> update_out_of_bag i v st = Ok st1 -> exists st1', update_out_of_bag i (u v) st' = Ok st1' /\ R st1 st1'.
Variable metrics : list metric.
Hypothesis Hmet : forall m ob ob', In m metrics -> R ob ob' -> metric_eval M m target' (ob_preds ob') = metric_eval M m target (ob_preds ob).

Definition conv_state (b b' : booster O) : Prop :=
  in_data (ds_inner (bs_dataset b)) = d /\ bs_dataset b' = cnv (bs_dataset b) /\ R (bs_objective b) (bs_objective b') /\ bs_iter b' = bs_iter b /\ at_trees (bs_ensemble b') = map convt (at_trees (bs_ensemble b)) /\ (forall t, In t (at_trees (bs_ensemble b)) -> typed t) /\ bs_evals b' = bs_evals b.
Lemma conv_iter sizes b b' b1 : conv_state b b' -> train_one_iter M dbg cfg d sched sizes metrics b = Ok b1 ->
  exists b1', train_one_iter M dbg cfg d' sched sizes metrics b' = Ok b1' /\ conv_state b1 b1' /\ at_bias (bs_ensemble b1') = at_bias (bs_ensemble b') /\ at_bias (bs_ensemble b1) = at_bias (bs_ensemble b).
Proof.
  intros (G & A1 & A2 & A3 & A4 & A5 & A6) E. unfold train_one_iter in *. rewrite Ht in E. rewrite Ht'. cbn [rbind] in *. apply rbind_ok in E as (ob & Eo & E). destruct (Hupd _ _ _ A2 Eo) as (ob' & -> & HR). cbn [rbind].
  destruct (Hgrads _ _ HR) as [EG EB]. rewrite EG, EB, A1, A3. apply rbind_ok in E as (s & Es & E). destruct (conv_update O d d' h Hu Hcat Hd dbg cfg (bs_dataset b) (ob_grads ob) (obj_bounds ob) G) as [EU HU]. assert (G1 := HU _ Es). rewrite EU, Es. cbn [rbind rmap].
  apply rbind_ok in E as ((t & ob1) & E1 & E).
  destruct (conv_train s G1 sizes (obj_bounds ob) (sched (S (bs_iter b))) _ _ _ (obj_leaf_value M target') _ update_out_of_bag R Hlv Hoob (ob_grads ob) ob ob' t ob1 HR E1) as (ob1' & E1' & HR1 & HI). rewrite E1'. cbn [rbind]. injection E as <-.
  eexists. split; [reflexivity|]. cbn [bs_ensemble push_tree at_bias]. split; [|auto]. unfold conv_state. cbn [bs_dataset bs_objective bs_iter bs_ensemble bs_evals push_tree at_trees]. split; [exact G1|]. split; [reflexivity|]. split; [exact HR1|]. split; [reflexivity|]. split; [rewrite A4, map_app; reflexivity|]. split.
  - intros t0 Ht0. apply in_app_iff in Ht0 as [Ht0|[<-|[]]]; auto.
  - rewrite A6. destruct (run_metrics cfg metrics (S (bs_iter b))); [|reflexivity]. do 2 f_equal. apply map_ext_in. intros m Hm. apply Hmet; assumption.
Qed.
Variable kind : obj_kind.
Variable g : rng.
Variables ob0 ob0' : objective O.
Hypothesis Hinit : obj_initialize M dbg cfg target (objective_new O kind) = Ok ob0.
Hypothesis Hinit' : obj_initialize M dbg cfg target' (objective_new O kind) = Ok ob0'.
Hypothesis HR0 : R ob0 ob0'.
Lemma conv_run k b : boost_run M dbg cfg d sched kind metrics g k = Ok b ->
  exists b', boost_run M dbg cfg d' sched kind metrics g k = Ok b' /\ conv_state b b' /\ at_bias (bs_ensemble b') = ob_bias ob0' /\ at_bias (bs_ensemble b) = ob_bias ob0.
Proof.
  intros E. unfold boost_run, boost_start in *. rewrite Ht in E. rewrite Ht', (conv_sizes O d d' h Hd). cbn [rbind] in *. rewrite Hinit in E. rewrite Hinit'. cbn [rbind] in *. apply rbind_ok in E as (b0 & E0 & E). apply rbind_ok in E0 as (s & Es & E0). injection E0 as <-.
  destruct (conv_new O d d' h Hu Hcat Hd cfg g) as [EN HN]. assert (G := HN _ Es). rewrite EN, Es. cbn [rbind rmap]. apply rbind_ok in E as (sz & -> & E). cbn [rbind].
  set (c0 := mk_booster s ob0 0 (additive_set_bias (additive_new O) (ob_bias ob0)) []) in *. set (c0' := mk_booster (cnv s) ob0' 0 (additive_set_bias (additive_new O) (ob_bias ob0')) []).
  assert (conv_state c0 c0') as A by (unfold conv_state; cbn; split; [exact G|]; repeat (split; [first [reflexivity|exact HR0]|]); split; [intros t []|reflexivity]).
  assert (at_bias (bs_ensemble c0') = ob_bias ob0') as B1 by reflexivity. assert (at_bias (bs_ensemble c0) = ob_bias ob0) as B2 by reflexivity.
  clearbody c0 c0'. revert c0 c0' A B1 B2 E. generalize (seq 0 k). clear G Es EN HN s. intros l. induction l as [|x l IH]; intros c c' A B1 B2 E; cbn [foldM] in *; [injection E as <-; eauto|].
  apply rbind_ok in E as (c1 & E1 & E). destruct (conv_iter _ _ _ _ A E1) as (c1' & -> & A1 & C1 & C2). cbn [rbind]. eapply IH; [exact A1|congruence|congruence|exact E].
Qed.
End Unit3.
