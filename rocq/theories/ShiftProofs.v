(** Objectives that work with residuals: a shift of targets and predictions changes neither gradients nor leaf values. *)
From Verif Require Import Base BaseProofs Num DataModel BinnerModel Config TreeModel ObjectiveModel MetricModel.

Section Shift.
Variable O : numops.
Variable M : mathops O.
Variable h : num O -> num O.
Hypothesis Hsub : forall a b, nsub O (h a) (h b) = nsub O a b.
Hypothesis Hadd : forall a v, nadd O (h a) v = h (nadd O a v).
Hypothesis Hlt : forall a b, nlt O (h a) (h b) = nlt O a b.
Hypothesis Hfin : forall a, nisfin O (h a) = nisfin O a.
Hypothesis Hlim : forall l, l <> [] -> m_limits M (map h l) = (h (fst (m_limits M l)), h (snd (m_limits M l))).
Hypothesis Hmean : forall l, l <> [] -> ndiv O (nsum (map h l)) (nofnat O (length l)) = h (ndiv O (nsum l) (nofnat O (length l))).

Definition regression (k : obj_kind) : Prop := k = L2 \/ k = L1 \/ k = Huber.
(** The same state but for the shifted predictions and bias. *)
Definition shifted_obj (ob ob' : objective O) : Prop :=
  regression (ob_kind ob) /\ ob_kind ob' = ob_kind ob /\ ob_lr ob' = ob_lr ob /\ ob_bias ob' = h (ob_bias ob) /\ ob_preds ob' = map h (ob_preds ob) /\ ob_grads ob' = ob_grads ob /\ ob_bounds ob' = ob_bounds ob /\ ob_alpha ob' = ob_alpha ob /\ ob_delta ob' = ob_delta ob /\ ob_bound ob' = ob_bound ob.

Lemma idx_map {A B} (f : A -> B) l i : idx (map f l) i = (let* x := idx l i in Ok (f x)).
Proof. unfold idx. rewrite nth_error_map. destruct (nth_error l i); reflexivity. Qed.
Lemma set_idx_map {A B} (f : A -> B) l i x : set_idx (map f l) i (f x) = (let* y := set_idx l i x in Ok (map f y)).
Proof.
  unfold set_idx. rewrite map_length. destruct (i <? length l); [|reflexivity]. cbn [rbind]. f_equal. clear.
  revert i. induction l as [|y l IH]; intros [|i]; cbn; try reflexivity. f_equal. apply IH.
Qed.
Lemma combine_h (t p : list (num O)) : combine (map h t) (map h p) = map (fun q => (h (fst q), h (snd q))) (combine t p).
Proof. revert p. induction t as [|x t IH]; intros [|y p]; cbn; try reflexivity. f_equal. apply IH. Qed.
Lemma residuals_shift t p : residuals (map h t) (map h p) = residuals t p.
Proof. unfold residuals. rewrite combine_h, map_map. apply map_ext. intros [x y]. cbn. apply Hsub. Qed.
Lemma residual_shift t p i : residual (map h t) (map h p) i = residual t p i.
Proof. unfold residual. rewrite !idx_map. destruct (idx t i); cbn [rbind]; try reflexivity. destruct (idx p i); cbn [rbind]; try reflexivity. rewrite Hsub. reflexivity. Qed.
Lemma gradients_shift k delta t p : regression k -> pair_gradients M k delta (map h t) (map h p) = pair_gradients M k delta t p.
Proof.
  intros Hk. unfold pair_gradients. rewrite combine_h, map_map. apply map_ext. intros [x y]. cbn [fst snd]. unfold gradient. rewrite Hsub. destruct Hk as [->|[->| ->]]; reflexivity.
Qed.
Lemma bin_shift {B} bins lo delta v : get_bin (@mk_binner O B bins (h lo) delta) (h v) = get_bin (mk_binner bins lo delta) v.
Proof. unfold get_bin. cbn [bn_min bn_delta bn_bins]. rewrite Hsub. reflexivity. Qed.
Lemma insert_shift {B} (f : B -> B) vs : forall bins lo delta,
  binner_insert_all (@mk_binner O B bins (h lo) delta) (map (fun v => (v, f)) (map h vs)) = (let* b := binner_insert_all (mk_binner bins lo delta) (map (fun v => (v, f)) vs) in Ok (mk_binner (bn_bins b) (h (bn_min b)) (bn_delta b))).
Proof.
  induction vs as [|v vs IH]; intros bins lo delta; cbn [map binner_insert_all]; [reflexivity|]. unfold binner_insert. rewrite bin_shift. cbn [bn_bins bn_min bn_delta].
  destruct (idx bins _); cbn [rbind]; try reflexivity. destruct (set_idx bins _ _); cbn [rbind]; try reflexivity. apply IH.
Qed.
Lemma quantile_shift nbins q lo hi vs : quantile O nbins q (h lo, h hi) (map h vs) = (let* x := quantile O nbins q (lo, hi) vs in Ok (h x)).
Proof.
  unfold quantile, binner_new. cbn [fst snd]. rewrite !Hfin, Hlt, Hsub, map_length. destruct (rassert (nisfin O lo)); cbn [rbind]; try reflexivity. destruct (rassert (nisfin O hi)); cbn [rbind]; try reflexivity. destruct (rassert (nlt O lo hi)); cbn [rbind]; try reflexivity. destruct (rassert (negb (length (repeat 0%N nbins) =? 0))); cbn [rbind]; try reflexivity.
  rewrite insert_shift. destruct (binner_insert_all _ _) as [[bins mn dl]| | |]; cbn [rbind]; try reflexivity. unfold bin_with_rank. cbn [bn_bins bn_min bn_delta]. destruct (rank_next _ _ _ _ _ _) as [[i st]| | |]; cbn [rbind]; try reflexivity.
  unfold bin_representative. cbn [bn_bins bn_min bn_delta]. rewrite Hadd. reflexivity.
Qed.

Lemma init_shift dbg cfg kind target ob : regression kind -> target <> [] -> obj_initialize M dbg cfg target (objective_new O kind) = Ok ob ->
  exists ob', obj_initialize M dbg cfg (map h target) (objective_new O kind) = Ok ob' /\ shifted_obj ob ob'.
Proof.
  intros Hk Hn E. unfold obj_initialize in *. rewrite map_length.
  assert (forall n (a : num O), map h (repeat a n) = repeat (h a) n) as HR by (induction n; intros; cbn; f_equal; auto).
  destruct Hk as [->|[->| ->]]; cbn [ob_kind objective_new] in *.
  - injection E as <-. rewrite Hmean by exact Hn. eexists. split; [reflexivity|]. unfold shifted_obj, regression. cbn. rewrite HR. tauto.
  - unfold median in *. rewrite Hlim by exact Hn. rewrite quantile_shift. destruct (m_limits M target) as [lo hi]. cbn [fst snd] in *. apply rbind_ok in E as (x & -> & E). cbn [rbind]. injection E as <-. eexists. split; [reflexivity|]. unfold shifted_obj, regression. cbn. rewrite HR. tauto.
  - unfold median in *. rewrite Hlim by exact Hn. rewrite quantile_shift. destruct (m_limits M target) as [lo hi]. cbn [fst snd] in *. apply rbind_ok in E as (x & -> & E). cbn [rbind]. apply rbind_ok in E as (u & -> & E). cbn [rbind]. injection E as <-. eexists. split; [reflexivity|]. unfold shifted_obj, regression. cbn. rewrite HR. tauto.
Qed.
Lemma upd_shift target ob ob' ob1 : shifted_obj ob ob' -> obj_update M target ob = Ok ob1 -> exists ob1', obj_update M (map h target) ob' = Ok ob1' /\ shifted_obj ob1 ob1'.
Proof.
  intros (Hk & E1 & E2 & E3 & E4 & E5 & E6 & E7 & E8 & E9) E. unfold obj_update in *. rewrite E1, E2, E4, E5, E6, E7, E8, E9, !map_length, residuals_shift.
  apply rbind_ok in E as (u1 & -> & E). cbn [rbind]. apply rbind_ok in E as (u2 & -> & E). cbn [rbind].
  assert (forall k delta, regression k -> pair_gradients M k delta (map h target) (map h (ob_preds ob)) = pair_gradients M k delta target (ob_preds ob)) as HG by (intros; apply gradients_shift; assumption).
  rewrite !HG by (unfold regression; tauto). clear HG.
  destruct (ob_kind ob) eqn:EK; try (exfalso; destruct Hk as [Hk|[Hk|Hk]]; discriminate).
  - destruct (m_limits M _) as [mn mx]. injection E as <-. eexists. split; [reflexivity|]. unfold shifted_obj, regression. cbn. tauto.
  - injection E as <-. eexists. split; [reflexivity|]. unfold shifted_obj, regression. cbn. tauto.
  - apply rbind_ok in E as (q & -> & E). cbn [rbind]. rewrite gradients_shift by (unfold regression; tauto). injection E as <-. eexists. split; [reflexivity|]. unfold shifted_obj, regression. cbn. tauto.
Qed.
Lemma preds_shift v ex : forall ps ps1, foldM (update_pred v) ex ps = Ok ps1 -> foldM (update_pred v) ex (map h ps) = Ok (map h ps1).
Proof.
  induction ex as [|i ex IH]; intros ps ps1 E; cbn [foldM] in *; [injection E as <-; reflexivity|]. apply rbind_ok in E as (ps2 & E2 & E).
  assert (update_pred v (map h ps) i = Ok (map h ps2)) as ->.
  { unfold update_pred in *. rewrite idx_map. apply rbind_ok in E2 as (p & -> & E2). cbn [rbind]. rewrite Hadd, set_idx_map, Hfin. apply rbind_ok in E2 as (ps3 & -> & E2). cbn [rbind]. apply rbind_ok in E2 as (u & -> & E2). cbn [rbind]. injection E2 as <-. reflexivity. }
  cbn [rbind]. apply IH. exact E.
Qed.
Lemma leaf_shift target ex ob ob' v ob1 : shifted_obj ob ob' -> obj_leaf_value M target ex ob = Ok (v, ob1) -> exists ob1', obj_leaf_value M (map h target) ex ob' = Ok (v, ob1') /\ shifted_obj ob1 ob1'.
Proof.
  intros HS E. assert (raw_leaf_value M (map h target) ex ob' = raw_leaf_value M target ex ob) as HR.
  { destruct HS as (Hk & E1 & E2 & E3 & E4 & E5 & E6 & E7 & E8 & E9). unfold raw_leaf_value. rewrite E1, E4, E6, E8.
    assert (mapM (residual (map h target) (map h (ob_preds ob))) ex = mapM (residual target (ob_preds ob)) ex) as ->. { clear - Hsub. induction ex as [|i ex IH]; [reflexivity|]. cbn [mapM]. rewrite residual_shift, IH. reflexivity. }
    destruct (ob_kind ob) eqn:EK; try (exfalso; destruct Hk as [Hk|[Hk|Hk]]; discriminate); try reflexivity.
    f_equal. generalize (zero O). clear - Hsub. induction ex as [|i ex IH]; intros z; [reflexivity|]. cbn [foldM]. rewrite residual_shift. destruct (residual target (ob_preds ob) i); cbn [rbind]; try reflexivity. apply IH. }
  unfold obj_leaf_value in *. rewrite HR. clear HR. apply rbind_ok in E as (raw & -> & E). cbn [rbind]. destruct HS as (Hk & E1 & E2 & E3 & E4 & E5 & E6 & E7 & E8 & E9). unfold update_predictions in *. rewrite E1, E2, E4, E5, E6, E7, E8, E9.
  apply rbind_ok in E as (ps & Ep & E). rewrite (preds_shift _ _ _ _ Ep). cbn [rbind]. injection E as <- <-. eexists. split; [reflexivity|]. unfold shifted_obj. cbn. tauto.
Qed.
Lemma oob_shift i v (ob ob' ob1 : objective O) : shifted_obj ob ob' -> update_out_of_bag i v ob = Ok ob1 -> exists ob1', update_out_of_bag i v ob' = Ok ob1' /\ shifted_obj ob1 ob1'.
Proof.
  intros (Hk & E1 & E2 & E3 & E4 & E5 & E6 & E7 & E8 & E9) E. unfold update_out_of_bag in *. rewrite E1, E2, E4, E5, E6, E7, E8, E9, idx_map. apply rbind_ok in E as (p & -> & E). cbn [rbind]. rewrite Hfin. apply rbind_ok in E as (u & -> & E). cbn [rbind].
  rewrite Hadd, set_idx_map. apply rbind_ok in E as (ps & -> & E). cbn [rbind]. injection E as <-. eexists. split; [reflexivity|]. unfold shifted_obj. cbn. tauto.
Qed.
Lemma metric_shift m target (ob ob' : objective O) : m = ML2 \/ m = MRmse -> shifted_obj ob ob' -> metric_eval M m (map h target) (ob_preds ob') = metric_eval M m target (ob_preds ob).
Proof.
  intros Hm (_ & _ & _ & _ & E4 & _). rewrite E4. assert (metric_mean M ML2 (map h target) (map h (ob_preds ob)) = metric_mean M ML2 target (ob_preds ob)) as H.
  { unfold metric_mean. rewrite combine_h. assert (forall l st, fold_left (fun st tp => (nadd O (fst st) (metric_one M ML2 (fst tp) (snd tp)), S (snd st))) (map (fun q => (h (fst q), h (snd q))) l) st = fold_left (fun st tp => (nadd O (fst st) (metric_one M ML2 (fst tp) (snd tp)), S (snd st))) l st) as ->; [|reflexivity].
    induction l as [|[x y] l IH]; intros st; [reflexivity|]. cbn [map fold_left fst snd]. rewrite IH. cbn [metric_one]. rewrite Hsub. reflexivity. }
  destruct Hm as [->| ->]; unfold metric_eval; rewrite H; reflexivity.
Qed.
Lemma predict_shift (t : tree O) D buf : predict_and t D (fun p acc => nadd O acc p) (map h buf) = (let* b := predict_and t D (fun p acc => nadd O acc p) buf in Ok (map h b)).
Proof.
  unfold predict_and. rewrite map_length. destruct (rassert _); cbn [rbind]; try reflexivity. generalize (seq 0 (d_nexamples D)). intros l. revert buf. induction l as [|i l IH]; intros buf; cbn [foldM rbind]; [reflexivity|].
  destruct (predict_single t D i) as [p| | |]; cbn [rbind]; try reflexivity. rewrite idx_map. destruct (idx buf i) as [x| | |]; cbn [rbind]; try reflexivity. rewrite Hadd, set_idx_map. destruct (set_idx buf i _) as [b1| | |]; cbn [rbind]; try reflexivity. apply IH.
Qed.
Lemma additive_shift bias (ts : list (tree O)) D : additive_predict (mk_add (h bias) ts) D = (let* ps := additive_predict (mk_add bias ts) D in Ok (map h ps)).
Proof.
  unfold additive_predict, additive_predict_buf. cbn [at_bias at_trees]. rewrite <- (map_map (fun _ => bias) h). generalize (map (fun _ : num O => bias) (repeat (nofZ O 0) (d_nexamples D))). intros buf. revert buf.
  induction ts as [|t ts IH]; intros buf; cbn [foldM rbind]; [reflexivity|]. rewrite predict_shift. destruct (predict_and t D _ buf) as [b| | |]; cbn [rbind]; try reflexivity. apply IH.
Qed.
End Shift.
