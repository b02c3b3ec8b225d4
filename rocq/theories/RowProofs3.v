(** Objectives and boosting with the rows in another order. *)
From Coq Require Import Permutation.
From Verif Require Import Base BaseProofs BitModel Num DataModel BinnerModel Config TreeModel DatasetModel DatasetSpec DatasetProofs3 DatasetProofs4 DatasetProofs5
  LearnerModel LearnerSpec LearnerProofs3 ObjectiveModel MetricModel BoostModel RowSpec RowProofs RowProofs2.

Lemma mapM_idx A (l : list A) : mapM (idx l) (seq 0 (length l)) = Ok l.
Proof.
  enough (forall pre, mapM (idx (pre ++ l)) (seq (length pre) (length l)) = Ok l) as H by exact (H []). induction l as [|x l IH]; intros pre; [reflexivity|]. cbn [length seq mapM]. unfold idx at 1. rewrite nth_error_app2, Nat.sub_diag by lia. cbn [nth_error rbind].
  specialize (IH (pre ++ [x])). rewrite <- app_assoc, app_length in IH. cbn [length app] in IH. rewrite Nat.add_1_r in IH. rewrite IH. reflexivity.
Qed.
Lemma nth_error_comb A B (l : list A) (l' : list B) i : nth_error (combine l l') i = match nth_error l i, nth_error l' i with Some a, Some b => Some (a, b) | _, _ => None end.
Proof. revert l' i. induction l as [|a l IH]; intros [|b l'] [|i]; cbn [combine nth_error]; try reflexivity; [destruct (nth_error l i); reflexivity|apply IH]. Qed.

Section Lists.
Variable O : numops.
Variables d d' : data O.
Variable order : list nat.
Hypothesis Hre : reordered order d d'.
Notation n := (d_nexamples d).
Notation row := (row order).
Notation rows_of := (rows_of O d order).
Lemma rows_perm A (l l' : list A) : rows_of l l' -> Permutation l l'.
Proof.
  intros (L & L' & H). assert (mapM (idx l) (seq 0 n) = Ok l) as E by (rewrite <- L; apply mapM_idx). assert (mapM (idx l') (seq 0 n) = Ok l') as E' by (rewrite <- L'; apply mapM_idx).
  destruct (mapM_reorder _ row (idx l) (idx l') (seq 0 n) (seq 0 n) l) as (l2 & E2 & HP); [|apply (row_perm O d d' order Hre)|exact E|].
  - intros k Hk. apply in_seq in Hk. unfold idx. rewrite H by lia. reflexivity.
  - rewrite E' in E2. injection E2 as <-. exact HP.
Qed.
Lemma combine_rows A B (l l' : list A) (m m' : list B) : rows_of l l' -> rows_of m m' -> rows_of (combine l m) (combine l' m').
Proof.
  intros (L1 & L2 & H) (L3 & L4 & H'). repeat split; rewrite ?combine_length; try lia. intros k Hk. rewrite !nth_error_comb, H, H' by exact Hk. reflexivity.
Qed.
Lemma map_rows A B (f : A -> B) (l l' : list A) : rows_of l l' -> rows_of (map f l) (map f l').
Proof. intros (L1 & L2 & H). repeat split; rewrite ?map_length; try lia. intros k Hk. rewrite !nth_error_map, H by exact Hk. reflexivity. Qed.
Lemma repeat_rows A (x : A) : rows_of (repeat x n) (repeat x n).
Proof. repeat split; rewrite ?repeat_length; try lia. intros k Hk. rewrite !nth_error_repeat; try lia; [reflexivity|]. apply (row_lt O d d' order Hre k Hk). Qed.

End Lists.

Section Obj.
Variable O : numops.
Variable M : mathops O.
Variables dbg dbg' : bool.
Variable cfg : config O.
Variables d d' : data O.
Variable order : list nat.
Hypothesis Hre : reordered order d d'.
Variables target target' : list (num O).
Notation n := (d_nexamples d).
Notation row := (row order).
Notation rows_of := (rows_of O d order).
Hypothesis Htarget : rows_of target target'.
Variable kind : obj_kind.
(** Sums do not depend on the order (the absolute error has no sums). *)
Hypothesis Hsum : kind = L1 \/ ((forall x a b, nadd O (nadd O x a) b = nadd O (nadd O x b) a) /\ (forall x a b, nsub O (nadd O x a) b = nadd O (nsub O x b) a) /\ (forall x a b, nsub O (nsub O x a) b = nsub O (nsub O x b) a)).
Notation allfin preds := (forall x : num O, In x preds -> nisfin O x = true).
Hypothesis Hlim : forall l, Permutation target l -> m_limits M l = m_limits M target.
Hypothesis Hlim2 : forall preds l, length preds = n -> allfin preds -> Permutation (residuals target preds) l -> m_limits M l = m_limits M (residuals target preds).

Record orel (ob ob' : objective O) : Prop := {
  or_kind : ob_kind ob = kind;
  or_kind' : ob_kind ob' = kind;
  or_lr : ob_lr ob' = ob_lr ob;
  or_bias : ob_bias ob' = ob_bias ob;
  or_preds : rows_of (ob_preds ob) (ob_preds ob');
  or_grads : rows_of (ob_grads ob) (ob_grads ob');
  or_bounds : ob_bounds ob' = ob_bounds ob;
  or_alpha : ob_alpha ob' = ob_alpha ob;
  or_delta : ob_delta ob' = ob_delta ob;
  or_bound : ob_bound ob' = ob_bound ob;
  or_fin : allfin (ob_preds ob)
}.
Lemma orel_bounds ob ob' : orel ob ob' -> obj_bounds ob' = obj_bounds ob.
Proof. intros [H1 H2 H3 H4 H5 H6 H7 H8 H9 H10 H11]. unfold obj_bounds. rewrite H1, H2, H7, H9, H10. reflexivity. Qed.

Lemma base_rel bias ob ob' : nisfin O bias = true -> ob_kind ob = kind -> ob_kind ob' = kind -> ob_bounds ob' = ob_bounds ob -> ob_alpha ob' = ob_alpha ob -> ob_delta ob' = ob_delta ob -> ob_bound ob' = ob_bound ob ->
  orel (initialize_base cfg n bias ob) (initialize_base cfg n bias ob').
Proof.
  intros Hf. intros. unfold initialize_base. constructor; cbn [ob_kind ob_lr ob_bias ob_preds ob_grads ob_bounds ob_alpha ob_delta ob_bound]; try assumption; try reflexivity; try apply (repeat_rows O d d' order Hre).
  intros x Hx. apply repeat_spec in Hx. subst x. exact Hf.
Qed.
Lemma nsum_rel : kind <> L1 -> nsum target' = nsum target.
Proof.
  intros Hk. destruct Hsum as [|(Ha & _)]; [contradiction|]. unfold nsum. symmetry. apply (fold_left_permP _ _ (fun _ => True)); [intros; apply Ha|apply (rows_perm O d d' order Hre), Htarget|apply Forall_forall; auto].
Qed.
Lemma count_rel : count_neg target' = count_neg target.
Proof. unfold count_neg. apply Permutation_length, filter_perm. symmetry. apply (rows_perm O d d' order Hre), Htarget. Qed.
Lemma init_rel ob ob' : obj_initialize M dbg cfg target (objective_new O kind) = Ok ob -> obj_initialize M dbg' cfg target' (objective_new O kind) = Ok ob' -> nisfin O (ob_bias ob) = true -> orel ob ob'.
Proof.
  intros E E' Hb. pose proof Htarget as (L1' & L2' & _). assert (Permutation target target') as HP by (apply (rows_perm O d d' order Hre), Htarget). unfold obj_initialize in *. cbn [ob_kind objective_new] in *. rewrite L1' in E. rewrite L2' in E'. remember kind as k eqn:Ek in E, E'. symmetry in Ek. destruct k.
  - rewrite nsum_rel in E' by (rewrite Ek; discriminate). injection E as <-. injection E' as <-. apply base_rel; try reflexivity; try assumption; symmetry; assumption.
  - rewrite (Hlim target' HP) in E'. apply rbind_ok in E as (bias & Em & E). unfold median in Em, E'. rewrite (quantile_perm _ _ _ _ _ _ _ HP Em) in E'. cbn [rbind] in E'. injection E as <-. injection E' as <-. apply base_rel; try reflexivity; try assumption; symmetry; assumption.
  - rewrite (Hlim target' HP) in E'. apply rbind_ok in E as (bias & Em & E). unfold median in Em, E'. rewrite (quantile_perm _ _ _ _ _ _ _ HP Em) in E'. cbn [rbind] in E'. apply rbind_ok in E as ([] & _ & E). apply rbind_ok in E' as ([] & _ & E'). injection E as <-. injection E' as <-.
    cbn [initialize_base ob_kind ob_lr ob_bias ob_preds ob_grads ob_bounds ob_alpha ob_delta ob_bound objective_new] in *.
    constructor; cbn [ob_kind ob_lr ob_bias ob_preds ob_grads ob_bounds ob_alpha ob_delta ob_bound]; try reflexivity; try (symmetry; assumption); try apply (repeat_rows O d d' order Hre). intros x Hx. apply repeat_spec in Hx. subst x. exact Hb.
  - rewrite count_rel in E'. apply rbind_ok in E as ([] & _ & E). apply rbind_ok in E' as ([] & _ & E'). injection E as <-. injection E' as <-. cbn [initialize_base ob_kind ob_lr ob_bias ob_preds ob_grads ob_bounds ob_alpha ob_delta ob_bound objective_new] in *.
    constructor; cbn [ob_kind ob_lr ob_bias ob_preds ob_grads ob_bounds ob_alpha ob_delta ob_bound]; try reflexivity; try (symmetry; assumption); try apply (repeat_rows O d d' order Hre). intros x Hx. apply repeat_spec in Hx. subst x. exact Hb.
  - rewrite count_rel in E'. apply rbind_ok in E as ([] & _ & E). apply rbind_ok in E' as ([] & _ & E'). apply rbind_ok in E as ([] & _ & E). apply rbind_ok in E' as ([] & _ & E'). injection E as <-. injection E' as <-. apply base_rel; try reflexivity; try assumption; symmetry; assumption.
Qed.

Lemma pairs_rel k delta preds preds' : rows_of preds preds' -> rows_of (pair_gradients M k delta target preds) (pair_gradients M k delta target' preds').
Proof. intros H. unfold pair_gradients. apply map_rows, combine_rows; assumption. Qed.
Lemma resid_rel preds preds' : rows_of preds preds' -> rows_of (residuals target preds) (residuals target' preds').
Proof. intros H. unfold residuals. apply map_rows, combine_rows; assumption. Qed.
Lemma obj_update_rel ob ob' ob1 ob1' : orel ob ob' -> obj_update M target ob = Ok ob1 -> obj_update M target' ob' = Ok ob1' -> orel ob1 ob1'.
Proof.
  intros [H1 H2 H3 H4 H5 H6 H7 H8 H9 H10 H11] E E'. unfold obj_update in *. apply rbind_ok in E as ([] & _ & E). apply rbind_ok in E as ([] & _ & E). apply rbind_ok in E' as ([] & _ & E'). apply rbind_ok in E' as ([] & _ & E').
  rewrite H2 in E'. rewrite H1 in E. pose proof (resid_rel _ _ H5) as HRes. pose proof (rows_perm O d d' order Hre _ _ _ HRes) as HPr. pose proof (Hlim2 (ob_preds ob) _ (proj1 H5) H11 HPr) as HL. rewrite H8, H9, H10, H3, H4 in E'.
  remember kind as k eqn:Ek in E, E'. symmetry in Ek. destruct k.
  - rewrite HL in E'. destruct (m_limits M (residuals target (ob_preds ob))) as [mn mx]. injection E as <-. injection E' as <-. constructor; cbn [ob_kind ob_lr ob_bias ob_preds ob_grads ob_bounds ob_alpha ob_delta ob_bound]; try reflexivity; try (symmetry; assumption); try assumption. apply pairs_rel, H5.
  - rewrite HL in E'. injection E as <-. injection E' as <-. constructor; cbn [ob_kind ob_lr ob_bias ob_preds ob_grads ob_bounds ob_alpha ob_delta ob_bound]; try reflexivity; try (symmetry; assumption); try assumption. apply pairs_rel, H5.
  - rewrite HL in E'. apply rbind_ok in E as (q & Eq & E). rewrite (quantile_perm _ _ _ _ _ _ _ HPr Eq) in E'. cbn [rbind] in E'. injection E as <-. injection E' as <-. constructor; cbn [ob_kind ob_lr ob_bias ob_preds ob_grads ob_bounds ob_alpha ob_delta ob_bound]; try reflexivity; try (symmetry; assumption); try assumption. apply pairs_rel, H5.
  - rewrite H7 in E'. injection E as <-. injection E' as <-. constructor; cbn [ob_kind ob_lr ob_bias ob_preds ob_grads ob_bounds ob_alpha ob_delta ob_bound]; try reflexivity; try (symmetry; assumption); try assumption. apply pairs_rel, H5.
  - rewrite H7 in E'. injection E as <-. injection E' as <-. constructor; cbn [ob_kind ob_lr ob_bias ob_preds ob_grads ob_bounds ob_alpha ob_delta ob_bound]; try reflexivity; try (symmetry; assumption); try assumption. apply pairs_rel, H5.
Qed.

Section Leaf.
Variables ex ex' : list nat.
Hypothesis Hex : Permutation (map row ex') ex.
Hypothesis Hlt : forall k, In k ex' -> k < n.
Lemma fold_leaf T (f f' : T -> nat -> res T) st r : (forall s a b s1 s2, f s a = Ok s1 -> f s1 b = Ok s2 -> exists s1', f s b = Ok s1' /\ f s1' a = Ok s2) ->
  (forall s k, k < n -> f' s k = f s (row k)) -> foldM f ex st = Ok r -> foldM f' ex' st = Ok r.
Proof. intros Hc H E. eapply (foldM_reorder _ row (fun _ => True)); [intros s a b s1 s2 _ _; apply Hc|intros s k Hk; apply H, Hlt, Hk|exact Hex|apply Forall_forall; auto|exact E]. Qed.
Lemma raw_rel ob ob' v : orel ob ob' -> raw_leaf_value M target ex ob = Ok v -> raw_leaf_value M target' ex' ob' = Ok v.
Proof.
  intros [H1 H2 H3 H4 H5 H6 H7 H8 H9 H10 H11] E. pose proof Htarget as (_ & _ & Ht). destruct H5 as (_ & _ & Hp). destruct H6 as (_ & _ & Hgr). unfold raw_leaf_value in *. rewrite H1 in E. rewrite H2. rewrite (length_reorder row ex ex' Hex).
  assert (forall k, k < n -> residual target' (ob_preds ob') k = residual target (ob_preds ob) (row k)) as Hres by (intros k Hk; unfold residual, idx; rewrite Ht, Hp by exact Hk; reflexivity).
  destruct Hsum as [Hk|(Ha & Hb & Hc)].
  - rewrite Hk in E. rewrite Hk. apply rbind_ok in E as (rs & Ers & E). destruct (mapM_reorder _ row (residual target (ob_preds ob)) (residual target' (ob_preds ob')) ex ex' rs) with (2 := Hex) (3 := Ers) as (rs' & -> & HP); [intros k Hin; apply Hres, Hlt, Hin|]. cbn [rbind]. rewrite H7. unfold median in *. eapply quantile_perm; eassumption.
  - remember kind as k eqn:Ek in E |- *. symmetry in Ek. destruct k.
    + apply rbind_ok in E as (sum & Es & E). erewrite fold_leaf; [|  |  |exact Es]; [exact E| |].
      * intros s a b s1 s2 E1 E2. apply rbind_ok in E1 as (ea & Ea & E1). injection E1 as <-. apply rbind_ok in E2 as (eb & Eb & E2). injection E2 as <-. rewrite Ea, Eb. cbn [rbind]. eexists. split; [reflexivity|]. rewrite Ha. reflexivity.
      * intros s k Hk. cbv beta. rewrite Hres by exact Hk. reflexivity.
    + apply rbind_ok in E as (rs & Ers & E). destruct (mapM_reorder _ row (residual target (ob_preds ob)) (residual target' (ob_preds ob')) ex ex' rs) with (2 := Hex) (3 := Ers) as (rs' & -> & HP); [intros k Hin; apply Hres, Hlt, Hin|]. cbn [rbind]. rewrite H7. unfold median in *. eapply quantile_perm; eassumption.
    + apply rbind_ok in E as (rs & Ers & E). destruct (mapM_reorder _ row (residual target (ob_preds ob)) (residual target' (ob_preds ob')) ex ex' rs) with (2 := Hex) (3 := Ers) as (rs' & -> & HP); [intros k Hin; apply Hres, Hlt, Hin|]. cbn [rbind]. rewrite H7, H9. unfold median in *. apply rbind_ok in E as (med & Em & E).
      rewrite (quantile_perm _ _ _ _ _ _ _ HP Em). cbn [rbind]. erewrite (fold_left_permP _ _ (fun _ => True) _ _ rs' rs); [exact E|symmetry; exact HP|apply Forall_forall; auto]. Unshelve. intros s a b _ _. cbv beta zeta. apply Ha.
    + apply rbind_ok in E as (nd & Es & E). erewrite fold_leaf; [|  |  |exact Es]; [exact E| |].
      * intros s a b s1 s2 E1 E2. apply rbind_ok in E1 as (ga & Ea & E1). injection E1 as <-. apply rbind_ok in E2 as (gb & Eb & E2). injection E2 as <-. rewrite Ea, Eb. cbn [rbind]. eexists. split; [reflexivity|]. cbn [fst snd]. f_equal. f_equal; apply Ha.
      * intros s k Hk. cbv beta. unfold idx. rewrite Hgr by exact Hk. reflexivity.
    + apply rbind_ok in E as (v0 & Es & E). erewrite fold_leaf; [|  |  |exact Es]; [exact E| |].
      * intros s a b s1 s2 E1 E2. apply rbind_ok in E1 as (ta & Ta & E1). apply rbind_ok in E1 as (pa & Pa & E1). apply rbind_ok in E2 as (tb & Tb & E2). apply rbind_ok in E2 as (pb & Pb & E2). rewrite Ta, Pa, Tb, Pb. cbn [rbind].
        destruct (nlt O ta (half O)), (nlt O tb (half O)); injection E1 as <-; injection E2 as <-; (eexists; split; [reflexivity|]); cbv beta zeta; [rewrite Hc|rewrite <- Hb|rewrite Hb|rewrite Ha]; reflexivity.
      * intros s k Hk. cbv beta. unfold idx. rewrite Ht, Hp by exact Hk. reflexivity.
Qed.
Lemma pred_rel v preds preds' ps : rows_of preds preds' -> allfin preds -> foldM (update_pred v) ex preds = Ok ps -> exists ps', foldM (update_pred v) ex' preds' = Ok ps' /\ rows_of ps ps' /\ allfin ps.
Proof.
  intros HR HF E. assert (foldM (update_pred v) (map row ex') preds = Ok ps) as E0.
  { eapply (foldM_perm _ _ (update_pred v)); [|symmetry; exact Hex|exact E]. clear. intros s a b s1 s2 E1 E2. destruct (Nat.eq_dec a b) as [->|Hne]; [eauto|]. unfold update_pred in *.
    apply rbind_ok in E1 as (pa & Pa & E1). apply rbind_ok in E1 as (sa & Sa & E1). apply rbind_ok in E1 as ([] & Fa & E1). injection E1 as <-. apply set_idx_ok in Sa as [La ->]. apply rbind_ok in E2 as (pb & Pb & E2). apply rbind_ok in E2 as (sb & Sb & E2). apply rbind_ok in E2 as ([] & Fb & E2). injection E2 as <-. apply set_idx_ok in Sb as [Lb ->].
    apply idx_ok in Pa, Pb. rewrite nth_error_upd in Pb. destruct (Nat.eqb_spec a b); [contradiction|]. cbn [andb] in Pb. rewrite upd_length in Lb. rewrite (proj2 (idx_ok _ _ _ _) Pb). cbn [rbind]. unfold set_idx at 1. replace (b <? length s) with true by lia. cbn [rbind]. rewrite Fb. cbn [rbind]. eexists. split; [reflexivity|].
    unfold idx. rewrite nth_error_upd. destruct (Nat.eqb_spec b a); [congruence|]. cbn [andb]. rewrite Pa. cbn [rbind]. unfold set_idx. rewrite upd_length. replace (a <? length s) with true by lia. cbn [rbind]. rewrite Fa. cbn [rbind]. rewrite upd_comm by congruence. reflexivity. }
  clear E. revert preds preds' HR HF E0 Hlt. clear Hex. induction ex' as [|k t IH]; intros preds preds' HR HF E0 Hlt; cbn [map foldM] in *; [injection E0 as <-; eauto|].
  apply rbind_ok in E0 as (p1 & E1 & E0). unfold update_pred in E1. apply rbind_ok in E1 as (p & Ep & E1). apply rbind_ok in E1 as (p2 & Es & E1). apply rbind_ok in E1 as ([] & Fa & E1). injection E1 as <-. apply set_idx_ok in Es as [L1 ->]. apply idx_ok in Ep.
  assert (k < n) as Hk by (apply Hlt; left; reflexivity). destruct HR as (A1 & A2 & A3).
  destruct (IH (upd preds (row k) (nadd O p v)) (upd preds' k (nadd O p v))) as (ps' & E2 & R2 & F2); try assumption.
  - repeat split; rewrite ?upd_length; try assumption. intros j Hj. rewrite !nth_error_upd. destruct (Nat.eqb_spec k j) as [->|Hne].
    + rewrite Nat.eqb_refl. replace (j <? length preds') with true by lia. replace (row j <? length preds) with true by lia. reflexivity.
    + destruct (Nat.eqb_spec (row k) (row j)) as [Heq|_]; [exfalso; apply Hne; apply (row_inj O d d' order Hre); assumption|]. cbn [andb]. apply A3, Hj.
  - intros x Hx. apply In_nth_error in Hx as [j Hj]. rewrite nth_error_upd in Hj. destruct ((row k =? j) && (row k <? length preds)); [injection Hj as <-; apply rassert_ok in Fa; exact Fa|]. apply HF. eapply nth_error_In, Hj.
  - intros j Hj. apply Hlt. right. exact Hj.
  - exists ps'. split; [|auto]. unfold update_pred at 1. unfold idx. rewrite (A3 k Hk), Ep. cbn [rbind]. unfold set_idx. replace (k <? length preds') with true by lia. cbn [rbind]. rewrite Fa. cbn [rbind]. exact E2.
Qed.
Lemma leaf_rel ob ob' v ob1 : orel ob ob' -> obj_leaf_value M target ex ob = Ok (v, ob1) -> exists ob1', obj_leaf_value M target' ex' ob' = Ok (v, ob1') /\ orel ob1 ob1'.
Proof.
  intros HO E. unfold obj_leaf_value in *. apply rbind_ok in E as (raw & Er & E). rewrite (raw_rel ob ob' raw HO Er). cbn [rbind]. unfold update_predictions in *. apply rbind_ok in E as (ps & Ep & E). injection E as <- <-.
  pose proof HO as [H1 H2 H3 H4 H5 H6 H7 H8 H9 H10 H11]. rewrite H3. destruct (pred_rel _ _ _ _ H5 H11 Ep) as (ps' & -> & R & F). cbn [rbind]. eexists. split; [reflexivity|].
  constructor; cbn [ob_kind ob_lr ob_bias ob_preds ob_grads ob_bounds ob_alpha ob_delta ob_bound]; try assumption; reflexivity.
Qed.
End Leaf.
End Obj.
