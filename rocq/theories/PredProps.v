(** Predicting new data with a trained model (C51). *)
From Coq Require Import Permutation.
From Verif Require Import Base BaseProofs Num F32 DataModel Config TreeModel TreeSpec TreeProps DatasetModel LearnerModel ObjectiveModel MetricModel BoostModel BoostSpec DatasetProps LearnerProps BoostProps PredSpec PredProofs.

Section Pred.
Variable O : numops.
Variable M : mathops O.
Variable dbg : bool.
Variable cfg : config O.
Variable d : data O.
Variable sched : nat -> nat -> list job -> list job.
Variable kind : obj_kind.
Variable metrics : list metric.
Variable g : rng.
Variable m : additive_tree O.
Hypothesis Hsched : any_order sched.
Hypothesis Hn : 0 < d_nexamples d.
Hypothesis Htarget : forall target, get_target d = Ok target -> (N.of_nat (length target) <= 2 ^ 31)%N.
Hypothesis Htrained : boost_train M dbg cfg d sched kind metrics g = Ok m.

Lemma model_fit : length (at_trees m) = c_niterations cfg /\ Forall (fit_tree (c_max_tree_depth cfg) (d_nfeatures d)) (at_trees m).
Proof. pose proof Htrained as E. unfold boost_train in E. apply rbind_ok in E as (b & Eb & E). injection E as <-. eapply boost_fit; eassumption. Qed.

(** A trained model predicts every table with enough columns, of any length and with any values (also unseen categories, infinities and NaN): every row reaches a leaf in each of the trees, and its
    prediction is the bias plus the values of these leaves, added in order. *)
Theorem C51_predicts : forall d2, has_columns (d_nfeatures d) d2 ->
  exists ps, additive_predict m d2 = Ok ps /\ length ps = d_nexamples d2 /\ length (at_trees m) = c_niterations cfg /\
    forall i, i < d_nexamples d2 -> exists vs,
      Forall2 (fun t v => exists leaf, leaf_node t leaf /\ predict_leaf_id t d2 i = Ok leaf /\ node_value t leaf = Ok v) (at_trees m) vs /\
      nth_error ps i = Some (fold_left (fun acc v => nadd O acc (nmul O (nofZ O 1) (nadd O v (nofZ O 0)))) vs (at_bias m)).
Proof.
  intros d2 HC. destruct model_fit as [HL HF]. rewrite Forall_forall in HF. destruct (C42_sum O m d2) as (ps & E & L & Hp).
  { intros t i Ht Hi. destruct (fit_predicts O _ _ t d2 i (HF t Ht) HC Hi) as (leaf & v & _ & _ & _ & Ep). eauto. }
  exists ps. split; [exact E|]. split; [exact L|]. split; [exact HL|]. intros i Hi.
  assert (exists vs, Forall2 (fun t v => exists leaf, leaf_node t leaf /\ predict_leaf_id t d2 i = Ok leaf /\ node_value t leaf = Ok v) (at_trees m) vs /\
    Forall2 (fun t p => predict_single t d2 i = Ok p) (at_trees m) (map (fun v => nmul O (nofZ O 1) (nadd O v (nofZ O 0))) vs)) as (vs & F1 & F2).
  { clear Hp E HL. revert HF. induction (at_trees m) as [|t ts IH]; intros HF; [exists []; split; constructor|]. destruct IH as (vs & F1 & F2); [intros x Hx; apply HF; right; exact Hx|].
    destruct (fit_predicts O _ _ t d2 i (HF t (or_introl eq_refl)) HC Hi) as (leaf & v & A1 & A2 & A3 & A4). exists (v :: vs). split; [constructor; eauto|cbn [map]; constructor; assumption]. }
  exists vs. split; [exact F1|]. apply mapM_ok in F2. rewrite (Hp i _ Hi F2). f_equal. clear. generalize (at_bias m). induction vs as [|v vs IH]; intros b; cbn [map fold_left]; [reflexivity|apply IH].
Qed.

(** The prediction of a row depends on nothing but the values of that row in the columns of the training features: not on the other rows, the further columns (such as the target), nor the kinds,
    limits and cardinalities the columns are loaded with. *)
Theorem C51_row_only : forall d2 d3 ps2 ps3 i j, has_columns (d_nfeatures d) d2 -> has_columns (d_nfeatures d) d3 -> additive_predict m d2 = Ok ps2 -> additive_predict m d3 = Ok ps3 ->
  i < d_nexamples d2 -> j < d_nexamples d3 -> same_row (d_nfeatures d) d2 i d3 j -> nth_error ps2 i = nth_error ps3 j /\ nth_error ps2 i <> None.
Proof.
  intros d2 d3 ps2 ps3 i j H2 H3 E2 E3 Hi Hj HS. destruct model_fit as [HL HF]. rewrite Forall_forall in HF.
  assert (forall d' ps k, has_columns (d_nfeatures d) d' -> additive_predict m d' = Ok ps -> k < d_nexamples d' -> exists outs, mapM (fun t => predict_single t d' k) (at_trees m) = Ok outs /\ nth_error ps k = Some (fold_left (nadd O) outs (at_bias m))) as K.
  { intros d' ps k HC E Hk. destruct (C42_sum O m d') as (ps' & E' & _ & Hp).
    { intros t x Ht Hx. destruct (fit_predicts O _ _ t d' x (HF t Ht) HC Hx) as (leaf & v & _ & _ & _ & Ep). eauto. }
    rewrite E in E'. injection E' as <-. assert (exists outs, mapM (fun t => predict_single t d' k) (at_trees m) = Ok outs) as (outs & Eo).
    { clear Hp HL E. revert HF. induction (at_trees m) as [|t ts IH]; intros HF; [exists []; reflexivity|]. destruct IH as (os & Eos); [intros x Hx; apply HF; right; exact Hx|]. destruct (fit_predicts O _ _ t d' k (HF t (or_introl eq_refl)) HC Hk) as (leaf & v & _ & _ & _ & Ep).
      cbn [mapM]. rewrite Ep. cbn [rbind]. rewrite Eos. cbn [rbind]. eauto. }
    exists outs. split; [exact Eo|]. apply Hp; assumption. }
  destruct (K d2 ps2 i H2 E2 Hi) as (o2 & M2 & P2). destruct (K d3 ps3 j H3 E3 Hj) as (o3 & M3 & P3). rewrite P2, P3. split; [|discriminate]. do 2 f_equal.
  apply mapM_ok in M2, M3. clear -M2 M3 HF HS. revert o3 M3 HF. induction M2 as [|t p ts os Ep F IH]; intros o3 M3 HF; inversion M3; subst; [reflexivity|]. f_equal.
  - destruct (HF t (or_introl eq_refl)) as (_ & _ & _ & Hf & _). eapply single_same; eassumption.
  - apply IH; [assumption|intros x Hx; apply HF; right; exact Hx].
Qed.
End Pred.

(** * Examples *)
(** A model trained on the table of C25_ex predicts a table with other rows, an unseen category, NaN and infinity, numerical kinds and without a target; rows 1 and 3 are equal, so are their predictions. *)
Definition new_data : data f32ops := @mk_data f32ops 16 3 5 [[fz 0; fz 1; fz 9; fz 1; f_nan]; [fz 1; fz 0; fz 1; fz 0; f_inf]; [fz 2; fz 2; f_nan; fz 2; fz 0]] [] [] [].
Example C51_ex : has_columns (d_nfeatures bst_data) new_data /\ same_row (d_nfeatures bst_data) new_data 1 new_data 3 /\ 0 < d_nexamples bst_data /\
  (forall target, get_target bst_data = Ok target -> (N.of_nat (length target) <= 2 ^ 31)%N) /\ any_order bst_sched /\
  match boost_train bst_math true bst_cfg bst_data bst_sched L2 [] ex_rng with
  | Ok m => match additive_predict m new_data with Ok ps => length ps = 5 /\ num_eqb (skipn 1 (firstn 2 ps)) (skipn 3 (firstn 4 ps)) = true /\ num_eqb (firstn 1 ps) (skipn 1 (firstn 2 ps)) = false /\ length (at_trees m) = 2 | _ => False end
  | _ => False
  end.
Proof.
  split; [|split; [|split; [|split; [|split]]]].
  - unfold has_columns. cbn [new_data d_features d_nexamples bst_data d_nfeatures length]. split; [lia|]. split; [lia|]. intros col Hc. repeat destruct Hc as [<-|Hc]; reflexivity || destruct Hc.
  - intros f Hf. cbn [bst_data d_nfeatures] in Hf. destruct f as [|[|f]]; [reflexivity|reflexivity|lia].
  - cbn [bst_data d_nexamples]. lia.
  - intros target Et. unfold get_target, get_feature in Et. apply idx_ok in Et. cbn [bst_data d_nfeatures d_features nth_error] in Et. injection Et as <-. cbn [length]. lia.
  - exact (fun _ => rev_sched_perm).
  - vm_compute. repeat split; discriminate || reflexivity.
Qed.

Print Assumptions C51_predicts. Print Assumptions C51_row_only.
