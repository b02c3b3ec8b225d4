(** C61: only informative columns matter. *)
From Coq Require Import Permutation.
From Verif Require Import Base BaseProofs Num F32 DataModel Config TreeModel TreeSpec TreeProps DatasetModel DatasetSpec LearnerModel ObjectiveModel MetricModel BoostModel BoostSpec DatasetProps LearnerProps BoostProps PredSpec PredProofs PredProps
  AlikeSpec AlikeProofs AlikeProofs2 AlikeProofs3.

Lemma alike_run O (M : mathops O) dbg cfg (d d' : data O) sched kind metrics g k b : alike d d' -> get_target d' = get_target d -> boost_run M dbg cfg d sched kind metrics g k = Ok b ->
  exists b', boost_run M dbg cfg d' sched kind metrics g k = Ok b' /\ alike_state O d d' eq b b' /\ at_bias (bs_ensemble b') = at_bias (bs_ensemble b).
Proof.
  intros HA HT E. assert (exists target, get_target d = Ok target) as [target Et]. { unfold boost_run, boost_start in E. apply rbind_ok in E as (b0 & E & _). apply rbind_ok in E as (s & _ & E). apply rbind_ok in E as (t & Et & _). eauto. }
  assert (exists ob, obj_initialize M dbg cfg target (objective_new O kind) = Ok ob) as [ob Eo]. { unfold boost_run, boost_start in E. apply rbind_ok in E as (b0 & E & _). apply rbind_ok in E as (s & _ & E). rewrite Et in E. cbn [rbind] in E. apply rbind_ok in E as (ob & Eo & _). eauto. }
  destruct (swap_run O d d' HA M dbg cfg sched target target Et (eq_trans HT Et) eq) with (metrics := metrics) (kind := kind) (g := g) (ob0 := ob) (ob0' := ob) (k := k) (b := b) as (b' & E' & A & B1 & B2);
    try assumption; try reflexivity; try (intros; subst; eauto; fail); try (intros; subst; auto; fail).
  exists b'. split; [exact E'|]. split; [exact A|congruence].
Qed.

(** Training looks at the informative columns only: tables that agree on them and on the target give the same model, running predictions and metrics. *)
Theorem C61_training : forall O (M : mathops O) dbg cfg (d d' : data O) sched kind metrics g m, alike d d' -> get_target d' = get_target d ->
  boost_train M dbg cfg d sched kind metrics g = Ok m -> boost_train M dbg cfg d' sched kind metrics g = Ok m.
Proof.
  intros O M dbg cfg d d' sched kind metrics g m HA HT E. unfold boost_train in *. apply rbind_ok in E as (b & E & Em). injection Em as <-.
  destruct (alike_run _ _ _ _ _ _ _ _ _ _ _ _ HA HT E) as (b' & -> & (_ & _ & _ & _ & A & _) & B). cbn [rbind]. f_equal. destruct (bs_ensemble b), (bs_ensemble b'). cbn in A, B. congruence.
Qed.
Print Assumptions C61_training.
Theorem C61_reports : forall O (M : mathops O) dbg cfg (d d' : data O) sched kind metrics g k b, alike d d' -> get_target d' = get_target d ->
  boost_run M dbg cfg d sched kind metrics g k = Ok b -> exists b', boost_run M dbg cfg d' sched kind metrics g k = Ok b' /\ bs_objective b' = bs_objective b /\ bs_evals b' = bs_evals b /\ bs_ensemble b' = bs_ensemble b.
Proof.
  intros O M dbg cfg d d' sched kind metrics g k b HA HT E. destruct (alike_run _ _ _ _ _ _ _ _ _ _ _ _ HA HT E) as (b' & E' & (_ & _ & A1 & _ & A2 & _ & A3) & B). exists b'. split; [exact E'|]. split; [auto|]. split; [auto|]. destruct (bs_ensemble b), (bs_ensemble b'). cbn in A2, B. congruence.
Qed.
Print Assumptions C61_reports.

(** A trained model splits on informative features only. *)
Theorem C61_features : forall O (M : mathops O) dbg cfg (d : data O) sched kind metrics g m, (forall col, In col (d_features d) -> length col = d_nexamples d) ->
  boost_train M dbg cfg d sched kind metrics g = Ok m -> forall t f, In t (at_trees m) -> looks_at t f -> useful_feature d f.
Proof.
  intros O M dbg cfg d sched kind metrics g m HC E t f Ht Hf. unfold boost_train in E. apply rbind_ok in E as (b & E & Em). injection Em as <-.
  assert (alike d d) as HA. { do 6 (split; [first [reflexivity|intros col [Hc|Hc]; apply HC; exact Hc]|]). intros f0 _. split; [reflexivity|]. split; [tauto|]. intros _. repeat split. }
  destruct (alike_run _ _ _ _ _ _ _ _ _ _ _ _ HA eq_refl E) as (b' & _ & (_ & _ & _ & _ & _ & A & _) & _). exact (A t Ht f Hf).
Qed.
Print Assumptions C61_features.

(** The prediction of a row depends only on its values in the informative columns of the training data. *)
Theorem C61_row : forall O (M : mathops O) dbg cfg (d : data O) sched kind metrics g m, any_order sched -> 0 < d_nexamples d -> (forall target, get_target d = Ok target -> (N.of_nat (length target) <= 2 ^ 31)%N) ->
  (forall col, In col (d_features d) -> length col = d_nexamples d) -> boost_train M dbg cfg d sched kind metrics g = Ok m ->
  forall d2 d3 ps2 ps3 i j, has_columns (d_nfeatures d) d2 -> has_columns (d_nfeatures d) d3 -> additive_predict m d2 = Ok ps2 -> additive_predict m d3 = Ok ps3 ->
  i < d_nexamples d2 -> j < d_nexamples d3 -> (forall f, useful_feature d f -> value_at d2 f i = value_at d3 f j) -> nth_error ps2 i = nth_error ps3 j /\ nth_error ps2 i <> None.
Proof.
  intros O M dbg cfg d sched kind metrics g m Hsched Hn Htarget HC Htrained d2 d3 ps2 ps3 i j H2 H3 E2 E3 Hi Hj HS.
  assert (HU := C61_features O M dbg cfg d sched kind metrics g m HC Htrained).
  destruct (model_fit O M dbg cfg d sched kind metrics g m Hsched Hn Htarget Htrained) as [HL HF]. rewrite Forall_forall in HF.
  assert (forall d' ps k, has_columns (d_nfeatures d) d' -> additive_predict m d' = Ok ps -> k < d_nexamples d' -> exists outs, mapM (fun t => predict_single t d' k) (at_trees m) = Ok outs /\ nth_error ps k = Some (fold_left (nadd O) outs (at_bias m))) as K.
  { intros d' ps k HC' E Hk. destruct (C42_sum O m d') as (ps' & E' & _ & Hp).
    { intros t x Ht Hx. destruct (fit_predicts O _ _ t d' x (HF t Ht) HC' Hx) as (leaf & v & _ & _ & _ & Ep). eauto. }
    rewrite E in E'. injection E' as <-. assert (exists outs, mapM (fun t => predict_single t d' k) (at_trees m) = Ok outs) as (outs & Eo).
    { clear Hp HL E HU. revert HF. induction (at_trees m) as [|t ts IH]; intros HF; [exists []; reflexivity|]. destruct IH as (os & Eos); [intros x Hx; apply HF; right; exact Hx|]. destruct (fit_predicts O _ _ t d' k (HF t (or_introl eq_refl)) HC' Hk) as (leaf & v & _ & _ & _ & Ep).
      cbn [mapM]. rewrite Ep. cbn [rbind]. rewrite Eos. cbn [rbind]. eauto. }
    exists outs. split; [exact Eo|]. apply Hp; assumption. }
  destruct (K d2 ps2 i H2 E2 Hi) as (o2 & M2 & P2). destruct (K d3 ps3 j H3 E3 Hj) as (o3 & M3 & P3). rewrite P2, P3. split; [|discriminate]. do 2 f_equal.
  apply mapM_ok in M2, M3. clear - M2 M3 HU HS. revert o3 M3 HU. induction M2 as [|t p ts os Ep F IH]; intros o3 M3 HU; inversion M3; subst; [reflexivity|]. f_equal.
  - assert (forall f, looks_at t f -> value_at d2 f i = value_at d3 f j) as HT by (intros f Hf; apply HS, (HU t f (or_introl eq_refl) Hf)).
    match goal with H : predict_single t d3 j = Ok ?q |- _ => rename H into Eq; rename q into qq end. clear - HT Ep Eq. unfold predict_single, predict_leaf_id in *. apply rbind_ok in Ep as (l & El & Ep). apply rbind_ok in Eq as (l' & El' & Eq).
    assert (l = l') as <-; [|congruence]. clear Ep Eq. revert El El'. generalize 0. generalize (S (length (t_crits t))). intros fuel. induction fuel as [|fuel IH]; intros n E E'; [discriminate|]. cbn [leaf_id_loop] in *.
    apply rbind_ok in E as (c & Ec & E). rewrite Ec in E'. cbn [rbind] in E'. apply rbind_ok in E as (col & E1 & E). apply rbind_ok in E as (v & E2 & E). apply rbind_ok in E' as (col' & E1' & E'). apply rbind_ok in E' as (v' & E2' & E').
    apply idx_ok in Ec. destruct (is_no_split c) eqn:EN.
    + unfold is_no_split in EN. unfold goes_left in *. destruct (sc_type c); try discriminate. cbn [rbind] in E, E'. congruence.
    + assert (v = v') as <-. { assert (value_at d2 (sc_feature c) i = value_at d3 (sc_feature c) j) as HV by (apply HT; exists n, c; auto). unfold value_at, get_feature in *. apply idx_ok in E1, E1', E2, E2'. rewrite E1, E1', E2, E2' in HV. congruence. }
      apply rbind_ok in E as (r & Er & E). rewrite Er in E'. cbn [rbind] in E'. destruct r as [[]|]; [eapply IH; eassumption|eapply IH; eassumption|congruence].
  - apply IH; [assumption|intros x f Hx; apply HU; right; exact Hx].
Qed.
Print Assumptions C61_row.

(** The table of C25_ex with a constant numerical column, 7 in one case and -1 in the other. *)
Definition flat_data (z : Z) : data f32ops :=
  @mk_data f32ops 4 3 6 [[fz 0; fz 0; fz 0; fz 1; fz 1; fz 1]; repeat (fz z) 6; [fz 0; fz 1; fz 2; fz 0; fz 0; fz 1]; [fz 1; fz 2; fz 3; fz 5; fz 8; fz 13]]
    [(fz 0, fz 1); (fz z, fz z); (fz 0, fz 2); (fz 1, fz 13)] [LoCardCat; Numerical; LoCardCat; Numerical] [2; 0; 3; 0].
Lemma flat_column z : neq f32ops (fz z) (fz z) = true -> ~ useful_feature (flat_data z) 1.
Proof. intros H (_ & _ & lo & hi & E & EN). unfold feat_limits, flat_data in E. cbn [d_limits idx nth_error] in E. apply Ok_inj in E. assert (lo = fz z /\ hi = fz z) as [-> ->] by (split; [exact (f_equal fst (eq_sym E))|exact (f_equal snd (eq_sym E))]). exact (Bool.diff_true_false (eq_trans (eq_sym H) EN)). Qed.
Example C61_ex : alike (flat_data 7) (flat_data (-1)) /\ get_target (flat_data (-1)) = get_target (flat_data 7) /\ get_feature (flat_data (-1)) 1 <> get_feature (flat_data 7) 1 /\
  (match boost_train bst_math true bst_cfg (flat_data 7) bst_sched L2 [ML2] ex_rng with Ok m => map nleafs (at_trees m) | _ => [] end) = [3; 3].
Proof.
  assert (neq f32ops (fz 7) (fz 7) = true) as H7 by (vm_compute; reflexivity). assert (neq f32ops (fz (-1)) (fz (-1)) = true) as H1 by (vm_compute; reflexivity).
  split; [|split; [reflexivity|split; [|vm_compute; reflexivity]]].
  - do 4 (split; [reflexivity|]). split; [|split; [reflexivity|]].
    + intros col [Hc|Hc]; cbn [flat_data d_features In] in Hc; repeat (destruct Hc as [<-|Hc]; [reflexivity|]); destruct Hc.
    + intros f Hf. cbn [d_nfeatures flat_data] in Hf. split; [destruct f as [|[|[|f]]]; [reflexivity..|lia]|].
      destruct f as [|[|[|f]]]; [split; [|intros _; repeat split]; unfold useful_feature; tauto| |split; [|intros _; repeat split]; unfold useful_feature; tauto|lia].
      split; [split; intros H; exfalso; [exact (flat_column (-1) H1 H)|exact (flat_column 7 H7 H)]|]. intros H. exfalso. exact (flat_column 7 H7 H).
  - intros E. unfold get_feature, flat_data in E. cbn [d_features idx nth_error] in E. apply Ok_inj in E. assert (fz (-1) = fz 7) as E2 by exact (f_equal (fun l => nth 0 l (fz 7)) E).
    assert (neq f32ops (fz (-1)) (fz 7) = true) as E3 by (rewrite E2; exact H7). revert E3. vm_compute. discriminate.
Qed.
