(** The running predictions of the objective and the predictions of the model. *)
From Coq Require Import Permutation Sorting.Sorted.
From Verif Require Import Base BaseProofs Num DataModel DataSpec Config TreeModel TreeSpec TreeProofs TreeProofs2 TreeProps DatasetModel DatasetSpec DatasetProofs DatasetProofs2 DatasetProofs3 DatasetProofs4 DatasetProofs5 DatasetProps
  LearnerModel LearnerSpec TrainSpec TrainProps ObjectiveModel ObjectiveProps MetricModel BoostModel.

Lemma in_map_fst {A B} (l : list (A * B)) i v : In (i, v) l -> In i (map fst l).
Proof. intros H. apply in_map_iff. exists (i, v). auto. Qed.

Lemma increasing_nodup l : increasing l -> NoDup l.
Proof. intros Hi. induction Hi as [|x l Hl IH Hx]; constructor; [|exact IH]. rewrite Forall_forall in Hx. intros Hin. specialize (Hx x Hin). lia. Qed.

(** The parts of the objective that leaf values and out-of-bag predictions leave alone. *)
Definition same_settings {O} (a b : objective O) : Prop :=
  ob_kind b = ob_kind a /\ ob_lr b = ob_lr a /\ ob_bias b = ob_bias a /\ ob_grads b = ob_grads a /\ ob_bounds b = ob_bounds a /\ ob_alpha b = ob_alpha a /\ ob_delta b = ob_delta a /\ ob_bound b = ob_bound a.
Lemma same_settings_refl O (a : objective O) : same_settings a a. Proof. repeat split. Qed.
Lemma same_settings_trans O (a b c : objective O) : same_settings a b -> same_settings b c -> same_settings a c.
Proof. unfold same_settings. intuition congruence. Qed.

Lemma nodup_app {A} (l l' : list A) : NoDup (l ++ l') -> NoDup l /\ NoDup l' /\ forall x, In x l -> ~ In x l'.
Proof.
  induction l as [|a l IH]; cbn [app]; intros H; [split; [constructor|split; [exact H|intros x []]]|].
  inversion H as [|? ? Hn H']; subst. destruct (IH H') as (H1 & H2 & H3). rewrite in_app_iff in Hn. split; [constructor; tauto|]. split; [exact H2|].
  intros x [<-|Hx]; [tauto|apply H3, Hx].
Qed.

Lemma leaf_calls_preds O (M : mathops O) targets : forall gs ob ob', NoDup (concat (map g_examples gs)) -> leaf_calls (obj_leaf_value M targets) gs ob ob' ->
  same_settings ob ob' /\ length (ob_preds ob') = length (ob_preds ob) /\
  forall i p, nth_error (ob_preds ob) i = Some p ->
    (forall g, In g gs -> In i (g_examples g) -> nth_error (ob_preds ob') i = Some (nadd O p (g_value g))) /\
    (~ In i (concat (map g_examples gs)) -> nth_error (ob_preds ob') i = Some p).
Proof.
  induction gs as [|g gs IH]; intros ob ob' Hnd H; cbn [leaf_calls map concat] in *.
  - subst ob'. split; [apply same_settings_refl|]. split; [reflexivity|]. intros i p Hp. split; [intros g []|intros _; exact Hp].
  - destruct H as (ob1 & E1 & H). apply nodup_app in Hnd as (Hn1 & Hn2 & Hd).
    destruct (C40_apply _ _ _ _ _ _ _ Hn1 E1) as (raw & _ & _ & Hl1 & Hp1). destruct (IH ob1 ob' Hn2 H) as (Hs & Hl & Hp).
    assert (same_settings ob ob1) as Hs1.
    { unfold obj_leaf_value in E1. apply rbind_ok in E1 as (r & _ & E1). unfold update_predictions in E1. apply rbind_ok in E1 as (ps & _ & E1). injection E1 as _ <-. repeat split. }
    split; [eapply same_settings_trans; eassumption|]. split; [congruence|]. intros i p Hi. destruct (Hp1 i p Hi) as (HA & HB). split.
    + intros g' [<-|Hg] Hin.
      * specialize (HA Hin). apply (Hp i _ HA). apply Hd, Hin.
      * assert (~ In i (g_examples g)) as Hni. { intros Hc. apply (Hd i Hc). apply in_concat. exists (g_examples g'). split; [apply in_map, Hg|exact Hin]. }
        apply (Hp i p (HB Hni)); assumption.
    + intros Hni. rewrite in_app_iff in Hni. apply (Hp i p); [apply HB; tauto|tauto].
Qed.

Lemma oob_calls_preds O : forall l (ob ob' : objective O), NoDup (map fst l) -> oob_calls update_out_of_bag l ob ob' ->
  same_settings ob ob' /\ length (ob_preds ob') = length (ob_preds ob) /\
  forall i p, nth_error (ob_preds ob) i = Some p ->
    (forall v, In (i, v) l -> nth_error (ob_preds ob') i = Some (nadd O p v)) /\ (~ In i (map fst l) -> nth_error (ob_preds ob') i = Some p).
Proof.
  induction l as [|(i0, v0) l IH]; intros ob ob' Hnd H; cbn [oob_calls map fst] in *.
  - subst ob'. split; [apply same_settings_refl|]. split; [reflexivity|]. intros i p Hp. split; [intros v []|intros _; exact Hp].
  - destruct H as (ob1 & E1 & H). inversion Hnd as [|? ? Hn0 Hn1]; subst. destruct (IH ob1 ob' Hn1 H) as (Hs & Hl & Hp).
    unfold update_out_of_bag in E1. apply rbind_ok in E1 as (p0 & Ei & E1). apply rbind_ok in E1 as (u & _ & E1). apply rbind_ok in E1 as (ps & Es & E1). injection E1 as <-.
    apply idx_ok in Ei. apply set_idx_ok in Es as (Hlt & ->). cbn [ob_preds] in *.
    split; [eapply same_settings_trans; [|exact Hs]; repeat split|]. split; [rewrite Hl, upd_length; reflexivity|]. intros i p Hi. split.
    + intros v [Hv|Hv].
      * injection Hv as -> ->. assert (p0 = p) as -> by congruence. apply (Hp i _); [|exact Hn0]. rewrite nth_error_upd, Nat.eqb_refl, (proj2 (Nat.ltb_lt _ _) Hlt). reflexivity.
      * assert (i0 <> i) as Hne by (intros ->; apply Hn0, (in_map_fst _ _ _ Hv)). apply (Hp i p); [|exact Hv]. rewrite nth_error_upd. destruct (Nat.eqb_spec i0 i); [congruence|exact Hi].
    + intros Hni. cbn [In] in Hni. apply (Hp i p); [|tauto]. rewrite nth_error_upd. destruct (Nat.eqb_spec i0 i); [tauto|exact Hi].
Qed.

Lemma update_count_S O dbg (cfg : config O) s grad bounds s' : dataset_update dbg cfg s grad bounds = Ok s' -> ds_update_count s' = S (ds_update_count s).
Proof.
  unfold dataset_update. intros E. destruct (skip_update _ _); [injection E as <-; cbn; lia|]. apply rbind_ok in E as (i1 & _ & E).
  match type of E with (if ?b then _ else _) = _ => destruct b end.
  - apply rbind_ok in E as (s2 & _ & E). apply rbind_ok in E as (ex & _ & E). apply rbind_ok in E as (i3 & _ & E). injection E as <-. cbn. lia.
  - destruct (in_has_non_locard i1); [apply rbind_ok in E as (i2 & _ & E)|]; injection E as <-; cbn; lia.
Qed.

Lemma tree_predict_total O (t : tree O) (d : data O) : (forall i, i < d_nexamples d -> exists p, predict_single t d i = Ok p) ->
  exists outs, tree_predict t d = Ok outs /\ length outs = d_nexamples d /\ forall i p, i < d_nexamples d -> predict_single t d i = Ok p -> nth_error outs i = Some p.
Proof.
  intros H. destruct (predict_and_ok O t d (fun p _ => p) (repeat (nofZ O 0) (d_nexamples d)) (repeat_length _ _) H) as (o & E & L & Hp).
  exists o. split; [exact E|]. split; [rewrite L; apply repeat_length|]. intros i p Hi Ep. apply (Hp i p (nofZ O 0) Ep). apply nth_error_repeat, Hi.
Qed.

Section Run.
Variable O : numops.
Variable M : mathops O.
Variable dbg : bool.
Variable cfg : config O.
Variable d : data O.
Variable sched : nat -> nat -> list job -> list job.
(** When two numbers count as the same. *)
Variable E : num O -> num O -> Prop.
Hypothesis E_refl : forall x, E x x.
Hypothesis E_add : forall p p' v v', E p p' -> E v v' -> E (nadd O p v) (nadd O p' v').
Hypothesis Hn : 0 < d_nexamples d.
Hypothesis Hcols : 0 < length (d_features d) /\ d_nfeatures d <= length (d_features d) /\ forall col, In col (d_features d) -> length col = d_nexamples d.
Hypothesis Hsched : forall i k js, Permutation js (sched i k js).
Hypothesis Hcount : (N.of_nat (scaled_count (d_nexamples d) (c_example_fraction cfg)) <= 2 ^ 31)%N.
Hypothesis Hall : nlt O (c_example_fraction cfg) (nofZ O 1) = false -> scaled_count (d_nexamples d) (c_example_fraction cfg) = d_nexamples d.
Variable sizes : list nat.
Hypothesis Hsizes : hist_sizes d = Ok sizes.
Hypothesis Hagree : forall s iter grads bounds target t ob ob', setting dbg cfg d s sizes (sched iter) -> 0 < ds_update_count s -> length grads = d_nexamples d ->
  train dbg cfg s sizes bounds (sched iter) (objective O) (obj_leaf_value M target) update_out_of_bag grads ob = Ok (t, ob') ->
  exists rows (gs : list (group O)) others ob1, example_rows s = Ok rows /\ Permutation (concat (map g_examples gs)) rows /\ leaf_calls (obj_leaf_value M target) gs ob ob1 /\ oob_calls update_out_of_bag others ob1 ob' /\
    (example_sampling_enabled s = false -> others = []) /\
    (example_sampling_enabled s = true -> increasing (map fst others) /\ (forall j, In j (map fst others) <-> j < d_nexamples d /\ ~ In j rows) /\ forall i v, In (i, v) others -> predict_single t d i = Ok v) /\
    (forall j, In j rows -> j < d_nexamples d) /\
    forall g j, In g gs -> In j (g_examples g) -> exists x, predict_single t d j = Ok x /\ E (g_value g) x.

(** Training adds to each prediction, once, (nearly) the prediction of the tree. *)
Lemma train_adds s iter grads bounds target t ob ob' : setting dbg cfg d s sizes (sched iter) -> 0 < ds_update_count s -> length grads = d_nexamples d ->
  train dbg cfg s sizes bounds (sched iter) (objective O) (obj_leaf_value M target) update_out_of_bag grads ob = Ok (t, ob') -> length (ob_preds ob) = d_nexamples d ->
  same_settings ob ob' /\ length (ob_preds ob') = d_nexamples d /\
  forall i p, nth_error (ob_preds ob) i = Some p -> exists v x, predict_single t d i = Ok x /\ E v x /\ nth_error (ob_preds ob') i = Some (nadd O p v).
Proof.
  intros HS Hc Hlg Et Hl. pose proof HS as (HR & _). destruct (Hagree _ _ _ _ _ _ _ _ HS Hc Hlg Et) as (rows & gs & others & ob1 & Hrows & HP & HL & HO & Ho1 & Ho2 & Hlt & Hpred).
  assert (NoDup (concat (map g_examples gs))) as Hnd by (eapply Permutation_NoDup; [symmetry; exact HP|eapply rows_nodup; eassumption]).
  assert (NoDup (map fst others)) as Hnd2. { destruct (example_sampling_enabled s); [apply increasing_nodup, Ho2; reflexivity|rewrite (Ho1 eq_refl); constructor]. }
  destruct (leaf_calls_preds _ _ _ _ _ _ Hnd HL) as (S1 & L1 & P1). destruct (oob_calls_preds _ _ _ _ Hnd2 HO) as (S2 & L2 & P2).
  split; [eapply same_settings_trans; eassumption|]. split; [congruence|]. intros i p Hi.
  assert (i < d_nexamples d) as Hin by (rewrite <- Hl; apply nth_error_Some; congruence). destruct (P1 i p Hi) as (PA & PB).
  destruct (in_dec Nat.eq_dec i rows) as [Hr|Hr].
  - assert (In i (concat (map g_examples gs))) as Hc' by (eapply Permutation_in; [symmetry; exact HP|exact Hr]). apply in_concat in Hc' as (l & Hl' & Hil). apply in_map_iff in Hl' as (g & <- & Hg).
    destruct (Hpred g i Hg Hil) as (x & Ex & HE). exists (g_value g), x. split; [exact Ex|]. split; [exact HE|].
    apply (P2 i _ (PA g Hg Hil)). destruct (example_sampling_enabled s); [|rewrite (Ho1 eq_refl); intros []]. intros Hc'. apply Ho2 in Hc'; [tauto|reflexivity].
  - assert (~ In i (concat (map g_examples gs))) as Hc' by (intros Hc'; apply Hr; eapply Permutation_in; eassumption). specialize (PB Hc').
    destruct (example_sampling_enabled s) eqn:Es.
    + destruct (Ho2 eq_refl) as (_ & Hiff & Hv). assert (In i (map fst others)) as Hio by (apply Hiff; auto). apply in_map_iff in Hio as ((i', v) & Hfst & Hio). cbn in Hfst. subst i'.
      exists v, v. split; [apply Hv, Hio|]. split; [apply E_refl|]. apply (P2 i _ PB), Hio.
    + exfalso. apply Hr. unfold example_rows in Hrows. rewrite Es in Hrows. injection Hrows as <-. pose proof (reachable_ok _ _ _ _ _ HR) as HI.
      unfold nactive_examples. rewrite (dv_nact _ _ _ _ (ds_inv _ _ _ _ HI)). unfold nact. rewrite Hall; [apply in_seq; lia|].
      pose proof (ds_buf _ _ _ _ HI) as HB. destruct (nlt O (c_example_fraction cfg) (nofZ O 1)); [|reflexivity]. apply Permutation_length in HB. rewrite seq_length in HB.
      unfold example_sampling_enabled in Es. rewrite negb_false_iff, Nat.eqb_eq in Es. lia.
Qed.

(** The invariant of the loop over the iterations. *)
Record boost_inv (b : booster O) : Prop := mk_binv {
  bi_reach : reachable dbg cfg d (bs_dataset b);
  bi_bias : at_bias (bs_ensemble b) = ob_bias (bs_objective b);
  bi_trees : length (at_trees (bs_ensemble b)) = bs_iter b;
  bi_lr : ob_lr (bs_objective b) = c_learning_rate cfg;
  bi_len : length (ob_preds (bs_objective b)) = d_nexamples d;
  bi_preds : exists ps, additive_predict (bs_ensemble b) d = Ok ps /\ Forall2 E (ob_preds (bs_objective b)) ps
}.

Lemma target_len target : get_target d = Ok target -> length target = d_nexamples d.
Proof. intros H. apply idx_ok in H. apply Hcols. eapply nth_error_In, H. Qed.

Lemma forall2_nth {A B} (R : A -> B -> Prop) l l' : length l = length l' -> (forall i x y, nth_error l i = Some x -> nth_error l' i = Some y -> R x y) -> Forall2 R l l'.
Proof.
  revert l'. induction l as [|a l IH]; intros [|b l'] Hl H; try discriminate; constructor; [apply (H 0 a b); reflexivity|]. apply IH; [injection Hl; auto|]. intros i x y Hx Hy. apply (H (S i) x y); assumption.
Qed.
Lemma forall2_get {A B} (R : A -> B -> Prop) l l' : Forall2 R l l' -> length l = length l' /\ forall i x y, nth_error l i = Some x -> nth_error l' i = Some y -> R x y.
Proof.
  induction 1 as [|a b l l' Hab H [IH1 IH2]]; [split; [reflexivity|intros [|i] x y; discriminate]|]. split; [cbn; congruence|]. intros [|i] x y Hx Hy; cbn in *; [injection Hx as <-; injection Hy as <-; exact Hab|eapply IH2; eassumption].
Qed.

Lemma iter_inv metrics b b' : boost_inv b -> train_one_iter M dbg cfg d sched sizes metrics b = Ok b' -> boost_inv b' /\ bs_iter b' = S (bs_iter b).
Proof.
  intros H Eb. unfold train_one_iter in Eb. apply rbind_ok in Eb as (target & Etgt & Eb). apply rbind_ok in Eb as (ob & Eu & Eb). apply rbind_ok in Eb as (s & Es & Eb). apply rbind_ok in Eb as ((t & ob') & Et & Eb). injection Eb as <-.
  pose proof (target_len target Etgt) as Htl. destruct (C40_update _ _ _ _ _ Eu) as (Lp & Pe & Ke & Lg & _).
  assert (reachable dbg cfg d s) as HR.
  { destruct (bi_reach b H) as (g & us & s0 & E0 & E1). exists g, (us ++ [(ob_grads ob, obj_bounds ob)]), s0. split; [exact E0|]. unfold ds_run in *. rewrite foldM_app, E1. cbn [rbind foldM fst snd]. rewrite Es. reflexivity. }
  assert (setting dbg cfg d s sizes (sched (S (bs_iter b)))) as HS.
  { split; [exact HR|]. split; [exact Hsizes|]. split; [apply Hsched|]. unfold nactive_examples. rewrite (dv_nact _ _ _ _ (ds_inv _ _ _ _ (reachable_ok _ _ _ _ _ HR))). exact Hcount. }
  assert (0 < ds_update_count s) as Hc by (rewrite (update_count_S _ _ _ _ _ _ _ Es); lia).
  assert (length (ob_preds ob) = d_nexamples d) as Hl by congruence.
  destruct (train_adds _ _ _ _ _ _ _ _ HS Hc (eq_trans Lg Htl) Et Hl) as (Sm & Hl' & Hadd).
  assert (ob_bias ob = ob_bias (bs_objective b) /\ ob_lr ob = ob_lr (bs_objective b)) as (Hbias & Hlr).
  { clear -Eu. unfold obj_update in Eu. destruct (length (ob_preds (bs_objective b)) =? length target); [|discriminate]. destruct (length (ob_grads (bs_objective b)) =? length target); [|discriminate]. cbn [rassert rbind] in Eu.
    destruct (ob_kind (bs_objective b)).
    - destruct (m_limits M _). injection Eu as <-. split; reflexivity.
    - injection Eu as <-. split; reflexivity.
    - apply rbind_ok in Eu as (q & _ & Eu). injection Eu as <-. split; reflexivity.
    - injection Eu as <-. split; reflexivity.
    - injection Eu as <-. split; reflexivity. }
  split; [|reflexivity]. destruct Sm as (Sk & Slr & Sb & _). destruct (bi_preds b H) as (ps & Eps & HF). apply forall2_get in HF as (HL & HF).
  constructor; cbn [bs_dataset bs_ensemble bs_objective bs_iter].
  - exact HR.
  - cbn [push_tree at_bias]. rewrite (bi_bias b H), Sb, Hbias. reflexivity.
  - cbn [push_tree at_trees]. rewrite app_length, (bi_trees b H). cbn. lia.
  - rewrite Slr, Hlr. apply (bi_lr b H).
  - exact Hl'.
  - assert (forall i, i < d_nexamples d -> exists p, predict_single t d i = Ok p) as Hpt.
    { intros i Hi. destruct (nth_error (ob_preds ob) i) as [p|] eqn:Ep; [|apply nth_error_None in Ep; lia]. destruct (Hadd i p Ep) as (v & x & Ex & _). exists x. exact Ex. }
    destruct (tree_predict_total O t d Hpt) as (outs & Eo & Lo & Ho). destruct (C42_push _ _ _ _ _ _ Eps Eo) as (ps' & Eps' & Lps' & Hps'). exists ps'. split; [exact Eps'|].
    pose proof (bi_len b H) as HLb. apply forall2_nth; [congruence|]. intros i x y Hx Hy.
    assert (i < d_nexamples d) as Hi by (rewrite <- Hl'; apply nth_error_Some; congruence).
    destruct (nth_error (ob_preds ob) i) as [p|] eqn:Ep; [|apply nth_error_None in Ep; lia]. destruct (nth_error ps i) as [q|] eqn:Eq; [|apply nth_error_None in Eq; lia].
    destruct (Hadd i p Ep) as (v & w & Ew & HE & Hv). rewrite Hx in Hv. injection Hv as ->. rewrite (Hps' i q w Eq (Ho i w Hi Ew)) in Hy. injection Hy as <-.
    apply E_add; [|exact HE]. apply (HF i); [rewrite <- Pe; exact Ep|exact Eq].
Qed.

Lemma start_inv kind g b : boost_start M dbg cfg d kind g = Ok b -> boost_inv b /\ bs_iter b = 0.
Proof.
  unfold boost_start. intros Eb. apply rbind_ok in Eb as (s & Es & Eb). apply rbind_ok in Eb as (target & Etgt & Eb). apply rbind_ok in Eb as (ob & Eo & Eb). injection Eb as <-.
  destruct (C40_initialize _ _ _ _ _ _ _ Eo) as (_ & Hp & Hlr & _). pose proof (target_len target Etgt) as Htl. split; [|reflexivity]. constructor; cbn [bs_dataset bs_ensemble bs_objective bs_iter].
  - exists g, [], s. split; [exact Es|reflexivity].
  - reflexivity.
  - reflexivity.
  - exact Hlr.
  - rewrite Hp, repeat_length. exact Htl.
  - exists (repeat (ob_bias ob) (d_nexamples d)). split.
    + unfold additive_predict, additive_predict_buf. rewrite map_const_repeat. reflexivity.
    + rewrite Hp, Htl. generalize (d_nexamples d). induction n as [|n IH]; cbn [repeat]; constructor; auto.
Qed.

Lemma run_inv kind metrics g k b : boost_run M dbg cfg d sched kind metrics g k = Ok b -> boost_inv b /\ bs_iter b = k.
Proof.
  unfold boost_run. intros Eb. apply rbind_ok in Eb as (b0 & E0 & Eb). apply rbind_ok in Eb as (sz & Esz & Eb). assert (sz = sizes) as -> by congruence. clear Esz.
  destruct (start_inv _ _ _ E0) as (H0 & I0). clear E0. revert b Eb. induction k as [|k IH]; intros b Eb.
  - cbn in Eb. injection Eb as <-. auto.
  - rewrite seq_S, foldM_app in Eb. apply rbind_ok in Eb as (b1 & E1 & Eb). cbn [foldM] in Eb. apply rbind_ok in Eb as (b2 & E2 & Eb). injection Eb as ->.
    destruct (IH b1 E1) as (H1 & I1). destruct (iter_inv _ _ _ H1 E2) as (H2 & I2). split; [exact H2|congruence].
Qed.
End Run.
