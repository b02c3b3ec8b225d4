From Coq Require Import Permutation Sorting.Sorted.
From Verif Require Import Base BaseProofs BitModel BitSpec Num DataModel Config TreeModel TreeSpec TreeProofs TreeProofs2 TreeProps DatasetModel DatasetSpec DatasetProofs DatasetProofs2 DatasetProofs3 DatasetProofs4 DatasetProofs5
  DatasetProps RouteProps LearnerModel LearnerSpec TrainSpec LearnerProofs LearnerProofs2 LearnerProofs3 LearnerProofs4 LearnerProofs5 LearnerProofs7 LearnerProofs8 LearnerProofs10
  ObjectiveModel MetricModel BoostModel SafeSpec SafeProofs SafeProofs2 SafeProofs3 PredSpec.

(** What training guarantees about a tree, for prediction: its shape; the tests are about features of the training data; the category tables are there. *)
Definition fit_tree {O} (D nf : nat) (t : tree O) : Prop :=
  tinv O D t /\ t_shrinkage t = nofZ O 1 /\ t_bias t = nofZ O 0 /\
  (forall c, In c (t_crits t) -> c = no_split O \/ sc_feature c < nf) /\ (forall c, In c (t_crits t) -> sc_type c = HiCardCatLt -> sc_feature c < length (t_supercats t)).

Section Fit.
Variable O : numops.

Lemma fit_routable D nf (t : tree O) d i : fit_tree D nf t -> has_columns nf d -> i < d_nexamples d -> routable t d i.
Proof.
  intros (_ & _ & _ & H1 & H2) (C0 & C1 & C2) Hi. split; [|exact H2]. intros c Hc. assert (sc_feature c < length (d_features d)) as Hl by (destruct (H1 c Hc) as [->|]; [exact C0|lia]).
  destruct (nth_error (d_features d) (sc_feature c)) as [col|] eqn:E; [|apply nth_error_None in E; lia]. exists col. split; [reflexivity|]. rewrite (C2 col (nth_error_In _ _ E)). exact Hi.
Qed.
Lemma fit_predicts D nf (t : tree O) d i : fit_tree D nf t -> has_columns nf d -> i < d_nexamples d ->
  exists leaf v, leaf_node t leaf /\ predict_leaf_id t d i = Ok leaf /\ node_value t leaf = Ok v /\ predict_single t d i = Ok (nmul O (nofZ O 1) (nadd O v (nofZ O 0))).
Proof.
  intros HF HC Hi. pose proof (fit_routable D nf t d i HF HC Hi) as R. destruct HF as (HT & Hs & Hb & _).
  destruct (leaf_loop_ok O D t d i HT R D 0 0 (tn_root t) eq_refl) as (leaf & E & ((k & Hk) & Hl)).
  assert (predict_leaf_id t d i = Ok leaf) as Ep.
  { apply (leaf_loop_mono O (S D)); [exact E|]. rewrite (ti_crits O D t HT). pose proof (Nat.pow_gt_lin_r 2 (D + 1)). lia. }
  pose proof (tree_node_max O D t k leaf HT Hk) as Hkd.
  assert (leaf < length (t_values t)) as Hlen.
  { rewrite (ti_values O D t HT). apply tree_node_depth in Hk. unfold at_depth in Hk. assert (2 ^ (k + 1) <= 2 ^ (D + 1)) by (apply Nat.pow_le_mono_r; lia). lia. }
  exists leaf, (nth leaf (t_values t) (nofZ O 0)). split; [split; [exists k; exact Hk|exact Hl]|]. split; [exact Ep|].
  unfold node_value, predict_single. rewrite Ep. cbn [rbind]. rewrite (idx_lt _ _ _ (nofZ O 0) Hlen). cbn [rbind]. rewrite Hs, Hb. auto.
Qed.

Lemma loop_same nf (t : tree O) d i d' j : (forall c, In c (t_crits t) -> c = no_split O \/ sc_feature c < nf) ->
  same_row nf d i d' j -> forall fuel node leaf leaf', leaf_id_loop fuel t d i node = Ok leaf -> leaf_id_loop fuel t d' j node = Ok leaf' -> leaf = leaf'.
Proof.
  intros H1 HS. induction fuel as [|fuel IH]; intros node leaf leaf' E E'; [discriminate|]. cbn [leaf_id_loop] in E, E'.
  apply rbind_ok in E as (c & Ec & E). rewrite Ec in E'. cbn [rbind] in E'. apply idx_ok, nth_error_In in Ec.
  apply rbind_ok in E as (col & Ecol & E). apply rbind_ok in E as (v & Ev & E). apply rbind_ok in E' as (col' & Ecol' & E'). apply rbind_ok in E' as (v' & Ev' & E').
  destruct (H1 c Ec) as [->|Hf]; [cbn in E, E'; congruence|].
  assert (v = v') as <-. { specialize (HS _ Hf). unfold get_feature in *. apply idx_ok in Ecol, Ecol', Ev, Ev'. unfold value_at in HS. rewrite Ecol, Ecol', Ev, Ev' in HS. congruence. }
  destruct (goes_left t c v) as [[[]|]| | |]; cbn [rbind] in E, E'; try discriminate; try (eapply IH; eassumption). congruence.
Qed.
Lemma single_same nf (t : tree O) d i d' j p p' : (forall c, In c (t_crits t) -> c = no_split O \/ sc_feature c < nf) ->
  same_row nf d i d' j -> predict_single t d i = Ok p -> predict_single t d' j = Ok p' -> p = p'.
Proof.
  intros H1 HS E E'. unfold predict_single in E, E'. apply rbind_ok in E as (l & El & E). apply rbind_ok in E' as (l' & El' & E').
  rewrite (loop_same nf t d i d' j H1 HS _ _ _ _ El El') in E. rewrite E in E'. congruence.
Qed.
End Fit.

Section Train.
Variable O : numops.
Variable dbg0 dbg : bool.
Variable cfg : config O.
Variable d : data O.
Variable s : dataset O.
Variable sizes : list nat.
Variable bounds : num O * num O.
Variable sched : nat -> list job -> list job.
Variable gradients : list (num O).
Variable St : Type.
Variable leaf_value : list nat -> St -> res (num O * St).
Variable oob : nat -> num O -> St -> res St.
Hypothesis HR : reachable dbg0 cfg d s.
Hypothesis Hsizes : hist_sizes d = Ok sizes.
Hypothesis Hsched : forall k js, Permutation js (sched k js).
Hypothesis Hgrad : (N.of_nat (length gradients) <= 2 ^ 31)%N.
Hypothesis Hnd : 0 < d_nexamples d.

Lemma train_fit t st st' : train dbg cfg s sizes bounds sched St leaf_value oob gradients st = Ok (t, st') -> fit_tree (c_max_tree_depth cfg) (d_nfeatures d) t.
Proof using HR Hsizes Hsched Hgrad Hnd.
  clear - HR Hsizes Hsched Hgrad Hnd. intros E.
  assert ((N.of_nat (nactive_examples s) <= 2 ^ 31)%N /\ 0 < nactive_examples s) as [Hsmall Hn].
  { unfold train in E. apply rbind_ok in E as (t0 & _ & E). apply rbind_ok in E as (root & Er & _). split; [exact (proj2 (root_safe O dbg0 cfg d s sizes bounds sched gradients HR Hsizes Hsched Hgrad) root Er)|].
    unfold get_root_n2s in Er. apply rbind_ok in Er as (? & _ & Er). apply rbind_ok in Er as (g0 & _ & Er). apply rbind_ok in Er as (mask & Em & _). destruct (Nat.eq_dec (nactive_examples s) 0) as [En|]; [|lia]. rewrite En in Em. discriminate Em. }
  destruct (train_ok O dbg0 dbg cfg d s sizes bounds sched gradients St leaf_value oob HR Hsizes Hsched Hsmall t st st' E) as (rows & W & gs & st1 & Hrows & HOK & _).
  destruct (lo_sup _ _ _ _ _ _ _ _ _ _ _ _ HOK) as (Hsup & Hshr & Hbias). pose proof (ds_inv _ _ _ _ (reachable_ok _ _ _ _ _ HR)) as HI.
  split; [apply (lo_tinv _ _ _ _ _ _ _ _ _ _ _ _ HOK)|]. split; [exact Hshr|]. split; [exact Hbias|]. split.
  - intros c Hc. apply In_nth_error in Hc as (m & Em). destruct (lo_crit _ _ _ _ _ _ _ _ _ _ _ _ HOK m c Em) as [->|[(b & Hb & _) _]]; [left; reflexivity|]. right.
    destruct (candidate_useful _ _ _ _ _ _ _ HR Hb) as (u & _ & _ & _ & H). exact H.
  - intros c Hc Hty. apply In_nth_error in Hc as (m & Em). destruct (lo_crit _ _ _ _ _ _ _ _ _ _ _ _ HOK m c Em) as [->|[(b & Hb & (_ & _ & ft & Eft & Et) & _) _]]; [discriminate|]. rewrite (dv_data _ _ _ _ HI) in Eft.
    assert (ft = HiCardCat) as -> by (rewrite Hty in Et; destruct ft; congruence).
    destruct (candidate_full _ _ _ _ _ _ _ _ HR Hnd Hb Eft ltac:(discriminate)) as (_ & _ & (_ & _ & Htab & _)). destruct (Htab Eft) as (table & E' & _). rewrite Hsup. apply nth_error_Some. unfold get_supercats. congruence.
Qed.
End Train.

Section Boost.
Variable O : numops.
Variable M : mathops O.
Variable dbg : bool.
Variable cfg : config O.
Variable d : data O.
Variable sched : nat -> nat -> list job -> list job.
Hypothesis Hsched : forall k i js, Permutation js (sched k i js).
Hypothesis Hnd : 0 < d_nexamples d.
Hypothesis Htarget : forall target, get_target d = Ok target -> (N.of_nat (length target) <= 2 ^ 31)%N.

Lemma boost_fit kind metrics g k b : boost_run M dbg cfg d sched kind metrics g k = Ok b -> length (at_trees (bs_ensemble b)) = k /\ Forall (fit_tree (c_max_tree_depth cfg) (d_nfeatures d)) (at_trees (bs_ensemble b)).
Proof.
  intros E. unfold boost_run in E. apply rbind_ok in E as (b0 & E0 & E). apply rbind_ok in E as (sizes & Hsz & E).
  enough (reachable dbg cfg d (bs_dataset b) /\ length (at_trees (bs_ensemble b)) = k /\ Forall (fit_tree (c_max_tree_depth cfg) (d_nfeatures d)) (at_trees (bs_ensemble b))) as H by apply H.
  revert b E. induction k as [|k IH]; intros b E.
  - injection E as <-. unfold boost_start in E0. apply rbind_ok in E0 as (s & Es & E0). apply rbind_ok in E0 as (t & _ & E0). apply rbind_ok in E0 as (ob & _ & E0). injection E0 as <-. cbn [bs_dataset bs_ensemble additive_set_bias additive_new at_trees].
    split; [exists g, [], s; split; [exact Es|reflexivity]|]. split; [reflexivity|constructor].
  - rewrite seq_S, foldM_app in E. apply rbind_ok in E as (b1 & E1 & E). cbn [foldM] in E. apply rbind_ok in E as (b2 & E & E2). injection E2 as <-. destruct (IH b1 E1) as (HR1 & L1 & F1). unfold train_one_iter in E.
    apply rbind_ok in E as (target & Et & E). cbv zeta in E. apply rbind_ok in E as (ob & Eob & E). apply rbind_ok in E as (s & Es & E). apply rbind_ok in E as ([t ob'] & Etr & E). injection E as <-. cbn [bs_dataset bs_ensemble push_tree at_trees].
    assert (reachable dbg cfg d s) as HR.
    { destruct HR1 as (g0 & us & s0 & A & B). exists g0, (us ++ [(ob_grads ob, obj_bounds ob)]), s0. split; [exact A|]. unfold ds_run in *. rewrite foldM_app, B. cbn [rbind foldM fst snd]. rewrite Es. reflexivity. }
    split; [exact HR|]. split; [rewrite app_length, L1; cbn; lia|]. apply Forall_app. split; [exact F1|]. constructor; [|constructor].
    eapply train_fit; [exact HR|exact Hsz|intros; apply Hsched| |exact Hnd|exact Etr]. rewrite (update_length _ _ _ _ _ Eob). apply Htarget, Et.
Qed.
End Boost.
