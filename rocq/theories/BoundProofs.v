(** How far the predictions of a model can be from its bias: leaves hold fractions of mean residuals. *)
From Coq Require Import Reals Lra Permutation.
From Verif Require Import Base BaseProofs BitModel BitSpec SliceModel F32 Num DataModel DataSpec Config TreeModel TreeSpec TreeProofs TreeProofs2 DatasetModel DatasetSpec DatasetProofs3 DatasetProofs4 DatasetProofs5 DatasetProps
  RouteProps LearnerModel LearnerSpec GainSpec TrainSpec LearnerProofs3 LearnerProofs7 LearnerProofs8 LearnerProps TrainProps ObjectiveModel ObjectiveSpec ObjectiveProofs ObjectiveProps MetricModel MetricSpec MetricProps BoostModel BoostSpec BoostProofs BoostProps
  PredProofs GreedySpec GreedyProofs GreedyProps FitProps PrefixProps AbsFitProps BoostingSpec BoostingProofs BoostingProps.
Local Close Scope R_scope.

Section Reach.
Variable O : numops.

(** The leaf a row reaches is a leaf of the grown tree. *)
Lemma greedy_reach (s : dataset O) t stops picks leaf r m l : greedy s t stops picks leaf r m l -> forall fuel D i m', leaf_id_loop fuel t D i m = Ok m' -> exists l', leaf m' l'.
Proof.
  induction 1 as [r m l Hi _ Hl|r m l c b fm Hc Hn _ _ _ _ _ IHl _ IHr]; intros [|fuel] D i m' E; try discriminate E; cbn [leaf_id_loop] in E.
  - apply rbind_ok in E as (c & Ec & E). apply rbind_ok in E as (col & _ & E). apply rbind_ok in E as (x & _ & E). apply idx_ok in Ec.
    destruct (sc_type c) eqn:Et; try (exfalso; apply Hi; exists c; split; [exact Ec|congruence]). unfold goes_left in E. rewrite Et in E. cbn [rbind] in E. apply Ok_inj in E. subst m'. eauto.
  - apply rbind_ok in E as (c' & Ec & E). apply rbind_ok in E as (col & _ & E). apply rbind_ok in E as (x & _ & E). apply idx_ok in Ec. assert (c' = c) as -> by congruence.
    apply rbind_ok in E as (r0 & Er & E). destruct r0 as [[|]|].
    + exact (IHl _ _ _ _ E).
    + exact (IHr _ _ _ _ E).
    + exfalso. unfold goes_left in Er. destruct (sc_type c); try congruence; try discriminate Er. repeat (apply rbind_ok in Er as (? & _ & Er)). discriminate Er.
Qed.

(** Properties of the entries of a buffer through one tree and through all trees. *)
Lemma and_forall (t : tree O) D (f : num O -> num O -> num O) (Q Q' : num O -> Prop) buf buf' : (forall i p x, predict_single t D i = Ok p -> Q x -> Q' (f p x)) ->
  Forall Q buf -> predict_and t D f buf = Ok buf' -> Forall Q' buf' /\ length buf' = length buf.
Proof.
  intros H HQ E. unfold predict_and in E. apply rbind_ok in E as (u & Ea & E). apply rassert_ok, Nat.eqb_eq in Ea.
  assert (forall m a bf, foldM (fun (buf : list (num O)) i => let* p := predict_single t D i in let* x := idx buf i in set_idx buf i (f p x)) (seq a m) bf = Ok buf' -> a + m = length bf ->
    (forall j x, nth_error bf j = Some x -> if j <? a then Q' x else Q x) -> length buf' = length bf /\ forall j x, nth_error buf' j = Some x -> Q' x) as K.
  { induction m as [|m IH]; intros a bf Ef Hl Hinv; cbn [seq foldM] in Ef.
    - apply Ok_inj in Ef. subst bf. split; [reflexivity|]. intros j x Hx. specialize (Hinv j x Hx). assert (j < length buf') by (apply nth_error_Some; congruence). destruct (Nat.ltb_spec j a); [exact Hinv|lia].
    - apply rbind_ok in Ef as (b1 & E1 & Ef). apply rbind_ok in E1 as (p & Ep & E1). apply rbind_ok in E1 as (x & Ex & E1). apply idx_ok in Ex. apply set_idx_ok in E1 as (Hlt & ->).
      destruct (IH (S a) _ Ef) as (L & HF).
      + rewrite upd_length. lia.
      + intros j y Hy. rewrite nth_error_upd in Hy. destruct (Nat.eqb_spec a j) as [->|Hne]; cbn [andb] in Hy.
        * destruct (Nat.ltb_spec j (length bf)); [|lia]. injection Hy as <-. replace (j <? S j) with true by (symmetry; apply Nat.ltb_lt; lia). apply (H j p x Ep). specialize (Hinv j x Ex). rewrite Nat.ltb_irrefl in Hinv. exact Hinv.
        * specialize (Hinv j y Hy). destruct (Nat.ltb_spec j a), (Nat.ltb_spec j (S a)); try lia; exact Hinv.
      + rewrite upd_length in L. auto. }
  destruct (K (d_nexamples D) 0 buf E) as (L & HF); [lia| |].
  - intros j x Hx. cbn. rewrite Forall_forall in HQ. apply HQ. eapply nth_error_In, Hx.
  - split; [|exact L]. apply Forall_forall. intros x Hx. apply In_nth_error in Hx as (j & Hj). exact (HF j x Hj).
Qed.
End Reach.

Section Round.
Variable dbg : bool.
Variable cfg : config Rops.
Variable d : data Rops.
Variable sched : nat -> nat -> list job -> list job.
Variable kind : obj_kind.
Variable metrics : list metric.
Variable g : rng.
Hypothesis HF : fittable cfg d sched.

(** One more tree: it predicts, for any row, the learning rate times the raw value of the objective for some of the examples. *)
Lemma round_leaf k b' : boost_run Rmath dbg cfg d sched kind metrics g (S k) = Ok b' ->
  exists b target ob t, boost_run Rmath dbg cfg d sched kind metrics g k = Ok b /\ get_target d = Ok target /\ obj_update Rmath target (bs_objective b) = Ok ob /\ bs_ensemble b' = push_tree (bs_ensemble b) t /\
    length target = d_nexamples d /\
    forall D i (p : R), predict_single t D i = Ok p -> exists ex (raw : R), ex <> [] /\ (forall j, In j ex -> j < d_nexamples d) /\ raw_leaf_value Rmath target ex ob = Ok raw /\ p = (c_learning_rate cfg * raw)%R.
Proof.
  destruct HF as (HW & HO & Hfr & Hn31 & Hmin & Hf1 & Hval & Hnb).
  intros E'. apply boost_run_S in E' as (b & sz & E & Esz & E'). destruct (kind_facts dbg cfg d sched kind metrics g HO Hn31 Hf1 k b E) as (K1 & R1 & _ & G1).
  unfold train_one_iter in E'. apply rbind_ok in E' as (target & Etg & E').
  apply rbind_ok in E' as (ob & Eu & E'). apply rbind_ok in E' as (s & Es & E'). apply rbind_ok in E' as ((t & ob') & Et & E'). apply Ok_inj in E'. subst b'. cbn [bs_ensemble].
  destruct (update_settings _ _ _ _ _ Eu) as (R2 & B2 & K2 & P2).
  assert (reachable dbg cfg d s) as HR.
  { destruct G1 as (g0 & us & s0 & E0 & E2). exists g0, (us ++ [(ob_grads ob, obj_bounds ob)]), s0. split; [exact E0|]. unfold ds_run in *. rewrite foldM_app, E2. cbn [rbind foldM fst snd]. rewrite Es. reflexivity. }
  assert (nactive_examples s <= d_nexamples d) as Hna. { unfold nactive_examples. rewrite (dv_nact _ _ _ _ (ds_inv _ _ _ _ (reachable_ok _ _ _ _ _ HR))). unfold nact. apply (scaled_R (d_nexamples d) (c_example_fraction cfg) Hf1 ltac:(lia)). }
  assert (setting dbg cfg d s sz (sched (S (bs_iter b)))) as HS.
  { split; [exact HR|]. split; [exact Esz|]. split; [apply HO|]. lia. }
  exists b, target, ob, t. split; [exact E|]. split; [exact Etg|]. split; [exact Eu|]. split; [reflexivity|].
  assert (length target = d_nexamples d) as Lt by (apply (target_len _ d (well_formed_cols _ d HW) target Etg)). split; [exact Lt|].
  pose proof HS as (_ & _ & Hsch & Hsm).
  destruct (train_greedy Rops dbg dbg cfg d s sz (obj_bounds ob) (sched (S (bs_iter b))) (ob_grads ob) _ (obj_leaf_value Rmath target) update_out_of_bag HR Esz Hsch Hsm t ob ob' (fun _ => True) (fun _ _ _ _ => True) (fun l H => I) (fun l f b fm H => I) Et)
    as (rows & gs & st1 & Hrows & C & Eo & HG & Hl & Hnd & HP & Hgne).
  assert (NoDup (concat (map g_examples (map (to_rows Rops rows) gs)))) as Hnd'.
  { assert (concat (map g_examples (map (to_rows Rops rows) gs)) = map (fun k => nth k rows 0) (concat (map g_examples gs))) as -> by (rewrite concat_map, !map_map; reflexivity).
    eapply Permutation_NoDup; [apply Permutation_map; symmetry; exact HP|]. rewrite <- (rows_length Rops s rows Hrows).
    assert (map (fun k => nth k rows 0) (seq 0 (length rows)) = rows) as ->; [|eapply rows_nodup; eassumption]. clear. induction rows as [|x l IH]; [reflexivity|]. cbn [length seq map nth]. f_equal. rewrite <- seq_shift, map_map. exact IH. }
  assert (d_nexamples d = 0 \/ 0 < d_nexamples d) as [Hz|Hpos] by lia.
  - (* no examples: the tree has no leaf with examples *)
    exfalso. assert (gs = []) as ->.
    { destruct gs as [|g0 gs]; [reflexivity|]. exfalso. specialize (Hgne g0 (or_introl eq_refl)). replace (nactive_examples s) with 0 in HP by lia. cbn [map concat seq] in HP. apply Permutation_sym, Permutation_nil in HP. apply app_eq_nil in HP as [HP _]. exact (Hgne HP). }
    assert (get_root_n2s cfg s sz (obj_bounds ob) (sched (S (bs_iter b))) (ob_grads ob) = Panic) as X.
    { unfold get_root_n2s. cbv zeta. replace (nactive_examples s) with 0 by lia. destruct (rassert (valid_width (width cfg))) eqn:Ea; cbn [rbind]; try reflexivity.
      - unfold rassert in Ea. destruct (valid_width _); discriminate Ea.
      - unfold rassert in Ea. destruct (valid_width _); discriminate Ea. }
    unfold train in Et. apply rbind_ok in Et as (t0 & _ & Et). apply rbind_ok in Et as (root & Er & _). rewrite X in Er. discriminate Er.
  - pose proof (train_fit Rops dbg dbg cfg d s sz (obj_bounds ob) (sched (S (bs_iter b))) (ob_grads ob) _ (obj_leaf_value Rmath target) update_out_of_bag HR Esz Hsch) as HT.
    assert ((N.of_nat (length (ob_grads ob)) <= 2 ^ 31)%N) as Hlg. { destruct (C40_update _ _ _ _ _ Eu) as (_ & _ & _ & L & _). change (num Rops) with R in *. rewrite L, Lt. lia. }
    specialize (HT Hlg Hpos t ob ob' Et). destruct HT as (_ & Hsh & Hbi & _).
    intros D i p Ep. unfold predict_single in Ep. apply rbind_ok in Ep as (m & Em & Ep). apply rbind_ok in Ep as (v & Ev & Ep). apply Ok_inj in Ep. rewrite Hsh, Hbi in Ep.
    destruct (greedy_reach Rops _ _ _ _ _ _ _ _ HG _ _ _ _ Em) as (l & v' & Hin & Hv'). assert (v' = v) as -> by exact (Ok_inj _ _ (eq_trans (eq_sym Hv') Ev)).
    destruct (leaves_raw Rops Rmath target _ _ _ Hnd' C _ (in_map (to_rows Rops rows) _ _ Hin)) as (raw & Er & Eraw). cbn [to_rows g_value g_examples fst snd] in Er, Eraw.
    exists (map (fun k => nth k rows 0) l), raw. split; [intros Hc; apply map_eq_nil in Hc; exact (Hgne _ Hin Hc)|]. split; [|split; [exact Er|]].
    + intros j Hj. apply in_map_iff in Hj as (x & <- & Hx). eapply run_rows_lt; [exact HR| |exact Hrows|].
      * apply (scaled_R (d_nexamples d) (c_example_fraction cfg) Hf1 ltac:(lia)).
      * apply nth_In. rewrite (rows_length Rops s rows Hrows). assert (In x (seq 0 (nactive_examples s))) as Hs. { eapply Permutation_in; [exact HP|]. apply in_concat. exists l. split; [apply (in_map g_examples _ _ Hin)|exact Hx]. } apply in_seq in Hs. lia.
    + subst p. change (1 * (v + 0) = c_learning_rate cfg * raw)%R. assert (v = (c_learning_rate cfg * raw)%R) as -> by (etransitivity; [exact Eraw|]; rewrite R2, R1; reflexivity). ring.
Qed.
End Round.
