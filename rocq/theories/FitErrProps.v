(** Property C56 in f32: a round of boosting with the objective L2 does not fit the training examples worse, up to rounding. *)
From Coq Require Import Reals Psatz Permutation.
From Flocq Require Import Core BinarySingleNaN.
From Verif Require Import Base BaseProofs F32 F32Proofs Num ScaledProofs DataModel DataSpec Config TreeModel DatasetModel DatasetSpec DatasetProofs3 DatasetProofs4 DatasetProofs5 DatasetProofs6 DatasetProps
  LearnerModel LearnerSpec TrainSpec TrainProps PredSpec ObjectiveModel ObjectiveProps MetricModel MetricSpec BoostModel BoostSpec BoostProofs BoostProps TotalSpec SumErrProofs ErrProofs NormProofs FitSpec FitErrSpec FitProps FitErrProofs.
Local Close Scope R_scope.

Lemma root_error_nrm target ps l : root_error target ps l = nrm (rres target ps) l.
Proof. unfold root_error, nrm, ssq, sq_error. do 2 f_equal. apply map_ext. intros i. unfold squared_error, rres, rt, rp, reals. ring. Qed.
Lemma root_size_nrm target l : root_size target l = nrm (rt target) l.
Proof. unfold root_size, nrm, ssq. do 2 f_equal. apply map_ext. intros i. unfold rt, reals. ring. Qed.
Lemma pow_bpow k : (/ 2 ^ k)%R = bpow radix2 (- Z.of_nat k).
Proof. rewrite bpow_opp. f_equal. rewrite bpow_powerRZ, <- pow_powerRZ. reflexivity. Qed.
Lemma round_off_nrm target l : round_off target l = (u * nrm (rt target) l + bpow radix2 (-148) * sqrt (INR (length l)))%R.
Proof. unfold round_off. rewrite root_size_nrm, (pow_bpow 148). change (- Z.of_nat 148)%Z with (-148)%Z. replace (/ 2 ^ 24)%R with u by (field_simplify; lra). reflexivity. Qed.

(** Bounds of two parts give the bound of both. *)
Lemma nrm_comb {A} (f g h : A -> R) (a b c : R) l l' : (0 <= a)%R -> (0 <= b)%R -> (0 <= c)%R ->
  (nrm f l <= a * nrm g l + b * nrm h l + c * nrm (fun _ => 1%R) l)%R -> (nrm f l' <= a * nrm g l' + b * nrm h l' + c * nrm (fun _ => 1%R) l')%R ->
  (nrm f (l ++ l') <= a * nrm g (l ++ l') + b * nrm h (l ++ l') + c * nrm (fun _ => 1%R) (l ++ l'))%R.
Proof.
  intros Ha Hb Hc H1 H2. rewrite !nrm_app. rewrite <- !hyp_scale by assumption. eapply Rle_trans; [apply hyp_mono; (split; [apply nrm_nn|eassumption])|].
  eapply Rle_trans; [apply hyp_tri|]. apply Rplus_le_compat_r, hyp_tri.
Qed.
Lemma ones (l : list nat) : nrm (fun _ => 1%R) l = sqrt (INR (length l)).
Proof. rewrite (nrm_const 1 l) by lra. ring. Qed.

Section Round.
Variable fexp fln : f32 -> f32.
Notation math := (f32math fexp fln).

Lemma leaves_err (target : list f32) N : forall (gs : list (group f32ops)) (ob ob' : objective f32ops), ob_kind ob = L2 -> is_finite (ob_lr ob : f32) = true -> (0 <= B2R' (ob_lr ob) <= 1)%R -> NoDup (concat (map g_examples gs)) ->
  (forall g, In g gs -> g_examples g <> []) -> length (concat (map g_examples gs)) <= N -> (Z.of_nat N <= 2 ^ 24)%Z -> leaf_calls (obj_leaf_value math target) gs ob ob' ->
  (nrm (rres target (ob_preds ob')) (concat (map g_examples gs)) <= hi (N + 4) * nrm (rres target (ob_preds ob)) (concat (map g_examples gs)) + u * nrm (rt target) (concat (map g_examples gs)) + bpow radix2 (-148) * nrm (fun _ => 1) (concat (map g_examples gs)))%R.
Proof.
  induction gs as [|g gs IH]; intros ob ob' Ek Fl Hl Hnd Hne HN HN24 H; [cbn [map concat]; rewrite !nrm_nil; lra|].
  pose proof H as H0. cbn [leaf_calls] in H. destruct H as (ob1 & E1 & H). cbn [map concat] in *. rewrite app_length in HN. apply nodup_app in Hnd as (Hn1 & Hn2 & Hd).
  destruct (leaf_calls_preds f32ops math target [g] ob ob1) as (S1 & L1 & P1); [cbn [map concat]; rewrite app_nil_r; exact Hn1|cbn [leaf_calls]; exists ob1; auto|]. cbn [map concat] in P1. rewrite app_nil_r in P1.
  destruct S1 as (Sk & Slr & _). destruct (leaf_calls_preds f32ops math target gs ob1 ob' Hn2 H) as (_ & L2 & P2).
  destruct (leaf_err fexp fln target (g_examples g) ob ob1 (g_value g) Ek Fl Hl Hn1 (Hne g (or_introl eq_refl)) ltac:(lia) E1) as (HB & _ & Hfin).
  specialize (IH ob1 ob' (eq_trans Sk Ek)). rewrite Slr in IH. specialize (IH Fl Hl Hn2 (fun g' Hg => Hne g' (or_intror Hg)) ltac:(lia) HN24 H).
  pose proof (hi_ge1 (N + 4)) as Hh. pose proof (bpow_ge_0 radix2 (-148)) as Hb.
  apply nrm_comb; try lra.
  - rewrite (nrm_ext (rres target (ob_preds ob')) (rres target (ob_preds ob1)) (g_examples g)).
    + rewrite ones. eapply Rle_trans; [exact HB|]. pose proof (hi_mono (length (g_examples g) + 4) (N + 4) ltac:(lia)). pose proof (nrm_nn (rres target (ob_preds ob)) (g_examples g)). nra.
    + intros i Hi. destruct (Hfin i Hi) as (t & p & p' & _ & _ & Ep' & _). unfold rres, rp. f_equal. rewrite (nth_B2R _ _ _ Ep'). apply nth_B2R. apply (proj2 (P2 i p' Ep')). apply Hd, Hi.
  - rewrite (nrm_ext (rres target (ob_preds ob)) (rres target (ob_preds ob1)) (concat (map g_examples gs))); [exact IH|].
    intros i Hi. unfold rres, rp. f_equal. destruct (nth_error (ob_preds ob) i) as [p|] eqn:Ep.
    + rewrite (nth_B2R _ _ _ Ep). symmetry. apply nth_B2R. apply (proj2 (P1 i p Ep)). intros Hc. exact (Hd i Hc Hi).
    + apply nth_error_None in Ep. rewrite !nth_overflow; [reflexivity| |]; rewrite map_length; [exact (eq_ind_r (fun n => n <= i) Ep L1)|exact Ep].
Qed.

Lemma update_keeps32 (target : list f32) (ob ob' : objective f32ops) : ob_kind ob = L2 -> obj_update math target ob = Ok ob' -> ob_kind ob' = L2 /\ ob_lr ob' = ob_lr ob /\ ob_preds ob' = ob_preds ob /\ length (ob_preds ob) = length target.
Proof.
  intros Ek E. destruct (C40_update _ _ _ _ _ E) as (L & P & K & _). split; [exact (eq_trans K Ek)|]. split; [|auto]. unfold obj_update in E. rewrite Ek in E.
  apply rbind_ok in E as (? & _ & E). apply rbind_ok in E as (? & _ & E). destruct (m_limits math _). apply Ok_inj in E. subst ob'. reflexivity.
Qed.

Variable dbg : bool.
Variable cfg : config f32ops.
Variable d : data f32ops.
Variable sched : nat -> nat -> list job -> list job.
Variable metrics : list metric.
Variable g : rng.
Hypothesis HW : well_formed d.
Hypothesis HO : any_order sched.
Hypothesis Hn24 : (Z.of_nat (d_nexamples d) <= 2 ^ 24)%Z.
Hypothesis Hle : scaled_count (d_nexamples d) (c_example_fraction cfg) <= d_nexamples d.

Lemma iter_parts k b sz b' target : reachable dbg cfg d (bs_dataset b) -> hist_sizes d = Ok sz -> ob_kind (bs_objective b) = L2 -> get_target d = Ok target ->
  train_one_iter math dbg cfg d sched sz k b = Ok b' -> exists ob s t rows gs others ob1, obj_update math target (bs_objective b) = Ok ob /\ bs_dataset b' = s /\ reachable dbg cfg d s /\ example_rows s = Ok rows /\
    Permutation (concat (map g_examples gs)) rows /\ NoDup (concat (map g_examples gs)) /\ (forall g, In g gs -> node_value t (g_leaf g) = Ok (g_value g) /\ g_examples g <> [] /\ nisfin f32ops (g_value g) = true) /\
    leaf_calls (obj_leaf_value math target) gs ob ob1 /\ oob_calls update_out_of_bag others ob1 (bs_objective b') /\ NoDup (map fst others) /\ (forall i, In i rows -> ~ In i (map fst others)).
Proof.
  intros HR0 Hsz Hk Htgt E. unfold train_one_iter in E. apply rbind_ok in E as (tg & Etg & E). assert (tg = target) as -> by exact (Ok_inj _ _ (eq_trans (eq_sym Etg) Htgt)).
  apply rbind_ok in E as (ob & Eu & E). apply rbind_ok in E as (s & Es & E). apply rbind_ok in E as ((t & ob') & Et & E). apply Ok_inj in E. subst b'. cbn [bs_objective bs_dataset].
  assert (reachable dbg cfg d s) as HR.
  { destruct HR0 as (g0 & us & s0 & E0 & E2). exists g0, (us ++ [(ob_grads ob, obj_bounds ob)]), s0. split; [exact E0|]. unfold ds_run in *. rewrite foldM_app, E2. cbn [rbind foldM fst snd]. rewrite Es. reflexivity. }
  assert (setting dbg cfg d s sz (sched (S (bs_iter b)))) as HS.
  { split; [exact HR|]. split; [exact Hsz|]. split; [apply HO|]. unfold nactive_examples. rewrite (dv_nact _ _ _ _ (ds_inv _ _ _ _ (reachable_ok _ _ _ _ _ HR))). unfold nact. lia. }
  destruct (C26_leaves _ _ _ _ _ _ _ _ _ _ _ _ _ _ _ _ HS Et) as (rows & gs & others & ob1 & Hrows & _ & _ & HP & Hnd & Hgs & HL & HB & Ho1 & Ho2).
  exists ob, s, t, rows, gs, others, ob1. split; [exact Eu|]. split; [reflexivity|]. split; [exact HR|]. split; [exact Hrows|]. split; [exact HP|]. split; [exact Hnd|]. split; [exact Hgs|]. split; [exact HL|]. split; [exact HB|].
  destruct (example_sampling_enabled s).
  - split; [apply increasing_nodup, Ho2; reflexivity|]. intros i Hi Hc. apply (proj1 (proj2 (Ho2 eq_refl))) in Hc. tauto.
  - rewrite (Ho1 eq_refl). split; [constructor|]. intros i _ [].
Qed.

Lemma run_facts32 k b : boost_run math dbg cfg d sched L2 metrics g k = Ok b ->
  ob_kind (bs_objective b) = L2 /\ ob_lr (bs_objective b) = c_learning_rate cfg /\ length (ob_preds (bs_objective b)) = d_nexamples d /\ reachable dbg cfg d (bs_dataset b).
Proof.
  revert b. induction k as [|k IH]; intros b E.
  - unfold boost_run in E. apply rbind_ok in E as (b0 & E0 & E). apply rbind_ok in E as (sz & _ & E). cbn in E. apply Ok_inj in E. subst b0. unfold boost_start in E0.
    apply rbind_ok in E0 as (s & Es & E0). apply rbind_ok in E0 as (target & Et & E0). apply rbind_ok in E0 as (ob & Eo & E0). apply Ok_inj in E0. subst b. cbn [bs_objective bs_dataset].
    destruct (C40_initialize _ _ _ _ _ _ _ Eo) as (Hk & Hp & Hl & _). split; [exact Hk|]. split; [exact Hl|]. split.
    + rewrite Hp, repeat_length. eapply target_len; [apply well_formed_cols, HW|exact Et].
    + exists g, [], s. split; [exact Es|reflexivity].
  - apply boost_run_S in E as (b1 & sz & E1 & Esz & E). destruct (IH b1 E1) as (K1 & R1 & L1 & G1). 
    assert (exists target, get_target d = Ok target) as (target & Htgt). { unfold train_one_iter in E. apply rbind_ok in E as (target & Etg & E). eauto. }
    destruct (iter_parts _ _ _ _ _ G1 Esz K1 Htgt E) as (ob & s & t & rows & gs & others & ob1 & Eu & Hs & HR & Hrows & HP & Hnd & Hgs & HL & HB & Hnd2 & Hdis).
    destruct (update_keeps32 _ _ _ K1 Eu) as (K2 & R2 & P2 & L2).
    destruct (leaf_calls_preds _ _ _ _ _ _ Hnd HL) as (S1 & La & _). destruct (oob_calls_preds _ _ _ _ Hnd2 HB) as (S2 & Lb & _). destruct S1 as (Sk1 & Sl1 & _), S2 as (Sk2 & Sl2 & _).
    split; [congruence|]. split; [exact (eq_trans Sl2 (eq_trans Sl1 (eq_trans R2 R1)))|]. split; [|subst s; exact HR]. rewrite Lb, La, P2. exact L1.
Qed.

Hypothesis Fl : is_finite (c_learning_rate cfg : f32) = true.
Hypothesis Hlr : (0 <= B2R' (c_learning_rate cfg) <= 1)%R.
Lemma round32 k b b' target rows : boost_run math dbg cfg d sched L2 metrics g k = Ok b -> boost_run math dbg cfg d sched L2 metrics g (S k) = Ok b' ->
  get_target d = Ok target -> example_rows (bs_dataset b') = Ok rows ->
  (root_error target (ob_preds (bs_objective b')) rows <= hi (length rows + 4) * root_error target (ob_preds (bs_objective b)) rows + round_off target rows)%R.
Proof.
  intros E E' Etgt Hrows. pose proof (run_facts32 _ _ E) as (K1 & R1 & L1 & G1). apply boost_run_S in E' as (b1 & sz & E1 & Esz & E'). assert (b1 = b) as -> by exact (Ok_inj _ _ (eq_trans (eq_sym E1) E)).
  destruct (iter_parts _ _ _ _ _ G1 Esz K1 Etgt E') as (ob & s & t & rows' & gs & others & ob1 & Eu & Hs & HR & Hrows' & HP & Hnd & Hgs & HL & HB & Hnd2 & Hdis). rewrite Hs in Hrows.
  assert (rows' = rows) as -> by exact (Ok_inj _ _ (eq_trans (eq_sym Hrows') Hrows)). destruct (update_keeps32 _ _ _ K1 Eu) as (K2 & R2 & P2 & L2).
  destruct (leaf_calls_preds _ _ _ _ _ _ Hnd HL) as (_ & La & _). destruct (oob_calls_preds _ _ _ _ Hnd2 HB) as (_ & Lb & P3).
  assert (length rows <= d_nexamples d) as HlenR.
  { assert (length rows <= length (seq 0 (d_nexamples d))) as H; [|rewrite seq_length in H; exact H]. apply NoDup_incl_length; [eapply Permutation_NoDup; [exact HP|exact Hnd]|]. intros i Hi. apply in_seq. pose proof (run_rows_lt _ _ _ _ _ _ _ HR Hle Hrows' Hi). lia. }
  rewrite !root_error_nrm, round_off_nrm, <- ones. rewrite <- P2.
  pose proof (leaves_err target (length rows) gs ob ob1 K2) as H. rewrite R2, R1 in H. specialize (H Fl Hlr Hnd (fun g0 Hg => proj1 (proj2 (Hgs g0 Hg))) (Nat.eq_le_incl _ _ (Permutation_length HP)) ltac:(lia) HL).
  rewrite !(nrm_perm _ _ _ HP) in H. rewrite (nrm_ext (rres target (ob_preds (bs_objective b'))) (rres target (ob_preds ob1)) rows); [lra|].
  intros i Hi. unfold rres, rp. f_equal. pose proof (run_rows_lt _ _ _ _ _ _ _ HR Hle Hrows' Hi) as Hlt. destruct (nth_error (ob_preds ob1) i) as [p|] eqn:Ep.
  - rewrite (nth_B2R _ _ _ Ep). apply nth_B2R. apply (proj2 (P3 i p Ep)). apply Hdis, Hi.
  - apply nth_error_None in Ep. exfalso. rewrite La, P2, L1 in Ep. lia.
Qed.
End Round.

Lemma unit_range (x : f32) : f_le f_zero x = true -> f_le x f_one = true -> is_finite x = true /\ (0 <= B2R' x <= 1)%R.
Proof.
  intros H0 H1. destruct (f_le_nan_l _ _ H0) as [_ Nx]. apply f_le_key in H0; [|reflexivity|exact Nx]. apply f_le_key in H1; [|exact Nx|reflexivity]. destruct (f_of_Z_exact 1) as (F1 & B1); [lia|]. unfold f_one in H1. rewrite (key_finite _ F1), B1 in H1.
  assert (is_finite x = true) as F. { apply finite_of_key; [exact Nx|]. pose proof (M_big) as HM. change (key f_zero) with 0%R in H0. assert (1 < IZR (2 ^ 100))%R by (apply IZR_lt; reflexivity). lra. }
  split; [exact F|]. rewrite (key_finite _ F) in *. change (key f_zero) with 0%R in H0. lra.
Qed.
Lemma hi_pow k : ((1 + / 2 ^ 24) ^ k)%R = hi k.
Proof. unfold hi. f_equal. field_simplify; lra. Qed.

(** What the program computes, objective L2, learning rate between 0 and 1.  One more iteration: over the examples the new tree was trained on (all, or those sampled for it),
    the root of the squared errors of the running predictions (those the reported training metrics are computed from) grows at most by a relative 2^-24 per example and by the rounding of the targets. *)
Theorem C56_round_f32 : forall fexp fln dbg (cfg : config f32ops) (d : data f32ops) sched metrics g k b b' target rows,
  well_formed d -> any_order sched -> (Z.of_nat (d_nexamples d) <= 2 ^ 24)%Z ->
  f_is_finite (c_example_fraction cfg) = true -> f_le f_zero (c_example_fraction cfg) = true -> f_le (c_example_fraction cfg) f_one = true ->
  f_le f_zero (c_learning_rate cfg) = true -> f_le (c_learning_rate cfg) f_one = true ->
  boost_run (f32math fexp fln) dbg cfg d sched L2 metrics g k = Ok b -> boost_run (f32math fexp fln) dbg cfg d sched L2 metrics g (S k) = Ok b' -> get_target d = Ok target ->
  example_rows (bs_dataset b') = Ok rows ->
  (root_error target (ob_preds (bs_objective b')) rows <= (1 + / 2 ^ 24) ^ (length rows + 4) * root_error target (ob_preds (bs_objective b)) rows + round_off target rows)%R.
Proof.
  intros fexp fln dbg cfg d sched metrics g k b b' target rows HW HO Hn Hf1 Hf2 Hf3 Hl0 Hl1 E E' Et Er. destruct (unit_range _ Hl0 Hl1) as (Fl & Bl). destruct (C27_sample_size (d_nexamples d) (c_example_fraction cfg) Hn Hf1 Hf2 Hf3) as (Hle & _).
  rewrite hi_pow. exact (round32 fexp fln dbg cfg d sched metrics g HW HO Hn Hle Fl Bl k b b' target rows E E' Et Er).
Qed.
Print Assumptions C56_round_f32.

Lemma all_rows32 fexp fln dbg (cfg : config f32ops) (d : data f32ops) sched metrics g k b : well_formed d -> any_order sched -> (Z.of_nat (d_nexamples d) <= 2 ^ 24)%Z -> c_example_fraction cfg = f_one ->
  boost_run (f32math fexp fln) dbg cfg d sched L2 metrics g k = Ok b -> example_rows (bs_dataset b) = Ok (seq 0 (d_nexamples d)).
Proof.
  intros HW HO Hn Hf E. assert (scaled_count (d_nexamples d) (c_example_fraction cfg) = d_nexamples d) as Hsc by (rewrite Hf; apply scaled_all, Hn).
  destruct (run_facts32 fexp fln dbg cfg d sched metrics g HW HO Hn (Nat.eq_le_incl _ _ Hsc) k b E) as (_ & _ & _ & HR). pose proof (reachable_ok _ _ _ _ _ HR) as HI.
  assert (nlt f32ops (c_example_fraction cfg) (nofZ f32ops 1) = false) as Hlt by (rewrite Hf; reflexivity).
  pose proof (ds_buf _ _ _ _ HI) as HB. rewrite Hlt in HB. unfold example_rows, example_sampling_enabled. rewrite HB. cbn [length Nat.eqb negb]. do 2 f_equal. unfold nactive_examples. rewrite (dv_nact _ _ _ _ (ds_inv _ _ _ _ HI)).
  unfold nact. exact Hsc.
Qed.

(** Without example sampling, over all examples and any number of iterations. *)
Theorem C56_rounds_f32 : forall fexp fln dbg (cfg : config f32ops) (d : data f32ops) sched metrics g j m b b' target,
  well_formed d -> any_order sched -> (Z.of_nat (d_nexamples d) <= 2 ^ 24)%Z -> c_example_fraction cfg = f_one ->
  f_le f_zero (c_learning_rate cfg) = true -> f_le (c_learning_rate cfg) f_one = true ->
  boost_run (f32math fexp fln) dbg cfg d sched L2 metrics g j = Ok b -> boost_run (f32math fexp fln) dbg cfg d sched L2 metrics g (j + m) = Ok b' -> get_target d = Ok target ->
  let all := seq 0 (d_nexamples d) in
  (root_error target (ob_preds (bs_objective b')) all <= (1 + / 2 ^ 24) ^ ((d_nexamples d + 4) * m) * (root_error target (ob_preds (bs_objective b)) all + INR m * round_off target all))%R.
Proof.
  intros fexp fln dbg cfg d sched metrics g j m b b' target HW HO Hn Hf Hl0 Hl1 E E' Et all. rewrite hi_pow. revert b' E'. induction m as [|m IH]; intros b' E'.
  - rewrite Nat.add_0_r in E'. assert (b' = b) as -> by exact (Ok_inj _ _ (eq_trans (eq_sym E') E)). rewrite Nat.mul_0_r. cbn [INR]. unfold hi. cbn [pow]. lra.
  - rewrite Nat.add_succ_r in E'. pose proof (boost_run_S _ _ _ _ _ _ _ _ _ _ _ E') as (b1 & sz & E1 & _). specialize (IH b1 E1).
    pose proof (all_rows32 _ _ _ _ _ _ _ _ _ _ HW HO Hn Hf E') as HA.
    pose proof (C56_round_f32 fexp fln dbg cfg d sched metrics g (j + m) b1 b' target _ HW HO Hn ltac:(rewrite Hf; reflexivity) ltac:(rewrite Hf; reflexivity) ltac:(rewrite Hf; reflexivity) Hl0 Hl1 E1 E' Et HA) as H.
    fold all in H. rewrite hi_pow in H. assert (length all = d_nexamples d) as Hall by apply seq_length. rewrite Hall in H. replace ((d_nexamples d + 4) * S m) with (d_nexamples d + 4 + (d_nexamples d + 4) * m) by lia. rewrite hi_add.
    set (a := hi (d_nexamples d + 4)) in *. set (c := hi ((d_nexamples d + 4) * m)) in *. assert (1 <= a)%R as Ha by apply hi_ge1. assert (1 <= c)%R as Hc by apply hi_ge1.
    assert (0 <= round_off target all)%R as Hr. { unfold round_off. apply Rplus_le_le_0_compat; apply Rmult_le_pos; try apply sqrt_pos; apply Rlt_le, Rinv_0_lt_compat, pow_lt; lra. }
    rewrite S_INR. set (e := root_error target (ob_preds (bs_objective b)) all) in *. set (r := round_off target all) in *.
    eapply Rle_trans; [exact H|]. assert (a * root_error target (ob_preds (bs_objective b1)) all <= a * (c * (e + INR m * r)))%R as H1 by (apply Rmult_le_compat_l; [lra|exact IH]).
    assert (r <= a * c * r)%R as H2. { assert (1 <= a * c)%R by nra. nra. } clear - H1 H2. nra.
Qed.
Print Assumptions C56_rounds_f32.

Lemma same_reals l l' : Forall2 same_number l l' -> reals l = reals l'.
Proof.
  induction 1 as [|x y l l' H _ IH]; [reflexivity|]. unfold reals in *. cbn [map]. f_equal; [|exact IH]. destruct H as [->|[Hx Hy]]; [reflexivity|]. destruct Hx as [s ->], Hy as [s' ->]. reflexivity.
Qed.
(** What the program predicts: with categorical features only (C25) the same holds of the model's own predictions. *)
Theorem C56_model_f32 : forall fexp fln dbg (cfg : config f32ops) (d : data f32ops) sched metrics g j m b b' target ps ps',
  well_formed d -> any_order sched -> 0 < c_sample_freq cfg -> (Z.of_nat (d_nexamples d) <= 2 ^ 24)%Z -> c_example_fraction cfg = f_one ->
  (forall f ft, f < d_nfeatures d -> feat_type_of d f = Ok ft -> ft <> Numerical) ->
  (forall f col v, f < d_nfeatures d -> get_feature d f = Ok col -> In v col -> valid_category v) -> (forall f nb, max_nbins d f = Ok nb -> (Z.of_nat nb <= 2 ^ 24)%Z) ->
  f_le f_zero (c_learning_rate cfg) = true -> f_le (c_learning_rate cfg) f_one = true ->
  boost_run (f32math fexp fln) dbg cfg d sched L2 metrics g j = Ok b -> boost_run (f32math fexp fln) dbg cfg d sched L2 metrics g (j + m) = Ok b' -> get_target d = Ok target ->
  additive_predict (bs_ensemble b) d = Ok ps -> additive_predict (bs_ensemble b') d = Ok ps' ->
  let all := seq 0 (d_nexamples d) in
  (root_error target ps' all <= (1 + / 2 ^ 24) ^ ((d_nexamples d + 4) * m) * (root_error target ps all + INR m * round_off target all))%R.
Proof.
  intros fexp fln dbg cfg d sched metrics g j m b b' target ps ps' HW HO Hfr Hn Hf Hft Hval Hnb Hl0 Hl1 E E' Et Ep Ep' all.
  assert (f_is_finite (c_example_fraction cfg) = true /\ f_le f_zero (c_example_fraction cfg) = true /\ f_le (c_example_fraction cfg) f_one = true) as (F1 & F2 & F3) by (rewrite Hf; repeat split; reflexivity).
  destruct (C25_running_predictions _ _ _ _ _ _ _ _ _ _ _ HW HO Hfr Hn F1 F2 F3 Hft Hval Hnb E) as (q & Q & HS & _). destruct (C25_running_predictions _ _ _ _ _ _ _ _ _ _ _ HW HO Hfr Hn F1 F2 F3 Hft Hval Hnb E') as (q' & Q' & HS' & _).
  assert (q = ps) as -> by exact (Ok_inj _ _ (eq_trans (eq_sym Q) Ep)). assert (q' = ps') as -> by exact (Ok_inj _ _ (eq_trans (eq_sym Q') Ep')).
  unfold root_error. rewrite <- (same_reals _ _ HS), <- (same_reals _ _ HS'). exact (C56_rounds_f32 fexp fln dbg cfg d sched metrics g j m b b' target HW HO Hn Hf Hl0 Hl1 E E' Et).
Qed.
Print Assumptions C56_model_f32.

(** The hypotheses of the three theorems: six examples with two categorical features, learning rate one half, no sampling; two iterations, and a target that is not fitted exactly. *)
Definition fit_cfg : config f32ops :=
  @mk_config f32ops String.EmptyString String.EmptyString String.EmptyString [] 2%N true 44%N [0; 1] 2 f_half (fz 0) 1%N (fz 0) (fz 1) 4 4 2 f_half (fz 1) 1%N (fz 1) (fz 1) 1.
Notation fit_run k := (boost_run (f32math (fun x => x) (fun x => x)) true fit_cfg bst_data bst_sched L2 [ML2] ex_rng k) (only parsing).
Definition fit_check (r : res (booster f32ops)) : bool :=
  match r with Ok b => (match additive_predict (bs_ensemble b) bst_data with Ok ps => num_eqb ps (ob_preds (bs_objective b)) && negb (num_eqb ps [fz 1; fz 2; fz 3; fz 5; fz 8; fz 13]) | _ => false end) | _ => false end.
Lemma fit_check_ex r : fit_check r = true -> exists b ps, r = Ok b /\ additive_predict (bs_ensemble b) bst_data = Ok ps.
Proof. unfold fit_check. destruct r as [b| | |]; try (intros H; destruct (Bool.diff_false_true H)). intros H. destruct (additive_predict (bs_ensemble b) bst_data) as [ps| | |] eqn:E; try destruct (Bool.diff_false_true H). eauto. Qed.
Example C56_f32_ex : well_formed bst_data /\ any_order bst_sched /\ 0 < c_sample_freq fit_cfg /\ (Z.of_nat (d_nexamples bst_data) <= 2 ^ 24)%Z /\ c_example_fraction fit_cfg = f_one /\
  (forall f ft, f < d_nfeatures bst_data -> feat_type_of bst_data f = Ok ft -> ft <> Numerical) /\
  (forall f col v, f < d_nfeatures bst_data -> get_feature bst_data f = Ok col -> In v col -> valid_category v) /\ (forall f nb, max_nbins bst_data f = Ok nb -> (Z.of_nat nb <= 2 ^ 24)%Z) /\
  f_le f_zero (c_learning_rate fit_cfg) = true /\ f_le (c_learning_rate fit_cfg) f_one = true /\
  exists b b' ps ps', fit_run 1 = Ok b /\ fit_run (1 + 1) = Ok b' /\ get_target bst_data = Ok [fz 1; fz 2; fz 3; fz 5; fz 8; fz 13] /\
    additive_predict (bs_ensemble b) bst_data = Ok ps /\ additive_predict (bs_ensemble b') bst_data = Ok ps' /\ example_rows (bs_dataset b') = Ok (seq 0 6).
Proof.
  destruct C25_ex as (H1 & H2 & _ & _ & _ & H3 & H4 & H5 & _). split; [exact H1|]. split; [exact H2|]. split; [cbn; lia|]. split; [cbn; lia|]. split; [reflexivity|]. split; [exact H3|]. split; [exact H4|]. split; [exact H5|].
  split; [vm_compute; reflexivity|]. split; [vm_compute; reflexivity|].
  assert (fit_check (fit_run 1) = true) as C1 by (vm_compute; reflexivity). assert (fit_check (fit_run (1 + 1)) = true) as C2 by (vm_compute; reflexivity).
  destruct (fit_check_ex _ C1) as (b & ps & E & P). destruct (fit_check_ex _ C2) as (b' & ps' & E' & P'). exists b, b', ps, ps'. split; [exact E|]. split; [exact E'|]. split; [reflexivity|]. split; [exact P|]. split; [exact P'|].
  assert (Z.of_nat (d_nexamples bst_data) <= 2 ^ 24)%Z as Hn by (cbn; lia). assert (c_example_fraction fit_cfg = f_one) as Hf by reflexivity.  exact (all_rows32 (fun x => x) (fun x => x) true fit_cfg bst_data bst_sched [ML2] ex_rng (1 + 1) b' H1 H2 Hn Hf E').
Qed.
