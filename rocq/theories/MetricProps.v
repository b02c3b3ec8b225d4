(** Property C39: the metrics. *)
From Coq Require Import String Reals Lra Psatz Sorting.Permutation.
From Flocq Require Import Core BinarySingleNaN.
From Verif Require Import Base BaseProofs F32 F32Proofs Num ObjectiveModel MetricModel MetricSpec.
Local Open Scope R_scope.

Lemma mean_fold O M m l s k : fold_left (fun st tp => (nadd O (fst st) (@metric_one O M m (fst tp) (snd tp)), S (snd st))) l (s, k) =
  (fold_left (fun s tp => nadd O s (metric_one M m (fst tp) (snd tp))) l s, (k + length l)%nat).
Proof.
  revert s k. induction l as [|x l IH]; intros s k; cbn [fold_left length].
  - rewrite Nat.add_0_r. reflexivity.
  - rewrite IH, Nat.add_succ_r. reflexivity.
Qed.
Lemma Rfold_sum (l : list (R * R)) f (s : R) : fold_left (fun s tp => s + f (fst tp) (snd tp)) l s = s + Rsum (map (fun tp => f (fst tp) (snd tp)) l).
Proof. revert s. induction l as [|x l IH]; intros s; cbn [fold_left map Rsum]; [lra|]. rewrite IH. lra. Qed.
Lemma metric_mean_R m (ts ps : list R) : metric_mean Rmath m ts ps = average (metric_one Rmath m) (combine ts ps).
Proof.
  unfold metric_mean, average. rewrite mean_fold.
  transitivity ((0 + Rsum (map (fun tp : R * R => (metric_one Rmath m (fst tp) (snd tp) : R)) (combine ts ps))) / INR (length (combine ts ps))).
  - rewrite <- (Rfold_sum (combine ts ps) (metric_one Rmath m) 0), INR_IZR_INZ. reflexivity.
  - rewrite Rplus_0_l. reflexivity.
Qed.

(** The average of the losses, in exact arithmetic. *)
Theorem C39_l2 : forall ts ps : list R, metric_eval Rmath ML2 ts ps = average squared_error (combine ts ps).
Proof.
  intros ts ps. cbn [metric_eval]. rewrite metric_mean_R. unfold average. apply (f_equal (fun l => Rsum l / _)), map_ext. intros [t p].
  unfold squared_error, metric_one. cbn [Rops nsub nmul fst snd]. ring.
Qed.
Print Assumptions C39_l2.
Theorem C39_rmse : forall ts ps : list R, metric_eval Rmath MRmse ts ps = sqrt (average squared_error (combine ts ps)).
Proof. intros ts ps. rewrite <- C39_l2. reflexivity. Qed.
Print Assumptions C39_rmse.
Theorem C39_binary_loss : forall ts ps : list R, metric_eval Rmath MBinaryLoss ts ps = average log_loss (combine ts ps).
Proof.
  intros ts ps. cbn [metric_eval]. rewrite metric_mean_R. unfold average. apply (f_equal (fun l => Rsum l / _)), map_ext. intros [t p].
  unfold log_loss, metric_one, two, one. cbn [Rops Rmath m_ln m_exp nofZ nsub nmul nadd nneg fst snd]. reflexivity.
Qed.
Print Assumptions C39_binary_loss.

Definition threshold_of (m : metric) : R := match m with MBinaryError01 => 1 / 2 | _ => 0 end.
Definition is_error (m : metric) : bool := match m with MBinaryError | MBinaryError01 => true | _ => false end.
Lemma error_one m t p : is_error m = true ->
  (wrong (threshold_of m) t p /\ metric_one Rmath m t p = 1) \/ (~ wrong (threshold_of m) t p /\ metric_one Rmath m t p = 0).
Proof.
  unfold wrong. intros Hm. destruct m; try discriminate; cbn [metric_one threshold_of]; unfold half, zero, one, two; cbn [Rops nlt nofZ ndiv].
  all: destruct (Rlt_bool_spec t (1 / 2)) as [Ht|Ht].
  1,2: destruct (Rlt_bool_spec p 0) as [Hp|Hp]. 5,6: destruct (Rlt_bool_spec p (1 / 2)) as [Hp|Hp].
  all: first [left; split; [lra|reflexivity] | right; split; [lra|reflexivity]].
Qed.
(** The error rates: the fraction of misclassified examples; the threshold on the prediction is 0 for binary_error and one half for binary_error01. *)
Theorem C39_error_rate : forall m (ts ps : list R) k, is_error m = true -> count_of (wrong (threshold_of m)) (combine ts ps) k ->
  metric_eval Rmath m ts ps = INR k / INR (length (combine ts ps)).
Proof.
  intros m ts ps k Hm Hk. replace (metric_eval Rmath m ts ps) with (metric_mean Rmath m ts ps) by (destruct m; try discriminate; reflexivity).
  rewrite metric_mean_R. unfold average. apply (f_equal (fun x => x / _)). change (@combine (num Rops) (num Rops) ts ps) with (@combine R R ts ps). revert Hk. generalize (@combine R R ts ps). intros pairs Hk. change (num Rops) with R. induction Hk as [|t p l k HP Hk IH|t p l k HP Hk IH]; cbn [map Rsum].
  - reflexivity.
  - rewrite S_INR, IH. destruct (error_one m t p Hm) as [(_ & E)|(A & _)]; [|contradiction]. cbn [fst snd]. rewrite E. lra.
  - rewrite IH. destruct (error_one m t p Hm) as [(A & _)|(_ & E)]; [contradiction|]. cbn [fst snd]. rewrite E. lra.
Qed.
Print Assumptions C39_error_rate.
(** The count always exists. *)
Lemma count_of_exists (m : metric) l : is_error m = true -> exists k, count_of (wrong (threshold_of m)) l k /\ (k <= length l)%nat.
Proof.
  intros Hm. induction l as [|[t p] l (k & IH & Hle)]; [exists 0%nat; split; [constructor|cbn; lia]|].
  destruct (error_one m t p Hm) as [(A & _)|(A & _)]; [exists (S k)|exists k]; (split; [constructor; assumption|cbn [length]; lia]).
Qed.

Lemma Rsum_perm l l' : Permutation l l' -> Rsum l = Rsum l'.
Proof. induction 1; cbn [Rsum]; lra. Qed.
Lemma average_perm f l l' : Permutation l l' -> average f l = average f l'.
Proof. intros H. unfold average. rewrite (Permutation_length H). f_equal. apply Rsum_perm, Permutation_map, H. Qed.
Lemma average_nonneg f l : (forall t p, 0 <= f t p) -> 0 <= average f l.
Proof.
  intros H. unfold average. assert (0 <= Rsum (map (fun tp => f (fst tp) (snd tp)) l)) as A.
  { induction l as [|[t p] l IH]; cbn [map Rsum]; [lra|]. specialize (H t p). cbn [fst snd]. lra. }
  destruct l as [|x l]; [cbn; unfold Rdiv; rewrite Rmult_0_l; lra|].
  apply Rmult_le_pos; [exact A|]. apply Rlt_le, Rinv_0_lt_compat, lt_0_INR. cbn. lia.
Qed.
Lemma metric_one_nonneg m t p : 0 <= metric_one Rmath m t p.
Proof.
  destruct m; cbn [metric_one]; unfold half, zero, one, two; cbn [Rops Rmath nlt nofZ ndiv nsub nmul nadd m_ln m_exp].
  - apply Rle_0_sqr.
  - apply Rle_0_sqr.
  - rewrite <- ln_1 at 1. apply Rlt_le, ln_increasing; [lra|]. match goal with |- context[exp ?x] => pose proof (exp_pos x) end. lra.
  - destruct (Rlt_bool _ _), (Rlt_bool _ _); lra.
  - destruct (Rlt_bool _ _), (Rlt_bool _ _); lra.
Qed.

(** In exact arithmetic the order of the examples does not matter. *)
Theorem C39_order : forall m (ts ps ts' ps' : list R), Permutation (combine ts ps) (combine ts' ps') ->
  metric_eval Rmath m ts ps = metric_eval Rmath m ts' ps'.
Proof.
  intros m ts ps ts' ps' H. assert (forall m, metric_mean Rmath m ts ps = metric_mean Rmath m ts' ps') as A.
  { intros m'. rewrite !metric_mean_R. apply average_perm, H. }
  destruct m; cbn [metric_eval]; rewrite ?A; reflexivity.
Qed.
Print Assumptions C39_order.
Example C39_order_ex : Permutation (combine [1; 2; 3] [4; 5; 6]) (combine [3; 1; 2] [6; 4; 5]).
Proof. cbn [combine]. exact (Permutation_sym (Permutation_cons_app [(1, 4); (2, 5)] [] (3, 6) (Permutation_refl _))). Qed.

(** No metric is negative. *)
Theorem C39_nonneg : forall m (ts ps : list R), 0 <= metric_eval Rmath m ts ps.
Proof.
  intros m ts ps. assert (forall m, 0 <= metric_mean Rmath m ts ps) as A.
  { intros m'. rewrite metric_mean_R. apply average_nonneg. intros. apply metric_one_nonneg. }
  destruct m; cbn [metric_eval]; try apply A. apply sqrt_pos.
Qed.
Print Assumptions C39_nonneg.

Lemma average_zero f ts ps : (forall t p, 0 <= f t p) -> (forall t p, f t p = 0 -> t = p) -> length ts = length ps ->
  average f (combine ts ps) = 0 -> ts = ps.
Proof.
  intros H1 H2. revert ps. induction ts as [|t ts IH]; intros [|p ps] Hl E; try discriminate; [reflexivity|].
  unfold average in E. cbn [combine map length Rsum] in E.
  assert (INR (S (length (combine ts ps))) <> 0) as Hn by (apply not_0_INR; lia).
  assert (forall l, 0 <= Rsum (map (fun tp : R * R => f (fst tp) (snd tp)) l)) as A.
  { induction l as [|[a b] l IHl]; cbn [map Rsum]; [lra|]. pose proof (H1 a b). cbn [fst snd]. lra. }
  assert (f t p + Rsum (map (fun tp => f (fst tp) (snd tp)) (combine ts ps)) = 0) as E'.
  { apply (f_equal (fun x => x * INR (S (length (combine ts ps))))) in E. cbn [fst snd] in E. unfold Rdiv in E. rewrite Rmult_assoc, Rinv_l, Rmult_1_r, Rmult_0_l in E; assumption. }
  pose proof (H1 t p). pose proof (A (combine ts ps)). f_equal; [apply H2; lra|]. apply IH; [cbn in Hl; lia|].
  unfold average. replace (Rsum _) with 0 by lra. unfold Rdiv. apply Rmult_0_l.
Qed.
(** The squared error metrics are zero exactly for perfect predictions. *)
Theorem C39_zero_iff_equal : forall m (ts ps : list R), m = ML2 \/ m = MRmse -> length ts = length ps -> (metric_eval Rmath m ts ps = 0 <-> ts = ps).
Proof.
  intros m ts ps Hm Hl.
  assert (average squared_error (combine ts ps) = 0 <-> ts = ps) as A.
  { split.
    - apply average_zero; [intros; unfold squared_error; apply pow2_ge_0| |exact Hl]. intros t p E. unfold squared_error in E. apply Rminus_diag_uniq, Rsqr_0_uniq. rewrite Rsqr_pow2. exact E.
    - intros <-. unfold average. replace (Rsum _) with 0; [unfold Rdiv; apply Rmult_0_l|]. clear Hl.
      induction ts as [|t ts IH]; cbn [combine map Rsum]; [reflexivity|]. rewrite <- IH. unfold squared_error. cbn [fst snd]. ring. }
  destruct Hm as [-> | ->]; [rewrite C39_l2; exact A|]. rewrite C39_rmse. split; intros E.
  - apply A. apply sqrt_eq_0 in E; [exact E|]. apply average_nonneg. intros. unfold squared_error. apply pow2_ge_0.
  - apply A in E. rewrite E. apply sqrt_0.
Qed.
Print Assumptions C39_zero_iff_equal.

Lemma frac_le1 k n : (k <= n)%nat -> INR k / INR n <= 1.
Proof.
  intros H. destruct n as [|n].
  - assert (k = 0%nat) as -> by lia. cbn [INR]. unfold Rdiv. rewrite Rmult_0_l. lra.
  - apply Rmult_le_reg_r with (INR (S n)); [apply lt_0_INR; lia|].
    unfold Rdiv. rewrite Rmult_assoc, Rinv_l, Rmult_1_r, Rmult_1_l by (apply not_0_INR; lia). apply le_INR, H.
Qed.
(** Error rates lie between 0 and 1 (exact arithmetic). *)
Theorem C39_error_bounds : forall m (ts ps : list R), is_error m = true -> 0 <= metric_eval Rmath m ts ps <= 1.
Proof.
  intros m ts ps Hm. split; [apply C39_nonneg|]. destruct (count_of_exists m (combine ts ps) Hm) as (k & Hk & Hle).
  rewrite (C39_error_rate m ts ps k Hm Hk). apply frac_le1, Hle.
Qed.
Print Assumptions C39_error_bounds.

Example C39_ex : metric_eval Rmath ML2 [1; 2; 3; 4] [1; 2; 3; 0] = 4 /\ metric_eval Rmath MRmse [1; 2; 3; 4] [1; 2; 3; 0] = 2 /\
  metric_eval Rmath MBinaryError [0; 0; 1; 1] [-1; 1; -1; 2] = 1 / 2 /\ metric_eval Rmath MBinaryError01 [0; 0; 1; 1] [0.2; -1; 0.4; 0.6] = 1 / 4.
Proof.
  assert (average squared_error (combine [1; 2; 3; 4] [1; 2; 3; 0]) = 4) as A.
  { unfold average, squared_error. cbn [combine map Rsum fst snd length INR]. field. }
  split; [rewrite C39_l2; exact A|]. split; [rewrite C39_rmse, A; replace 4 with (2 * 2) by lra; apply sqrt_square; lra|].
  assert (forall th t p, t < 1 / 2 -> th <= p -> wrong th t p) as W1 by (intros; left; lra).
  assert (forall th t p, 1 / 2 <= t -> p < th -> wrong th t p) as W2 by (intros; right; lra).
  split.
  - rewrite (C39_error_rate MBinaryError _ _ 2); [change (num Rops) with R; cbn [combine length INR]; lra|reflexivity|]. cbn [combine threshold_of].
    apply count_no; [unfold wrong; lra|]. apply count_yes; [unfold wrong; lra|]. apply count_yes; [unfold wrong; lra|]. apply count_no; [unfold wrong; lra|]. constructor.
  - rewrite (C39_error_rate MBinaryError01 _ _ 1); [change (num Rops) with R; cbn [combine length INR]; lra|reflexivity|]. cbn [combine threshold_of].
    apply count_no; [unfold wrong; lra|]. apply count_no; [unfold wrong; lra|]. apply count_yes; [unfold wrong; lra|]. apply count_no; [unfold wrong; lra|]. constructor.
Qed.

(* ---- the same in f32 ---- *)
Lemma repr_fin z r : repr z r -> Rabs (rnd r) < F32Proofs.M -> is_finite z = true /\ B2R z = rnd r.
Proof.
  intros (Hn & Hk) Hr. apply Rabs_lt_inv in Hr. rewrite clampM_id in Hk by lra.
  destruct z as [s|[|]| |s m e He]; cbn [key] in Hk; try discriminate; try (exfalso; lra); split; try reflexivity; exact Hk.
Qed.
Lemma M_big : IZR (2 ^ 100) < F32Proofs.M.
Proof. unfold F32Proofs.M. change (IZR (2 ^ 100)) with (bpow radix2 100). apply bpow_lt. reflexivity. Qed.
Lemma rnd_int_bound z : (0 <= z <= 2 ^ 100)%Z -> 0 <= rnd (IZR z) <= IZR (2 ^ 100).
Proof.
  intros Hz. split.
  - rewrite <- rnd_0 at 1. apply rnd_mono. apply IZR_le. lia.
  - assert (rnd (bpow radix2 100) = bpow radix2 100) as E.
    { apply rnd_generic. apply generic_format_FLT_bpow; [reflexivity|]. cbn. lia. }
    change (IZR (2 ^ 100)) with (bpow radix2 100). rewrite <- E. apply rnd_mono. change (bpow radix2 100) with (IZR (2 ^ 100)). apply IZR_le. lia.
Qed.
(** Adding one to a counter kept as f32: it stops at 2^24. *)
Definition cap (k : nat) : Z := Z.min (Z.of_nat k) (2 ^ 24).
Definition counts (s : f32) (k : nat) : Prop := is_finite s = true /\ B2R s = IZR (cap k).
Lemma f_one_val : is_finite f_one = true /\ B2R f_one = 1.
Proof. apply (f_of_Z_exact 1). cbn. lia. Qed.
Lemma rnd_sat : rnd (IZR (2 ^ 24) + 1) = IZR (2 ^ 24).
Proof.
  destruct (f_of_Z_exact (2 ^ 24)) as (F & E); [cbn; lia|]. destruct f_one_val as (F1 & E1).
  assert (f_add (f_of_Z (2 ^ 24)) f_one = f_of_Z (2 ^ 24)) as A by (apply B2SF_inj; vm_compute; reflexivity).
  pose proof (add_repr _ _ F F1) as (_ & B). rewrite A, E, E1, (key_finite _ F), E in B.
  assert (IZR (2 ^ 24) + 1 = IZR (2 ^ 24 + 1)) as C by (rewrite plus_IZR; reflexivity).
  pose proof (rnd_int_bound (2 ^ 24 + 1)) as D. rewrite <- C in D. pose proof M_big. pose proof M_pos.
  rewrite clampM_id in B; [symmetry; exact B|]. assert (0 <= 2 ^ 24 + 1 <= 2 ^ 100)%Z as G by (cbn; lia). specialize (D G). lra.
Qed.
Lemma counts_one s k : counts s k -> counts (f_add s f_one) (S k).
Proof.
  intros (F & E). destruct f_one_val as (F1 & E1).
  assert (rnd (B2R s + B2R f_one) = IZR (cap (S k))) as A.
  { rewrite E, E1. destruct (Z.lt_ge_cases (Z.of_nat k) (2 ^ 24)) as [H|H].
    - replace (cap (S k)) with (cap k + 1)%Z by (unfold cap; lia). rewrite plus_IZR. rewrite <- plus_IZR. apply rnd_generic, generic_int. unfold cap. lia.
    - replace (cap (S k)) with (2 ^ 24)%Z by (unfold cap; lia). replace (cap k) with (2 ^ 24)%Z by (unfold cap; lia). apply rnd_sat. }
  destruct (repr_fin _ _ (add_repr s f_one F F1)) as (F' & E').
  { rewrite A. rewrite Rabs_pos_eq by (apply IZR_le; unfold cap; lia). apply Rle_lt_trans with (IZR (2 ^ 100)); [apply IZR_le; unfold cap; cbn; lia|apply M_big]. }
  split; [exact F'|]. rewrite E'. exact A.
Qed.
Lemma counts_zero s k : counts s k -> counts (f_add s (f_of_Z 0)) k.
Proof.
  intros (F & E). destruct (f_of_Z_exact 0) as (F1 & E1); [cbn; lia|].
  assert (rnd (B2R s + B2R (f_of_Z 0)) = IZR (cap k)) as A.
  { rewrite E, E1, Rplus_0_r. apply rnd_generic, generic_int. unfold cap. lia. }
  destruct (repr_fin _ _ (add_repr s (f_of_Z 0) F F1)) as (F' & E').
  { rewrite A. rewrite Rabs_pos_eq by (apply IZR_le; unfold cap; lia). apply Rle_lt_trans with (IZR (2 ^ 100)); [apply IZR_le; unfold cap; cbn; lia|apply M_big]. }
  split; [exact F'|]. rewrite E'. exact A.
Qed.

Lemma filter_le {A} (f : A -> bool) l : (length (filter f l) <= length l)%nat.
Proof. induction l as [|x l IH]; cbn [filter length]; [lia|]. destruct (f x); cbn [length]; lia. Qed.
(** The example counts as misclassified, in f32: NaN targets count as positive and NaN predictions as positive. *)
Definition wrong_f32 (m : metric) (tp : f32 * f32) : bool :=
  let th := match m with MBinaryError01 => f_div f_one (f_of_Z 2) | _ => f_of_Z 0 end in
  if f_lt (fst tp) (f_div f_one (f_of_Z 2)) then negb (f_lt (snd tp) th) else f_lt (snd tp) th.
Lemma error_fold M m pairs s k : is_error m = true -> counts s k ->
  counts (fold_left (fun s tp => nadd f32ops s (@metric_one f32ops M m (fst tp) (snd tp))) pairs s) (k + length (filter (wrong_f32 m) pairs)).
Proof.
  intros Hm. revert s k. induction pairs as [|[t p] pairs IH]; intros s k Hs; cbn [fold_left filter].
  - rewrite Nat.add_0_r. exact Hs.
  - destruct (wrong_f32 m (t, p)) eqn:E.
    + cbn [length]. rewrite Nat.add_succ_r. apply (IH _ (S k)).
      replace (@metric_one f32ops M m (fst (t, p)) (snd (t, p))) with f_one; [apply counts_one, Hs|].
      unfold wrong_f32 in E. destruct m; try discriminate; cbn [metric_one]; unfold half, zero, one, two; cbn [f32ops nlt nofZ ndiv fst snd] in *; change (f_of_Z 1) with f_one;
        destruct (f_lt t _); destruct (f_lt p _); try discriminate; reflexivity.
    + apply IH. replace (@metric_one f32ops M m (fst (t, p)) (snd (t, p))) with (f_of_Z 0); [apply counts_zero, Hs|].
      unfold wrong_f32 in E. destruct m; try discriminate; cbn [metric_one]; unfold half, zero, one, two; cbn [f32ops nlt nofZ ndiv fst snd] in *; change (f_of_Z 1) with f_one in *;
        destruct (f_lt t _); destruct (f_lt p _); try discriminate; reflexivity.
Qed.

Lemma error_div s k n : counts s k -> (k <= n)%nat -> (1 <= n)%nat -> (Z.of_nat n < 2 ^ 31)%Z ->
  is_finite (f_div s (f_of_Z (Z.of_nat n))) = true /\ 0 <= B2R (f_div s (f_of_Z (Z.of_nat n))) <= 1 /\
  ((Z.of_nat n <= 2 ^ 24)%Z -> B2R (f_div s (f_of_Z (Z.of_nat n))) = rnd (INR k / INR n)).
Proof.
  intros (F & E) Hk Hn Hb.
  pose proof (rnd_int_bound (Z.of_nat n) ltac:(cbn; lia)) as Hr. pose proof M_big as HM.
  destruct (repr_fin _ _ (f_of_Z_repr (Z.of_nat n))) as (Fn & En); [rewrite Rabs_pos_eq; lra|].
  assert (IZR (cap n) <= B2R (f_of_Z (Z.of_nat n))) as Hge.
  { rewrite En. rewrite <- (rnd_generic (IZR (cap n))) by (apply generic_int; unfold cap; lia). apply rnd_mono, IZR_le. unfold cap. lia. }
  assert (1 <= IZR (cap n)) as H1 by (apply (IZR_le 1); unfold cap; lia).
  assert (0 <= IZR (cap k)) as H0 by (apply IZR_le; unfold cap; lia).
  assert (IZR (cap k) <= IZR (cap n)) as Hkn by (apply IZR_le; unfold cap; lia).
  set (d := f_of_Z (Z.of_nat n)) in *.
  assert (0 <= B2R s / B2R d <= 1) as Hq.
  { rewrite E. split; [apply Rmult_le_pos; [lra|apply Rlt_le, Rinv_0_lt_compat; lra]|].
    apply Rmult_le_reg_r with (B2R d); [lra|]. unfold Rdiv. rewrite Rmult_assoc, Rinv_l by lra. lra. }
  assert (0 <= rnd (B2R s / B2R d) <= 1) as Hq'.
  { split; [rewrite <- rnd_0 at 1; apply rnd_mono; lra|]. apply Rle_trans with (rnd 1); [apply rnd_mono; lra|]. rewrite (rnd_generic 1) by (apply (generic_int 1); cbn; lia). lra. }
  destruct (repr_fin _ _ (div_repr s d F Fn ltac:(lra))) as (F' & E').
  { rewrite Rabs_pos_eq by lra. assert (1 <= IZR (2 ^ 100)) by (apply (IZR_le 1); cbn; lia). lra. }
  split; [exact F'|]. split; [rewrite E'; exact Hq'|]. intros Hs. rewrite E', E. f_equal. f_equal.
  - unfold cap. rewrite Z.min_l by lia. symmetry. apply INR_IZR_INZ.
  - rewrite En, rnd_generic by (apply generic_int; lia). symmetry. apply INR_IZR_INZ.
Qed.

(** In f32, for up to 2^31 - 1 examples the error rate is a number between 0 and 1, and up to 2^24 examples it is the correctly
    rounded fraction of misclassified examples (beyond, the counter may saturate). *)
Theorem C39_error_rate_f32 : forall fexp fln m (ts ps : list f32), is_error m = true ->
  (1 <= length (combine ts ps))%nat -> (Z.of_nat (length (combine ts ps)) < 2 ^ 31)%Z ->
  let v := metric_eval (f32math fexp fln) m ts ps in
  f_is_finite v = true /\ (0 <= B2R v <= 1)%R /\
  ((Z.of_nat (length (combine ts ps)) <= 2 ^ 24)%Z -> B2R v = rnd (INR (length (filter (wrong_f32 m) (combine ts ps))) / INR (length (combine ts ps)))).
Proof.
  intros fexp fln m ts ps Hm H1 Hb v.
  assert (v = f_div (fold_left (fun s tp => nadd f32ops s (@metric_one f32ops (f32math fexp fln) m (fst tp) (snd tp))) (combine ts ps) (f_of_Z 0)) (f_of_Z (Z.of_nat (length (combine ts ps))))) as ->.
  { subst v. replace (metric_eval (f32math fexp fln) m ts ps) with (metric_mean (f32math fexp fln) m ts ps) by (destruct m; try discriminate; reflexivity).
    unfold metric_mean. rewrite mean_fold, Nat.add_0_l. reflexivity. }
  apply error_div; [|apply filter_le|exact H1|exact Hb].
  apply (error_fold _ m (combine ts ps) (f_of_Z 0) 0 Hm). apply (f_of_Z_exact 0). cbn. lia.
Qed.
Print Assumptions C39_error_rate_f32.
Example C39_error_rate_f32_ex : length (filter (wrong_f32 MBinaryError) (combine [f_of_Z 0; f_of_Z 1; f_of_Z 1] [f_of_Z (-2); f_of_Z (-1); f_of_Z 3])) = 1%nat.
Proof. vm_compute. reflexivity. Qed.

(** The squared error in f32: unless a difference or a sum is NaN (infinite values), it is not negative; without examples it is NaN. *)
Theorem C39_empty_f32 : forall fexp fln m ps, m <> MRmse -> metric_eval (f32math fexp fln) m [] ps = f_nan.
Proof. intros fexp fln m ps Hm. destruct m; [reflexivity|congruence|reflexivity|reflexivity|reflexivity]. Qed.
Print Assumptions C39_empty_f32.

Lemma sq_ok d : is_nan d = false -> is_nan (f_mul d d) = false /\ 0 <= key (f_mul d d).
Proof.
  intros Hd. destruct (is_finite d) eqn:F.
  - destruct (mul_repr d d F F) as (A & B). split; [exact A|]. rewrite B.
    assert (0 <= rnd (B2R d * B2R d)) by (rewrite <- rnd_0; apply rnd_mono, Rle_0_sqr).
    unfold clampM. pose proof M_pos. apply Rle_trans with (Rmin F32Proofs.M (rnd (B2R d * B2R d))); [apply Rmin_glb; lra|apply Rmax_r].
  - destruct d as [|[|]| |]; try discriminate; (split; [reflexivity|]); cbn [key]; pose proof M_pos; unfold f_mul; cbn; lra.
Qed.
Lemma add_ok s x : is_nan s = false -> 0 <= key s -> is_nan x = false -> 0 <= key x -> is_nan (f_add s x) = false /\ 0 <= key (f_add s x).
Proof.
  intros Ns Ks Nx Kx. pose proof M_pos. destruct (is_finite s) eqn:Fs, (is_finite x) eqn:Fx.
  - destruct (add_repr s x Fs Fx) as (A & B). split; [exact A|]. rewrite B. rewrite !key_finite in * by assumption.
    assert (0 <= rnd (B2R s + B2R x)) by (rewrite <- rnd_0; apply rnd_mono; lra).
    unfold clampM. apply Rle_trans with (Rmin F32Proofs.M (rnd (B2R s + B2R x))); [apply Rmin_glb; lra|apply Rmax_r].
  - destruct x as [|[|]| |]; try discriminate; cbn [key] in Kx; [lra|]. destruct s as [|[|]| |]; try discriminate; (split; [reflexivity|cbn; lra]).
  - destruct s as [|[|]| |]; try discriminate; cbn [key] in Ks; [lra|]. destruct x as [|[|]| |]; try discriminate; (split; [reflexivity|cbn; lra]).
  - destruct x as [|[|]| |]; try discriminate; cbn [key] in Kx; [lra|]. destruct s as [|[|]| |]; try discriminate; cbn [key] in Ks; [lra|]. split; [reflexivity|cbn; lra].
Qed.
Theorem C39_l2_nonneg_f32 : forall fexp fln (ts ps : list f32),
  (1 <= length (combine ts ps))%nat -> (Z.of_nat (length (combine ts ps)) < 2 ^ 31)%Z ->
  Forall (fun tp => f_is_nan (f_sub (fst tp) (snd tp)) = false) (combine ts ps) ->
  f_le f_zero (metric_eval (f32math fexp fln) ML2 ts ps) = true.
Proof.
  intros fexp fln ts ps H1 Hb Hf.
  replace (metric_eval (f32math fexp fln) ML2 ts ps) with
    (f_div (fold_left (fun s tp => nadd f32ops s (@metric_one f32ops (f32math fexp fln) ML2 (fst tp) (snd tp))) (combine ts ps) (f_of_Z 0)) (f_of_Z (Z.of_nat (length (combine ts ps)))))
    by (cbn [metric_eval]; unfold metric_mean; rewrite mean_fold, Nat.add_0_l; reflexivity).
  assert (forall l s, Forall (fun tp => f_is_nan (f_sub (fst tp) (snd tp)) = false) l -> is_nan s = false -> 0 <= key s ->
    let s' := fold_left (fun s tp => nadd f32ops s (@metric_one f32ops (f32math fexp fln) ML2 (fst tp) (snd tp))) l s in is_nan s' = false /\ 0 <= key s') as A.
  { induction l as [|tp l IH]; intros s Hl Hs Ks; cbn [fold_left]; [split; assumption|]. inversion Hl as [|? ? Ha Hl']; subst.
    destruct (sq_ok _ Ha) as (B1 & B2). destruct (add_ok s _ Hs Ks B1 B2) as (C1 & C2). apply IH; assumption. }
  destruct (A (combine ts ps) (f_of_Z 0) Hf) as (B1 & B2); [reflexivity|rewrite key_finite by reflexivity; rewrite (proj2 (f_of_Z_exact 0 ltac:(cbn; lia))); lra|].
  match goal with |- f_le _ (f_div ?a ?d) = true => set (s := a) in *; set (dd := d) in * end.
  pose proof (rnd_int_bound (Z.of_nat (length (combine ts ps))) ltac:(cbn; lia)) as Hr. pose proof M_big as HM.
  destruct (repr_fin _ _ (f_of_Z_repr (Z.of_nat (length (combine ts ps))))) as (Fn & En); [rewrite Rabs_pos_eq; lra|].
  assert (1 <= rnd (IZR (Z.of_nat (length (combine ts ps))))) as Hg.
  { apply Rle_trans with (rnd 1); [rewrite (rnd_generic 1) by (apply (generic_int 1); cbn; lia); lra|]. apply rnd_mono. apply (IZR_le 1). lia. }
  fold dd in Fn, En. assert (is_nan f_zero = false) as Nz by reflexivity.
  destruct (div_key_mono f_zero s dd Nz B1 Fn) as (N1 & N2 & N3); [lra|exact B2|].
  unfold f_zero in *. apply f_le_key; [reflexivity|exact N2|]. apply Rle_trans with (key (f_div (B754_zero false) dd)); [|exact N3].
  destruct dd as [[|]|[|]| |[|] md ed Hd]; cbn [key f_div Bdiv B2R] in *; try discriminate; try lra; unfold f_div; cbn; lra.
Qed.
Print Assumptions C39_l2_nonneg_f32.


(* ---- names ---- *)
(** The names by which a metric is selected (ASCII letters in any case, [lowercase]). *)
Definition metric_names (m : metric) : list string :=
  match m with
  | ML2 => ["l2"] | MRmse => ["rmse"] | MBinaryLoss => ["binaryloss"; "binary_loss"]
  | MBinaryError => ["binaryerror"; "binary_error"] | MBinaryError01 => ["binaryerror01"; "binary_error01"]
  end%string.
Theorem C39_names : forall name m, metric_from_name name = Some m <-> In (lowercase name) (metric_names m).
Proof.
  intros name m. unfold metric_from_name. set (n := lowercase name). clearbody n.
  repeat match goal with |- context[String.eqb n ?s] => destruct (String.eqb_spec n s); [subst n; split; [intros E; injection E as <-; cbn; tauto|destruct m; cbn; intros H; repeat (destruct H as [H|H]; try discriminate H); try contradiction; reflexivity]|] end.
  cbn [orb]. split; [discriminate|]. destruct m; cbn; intros H; repeat (destruct H as [H|H]; [congruence|]); contradiction.
Qed.
Print Assumptions C39_names.
(** A list of names is accepted exactly when every name is known, and yields the metrics in the given order. *)
Theorem C39_names_list : forall names ms, metrics_from_names names = Some ms <-> Forall2 (fun n m => In (lowercase n) (metric_names m)) names ms.
Proof.
  induction names as [|n names IH]; intros ms; cbn [metrics_from_names].
  - split; [intros E; injection E as <-; constructor|intros H; inversion H; reflexivity].
  - destruct (metric_from_name n) as [m|] eqn:E.
    + destruct (metrics_from_names names) as [ms'|] eqn:E'.
      * split.
        -- intros H. injection H as <-. constructor; [apply C39_names, E|apply IH; reflexivity].
        -- intros H. inversion H as [|? m' ? ms'' H1 H2]; subst. apply C39_names in H1. apply IH in H2. congruence.
      * split; [discriminate|]. intros H. inversion H as [|? m' ? ms'' H1 H2]; subst. apply IH in H2. congruence.
    + split; [discriminate|]. intros H. inversion H as [|? m' ? ms'' H1 H2]; subst. apply C39_names in H1. congruence.
Qed.
Print Assumptions C39_names_list.
Example C39_names_ex : metrics_from_names ["L2"; "Binary_Error"]%string = Some [ML2; MBinaryError] /\ metrics_from_names ["L2"; "accuracy"]%string = None.
Proof. split; reflexivity. Qed.
