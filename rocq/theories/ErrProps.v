(** Properties C18, C19, C20, C30 and C31 in single precision: how far rounding takes the results from the exact ones. *)
From Coq Require Import Permutation Reals Psatz.
From Flocq Require Import Core BinarySingleNaN.
From Verif Require Import Base BaseProofs BitModel BitSpec BitProofs BitProofs2 SimdModel SliceModel SliceSpec SliceProofs SliceProps CountSumProofs F32 F32Proofs Num ScaledModel ScaledProofs ScaledProps SumErrProofs ErrProofs ScaledErrProofs BinnerProofs
  DataModel Config TreeModel DatasetModel DatasetSpec DatasetProps RouteProps LearnerModel LearnerSpec LearnerProofs LearnerProofs2 LearnerProofs3 LearnerProofs4 LearnerProofs5 GainSpec LearnerProps GrownErrProofs GainErrProofs ErrSpec.
Local Open Scope R_scope.

Lemma linproj_zero w (lo hi : f32) (B : R) : (1 <= w <= 8)%nat -> bounded_by B lo hi -> B <= bpow radix2 100 -> err (linproj f32ops w (nofN f32ops 0) (nofN f32ops 0) (lo, hi)) 0 0.
Proof.
  intros Hw (Fl & Fh & Hlt & HBl & HBh) HB.
  unfold linproj. cbn [nadd nmul ndiv nsub f32ops]. pose proof (maxval_pos w Hw) as Hm. destruct (maxval_ok w) as (Fm & Bm); [lia|]. pose proof (bpow_gt_0 radix2 127) as Hp.
  change (nofN f32ops 0) with (B754_zero false : f32). set (z := B754_zero false : f32). assert (is_finite z = true) as Fz by reflexivity. assert (B2R' z = 0) as Bz by reflexivity.
  pose proof (div_repr z (maxval f32ops w) Fz Fm ltac:(rewrite Bm; lra)) as Hq. rewrite Bz in Hq. unfold Rdiv in Hq. rewrite Rmult_0_l in Hq. destruct (round_fits _ _ Hq) as (Fq & Bq); [rewrite Rabs_R0; lra|]. rewrite rnd_0 in Bq.
  assert (is_finite (f_sub hi lo) = true) as Fd.
  { pose proof big_100. apply (proj1 (round_fits _ _ (sub_repr hi lo Fh Fl) ltac:(apply Rabs_le_inv in HBl, HBh; apply Rabs_le; lra))). }
  destruct (mul_zero _ _ Fq Fd Bq) as (F1 & B1). destruct (mul_zero _ _ Fz Fl Bz) as (F2 & B2).
  pose proof (add_repr _ _ F1 F2) as Ha. rewrite B1, B2, Rplus_0_r in Ha. destruct (round_fits _ _ Ha) as (Fa & Ba); [rewrite Rabs_R0; lra|]. rewrite rnd_0 in Ba. apply err_eq; assumption.
Qed.
Lemma big_98 : 1073741824 * bpow radix2 90 <= bpow radix2 125 / 4.
Proof. change 125%Z with (35 + 90)%Z. rewrite bpow_plus. pose proof (bpow_gt_0 radix2 90). assert (bpow radix2 35 = 34359738368) as -> by (cbn; lra). lra. Qed.
Lemma tiny_148 : 4 * tiny = bpow radix2 (-148).
Proof. unfold tiny. change (-148)%Z with (2 + -150)%Z. rewrite bpow_plus. cbn [bpow]. change (IZR (Z.pow_pos radix2 2)) with 4. reflexivity. Qed.

(** C30: writing a value and reading it back gives the value clamped to the bounds, up to half a step and f32 rounding (a relative 2^-19 of the bounds). *)
Theorem C30_half_step_f32 : forall w vec i (v lo hi : f32) (B : R), slice_width w -> wf_blocks vec -> (i < length vec * (256 / w))%nat ->
  is_finite v = true -> bounded_by B lo hi -> B <= bpow radix2 90 ->
  exists vec' k x, set_scaled_value f32ops w vec i v (lo, hi) = Ok (vec', k) /\ get_scaled_value f32ops w vec' i (lo, hi) = Ok x /\
    close x (clamp (B2R lo) (B2R hi) (B2R v)) ((B2R hi - B2R lo) / IZR (Z.of_nat (2 ^ w) - 1) / 2 + B / IZR (2 ^ 19) + bpow radix2 (-148)).
Proof.
  intros w vec i v lo hi B Hw Hv Hi Fv HB HB90. pose proof HB as (Fl & Fh & Hlt & HBl & HBh). pose proof (width_small w Hw) as Hw'.
  assert (key lo <= key hi) as Hk by (rewrite !key_finite by assumption; lra).
  assert (f_le lo hi = true) as Hle by (apply f_le_key; [apply fin_nan, Fl|apply fin_nan, Fh|exact Hk]).
  destruct (C30_range_and_store w vec i v lo hi Hw Hv Hi Fl Fh Hle) as (vec' & k & E & Rk & _ & _ & G & _). exists vec', k.
  assert (k = discretise f32ops w v (lo, hi)) as Ek. { unfold set_scaled_value in E. apply rbind_ok in E as (? & _ & E). change (@Ok (blocks * Z) (x, discretise f32ops w v (lo, hi)) = Ok (vec', k)) in E. apply (f_equal (fun r => match r with Ok p => snd p | _ => k end)) in E. symmetry. exact E. }
  eexists. split; [exact E|]. split; [unfold get_scaled_value; rewrite G; reflexivity|].
  pose proof big_98 as Hb98. pose proof big_125 as Hb125. pose proof one_125 as Ho. pose proof (bpow_gt_0 radix2 90) as Hp90. pose proof (maxval_pos w Hw') as Hm.
  assert (0 <= B2R' hi - B2R' lo <= 2 * B) as HD by (apply Rabs_le_inv in HBl, HBh; lra). assert (IZR k <= IZR (Z.of_nat (2 ^ w) - 1) * 1) as Hkm by (rewrite Rmult_1_r; apply IZR_le, Rk). assert (0 <= IZR k) as Hk0 by (apply (IZR_le 0), Rk).
  assert (IZR (Z.of_nat (2 ^ w) - 1) <= 255) as Hm255. { apply (IZR_le _ 255). apply Z.sub_le_mono_r with (p := 1%Z) (n := Z.of_nat (2 ^ w)) (m := 256%Z). change 256%Z with (Z.of_nat (2 ^ 8)). apply Nat2Z.inj_le, Nat.pow_le_mono_r; lia. }
  assert (err (f_of_Z k) (IZR k) (u * IZR k)) as Ex by (apply ofZ_err; [apply Rk|lra]).
  assert (err (f_of_Z 1) 1 (u * 1)) as Ec by (apply (ofZ_err 1); [lia|lra]).
  pose proof (lin_err w _ _ lo hi (IZR k) 1 B Hw' Fl Fh ltac:(lra) HBl HBh Ex Ec ltac:(lra) (conj Hk0 Hkm) ltac:(lra) ltac:(lra)) as El.
  pose proof (disc_err w v lo hi Hw' Fl Fh Fv Hlt ltac:(lra)) as Ed0. pose proof (eq_ind_r (fun z => Rabs (IZR z - (Rmin (B2R' hi) (Rmax (B2R' lo) (B2R' v)) - B2R' lo) / (B2R' hi - B2R' lo) * IZR (Z.of_nat (2 ^ w) - 1)) <= / 2 + 6 * u * IZR (Z.of_nat (2 ^ w) - 1)) Ed0 Ek) as Ed. clear Ed0. cbv beta in Ed.
  assert (nofN f32ops (Z.to_N k) = f_of_Z k) as En by (unfold nofN; rewrite Z2N.id by apply Rk; reflexivity). refine (eq_ind_r (fun x => close (linproj f32ops w x _ _) _ _) _ En).
  refine (err_weaken _ _ _ _ (err_shift _ _ (clamp (B2R lo) (B2R hi) (B2R v)) _ El) _).
  rewrite <- tiny_148. change (IZR (2 ^ 19)) with 524288. set (D := B2R' hi - B2R' lo) in *. set (m := IZR (Z.of_nat (2 ^ w) - 1)) in *. change (B2R lo) with (B2R' lo). change (B2R hi) with (B2R' hi). change (B2R v) with (B2R' v). unfold clamp. set (c := Rmin (B2R' hi) (Rmax (B2R' lo) (B2R' v))) in *.
  assert (IZR k / m * D + 1 * B2R' lo - c = (IZR k - (c - B2R' lo) / D * m) * (D / m)) as ->. { field. assert (0 < D) as HD0 by (unfold D; lra). clearbody D m. clear - Hm HD0. split; apply Rgt_not_eq; lra. }
  rewrite Rabs_mult, (Rabs_pos_eq (D / m)) by (apply Rmult_le_pos; [lra|apply Rlt_le, Rinv_0_lt_compat; lra]).
  assert (Rabs (IZR k - (c - B2R' lo) / D * m) * (D / m) <= (/ 2 + 6 * u * m) * (D / m)) as H1 by (apply Rmult_le_compat_r; [apply Rmult_le_pos; [lra|apply Rlt_le, Rinv_0_lt_compat; lra]|exact Ed]).
  replace ((/ 2 + 6 * u * m) * (D / m)) with (D / m / 2 + 6 * u * D) in H1 by (field; lra). pose proof tiny_pos. clear - H1 HD H. lra.
Qed.
Print Assumptions C30_half_step_f32.
Example C30_half_step_f32_ex : slice_width 4 /\ wf_blocks [bb_ones] /\ (5 < length [bb_ones] * (256 / 4))%nat /\ is_finite (f_of_Z 1) = true /\ bounded_by 2 (f_of_Z (-2)) (f_of_Z 2) /\ 2 <= bpow radix2 90.
Proof.
  split; [unfold slice_width; auto|]. split; [repeat constructor; apply wf_bb_ones|]. split; [vm_compute; lia|]. split; [reflexivity|]. split; [|cbn; lra].
  destruct (f_of_Z_exact (-2)) as (F1 & B1); [lia|]. destruct (f_of_Z_exact 2) as (F2 & B2); [lia|]. unfold bounded_by. repeat split; try assumption.
  - change (B2R' (f_of_Z (-2)) < B2R' (f_of_Z 2)). rewrite B1, B2. lra.
  - change (Rabs (B2R' (f_of_Z (-2))) <= 2). rewrite B1, Rabs_left; lra.
  - change (Rabs (B2R' (f_of_Z 2)) <= 2). rewrite B2, Rabs_pos_eq; lra.
Qed.

Lemma block_sum_err w (vals' : nat -> N) (l : list nat) (lo hi : f32) (B : R) : slice_width w -> bounded_by B lo hi -> B <= bpow radix2 90 -> (length l <= 32)%nat ->
  (forall t, In t l -> (Z.of_N (vals' t) <= Z.of_nat (2 ^ w) - 1)%Z) ->
  err (linproj f32ops w (nofN f32ops (sumN (map vals' l))) (nofN f32ops (N.of_nat (length l))) (lo, hi)) (gradient_sum w (B2R' lo) (B2R' hi) vals' l) (IZR (Z.of_nat (length l)) * (B / IZR (2 ^ 20)) + bpow radix2 (-148)).
Proof.
  intros Hw HB HB90 Hl Hval. pose proof HB as (Fl & Fh & Hlt & HBl & HBh). pose proof (width_small w Hw) as Hw'. rewrite gradient_sum_eq by lia.
  assert (0 <= IZR (Z.of_N (sumN (map vals' l))) <= IZR (Z.of_nat (2 ^ w) - 1) * IZR (Z.of_nat (length l))) as HS.
  { clear - Hval. induction l as [|t l IH]; [cbn; lra|]. cbn [map sumN length]. rewrite N2Z.inj_add, plus_IZR, Nat2Z.inj_succ, succ_IZR. pose proof (IZR_le _ _ (Hval t (or_introl eq_refl))) as H1. specialize (IH (fun t' H => Hval t' (or_intror H))).
    assert (0 <= IZR (Z.of_N (vals' t))) by (apply (IZR_le 0); lia). lra. }
  pose proof big_98 as Hb98. pose proof big_125 as Hb125. pose proof one_125 as Ho. pose proof (bpow_gt_0 radix2 90) as Hp90. pose proof (maxval_pos w Hw') as Hm'. pose proof tiny_pos as Ht. rewrite <- tiny_148. change (IZR (2 ^ 20)) with 1048576.
  assert (IZR (Z.of_nat (2 ^ w) - 1) <= 255) as Hm255. { apply (IZR_le _ 255). apply Z.sub_le_mono_r with (p := 1%Z) (n := Z.of_nat (2 ^ w)) (m := 256%Z). change 256%Z with (Z.of_nat (2 ^ 8)). apply Nat2Z.inj_le, Nat.pow_le_mono_r; lia. }
  assert (0 <= B2R' hi - B2R' lo <= 2 * B) as HD by (apply Rabs_le_inv in HBl, HBh; lra).
  assert (IZR (Z.of_nat (length l)) <= 32) as Hl' by (apply (IZR_le _ 32); lia).
  destruct (Nat.eq_dec (length l) 0) as [H0|H0].
  - destruct l; [|discriminate H0]. cbn [map sumN length]. apply (err_weaken _ _ 0).
    + refine (eq_ind_r (fun r => err _ r 0) (linproj_zero w lo hi B Hw' HB ltac:(apply Rle_trans with (1 := HB90), bpow_le; lia)) _). cbn [length Z.of_nat Z.of_N map sumN]. field. apply Rgt_not_eq. clear - Hm'. lra.
    + cbn. lra.
  - assert (1 <= IZR (Z.of_nat (length l))) as Hl1 by (apply (IZR_le 1); lia). set (C := IZR (Z.of_nat (length l))) in *. set (S := IZR (Z.of_N (sumN (map vals' l)))) in *. set (m := IZR (Z.of_nat (2 ^ w) - 1)) in *.
    assert (S <= 255 * C) as HS' by (clear - HS Hm255 Hl1; nra).
    assert (err (nofN f32ops (sumN (map vals' l))) S (u * S)) as Ex by (unfold nofN; cbn [nofZ f32ops]; apply ofZ_err; [lia|fold S; lra]).
    assert (err (nofN f32ops (N.of_nat (length l))) C (u * C)) as Ec by (unfold nofN; cbn [nofZ f32ops]; rewrite nat_N_Z; apply ofZ_err; [lia|fold C; lra]).
    assert (C * B <= 32 * bpow radix2 90) as HCB by (clear - Hl' Hl1 HB90 Hp90 HD; nra).
    pose proof (lin_err w _ _ lo hi S C B Hw' Fl Fh ltac:(lra) HBl HBh Ex Ec Hl1 HS ltac:(lra) ltac:(lra)) as E. refine (err_weaken _ _ _ _ E _).
    assert (C * (B2R' hi - B2R' lo) <= 2 * (C * B)) by (clear - HD Hl1; nra). assert (0 <= C * B) by (clear - HD Hl1; nra). lra.
Qed.
Lemma masked_sum_filter n q vals : masked_sum n q vals = sumN (map vals (filter q (seq 0 n))).
Proof. unfold masked_sum, sumf. generalize (seq 0 n). intros t. induction t as [|x t IH]; [reflexivity|]. cbn [map sumN filter]. destruct (q x); cbn [map sumN]; rewrite IH; reflexivity. Qed.
Lemma countf_filter n q : countf n q = N.of_nat (length (filter q (seq 0 n))). Proof. reflexivity. Qed.
Lemma block_close w n q (vals : nat -> N) (lo hi : f32) (B : R) : slice_width w -> bounded_by B lo hi -> B <= bpow radix2 90 -> (n <= 32)%nat ->
  (forall t, (t < n)%nat -> (Z.of_N (vals t) <= Z.of_nat (2 ^ w) - 1)%Z) ->
  close (linproj f32ops w (nofN f32ops (masked_sum n q vals)) (nofN f32ops (countf n q)) (lo, hi)) (Rsum (map (fun t => dequantised w (B2R lo) (B2R hi) (vals t)) (filter q (seq 0 n))))
    (IZR (Z.of_N (countf n q)) * (B / IZR (2 ^ 20)) + bpow radix2 (-148)).
Proof.
  intros Hw HB HB90 Hn Hval. rewrite masked_sum_filter, countf_filter, nat_N_Z. apply block_sum_err; try assumption.
  - etransitivity; [apply filter_length_le|rewrite seq_length; exact Hn].
  - intros t Ht. apply filter_In in Ht as (Ht & _). apply in_seq in Ht. apply Hval. lia.
Qed.
(** C31: the sum of the enabled values of a 32-value block, projected back to the bounds, is the sum of the values' exact back-projections up to
    a relative 2^-20 of the bounds per value. *)
Theorem C31_sum_f32 : forall w vec b mask vals (lo hi : f32) (B : R), slice_width w -> wf_blocks vec ->
  (b * 32 < length vec * (256 / w))%nat -> holds w vec (length vec * (256 / w)) vals -> (mask < 2 ^ 32)%N -> bounded_by B lo hi -> B <= bpow radix2 90 ->
  exists x, sum_scaled_masked f32ops w vec b mask (lo, hi) = Ok (x, countf 32 (fun t => N.testbit mask (N.of_nat t))) /\
    close x (Rsum (map (fun t => dequantised w (B2R lo) (B2R hi) (vals (32 * b + t)%nat)) (filter (fun t => N.testbit mask (N.of_nat t)) (seq 0 32))))
      (IZR (Z.of_N (countf 32 (fun t => N.testbit mask (N.of_nat t)))) * (B / IZR (2 ^ 20)) + bpow radix2 (-148)).
Proof.
  intros w vec b mask vals lo hi B Hw Hv Hb Hh Hm HB HB90.
  assert (popcount mask = countf 32 (fun t => N.testbit mask (N.of_nat t))) as Ep. { rewrite (popcount_sum 32) by exact Hm. symmetry. apply countf_sumf. }
  exists (linproj f32ops w (nofN f32ops (masked_sum 32 (fun t => N.testbit mask (N.of_nat t)) (fun t => vals (32 * b + t)%nat))) (nofN f32ops (countf 32 (fun t => N.testbit mask (N.of_nat t)))) (lo, hi)).
  split.
  - unfold sum_scaled_masked. rewrite (C07_sum_masked w vec b mask vals Hw Hv Hb Hh), Ep. reflexivity.
  - apply (block_close w 32 (fun t => N.testbit mask (N.of_nat t)) (fun t => vals (32 * b + t)%nat) lo hi B Hw HB HB90 (le_n 32)).
    intros t Ht. assert (get_value w vec (32 * b + t) = Ok (vals (32 * b + t)%nat)) as E.
    { apply Hh. clear - Hb Ht Hw. destruct Hw as [->|[->|[->| ->]]]; [change (256 / 1)%nat with 256%nat in *|change (256 / 2)%nat with 128%nat in *|change (256 / 4)%nat with 64%nat in *|change (256 / 8)%nat with 32%nat in *]; lia. }
    pose proof (C06_value_bound w vec _ _ Hw Hv E) as Hg. apply N2Z.inj_lt in Hg. rewrite pow2_N_Z in Hg. lia.
Qed.
Print Assumptions C31_sum_f32.
(** The hypotheses on the slice are those of C31_instance. *)
Example C31_sum_f32_ex : slice_width 4 /\ wf_blocks [bb_ones] /\ (1 * 32 < length [bb_ones] * (256 / 4))%nat /\ holds 4 [bb_ones] 64 (fun _ => 15%N) /\ (5 < 2 ^ 32)%N /\ bounded_by 2 (f_of_Z (-2)) (f_of_Z 2) /\ 2 <= bpow radix2 90.
Proof. destruct C31_instance as (A1 & A2 & A3 & A4). destruct C30_half_step_f32_ex as (_ & _ & _ & _ & A5 & A6). repeat split; try assumption; try (apply A5). vm_compute. lia. Qed.

(* ---- the sums of a node ---- *)

Lemma grown_nonempty dbg0 dbg (cfg : config f32ops) d s sizes bounds sched gradients nd : setting dbg0 cfg d s sizes sched -> grown dbg cfg s sizes bounds sched gradients nd -> (0 < nactive_examples s)%nat.
Proof.
  intros (HR & Hsz & Hsch & Hsm) HG. destruct (grown_pre _ dbg0 dbg _ _ _ _ _ _ _ HR Hsz Hsch Hsm nd HG) as (HL & Hw & _). induction HG as [root E| |]; try assumption.
  destruct (root_ok f32ops cfg s sizes bounds HL Hw Hsm sched gradients root Hsch E) as (_ & _ & H & _). exact H.
Qed.

(** C19: the histograms and the gradient sum of every node, however they were obtained (counted, or derived from the parent's by subtraction): with [min_examples_leaf] at most 1,
    a bin is within [(depth + 1) * n * B * 2^-20] of the exact sum of the (discretised) gradients of its examples and the node's gradient sum within [(depth + 1)^2 * n * B * 2^-20],
    [n] being the number of examples of the tree and [B] the size of the gradient bounds. *)
Theorem C19_f32 : forall dbg0 dbg (cfg : config f32ops) d s sizes (lo hi : f32) sched gradients nd rows (B : R), setting dbg0 cfg d s sizes sched -> (c_min_examples_leaf cfg <= 1)%N ->
  bounded_by B lo hi -> bpow radix2 (-40) <= B -> INR (nactive_examples s) * B <= bpow radix2 100 -> (node_depth nd < 1000)%nat ->
  grown dbg cfg s sizes (lo, hi) sched gradients nd -> example_rows s = Ok rows ->
  let l := members (nactive_examples s) nd in
  let sum := gradient_sum (c_discr_nbits cfg) (B2R lo) (B2R hi) (gradient_at cfg ((lo, hi) : num f32ops * num f32ops) gradients rows) in
  let k := INR (node_depth nd + 1) in
  let e := INR (nactive_examples s) * B / IZR (2 ^ 20) in
  (forall f b fm, candidate s f b -> ds_get_bitvec s f b = Ok fm ->
    exists g, bin_of nd f b = Some (g, N.of_nat (length (filter (bbit fm) l))) /\ close g (sum (filter (bbit fm) l)) (k * e)) /\
  close (nd_grad nd) (sum l) (k ^ 2 * e) /\ nd_count nd = N.of_nat (length l).
Proof.
  intros dbg0 dbg cfg d s sizes lo hi sched gradients nd rows B HS Hmin (Fl & Fh & Hlt & HBl & HBh) HB0 HB1 Hd HG Hrows l sum k e. pose proof HS as (HR & Hsz & Hsch & Hsm).
  pose proof (grown_nonempty _ _ _ _ _ _ _ _ _ _ HS HG) as Hn. rewrite INR_IZR_INZ in HB1.
  pose proof (grown_err dbg0 dbg cfg d s sizes lo hi sched gradients HR Hsz Hsch Hsm Hmin B Fl Fh Hlt HBl HBh HB0 HB1 Hn nd rows HG Hrows Hd) as (Hbins & Hgrad).
  destruct (grown_pre _ dbg0 dbg _ _ _ _ _ _ _ HR Hsz Hsch Hsm nd HG) as (HL & Hw & Hs & _). pose proof (grown_ok _ dbg0 dbg _ _ _ _ _ _ _ HR Hsz Hsch Hsm nd rows HG Hrows) as HF.
  assert (k = IZR (Z.of_nat (depth nd + 1))) as Ek by (unfold k; rewrite INR_IZR_INZ; reflexivity).
  assert (e = unit_err s B) as Ee by (unfold e, unit_err; rewrite INR_IZR_INZ; change (IZR (2 ^ 20)) with 1048576; lra).
  split; [|split; [|apply (fo_count _ _ _ _ _ _ HF)]].
  - intros f b fm Hc Em. destruct (bin_exists f32ops s sizes HL nd f b (ho_shape _ _ _ _ (fo_hists _ _ _ _ _ _ HF)) Hc) as ((g & c) & Ev).
    pose proof (C18_counts f32ops dbg0 dbg cfg d s sizes (lo, hi) sched gradients nd f b fm (g, c) HS HG Hc Em Ev) as Hcnt. cbn [snd] in Hcnt. exists g.
    split; [rewrite Ev; rewrite Hcnt; reflexivity|]. specialize (Hbins f b fm (g, c) Hc Em Ev). rewrite Ek, Ee. exact Hbins.
  - rewrite Ek, Ee. replace (IZR (Z.of_nat (depth nd + 1)) ^ 2) with (IZR (Z.of_nat (depth nd + 1)) * IZR (Z.of_nat (depth nd + 1))) by ring. exact Hgrad.
Qed.
Print Assumptions C19_f32.

Lemma stored_disc (cfg : config f32ops) (lo hi g : f32) : valid_width (c_discr_nbits cfg) = true -> is_finite lo = true -> is_finite hi = true -> B2R' lo < B2R' hi ->
  stored_gradient cfg ((lo, hi) : num f32ops * num f32ops) g = Z.to_N (discretise f32ops (c_discr_nbits cfg) g ((lo, hi) : num f32ops * num f32ops)).
Proof.
  intros Hw Fl Fh Hlt. unfold stored_gradient. apply N.mod_small. assert (1 <= c_discr_nbits cfg <= 8)%nat as Hw' by (apply valid_width_cases in Hw; lia). set (w := c_discr_nbits cfg) in *.
  destruct (disc_range w g lo hi Hw' Fl Fh ltac:(rewrite !key_finite by assumption; lra)) as (A & Bd). apply N2Z.inj_lt. rewrite pow2_N_Z.
  match goal with |- (Z.of_N (Z.to_N ?x) < _)%Z => assert (0 <= x <= Z.of_nat (2 ^ w) - 1)%Z as (A' & B') by (split; [exact A|exact Bd]); rewrite (Z2N.id x A'); apply (Z.le_lt_trans _ _ _ B') end. lia.
Qed.
(** The discretised gradients of a list of examples, against their true gradients. *)
Lemma code_close w (lo hi g : f32) (B : R) (cfg : config f32ops) : c_discr_nbits cfg = w -> valid_width w = true -> bounded_by B lo hi -> B <= bpow radix2 100 -> is_finite g = true ->
  Rabs (dequantised w (B2R lo) (B2R hi) (stored_gradient cfg ((lo, hi) : num f32ops * num f32ops) g) - clamp (B2R lo) (B2R hi) (B2R g)) <= (B2R hi - B2R lo) * (/ IZR (Z.of_nat (2 ^ w) - 1) / 2 + / IZR (2 ^ 21)).
Proof.
  intros <- Hw (Fl & Fh & Hlt & HBl & HBh) HB Fg. set (w := c_discr_nbits cfg) in *. assert (1 <= w <= 8)%nat as Hw' by (apply valid_width_cases in Hw; lia).
  rewrite (stored_disc cfg lo hi g Hw Fl Fh Hlt). 
  pose proof (bpow_gt_0 radix2 100) as Hp100. pose proof big_125 as Hb125. assert (bpow radix2 100 <= bpow radix2 125 / 4) as Hb100. { change 125%Z with (25 + 100)%Z. rewrite bpow_plus. assert (bpow radix2 25 = 33554432) as -> by (cbn; lra). lra. }
  pose proof (disc_err w g lo hi Hw' Fl Fh Fg Hlt ltac:(apply Rabs_le_inv in HBl, HBh; lra)) as Ed.
  destruct (disc_range w g lo hi Hw' Fl Fh ltac:(rewrite !key_finite by assumption; lra)) as (R0 & _). fold w.
  match goal with |- context [Z.to_N ?x] => set (z := x) end. assert (0 <= z)%Z as R0' by exact R0. assert (Rabs (IZR z - (Rmin (B2R' hi) (Rmax (B2R' lo) (B2R' g)) - B2R' lo) / (B2R' hi - B2R' lo) * IZR (Z.of_nat (2 ^ w) - 1)) <= / 2 + 6 * u * IZR (Z.of_nat (2 ^ w) - 1)) as Ed' by exact Ed. clear R0 Ed. rename R0' into R0. rename Ed' into Ed. clearbody z. unfold dequantised. rewrite Z2N.id by exact R0.
  assert ((2 ^ w - 1)%R = IZR (Z.of_nat (2 ^ w) - 1)) as -> by (rewrite minus_IZR, <- INR_IZR_INZ, pow_INR; reflexivity). pose proof (maxval_pos w Hw') as Hm. unfold clamp.
  change (B2R lo) with (B2R' lo) in *. change (B2R hi) with (B2R' hi) in *. change (B2R g) with (B2R' g) in *. set (c := Rmin (B2R' hi) (Rmax (B2R' lo) (B2R' g))) in *. set (m := IZR (Z.of_nat (2 ^ w) - 1)) in *. change (IZR (2 ^ 21)) with 2097152.
  set (D := B2R' hi - B2R' lo) in *. assert (0 < D) as HD by (unfold D; lra).
  assert (B2R' lo + IZR z * (D / m) - c = (IZR z - (c - B2R' lo) / D * m) * (D / m)) as ->. { field. clear - Hm HD. split; apply Rgt_not_eq; lra. }
  assert (0 <= D / m) as HDm by (apply Rmult_le_pos; [lra|apply Rlt_le, Rinv_0_lt_compat; lra]). rewrite Rabs_mult, (Rabs_pos_eq (D / m)) by exact HDm.
  assert (Rabs (IZR z - (c - B2R' lo) / D * m) * (D / m) <= (/ 2 + 6 * u * m) * (D / m)) as H1 by (apply Rmult_le_compat_r; [exact HDm|exact Ed]).
  replace ((/ 2 + 6 * u * m) * (D / m)) with (D * (/ m / 2) + 6 * u * D) in H1 by (field; apply Rgt_not_eq; lra). rewrite Rmult_plus_distr_l. lra.
Qed.
Lemma gradient_at_some (cfg : config f32ops) (bounds : num f32ops * num f32ops) (gradients : list f32) rows x j (g : f32) : nth_error rows x = Some j -> nth_error gradients j = Some g ->
  gradient_at cfg bounds gradients rows x = stored_gradient cfg bounds g.
Proof. intros H1 H2. unfold gradient_at. rewrite H1. exact (f_equal (fun o : option f32 => match o with Some g0 => stored_gradient cfg bounds g0 | None => 0%N end) H2). Qed.
Lemma Rsum_close {A} (f g : A -> R) e (l : list A) : (forall x, In x l -> Rabs (f x - g x) <= e) -> Rabs (Rsum (map f l) - Rsum (map g l)) <= INR (length l) * e.
Proof.
  induction l as [|x l IH]; intros H; [cbn; rewrite Rminus_0_r, Rabs_R0; lra|]. cbn [map Rsum fold_right length]. fold (Rsum (map f l)) (Rsum (map g l)). rewrite S_INR.
  specialize (IH (fun y Hy => H y (or_intror Hy))). specialize (H x (or_introl eq_refl)). replace (f x + Rsum (map f l) - (g x + Rsum (map g l))) with ((f x - g x) + (Rsum (map f l) - Rsum (map g l))) by ring.
  eapply Rle_trans; [apply Rabs_triang|]. lra.
Qed.

(** C18: the bin of a candidate split at a node, and the node's gradient sum, against the sum of the true gradients (clamped to the bounds) of the examples: besides the error of C19,
    half a step of the discretisation and a relative 2^-21 of the width of the bounds per example. *)
Theorem C18_f32 : forall dbg0 dbg (cfg : config f32ops) d s sizes (lo hi : f32) sched gradients nd rows (B : R), setting dbg0 cfg d s sizes sched -> (c_min_examples_leaf cfg <= 1)%N ->
  bounded_by B lo hi -> bpow radix2 (-40) <= B -> INR (nactive_examples s) * B <= bpow radix2 100 -> (node_depth nd < 1000)%nat -> (forall g, In g gradients -> is_finite (g : f32) = true) ->
  grown dbg cfg s sizes (lo, hi) sched gradients nd -> example_rows s = Ok rows ->
  let l := members (nactive_examples s) nd in
  let k := INR (node_depth nd + 1) in
  let e := INR (nactive_examples s) * B / IZR (2 ^ 20) in
  let each := (B2R hi - B2R lo) * (/ IZR (Z.of_nat (2 ^ c_discr_nbits cfg) - 1) / 2 + / IZR (2 ^ 21)) in
  (forall f b fm, candidate s f b -> ds_get_bitvec s f b = Ok fm ->
    exists g c, bin_of nd f b = Some (g, c) /\ c = N.of_nat (length (filter (bbit fm) l)) /\ close g (true_sum lo hi gradients rows (filter (bbit fm) l)) (k * e + INR (length (filter (bbit fm) l)) * each)) /\
  close (nd_grad nd) (true_sum lo hi gradients rows l) (k ^ 2 * e + INR (length l) * each).
Proof.
  intros dbg0 dbg cfg d s sizes lo hi sched gradients nd rows B HS Hmin HB HB0 HB1 Hd Hfin HG Hrows l k e each.
  destruct (C19_f32 dbg0 dbg cfg d s sizes lo hi sched gradients nd rows B HS Hmin HB HB0 HB1 Hd HG Hrows) as (Hbins & Hgrad & _). fold l k e in Hbins, Hgrad. pose proof HS as (HR & Hsz & Hsch & Hsm).
  destruct (grown_pre _ dbg0 dbg _ _ _ _ _ _ _ HR Hsz Hsch Hsm nd HG) as (HL & Hw & Hs & rows' & Hrows' & Hin). rewrite Hrows in Hrows'. injection Hrows' as <-.
  assert (B <= bpow radix2 100) as HBb. { pose proof (grown_nonempty _ _ _ _ _ _ _ _ _ _ HS HG) as Hn. apply (le_INR 1) in Hn. change (INR 1) with 1 in Hn. pose proof (bpow_gt_0 radix2 (-40)). apply Rle_trans with (2 := HB1). rewrite <- (Rmult_1_l B) at 1. apply Rmult_le_compat_r; [lra|exact Hn]. }
  assert (forall t, incl t l -> Rabs (gradient_sum (c_discr_nbits cfg) (B2R lo) (B2R hi) (gradient_at cfg ((lo, hi) : num f32ops * num f32ops) gradients rows) t - true_sum lo hi gradients rows t) <= INR (length t) * each) as Hc.
  { intros t Ht. apply Rsum_close. intros x Hx. apply Ht in Hx. unfold l, members in Hx. apply filter_In in Hx as (Hx & _). apply in_seq in Hx.
    pose proof (rows_length f32ops s rows Hrows) as Lr. destruct (nth_error rows x) as [j|] eqn:Ej; [|apply nth_error_None in Ej; lia]. pose proof (Hin j (nth_error_In _ _ Ej)) as Hj.
    pose proof (nth_error_In gradients j) as Hg. destruct (nth_error gradients j) as [g|] eqn:Eg; [|apply nth_error_None in Eg; destruct (Nat.lt_irrefl j (Nat.lt_le_trans _ _ _ Hj Eg))].
    rewrite (gradient_at_some cfg _ gradients rows x j g Ej Eg). unfold clamped_gradient. rewrite Ej, Eg. apply (code_close _ lo hi g B cfg eq_refl Hw HB HBb). apply Hfin, Hg. reflexivity. }
  assert (forall x t b, incl t l -> err x (gradient_sum (c_discr_nbits cfg) (B2R lo) (B2R hi) (gradient_at cfg ((lo, hi) : num f32ops * num f32ops) gradients rows) t) b ->
    err x (true_sum lo hi gradients rows t) (b + INR (length t) * each)) as Hw'.
  { intros x t b Ht Hx. eapply err_weaken; [exact (err_shift _ _ (true_sum lo hi gradients rows t) _ Hx)|]. apply Rplus_le_compat_l, Hc, Ht. }
  split; [|exact (Hw' _ l _ (incl_refl l) Hgrad)]. intros f b fm Hcd Em. destruct (Hbins f b fm Hcd Em) as (g & Ev & Hg). exists g. eexists. split; [exact Ev|]. split; [reflexivity|].
  apply Hw'; [intros x Hx; apply filter_In in Hx; apply Hx|exact Hg].
Qed.
Print Assumptions C18_f32.

(** [split_gain] in the form of the gain's error analysis. *)
Lemma split_gain_exact w lo hi gv lambda p l : split_gain w lo hi gv lambda p l =
  exact_gain lambda (gradient_sum w lo hi gv l) (gradient_sum w lo hi gv (filter p l)) (IZR (Z.of_nat (length l))) (IZR (Z.of_nat (length (filter p l)))).
Proof.
  unfold split_gain, score, exact_gain. rewrite !INR_IZR_INZ. pose proof (filter_halves _ p l) as Hl.
  assert (gradient_sum w lo hi gv l - gradient_sum w lo hi gv (filter p l) = gradient_sum w lo hi gv (filter (fun k => negb (p k)) l)) as ->.
  { assert (forall a b c : R, a = b + c -> a - b = c) as H by (intros; lra). apply H. clear. unfold gradient_sum. induction l as [|x l IH]; [cbn; lra|]. cbn [filter]. destruct (p x); cbn [negb map Rsum fold_right] in *; unfold Rsum in *; lra. }
  replace (IZR (Z.of_nat (length l)) - IZR (Z.of_nat (length (filter p l)))) with (IZR (Z.of_nat (length (filter (fun k => negb (p k)) l)))) by (rewrite <- minus_IZR; f_equal; lia).
  unfold Rdiv. ring.
Qed.

(** C20: the split chosen at a node, judged by its exact gain (on the discretised gradients): no other admissible split is better by more than twice the rounding error of a gain,
    [slack = 4 e (B + e)] with [e = (depth + 2)^2 n B 2^-20], and the minimal gain is met up to one [slack]. *)
Theorem C20_f32 : forall dbg0 dbg (cfg : config f32ops) d s sizes (lo hi : f32) sched gradients nd sp rows (B : R), setting dbg0 cfg d s sizes sched -> c_min_examples_leaf cfg = 1%N ->
  bounded_by B lo hi -> bpow radix2 (-40) <= B -> INR (nactive_examples s) * B <= bpow radix2 60 -> (node_depth nd < 1000)%nat ->
  is_finite (c_reg_lambda cfg : f32) = true -> 0 <= B2R (c_reg_lambda cfg) <= bpow radix2 100 -> is_finite (c_min_gain cfg : f32) = true ->
  grown dbg cfg s sizes (lo, hi) sched gradients nd -> find_best_split dbg cfg s nd = Ok sp -> example_rows s = Ok rows ->
  let l := members (nactive_examples s) nd in
  let G := fun fm => split_gain (c_discr_nbits cfg) (B2R lo) (B2R hi) (gradient_at cfg ((lo, hi) : num f32ops * num f32ops) gradients rows) (B2R (c_reg_lambda cfg)) (bbit fm) l in
  let e := INR (node_depth nd + 2) ^ 2 * (INR (nactive_examples s) * B / IZR (2 ^ 20)) in
  let slack := 4 * (e * (B + e)) in
  if is_no_split (sp_crit sp) then forall f b fm, divides s l f b fm -> G fm <= B2R (c_min_gain cfg) + slack
  else exists f fm, divides s l f (sp_id sp) fm /\ split_on s f (sp_id sp) (sp_crit sp) /\ B2R (c_min_gain cfg) - slack < G fm /\
       forall f' b' fm', divides s l f' b' fm' -> G fm' <= G fm + 2 * slack.
Proof.
  intros dbg0 dbg cfg d s sizes lo hi sched gradients nd sp rows B HS Hmin HB HB0 HB1 Hd Fr Hlam Fg HG E Hrows l G e slack. pose proof HB as (Fl & Fh & Hlt & HBl & HBh).
  pose proof (C20_best dbg0 dbg cfg d s sizes (lo, hi) sched gradients nd sp HS HG E) as HBest. unfold best_split in HBest. pose proof HS as (HR & Hsz & Hsch & Hsm).
  destruct (grown_pre _ dbg0 dbg _ _ _ _ _ _ _ HR Hsz Hsch Hsm nd HG) as (HL & Hw & Hs & _). pose proof (grown_ok _ dbg0 dbg _ _ _ _ _ _ _ HR Hsz Hsch Hsm nd rows HG Hrows) as HF. pose proof (fo_count _ _ _ _ _ _ HF) as Hcnt.
  pose proof (grown_nonempty _ _ _ _ _ _ _ _ _ _ HS HG) as Hn. assert (bpow radix2 60 <= bpow radix2 100) as H60 by (apply bpow_le; lia). rewrite INR_IZR_INZ in HB1. pose proof (Rle_trans _ _ _ HB1 H60) as HB1'.
  pose proof (grown_err dbg0 dbg cfg d s sizes lo hi sched gradients HR Hsz Hsch Hsm ltac:(lia) B Fl Fh Hlt HBl HBh HB0 HB1' Hn nd rows HG Hrows Hd) as (Hbins & Hgrad).
  set (gv := gradient_at cfg ((lo, hi) : num f32ops * num f32ops) gradients rows) in *. set (k := IZR (Z.of_nat (depth nd + 1))) in *. set (n := nactive_examples s) in *. fold l in Hgrad, Hcnt. assert (c_min_examples_leaf cfg <= 1)%N as Hmin1 by lia.
  assert (1 <= k <= 32768) as Hk by (unfold k, depth, node_depth in *; split; apply IZR_le; lia). assert (k <= 1000) as Hk2 by (unfold k; apply IZR_le; unfold depth, node_depth in *; lia).
  assert (e = (k + 1) * (k + 1) * unit_err s B) as Ee. { unfold e, unit_err, k. fold n. rewrite !INR_IZR_INZ. rewrite <- (plus_IZR _ 1). replace (Z.of_nat (depth nd + 1) + 1)%Z with (Z.of_nat (node_depth nd + 2)) by (unfold depth, node_depth; lia). change (IZR (2 ^ 20)) with 1048576. lra. }
  set (U := IZR (Z.of_nat n) * B) in *. pose proof (bpow_gt_0 radix2 (-40)) as Hp40. assert (0 < B) as HBp by lra. assert (0 < U) as HU. { apply Rmult_lt_0_compat; [apply (IZR_lt 0); lia|lra]. }
  assert (unit_err s B = 16 * u * U) as Eu by reflexivity.
  assert (64 * u * U <= e <= U) as HeU. { rewrite Ee, Eu. clear - Hk Hk2 HU. assert (4 <= (k + 1) * (k + 1) <= 1002001) as Hq by nra. set (q := (k + 1) * (k + 1)) in *. clearbody q. nra. }
  assert (length l <= n)%nat as Hln by exact (members_le cfg s lo hi Hsm Hmin1 Hn nd).
  assert (Hgain : forall f b fm v, divides s l f b fm -> bin_of nd f b = Some v -> snd v = N.of_nat (length (filter (bbit fm) l)) /\ err (gain cfg nd v : f32) (G fm) slack).
  { intros f b fm v (Hc & Em & (x & Hx & Hbx) & (y & Hy & Hby)) Ev. pose proof (C18_counts f32ops dbg0 dbg cfg d s sizes (lo, hi) sched gradients nd f b fm v HS HG Hc Em Ev) as Hv. change (snd v = N.of_nat (length (filter (bbit fm) l))) in Hv. split; [exact Hv|].
    pose proof (filter_halves _ (bbit fm) l) as Hh. assert (In x (filter (bbit fm) l)) as I1 by (apply filter_In; auto). assert (In y (filter (fun z => negb (bbit fm z)) l)) as I2 by (apply filter_In; rewrite Hby; auto).
    assert (1 <= length (filter (bbit fm) l))%nat as L1 by (destruct (filter (bbit fm) l); [destruct I1|cbn; lia]). assert (1 <= length (filter (fun z => negb (bbit fm z)) l))%nat as L2 by (destruct (filter (fun z => negb (bbit fm z)) l); [destruct I2|cbn; lia]).
    unfold G. rewrite split_gain_exact. specialize (Hbins f b fm v Hc Em Ev). change (members (nactive_examples s) nd) with l in Hbins. unfold slack.
    pose proof (fun k => gv_small cfg s lo hi sched gradients Hsch Hsm Hmin1 Hn rows k Hw) as Hgv. fold gv in Hgv.
    pose proof (gsum_bound cfg s lo hi sched Hsch Hsm Hmin1 B Hlt HBl HBh Hn gv Hw Hgv) as Hgb.
    assert (gradient_sum (c_discr_nbits cfg) (B2R' lo) (B2R' hi) gv l - gradient_sum (c_discr_nbits cfg) (B2R' lo) (B2R' hi) gv (filter (bbit fm) l) = gradient_sum (c_discr_nbits cfg) (B2R' lo) (B2R' hi) gv (filter (fun z => negb (bbit fm z)) l)) as Hsub by (rewrite (gsum_halves cfg lo hi gv (bbit fm) l); ring).
    assert (IZR (Z.of_nat (length l)) = IZR (Z.of_N (nd_count nd))) as EC by (rewrite Hcnt, nat_N_Z; reflexivity). assert (IZR (Z.of_nat (length (filter (bbit fm) l))) = IZR (Z.of_N (snd v))) as ECl by (rewrite Hv, nat_N_Z; reflexivity).
    assert (IZR (Z.of_nat (length (filter (fun z => negb (bbit fm z)) l))) = IZR (Z.of_N (nd_count nd)) - IZR (Z.of_N (snd v))) as ECr by (rewrite <- EC, <- ECl, <- minus_IZR; f_equal; lia).
    assert (forall t, (length t <= n)%nat -> Rabs (gradient_sum (c_discr_nbits cfg) (B2R' lo) (B2R' hi) gv t) <= U) as HgU. { intros t Ht. apply Rle_trans with (1 := Hgb t). apply Rmult_le_compat_r; [lra|apply IZR_le; lia]. }
    assert (0 < unit_err s B) as Hu0 by (rewrite Eu; clear - HU; lra).
    rewrite EC, ECl. refine (gain_err cfg nd v _ _ e B U Fr Hlam _ _ _ _ _ _ _ _ _ _ HB0 HB1 HeU).
    + rewrite Hv. lia.
    + rewrite Hv, Hcnt. lia.
    + rewrite <- EC. apply Rmult_le_compat_r; [lra|apply IZR_le; lia].
    + rewrite <- EC. change (bpow radix2 31) with (IZR (2 ^ 31)). apply IZR_le. unfold n in Hln. lia.
    + eapply err_weaken; [exact Hgrad|]. rewrite Ee. apply Rmult_le_compat_r; [lra|]. clear - Hk. nra.
    + eapply err_weaken; [exact Hbins|]. rewrite Ee. apply Rmult_le_compat_r; [lra|]. clear - Hk. nra.
    + apply (grad_step s B HB1' k _ _ _ _ e Hk Hgrad Hbins); [|exact Ee]. fold l. rewrite Hsub. apply HgU. lia.
    + rewrite <- EC. apply Hgb.
    + rewrite <- ECl. apply Hgb.
    + rewrite Hsub, <- ECr. apply Hgb. }
  assert (Hadm : forall f b fm, divides s l f b fm <-> exists v, admissible cfg s nd f b v /\ ds_get_bitvec s f b = Ok fm).
  { intros f b fm. split.
    - intros Hdv. pose proof Hdv as (Hc & Em & (x & Hx & Hb) & (x' & Hx' & Hb')). destruct (bin_exists f32ops s sizes HL nd f b (ho_shape _ _ _ _ (fo_hists _ _ _ _ _ _ HF)) Hc) as (v & Ev). exists v. split; [|exact Em].
      split; [exact Hc|]. split; [exact Ev|]. destruct (Hgain f b fm v Hdv Ev) as [Hv _]. pose proof (filter_halves _ (bbit fm) l) as Hh. rewrite Hmin, Hv, Hcnt.
      assert (In x (filter (bbit fm) l)) as H1 by (apply filter_In; auto). assert (In x' (filter (fun x => negb (bbit fm x)) l)) as H2 by (apply filter_In; rewrite Hb'; auto).
      destruct (filter (bbit fm) l); [destruct H1|]. destruct (filter (fun x => negb (bbit fm x)) l); [destruct H2|]. cbn [length] in *. lia.
    - intros (v & (Hc & Ev & H1 & H2) & Em). pose proof (C18_counts f32ops dbg0 dbg cfg d s sizes (lo, hi) sched gradients nd f b fm v HS HG Hc Em Ev) as Hv. change (snd v = N.of_nat (length (filter (bbit fm) l))) in Hv. pose proof (filter_halves _ (bbit fm) l) as Hh. rewrite Hmin, Hv in H1, H2. rewrite Hcnt in H2.
      split; [exact Hc|]. split; [exact Em|]. split.
      + destruct (filter (bbit fm) l) as [|x t] eqn:Ef; [cbn [length] in *; lia|]. exists x. apply filter_In. rewrite Ef. left. reflexivity.
      + destruct (filter (fun x => negb (bbit fm x)) l) as [|x t] eqn:Ef; [cbn [length] in *; lia|]. exists x. assert (In x (filter (fun x => negb (bbit fm x)) l)) as Hk' by (rewrite Ef; left; reflexivity).
        apply filter_In in Hk' as [Hk' Hb]. split; [exact Hk'|]. destruct (bbit fm x); [discriminate|reflexivity]. }
  assert (Hcmp : forall (x y : f32) r t, err x r slack -> err y t slack -> nlt f32ops x y = false -> t <= r + 2 * slack).
  { intros x y r t (Fx & Hx) (Fy & Hy) Hxy. apply Rabs_le_inv in Hx, Hy. apply Rnot_lt_le. intros Hc. assert (f_lt x y = true) as Ht; [|exact (Bool.diff_true_false (eq_trans (eq_sym Ht) Hxy))]. apply f_lt_key; [apply fin_nan, Fx|apply fin_nan, Fy|]. rewrite !key_finite by assumption. lra. }
  destruct (is_no_split (sp_crit sp)).
  - intros f b fm Hd'. destruct (proj1 (Hadm f b fm) Hd') as (v & Ha & Em). pose proof Ha as (Hc & Ev & _). destruct (Hgain f b fm v Hd' Ev) as [_ (Fv & Hv)]. specialize (HBest f b v Ha).
    apply Rabs_le_inv in Hv. apply Rnot_lt_le. intros Hlt'. assert (f_lt (c_min_gain cfg : f32) (gain cfg nd v) = true) as Ht; [|exact (Bool.diff_true_false (eq_trans (eq_sym Ht) HBest))].
    apply f_lt_key; [apply fin_nan, Fg|apply fin_nan, Fv|]. rewrite !key_finite by assumption. change (B2R' (c_min_gain cfg) < B2R' (gain cfg nd v)). change (B2R' (c_min_gain cfg) + slack < G fm) in Hlt'. lra.
  - destruct HBest as (f & v & Ha & Hso & Hg & Hmax). pose proof Ha as (Hc & Ev & _). destruct (lds_fm _ _ HL _ _ Hc) as (fm & Em & _). exists f, fm.
    assert (divides s l f (sp_id sp) fm) as Hdv by (apply Hadm; exists v; auto). destruct (Hgain f _ fm v Hdv Ev) as [_ Egain]. split; [exact Hdv|]. split; [exact Hso|]. split.
    + destruct Egain as (Fv & Hv). apply Rabs_le_inv in Hv. apply (f_lt_key (c_min_gain cfg : f32) (gain cfg nd v : f32) (fin_nan _ Fg) (fin_nan _ Fv)) in Hg. rewrite !key_finite in Hg by assumption. change (B2R' (c_min_gain cfg) - slack < G fm). change (B2R' (c_min_gain cfg) < B2R' (gain cfg nd v)) in Hg. lra.
    + intros f' b' fm' Hd'. destruct (proj1 (Hadm f' b' fm') Hd') as (v' & Ha' & Em'). pose proof Ha' as (Hc' & Ev' & _). destruct (Hgain f' b' fm' v' Hd' Ev') as [_ Egain']. exact (Hcmp _ _ _ _ Egain Egain' (Hmax f' b' v' Ha')).
Qed.
Print Assumptions C20_f32.

Lemma fz_exact z : (Z.abs z <= 2 ^ 24)%Z -> is_finite (f_of_Z z) = true /\ B2R' (f_of_Z z) = IZR z.
Proof. exact (f_of_Z_exact z). Qed.
(** The hypotheses of C18_f32, C19_f32 and C20_f32: 320 examples, of which 32 go to the left child (compressed) and 288 to the right child, whose histograms are derived by subtraction. *)
Example C20_f32_ex : exists s sizes root sp l r, setting false big_cfg big_data s sizes rev_sched /\ grown false big_cfg s sizes (fz (-2), fz 2) rev_sched big_grad r /\
    find_best_split false big_cfg s root = Ok sp /\ get_left_right_n2s false big_cfg s sizes (fz (-2), fz 2) rev_sched root sp = Ok (l, r) /\
    c_min_examples_leaf big_cfg = 1%N /\ bounded_by 2 (fz (-2)) (fz 2) /\ bpow radix2 (-40) <= 2 /\ INR (nactive_examples s) * 2 <= bpow radix2 60 /\ node_depth r = 1%nat /\
    is_finite (c_reg_lambda big_cfg : f32) = true /\ 0 <= B2R (c_reg_lambda big_cfg) <= bpow radix2 100 /\ is_finite (c_min_gain big_cfg : f32) = true /\
    example_rows s = Ok (seq 0 320) /\ (exists sp', find_best_split false big_cfg s r = Ok sp') /\ candidate s 1 2 /\ (forall g, In g big_grad -> is_finite (g : f32) = true).
Proof.
  assert (exists s sizes root sp l r, setting false big_cfg big_data s sizes rev_sched /\ grown false big_cfg s sizes (fz (-2), fz 2) rev_sched big_grad root /\
    find_best_split false big_cfg s root = Ok sp /\ is_no_split (sp_crit sp) = false /\ get_left_right_n2s false big_cfg s sizes (fz (-2), fz 2) rev_sched root sp = Ok (l, r) /\
    (nactive_examples s = 320%nat /\ node_depth r = 1%nat /\ example_rows s = Ok (seq 0 320) /\ candidate s 1 2)) as (s & sizes & root & sp & l & r & HS & HG & E & Ens & Elr & Hna & Hd & Er & Hc).
  { apply (grow_ex false big_cfg big_data [(big_grad, (fz (-2), fz 2))]). vm_compute. repeat split. exists [0; 1]%nat, 3%nat. repeat split; auto. }
  exists s, sizes, root, sp, l, r. pose proof (grown_right _ _ _ _ _ _ _ root sp l r HG E Ens Elr) as HGr.
  split; [exact HS|]. split; [exact HGr|]. split; [exact E|]. split; [exact Elr|]. split; [reflexivity|]. split; [apply C30_half_step_f32_ex|]. split; [apply Rle_trans with (bpow radix2 0); [apply bpow_le; lia|cbn; lra]|].
  split; [rewrite Hna, INR_IZR_INZ; change (IZR (Z.of_nat 320)) with 320; apply Rle_trans with (bpow radix2 20); [cbn; lra|apply bpow_le; lia]|]. split; [exact Hd|]. split; [exact (proj1 (fz_exact 0 ltac:(lia)))|].
  split. { assert (B2R' (c_reg_lambda big_cfg) = 0) as E0 by exact (proj2 (fz_exact 0 ltac:(lia))). pose proof (bpow_gt_0 radix2 100). change (0 <= B2R' (c_reg_lambda big_cfg) <= bpow radix2 100). rewrite E0. lra. }
  split; [exact (proj1 (fz_exact 0 ltac:(lia)))|]. split; [exact Er|]. split; [apply (C20_total f32ops false false big_cfg big_data s sizes (fz (-2), fz 2) rev_sched big_grad r HS); [cbn; lia|exact HGr]|]. split; [exact Hc|].
  intros g Hg. unfold big_grad in Hg. apply in_map_iff in Hg as (i & <- & _). destruct (i <? 32)%nat; [exact (proj1 (fz_exact (-2) ltac:(lia)))|exact (proj1 (fz_exact 2 ltac:(lia)))].
Qed.
