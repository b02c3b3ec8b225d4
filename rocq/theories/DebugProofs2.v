(** The arithmetic facts of DebugProofs.v, for exact arithmetic and (ranks of categories) for f32. *)
From Coq Require Import Reals Psatz.
From Flocq Require Import Core BinarySingleNaN.
From Verif Require Import Base BaseProofs F32 F32Proofs Num ScaledProofs Config DataModel BinnerModel BinnerSpec BinnerProofs DatasetModel DatasetProofs3 DatasetProofs6 TotalProofs TotalProofs2
  DebugModel DebugSpec DebugProofs.
Local Open Scope R_scope.

Lemma frac_le i m x : (i <= m)%nat -> 0 <= x -> IZR (Z.of_nat i) * (x / IZR (Z.of_nat (m + 1))) <= x * (IZR (Z.of_nat m) / IZR (Z.of_nat (m + 1))).
Proof.
  intros Hi Hx. pose proof (nat_pos m) as Hm. assert (IZR (Z.of_nat i) <= IZR (Z.of_nat m)) as H by (apply IZR_le; lia). unfold Rdiv.
  apply Rle_trans with (IZR (Z.of_nat m) * (x * / IZR (Z.of_nat (m + 1)))); [|right; ring]. apply Rmult_le_compat_r; [|exact H]. apply Rmult_le_pos; [exact Hx|apply Rlt_le, Rinv_0_lt_compat, Hm].
Qed.
Lemma frac_lt1 m : IZR (Z.of_nat m) / IZR (Z.of_nat (m + 1)) = 1 - / IZR (Z.of_nat (m + 1)).
Proof. pose proof (nat_pos m) as Hm. rewrite Nat2Z.inj_add, plus_IZR in *. cbn in *. field. lra. Qed.

Lemma rank_le_R m k i : (1 <= i <= m)%nat -> (ntoZ Rops 0 4294967295 (nround Rops (nmul Rops (nofnat Rops i) (ndiv Rops (nofnat Rops k) (nofnat Rops (m + 1))))) <= Z.of_nat k)%Z.
Proof.
  intros Hi. unfold nofnat. cbn [ntoZ nround nofZ nmul ndiv Rops]. rewrite Ztrunc_IZR.
  assert (ZnearestA (IZR (Z.of_nat i) * (IZR (Z.of_nat k) / IZR (Z.of_nat (m + 1)))) <= Z.of_nat k)%Z; [|lia].
  rewrite <- (ZnearestA_IZR (Z.of_nat k)) at 2. apply ZnearestA_le. assert (0 <= IZR (Z.of_nat k)) as H0 by (apply (IZR_le 0); lia).
  eapply Rle_trans; [apply frac_le; [lia|exact H0]|]. rewrite frac_lt1. pose proof (Rinv_0_lt_compat _ (nat_pos m)). nra.
Qed.

Lemma rank_le_f32 m n k i : (Z.of_nat (m + 1) <= 2 ^ 24)%Z -> (Z.of_nat n <= 2 ^ 24)%Z -> (1 <= i <= m)%nat -> (k <= n)%nat ->
  (ntoZ f32ops 0 4294967295 (nround f32ops (nmul f32ops (nofnat f32ops i) (ndiv f32ops (nofnat f32ops k) (nofnat f32ops (m + 1))))) <= Z.of_nat k)%Z.
Proof.
  intros Hm Hn Hi Hk. pose proof (nat_pos m) as Hp. destruct (f_of_Z_exact (Z.of_nat (m + 1))) as [Fm Bm]; [lia|].
  unfold nofnat. cbn [ntoZ nround nofZ nmul ndiv f32ops]. destruct (f_of_Z_exact (Z.of_nat k)) as [Fk Bk]; [lia|]. destruct (f_of_Z_exact (Z.of_nat i)) as [Fi Bi]; [lia|].
  assert (1 <= IZR (Z.of_nat i)) as Hi1 by (apply (IZR_le 1); lia). assert (IZR (Z.of_nat i) <= 16777216) as Hi2 by (apply IZR_le; lia).
  assert (IZR (Z.of_nat k) <= 16777216) as Hk2 by (apply IZR_le; lia). assert (1 <= IZR (Z.of_nat (m + 1)) <= 16777216) as Hm1 by (split; [apply (IZR_le 1)|apply IZR_le]; lia).
  assert (0 <= IZR (Z.of_nat k)) as Hk0 by (apply (IZR_le 0); lia).
  set (K := IZR (Z.of_nat k)) in *. set (D := IZR (Z.of_nat (m + 1))) in *. set (I := IZR (Z.of_nat i)) in *.
  assert (0 <= K / D <= 16777216) as Hq.
  { split; [apply Rmult_le_pos; [exact Hk0|apply Rlt_le, Rinv_0_lt_compat, Hp]|]. apply Rmult_le_reg_r with D; [exact Hp|]. unfold Rdiv. rewrite Rmult_assoc, Rinv_l by lra. nra. }
  pose proof M_big as HM. pose proof (div_repr _ _ Fk Fm ltac:(rewrite Bm; fold D; lra)) as [Nq Kq]. rewrite Bk, Bm in Kq. fold K D in Kq.
  assert (0 <= rnd (K / D) <= 16777216) as Hr.
  { split; [apply rnd_nn, Hq|]. rewrite <- (rnd_int 16777216) by (cbn; lia). apply rnd_mono, Hq. }
  rewrite clampM_id in Kq by lra. assert (is_finite (f_div (f_of_Z (Z.of_nat k)) (f_of_Z (Z.of_nat (m + 1)))) = true) as Fq by (apply finite_of_key; [exact Nq|lra]).
  set (q := f_div _ _) in *. rewrite (key_finite _ Fq) in Kq. pose proof (mul_repr _ _ Fi Fq) as [Np Kp]. rewrite Bi, Kq in Kp. fold I in Kp. set (p := f_mul _ q) in *.
  assert (I * rnd (K / D) <= K) as Hpk.
  { destruct (Nat.eq_dec k 0) as [Hz|Hk1]; [replace (K / D) with 0 by (unfold K; rewrite Hz; cbn; unfold Rdiv; ring); rewrite rnd_0; lra|].
    assert (1 <= K) as Hk3 by (apply (IZR_le 1); lia).
    assert (/ 16777216 <= K / D) as Hlow. { apply Rmult_le_reg_r with D; [exact Hp|]. unfold Rdiv. rewrite Rmult_assoc, Rinv_l by lra. nra. }
    destruct (rnd_relative (K / D)) as (e & He & E).
    { rewrite Rabs_pos_eq by lra. apply Rle_trans with (bpow radix2 (-24)); [apply bpow_le; lia|]. cbn. lra. }
    rewrite E. pose proof (frac_le i m K ltac:(lia) Hk0) as HF. fold I D in HF. rewrite frac_lt1 in HF. fold D in HF.
    assert (/ 16777216 <= / D) as HD by (apply Rinv_le; lra). assert (/ D <= 1) as HD1 by (rewrite <- Rinv_1; apply Rinv_le; lra). apply Rabs_le_inv in He.
    replace (I * (K / D * (1 + e))) with (I * (K / D) * (1 + e)) by ring.
    apply Rle_trans with (K * (1 - / D) * (1 + e)); [apply Rmult_le_compat_r; lra|]. assert ((1 - / D) * (1 + e) <= 1) by nra. nra. }
  assert (0 <= I * rnd (K / D)) as Hp0 by (apply Rmult_le_pos; lra).
  assert (0 <= rnd (I * rnd (K / D)) <= K) as Hrp.
  { split; [apply rnd_nn, Hp0|]. unfold K at 2. rewrite <- (rnd_int (Z.of_nat k)) by lia. apply rnd_mono. exact Hpk. }
  rewrite clampM_id in Kp by lra. assert (is_finite p = true) as Fp by (apply finite_of_key; [exact Np|lra]).
  rewrite f_to_int_round by exact Fp. rewrite (key_finite _ Fp) in Kp.
  assert (ZnearestA (B2R' p) <= Z.of_nat k)%Z; [|lia]. rewrite <- (ZnearestA_IZR (Z.of_nat k)). apply ZnearestA_le. rewrite Kp. fold K. lra.
Qed.

(* --- numerical features, exact arithmetic --- *)
Definition sumR (l : list R) : R := fold_right Rplus 0 l.
Lemma fold_sumR l : forall a, fold_left Rplus l a = a + sumR l.
Proof. induction l as [|x l IH]; intros a; cbn; [ring|]. rewrite IH. unfold sumR. ring. Qed.
Lemma sumR_upd (l : list R) i x y : nth_error l i = Some x -> sumR (upd l i y) = sumR l + (y - x).
Proof. revert i. induction l as [|z l IH]; intros [|i] H; cbn in H; try discriminate; cbn; [injection H as ->; ring|]. unfold sumR in IH. rewrite (IH i H). ring. Qed.
Lemma insert_weights (items : list (R * R)) : forall b b' : binner Rops R, binner_insert_all b (map (fun it => (fst it, fun x => nadd Rops x (snd it))) items) = Ok b' ->
  sumR (bn_bins b') = sumR (bn_bins b) + sumR (map snd items).
Proof.
  induction items as [|(v, k) t IH]; intros b b' H; cbn [map binner_insert_all fst snd] in H; [injection H as <-; cbn; ring|].
  apply rbind_ok in H as (b1 & E1 & H). unfold binner_insert in E1. apply rbind_ok in E1 as (x & Ex & E1). apply rbind_ok in E1 as (bins & Eb & E1). injection E1 as <-.
  apply set_idx_ok in Eb as [_ ->]. apply idx_ok in Ex. apply IH in H. cbn [bn_bins] in H. rewrite H, (sumR_upd _ _ _ _ Ex). cbn [nadd Rops map snd sumR fold_right]. unfold sumR. ring.
Qed.
Lemma num_same_R (cfg : config Rops) col grad lim ex r : num_candidates cfg col grad lim ex = Ok r -> num_candidates_dbg Rops cfg col grad lim ex = Ok r.
Proof.
  intros H. unfold num_candidates in H. unfold num_candidates_dbg.
  apply rbind_ok in H as (b0 & Eb0 & H). rewrite Eb0. cbn [rbind]. apply rbind_ok in H as (items & Ei & H). rewrite Ei. cbn [rbind].
  apply rbind_ok in H as (b & Eb & H). rewrite Eb. cbn [rbind]. cbv zeta in *. apply rbind_ok in H as (qs & Eq & H).
  unfold rank_iter_all in Eq. unfold rank_iter_all_dbg. rewrite (ranks_of_same _ _ _ _ _ _ (bn_bins b) _ _ qs (at_start _ _ _ (nle Rops) _ _ _)); [cbn [rbind]; exact H| |exact Eq].
  intros x Hx. apply in_map_iff in Hx as (i & <- & Hi). apply in_seq in Hi.
  assert (fold_left (fun a (it : num Rops * num Rops) => nadd Rops a (snd it)) items (nofZ Rops 0) = sumR (map snd items)) as Ews.
  { assert (forall (l : list (R * R)) a, fold_left (fun a (it : R * R) => a + snd it) l a = a + sumR (map snd l)) as HS.
    { induction l as [|it t IH]; intros a; cbn [fold_left map]; [cbn; lra|]. rewrite IH. cbn [sumR fold_right]. unfold sumR. lra. }
    exact (eq_trans (HS items 0) (Rplus_0_l _)). }
  rewrite Ews. assert (0 <= sumR (map snd items)) as Hpos.
  { assert (Forall (fun it : R * R => 0 <= snd it) items) as HF.
    { unfold num_items in Ei. apply mapM_ok in Ei. clear -Ei. induction Ei as [|j it l l' E _ IH]; constructor; [|exact IH].
      apply rbind_ok in E as (v & _ & E). apply rbind_ok in E as (g & _ & E). injection E as <-. cbn [snd nadd nabs Rops]. unfold EPSILON. cbn [ndiv nofZ Rops]. pose proof (Rabs_pos g). assert (0 < 1 / 8388608) by lra. change (num Rops) with R in *. lra. }
    clear -HF. induction HF as [|it t Hit _ IH]; cbn; [lra|]. unfold sumR in IH. change (num Rops) with R in *. lra. }
  set (S := sumR (map snd items)) in *. unfold rank_inside, nofnat. cbn [nle nofZ nmul ndiv nadd Rops].
  pose proof (nat_pos (c_max_nbins cfg)) as Hm. assert (0 <= IZR (Z.of_nat i)) as Hi0 by (apply (IZR_le 0); lia).
  assert (0 <= S / IZR (Z.of_nat (c_max_nbins cfg + 1))) as Hst by (apply Rmult_le_pos; [exact Hpos|apply Rlt_le, Rinv_0_lt_compat, Hm]).
  assert (cumulative 0 Rplus (fun x => x) (bn_bins b) (length (bn_bins b)) = S) as Htot.
  { unfold cumulative. rewrite firstn_all, map_id, fold_sumR. pose proof (insert_weights _ _ _ Eb) as HI. fold S in HI. revert HI.
    assert (bn_bins b0 = repeat 0 QUANTILE_EST_NBINS) as B0 by (unfold binner_new in Eb0; repeat (apply rbind_ok in Eb0 as (? & _ & Eb0)); injection Eb0 as <-; reflexivity).
    assert (forall k, sumR (repeat 0 k) = 0) as HZ by (induction k; cbn; [reflexivity|unfold sumR in *; lra]).
    pose proof (eq_trans (f_equal sumR B0) (HZ _)) as H0. intros HI. exact (eq_trans (Rplus_0_l _) (eq_trans HI (eq_trans (f_equal (fun z => z + S) H0) (Rplus_0_l S)))). }
  split; [apply Rle_bool_1, Rmult_le_pos; assumption|].
  assert (IZR (Z.of_nat i) * (S / IZR (Z.of_nat (c_max_nbins cfg + 1))) <= S) as Hle.
  { eapply Rle_trans; [apply frac_le; [|exact Hpos]; lia|]. rewrite frac_lt1. pose proof (Rinv_0_lt_compat _ Hm). nra. }
  split.
  - apply Rle_bool_1. exact (Rle_trans _ _ _ Hle (Req_le _ _ (eq_sym Htot))).
  - intros k _ Hk. match type of Hk with Rle_bool ?x ?y = _ => destruct (Rle_bool_spec x y) as [|Hlt] end; [discriminate|]. apply Rle_bool_1, Rlt_le, Hlt.
Qed.
