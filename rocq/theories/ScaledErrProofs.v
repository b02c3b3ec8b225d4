(** f32 rounding errors of scaled values. *)
From Coq Require Import Reals Psatz.
From Flocq Require Import Core BinarySingleNaN.
From Verif Require Import Base BaseProofs F32 F32Proofs Num ScaledModel ScaledProofs SumErrProofs ErrProofs.
Local Open Scope R_scope.

Lemma big_100 : 4 * bpow radix2 100 <= bpow radix2 127.
Proof. apply Rle_trans with (bpow radix2 102); [change 102%Z with (2 + 100)%Z; rewrite bpow_plus; cbn; lra|apply bpow_le; lia]. Qed.
Lemma big_125 : 4 * bpow radix2 125 = bpow radix2 127.
Proof. change 127%Z with (2 + 125)%Z. rewrite bpow_plus. change (bpow radix2 2) with 4. ring. Qed.
Lemma one_125 : 1000000 <= bpow radix2 125.
Proof. apply Rle_trans with (bpow radix2 60); [cbn; lra|apply bpow_le; lia]. Qed.

(** Back-projection of a sum [S] of [C] codes. *)
Lemma lin_err w x c lo hi (S C B : R) : (1 <= w <= 8)%nat -> is_finite lo = true -> is_finite hi = true -> B2R' lo <= B2R' hi ->
  Rabs (B2R' lo) <= B -> Rabs (B2R' hi) <= B -> err x S (u * S) -> err c C (u * C) -> 1 <= C -> 0 <= S <= IZR (Z.of_nat (2 ^ w) - 1) * C -> C * B <= bpow radix2 125 / 4 -> C <= bpow radix2 125 / 4 ->
  err (linproj f32ops w x c (lo, hi)) (S / IZR (Z.of_nat (2 ^ w) - 1) * (B2R' hi - B2R' lo) + C * B2R' lo)
      (5 * u * (C * (B2R' hi - B2R' lo)) + 4 * u * (C * B) + 3 * tiny).
Proof.
  intros Hw Fl Fh Hlh HL HH Hx Hc HC HS HCB HCb. unfold linproj. cbn [nadd nmul ndiv nsub f32ops]. pose proof (maxval_pos w Hw) as Hm. destruct (maxval_ok w ltac:(lia)) as (Fm & Bm). set (m := IZR (Z.of_nat (2 ^ w) - 1)) in *.
  set (L := B2R' lo) in *. set (H := B2R' hi) in *. set (D := H - L) in *. pose proof tiny_pos as Ht0. pose proof tiny_small as Ht1. pose proof big_125 as Hb1. pose proof one_125 as Hb2.
  assert (0 <= D <= 2 * B) as HD by (unfold D; apply Rabs_le_inv in HL, HH; lra). assert (0 <= B) as HB by lra.
  assert (0 <= S / m <= C) as HSm. { split; [apply Rmult_le_pos; [lra|apply Rlt_le, Rinv_0_lt_compat; lra]|]. apply Rmult_le_reg_r with m; [lra|]. unfold Rdiv. rewrite Rmult_assoc, Rinv_l; lra. }
  set (CD := C * D). set (CB := C * B). assert (0 <= CD <= 2 * CB) as HCD by (unfold CD, CB; nra). assert (B <= CB) as HBB by (unfold CB; nra). assert (D <= CD) as HDD by (unfold CD; nra). fold CB in HCB.
  assert (err (f_div x (maxval f32ops w)) (S / m) (2.1 * u * C + tiny)) as Hq.
  { assert (u * S / Rabs m = u * (S / m)) as Ed by (rewrite Rabs_pos_eq by lra; unfold Rdiv; ring).
    pose proof (err_div x (maxval f32ops w) S m (u * S) Hx Fm Bm ltac:(lra)) as Hq. cbv zeta in Hq. rewrite Ed in Hq. rewrite (Rabs_pos_eq (S / m)) in Hq by lra.
    specialize (Hq ltac:(lra)). eapply err_weaken; [exact Hq|]. lra. }
  assert (err (f_sub hi lo) D (u * D)) as Hd.
  { pose proof (err_sub hi lo H L 0 0 (err_exact _ Fh) (err_exact _ Fl)) as Hd. fold D in Hd. rewrite (Rabs_pos_eq D) in Hd by lra. specialize (Hd ltac:(lra)). eapply err_weaken; [exact Hd|lra]. }
  assert (err (f_mul (f_div x (maxval f32ops w)) (f_sub hi lo)) (S / m * D) (4.5 * u * CD + tiny)) as Hp.
  { pose proof (err_mul _ _ _ _ _ _ Hq Hd) as Hp. cbv zeta in Hp. rewrite (Rabs_pos_eq D), (Rabs_pos_eq (S / m)) in Hp by lra.
    assert (0 <= S / m * D <= CD) as HSD by (unfold CD; nra). rewrite (Rabs_pos_eq (S / m * D)) in Hp by lra.
    assert ((2.1 * u * C + tiny) * D + u * D * (S / m) + (2.1 * u * C + tiny) * (u * D) <= 3.2 * u * CD) as Hbd.
    { assert (tiny * D <= / 1000000 * u * CD). { unfold CD. assert (tiny <= / 1000000 * u * C) by nra. nra. } unfold CD in *. nra. }
    set (e := _ + (2.1 * u * C + tiny) * (u * D)) in *. clearbody e. specialize (Hp ltac:(lra)). eapply err_weaken; [exact Hp|]. lra. }
  assert (err (f_mul c lo) (C * L) (2.1 * u * CB + tiny)) as Hcl.
  { pose proof (err_mul _ _ _ _ _ _ Hc (err_exact _ Fl)) as Hp2. cbv zeta in Hp2. fold L in Hp2. rewrite (Rabs_pos_eq C) in Hp2 by lra. rewrite !Rmult_0_r, Rmult_0_l, !Rplus_0_r in Hp2.
    assert (Rabs (C * L) <= CB) as HCL by (rewrite Rabs_mult, (Rabs_pos_eq C) by lra; unfold CB; nra). assert (0 <= u * C * Rabs L <= u * CB) as HuC by (unfold CB; pose proof (Rabs_pos L); nra).
    specialize (Hp2 ltac:(lra)). eapply err_weaken; [exact Hp2|]. lra. }
  assert (Rabs (S / m * D + C * L) <= CB) as HP.
  { assert (S / m * D + C * L = S / m * H + (C - S / m) * L) as -> by (unfold D; ring). eapply Rle_trans; [apply Rabs_triang|]. rewrite !Rabs_mult, (Rabs_pos_eq (S / m)), (Rabs_pos_eq (C - S / m)) by lra.
    unfold CB. pose proof (Rabs_pos L). pose proof (Rabs_pos H). nra. }
  pose proof (err_add _ _ _ _ _ _ Hp Hcl) as Hs. specialize (Hs ltac:(lra)). eapply err_weaken; [exact Hs|]. lra.
Qed.

(** The code of a value. *)
Lemma disc_err w v lo hi : (1 <= w <= 8)%nat -> is_finite lo = true -> is_finite hi = true -> is_finite v = true -> B2R' lo < B2R' hi -> B2R' hi - B2R' lo <= bpow radix2 125 ->
  Rabs (IZR (discretise f32ops w v (lo, hi)) - (Rmin (B2R' hi) (Rmax (B2R' lo) (B2R' v)) - B2R' lo) / (B2R' hi - B2R' lo) * IZR (Z.of_nat (2 ^ w) - 1))
  <= / 2 + 6 * u * IZR (Z.of_nat (2 ^ w) - 1).
Proof.
  intros Hw Fl Fh Fv Hlt HDb. pose proof (maxval_pos w Hw) as Hm. destruct (maxval_ok w ltac:(lia)) as (Fm & Bm). rewrite discretise_unfold.
  assert (key lo <= key hi) as Hk by (rewrite !key_finite by assumption; lra). destruct (clampf_ok lo hi v Fl Fh Hk) as (Fc & Kc). set (c := clampf lo hi v) in *.
  assert (vkey v = B2R' v) as Ev. { unfold vkey. rewrite (fin_nan _ Fv). apply key_finite, Fv. }
  rewrite Ev, !key_finite in Kc by assumption. rewrite <- Kc. set (L := B2R' lo) in *. set (H := B2R' hi) in *. set (V := B2R' c) in *. set (D := H - L) in *. set (m := IZR (Z.of_nat (2 ^ w) - 1)) in *.
  assert (L <= V <= H) as HV by (rewrite Kc; split; [apply Rmin_glb; [lra|apply Rmax_l]|apply Rmin_l]). assert (0 < D) as HD by (unfold D; lra).
  pose proof tiny_pos as Ht0. pose proof tiny_small as Ht1. pose proof big_125 as Hb1. pose proof one_125 as Hb2.
  assert (err (f_sub hi lo) D (u * D)) as Hd.
  { pose proof (err_sub hi lo H L 0 0 (err_exact _ Fh) (err_exact _ Fl)) as Hd. fold D in Hd. rewrite (Rabs_pos_eq D) in Hd by lra. specialize (Hd ltac:(lra)). eapply err_weaken; [exact Hd|lra]. }
  assert (err (f_sub c lo) (V - L) (u * (V - L))) as Hn.
  { pose proof (err_sub c lo V L 0 0 (err_exact _ Fc) (err_exact _ Fl)) as Hn. rewrite (Rabs_pos_eq (V - L)) in Hn by lra. unfold D in *. specialize (Hn ltac:(lra)). eapply err_weaken; [exact Hn|lra]. }
  assert (0 <= (V - L) / D <= 1) as Hr. { split; [apply Rmult_le_pos; [lra|apply Rlt_le, Rinv_0_lt_compat; lra]|]. apply Rmult_le_reg_r with D; [lra|]. unfold Rdiv. rewrite Rmult_assoc, Rinv_l by lra. unfold D. lra. }
  set (r := (V - L) / D) in *.
  assert (err (f_div (f_sub c lo) (f_sub hi lo)) r (4 * u)) as Hq.
  { pose proof (err_div2 _ _ _ _ _ _ Hn Hd ltac:(nra)) as Hq. cbv zeta in Hq. fold r in Hq. rewrite (Rabs_pos_eq (V - L)), (Rabs_pos_eq r) in Hq by lra.
    assert ((u * (V - L) + u * D * (V - L) / D) / (D - u * D) = 2 * u / (1 - u) * r) as E by (unfold r; field; lra). rewrite E in Hq.
    assert (2 * u / (1 - u) <= 2.1 * u) as Hu by lra. specialize (Hq ltac:(nra)). eapply err_weaken; [exact Hq|]. nra. }
  assert (err (scalef w lo hi c) (r * m) (6 * u * m)) as Hs.
  { unfold scalef. pose proof (err_mul _ _ _ _ _ _ Hq (err_eq _ _ Fm Bm)) as Hs. cbv zeta in Hs. fold m in Hs. rewrite (Rabs_pos_eq m), (Rabs_pos_eq r) in Hs by lra. rewrite Rmult_0_r, Rmult_0_l, !Rplus_0_r in Hs.
    assert (0 <= r * m <= m) as Hrm by nra. rewrite (Rabs_pos_eq (r * m)) in Hs by lra. specialize (Hs ltac:(lra)). eapply err_weaken; [exact Hs|]. lra. }
  destruct Hs as (Fs & Hs). rewrite f_to_int_round by exact Fs.
  pose proof (Znearest_half (fun x => Z.leb 0 x) (B2R' (scalef w lo hi c))) as Hh. change (Znearest (fun x => Z.leb 0 x)) with ZnearestA in Hh.
  assert (0 < key (f_sub hi lo)) as Kd. { destruct Hd as (Fd & Hd). rewrite key_finite by exact Fd. apply Rabs_le_inv in Hd. lra. }
  destruct (scale_ok w lo hi c Hw Fl Fh Fc (proj1 Hd) Kd) as (_ & S0 & S1); [rewrite !key_finite by assumption; fold L V H; lra|].
  apply ZnearestA_le in S0, S1. change 0 with (IZR 0) in S0. unfold m in *. rewrite !ZnearestA_IZR in *. assert (Z.of_nat (2 ^ w) - 1 <= 255)%Z as H255 by (apply le_IZR; lra). rewrite Z.min_r, Z.max_r by lia.
  set (k := IZR (ZnearestA _)) in *. replace (k - r * _) with (k - B2R' (scalef w lo hi c) + (B2R' (scalef w lo hi c) - r * IZR (Z.of_nat (2 ^ w) - 1))) by ring.
  eapply Rle_trans; [apply Rabs_triang|]. rewrite Rabs_minus_sym in Hh. fold (scalef w lo hi c) in *. lra.
Qed.
