From Coq Require Import ZArith Bool List Reals Lra Lia.
From Flocq Require Import Core BinarySingleNaN Plus_error.
From Verif Require Import Base BaseProofs BitModel BitSpec BitProofs SliceModel SliceSpec SliceProofs SliceProps F32 F32Proofs Num ScaledModel.
Local Open Scope R_scope.

Lemma finite_of_key x : is_nan x = false -> - M < key x < M -> is_finite x = true.
Proof. destruct x as [|[|]| |]; cbn; intros; try reflexivity; try discriminate; lra. Qed.

Lemma f_max_key x y : is_nan x = false -> is_nan y = false -> is_nan (f_max x y) = false /\ key (f_max x y) = Rmax (key x) (key y).
Proof.
  intros Nx Ny. unfold f_max, f_is_nan. rewrite Nx, Ny. pose proof (f_le_key y x Ny Nx) as H. destruct (f_le y x).
  - split; [exact Nx|]. rewrite Rmax_left; [reflexivity|apply H; reflexivity].
  - split; [exact Ny|]. rewrite Rmax_right; [reflexivity|]. apply Rlt_le, Rnot_le_lt. intros Hc. apply H in Hc. discriminate.
Qed.
Lemma f_min_key x y : is_nan x = false -> is_nan y = false -> is_nan (f_min x y) = false /\ key (f_min x y) = Rmin (key x) (key y).
Proof.
  intros Nx Ny. unfold f_min, f_is_nan. rewrite Nx, Ny. pose proof (f_le_key x y Nx Ny) as H. destruct (f_le x y).
  - split; [exact Nx|]. rewrite Rmin_left; [reflexivity|apply H; reflexivity].
  - split; [exact Ny|]. rewrite Rmin_right; [reflexivity|]. apply Rlt_le, Rnot_le_lt. intros Hc. apply H in Hc. discriminate.
Qed.

Lemma fin_nan x : @is_finite 24 128 x = true -> is_nan x = false.
Proof. destruct x; cbn; congruence. Qed.

(** Order on the inputs: NaN counts as the smallest value (it is clamped to [lo]). *)
Definition vkey (v : f32) : R := if is_nan v then - M else key v.

Definition clampf (lo hi v : f32) : f32 := f_min hi (f_max lo v).
Lemma clampf_ok lo hi v : is_finite lo = true -> is_finite hi = true -> key lo <= key hi ->
  is_finite (clampf lo hi v) = true /\ key (clampf lo hi v) = Rmin (key hi) (Rmax (key lo) (vkey v)).
Proof.
  intros Fl Fh H. pose proof (fin_nan _ Fl) as Nl. pose proof (fin_nan _ Fh) as Nh. unfold clampf, vkey.
  pose proof (key_finite_strict lo Fl) as Bl. pose proof (key_finite_strict hi Fh) as Bh.
  assert (is_nan (f_max lo v) = false /\ key (f_max lo v) = Rmax (key lo) (if is_nan v then - M else key v)) as (N1 & K1).
  { destruct (is_nan v) eqn:Nv.
    - unfold f_max, f_is_nan. rewrite Nl, Nv. split; [exact Nl|]. rewrite Rmax_left by lra. reflexivity.
    - apply f_max_key; assumption. }
  destruct (f_min_key hi (f_max lo v) Nh N1) as (N2 & K2). rewrite K1 in K2. split; [|exact K2].
  apply finite_of_key; [exact N2|]. rewrite K2. pose proof (Rmin_l (key hi) (Rmax (key lo) (if is_nan v then - M else key v))).
  assert (key lo <= Rmin (key hi) (Rmax (key lo) (if is_nan v then - M else key v))) by (apply Rmin_glb; [exact H|apply Rmax_l]). lra.
Qed.

Lemma maxval_ok w : (w <= 8)%nat -> is_finite (maxval f32ops w) = true /\ B2R' (maxval f32ops w) = IZR (Z.of_nat (2 ^ w) - 1).
Proof.
  intros Hw. unfold maxval. cbn [nofZ f32ops]. apply f_of_Z_exact.
  do 9 (destruct w as [|w]; [cbn; lia|]). lia.
Qed.
Lemma maxval_pos w : (1 <= w <= 8)%nat -> 1 <= IZR (Z.of_nat (2 ^ w) - 1) <= 255.
Proof. intros Hw. do 9 (destruct w as [|w]; [try (cbn; lra); try lia|]). lia. Qed.

Lemma rnd_int z : (Z.abs z <= 2 ^ 24)%Z -> rnd (IZR z) = IZR z.
Proof. intros H. apply rnd_generic, generic_int, H. Qed.

Lemma M_big : 16777216 < M.
Proof. unfold M. change 16777216 with (bpow radix2 24). apply bpow_lt. reflexivity. Qed.

(** Width of the bounds interval as computed. *)
Lemma width_ok lo hi : is_finite lo = true -> is_finite hi = true -> key lo <= key hi ->
  is_nan (f_sub hi lo) = false /\ 0 <= key (f_sub hi lo) /\
  (key lo < key hi -> 0 < key (f_sub hi lo)).
Proof.
  intros Fl Fh H. destruct (sub_repr hi lo Fh Fl) as (A & B). rewrite (key_finite lo Fl), (key_finite hi Fh) in *. split; [exact A|].
  pose proof M_pos as HM.
  assert (0 <= rnd (B2R' hi - B2R' lo)) as H0 by (rewrite <- rnd_0; apply rnd_mono; lra).
  rewrite B. split.
  - unfold clampM. apply Rle_trans with (Rmin M (rnd (B2R' hi - B2R' lo))); [apply Rmin_glb; lra|apply Rmax_r].
  - intros Hlt. assert (rnd (B2R' hi + - B2R' lo) <> 0) as Hnz.
    { apply (round_plus_neq_0 radix2 fexp32 (round_mode mode_NE)).
      - apply generic_format_B2R.
      - apply generic_format_opp, generic_format_B2R.
      - intros Hc; lra. }
    replace (B2R' hi + - B2R' lo) with (B2R' hi - B2R' lo) in Hnz by ring.
    unfold clampM. apply Rlt_le_trans with (Rmin M (rnd (B2R' hi - B2R' lo))); [apply Rmin_glb_lt; lra|apply Rmax_r].
Qed.

(** The scaled value [((v0 - lo) / (hi - lo)) * maxval] as a function of the clamped value. *)
Definition scalef (w : nat) (lo hi c : f32) : f32 := f_mul (f_div (f_sub c lo) (f_sub hi lo)) (maxval f32ops w).

Lemma scale_ok w lo hi c : (1 <= w <= 8)%nat -> is_finite lo = true -> is_finite hi = true -> is_finite c = true ->
  is_finite (f_sub hi lo) = true -> 0 < key (f_sub hi lo) -> key lo <= key c <= key hi ->
  is_finite (scalef w lo hi c) = true /\ 0 <= B2R' (scalef w lo hi c) <= IZR (Z.of_nat (2 ^ w) - 1).
Proof.
  intros Hw Fl Fh Fc Fd Hd Hc. pose proof M_pos as HM. pose proof M_big as HB. pose proof (maxval_pos w Hw) as Hm. unfold scalef.
  destruct (sub_repr c lo Fc Fl) as (Na & Ka). destruct (sub_repr hi lo Fh Fl) as (Nd & Kd).
  assert (0 <= key (f_sub c lo)) as A0.
  { rewrite Ka. unfold clampM. apply Rle_trans with (Rmin M (rnd (B2R' c - B2R' lo))); [|apply Rmax_r].
    apply Rmin_glb; [lra|]. rewrite <- rnd_0. apply rnd_mono. rewrite !key_finite in Hc by assumption. lra. }
  assert (key (f_sub c lo) <= key (f_sub hi lo)) as A1.
  { rewrite Ka, Kd. apply clampM_mono, rnd_mono. rewrite !key_finite in Hc by assumption. lra. }
  pose proof (key_finite_strict _ Fd) as Bd.
  assert (is_finite (f_sub c lo) = true) as Fa by (apply finite_of_key; [exact Na|lra]).
  rewrite key_finite in A0, A1 by exact Fa. rewrite key_finite in A1, Hd by exact Fd.
  assert (B2R' (f_sub hi lo) <> 0) as Nz by lra.
  destruct (div_repr (f_sub c lo) (f_sub hi lo) Fa Fd Nz) as (Nq & Kq).
  set (a := f_sub c lo) in *. set (d := f_sub hi lo) in *. set (q := f_div a d) in *.
  assert (0 <= rnd (B2R' a / B2R' d) <= 1) as Q.
  { rewrite <- rnd_0 at 1. rewrite <- (rnd_int 1) by (cbn; lia). split; apply rnd_mono.
    - apply Rmult_le_pos; [lra|]. apply Rlt_le, Rinv_0_lt_compat. lra.
    - apply Rmult_le_reg_r with (B2R' d); [lra|]. unfold Rdiv. rewrite Rmult_assoc, Rinv_l by lra. lra. }
  rewrite clampM_id in Kq by lra.
  assert (is_finite q = true) as Fq by (apply finite_of_key; [exact Nq|rewrite Kq; lra]).
  rewrite key_finite in Kq by exact Fq. destruct (maxval_ok w) as (Fm & Km); [lia|].
  destruct (mul_repr q (maxval f32ops w) Fq Fm) as (Np & Kp). rewrite Km in Kp.
  assert (0 <= rnd (B2R' q * IZR (Z.of_nat (2 ^ w) - 1)) <= IZR (Z.of_nat (2 ^ w) - 1)) as P.
  { split.
    - rewrite <- rnd_0. apply rnd_mono. rewrite Kq. apply Rmult_le_pos; lra.
    - rewrite <- (rnd_int (Z.of_nat (2 ^ w) - 1)) at 2.
      + apply rnd_mono. rewrite Kq. rewrite <- (Rmult_1_l (IZR (Z.of_nat (2 ^ w) - 1))) at 2. apply Rmult_le_compat_r; lra.
      + assert (-256 < Z.of_nat (2 ^ w) - 1 < 256)%Z by (split; apply lt_IZR; lra). cbn. lia. }
  rewrite clampM_id in Kp by lra.
  assert (is_finite (f_mul q (maxval f32ops w)) = true) as Fp by (apply finite_of_key; [exact Np|rewrite Kp; lra]).
  rewrite key_finite in Kp by exact Fp. split; [exact Fp|]. rewrite Kp. exact P.
Qed.

Lemma discretise_unfold w v lo hi : discretise f32ops w v (lo, hi) = f_to_int 0 255 (f_round (scalef w lo hi (clampf lo hi v))).
Proof. reflexivity. Qed.

(** Degenerate widths: 0 or infinite. *)
Lemma scale_degenerate w lo hi c : (1 <= w <= 8)%nat -> is_finite lo = true -> is_finite hi = true -> is_finite c = true ->
  is_nan (f_sub hi lo) = false -> key lo <= key c <= key hi -> is_finite (f_sub hi lo) = false \/ key (f_sub hi lo) = 0 ->
  f_to_int 0 255 (f_round (scalef w lo hi c)) = 0%Z.
Proof.
  intros Hw Fl Fh Fc Nd Hc [Fd|Zd]; unfold scalef; destruct (maxval_ok w) as (Fm & Km); try lia; pose proof (maxval_pos w Hw) as Hm.
  - set (d := f_sub hi lo) in *. set (a := f_sub c lo). assert (is_nan a = false) by (apply (sub_repr c lo Fc Fl)).
    clear Km. revert Fm. generalize (maxval f32ops w). intros m Fm.
    destruct d as [|s| |]; try discriminate. destruct a as [sa|sa| |sa ma ea Ha]; try discriminate; cbn.
    + destruct m as [| | |]; try discriminate; reflexivity.
    + destruct m as [| | |]; try discriminate; reflexivity.
    + destruct m as [| | |]; try discriminate; reflexivity.
  - assert (is_finite (f_sub hi lo) = true) as Fd by (pose proof M_pos; apply finite_of_key; [exact Nd|lra]).
    assert (key lo = key hi) as E.
    { destruct (width_ok lo hi Fl Fh) as (_ & _ & W); [lra|]. destruct (Rlt_or_le (key lo) (key hi)) as [Hlt|Hge]; [|lra]. apply W in Hlt. lra. }
    assert (key (f_sub c lo) = 0) as Za.
    { destruct (sub_repr c lo Fc Fl) as (_ & Ka). rewrite Ka. replace (B2R' c - B2R' lo) with 0; [rewrite rnd_0; apply clampM_id; pose proof M_pos; lra|].
      rewrite <- !key_finite by assumption. lra. }
    assert (forall z : f32, is_nan z = false -> key z = 0 -> exists s, z = B754_zero s) as Hz.
    { intros z Nz Kz. pose proof M_pos. destruct z as [s|[|]| |s m e He]; cbn [key] in *; try lra; [eexists; reflexivity| |].
      - discriminate.
      - exfalso. cbn in Kz. apply eq_0_F2R in Kz. destruct s; discriminate. }
    destruct (Hz _ Nd Zd) as (s1 & E1). destruct (Hz (f_sub c lo)) as (s2 & E2); [apply (sub_repr c lo Fc Fl)|exact Za|].
    rewrite E1, E2. cbn. reflexivity.
Qed.

Lemma ZnearestA_le a b : a <= b -> (ZnearestA a <= ZnearestA b)%Z.
Proof. apply (@Zrnd_le _ (valid_rnd_NA)). Qed.
Lemma ZnearestA_IZR z : ZnearestA (IZR z) = z.
Proof. apply (@Zrnd_IZR _ (valid_rnd_NA)). Qed.

Lemma disc_range w v lo hi : (1 <= w <= 8)%nat -> is_finite lo = true -> is_finite hi = true -> key lo <= key hi ->
  (0 <= discretise f32ops w v (lo, hi) <= Z.of_nat (2 ^ w) - 1)%Z.
Proof.
  intros Hw Fl Fh H. rewrite discretise_unfold. destruct (clampf_ok lo hi v Fl Fh H) as (Fc & Kc). set (c := clampf lo hi v) in *.
  destruct (width_ok lo hi Fl Fh H) as (Nd & D0 & D1). pose proof (maxval_pos w Hw) as Hm.
  assert (key lo <= key c <= key hi) as Hc by (rewrite Kc; split; [apply Rmin_glb; [exact H|apply Rmax_l]|apply Rmin_l]).
  assert (1 <= Z.of_nat (2 ^ w) - 1 <= 255)%Z as Hmz by (split; apply le_IZR; lra).
  destruct (is_finite (f_sub hi lo)) eqn:Fd; [destruct (Req_dec (key (f_sub hi lo)) 0) as [Zd|Zd]|].
  - rewrite scale_degenerate by auto. lia.
  - destruct (scale_ok w lo hi c) as (Fs & S0 & S1); try assumption; [lra|]. rewrite f_to_int_round by exact Fs.
    apply ZnearestA_le in S0, S1. rewrite !ZnearestA_IZR in *. lia.
  - rewrite scale_degenerate by auto. lia.
Qed.

Lemma disc_mono w v v' lo hi : (1 <= w <= 8)%nat -> is_finite lo = true -> is_finite hi = true -> key lo <= key hi ->
  vkey v <= vkey v' -> (discretise f32ops w v (lo, hi) <= discretise f32ops w v' (lo, hi))%Z.
Proof.
  intros Hw Fl Fh H Hv. rewrite !discretise_unfold.
  destruct (clampf_ok lo hi v Fl Fh H) as (Fc & Kc). destruct (clampf_ok lo hi v' Fl Fh H) as (Fc' & Kc').
  set (c := clampf lo hi v) in *. set (c' := clampf lo hi v') in *.
  destruct (width_ok lo hi Fl Fh H) as (Nd & D0 & D1). pose proof (maxval_pos w Hw) as Hm.
  assert (key lo <= key c <= key hi) as Hc by (rewrite Kc; split; [apply Rmin_glb; [exact H|apply Rmax_l]|apply Rmin_l]).
  assert (key lo <= key c' <= key hi) as Hc' by (rewrite Kc'; split; [apply Rmin_glb; [exact H|apply Rmax_l]|apply Rmin_l]).
  assert (key c <= key c') as Hcc by (rewrite Kc, Kc'; apply Rle_min_compat_l, Rle_max_compat_l, Hv).
  destruct (is_finite (f_sub hi lo)) eqn:Fd; [destruct (Req_dec (key (f_sub hi lo)) 0) as [Zd|Zd]|].
  - rewrite !scale_degenerate by auto. lia.
  - destruct (scale_ok w lo hi c) as (Fs & S0 & S1); try assumption; [lra|].
    destruct (scale_ok w lo hi c') as (Fs' & S0' & S1'); try assumption; [lra|]. rewrite !f_to_int_round by assumption.
    assert (B2R' (scalef w lo hi c) <= B2R' (scalef w lo hi c')) as Hs.
    { rewrite <- !key_finite by assumption. unfold scalef. destruct (maxval_ok w) as (Fm & Km); [lia|].
      destruct (sub_key_mono c c' lo) as (A1 & A2 & A3); auto using fin_nan.
      destruct (div_key_mono (f_sub c lo) (f_sub c' lo) (f_sub hi lo)) as (B1 & B2 & B3); auto; [rewrite <- key_finite by exact Fd; lra|].
      apply mul_key_mono; auto. rewrite Km. lra. }
    apply ZnearestA_le in Hs. lia.
  - rewrite !scale_degenerate by auto. lia.
Qed.

Lemma disc_saturate w v lo hi : (1 <= w <= 8)%nat -> is_finite lo = true -> is_finite hi = true -> key lo < key hi ->
  is_finite (f_sub hi lo) = true ->
  (vkey v <= key lo -> discretise f32ops w v (lo, hi) = 0%Z) /\
  (key hi <= vkey v -> discretise f32ops w v (lo, hi) = (Z.of_nat (2 ^ w) - 1)%Z).
Proof.
  intros Hw Fl Fh H Fd. assert (key lo <= key hi) as H' by lra. rewrite !discretise_unfold. destruct (clampf_ok lo hi v Fl Fh H') as (Fc & Kc). set (c := clampf lo hi v) in *.
  destruct (width_ok lo hi Fl Fh H') as (Nd & D0 & D1). specialize (D1 H). pose proof (maxval_pos w Hw) as Hm. pose proof M_pos as HM. pose proof M_big as HB.
  assert (key lo <= key c <= key hi) as Hc by (rewrite Kc; split; [apply Rmin_glb; [exact H'|apply Rmax_l]|apply Rmin_l]).
  assert (1 <= Z.of_nat (2 ^ w) - 1 <= 255)%Z as Hmz by (split; apply le_IZR; lra).
  destruct (maxval_ok w) as (Fm & Km); [lia|].
  destruct (scale_ok w lo hi c) as (Fs & S0 & S1); try assumption. rewrite f_to_int_round by exact Fs.
  unfold scalef in *. destruct (sub_repr c lo Fc Fl) as (Na & Ka). destruct (sub_repr hi lo Fh Fl) as (Nd' & Kd).
  assert (B2R' (f_sub hi lo) <> 0) as Nz by (rewrite <- key_finite by exact Fd; lra).
  split; intros Hv.
  - assert (key c = key lo) as E by (rewrite Kc, Rmax_left, Rmin_right by lra; reflexivity).
    replace (B2R' c - B2R' lo) with 0 in Ka by (rewrite <- !key_finite by assumption; lra). rewrite rnd_0, clampM_id in Ka by lra.
    assert (is_finite (f_sub c lo) = true) as Fa by (apply finite_of_key; [exact Na|lra]).
    destruct (div_repr (f_sub c lo) (f_sub hi lo) Fa Fd Nz) as (Nq & Kq). rewrite key_finite in Ka by exact Fa.
    rewrite Ka in Kq. unfold Rdiv in Kq. rewrite Rmult_0_l, rnd_0, clampM_id in Kq by lra.
    assert (is_finite (f_div (f_sub c lo) (f_sub hi lo)) = true) as Fq by (apply finite_of_key; [exact Nq|lra]).
    destruct (mul_repr _ _ Fq Fm) as (Np & Kp). rewrite key_finite in Kq by exact Fq. rewrite Kq, Rmult_0_l, rnd_0, clampM_id in Kp by lra.
    rewrite key_finite in Kp by exact Fs. rewrite Kp. change 0 with (IZR 0). rewrite ZnearestA_IZR. lia.
  - assert (key c = key hi) as E by (rewrite Kc, Rmin_left; [reflexivity|]; apply Rle_trans with (vkey v); [exact Hv|apply Rmax_r]).
    assert (key (f_sub c lo) = key (f_sub hi lo)) as Ead by (rewrite Ka, Kd, <- !key_finite, E by assumption; reflexivity).
    pose proof (key_finite_strict _ Fd).
    assert (is_finite (f_sub c lo) = true) as Fa by (apply finite_of_key; [exact Na|lra]).
    destruct (div_repr (f_sub c lo) (f_sub hi lo) Fa Fd Nz) as (Nq & Kq). rewrite !key_finite in Ead by assumption.
    rewrite Ead in Kq. unfold Rdiv in Kq. rewrite Rinv_r in Kq by exact Nz. rewrite (rnd_int 1) in Kq by (cbn; lia). rewrite clampM_id in Kq by lra.
    assert (is_finite (f_div (f_sub c lo) (f_sub hi lo)) = true) as Fq by (apply finite_of_key; [exact Nq|lra]).
    destruct (mul_repr _ _ Fq Fm) as (Np & Kp). rewrite key_finite in Kq by exact Fq. rewrite Kq, Km, Rmult_1_l in Kp.
    rewrite rnd_int in Kp by (cbn; lia). rewrite clampM_id in Kp by lra.
    rewrite key_finite in Kp by exact Fs. rewrite Kp. rewrite ZnearestA_IZR. lia.
Qed.

(** Exact arithmetic. *)
Lemma disc_R w v lo hi : (1 <= w <= 8)%nat -> lo < hi ->
  discretise Rops w v (lo, hi) = ZnearestA ((Rmin hi (Rmax lo v) - lo) / (hi - lo) * IZR (Z.of_nat (2 ^ w) - 1)) /\
  0 <= (Rmin hi (Rmax lo v) - lo) / (hi - lo) * IZR (Z.of_nat (2 ^ w) - 1) <= IZR (Z.of_nat (2 ^ w) - 1).
Proof.
  intros Hw H. pose proof (maxval_pos w Hw) as Hm. unfold discretise, maxval. cbn [Rops nmin nmax nmul ndiv nsub nofZ nround ntoZ].
  set (c := Rmin hi (Rmax lo v)). assert (lo <= c <= hi) as Hc by (split; [apply Rmin_glb; [lra|apply Rmax_l]|apply Rmin_l]).
  assert (0 <= (c - lo) / (hi - lo) <= 1) as Hq.
  { split.
    - apply Rmult_le_pos; [lra|]. apply Rlt_le, Rinv_0_lt_compat. lra.
    - apply Rmult_le_reg_r with (hi - lo); [lra|]. unfold Rdiv. rewrite Rmult_assoc, Rinv_l by lra. lra. }
  assert (0 <= (c - lo) / (hi - lo) * IZR (Z.of_nat (2 ^ w) - 1) <= IZR (Z.of_nat (2 ^ w) - 1)) as Hp.
  { split; [apply Rmult_le_pos; lra|]. rewrite <- (Rmult_1_l (IZR (Z.of_nat (2 ^ w) - 1))) at 2. apply Rmult_le_compat_r; lra. }
  split; [|exact Hp]. rewrite Ztrunc_IZR. destruct Hp as (P0 & P1). apply ZnearestA_le in P0, P1. rewrite ZnearestA_IZR in P1.
  change 0 with (IZR 0) in P0. rewrite ZnearestA_IZR in P0. assert (Z.of_nat (2 ^ w) - 1 <= 255)%Z by (apply le_IZR; lra). lia.
Qed.

Lemma disc_R_error w v lo hi : (1 <= w <= 8)%nat -> lo < hi ->
  Rabs (linproj Rops w (IZR (discretise Rops w v (lo, hi))) 1 (lo, hi) - Rmin hi (Rmax lo v)) <= (hi - lo) / (2 * IZR (Z.of_nat (2 ^ w) - 1)).
Proof.
  intros Hw H. pose proof (maxval_pos w Hw) as Hm. destruct (disc_R w v lo hi Hw H) as (-> & _).
  unfold linproj, maxval. cbn [Rops nadd nmul ndiv nsub nofZ]. set (m := IZR (Z.of_nat (2 ^ w) - 1)) in *.
  set (c := Rmin hi (Rmax lo v)). set (s := (c - lo) / (hi - lo) * m).
  pose proof (Znearest_half (fun x => Z.leb 0 x) s) as Hh. change (Znearest (fun x => Z.leb 0 x)) with ZnearestA in Hh.
  replace (IZR (ZnearestA s) / m * (hi - lo) + 1 * lo - c) with ((IZR (ZnearestA s) - s) * ((hi - lo) / m)).
  2:{ unfold s. field. lra. }
  rewrite Rabs_mult. assert (0 < (hi - lo) / m) as Hp by (apply Rmult_lt_0_compat; [lra|apply Rinv_0_lt_compat; lra]).
  rewrite (Rabs_pos_eq ((hi - lo) / m)) by lra. rewrite Rabs_minus_sym in Hh.
  replace ((hi - lo) / (2 * m)) with (/ 2 * ((hi - lo) / m)) by (field; lra).
  apply Rmult_le_compat_r; [lra|]. exact Hh.
Qed.

(** Back-projection is linear. *)
Lemma linproj_R_sum w (vals : list R) lo hi : (1 <= w <= 8)%nat ->
  linproj Rops w (fold_right Rplus 0 vals) (INR (length vals)) (lo, hi) =
  fold_right Rplus 0 (map (fun v => linproj Rops w v 1 (lo, hi)) vals).
Proof.
  intros Hw. pose proof (maxval_pos w Hw) as Hm. unfold linproj, maxval. cbn [Rops nadd nmul ndiv nsub nofZ].
  induction vals as [|v t IH].
  - cbn. field. lra.
  - change (length (v :: t)) with (S (length t)). rewrite S_INR. cbn [map fold_right]. rewrite <- IH. unfold num, Rops. change (num Rops) with R in *. field. lra.
Qed.
