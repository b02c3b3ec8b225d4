From Coq Require Import ZArith Bool List Reals Lra Lia.
From Flocq Require Import Core BinarySingleNaN.
From Verif Require Import F32.
Local Open Scope R_scope.

Notation fexp32 := (SpecFloat.fexp 24 128).
Notation rnd := (round radix2 fexp32 (round_mode mode_NE)).
Definition M : R := bpow radix2 128.
Notation B2R' := (@B2R 24 128).

Global Instance fexp32_valid : Valid_exp fexp32 := FLT_exp_valid _ _.

Lemma M_pos : 0 < M. Proof. apply bpow_gt_0. Qed.

(** Order key: the real value, infinities at +-2^128. *)
Definition key (x : f32) : R :=
  match x with
  | B754_infinity false => M
  | B754_infinity true => - M
  | _ => B2R' x
  end.
Definition clampM (r : R) : R := Rmax (- M) (Rmin M r).

Lemma clampM_mono a b : a <= b -> clampM a <= clampM b.
Proof. intros H. unfold clampM. apply Rle_max_compat_l, Rle_min_compat_l, H. Qed.
Lemma clampM_bound a : - M <= clampM a <= M.
Proof. pose proof M_pos. unfold clampM. split; [apply Rmax_l|apply Rmax_lub; [lra|apply Rmin_l]]. Qed.
Lemma clampM_id a : - M <= a <= M -> clampM a = a.
Proof. intros H. unfold clampM. rewrite Rmin_right, Rmax_right by lra. reflexivity. Qed.

Lemma B2R_lt_M (x : f32) : Rabs (B2R' x) < M.
Proof. apply abs_B2R_lt_emax. Qed.
Lemma key_bound x : - M <= key x <= M.
Proof.
  pose proof M_pos. pose proof (B2R_lt_M x) as H'. apply Rabs_lt_inv in H'.
  destruct x as [s|[|]| |s m e He]; cbn [key] in *; lra.
Qed.
Lemma key_finite x : is_finite x = true -> key x = B2R' x.
Proof. destruct x as [s|[|]| |s m e He]; cbn; try discriminate; reflexivity. Qed.
Lemma key_finite_strict x : is_finite x = true -> - M < key x < M.
Proof. intros F. rewrite key_finite by exact F. apply Rabs_lt_inv, B2R_lt_M. Qed.

Lemma f_le_key x y : is_nan x = false -> is_nan y = false -> (f_le x y = true <-> key x <= key y).
Proof.
  intros Nx Ny. unfold f_le. pose proof M_pos as HM.
  destruct (is_finite x) eqn:Fx, (is_finite y) eqn:Fy.
  - rewrite Bleb_correct, !key_finite by assumption. destruct (Rle_bool_spec (B2R' x) (B2R' y)); split; intros; try lra; try discriminate; reflexivity.
  - pose proof (key_finite_strict x Fx). destruct y as [|[|]| |]; try discriminate; cbn [key].
    + destruct x as [[|]|[|]| |[|] ? ? ?]; try discriminate; cbn [key] in *; split; intros Hc; try discriminate Hc; lra.
    + destruct x as [[|]|[|]| |[|] ? ? ?]; try discriminate; cbn [key] in *; split; intros _; try reflexivity; lra.
  - pose proof (key_finite_strict y Fy). destruct x as [|[|]| |]; try discriminate; cbn [key].
    + destruct y as [[|]|[|]| |[|] ? ? ?]; try discriminate; cbn [key] in *; split; intros _; try reflexivity; lra.
    + destruct y as [[|]|[|]| |[|] ? ? ?]; try discriminate; cbn [key] in *; split; intros Hc; try discriminate Hc; lra.
  - destruct x as [|[|]| |]; try discriminate; destruct y as [|[|]| |]; try discriminate; cbn [key]; split; intros Hc; try reflexivity; try discriminate Hc; lra.
Qed.

Lemma f_lt_key x y : is_nan x = false -> is_nan y = false -> (f_lt x y = true <-> key x < key y).
Proof.
  intros Nx Ny. unfold f_lt. pose proof M_pos as HM.
  destruct (is_finite x) eqn:Fx, (is_finite y) eqn:Fy.
  - rewrite Bltb_correct, !key_finite by assumption. destruct (Rlt_bool_spec (B2R' x) (B2R' y)); split; intros; try lra; try discriminate; reflexivity.
  - pose proof (key_finite_strict x Fx). destruct y as [|[|]| |]; try discriminate; cbn [key].
    + destruct x as [[|]|[|]| |[|] ? ? ?]; try discriminate; cbn [key] in *; split; intros Hc; try discriminate Hc; lra.
    + destruct x as [[|]|[|]| |[|] ? ? ?]; try discriminate; cbn [key] in *; split; intros _; try reflexivity; lra.
  - pose proof (key_finite_strict y Fy). destruct x as [|[|]| |]; try discriminate; cbn [key].
    + destruct y as [[|]|[|]| |[|] ? ? ?]; try discriminate; cbn [key] in *; split; intros _; try reflexivity; lra.
    + destruct y as [[|]|[|]| |[|] ? ? ?]; try discriminate; cbn [key] in *; split; intros Hc; try discriminate Hc; lra.
  - destruct x as [|[|]| |]; try discriminate; destruct y as [|[|]| |]; try discriminate; cbn [key]; split; intros Hc; try reflexivity; try discriminate Hc; lra.
Qed.

Lemma f_le_nan_l x y : f_le x y = true -> is_nan x = false /\ is_nan y = false.
Proof. unfold f_le, Bleb, SpecFloat.SFleb. destruct x as [[|]|[|]| |[|] ? ? ?], y as [[|]|[|]| |[|] ? ? ?]; cbn; auto; discriminate. Qed.
Lemma f_lt_nan_l x y : f_lt x y = true -> is_nan x = false /\ is_nan y = false.
Proof. unfold f_lt, Bltb, SpecFloat.SFltb. destruct x as [[|]|[|]| |[|] ? ? ?], y as [[|]|[|]| |[|] ? ? ?]; cbn; auto; discriminate. Qed.

Lemma rnd_mono a b : a <= b -> rnd a <= rnd b.
Proof. intros H. apply round_le; [apply fexp32_valid|apply valid_rnd_round_mode|exact H]. Qed.
Lemma rnd_0 : rnd 0 = 0.
Proof. apply round_0. apply valid_rnd_round_mode. Qed.
Lemma rnd_generic x : generic_format radix2 fexp32 x -> rnd x = x.
Proof. intros H. apply round_generic; [apply valid_rnd_round_mode|exact H]. Qed.
Lemma generic_f32 (x : f32) : generic_format radix2 fexp32 (B2R' x).
Proof. apply generic_format_B2R. Qed.

(** A float result representing the rounded real [r]. *)
Definition repr (z : f32) (r : R) : Prop := is_nan z = false /\ key z = clampM (rnd r).

Lemma overflow_key (z : f32) s : B2SF z = binary_overflow 24 128 mode_NE s -> z = B754_infinity s.
Proof. destruct z as [|[|]| |]; cbn; intros H; try discriminate H; injection H as <-; reflexivity. Qed.

Lemma repr_ok (z : f32) r : Rabs (rnd r) < M -> B2R' z = rnd r -> is_finite z = true -> repr z r.
Proof.
  intros H1 H2 H3. split; [destruct z; try discriminate; reflexivity|]. rewrite key_finite by exact H3.
  rewrite clampM_id; [exact H2|]. apply Rabs_lt_inv in H1. lra.
Qed.
Lemma repr_over (s : bool) r : M <= Rabs (rnd r) -> (s = true <-> r < 0) -> repr (B754_infinity s) r.
Proof.
  pose proof M_pos. intros H1 H2. split; [reflexivity|].
  destruct s; cbn [key].
  - assert (r < 0) by (apply H2; reflexivity). assert (rnd r <= 0) by (rewrite <- rnd_0; apply rnd_mono; lra).
    rewrite Rabs_left1 in H1 by lra. unfold clampM. rewrite Rmin_right by lra. rewrite Rmax_left by lra. reflexivity.
  - assert (0 <= r) by (apply Rnot_lt_le; intros Hc; apply H2 in Hc; discriminate). assert (0 <= rnd r) by (rewrite <- rnd_0; apply rnd_mono; lra).
    rewrite Rabs_pos_eq in H1 by lra. unfold clampM. rewrite Rmin_left by lra. rewrite Rmax_right by lra. reflexivity.
Qed.

Lemma sign_B2R (x : f32) : is_finite x = true -> B2R' x <> 0 -> (Bsign x = true <-> B2R' x < 0).
Proof.
  destruct x as [s|s| |s m e He]; cbn; try discriminate; intros _ H; [lra|].
  destruct s; cbn; split; intros Hc; try reflexivity; try discriminate.
  - apply F2R_lt_0. reflexivity.
  - exfalso. assert (0 < F2R (Float radix2 (Z.pos m) e)) by (apply F2R_gt_0; reflexivity). lra.
Qed.

Lemma sub_repr x y : is_finite x = true -> is_finite y = true -> repr (f_sub x y) (B2R' x - B2R' y).
Proof.
  intros Fx Fy. generalize (Bminus_correct 24 128 _ _ mode_NE x y Fx Fy). fold (f_sub x y).
  destruct (Rlt_bool_spec (Rabs (rnd (B2R' x - B2R' y))) (bpow radix2 128)) as [H|H].
  - intros (H1 & H2 & _). apply repr_ok; assumption.
  - intros (H1 & H2). apply overflow_key in H1. rewrite H1. apply repr_over; [exact H|].
    assert (B2R' x <> 0 \/ B2R' y <> 0) as Hnz.
    { destruct (Req_dec (B2R' x) 0) as [E1|E1]; [|left; exact E1]. destruct (Req_dec (B2R' y) 0) as [E2|E2]; [|right; exact E2].
      exfalso. rewrite E1, E2 in H. replace (0 - 0) with 0 in H by ring. rewrite rnd_0, Rabs_R0 in H. pose proof M_pos. unfold M in *. lra. }
    assert (forall z : f32, is_finite z = true -> Bsign z = true -> B2R' z <= 0) as Sn.
    { intros z Fz Sz. destruct (Req_dec (B2R' z) 0) as [->|E]; [lra|]. apply (sign_B2R z Fz E) in Sz. lra. }
    assert (forall z : f32, is_finite z = true -> Bsign z = false -> 0 <= B2R' z) as Sp.
    { intros z Fz Sz. destruct (Req_dec (B2R' z) 0) as [->|E]; [lra|]. apply Rnot_lt_le. intros Hc. apply (sign_B2R z Fz E) in Hc. congruence. }
    destruct (Bsign x) eqn:Sx; symmetry in H2.
    + apply negb_true_iff in H2. specialize (Sn x Fx Sx). specialize (Sp y Fy H2). split; [intros _|reflexivity]. lra.
    + apply negb_false_iff in H2. specialize (Sp x Fx Sx). specialize (Sn y Fy H2). split; [discriminate|]. lra.
Qed.

Lemma add_repr x y : is_finite x = true -> is_finite y = true -> repr (f_add x y) (B2R' x + B2R' y).
Proof.
  intros Fx Fy. generalize (Bplus_correct 24 128 _ _ mode_NE x y Fx Fy). fold (f_add x y).
  destruct (Rlt_bool_spec (Rabs (rnd (B2R' x + B2R' y))) (bpow radix2 128)) as [H|H].
  - intros (H1 & H2 & _). apply repr_ok; assumption.
  - intros (H1 & H2). apply overflow_key in H1. rewrite H1. apply repr_over; [exact H|].
    assert (B2R' x <> 0 \/ B2R' y <> 0) as Hnz.
    { destruct (Req_dec (B2R' x) 0) as [E1|E1]; [|left; exact E1]. destruct (Req_dec (B2R' y) 0) as [E2|E2]; [|right; exact E2].
      exfalso. rewrite E1, E2 in H. replace (0 + 0) with 0 in H by ring. rewrite rnd_0, Rabs_R0 in H. pose proof M_pos. unfold M in *. lra. }
    assert (forall z : f32, is_finite z = true -> Bsign z = true -> B2R' z <= 0) as Sn.
    { intros z Fz Sz. destruct (Req_dec (B2R' z) 0) as [->|E]; [lra|]. apply (sign_B2R z Fz E) in Sz. lra. }
    assert (forall z : f32, is_finite z = true -> Bsign z = false -> 0 <= B2R' z) as Sp.
    { intros z Fz Sz. destruct (Req_dec (B2R' z) 0) as [->|E]; [lra|]. apply Rnot_lt_le. intros Hc. apply (sign_B2R z Fz E) in Hc. congruence. }
    destruct (Bsign x) eqn:Sx; symmetry in H2.
    + specialize (Sn x Fx Sx) as A. specialize (Sn y Fy H2) as B. split; [intros _|reflexivity]. lra.
    + specialize (Sp x Fx Sx) as A. specialize (Sp y Fy H2) as B. split; [discriminate|]. lra.
Qed.

Lemma xorb_sign_mul a b (x y : f32) : is_finite x = true -> is_finite y = true -> B2R' x <> 0 -> B2R' y <> 0 ->
  a = Bsign x -> b = Bsign y -> (xorb a b = true <-> B2R' x * B2R' y < 0).
Proof.
  intros Fx Fy Nx Ny -> ->. pose proof (sign_B2R x Fx Nx) as Sx. pose proof (sign_B2R y Fy Ny) as Sy.
  destruct (Bsign x), (Bsign y); cbn.
  - assert (B2R' x < 0) by (apply Sx; reflexivity). assert (B2R' y < 0) by (apply Sy; reflexivity). split; [discriminate|]. intros Hc. nra.
  - assert (B2R' x < 0) by (apply Sx; reflexivity). assert (0 < B2R' y) by (apply Rnot_le_lt; intros Hc; assert (B2R' y < 0) as Hd by lra; apply Sy in Hd; discriminate).
    split; [intros _; nra|reflexivity].
  - assert (0 < B2R' x) by (apply Rnot_le_lt; intros Hc; assert (B2R' x < 0) as Hd by lra; apply Sx in Hd; discriminate). assert (B2R' y < 0) by (apply Sy; reflexivity).
    split; [intros _; nra|reflexivity].
  - assert (0 < B2R' x) by (apply Rnot_le_lt; intros Hc; assert (B2R' x < 0) as Hd by lra; apply Sx in Hd; discriminate).
    assert (0 < B2R' y) by (apply Rnot_le_lt; intros Hc; assert (B2R' y < 0) as Hd by lra; apply Sy in Hd; discriminate).
    split; [discriminate|intros Hc; nra].
Qed.

Lemma mul_repr x y : is_finite x = true -> is_finite y = true -> repr (f_mul x y) (B2R' x * B2R' y).
Proof.
  intros Fx Fy. generalize (Bmult_correct 24 128 _ _ mode_NE x y). fold (f_mul x y).
  destruct (Rlt_bool_spec (Rabs (rnd (B2R' x * B2R' y))) (bpow radix2 128)) as [H|H].
  - intros (H1 & H2 & _). apply repr_ok; try assumption. rewrite H2, Fx, Fy. reflexivity.
  - intros H1. apply overflow_key in H1. rewrite H1. apply repr_over; [exact H|].
    assert (B2R' x <> 0 /\ B2R' y <> 0) as (Nx & Ny).
    { pose proof M_pos as HM. split; intros E; rewrite E, ?Rmult_0_l, ?Rmult_0_r, rnd_0, Rabs_R0 in H; unfold M in HM; lra. }
    apply xorb_sign_mul; auto.
Qed.

Lemma div_repr x y : is_finite x = true -> is_finite y = true -> B2R' y <> 0 -> repr (f_div x y) (B2R' x / B2R' y).
Proof.
  intros Fx Fy Ny. generalize (Bdiv_correct 24 128 _ _ mode_NE x y Ny). fold (f_div x y).
  destruct (Rlt_bool_spec (Rabs (rnd (B2R' x / B2R' y))) (bpow radix2 128)) as [H|H].
  - intros (H1 & H2 & _). apply repr_ok; try assumption. rewrite H2, Fx. reflexivity.
  - intros H1. apply overflow_key in H1. rewrite H1. apply repr_over; [exact H|].
    assert (B2R' x <> 0) as Nx.
    { pose proof M_pos as HM. intros E. unfold Rdiv in H. rewrite E, ?Rmult_0_l, rnd_0, Rabs_R0 in H. unfold M in HM; lra. }
    rewrite (xorb_sign_mul (Bsign x) (Bsign y) x y) by auto.
    replace (B2R' x * B2R' y) with ((B2R' x / B2R' y) * (B2R' y * B2R' y)) by (field; exact Ny).
    assert (0 < B2R' y * B2R' y) by (apply Rsqr_pos_lt in Ny; exact Ny). split; intros; nra.
Qed.

(** Monotonicity with infinities included. *)
Lemma sub_key_mono x y z : is_nan x = false -> is_nan y = false -> is_finite z = true -> key x <= key y ->
  is_nan (f_sub x z) = false /\ is_nan (f_sub y z) = false /\ key (f_sub x z) <= key (f_sub y z).
Proof.
  intros Nx Ny Fz H. pose proof M_pos as HM.
  assert (forall w, is_nan w = false -> is_finite w = false -> f_sub w z = w) as Hinf
    by (intros w Nw Fw; destruct w; try discriminate; destruct z; try discriminate; reflexivity).
  destruct (is_finite x) eqn:Fx, (is_finite y) eqn:Fy.
  - destruct (sub_repr x z Fx Fz) as (A1 & A2). destruct (sub_repr y z Fy Fz) as (B1 & B2). split; [exact A1|]. split; [exact B1|].
    rewrite A2, B2. apply clampM_mono, rnd_mono. rewrite !key_finite in H by assumption. lra.
  - destruct (sub_repr x z Fx Fz) as (A1 & A2). rewrite (Hinf y Ny Fy). split; [exact A1|]. split; [exact Ny|].
    pose proof (key_finite_strict x Fx). destruct y as [|[|]| |]; try discriminate; cbn [key] in *; [lra|]. apply key_bound.
  - destruct (sub_repr y z Fy Fz) as (A1 & A2). rewrite (Hinf x Nx Fx). split; [exact Nx|]. split; [exact A1|].
    pose proof (key_finite_strict y Fy). destruct x as [|[|]| |]; try discriminate; cbn [key] in *; [|lra]. apply key_bound.
  - rewrite (Hinf x Nx Fx), (Hinf y Ny Fy). auto.
Qed.

Lemma div_inf w d : is_nan w = false -> is_finite w = false -> is_finite d = true -> 0 < B2R' d -> f_div w d = w.
Proof.
  intros Nw Fw Fd Hd. destruct w as [|s| |]; try discriminate. destruct d as [| | |sd m e He]; try discriminate; cbn in *.
  - lra.
  - destruct sd; [|destruct s; reflexivity]. exfalso. assert (F2R (Float radix2 (Z.neg m) e) < 0) by (apply F2R_lt_0; reflexivity). cbn in Hd. lra.
Qed.

Lemma div_key_mono x y d : is_nan x = false -> is_nan y = false -> is_finite d = true -> 0 < B2R' d -> key x <= key y ->
  is_nan (f_div x d) = false /\ is_nan (f_div y d) = false /\ key (f_div x d) <= key (f_div y d).
Proof.
  intros Nx Ny Fd Hd H. pose proof M_pos as HM. assert (B2R' d <> 0) as Nd by lra.
  destruct (is_finite x) eqn:Fx, (is_finite y) eqn:Fy.
  - destruct (div_repr x d Fx Fd Nd) as (A1 & A2). destruct (div_repr y d Fy Fd Nd) as (B1 & B2). split; [exact A1|]. split; [exact B1|].
    rewrite A2, B2. apply clampM_mono, rnd_mono. rewrite !key_finite in H by assumption. apply Rmult_le_compat_r; [|exact H].
    apply Rlt_le, Rinv_0_lt_compat, Hd.
  - destruct (div_repr x d Fx Fd Nd) as (A1 & A2). rewrite (div_inf y d Ny Fy Fd Hd). split; [exact A1|]. split; [exact Ny|].
    pose proof (key_finite_strict x Fx). destruct y as [|[|]| |]; try discriminate; cbn [key] in *; [lra|]. apply key_bound.
  - destruct (div_repr y d Fy Fd Nd) as (A1 & A2). rewrite (div_inf x d Nx Fx Fd Hd). split; [exact Nx|]. split; [exact A1|].
    pose proof (key_finite_strict y Fy). destruct x as [|[|]| |]; try discriminate; cbn [key] in *; [|lra]. apply key_bound.
  - rewrite (div_inf x d), (div_inf y d) by assumption. auto.
Qed.

Lemma mul_inf w d : is_nan w = false -> is_finite w = false -> is_finite d = true -> 0 < B2R' d -> f_mul w d = w.
Proof.
  intros Nw Fw Fd Hd. destruct w as [|s| |]; try discriminate. destruct d as [| | |sd m e He]; try discriminate; cbn in *.
  - lra.
  - destruct sd; [|destruct s; reflexivity]. exfalso. assert (F2R (Float radix2 (Z.neg m) e) < 0) by (apply F2R_lt_0; reflexivity). cbn in Hd. lra.
Qed.

Lemma mul_key_mono x y d : is_nan x = false -> is_nan y = false -> is_finite d = true -> 0 < B2R' d -> key x <= key y ->
  is_nan (f_mul x d) = false /\ is_nan (f_mul y d) = false /\ key (f_mul x d) <= key (f_mul y d).
Proof.
  intros Nx Ny Fd Hd H. pose proof M_pos as HM.
  destruct (is_finite x) eqn:Fx, (is_finite y) eqn:Fy.
  - destruct (mul_repr x d Fx Fd) as (A1 & A2). destruct (mul_repr y d Fy Fd) as (B1 & B2). split; [exact A1|]. split; [exact B1|].
    rewrite A2, B2. apply clampM_mono, rnd_mono. rewrite !key_finite in H by assumption. apply Rmult_le_compat_r; lra.
  - destruct (mul_repr x d Fx Fd) as (A1 & A2). rewrite (mul_inf y d Ny Fy Fd Hd). split; [exact A1|]. split; [exact Ny|].
    pose proof (key_finite_strict x Fx). destruct y as [|[|]| |]; try discriminate; cbn [key] in *; [lra|]. apply key_bound.
  - destruct (mul_repr y d Fy Fd) as (A1 & A2). rewrite (mul_inf x d Nx Fx Fd Hd). split; [exact Nx|]. split; [exact A1|].
    pose proof (key_finite_strict y Fy). destruct x as [|[|]| |]; try discriminate; cbn [key] in *; [|lra]. apply key_bound.
  - rewrite (mul_inf x d), (mul_inf y d) by assumption. auto.
Qed.

(** Rounding to an integer. *)
Lemma round_FIX0 (r : R -> Z) (x : R) : round radix2 (FIX_exp 0) r x = IZR (r x).
Proof. unfold round, scaled_mantissa, F2R, cexp, FIX_exp. cbn. rewrite Rmult_1_r, Rmult_1_r. reflexivity. Qed.

Lemma floor_key x : is_finite x = true -> is_finite (f_floor x) = true /\ B2R' (f_floor x) = IZR (Zfloor (B2R' x)).
Proof.
  intros F. destruct (Bnearbyint_correct 24 128 _ mode_DN x) as (A & B & _). fold (f_floor x) in A, B. rewrite round_FIX0 in A.
  split; [congruence|exact A].
Qed.
Lemma round_key x : is_finite x = true -> is_finite (f_round x) = true /\ B2R' (f_round x) = IZR (ZnearestA (B2R' x)).
Proof.
  intros F. destruct (Bnearbyint_correct 24 128 _ mode_NA x) as (A & B & _). fold (f_round x) in A, B. rewrite round_FIX0 in A.
  split; [congruence|exact A].
Qed.

Lemma trunc_IZR (x : f32) z : B2R' x = IZR z -> Btrunc x = z.
Proof.
  intros H. apply eq_IZR. rewrite Btrunc_correct by reflexivity. rewrite round_FIX0, H, Ztrunc_IZR. reflexivity.
Qed.

Lemma f_to_int_floor lo hi x : is_finite x = true ->
  f_to_int lo hi (f_floor x) = Z.max lo (Z.min hi (Zfloor (B2R' x))).
Proof.
  intros F. destruct (floor_key x F) as (A & B). pose proof (trunc_IZR _ _ B) as T.
  destruct (f_floor x) as [|s| |]; try discriminate; cbn [f_to_int]; rewrite T; reflexivity.
Qed.
Lemma f_to_int_round lo hi x : is_finite x = true ->
  f_to_int lo hi (f_round x) = Z.max lo (Z.min hi (ZnearestA (B2R' x))).
Proof.
  intros F. destruct (round_key x F) as (A & B). pose proof (trunc_IZR _ _ B) as T.
  destruct (f_round x) as [|s| |]; try discriminate; cbn [f_to_int]; rewrite T; reflexivity.
Qed.

(** Conversion of integers. *)
Lemma f_of_Z_repr z : repr (f_of_Z z) (IZR z).
Proof.
  generalize (binary_normalize_correct 24 128 _ _ mode_NE z 0 false). fold (f_of_Z z). cbv zeta.
  replace (F2R (Float radix2 z 0)) with (IZR z) by (unfold F2R; cbn; ring).
  destruct (Rlt_bool_spec (Rabs (rnd (IZR z))) (bpow radix2 128)) as [H|H].
  - intros (A & B & _). apply repr_ok; assumption.
  - intros A. apply overflow_key in A. rewrite A. apply repr_over; [exact H|].
    destruct (Rlt_bool_spec (IZR z) 0); split; intros; try reflexivity; try assumption; try discriminate; lra.
Qed.

Lemma generic_int z : (Z.abs z <= 2 ^ 24)%Z -> generic_format radix2 fexp32 (IZR z).
Proof.
  intros H. replace (IZR z) with (F2R (Float radix2 z 0)) by (unfold F2R; cbn; ring).
  destruct (Z.eq_dec (Z.abs z) (2 ^ 24)) as [E|E].
  - assert (generic_format radix2 fexp32 (bpow radix2 24)) as G.
    { apply generic_format_FLT_bpow; [reflexivity|]. cbn. lia. }
    assert (bpow radix2 24 = IZR (2 ^ 24)) as Eb by reflexivity.
    unfold F2R. cbn [Fnum Fexp bpow]. rewrite Rmult_1_r.
    destruct (Z.abs_eq_or_opp z) as [Ez|Ez]; rewrite Ez in E.
    + rewrite E, <- Eb. exact G.
    + replace z with (- (2 ^ 24))%Z by lia. rewrite opp_IZR, <- Eb. apply generic_format_opp, G.
  - apply generic_format_FLT. exists (Float radix2 z 0); [reflexivity| |].
    + cbn [Fnum]. cbn. lia.
    + cbn. lia.
Qed.

Lemma f_of_Z_exact z : (Z.abs z <= 2 ^ 24)%Z -> is_finite (f_of_Z z) = true /\ B2R' (f_of_Z z) = IZR z.
Proof.
  intros H. generalize (binary_normalize_correct 24 128 _ _ mode_NE z 0 false). fold (f_of_Z z). cbv zeta.
  replace (F2R (Float radix2 z 0)) with (IZR z) by (unfold F2R; cbn; ring).
  rewrite (rnd_generic _ (generic_int z H)). rewrite Rlt_bool_true.
  - intros (A & B & _). split; assumption.
  - rewrite <- abs_IZR. apply Rle_lt_trans with (IZR (2 ^ 24)); [apply IZR_le, H|].
    change (IZR (2 ^ 24)) with (bpow radix2 24). apply bpow_lt. reflexivity.
Qed.
