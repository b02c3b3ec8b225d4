(** The arithmetic facts of TotalProofs.v, for exact arithmetic and for f32. *)
From Coq Require Import Reals Psatz.
From Flocq Require Import Core BinarySingleNaN.
From Verif Require Import Base BaseProofs F32 F32Proofs Num ScaledProofs Config DataModel DatasetModel DatasetProofs6 TotalProofs.
Local Open Scope R_scope.

Lemma Rle_bool_1 x y : x <= y -> Rle_bool x y = true. Proof. intros H. destruct (Rle_bool_spec x y); [reflexivity|lra]. Qed.
Lemma Rle_bool_2 x y : Rle_bool x y = true -> x <= y. Proof. intros H. destruct (Rle_bool_spec x y); [assumption|discriminate]. Qed.
Lemma nat_pos m : 0 < IZR (Z.of_nat (m + 1)). Proof. apply (IZR_lt 0). lia. Qed.
Lemma rank_R k m i : (1 <= i)%nat -> (m + 1 <= 2 * k)%nat -> / 2 <= IZR (Z.of_nat i) * (IZR (Z.of_nat k) / IZR (Z.of_nat (m + 1))).
Proof.
  intros Hi Hk. pose proof (nat_pos m) as Hm. assert (/ 2 <= IZR (Z.of_nat k) / IZR (Z.of_nat (m + 1))) as H.
  { apply Rmult_le_reg_r with (IZR (Z.of_nat (m + 1))); [exact Hm|]. unfold Rdiv. rewrite Rmult_assoc, Rinv_l by lra. assert (IZR (Z.of_nat (m + 1)) <= 2 * IZR (Z.of_nat k)); [|lra].
    rewrite <- mult_IZR. apply IZR_le. lia. }
  assert (1 <= IZR (Z.of_nat i)) as H1 by (apply (IZR_le 1); lia). set (a := IZR (Z.of_nat i)) in *. set (b := IZR (Z.of_nat k) / _) in *. nra.
Qed.
Lemma half_up x : / 2 <= x -> (1 <= ZnearestA x)%Z.
Proof.
  intros H. replace 1%Z with (ZnearestA (/ 2)); [apply ZnearestA_le, H|]. unfold Znearest. assert (Zfloor (/ 2) = 0%Z) as F by (apply Zfloor_imp; split; simpl; lra).
  assert (Zceil (/ 2) = 1%Z) as C by (apply Zceil_imp; split; simpl; lra). rewrite F, C. replace (/ 2 - IZR 0) with (/ 2) by (simpl; lra). rewrite Rcompare_Eq by reflexivity. reflexivity.
Qed.

Lemma laws_R m n : num_laws Rops m n.
Proof.
  constructor; cbn [nle nofZ nadd nabs nmul ndiv neq Rops].
  - apply Rle_bool_1. lra.
  - intros x y Hx Hy. apply Rle_bool_2 in Hx, Hy. apply Rle_bool_1. lra.
  - intros g _. apply Rle_bool_1. unfold EPSILON. cbn [ndiv nofZ Rops]. pose proof (Rabs_pos g). assert (0 < 1 / 8388608) by lra. change (num Rops) with R in *. lra.
  - intros x Hx. apply Rle_bool_2 in Hx. apply Rle_bool_1. unfold nofnat. cbn [nofZ Rops]. pose proof (nat_pos m) as Hm. apply Rmult_le_pos; [cbn; lra|].
    apply Rmult_le_pos; [exact Hx|]. apply Rlt_le, Rinv_0_lt_compat, Hm.
  - intros k i Hi _ Hk. unfold nofnat. cbn [ntoZ nround nofZ Rops]. rewrite Ztrunc_IZR. pose proof (half_up _ (rank_R k m i ltac:(lia) Hk)). lia.
Qed.

Lemma f_nn x : f_le (f_of_Z 0) x = true <-> is_nan x = false /\ 0 <= key x.
Proof.
  destruct (f_of_Z_exact 0) as [F0 B0]; [cbn; lia|]. assert (is_nan (f_of_Z 0) = false) as N0 by (apply fin_nan, F0). split.
  - intros H. pose proof (f_le_nan_l _ _ H) as [_ Hn]. split; [exact Hn|]. apply (f_le_key _ _ N0 Hn) in H. rewrite (key_finite _ F0), B0 in H. exact H.
  - intros [Hn Hk]. apply (f_le_key _ _ N0 Hn). rewrite (key_finite _ F0), B0. exact Hk.
Qed.
Lemma clampM_nn a : 0 <= a -> 0 <= clampM a.
Proof. intros H. pose proof M_pos. rewrite <- (clampM_id 0) by lra. apply clampM_mono, H. Qed.
Lemma rnd_nn a : 0 <= a -> 0 <= rnd a. Proof. intros H. rewrite <- rnd_0. apply rnd_mono, H. Qed.
Lemma repr_nn z r : repr z r -> 0 <= r -> is_nan z = false /\ 0 <= key z.
Proof. intros [Hn Hk] Hr. split; [exact Hn|]. rewrite Hk. apply clampM_nn, rnd_nn, Hr. Qed.
Lemma inf_cases (x : f32) : is_nan x = false -> 0 <= key x -> is_finite x = true \/ x = f_inf.
Proof. intros Hn Hk. destruct x as [s|[]| |s m e He]; auto. exfalso. unfold key in Hk. pose proof M_pos. cbn in Hk. lra. Qed.
Lemma f_add_nn x y : is_nan x = false -> 0 <= key x -> is_nan y = false -> 0 <= key y -> is_nan (f_add x y) = false /\ 0 <= key (f_add x y).
Proof.
  intros Nx Kx Ny Ky. pose proof M_pos. destruct (inf_cases x Nx Kx) as [Fx|Ex]; destruct (inf_cases y Ny Ky) as [Fy|Ey].
  - rewrite (key_finite _ Fx) in Kx. rewrite (key_finite _ Fy) in Ky. eapply repr_nn; [apply add_repr; assumption|lra].
  - subst y. destruct x; try discriminate; split; try reflexivity; cbn; unfold key; cbn; lra.
  - subst x. destruct y; try discriminate; split; try reflexivity; cbn; unfold key; cbn; lra.
  - subst. split; [reflexivity|cbn; unfold key; cbn; lra].
Qed.
Lemma f_div_nn x y : is_nan x = false -> 0 <= key x -> is_finite y = true -> 0 < B2R' y -> is_nan (f_div x y) = false /\ 0 <= key (f_div x y).
Proof.
  intros Nx Kx Fy By. destruct (inf_cases x Nx Kx) as [Fx|Ex].
  - rewrite (key_finite _ Fx) in Kx. eapply repr_nn; [apply div_repr; try assumption; lra|]. apply Rmult_le_pos; [exact Kx|]. apply Rlt_le, Rinv_0_lt_compat, By.
  - subst x. rewrite div_inf by (try assumption; reflexivity). auto.
Qed.
Lemma f_mul_nn x y : is_nan x = false -> 0 <= key x -> is_finite y = true -> 0 < B2R' y -> is_nan (f_mul y x) = false /\ 0 <= key (f_mul y x).
Proof.
  intros Nx Kx Fy By. destruct (inf_cases x Nx Kx) as [Fx|Ex].
  - rewrite (key_finite _ Fx) in Kx. eapply repr_nn; [apply mul_repr; assumption|]. apply Rmult_le_pos; lra.
  - subst x. pose proof M_pos. destruct y as [s|s| |[] mm e He]; try discriminate; [cbn in By; lra| |split; [reflexivity|cbn; unfold key; cbn; lra]].
    exfalso. assert (B2R' (B754_finite true mm e He) < 0) as Hneg by (unfold B2R', B2R; apply F2R_lt_0; reflexivity). lra.
Qed.
Lemma f_abs_nn x : is_nan x = false -> is_nan (f_abs x) = false /\ 0 <= key (f_abs x).
Proof.
  intros Hn. pose proof M_pos. destruct x as [s|[]| |s m e He]; try discriminate; (split; [reflexivity|]); unfold key; cbn; try lra.
  apply F2R_ge_0. cbn. lia.
Qed.
Lemma f_eq_nan x : f_eq x x = true -> is_nan x = false. Proof. destruct x; try reflexivity. discriminate. Qed.
Lemma eps_ok : is_nan (EPSILON f32ops : f32) = false /\ 0 <= key (EPSILON f32ops : f32).
Proof.
  unfold EPSILON. cbn [ndiv nofZ f32ops]. destruct (f_of_Z_exact 1) as [F1 B1]; [cbn; lia|]. destruct (f_of_Z_exact 8388608) as [F2 B2]; [cbn; lia|].
  apply f_div_nn; [apply fin_nan, F1|rewrite (key_finite _ F1), B1; lra|exact F2|rewrite B2; lra].
Qed.

Lemma generic_half : generic_format radix2 fexp32 (/ 2).
Proof. change (/ 2) with (bpow radix2 (-1)). apply generic_format_bpow. unfold fexp32, FLT_exp. cbn. lia. Qed.
Lemma laws_f32 m n : (Z.of_nat (m + 1) <= 2 ^ 24)%Z -> (Z.of_nat n <= 2 ^ 24)%Z -> num_laws f32ops m n.
Proof.
  intros Hm Hn. destruct (f_of_Z_exact (Z.of_nat (m + 1))) as [Fm Bm]; [lia|]. pose proof (nat_pos m) as Hp.
  constructor; cbn [nle nofZ nadd nabs nmul ndiv neq f32ops].
  - apply f_nn. destruct (f_of_Z_exact 0) as [F0 B0]; [cbn; lia|]. split; [apply fin_nan, F0|]. rewrite (key_finite _ F0), B0. lra.
  - intros x y Hx Hy. apply f_nn in Hx as [], Hy as []. apply f_nn. apply f_add_nn; assumption.
  - intros g Hg. apply f_eq_nan in Hg. apply f_nn. destruct (f_abs_nn g Hg). destruct eps_ok. apply f_add_nn; assumption.
  - intros x Hx. apply f_nn in Hx as []. apply f_nn. unfold nofnat. cbn [nofZ f32ops]. destruct (f_of_Z_exact (Z.of_nat 1)) as [F1 B1]; [cbn; lia|].
    destruct (f_div_nn x (f_of_Z (Z.of_nat (m + 1)))) as [N1 K1]; try assumption; [rewrite Bm; exact Hp|]. apply f_mul_nn; try assumption. rewrite B1. cbn. lra.
  - intros k i Hi Hk Hmk. unfold nofnat. cbn [ntoZ nround nofZ f32ops]. destruct (f_of_Z_exact (Z.of_nat k)) as [Fk Bk]; [lia|]. destruct (f_of_Z_exact (Z.of_nat i)) as [Fi Bi]; [lia|].
    assert (1 <= IZR (Z.of_nat i)) as Hi1 by (apply (IZR_le 1); lia). assert (IZR (Z.of_nat i) <= 16777216) as Hi2 by (apply IZR_le; lia).
    assert (IZR (Z.of_nat k) <= 16777216) as Hk2 by (apply IZR_le; lia). assert (1 <= IZR (Z.of_nat (m + 1))) as Hm1 by (apply (IZR_le 1); lia).
    pose proof (rank_R k m 1 ltac:(lia) Hmk) as Hh. rewrite Rmult_1_l in Hh.
    assert (IZR (Z.of_nat k) / IZR (Z.of_nat (m + 1)) <= 16777216) as Hq.
    { apply Rmult_le_reg_r with (IZR (Z.of_nat (m + 1))); [exact Hp|]. unfold Rdiv. rewrite Rmult_assoc, Rinv_l by lra. nra. }
    pose proof M_big as HM. pose proof (div_repr _ _ Fk Fm ltac:(rewrite Bm; lra)) as [Nq Kq]. rewrite Bk, Bm in Kq.
    assert (/ 2 <= rnd (IZR (Z.of_nat k) / IZR (Z.of_nat (m + 1))) <= 16777216) as Hr.
    { split; [rewrite <- (rnd_generic (/ 2) generic_half); apply rnd_mono, Hh|]. rewrite <- (rnd_int 16777216) by (cbn; lia). apply rnd_mono, Hq. }
    rewrite clampM_id in Kq by lra. assert (is_finite (f_div (f_of_Z (Z.of_nat k)) (f_of_Z (Z.of_nat (m + 1)))) = true) as Fq by (apply finite_of_key; [exact Nq|lra]).
    set (q := f_div _ _) in *. rewrite (key_finite _ Fq) in Kq. pose proof (mul_repr _ _ Fi Fq) as [Np Kp]. rewrite Bi in Kp. set (p := f_mul _ q) in *.
    assert (/ 2 <= IZR (Z.of_nat i) * B2R' q) as Hpp by nra. assert (/ 2 <= key p) as Hkp.
    { rewrite Kp. assert (/ 2 <= rnd (IZR (Z.of_nat i) * B2R' q)) by (rewrite <- (rnd_generic (/ 2) generic_half); apply rnd_mono, Hpp).
      rewrite <- (clampM_id (/ 2)) by lra. apply clampM_mono. assumption. }
    change (f_round p) with (f_round p). destruct (inf_cases p Np ltac:(lra)) as [Fp|Ep].
    + rewrite f_to_int_round by exact Fp. rewrite (key_finite _ Fp) in Hkp. pose proof (half_up _ Hkp). lia.
    + rewrite Ep. cbn. lia.
Qed.
