From Coq Require Import Reals Lra.
From Flocq Require Import Core BinarySingleNaN.
From Verif Require Import Base Num F32 F32Proofs ScaledProofs DatasetModel DataModel.

(** The number of sampled items in f32, up to 2^24 items. *)
Local Open Scope R_scope.
Local Notation B2R' := (B2R (prec := 24) (emax := 128)).
Lemma scaled_bounds (n : nat) (fr : f32) : (Z.of_nat n <= 2 ^ 24)%Z -> 0 <= B2R' fr <= 1 -> is_finite fr = true ->
  scaled_count (O := f32ops) n fr = Z.to_nat (ZnearestA (rnd (IZR (Z.of_nat n) * B2R' fr))) /\ (scaled_count (O := f32ops) n fr <= n)%nat.
Proof.
  intros Hn Hf Ff. unfold scaled_count, nofnat. cbn [f32ops ntoZ nround nmul nofZ num].
  destruct (f_of_Z_exact (Z.of_nat n)) as (Fn & Bn); [lia|].
  pose proof (mul_repr _ _ Fn Ff) as (Nm & Km). rewrite Bn in Km.
  assert (0 <= IZR (Z.of_nat n)) as H0 by (apply IZR_le; lia).
  assert (0 <= IZR (Z.of_nat n) * B2R' fr <= IZR (Z.of_nat n)) as Hb.
  { split; [apply Rmult_le_pos; lra|]. rewrite <- (Rmult_1_r (IZR (Z.of_nat n))) at 2. apply Rmult_le_compat_l; lra. }
  assert (IZR (Z.of_nat n) <= IZR (2 ^ 24)) as Hn' by (apply IZR_le; exact Hn).
  assert (0 <= rnd (IZR (Z.of_nat n) * B2R' fr) <= IZR (Z.of_nat n)) as Hr.
  { split; [rewrite <- rnd_0; apply rnd_mono; lra|]. apply Rle_trans with (rnd (IZR (Z.of_nat n))); [apply rnd_mono; lra|]. rewrite (rnd_generic (IZR (Z.of_nat n))) by (apply generic_int; lia). lra. }
  assert (IZR (2 ^ 24) < M) as HM by (unfold M; change (IZR (2 ^ 24)) with (bpow radix2 24); apply bpow_lt; reflexivity).
  rewrite clampM_id in Km by (pose proof M_pos; lra).
  assert (is_finite (f_mul (f_of_Z (Z.of_nat n)) fr) = true) as Fm.
  { destruct (f_mul (f_of_Z (Z.of_nat n)) fr) as [s0|[|]| |]; try reflexivity; try discriminate; cbn [key] in Km; pose proof M_pos; lra. }
  rewrite f_to_int_round by exact Fm. rewrite key_finite in Km by exact Fm. rewrite Km.
  set (x := rnd _) in *.
  assert (0 <= ZnearestA x <= Z.of_nat n)%Z as Hz.
  { split.
    - apply Z.le_trans with (ZnearestA (IZR 0)); [rewrite ZnearestA_IZR; lia|apply ZnearestA_le; lra].
    - apply Z.le_trans with (ZnearestA (IZR (Z.of_nat n))); [apply ZnearestA_le; lra|rewrite ZnearestA_IZR; lia]. }
  split; [f_equal; lia|lia].
Qed.
Lemma scaled_all (n : nat) : (Z.of_nat n <= 2 ^ 24)%Z -> scaled_count (O := f32ops) n (f_of_Z 1) = n.
Proof.
  intros Hn. destruct (f_of_Z_exact 1) as (F1 & B1); [lia|].
  destruct (scaled_bounds n (f_of_Z 1) Hn) as (E & _); [rewrite B1; lra|exact F1|].
  rewrite E, B1, Rmult_1_r, rnd_generic by (apply generic_int; lia). rewrite ZnearestA_IZR. lia.
Qed.
(** Category numbers survive the round trip through f32. *)
Lemma into_cat_exact (z : Z) (v : f32) : is_finite v = true -> B2R' v = IZR z -> into_cat (O := f32ops) v = Z.to_nat (Z.max 0 (Z.min 4294967295 z)).
Proof.
  intros F E. unfold into_cat. cbn [f32ops ntoZ]. unfold f_to_int. pose proof (trunc_IZR v z E) as T.
  destruct v as [s|s| |s m e He]; try discriminate; rewrite T; reflexivity.
Qed.
Lemma into_cat_of_nat b : (Z.of_nat b <= 2 ^ 24)%Z -> into_cat (O := f32ops) (nofnat f32ops b) = b.
Proof.
  intros H. unfold nofnat. cbn [f32ops nofZ]. destruct (f_of_Z_exact (Z.of_nat b)) as (F & E); [lia|]. rewrite (into_cat_exact _ _ F E). lia.
Qed.
