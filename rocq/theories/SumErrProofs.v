(** Rounding errors of f32 sums of non-negative numbers. *)
From Coq Require Import Reals Psatz.
From Flocq Require Import Core BinarySingleNaN Plus_error.
From Verif Require Import Base BaseProofs F32 F32Proofs Num ScaledProofs BinnerProofs.
Local Open Scope R_scope.

Notation u := (/ 16777216).
Lemma rnd_plus (x y : f32) : exists e, Rabs e <= u /\ rnd (B2R' x + B2R' y) = (B2R' x + B2R' y) * (1 + e).
Proof.
  destruct (FLT_plus_error_N_ex radix2 (-149) 24 (fun z => negb (Z.even z)) (B2R' x) (B2R' y)) as (e & He & E); [exact (generic_f32 x)|exact (generic_f32 y)|].
  exists e. split; [|exact E]. eapply Rle_trans; [exact He|]. unfold Relative.u_ro. cbn. lra.
Qed.

(** Factors: [lo k] and [hi k] bound the relative error of [k] operations. *)
Definition lo (k : nat) : R := (1 - u) ^ k.
Definition hi (k : nat) : R := (1 + u) ^ k.
Lemma lo_pos k : 0 < lo k. Proof. unfold lo. apply pow_lt. lra. Qed.
Lemma hi_ge1 k : 1 <= hi k. Proof. unfold hi. apply pow_R1_Rle. lra. Qed.
Lemma lo_le1 k : lo k <= 1. Proof. unfold lo. apply Rle_trans with (1 ^ k); [apply pow_incr; lra|right; apply pow1]. Qed.
Lemma lo_S k : lo (S k) = lo k * (1 - u). Proof. unfold lo. cbn [pow]. ring. Qed.
Lemma hi_S k : hi (S k) = hi k * (1 + u). Proof. unfold hi. cbn [pow]. ring. Qed.
Lemma lo_add a b : lo (a + b) = lo a * lo b. Proof. unfold lo. apply pow_add. Qed.
Lemma hi_add a b : hi (a + b) = hi a * hi b. Proof. unfold hi. apply pow_add. Qed.
Lemma lo_bernoulli k : 1 - IZR (Z.of_nat k) * u <= lo k.
Proof.
  induction k as [|k IH]; [unfold lo; cbn; lra|]. rewrite lo_S, Nat2Z.inj_succ, succ_IZR. assert (0 <= IZR (Z.of_nat k)) as Hk by (apply (IZR_le 0); lia).
  apply Rle_trans with ((1 - IZR (Z.of_nat k) * u) * (1 - u)); [nra|]. apply Rmult_le_compat_r; lra.
Qed.
Lemma lo_hi k : lo k * hi k <= 1.
Proof. unfold lo, hi. rewrite <- Rpow_mult_distr. apply Rle_trans with (1 ^ k); [apply pow_incr; lra|right; apply pow1]. Qed.
Lemma lo_mono j k : (j <= k)%nat -> lo k <= lo j.
Proof. intros H. replace k with (j + (k - j))%nat by lia. rewrite lo_add. pose proof (lo_pos j). pose proof (lo_le1 (k - j)). nra. Qed.
Lemma hi_mono j k : (j <= k)%nat -> hi j <= hi k.
Proof. intros H. replace k with (j + (k - j))%nat by lia. rewrite hi_add. pose proof (hi_ge1 j). pose proof (hi_ge1 (k - j)). nra. Qed.
Lemma hi_two k : IZR (Z.of_nat k) * u <= / 2 -> hi k <= 2.
Proof. intros H. pose proof (lo_bernoulli k) as H1. pose proof (lo_hi k) as H2. pose proof (hi_ge1 k). nra. Qed.

(** [x] approximates the non-negative real [r] with the error of [k] operations. *)
Definition near (k : nat) (x : f32) (r : R) : Prop := is_finite x = true /\ 0 <= r /\ lo k * r <= B2R' x <= hi k * r.
Lemma near_nn k x r : near k x r -> 0 <= B2R' x.
Proof. intros (_ & Hr & H & _). pose proof (lo_pos k). nra. Qed.
Lemma near_exact x : is_finite x = true -> 0 <= B2R' x -> near 0 x (B2R' x).
Proof. intros F H. split; [exact F|]. split; [exact H|]. unfold lo, hi. cbn. lra. Qed.
Lemma near_weaken j k x r : (j <= k)%nat -> near j x r -> near k x r.
Proof. intros H (F & Hr & A & B). split; [exact F|]. split; [exact Hr|]. pose proof (lo_mono j k H). pose proof (hi_mono j k H). split; nra. Qed.
Lemma rnd_finite (z : f32) r : repr z r -> Rabs (rnd r) < M -> is_finite z = true /\ B2R' z = rnd r.
Proof.
  intros [Nz Kz] H. apply Rabs_lt_inv in H. rewrite clampM_id in Kz by lra. assert (is_finite z = true) as F by (apply finite_of_key; [exact Nz|lra]). split; [exact F|]. rewrite <- (key_finite _ F). exact Kz.
Qed.
Lemma M_127 : 2 * bpow radix2 127 = M. Proof. unfold M. change 128%Z with (1 + 127)%Z. rewrite bpow_plus. reflexivity. Qed.
Lemma near_add k x y r s : near k x r -> near k y s -> hi k * (r + s) <= bpow radix2 127 -> near (S k) (f_add x y) (r + s).
Proof.
  intros Hx Hy Hb. pose proof (near_nn _ _ _ Hx) as Px. pose proof (near_nn _ _ _ Hy) as Py. destruct Hx as (Fx & Hr & Ax & Bx), Hy as (Fy & Hs & Ay & By).
  destruct (rnd_plus x y) as (e & He & E). apply Rabs_le_inv in He. set (t := B2R' x + B2R' y) in *. pose proof (bpow_gt_0 radix2 127) as Hp. pose proof M_127 as HM.
  assert (lo k * (r + s) <= t <= hi k * (r + s)) as Ht by (unfold t; lra). assert (0 <= t) as Pt by (unfold t; lra).
  assert (t * (1 - u) <= t * (1 + e) <= t * (1 + u)) as Hte by (split; apply Rmult_le_compat_l; lra).
  destruct (rnd_finite (f_add x y) t (add_repr _ _ Fx Fy)) as [Fz Bz]; [rewrite E, Rabs_pos_eq; nra|].
  split; [exact Fz|]. split; [lra|]. rewrite Bz, E, lo_S, hi_S. split; nra.
Qed.
(** Multiplication and division by an exact number, away from underflow and overflow. *)
Lemma near_mul k x r c v : near k x r -> is_finite c = true -> B2R' c = v -> 0 < v -> bpow radix2 (-126) <= v * (lo k * r) -> v * (hi k * r) <= bpow radix2 127 -> near (S k) (f_mul c x) (v * r).
Proof.
  intros Hx Fc Bc Hv Hlow Hb. pose proof (near_nn _ _ _ Hx) as Px. destruct Hx as (Fx & Hr & Ax & Bx). pose proof (bpow_gt_0 radix2 (-126)) as Hq. pose proof (bpow_gt_0 radix2 127) as Hp. pose proof M_127 as HM.
  assert (v * (lo k * r) <= v * B2R' x <= v * (hi k * r)) as Ht by (split; apply Rmult_le_compat_l; lra). set (t := v * B2R' x) in *.
  destruct (rnd_relative t) as (e & He & E); [rewrite Rabs_pos_eq; lra|]. apply Rabs_le_inv in He.
  assert (t * (1 - u) <= t * (1 + e) <= t * (1 + u)) as Hte by (split; apply Rmult_le_compat_l; lra).
  destruct (rnd_finite (f_mul c x) t) as [Fz Bz]; [unfold t; rewrite <- Bc; apply mul_repr; assumption|rewrite E, Rabs_pos_eq; nra|].
  split; [exact Fz|]. split; [nra|]. rewrite Bz, E, lo_S, hi_S. split; nra.
Qed.
Lemma near_div k x r c v : near k x r -> is_finite c = true -> B2R' c = v -> 0 < v -> bpow radix2 (-126) <= lo k * r / v -> hi k * r / v <= bpow radix2 127 -> near (S k) (f_div x c) (r / v).
Proof.
  intros Hx Fc Bc Hv Hlow Hb. pose proof (near_nn _ _ _ Hx) as Px. destruct Hx as (Fx & Hr & Ax & Bx). pose proof (bpow_gt_0 radix2 (-126)) as Hq. pose proof (bpow_gt_0 radix2 127) as Hp. pose proof M_127 as HM.
  pose proof (Rinv_0_lt_compat _ Hv) as Hi. unfold Rdiv in *.
  assert (lo k * r * / v <= B2R' x * / v <= hi k * r * / v) as Ht by (split; apply Rmult_le_compat_r; lra). set (t := B2R' x * / v) in *.
  destruct (rnd_relative t) as (e & He & E); [rewrite Rabs_pos_eq; lra|]. apply Rabs_le_inv in He.
  assert (t * (1 - u) <= t * (1 + e) <= t * (1 + u)) as Hte by (split; apply Rmult_le_compat_l; lra).
  destruct (rnd_finite (f_div x c) t) as [Fz Bz]; [unfold t; rewrite <- Bc; apply div_repr; [assumption|assumption|lra]|rewrite E, Rabs_pos_eq; nra|].
  split; [exact Fz|]. split; [nra|]. rewrite Bz, E, lo_S, hi_S. split; nra.
Qed.

(** A running sum. *)
Definition total (l : list R) : R := fold_right Rplus 0 l.
Lemma total_nn l : Forall (fun r => 0 <= r) l -> 0 <= total l.
Proof. induction 1; cbn; [lra|]. unfold total in *. lra. Qed.
Lemma near_sum k0 ws rs : Forall2 (near k0) ws rs -> forall k a r, (k0 <= k)%nat -> near k a r -> hi (k + length ws) * (r + total rs) <= bpow radix2 127 ->
  near (k + length ws) (fold_left f_add ws a) (r + total rs).
Proof.
  induction 1 as [|w s ws rs Hw HF IH]; intros k a r Hk Ha Hb; cbn [fold_left length total fold_right] in *.
  - rewrite Nat.add_0_r, Rplus_0_r. exact Ha.
  - assert (0 <= fold_right Rplus 0 rs) as Hn. { apply total_nn. clear - HF. induction HF as [|? ? ? ? (_ & H & _) _ IH]; constructor; assumption. }
    replace (k + S (length ws))%nat with (S k + length ws)%nat in * by lia. replace (r + (s + fold_right Rplus 0 rs)) with (r + s + total rs) in * by (unfold total; ring). apply IH; [lia| |exact Hb].
    apply near_add; [exact Ha|eapply near_weaken; [exact Hk|exact Hw]|]. eapply Rle_trans; [|exact Hb]. pose proof (hi_mono k (S k + length ws) ltac:(lia)). pose proof (hi_ge1 k).
    assert (0 <= r + s) by (destruct Ha as (_ & ? & _), Hw as (_ & ? & _); lra). unfold total. nra.
Qed.
