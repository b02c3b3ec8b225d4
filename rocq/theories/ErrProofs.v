(** Absolute rounding errors of f32 operations. *)
From Coq Require Import Reals Psatz.
From Flocq Require Import Core BinarySingleNaN Relative.
From Verif Require Import Base BaseProofs F32 F32Proofs Num ScaledProofs SumErrProofs.
Local Open Scope R_scope.

(** Half of the smallest positive f32. *)
Definition tiny : R := bpow radix2 (-150).
Lemma tiny_pos : 0 < tiny. Proof. apply bpow_gt_0. Qed.
Lemma tiny_small : tiny <= / 1152921504606846976.
Proof. unfold tiny. apply Rle_trans with (bpow radix2 (-60)); [apply bpow_le; lia|]. cbn. lra. Qed.
Lemma big_127 : 1152921504606846976 <= bpow radix2 127.
Proof. apply Rle_trans with (bpow radix2 60); [cbn; lra|apply bpow_le; lia]. Qed.
Lemma rnd_err r : Rabs (rnd r - r) <= u * Rabs r + tiny.
Proof.
  destruct (error_N_FLT radix2 (-149) 24 ltac:(lia) (fun z => negb (Z.even z)) r) as (e & t & He & Ht & _ & E).
  change (rnd r) with (round radix2 (FLT_exp (-149) 24) (Znearest (fun z => negb (Z.even z))) r). rewrite E. replace (r * (1 + e) + t - r) with (r * e + t) by ring.
  eapply Rle_trans; [apply Rabs_triang|]. rewrite Rabs_mult. apply Rplus_le_compat.
  - rewrite Rmult_comm. apply Rmult_le_compat_r; [apply Rabs_pos|]. eapply Rle_trans; [exact He|]. unfold u_ro. cbn. lra.
  - eapply Rle_trans; [exact Ht|]. unfold tiny. replace (-149)%Z with (1 + -150)%Z by lia. rewrite bpow_plus. change (bpow radix2 1) with 2. right. field.
Qed.

(** The finite float [x] misses the real [r] by at most [e]. *)
Definition err (x : f32) (r e : R) : Prop := is_finite x = true /\ Rabs (B2R' x - r) <= e.
Lemma err_nn x r e : err x r e -> 0 <= e.
Proof. intros (_ & H). eapply Rle_trans; [apply Rabs_pos|exact H]. Qed.
Lemma err_exact x : is_finite x = true -> err x (B2R' x) 0.
Proof. intros H. split; [exact H|]. rewrite Rminus_diag_eq, Rabs_R0 by reflexivity. lra. Qed.
Lemma err_eq x r : is_finite x = true -> B2R' x = r -> err x r 0.
Proof. intros H <-. apply err_exact, H. Qed.
Lemma err_weaken x r a b : err x r a -> a <= b -> err x r b.
Proof. intros (F & H) Hb. split; [exact F|lra]. Qed.
Lemma err_shift x r s a : err x r a -> err x s (a + Rabs (r - s)).
Proof. intros (F & H). split; [exact F|]. replace (B2R' x - s) with (B2R' x - r + (r - s)) by ring. eapply Rle_trans; [apply Rabs_triang|]. lra. Qed.
Lemma err_size x r a : err x r a -> Rabs (B2R' x) <= Rabs r + a.
Proof. intros (_ & H). replace (B2R' x) with (r + (B2R' x - r)) by ring. eapply Rle_trans; [apply Rabs_triang|]. lra. Qed.
Lemma round_fits (z : f32) t : repr z t -> Rabs t <= bpow radix2 127 -> is_finite z = true /\ B2R' z = rnd t.
Proof.
  intros Hz Ht. apply rnd_finite; [exact Hz|]. pose proof (rnd_err t) as H. pose proof M_127 as HM. pose proof tiny_small. pose proof big_127.
  replace (rnd t) with (rnd t - t + t) by ring. eapply Rle_lt_trans; [apply Rabs_triang|]. lra.
Qed.
Lemma round_err (z : f32) t r a : repr z t -> Rabs (t - r) <= a -> Rabs r + a <= bpow radix2 127 -> err z r (a + u * (Rabs r + a) + tiny).
Proof.
  intros Hz Ht Hb. assert (Rabs t <= Rabs r + a) as Hs. { replace t with (r + (t - r)) by ring. eapply Rle_trans; [apply Rabs_triang|lra]. }
  destruct (round_fits z t Hz ltac:(lra)) as (F & B). split; [exact F|]. rewrite B. pose proof (rnd_err t) as H.
  replace (rnd t - r) with (rnd t - t + (t - r)) by ring. eapply Rle_trans; [apply Rabs_triang|]. lra.
Qed.
Lemma sum_err (z : f32) (x y : f32) t r a : repr z t -> (exists e, Rabs e <= u /\ rnd t = t * (1 + e)) -> Rabs (t - r) <= a -> Rabs r + a <= bpow radix2 127 -> err z r (a + u * (Rabs r + a)).
Proof.
  intros Hz (e & He & E) Ht Hb. assert (Rabs t <= Rabs r + a) as Hs. { replace t with (r + (t - r)) by ring. eapply Rle_trans; [apply Rabs_triang|lra]. }
  destruct (round_fits z t Hz ltac:(lra)) as (F & B). split; [exact F|]. rewrite B, E.
  replace (t * (1 + e) - r) with (t * e + (t - r)) by ring. eapply Rle_trans; [apply Rabs_triang|]. rewrite Rabs_mult.
  pose proof (Rabs_pos t). pose proof (Rabs_pos e). nra.
Qed.
Lemma err_add x y r s a b : err x r a -> err y s b -> Rabs (r + s) + (a + b) <= bpow radix2 127 -> err (f_add x y) (r + s) (a + b + u * (Rabs (r + s) + (a + b))).
Proof.
  intros (Fx & Hx) (Fy & Hy) Hb. apply (sum_err (f_add x y) x y (B2R' x + B2R' y)); [apply add_repr; assumption|apply rnd_plus| |exact Hb].
  replace (B2R' x + B2R' y - (r + s)) with (B2R' x - r + (B2R' y - s)) by ring. eapply Rle_trans; [apply Rabs_triang|lra].
Qed.
Lemma B2R_neg (x : f32) : is_finite (f_neg x) = is_finite x /\ B2R' (f_neg x) = - B2R' x.
Proof. split; [apply is_finite_Bopp|apply B2R_Bopp]. Qed.
Lemma rnd_minus (x y : f32) : exists e, Rabs e <= u /\ rnd (B2R' x - B2R' y) = (B2R' x - B2R' y) * (1 + e).
Proof. destruct (rnd_plus x (f_neg y)) as (e & He & E). rewrite (proj2 (B2R_neg y)) in E. exists e. split; [exact He|exact E]. Qed.
Lemma err_sub x y r s a b : err x r a -> err y s b -> Rabs (r - s) + (a + b) <= bpow radix2 127 -> err (f_sub x y) (r - s) (a + b + u * (Rabs (r - s) + (a + b))).
Proof.
  intros (Fx & Hx) (Fy & Hy) Hb. apply (sum_err (f_sub x y) x y (B2R' x - B2R' y)); [apply sub_repr; assumption|apply rnd_minus| |exact Hb].
  replace (B2R' x - B2R' y - (r - s)) with (B2R' x - r + - (B2R' y - s)) by ring. eapply Rle_trans; [apply Rabs_triang|]. rewrite Rabs_Ropp. lra.
Qed.
Lemma mul_dist x y r s a b : Rabs (x - r) <= a -> Rabs (y - s) <= b -> Rabs (x * y - r * s) <= a * Rabs s + b * Rabs r + a * b.
Proof.
  intros Hx Hy. replace (x * y - r * s) with ((x - r) * s + (y - s) * r + (x - r) * (y - s)) by ring.
  eapply Rle_trans; [apply Rabs_triang|]. apply Rplus_le_compat; [eapply Rle_trans; [apply Rabs_triang|]; apply Rplus_le_compat|]; rewrite Rabs_mult.
  - apply Rmult_le_compat_r; [apply Rabs_pos|assumption].
  - apply Rmult_le_compat_r; [apply Rabs_pos|assumption].
  - apply Rmult_le_compat; auto using Rabs_pos.
Qed.
Lemma err_mul x y r s a b : err x r a -> err y s b -> let d := a * Rabs s + b * Rabs r + a * b in
  Rabs (r * s) + d <= bpow radix2 127 -> err (f_mul x y) (r * s) (d + u * (Rabs (r * s) + d) + tiny).
Proof.
  intros (Fx & Hx) (Fy & Hy) d Hb. apply (round_err (f_mul x y) (B2R' x * B2R' y)); [apply mul_repr; assumption| |exact Hb]. apply mul_dist; assumption.
Qed.
(** Division by an exact number. *)
Lemma err_div x y r s a : err x r a -> is_finite y = true -> B2R' y = s -> s <> 0 -> let d := a / Rabs s in
  Rabs (r / s) + d <= bpow radix2 127 -> err (f_div x y) (r / s) (d + u * (Rabs (r / s) + d) + tiny).
Proof.
  intros (Fx & Hx) Fy By Hs d Hb. apply (round_err (f_div x y) (B2R' x / s)); [rewrite <- By; apply div_repr; [assumption|assumption|congruence]| |exact Hb].
  replace (B2R' x / s - r / s) with ((B2R' x - r) / s) by (field; exact Hs). unfold Rdiv at 1. rewrite Rabs_mult, Rabs_inv. apply Rmult_le_compat_r; [|exact Hx].
  apply Rlt_le, Rinv_0_lt_compat, Rabs_pos_lt, Hs.
Qed.
(** Division by an approximate positive number. *)
Lemma div_dist x y r s a b : Rabs (x - r) <= a -> Rabs (y - s) <= b -> b < s -> Rabs (x / y - r / s) <= (a + b * Rabs r / s) / (s - b).
Proof.
  intros Hx Hy Hb. pose proof (Rabs_pos (y - s)) as H0. assert (s - b <= y) as Hy' by (apply Rabs_le_inv in Hy; lra). assert (0 < s) by lra. assert (0 < y) by lra.
  replace (x / y - r / s) with ((x - r + (s - y) * (r / s)) / y) by (field; lra). unfold Rdiv at 1. rewrite Rabs_mult, (Rabs_pos_eq (/ y)) by (apply Rlt_le, Rinv_0_lt_compat; lra).
  apply Rmult_le_compat; [apply Rabs_pos|apply Rlt_le, Rinv_0_lt_compat; lra| |apply Rinv_le_contravar; lra].
  eapply Rle_trans; [apply Rabs_triang|]. apply Rplus_le_compat; [exact Hx|]. rewrite Rabs_mult, (Rabs_minus_sym s y). unfold Rdiv. rewrite Rabs_mult, (Rabs_pos_eq (/ s)) by (apply Rlt_le, Rinv_0_lt_compat; lra).
  rewrite <- Rmult_assoc. apply Rmult_le_compat_r; [apply Rlt_le, Rinv_0_lt_compat; lra|]. apply Rmult_le_compat_r; [apply Rabs_pos|exact Hy].
Qed.
Lemma err_div2 x y r s a b : err x r a -> err y s b -> b < s -> let d := (a + b * Rabs r / s) / (s - b) in
  Rabs (r / s) + d <= bpow radix2 127 -> err (f_div x y) (r / s) (d + u * (Rabs (r / s) + d) + tiny).
Proof.
  intros (Fx & Hx) (Fy & Hy) Hs d Hb. apply (round_err (f_div x y) (B2R' x / B2R' y)); [apply div_repr; [assumption|assumption|]| |exact Hb].
  - apply Rabs_le_inv in Hy. lra.
  - apply div_dist; assumption.
Qed.
Lemma err_abs x r a : err x r a -> err (f_abs x) (Rabs r) a.
Proof.
  intros (F & H). assert (is_finite (f_abs x) = true) as F' by (unfold f_abs; rewrite is_finite_Babs; exact F). split; [exact F'|]. unfold f_abs. rewrite B2R_Babs. eapply Rle_trans; [apply Rabs_triang_inv2|exact H].
Qed.
Lemma err_ofZ z : (Z.abs z <= 2 ^ 24)%Z -> err (f_of_Z z) (IZR z) 0.
Proof. intros H. destruct (f_of_Z_exact z H) as (F & B). apply err_eq; assumption. Qed.
