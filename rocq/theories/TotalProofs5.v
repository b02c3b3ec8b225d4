(** Bounds on f32 results: no result is larger than a representable bound of the exact one. *)
From Coq Require Import Reals Psatz.
From Flocq Require Import Core BinarySingleNaN.
From Verif Require Import Base BaseProofs F32 F32Proofs Num ScaledProofs TotalProofs2.
Local Open Scope R_scope.

(** A representable bound. *)
Definition okb (r : R) : Prop := generic_format radix2 fexp32 r /\ 0 <= r < M.
(** A finite number of at most this size. *)
Definition bnd (x : f32) (r : R) : Prop := is_finite x = true /\ Rabs (B2R' x) <= r.

Lemma rnd_abs v r : Rabs v <= r -> generic_format radix2 fexp32 r -> Rabs (rnd v) <= r.
Proof. intros H G. apply abs_round_le_generic; auto with typeclass_instances. Qed.
Lemma bnd_repr z v r : repr z v -> Rabs v <= r -> okb r -> bnd z r.
Proof.
  intros [Hn Hk] Hv [G [H0 H1]]. pose proof (rnd_abs v r Hv G) as Hr. pose proof Hr as Hr'. apply Rabs_le_inv in Hr'. rewrite clampM_id in Hk by lra.
  assert (is_finite z = true) as F by (apply finite_of_key; [exact Hn|lra]). split; [exact F|]. rewrite <- (key_finite _ F), Hk. exact Hr.
Qed.
Lemma bnd_le x r r' : bnd x r -> r <= r' -> bnd x r'. Proof. intros [F H] L. split; [exact F|lra]. Qed.
Lemma bnd_add x y a b r : bnd x a -> bnd y b -> a + b <= r -> okb r -> bnd (f_add x y) r.
Proof. intros [Fx Hx] [Fy Hy] H K. eapply bnd_repr; [apply add_repr; assumption| |exact K]. pose proof (Rabs_triang (B2R' x) (B2R' y)). lra. Qed.
Lemma bnd_sub x y a b r : bnd x a -> bnd y b -> a + b <= r -> okb r -> bnd (f_sub x y) r.
Proof. intros [Fx Hx] [Fy Hy] H K. eapply bnd_repr; [apply sub_repr; assumption| |exact K]. unfold Rminus. pose proof (Rabs_triang (B2R' x) (- B2R' y)). rewrite Rabs_Ropp in *. lra. Qed.
Lemma bnd_mul x y a b r : bnd x a -> bnd y b -> a * b <= r -> okb r -> bnd (f_mul x y) r.
Proof.
  intros [Fx Hx] [Fy Hy] H K. eapply bnd_repr; [apply mul_repr; assumption| |exact K]. rewrite Rabs_mult. pose proof (Rabs_pos (B2R' x)). pose proof (Rabs_pos (B2R' y)).
  apply Rle_trans with (a * b); [|exact H]. apply Rmult_le_compat; assumption.
Qed.
Lemma bnd_neg x a : bnd x a -> bnd (f_neg x) a.
Proof. intros [F H]. split; [unfold f_neg; rewrite is_finite_Bopp; exact F|]. unfold f_neg. rewrite B2R_Bopp, Rabs_Ropp. exact H. Qed.
Lemma bnd_div x y a b r : bnd x a -> is_finite y = true -> 0 < b -> b <= B2R' y -> a <= r * b -> okb r -> bnd (f_div x y) r.
Proof.
  intros [Fx Hx] Fy Hb Hy H K. pose proof K as [_ [K0 K1]]. eapply bnd_repr; [apply div_repr; try assumption; lra| |exact K]. unfold Rdiv. rewrite Rabs_mult, Rabs_inv, (Rabs_pos_eq (B2R' y)) by lra.
  apply Rmult_le_reg_r with (B2R' y); [lra|]. rewrite Rmult_assoc, Rinv_l by lra. pose proof (Rmult_le_compat_l r b (B2R' y) K0 Hy). lra.
Qed.
Lemma bnd_ofZ z : (Z.abs z <= 2 ^ 24)%Z -> bnd (f_of_Z z) (IZR (Z.abs z)).
Proof. intros H. destruct (f_of_Z_exact z H) as [F B]. split; [exact F|]. rewrite B, abs_IZR. lra. Qed.
Lemma bnd_eq x : is_finite x = true -> f_eq x x = true.
Proof. intros F. unfold f_eq. rewrite Beqb_correct by assumption. apply Req_bool_true. reflexivity. Qed.

(* ---- representable bounds ---- *)
Lemma generic_scaled z e : (Z.abs z <= 2 ^ 24)%Z -> (-149 <= e)%Z -> generic_format radix2 fexp32 (IZR z * bpow radix2 e).
Proof.
  intros H He. destruct (Z.eq_dec (Z.abs z) (2 ^ 24)) as [E|E].
  - assert (generic_format radix2 fexp32 (bpow radix2 (24 + e))) as G by (apply generic_format_FLT_bpow; [reflexivity|]; unfold SpecFloat.emin; lia).
    rewrite bpow_plus in G. change (bpow radix2 24) with (IZR (2 ^ 24)) in G. destruct (Z.abs_eq_or_opp z) as [Ez|Ez]; rewrite Ez in E.
    + rewrite E. exact G.
    + replace z with (- (2 ^ 24))%Z by lia. rewrite opp_IZR, Ropp_mult_distr_l_reverse. apply generic_format_opp, G.
  - apply generic_format_FLT. exists (Float radix2 z e); [reflexivity| |].
    + cbn [Fnum]. cbn. lia.
    + cbn [Fexp]. cbn. lia.
Qed.
Lemma IZR_nat_pow (n m : nat) : (Z.of_nat n <= 2 ^ Z.of_nat m)%Z -> IZR (Z.of_nat n) <= bpow radix2 (Z.of_nat m).
Proof. intros H. rewrite <- IZR_Zpower by lia. apply IZR_le. exact H. Qed.
Lemma okb_bpow e : (-149 <= e <= 127)%Z -> okb (bpow radix2 e).
Proof.
  intros H. split; [replace (bpow radix2 e) with (IZR 1 * bpow radix2 e) by ring; apply generic_scaled; [cbn|]; lia|]. split; [apply bpow_ge_0|]. unfold M. apply bpow_lt. lia.
Qed.
Lemma okb_scaled (z e m : Z) : (0 <= z <= 2 ^ 24)%Z -> (z <= 2 ^ m)%Z -> (0 <= m)%Z -> (-149 <= e)%Z -> (m + e <= 127)%Z -> okb (IZR z * bpow radix2 e).
Proof.
  intros Hz Hm H0 He Hs. split; [apply generic_scaled; lia|]. split; [apply Rmult_le_pos; [apply (IZR_le 0); lia|apply bpow_ge_0]|].
  apply Rle_lt_trans with (bpow radix2 (m + e)); [|unfold M; apply bpow_lt; lia]. rewrite bpow_plus. apply Rmult_le_compat_r; [apply bpow_ge_0|]. rewrite <- IZR_Zpower by exact H0. apply IZR_le. exact Hm.
Qed.

(** Adding something small to a power of two does not exceed it. *)
Lemma rnd_below v e : (-100 <= e <= 127)%Z -> Rabs v < bpow radix2 e + bpow radix2 (e - 24) -> Rabs (rnd v) <= bpow radix2 e.
Proof.
  intros He Hv. destruct (okb_bpow e) as [G _]; [lia|]. change (round_mode mode_NE) with ZnearestE. rewrite <- (round_NE_abs radix2 fexp32 v). apply (round_N_le_midp radix2 fexp32 (fun x => negb (Z.even x)) _ _ G).
  rewrite succ_eq_pos by apply bpow_ge_0. rewrite ulp_bpow. replace (fexp32 (e + 1)) with (e - 23)%Z by (unfold SpecFloat.fexp, SpecFloat.emin; lia).
  replace (bpow radix2 (e - 23)) with (2 * bpow radix2 (e - 24)); [lra|]. replace (e - 23)%Z with (1 + (e - 24))%Z by lia. rewrite bpow_plus. reflexivity.
Qed.
Lemma bnd_sub_below x y e a : (-100 <= e <= 127)%Z -> (a <= e - 25)%Z -> bnd x (bpow radix2 a) -> bnd y (bpow radix2 e) -> bnd (f_sub x y) (bpow radix2 e).
Proof.
  intros He Ha [Fx Hx] [Fy Hy]. pose proof (sub_repr _ _ Fx Fy) as [Hn Hk]. assert (Rabs (rnd (B2R' x - B2R' y)) <= bpow radix2 e) as Hr.
  { apply rnd_below; [exact He|]. unfold Rminus. pose proof (Rabs_triang (B2R' x) (- B2R' y)). rewrite Rabs_Ropp in *. assert (bpow radix2 a < bpow radix2 (e - 24)) by (apply bpow_lt; lia). lra. }
  assert (bpow radix2 e < M) as HM by (apply bpow_lt; lia). pose proof Hr as Hr'. apply Rabs_le_inv in Hr'. rewrite clampM_id in Hk by lra.
  assert (is_finite (f_sub x y) = true) as F by (apply finite_of_key; [exact Hn|lra]). split; [exact F|]. rewrite <- (key_finite _ F), Hk. exact Hr.
Qed.

(** The bounds of the predictions after [k] iterations of the squared error, for targets of at most 2^a. *)
Section Doubling.
Variable a : Z.
Hypothesis Ha : (0 <= a)%Z.
Definition res_bound (k : nat) : R := bpow radix2 (a + Z.of_nat k + 1).
Definition pred_bound (k : nat) : R := if (k <? 24)%nat then IZR (2 ^ Z.of_nat (k + 1) - 1) * bpow radix2 a else res_bound k.
Lemma pow_pos k : (1 <= 2 ^ Z.of_nat k)%Z. Proof. pose proof (Z.pow_pos_nonneg 2 (Z.of_nat k)). lia. Qed.
Lemma res_eq k : res_bound k = IZR (2 ^ Z.of_nat (k + 1)) * bpow radix2 a.
Proof. unfold res_bound. replace (a + Z.of_nat k + 1)%Z with (Z.of_nat (k + 1) + a)%Z by lia. rewrite bpow_plus. f_equal. rewrite <- IZR_Zpower by lia. reflexivity. Qed.
Lemma pred_le k : pred_bound k <= res_bound k.
Proof. unfold pred_bound. destruct (Nat.ltb_spec k 24); [|lra]. rewrite res_eq. apply Rmult_le_compat_r; [apply bpow_ge_0|]. apply IZR_le. lia. Qed.
Lemma res_ok k : (a + Z.of_nat k <= 126)%Z -> okb (res_bound k). Proof. intros H. apply okb_bpow. lia. Qed.
Lemma pred_ok k : (a + Z.of_nat k <= 126)%Z -> okb (pred_bound k).
Proof.
  intros H. unfold pred_bound. destruct (Nat.ltb_spec k 24) as [L|L]; [|apply res_ok, H]. pose proof (pow_pos (k + 1)). assert (2 ^ Z.of_nat (k + 1) <= 2 ^ 24)%Z by (apply Z.pow_le_mono_r; lia).
  apply (okb_scaled _ _ (Z.of_nat (k + 1))); lia.
Qed.
Lemma pred_step k : pred_bound k + res_bound k <= pred_bound (S k).
Proof.
  unfold pred_bound. destruct (Nat.ltb_spec k 24) as [L|L]; destruct (Nat.ltb_spec (S k) 24) as [L'|L']; try lia; rewrite ?res_eq.
  - rewrite <- Rmult_plus_distr_r, <- plus_IZR. apply Rmult_le_compat_r; [apply bpow_ge_0|]. apply IZR_le. replace (Z.of_nat (S k + 1)) with (Z.succ (Z.of_nat (k + 1))) by lia. rewrite Z.pow_succ_r by lia. lia.
  - rewrite <- Rmult_plus_distr_r, <- plus_IZR. apply Rmult_le_compat_r; [apply bpow_ge_0|]. apply IZR_le. replace (Z.of_nat (S k + 1)) with (Z.succ (Z.of_nat (k + 1))) by lia. rewrite Z.pow_succ_r by lia. lia.
  - rewrite <- Rmult_plus_distr_r, <- plus_IZR. apply Rmult_le_compat_r; [apply bpow_ge_0|]. apply IZR_le. replace (Z.of_nat (S k + 1)) with (Z.succ (Z.of_nat (k + 1))) by lia. rewrite Z.pow_succ_r by lia. lia.
Qed.
Lemma pred_0 : pred_bound 0 = bpow radix2 a. Proof. unfold pred_bound. cbn [Nat.ltb Nat.leb]. change (2 ^ Z.of_nat (0 + 1) - 1)%Z with 1%Z. ring. Qed.
Lemma resid_bnd k t p : (a + Z.of_nat k <= 126)%Z -> bnd t (bpow radix2 a) -> bnd p (pred_bound k) -> bnd (f_sub t p) (res_bound k).
Proof.
  intros Hk Ht Hp. unfold pred_bound in Hp. destruct (Nat.ltb_spec k 24) as [L|L].
  - eapply bnd_sub; [exact Ht|exact Hp| |apply res_ok, Hk]. rewrite res_eq, minus_IZR. lra.
  - unfold res_bound. apply bnd_sub_below with (a := a); try assumption; lia.
Qed.
End Doubling.
