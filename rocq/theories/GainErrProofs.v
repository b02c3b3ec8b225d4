(** f32 rounding errors of gains. *)
From Coq Require Import Permutation Reals Psatz.
From Flocq Require Import Core BinarySingleNaN.
From Verif Require Import Base BaseProofs BitModel BitSpec SimdModel SliceModel SliceSpec SliceProofs CountSumProofs F32 F32Proofs Num ScaledModel ScaledProofs SumErrProofs ErrProofs ScaledErrProofs BinnerProofs
  TotalProofs2 DataModel Config TreeModel DatasetModel DatasetSpec RouteProps LearnerModel LearnerSpec LearnerProofs LearnerProofs2 LearnerProofs3 LearnerProofs4 LearnerProofs5 GainSpec LearnerProps GrownErrProofs.
Local Open Scope R_scope.

Lemma bpow_120 : bpow radix2 60 * bpow radix2 60 * 128 = bpow radix2 127.
Proof. change 127%Z with (60 + (60 + 7))%Z. rewrite !bpow_plus. change (bpow radix2 7) with 128. ring. Qed.
Lemma half_ok : err (f_neg (f_div (f_of_Z 1) (f_of_Z 2))) (- / 2) 0.
Proof.
  assert (is_finite (f_div (f_of_Z 1) (f_of_Z 2)) = true /\ B2R' (f_div (f_of_Z 1) (f_of_Z 2)) = / 2) as (F & Bv).
  { destruct (f_of_Z_exact 1 ltac:(lia)) as (F1 & B1). destruct (f_of_Z_exact 2 ltac:(lia)) as (F2 & B2). pose proof (div_repr _ _ F1 F2 ltac:(rewrite B2; lra)) as Hr. rewrite B1, B2 in Hr.
    pose proof big_127. destruct (round_fits _ _ Hr) as (F & Bv); [rewrite Rabs_pos_eq; lra|]. split; [exact F|]. rewrite Bv. replace (1 / 2) with (/ 2) by lra. apply rnd_generic. exact generic_half. }
  destruct (B2R_neg (f_div (f_of_Z 1) (f_of_Z 2))) as (Fn & Bn). apply err_eq; [rewrite Fn; exact F|rewrite Bn, Bv; reflexivity].
Qed.
Lemma div_le_self y q : 0 <= y -> 1 <= q -> 0 <= y / q <= y.
Proof.
  intros Hy Hq. assert (0 < / q <= 1) as Hi. { split; [apply Rinv_0_lt_compat; lra|]. rewrite <- Rinv_1. apply Rinv_le_contravar; lra. } unfold Rdiv. nra.
Qed.
Lemma div_le_ratio c y q : 0 <= y -> 0 <= c <= q -> 0 < q -> 0 <= c * y / q <= y.
Proof.
  intros Hy Hc Hq. assert (0 <= c / q <= 1) as Hi. { split; [apply Rmult_le_pos; [lra|apply Rlt_le, Rinv_0_lt_compat; lra]|]. apply Rmult_le_reg_r with q; [lra|]. unfold Rdiv. rewrite Rmult_assoc, Rinv_l; lra. }
  replace (c * y / q) with (c / q * y) by (unfold Rdiv; ring). nra.
Qed.

(** The loss of a node with gradient sum [X] (known up to [e]) and [c] examples. *)
Lemma loss_err (cfg : config f32ops) (g : f32) (c : N) (X e B U : R) : is_finite (c_reg_lambda cfg : f32) = true -> 0 <= B2R' (c_reg_lambda cfg) <= bpow radix2 100 ->
  (1 <= c)%N -> IZR (Z.of_N c) * B <= U -> IZR (Z.of_N c) <= bpow radix2 31 -> err g X e -> Rabs X <= IZR (Z.of_N c) * B -> bpow radix2 (-40) <= B -> U <= bpow radix2 60 -> 64 * u * U <= e <= U ->
  err (node_loss cfg g c : f32) (- / 2 * (X * X / (IZR (Z.of_N c) + B2R' (c_reg_lambda cfg)))) (1.1 * (B * e) + 0.51 * (e * e)).
Proof.
  intros Fr Hlam Hc HcU Hc31 Hg HX HB HU He. set (C := IZR (Z.of_N c)) in *. set (lam := B2R' (c_reg_lambda cfg)) in *. set (Q := C + lam).
  assert (1 <= C) as HC by (apply (IZR_le 1); lia). pose proof (bpow_gt_0 radix2 (-40)) as Hp40. assert (0 < B) as HBp by lra. assert (B <= C * B) as HBC by nra. assert (1 <= Q) as HQ by (unfold Q; lra).
  pose proof bpow_120 as H120. pose proof big_127 as H127. pose proof big_125 as H125. pose proof big_100 as H100. pose proof one_125 as H1. pose proof tiny_pos as Ht. pose proof (tiny_ratio B HB) as Htr.
  assert (bpow radix2 31 <= / 2 * bpow radix2 125) as H31. { change 125%Z with (94 + 31)%Z. rewrite bpow_plus. assert (2 <= bpow radix2 94) by (apply Rle_trans with (bpow radix2 1); [cbn; lra|apply bpow_le; lia]). pose proof (bpow_gt_0 radix2 31). nra. }
  assert (bpow radix2 100 <= / 4 * bpow radix2 125) as H100'. { change 125%Z with (25 + 100)%Z. rewrite bpow_plus. pose proof (bpow_gt_0 radix2 100). assert (bpow radix2 25 = 33554432) as -> by (cbn; lra). lra. }
  assert (0 <= Rabs X) as HX0 by apply Rabs_pos. set (A := Rabs X) in *. assert (A * A = X * X) as HAA by (unfold A; rewrite <- Rabs_mult, Rabs_pos_eq by nra; reflexivity).
  assert (U * U <= / 128 * bpow radix2 127) as HUU. { assert (0 <= U) by lra. assert (U * U <= bpow radix2 60 * bpow radix2 60) by nra. lra. }
  assert (A * A <= U * U) as HAU by nra. assert (A * e <= U * U) as HAe by nra. assert (e * e <= U * U) as Hee by nra. assert (0 <= A * e) as HAe0 by nra. assert (0 <= e * e) as Hee0 by nra. assert (0 <= A * A) as HA20 by nra.
  assert (0 <= B * e) as HBe by nra.
  (* P = X^2 / Q *)
  assert (0 <= X * X / Q <= U * B) as HP. { rewrite <- HAA. assert (A * A <= C * (B * U)) as H2 by nra. pose proof (div_le_ratio C (B * U) Q ltac:(nra) ltac:(unfold Q; lra) ltac:(lra)) as H3. split; [apply Rmult_le_pos; [nra|apply Rlt_le, Rinv_0_lt_compat; lra]|].
    apply Rle_trans with (C * (B * U) / Q); [|lra]. apply Rmult_le_compat_r; [apply Rlt_le, Rinv_0_lt_compat; lra|exact H2]. }
  assert (0 <= A * e / Q <= B * e) as HAeQ. { split; [apply Rmult_le_pos; [nra|apply Rlt_le, Rinv_0_lt_compat; lra]|]. apply Rle_trans with (C * (B * e) / Q); [|apply div_le_ratio; [nra|unfold Q; lra|lra]]. apply Rmult_le_compat_r; [apply Rlt_le, Rinv_0_lt_compat; lra|nra]. }
  pose proof (div_le_self (e * e) Q Hee0 HQ) as HeeQ. pose proof (div_le_self tiny Q (Rlt_le _ _ Ht) HQ) as HtQ.
  set (P := X * X / Q) in *. unfold node_loss, nofN. cbn [nmul nneg ndiv nofZ nadd f32ops].
  (* square *)
  assert (err (f_mul g g) (X * X) (2 * (A * e) + e * e + u * (A * A + (2 * (A * e) + e * e)) + tiny)) as Hgg.
  { pose proof (err_mul _ _ _ _ _ _ Hg Hg) as E. cbv zeta in E. fold A in E. rewrite (Rabs_pos_eq (X * X)) in E by nra. rewrite <- HAA in E. replace (e * A + e * A + e * e) with (2 * (A * e) + e * e) in E by ring.
    specialize (E ltac:(lra)). rewrite <- HAA. exact E. }
  (* count + lambda *)
  assert (err (f_add (f_of_Z (Z.of_N c)) (c_reg_lambda cfg : f32)) Q (2.1 * u * Q)) as Hq.
  { assert (err (f_of_Z (Z.of_N c)) C (u * C)) as Ec by (apply ofZ_err; [lia|fold C; lra]). pose proof (err_add _ _ _ _ _ _ Ec (err_exact _ Fr)) as E. change (B2R' (c_reg_lambda cfg : f32)) with lam in E. fold Q in E. rewrite (Rabs_pos_eq Q) in E by lra.
    assert (u * C <= u * Q) by (unfold Q; lra). specialize (E ltac:(unfold Q in *; lra)). eapply err_weaken; [exact E|]. lra. }
  (* quotient *)
  pose proof (err_div2 _ _ _ _ _ _ Hgg Hq ltac:(lra)) as E. cbv zeta in E. fold P in E. rewrite (Rabs_pos_eq (X * X)), (Rabs_pos_eq P) in E by (try apply HP; nra).
  set (E1 := 2 * (A * e) + e * e + u * (A * A + (2 * (A * e) + e * e)) + tiny) in *.
  set (dd := (E1 + 2.1 * u * Q * (X * X) / Q) / (Q - 2.1 * u * Q)) in E.
  assert (0 <= dd <= 1.001 * (2 * (B * e) + e * e) + 3.2 * u * P + 1.1 * tiny) as Hdd.
  { assert (dd = / (1 - 2.1 * u) * (2 * (A * e / Q) + e * e / Q + u * (P + (2 * (A * e / Q) + e * e / Q)) + tiny / Q + 2.1 * u * P)) as Edd by (unfold dd, E1, P; rewrite HAA; field; split; lra).
    assert (1 <= / (1 - 2.1 * u) <= 1.0001) as Hi by lra. set (i := / (1 - 2.1 * u)) in *. rewrite Edd. set (y := 2 * (A * e / Q) + e * e / Q + u * (P + (2 * (A * e / Q) + e * e / Q)) + tiny / Q + 2.1 * u * P).
    assert (0 <= y <= (1 + u) * (2 * (B * e) + e * e) + 3.1 * u * P + tiny) as Hy by (unfold y; lra). assert (0 <= i * y <= 1.0001 * y) by nra. lra. }
  assert (u * (U * B) <= B * e / 64) as HuUB by nra.
  assert (tiny <= / 64 * (/ 64 * (B * e))) as Htb.
  { assert (u * B * 64 <= e) as H2 by nra. assert (bpow radix2 (-40) * (u * B) <= B * e / 64) as H3 by nra. assert (tiny <= / 64 * (bpow radix2 (-40) * (u * bpow radix2 (-40)))) as H4.
    { unfold tiny. change u with (bpow radix2 (-24)). change (/ 64) with (bpow radix2 (-6)). rewrite <- !bpow_plus. apply bpow_le. lia. } assert (u * bpow radix2 (-40) <= u * B) by lra. nra. }
  assert (B <= U) as HBU by lra. assert (U * B <= U * U) as HUB by nra. assert (B * e <= U * U) as HBeU by nra.
  assert (P + dd <= bpow radix2 127) as Hov by (clear - HUB HBeU Hee HP Hdd HUU Htb HBe; lra).
  specialize (E Hov). set (E2 := dd + u * (P + dd) + tiny) in *.
  assert (0 <= E2 <= 1.002 * (2 * (B * e) + e * e) + 4.3 * u * P + 2.2 * tiny) as HE2 by (unfold E2; lra).
  assert (0 <= u * P <= B * e / 64) as HuP by lra.
  (* times -1/2 *)
  pose proof (err_mul _ _ _ _ _ _ half_ok E) as Em. cbv zeta in Em. rewrite Rabs_Ropp, (Rabs_pos_eq (/ 2)), (Rabs_pos_eq P) in Em by lra.
  replace (0 * P + E2 * / 2 + 0 * E2) with (E2 / 2) in Em by lra. replace (Rabs (- / 2 * P)) with (P / 2) in Em by (rewrite Rabs_mult, Rabs_Ropp, (Rabs_pos_eq (/ 2)), (Rabs_pos_eq P) by lra; lra).
  assert (P / 2 + E2 / 2 <= bpow radix2 127) as Hov2 by (clear - HUB HBeU Hee HP HE2 HUU Htb HBe HuP; lra).
  specialize (Em Hov2). eapply err_weaken; [exact Em|]. clear - HP HE2 Htb HBe HuP Hee0. lra.
Qed.

Definition exact_gain (lam X Xl C Cl : R) : R := - / 2 * (X * X / (C + lam)) - - / 2 * (Xl * Xl / (Cl + lam)) - - / 2 * ((X - Xl) * (X - Xl) / (C - Cl + lam)).
Lemma gain_err (cfg : config f32ops) (nd : node f32ops) (l : histval f32ops) (X Xl e B U : R) : is_finite (c_reg_lambda cfg : f32) = true -> 0 <= B2R' (c_reg_lambda cfg) <= bpow radix2 100 ->
  (1 <= snd l)%N -> (snd l < nd_count nd)%N -> let C := IZR (Z.of_N (nd_count nd)) in let Cl := IZR (Z.of_N (snd l)) in
  C * B <= U -> C <= bpow radix2 31 -> err (nd_grad nd : f32) X e -> err (fst l : f32) Xl e -> err (f_sub (nd_grad nd : f32) (fst l : f32)) (X - Xl) e ->
  Rabs X <= C * B -> Rabs Xl <= Cl * B -> Rabs (X - Xl) <= (C - Cl) * B -> bpow radix2 (-40) <= B -> U <= bpow radix2 60 -> 64 * u * U <= e <= U ->
  err (gain cfg nd l : f32) (exact_gain (B2R' (c_reg_lambda cfg)) X Xl C Cl) (4 * (e * (B + e))).
Proof.
  intros Fr Hlam H1 H2 C Cl HCU HC31 HX HXl HXr BX BXl BXr HB HU He. pose proof (bpow_gt_0 radix2 (-40)) as Hp40. assert (0 < B) as HBp by lra.
  assert (1 <= Cl) as HCl by (apply (IZR_le 1); lia). assert (C - Cl = IZR (Z.of_N (nd_count nd - snd l))) as HCr by (unfold C, Cl; rewrite <- minus_IZR; f_equal; lia).
  assert (1 <= C - Cl) as HCr1 by (rewrite HCr; apply (IZR_le 1); lia).
  assert (Cl * B <= U) as HClU by nra. assert ((C - Cl) * B <= U) as HCrU by nra.
  pose proof (loss_err cfg (nd_grad nd) (nd_count nd) X e B U Fr Hlam ltac:(lia) HCU HC31 HX BX HB HU He) as E1.
  pose proof (loss_err cfg (fst l) (snd l) Xl e B U Fr Hlam H1 HClU ltac:(fold Cl; lra) HXl BXl HB HU He) as E2.
  rewrite HCr in HCrU, BXr. pose proof (loss_err cfg (f_sub (nd_grad nd : f32) (fst l : f32)) (nd_count nd - snd l) (X - Xl) e B U Fr Hlam ltac:(lia) HCrU ltac:(rewrite <- HCr; lra) HXr BXr HB HU He) as E3.
  fold C in E1. fold Cl in E2. rewrite <- HCr in E3, HCrU, BXr. set (lam := B2R' (c_reg_lambda cfg)) in *.
  assert (forall Y c, 1 <= c -> c * B <= U -> Rabs Y <= c * B -> 0 <= Y * Y / (c + lam) <= U * B) as HP.
  { intros Y c Hc HcU HY. assert (0 <= Y * Y) as HYY by nra. split; [apply Rmult_le_pos; [exact HYY|apply Rlt_le, Rinv_0_lt_compat; lra]|].
    assert (Y * Y <= c * (B * U)) as H3. { assert (Y * Y = Rabs Y * Rabs Y) as -> by (rewrite <- Rabs_mult, Rabs_pos_eq by exact HYY; reflexivity). pose proof (Rabs_pos Y). nra. }
    apply Rle_trans with (c * (B * U) / (c + lam)); [apply Rmult_le_compat_r; [apply Rlt_le, Rinv_0_lt_compat; lra|exact H3]|].
    pose proof (div_le_ratio c (B * U) (c + lam) ltac:(nra) ltac:(lra) ltac:(lra)). lra. }
  pose proof (HP X C ltac:(lra) HCU BX) as P1. pose proof (HP Xl Cl HCl HClU BXl) as P2. pose proof (HP (X - Xl) (C - Cl) HCr1 HCrU BXr) as P3. clear HP.
  unfold exact_gain, gain. cbn [nsub f32ops]. set (p1 := X * X / (C + lam)) in *. set (p2 := Xl * Xl / (Cl + lam)) in *. set (p3 := (X - Xl) * (X - Xl) / (C - Cl + lam)) in *.
  set (E := 1.1 * (B * e) + 0.51 * (e * e)) in *. pose proof bpow_120 as H120. 
  assert (0 <= e) as He0 by nra. assert (B <= U) as HBU by nra. assert (0 <= B * e <= U * U) as HBe by nra. assert (0 <= e * e <= U * U) as Hee by nra. assert (0 <= U * B <= U * U) as HUB by nra.
  assert (U * U <= / 128 * bpow radix2 127) as HUU. { assert (0 <= U) by lra. assert (U * U <= bpow radix2 60 * bpow radix2 60) by nra. lra. }
  assert (u * (U * B) <= B * e / 64) as Hu by nra.
  assert (0 <= E <= 2 * (U * U)) as HE by (unfold E; lra).
  assert (Rabs (- / 2 * p1 - - / 2 * p2) <= U * B) as A1 by (clear - P1 P2; apply Rabs_le; lra).
  pose proof (err_sub _ _ _ _ _ _ E1 E2 ltac:(clear - A1 HE HUB HUU; lra)) as E12. set (e12 := E + E + _) in E12. assert (0 <= e12 <= 2 * E + u * (U * B + 2 * E)) as He12 by (clear - A1 HE; pose proof (Rabs_pos (- / 2 * p1 - - / 2 * p2)); unfold e12; lra).
  assert (Rabs (- / 2 * p1 - - / 2 * p2 - - / 2 * p3) <= 2 * (U * B)) as A2 by (clear - P1 P2 P3; apply Rabs_le; lra).
  pose proof (err_sub _ _ _ _ _ _ E12 E3 ltac:(clear - A2 HE He12 HUB HUU; lra)) as E123. eapply err_weaken; [exact E123|].
  replace (4 * (e * (B + e))) with (4 * (B * e) + 4 * (e * e)) by ring. clear - A2 He12 HE Hu HBe Hee. unfold E in *. lra.
Qed.
