(** f32 training of binary classification keeps all numbers finite. *)
From Coq Require Import Reals Psatz.
From Flocq Require Import Core BinarySingleNaN.
From Verif Require Import Base BaseProofs F32 F32Proofs Num ScaledProofs Config DataModel DatasetModel ObjectiveModel BoostSpec TotalSpec TotalProofs2 TotalProofs5 TotalProofs6.
Local Close Scope R_scope. Local Open Scope nat_scope.

Lemma f_eq_fin (t c : f32) : f_eq t c = true -> is_finite c = true -> is_finite t = true /\ B2R' t = B2R' c.
Proof.
  intros E Fc. assert (is_finite t = true) as Ft.
  { destruct t as [s|s| |s m e He]; try reflexivity; destruct c as [s'|s'| |s' m' e' He']; try discriminate; destruct s; try destruct s'; cbn in E; discriminate. }
  split; [exact Ft|]. unfold f_eq in E. rewrite Beqb_correct in E by assumption. destruct (Req_bool_spec (B2R' t) (B2R' c)); [assumption|discriminate].
Qed.
Lemma f_eq_of_B2R (t c : f32) : is_finite t = true -> is_finite c = true -> B2R' t = B2R' c -> f_eq t c = true.
Proof. intros Ft Fc E. unfold f_eq. rewrite Beqb_correct by assumption. apply Req_bool_true, E. Qed.
Lemma repr_exact z v : repr z v -> generic_format radix2 fexp32 v -> (Rabs v < M)%R -> is_finite z = true /\ B2R' z = v.
Proof.
  intros [Hn Hk] G Hv. rewrite (rnd_generic _ G) in Hk. apply Rabs_lt_inv in Hv. rewrite clampM_id in Hk by lra. assert (is_finite z = true) as F by (apply finite_of_key; [exact Hn|lra]).
  split; [exact F|]. rewrite <- (key_finite _ F). exact Hk.
Qed.
Lemma int_lt_M z : (Z.abs z <= 2 ^ 24)%Z -> (Rabs (IZR z) < M)%R.
Proof. intros H. rewrite <- abs_IZR. pose proof M_big. apply IZR_le in H. simpl (2 ^ 24)%Z in H. lra. Qed.
Lemma repr_int z w v : repr z v -> v = IZR w -> (Z.abs w <= 2 ^ 24)%Z -> is_finite z = true /\ B2R' z = IZR w.
Proof. intros H E Hw. subst v. apply repr_exact; [exact H|apply generic_int, Hw|apply int_lt_M, Hw]. Qed.
Lemma half_f : is_finite (half f32ops : f32) = true /\ B2R' (half f32ops : f32) = (/ 2)%R.
Proof.
  unfold half, one, two. cbn [ndiv nofZ f32ops]. destruct (f_of_Z_exact 1) as [F1 B1]; [cbn; lia|]. destruct (f_of_Z_exact 2) as [F2 B2]; [cbn; lia|].
  apply repr_exact; [|apply generic_half|pose proof M_big; rewrite Rabs_pos_eq; lra]. pose proof (div_repr _ _ F1 F2 ltac:(rewrite B2; lra)) as H. rewrite B1, B2 in H. replace (/ 2)%R with (1 / 2)%R by lra. exact H.
Qed.
Lemma eps_f : is_finite (epsilon f32ops : f32) = true /\ B2R' (epsilon f32ops : f32) = bpow radix2 (-23).
Proof.
  unfold epsilon, one. cbn [ndiv nofZ f32ops]. destruct (f_of_Z_exact 1) as [F1 B1]; [cbn; lia|]. destruct (f_of_Z_exact 8388608) as [F2 B2]; [cbn; lia|].
  destruct (okb_bpow (-23)) as [G [H0 H1]]; [lia|]. apply repr_exact; [|exact G|rewrite Rabs_pos_eq; lra].
  pose proof (div_repr _ _ F1 F2 ltac:(rewrite B2; lra)) as H. rewrite B1, B2 in H. change (bpow radix2 (-23)) with (/ 8388608)%R. replace (/ 8388608)%R with (1 / 8388608)%R by lra. exact H.
Qed.

Lemma rnd_ub z v : (Z.abs z <= 2 ^ 24)%Z -> (v <= IZR z)%R -> (rnd v <= IZR z)%R.
Proof. intros Hz Hv. rewrite <- (rnd_int z Hz). apply rnd_mono, Hv. Qed.
Lemma rnd_lb r v : generic_format radix2 fexp32 r -> (r <= v)%R -> (r <= rnd v)%R.
Proof. intros G Hv. rewrite <- (rnd_generic r G). apply rnd_mono, Hv. Qed.

Section Binary.
Variable fexp_ fln_ : f32 -> f32.
Notation math := (f32math fexp_ fln_).
Hypothesis Hmath : ordinary fexp_ fln_.
Variable target : list f32.
Variable n : nat.
Hypothesis Hn : length target = n.
Hypothesis Hbig : (Z.of_nat n <= 2 ^ 24)%Z.
Hypothesis H01 : forall t, In t target -> f_eq t (f_of_Z 0) = true \/ f_eq t (f_of_Z 1) = true.
Hypothesis Hneg : exists t, In t target /\ f_eq t (f_of_Z 0) = true.
Hypothesis Hposi : exists t, In t target /\ f_eq t (f_of_Z 1) = true.
Variable K : nat.
Hypothesis HK : (Z.of_nat (K + 1) <= 2 ^ 24)%Z.
Variable lr gb : f32.

Definition Rb (k : nat) : R := bpow radix2 48.
Definition Pb (k : nat) : R := (IZR (Z.of_nat (k + 1)) * bpow radix2 48)%R.
Lemma Pb_ok k : k <= K -> okb (Pb k). Proof. intros Hk. apply (okb_scaled _ 48 24); lia. Qed.
Lemma Rb_ok k : okb (Rb k). Proof. apply okb_bpow. lia. Qed.
Lemma PR_step k : (Pb k + Rb k <= Pb (S k))%R.
Proof. unfold Pb, Rb. replace (Z.of_nat (S k + 1)) with (Z.of_nat (k + 1) + 1)%Z by lia. rewrite plus_IZR. lra. Qed.

Lemma target_val t : In t target -> is_finite t = true /\ (B2R' t = 0 \/ B2R' t = 1)%R.
Proof.
  intros Ht. destruct (f_of_Z_exact 0) as [F0 B0]; [cbn; lia|]. destruct (f_of_Z_exact 1) as [F1 B1]; [cbn; lia|].
  destruct (H01 t Ht) as [E|E]; [destruct (f_eq_fin _ _ E F0) as [A B]; rewrite B0 in B|destruct (f_eq_fin _ _ E F1) as [A B]; rewrite B1 in B]; auto.
Qed.
(** The gradient is at most 2. *)
Lemma grad_bnd t p : In t target -> is_finite p = true -> bnd (gradient (O := f32ops) math Binary (zero f32ops) t p) 2.
Proof.
  intros Ht Fp. destruct (target_val t Ht) as [Ft Bt]. destruct (f_of_Z_exact 2) as [F2 B2]; [cbn; lia|]. destruct (f_of_Z_exact 1) as [F1 B1]; [cbn; lia|].
  cbn [gradient nsub nmul ndiv nneg nadd f32ops]. change (two f32ops) with (f_of_Z 2). change (one f32ops) with (f_of_Z 1). change (m_exp math) with fexp_.
  assert (exists z, (z = -1 \/ z = 1)%Z /\ is_finite (f_sub (f_mul (f_of_Z 2) t) (f_of_Z 1)) = true /\ B2R' (f_sub (f_mul (f_of_Z 2) t) (f_of_Z 1)) = IZR z) as (z & Hz & Fy & By).
  { pose proof (mul_repr _ _ F2 Ft) as Hm. rewrite B2 in Hm. destruct Bt as [Bt|Bt]; rewrite Bt in Hm.
    - exists (-1)%Z. split; [auto|]. destruct (repr_int _ 0 _ Hm) as [Fm Bm]; [lra|cbn; lia|]. pose proof (sub_repr _ _ Fm F1) as Hs. rewrite Bm, B1 in Hs. apply (repr_int _ (-1) _ Hs); [lra|cbn; lia].
    - exists 1%Z. split; [auto|]. destruct (repr_int _ 2 _ Hm) as [Fm Bm]; [lra|cbn; lia|]. pose proof (sub_repr _ _ Fm F1) as Hs. rewrite Bm, B1 in Hs. apply (repr_int _ 1 _ Hs); [lra|cbn; lia]. }
  set (y := f_sub _ _) in *. assert (is_finite (f_mul (f_of_Z 2) y) = true /\ Rabs (B2R' (f_mul (f_of_Z 2) y)) = 2%R) as [F2y B2y].
  { pose proof (mul_repr _ _ F2 Fy) as Hm. rewrite B2, By in Hm. destruct Hz as [->| ->].
    - destruct (repr_int _ (-2) _ Hm) as [A B]; [lra|cbn; lia|]. rewrite B, <- abs_IZR. auto.
    - destruct (repr_int _ 2 _ Hm) as [A B]; [lra|cbn; lia|]. rewrite B, <- abs_IZR. auto. }
  set (y2 := f_mul (f_of_Z 2) y) in *. pose proof (mul_repr _ _ F2y Fp) as [Na _]. destruct Hmath as [Hexp _]. specialize (Hexp _ Na). set (e := fexp_ _) in *.
  pose proof (f_le_nan_l _ _ Hexp) as [N0 Ne]. apply (f_le_key _ _ N0 Ne) in Hexp. change (key f_zero) with 0%R in Hexp.
  assert (bnd (f_neg y2) 2) as Hny by (apply bnd_neg; split; [exact F2y|lra]).
  assert (okb 2) as O2 by (change 2%R with (bpow radix2 1); apply okb_bpow; lia).
  destruct (inf_cases e Ne Hexp) as [Fe|Ee].
  - rewrite (key_finite _ Fe) in Hexp. pose proof (add_repr _ _ F1 Fe) as [Nw Kw]. rewrite B1 in Kw. assert (1 <= key (f_add (f_of_Z 1) e))%R as Hw.
    { rewrite Kw. pose proof M_big. apply Rle_trans with (clampM 1); [rewrite clampM_id; lra|]. apply clampM_mono. apply Rle_trans with (rnd 1); [rewrite (rnd_int 1) by (cbn; lia); lra|]. apply rnd_mono. lra. }
    set (w := f_add _ _) in *. destruct (inf_cases w Nw ltac:(lra)) as [Fw|Ew].
    + rewrite (key_finite _ Fw) in Hw. eapply (bnd_div _ _ 2 1); [exact Hny|exact Fw|lra|exact Hw|lra|exact O2].
    + rewrite Ew. destruct (f_neg y2) as [s0|s0| |s0 m0 e0 H0]; try (destruct Hny; discriminate); (split; [reflexivity|cbn; rewrite Rabs_R0; lra]).
  - rewrite Ee. assert (f_add (f_of_Z 1) f_inf = f_inf) as Ew by (destruct (f_of_Z 1) as [s0|s0| |s0 m0 e0 H0]; try discriminate; reflexivity). rewrite Ew.
    destruct (f_neg y2) as [s0|s0| |s0 m0 e0 H0]; try (destruct Hny; discriminate); (split; [reflexivity|cbn; rewrite Rabs_R0; lra]).
Qed.

Lemma upd_binary dbg (cfg : config f32ops) (d : data f32ops) k ob : d_nexamples d = n ->
  (no_hicard d \/ proper_limits (O := f32ops) (f_neg gb, gb) /\ (dbg = true -> c_max_nbins cfg + 1 <= 2 * scaled_count (d_nexamples d) (c_example_fraction cfg))) ->
  k < K -> before n Binary lr gb Pb k ob ->
  exists ob', obj_update math target ob = Ok ob' /\ usable_gradients dbg cfg d (ob_grads ob') (obj_bounds ob') /\ within n Binary lr gb Pb k [] ob'.
Proof.
  intros Hd HN Hk HB. pose proof HB as ((W1 & W2 & W3 & W4 & W5) & W6). unfold obj_update. change (num f32ops) with f32 in *. rewrite W4, W5, Hn, Nat.eqb_refl. cbn [rassert rbind]. rewrite W1.
  eexists. split; [reflexivity|]. cbn [ob_grads].
  assert (length (pair_gradients (O := f32ops) math Binary (zero f32ops) target (ob_preds ob)) = n) as HL by (unfold pair_gradients; rewrite map_length, combine_length; change (num f32ops) with f32 in *; lia).
  assert (forall g : f32, In g (pair_gradients (O := f32ops) math Binary (zero f32ops) target (ob_preds ob)) -> bnd g 2) as HG.
  { intros g Hg. unfold pair_gradients in Hg. apply in_map_iff in Hg as ([t p] & <- & Htp). cbn [fst snd]. pose proof (in_combine_l _ _ _ _ Htp) as Ht. pose proof (in_combine_r _ _ _ _ Htp) as Hp. apply grad_bnd; [exact Ht|apply (W6 p Hp)]. }
  split; [|split; [|split]].
  - split; [change (num f32ops) with f32 in *; rewrite HL; symmetry; exact Hd|]. split; [|].
    + intros g Hg. exact (bnd_eq _ (proj1 (HG g Hg))).
    + unfold obj_bounds. cbn [ob_kind ob_bound]. rewrite W3. exact HN.
  - unfold binv. cbn [ob_kind ob_lr ob_bound ob_preds ob_grads]. auto 6.
  - intros _. exact HG.
  - cbn [ob_preds]. apply (before_within n Binary lr gb K Pb Rb); try assumption.
    + intros k' Hk'. apply Rb_ok.
    + intros k' _. apply PR_step.
Qed.

Definition beta (j : nat) : R := match j with 0 => bpow radix2 2 | _ => (IZR (Z.of_nat j) * bpow radix2 3)%R end.
Lemma beta_ok j : j <= n -> okb (beta j). Proof. intros H. destruct j as [|j]; [apply okb_bpow; lia|]. apply (okb_scaled _ 3 24); lia. Qed.
Lemma beta_step j : (beta j + 4 <= beta (S j))%R.
Proof. unfold beta. change (bpow radix2 3) with 8%R. destruct j as [|j]; [cbn; lra|]. replace (Z.of_nat (S (S j))) with (Z.of_nat (S j) + 1)%Z by lia. rewrite plus_IZR. lra. Qed.
Lemma newton_sum (grads : list f32) : (forall g, In g grads -> bnd g 2) -> forall ex j (a b : f32), j + length ex <= n -> (forall i, In i ex -> i < length grads) ->
  bnd a (IZR (Z.of_nat j) * bpow radix2 1) -> bnd b (beta j) -> (bpow radix2 (-23) <= B2R' b)%R ->
  exists a' b', foldM (fun st i =>
                 let* g := idx grads i in
                 let y := f_neg g in
                 let yabs := f_abs y in
                 Ok (f_add (fst st) y, f_add (snd st) (f_mul yabs (f_sub (f_of_Z 2) yabs)))) ex (a, b) = Ok (a', b') /\
    bnd a' (IZR (Z.of_nat (j + length ex)) * bpow radix2 1) /\ is_finite b' = true /\ (bpow radix2 (-23) <= B2R' b')%R.
Proof.
  intros HG. induction ex as [|i t IH]; intros j a b Hj Hex Ha Hb Hlo; cbn [foldM length] in *; [exists a, b; rewrite Nat.add_0_r; split; [reflexivity|]; split; [exact Ha|]; split; [apply Hb|exact Hlo]|].
  destruct (idx_ex _ grads i) as (g & E & Eg); [apply Hex; left; reflexivity|]. rewrite E. cbn [rbind fst snd]. pose proof (HG g (nth_error_In _ _ Eg)) as Hg. pose proof (bnd_neg _ _ Hg) as Hy. set (y := f_neg g) in *.
  assert (is_finite (f_abs y) = true /\ B2R' (f_abs y) = Rabs (B2R' y)) as [Fa Ba] by (unfold f_abs; rewrite is_finite_Babs, B2R_Babs; split; [apply Hy|reflexivity]).
  destruct (f_of_Z_exact 2) as [F2 B2]; [cbn; lia|]. pose proof M_big as HM. destruct Hy as [Fy Hy]. pose proof (Rabs_pos (B2R' y)) as Hy0.
  assert (is_finite (f_sub (f_of_Z 2) (f_abs y)) = true /\ (0 <= B2R' (f_sub (f_of_Z 2) (f_abs y)) <= 2)%R) as [Fs Bs].
  { pose proof (sub_repr _ _ F2 Fa) as [Ns Ks]. rewrite B2, Ba in Ks. assert (0 <= rnd (2 - Rabs (B2R' y)) <= 2)%R as Hr.
    { split; [apply rnd_nn; lra|]. apply (rnd_ub 2); [cbn; lia|lra]. }
    rewrite clampM_id in Ks by lra. assert (is_finite (f_sub (f_of_Z 2) (f_abs y)) = true) as F by (apply finite_of_key; [exact Ns|lra]). split; [exact F|]. rewrite <- (key_finite _ F), Ks. exact Hr. }
  set (w := f_sub _ _) in *.
  assert (is_finite (f_mul (f_abs y) w) = true /\ (0 <= B2R' (f_mul (f_abs y) w) <= 4)%R) as [Fm Bm].
  { pose proof (mul_repr _ _ Fa Fs) as [Ns Ks]. rewrite Ba in Ks. assert (0 <= Rabs (B2R' y) * B2R' w <= 4)%R as Hp by nra. assert (0 <= rnd (Rabs (B2R' y) * B2R' w) <= 4)%R as Hr.
    { split; [apply rnd_nn; lra|]. apply (rnd_ub 4); [cbn; lia|lra]. }
    rewrite clampM_id in Ks by lra. assert (is_finite (f_mul (f_abs y) w) = true) as F by (apply finite_of_key; [exact Ns|lra]). split; [exact F|]. rewrite <- (key_finite _ F), Ks. exact Hr. }
  set (q := f_mul _ w) in *. replace (j + S (length t)) with (S j + length t) by lia. apply IH; [lia|intros i' Hi; apply Hex; right; exact Hi| | |].
  - apply (bnd_add a y _ 2 _ Ha); [split; assumption| |].
    + replace (Z.of_nat (S j)) with (Z.of_nat j + 1)%Z by lia. rewrite plus_IZR. change (bpow radix2 1) with 2%R. lra.
    + apply (okb_scaled _ 1 24); lia.
  - apply (bnd_add b q _ 4 _ Hb).
    + split; [exact Fm|]. rewrite Rabs_pos_eq; lra.
    + apply beta_step.
    + apply beta_ok; lia.
  - destruct Hb as [Fb Hb]. pose proof (add_repr _ _ Fb Fm) as [Ns Ks].
    assert (bnd (f_add b q) (beta (S j))) as [Fr _].
    { apply (bnd_add b q _ 4 _ (conj Fb Hb)).
      + split; [exact Fm|]. rewrite Rabs_pos_eq; lra.
      + apply beta_step.
      + apply beta_ok; lia. }
    rewrite <- (key_finite _ Fr), Ks. destruct (okb_bpow (-23)) as [G [G0 G1]]; [lia|]. rewrite <- (clampM_id (bpow radix2 (-23))) by lra. apply clampM_mono. apply (rnd_lb _ _ G). lra.
Qed.
Lemma raw_binary k ex done ob : k < K -> within n Binary lr gb Pb k done ob -> ex <> [] -> length ex <= n -> (forall j, In j ex -> j < n /\ ~ In j done) ->
  exists v : f32, raw_leaf_value math target ex ob = Ok v /\ bnd v (Rb k).
Proof.
  intros Hk ((W1 & W2 & W3 & W4 & W5) & W6 & W7) Hne Hl Hex. unfold raw_leaf_value. rewrite W1. destruct eps_f as [Fe Be].
  destruct (newton_sum (ob_grads ob) (W6 eq_refl) ex 0 (zero f32ops) (epsilon f32ops)) as (a & b & E & Ha & Fb & Hb).
  - cbn. lia.
  - intros i Hi. destruct (Hex i Hi). change (num f32ops) with f32 in *. lia.
  - pose proof (bnd_ofZ 0 ltac:(cbn; lia)) as H0. cbn [Z.abs Z.of_nat] in *. rewrite Rmult_0_l. exact H0.
  - split; [exact Fe|]. rewrite Be, Rabs_pos_eq by apply bpow_ge_0. apply bpow_le. lia.
  - rewrite Be. apply Rle_refl.
  - match goal with |- context [rbind ?x _] => assert (x = Ok (a, b)) as E' by exact E end. rewrite E'. cbn [rbind fst snd].
    eexists. split; [reflexivity|]. cbn [Nat.add] in Ha. eapply (bnd_div a b _ (bpow radix2 (-23))); [exact Ha|exact Fb|apply bpow_gt_0|exact Hb| |apply Rb_ok].
    unfold Rb. rewrite <- bpow_plus. change (48 + -23)%Z with (24 + 1)%Z. rewrite bpow_plus. apply Rmult_le_compat_r; [apply bpow_ge_0|]. change (bpow radix2 24) with (IZR (2 ^ 24)). apply IZR_le. lia.
Qed.

(* ---- the initial prediction ---- *)
Lemma count_bounds : 1 <= count_neg (O := f32ops) target <= n - 1 /\ 2 <= n.
Proof.
  destruct half_f as [Fh Bh]. destruct (f_of_Z_exact 0) as [F0 B0]; [cbn; lia|]. destruct (f_of_Z_exact 1) as [F1 B1]; [cbn; lia|].
  unfold count_neg. cbn [nlt f32ops]. set (P := fun x : f32 => f_lt x (half f32ops)). change (fun x : num f32ops => f_lt x (half f32ops)) with P. change (num f32ops) with f32 in *.
  assert (1 <= length (filter P target)) as H1.
  { destruct Hneg as (t & Ht & E). destruct (f_eq_fin _ _ E F0) as [Ft Bt]. rewrite B0 in Bt. assert (In t (filter P target)) as Hin; [|destruct (filter P target); [destruct Hin|cbn; lia]].
    apply filter_In. split; [exact Ht|]. unfold P. apply f_lt_key; [apply fin_nan, Ft|apply fin_nan, Fh|]. rewrite (key_finite _ Ft), (key_finite _ Fh), Bt, Bh. lra. }
  assert (length (filter P target) + 1 <= length target) as H2.
  { destruct Hposi as (t & Ht & E). destruct (f_eq_fin _ _ E F1) as [Ft Bt]. rewrite B1 in Bt. assert (P t = false) as HPt.
    { unfold P. destruct (f_lt t (half f32ops)) eqn:El; [|reflexivity]. apply f_lt_key in El; [|apply fin_nan, Ft|apply fin_nan, Fh]. rewrite (key_finite _ Ft), (key_finite _ Fh), Bt, Bh in El. lra. }
    clear - Ht HPt. induction target as [|x l IH]; [destruct Ht|]. cbn [filter length]. assert (length (filter P l) <= length l) as Hle by (clear; induction l as [|z l IH]; [cbn; lia|]; cbn [filter length]; destruct (P z); cbn [length]; lia).
    destruct Ht as [->|Ht]; [rewrite HPt; lia|]. specialize (IH Ht). destruct (P x); cbn [length]; lia. }
  lia.
Qed.
Lemma prior_bnd (cn : nat) : 1 <= cn <= n - 1 -> 2 <= n ->
  let avg := f_div (f_add (f_mul (f_neg (f_of_Z 1)) (nofnat f32ops cn)) (f_mul (f_of_Z 1) (f_sub (nofnat f32ops n) (nofnat f32ops cn)))) (nofnat f32ops n) in
  bnd (f_mul (half f32ops) (fln_ (f_div (f_add (f_of_Z 1) avg) (f_sub (f_of_Z 1) avg)))) (bpow radix2 48).
Proof.
  intros Hc H2 avg. destruct (f_of_Z_exact 1) as [F1 B1]; [cbn; lia|]. destruct (nofnat_f cn) as [Fc Bc]; [lia|]. destruct (nofnat_f n Hbig) as [Fn Bn]. pose proof M_big as HM.
  assert (bnd avg (IZR (2 ^ 23 - 1) * bpow radix2 (-23))) as Havg.
  { assert (is_finite (f_neg (f_of_Z 1)) = true /\ B2R' (f_neg (f_of_Z 1)) = IZR (-1)) as [Fm Bm] by (unfold f_neg; rewrite is_finite_Bopp, B2R_Bopp, B1; split; [exact F1|lra]).
    pose proof (mul_repr _ _ Fm Fc) as H. rewrite Bm, Bc in H. destruct (repr_int _ (- Z.of_nat cn) _ H) as [Fa Ba]; [rewrite opp_IZR; lra|lia|]. clear H.
    pose proof (sub_repr _ _ Fn Fc) as H. rewrite Bn, Bc in H. destruct (repr_int _ (Z.of_nat n - Z.of_nat cn) _ H) as [Fs Bs]; [rewrite minus_IZR; lra|lia|]. clear H.
    pose proof (mul_repr _ _ F1 Fs) as H. rewrite B1, Bs in H. destruct (repr_int _ (Z.of_nat n - Z.of_nat cn) _ H) as [Fp Bp]; [lra|lia|]. clear H.
    pose proof (add_repr _ _ Fa Fp) as H. rewrite Ba, Bp in H. destruct (repr_int _ (Z.of_nat n - 2 * Z.of_nat cn) _ H) as [Fz Bz]; [rewrite <- plus_IZR; f_equal; lia|lia|]. clear H.
    apply (bnd_div _ _ (IZR (Z.of_nat n - 2)) (IZR (Z.of_nat n))).
    - split; [exact Fz|]. rewrite Bz, <- abs_IZR. apply IZR_le. lia.
    - exact Fn.
    - apply (IZR_lt 0). lia.
    - rewrite Bn. apply Rle_refl.
    - rewrite !minus_IZR. assert (0 < IZR (Z.of_nat n) <= IZR (2 ^ 24))%R as [H3 H4] by (split; [apply (IZR_lt 0); lia|apply IZR_le; exact Hbig]).
      change (bpow radix2 (-23)) with (/ 8388608)%R. simpl (2 ^ 23)%Z. simpl (2 ^ 24)%Z in H4. lra.
    - apply (okb_scaled _ (-23) 23); lia. }
  destruct Havg as [Favg Bavg]. change (bpow radix2 (-23)) with (/ 8388608)%R in Bavg. simpl (2 ^ 23 - 1)%Z in Bavg. apply Rabs_le_inv in Bavg.
  assert (generic_format radix2 fexp32 (/ 8388608)) as G8 by (change (/ 8388608)%R with (bpow radix2 (-23)); apply okb_bpow; lia).
  assert (forall z v, repr z v -> (/ 8388608 <= v <= 2)%R -> is_finite z = true /\ (/ 8388608 <= B2R' z <= 2)%R) as Hin.
  { intros z v [Nz Kz] Hv. assert (/ 8388608 <= rnd v <= 2)%R as Hr.
    { split; [apply (rnd_lb _ _ G8); lra|]. apply (rnd_ub 2); [cbn; lia|lra]. }
    rewrite clampM_id in Kz by lra. assert (is_finite z = true) as F by (apply finite_of_key; [exact Nz|lra]). split; [exact F|]. rewrite <- (key_finite _ F), Kz. exact Hr. }
  destruct (Hin _ _ (add_repr _ _ F1 Favg)) as [Fu Bu]; [rewrite B1; lra|]. destruct (Hin _ _ (sub_repr _ _ F1 Favg)) as [Fw Bw]; [rewrite B1; lra|]. set (u := f_add _ avg) in *. set (w := f_sub _ avg) in *.
  assert (generic_format radix2 fexp32 (/ 16777216)) as G16 by (change (/ 16777216)%R with (bpow radix2 (-24)); apply okb_bpow; lia).
  assert (is_finite (f_div u w) = true /\ (0 < B2R' (f_div u w))%R) as [Fq Bq].
  { pose proof (div_repr _ _ Fu Fw ltac:(lra)) as [Nz Kz]. assert (/ 16777216 <= B2R' u / B2R' w <= 16777216)%R as Hv.
    { split; apply Rmult_le_reg_r with (B2R' w); try lra; unfold Rdiv; rewrite Rmult_assoc, Rinv_l by lra; lra. }
    assert (/ 16777216 <= rnd (B2R' u / B2R' w) <= 16777216)%R as Hr.
    { split; [apply (rnd_lb _ _ G16); lra|]. apply (rnd_ub 16777216); [cbn; lia|lra]. }
    rewrite clampM_id in Kz by lra. assert (is_finite (f_div u w) = true) as F by (apply finite_of_key; [exact Nz|lra]). split; [exact F|]. rewrite <- (key_finite _ F), Kz. lra. }
  destruct Hmath as [_ Hln]. destruct (Hln (f_div u w) Fq) as [Fl Bl].
  { apply f_lt_key; [reflexivity|apply fin_nan, Fq|]. rewrite (key_finite _ Fq). change (key f_zero) with 0%R. exact Bq. }
  destruct (f_of_Z_exact 128) as [F128 B128]; [cbn; lia|]. assert (is_finite (f_abs (fln_ (f_div u w))) = true) as Fab by (unfold f_abs; rewrite is_finite_Babs; exact Fl).
  apply (f_le_key _ _ (fin_nan _ Fab) (fin_nan _ F128)) in Bl. rewrite (key_finite _ Fab), (key_finite _ F128), B128 in Bl. unfold f_abs in Bl. rewrite B2R_Babs in Bl.
  destruct half_f as [Fh Bh]. apply (bnd_mul _ _ 1 128).
  - split; [exact Fh|]. rewrite Bh, Rabs_pos_eq; lra.
  - split; [exact Fl|exact Bl].
  - change (bpow radix2 48) with (IZR (2 ^ 48)). rewrite <- mult_IZR. apply IZR_le. lia.
  - apply okb_bpow. lia.
Qed.
Lemma init_binary dbg (cfg : config f32ops) : c_learning_rate cfg = lr -> c_binary_gradient_bound cfg = gb -> exists ob, obj_initialize math dbg cfg target (objective_new f32ops Binary) = Ok ob /\ before n Binary lr gb Pb 0 ob.
Proof.
  intros El Eg. unfold obj_initialize. cbn [ob_kind objective_new].
  assert (negb dbg || forallb (@is_01 f32ops) target = true) as ->.
  { apply orb_true_iff. right. apply forallb_forall. intros t Ht. unfold is_01, zero, one. cbn [neq nofZ f32ops]. apply orb_true_iff. apply H01, Ht. }
  cbn [rassert rbind]. eexists. split; [reflexivity|]. unfold before, binv. cbn [ob_kind ob_lr ob_bound ob_preds ob_grads initialize_base objective_new]. rewrite !repeat_length. change (num f32ops) with f32 in *. split; [auto 6|].
  intros p Hp. apply repeat_spec in Hp. subst p. unfold Pb. change (IZR (Z.of_nat (0 + 1))) with 1%R. rewrite Rmult_1_l. rewrite Hn. destruct count_bounds as [Hc H2]. exact (prior_bnd _ Hc H2).
Qed.
End Binary.
