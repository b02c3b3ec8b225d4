(** f32 rounding errors of the sums in a node's histograms. *)
From Coq Require Import Permutation Reals Psatz.
From Flocq Require Import Core BinarySingleNaN.
From Verif Require Import Base BaseProofs BitModel BitSpec SimdModel SliceModel SliceSpec SliceProofs CountSumProofs F32 F32Proofs Num ScaledModel ScaledProofs SumErrProofs ErrProofs ScaledErrProofs BinnerProofs
  DataModel Config TreeModel DatasetModel DatasetSpec RouteProps LearnerModel LearnerSpec LearnerProofs LearnerProofs2 LearnerProofs3 LearnerProofs4 LearnerProofs5 GainSpec LearnerProps.
Local Open Scope R_scope.

Lemma tiny_ratio B : bpow radix2 (-40) <= B -> 1000000 * tiny <= u * B.
Proof.
  intros HB. assert (1000000 * tiny <= u * bpow radix2 (-40)); [|lra]. unfold tiny. change u with (bpow radix2 (-24)). change (-150)%Z with (-24 + (-40 + -86))%Z. rewrite !bpow_plus.
  assert (1000000 * bpow radix2 (-86) <= 1) as H. { apply Rle_trans with (1000000 * bpow radix2 (-60)); [apply Rmult_le_compat_l; [lra|apply bpow_le; lia]|cbn; lra]. }
  pose proof (bpow_gt_0 radix2 (-24)). pose proof (bpow_gt_0 radix2 (-40)). set (a := bpow radix2 (-24)) in *. set (b := bpow radix2 (-40)) in *. set (c := bpow radix2 (-86)) in *.
  replace (1000000 * (a * (b * c))) with (a * b * (1000000 * c)) by ring. rewrite <- (Rmult_1_r (a * b)) at 2. apply Rmult_le_compat_l; [|exact H]. nra.
Qed.
Lemma ofZ_err z : (0 <= z)%Z -> IZR z <= bpow radix2 125 -> err (f_of_Z z) (IZR z) (u * IZR z).
Proof.
  intros H0 Hb. destruct (Z.eq_dec z 0) as [->|Hz]; [apply (err_weaken _ _ 0); [apply (err_ofZ 0); lia|lra]|].
  assert (1 <= IZR z) as H1 by (apply (IZR_le 1); lia). pose proof (bpow_gt_0 radix2 125). pose proof big_125.
  destruct (round_fits (f_of_Z z) (IZR z) (f_of_Z_repr z)) as (F & B); [rewrite Rabs_pos_eq; lra|]. split; [exact F|]. rewrite B.
  destruct (rnd_relative (IZR z)) as (e & He & E). { rewrite Rabs_pos_eq by lra. apply Rle_trans with 1; [|lra]. change 1 with (bpow radix2 0). apply bpow_le. lia. }
  rewrite E. replace (IZR z * (1 + e) - IZR z) with (IZR z * e) by ring. rewrite Rabs_mult, (Rabs_pos_eq (IZR z)) by lra. rewrite Rmult_comm. apply Rmult_le_compat_r; lra.
Qed.
Lemma mul_zero x y : is_finite x = true -> is_finite y = true -> B2R' x = 0 -> is_finite (f_mul x y) = true /\ B2R' (f_mul x y) = 0.
Proof.
  intros Fx Fy H. pose proof (mul_repr x y Fx Fy) as Hr. rewrite H, Rmult_0_l in Hr. pose proof (bpow_gt_0 radix2 127). destruct (round_fits _ _ Hr) as (F & B); [rewrite Rabs_R0; lra|]. split; [exact F|]. rewrite B. apply rnd_0.
Qed.

Section GrownErr.
Variable dbg0 dbg : bool.
Variable cfg : config f32ops.
Variable d : data f32ops.
Variable s : dataset f32ops.
Variable sizes : list nat.
Variables lo hi : f32.
Variable sched : nat -> list job -> list job.
Variable gradients : list f32.
Notation n := (nactive_examples s).
Notation bounds := ((lo, hi) : num f32ops * num f32ops).
Hypothesis HR : reachable dbg0 cfg d s.
Hypothesis Hsizes : hist_sizes d = Ok sizes.
Hypothesis Hsched : forall k js, Permutation js (sched k js).
Hypothesis Hsmall : (N.of_nat n <= 2 ^ 31)%N.
Hypothesis Hmin : (c_min_examples_leaf cfg <= 1)%N.
Variable B : R.
Hypothesis Fl : is_finite lo = true.
Hypothesis Fh : is_finite hi = true.
Hypothesis Hlt : B2R' lo < B2R' hi.
Hypothesis HBl : Rabs (B2R' lo) <= B.
Hypothesis HBh : Rabs (B2R' hi) <= B.
Hypothesis HB0 : bpow radix2 (-40) <= B.
Notation w := (c_discr_nbits cfg).
Notation Lo := (B2R' lo).
Notation Hi := (B2R' hi).
Notation NR := (IZR (Z.of_nat n)).
Hypothesis HB1 : NR * B <= bpow radix2 100.
Hypothesis Hn : (0 < n)%nat.
Definition unit_err : R := 16 * u * (NR * B).

Section Gv.
Variable gv : nat -> N.
Hypothesis Hw : valid_width w = true.
Hypothesis Hgv : forall k, (Z.of_N (gv k) <= Z.of_nat (2 ^ w) - 1)%Z.
Notation gsum := (gradient_sum w Lo Hi gv).

Lemma w_small : (1 <= w <= 8)%nat.
Proof. apply valid_width_cases in Hw. lia. Qed.
Lemma code_sum l : 0 <= IZR (Z.of_N (sumN (map gv l))) <= IZR (Z.of_nat (2 ^ w) - 1) * IZR (Z.of_nat (length l)).
Proof.
  induction l as [|k l IH]; [cbn; lra|]. cbn [map sumN length]. rewrite N2Z.inj_add, plus_IZR, Nat2Z.inj_succ, succ_IZR. pose proof (IZR_le _ _ (Hgv k)) as H1.
  assert (0 <= IZR (Z.of_N (gv k))) by (apply (IZR_le 0); lia). lra.
Qed.
Lemma B_pos : 0 < B. Proof. pose proof (bpow_gt_0 radix2 (-40)). lra. Qed.
Lemma gsum_bound l : Rabs (gsum l) <= IZR (Z.of_nat (length l)) * B.
Proof.
  pose proof (maxval_pos w w_small) as Hm. induction l as [|k l IH]; [cbn; rewrite Rabs_R0; lra|]. unfold gradient_sum in *. cbn [map Rsum fold_right length]. rewrite Nat2Z.inj_succ, succ_IZR.
  eapply Rle_trans; [apply Rabs_triang|]. assert (Rabs (dequantised w Lo Hi (gv k)) <= B); [|unfold Rsum in *; lra].
  unfold dequantised. pose proof (IZR_le _ _ (Hgv k)) as H1. assert (0 <= IZR (Z.of_N (gv k))) as H0 by (apply (IZR_le 0); lia).
  assert (2 ^ w - 1 = IZR (Z.of_nat (2 ^ w) - 1)) as -> by (rewrite minus_IZR, <- INR_IZR_INZ, pow_INR; reflexivity). set (m := IZR (Z.of_nat (2 ^ w) - 1)) in *. set (v := IZR (Z.of_N (gv k))) in *.
  assert (0 <= v / m <= 1) as Hv. { split; [apply Rmult_le_pos; [lra|apply Rlt_le, Rinv_0_lt_compat; lra]|]. apply Rmult_le_reg_r with m; [lra|]. unfold Rdiv. rewrite Rmult_assoc, Rinv_l; lra. }
  replace (Lo + v * ((Hi - Lo) / m)) with ((1 - v / m) * Lo + v / m * Hi) by (field; lra). apply Rabs_le_inv in HBl, HBh. apply Rabs_le. nra.
Qed.
Lemma gsum_halves q l : gsum l = gsum (filter q l) + gsum (filter (fun x => negb (q x)) l).
Proof. unfold gradient_sum. induction l as [|x l IH]; [cbn; lra|]. cbn [filter]. destruct (q x); cbn [negb map Rsum fold_right] in *; unfold Rsum in *; lra. Qed.
Lemma gsum_filters p q l : gsum (filter p l) = gsum (filter p (filter q l)) + gsum (filter p (filter (fun x => negb (q x)) l)).
Proof.
  unfold gradient_sum. induction l as [|x l IH]; [cbn; lra|]. cbn [filter]. destruct (p x) eqn:Ep, (q x); cbn [negb filter]; rewrite ?Ep; cbn [map Rsum fold_right] in *; unfold Rsum in *; lra.
Qed.
Lemma NB_pos (l : list nat) : (length l <= n)%nat -> 0 <= IZR (Z.of_nat (length l)) * B <= NR * B.
Proof. intros Hl. pose proof B_pos. assert (IZR (Z.of_nat (length l)) <= NR) by (apply IZR_le; lia). assert (0 <= IZR (Z.of_nat (length l))) by (apply (IZR_le 0); lia). nra. Qed.
Lemma len_small (l : list nat) : (length l <= n)%nat -> IZR (Z.of_nat (length l)) <= bpow radix2 31.
Proof. intros Hl. change (bpow radix2 31) with (IZR (2 ^ 31)). apply IZR_le. lia. Qed.

(** Built directly. *)
Lemma linproj_err l : l <> [] -> (length l <= n)%nat -> 
  err (linproj f32ops w (nofN f32ops (sumN (map gv l))) (nofN f32ops (N.of_nat (length l))) bounds) (gsum l) (14.5 * u * (NR * B)).
Proof.
  intros Hne Hl. pose proof (NB_pos l Hl) as HC. pose proof (code_sum l) as HS. pose proof (maxval_pos w w_small) as Hm. pose proof B_pos as HB. pose proof big_100 as Hb1. pose proof big_125 as Hb2. pose proof (len_small l Hl) as Hl31.
  assert (1 <= IZR (Z.of_nat (length l))) as H1 by (apply (IZR_le 1); destruct l; [congruence|cbn [length]; lia]).
  assert (bpow radix2 31 <= / 1048576 * bpow radix2 125) as Hs1. { change 125%Z with (94 + 31)%Z. rewrite bpow_plus. assert (1048576 <= bpow radix2 94) by (apply Rle_trans with (bpow radix2 20); [cbn; lra|apply bpow_le; lia]). pose proof (bpow_gt_0 radix2 31). nra. }
  assert (bpow radix2 100 <= / 1048576 * bpow radix2 125) as Hs2. { change 125%Z with (25 + 100)%Z. rewrite bpow_plus. pose proof (bpow_gt_0 radix2 100). assert (bpow radix2 25 = 33554432) as -> by (cbn; lra). lra. }
  rewrite gradient_sum_eq by (pose proof w_small; lia). rewrite INR_IZR_INZ || idtac. set (C := IZR (Z.of_nat (length l))) in *. set (S := IZR (Z.of_N (sumN (map gv l)))) in *. set (m := IZR (Z.of_nat (2 ^ w) - 1)) in *.
  assert (S <= 255 * C) as HS' by nra.
  assert (err (nofN f32ops (sumN (map gv l))) S (u * S)) as Ex by (unfold nofN; cbn [nofZ f32ops]; apply ofZ_err; [lia|fold S; lra]).
  assert (err (nofN f32ops (N.of_nat (length l))) C (u * C)) as Ec by (unfold nofN; cbn [nofZ f32ops]; rewrite nat_N_Z; apply ofZ_err; [lia|fold C; lra]).
  pose proof (lin_err w _ _ lo hi S C B w_small Fl Fh ltac:(lra) HBl HBh Ex Ec H1 HS ltac:(lra) ltac:(lra)) as E. eapply err_weaken; [exact E|].
  pose proof (tiny_ratio B HB0). assert (C * (Hi - Lo) <= 2 * (C * B)) by (apply Rabs_le_inv in HBl, HBh; nra). assert (B <= C * B) by nra. lra.
Qed.
Lemma linproj_none : err (linproj f32ops w (nofN f32ops 0) (nofN f32ops 0) bounds) 0 0.
Proof.
  unfold linproj. cbn [nadd nmul ndiv nsub f32ops]. pose proof (maxval_pos w w_small) as Hm. destruct (maxval_ok w) as (Fm & Bm); [pose proof w_small; lia|]. pose proof (bpow_gt_0 radix2 127) as Hp.
  change (nofN f32ops 0) with (B754_zero false : f32). set (z := B754_zero false : f32). assert (is_finite z = true) as Fz by reflexivity. assert (B2R' z = 0) as Bz by reflexivity.
  pose proof (div_repr z (maxval f32ops w) Fz Fm ltac:(rewrite Bm; lra)) as Hq. rewrite Bz in Hq. unfold Rdiv in Hq. rewrite Rmult_0_l in Hq. destruct (round_fits _ _ Hq) as (Fq & Bq); [rewrite Rabs_R0; lra|]. rewrite rnd_0 in Bq.
  assert (is_finite (f_sub hi lo) = true) as Fd.
  { assert (1 <= NR) by (apply (IZR_le 1); lia). pose proof big_100. apply (proj1 (round_fits _ _ (sub_repr hi lo Fh Fl) ltac:(apply Rabs_le_inv in HBl, HBh; apply Rabs_le; nra))). }
  destruct (mul_zero _ _ Fq Fd Bq) as (F1 & B1). destruct (mul_zero _ _ Fz Fl Bz) as (F2 & B2).
  pose proof (add_repr _ _ F1 F2) as Ha. rewrite B1, B2, Rplus_0_r in Ha. destruct (round_fits _ _ Ha) as (Fa & Ba); [rewrite Rabs_R0; lra|]. rewrite rnd_0 in Ba. apply err_eq; assumption.
Qed.
(** What a bin says about the examples [l]. *)
Lemma summary_err l : (length l <= n)%nat -> err (fst (bin_summary cfg bounds gv l) : f32) (gsum l) (14.5 * u * (NR * B)).
Proof.
  intros Hl. unfold bin_summary. cbn [fst]. pose proof (NB_pos [] ltac:(cbn; lia)) as HNB. destruct l as [|k l].
  - apply (err_weaken _ _ 0); [|lra]. cbn [length map sumN]. change (gsum []) with 0. destruct (_ <? _)%N; [apply (err_ofZ 0); lia|exact linproj_none].
  - destruct (N.ltb_spec (N.of_nat (length (k :: l))) (c_min_examples_leaf cfg)) as [Hc|_]; [cbn [length] in Hc; lia|]. apply linproj_err; [discriminate|exact Hl].
Qed.

(** The errors of a node's bins and of its gradient sum. *)
Definition bins_err (nd : node f32ops) (e : R) : Prop := forall f b fm v, candidate s f b -> ds_get_bitvec s f b = Ok fm -> bin_of nd f b = Some v ->
  err (fst v : f32) (gsum (filter (bbit fm) (members n nd))) e.
Definition node_err (k : R) (nd : node f32ops) : Prop := bins_err nd (k * unit_err) /\ err (nd_grad nd : f32) (gsum (members n nd)) (k * k * unit_err).

Lemma members_le (nd : node f32ops) : (length (members n nd) <= n)%nat.
Proof. unfold members, IterSpec.positions. etransitivity; [apply filter_length_le|]. rewrite seq_length. lia. Qed.
Lemma sub_step k x y r t a : 1 <= k <= 32768 -> err x r (k * unit_err) -> err y t (14.5 * u * (NR * B)) -> Rabs (r - t) <= NR * B -> a = (k + 1) * unit_err -> err (f_sub x y) (r - t) a.
Proof.
  intros Hk Hx Hy Hrt ->. unfold unit_err in *. set (U := NR * B) in *. pose proof big_100 as Hb. assert (0 <= U) as HU by (pose proof (Rabs_pos (r - t)); lra).
  set (e := 16 * u * U) in *. assert (0 <= e) as He by (unfold e; lra). assert (0 <= k * e <= 32768 * e) as Hku by nra. assert (32768 * e = U / 32) as Heu by (unfold e; lra).
  assert (14.5 * u * U = 29 / 32 * e) as Hf by (unfold e; lra). assert (u * U = e / 16) as Hg by (unfold e; lra). set (z := k * e) in *. set (f := 14.5 * u * U) in *.
  assert (Rabs (r - t) + (z + f) <= bpow radix2 127) as Hov by lra. pose proof (err_sub _ _ _ _ _ _ Hx Hy Hov) as E. eapply err_weaken; [exact E|]. replace ((k + 1) * e) with (z + e) by (unfold z; ring). lra.
Qed.
Lemma grad_step k x y r t a : 1 <= k <= 32768 -> err x r (k * k * unit_err) -> err y t (k * unit_err) -> Rabs (r - t) <= NR * B -> a = (k + 1) * (k + 1) * unit_err -> err (f_sub x y) (r - t) a.
Proof.
  intros Hk Hx Hy Hrt ->. unfold unit_err in *. set (U := NR * B) in *. pose proof big_100 as Hb. assert (0 <= U) as HU by (pose proof (Rabs_pos (r - t)); lra).
  set (e := 16 * u * U) in *. assert (0 <= e) as He by (unfold e; lra). assert (u * U <= e / 16) as Hue by (unfold e; lra).
  assert (0 <= k * k * e <= 32768 * 32768 * e) as Hkk. { assert (0 <= k * k <= 32768 * 32768) by nra. nra. } assert (0 <= k * e <= 32768 * e) as Hke by nra.
  assert (32768 * 32768 * e <= 2048 * U) as Hbig by (unfold e; lra).
  assert (NR * B <= / 4096 * bpow radix2 127) as HNB. { fold U. apply Rle_trans with (bpow radix2 100); [exact HB1|]. change 127%Z with (27 + 100)%Z. rewrite bpow_plus. pose proof (bpow_gt_0 radix2 100). assert (bpow radix2 27 = 134217728) as -> by (cbn; lra). lra. }
  fold U in HNB. pose proof (err_sub _ _ _ _ _ _ Hx Hy ltac:(lra)) as E. eapply err_weaken; [exact E|].
  assert (u * (k * k * e) <= k * e / 256) as H1. { replace (k * k * e) with (k * (k * e)) by ring. nra. } assert (u * (k * e) <= k * e / 256) by nra. nra.
Qed.
Lemma children_err k (p l r : node f32ops) fm (v : histval f32ops) : 1 <= k <= 32768 -> node_err k p -> members n l = filter (bbit fm) (members n p) -> members n r = filter (fun x => negb (bbit fm x)) (members n p) ->
  err (fst v : f32) (gsum (filter (bbit fm) (members n p))) (k * unit_err) -> nd_grad l = fst v -> nd_grad r = nsub f32ops (nd_grad p) (fst v) ->
  (forall f b fm', candidate s f b -> ds_get_bitvec s f b = Ok fm' -> bin_of l f b = Some (bin_summary cfg bounds gv (filter (bbit fm') (members n l)))) ->
  (forall f b fm', candidate s f b -> ds_get_bitvec s f b = Ok fm' -> exists vp, bin_of p f b = Some vp) ->
  (forall f b vp vl, bin_of p f b = Some vp -> bin_of l f b = Some vl -> bin_of r f b = Some (nsub f32ops (fst vp) (fst vl), (snd vp - snd vl)%N)) ->
  node_err (k + 1) l /\ node_err (k + 1) r.
Proof.
  intros Hk (Pb & Pg) Ml Mr Hv Gl Gr Bl Bp Br. pose proof (NB_pos [] ltac:(cbn; lia)) as HNB. assert (0 <= unit_err) as Hu by (unfold unit_err; lra).
  assert (forall (nd : node f32ops) q, (length (filter q (members n nd)) <= n)%nat) as Hfl by (intros nd q; etransitivity; [apply filter_length_le|apply members_le]).
  assert (forall l : list nat, (length l <= n)%nat -> Rabs (gsum l) <= NR * B) as Hgs by (intros l0 Hl0; eapply Rle_trans; [apply gsum_bound|apply NB_pos, Hl0]).
  assert (forall f b fm', candidate s f b -> ds_get_bitvec s f b = Ok fm' -> err (fst (bin_summary cfg bounds gv (filter (bbit fm') (members n l))) : f32) (gsum (filter (bbit fm') (members n l))) (14.5 * u * (NR * B))) as Hl.
  { intros f b fm' Hc Em. apply summary_err, Hfl. }
  split; split.
  - intros f b fm' x Hc Em Ex. rewrite (Bl f b fm' Hc Em) in Ex. injection Ex as <-. eapply err_weaken; [exact (Hl f b fm' Hc Em)|]. unfold unit_err in *. nra.
  - rewrite Ml. apply (eq_ind_r (fun x => err (x : f32) _ _) (err_weaken _ _ _ ((k + 1) * (k + 1) * unit_err) Hv ltac:(nra)) Gl).
  - intros f b fm' x Hc Em Ex. destruct (Bp f b fm' Hc Em) as (vp & Evp). rewrite (Br f b _ _ Evp (Bl f b fm' Hc Em)) in Ex. injection Ex as <-. cbn [fst]. rewrite Mr.
    pose proof (gsum_filters (bbit fm') (bbit fm) (members n p)) as Eg. rewrite <- Ml in Eg.
    replace (gsum (filter (bbit fm') (filter (fun x => negb (bbit fm x)) (members n p)))) with (gsum (filter (bbit fm') (members n p)) - gsum (filter (bbit fm') (members n l))) by lra.
    eapply sub_step; [exact Hk|exact (Pb f b fm' vp Hc Em Evp)|exact (Hl f b fm' Hc Em)| |reflexivity].
    replace (_ - _) with (gsum (filter (bbit fm') (filter (fun x => negb (bbit fm x)) (members n p)))) by lra. apply Hgs. rewrite <- Mr. apply Hfl.
  - pose proof (gsum_halves (bbit fm) (members n p)) as Eg. rewrite Mr.
    replace (gsum (filter (fun x => negb (bbit fm x)) (members n p))) with (gsum (members n p) - gsum (filter (bbit fm) (members n p))) by lra.
    refine (eq_ind_r (fun x => err (x : f32) _ _) _ Gr). eapply grad_step; [exact Hk|exact Pg|exact Hv| |reflexivity].
    replace (_ - _) with (gsum (filter (fun x => negb (bbit fm x)) (members n p))) by lra. apply Hgs, Hfl.
Qed.
End Gv.

(** Every node of a growing tree; [depth] in the tree. *)
Definition depth (nd : node f32ops) : nat := Nat.log2 (nd_id nd + 1).
Lemma gv_small rows k : valid_width w = true -> (Z.of_N (gradient_at cfg bounds gradients rows k) <= Z.of_nat (2 ^ w) - 1)%Z.
Proof.
  intros Hw. pose proof (w_small Hw) as Hw'. assert (Z.of_N (2 ^ N.of_nat w) = Z.of_nat (2 ^ w)) as E2 by (rewrite N2Z.inj_pow, nat_N_Z, Nat2Z.inj_pow; reflexivity).
  unfold gradient_at. assert (1 <= 2 ^ w)%nat as Hp1 by (apply Nat.neq_0_lt_0, Nat.pow_nonzero; lia). destruct (nth_error rows k); [|change (Z.of_N 0) with 0%Z; lia]. match goal with |- context [match ?x with _ => _ end] => destruct x end; [|change (Z.of_N 0) with 0%Z; lia]. unfold stored_gradient.
  assert (2 ^ N.of_nat w <> 0)%N as Hnz by (apply N.pow_nonzero; lia). match goal with |- (Z.of_N (?a mod ?b) <= _)%Z => pose proof (N.mod_lt a b Hnz) as Hm end. set (x := (_ mod _)%N) in *. clearbody x. lia.
Qed.
Lemma disc_stored g : valid_width w = true -> disc f32ops cfg bounds g = stored_gradient cfg bounds g.
Proof.
  intros Hw. unfold disc, stored_gradient. symmetry. apply N.mod_small.
  destruct (disc_range w (g : f32) lo hi (w_small Hw) Fl Fh ltac:(rewrite !key_finite by assumption; lra)) as (A & Bd).
  assert (Z.of_N (2 ^ N.of_nat w) = Z.of_nat (2 ^ w)) as E2 by (rewrite N2Z.inj_pow, nat_N_Z, Nat2Z.inj_pow; reflexivity). apply N2Z.inj_lt. rewrite E2. match goal with |- (Z.of_N (Z.to_N ?x) < _)%Z => assert (0 <= x <= Z.of_nat (2 ^ w) - 1)%Z as (A' & B') by (split; [exact A|exact Bd]); rewrite (Z2N.id x A'); apply (Z.le_lt_trans _ _ _ B') end. lia.
Qed.
Lemma grown_err nd rows : grown dbg cfg s sizes bounds sched gradients nd -> example_rows s = Ok rows -> (depth nd < 1000)%nat ->
  node_err (gradient_at cfg bounds gradients rows) (IZR (Z.of_nat (depth nd + 1))) nd.
Proof.
  intros HG Hrows. pose proof (grown_pre _ dbg0 dbg _ _ _ _ _ _ _ HR Hsizes Hsched Hsmall nd HG) as (HL & Hw & Hs & _). set (gv := gradient_at cfg bounds gradients rows).
  assert (forall p sp l r, grown dbg cfg s sizes bounds sched gradients p -> ((depth p < 1000)%nat -> node_err gv (IZR (Z.of_nat (depth p + 1))) p) -> find_best_split dbg cfg s p = Ok sp -> is_no_split (sp_crit sp) = false ->
    get_left_right_n2s dbg cfg s sizes bounds sched p sp = Ok (l, r) -> 
    ((depth l < 1000)%nat -> node_err gv (IZR (Z.of_nat (depth l + 1))) l) /\ ((depth r < 1000)%nat -> node_err gv (IZR (Z.of_nat (depth r + 1))) r)) as Hstep.
  { intros p sp l r HGp HPe Esp Ens E. pose proof (grown_ok _ dbg0 dbg _ _ _ _ _ _ _ HR Hsizes Hsched Hsmall p rows HGp Hrows) as HP. change (gvals f32ops cfg bounds gradients rows) with gv in HP.
    destruct (best_split_weak f32ops dbg cfg s p sp (fun f b v => full_bin_le f32ops cfg s sizes gv HL p f b v HP) Esp) as [->|(v & (Hc & _) & _)]; [discriminate Ens|].
    destruct (lds_fm _ _ HL _ _ Hc) as (fm & Em & _). destruct (left_right_gen f32ops dbg cfg s sizes bounds sched gv HL Hw Hsmall Hsched Hs p sp fm HP Hc Em) as [_ Hlr].
    destruct (Hlr l r E) as (_ & _ & Ml & Mr & Il & Ir & (v' & Ev & Gl & Gr) & Bl & Br).
    assert (depth l = S (depth p)) as Dl. { unfold depth. rewrite Il. unfold left_child. replace (2 * nd_id p + 1 + 1)%nat with (2 * (nd_id p + 1))%nat by lia. apply Nat.log2_double. lia. }
    assert (depth r = S (depth p)) as Dr. { unfold depth. rewrite Ir. unfold right_child. replace (2 * nd_id p + 2 + 1)%nat with (2 * (nd_id p + 1) + 1)%nat by lia. apply Nat.log2_succ_double. lia. }
    rewrite Dl, Dr. assert ((depth p < 999)%nat -> node_err gv (IZR (Z.of_nat (S (depth p) + 1))) l /\ node_err gv (IZR (Z.of_nat (S (depth p) + 1))) r) as Hboth; [|split; intros Hd; apply Hboth; lia].
    intros Hd. specialize (HPe ltac:(lia)). replace (IZR (Z.of_nat (S (depth p) + 1))) with (IZR (Z.of_nat (depth p + 1)) + 1) by (rewrite <- plus_IZR; f_equal; lia).
    apply (children_err gv Hw (fun k => gv_small rows k Hw) _ p l r fm v'); try assumption.
    - split; apply IZR_le; lia.
    - exact (proj1 HPe _ _ fm v' Hc Em Ev).
    - intros f b fm' Hc' Em'. exact (bin_exists f32ops s sizes HL p f b (ho_shape _ _ _ _ (fo_hists _ _ _ _ _ _ HP)) Hc'). }
  induction HG as [root E|p sp l r HG IH Esp Ens E|p sp l r HG IH Esp Ens E].
  - intros _. destruct (root_ok f32ops cfg s sizes bounds HL Hw Hsmall sched gradients root Hsched E) as (rows' & Er & _ & _ & Hlen & R1 & R2 & R3 & R4 & R5 & R6 & R7). rewrite Hrows in Er. injection Er as Er. subst rows'.
    assert (depth root = 0)%nat as -> by (unfold depth; rewrite R4; reflexivity). change (IZR (Z.of_nat (0 + 1))) with 1. pose proof (NB_pos [] ltac:(cbn; lia)) as HNB. split.
    + intros f b fm v Hc Em Ev. rewrite (R6 f b fm Hc Em) in Ev. injection Ev as <-. eapply err_weaken; [apply (summary_err gv Hw (fun k => gv_small rows k Hw)); etransitivity; [apply filter_length_le|apply members_le]|]. unfold unit_err. lra.
    + assert (nd_grad root = linproj f32ops w (nofN f32ops (sumN (map gv (members n root)))) (nofN f32ops (N.of_nat (length (members n root)))) bounds) as Eg.
      { refine (eq_trans R7 _). rewrite R3, seq_length. f_equal; [f_equal|].
        - pose proof (rows_length f32ops s rows Hrows) as Lr. rewrite <- Lr. f_equal. apply nth_error_ext. intros k. rewrite !nth_error_map, nth_error_seq. unfold gv, gradient_at.
          destruct (Nat.ltb_spec k (length rows)) as [Hk|Hk].
          + destruct (nth_error rows k) as [j|] eqn:Ej; [|apply nth_error_None in Ej; lia]. cbn [option_map Nat.add]. rewrite Ej.
            match goal with |- Some (match ?x with _ => _ end) = _ => destruct x as [g|] end; [|reflexivity]. f_equal. apply disc_stored, Hw.
          + rewrite (proj2 (nth_error_None rows k)) by exact Hk. reflexivity.
        - unfold nofnat, nofN. rewrite nat_N_Z. reflexivity. }
      refine (eq_ind_r (fun x => err (x : f32) _ _) _ Eg). eapply err_weaken; [apply (linproj_err gv Hw (fun k => gv_small rows k Hw)); [|apply members_le]|unfold unit_err; lra].
      rewrite R3. intros Hc. apply (f_equal (@length nat)) in Hc. rewrite seq_length in Hc. cbn in Hc. lia.
  - exact (proj1 (Hstep p sp l r HG IH Esp Ens E)).
  - exact (proj2 (Hstep p sp l r HG IH Esp Ens E)).
Qed.
End GrownErr.
