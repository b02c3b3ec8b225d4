(** C59 in f32: limits do not depend on the order of plain values; the bias of the absolute error is finite. *)
From Coq Require Import Reals Lra Permutation.
From Flocq Require Import Core BinarySingleNaN Plus_error.
From Verif Require Import Base BaseProofs F32 F32Proofs Num BinnerModel Config ObjectiveModel TotalProofs5 BoostProps RowProofs2.
Local Open Scope R_scope.

(** Neither NaN nor -0. *)
Definition plain (x : f32) : Prop := is_nan x = false /\ x <> B754_zero true.

Lemma key_inj x y : plain x -> plain y -> key x = key y -> x = y.
Proof.
  intros [Nx Px] [Ny Py] E. destruct (is_finite x) eqn:Fx, (is_finite y) eqn:Fy.
  - rewrite !key_finite in E by assumption. apply B2R_Bsign_inj; try assumption.
    destruct (Req_dec (B2R' x) 0) as [Z|Z].
    + assert (forall v : f32, is_finite v = true -> v <> B754_zero true -> B2R' v = 0 -> Bsign v = false) as H.
      { clear. intros v Fv Hv Z. destruct v as [[]|s| |s m e p]; [contradiction (Hv eq_refl)|reflexivity|discriminate Fv|discriminate Fv|]. exfalso. unfold B2R', B2R, F2R in Z. cbn [Fnum Fexp] in Z. pose proof (bpow_gt_0 radix2 e). destruct s; cbn [cond_Zopp] in Z; apply Rmult_integral in Z as [Z|Z]; try lra; apply eq_IZR in Z; discriminate. }
      rewrite (H x), (H y); auto. rewrite <- E. exact Z.
    + assert (B2R' y <> 0) as Z' by (rewrite <- E; exact Z). pose proof (sign_B2R x Fx Z) as [S1 S2]. pose proof (sign_B2R y Fy Z') as [T1 T2]. rewrite E in S1, S2. apply Bool.eq_true_iff_eq; split; auto.
  - pose proof (key_finite_strict x Fx) as H. destruct y as [|[]| |]; try discriminate; cbn [key] in E; lra.
  - pose proof (key_finite_strict y Fy) as H. destruct x as [|[]| |]; try discriminate; cbn [key] in E; lra.
  - pose proof M_pos. destruct x as [|[]| |], y as [|[]| |]; try discriminate; try reflexivity; cbn [key] in E; lra.
Qed.

Lemma f_le_total x y : is_nan x = false -> is_nan y = false -> f_le x y = false -> key y < key x.
Proof. intros Nx Ny H. destruct (Rlt_le_dec (key y) (key x)) as [L|L]; [exact L|]. apply (f_le_key x y Nx Ny) in L. congruence. Qed.
Lemma f_min_step s a b : plain a -> plain b -> f_min (f_min s a) b = f_min (f_min s b) a.
Proof.
  intros Pa Pb. pose proof Pa as [Na _]. pose proof Pb as [Nb _]. unfold f_min, f_is_nan. rewrite Na, Nb. destruct (is_nan s) eqn:Ns; rewrite ?Na, ?Nb.
  - destruct (f_le a b) eqn:A, (f_le b a) eqn:B; try reflexivity.
    + apply f_le_key in A, B; try assumption. apply key_inj; try assumption. lra.
    + apply f_le_total in A, B; try assumption. lra.
  - destruct (f_le s a) eqn:A, (f_le s b) eqn:B; rewrite ?Ns, ?Na, ?Nb, ?A, ?B; try reflexivity.
    + apply f_le_key in A; try assumption. apply f_le_total in B; try assumption. destruct (f_le b a) eqn:C; [reflexivity|]. apply f_le_total in C; try assumption. lra.
    + apply f_le_key in B; try assumption. apply f_le_total in A; try assumption. destruct (f_le a b) eqn:C; [reflexivity|]. apply f_le_total in C; try assumption. lra.
    + destruct (f_le a b) eqn:C, (f_le b a) eqn:D; try reflexivity.
      * apply f_le_key in C, D; try assumption. apply key_inj; try assumption. lra.
      * apply f_le_total in C, D; try assumption. lra.
Qed.
Lemma f_max_step s a b : plain a -> plain b -> f_max (f_max s a) b = f_max (f_max s b) a.
Proof.
  intros Pa Pb. pose proof Pa as [Na _]. pose proof Pb as [Nb _]. unfold f_max, f_is_nan. rewrite Na, Nb. destruct (is_nan s) eqn:Ns; rewrite ?Na, ?Nb.
  - destruct (f_le b a) eqn:A, (f_le a b) eqn:B; try reflexivity.
    + apply f_le_key in A, B; try assumption. apply key_inj; try assumption. lra.
    + apply f_le_total in A, B; try assumption. lra.
  - destruct (f_le a s) eqn:A, (f_le b s) eqn:B; rewrite ?Ns, ?Na, ?Nb, ?A, ?B; try reflexivity.
    + apply f_le_key in A; try assumption. apply f_le_total in B; try assumption. destruct (f_le a b) eqn:C; [reflexivity|]. apply f_le_total in C; try assumption. lra.
    + apply f_le_key in B; try assumption. apply f_le_total in A; try assumption. destruct (f_le b a) eqn:C; [reflexivity|]. apply f_le_total in C; try assumption. lra.
    + destruct (f_le b a) eqn:C, (f_le a b) eqn:D; try reflexivity.
      * apply f_le_key in C, D; try assumption. apply key_inj; try assumption. lra.
      * apply f_le_total in C, D; try assumption. lra.
Qed.
Lemma f_limits_perm l l' : Permutation l l' -> Forall plain l -> f_limits l' = f_limits l.
Proof.
  intros HP HF. unfold f_limits. symmetry. apply (fold_left_permP _ _ plain (fun (st : f32 * f32) x => (f_min (fst st) x, f_max (snd st) x))) with (l := l) (l' := l'); [|exact HP|exact HF].
  intros s a b Pa Pb. cbn [fst snd]. f_equal; [apply f_min_step|apply f_max_step]; assumption.
Qed.

Lemma sub_plain t p : is_finite t = true -> t <> B754_zero true -> is_finite p = true -> plain (f_sub t p).
Proof.
  intros Ft Ht Fp. destruct (sub_repr t p Ft Fp) as [N K]. split; [exact N|]. intros Z. pose proof (Bminus_correct 24 128 eq_refl eq_refl mode_NE t p Ft Fp) as H. fold (f_sub t p) in H.
  destruct (Rlt_bool (Rabs (round radix2 (SpecFloat.fexp 24 128) (round_mode mode_NE) (B2R t - B2R p))) (bpow radix2 128)).
  - destruct H as (H1 & H2 & H3). change (Bminus mode_NE t p) with (f_sub t p) in *. rewrite Z in H1, H3. cbn [B2R Bsign] in H1, H3.
    assert (B2R t - B2R p = 0) as E0. { destruct (Req_dec (B2R t - B2R p) 0) as [E|E]; [exact E|]. exfalso. symmetry in H1. revert H1. unfold Rminus. apply round_plus_neq_0; try exact _; [apply generic_format_B2R|apply generic_format_opp, generic_format_B2R|exact E]. }
    rewrite E0 in H3. rewrite Rcompare_Eq in H3 by reflexivity. symmetry in H3. apply andb_prop in H3 as [S1 S2].
    destruct (Req_dec (B2R' t) 0) as [Z0|Z0].
    + destruct t as [[]|s| |s m e q]; [contradiction (Ht eq_refl)|discriminate S1|discriminate Ft|discriminate Ft|]. unfold B2R', B2R, F2R in Z0. cbn [Fnum Fexp] in Z0. pose proof (bpow_gt_0 radix2 e). destruct s; cbn [cond_Zopp] in Z0; apply Rmult_integral in Z0 as [Z0|Z0]; try lra; apply eq_IZR in Z0; discriminate.
    + apply (sign_B2R t Ft Z0) in S1. assert (B2R' p = B2R' t) as Ep by lra. assert (B2R' p <> 0) as Zp by (rewrite Ep; exact Z0). assert (Bsign p = true) as Sp by (apply (sign_B2R p Fp Zp); lra). rewrite Sp in S2. discriminate.
  - destruct H as [H _]. change (Bminus mode_NE t p) with (f_sub t p) in *. rewrite Z in H. destruct (Bsign t); discriminate.
Qed.

(* ---- the quantile ---- *)
Lemma insert_all_shape O B items : forall (b b' : binner O B), binner_insert_all b items = Ok b' -> bn_min b' = bn_min b /\ bn_delta b' = bn_delta b /\ length (bn_bins b') = length (bn_bins b).
Proof.
  induction items as [|[v c] items IH]; intros b b' E; cbn [binner_insert_all] in E; [injection E as <-; auto|]. apply rbind_ok in E as (b1 & E1 & E). apply IH in E as (A1 & A2 & A3). unfold binner_insert in E1. apply rbind_ok in E1 as (x & _ & E1). apply rbind_ok in E1 as (bins & Eb & E1). injection E1 as <-. cbn [bn_min bn_delta bn_bins] in *.
  apply set_idx_ok in Eb as [_ ->]. rewrite upd_length in A3. auto.
Qed.
Lemma fold_limits_in (l : list f32) : forall (st : f32 * f32), Forall (fun x => is_nan x = false) l -> (In (fst (fold_left (fun st x => (f_min (fst st) x, f_max (snd st) x)) l st)) (fst st :: l)) /\ (In (snd (fold_left (fun st x => (f_min (fst st) x, f_max (snd st) x)) l st)) (snd st :: l)).
Proof.
  induction l as [|x l IH]; intros st HF; cbn [fold_left]; [split; left; reflexivity|]. inversion HF as [|? ? Hx HF']; subst. destruct (IH (f_min (fst st) x, f_max (snd st) x) HF') as [[H1|H1] [H2|H2]]; cbn [fst snd] in *; split; try (right; right; assumption).
  all: unfold f_min, f_max, f_is_nan in *; rewrite ?Hx in *; destruct (is_nan (fst st)), (is_nan (snd st)); try destruct (f_le (fst st) x); try destruct (f_le x (snd st)); rewrite <- ?H1, <- ?H2; cbn [In]; auto.
Qed.
(** Values of size at most 2^125: the 1024 bins are representable, and so is each boundary. *)
Lemma quantile_finite q (l : list f32) v : (forall t, In t l -> bnd t (bpow radix2 125)) -> quantile f32ops NBINS q (f_limits l) l = Ok v -> is_finite v = true.
Proof.
  intros Hb E. unfold quantile in E. apply rbind_ok in E as (b0 & E0 & E). apply rbind_ok in E as (b & Eb & E). apply rbind_ok in E as (bin & _ & E).
  apply BoostProps.Ok_inj in E. subst v. apply insert_all_shape in Eb as (M1 & M2 & M3).
  unfold binner_new in E0. apply rbind_ok in E0 as (u1 & A1 & E0). apply rbind_ok in E0 as (u2 & A2 & E0). apply rbind_ok in E0 as (u3 & _ & E0). apply rbind_ok in E0 as (u4 & _ & E0).
  apply BoostProps.Ok_inj in E0. subst b0.
  cbn [bn_min bn_delta bn_bins] in M1, M2, M3. rewrite repeat_length in M2, M3.
  assert (forall (x : f32) u, rassert (nisfin f32ops x) = Ok u -> is_finite x = true) as Hass. { intros x u H. change (nisfin f32ops x) with (is_finite x) in H. destruct (is_finite x); [reflexivity|discriminate H]. }
  apply Hass in A1, A2.
  assert (Forall (fun x : f32 => is_nan x = false) l) as HN. { apply Forall_forall. intros t Ht. destruct (Hb t Ht) as [F _]. destruct t; auto. }
  destruct (fold_limits_in l (f_inf, f_ninf) HN) as [L1 L2]. cbn [fst snd] in L1, L2. fold (f_limits l) in L1, L2.
  assert (bnd (fst (f_limits l)) (bpow radix2 125)) as Blo. { destruct L1 as [L1|L1]; [exfalso; clear - A1 L1; change (is_finite (fst (f_limits l)) = true) in A1; rewrite <- L1 in A1; discriminate A1|apply Hb, L1]. }
  assert (bnd (snd (f_limits l)) (bpow radix2 125)) as Bhi. { destruct L2 as [L2|L2]; [exfalso; clear - A2 L2; change (is_finite (snd (f_limits l)) = true) in A2; rewrite <- L2 in A2; discriminate A2|apply Hb, L2]. }
  assert (okb (bpow radix2 126)) as O126 by (apply okb_bpow; lia). assert (okb (bpow radix2 127)) as O127 by (apply okb_bpow; lia). assert (okb (bpow radix2 116)) as O116 by (apply okb_bpow; lia).
  assert (bpow radix2 126 = 2 * bpow radix2 125) as P126. { change 126%Z with (1 + 125)%Z at 1. rewrite bpow_plus. reflexivity. }
  assert (bpow radix2 127 = 2 * bpow radix2 126) as P127. { change 127%Z with (1 + 126)%Z at 1. rewrite bpow_plus. reflexivity. }
  assert (bpow radix2 126 = bpow radix2 116 * 1024) as P116. { change 126%Z with (116 + 10)%Z at 1. rewrite bpow_plus. reflexivity. }
  pose proof (bpow_gt_0 radix2 125) as G125. pose proof (bpow_gt_0 radix2 116) as G116.
  assert (bnd (f_sub (snd (f_limits l)) (fst (f_limits l))) (bpow radix2 126)) as Bw by (eapply bnd_sub; [exact Bhi|exact Blo|lra|exact O126]).
  assert (bnd (bn_delta b) (bpow radix2 116)) as Bd.
  { rewrite M2. change (bnd (f_div (f_sub (snd (f_limits l)) (fst (f_limits l))) (f_of_Z 1024)) (bpow radix2 116)). destruct (f_of_Z_exact 1024) as [F1 B1]; [lia|]. eapply bnd_div; [exact Bw|exact F1| | | |exact O116].
    - instantiate (1 := 1024). lra.
    - change (1024 <= B2R (f_of_Z 1024)). rewrite B1. lra.
    - rewrite P116. lra. }
  unfold bin_representative. rewrite M1, M3. change NBINS with 1024%nat.
  set (i := Nat.min (bin + 1) (1024 - 1)). assert (i <= 1023)%nat as Hi by (subst i; lia). clearbody i.
  assert (bnd (f_of_Z (Z.of_nat i)) (IZR (Z.abs (Z.of_nat i)))) as Bi by (apply bnd_ofZ; lia).
  assert (bnd (f_mul (f_of_Z (Z.of_nat i)) (bn_delta b)) (bpow radix2 126)) as Bp.
  { eapply bnd_mul; [exact Bi|exact Bd| |exact O126]. rewrite P116, Rmult_comm. apply Rmult_le_compat_l; [lra|]. apply IZR_le. lia. }
  assert (bnd (f_add (fst (f_limits l)) (f_mul (f_of_Z (Z.of_nat i)) (bn_delta b))) (bpow radix2 127)) as Bs by (eapply bnd_add; [exact Blo|exact Bp|lra|exact O127]).
  exact (proj1 Bs).
Qed.

(* ---- the gradients of the absolute error ---- *)
Lemma l1_weight (t p : f32) : is_finite t = true -> is_finite p = true -> f_abs (f_neg (f_signum (f_sub t p))) = f_one.
Proof.
  intros Ft Fp. destruct (sub_repr t p Ft Fp) as [N _]. unfold f_signum, f_is_nan. rewrite N. destruct (Bsign (f_sub t p)); reflexivity.
Qed.
