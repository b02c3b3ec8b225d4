(** Properties C30 and C31: discretised (scaled) values of bitslices. *)
From Coq Require Import Reals Lra.
From Flocq Require Import Core BinarySingleNaN.
From Verif Require Import Base BaseProofs BitModel BitSpec BitProofs BitProofs2 SliceModel SliceSpec SliceProofs SliceProps F32 F32Proofs Num ScaledModel ScaledProofs.

(* ---- C30 ---- *)

Lemma pow2_N_Z w : Z.of_N (2 ^ N.of_nat w) = Z.of_nat (2 ^ w).
Proof. rewrite N2Z.inj_pow, nat_N_Z, Nat2Z.inj_pow. reflexivity. Qed.

Lemma le_keys lo hi : f_is_finite lo = true -> f_is_finite hi = true -> f_le lo hi = true -> (key lo <= key hi)%R.
Proof. intros A B C. apply f_le_key in C; [exact C|apply fin_nan, A|apply fin_nan, B]. Qed.
Lemma lt_keys lo hi : f_is_finite lo = true -> f_is_finite hi = true -> f_lt lo hi = true -> (key lo < key hi)%R.
Proof. intros A B C. apply f_lt_key in C; [exact C|apply fin_nan, A|apply fin_nan, B]. Qed.
Lemma width_small w : slice_width w -> 1 <= w <= 8.
Proof. unfold slice_width. lia. Qed.

(** For every value (also NaN and infinities) the stored number is within [0 .. 2^w - 1], it is the number returned and
    the number read back, and no other value of the slice changes. *)
Theorem C30_range_and_store : forall w vec i v lo hi, slice_width w -> wf_blocks vec -> i < length vec * (256 / w) ->
  f_is_finite lo = true -> f_is_finite hi = true -> f_le lo hi = true ->
  exists vec' k, set_scaled_value f32ops w vec i v (lo, hi) = Ok (vec', k) /\ (0 <= k <= Z.of_nat (2 ^ w) - 1)%Z /\
    wf_blocks vec' /\ length vec' = length vec /\ get_value w vec' i = Ok (Z.to_N k) /\
    forall j, j <> i -> get_value w vec' j = get_value w vec j.
Proof.
  intros w vec i v lo hi Hw Hv Hi Fl Fh H. unfold set_scaled_value. 
  assert (exists k, discretise f32ops w v (lo, hi) = k /\ (0 <= k <= Z.of_nat (2 ^ w) - 1)%Z) as (k & -> & R).
  { eexists. split; [reflexivity|]. exact (disc_range w v lo hi (width_small w Hw) Fl Fh (le_keys _ _ Fl Fh H)). }
  destruct (C06_get_after_set w vec i (Z.to_N k) Hw Hv Hi) as (vec' & E & W & L & G & F).
  { pose proof (pow2_N_Z w) as E. apply N2Z.inj_lt. rewrite E, Z2N.id by lia. lia. }
  exists vec', k. rewrite E. cbn [rbind]. auto 10.
Qed.
Print Assumptions C30_range_and_store.

(** Larger inputs give larger or equal codes; NaN gives the same code as the lower bound, 0. *)
Theorem C30_monotone : forall w v v' lo hi, slice_width w ->
  f_is_finite lo = true -> f_is_finite hi = true -> f_le lo hi = true -> f_le v v' = true ->
  (discretise f32ops w v (lo, hi) <= discretise f32ops w v' (lo, hi))%Z.
Proof.
  intros w v v' lo hi Hw Fl Fh H Hv. destruct (f_le_nan_l v v' Hv) as (N1 & N2).
  apply disc_mono; auto using width_small, le_keys. unfold vkey. rewrite N1, N2. apply f_le_key; assumption.
Qed.
Print Assumptions C30_monotone.

(** At or below the lower bound: 0; at or above the upper bound: the largest code. *)
Theorem C30_saturates : forall w v lo hi, slice_width w ->
  f_is_finite lo = true -> f_is_finite hi = true -> f_lt lo hi = true -> f_is_finite (f_sub hi lo) = true ->
  (f_le v lo = true \/ v = f_nan -> discretise f32ops w v (lo, hi) = 0%Z) /\
  (f_le hi v = true -> discretise f32ops w v (lo, hi) = (Z.of_nat (2 ^ w) - 1)%Z).
Proof.
  intros w v lo hi Hw Fl Fh H Fd.
  destruct (disc_saturate w v lo hi (width_small w Hw) Fl Fh (lt_keys _ _ Fl Fh H) Fd) as (A & B). split.
  - intros [Hv|Hv]; apply A.
    + destruct (f_le_nan_l _ _ Hv) as (N1 & N2). unfold vkey. rewrite N1. apply f_le_key; assumption.
    + subst v. change (vkey f_nan) with (- M)%R. pose proof (key_bound lo). lra.
  - intros Hv. apply B. destruct (f_le_nan_l _ _ Hv) as (N1 & N2). unfold vkey. rewrite N2. apply f_le_key; assumption.
Qed.
Print Assumptions C30_saturates.

(** Exact arithmetic: projecting the code back misses the clamped input by at most half a step,
    a step being [(hi - lo) / (2^w - 1)]. *)
Theorem C30_half_step_error : forall w (v lo hi : R), slice_width w -> (lo < hi)%R ->
  (Rabs (linproj Rops w (IZR (discretise Rops w v (lo, hi))) 1 (lo, hi) - Rmin hi (Rmax lo v))
   <= (hi - lo) / IZR (Z.of_nat (2 ^ w) - 1) / 2)%R.
Proof.
  intros w v lo hi Hw H. pose proof (disc_R_error w v lo hi (width_small w Hw) H) as E.
  pose proof (maxval_pos w (width_small w Hw)) as Hm.
  replace ((hi - lo) / IZR (Z.of_nat (2 ^ w) - 1) / 2)%R with ((hi - lo) / (2 * IZR (Z.of_nat (2 ^ w) - 1)))%R; [exact E|].
  field. lra.
Qed.
Print Assumptions C30_half_step_error.

(** Bounds -1 .. 2, 4 bits: 0.5 becomes code 8 (of 0..15), which projects back to 0.6. *)
Example C30_instance :
  let lo := f_of_Z (-1) in let hi := f_of_Z 2 in let v := f_div (f_of_Z 1) (f_of_Z 2) in
  f_is_finite lo = true /\ f_is_finite hi = true /\ f_lt lo hi = true /\ f_is_finite (f_sub hi lo) = true /\
  discretise f32ops 4 v (lo, hi) = 8%Z /\ discretise f32ops 4 f_nan (lo, hi) = 0%Z /\ discretise f32ops 4 f_inf (lo, hi) = 15%Z.
Proof. vm_compute. repeat split; reflexivity. Qed.

(* ---- C31 ---- *)

Definition rsum (l : list R) : R := fold_right Rplus 0%R l.

(** Back-projection of one value of a slice: [get_scaled_value]. *)
Theorem C31_get_scaled_value : forall w vec i k lo hi, get_value w vec i = Ok k ->
  get_scaled_value Rops w vec i (lo, hi) = Ok (lo + IZR (Z.of_N k) * ((hi - lo) / IZR (Z.of_nat (2 ^ w) - 1)))%R.
Proof.
  intros w vec i k lo hi E. unfold get_scaled_value. rewrite E. cbn [rbind]. f_equal. unfold linproj, maxval, nofN.
  cbn [Rops nadd nmul ndiv nsub nofZ]. change (num Rops) with R in *. unfold Rdiv. ring.
Qed.
Print Assumptions C31_get_scaled_value.

Lemma linproj_sumN w (l : list nat) (m : nat -> bool) (vals : nat -> N) lo hi : 1 <= w <= 8 ->
  linproj Rops w (IZR (Z.of_N (sumN (map (fun p => if m p then vals p else 0%N) l)))) (INR (length (filter m l))) (lo, hi) =
  rsum (map (fun p => linproj Rops w (IZR (Z.of_N (vals p))) 1%R (lo, hi)) (filter m l)).
Proof.
  intros Hw. pose proof (maxval_pos w Hw) as Hm. unfold linproj, maxval. cbn [Rops nadd nmul ndiv nsub nofZ].
  change (num Rops) with R in *.
  induction l as [|p l IH]; cbn [map sumN filter length rsum fold_right].
  - cbn. field. lra.
  - destruct (m p).
    + cbn [length]. rewrite S_INR. cbn [map rsum fold_right]. fold (rsum (map (fun p => (IZR (Z.of_N (vals p)) / IZR (Z.of_nat (2 ^ w) - 1) * (hi - lo) + 1 * lo)%R) (filter m l))).
      rewrite <- IH. rewrite N2Z.inj_add, plus_IZR. field. lra.
    + rewrite N.add_0_l. exact IH.
Qed.

(** The back-projection of (sum of the enabled values, number of enabled positions) is the sum of the enabled values'
    back-projections, for every set of positions, every bounds. *)
Theorem C31_linear : forall w n (m : nat -> bool) (vals : nat -> N) (lo hi : R), slice_width w ->
  linproj Rops w (nofN Rops (masked_sum n m vals)) (nofN Rops (countf n m)) (lo, hi) =
  rsum (map (fun p => linproj Rops w (nofN Rops (vals p)) 1%R (lo, hi)) (filter m (seq 0 n))).
Proof.
  intros w n m vals lo hi Hw. unfold nofN. cbn [Rops nofZ]. unfold masked_sum, sumf, countf. rewrite nat_N_Z, <- INR_IZR_INZ.
  apply linproj_sumN, width_small, Hw.
Qed.
Print Assumptions C31_linear.

(** The code's masked, scaled sum of a 32-value block: sum of the scaled values of the enabled positions, and their number. *)
Theorem C31_sum_scaled_masked : forall w vec b mask vals (lo hi : R), slice_width w -> wf_blocks vec ->
  b * 32 < length vec * (256 / w) -> holds w vec (length vec * (256 / w)) vals -> (mask < 2 ^ 32)%N ->
  sum_scaled_masked Rops w vec b mask (lo, hi) =
  Ok (rsum (map (fun t => (lo + IZR (Z.of_N (vals (32 * b + t)%nat)) * ((hi - lo) / IZR (Z.of_nat (2 ^ w) - 1)))%R)
              (filter (fun t => N.testbit mask (N.of_nat t)) (seq 0 32))),
      countf 32 (fun t => N.testbit mask (N.of_nat t))).
Proof.
  intros w vec b mask vals lo hi Hw Hv Hb Hh Hm. unfold sum_scaled_masked.
  rewrite (C07_sum_masked w vec b mask vals Hw Hv Hb Hh). cbn [rbind].
  assert (popcount mask = countf 32 (fun t => N.testbit mask (N.of_nat t))) as ->.
  { rewrite (popcount_sum 32) by exact Hm. symmetry. apply countf_sumf. }
  f_equal. f_equal. rewrite C31_linear by exact Hw. f_equal. apply map_ext. intros t. unfold linproj, maxval, nofN.
  cbn [Rops nadd nmul ndiv nsub nofZ]. change (num Rops) with R in *. unfold Rdiv. ring.
Qed.
Print Assumptions C31_sum_scaled_masked.

Example C31_instance : slice_width 4 /\ wf_blocks [bb_ones] /\ holds 4 [bb_ones] 64 (fun _ => 15%N) /\ (5 < 2 ^ 32)%N.
Proof.
  split; [unfold slice_width; auto|]. split; [repeat constructor; apply wf_bb_ones|]. split; [|reflexivity].
  intros i Hi. do 64 (destruct i as [|i]; [vm_compute; reflexivity|]). lia.
Qed.
