(** Properties C06 - C11: bit-sliced arrays and the vectorised count / sum kernels. *)
From Verif Require Import Base BaseProofs BitModel BitSpec BitProofs BitProofs2 SimdModel SimdProofs SliceModel SliceSpec SliceProofs SliceProofs2 CountSumProofs.

(** A width has a layout: 1, 2, 4 or 8 bits per value. *)
Definition slice_width (w : nat) : Prop := w = 1 \/ w = 2 \/ w = 4 \/ w = 8.
Lemma slice_width_valid w : slice_width w -> valid_width w = true.
Proof. intros [->|[->|[->| ->]]]; reflexivity. Qed.

(** [holds w slice n vals]: reading the first [n] values of the slice gives [vals 0 .. vals (n-1)]. *)
Definition holds (w : nat) (slice : blocks) (n : nat) (vals : nat -> N) : Prop :=
  forall i, i < n -> get_value w slice i = Ok (vals i).

Lemma holds_slice_val w slice n vals : slice_width w -> wf_blocks slice -> n <= length slice * (256 / w) ->
  holds w slice n vals -> forall i, i < n -> slice_val w (sbsize w) slice i = vals i.
Proof.
  intros Hw Hs Hn H i Hi. specialize (H i Hi).
  rewrite get_value_ok in H by (try apply slice_width_valid; try assumption; unfold sbsize; lia).
  injection H as H. exact H.
Qed.

Lemma masked_sum_ext n m m' v v' : (forall i, i < n -> m i = m' i) -> (forall i, i < n -> v i = v' i) ->
  masked_sum n m v = masked_sum n m' v'.
Proof. intros H1 H2. unfold masked_sum. apply sumf_ext. intros i Hi. rewrite H1, H2 by assumption. reflexivity. Qed.

Lemma fits w n k : slice_width w -> n = k * w -> k * 256 <= n * (256 / w).
Proof.
  intros [->|[->|[->| ->]]] ->; [change (256 / 1) with 256|change (256 / 2) with 128|change (256 / 4) with 64|change (256 / 8) with 32]; lia.
Qed.

(* ---- C06 ---- *)

Theorem C06_get_after_set : forall w vec i v, slice_width w -> wf_blocks vec -> i < length vec * (256 / w) ->
  (v < 2 ^ N.of_nat w)%N ->
  exists vec', set_value w vec i v = Ok vec' /\ wf_blocks vec' /\ length vec' = length vec /\
    get_value w vec' i = Ok v /\
    forall j, j <> i -> get_value w vec' j = get_value w vec j.
Proof.
  intros w vec i v Hw Hv Hi Hlt. apply slice_width_valid in Hw.
  destruct (get_set_value w vec i v Hw Hv Hi) as (vec' & E & W & L & G & F).
  exists vec'. split; [exact E|]. split; [exact W|]. split; [exact L|]. split.
  - rewrite G. f_equal. apply N.mod_small. exact Hlt.
  - intros j Hj. destruct (Nat.ltb_spec j (length vec * (256 / w))) as [Hl|Hl].
    + apply F; assumption.
    + rewrite !get_value_panic by (try assumption; rewrite ?L; assumption). reflexivity.
Qed.
Print Assumptions C06_get_after_set.

(** A value that does not fit is silently truncated (the code does not check it). *)
Theorem C06_value_truncated : forall w vec i v, slice_width w -> wf_blocks vec -> i < length vec * (256 / w) ->
  exists vec', set_value w vec i v = Ok vec' /\ get_value w vec' i = Ok (v mod 2 ^ N.of_nat w)%N.
Proof.
  intros w vec i v Hw Hv Hi. apply slice_width_valid in Hw.
  destruct (get_set_value w vec i v Hw Hv Hi) as (vec' & E & W & L & G & F). exists vec'. auto.
Qed.
Print Assumptions C06_value_truncated.

Theorem C06_out_of_range_panics : forall w vec i, slice_width w -> wf_blocks vec -> length vec * (256 / w) <= i ->
  get_value w vec i = Panic.
Proof. intros w vec i Hw. apply get_value_panic, slice_width_valid, Hw. Qed.
Print Assumptions C06_out_of_range_panics.

(** Every readable value is below [2^w]. *)
Theorem C06_value_bound : forall w vec i v, slice_width w -> wf_blocks vec -> get_value w vec i = Ok v -> (v < 2 ^ N.of_nat w)%N.
Proof.
  intros w vec i v Hw Hv E. apply slice_width_valid in Hw.
  destruct (Nat.ltb_spec i (length vec * sbsize w)) as [H|H].
  - rewrite get_value_ok in E by assumption. injection E as <-. apply sumf_pow2_lt.
  - rewrite get_value_panic in E by assumption. discriminate.
Qed.
Print Assumptions C06_value_bound.

(** src/bitslice.rs implements the same two operations. *)
Theorem C06_bitslice_rs_agrees : forall w vec i v,
  bsl_get_value w vec i = get_value w vec i /\ bsl_set_value w vec i v = set_value w vec i v.
Proof. intros. split; [exact (bsl_get_value_eq w vec i)|exact (bsl_set_value_eq w vec i v)]. Qed.
Print Assumptions C06_bitslice_rs_agrees.

Example C06_instance : slice_width 4 /\ wf_blocks [bb_zeros; bb_ones] /\ 70 < length [bb_zeros; bb_ones] * (256 / 4) /\
  (let* v := set_value 4 [bb_zeros; bb_ones] 70 9 in
   let* a := get_value 4 v 70 in let* b := get_value 4 v 71 in Ok (a, b)) = Ok (9, 15)%N.
Proof.
  split; [unfold slice_width; auto|]. split; [repeat constructor; apply wf_bb_zeros || apply wf_bb_ones|].
  split; [apply Nat.ltb_lt; reflexivity|]. vm_compute. reflexivity.
Qed.

(* ---- C07 ---- *)

(** The masked sum of 32-value block [b] is the sum of the values [32 b .. 32 b + 31] whose mask bit is set;
    blocks beyond the slice panic. *)
Theorem C07_sum_masked : forall w vec b mask vals, slice_width w -> wf_blocks vec ->
  b * 32 < length vec * (256 / w) -> holds w vec (length vec * (256 / w)) vals ->
  sum_masked w vec b mask = Ok (masked_sum 32 (fun t => N.testbit mask (N.of_nat t)) (fun t => vals (32 * b + t))).
Proof.
  intros w vec b mask vals Hw Hv Hb Hh. pose proof (slice_width_valid w Hw) as Hw'.
  rewrite sum_masked_ok by assumption. f_equal. apply masked_sum_ext; [reflexivity|]. intros t Ht.
  apply (holds_slice_val w vec (length vec * (256 / w))); try assumption; [lia|].
  destruct Hw as [->|[->|[->| ->]]];
    [change (256 / 1) with 256 in *|change (256 / 2) with 128 in *|change (256 / 4) with 64 in *|change (256 / 8) with 32 in *]; lia.
Qed.
Print Assumptions C07_sum_masked.

Theorem C07_out_of_range_panics : forall w vec b mask, slice_width w -> wf_blocks vec ->
  length vec * (256 / w) <= b * 32 -> sum_masked w vec b mask = Panic.
Proof. intros w vec b mask Hw. apply sum_masked_panic, slice_width_valid, Hw. Qed.
Print Assumptions C07_out_of_range_panics.

(** Copying a 32-value block moves exactly those 32 values (used by compression). *)
Theorem C07_copy_block : forall w dst other from to, slice_width w -> wf_blocks dst -> wf_blocks other ->
  from * 32 < length other * (256 / w) -> to * 32 < length dst * (256 / w) ->
  exists dst', copy_block_from w dst other from to = Ok dst' /\ wf_blocks dst' /\ length dst' = length dst /\
    (forall t, t < 32 -> get_value w dst' (32 * to + t) = get_value w other (32 * from + t)) /\
    (forall p, p < length dst * (256 / w) -> p / 32 <> to -> get_value w dst' p = get_value w dst p).
Proof.
  intros w dst other from to Hw Hd Ho Hf Ht. pose proof (slice_width_valid w Hw) as Hw'.
  destruct (copy_block_from_ok w dst other from to Hw' Hd Ho Hf Ht) as (dst' & E & W & L & C & F).
  exists dst'. split; [exact E|]. split; [exact W|]. split; [exact L|]. split.
  - intros t Htt. rewrite !get_value_ok; try assumption; [rewrite C by assumption; reflexivity| |]; rewrite ?L; unfold sbsize;
    destruct Hw as [->|[->|[->| ->]]];
    [change (256 / 1) with 256 in *|change (256 / 2) with 128 in *|change (256 / 4) with 64 in *|change (256 / 8) with 32 in *
    |change (256 / 1) with 256 in *|change (256 / 2) with 128 in *|change (256 / 4) with 64 in *|change (256 / 8) with 32 in *]; lia.
  - intros p Hp Hne. rewrite !get_value_ok by (try assumption; rewrite ?L; assumption). rewrite F by assumption. reflexivity.
Qed.
Print Assumptions C07_copy_block.

Example C07_instance : sum_masked 2 [bb_ones] 1 13 = Ok 9%N /\
  (let* d := copy_block_from 2 [bb_zeros] [bb_ones] 3 1 in let* a := get_value 2 d 31 in let* b := get_value 2 d 32 in
   let* c := get_value 2 d 63 in let* e := get_value 2 d 64 in Ok [a; b; c; e]) = Ok [0; 3; 3; 0]%N.
Proof. split; vm_compute; reflexivity. Qed.

(* ---- C08 ---- *)

Theorem C08_count_ones_and : forall a b, wf_blocks a -> wf_blocks b -> length a = length b ->
  (N.of_nat (length a) < 2 ^ 40)%N ->
  count_ones_and a b = Ok (countf (length a * 256) (fun i => bbit a i && bbit b i)).
Proof.
  intros a b Ha Hb Hl Hn. unfold count_ones_and. rewrite bitvec_count_and_uc_ok by assumption.
  rewrite <- Hl, Nat.min_id. reflexivity.
Qed.
Print Assumptions C08_count_ones_and.

(** Lengths differing: only the common prefix is counted. *)
Theorem C08_count_ones_and_prefix : forall a b, wf_blocks a -> wf_blocks b -> (N.of_nat (length a) < 2 ^ 40)%N ->
  count_ones_and a b = Ok (countf (Nat.min (length a) (length b) * 256) (fun i => bbit a i && bbit b i)).
Proof. exact bitvec_count_and_uc_ok. Qed.
Print Assumptions C08_count_ones_and_prefix.

(** In-place OR used to accumulate bin masks: bitwise union. *)
Theorem C08_or_assign : forall a b, wf_blocks a -> wf_blocks b -> length a = length b ->
  wf_blocks (or_assign a b) /\ length (or_assign a b) = length a /\ forall t, bbit (or_assign a b) t = bbit a t || bbit b t.
Proof.
  intros a b Ha Hb Hl. destruct (or_assign_ok a b Ha Hb) as (W & L & B). split; [exact W|]. split; [exact L|].
  intros t. rewrite B. destruct (Nat.ltb_spec t (length a * 256)) as [|Hge]; [reflexivity|].
  rewrite (bbit_high b) by (try assumption; lia). reflexivity.
Qed.
Print Assumptions C08_or_assign.

Example C08_instance : count_ones_and (repeat bb_ones 19) (bb_zeros :: repeat bb_ones 18) = Ok 4608%N.
Proof. vm_compute. reflexivity. Qed.

(* ---- C09 ---- *)

Theorem C09_sum_all_masked2 : forall w slice nm fm vals, slice_width w ->
  wf_blocks slice -> wf_blocks nm -> wf_blocks fm -> length nm = length fm -> length slice = length nm * w ->
  (N.of_nat (length slice) < 2 ^ 27)%N -> holds w slice (length nm * 256) vals ->
  sum_all_masked2 w slice nm fm = Ok (masked_sum (length nm * 256) (fun i => bbit nm i && bbit fm i) vals).
Proof.
  intros w slice nm fm vals Hw Hs Hn Hf E1 E2 Hb Hh.
  rewrite sum_all_masked2_ok by (try assumption; try apply slice_width_valid; try assumption; rewrite <- E1; assumption).
  f_equal. apply masked_sum_ext; [reflexivity|].
  apply (holds_slice_val w slice (length nm * 256)); try assumption. apply fits; assumption.
Qed.
Print Assumptions C09_sum_all_masked2.

(** Mismatched lengths panic instead of reading out of bounds. *)
Theorem C09_length_mismatch_panics : forall w slice nm fm,
  length slice <> length nm * w \/ length slice <> length fm * w -> sum_all_masked2 w slice nm fm = Panic.
Proof.
  intros w slice nm fm H. unfold sum_all_masked2.
  destruct (Nat.eqb_spec (length slice) (length nm * w)) as [E|E]; cbn [rassert rbind]; [|reflexivity].
  destruct (Nat.eqb_spec (length slice) (length fm * w)); cbn [rassert rbind]; [|reflexivity]. destruct H; contradiction.
Qed.
Print Assumptions C09_length_mismatch_panics.

Example C09_instance : slice_width 8 /\ sum_all_masked2 8 (repeat bb_ones 8) [bb_ones] [bb_from 4 7] = Ok 765%N.
Proof. split; [unfold slice_width; auto|vm_compute; reflexivity]. Qed.

(* ---- C10 ---- *)

(** Position [p] of the compressed vectors stands for position [expand_pos ix p] of the full vector, where [ix j]
    is the [j]-th u32 of the index list. *)
Theorem C10_count_ones_and_compr : forall a idxs other, wf_blocks a -> wf_blocks idxs -> wf_blocks other ->
  length a = length idxs -> (N.of_nat (length a) < 2 ^ 40)%N -> (N.of_nat (length other) * 8 <= 2 ^ 31)%N ->
  (forall j, j < length idxs * 8 -> N.to_nat (u32_at idxs j) < length other * 8) ->
  count_ones_and_compr a idxs other =
  Ok (countf (length a * 256) (fun p => bbit a p && bbit other (expand_pos (fun j => N.to_nat (u32_at idxs j)) p))).
Proof.
  intros a idxs other Ha Hx Ho Hl Hn Hb Hix. unfold count_ones_and_compr.
  rewrite (proj2 (idx_check_ok idxs other Hx Ho)) by assumption. cbn [rassert rbind].
  rewrite bitvec_count_and_c_ok by assumption. rewrite <- Hl, Nat.min_id. reflexivity.
Qed.
Print Assumptions C10_count_ones_and_compr.

Theorem C10_sum_all_masked2_compr : forall w slice idxs nm fm vals, slice_width w ->
  wf_blocks slice -> wf_blocks idxs -> wf_blocks nm -> wf_blocks fm ->
  length idxs = length nm -> length slice = length nm * w ->
  (N.of_nat (length slice) < 2 ^ 27)%N -> (N.of_nat (length fm) * 8 <= 2 ^ 31)%N ->
  (forall j, j < length idxs * 8 -> N.to_nat (u32_at idxs j) < length fm * 8) ->
  holds w slice (length nm * 256) vals ->
  sum_all_masked2_compr w slice idxs nm fm =
  Ok (masked_sum (length nm * 256)
        (fun p => bbit nm p && bbit fm (expand_pos (fun j => N.to_nat (u32_at idxs j)) p)) vals).
Proof.
  intros w slice idxs nm fm vals Hw Hs Hx Hn Hf E1 E2 Hb Hbf Hix Hh.
  rewrite sum_all_masked2_compr_ok by (try assumption; try apply slice_width_valid; try assumption; rewrite E1; assumption).
  f_equal. apply masked_sum_ext; [reflexivity|].
  apply (holds_slice_val w slice (length nm * 256)); try assumption. apply fits; assumption.
Qed.
Print Assumptions C10_sum_all_masked2_compr.

(** An out-of-range index panics (it never becomes an out-of-bounds gather). *)
Theorem C10_bad_index_panics : forall w slice a idxs nm fm, wf_blocks idxs -> wf_blocks fm ->
  (exists j, j < length idxs * 8 /\ length fm * 8 <= N.to_nat (u32_at idxs j)) ->
  count_ones_and_compr a idxs fm = Panic /\ sum_all_masked2_compr w slice idxs nm fm = Panic.
Proof.
  intros w slice a idxs nm fm Hx Hf (j & Hj & Hge).
  assert (E : forallb (fun i => N.to_nat i <? block_len 4 fm) (words 4 (bytes_of idxs)) = false).
  { destruct (forallb _ _) eqn:E; [|reflexivity]. apply idx_check_ok in E; try assumption. specialize (E j Hj). unfold ixw in E. lia. }
  unfold count_ones_and_compr, sum_all_masked2_compr. rewrite E. cbn [rassert rbind]. split; [reflexivity|].
  destruct (_ =? _); cbn [rassert rbind]; [|reflexivity]. destruct (_ =? _); reflexivity.
Qed.
Print Assumptions C10_bad_index_panics.

Example C10_instance :
  count_ones_and_compr [bb_ones] [bb_from_slice 4 [8; 8; 8; 8; 8; 8; 8; 3]%N] [bb_ones; bb_from 4 5] = Ok 46%N /\
  sum_all_masked2_compr 1 [bb_ones] [bb_from_slice 4 [8; 3]%N] [bb_ones] [bb_ones; bb_from 4 5] = Ok 226%N.
Proof. split; vm_compute; reflexivity. Qed.

(* ---- C11 ---- *)

Theorem C11_count_and2_c00 : forall b1 b2, wf_blocks b1 -> wf_blocks b2 -> length b1 <= length b2 ->
  (N.of_nat (length b1) < 2 ^ 40)%N ->
  count_and2_c00 b1 b2 = Ok (countf (length b1 * 256) (fun p => bbit b1 p && bbit b2 p)).
Proof. exact count_and2_c00_ok. Qed.
Print Assumptions C11_count_and2_c00.

(** [count_and2_c00] does not compare the lengths: a shorter second argument is read out of bounds. *)
Theorem C11_count_and2_c00_short_second_is_ub : count_and2_c00 [bb_ones; bb_ones] [bb_ones] = UB.
Proof. vm_compute. reflexivity. Qed.

Theorem C11_count_and2_c10 : forall idxs b1 b2, wf_blocks b1 -> wf_blocks idxs -> wf_blocks b2 -> length b1 = length idxs ->
  (forall j, j < length idxs * 8 -> N.to_nat (u32_at idxs j) < length b2 * 8) ->
  (N.of_nat (length b2) * 8 <= 2 ^ 31)%N -> (N.of_nat (length b1) < 2 ^ 40)%N ->
  count_and2_c10 idxs b1 b2 =
  Ok (countf (length b1 * 256) (fun p => bbit b1 p && bbit b2 (expand_pos (fun j => N.to_nat (u32_at idxs j)) p))).
Proof. intros idxs b1 b2 H1 H2 H3 Hl Hix. apply count_and2_c10_ok; try assumption. lia. Qed.
Print Assumptions C11_count_and2_c10.

Theorem C11_sum_and3_c00 : forall w slice nm fm vals, slice_width w ->
  wf_blocks slice -> wf_blocks nm -> wf_blocks fm -> length nm = length fm -> length slice = length nm * w ->
  (N.of_nat (length slice) < 2 ^ 27)%N -> holds w slice (length nm * 256) vals ->
  nth w [Panic; sum_and3_w1_c00 slice nm fm; sum_and3_w2_c00 slice nm fm; Panic; sum_and3_w4_c00 slice nm fm;
         Panic; Panic; Panic; sum_and3_w8_c00 slice nm fm] Panic =
  Ok (masked_sum (length nm * 256) (fun i => bbit nm i && bbit fm i) vals).
Proof.
  intros w slice nm fm vals Hw Hs Hn Hf E1 E2 Hb Hh.
  pose proof (sum_and3_c00_ok w slice nm fm (slice_width_valid w Hw) Hs Hn Hf E2) as G. rewrite <- E1 in G. specialize (G E2 Hb).
  rewrite (masked_sum_ext _ _ (fun i => bbit nm i && bbit fm i) _ vals) in G; [|reflexivity|].
  - rewrite <- G. destruct Hw as [->|[->|[->| ->]]]; reflexivity.
  - apply (holds_slice_val w slice (length nm * 256)); try assumption. apply fits; assumption.
Qed.
Print Assumptions C11_sum_and3_c00.

Theorem C11_sum_and3_c10 : forall w slice idxs nm fm vals, slice_width w ->
  wf_blocks slice -> wf_blocks idxs -> wf_blocks nm -> wf_blocks fm ->
  length idxs = length nm -> length slice = length nm * w ->
  (N.of_nat (length slice) < 2 ^ 27)%N -> (N.of_nat (length fm) * 8 <= 2 ^ 31)%N ->
  (forall j, j < length idxs * 8 -> N.to_nat (u32_at idxs j) < length fm * 8) ->
  holds w slice (length nm * 256) vals ->
  nth w [Panic; sum_and3_w1_c10 slice idxs nm fm; sum_and3_w2_c10 slice idxs nm fm; Panic; sum_and3_w4_c10 slice idxs nm fm;
         Panic; Panic; Panic; sum_and3_w8_c10 slice idxs nm fm] Panic =
  Ok (masked_sum (length nm * 256)
        (fun p => bbit nm p && bbit fm (expand_pos (fun j => N.to_nat (u32_at idxs j)) p)) vals).
Proof.
  intros w slice idxs nm fm vals Hw Hs Hx Hn Hf E1 E2 Hb Hbf Hix Hh.
  assert (E3 : length slice = length idxs * w) by (rewrite E1; assumption).
  pose proof (sum_and3_c10_ok w slice idxs nm fm (slice_width_valid w Hw) Hs Hx Hn Hf E3 E2 Hix Hb Hbf) as G.
  rewrite (masked_sum_ext _ _ (gmask nm fm (ixw idxs)) _ vals) in G; [|reflexivity|].
  - unfold gmask, ixw in G. rewrite <- G. destruct Hw as [->|[->|[->| ->]]]; reflexivity.
  - apply (holds_slice_val w slice (length nm * 256)); try assumption. apply fits; assumption.
Qed.
Print Assumptions C11_sum_and3_c10.

(** Both sets compressed: elements of the first set (position [p] stands for element [expand_pos ix1 p]) that belong to
    the second. *)
Theorem C11_count_and2_c11 : forall idxs1 bset1 idxs2 bset2,
  wf_blocks idxs1 -> wf_blocks bset1 -> wf_blocks idxs2 -> wf_blocks bset2 ->
  length idxs1 = length bset1 -> length idxs2 = length bset2 ->
  increasing_blocks idxs1 bset1 -> increasing_blocks idxs2 bset2 ->
  count_and2_c11 idxs1 bset1 idxs2 bset2 =
  Ok (countf (length bset1 * 256)
        (fun p => bbit bset1 p && in_compr_set idxs2 bset2 (expand_pos (fun j => N.to_nat (u32_at idxs1 j)) p))).
Proof. exact count_and2_c11_ok. Qed.
Print Assumptions C11_count_and2_c11.

Theorem C11_sum_and3_c11 : forall w bsl idxs1 bset1 idxs2 bset2 vals, slice_width w -> wf_blocks bsl ->
  wf_blocks idxs1 -> wf_blocks bset1 -> wf_blocks idxs2 -> wf_blocks bset2 ->
  length idxs1 = length bset1 -> length idxs2 = length bset2 -> length bsl = length bset1 * w ->
  increasing_blocks idxs1 bset1 -> increasing_blocks idxs2 bset2 ->
  holds w bsl (length bset1 * 256) vals ->
  sum_and3_c11 w bsl idxs1 bset1 idxs2 bset2 =
  Ok (masked_sum (length bset1 * 256)
        (fun p => bbit bset1 p && in_compr_set idxs2 bset2 (expand_pos (fun j => N.to_nat (u32_at idxs1 j)) p)) vals).
Proof.
  intros w bsl idxs1 bset1 idxs2 bset2 vals Hw Hs Hx1 Hb1 Hx2 Hb2 L1 L2 L3 I1 I2 Hh.
  rewrite sum_and3_c11_ok by (try assumption; try apply slice_width_valid; try assumption; lia).
  f_equal. apply masked_sum_ext; [reflexivity|].
  apply (holds_slice_val w bsl (length bset1 * 256)); try assumption. apply fits; assumption.
Qed.
Print Assumptions C11_sum_and3_c11.

Lemma incr_small idxs bset : length idxs = 1 ->
  forallb (fun j => (u32_at bset j =? 0)%N || forallb (fun i => (u32_at idxs i <? u32_at idxs j)%N) (seq 0 j)) (seq 0 8) = true ->
  increasing_blocks idxs bset.
Proof.
  intros Hl H i j Hij Hj Hne. rewrite forallb_forall in H. specialize (H j). rewrite in_seq, orb_true_iff, N.eqb_eq in H.
  destruct H as [H|H]; [lia|contradiction|]. rewrite forallb_forall in H. specialize (H i). rewrite in_seq, N.ltb_lt in H. apply H. lia.
Qed.
(** Indices {2, 5, 9} and {5, 9} with zero padding. *)
Example C11_instance :
  let i1 := [bb_from_slice 4 [2; 5; 9]%N] in let b1 := [bb_from_slice 4 [1; 6; 255]%N] in
  let i2 := [bb_from_slice 4 [5; 9]%N] in let b2 := [bb_from_slice 4 [3; 15]%N] in
  increasing_blocks i1 b1 /\ increasing_blocks i2 b2 /\
  count_and2_c11 i1 b1 i2 b2 = Ok 5%N /\ sum_and3_c11 2 [bb_ones; bb_ones] i1 b1 i2 b2 = Ok 15%N.
Proof.
  cbv zeta. split; [apply incr_small; [reflexivity|vm_compute; reflexivity]|].
  split; [apply incr_small; [reflexivity|vm_compute; reflexivity]|]. split; vm_compute; reflexivity.
Qed.
