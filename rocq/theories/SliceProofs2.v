(** Proofs: block sums, block copies, or_assign, and the kernels of count_and_sum.rs. *)
From Verif Require Import Base BaseProofs BitModel BitSpec BitProofs BitProofs2 SimdModel SimdProofs SliceModel SliceSpec SliceProofs.

(* --- sum_masked --- *)

Lemma popcount_land_word k m i mask : wf_bytes m ->
  popcount (N.land (word k m i) mask) =
  sumf (k * 8) (fun t => b2n (bitAt m (i * (k * 8) + t) && N.testbit mask (N.of_nat t))).
Proof.
  intros Hm. rewrite (popcount_sum (k * 8)).
  - apply sumf_ext. intros t Ht. rewrite N.land_spec, testbit_word by assumption.
    destruct (Nat.ltb_spec t (k * 8)); [reflexivity|lia].
  - replace (N.of_nat (k * 8)) with (8 * N.of_nat k)%N by lia. apply land_lt, word_lt, Hm.
Qed.

Lemma val_block index t : t < 32 -> (32 * index + t) / 32 = index /\ (32 * index + t) mod 32 = t.
Proof. lia. Qed.

Lemma sum_masked_unsafe_ok w vec index mask : valid_width w = true -> wf_blocks vec ->
  index * 32 < length vec * sbsize w ->
  sum_masked_unsafe w vec index mask =
  Ok (masked_sum 32 (fun t => N.testbit mask (N.of_nat t)) (fun t => slice_val w (sbsize w) vec (32 * index + t))).
Proof.
  intros Hw Hv Hi. unfold sum_masked_unsafe, get_indices.
  set (sb := index / superblock_width w). set (i := index mod superblock_width w).
  assert (Hlt : forall k, k < w -> bitslice_blockpos_u32 w sb i k < length vec * 8).
  { intros k Hk. unfold sb, i. replace index with (index * 32 / 32) by lia. apply blockpos_lt; assumption. }
  assert (G : forall n, n <= w ->
    foldM (fun sum k => let* block := rd_uc 4 (bytes_of vec) (bitslice_blockpos_u32 w sb i k) in
             Ok (sum + popcount (N.land block mask) * N.shiftl 1 (N.of_nat k))%N) (seq 0 n) 0%N =
    Ok (sumf n (fun k => (2 ^ N.of_nat k * sumf 32 (fun t => b2n (bbit vec (256 * ((32 * index + t) / sbsize w) + sbsize w * k + (32 * index + t) mod sbsize w) && N.testbit mask (N.of_nat t))))%N))).
  { induction n as [|n IH]; intros Hn; [reflexivity|].
    rewrite seq_S, foldM_app, IH by lia. cbn [rbind foldM Nat.add].
    rewrite rd_uc_lt by (rewrite (len_div _ _ 8) by (try assumption; lia); apply Hlt; lia).
    cbn [rbind]. f_equal. rewrite sumf_S. f_equal. rewrite N.shiftl_1_l, N.mul_comm. f_equal.
    unfold bytes_of. rewrite popcount_land_word by (apply concat_wf; assumption). change (4 * 8) with 32.
    apply sumf_ext. intros t Ht. f_equal. f_equal. change (bitAt (concat vec)) with (bbit vec). f_equal.
    destruct (val_block index t Ht) as [E1 E2].
    rewrite <- (blockpos_bit w (32 * index + t) n t) by (try assumption; try lia). rewrite E1. fold sb i. lia. }
  rewrite (G w) by lia. f_equal. unfold masked_sum, slice_val.
  rewrite (sumf_ext w _ (fun k => sumf 32 (fun t => (2 ^ N.of_nat k * b2n (bbit vec (256 * ((32 * index + t) / sbsize w) + sbsize w * k + (32 * index + t) mod sbsize w)%nat && N.testbit mask (N.of_nat t)))%N))).
  2:{ intros k Hk. rewrite sumf_mul. reflexivity. }
  rewrite sumf_swap. apply sumf_ext. intros t Ht.
  destruct (N.testbit mask (N.of_nat t)).
  - apply sumf_ext. intros k Hk. rewrite andb_true_r. reflexivity.
  - apply sumf_zero. intros k Hk. rewrite andb_false_r. cbn [b2n]. lia.
Qed.

Lemma sum_masked_ok w vec index mask : valid_width w = true -> wf_blocks vec ->
  index * 32 < length vec * sbsize w ->
  sum_masked w vec index mask =
  Ok (masked_sum 32 (fun t => N.testbit mask (N.of_nat t)) (fun t => slice_val w (sbsize w) vec (32 * index + t))).
Proof.
  intros Hw Hv Hi. unfold sum_masked.
  assert (Hr : (index <? block_len 4 vec / w) = true).
  { apply Nat.ltb_lt. unfold block_len. change (BITBLOCK_BYTES / 4) with 8.
    apply valid_width_cases in Hw. destruct Hw as [->|[->|[->| ->]]].
    - change (sbsize 1) with 256 in Hi. lia.
    - change (sbsize 2) with 128 in Hi. lia.
    - change (sbsize 4) with 64 in Hi. lia.
    - change (sbsize 8) with 32 in Hi. lia. }
  rewrite Hr. cbn [rassert rbind]. apply sum_masked_unsafe_ok; assumption.
Qed.

Lemma sum_masked_panic w vec index mask : valid_width w = true -> wf_blocks vec ->
  length vec * sbsize w <= index * 32 -> sum_masked w vec index mask = Panic.
Proof.
  intros Hw Hv Hi. unfold sum_masked.
  assert (Hr : (index <? block_len 4 vec / w) = false).
  { apply Nat.ltb_ge. unfold block_len. change (BITBLOCK_BYTES / 4) with 8.
    apply valid_width_cases in Hw. destruct Hw as [->|[->|[->| ->]]].
    - change (sbsize 1) with 256 in Hi. lia.
    - change (sbsize 2) with 128 in Hi. lia.
    - change (sbsize 4) with 64 in Hi. lia.
    - change (sbsize 8) with 32 in Hi. lia. }
  rewrite Hr. reflexivity.
Qed.

(* --- copy_block_from --- *)

Lemma copy_block_from_ok w dst other from to : valid_width w = true -> wf_blocks dst -> wf_blocks other ->
  from * 32 < length other * sbsize w -> to * 32 < length dst * sbsize w ->
  exists dst', copy_block_from w dst other from to = Ok dst' /\ wf_blocks dst' /\ length dst' = length dst /\
    (forall t, t < 32 -> slice_val w (sbsize w) dst' (32 * to + t) = slice_val w (sbsize w) other (32 * from + t)) /\
    (forall p, p / 32 <> to -> slice_val w (sbsize w) dst' p = slice_val w (sbsize w) dst p).
Proof.
  intros Hw Hd Ho Hf Ht. unfold copy_block_from, get_indices.
  set (fp := bitslice_blockpos_u32 w (from / superblock_width w) (from mod superblock_width w)).
  set (tp := bitslice_blockpos_u32 w (to / superblock_width w) (to mod superblock_width w)).
  assert (Hfp : forall k, k < w -> fp k < length other * 8).
  { intros k Hk. unfold fp. replace from with (from * 32 / 32) by lia. apply blockpos_lt; assumption. }
  assert (Htp : forall k, k < w -> tp k < length dst * 8).
  { intros k Hk. unfold tp. replace to with (to * 32 / 32) by lia. apply blockpos_lt; assumption. }
  assert (Hlen : length (bytes_of dst) = length dst * 32) by (apply concat_len; assumption).
  assert (Hinj : forall k l, k < w -> l < w -> tp k = tp l -> k = l).
  { intros k l Hk Hl E. destruct (width_sb w Hw) as (A & B & C & D). unfold tp, bitslice_blockpos_u32 in E. nia. }
  assert (G : forall n, n <= w -> exists m',
    foldM (fun m k => let* from_block := rd_uc 4 (bytes_of other) (fp k) in wr_uc 4 m (tp k) from_block)
          (seq 0 n) (bytes_of dst) = Ok m' /\ wf_bytes m' /\ length m' = length dst * 32 /\
    (forall k t, k < n -> t < 32 -> bitAt m' (32 * tp k + t) = bbit other (32 * fp k + t)) /\
    (forall t, (forall k, k < n -> t / 32 <> tp k) -> bitAt m' t = bbit dst t)).
  { induction n as [|n IH]; intros Hn.
    - exists (bytes_of dst). split; [reflexivity|]. split; [apply concat_wf; assumption|]. split; [assumption|].
      split; [intros; lia|reflexivity].
    - destruct IH as (m' & E & Hm' & Hl' & Hset & Hframe); [lia|].
      rewrite seq_S, foldM_app, E. cbn [rbind foldM Nat.add].
      rewrite rd_uc_lt by (rewrite (len_div _ _ 8) by (try assumption; lia); apply Hfp; lia). cbn [rbind].
      rewrite wr_uc_lt by (rewrite Hl'; replace (length dst * 32 / 4) with (length dst * 8) by lia; apply Htp; lia).
      cbn [rbind].
      assert (Hfit : tp n * 4 + 4 <= length m') by (rewrite Hl'; specialize (Htp n); lia).
      eexists; split; [reflexivity|]. split; [apply put_word_wf; assumption|]. split; [rewrite put_word_length by assumption; assumption|].
      unfold bytes_of. split.
      + intros k t Hk Htt. rewrite bitAt_put_word by assumption. change (4 * 8) with 32.
        destruct (Nat.eq_dec k n) as [->|Hne].
        * destruct (Nat.leb_spec (tp n * 32) (32 * tp n + t)), (Nat.ltb_spec (32 * tp n + t) (tp n * 32 + 32)); cbn [andb]; try lia.
          rewrite testbit_bs_word by assumption. change (4 * 8) with 32.
          destruct (Nat.ltb_spec (32 * tp n + t - tp n * 32) 32); [|lia]. f_equal. lia.
        * assert (tp k <> tp n) by (intros Ee; apply Hne, Hinj; try assumption; lia).
          destruct (Nat.leb_spec (tp n * 32) (32 * tp k + t)), (Nat.ltb_spec (32 * tp k + t) (tp n * 32 + 32)); cbn [andb]; try lia;
            apply Hset; lia.
      + intros t Htt. rewrite bitAt_put_word by assumption. change (4 * 8) with 32.
        assert (t / 32 <> tp n) by (apply Htt; lia).
        destruct (Nat.leb_spec (tp n * 32) t), (Nat.ltb_spec t (tp n * 32 + 32)); cbn [andb]; try lia;
          apply Hframe; intros k Hk; apply Htt; lia. }
  destruct (G w) as (m' & E & Hm' & Hl' & Hset & Hframe); [lia|]. rewrite E. cbn [rbind].
  eexists; split; [reflexivity|]. split; [apply to_blocks_wf; assumption|]. split; [apply to_blocks_length|].
  split.
  - intros t Htt. unfold slice_val. apply sumf_ext. intros k Hk. do 2 f_equal. unfold bbit at 1.
    rewrite concat_to_blocks by assumption.
    destruct (val_block from t Htt) as [Ef Ef2]. destruct (val_block to t Htt) as [Et Et2].
    rewrite <- (blockpos_bit w (32 * to + t) k t), <- (blockpos_bit w (32 * from + t) k t) by (try assumption; lia).
    rewrite Ef, Et. apply Hset; assumption.
  - intros p Hp. unfold slice_val. apply sumf_ext. intros k Hk. do 2 f_equal. unfold bbit at 1.
    rewrite concat_to_blocks by assumption. apply Hframe. intros l Hl El. apply Hp.
    rewrite <- (blockpos_bit w p k (p mod 32)) in El by (try assumption; reflexivity).
    assert (E2 : bitslice_blockpos_u32 w (p / 32 / superblock_width w) (p / 32 mod superblock_width w) k = tp l) by lia.
    clear El. unfold tp, bitslice_blockpos_u32 in E2. destruct (width_sb w Hw) as (A & B & C & D).
    set (s := superblock_width w) in *.
    pose proof (Nat.mod_upper_bound (p / 32) s). pose proof (Nat.mod_upper_bound to s).
    pose proof (Nat.div_mod (p / 32) s). pose proof (Nat.div_mod to s).
    assert (p / 32 / s = to / s) by nia.
    assert (k = l) by nia. nia.
Qed.

(* --- or_assign --- *)

Lemma or_assign_ok : forall a b, wf_blocks a -> wf_blocks b ->
  wf_blocks (or_assign a b) /\ length (or_assign a b) = length a /\
  forall t, bbit (or_assign a b) t = bbit a t || ((t <? length a * 256) && bbit b t).
Proof.
  induction a as [|x a IH]; intros b Ha Hb.
  - cbn [or_assign length]. split; [assumption|]. split; [reflexivity|]. intros t. cbn. rewrite orb_false_r. reflexivity.
  - destruct b as [|y b]; cbn [or_assign].
    + split; [assumption|]. split; [reflexivity|]. intros t. unfold bbit at 3. cbn [concat]. rewrite bitAt_nil, andb_false_r, orb_false_r. reflexivity.
    + inversion Ha as [|? ? Hx Ha']; inversion Hb as [|? ? Hy Hb']; subst.
      destruct (IH b Ha' Hb') as (W & L & B).
      assert (Wz : wf_block (le_encode 32 (N.lor (le_decode x) (le_decode y)))).
      { split; [apply le_encode_length|apply le_encode_wf]. }
      split; [constructor; assumption|]. split; [cbn [length]; lia|].
      intros t. rewrite !bbit_cons by assumption. cbn [length].
      destruct (Nat.ltb_spec t 256).
      * rewrite bitAt_le_encode. destruct (Nat.ltb_spec t (32 * 8)); [|lia].
        rewrite N.lor_spec, !testbit_le_decode by (apply Hx || apply Hy). rewrite Nat2N.id || idtac.
        destruct (Nat.ltb_spec t (S (length a) * 256)); [reflexivity|lia].
      * rewrite B. destruct (Nat.ltb_spec (t - 256) (length a * 256)), (Nat.ltb_spec t (S (length a) * 256)); try lia; reflexivity.
Qed.
