(** Properties C01 - C05: bit storage. *)
From Verif Require Import Base BaseProofs BitModel BitSpec BitProofs BitProofs2.

(** The integer widths (in bytes) of the typed views u8 .. u128. *)
Definition int_bytes (k : nat) : Prop := k = 1 \/ k = 2 \/ k = 4 \/ k = 8 \/ k = 16.
Lemma int_bytes_q k : int_bytes k -> exists q, q * k = 32.
Proof. intros [->|[->|[->|[->| ->]]]]; [exists 32|exists 16|exists 8|exists 4|exists 2]; reflexivity. Qed.
Lemma int_bytes_pos k : int_bytes k -> 0 < k.
Proof. unfold int_bytes. lia. Qed.

(* ---- C01 ---- *)

(** C01, one 256-bit block. *)
Theorem C01_block_get_after_set : forall b i v, wf_block b -> i < 256 ->
  exists b', bb_set_bit b i v = Ok b' /\ wf_block b' /\
  forall j, j < 256 -> bb_get_bit b' j = if i =? j then Ok v else bb_get_bit b j.
Proof.
  intros b i v Hb Hi. destruct (bb_set_bit_ok b i v Hb Hi) as (b' & E & W & B).
  exists b'. split; [exact E|]. split; [exact W|]. intros j Hj.
  rewrite !bb_get_bit_ok, B by assumption. destruct (i =? j); reflexivity.
Qed.
Print Assumptions C01_block_get_after_set.

(** C01, arrays of blocks / bit vectors of any length. *)
Theorem C01_array_get_after_set : forall bs i v, wf_blocks bs -> i < length bs * 256 ->
  exists bs', bv_set_bit bs i v = Ok bs' /\ wf_blocks bs' /\ length bs' = length bs /\
  forall j, bv_get_bit bs' j = if i =? j then Ok v else bv_get_bit bs j.
Proof.
  intros bs i v Hb Hi. destruct (bv_set_bit_ok bs i v Hb Hi) as (bs' & E & W & L & B).
  exists bs'. split; [exact E|]. split; [exact W|]. split; [exact L|]. intros j.
  destruct (Nat.ltb_spec j (length bs * 256)) as [Hj|Hj].
  - rewrite !bv_get_bit_ok, B by (rewrite ?L; assumption). destruct (i =? j); reflexivity.
  - rewrite !bv_get_bit_panic by (rewrite ?L; assumption). destruct (Nat.eqb_spec i j); [lia|reflexivity].
Qed.
Print Assumptions C01_array_get_after_set.

(** C01, out-of-range positions panic, for reading and writing. *)
Theorem C01_out_of_range_panics : forall bs i v, length bs * 256 <= i ->
  bv_get_bit bs i = Panic /\ bv_set_bit bs i v = Panic /\ bv_enable_bit bs i = Panic.
Proof.
  intros bs i v H. split; [apply bv_get_bit_panic; exact H|]. split; [apply bv_set_bit_panic; exact H|].
  rewrite bv_enable_is_set. apply bv_set_bit_panic; exact H.
Qed.
Print Assumptions C01_out_of_range_panics.

(** C01, the typed views ([get::<T>] / [set::<T>]). *)
Theorem C01_typed_get_after_set : forall k bs i v, int_bytes k -> wf_blocks bs ->
  (v < 2 ^ (8 * N.of_nat k))%N -> i < block_len k bs ->
  exists bs', bs_set k bs i v = Ok bs' /\ wf_blocks bs' /\ length bs' = length bs /\
  forall j, j < block_len k bs -> bs_get k bs' j = if i =? j then Ok v else bs_get k bs j.
Proof.
  intros k bs i v Hk Hb Hv Hi. destruct (bs_set_ok k bs i v Hb (int_bytes_q k Hk) Hi) as (bs' & E & W & L & _).
  exists bs'. split; [exact E|]. split; [exact W|]. split; [exact L|]. intros j Hj.
  apply (bs_get_set k bs i v bs' j); try assumption. apply int_bytes_q; assumption.
Qed.
Print Assumptions C01_typed_get_after_set.

(** Non-trivial instance: two blocks, bit 300. *)
Example C01_instance : wf_blocks [bb_zeros; bb_ones] /\ 300 < length [bb_zeros; bb_ones] * 256 /\
  bv_get_bit [bb_zeros; bb_ones] 300 = Ok true /\
  (let* bs := bv_set_bit [bb_zeros; bb_ones] 300 false in
   let* a := bv_get_bit bs 300 in let* b := bv_get_bit bs 301 in Ok (a, b)) = Ok (false, true).
Proof.
  split; [repeat constructor; apply wf_bb_zeros || apply wf_bb_ones|].
  split; [cbn [length]; lia|]. split; vm_compute; reflexivity.
Qed.

(* ---- C02 ---- *)

Theorem C02_zero_bits : forall n, 0 < n ->
  exists bs, zero_bits n = Ok bs /\ wf_blocks bs /\ n <= length bs * 256 /\
  forall i, i < length bs * 256 -> bv_get_bit bs i = Ok false.
Proof.
  intros n Hn. destruct (zero_bits_ok n Hn) as (bs & E & W & L & B). exists bs.
  split; [exact E|]. split; [exact W|]. split; [rewrite L; apply blocks_required_ok|].
  intros i Hi. rewrite bv_get_bit_ok, B by assumption. reflexivity.
Qed.
Print Assumptions C02_zero_bits.

Theorem C02_one_bits : forall n, 0 < n ->
  exists bs, one_bits n = Ok bs /\ wf_blocks bs /\ n <= length bs * 256 /\
  forall i, i < length bs * 256 -> bv_get_bit bs i = Ok (i <? n).
Proof.
  intros n Hn. destruct (one_bits_ok n Hn) as (bs & E & W & L & B). exists bs.
  split; [exact E|]. split; [exact W|]. split; [rewrite L; apply blocks_required_ok|].
  intros i Hi. rewrite bv_get_bit_ok, B by assumption. reflexivity.
Qed.
Print Assumptions C02_one_bits.

Theorem C02_no_bits_panics : zero_bits 0 = Panic /\ one_bits 0 = Panic.
Proof. split; reflexivity. Qed.
Print Assumptions C02_no_bits_panics.

Example C02_instance : (let* bs := one_bits 300 in let* a := bv_get_bit bs 299 in let* b := bv_get_bit bs 300 in
                        Ok (length bs, a, b)) = Ok (2, true, false).
Proof. vm_compute. reflexivity. Qed.

(* ---- C03 ---- *)

Theorem C03_enable_bit : forall bs i, wf_blocks bs -> i < length bs * 256 ->
  exists bs', bitset_enable_bit bs i = Ok bs' /\ wf_blocks bs' /\ length bs' = length bs /\
  forall j, bitset_get_bit bs' j = if i =? j then Ok true else bitset_get_bit bs j.
Proof.
  intros bs i. unfold bitset_enable_bit, bitset_get_bit. rewrite bv_enable_is_set. exact (C01_array_get_after_set bs i true).
Qed.
Print Assumptions C03_enable_bit.

(** The full property demands of [disable_bit] that afterwards the bit is absent.  That is false of the code
    for every bitset and position: [disable_bit] always leaves the bit present. *)
Theorem C03_disable_bit_refuted : forall bs i, wf_blocks bs -> i < length bs * 256 ->
  exists bs', bitset_disable_bit bs i = Ok bs' /\ bitset_get_bit bs' i = Ok true.
Proof.
  intros bs i Hb Hi. rewrite bitset_disable_is_enable.
  destruct (C01_array_get_after_set bs i true Hb Hi) as (bs' & E & _ & _ & G). exists bs'. split; [exact E|].
  unfold bitset_get_bit. rewrite G, Nat.eqb_refl. reflexivity.
Qed.
Print Assumptions C03_disable_bit_refuted.

(** What remains true of [disable_bit]: the other positions are unchanged. *)
Theorem C03_disable_bit_frame_partial : forall bs i, wf_blocks bs -> i < length bs * 256 ->
  exists bs', bitset_disable_bit bs i = Ok bs' /\ forall j, j <> i -> bitset_get_bit bs' j = bitset_get_bit bs j.
Proof.
  intros bs i Hb Hi. rewrite bitset_disable_is_enable.
  destruct (C01_array_get_after_set bs i true Hb Hi) as (bs' & E & _ & _ & G). exists bs'. split; [exact E|].
  intros j Hj. unfold bitset_get_bit. rewrite G. destruct (Nat.eqb_spec i j); [congruence|reflexivity].
Qed.
Print Assumptions C03_disable_bit_frame_partial.

Example C03_instance : (let* bs := bitset_zeros 10 in let* bs := bitset_disable_bit bs 3 in bitset_get_bit bs 3) = Ok true.
Proof. vm_compute. reflexivity. Qed.

(* ---- C04 ---- *)

(** Integers of [k] bytes: item [i] of the iterator is item [i] of the array, zero after the end. *)
Theorem C04_from_iter : forall k n it, int_bytes k -> 0 < n -> Forall (fun v => (v < 2 ^ (8 * N.of_nat k))%N) it ->
  exists bs, from_iter k n it = Ok bs /\ wf_blocks bs /\ n <= block_len k bs /\
  forall i, i < block_len k bs -> bs_get k bs i = Ok (nth i it 0%N).
Proof.
  intros k n it Hk Hn Hit. pose proof (int_bytes_pos k Hk) as Hk0. destruct (int_bytes_q k Hk) as (q & Hq).
  assert (Hbits : 0 < n * k * 8) by nia. pose proof (blocks_required_pos _ Hbits) as Hpos.
  unfold from_iter. rewrite zero_blocks_ok by assumption. cbn [rbind].
  destruct (fill_from_iter_ok k (blocks_required_for (n * k * 8)) Hk0 (ex_intro _ q Hq) it) as (W & L & B).
  set (bs := fill_from_iter k (blocks_required_for (n * k * 8)) it) in *.
  exists bs. split; [reflexivity|]. split; [exact W|]. unfold block_len, BITBLOCK_BYTES.
  replace (32 / k) with q by (rewrite <- Hq, Nat.div_mul by lia; reflexivity). split.
  - rewrite L. destruct (blocks_required_ok (n * k * 8)) as [Hle _]. nia.
  - intros i Hi. rewrite bs_get_ok; [|assumption|exists q; assumption|unfold block_len, BITBLOCK_BYTES; rewrite <- Hq, Nat.div_mul by lia; assumption].
    f_equal. apply (bits_ext_lt (8 * N.of_nat k)).
    + apply word_lt, concat_wf, W.
    + destruct (Nat.ltb_spec i (length it)).
      * apply (proj1 (Forall_forall _ _) Hit). apply nth_In. assumption.
      * rewrite nth_overflow by assumption. apply N.neq_0_lt_0, N.pow_nonzero. lia.
    + intros t Ht. rewrite testbit_bs_word by assumption. destruct (Nat.ltb_spec t (k * 8)); [|lia].
      rewrite B. rewrite L in Hi. destruct (Nat.ltb_spec (i * (k * 8) + t) (blocks_required_for (n * k * 8) * 256)) as [|Hge]; [|nia].
      rewrite Nat.div_add_l by lia. rewrite (Nat.div_small t) by assumption. rewrite Nat.add_0_r.
      rewrite Nat.add_comm, Nat.mod_add, Nat.mod_small by lia. reflexivity.
Qed.
Print Assumptions C04_from_iter.

(** Booleans. *)
Theorem C04_from_bool_iter : forall n it, 0 < n ->
  exists bs, from_bool_iter n it = Ok bs /\ wf_blocks bs /\ n <= length bs * 256 /\
  forall i, i < length bs * 256 -> bv_get_bit bs i = Ok (nth i it false).
Proof.
  intros n it Hn. unfold from_bool_iter. rewrite zero_blocks_ok by (apply blocks_required_pos; assumption). cbn [rbind].
  destruct (fill_from_bool_iter_ok (blocks_required_for n) it) as (bs & E & W & L & B).
  exists bs. split; [exact E|]. split; [exact W|]. split; [rewrite L; apply blocks_required_ok|].
  intros i Hi. rewrite bv_get_bit_ok, B by assumption. rewrite L in Hi.
  destruct (Nat.ltb_spec i (blocks_required_for n * 256)); [reflexivity|lia].
Qed.
Print Assumptions C04_from_bool_iter.

Example C04_instance : (let* bs := from_iter 4 20 [7; 8; 9]%N in let* a := bs_get 4 bs 2 in let* b := bs_get 4 bs 3 in
   Ok (length bs, a, b)) = Ok (3%nat, 9%N, 0%N) /\ Forall (fun v => (v < 2 ^ (8 * N.of_nat 4))%N) [7; 8; 9]%N.
Proof. split; [vm_compute; reflexivity|repeat constructor]. Qed.

(* ---- C05 ---- *)

Theorem C05_blocks_required_for : forall n,
  n <= blocks_required_for n * 256 /\ forall k, n <= k * 256 -> blocks_required_for n <= k.
Proof. exact blocks_required_ok. Qed.
Print Assumptions C05_blocks_required_for.
Example C05_instance : map blocks_required_for [0; 1; 256; 257] = [0; 1; 1; 2].
Proof. reflexivity. Qed.
