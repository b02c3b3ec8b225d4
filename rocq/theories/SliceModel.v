(** Model of the bit-sliced arrays: slice_store.rs:780-1006 and src/bitslice.rs.  Definitions only.
    The scaled (f32) accessors are in DiscrModel.v. *)
From Verif Require Import Base BitModel SimdModel.

(** The widths with a layout type: slice_store.rs:1022-1046, bitslice.rs:34-47. *)
Definition valid_width (w : nat) : bool := (w =? 1) || (w =? 2) || (w =? 4) || (w =? 8).

(** slice_store.rs:785, bitslice.rs:21. *)
Definition superblock_width (w : nat) : nat := (BITBLOCK_BYTES / 4) / w.
(** slice_store.rs:788, bitslice.rs:24. *)
Definition nunique_values (w : nat) : N := (2 ^ N.of_nat w)%N.

(** slice_store.rs:822-826, bitslice.rs:120-124 *)
Definition get_indices (w : nat) (blockpos_u32 : nat) : nat * nat :=
  (blockpos_u32 / superblock_width w, blockpos_u32 mod superblock_width w).

(** slice_store.rs:828-833 *)
Definition get_bit_indices (w : nat) (index : nat) : nat * nat * N :=
  let '(sb, i) := get_indices w (get_blockpos 4 index) in
  (sb, i, get_bitpos 4 index).

(** slice_store.rs:836-838, bitslice.rs:141-143 *)
Definition bitslice_blockpos_u32 (w : nat) (superblock_i superblock_j ln : nat) : nat :=
  superblock_i * 8 + ln * superblock_width w + superblock_j.

(** slice_store.rs:840-849 [get_value]. *)
Definition get_value (w : nat) (vec : blocks) (index : nat) : res N :=
  let '(sb, i, j) := get_bit_indices w index in
  foldM (fun r k =>
           let* bits := rd 4 (bytes_of vec) (bitslice_blockpos_u32 w sb i k) in
           Ok (set_bit 8 r (N.of_nat k) (get_bit bits j)))
        (seq 0 w) 0%N.

(** slice_store.rs:863-871 [set_value]. *)
Definition set_value (w : nat) (vec : blocks) (index : nat) (value : N) : res blocks :=
  let '(sb, i, j) := get_bit_indices w index in
  let* m :=
    foldM (fun m k =>
             let p := bitslice_blockpos_u32 w sb i k in
             let* bits := rd 4 m p in
             wr 4 m p (set_bit 32 bits j (get_bit value (N.of_nat k))))
          (seq 0 w) (bytes_of vec) in
  Ok (to_blocks (length vec) m).

(** slice_store.rs:899-921 [copy_block_from]: raw pointer access (guarded only by debug assertions). *)
Definition copy_block_from (w : nat) (dst other : blocks) (from to : nat) : res blocks :=
  let '(from_sb, from_i) := get_indices w from in
  let '(to_sb, to_i) := get_indices w to in
  let* m :=
    foldM (fun m k =>
             let* from_block := rd_uc 4 (bytes_of other) (bitslice_blockpos_u32 w from_sb from_i k) in
             wr_uc 4 m (bitslice_blockpos_u32 w to_sb to_i k) from_block)
          (seq 0 w) (bytes_of dst) in
  Ok (to_blocks (length dst) m).

(** slice_store.rs:923-939 [sum_masked_unsafe] (u32 arithmetic; at most 32*255 so it cannot wrap). *)
Definition sum_masked_unsafe (w : nat) (vec : blocks) (index : nat) (mask : N) : res N :=
  let '(sb, i) := get_indices w index in
  foldM (fun sum k =>
           let* block := rd_uc 4 (bytes_of vec) (bitslice_blockpos_u32 w sb i k) in
           let count := popcount (N.land block mask) in
           Ok (sum + count * N.shiftl 1 (N.of_nat k))%N)
        (seq 0 w) 0%N.

(** slice_store.rs:941-944 [sum_masked]. *)
Definition sum_masked (w : nat) (vec : blocks) (index : nat) (mask : N) : res N :=
  let* _ := rassert (index <? block_len 4 vec / w) in
  sum_masked_unsafe w vec index mask.

(** slice_store.rs:961-974: table of kernels indexed by width - 1. *)
Definition sum_all_masked2_unsafe (w : nat) (slice nm fm : blocks) : res N :=
  let fs := [btslce_summ1_uc; btslce_summ2_uc; btslce_summ1_uc; btslce_summ4_uc;
             btslce_summ1_uc; btslce_summ1_uc; btslce_summ1_uc; btslce_summ8_uc] in
  let* f := idx fs (w - 1) in
  f slice nm fm.

(** slice_store.rs:976-980 *)
Definition sum_all_masked2 (w : nat) (slice nm fm : blocks) : res N :=
  let* _ := rassert (length slice =? length nm * w) in
  let* _ := rassert (length slice =? length fm * w) in
  sum_all_masked2_unsafe w slice nm fm.

(** slice_store.rs:982-997 *)
Definition sum_all_masked2_compr_unsafe (w : nat) (slice idxs nm fm : blocks) : res N :=
  let fs := [btslce_summ1_c; btslce_summ2_c; btslce_summ1_c; btslce_summ4_c;
             btslce_summ1_c; btslce_summ1_c; btslce_summ1_c; btslce_summ8_c] in
  let* f := idx fs (w - 1) in
  f slice idxs nm fm.

(** slice_store.rs:999-1005 *)
Definition sum_all_masked2_compr (w : nat) (slice idxs nm fm : blocks) : res N :=
  let m := block_len 4 fm in
  let* _ := rassert (length slice =? length idxs * w) in
  let* _ := rassert (length slice =? length nm * w) in
  let* _ := rassert (forallb (fun i => N.to_nat i <? m) (words 4 (bytes_of idxs))) in
  sum_all_masked2_compr_unsafe w slice idxs nm fm.

(* - src/bitslice.rs: the same layout behind get_block / get_block_mut ------------------------------ *)

(** bitslice.rs:163-167 [get_block]. *)
Definition bsl_get_block (w : nat) (vec : blocks) (blockpos_u32 ln : nat) : res N :=
  let '(sb, i) := get_indices w blockpos_u32 in
  rd 4 (bytes_of vec) (bitslice_blockpos_u32 w sb i ln).
(** bitslice.rs:146-150 [get_block_unchecked]. *)
Definition bsl_get_block_uc (w : nat) (vec : blocks) (blockpos_u32 ln : nat) : res N :=
  let '(sb, i) := get_indices w blockpos_u32 in
  rd_uc 4 (bytes_of vec) (bitslice_blockpos_u32 w sb i ln).
(** bitslice.rs:178-187 [get_value]. *)
Definition bsl_get_value (w : nat) (vec : blocks) (index : nat) : res N :=
  foldM (fun r ln =>
           let* bits := bsl_get_block w vec (get_blockpos 4 index) ln in
           Ok (set_bit 8 r (N.of_nat ln) (get_bit bits (get_bitpos 4 index))))
        (seq 0 w) 0%N.
(** bitslice.rs:189-197 [set_value] through [get_block_mut] (171-176). *)
Definition bsl_set_value (w : nat) (vec : blocks) (index : nat) (value : N) : res blocks :=
  let* m :=
    foldM (fun m ln =>
             let '(sb, i) := get_indices w (get_blockpos 4 index) in
             let p := bitslice_blockpos_u32 w sb i ln in
             let* bits := rd 4 m p in
             wr 4 m p (set_bit 32 bits (get_bitpos 4 index) (get_bit value (N.of_nat ln))))
          (seq 0 w) (bytes_of vec) in
  Ok (to_blocks (length vec) m).

(** bitslice.rs:101-105 [resize]. *)
Definition bsl_resize (w : nat) (vec : blocks) (nvalues : nat) : res blocks :=
  bs_resize vec (blocks_required_for nvalues * w).

(* - count_and_sum.rs:475-549: merge join of two compressed sets ----------------------------------- *)

(** count_and_sum.rs:505-528: the loop of [count_and2_c11] / [sum_and3_wx_c11].  [ld mask i1 ln] is the
    [@load] arm (543-551); [sums] holds one u64 per lane. [fuel] bounds [i1 + i2]. *)
Fixpoint c11_loop (fuel : nat) (ld : N -> nat -> nat -> res N) (w : nat)
         (idxs1 bset1 idxs2 bset2 : list N) (i1 i2 : nat) (sums : list N) : res (list N) :=
  match fuel with
  | O => OutOfFuel
  | S fuel' =>
    if (i1 <? length idxs1) && (i2 <? length idxs2) then
      let* ix1 := idx_uc idxs1 i1 in
      let* ix2 := idx_uc idxs2 i2 in
      if (ix1 <? ix2)%N then c11_loop fuel' ld w idxs1 bset1 idxs2 bset2 (S i1) i2 sums
      else if (ix2 <? ix1)%N then c11_loop fuel' ld w idxs1 bset1 idxs2 bset2 i1 (S i2) sums
      else
        let* m1 := idx_uc bset1 i1 in
        let* m2 := idx_uc bset2 i2 in
        let mask := N.land m1 m2 in
        let* sums' := foldM (fun ss ln =>
                               let* b := ld mask i1 ln in
                               let* s := idx_uc ss ln in
                               set_idx_uc ss ln (s + popcount b)%N) (seq 0 w) sums in
        c11_loop fuel' ld w idxs1 bset1 idxs2 bset2 (S i1) (S i2) sums'
    else Ok sums
  end.

(** count_and_sum.rs:490-535 [@body]. *)
Definition c11_body (ld : N -> nat -> nat -> res N) (w : nat) (idxs1 bset1 idxs2 bset2 : blocks) : res N :=
  let i1 := words 4 (bytes_of idxs1) in
  let i2 := words 4 (bytes_of idxs2) in
  let b1 := words 4 (bytes_of bset1) in
  let b2 := words 4 (bytes_of bset2) in
  let* _ := rassert (length i1 =? length b1) in
  let* _ := rassert (length i2 =? length b2) in
  let* sums := c11_loop (S (length i1 + length i2)) ld w i1 b1 i2 b2 0 0 (repeat 0%N w) in
  foldM (fun sum ln => let* s := idx sums ln in Ok (sum + N.shiftl 1 (N.of_nat ln) * s)%N) (seq 0 w) 0%N.

(** count_and_sum.rs:476-481 [count_and2_c11]. *)
Definition count_and2_c11 (idxs1 bset1 idxs2 bset2 : blocks) : res N :=
  c11_body (fun mask _ _ => Ok mask) 1 idxs1 bset1 idxs2 bset2.
(** count_and_sum.rs:483-488 [sum_and3_w{1,2,4,8}_c11]: the bitslice is indexed by [i1]. *)
Definition sum_and3_c11 (w : nat) (bsl idxs1 bset1 idxs2 bset2 : blocks) : res N :=
  c11_body (fun mask i1 ln => let* b := bsl_get_block_uc w bsl i1 ln in Ok (N.land b mask))
           w idxs1 bset1 idxs2 bset2.
