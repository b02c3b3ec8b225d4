(** Model of src/bitblock.rs and src/bitset.rs: bit access, 256-bit blocks, arrays of blocks.
    Definitions only.

    A [BitBlock] is its array of 32 bytes; [BitBlocks] (and [&[BitBlock]]) is a list of blocks.
    [cast::<T>()] reinterprets the bytes as little-endian words of [k = size_of::<T>()] bytes
    (x86-64; the crate only works there because of its AVX2 intrinsics). *)
From Verif Require Import Base.

(* - Utilities: bitblock.rs:20-48 ----------------------------------------------------------- *)

(** bitblock.rs:20-23 [get_bit]: [1 & (bits >> pos) == 1]. [pos] is below the width of T at every
    call site (a larger shift would overflow-panic in debug builds). *)
Definition get_bit (bits : N) (pos : N) : bool := N.eqb (N.land 1 (N.shiftr bits pos)) 1.

(** bitblock.rs:25-28 [enable_bit]: [bits | 1 << pos]. *)
Definition enable_bit (bits : N) (pos : N) : N := N.lor bits (N.shiftl 1 pos).

(** bitblock.rs:30-33 [disable_bit]: [bits & !(1 << pos)]; [w] is the width in bits of T. *)
Definition disable_bit (w : N) (bits : N) (pos : N) : N := N.land bits (N.lnot (N.shiftl 1 pos) w).

(** bitblock.rs:35-40 [set_bit]. *)
Definition set_bit (w : N) (bits : N) (pos : N) (value : bool) : N :=
  if value then enable_bit bits pos else disable_bit w bits pos.

(** bitblock.rs:42-44 [get_blockpos::<T>], [k = size_of::<T>()]. *)
Definition get_blockpos (k : nat) (bit_index : nat) : nat := bit_index / (k * 8).

(** bitblock.rs:46-48 [get_bitpos::<T>]. *)
Definition get_bitpos (k : nat) (bit_index : nat) : N := N.of_nat (bit_index mod (k * 8)).

(* - Memory --------------------------------------------------------------------------------- *)

Definition block := list N.         (* bitblock.rs:57-64: bytes: [u8; 32] *)
Definition BITBLOCK_BYTES : nat := 32.  (* bitblock.rs:57 *)
Definition BB_NBITS : nat := 256.       (* bitblock.rs:67-68 nbits() = nbytes()*8 *)

(** Little-endian value of a byte string (the memory semantics of reading a word). *)
Fixpoint le_decode (bs : list N) : N :=
  match bs with
  | [] => 0%N
  | b :: t => (b + 256 * le_decode t)%N
  end.

(** The [k] little-endian bytes of [v] (writing a word). *)
Fixpoint le_encode (k : nat) (v : N) : list N :=
  match k with
  | O => []
  | S k' => (v mod 256)%N :: le_encode k' (v / 256)%N
  end.

(** Word number [i] of the byte string [m] seen as an array of [k]-byte words. *)
Definition word (k : nat) (m : list N) (i : nat) : N := le_decode (sub m (i * k) (i * k + k)).

(** Bounds-checked / unchecked read of word [i]: [cast::<T>()[i]] and [*(ptr as *const T).add(i)]. *)
Definition rd (k : nat) (m : list N) (i : nat) : res N :=
  if i <? length m / k then Ok (word k m i) else Panic.
Definition rd_uc (k : nat) (m : list N) (i : nat) : res N :=
  if i <? length m / k then Ok (word k m i) else UB.

(** Overwrite word [i]. *)
Definition put_word (k : nat) (m : list N) (i : nat) (v : N) : list N :=
  firstn (i * k) m ++ le_encode k v ++ skipn (i * k + k) m.
Definition wr (k : nat) (m : list N) (i : nat) (v : N) : res (list N) :=
  if i <? length m / k then Ok (put_word k m i v) else Panic.
Definition wr_uc (k : nat) (m : list N) (i : nat) (v : N) : res (list N) :=
  if i <? length m / k then Ok (put_word k m i v) else UB.

(** The whole array as words of [k] bytes ([cast::<T>()] as a list). *)
Definition words (k : nat) (m : list N) : list N := map (word k m) (seq 0 (length m / k)).

(* - BitBlock: bitblock.rs:66-209 ----------------------------------------------------------- *)

(** bitblock.rs:70-72 *)
Definition bb_zeros : block := repeat 0%N BITBLOCK_BYTES.
(** bitblock.rs:74-76 *)
Definition bb_ones : block := repeat 255%N BITBLOCK_BYTES.

(** bitblock.rs:78-85 [is_zero]: compares the two u128 halves with 0. *)
Definition bb_is_zero (b : block) : bool :=
  forallb (fun i => N.eqb (word 16 b i) 0) (seq 0 (BITBLOCK_BYTES / 16)).

(** bitblock.rs:89-107 [from_iter] for values of [k] bytes: the iterator is a list; returns
    (iterator exhausted, block, rest of the iterator). *)
Fixpoint bb_from_iter_loop (k : nat) (is : list nat) (it : list N) (b : block) : bool * block * list N :=
  match is with
  | [] => (false, b, it)
  | i :: is' =>
    match it with
    | v :: it' => bb_from_iter_loop k is' it' (put_word k b i v)
    | [] => (true, b, [])
    end
  end.
Definition bb_from_iter (k : nat) (it : list N) : bool * block * list N :=
  bb_from_iter_loop k (seq 0 (BITBLOCK_BYTES / k)) it bb_zeros.

(** bitblock.rs:144-148 *)
Definition bb_get_bit (b : block) (index : nat) : res bool :=
  let* byte := idx b (get_blockpos 1 index) in
  Ok (get_bit byte (get_bitpos 1 index)).

(** bitblock.rs:150-154 *)
Definition bb_enable_bit (b : block) (index : nat) : res block :=
  let* byte := idx b (get_blockpos 1 index) in
  set_idx b (get_blockpos 1 index) (enable_bit byte (get_bitpos 1 index)).

(** bitblock.rs:156-160 *)
Definition bb_disable_bit (b : block) (index : nat) : res block :=
  let* byte := idx b (get_blockpos 1 index) in
  set_idx b (get_blockpos 1 index) (disable_bit 8 byte (get_bitpos 1 index)).

(** bitblock.rs:162-165 *)
Definition bb_set_bit (b : block) (index : nat) (value : bool) : res block :=
  if value then bb_enable_bit b index else bb_disable_bit b index.

(** bitblock.rs:111-124 [from_bool_iter]. *)
Fixpoint bb_from_bool_iter_loop (is : list nat) (it : list bool) (b : block)
  : res (bool * block * list bool) :=
  match is with
  | [] => Ok (false, b, it)
  | i :: is' =>
    match it with
    | v :: it' => let* b' := bb_set_bit b i v in bb_from_bool_iter_loop is' it' b'
    | [] => Ok (true, b, [])
    end
  end.
Definition bb_from_bool_iter (it : list bool) : res (bool * block * list bool) :=
  bb_from_bool_iter_loop (seq 0 BB_NBITS) it bb_zeros.

(** bitblock.rs:127-131 [from_slice]. *)
Definition bb_from_slice (k : nat) (v : list N) : block := snd (fst (bb_from_iter k v)).

(** bitblock.rs:133-142 [from_4u64]. *)
Definition bb_from_4u64 (a b c d : N) : block :=
  put_word 8 (put_word 8 (put_word 8 (put_word 8 bb_zeros 0 a) 1 b) 2 c) 3 d.

(** bitblock.rs:206-212 [From<T>]. *)
Definition bb_from (k : nat) (v : N) : block := put_word k bb_zeros 0 v.

(** Number of ones of a word: [count_ones()] of the Rust integer types. *)
Fixpoint pop_pos (p : positive) : N :=
  match p with
  | xH => 1%N
  | xO q => pop_pos q
  | xI q => (1 + pop_pos q)%N
  end.
Definition popcount (v : N) : N := match v with N0 => 0%N | Npos p => pop_pos p end.

(** bitblock.rs:167-174 [count_ones]. *)
Definition bb_count_ones (b : block) : N :=
  sumN (map (fun i => popcount (word 8 b i)) (seq 0 (BITBLOCK_BYTES / 8))).

(** bitblock.rs:176-180 [blocks_required_for]. *)
Definition blocks_required_for (nbits : nat) : nat :=
  let w := BB_NBITS in
  let correction := if nbits mod w =? 0 then 0 else 1 in
  nbits / w + correction.

(* - BitBlocks: bitblock.rs:225-360 --------------------------------------------------------- *)

Definition blocks := list block.

(** bitblock.rs:240-245 *)
Definition zero_blocks (nblocks : nat) : res blocks :=
  let* _ := rassert (0 <? nblocks) in Ok (repeat bb_zeros nblocks).
(** bitblock.rs:247-252 *)
Definition one_blocks (nblocks : nat) : res blocks :=
  let* _ := rassert (0 <? nblocks) in Ok (repeat bb_ones nblocks).
(** bitblock.rs:254-257 *)
Definition zero_bits (nbits : nat) : res blocks := zero_blocks (blocks_required_for nbits).

(** bitblock.rs:267-276 (and identically slice_store.rs:356-365): the loop zeroing the unused bits
    of the last block.  [last] is the last block; [fuel] bounds the number of iterations (a block has
    4 u64 words; running past word 0 is the Rust panic on [i -= 1]). *)
Fixpoint mask_tail_loop (fuel : nat) (zeros i : nat) (last : block) : res block :=
  match fuel with
  | O => OutOfFuel
  | S fuel' =>
    let* last' :=
      (if 64 <=? zeros then wr 8 last i 0
       else let* v := rd 8 last i in wr 8 last i (N.shiftr v (N.of_nat zeros))) in
    if 64 <? zeros then
      match i with
      | O => Panic
      | S i' => mask_tail_loop fuel' (zeros - 64) i' last'
      end
    else Ok last'
  end.

(** bitblock.rs:259-280 [one_bits]: the tail of the last block is masked.  ([zeros] never underflows.) *)
Definition mask_tail (nbits : nat) (bs : blocks) : res blocks :=
  match rev bs with
  | [] => Ok bs
  | last :: front_rev =>
    let zeros := length bs * BB_NBITS - nbits in
    let* last' := mask_tail_loop 5 zeros 3 last in
    Ok (rev front_rev ++ [last'])
  end.
Definition one_bits (nbits : nat) : res blocks :=
  let nblocks := blocks_required_for nbits in
  let* bs := one_blocks nblocks in
  mask_tail nbits bs.

(** bitblock.rs:282-293: fill [n] blocks from an iterator of [k]-byte integers. *)
Fixpoint fill_from_iter (k : nat) (n : nat) (it : list N) : blocks :=
  match n with
  | O => []
  | S n' => let '(_, b, it') := bb_from_iter k it in b :: fill_from_iter k n' it'
  end.
Definition from_iter (k : nat) (nvalues : nat) (it : list N) : res blocks :=
  let nblocks := blocks_required_for (nvalues * k * 8) in
  let* _ := zero_blocks nblocks in
  Ok (fill_from_iter k nblocks it).

(** bitblock.rs:295-305. *)
Fixpoint fill_from_bool_iter (n : nat) (it : list bool) : res blocks :=
  match n with
  | O => Ok []
  | S n' =>
    let* r := bb_from_bool_iter it in
    let '(_, b, it') := r in
    let* bs := fill_from_bool_iter n' it' in
    Ok (b :: bs)
  end.
Definition from_bool_iter (nbits : nat) (it : list bool) : res blocks :=
  let nblocks := blocks_required_for nbits in
  let* _ := zero_blocks nblocks in
  fill_from_bool_iter nblocks it.

(** The bytes of an array of blocks: [as_ptr()] (blocks are contiguous, 32 bytes each). *)
Definition bytes_of (bs : blocks) : list N := concat bs.

(** Re-chop a byte string into blocks (inverse of [bytes_of]); used to write through casts. *)
Fixpoint to_blocks (n : nat) (m : list N) : blocks :=
  match n with
  | O => []
  | S n' => firstn BITBLOCK_BYTES m :: to_blocks n' (skipn BITBLOCK_BYTES m)
  end.

(** bitblock.rs:307-310 and slice_store.rs:463-466 [block_len::<T>]. *)
Definition block_len (k : nat) (bs : blocks) : nat := length bs * (BITBLOCK_BYTES / k).

(** bitblock.rs:324-326, slice_store.rs:504-506 [get::<T>]. *)
Definition bs_get (k : nat) (bs : blocks) (i : nat) : res N := rd k (bytes_of bs) i.
(** slice_store.rs:508-511 [get_unchecked::<T>] (bitblock.rs:328-333 adds an assertion). *)
Definition bs_get_uc (k : nat) (bs : blocks) (i : nat) : res N := rd_uc k (bytes_of bs) i.
(** bitblock.rs:335-337, slice_store.rs:513-516 [set::<T>]. *)
Definition bs_set (k : nat) (bs : blocks) (i : nat) (v : N) : res blocks :=
  let* m := wr k (bytes_of bs) i v in Ok (to_blocks (length bs) m).
(** slice_store.rs:518-522 [set_unchecked::<T>]. *)
Definition bs_set_uc (k : nat) (bs : blocks) (i : nat) (v : N) : res blocks :=
  let* m := wr_uc k (bytes_of bs) i v in Ok (to_blocks (length bs) m).

(** bitblock.rs:345-348 [resize]. *)
Definition bs_resize (bs : blocks) (nblocks : nat) : res blocks :=
  let* _ := rassert (0 <? nblocks) in
  Ok (firstn nblocks bs ++ repeat bb_zeros (nblocks - length bs)).

(* - Bit access on arrays: slice_store.rs:481-506 (BitVec) and bitset.rs:30-53 (Bitset) -------- *)

(** slice_store.rs:481-486, bitset.rs:30-34 *)
Definition bv_get_bit (bs : blocks) (index : nat) : res bool :=
  let* b := idx bs (index / BB_NBITS) in bb_get_bit b (index mod BB_NBITS).
(** slice_store.rs:488-494, bitset.rs:42-46 *)
Definition bv_enable_bit (bs : blocks) (index : nat) : res blocks :=
  let* b := idx bs (index / BB_NBITS) in
  let* b' := bb_enable_bit b (index mod BB_NBITS) in
  set_idx bs (index / BB_NBITS) b'.
(** slice_store.rs:496-502, bitset.rs:36-40 *)
Definition bv_set_bit (bs : blocks) (index : nat) (v : bool) : res blocks :=
  let* b := idx bs (index / BB_NBITS) in
  let* b' := bb_set_bit b (index mod BB_NBITS) v in
  set_idx bs (index / BB_NBITS) b'.

(** bitset.rs:18-22 [zeros], 24-28 [ones]. *)
Definition bitset_zeros (nbits : nat) : res blocks := zero_bits nbits.
Definition bitset_ones (nbits : nat) : res blocks := one_bits nbits.
Definition bitset_get_bit := bv_get_bit.
Definition bitset_set_bit := bv_set_bit.
Definition bitset_enable_bit := bv_enable_bit.
(** bitset.rs:48-52 [disable_bit]: the body calls [enable_bit] on the block. *)
Definition bitset_disable_bit (bs : blocks) (index : nat) : res blocks :=
  let* b := idx bs (index / BB_NBITS) in
  let* b' := bb_enable_bit b (index mod BB_NBITS) in
  set_idx bs (index / BB_NBITS) b'.
