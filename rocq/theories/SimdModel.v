(** Model of src/simd.rs and of the Harley-Seal part of src/count_and_sum.rs.  Definitions only.

    A 256-bit (128-bit) register is a number below 2^256 (2^128).  Lane-wise instructions are modelled
    lane by lane with explicit wrap-around. *)
From Verif Require Import Base BitModel.

(* - registers and AVX2 instructions ----------------------------------------------------------- *)

(** Lane [i] of width [w] bits ([_mm256_extract_epi64], or reading a stored register). *)
Definition lane (w : N) (v : N) (i : nat) : N := N.land (N.shiftr v (w * N.of_nat i)) (N.ones w).

(** Register with the given lanes (low lane first). *)
Fixpoint of_lanes (w : N) (ls : list N) : N :=
  match ls with
  | [] => 0%N
  | x :: t => (x + 2 ^ w * of_lanes w t)%N
  end.

Definition map_lanes (w : N) (n : nat) (f : nat -> N) : N :=
  of_lanes w (map (fun i => (f i mod 2 ^ w)%N) (seq 0 n)).

(** [_mm256_add_epi64] ([w=64], [n=4]) and [_mm256_add_epi32] ([w=32], [n=8]). *)
Definition vadd (w : N) (n : nat) (a b : N) : N := map_lanes w n (fun i => (lane w a i + lane w b i)%N).
Definition add_epi64 := vadd 64 4.
Definition add_epi32 := vadd 32 8.

(** [_mm256_slli_epi64] / [_mm256_slli_epi32]. *)
Definition vslli (w : N) (n : nat) (a : N) (s : N) : N := map_lanes w n (fun i => N.shiftl (lane w a i) s).
Definition slli_epi64 := vslli 64 4.
Definition slli_epi32 := vslli 32 8.

(** simd.rs:20-34 [count_ones_u64], 37-53 [count_ones_u32] (also count_and_sum.rs:50-67, 101-114):
    per-lane population count. *)
Definition vcount (w : N) (n : nat) (v : N) : N := map_lanes w n (fun i => popcount (lane w v i)).
Definition count_ones_u64 := vcount 64 4.
Definition count_ones_u32 := vcount 32 8.

(** [_mm256_set1_epi64x(v)]. *)
Definition set1_epi64x (v : N) : N := of_lanes 64 [v; v; v; v].
(** [_mm256_set_m128i(v, v)]. *)
Definition set_m128i (hi lo : N) : N := of_lanes 128 [lo; hi].

(** One u32 gathered from [base] at signed 32-bit index [ix] (scale 4): a negative index points before
    the buffer. *)
Definition gather1 (base : list N) (ix : N) : res N :=
  if (ix <? 2 ^ 31)%N then rd_uc 4 base (N.to_nat ix) else UB.
(** [_mm256_i32gather_epi32] ([n = 8]) and [_mm_i32gather_epi32] ([n = 4]). *)
Definition gather (n : nat) (base : list N) (indices : N) : res N :=
  let* ls := mapM (fun i => gather1 base (lane 32 indices i)) (seq 0 n) in
  Ok (of_lanes 32 ls).

(* - carry-save adder --------------------------------------------------------------------------- *)

(** simd.rs:55-66, count_and_sum.rs:15-26 [csa!(h, l <- d1, d2)]: returns the new (h, l). *)
Definition csa (l d1 d2 : N) : N * N :=
  let u := N.lxor l d1 in
  (N.lor (N.land l d1) (N.land u d2), N.lxor u d2).

Record hs := mkhs { hs_total : N; hs_b01 : N; hs_b02 : N; hs_b04 : N; hs_b08 : N }.
Definition hs_init : hs := mkhs 0 0 0 0 0.

(** simd.rs:90-111, count_and_sum.rs:151-171: one iteration of the 16-way unrolled loop.
    [cnt] is the lane-wise population count, [add] the lane-wise addition used for [total];
    [r j] is the register loaded at [i + j]. *)
Definition hs_step (cnt : N -> N) (add : N -> N -> N) (r : nat -> N) (s : hs) : hs :=
  let '(b02a, b01) := csa (hs_b01 s) (r 0) (r 1) in
  let '(b02b, b01) := csa b01 (r 2) (r 3) in
  let '(b04a, b02) := csa (hs_b02 s) b02a b02b in
  let '(b02a, b01) := csa b01 (r 4) (r 5) in
  let '(b02b, b01) := csa b01 (r 6) (r 7) in
  let '(b04b, b02) := csa b02 b02a b02b in
  let '(b08a, b04) := csa (hs_b04 s) b04a b04b in
  let '(b02a, b01) := csa b01 (r 8) (r 9) in
  let '(b02b, b01) := csa b01 (r 10) (r 11) in
  let '(b04a, b02) := csa b02 b02a b02b in
  let '(b02a, b01) := csa b01 (r 12) (r 13) in
  let '(b02b, b01) := csa b01 (r 14) (r 15) in
  let '(b04b, b02) := csa b02 b02a b02b in
  let '(b08b, b04) := csa b04 b04a b04b in
  let '(b16, b08) := csa (hs_b08 s) b08a b08b in
  mkhs (add (hs_total s) (cnt b16)) b01 b02 b04 b08.

(** simd.rs:72-115 [harvey_seal_aux], count_and_sum.rs:135-171: the loop
    [while i < n - n % 16 { ..; i += 16 }].  The loads of an iteration are pure, so they are gathered in a list first. *)
Definition hs_aux (cnt : N -> N) (add : N -> N -> N) (load : nat -> res N) (n : nat) : res hs :=
  foldM (fun s k =>
           let i := 16 * k in
           let* rs := mapM load (seq i 16) in
           Ok (hs_step cnt add (fun j => nth j rs 0%N) s))
        (seq 0 ((n - n mod 16) / 16)) hs_init.

(** simd.rs:117-135 [harvey_seal_64] with [w=64,nl=4]; 138-156 [harvey_seal_32] with [w=32,nl=8];
    count_and_sum.rs:173-186.  [auxadd] is the addition used inside the unrolled loop: in simd.rs it is
    [_mm256_add_epi64] even for the 32-bit variant. *)
Definition harley_seal (w : N) (nl : nat) (auxadd : N -> N -> N) (reduce : N -> N)
           (load : nat -> res N) (n : nat) : res N :=
  let cnt := vcount w nl in
  let add := vadd w nl in
  let slli := vslli w nl in
  let* s := hs_aux cnt auxadd load n in
  let total := slli (hs_total s) 4%N in
  let total := add total (slli (cnt (hs_b08 s)) 3%N) in
  let total := add total (slli (cnt (hs_b04 s)) 2%N) in
  let total := add total (slli (cnt (hs_b02 s)) 1%N) in
  let total := add total (cnt (hs_b01 s)) in
  let* total :=
    foldM (fun total i => let* r := load i in Ok (add total (cnt r)))
          (seq (n - n mod 16) (n mod 16)) total in
  Ok (reduce total).

(** simd.rs:296-301 [reduce_64], count_and_sum.rs:126-132.  u64 arithmetic (wraps in release builds). *)
Definition reduce_64 (w0 w1 w2 w3 : N) (total : N) : N :=
  ((w0 * lane 64 total 0 + w1 * lane 64 total 1
    + w2 * lane 64 total 2 + w3 * lane 64 total 3) mod 2 ^ 64)%N.

(** simd.rs:303-315 [reduce_32], count_and_sum.rs:80-91. *)
Definition reduce_32 (w0 w1 w2 w3 w4 w5 w6 w7 : N) (total : N) : N :=
  let x0 := lane 64 total 0 in
  let x1 := lane 64 total 1 in
  let x2 := lane 64 total 2 in
  let x3 := lane 64 total 3 in
  let lo x := N.land x (N.ones 32) in      (* x & 0xFFFFFFFF *)
  let hi x := N.shiftr x 32 in
  ((w0 * lo x0 + w1 * hi x0 + (w2 * lo x1 + w3 * hi x1)
    + (w4 * lo x2 + w5 * hi x2) + (w6 * lo x3 + w7 * hi x3)) mod 2 ^ 64)%N.

(** simd.rs:317-320 *)
Definition reduce64_1 := reduce_64 1 1 1 1.
Definition reduce64_2 := reduce_64 1 1 2 2.
Definition reduce64_4 := reduce_64 1 2 4 8.
Definition reduce32_8 := reduce_32 1 2 4 8 16 32 64 128.

(* - loads: simd.rs:198-294 ------------------------------------------------------------------- *)

(** Aligned register load [_mm256_load_si256((ptr as *const __m256i).add(i))] (and 128-bit, u64, u32 loads). *)
Definition ld256 (m : list N) (i : nat) : res N := rd_uc 32 m i.
Definition ld128 (m : list N) (i : nat) : res N := rd_uc 16 m i.
Definition ld64 (m : list N) (i : nat) : res N := rd_uc 8 m i.
Definition ld32 (m : list N) (i : nat) : res N := rd_uc 4 m i.

(** simd.rs:198-202 *)
Definition load_and (p1 p2 : list N) (i : nat) : res N :=
  let* block := ld256 p1 i in
  let* mask := ld256 p2 i in
  Ok (N.land block mask).

(** simd.rs:204-209 *)
Definition load_and_c (p1 pidx p2 : list N) (i : nat) : res N :=
  let* block := ld256 p1 i in
  let* indices := ld256 pidx i in
  let* mask := gather 8 p2 indices in
  Ok (N.land block mask).

(** simd.rs:211-218 *)
Definition load_w1_uc (slice nm fm : list N) (i : nat) : res N :=
  let* block := ld256 slice i in
  let* mask1 := ld256 nm i in
  let* mask2 := ld256 fm i in
  Ok (N.land block (N.land mask1 mask2)).

(** simd.rs:220-227 *)
Definition load_w2_uc (slice nm fm : list N) (i : nat) : res N :=
  let* block := ld256 slice i in
  let* m1 := ld128 nm i in
  let* m2 := ld128 fm i in
  let mask128 := N.land m1 m2 in
  Ok (N.land block (set_m128i mask128 mask128)).

(** simd.rs:229-236 *)
Definition load_w4_uc (slice nm fm : list N) (i : nat) : res N :=
  let* block := ld256 slice i in
  let* m1 := ld64 nm i in
  let* m2 := ld64 fm i in
  let mask64 := N.land m1 m2 in
  Ok (N.land block (set1_epi64x mask64)).

(** simd.rs:238-246 *)
Definition load_w8_uc (slice nm fm : list N) (i : nat) : res N :=
  let* block := ld256 slice i in
  let* m1 := ld32 nm i in
  let* m2 := ld32 fm i in
  let mask32 := N.land m1 m2 in
  let mask64 := N.lor (N.shiftl mask32 32) mask32 in
  Ok (N.land block (set1_epi64x mask64)).

(** simd.rs:248-257 *)
Definition load_w1_c (slice pidx nm fm : list N) (i : nat) : res N :=
  let* block := ld256 slice i in
  let* indices := ld256 pidx i in
  let* mask1 := ld256 nm i in
  let* mask2 := gather 8 fm indices in
  Ok (N.land block (N.land mask1 mask2)).

(** simd.rs:259-269 *)
Definition load_w2_c (slice pidx nm fm : list N) (i : nat) : res N :=
  let* block := ld256 slice i in
  let* indices := ld128 pidx i in
  let* mask1 := ld128 nm i in
  let* mask2 := gather 4 fm indices in
  let mask128 := N.land mask1 mask2 in
  Ok (N.land block (set_m128i mask128 mask128)).

(** simd.rs:271-281 *)
Definition load_w4_c (slice pidx nm fm : list N) (i : nat) : res N :=
  let* block := ld256 slice i in
  let* index1 := ld32 pidx (2 * i) in
  let* index2 := ld32 pidx (2 * i + 1) in
  let* mask1 := ld64 nm i in
  let* f1 := ld32 fm (N.to_nat index1) in
  let* f2 := ld32 fm (N.to_nat index2) in
  let mask2 := N.lor f1 (N.shiftl f2 32) in
  let mask64 := N.land mask1 mask2 in
  Ok (N.land block (set1_epi64x mask64)).

(** simd.rs:283-294 *)
Definition load_w8_c (slice pidx nm fm : list N) (i : nat) : res N :=
  let* block := ld256 slice i in
  let* index := ld32 pidx i in
  let* mask1 := ld32 nm i in
  let* mask2 := ld32 fm (N.to_nat index) in
  let mask32 := N.land mask1 mask2 in
  let mask64 := N.lor (N.shiftl mask32 32) mask32 in
  Ok (N.land block (set1_epi64x mask64)).

(* - public functions: simd.rs:335-456 ---------------------------------------------------------- *)

Definition harvey_seal_64 (reduce : N -> N) (load : nat -> res N) (n : nat) : res N :=
  harley_seal 64 4 add_epi64 reduce load n.
Definition harvey_seal_32 (reduce : N -> N) (load : nat -> res N) (n : nat) : res N :=
  harley_seal 32 8 add_epi64 reduce load n.

(** simd.rs:335-340 *)
Definition bitvec_count_and_uc (v1 v2 : blocks) : res N :=
  let nblocks := Nat.min (length v1) (length v2) in
  harvey_seal_64 reduce64_1 (load_and (bytes_of v1) (bytes_of v2)) nblocks.

(** simd.rs:342-348 *)
Definition bitvec_count_and_c (v1 idxs v2 : blocks) : res N :=
  let nblocks := Nat.min (length v1) (length idxs) in
  harvey_seal_64 reduce64_1 (load_and_c (bytes_of v1) (bytes_of idxs) (bytes_of v2)) nblocks.

(** simd.rs:350-360 *)
Definition btslce_summ1_uc (slice nm fm : blocks) : res N :=
  harvey_seal_64 reduce64_1 (load_w1_uc (bytes_of slice) (bytes_of nm) (bytes_of fm)) (length slice).
(** simd.rs:362-372 *)
Definition btslce_summ2_uc (slice nm fm : blocks) : res N :=
  harvey_seal_64 reduce64_2 (load_w2_uc (bytes_of slice) (bytes_of nm) (bytes_of fm)) (length slice).
(** simd.rs:374-384 *)
Definition btslce_summ4_uc (slice nm fm : blocks) : res N :=
  harvey_seal_64 reduce64_4 (load_w4_uc (bytes_of slice) (bytes_of nm) (bytes_of fm)) (length slice).
(** simd.rs:386-396 *)
Definition btslce_summ8_uc (slice nm fm : blocks) : res N :=
  harvey_seal_32 reduce32_8 (load_w8_uc (bytes_of slice) (bytes_of nm) (bytes_of fm)) (length slice).

(** simd.rs:398-411 *)
Definition btslce_summ1_c (slice indices nm fm : blocks) : res N :=
  harvey_seal_64 reduce64_1
    (load_w1_c (bytes_of slice) (bytes_of indices) (bytes_of nm) (bytes_of fm)) (length slice).
(** simd.rs:413-426 *)
Definition btslce_summ2_c (slice indices nm fm : blocks) : res N :=
  harvey_seal_64 reduce64_2
    (load_w2_c (bytes_of slice) (bytes_of indices) (bytes_of nm) (bytes_of fm)) (length slice).
(** simd.rs:428-441 *)
Definition btslce_summ4_c (slice indices nm fm : blocks) : res N :=
  harvey_seal_64 reduce64_4
    (load_w4_c (bytes_of slice) (bytes_of indices) (bytes_of nm) (bytes_of fm)) (length slice).
(** simd.rs:443-456 *)
Definition btslce_summ8_c (slice indices nm fm : blocks) : res N :=
  harvey_seal_32 reduce32_8
    (load_w8_c (bytes_of slice) (bytes_of indices) (bytes_of nm) (bytes_of fm)) (length slice).

(** simd.rs:464-471 [or_assign]: zip stops at the shorter argument (the extra blocks of [bv0] are kept). *)
Fixpoint or_assign (bv0 bv1 : blocks) : blocks :=
  match bv0, bv1 with
  | b0 :: t0, b1 :: t1 => le_encode 32 (N.lor (le_decode b0) (le_decode b1)) :: or_assign t0 t1
  | _, _ => bv0
  end.

(* - BitVec wrappers: slice_store.rs:524-540 ---------------------------------------------------- *)

(** slice_store.rs:524-526 *)
Definition count_ones_and (a b : blocks) : res N := bitvec_count_and_uc a b.

(** slice_store.rs:530-540: all indices must be inside [other]. *)
Definition count_ones_and_compr (a indices other : blocks) : res N :=
  let m := block_len 4 other in
  let* _ := rassert (forallb (fun i => N.to_nat i <? m) (words 4 (bytes_of indices))) in
  bitvec_count_and_c a indices other.

(* - count_and_sum.rs:388-465 ------------------------------------------------------------------ *)

(** count_and_sum.rs:189-206: here the additions inside the loop have the lane width of the counts. *)
Definition harley_seal32 (reduce : N -> N) (load : nat -> res N) (n : nat) : res N :=
  harley_seal 32 8 add_epi32 reduce load n.
Definition harley_seal64 (reduce : N -> N) (load : nat -> res N) (n : nat) : res N :=
  harley_seal 64 4 add_epi64 reduce load n.

(** count_and_sum.rs:388-392; the load function (216-227) is [load_and]; the number of blocks is taken
    from the first argument only. *)
Definition count_and2_c00 (b1 b2 : blocks) : res N :=
  harley_seal64 (reduce_64 1 1 1 1) (load_and (bytes_of b1) (bytes_of b2)) (length b1).
(** count_and_sum.rs:394-399; load function 229-241 = [load_and_c]. *)
Definition count_and2_c10 (idxs1 b1 b2 : blocks) : res N :=
  harley_seal64 (reduce_64 1 1 1 1) (load_and_c (bytes_of b1) (bytes_of idxs1) (bytes_of b2)) (length b1).
(** count_and_sum.rs:401-431 with the load functions of 243-258 (macro arms 295-379). *)
Definition sum_and3_w1_c00 (bsl b1 b2 : blocks) : res N :=
  harley_seal64 (reduce_64 1 1 1 1) (load_w1_uc (bytes_of bsl) (bytes_of b1) (bytes_of b2)) (length bsl).
Definition sum_and3_w2_c00 (bsl b1 b2 : blocks) : res N :=
  harley_seal64 (reduce_64 1 1 2 2) (load_w2_uc (bytes_of bsl) (bytes_of b1) (bytes_of b2)) (length bsl).
Definition sum_and3_w4_c00 (bsl b1 b2 : blocks) : res N :=
  harley_seal64 (reduce_64 1 2 4 8) (load_w4_uc (bytes_of bsl) (bytes_of b1) (bytes_of b2)) (length bsl).
Definition sum_and3_w8_c00 (bsl b1 b2 : blocks) : res N :=
  harley_seal32 (reduce_32 1 2 4 8 16 32 64 128)
    (load_w8_uc (bytes_of bsl) (bytes_of b1) (bytes_of b2)) (length bsl).
(** count_and_sum.rs:433-465 with the load functions of 260-275. *)
Definition sum_and3_w1_c10 (bsl idxs b1 b2 : blocks) : res N :=
  harley_seal64 (reduce_64 1 1 1 1)
    (load_w1_c (bytes_of bsl) (bytes_of idxs) (bytes_of b1) (bytes_of b2)) (length bsl).
Definition sum_and3_w2_c10 (bsl idxs b1 b2 : blocks) : res N :=
  harley_seal64 (reduce_64 1 1 2 2)
    (load_w2_c (bytes_of bsl) (bytes_of idxs) (bytes_of b1) (bytes_of b2)) (length bsl).
Definition sum_and3_w4_c10 (bsl idxs b1 b2 : blocks) : res N :=
  harley_seal64 (reduce_64 1 2 4 8)
    (load_w4_c (bytes_of bsl) (bytes_of idxs) (bytes_of b1) (bytes_of b2)) (length bsl).
Definition sum_and3_w8_c10 (bsl idxs b1 b2 : blocks) : res N :=
  harley_seal32 (reduce_32 1 2 4 8 16 32 64 128)
    (load_w8_c (bytes_of bsl) (bytes_of idxs) (bytes_of b1) (bytes_of b2)) (length bsl).
