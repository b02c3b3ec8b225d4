(** More of C01, C02, C04, C06: resizing, counting, blocks from arrays, and slices of the bit-block store. *)
From Verif Require Import Base BaseProofs BitModel BitSpec BitProofs BitProofs2 BitProps SimdModel SimdProofs SliceModel SliceSpec SliceProofs SliceProofs2
  CountSumProofs SliceProps StoreModel StoreSpec StoreProofs StoreProofs2 StoreProofs3 StoreProps.

(* ---- C01 ---- *)

Lemma wf_firstn' n bs : wf_blocks bs -> wf_blocks (firstn n bs).
Proof. intros H. apply Forall_forall. intros x Hx. apply (proj1 (Forall_forall _ _) H). rewrite <- (firstn_skipn n bs). apply in_or_app. left. exact Hx. Qed.
Lemma bs_resize_bits bs n : wf_blocks bs -> 0 < n ->
  exists bs', bs_resize bs n = Ok bs' /\ wf_blocks bs' /\ length bs' = n /\
  forall i, bbit bs' i = if i <? n * 256 then bbit bs i else false.
Proof.
  intros Hb Hn. unfold bs_resize. destruct (Nat.ltb_spec 0 n); [|lia]. cbn [rassert rbind].
  assert (wf_blocks (firstn n bs ++ repeat bb_zeros (n - length bs))) as W.
  { apply Forall_app. split; [apply wf_firstn', Hb|apply wf_repeat, wf_bb_zeros]. }
  assert (length (firstn n bs ++ repeat bb_zeros (n - length bs)) = n) as L by (rewrite app_length, firstn_length, repeat_length; lia).
  eexists. split; [reflexivity|]. split; [exact W|]. split; [exact L|].
  intros i. destruct (Nat.ltb_spec i (n * 256)) as [Hi|Hi]; [|apply bbit_high; [exact W|rewrite L; exact Hi]].
  unfold bbit at 1. rewrite concat_app, bitAt_app, concat_len by (apply wf_firstn', Hb). rewrite firstn_length.
  destruct (Nat.ltb_spec i (Nat.min n (length bs) * 32 * 8)) as [H1|H1].
  - unfold bbit. rewrite <- (firstn_skipn n bs) at 2. rewrite concat_app, bitAt_app, concat_len by (apply wf_firstn', Hb). rewrite firstn_length.
    destruct (Nat.ltb_spec i (Nat.min n (length bs) * 32 * 8)); [reflexivity|lia].
  - rewrite (bbit_high bs i Hb) by lia. change (bbit (repeat bb_zeros (n - length bs)) (i - Nat.min n (length bs) * 32 * 8) = false).
    rewrite bbit_repeat by apply wf_bb_zeros. destruct (_ <? _); [apply bitAt_zeros|reflexivity].
Qed.
(** Resizing an array keeps the bits that still fit; the bits of added blocks are zero. *)
Theorem C01_resize : forall bs n, wf_blocks bs -> 0 < n ->
  exists bs', bs_resize bs n = Ok bs' /\ wf_blocks bs' /\ length bs' = n /\
  forall i, i < n * 256 -> bv_get_bit bs' i = if i <? length bs * 256 then bv_get_bit bs i else Ok false.
Proof.
  intros bs n Hb Hn. destruct (bs_resize_bits bs n Hb Hn) as (bs' & E & W & L & B). exists bs'.
  split; [exact E|]. split; [exact W|]. split; [exact L|]. intros i Hi. rewrite bv_get_bit_ok by (try assumption; lia). rewrite B.
  destruct (Nat.ltb_spec i (n * 256)); [|lia]. destruct (Nat.ltb_spec i (length bs * 256)) as [H1|H1].
  - rewrite bv_get_bit_ok by assumption. reflexivity.
  - rewrite bbit_high by assumption. reflexivity.
Qed.
Print Assumptions C01_resize.
Theorem C01_resize_to_nothing_panics : forall bs, bs_resize bs 0 = Panic.
Proof. reflexivity. Qed.
Print Assumptions C01_resize_to_nothing_panics.

(** A new [Bitset] reads as all zeros, or as ones at exactly the positions asked for. *)
Theorem C02_bitset : forall n, 0 < n -> exists z o, bitset_zeros n = Ok z /\ bitset_ones n = Ok o /\ wf_blocks z /\ wf_blocks o /\ n <= length z * 256 /\ length o = length z /\
  forall i, i < length z * 256 -> bitset_get_bit z i = Ok false /\ bitset_get_bit o i = Ok (i <? n).
Proof.
  intros n Hn. destruct (zero_bits_ok n Hn) as (z & E & W & L & B). destruct (one_bits_ok n Hn) as (o & E' & W' & L' & B'). exists z, o. split; [exact E|]. split; [exact E'|]. split; [exact W|]. split; [exact W'|]. split; [rewrite L; apply blocks_required_ok|]. split; [congruence|].
  intros i Hi. unfold bitset_get_bit. rewrite !bv_get_bit_ok, B, B' by (try assumption; congruence). auto.
Qed.
Print Assumptions C02_bitset.
Example C02_bitset_instance : (let* o := bitset_ones 300 in let* a := bitset_get_bit o 299 in let* b := bitset_get_bit o 300 in Ok (length o, a, b)) = Ok (2, true, false).
Proof. vm_compute. reflexivity. Qed.

(** [count_ones] of a block is the number of its positions that read as set. *)
Theorem C01_count_ones : forall b, wf_block b ->
  bb_count_ones b = countf 256 (fun i => match bb_get_bit b i with Ok v => v | _ => false end).
Proof.
  intros b Hb. rewrite bb_count_ones_ok by exact Hb. unfold countf. do 2 f_equal. apply filter_ext_in. intros i Hi.
  apply in_seq in Hi. rewrite bb_get_bit_ok by (try assumption; lia). reflexivity.
Qed.
Print Assumptions C01_count_ones.
(** [is_zero] holds exactly if no position reads as set. *)
Theorem C01_is_zero : forall b, wf_block b -> bb_is_zero b = true <-> forall i, i < 256 -> bb_get_bit b i = Ok false.
Proof.
  intros b Hb. rewrite bb_is_zero_ok by exact Hb. split.
  - intros H i Hi. rewrite bb_get_bit_ok, H by assumption. reflexivity.
  - intros H i. destruct (Nat.ltb_spec i 256) as [Hi|Hi].
    + specialize (H i Hi). rewrite bb_get_bit_ok in H by assumption. injection H as H. exact H.
    + apply bitAt_high. destruct Hb as [-> _]. lia.
Qed.
Print Assumptions C01_is_zero.
Example C01_storage_instance :
  wf_blocks [bb_zeros; bb_ones] /\ wf_block (bb_from 8 11) /\ bb_count_ones (bb_from 8 11) = 3%N /\ bb_is_zero (bb_from 16 (2 ^ 120)) = false /\
  (let* bs := bs_resize [bb_zeros; bb_ones] 3 in let* a := bv_get_bit bs 511 in let* b := bv_get_bit bs 512 in Ok (a, b)) = Ok (true, false).
Proof.
  split; [repeat constructor; apply wf_bb_zeros || apply wf_bb_ones|]. split; [|vm_compute; auto].
  split; [reflexivity|]. repeat constructor.
Qed.

(* ---- C04 ---- *)

Lemma items_get k bs it : int_bytes k -> wf_blocks bs -> Forall (fun v => (v < 2 ^ (8 * N.of_nat k))%N) it ->
  (forall t, t < length bs * 256 -> bbit bs t = N.testbit (nth (t / (k * 8)) it 0%N) (N.of_nat (t mod (k * 8)))) ->
  forall i, i < block_len k bs -> bs_get k bs i = Ok (nth i it 0%N).
Proof.
  intros Hk W Hit B i Hi. pose proof (int_bytes_pos k Hk) as Hk0. destruct (int_bytes_q k Hk) as (q & Hq).
  rewrite bs_get_ok by (try assumption; exists q; assumption). f_equal.
  unfold block_len, BITBLOCK_BYTES in Hi. replace (32 / k) with q in Hi by (rewrite <- Hq, Nat.div_mul by lia; reflexivity).
  apply (bits_ext_lt (8 * N.of_nat k)).
  - apply word_lt, concat_wf, W.
  - destruct (Nat.ltb_spec i (length it)).
    + apply (proj1 (Forall_forall _ _) Hit). apply nth_In. assumption.
    + rewrite nth_overflow by assumption. apply N.neq_0_lt_0, N.pow_nonzero. lia.
  - intros t Ht. rewrite testbit_bs_word by assumption. destruct (Nat.ltb_spec t (k * 8)); [|lia].
    rewrite B by nia. rewrite Nat.div_add_l by lia. rewrite (Nat.div_small t) by assumption. rewrite Nat.add_0_r.
    rewrite Nat.add_comm, Nat.mod_add, Nat.mod_small by lia. reflexivity.
Qed.

(** A block made from an array of integers reads back those integers, then zeros. *)
Theorem C04_block_from_slice : forall k vs i, int_bytes k -> Forall (fun v => (v < 2 ^ (8 * N.of_nat k))%N) vs -> i < 32 / k ->
  bs_get k [bb_from_slice k vs] i = Ok (nth i vs 0%N).
Proof.
  intros k vs i Hk Hvs Hi. unfold bb_from_slice. pose proof (bb_from_iter_ok k vs (int_bytes_pos k Hk) (int_bytes_q k Hk)) as H.
  destruct (bb_from_iter k vs) as [[done b] rest]. destruct H as (W & _ & _ & B). cbn [fst snd].
  apply items_get; try assumption; [constructor; [exact W|constructor]| |unfold block_len, BITBLOCK_BYTES; cbn [length]; lia].
  cbn [length]. intros t Ht. rewrite bbit_cons by exact W. destruct (Nat.ltb_spec t 256); [|lia]. rewrite B.
  destruct (Nat.ltb_spec t 256); [reflexivity|lia].
Qed.
Print Assumptions C04_block_from_slice.

(** [from_4u64]: the four words in order. *)
Theorem C04_from_4u64 : forall a b c d i, (a < 2 ^ 64)%N -> (b < 2 ^ 64)%N -> (c < 2 ^ 64)%N -> (d < 2 ^ 64)%N -> i < 4 ->
  bs_get 8 [bb_from_4u64 a b c d] i = Ok (nth i [a; b; c; d] 0%N).
Proof.
  intros a b c d i Ha Hb Hc Hd Hi. destruct wf_bb_zeros as [Lz Wz].
  assert (W1 : length (put_word 8 bb_zeros 0 a) = 32 /\ wf_bytes (put_word 8 bb_zeros 0 a)) by (split; [rewrite put_word_length; rewrite Lz; lia|apply put_word_wf; assumption]).
  destruct W1 as [L1 W1].
  assert (W2 : length (put_word 8 (put_word 8 bb_zeros 0 a) 1 b) = 32 /\ wf_bytes (put_word 8 (put_word 8 bb_zeros 0 a) 1 b)) by (split; [rewrite put_word_length; rewrite L1; lia|apply put_word_wf; assumption]).
  destruct W2 as [L2 W2].
  assert (W3 : length (put_word 8 (put_word 8 (put_word 8 bb_zeros 0 a) 1 b) 2 c) = 32 /\ wf_bytes (put_word 8 (put_word 8 (put_word 8 bb_zeros 0 a) 1 b) 2 c)) by (split; [rewrite put_word_length; rewrite L2; lia|apply put_word_wf; assumption]).
  destruct W3 as [L3 W3].
  assert (W : wf_block (bb_from_4u64 a b c d)).
  { split; unfold bb_from_4u64; [rewrite put_word_length; rewrite L3; lia|apply put_word_wf; assumption]. }
  apply items_get; [unfold int_bytes; auto|constructor; [exact W|constructor]|repeat constructor; assumption| |unfold block_len, BITBLOCK_BYTES; cbn [length]; change (32 / 8) with 4; lia].
  cbn [length]. intros t Ht. rewrite bbit_cons by exact W. destruct (Nat.ltb_spec t 256); [|lia].
  unfold bb_from_4u64. rewrite !bitAt_put_word by (rewrite ?L3, ?L2, ?L1, ?Lz; lia). rewrite bitAt_zeros.
  change (8 * 8) with 64. assert (t / 64 = 0 /\ t mod 64 = t \/ t / 64 = 1 /\ t mod 64 = t - 64 \/ t / 64 = 2 /\ t mod 64 = t - 128 \/ t / 64 = 3 /\ t mod 64 = t - 192) as C by lia.
  destruct C as [(Ed & Em)|[(Ed & Em)|[(Ed & Em)|(Ed & Em)]]]; rewrite Ed, Em; cbn [nth];
    repeat match goal with |- context [?x <=? t] => destruct (Nat.leb_spec x t); try (exfalso; lia) end;
    repeat match goal with |- context [t <? ?x] => destruct (Nat.ltb_spec t x); try (exfalso; lia) end;
    cbn [andb]; f_equal; f_equal; lia.
Qed.
Print Assumptions C04_from_4u64.

(** In any reachable bit-block store: a slice filled from an iterator of [k]-byte integers holds its items in order, then zeros. *)
Theorem C04_store_from_iter : forall (dbg : bool) cap (s0 : bstore) ops s held k n it s' r, int_bytes k ->
  Forall (fun v => (v < 2 ^ (8 * N.of_nat k))%N) it ->
  bstore_new cap = Ok s0 -> run_ops dbg ops (s0, []) = Ok (s, held) -> alloc_from_iter k s n it = Ok (s', r) ->
  exists bs, get_bitvec s' r = Ok bs /\ n <= block_len k bs /\
    (forall i, i < block_len k bs -> bs_get k bs i = Ok (nth i it 0%N)) /\
    forall r', In r' held -> get_slice s' r' = get_slice s r'.
Proof.
  intros dbg cap s0 ops s held k n it s' r Hk Hit E0 E A. pose proof (inv_new _ _ _ E0) as I0.
  assert (st_align s0 = 2) as Ea by (unfold bstore_new, store_new in E0; apply rbind_ok in E0 as (u & _ & X); injection X as <-; reflexivity).
  assert (0 < st_align s0) as Hal0 by (rewrite Ea; lia).
  destruct (run_inv dbg ops s0 [] [] s held Hal0 I0 E) as (I & Aal).
  unfold alloc_from_iter in A. apply rbind_ok in A as ([s1 r1] & A1 & A).
  unfold alloc_zero_blocks in A1. apply rbind_ok in A1 as (u & _ & A1).
  destruct (fill_from_iter_ok k (blocks_required_for (n * k * 8)) (int_bytes_pos k Hk) (int_bytes_q k Hk) it) as (W & L & B).
  set (bs := fill_from_iter k (blocks_required_for (n * k * 8)) it) in *.
  assert (0 < st_align s) as Hal by (rewrite Aal, Ea; lia).
  destruct (alloc_put_inv s held _ _ _ s1 r1 bs Hal I A1 L) as (G & s2 & P & I2 & _).
  rewrite P in A. cbn [rbind] in A. injection A as <- <-.
  pose proof (inv_length _ _ _ I) as Hlen. exists bs. split; [|split; [|split]].
  - apply (held_get _ _ _ (length held) r1 bs I2).
    + rewrite nth_error_app2, Nat.sub_diag by lia; reflexivity.
    + rewrite nth_error_app2, Hlen, Nat.sub_diag by lia; reflexivity.
  - destruct (int_bytes_q k Hk) as (q & Hq). pose proof (int_bytes_pos k Hk). unfold block_len, BITBLOCK_BYTES.
    replace (32 / k) with q by (rewrite <- Hq, Nat.div_mul by lia; reflexivity). rewrite L. destruct (blocks_required_ok (n * k * 8)) as [Hle _]. nia.
  - apply items_get; try assumption. rewrite L. intros t Ht. rewrite B. destruct (Nat.ltb_spec t (blocks_required_for (n * k * 8) * 256)); [reflexivity|lia].
  - intros r' Hr'. apply In_nth_error in Hr' as (j & Hj). destruct (Forall2_nth_l _ _ _ _ _ _ _ (I_cont _ _ _ I) Hj) as (c2 & Hc2 & _).
    rewrite (held_get _ _ _ _ _ _ I Hj Hc2). apply (held_get _ _ _ j r' c2 I2).
    + rewrite nth_error_app1 by (apply nth_error_Some; congruence). exact Hj.
    + rewrite nth_error_app1 by (apply nth_error_Some; congruence). exact Hc2.
Qed.
Print Assumptions C04_store_from_iter.
Example C04_storage_instance :
  bs_get 2 [bb_from_slice 2 [7; 8; 9]%N] 2 = Ok 9%N /\ bs_get 8 [bb_from_4u64 1 2 3 4] 2 = Ok 3%N /\
  (let* s := bstore_new 1 in let* (s, r0) := alloc_zero_bits s 10 in let* (s, r) := alloc_from_iter 4 s 20 [7; 8; 9]%N in
   let* bs := get_bitvec s r in let* a := bs_get 4 bs 2 in let* b := bs_get 4 bs 3 in Ok (r, length bs, a, b)) = Ok ((2, 5), 3, 9%N, 0%N).
Proof. vm_compute. auto. Qed.

(* ---- C06 ---- *)

(** Resizing a bitslice keeps the values that still fit; the added values are zero. *)
Theorem C06_resize : forall w vec n, slice_width w -> wf_blocks vec -> 0 < n ->
  exists vec', bsl_resize w vec n = Ok vec' /\ wf_blocks vec' /\ n <= length vec' * (256 / w) /\
  forall i, i < length vec' * (256 / w) -> get_value w vec' i = if i <? length vec * (256 / w) then get_value w vec i else Ok 0%N.
Proof.
  intros w vec n Hw Hv Hn. pose proof (slice_width_valid w Hw) as Hw'. pose proof (blocks_required_pos n Hn) as Hp. destruct (blocks_required_ok n) as (HB & _).
  assert (0 < blocks_required_for n * w) as Hpos by (destruct Hw as [->|[->|[->| ->]]]; lia).
  destruct (bs_resize_bits vec (blocks_required_for n * w) Hv Hpos) as (vec' & E & W & L & B).
  exists vec'. split; [exact E|]. split; [exact W|].
  assert (HS : w * sbsize w = 256 /\ 0 < sbsize w) by (destruct Hw as [->|[->|[->| ->]]]; split; try reflexivity; apply Nat.ltb_lt; reflexivity).
  destruct HS as (HS & HS0). change (256 / w) with (sbsize w). split; [rewrite L; nia|].
  intros i Hi. rewrite get_value_ok by assumption.
  assert (forall l, l < w -> bbit vec' (256 * (i / sbsize w) + sbsize w * l + i mod sbsize w) = bbit vec (256 * (i / sbsize w) + sbsize w * l + i mod sbsize w)) as EB.
  { intros l Hl. rewrite B. destruct (Nat.ltb_spec (256 * (i / sbsize w) + sbsize w * l + i mod sbsize w) (blocks_required_for n * w * 256)) as [|Hge]; [reflexivity|exfalso].
    rewrite L in Hi. assert (i / sbsize w < blocks_required_for n * w) by (apply Nat.div_lt_upper_bound; nia). pose proof (Nat.mod_upper_bound i (sbsize w)). nia. }
  destruct (Nat.ltb_spec i (length vec * sbsize w)) as [H1|H1].
  - rewrite get_value_ok by assumption. f_equal. unfold slice_val. apply sumf_ext. intros l Hl. rewrite EB by exact Hl. reflexivity.
  - f_equal. unfold slice_val. rewrite (sumf_ext w _ (fun _ => 0%N)).
    + clear. unfold sumf. generalize 0. induction w; intros s; [reflexivity|]. cbn [seq map sumN]. rewrite IHw. reflexivity.
    + intros l Hl. rewrite EB by exact Hl. rewrite bbit_high; [cbn [b2n]; lia|exact Hv|].
      assert (length vec <= i / sbsize w) by (apply Nat.div_le_lower_bound; nia). nia.
Qed.
Print Assumptions C06_resize.

Lemma testbit_sumf w (f : nat -> bool) k : k < w -> N.testbit (sumf w (fun l => 2 ^ N.of_nat l * b2n (f l))%N) (N.of_nat k) = f k.
Proof.
  revert k. induction w as [|w IH]; intros k Hk; [lia|]. rewrite sumf_S. pose proof (sumf_pow2_lt w f) as Hlt.
  set (a := sumf w _) in *. destruct (Nat.eqb_spec k w) as [->|Hne].
  - rewrite <- (N.add_0_l (N.of_nat w)), <- N.div_pow2_bits. rewrite N.mul_comm, N.div_add by (apply N.pow_nonzero; lia).
    rewrite N.div_small by exact Hlt. destruct (f w); reflexivity.
  - rewrite <- (N.mod_pow2_bits_low _ (N.of_nat w)) by lia. rewrite N.mul_comm, N.mod_add by (apply N.pow_nonzero; lia).
    rewrite N.mod_small by exact Hlt. apply IH. lia.
Qed.
(** [get_block]: bit [t] of block [b] of lane [ln] is bit [ln] of value [32 b + t]. *)
Theorem C06_get_block : forall w vec b ln, slice_width w -> wf_blocks vec -> b * 32 < length vec * (256 / w) -> ln < w ->
  exists x, bsl_get_block w vec b ln = Ok x /\ (x < 2 ^ 32)%N /\
  forall t, t < 32 -> exists v, get_value w vec (32 * b + t) = Ok v /\ N.testbit x (N.of_nat t) = N.testbit v (N.of_nat ln).
Proof.
  intros w vec b ln Hw Hv Hb Hln. pose proof (slice_width_valid w Hw) as Hw'. change (256 / w) with (sbsize w) in Hb.
  unfold bsl_get_block, get_indices.
  assert (Hlt : bitslice_blockpos_u32 w (b / superblock_width w) (b mod superblock_width w) ln < length vec * 8).
  { pose proof (blockpos_lt w (length vec) (b * 32) ln Hw' Hb Hln) as H. rewrite Nat.div_mul in H by lia. exact H. }
  rewrite rd_lt by (rewrite (len_div _ _ 8) by (try assumption; lia); exact Hlt).
  eexists. split; [reflexivity|]. split; [apply (word_lt 4), concat_wf, Hv|].
  intros t Ht. assert (32 * b + t < length vec * sbsize w) as Hi.
  { destruct Hw as [->|[->|[->| ->]]]; [change (sbsize 1) with 256 in *|change (sbsize 2) with 128 in *|change (sbsize 4) with 64 in *|change (sbsize 8) with 32 in *]; lia. }
  eexists. split; [apply get_value_ok; assumption|]. unfold slice_val. rewrite testbit_sumf by exact Hln.
  unfold bytes_of. rewrite testbit_bs_word by exact Hv. destruct (Nat.ltb_spec t (4 * 8)); [|lia]. f_equal.
  rewrite <- (blockpos_bit w (32 * b + t) ln t) by (try assumption; lia).
  replace ((32 * b + t) / 32) with b by lia. lia.
Qed.
Print Assumptions C06_get_block.

(** In any reachable bit-block store: a fresh bitslice has room for all its values and they are zero; fresh zero bits are unset. *)
Theorem C02_store_zero : forall (dbg : bool) cap (s0 : bstore) ops s held n s' r,
  bstore_new cap = Ok s0 -> run_ops dbg ops (s0, []) = Ok (s, held) -> alloc_zero_bits s n = Ok (s', r) ->
  exists bs, get_bitvec s' r = Ok bs /\ length bs = blocks_required_for n /\
    (forall i, i < length bs * 256 -> bv_get_bit bs i = Ok false) /\
    forall r', In r' held -> get_slice s' r' = get_slice s r'.
Proof.
  intros dbg cap s0 ops s held n s' r E0 E A. pose proof (inv_new _ _ _ E0) as I0.
  assert (st_align s0 = 2) as Ea by (unfold bstore_new, store_new in E0; apply rbind_ok in E0 as (u & _ & X); injection X as <-; reflexivity).
  assert (0 < st_align s0) as Hal0 by (rewrite Ea; lia).
  destruct (run_inv dbg ops s0 [] [] s held Hal0 I0 E) as (I & Aal).
  unfold alloc_zero_bits, alloc_zero_blocks in A. apply rbind_ok in A as (u & _ & A).
  assert (0 < st_align s) as Hal by (rewrite Aal, Ea; lia).
  destruct (alloc_put_inv s held _ _ _ s' r (repeat bb_zeros (blocks_required_for n)) Hal I A (repeat_length _ _)) as (G & _).
  destruct (alloc_inv _ _ _ _ _ _ _ Hal I A) as (I2 & _).
  exists (repeat bb_zeros (blocks_required_for n)). split; [exact G|]. split; [apply repeat_length|]. split.
  - intros i Hi. rewrite bv_get_bit_ok by (try assumption; apply wf_repeat, wf_bb_zeros). rewrite bbit_repeat by apply wf_bb_zeros. rewrite bitAt_zeros.
    destruct (_ <? _); reflexivity.
  - intros r' Hr'. apply In_nth_error in Hr' as (k & Hk). destruct (Forall2_nth_l _ _ _ _ _ _ _ (I_cont _ _ _ I) Hk) as (c2 & Hc2 & _).
    rewrite (held_get _ _ _ _ _ _ I Hk Hc2). apply (held_get _ _ _ k r' c2 I2).
    + rewrite nth_error_app1 by (apply nth_error_Some; congruence). exact Hk.
    + rewrite nth_error_app1 by (apply nth_error_Some; congruence). exact Hc2.
Qed.
Print Assumptions C02_store_zero.
Theorem C06_store_zero_bitslice : forall (dbg : bool) cap (s0 : bstore) ops s held w n s' r, slice_width w ->
  bstore_new cap = Ok s0 -> run_ops dbg ops (s0, []) = Ok (s, held) -> alloc_zero_bitslice w s n = Ok (s', r) ->
  exists bs, get_bitvec s' r = Ok bs /\ n <= length bs * (256 / w) /\
    (forall i, i < length bs * (256 / w) -> get_value w bs i = Ok 0%N) /\
    forall r', In r' held -> get_slice s' r' = get_slice s r'.
Proof.
  intros dbg cap s0 ops s held w n s' r Hw E0 E A. pose proof (inv_new _ _ _ E0) as I0.
  assert (st_align s0 = 2) as Ea by (unfold bstore_new, store_new in E0; apply rbind_ok in E0 as (u & _ & X); injection X as <-; reflexivity).
  assert (0 < st_align s0) as Hal0 by (rewrite Ea; lia).
  destruct (run_inv dbg ops s0 [] [] s held Hal0 I0 E) as (I & Aal).
  unfold alloc_zero_bitslice, alloc_zero_blocks in A. apply rbind_ok in A as (u & _ & A).
  assert (0 < st_align s) as Hal by (rewrite Aal, Ea; lia).
  destruct (alloc_put_inv s held _ _ _ s' r (repeat bb_zeros (blocks_required_for n * w)) Hal I A (repeat_length _ _)) as (G & _).
  destruct (alloc_inv _ _ _ _ _ _ _ Hal I A) as (I2 & _).
  exists (repeat bb_zeros (blocks_required_for n * w)). split; [exact G|]. split; [|split].
  - rewrite repeat_length. destruct (blocks_required_ok n) as (HB & _). pose proof (fits w (blocks_required_for n * w) (blocks_required_for n) Hw eq_refl). lia.
  - intros i Hi. rewrite get_value_ok by (try assumption; try (apply slice_width_valid, Hw); apply wf_repeat, wf_bb_zeros). f_equal.
    unfold slice_val. rewrite (sumf_ext w _ (fun _ => 0%N)).
    + clear. unfold sumf. generalize 0. induction w; intros s; [reflexivity|]. cbn [seq map sumN]. rewrite IHw. reflexivity.
    + intros l Hl. rewrite bbit_repeat by apply wf_bb_zeros. rewrite bitAt_zeros. destruct (_ <? _); cbn [b2n]; lia.
  - intros r' Hr'. apply In_nth_error in Hr' as (k & Hk). destruct (Forall2_nth_l _ _ _ _ _ _ _ (I_cont _ _ _ I) Hk) as (c2 & Hc2 & _).
    rewrite (held_get _ _ _ _ _ _ I Hk Hc2). apply (held_get _ _ _ k r' c2 I2).
    + rewrite nth_error_app1 by (apply nth_error_Some; congruence). exact Hk.
    + rewrite nth_error_app1 by (apply nth_error_Some; congruence). exact Hc2.
Qed.
Print Assumptions C06_store_zero_bitslice.
Example C06_storage_instance :
  (let* v := bsl_resize 2 [bb_ones] 300 in let* a := get_value 2 v 127 in let* b := get_value 2 v 128 in Ok (length v, a, b)) = Ok (4, 3%N, 0%N) /\
  bsl_get_block 4 [bb_ones] 1 3 = Ok 4294967295%N /\
  (let* s := bstore_new 1 in let* (s, r0) := alloc_one_bits s 10 in let* (s, r) := alloc_zero_bitslice 4 s 300 in
   let* bs := get_bitvec s r in let* a := get_value 4 bs 299 in Ok (r, length bs, a)) = Ok ((2, 10), 8, 0%N).
Proof. vm_compute. auto. Qed.
