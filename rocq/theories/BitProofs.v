(** Proofs about bit memory (bitblock.rs, bitset.rs). *)
From Verif Require Import Base BaseProofs BitModel BitSpec.

(* --- testbit facts --- *)

Lemma get_bit_testbit v p : get_bit v p = N.testbit v p.
Proof.
  unfold get_bit.
  rewrite N.land_comm. change 1%N with (N.ones 1). rewrite N.land_ones.
  change (2 ^ 1)%N with 2%N. change (N.ones 1) with 1%N.
  rewrite N.shiftr_div_pow2.
  rewrite N.testbit_eqb. reflexivity.
Qed.

Lemma testbit_enable v p q : N.testbit (enable_bit v p) q = if N.eqb p q then true else N.testbit v q.
Proof.
  unfold enable_bit. rewrite N.lor_spec.
  destruct (N.eqb_spec p q) as [->|H].
  - rewrite N.shiftl_spec_high' by lia. rewrite N.sub_diag. cbn. apply orb_true_r.
  - destruct (N.ltb_spec q p).
    + rewrite N.shiftl_spec_low by lia. apply orb_false_r.
    + rewrite N.shiftl_spec_high' by lia.
      destruct (q - p)%N eqn:E; [lia|]. change (N.testbit 1 (N.pos p0)) with false. apply orb_false_r.
Qed.

Lemma testbit_lnot_full w v q : N.testbit (N.lnot v w) q = if N.ltb q w then negb (N.testbit v q) else N.testbit v q.
Proof.
  destruct (N.ltb_spec q w).
  - apply N.lnot_spec_low; assumption.
  - apply N.lnot_spec_high; assumption.
Qed.

Lemma testbit_high v w q : (v < 2 ^ w)%N -> (w <= q)%N -> N.testbit v q = false.
Proof.
  intros H Hq. destruct (N.eq_dec v 0) as [->|Hv]; [apply N.bits_0|].
  apply N.bits_above_log2. apply N.log2_lt_pow2 in H; lia.
Qed.

Lemma lt_pow2_testbit v w : (forall q, (w <= q)%N -> N.testbit v q = false) -> (v < 2 ^ w)%N.
Proof.
  intros H. destruct (N.eq_dec v 0) as [->|Hv].
  - apply N.neq_0_lt_0. apply N.pow_nonzero. lia.
  - apply N.log2_lt_pow2; [lia|]. destruct (N.ltb_spec (N.log2 v) w); [assumption|].
    specialize (H _ H0). rewrite N.bit_log2 in H by assumption. discriminate.
Qed.

Lemma testbit_disable w v p q : (v < 2 ^ w)%N -> (p < w)%N ->
  N.testbit (disable_bit w v p) q = if N.eqb p q then false else N.testbit v q.
Proof.
  intros Hv Hp. unfold disable_bit. rewrite N.land_spec, testbit_lnot_full.
  destruct (N.ltb_spec q w).
  - destruct (N.eqb_spec p q) as [->|Hne].
    + rewrite N.shiftl_spec_high' by lia. rewrite N.sub_diag. cbn. apply andb_false_r.
    + replace (N.testbit (N.shiftl 1 p) q) with false; [apply andb_true_r|].
      destruct (N.ltb_spec q p).
      * rewrite N.shiftl_spec_low by lia. reflexivity.
      * rewrite N.shiftl_spec_high' by lia. destruct (q - p)%N eqn:E; [lia|]. reflexivity.
  - rewrite (testbit_high v w q) by assumption. destruct (N.eqb p q); reflexivity.
Qed.

Lemma testbit_set w v p q b : (v < 2 ^ w)%N -> (p < w)%N ->
  N.testbit (set_bit w v p b) q = if N.eqb p q then b else N.testbit v q.
Proof.
  intros Hv Hp. unfold set_bit. destruct b.
  - apply testbit_enable.
  - apply testbit_disable; assumption.
Qed.

Lemma enable_bit_lt w v p : (v < 2 ^ w)%N -> (p < w)%N -> (enable_bit v p < 2 ^ w)%N.
Proof.
  intros Hv Hp. apply lt_pow2_testbit. intros q Hq. rewrite testbit_enable.
  destruct (N.eqb_spec p q); [lia|]. eapply testbit_high; eauto.
Qed.
Lemma disable_bit_lt w v p : (v < 2 ^ w)%N -> (disable_bit w v p < 2 ^ w)%N.
Proof.
  intros Hv. apply lt_pow2_testbit. intros q Hq. unfold disable_bit. rewrite N.land_spec.
  rewrite (testbit_high v w q) by assumption. reflexivity.
Qed.
Lemma set_bit_lt w v p b : (v < 2 ^ w)%N -> (p < w)%N -> (set_bit w v p b < 2 ^ w)%N.
Proof. intros. unfold set_bit. destruct b; [apply enable_bit_lt|apply disable_bit_lt]; assumption. Qed.

(* --- bytes and words --- *)

Lemma bitAt_nil i : bitAt [] i = false.
Proof. unfold bitAt. destruct (i / 8); simpl; apply N.bits_0. Qed.

Lemma bitAt_high m i : length m * 8 <= i -> bitAt m i = false.
Proof. intros H. unfold bitAt. rewrite nth_overflow by lia. apply N.bits_0. Qed.

Lemma wf_nth m i : wf_bytes m -> (nth i m 0 < 256)%N.
Proof.
  intros H. destruct (Nat.ltb_spec i (length m)).
  - unfold wf_bytes in H. rewrite Forall_forall in H. apply H. apply nth_In. assumption.
  - rewrite nth_overflow by assumption. lia.
Qed.

Lemma le_decode_lt bs : wf_bytes bs -> (le_decode bs < 2 ^ (8 * N.of_nat (length bs)))%N.
Proof.
  induction 1 as [|b t Hb Ht IH]; cbn [le_decode length]; [cbn; lia|].
  replace (8 * N.of_nat (S (length t)))%N with (8 + 8 * N.of_nat (length t))%N by lia.
  rewrite N.pow_add_r. change (2 ^ 8)%N with 256%N. lia.
Qed.

Lemma testbit_le_decode bs t : wf_bytes bs ->
  N.testbit (le_decode bs) (N.of_nat t) = bitAt bs t.
Proof.
  intros H. revert t; induction H as [|b r Hb Hr IH]; intros t; cbn [le_decode].
  - rewrite bitAt_nil. apply N.bits_0.
  - unfold bitAt. destruct (Nat.ltb_spec t 8) as [Hlt|Hge].
    + rewrite Nat.div_small, Nat.mod_small by lia. cbn [nth].
      rewrite <- (N.mod_pow2_bits_low (b + 256 * le_decode r) 8) by lia.
      f_equal. change (2 ^ 8)%N with 256%N. rewrite N.mul_comm, N.mod_add by lia.
      apply N.mod_small. assumption.
    + replace (t / 8) with (S ((t - 8) / 8)) by lia.
      cbn [nth]. replace (t mod 8) with ((t - 8) mod 8) by lia.
      fold (bitAt r (t - 8)). rewrite <- IH.
      replace (N.of_nat t) with (N.of_nat (t - 8) + 8)%N by lia.
      rewrite <- N.div_pow2_bits. f_equal. change (2 ^ 8)%N with 256%N.
      rewrite N.mul_comm, N.div_add by lia. rewrite N.div_small by assumption. lia.
Qed.

Lemma bitAt_sub m a b t : a <= b -> bitAt (sub m a b) t = if t <? (b - a) * 8 then bitAt m (a * 8 + t) else false.
Proof.
  intros H. unfold bitAt. rewrite nth_sub.
  replace ((a * 8 + t) / 8) with (a + t / 8) by lia.
  replace ((a * 8 + t) mod 8) with (t mod 8) by lia.
  destruct (Nat.ltb_spec (t / 8) (b - a)), (Nat.ltb_spec t ((b - a) * 8)); try lia; try reflexivity.
Qed.

Lemma wf_sub m a b : wf_bytes m -> wf_bytes (sub m a b).
Proof. apply Forall_sub. Qed.

(** The central lemma: bit [t] of word [i]. *)
Lemma testbit_word k m i t : wf_bytes m ->
  N.testbit (word k m i) (N.of_nat t) = if t <? k * 8 then bitAt m (i * (k * 8) + t) else false.
Proof.
  intros H. unfold word. rewrite testbit_le_decode by (apply wf_sub; assumption).
  rewrite bitAt_sub by lia. replace (i * k + k - i * k) with k by lia.
  destruct (t <? k * 8); [|reflexivity]. f_equal. lia.
Qed.

Lemma word_lt k m i : wf_bytes m -> (word k m i < 2 ^ (8 * N.of_nat k))%N.
Proof.
  intros H. apply lt_pow2_testbit. intros q Hq.
  rewrite <- (N2Nat.id q). rewrite testbit_word by assumption.
  destruct (Nat.ltb_spec (N.to_nat q) (k * 8)); [lia|reflexivity].
Qed.

Lemma le_encode_length k v : length (le_encode k v) = k.
Proof. revert v; induction k; intros; simpl; auto. Qed.
Lemma le_encode_wf k v : wf_bytes (le_encode k v).
Proof. revert v; induction k; intros; simpl; constructor; [apply N.mod_lt; lia|apply IHk]. Qed.

Lemma bitAt_le_encode k v t : bitAt (le_encode k v) t = if t <? k * 8 then N.testbit v (N.of_nat t) else false.
Proof.
  revert v t; induction k as [|k IH]; intros v t; cbn [le_encode].
  - rewrite bitAt_nil. reflexivity.
  - unfold bitAt. destruct (Nat.ltb_spec t 8) as [Hlt|Hge].
    + rewrite Nat.div_small, Nat.mod_small by lia. cbn [nth].
      change 256%N with (2 ^ 8)%N. rewrite N.mod_pow2_bits_low by lia.
      destruct (Nat.ltb_spec t (S k * 8)); [reflexivity|lia].
    + replace (t / 8) with (S ((t - 8) / 8)) by lia. cbn [nth].
      replace (t mod 8) with ((t - 8) mod 8) by lia.
      fold (bitAt (le_encode k (v / 256)) (t - 8)). rewrite IH.
      change 256%N with (2 ^ 8)%N. rewrite N.div_pow2_bits.
      replace (N.of_nat (t - 8) + 8)%N with (N.of_nat t) by lia.
      destruct (Nat.ltb_spec (t - 8) (k * 8)), (Nat.ltb_spec t (S k * 8)); try lia; reflexivity.
Qed.

Lemma bitAt_app m1 m2 t : bitAt (m1 ++ m2) t =
  if t <? length m1 * 8 then bitAt m1 t else bitAt m2 (t - length m1 * 8).
Proof.
  unfold bitAt. destruct (Nat.ltb_spec t (length m1 * 8)).
  - rewrite app_nth1 by lia. reflexivity.
  - rewrite app_nth2 by lia. replace ((t - length m1 * 8) / 8) with (t / 8 - length m1) by lia.
    replace ((t - length m1 * 8) mod 8) with (t mod 8) by lia. reflexivity.
Qed.

Lemma wf_app m1 m2 : wf_bytes m1 -> wf_bytes m2 -> wf_bytes (m1 ++ m2).
Proof. intros. apply Forall_app; split; assumption. Qed.
Lemma wf_firstn n m : wf_bytes m -> wf_bytes (firstn n m).
Proof. intros H. replace (firstn n m) with (sub m 0 n) by (unfold sub; rewrite Nat.sub_0_r; reflexivity). apply wf_sub; assumption. Qed.
Lemma wf_skipn n m : wf_bytes m -> wf_bytes (skipn n m).
Proof.
  intros H. unfold wf_bytes in *. rewrite Forall_forall in *. intros x Hx. apply H.
  rewrite <- (firstn_skipn n m). apply in_or_app. right; assumption.
Qed.

Lemma put_word_length k m i v : i * k + k <= length m -> length (put_word k m i v) = length m.
Proof. intros H. unfold put_word. rewrite !app_length, firstn_length, le_encode_length, skipn_length. lia. Qed.
Lemma put_word_wf k m i v : wf_bytes m -> wf_bytes (put_word k m i v).
Proof. intros H. unfold put_word. repeat apply wf_app; auto using wf_firstn, wf_skipn, le_encode_wf. Qed.

Lemma bitAt_firstn n m t : bitAt (firstn n m) t = if t <? n * 8 then bitAt m t else false.
Proof.
  unfold bitAt. rewrite nth_firstn.
  destruct (Nat.ltb_spec (t / 8) n), (Nat.ltb_spec t (n * 8)); try lia; try reflexivity.
Qed.
Lemma bitAt_skipn n m t : bitAt (skipn n m) t = bitAt m (n * 8 + t).
Proof.
  unfold bitAt. rewrite nth_skipn.
  replace ((n * 8 + t) / 8) with (n + t / 8) by lia.
  replace ((n * 8 + t) mod 8) with (t mod 8) by lia. reflexivity.
Qed.

Lemma bitAt_put_word k m i v t : i * k + k <= length m ->
  bitAt (put_word k m i v) t =
  if (i * (k * 8) <=? t) && (t <? i * (k * 8) + k * 8) then N.testbit v (N.of_nat (t - i * (k * 8)))
  else bitAt m t.
Proof.
  intros H. unfold put_word.
  rewrite bitAt_app, firstn_length. replace (Nat.min (i * k) (length m)) with (i * k) by lia.
  rewrite bitAt_app, le_encode_length, bitAt_firstn, bitAt_le_encode, bitAt_skipn.
  replace (i * k * 8) with (i * (k * 8)) by lia.
  destruct (Nat.ltb_spec t (i * (k * 8))).
  - destruct (Nat.leb_spec (i * (k * 8)) t); [lia|]. reflexivity.
  - destruct (Nat.leb_spec (i * (k * 8)) t); [|lia]. cbn [andb].
    destruct (Nat.ltb_spec (t - i * (k * 8)) (k * 8)), (Nat.ltb_spec t (i * (k * 8) + k * 8)); try lia;
      [reflexivity|]. f_equal. lia.
Qed.

(** Two well-formed byte strings with equal lengths and bits are equal. *)
Lemma bytes_ext m1 m2 : wf_bytes m1 -> wf_bytes m2 -> length m1 = length m2 ->
  (forall t, bitAt m1 t = bitAt m2 t) -> m1 = m2.
Proof.
  intros H1 H2 Hl H. apply (list_eq_nth _ 0%N); [assumption|]. intros i Hi.
  apply N.bits_inj. intros q.
  destruct (N.ltb_spec q 8).
  - specialize (H (i * 8 + N.to_nat q)). unfold bitAt in H.
    replace ((i * 8 + N.to_nat q) / 8) with i in H by lia.
    replace (N.of_nat ((i * 8 + N.to_nat q) mod 8)) with q in H by lia. exact H.
  - rewrite !(testbit_high _ 8); auto; change (2 ^ 8)%N with 256%N; apply wf_nth; assumption.
Qed.

(** Two words are equal when their bits below the width agree. *)
Lemma bits_ext_lt w a b : (a < 2 ^ w)%N -> (b < 2 ^ w)%N ->
  (forall t, (N.of_nat t < w)%N -> N.testbit a (N.of_nat t) = N.testbit b (N.of_nat t)) -> a = b.
Proof.
  intros Ha Hb H. apply N.bits_inj. intros q. destruct (N.ltb_spec q w).
  - specialize (H (N.to_nat q)). rewrite N2Nat.id in H. auto.
  - rewrite !(testbit_high _ w); auto.
Qed.

(* --- blocks --- *)

Lemma wf_bb_zeros : wf_block bb_zeros.
Proof. split; [reflexivity|]. unfold wf_bytes, bb_zeros. apply Forall_forall. intros x Hx. apply repeat_spec in Hx. lia. Qed.
Lemma wf_bb_ones : wf_block bb_ones.
Proof. split; [reflexivity|]. unfold wf_bytes, bb_ones. apply Forall_forall. intros x Hx. apply repeat_spec in Hx. lia. Qed.

Lemma nth_repeat_lt A (a d : A) n i : i < n -> nth i (repeat a n) d = a.
Proof. revert i; induction n as [|n IH]; intros [|i] H; simpl; try lia; auto. apply IH; lia. Qed.

Lemma bitAt_zeros t : bitAt bb_zeros t = false.
Proof.
  unfold bitAt, bb_zeros. destruct (Nat.ltb_spec (t / 8) BITBLOCK_BYTES).
  - rewrite nth_repeat_lt by assumption. apply N.bits_0.
  - rewrite nth_overflow by (rewrite repeat_length; assumption). apply N.bits_0.
Qed.
Lemma bitAt_ones t : bitAt bb_ones t = (t <? 256).
Proof.
  unfold bitAt, bb_ones. destruct (Nat.ltb_spec (t / 8) BITBLOCK_BYTES).
  - rewrite nth_repeat_lt by assumption. change 255%N with (N.ones 8). rewrite N.ones_spec_low by lia.
    unfold BITBLOCK_BYTES in *. destruct (Nat.ltb_spec t 256); [reflexivity|lia].
  - rewrite nth_overflow by (rewrite repeat_length; assumption). rewrite N.bits_0.
    unfold BITBLOCK_BYTES in *. destruct (Nat.ltb_spec t 256); [lia|reflexivity].
Qed.

Lemma wf_blocks_len bs : wf_blocks bs -> forall b, In b bs -> length b = 32.
Proof. unfold wf_blocks. rewrite Forall_forall. intros H b Hb. apply H; assumption. Qed.

Lemma concat_wf bs : wf_blocks bs -> wf_bytes (concat bs).
Proof.
  induction 1 as [|b bs [Hl Hb] Hbs IH]; simpl; [constructor|]. apply wf_app; assumption.
Qed.
Lemma concat_len bs : wf_blocks bs -> length (concat bs) = length bs * 32.
Proof. intros H. apply concat_length_const. apply wf_blocks_len; assumption. Qed.

(** Bits of an array, block by block. *)
Lemma bbit_block bs i : wf_blocks bs -> bbit bs i = bitAt (nth (i / 256) bs []) (i mod 256).
Proof.
  intros H. unfold bbit, bitAt. rewrite (nth_concat _ _ 32) by (try lia; apply wf_blocks_len; assumption).
  replace (i / 8 / 32) with (i / 256) by lia.
  replace (i mod 256 / 8) with ((i / 8) mod 32) by lia.
  replace (i mod 256 mod 8) with (i mod 8) by lia. reflexivity.
Qed.

Lemma bbit_high bs i : wf_blocks bs -> length bs * 256 <= i -> bbit bs i = false.
Proof. intros H Hi. apply bitAt_high. rewrite concat_len by assumption. lia. Qed.

Lemma wf_blocks_nth bs i : wf_blocks bs -> i < length bs -> wf_block (nth i bs []).
Proof. intros H Hi. unfold wf_blocks in H. rewrite Forall_forall in H. apply H. apply nth_In; assumption. Qed.

(** BitBlock bit access. *)
Lemma bb_get_bit_ok b i : wf_block b -> i < 256 -> bb_get_bit b i = Ok (bitAt b i).
Proof.
  intros [Hl Hb] Hi. unfold bb_get_bit, get_blockpos, get_bitpos. rewrite (idx_lt _ _ _ 0%N) by lia.
  cbn [rbind]. rewrite get_bit_testbit. unfold bitAt. rewrite Nat.mul_1_l. reflexivity.
Qed.

Lemma bitAt_upd_byte m i b t : i < length m ->
  bitAt (upd m i b) t = if t / 8 =? i then N.testbit b (N.of_nat (t mod 8)) else bitAt m t.
Proof.
  intros H. unfold bitAt. rewrite nth_upd.
  destruct (Nat.eqb_spec i (t / 8)), (Nat.eqb_spec (t / 8) i), (Nat.ltb_spec i (length m)); try lia; reflexivity.
Qed.

Lemma bb_set_bit_ok b i v : wf_block b -> i < 256 ->
  exists b', bb_set_bit b i v = Ok b' /\ wf_block b' /\
             forall t, bitAt b' t = if i =? t then v else bitAt b t.
Proof.
  intros [Hl Hb] Hi. unfold bb_set_bit, bb_enable_bit, bb_disable_bit, get_blockpos, get_bitpos.
  rewrite (idx_lt _ _ _ 0%N) by lia. cbn [rbind]. rewrite !set_idx_lt by lia. rewrite !Nat.mul_1_l.
  pose proof (wf_nth b (i / 8) Hb) as Hn. change 256%N with (2 ^ 8)%N in Hn.
  exists (upd b (i / 8) (set_bit 8 (nth (i / 8) b 0%N) (N.of_nat (i mod 8)) v)).
  split; [destruct v; reflexivity|]. split; [split|].
  - rewrite upd_length; assumption.
  - apply upd_Forall; [assumption|]. apply set_bit_lt; [assumption|lia].
  - intros t. rewrite bitAt_upd_byte by lia. rewrite testbit_set by (try assumption; lia).
    destruct (Nat.eqb_spec (t / 8) (i / 8)) as [E|E].
    + destruct (N.eqb_spec (N.of_nat (i mod 8)) (N.of_nat (t mod 8))), (Nat.eqb_spec i t); try lia; try reflexivity.
      unfold bitAt. rewrite E. reflexivity.
    + destruct (Nat.eqb_spec i t); [lia|]. reflexivity.
Qed.

Lemma bb_set_bit_panic b i v : wf_block b -> 256 <= i -> bb_set_bit b i v = Panic.
Proof.
  intros [Hl Hb] Hi. unfold bb_set_bit, bb_enable_bit, bb_disable_bit, get_blockpos.
  rewrite !idx_ge by lia. destruct v; reflexivity.
Qed.

Lemma bbit_upd_block bs k b' t : wf_blocks bs -> wf_block b' -> k < length bs ->
  bbit (upd bs k b') t = if t / 256 =? k then bitAt b' (t mod 256) else bbit bs t.
Proof.
  intros H Hb Hk. rewrite !bbit_block; try assumption; try (apply upd_Forall; assumption).
  rewrite nth_upd.
  destruct (Nat.eqb_spec k (t / 256)), (Nat.eqb_spec (t / 256) k), (Nat.ltb_spec k (length bs)); try lia; reflexivity.
Qed.

Lemma bv_get_bit_ok bs i : wf_blocks bs -> i < length bs * 256 -> bv_get_bit bs i = Ok (bbit bs i).
Proof.
  intros H Hi. unfold bv_get_bit, BB_NBITS. rewrite (idx_lt block _ _ []) by lia. cbn [rbind].
  rewrite bb_get_bit_ok by (try (apply wf_blocks_nth; [assumption|lia]); lia).
  rewrite bbit_block by assumption. reflexivity.
Qed.
Lemma bv_get_bit_panic bs i : length bs * 256 <= i -> bv_get_bit bs i = Panic.
Proof. intros Hi. unfold bv_get_bit, BB_NBITS. rewrite idx_ge by lia. reflexivity. Qed.

Lemma bv_set_bit_ok bs i v : wf_blocks bs -> i < length bs * 256 ->
  exists bs', bv_set_bit bs i v = Ok bs' /\ wf_blocks bs' /\ length bs' = length bs /\
              forall t, bbit bs' t = if i =? t then v else bbit bs t.
Proof.
  intros H Hi. unfold bv_set_bit, BB_NBITS. rewrite (idx_lt block _ _ []) by lia. cbn [rbind].
  assert (Hw : wf_block (nth (i / 256) bs [])) by (apply wf_blocks_nth; [assumption|lia]).
  destruct (bb_set_bit_ok (nth (i / 256) bs []) (i mod 256) v Hw) as (b' & -> & Hb' & Hbit); [lia|].
  cbn [rbind]. rewrite set_idx_lt by lia. eexists; split; [reflexivity|].
  split; [apply upd_Forall; assumption|]. split; [apply upd_length|].
  intros t. rewrite bbit_upd_block by (try assumption; lia). rewrite Hbit.
  destruct (Nat.eqb_spec (t / 256) (i / 256)) as [E|E].
  - destruct (Nat.eqb_spec (i mod 256) (t mod 256)), (Nat.eqb_spec i t); try lia; try reflexivity.
    rewrite bbit_block, E by assumption. reflexivity.
  - destruct (Nat.eqb_spec i t); [subst; lia|]. reflexivity.
Qed.
Lemma bv_set_bit_panic bs i v : length bs * 256 <= i -> bv_set_bit bs i v = Panic.
Proof. intros Hi. unfold bv_set_bit, BB_NBITS. rewrite idx_ge by lia. reflexivity. Qed.

Lemma bv_enable_is_set bs i : bv_enable_bit bs i = bv_set_bit bs i true.
Proof. reflexivity. Qed.
Lemma bitset_disable_is_enable bs i : bitset_disable_bit bs i = bv_set_bit bs i true.
Proof. reflexivity. Qed.
