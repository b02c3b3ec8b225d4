(** Proofs about block arrays: constructors, casts, population counts. *)
From Verif Require Import Base BaseProofs BitModel BitSpec BitProofs.

(* --- sums and counts --- *)

Lemma sumf_S n f : sumf (S n) f = (sumf n f + f n)%N.
Proof. unfold sumf. rewrite seq_S, map_app, sumN_app. simpl. lia. Qed.
Lemma sumf_0 f : sumf 0 f = 0%N.
Proof. reflexivity. Qed.
Lemma sumf_ext n f g : (forall i, i < n -> f i = g i) -> sumf n f = sumf n g.
Proof. intros H. apply sumN_map_ext. intros x Hx. apply in_seq in Hx. apply H. lia. Qed.
Lemma sumf_add n f g : sumf n (fun i => (f i + g i)%N) = (sumf n f + sumf n g)%N.
Proof. apply sumN_map_add. Qed.
Lemma sumf_mul n c f : sumf n (fun i => (c * f i)%N) = (c * sumf n f)%N.
Proof. apply sumN_map_mul. Qed.
Lemma sumf_zero n f : (forall i, i < n -> f i = 0%N) -> sumf n f = 0%N.
Proof. intros H. apply sumN_map_zero. intros x Hx. apply in_seq in Hx. apply H. lia. Qed.
Lemma sumf_le n f g : (forall i, i < n -> (f i <= g i)%N) -> (sumf n f <= sumf n g)%N.
Proof. intros H. apply sumN_map_le. intros x Hx. apply in_seq in Hx. apply H. lia. Qed.
Lemma sumf_const n c : sumf n (fun _ => c) = (c * N.of_nat n)%N.
Proof. unfold sumf. rewrite sumN_map_const, seq_length. reflexivity. Qed.
Lemma sumf_swap n m f : sumf n (fun i => sumf m (fun j => f i j)) = sumf m (fun j => sumf n (fun i => f i j)).
Proof. apply sumN_swap. Qed.
Lemma sumf_plus n m f : sumf (n + m) f = (sumf n f + sumf m (fun i => f (n + i)%nat))%N.
Proof.
  unfold sumf. rewrite seq_app, map_app, sumN_app. f_equal. simpl.
  replace n with (n + 0) at 1 by lia. rewrite seq_shift_add, map_map. reflexivity.
Qed.
(** A sum over [n*k] positions, grouped by words of [k]. *)
Lemma sumf_group n k f : sumf (n * k) f = sumf n (fun i => sumf k (fun t => f (i * k + t))).
Proof.
  induction n as [|n IH]; [reflexivity|]. rewrite sumf_S, <- IH.
  replace (S n * k) with (n * k + k) by lia. apply sumf_plus.
Qed.

Lemma countf_sumf n p : countf n p = sumf n (fun i => b2n (p i)).
Proof.
  unfold countf, sumf. induction (seq 0 n) as [|x t IH]; simpl; [reflexivity|].
  rewrite <- IH. destruct (p x); cbn [length b2n]; lia.
Qed.
Lemma countf_ext n p q : (forall i, i < n -> p i = q i) -> countf n p = countf n q.
Proof. intros H. rewrite !countf_sumf. apply sumf_ext. intros i Hi. rewrite H; auto. Qed.
Lemma countf_le n p : (countf n p <= N.of_nat n)%N.
Proof. rewrite countf_sumf. rewrite <- (N.mul_1_l (N.of_nat n)), <- sumf_const. apply sumf_le. intros. destruct (p i); cbn; lia. Qed.

(* --- popcount --- *)

Lemma popcount_double v : popcount (2 * v) = popcount v.
Proof. destruct v; reflexivity. Qed.
Lemma popcount_succ_double v : popcount (2 * v + 1) = (1 + popcount v)%N.
Proof. destruct v; reflexivity. Qed.

Lemma popcount_sum n v : (v < 2 ^ N.of_nat n)%N ->
  popcount v = sumf n (fun t => b2n (N.testbit v (N.of_nat t))).
Proof.
  revert v; induction n as [|n IH]; intros v Hv.
  - cbn in Hv. assert (v = 0%N) as -> by lia. reflexivity.
  - replace (S n) with (1 + n) by lia. rewrite sumf_plus.
    change (sumf 1 (fun t => b2n (N.testbit v (N.of_nat t)))) with (b2n (N.testbit v 0) + 0)%N.
    rewrite (sumf_ext n _ (fun t => b2n (N.testbit (N.div2 v) (N.of_nat t)))).
    2:{ intros i Hi. f_equal. replace (N.of_nat (1 + i)) with (N.succ (N.of_nat i)) by lia.
        apply N.testbit_succ_r_div2. lia. }
    rewrite <- IH.
    2:{ rewrite N.div2_div. apply N.div_lt_upper_bound; [lia|].
        replace (2 * 2 ^ N.of_nat n)%N with (2 ^ N.of_nat (S n))%N; [exact Hv|].
        rewrite Nat2N.inj_succ, N.pow_succ_r'. reflexivity. }
    rewrite (N.div2_odd v) at 1. rewrite N.bit0_odd.
    destruct (N.odd v); cbn [N.b2n b2n].
    + rewrite popcount_succ_double. lia.
    + rewrite N.add_0_r, popcount_double. lia.
Qed.

Lemma popcount_word k m i : wf_bytes m ->
  popcount (word k m i) = countf (k * 8) (fun t => bitAt m (i * (k * 8) + t)).
Proof.
  intros H. rewrite (popcount_sum (k * 8)).
  2:{ replace (N.of_nat (k * 8)) with (8 * N.of_nat k)%N by lia. apply word_lt; assumption. }
  rewrite countf_sumf. apply sumf_ext. intros t Ht. rewrite testbit_word by assumption.
  destruct (Nat.ltb_spec t (k * 8)); [reflexivity|lia].
Qed.

(** [count_ones] of a block. *)
Lemma bb_count_ones_ok b : wf_block b -> bb_count_ones b = countf 256 (bitAt b).
Proof.
  intros [Hl Hb]. unfold bb_count_ones. change (BITBLOCK_BYTES / 8) with 4.
  fold (sumf 4 (fun i => popcount (word 8 b i))). rewrite countf_sumf. change 256 with (4 * 64).
  rewrite sumf_group. apply sumf_ext. intros i Hi. rewrite popcount_word by assumption.
  rewrite countf_sumf. reflexivity.
Qed.

Lemma bb_is_zero_ok b : wf_block b -> bb_is_zero b = true <-> forall t, bitAt b t = false.
Proof.
  intros [Hl Hb]. unfold bb_is_zero. rewrite forallb_forall. split.
  - intros H t. destruct (Nat.ltb_spec t 256) as [Ht|Ht]; [|apply bitAt_high; lia].
    specialize (H (t / 128)). rewrite in_seq in H. change (BITBLOCK_BYTES / 16) with 2 in H.
    assert (E : word 16 b (t / 128) = 0%N) by (apply N.eqb_eq, H; lia).
    pose proof (testbit_word 16 b (t / 128) (t mod 128) Hb) as Hw.
    rewrite E, N.bits_0 in Hw. destruct (Nat.ltb_spec (t mod 128) (16 * 8)); [|lia].
    replace (t / 128 * (16 * 8) + t mod 128) with t in Hw by lia. symmetry; exact Hw.
  - intros H i Hi. apply N.eqb_eq. apply N.bits_inj. intros q. rewrite N.bits_0.
    rewrite <- (N2Nat.id q), testbit_word by assumption. rewrite H. destruct (_ <? _); reflexivity.
Qed.

(* --- blocks_required_for --- *)

Lemma blocks_required_ok n : n <= blocks_required_for n * 256 /\ forall k, n <= k * 256 -> blocks_required_for n <= k.
Proof.
  unfold blocks_required_for, BB_NBITS. destruct (Nat.eqb_spec (n mod 256) 0).
  - split; [|intros k Hk]; lia.
  - split; [|intros k Hk]; lia.
Qed.
Lemma blocks_required_pos n : 0 < n -> 0 < blocks_required_for n.
Proof. intros H. pose proof (proj1 (blocks_required_ok n)). lia. Qed.
Lemma blocks_required_0 : blocks_required_for 0 = 0.
Proof. reflexivity. Qed.
Lemma blocks_required_lt n : 0 < n -> blocks_required_for n * 256 < n + 256.
Proof. unfold blocks_required_for, BB_NBITS. destruct (Nat.eqb_spec (n mod 256) 0); lia. Qed.

(* --- constructors --- *)

Lemma wf_repeat b n : wf_block b -> wf_blocks (repeat b n).
Proof. intros H. apply Forall_forall. intros x Hx. apply repeat_spec in Hx. subst; assumption. Qed.

Lemma bbit_repeat b n t : wf_block b -> bbit (repeat b n) t = if t <? n * 256 then bitAt b (t mod 256) else false.
Proof.
  intros H. destruct (Nat.ltb_spec t (n * 256)).
  - rewrite bbit_block by (apply wf_repeat; assumption). rewrite nth_repeat_lt by lia. reflexivity.
  - apply bbit_high; [apply wf_repeat; assumption|]. rewrite repeat_length. lia.
Qed.

Lemma zero_blocks_ok n : 0 < n -> zero_blocks n = Ok (repeat bb_zeros n).
Proof. intros H. unfold zero_blocks. destruct (Nat.ltb_spec 0 n); [reflexivity|lia]. Qed.

Lemma zero_bits_ok n : 0 < n ->
  exists bs, zero_bits n = Ok bs /\ wf_blocks bs /\ length bs = blocks_required_for n /\
             forall t, bbit bs t = false.
Proof.
  intros H. exists (repeat bb_zeros (blocks_required_for n)).
  split; [apply zero_blocks_ok, blocks_required_pos; assumption|].
  split; [apply wf_repeat, wf_bb_zeros|]. split; [apply repeat_length|].
  intros t. rewrite bbit_repeat by apply wf_bb_zeros. rewrite bitAt_zeros. destruct (_ <? _); reflexivity.
Qed.

Lemma rd_lt k m i : i < length m / k -> rd k m i = Ok (word k m i).
Proof. intros H. unfold rd. destruct (Nat.ltb_spec i (length m / k)); [reflexivity|lia]. Qed.
Lemma rd_uc_lt k m i : i < length m / k -> rd_uc k m i = Ok (word k m i).
Proof. intros H. unfold rd_uc. destruct (Nat.ltb_spec i (length m / k)); [reflexivity|lia]. Qed.
Lemma wr_lt k m i v : i < length m / k -> wr k m i v = Ok (put_word k m i v).
Proof. intros H. unfold wr. destruct (Nat.ltb_spec i (length m / k)); [reflexivity|lia]. Qed.
Lemma wr_uc_lt k m i v : i < length m / k -> wr_uc k m i v = Ok (put_word k m i v).
Proof. intros H. unfold wr_uc. destruct (Nat.ltb_spec i (length m / k)); [reflexivity|lia]. Qed.

Lemma lt_div_bound i l k : 0 < k -> i < l / k -> i * k + k <= l.
Proof. intros Hk H. pose proof (Nat.mul_div_le l k). nia. Qed.

Lemma mask_tail_loop_ok fuel zeros i last :
  wf_block last -> i < 4 -> i < fuel -> zeros <= 64 * (i + 1) ->
  (forall t, bitAt last t = (t <? 64 * (i + 1))) ->
  exists last', mask_tail_loop fuel zeros i last = Ok last' /\ wf_block last' /\
                forall t, bitAt last' t = (t <? 64 * (i + 1) - zeros).
Proof.
  revert zeros i last; induction fuel as [|fuel IH]; intros zeros i last [Hl Hw] Hi Hf Hz Hb; [lia|].
  cbn [mask_tail_loop].
  assert (Hr : i < length last / 8) by (rewrite Hl; change (32 / 8) with 4; lia).
  assert (Hfit : i * 8 + 8 <= length last) by (rewrite Hl; lia).
  destruct (Nat.leb_spec 64 zeros) as [H64|H64].
  - rewrite wr_lt by assumption. cbn [rbind].
    assert (Hb' : forall t, bitAt (put_word 8 last i 0) t = (t <? 64 * i)).
    { intros t. rewrite bitAt_put_word by assumption. rewrite Hb, N.bits_0.
      destruct (Nat.leb_spec (i * (8 * 8)) t), (Nat.ltb_spec t (i * (8 * 8) + 8 * 8)), (Nat.ltb_spec t (64 * i)),
        (Nat.ltb_spec t (64 * (i + 1))); cbn [andb]; try reflexivity; lia. }
    assert (Hw' : wf_block (put_word 8 last i 0)).
    { split; [rewrite put_word_length by assumption; assumption|apply put_word_wf; assumption]. }
    destruct (Nat.ltb_spec 64 zeros) as [H65|H65].
    + destruct i as [|i]; [lia|].
      destruct (IH (zeros - 64) i (put_word 8 last (S i) 0)) as (l' & -> & Hl' & Hbl); try assumption; try lia.
      { intros t. rewrite Hb'. replace (64 * (i + 1)) with (64 * S i) by lia. reflexivity. }
      exists l'; split; [reflexivity|]. split; [assumption|]. intros t. rewrite Hbl.
      replace (64 * (i + 1) - (zeros - 64)) with (64 * (S i + 1) - zeros) by lia. reflexivity.
    + eexists; split; [reflexivity|]. split; [assumption|]. intros t. rewrite Hb'.
      replace (64 * (i + 1) - zeros) with (64 * i) by lia. reflexivity.
  - rewrite rd_lt by assumption. cbn [rbind]. rewrite wr_lt by assumption. cbn [rbind].
    destruct (Nat.ltb_spec 64 zeros); [lia|]. eexists; split; [reflexivity|].
    split; [split; [rewrite put_word_length by assumption; assumption|apply put_word_wf; assumption]|].
    intros t. rewrite bitAt_put_word by assumption.
    rewrite Hb. rewrite N.shiftr_spec'. rewrite <- Nat2N.inj_add. rewrite testbit_word by assumption. rewrite Hb.
    destruct (Nat.leb_spec (i * (8 * 8)) t), (Nat.ltb_spec t (i * (8 * 8) + 8 * 8)); cbn [andb];
      try (destruct (Nat.ltb_spec t (64 * (i + 1))), (Nat.ltb_spec t (64 * (i + 1) - zeros)); try reflexivity; lia).
    destruct (Nat.ltb_spec (t - i * (8 * 8) + zeros) (8 * 8));
      destruct (Nat.ltb_spec (i * (8 * 8) + (t - i * (8 * 8) + zeros)) (64 * (i + 1))), (Nat.ltb_spec t (64 * (i + 1) - zeros));
      try reflexivity; lia.
Qed.

Lemma rev_repeat A (a : A) n : rev (repeat a n) = repeat a n.
Proof.
  induction n as [|n IH]; [reflexivity|]. simpl. rewrite IH. rewrite repeat_cons. reflexivity.
Qed.

Lemma mask_tail_ok n nb : 0 < nb -> n <= nb * 256 -> nb * 256 <= n + 256 ->
  exists bs, mask_tail n (repeat bb_ones nb) = Ok bs /\ wf_blocks bs /\ length bs = nb /\
             forall t, bbit bs t = (t <? n).
Proof.
  intros Hnb H1 H2. destruct nb as [|nb]; [lia|].
  unfold mask_tail. rewrite rev_repeat. cbn [repeat]. rewrite rev_repeat.
  replace (length (bb_ones :: repeat bb_ones nb)) with (S nb) by (simpl; rewrite repeat_length; reflexivity).
  unfold BB_NBITS.
  destruct (mask_tail_loop_ok 5 (S nb * 256 - n) 3 bb_ones) as (l' & -> & Hl' & Hb); try lia; try apply wf_bb_ones.
  { intros t. rewrite bitAt_ones. reflexivity. }
  cbn [rbind]. eexists; split; [reflexivity|].
  assert (Hwf : wf_blocks (repeat bb_ones nb ++ [l'])).
  { apply Forall_app; split; [apply wf_repeat, wf_bb_ones|constructor; [assumption|constructor]]. }
  split; [assumption|]. split; [rewrite app_length, repeat_length; simpl; lia|].
  intros t. destruct (Nat.ltb_spec t (nb * 256)) as [Ht|Ht].
  - rewrite bbit_block by assumption. rewrite app_nth1 by (rewrite repeat_length; lia).
    rewrite nth_repeat_lt by lia. rewrite bitAt_ones.
    destruct (Nat.ltb_spec (t mod 256) 256), (Nat.ltb_spec t n); try reflexivity; lia.
  - destruct (Nat.ltb_spec t (S nb * 256)) as [Ht2|Ht2].
    + rewrite bbit_block by assumption. rewrite app_nth2 by (rewrite repeat_length; lia).
      rewrite repeat_length. replace (t / 256 - nb) with 0 by lia. cbn [nth]. rewrite Hb.
      destruct (Nat.ltb_spec (t mod 256) (64 * (3 + 1) - (S nb * 256 - n))), (Nat.ltb_spec t n); try reflexivity; lia.
    + rewrite bbit_high by (try assumption; rewrite app_length, repeat_length; simpl; lia).
      destruct (Nat.ltb_spec t n); [lia|reflexivity].
Qed.

Lemma one_bits_ok n : 0 < n ->
  exists bs, one_bits n = Ok bs /\ wf_blocks bs /\ length bs = blocks_required_for n /\
             forall t, bbit bs t = (t <? n).
Proof.
  intros H. unfold one_bits, one_blocks. pose proof (blocks_required_pos n H).
  pose proof (blocks_required_lt n H). pose proof (proj1 (blocks_required_ok n)).
  unfold rassert. destruct (Nat.ltb_spec 0 (blocks_required_for n)); [|lia]. cbn [rbind].
  apply mask_tail_ok; lia.
Qed.

(* --- casts --- *)

Lemma to_blocks_concat bs : wf_blocks bs -> to_blocks (length bs) (concat bs) = bs.
Proof.
  induction 1 as [|b bs [Hl Hb] Hbs IH]; cbn [length to_blocks concat]; [reflexivity|].
  unfold BITBLOCK_BYTES. rewrite firstn_app, skipn_app, Hl. rewrite Nat.sub_diag.
  rewrite firstn_O, app_nil_r. rewrite firstn_all2, skipn_all2 by lia. simpl. rewrite IH. reflexivity.
Qed.

Lemma concat_to_blocks n m : length m = n * 32 -> concat (to_blocks n m) = m.
Proof.
  revert m; induction n as [|n IH]; intros m H; cbn [to_blocks concat].
  - destruct m; [reflexivity|discriminate].
  - rewrite IH. apply firstn_skipn. rewrite skipn_length. unfold BITBLOCK_BYTES. lia.
Qed.
Lemma to_blocks_length n m : length (to_blocks n m) = n.
Proof. revert m; induction n; intros; simpl; auto. Qed.
Lemma to_blocks_wf n m : length m = n * 32 -> wf_bytes m -> wf_blocks (to_blocks n m).
Proof.
  revert m; induction n as [|n IH]; intros m H Hw; cbn [to_blocks]; [constructor|]. constructor.
  - split; [rewrite firstn_length; unfold BITBLOCK_BYTES; lia|apply wf_firstn; assumption].
  - apply IH; [rewrite skipn_length; unfold BITBLOCK_BYTES; lia|apply wf_skipn; assumption].
Qed.

Lemma bytes_of_len_div k bs : wf_blocks bs -> (exists q, q * k = 32) -> length (bytes_of bs) / k = block_len k bs.
Proof.
  intros H [q Hq]. unfold bytes_of, block_len. rewrite concat_len by assumption.
  unfold BITBLOCK_BYTES. assert (0 < k) by (destruct k; lia).
  replace (32 / k) with q by (rewrite <- Hq; symmetry; apply Nat.div_mul; lia).
  replace (length bs * 32) with (length bs * q * k) by nia. apply Nat.div_mul. lia.
Qed.

Lemma bs_set_ok k bs i v : wf_blocks bs -> (exists q, q * k = 32) -> i < block_len k bs ->
  exists bs', bs_set k bs i v = Ok bs' /\ wf_blocks bs' /\ length bs' = length bs /\
    forall t, bbit bs' t = if (i * (k * 8) <=? t) && (t <? i * (k * 8) + k * 8)
                           then N.testbit v (N.of_nat (t - i * (k * 8))) else bbit bs t.
Proof.
  intros H Hk Hi. assert (0 < k) by (destruct Hk as [q Hq]; destruct k; lia).
  assert (Hlt : i < length (bytes_of bs) / k) by (rewrite bytes_of_len_div; assumption).
  assert (Hfit : i * k + k <= length (bytes_of bs)) by (apply lt_div_bound; assumption).
  assert (Hlen : length (put_word k (bytes_of bs) i v) = length bs * 32)
    by (rewrite put_word_length by assumption; apply concat_len; assumption).
  unfold bs_set. rewrite wr_lt by assumption. cbn [rbind]. eexists; split; [reflexivity|].
  split; [apply to_blocks_wf; [assumption|apply put_word_wf, concat_wf; assumption]|].
  split; [apply to_blocks_length|]. intros t. unfold bbit at 1. rewrite concat_to_blocks by assumption.
  apply bitAt_put_word; assumption.
Qed.

Lemma bs_set_uc_eq k bs i v : wf_blocks bs -> (exists q, q * k = 32) -> i < block_len k bs ->
  bs_set_uc k bs i v = bs_set k bs i v.
Proof.
  intros H Hk Hi. assert (Hlt : i < length (bytes_of bs) / k) by (rewrite bytes_of_len_div; assumption).
  unfold bs_set_uc, bs_set. rewrite wr_lt, wr_uc_lt by assumption. reflexivity.
Qed.

Lemma bs_get_ok k bs i : wf_blocks bs -> (exists q, q * k = 32) -> i < block_len k bs ->
  bs_get k bs i = Ok (word k (concat bs) i).
Proof. intros H Hk Hi. unfold bs_get. apply rd_lt. rewrite bytes_of_len_div; assumption. Qed.
Lemma bs_get_uc_ok k bs i : wf_blocks bs -> (exists q, q * k = 32) -> i < block_len k bs ->
  bs_get_uc k bs i = Ok (word k (concat bs) i).
Proof. intros H Hk Hi. unfold bs_get_uc. apply rd_uc_lt. rewrite bytes_of_len_div; assumption. Qed.

Lemma testbit_bs_word k bs i t : wf_blocks bs ->
  N.testbit (word k (concat bs) i) (N.of_nat t) = if t <? k * 8 then bbit bs (i * (k * 8) + t) else false.
Proof. intros H. apply testbit_word, concat_wf, H. Qed.

(** Round trip of [set]/[get] for words. *)
Lemma bs_get_set k bs i v bs' j : wf_blocks bs -> (exists q, q * k = 32) -> (v < 2 ^ (8 * N.of_nat k))%N ->
  bs_set k bs i v = Ok bs' -> j < block_len k bs ->
  bs_get k bs' j = if i =? j then Ok v else bs_get k bs j.
Proof.
  intros H Hk Hv Hs Hj. assert (Hk0 : 0 < k) by (destruct Hk as [q Hq]; destruct k; lia).
  destruct (Nat.ltb_spec i (block_len k bs)) as [Hi|Hi].
  - destruct (bs_set_ok k bs i v H Hk Hi) as (bs2 & E & Hw & Hl & Hb). rewrite E in Hs. injection Hs as ->.
    assert (Hj' : j < block_len k bs') by (unfold block_len in *; rewrite Hl; assumption).
    rewrite !bs_get_ok by assumption.
    assert (Hext : forall w, (w < 2 ^ (8 * N.of_nat k))%N ->
              (forall t, t < k * 8 -> bbit bs' (j * (k * 8) + t) = N.testbit w (N.of_nat t)) ->
              word k (concat bs') j = w).
    { intros w Hw' Hbits. apply (bits_ext_lt (8 * N.of_nat k)); [apply word_lt, concat_wf; assumption|assumption|].
      intros t Ht. rewrite testbit_bs_word by assumption. destruct (Nat.ltb_spec t (k * 8)); [apply Hbits; assumption|lia]. }
    destruct (Nat.eqb_spec i j) as [->|Hne].
    + f_equal. apply Hext; [assumption|]. intros t Ht. rewrite Hb.
      destruct (Nat.leb_spec (j * (k * 8)) (j * (k * 8) + t)), (Nat.ltb_spec (j * (k * 8) + t) (j * (k * 8) + k * 8)); try lia.
      cbn [andb]. f_equal. lia.
    + f_equal. apply Hext; [apply word_lt, concat_wf; assumption|]. intros t Ht. rewrite Hb, testbit_bs_word by assumption.
      destruct (Nat.ltb_spec t (k * 8)); [|lia].
      destruct (Nat.leb_spec (i * (k * 8)) (j * (k * 8) + t)), (Nat.ltb_spec (j * (k * 8) + t) (i * (k * 8) + k * 8));
        cbn [andb]; try reflexivity. exfalso. nia.
  - unfold bs_set, wr in Hs. rewrite bytes_of_len_div in Hs by assumption.
    destruct (Nat.ltb_spec i (block_len k bs)); [lia|discriminate].
Qed.

(* --- from_iter --- *)

(** What the words of a block (or array) built from an iterator should be: bit [t] is bit [t mod 8k] of
    item [t / 8k]; zero past the end. *)
Lemma bb_from_iter_loop_ok k : forall n i it b, wf_block b -> 0 < k -> (i + n) * k <= 32 ->
  (forall t, i * (k * 8) <= t -> bitAt b t = false) ->
  let '(done, b', rest) := bb_from_iter_loop k (seq i n) it b in
  wf_block b' /\ rest = skipn n it /\ done = (length it <? n) /\
  forall t, bitAt b' t = if t <? i * (k * 8) then bitAt b t
                         else if t <? (i + n) * (k * 8)
                              then N.testbit (nth (t / (k * 8) - i) it 0%N) (N.of_nat (t mod (k * 8)))
                              else false.
Proof.
  induction n as [|n IH]; intros i it b Hw Hk Hfit Hz; cbn [seq bb_from_iter_loop].
  - split; [assumption|]. split; [reflexivity|]. split; [destruct (length it); reflexivity|].
    intros t. destruct (Nat.ltb_spec t (i * (k * 8))); [reflexivity|]. rewrite Hz by lia. destruct (_ <? _) eqn:E; [|reflexivity].
    apply Nat.ltb_lt in E. nia.
  - destruct it as [|v it].
    + split; [assumption|]. split; [reflexivity|]. split; [reflexivity|]. intros t.
      destruct (Nat.ltb_spec t (i * (k * 8))); [reflexivity|]. rewrite Hz by lia.
      destruct (t <? _); [|reflexivity]. destruct (t / (k * 8) - i); cbn [nth]; rewrite N.bits_0; reflexivity.
    + destruct Hw as [Hl Hb].
      assert (Hf : i * k + k <= length b) by nia.
      specialize (IH (S i) it (put_word k b i v)).
      destruct (bb_from_iter_loop k (seq (S i) n) it (put_word k b i v)) as [[done b'] rest] eqn:E.
      destruct IH as (Hw' & Hrest & Hdone & Hbits); try assumption; try nia.
      { split; [rewrite put_word_length by assumption; assumption|apply put_word_wf; assumption]. }
      { intros t Ht. rewrite bitAt_put_word by assumption.
        destruct (Nat.leb_spec (i * (k * 8)) t), (Nat.ltb_spec t (i * (k * 8) + k * 8)); cbn [andb]; try nia;
          apply Hz; nia. }
      split; [assumption|]. split; [exact Hrest|].
      split; [rewrite Hdone; reflexivity|]. intros t. rewrite Hbits. rewrite bitAt_put_word by assumption.
      replace ((S i + n) * (k * 8)) with ((i + S n) * (k * 8)) by lia.
      destruct (Nat.ltb_spec t (S i * (k * 8))) as [H1|H1].
      * destruct (Nat.ltb_spec t (i * (k * 8))) as [H2|H2].
        -- destruct (Nat.leb_spec (i * (k * 8)) t); [lia|]. reflexivity.
        -- destruct (Nat.leb_spec (i * (k * 8)) t); [|lia]. destruct (Nat.ltb_spec t (i * (k * 8) + k * 8)); [|nia].
           cbn [andb]. destruct (Nat.ltb_spec t ((i + S n) * (k * 8))); [|nia].
           assert (Hdiv : t / (k * 8) = i) by (symmetry; apply (Nat.div_unique t (k * 8) i (t - i * (k * 8))); nia).
           rewrite Hdiv, Nat.sub_diag. cbn [nth]. f_equal. f_equal.
           rewrite Nat.mod_eq by lia. rewrite Hdiv. lia.
      * destruct (Nat.ltb_spec t (i * (k * 8))) as [H2|H2]; [nia|].
        destruct (Nat.ltb_spec t ((i + S n) * (k * 8))); [|reflexivity].
        assert (Hdiv : S i <= t / (k * 8)) by (apply Nat.div_le_lower_bound; nia).
        replace (t / (k * 8) - i) with (S (t / (k * 8) - S i)) by lia. cbn [nth]. reflexivity.
Qed.

Lemma bb_from_iter_ok k it : 0 < k -> (exists q, q * k = 32) ->
  let '(done, b, rest) := bb_from_iter k it in
  wf_block b /\ rest = skipn (32 / k) it /\ done = (length it <? 32 / k) /\
  forall t, bitAt b t = if t <? 256 then N.testbit (nth (t / (k * 8)) it 0%N) (N.of_nat (t mod (k * 8))) else false.
Proof.
  intros Hk [q Hq]. unfold bb_from_iter, BITBLOCK_BYTES.
  assert (Hd : 32 / k = q) by (rewrite <- Hq; apply Nat.div_mul; lia). rewrite Hd.
  pose proof (bb_from_iter_loop_ok k q 0 it bb_zeros wf_bb_zeros Hk) as H.
  destruct (bb_from_iter_loop k (seq 0 q) it bb_zeros) as [[done b] rest].
  destruct H as (H1 & H2 & H3 & H4); [lia|intros; apply bitAt_zeros|].
  repeat split; auto; try apply H1. intros t. rewrite H4.
  replace ((0 + q) * (k * 8)) with 256 by lia. rewrite Nat.sub_0_r. reflexivity.
Qed.

Lemma bbit_cons b bs t : wf_block b -> bbit (b :: bs) t = if t <? 256 then bitAt b t else bbit bs (t - 256).
Proof.
  intros [Hl Hb]. unfold bbit. cbn [concat]. rewrite bitAt_app, Hl. reflexivity.
Qed.

Lemma nth_skipn_items (it : list N) n i : nth i (skipn n it) 0%N = nth (n + i) it 0%N.
Proof. apply nth_skipn. Qed.

Lemma fill_from_iter_ok k n : 0 < k -> (exists q, q * k = 32) -> forall it,
  wf_blocks (fill_from_iter k n it) /\ length (fill_from_iter k n it) = n /\
  forall t, bbit (fill_from_iter k n it) t =
    if t <? n * 256 then N.testbit (nth (t / (k * 8)) it 0%N) (N.of_nat (t mod (k * 8))) else false.
Proof.
  intros Hk Hq. induction n as [|n IH]; intros it; cbn [fill_from_iter].
  - repeat split; [constructor|]. intros t. unfold bbit. cbn [concat]. rewrite bitAt_nil. reflexivity.
  - pose proof (bb_from_iter_ok k it Hk Hq) as H. destruct (bb_from_iter k it) as [[done b] rest].
    destruct H as (Hw & Hr & _ & Hb). subst rest. destruct (IH (skipn (32 / k) it)) as (Hw' & Hl' & Hb').
    split; [constructor; assumption|]. split; [simpl; rewrite Hl'; reflexivity|].
    intros t. rewrite bbit_cons by assumption. rewrite Hb, Hb'. rewrite nth_skipn.
    destruct Hq as [q Hq]. assert (Hd : 32 / k = q) by (rewrite <- Hq; apply Nat.div_mul; lia). rewrite Hd.
    destruct (Nat.ltb_spec t 256) as [H1|H1].
    + destruct (Nat.ltb_spec t (S n * 256)); [reflexivity|lia].
    + destruct (Nat.ltb_spec (t - 256) (n * 256)), (Nat.ltb_spec t (S n * 256)); try lia; try reflexivity.
      assert (Et : t = (t - 256) + q * (k * 8)) by lia.
      assert (E1 : t / (k * 8) = q + (t - 256) / (k * 8)) by (rewrite Et at 1; rewrite Nat.div_add by lia; lia).
      assert (E2 : t mod (k * 8) = (t - 256) mod (k * 8)) by (rewrite Et at 1; apply Nat.mod_add; lia).
      rewrite E1, E2. reflexivity.
Qed.

Lemma bb_from_bool_iter_loop_ok : forall n i it b, wf_block b -> i + n <= 256 ->
  (forall t, i <= t -> bitAt b t = false) ->
  exists b', bb_from_bool_iter_loop (seq i n) it b = Ok (length it <? n, b', skipn n it) /\ wf_block b' /\
  forall t, bitAt b' t = if t <? i then bitAt b t else if t <? i + n then nth (t - i) it false else false.
Proof.
  induction n as [|n IH]; intros i it b Hw Hfit Hz; cbn [seq bb_from_bool_iter_loop].
  - exists b. split; [destruct (length it); reflexivity|]. split; [assumption|]. intros t.
    destruct (Nat.ltb_spec t i); [reflexivity|]. rewrite Hz by lia. destruct (Nat.ltb_spec t (i + 0)); [lia|reflexivity].
  - destruct it as [|v it].
    + exists b. split; [reflexivity|]. split; [assumption|]. intros t.
      destruct (Nat.ltb_spec t i); [reflexivity|]. rewrite Hz by lia. destruct (t <? _); [|reflexivity].
      destruct (t - i); reflexivity.
    + destruct (bb_set_bit_ok b i v Hw) as (b1 & -> & Hw1 & Hb1); [lia|]. cbn [rbind].
      destruct (IH (S i) it b1) as (b2 & E & Hw2 & Hb2); try assumption; try lia.
      { intros t Ht. rewrite Hb1. destruct (Nat.eqb_spec i t); [lia|]. apply Hz; lia. }
      exists b2. split; [exact E|]. split; [assumption|]. intros t. rewrite Hb2, Hb1.
      destruct (Nat.ltb_spec t (S i)), (Nat.ltb_spec t i), (Nat.eqb_spec i t), (Nat.ltb_spec t (S i + n)), (Nat.ltb_spec t (i + S n)); try lia; try reflexivity.
      * subst. rewrite Nat.sub_diag. reflexivity.
      * replace (t - i) with (S (t - S i)) by lia. reflexivity.
Qed.

Lemma fill_from_bool_iter_ok n : forall it,
  exists bs, fill_from_bool_iter n it = Ok bs /\ wf_blocks bs /\ length bs = n /\
  forall t, bbit bs t = if t <? n * 256 then nth t it false else false.
Proof.
  induction n as [|n IH]; intros it; cbn [fill_from_bool_iter].
  - exists []. repeat split; [constructor|]. intros t. unfold bbit. cbn [concat]. rewrite bitAt_nil. reflexivity.
  - unfold bb_from_bool_iter, BB_NBITS.
    destruct (bb_from_bool_iter_loop_ok 256 0 it bb_zeros wf_bb_zeros) as (b & -> & Hw & Hb); [lia|intros; apply bitAt_zeros|].
    cbn [rbind]. destruct (IH (skipn 256 it)) as (bs & -> & Hws & Hl & Hbs). cbn [rbind].
    exists (b :: bs). split; [reflexivity|]. split; [constructor; assumption|]. split; [simpl; lia|].
    intros t. rewrite bbit_cons by assumption. rewrite Hb, Hbs, nth_skipn.
    destruct (Nat.ltb_spec t 256) as [H1|H1].
    + destruct (Nat.ltb_spec t 0), (Nat.ltb_spec t (0 + 256)), (Nat.ltb_spec t (S n * 256)); try lia. rewrite Nat.sub_0_r. reflexivity.
    + destruct (Nat.ltb_spec (t - 256) (n * 256)), (Nat.ltb_spec t (S n * 256)); try lia; try reflexivity.
      f_equal. lia.
Qed.
