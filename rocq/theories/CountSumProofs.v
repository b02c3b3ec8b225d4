(** Proofs about src/count_and_sum.rs: the uncompressed, half-compressed and merge-join kernels. *)
From Verif Require Import Base BaseProofs BitModel BitSpec BitProofs BitProofs2 SimdModel SimdProofs SliceModel SliceSpec SliceProofs SliceProofs2.

(* --- c00 and c10 --- *)

Lemma count_and2_c00_ok b1 b2 : wf_blocks b1 -> wf_blocks b2 -> length b1 <= length b2 ->
  (N.of_nat (length b1) < 2 ^ 40)%N ->
  count_and2_c00 b1 b2 = Ok (countf (length b1 * 256) (fun p => bbit b1 p && bbit b2 p)).
Proof.
  intros H1 H2 Hl Hn. unfold count_and2_c00, harley_seal64.
  rewrite (count_kernel _ b1 (bbit b2)); [reflexivity| |lia]. intros i Hi. apply load_and_ok; try assumption; lia.
Qed.

Lemma count_and2_c10_ok idxs b1 b2 : wf_blocks b1 -> wf_blocks idxs -> wf_blocks b2 -> length b1 <= length idxs ->
  idx_ok_for idxs b2 -> (N.of_nat (length b2) * 8 <= 2 ^ 31)%N -> (N.of_nat (length b1) < 2 ^ 40)%N ->
  count_and2_c10 idxs b1 b2 =
  Ok (countf (length b1 * 256) (fun p => bbit b1 p && bbit b2 (expand_pos (ixw idxs) p))).
Proof.
  intros H1 Hx H2 Hl Hix Hb Hn. unfold count_and2_c10, harley_seal64.
  rewrite (count_kernel _ b1 (fun p => bbit b2 (expand_pos (ixw idxs) p))); [reflexivity| |lia].
  intros i Hi. apply load_and_c_ok; try assumption; lia.
Qed.

Definition sum_and3_c00 (w : nat) (bsl b1 b2 : blocks) : res N :=
  if w =? 1 then sum_and3_w1_c00 bsl b1 b2 else if w =? 2 then sum_and3_w2_c00 bsl b1 b2
  else if w =? 4 then sum_and3_w4_c00 bsl b1 b2 else sum_and3_w8_c00 bsl b1 b2.
Definition sum_and3_c10 (w : nat) (bsl idxs b1 b2 : blocks) : res N :=
  if w =? 1 then sum_and3_w1_c10 bsl idxs b1 b2 else if w =? 2 then sum_and3_w2_c10 bsl idxs b1 b2
  else if w =? 4 then sum_and3_w4_c10 bsl idxs b1 b2 else sum_and3_w8_c10 bsl idxs b1 b2.

Lemma sum_and3_c00_ok w slice nm fm : valid_width w = true ->
  wf_blocks slice -> wf_blocks nm -> wf_blocks fm ->
  length slice = length nm * w -> length slice = length fm * w -> (N.of_nat (length slice) < 2 ^ 27)%N ->
  sum_and3_c00 w slice nm fm =
  Ok (masked_sum (length nm * 256) (fun p => bbit nm p && bbit fm p) (slice_val w (sbsize w) slice)).
Proof.
  intros Hw Hs Hn Hf E1 E2 Hb.
  assert (Hb' : (N.of_nat (length slice) < 2 ^ 40)%N) by (eapply N.lt_trans; [exact Hb|reflexivity]).
  destruct (valid_width_cases w Hw) as [->|[->|[->| ->]]]; unfold sum_and3_c00; cbn [Nat.eqb].
  - change (sbsize 1) with 256. unfold sum_and3_w1_c00, harley_seal64.
    rewrite (hs64_masked 1 256 _ _ slice (fun p => bbit nm p && bbit fm p)); [|reflexivity|weights wt1| |assumption].
    + f_equal. f_equal. lia.
    + intros i Hi. apply load_w1_uc_ok; assumption.
  - change (sbsize 2) with 128. unfold sum_and3_w2_c00, harley_seal64.
    rewrite (hs64_masked 2 128 _ _ slice (fun p => bbit nm p && bbit fm p)); [|reflexivity|weights wt2| |assumption].
    + f_equal. f_equal. lia.
    + intros i Hi. apply load_w2_uc_ok; assumption.
  - change (sbsize 4) with 64. unfold sum_and3_w4_c00, harley_seal64.
    rewrite (hs64_masked 4 64 _ _ slice (fun p => bbit nm p && bbit fm p)); [|reflexivity|weights wt4| |assumption].
    + f_equal. f_equal. lia.
    + intros i Hi. apply load_w4_uc_ok; assumption.
  - change (sbsize 8) with 32. unfold sum_and3_w8_c00, harley_seal32.
    rewrite (hs32_masked add_epi32 _ slice (fun p => bbit nm p && bbit fm p)); [|apply good_vadd| |assumption].
    + f_equal. f_equal. lia.
    + intros i Hi. apply load_w8_uc_ok; assumption.
Qed.

Lemma sum_and3_c10_ok w slice idxs nm fm : valid_width w = true ->
  wf_blocks slice -> wf_blocks idxs -> wf_blocks nm -> wf_blocks fm ->
  length slice = length idxs * w -> length slice = length nm * w -> idx_ok_for idxs fm ->
  (N.of_nat (length slice) < 2 ^ 27)%N -> (N.of_nat (length fm) * 8 <= 2 ^ 31)%N ->
  sum_and3_c10 w slice idxs nm fm =
  Ok (masked_sum (length nm * 256) (gmask nm fm (ixw idxs)) (slice_val w (sbsize w) slice)).
Proof.
  intros Hw Hs Hx Hn Hf E1 E2 Hix Hb Hbf.
  assert (Hb' : (N.of_nat (length slice) < 2 ^ 40)%N) by (eapply N.lt_trans; [exact Hb|reflexivity]).
  destruct (valid_width_cases w Hw) as [->|[->|[->| ->]]]; unfold sum_and3_c10; cbn [Nat.eqb].
  - change (sbsize 1) with 256. unfold sum_and3_w1_c10, harley_seal64.
    rewrite (hs64_masked 1 256 _ _ slice (gmask nm fm (ixw idxs))); [|reflexivity|weights wt1| |assumption].
    + f_equal. f_equal. lia.
    + intros i Hi. apply load_w1_c_ok; assumption.
  - change (sbsize 2) with 128. unfold sum_and3_w2_c10, harley_seal64.
    rewrite (hs64_masked 2 128 _ _ slice (gmask nm fm (ixw idxs))); [|reflexivity|weights wt2| |assumption].
    + f_equal. f_equal. lia.
    + intros i Hi. apply load_w2_c_ok; assumption.
  - change (sbsize 4) with 64. unfold sum_and3_w4_c10, harley_seal64.
    rewrite (hs64_masked 4 64 _ _ slice (gmask nm fm (ixw idxs))); [|reflexivity|weights wt4| |assumption].
    + f_equal. f_equal. lia.
    + intros i Hi. apply load_w4_c_ok; assumption.
  - change (sbsize 8) with 32. unfold sum_and3_w8_c10, harley_seal32.
    rewrite (hs32_masked add_epi32 _ slice (gmask nm fm (ixw idxs))); [|apply good_vadd| |assumption].
    + f_equal. f_equal. lia.
    + intros i Hi. apply load_w8_c_ok; assumption.
Qed.

(* --- c11: the merge join --- *)

Section Merge.
  Variables ix1 b1 ix2 b2 : list N.
  Variable ldv : nat -> nat -> N.        (* block of the first set's data at (position, lane) *)
  Variable ld : N -> nat -> nat -> res N.
  Variable w : nat.
  Hypothesis L1 : length ix1 = length b1.
  Hypothesis L2 : length ix2 = length b2.
  Hypothesis B1 : forall i, (nth i b1 0 < 2 ^ 32)%N.
  Hypothesis Hld : forall mask i ln, (mask < 2 ^ 32)%N -> i < length ix1 -> ln < w -> ld mask i ln = Ok (N.land (ldv i ln) mask).
  Notation X1 i := (nth i ix1 0%N). Notation X2 j := (nth j ix2 0%N).
  Notation M1 i := (nth i b1 0%N). Notation M2 j := (nth j b2 0%N).
  (** strictly increasing up to the last non-empty entry *)
  Hypothesis S1 : forall i j, i < j -> j < length ix1 -> M1 j <> 0%N -> (X1 i < X1 j)%N.
  Hypothesis S2 : forall i j, i < j -> j < length ix2 -> M2 j <> 0%N -> (X2 i < X2 j)%N.

  Definition mcell (ln i j : nat) : N :=
    if (X1 i =? X2 j)%N then popcount (N.land (ldv i ln) (N.land (M1 i) (M2 j))) else 0%N.
  (** pairs (i, j) with i >= i1, j >= i2 *)
  Definition mrest (ln i1 i2 : nat) : N :=
    sumf (length ix1 - i1) (fun a => sumf (length ix2 - i2) (fun b => mcell ln (i1 + a) (i2 + b))).

  Lemma mcell_zero1 ln i j : M1 i = 0%N -> mcell ln i j = 0%N.
  Proof. intros E. unfold mcell. rewrite E, N.land_0_l, N.land_0_r. destruct (_ =? _)%N; reflexivity. Qed.
  Lemma mcell_zero2 ln i j : M2 j = 0%N -> mcell ln i j = 0%N.
  Proof. intros E. unfold mcell. rewrite E, !N.land_0_r. destruct (_ =? _)%N; reflexivity. Qed.

  Lemma mcell_row ln i1 i2 j : (X1 i1 < X2 i2)%N -> i2 <= j < length ix2 -> mcell ln i1 j = 0%N.
  Proof.
    intros Hlt Hj. destruct (N.eq_dec (M2 j) 0) as [E|E]; [apply mcell_zero2; assumption|].
    unfold mcell. destruct (N.eqb_spec (X1 i1) (X2 j)); [|reflexivity].
    assert (i2 = j \/ i2 < j) as [->|Hl] by lia; [lia|]. assert (X2 i2 < X2 j)%N by (apply S2; lia || assumption). lia.
  Qed.
  Lemma mcell_col ln i1 i2 i : (X2 i2 < X1 i1)%N -> i1 <= i < length ix1 -> mcell ln i i2 = 0%N.
  Proof.
    intros Hlt Hj. destruct (N.eq_dec (M1 i) 0) as [E|E]; [apply mcell_zero1; assumption|].
    unfold mcell. destruct (N.eqb_spec (X1 i) (X2 i2)); [|reflexivity].
    assert (i1 = i \/ i1 < i) as [->|Hl] by lia; [lia|]. assert (X1 i1 < X1 i)%N by (apply S1; lia || assumption). lia.
  Qed.
  Lemma mcell_row_eq ln i1 i2 j : X1 i1 = X2 i2 -> i2 < j < length ix2 -> mcell ln i1 j = 0%N.
  Proof.
    intros Heq Hj. destruct (N.eq_dec (M2 j) 0) as [E|E]; [apply mcell_zero2; assumption|].
    unfold mcell. destruct (N.eqb_spec (X1 i1) (X2 j)); [|reflexivity].
    assert (X2 i2 < X2 j)%N by (apply S2; lia || assumption). lia.
  Qed.
  Lemma mcell_col_eq ln i1 i2 i : X1 i1 = X2 i2 -> i1 < i < length ix1 -> mcell ln i i2 = 0%N.
  Proof.
    intros Heq Hj. destruct (N.eq_dec (M1 i) 0) as [E|E]; [apply mcell_zero1; assumption|].
    unfold mcell. destruct (N.eqb_spec (X1 i) (X2 i2)); [|reflexivity].
    assert (X1 i1 < X1 i)%N by (apply S1; lia || assumption). lia.
  Qed.

  Lemma sumf_shift n f : sumf (S n) f = (f 0%nat + sumf n (fun a => f (S a)))%N.
  Proof. change (S n) with (1 + n). rewrite sumf_plus. rewrite sumf_S, sumf_0, N.add_0_l. reflexivity. Qed.

  Lemma mrest_end1 ln i1 i2 : length ix1 <= i1 -> mrest ln i1 i2 = 0%N.
  Proof. intros H. unfold mrest. replace (length ix1 - i1) with 0 by lia. reflexivity. Qed.
  Lemma mrest_end2 ln i1 i2 : length ix2 <= i2 -> mrest ln i1 i2 = 0%N.
  Proof. intros H. unfold mrest. replace (length ix2 - i2) with 0 by lia. apply sumf_zero. reflexivity. Qed.

  Lemma mrest_row ln i1 i2 : i1 < length ix1 ->
    mrest ln i1 i2 = (sumf (length ix2 - i2) (fun b => mcell ln i1 (i2 + b)) + mrest ln (S i1) i2)%N.
  Proof.
    intros H. unfold mrest. replace (length ix1 - i1) with (S (length ix1 - S i1)) by lia.
    rewrite sumf_shift. rewrite Nat.add_0_r. f_equal.
    apply sumf_ext. intros a Ha. replace (i1 + S a) with (S i1 + a) by lia. reflexivity.
  Qed.
  Lemma mrest_col ln i1 i2 : i2 < length ix2 ->
    mrest ln i1 i2 = (sumf (length ix1 - i1) (fun a => mcell ln (i1 + a) i2) + mrest ln i1 (S i2))%N.
  Proof.
    intros H. unfold mrest. rewrite <- sumf_add. apply sumf_ext. intros a Ha.
    replace (length ix2 - i2) with (S (length ix2 - S i2)) by lia.
    rewrite sumf_shift. rewrite Nat.add_0_r. f_equal.
    apply sumf_ext. intros b Hb. replace (i2 + S b) with (S i2 + b) by lia. reflexivity.
  Qed.

  Lemma mrest_lt ln i1 i2 : i1 < length ix1 -> i2 < length ix2 -> (X1 i1 < X2 i2)%N -> mrest ln i1 i2 = mrest ln (S i1) i2.
  Proof.
    intros H1 H2 Hlt. rewrite mrest_row by assumption. rewrite sumf_zero; [reflexivity|].
    intros b Hb. apply (mcell_row ln i1 i2); [assumption|lia].
  Qed.
  Lemma mrest_gt ln i1 i2 : i1 < length ix1 -> i2 < length ix2 -> (X2 i2 < X1 i1)%N -> mrest ln i1 i2 = mrest ln i1 (S i2).
  Proof.
    intros H1 H2 Hlt. rewrite mrest_col by assumption. rewrite sumf_zero; [reflexivity|].
    intros a Ha. apply (mcell_col ln i1 i2); [assumption|lia].
  Qed.
  Lemma mrest_eq ln i1 i2 : i1 < length ix1 -> i2 < length ix2 -> X1 i1 = X2 i2 ->
    mrest ln i1 i2 = (popcount (N.land (ldv i1 ln) (N.land (M1 i1) (M2 i2))) + mrest ln (S i1) (S i2))%N.
  Proof.
    intros H1 H2 Heq. rewrite mrest_row by assumption. rewrite (mrest_col ln (S i1)) by assumption.
    replace (length ix2 - i2) with (S (length ix2 - S i2)) by lia. rewrite sumf_shift, Nat.add_0_r.
    rewrite (sumf_zero (length ix2 - S i2)) by (intros b Hb; apply (mcell_row_eq ln i1 i2); [assumption|lia]).
    rewrite (sumf_zero (length ix1 - S i1)) by (intros a Ha; apply (mcell_col_eq ln i1 i2); [assumption|lia]).
    unfold mcell at 1. rewrite Heq, N.eqb_refl. lia.
  Qed.

  Lemma lane_fold (g : nat -> N) (f : nat -> res N) ss : length ss = w -> (forall ln, ln < w -> f ln = Ok (g ln)) ->
    exists ss', foldM (fun ss ln => let* b := f ln in let* s := idx_uc ss ln in set_idx_uc ss ln (s + popcount b)%N) (seq 0 w) ss = Ok ss' /\
      length ss' = w /\ forall ln, ln < w -> nth ln ss' 0%N = (nth ln ss 0 + popcount (g ln))%N.
  Proof.
    intros Hl Hf.
    assert (G : forall n, n <= w -> exists ss', foldM (fun ss ln => let* b := f ln in let* s := idx_uc ss ln in set_idx_uc ss ln (s + popcount b)%N) (seq 0 n) ss = Ok ss' /\
      length ss' = w /\ forall ln, ln < w -> nth ln ss' 0%N = (nth ln ss 0 + if (ln <? n)%nat then popcount (g ln) else 0)%N).
    { induction n as [|n IH]; intros Hn.
      - exists ss. split; [reflexivity|]. split; [assumption|]. intros ln Hln. cbn [Nat.ltb Nat.leb]. lia.
      - destruct IH as (ss' & E & Hl' & Hv); [lia|]. rewrite seq_S, foldM_app, E. cbn [rbind foldM Nat.add].
        rewrite Hf by lia. cbn [rbind]. rewrite (idx_uc_lt _ _ _ 0%N) by lia. cbn [rbind]. rewrite set_idx_uc_lt by lia. cbn [rbind].
        eexists; split; [reflexivity|]. split; [rewrite upd_length; assumption|].
        intros ln Hln. rewrite nth_upd, Hv by assumption. rewrite Hv by lia.
        destruct (Nat.eqb_spec n ln) as [<-|Hne].
        + rewrite Hl'. destruct (Nat.ltb_spec n w), (Nat.ltb_spec n n), (Nat.ltb_spec n (S n)); cbn [andb]; try lia.
        + cbn [andb]. destruct (Nat.ltb_spec ln n), (Nat.ltb_spec ln (S n)); lia. }
    destruct (G w) as (ss' & E & Hl' & Hv); [lia|]. exists ss'. split; [assumption|]. split; [assumption|].
    intros ln Hln. rewrite Hv by assumption. destruct (Nat.ltb_spec ln w); [reflexivity|lia].
  Qed.

  Lemma c11_loop_ok : forall fuel i1 i2 sums, (length ix1 - i1) + (length ix2 - i2) < fuel -> length sums = w ->
    exists sums', c11_loop fuel ld w ix1 b1 ix2 b2 i1 i2 sums = Ok sums' /\ length sums' = w /\
      forall ln, ln < w -> nth ln sums' 0%N = (nth ln sums 0 + mrest ln i1 i2)%N.
  Proof.
    induction fuel as [|fuel IH]; intros i1 i2 sums Hf Hl; [lia|]. cbn [c11_loop].
    destruct (Nat.ltb_spec i1 (length ix1)) as [H1|H1]; cbn [andb].
    2:{ exists sums. split; [reflexivity|]. split; [assumption|]. intros ln Hln. rewrite mrest_end1 by assumption. lia. }
    destruct (Nat.ltb_spec i2 (length ix2)) as [H2|H2]; cbn [andb].
    2:{ exists sums. split; [reflexivity|]. split; [assumption|]. intros ln Hln. rewrite mrest_end2 by assumption. lia. }
    rewrite (idx_uc_lt _ ix1 i1 0%N), (idx_uc_lt _ ix2 i2 0%N) by assumption. cbn [rbind].
    destruct (N.ltb_spec (X1 i1) (X2 i2)) as [Hlt|Hge].
    { destruct (IH (S i1) i2 sums) as (s' & E & Hl' & Hv); [lia|assumption|].
      exists s'. split; [assumption|]. split; [assumption|]. intros ln Hln. rewrite Hv, (mrest_lt ln i1 i2) by assumption. reflexivity. }
    destruct (N.ltb_spec (X2 i2) (X1 i1)) as [Hlt|Hge'].
    { destruct (IH i1 (S i2) sums) as (s' & E & Hl' & Hv); [lia|assumption|].
      exists s'. split; [assumption|]. split; [assumption|]. intros ln Hln. rewrite Hv, (mrest_gt ln i1 i2) by assumption. reflexivity. }
    assert (Heq : X1 i1 = X2 i2) by lia.
    rewrite (idx_uc_lt _ b1 i1 0%N), (idx_uc_lt _ b2 i2 0%N) by lia. cbn [rbind].
    destruct (lane_fold (fun ln => N.land (ldv i1 ln) (N.land (M1 i1) (M2 i2))) (ld (N.land (M1 i1) (M2 i2)) i1) sums)
      as (s1 & E1 & Hl1 & Hv1); [assumption|intros; apply Hld; try assumption; apply land_lt, B1|].
    rewrite E1. cbn [rbind]. destruct (IH (S i1) (S i2) s1) as (s' & E & Hl' & Hv); [lia|assumption|].
    exists s'. split; [assumption|]. split; [assumption|]. intros ln Hln.
    rewrite Hv, Hv1, (mrest_eq ln i1 i2) by assumption. lia.
  Qed.
End Merge.

Lemma sum_lanes_ok w sums : length sums = w ->
  foldM (fun sum ln => let* s := idx sums ln in Ok (sum + N.shiftl 1 (N.of_nat ln) * s)%N) (seq 0 w) 0%N =
  Ok (sumf w (fun ln => 2 ^ N.of_nat ln * nth ln sums 0)%N).
Proof.
  intros Hl. assert (G : forall n, n <= w ->
   foldM (fun sum ln => let* s := idx sums ln in Ok (sum + N.shiftl 1 (N.of_nat ln) * s)%N) (seq 0 n) 0%N =
   Ok (sumf n (fun ln => 2 ^ N.of_nat ln * nth ln sums 0)%N)).
  { induction n as [|n IH]; intros Hn; [reflexivity|].
    rewrite seq_S, foldM_app, IH by lia. cbn [rbind foldM Nat.add]. rewrite (idx_lt _ _ _ 0%N) by lia. cbn [rbind].
    rewrite sumf_S, N.shiftl_1_l. reflexivity. }
  apply G. lia.
Qed.

Lemma nth_words k m i : nth i (words k m) 0%N = if i <? length m / k then word k m i else 0%N.
Proof. unfold words. apply nth_map_seq. Qed.

Lemma words_len bs : wf_blocks bs -> length (words 4 (bytes_of bs)) = length bs * 8.
Proof. intros H. unfold words. rewrite map_length, seq_length. apply len_div; [assumption|lia]. Qed.

Lemma nth_words_bs bs i : wf_blocks bs -> i < length bs * 8 -> nth i (words 4 (bytes_of bs)) 0%N = u32_at bs i.
Proof.
  intros H Hi. rewrite nth_words, (len_div _ _ 8) by (try assumption; lia).
  destruct (Nat.ltb_spec i (length bs * 8)); [|lia]. rewrite u32_at_word by assumption. reflexivity.
Qed.

Lemma testbit_u32_at bs i t : wf_blocks bs -> t < 32 -> N.testbit (u32_at bs i) (N.of_nat t) = bbit bs (32 * i + t).
Proof.
  intros H Ht. rewrite u32_at_word by assumption. rewrite testbit_bs_word by assumption.
  destruct (Nat.ltb_spec t (4 * 8)); [f_equal; lia|lia].
Qed.

Lemma u32_at_lt bs i : wf_blocks bs -> (u32_at bs i < 2 ^ 32)%N.
Proof. intros H. rewrite u32_at_word by assumption. apply (word_lt_k 4); [assumption|reflexivity]. Qed.

Lemma sumf_unique n (p : nat -> bool) : (forall i j, i < n -> j < n -> p i = true -> p j = true -> i = j) ->
  sumf n (fun i => b2n (p i)) = b2n (existsb p (seq 0 n)).
Proof.
  induction n as [|n IH]; intros H; [reflexivity|].
  rewrite sumf_S, seq_S, existsb_app. cbn [existsb Nat.add]. rewrite orb_false_r.
  rewrite IH by (intros; apply H; auto; lia).
  destruct (existsb p (seq 0 n)) eqn:E, (p n) eqn:Ep; cbn [b2n orb]; try reflexivity.
  apply existsb_exists in E. destruct E as (i & Hi & Hp). apply in_seq in Hi.
  assert (i = n) by (apply H; auto; lia). lia.
Qed.

Lemma b2n_andb a b : b2n (a && b) = (b2n a * b2n b)%N. Proof. destruct a, b; reflexivity. Qed.

(** A set given by block indices and blocks; same as [SliceSpec.in_compr_set]. *)
Lemma merge_total w bsl idxs1 bset1 idxs2 bset2 (ldv : nat -> nat -> N) (vals : nat -> N) ld :
  wf_blocks idxs1 -> wf_blocks bset1 -> wf_blocks idxs2 -> wf_blocks bset2 ->
  length idxs1 = length bset1 -> length idxs2 = length bset2 ->
  increasing_blocks idxs1 bset1 -> increasing_blocks idxs2 bset2 ->
  (forall mask i ln, (mask < 2 ^ 32)%N -> i < length idxs1 * 8 -> ln < w -> ld mask i ln = Ok (N.land (ldv i ln) mask)) ->
  (forall i ln t, i < length idxs1 * 8 -> ln < w -> t < 32 -> N.testbit (ldv i ln) (N.of_nat t) = bsl ln (32 * i + t)) ->
  (forall p, vals p = sumf w (fun ln => (2 ^ N.of_nat ln * b2n (bsl ln p))%N)) ->
  c11_body ld w idxs1 bset1 idxs2 bset2 =
  Ok (masked_sum (length bset1 * 256)
        (fun p => bbit bset1 p && in_compr_set idxs2 bset2 (expand_pos (fun j => N.to_nat (u32_at idxs1 j)) p)) vals).
Proof.
  intros Hx1 Hb1 Hx2 Hb2 L1 L2 I1 I2 Hld Hbit Hvals. unfold c11_body. rewrite !words_len by assumption.
  rewrite L1, L2, !Nat.eqb_refl. cbn [rassert rbind].
  set (ix1 := words 4 (bytes_of idxs1)). set (b1 := words 4 (bytes_of bset1)).
  set (ix2 := words 4 (bytes_of idxs2)). set (b2 := words 4 (bytes_of bset2)).
  assert (E1 : length ix1 = length idxs1 * 8) by (apply words_len; assumption).
  assert (E2 : length ix2 = length idxs2 * 8) by (apply words_len; assumption).
  assert (E3 : length b1 = length bset1 * 8) by (apply words_len; assumption).
  assert (E4 : length b2 = length bset2 * 8) by (apply words_len; assumption).
  assert (Nx1 : forall i, i < length idxs1 * 8 -> nth i ix1 0%N = u32_at idxs1 i) by (intros; apply nth_words_bs; assumption).
  assert (Nx2 : forall i, i < length idxs2 * 8 -> nth i ix2 0%N = u32_at idxs2 i) by (intros; apply nth_words_bs; assumption).
  assert (Nb1 : forall i, i < length bset1 * 8 -> nth i b1 0%N = u32_at bset1 i) by (intros; apply nth_words_bs; assumption).
  assert (Nb2 : forall i, i < length bset2 * 8 -> nth i b2 0%N = u32_at bset2 i) by (intros; apply nth_words_bs; assumption).
  destruct (c11_loop_ok ix1 b1 ix2 b2 ldv ld w) with (fuel := S (length bset1 * 8 + length bset2 * 8)) (i1 := 0) (i2 := 0) (sums := repeat 0%N w)
    as (sums & E & Hl & Hv).
  - lia.
  - lia.
  - intros i. destruct (Nat.ltb_spec i (length bset1 * 8)).
    + rewrite Nb1 by assumption. apply u32_at_lt; assumption.
    + rewrite nth_overflow by lia. reflexivity.
  - intros. apply Hld; [assumption|lia|assumption].
  - intros i j Hij Hj Hne. rewrite !Nx1 by lia. rewrite Nb1 in Hne by lia. apply I1; try assumption; lia.
  - intros i j Hij Hj Hne. rewrite !Nx2 by lia. rewrite Nb2 in Hne by lia. apply I2; try assumption; lia.
  - lia.
  - apply repeat_length.
  - rewrite E. cbn [rbind]. rewrite sum_lanes_ok by assumption. f_equal.
    rewrite (sumf_ext w _ (fun ln => sumf (length bset1 * 8) (fun i => sumf 32 (fun t =>
       (2 ^ N.of_nat ln * (b2n (bsl ln (32 * i + t)%nat) * b2n (bbit bset1 (32 * i + t)%nat && in_compr_set idxs2 bset2 (32 * N.to_nat (u32_at idxs1 i) + t)%nat)))%N)))).
    + unfold masked_sum. replace (length bset1 * 256) with (length bset1 * 8 * 32) by lia. rewrite sumf_group.
      rewrite sumf_swap. apply sumf_ext. intros i Hi. rewrite sumf_swap. apply sumf_ext. intros t Ht.
      unfold expand_pos. replace ((i * 32 + t) / 32) with i by lia. replace ((i * 32 + t) mod 32) with t by lia.
      replace (i * 32 + t) with (32 * i + t) by lia.
      destruct (bbit bset1 (32 * i + t) && in_compr_set idxs2 bset2 (32 * N.to_nat (u32_at idxs1 i) + t)); cbn [b2n].
      * rewrite Hvals. apply sumf_ext. intros ln Hln. lia.
      * apply sumf_zero. intros ln Hln. lia.
    + intros ln Hln. rewrite Hv by assumption. rewrite nth_repeat_lt by assumption. rewrite N.add_0_l.
      unfold mrest. rewrite !Nat.sub_0_r, E1, L1. rewrite <- sumf_mul. apply sumf_ext. intros i Hi.
      rewrite sumf_mul. f_equal. rewrite E2, L2. cbn [Nat.add].
      rewrite (sumf_ext _ _ (fun j => sumf 32 (fun t =>
         (b2n (bsl ln (32 * i + t)%nat) * (b2n (bbit bset1 (32 * i + t)%nat) * b2n ((u32_at idxs1 i =? u32_at idxs2 j)%N && bbit bset2 (32 * j + t)%nat)))%N))).
      2:{ intros j Hj. unfold mcell. rewrite Nx1, Nx2, Nb1, Nb2 by lia.
          destruct (N.eqb_spec (u32_at idxs1 i) (u32_at idxs2 j)).
          - rewrite (popcount_sum 32).
            2:{ rewrite N.land_comm. apply land_lt, land_lt. apply u32_at_lt. assumption. }
            apply sumf_ext. intros t Ht. rewrite !N.land_spec, !testbit_u32_at by assumption.
            rewrite Hbit by (assumption || lia). rewrite !b2n_andb. cbn [b2n]. lia.
          - symmetry. apply sumf_zero. intros t Ht. cbn [andb b2n]. lia. }
      rewrite sumf_swap. apply sumf_ext. intros t Ht. rewrite sumf_mul. f_equal. rewrite sumf_mul, b2n_andb. f_equal.
      rewrite sumf_unique.
      * unfold in_compr_set. f_equal. rewrite L2.
        assert (EQ : forall l, (forall j, In j l -> j < length bset2 * 8) -> existsb (fun j => (u32_at idxs1 i =? u32_at idxs2 j)%N && bbit bset2 (32 * j + t)) l =
           existsb (fun j => (N.to_nat (u32_at idxs2 j) =? (32 * N.to_nat (u32_at idxs1 i) + t) / 32) && bbit bset2 (32 * j + (32 * N.to_nat (u32_at idxs1 i) + t) mod 32)) l).
        { induction l as [|j l IHl]; intros Hin; [reflexivity|]. cbn [existsb].
          rewrite IHl by (intros; apply Hin; right; assumption). f_equal.
          replace ((32 * N.to_nat (u32_at idxs1 i) + t) / 32) with (N.to_nat (u32_at idxs1 i)) by lia.
          replace ((32 * N.to_nat (u32_at idxs1 i) + t) mod 32) with t by lia. f_equal.
          destruct (N.eqb_spec (u32_at idxs1 i) (u32_at idxs2 j)), (Nat.eqb_spec (N.to_nat (u32_at idxs2 j)) (N.to_nat (u32_at idxs1 i))); try reflexivity; lia. }
        apply EQ. intros j Hj. apply in_seq in Hj. lia.
      * intros j j' Hj Hj' Hp Hp'. apply andb_true_iff in Hp, Hp'. destruct Hp as [Ep Bp], Hp' as [Ep' Bp'].
        apply N.eqb_eq in Ep, Ep'.
        assert (NZ : forall q, bbit bset2 (32 * q + t) = true -> u32_at bset2 q <> 0%N).
        { intros q Hq Hz. rewrite <- (testbit_u32_at bset2 q t) in Hq by assumption. rewrite Hz, N.bits_0 in Hq. discriminate. }
        destruct (Nat.lt_total j j') as [Hlt|[Heq|Hlt]]; [|assumption|].
        -- assert (u32_at idxs2 j < u32_at idxs2 j')%N by (apply I2; [assumption|lia|apply NZ; assumption]). lia.
        -- assert (u32_at idxs2 j' < u32_at idxs2 j)%N by (apply I2; [assumption|lia|apply NZ; assumption]). lia.
Qed.

Lemma count_and2_c11_ok idxs1 bset1 idxs2 bset2 :
  wf_blocks idxs1 -> wf_blocks bset1 -> wf_blocks idxs2 -> wf_blocks bset2 ->
  length idxs1 = length bset1 -> length idxs2 = length bset2 ->
  increasing_blocks idxs1 bset1 -> increasing_blocks idxs2 bset2 ->
  count_and2_c11 idxs1 bset1 idxs2 bset2 =
  Ok (countf (length bset1 * 256)
        (fun p => bbit bset1 p && in_compr_set idxs2 bset2 (expand_pos (fun j => N.to_nat (u32_at idxs1 j)) p))).
Proof.
  intros Hx1 Hb1 Hx2 Hb2 L1 L2 I1 I2. unfold count_and2_c11.
  rewrite (merge_total 1 (fun _ _ => true) idxs1 bset1 idxs2 bset2 (fun _ _ => N.ones 32) (fun _ => 1%N)); try assumption.
  - unfold masked_sum. rewrite countf_sumf. reflexivity.
  - intros mask i ln Hm _ _. rewrite N.land_comm, N.land_ones, N.mod_small by assumption. reflexivity.
  - intros i ln t _ _ Ht. apply N.ones_spec_low. lia.
  - intros p. reflexivity.
Qed.

Lemma sum_and3_c11_ok w bsl idxs1 bset1 idxs2 bset2 : valid_width w = true -> wf_blocks bsl ->
  wf_blocks idxs1 -> wf_blocks bset1 -> wf_blocks idxs2 -> wf_blocks bset2 ->
  length idxs1 = length bset1 -> length idxs2 = length bset2 -> length bset1 * w <= length bsl ->
  increasing_blocks idxs1 bset1 -> increasing_blocks idxs2 bset2 ->
  sum_and3_c11 w bsl idxs1 bset1 idxs2 bset2 =
  Ok (masked_sum (length bset1 * 256)
        (fun p => bbit bset1 p && in_compr_set idxs2 bset2 (expand_pos (fun j => N.to_nat (u32_at idxs1 j)) p))
        (slice_val w (sbsize w) bsl)).
Proof.
  intros Hw Hs Hx1 Hb1 Hx2 Hb2 L1 L2 L3 I1 I2. unfold sum_and3_c11.
  set (pos := fun i ln => bitslice_blockpos_u32 w (i / superblock_width w) (i mod superblock_width w) ln).
  destruct (width_sb w Hw) as (A & B & C & D).
  assert (Hp : forall i ln, i < length idxs1 * 8 -> ln < w -> pos i ln < length bsl * 8).
  { intros i ln Hi Hln. unfold pos. replace i with (i * 32 / 32) by lia. apply blockpos_lt; try assumption. nia. }
  apply (merge_total w (fun ln p => bbit bsl (256 * (p / sbsize w) + sbsize w * ln + p mod sbsize w)) idxs1 bset1 idxs2 bset2
          (fun i ln => word 4 (concat bsl) (pos i ln))); try assumption.
  - intros mask i ln Hm Hi Hln. unfold bsl_get_block_uc, get_indices. fold (pos i ln).
    rewrite rd_uc_lt by (rewrite (len_div _ _ 8) by (try assumption; lia); apply Hp; assumption). reflexivity.
  - intros i ln t Hi Hln Ht. rewrite testbit_bs_word by assumption. destruct (Nat.ltb_spec t (4 * 8)); [|lia].
    f_equal. rewrite <- (blockpos_bit w (32 * i + t) ln t) by (try assumption; lia).
    destruct (val_block i t Ht) as [-> _]. fold (pos i ln). lia.
  - reflexivity.
Qed.
