(** Proofs about bitslices and the kernels that sum them. *)
From Verif Require Import Base BaseProofs BitModel BitSpec BitProofs BitProofs2 SimdModel SimdProofs SliceModel SliceSpec.

(* --- words of words --- *)

Lemma lane_word k q m i j : wf_bytes m -> j < q ->
  lane (8 * N.of_nat k) (word (q * k) m i) j = word k m (i * q + j).
Proof.
  intros Hm Hj. apply (bits_ext_lt (8 * N.of_nat k)); [apply lane_lt|apply word_lt; assumption|].
  intros t Ht. rewrite testbit_lane. destruct (N.ltb_spec (N.of_nat t) (8 * N.of_nat k)); [|lia]. cbn [andb].
  replace (8 * N.of_nat k * N.of_nat j + N.of_nat t)%N with (N.of_nat (k * 8 * j + t)) by lia.
  rewrite !testbit_word by assumption.
  destruct (Nat.ltb_spec (k * 8 * j + t) (q * k * 8)), (Nat.ltb_spec t (k * 8)); try nia; try reflexivity.
  f_equal. lia.
Qed.

Lemma testbit_of_lanes w ls t : (0 < w)%N -> Forall (fun x => (x < 2 ^ w)%N) ls ->
  N.testbit (of_lanes w ls) t = N.testbit (nth (N.to_nat (t / w)) ls 0%N) (t mod w).
Proof.
  intros Hw H. rewrite <- (lane_of_lanes w ls (N.to_nat (t / w)) H). rewrite testbit_lane, N2Nat.id.
  assert (t mod w < w)%N by (apply N.mod_lt; lia).
  destruct (N.ltb_spec (t mod w) w); [|lia]. cbn [andb]. f_equal. apply N.div_mod. lia.
Qed.

Lemma u32_at_word bs j : wf_blocks bs -> u32_at bs j = word 4 (concat bs) j.
Proof.
  intros H. unfold u32_at.
  assert (G : forall n, n <= 32 -> sumf n (fun t => (2 ^ N.of_nat t * b2n (bbit bs (32 * j + t)))%N) = (word 4 (concat bs) j mod 2 ^ N.of_nat n)%N).
  { induction n as [|n IH]; intros Hn; [rewrite N.mod_1_r; reflexivity|].
    rewrite sumf_S, IH by lia.
    replace (bbit bs (32 * j + n)) with (N.testbit (word 4 (concat bs) j) (N.of_nat n)).
    2:{ rewrite testbit_bs_word by assumption. destruct (Nat.ltb_spec n (4 * 8)); [f_equal; lia|lia]. }
    set (v := word 4 (concat bs) j). rewrite Nat2N.inj_succ, N.pow_succ_r'.
    rewrite N.testbit_eqb. pose proof (pow2_pos (N.of_nat n)).
    rewrite (N.mul_comm 2), N.mod_mul_r by lia.
    assert (v / 2 ^ N.of_nat n mod 2 < 2)%N by (apply N.mod_lt; lia).
    destruct (N.eqb_spec ((v / 2 ^ N.of_nat n) mod 2) 1) as [->|Hne]; cbn [b2n]; [reflexivity|].
    assert (E : ((v / 2 ^ N.of_nat n) mod 2 = 0)%N) by (clear - Hne H1; set (x := (v / 2 ^ N.of_nat n mod 2)%N) in *; clearbody x; lia).
    rewrite E. lia. }
  rewrite G by lia. apply N.mod_small. apply word_lt. apply concat_wf; assumption.
Qed.

(* --- what each load yields --- *)

(** Register number [i] of a width-[256/S] slice under a position mask [m]. *)
Definition reg_spec (slice : blocks) (S : nat) (m : nat -> bool) (i : nat) (v : N) : Prop :=
  forall t, t < 256 -> N.testbit v (N.of_nat t) = bbit slice (i * 256 + t) && m (i * S + t mod S).

Definition gmask (nm fm : blocks) (ix : nat -> nat) (p : nat) : bool := bbit nm p && bbit fm (expand_pos ix p).
Definition ixw (idxs : blocks) (j : nat) : nat := N.to_nat (u32_at idxs j).

Lemma len_div bs k q : wf_blocks bs -> q * k = 32 -> length (bytes_of bs) / k = length bs * q.
Proof.
  intros H Hq. unfold bytes_of. rewrite concat_len by assumption. rewrite <- Hq.
  replace (length bs * (q * k)) with (length bs * q * k) by lia. apply Nat.div_mul. destruct k; lia.
Qed.

Lemma ld256_ok bs i : wf_blocks bs -> i < length bs -> ld256 (bytes_of bs) i = Ok (word 32 (concat bs) i).
Proof. intros H Hi. apply rd_uc_lt. rewrite (len_div _ _ 1) by (try assumption; lia). lia. Qed.
Lemma ld128_ok bs i : wf_blocks bs -> i < length bs * 2 -> ld128 (bytes_of bs) i = Ok (word 16 (concat bs) i).
Proof. intros H Hi. apply rd_uc_lt. rewrite (len_div _ _ 2) by (try assumption; lia). lia. Qed.
Lemma ld64_ok bs i : wf_blocks bs -> i < length bs * 4 -> ld64 (bytes_of bs) i = Ok (word 8 (concat bs) i).
Proof. intros H Hi. apply rd_uc_lt. rewrite (len_div _ _ 4) by (try assumption; lia). lia. Qed.
Lemma ld32_ok bs i : wf_blocks bs -> i < length bs * 8 -> ld32 (bytes_of bs) i = Ok (word 4 (concat bs) i).
Proof. intros H Hi. apply rd_uc_lt. rewrite (len_div _ _ 8) by (try assumption; lia). lia. Qed.

Definition idx_ok_for (idxs fm : blocks) : Prop := forall j, j < length idxs * 8 -> ixw idxs j < length fm * 8.

Lemma gather_ok n fm idxs (q i : nat) : wf_blocks fm -> wf_blocks idxs -> n * q = 8 ->
  idx_ok_for idxs fm -> (N.of_nat (length fm) * 8 <= 2 ^ 31)%N -> i < length idxs * q ->
  gather n (bytes_of fm) (word (n * 4) (concat idxs) i) =
  Ok (of_lanes 32 (map (fun j => word 4 (concat fm) (ixw idxs (i * n + j))) (seq 0 n))).
Proof.
  intros Hf Hx Hq Hix Hb Hi. unfold gather.
  rewrite (mapM_total _ _ _ (fun j => word 4 (concat fm) (ixw idxs (i * n + j)))); [reflexivity|].
  intros j Hj. apply in_seq in Hj.
  assert (El : lane 32 (word (n * 4) (concat idxs) i) j = u32_at idxs (i * n + j)).
  { rewrite u32_at_word by assumption. apply (lane_word 4 n); [apply concat_wf; assumption|lia]. }
  rewrite El. unfold gather1.
  assert (Hlt : ixw idxs (i * n + j) < length fm * 8) by (apply Hix; nia).
  unfold ixw in *. destruct (N.ltb_spec (u32_at idxs (i * n + j)) (2 ^ 31)); [|lia].
  apply ld32_ok; assumption.
Qed.

Lemma Forall_map_word k m (f : nat -> nat) l : wf_bytes m ->
  Forall (fun x => (x < 2 ^ (8 * N.of_nat k))%N) (map (fun j => word k m (f j)) l).
Proof. intros H. apply Forall_forall. intros x Hx. apply in_map_iff in Hx. destruct Hx as (j & <- & _). apply word_lt; assumption. Qed.

Lemma testbit_gather fm (g : nat -> nat) n t : wf_blocks fm -> t < n * 32 ->
  N.testbit (of_lanes 32 (map (fun j => word 4 (concat fm) (g j)) (seq 0 n))) (N.of_nat t) =
  bbit fm (32 * g (t / 32) + t mod 32).
Proof.
  intros H Ht. rewrite testbit_of_lanes; [|lia|apply (Forall_map_word 4), concat_wf, H].
  rewrite nth_map_seq. replace (N.to_nat (N.of_nat t / 32)) with (t / 32) by lia.
  destruct (Nat.ltb_spec (t / 32) n); [|lia].
  replace (N.of_nat t mod 32)%N with (N.of_nat (t mod 32)) by lia.
  rewrite testbit_bs_word by assumption. destruct (Nat.ltb_spec (t mod 32) (4 * 8)); [|lia]. f_equal. lia.
Qed.

Lemma word_lt_k (k : nat) W bs i : wf_blocks bs -> W = (8 * N.of_nat k)%N -> (word k (concat bs) i < 2 ^ W)%N.
Proof. intros H ->. apply word_lt, concat_wf, H. Qed.

Lemma land_lt a b w : (a < 2 ^ w)%N -> (N.land a b < 2 ^ w)%N.
Proof.
  intros H. apply lt_pow2_testbit. intros q Hq. rewrite N.land_spec, (testbit_high a w) by assumption. reflexivity.
Qed.

Lemma testbit_set128 m t : (m < 2 ^ 128)%N -> t < 256 ->
  N.testbit (set_m128i m m) (N.of_nat t) = N.testbit m (N.of_nat (t mod 128)).
Proof.
  intros H Ht. unfold set_m128i. rewrite testbit_of_lanes by (try lia; repeat constructor; assumption).
  replace (N.to_nat (N.of_nat t / 128)) with (t / 128) by lia.
  replace (N.of_nat t mod 128)%N with (N.of_nat (t mod 128)) by lia.
  assert (t / 128 < 2) by lia. destruct (t / 128) as [|[|]]; cbn [nth]; try reflexivity; lia.
Qed.

Lemma testbit_set64 m t : (m < 2 ^ 64)%N -> t < 256 ->
  N.testbit (set1_epi64x m) (N.of_nat t) = N.testbit m (N.of_nat (t mod 64)).
Proof.
  intros H Ht. unfold set1_epi64x. rewrite testbit_of_lanes by (try lia; repeat constructor; assumption).
  replace (N.to_nat (N.of_nat t / 64)) with (t / 64) by lia.
  replace (N.of_nat t mod 64)%N with (N.of_nat (t mod 64)) by lia.
  assert (t / 64 < 4) by lia. destruct (t / 64) as [|[|[|[|]]]]; cbn [nth]; try reflexivity; lia.
Qed.

(** [((m as u64) << 32) | m]. *)
Lemma testbit_dup32 m t : (m < 2 ^ 32)%N -> t < 64 ->
  N.testbit (N.lor (N.shiftl m 32) m) (N.of_nat t) = N.testbit m (N.of_nat (t mod 32)).
Proof.
  intros H Ht. rewrite N.lor_spec. destruct (Nat.ltb_spec t 32).
  - rewrite N.shiftl_spec_low by lia. rewrite Nat.mod_small by lia. reflexivity.
  - rewrite N.shiftl_spec_high' by lia. rewrite (testbit_high m 32 (N.of_nat t)) by (try assumption; lia).
    rewrite orb_false_r. f_equal. lia.
Qed.
Lemma dup32_lt m : (m < 2 ^ 32)%N -> (N.lor (N.shiftl m 32) m < 2 ^ 64)%N.
Proof.
  intros H. apply lt_pow2_testbit. intros q Hq. rewrite N.lor_spec, N.shiftl_spec_high' by lia.
  rewrite !(testbit_high m 32) by (try assumption; lia). reflexivity.
Qed.
(** [a | (b << 32)]. *)
Lemma testbit_join32 a b t : (a < 2 ^ 32)%N -> t < 64 ->
  N.testbit (N.lor a (N.shiftl b 32)) (N.of_nat t) =
  if t <? 32 then N.testbit a (N.of_nat t) else N.testbit b (N.of_nat (t - 32)).
Proof.
  intros H Ht. rewrite N.lor_spec. destruct (Nat.ltb_spec t 32).
  - rewrite N.shiftl_spec_low by lia. apply orb_false_r.
  - rewrite N.shiftl_spec_high' by lia. rewrite (testbit_high a 32) by (try assumption; lia). cbn [orb]. f_equal. lia.
Qed.

Ltac tbw := rewrite ?N.land_spec, ?testbit_bs_word by assumption.
Ltac ltb_true := match goal with |- context [?a <? ?b] => destruct (Nat.ltb_spec a b); [|lia] end.

Lemma load_and_ok v1 v2 i : wf_blocks v1 -> wf_blocks v2 -> i < length v1 -> i < length v2 ->
  exists r, load_and (bytes_of v1) (bytes_of v2) i = Ok r /\ reg_spec v1 256 (bbit v2) i r.
Proof.
  intros H1 H2 Hi1 Hi2. unfold load_and. rewrite !ld256_ok by assumption. cbn [rbind].
  eexists; split; [reflexivity|]. intros t Ht. tbw. ltb_true.
  f_equal; f_equal; lia.
Qed.

Lemma load_and_c_ok v1 idxs v2 i : wf_blocks v1 -> wf_blocks idxs -> wf_blocks v2 ->
  idx_ok_for idxs v2 -> (N.of_nat (length v2) * 8 <= 2 ^ 31)%N ->
  i < length v1 -> i < length idxs ->
  exists r, load_and_c (bytes_of v1) (bytes_of idxs) (bytes_of v2) i = Ok r /\
            reg_spec v1 256 (fun p => bbit v2 (expand_pos (ixw idxs) p)) i r.
Proof.
  intros H1 Hx H2 Hix Hb Hi1 Hi2. unfold load_and_c. rewrite !ld256_ok by assumption. cbn [rbind].
  change (word 32 (concat idxs) i) with (word (8 * 4) (concat idxs) i). rewrite (gather_ok 8 v2 idxs 1) by (try assumption; lia). cbn [rbind].
  eexists; split; [reflexivity|]. intros t Ht. rewrite N.land_spec, testbit_gather by (try assumption; lia).
  tbw. ltb_true. unfold expand_pos. rewrite (Nat.mod_small t 256) by assumption.
  f_equal; f_equal; try lia. replace ((i * 256 + t) / 32) with (i * 8 + t / 32) by lia.
  replace ((i * 256 + t) mod 32) with (t mod 32) by lia. reflexivity.
Qed.

Lemma load_w1_uc_ok sl nm fm i : wf_blocks sl -> wf_blocks nm -> wf_blocks fm ->
  i < length sl -> length sl = length nm * 1 -> length sl = length fm * 1 ->
  exists r, load_w1_uc (bytes_of sl) (bytes_of nm) (bytes_of fm) i = Ok r /\
            reg_spec sl 256 (fun p => bbit nm p && bbit fm p) i r.
Proof.
  intros H1 H2 H3 Hi E1 E2. unfold load_w1_uc. rewrite !ld256_ok by (try assumption; lia). cbn [rbind].
  eexists; split; [reflexivity|]. intros t Ht. rewrite !N.land_spec. tbw. ltb_true.
  rewrite (Nat.mod_small t 256) by assumption. change (32 * 8) with 256. reflexivity.
Qed.

Lemma load_w2_uc_ok sl nm fm i : wf_blocks sl -> wf_blocks nm -> wf_blocks fm ->
  i < length sl -> length sl = length nm * 2 -> length sl = length fm * 2 ->
  exists r, load_w2_uc (bytes_of sl) (bytes_of nm) (bytes_of fm) i = Ok r /\
            reg_spec sl 128 (fun p => bbit nm p && bbit fm p) i r.
Proof.
  intros H1 H2 H3 Hi E1 E2. unfold load_w2_uc. rewrite ld256_ok, !ld128_ok by (try assumption; lia). cbn [rbind].
  eexists; split; [reflexivity|]. intros t Ht. rewrite N.land_spec, testbit_set128;
    [|apply land_lt, word_lt_k; [assumption|reflexivity]|assumption].
  tbw. ltb_true. ltb_true. change (32 * 8) with 256. change (16 * 8) with 128. reflexivity.
Qed.

Lemma load_w4_uc_ok sl nm fm i : wf_blocks sl -> wf_blocks nm -> wf_blocks fm ->
  i < length sl -> length sl = length nm * 4 -> length sl = length fm * 4 ->
  exists r, load_w4_uc (bytes_of sl) (bytes_of nm) (bytes_of fm) i = Ok r /\
            reg_spec sl 64 (fun p => bbit nm p && bbit fm p) i r.
Proof.
  intros H1 H2 H3 Hi E1 E2. unfold load_w4_uc. rewrite ld256_ok, !ld64_ok by (try assumption; lia). cbn [rbind].
  eexists; split; [reflexivity|]. intros t Ht. rewrite N.land_spec, testbit_set64;
    [|apply land_lt, word_lt_k; [assumption|reflexivity]|assumption].
  tbw. ltb_true. ltb_true. change (32 * 8) with 256. change (8 * 8) with 64. reflexivity.
Qed.

Lemma load_w8_uc_ok sl nm fm i : wf_blocks sl -> wf_blocks nm -> wf_blocks fm ->
  i < length sl -> length sl = length nm * 8 -> length sl = length fm * 8 ->
  exists r, load_w8_uc (bytes_of sl) (bytes_of nm) (bytes_of fm) i = Ok r /\
            reg_spec sl 32 (fun p => bbit nm p && bbit fm p) i r.
Proof.
  intros H1 H2 H3 Hi E1 E2. unfold load_w8_uc. rewrite ld256_ok, !ld32_ok by (try assumption; lia). cbn [rbind].
  assert (Hlt : (N.land (word 4 (concat nm) i) (word 4 (concat fm) i) < 2 ^ 32)%N)
    by (apply land_lt, word_lt_k; [assumption|reflexivity]).
  eexists; split; [reflexivity|]. intros t Ht.
  rewrite N.land_spec, testbit_set64 by (try apply dup32_lt; assumption).
  rewrite testbit_dup32 by (try assumption; lia). replace ((t mod 64) mod 32) with (t mod 32) by lia.
  tbw. ltb_true. ltb_true. change (32 * 8) with 256. change (4 * 8) with 32. reflexivity.
Qed.

Lemma load_w1_c_ok sl ix nm fm i : wf_blocks sl -> wf_blocks ix -> wf_blocks nm -> wf_blocks fm ->
  idx_ok_for ix fm -> (N.of_nat (length fm) * 8 <= 2 ^ 31)%N ->
  i < length sl -> length sl = length nm * 1 -> length sl = length ix * 1 ->
  exists r, load_w1_c (bytes_of sl) (bytes_of ix) (bytes_of nm) (bytes_of fm) i = Ok r /\
            reg_spec sl 256 (gmask nm fm (ixw ix)) i r.
Proof.
  intros H1 Hx H2 H3 Hix Hb Hi E1 E2. unfold load_w1_c. rewrite !ld256_ok by (try assumption; lia). cbn [rbind].
  change (word 32 (concat ix) i) with (word (8 * 4) (concat ix) i). rewrite (gather_ok 8 fm ix 1) by (try assumption; lia). cbn [rbind].
  eexists; split; [reflexivity|]. intros t Ht. rewrite !N.land_spec, testbit_gather by (try assumption; lia).
  tbw. ltb_true. unfold gmask, expand_pos. rewrite (Nat.mod_small t 256) by assumption.
  replace ((i * 256 + t) / 32) with (i * 8 + t / 32) by lia.
  replace ((i * 256 + t) mod 32) with (t mod 32) by lia. reflexivity.
Qed.

Lemma load_w2_c_ok sl ix nm fm i : wf_blocks sl -> wf_blocks ix -> wf_blocks nm -> wf_blocks fm ->
  idx_ok_for ix fm -> (N.of_nat (length fm) * 8 <= 2 ^ 31)%N ->
  i < length sl -> length sl = length nm * 2 -> length sl = length ix * 2 ->
  exists r, load_w2_c (bytes_of sl) (bytes_of ix) (bytes_of nm) (bytes_of fm) i = Ok r /\
            reg_spec sl 128 (gmask nm fm (ixw ix)) i r.
Proof.
  intros H1 Hx H2 H3 Hix Hb Hi E1 E2. unfold load_w2_c. rewrite ld256_ok, !ld128_ok by (try assumption; lia). cbn [rbind].
  change (word 16 (concat ix) i) with (word (4 * 4) (concat ix) i). rewrite (gather_ok 4 fm ix 2) by (try assumption; lia). cbn [rbind].
  eexists; split; [reflexivity|]. intros t Ht. rewrite N.land_spec, testbit_set128;
    [|apply land_lt, word_lt_k; [assumption|reflexivity]|assumption].
  rewrite N.land_spec, testbit_gather by (try assumption; lia).
  tbw. ltb_true. ltb_true. unfold gmask, expand_pos.
  replace ((i * 128 + t mod 128) / 32) with (i * 4 + t mod 128 / 32) by lia.
  replace ((i * 128 + t mod 128) mod 32) with (t mod 128 mod 32) by lia. reflexivity.
Qed.

Lemma load_w4_c_ok sl ix nm fm i : wf_blocks sl -> wf_blocks ix -> wf_blocks nm -> wf_blocks fm ->
  idx_ok_for ix fm ->
  i < length sl -> length sl = length nm * 4 -> length sl = length ix * 4 ->
  exists r, load_w4_c (bytes_of sl) (bytes_of ix) (bytes_of nm) (bytes_of fm) i = Ok r /\
            reg_spec sl 64 (gmask nm fm (ixw ix)) i r.
Proof.
  intros H1 Hx H2 H3 Hix Hi E1 E2. unfold load_w4_c.
  rewrite ld256_ok, !(ld32_ok ix), ld64_ok by (try assumption; lia). cbn [rbind].
  rewrite <- !u32_at_word by assumption. fold (ixw ix (2 * i)) (ixw ix (2 * i + 1)).
  rewrite !(ld32_ok fm) by (try assumption; apply Hix; lia). cbn [rbind].
  eexists; split; [reflexivity|]. intros t Ht.
  rewrite N.land_spec, testbit_set64; [|apply land_lt, word_lt_k; [assumption|reflexivity]|assumption].
  rewrite N.land_spec, testbit_join32; [|apply word_lt_k; [assumption|reflexivity]|lia].
  tbw. ltb_true. ltb_true. unfold gmask, expand_pos.
  change (32 * 8) with 256. change (8 * 8) with 64. f_equal. f_equal.
  destruct (Nat.ltb_spec (t mod 64) 32).
  - ltb_true. replace ((i * 64 + t mod 64) / 32) with (2 * i) by lia. f_equal. lia.
  - ltb_true. replace ((i * 64 + t mod 64) / 32) with (2 * i + 1) by lia. f_equal. lia.
Qed.

Lemma load_w8_c_ok sl ix nm fm i : wf_blocks sl -> wf_blocks ix -> wf_blocks nm -> wf_blocks fm ->
  idx_ok_for ix fm ->
  i < length sl -> length sl = length nm * 8 -> length sl = length ix * 8 ->
  exists r, load_w8_c (bytes_of sl) (bytes_of ix) (bytes_of nm) (bytes_of fm) i = Ok r /\
            reg_spec sl 32 (gmask nm fm (ixw ix)) i r.
Proof.
  intros H1 Hx H2 H3 Hix Hi E1 E2. unfold load_w8_c.
  rewrite ld256_ok, (ld32_ok ix), (ld32_ok nm) by (try assumption; lia). cbn [rbind].
  rewrite <- (u32_at_word ix) by assumption. fold (ixw ix i).
  rewrite (ld32_ok fm) by (try assumption; apply Hix; lia). cbn [rbind].
  set (m32 := N.land (word 4 (concat nm) i) (word 4 (concat fm) (ixw ix i))).
  assert (Hlt : (m32 < 2 ^ 32)%N) by (apply land_lt, word_lt_k; [assumption|reflexivity]).
  eexists; split; [reflexivity|]. intros t Ht.
  rewrite N.land_spec, testbit_set64 by (try apply dup32_lt; assumption).
  rewrite testbit_dup32 by (try assumption; lia). replace ((t mod 64) mod 32) with (t mod 32) by lia.
  unfold m32. tbw. ltb_true. ltb_true. unfold gmask, expand_pos.
  replace ((i * 32 + t mod 32) / 32) with i by lia.
  replace ((i * 32 + t mod 32) mod 32) with (t mod 32) by lia.
  change (32 * 8) with 256. change (4 * 8) with 32. f_equal. f_equal. f_equal. lia.
Qed.

(* --- from registers to values --- *)

(** The number stored at value position [p] of a bitslice of width [w] (superblocks of [S = 256/w] values). *)
Definition slice_val (w S : nat) (slice : blocks) (p : nat) : N :=
  sumf w (fun l => (2 ^ N.of_nat l * b2n (bbit slice (256 * (p / S) + S * l + p mod S)))%N).

Lemma reg_sum w S slice m i v : w * S = 256 -> reg_spec slice S m i v ->
  wones (fun t => (2 ^ N.of_nat (t / S))%N) v =
  sumf S (fun s => if m (i * S + s) then slice_val w S slice (i * S + s) else 0%N).
Proof.
  intros HS Hr. assert (0 < S) by nia. unfold wones. rewrite <- HS at 1. rewrite sumf_group.
  rewrite (sumf_ext w _ (fun l => sumf S (fun s => (b2n (m (i * S + s)%nat) * (2 ^ N.of_nat l * b2n (bbit slice (i * 256 + (l * S + s))%nat)))%N))).
  2:{ intros l Hl. apply sumf_ext. intros s Hs. rewrite Hr by nia.
      assert (E1 : (l * S + s) / S = l) by (rewrite Nat.div_add_l, Nat.div_small by lia; lia).
      assert (E2 : (l * S + s) mod S = s) by (rewrite Nat.add_comm, Nat.mod_add, Nat.mod_small by lia; lia).
      rewrite E1, E2. destruct (bbit slice _), (m _); cbn [andb b2n]; lia. }
  rewrite sumf_swap. apply sumf_ext. intros s Hs. rewrite sumf_mul.
  assert (E1 : (i * S + s) / S = i) by (rewrite Nat.div_add_l, Nat.div_small by lia; lia).
  assert (E2 : (i * S + s) mod S = s) by (rewrite Nat.add_comm, Nat.mod_add, Nat.mod_small by lia; lia).
  unfold slice_val. rewrite E1, E2.
  rewrite (sumf_ext w (fun l => (2 ^ N.of_nat l * b2n (bbit slice (i * 256 + (l * S + s))%nat))%N)
             (fun l => (2 ^ N.of_nat l * b2n (bbit slice (256 * i + S * l + s)%nat))%N)).
  2:{ intros l Hl. do 3 f_equal. lia. }
  destruct (m (i * S + s)); cbn [b2n]; lia.
Qed.

Lemma kernel_sum w S slice m n (r : nat -> N) : w * S = 256 -> (forall i, i < n -> reg_spec slice S m i (r i)) ->
  sumf n (fun i => wones (fun t => (2 ^ N.of_nat (t / S))%N) (r i)) = masked_sum (n * S) m (slice_val w S slice).
Proof.
  intros HS H. unfold masked_sum. rewrite sumf_group. apply sumf_ext. intros i Hi. apply reg_sum; auto.
Qed.

Lemma load_choice (load : nat -> res N) (P : nat -> N -> Prop) n :
  (forall i, i < n -> exists r, load i = Ok r /\ P i r) ->
  exists R, forall i, i < n -> load i = Ok (R i) /\ P i (R i).
Proof.
  intros H. exists (fun i => match load i with Ok v => v | _ => 0%N end).
  intros i Hi. destruct (H i Hi) as (r & E & Hp). rewrite E. auto.
Qed.

Lemma hs64_masked w S reduce_w load slice m n :
  w * S = 256 ->
  (exists w0 w1 w2 w3, reduce_w = reduce_64 w0 w1 w2 w3 /\ (w0 <= 255 /\ w1 <= 255 /\ w2 <= 255 /\ w3 <= 255)%N /\
     forall t, t < 256 -> (2 ^ N.of_nat (t / S))%N = nth (t / 64) [w0; w1; w2; w3] 0%N) ->
  (forall i, i < n -> exists r, load i = Ok r /\ reg_spec slice S m i r) -> (N.of_nat n < 2 ^ 40)%N ->
  harley_seal 64 4 add_epi64 reduce_w load n = Ok (masked_sum (n * S) m (slice_val w S slice)).
Proof.
  intros HS (w0 & w1 & w2 & w3 & -> & (B0 & B1 & B2 & B3) & Hw) Hload Hn.
  destruct (load_choice load (reg_spec slice S m) n Hload) as (R & HR).
  rewrite (harvey_seal_64_ok (fun t => (2 ^ N.of_nat (t / S))%N) w0 w1 w2 w3 load R n); try assumption.
  - f_equal. apply kernel_sum; [assumption|]. intros i Hi. apply HR; assumption.
  - intros i Hi. apply HR; assumption.
Qed.

Lemma hs32_masked add load slice m n : good_add 32 8 add ->
  (forall i, i < n -> exists r, load i = Ok r /\ reg_spec slice 32 m i r) -> (N.of_nat n < 2 ^ 27)%N ->
  harley_seal 32 8 add (reduce_32 1 2 4 8 16 32 64 128) load n = Ok (masked_sum (n * 32) m (slice_val 8 32 slice)).
Proof.
  intros Hadd Hload Hn.
  destruct (load_choice load (reg_spec slice 32 m) n Hload) as (R & HR).
  rewrite (harvey_seal_32_ok (fun t => (2 ^ N.of_nat (t / 32))%N) add load R n); try assumption.
  - f_equal. apply kernel_sum; [reflexivity|]. intros i Hi. apply HR; assumption.
  - intros t Ht. assert (Hq : t / 32 < 8) by lia. remember (t / 32) as q eqn:Eq. clear Eq Ht.
    do 8 (destruct q as [|q]; [reflexivity|]). lia.
  - intros i Hi. apply HR; assumption.
Qed.

Lemma wt1 : forall t, t < 256 -> (2 ^ N.of_nat (t / 256))%N = nth (t / 64) [1; 1; 1; 1]%N 0%N.
Proof. intros t Ht. rewrite (Nat.div_small t 256) by assumption. assert (t / 64 < 4) by lia. destruct (t / 64) as [|[|[|[|]]]]; try reflexivity; lia. Qed.
Lemma wt2 : forall t, t < 256 -> (2 ^ N.of_nat (t / 128))%N = nth (t / 64) [1; 1; 2; 2]%N 0%N.
Proof.
  intros t Ht. replace (t / 128) with (t / 64 / 2) by lia. assert (t / 64 < 4) by lia. destruct (t / 64) as [|[|[|[|]]]]; try reflexivity; lia.
Qed.
Lemma wt4 : forall t, t < 256 -> (2 ^ N.of_nat (t / 64))%N = nth (t / 64) [1; 2; 4; 8]%N 0%N.
Proof. intros t Ht. assert (t / 64 < 4) by lia. destruct (t / 64) as [|[|[|[|]]]]; try reflexivity; lia. Qed.

Ltac weights H := do 4 eexists; split; [reflexivity|split; [lia|exact H]].

(** Width-1 slice values are bits. *)
Lemma slice_val_1 v p : slice_val 1 256 v p = b2n (bbit v p).
Proof.
  unfold slice_val, sumf. cbn [seq map sumN]. rewrite N.pow_0_r.
  replace (256 * (p / 256) + 256 * 0 + p mod 256) with p by lia. lia.
Qed.

(* --- the public kernels --- *)

Lemma countf_masked n p q : masked_sum n q (fun i => b2n (p i)) = countf n (fun i => p i && q i).
Proof.
  unfold masked_sum. rewrite countf_sumf. apply sumf_ext. intros i Hi. destruct (q i), (p i); reflexivity.
Qed.

Lemma count_kernel (load : nat -> res N) v m n :
  (forall i, i < n -> exists r, load i = Ok r /\ reg_spec v 256 m i r) -> (N.of_nat n < 2 ^ 40)%N ->
  harley_seal 64 4 add_epi64 (reduce_64 1 1 1 1) load n = Ok (countf (n * 256) (fun p => bbit v p && m p)).
Proof.
  intros Hload Hn. rewrite (hs64_masked 1 256 _ load v m n); [|reflexivity|weights wt1|assumption|assumption].
  f_equal. rewrite <- countf_masked. unfold masked_sum. apply sumf_ext. intros i Hi. rewrite slice_val_1. reflexivity.
Qed.

Lemma bitvec_count_and_uc_ok v1 v2 : wf_blocks v1 -> wf_blocks v2 ->
  (N.of_nat (length v1) < 2 ^ 40)%N ->
  bitvec_count_and_uc v1 v2 = Ok (countf (Nat.min (length v1) (length v2) * 256) (fun p => bbit v1 p && bbit v2 p)).
Proof.
  intros H1 H2 Hn. unfold bitvec_count_and_uc, harvey_seal_64, reduce64_1.
  rewrite (count_kernel _ v1 (bbit v2)); [reflexivity| |lia]. intros i Hi. apply load_and_ok; try assumption; lia.
Qed.

Lemma bitvec_count_and_c_ok v1 idxs v2 : wf_blocks v1 -> wf_blocks idxs -> wf_blocks v2 ->
  idx_ok_for idxs v2 -> (N.of_nat (length v2) * 8 <= 2 ^ 31)%N -> (N.of_nat (length v1) < 2 ^ 40)%N ->
  bitvec_count_and_c v1 idxs v2 =
  Ok (countf (Nat.min (length v1) (length idxs) * 256) (fun p => bbit v1 p && bbit v2 (expand_pos (ixw idxs) p))).
Proof.
  intros H1 Hx H2 Hix Hb Hn. unfold bitvec_count_and_c, harvey_seal_64, reduce64_1.
  rewrite (count_kernel _ v1 (fun p => bbit v2 (expand_pos (ixw idxs) p))); [reflexivity| |lia].
  intros i Hi. apply load_and_c_ok; try assumption; lia.
Qed.

(* --- get_value / set_value --- *)

Lemma valid_width_cases w : valid_width w = true -> w = 1 \/ w = 2 \/ w = 4 \/ w = 8.
Proof. unfold valid_width. intros H. lia. Qed.

(** Values per superblock. *)
Definition sbsize (w : nat) : nat := 256 / w.

Lemma width_sb w : valid_width w = true -> w * sbsize w = 256 /\ sbsize w = 32 * superblock_width w /\ 0 < superblock_width w /\
                   w * superblock_width w = 8.
Proof. intros H. apply valid_width_cases in H. destruct H as [->|[->|[->| ->]]]; repeat split; vm_compute; lia. Qed.

Lemma set_bit_add r k b : (r < 2 ^ N.of_nat k)%N -> k < 8 ->
  set_bit 8 r (N.of_nat k) b = (r + 2 ^ N.of_nat k * b2n b)%N.
Proof.
  intros Hr Hk. assert (Hr8 : (r < 2 ^ 8)%N) by (eapply N.lt_le_trans; [exact Hr|apply N.pow_le_mono_r; lia]).
  apply N.bits_inj. intros q. rewrite testbit_set by (try assumption; lia).
  destruct b; cbn [b2n].
  - rewrite N.mul_1_r. replace (r + 2 ^ N.of_nat k)%N with (N.lor r (N.shiftl 1 (N.of_nat k))).
    + fold (enable_bit r (N.of_nat k)). rewrite testbit_enable. reflexivity.
    + rewrite N.shiftl_1_l.
      assert (L : N.land r (2 ^ N.of_nat k) = 0%N).
      { apply N.bits_inj. intros j. rewrite N.land_spec, N.bits_0, N.pow2_bits_eqb.
        destruct (N.eqb_spec (N.of_nat k) j) as [<-|]; rewrite ?andb_false_r; [|reflexivity].
        rewrite (testbit_high r (N.of_nat k)) by (try assumption; lia). reflexivity. }
      rewrite <- (N.lxor_lor _ _ L). symmetry. apply N.add_nocarry_lxor, L.
  - rewrite N.mul_0_r, N.add_0_r. destruct (N.eqb_spec (N.of_nat k) q) as [<-|]; [|reflexivity].
    symmetry. apply (testbit_high r (N.of_nat k)); [assumption|lia].
Qed.

Lemma blockpos_lt w n index k : valid_width w = true -> index < n * sbsize w -> k < w ->
  bitslice_blockpos_u32 w (index / 32 / superblock_width w) (index / 32 mod superblock_width w) k < n * 8.
Proof.
  intros Hw Hi Hk. destruct (width_sb w Hw) as (H1 & H2 & H3 & H4). unfold bitslice_blockpos_u32.
  set (sb := superblock_width w) in *. rewrite H2 in Hi.
  assert (index / 32 < n * sb) by nia.
  pose proof (Nat.div_mod (index / 32) sb). pose proof (Nat.mod_upper_bound (index / 32) sb).
  assert (index / 32 / sb < n) by (apply Nat.div_lt_upper_bound; nia).
  nia.
Qed.

(** Bit position of lane [k] of value [index]. *)
Lemma blockpos_bit w index k t : valid_width w = true -> k < w -> t = index mod 32 ->
  32 * bitslice_blockpos_u32 w (index / 32 / superblock_width w) (index / 32 mod superblock_width w) k + t =
  256 * (index / sbsize w) + sbsize w * k + index mod sbsize w.
Proof.
  intros Hw Hk ->. apply valid_width_cases in Hw. unfold bitslice_blockpos_u32.
  destruct Hw as [->|[->|[->| ->]]].
  - change (sbsize 1) with 256. change (superblock_width 1) with 8. lia.
  - change (sbsize 2) with 128. change (superblock_width 2) with 4. lia.
  - change (sbsize 4) with 64. change (superblock_width 4) with 2. lia.
  - change (sbsize 8) with 32. change (superblock_width 8) with 1. lia.
Qed.

Lemma sumf_pow2_lt w (f : nat -> bool) : (sumf w (fun l => 2 ^ N.of_nat l * b2n (f l))%N < 2 ^ N.of_nat w)%N.
Proof.
  induction w as [|w IH]; [cbn; lia|]. rewrite sumf_S. rewrite Nat2N.inj_succ, N.pow_succ_r'.
  destruct (f w); cbn [b2n]; lia.
Qed.

Lemma get_value_ok w vec index : valid_width w = true -> wf_blocks vec -> index < length vec * sbsize w ->
  get_value w vec index = Ok (slice_val w (sbsize w) vec index).
Proof.
  intros Hw Hv Hi. unfold get_value, get_bit_indices, get_indices, get_blockpos, get_bitpos. change (4 * 8) with 32.
  assert (G : forall n, n <= w ->
    foldM (fun r k => let* bits := rd 4 (bytes_of vec) (bitslice_blockpos_u32 w (index / 32 / superblock_width w) (index / 32 mod superblock_width w) k) in
             Ok (set_bit 8 r (N.of_nat k) (get_bit bits (N.of_nat (index mod 32))))) (seq 0 n) 0%N =
    Ok (sumf n (fun l => (2 ^ N.of_nat l * b2n (bbit vec (256 * (index / sbsize w) + sbsize w * l + index mod sbsize w)))%N))).
  { assert (w <= 8) by (apply valid_width_cases in Hw; lia).
    induction n as [|n IH]; intros Hn; [reflexivity|].
    rewrite seq_S, foldM_app, IH by lia. cbn [rbind foldM Nat.add].
    rewrite rd_lt by (rewrite (len_div _ _ 8) by (try assumption; lia); apply blockpos_lt; try assumption; lia).
    cbn [rbind]. f_equal. rewrite get_bit_testbit, set_bit_add, sumf_S; [|apply sumf_pow2_lt|lia].
    unfold bytes_of. rewrite testbit_bs_word by assumption. destruct (Nat.ltb_spec (index mod 32) (4 * 8)); [|lia].
    do 4 f_equal. rewrite <- (blockpos_bit w index n (index mod 32)) by (try assumption; try lia; reflexivity). lia. }
  apply (G w). lia.
Qed.

(** The bit position map is injective: different (value, lane) pairs never share a bit. *)
Lemma pos_inj w p q k l : valid_width w = true -> k < w -> l < w ->
  256 * (p / sbsize w) + sbsize w * k + p mod sbsize w = 256 * (q / sbsize w) + sbsize w * l + q mod sbsize w ->
  p = q /\ k = l.
Proof.
  intros Hw Hk Hl. apply valid_width_cases in Hw.
  destruct Hw as [->|[->|[->| ->]]].
  - change (sbsize 1) with 256. lia.
  - change (sbsize 2) with 128. lia.
  - change (sbsize 4) with 64. lia.
  - change (sbsize 8) with 32. lia.
Qed.

Lemma bs_rd_wr_bit m p j b : wf_bytes m -> length m mod 4 = 0 -> p < length m / 4 -> j < 32 ->
  exists m', (let* bits := rd 4 m p in wr 4 m p (set_bit 32 bits (N.of_nat j) b)) = Ok m' /\
    wf_bytes m' /\ length m' = length m /\
    forall t, bitAt m' t = if t =? 32 * p + j then b else bitAt m t.
Proof.
  intros Hm Hl Hp Hj. rewrite rd_lt by assumption. cbn [rbind]. rewrite wr_lt by assumption.
  assert (Hf : p * 4 + 4 <= length m) by lia.
  eexists; split; [reflexivity|]. split; [apply put_word_wf; assumption|]. split; [apply put_word_length; assumption|].
  intros t. rewrite bitAt_put_word by assumption. rewrite testbit_set by (try (apply (word_lt 4); assumption); lia).
  rewrite testbit_word by assumption.
  destruct (Nat.leb_spec (p * (4 * 8)) t), (Nat.ltb_spec t (p * (4 * 8) + 4 * 8)); cbn [andb];
    try (destruct (Nat.eqb_spec t (32 * p + j)); [lia|reflexivity]).
  destruct (N.eqb_spec (N.of_nat j) (N.of_nat (t - p * (4 * 8)))), (Nat.eqb_spec t (32 * p + j)); try lia; try reflexivity.
  destruct (Nat.ltb_spec (t - p * (4 * 8)) (4 * 8)); [|lia]. f_equal. lia.
Qed.

Lemma set_value_bits w vec index value : valid_width w = true -> wf_blocks vec -> index < length vec * sbsize w ->
  exists vec', set_value w vec index value = Ok vec' /\ wf_blocks vec' /\ length vec' = length vec /\
    (forall k, k < w -> bbit vec' (256 * (index / sbsize w) + sbsize w * k + index mod sbsize w) = N.testbit value (N.of_nat k)) /\
    (forall t, (forall k, k < w -> t <> 256 * (index / sbsize w) + sbsize w * k + index mod sbsize w) -> bbit vec' t = bbit vec t).
Proof.
  intros Hw Hv Hi. unfold set_value, get_bit_indices, get_indices, get_blockpos, get_bitpos. change (4 * 8) with 32.
  set (pos := fun k => 256 * (index / sbsize w) + sbsize w * k + index mod sbsize w).
  assert (Hlen : length (bytes_of vec) = length vec * 32) by (apply concat_len; assumption).
  assert (G : forall n, n <= w -> exists m',
    foldM (fun m k =>
             let p := bitslice_blockpos_u32 w (index / 32 / superblock_width w) (index / 32 mod superblock_width w) k in
             let* bits := rd 4 m p in
             wr 4 m p (set_bit 32 bits (N.of_nat (index mod 32)) (get_bit value (N.of_nat k))))
          (seq 0 n) (bytes_of vec) = Ok m' /\ wf_bytes m' /\ length m' = length vec * 32 /\
    (forall k, k < n -> bitAt m' (pos k) = N.testbit value (N.of_nat k)) /\
    (forall t, (forall k, k < n -> t <> pos k) -> bitAt m' t = bbit vec t)).
  { induction n as [|n IH]; intros Hn.
    - exists (bytes_of vec). split; [reflexivity|]. split; [apply concat_wf; assumption|]. split; [assumption|].
      split; [intros; lia|reflexivity].
    - destruct IH as (m' & E & Hm' & Hl' & Hset & Hframe); [lia|].
      rewrite seq_S, foldM_app, E. cbn [rbind foldM Nat.add].
      destruct (bs_rd_wr_bit m' (bitslice_blockpos_u32 w (index / 32 / superblock_width w) (index / 32 mod superblock_width w) n)
                  (index mod 32) (get_bit value (N.of_nat n))) as (m2 & E2 & Hm2 & Hl2 & Hb2).
      + assumption.
      + rewrite Hl'. lia.
      + rewrite Hl'. replace (length vec * 32 / 4) with (length vec * 8) by lia. apply blockpos_lt; try assumption; lia.
      + lia.
      + cbv zeta in *. rewrite E2. cbn [rbind]. exists m2. split; [reflexivity|]. split; [assumption|]. split; [lia|].
        rewrite (blockpos_bit w index n (index mod 32)) in Hb2 by (try assumption; try lia; reflexivity). fold (pos n) in Hb2.
        split.
        * intros k Hk. rewrite Hb2. destruct (Nat.eqb_spec (pos k) (pos n)) as [Ep|Ep].
          -- apply pos_inj in Ep; try assumption; try lia. destruct Ep as [_ ->]. apply get_bit_testbit.
          -- apply Hset. assert (k <> n) by (intros ->; apply Ep; reflexivity). lia.
        * intros t Ht. rewrite Hb2. destruct (Nat.eqb_spec t (pos n)) as [->|_]; [exfalso; apply (Ht n); [lia|reflexivity]|].
          apply Hframe. intros k Hk. apply Ht. lia. }
  destruct (G w) as (m' & E & Hm' & Hl' & Hset & Hframe); [lia|]. cbv zeta in E. rewrite E. cbn [rbind].
  eexists; split; [reflexivity|]. split; [apply to_blocks_wf; assumption|]. split; [apply to_blocks_length|].
  split; intros; unfold bbit at 1; rewrite concat_to_blocks by assumption; [apply Hset|apply Hframe]; assumption.
Qed.

Lemma sumf_testbit_mod w v : sumf w (fun l => (2 ^ N.of_nat l * b2n (N.testbit v (N.of_nat l)))%N) = (v mod 2 ^ N.of_nat w)%N.
Proof.
  induction w as [|n IH]; [rewrite N.mod_1_r; reflexivity|].
  rewrite sumf_S, IH. rewrite Nat2N.inj_succ, N.pow_succ_r', N.testbit_eqb. pose proof (pow2_pos (N.of_nat n)).
  rewrite (N.mul_comm 2), N.mod_mul_r by lia.
  assert (v / 2 ^ N.of_nat n mod 2 < 2)%N by (apply N.mod_lt; lia).
  destruct (N.eqb_spec ((v / 2 ^ N.of_nat n) mod 2) 1) as [->|Hne]; cbn [b2n]; [reflexivity|].
  set (x := (v / 2 ^ N.of_nat n mod 2)%N) in *. assert (x = 0%N) as -> by (clearbody x; lia). lia.
Qed.

Lemma get_set_value w vec index value : valid_width w = true -> wf_blocks vec -> index < length vec * sbsize w ->
  exists vec', set_value w vec index value = Ok vec' /\ wf_blocks vec' /\ length vec' = length vec /\
    get_value w vec' index = Ok (value mod 2 ^ N.of_nat w)%N /\
    forall j, j < length vec * sbsize w -> j <> index -> get_value w vec' j = get_value w vec j.
Proof.
  intros Hw Hv Hi. destruct (set_value_bits w vec index value Hw Hv Hi) as (vec' & E & Hwf & Hl & Hset & Hframe).
  exists vec'. split; [assumption|]. split; [assumption|]. split; [assumption|]. split.
  - rewrite get_value_ok by (try assumption; rewrite Hl; assumption). f_equal. unfold slice_val.
    rewrite <- sumf_testbit_mod. apply sumf_ext. intros k Hk. rewrite Hset by assumption. reflexivity.
  - intros j Hj Hne. rewrite !get_value_ok by (try assumption; rewrite ?Hl; assumption). f_equal. unfold slice_val.
    apply sumf_ext. intros k Hk. do 2 f_equal. apply Hframe. intros l Hlk Ep.
    apply pos_inj in Ep; try assumption. destruct Ep; contradiction.
Qed.

Lemma get_value_panic w vec index : valid_width w = true -> wf_blocks vec -> length vec * sbsize w <= index ->
  get_value w vec index = Panic.
Proof.
  intros Hw Hv Hi. unfold get_value, get_bit_indices, get_indices, get_blockpos, get_bitpos. change (4 * 8) with 32.
  destruct (width_sb w Hw) as (H1 & H2 & H3 & H4).
  assert (Hp : length vec * 8 <= bitslice_blockpos_u32 w (index / 32 / superblock_width w) (index / 32 mod superblock_width w) 0).
  { unfold bitslice_blockpos_u32. set (sb := superblock_width w) in *. rewrite H2 in Hi.
    assert (length vec * sb <= index / 32) by (apply Nat.div_le_lower_bound; nia).
    assert (length vec <= index / 32 / sb) by (apply Nat.div_le_lower_bound; nia). lia. }
  destruct w as [|w]; [discriminate|]. cbn [seq foldM].
  unfold rd at 1. rewrite (len_div _ _ 8) by (try assumption; lia).
  destruct (Nat.ltb_spec (bitslice_blockpos_u32 (S w) (index / 32 / superblock_width (S w)) (index / 32 mod superblock_width (S w)) 0) (length vec * 8)); [lia|].
  reflexivity.
Qed.

(** bitslice.rs has the same behaviour as slice_store.rs. *)
Lemma bsl_get_value_eq w vec index : bsl_get_value w vec index = get_value w vec index.
Proof. reflexivity. Qed.
Lemma bsl_set_value_eq w vec index v : bsl_set_value w vec index v = set_value w vec index v.
Proof. reflexivity. Qed.

(* --- sum_all_masked2 --- *)

Lemma sum_all_masked2_ok w slice nm fm : valid_width w = true ->
  wf_blocks slice -> wf_blocks nm -> wf_blocks fm ->
  length slice = length nm * w -> length slice = length fm * w -> (N.of_nat (length slice) < 2 ^ 27)%N ->
  sum_all_masked2 w slice nm fm =
  Ok (masked_sum (length nm * 256) (fun p => bbit nm p && bbit fm p) (slice_val w (sbsize w) slice)).
Proof.
  intros Hw Hs Hn Hf E1 E2 Hb. unfold sum_all_masked2.
  rewrite <- E1, <- E2, Nat.eqb_refl. cbn [rassert rbind].
  assert (Hb' : (N.of_nat (length slice) < 2 ^ 40)%N) by (eapply N.lt_trans; [exact Hb|reflexivity]).
  destruct (valid_width_cases w Hw) as [->|[->|[->| ->]]];
    unfold sum_all_masked2_unsafe, idx; cbn [Nat.sub nth_error rbind].
  - change (sbsize 1) with 256. unfold btslce_summ1_uc, harvey_seal_64, reduce64_1.
    rewrite (hs64_masked 1 256 _ _ slice (fun p => bbit nm p && bbit fm p)); [|reflexivity|weights wt1| |assumption].
    + f_equal. f_equal. lia.
    + intros i Hi. apply load_w1_uc_ok; assumption.
  - change (sbsize 2) with 128. unfold btslce_summ2_uc, harvey_seal_64, reduce64_2.
    rewrite (hs64_masked 2 128 _ _ slice (fun p => bbit nm p && bbit fm p)); [|reflexivity|weights wt2| |assumption].
    + f_equal. f_equal. lia.
    + intros i Hi. apply load_w2_uc_ok; assumption.
  - change (sbsize 4) with 64. unfold btslce_summ4_uc, harvey_seal_64, reduce64_4.
    rewrite (hs64_masked 4 64 _ _ slice (fun p => bbit nm p && bbit fm p)); [|reflexivity|weights wt4| |assumption].
    + f_equal. f_equal. lia.
    + intros i Hi. apply load_w4_uc_ok; assumption.
  - change (sbsize 8) with 32. unfold btslce_summ8_uc, harvey_seal_32, reduce32_8.
    rewrite (hs32_masked add_epi64 _ slice (fun p => bbit nm p && bbit fm p)); [|apply good_add_epi64_32| |assumption].
    + f_equal. f_equal. lia.
    + intros i Hi. apply load_w8_uc_ok; assumption.
Qed.

Lemma idx_check_ok idxs fm : wf_blocks idxs -> wf_blocks fm ->
  forallb (fun i => N.to_nat i <? block_len 4 fm) (words 4 (bytes_of idxs)) = true <-> idx_ok_for idxs fm.
Proof.
  intros Hx Hf. unfold words. rewrite (len_div _ _ 8) by (try assumption; lia).
  rewrite forallb_forall. unfold idx_ok_for, ixw, block_len. change (BITBLOCK_BYTES / 4) with 8. split.
  - intros H j Hj. rewrite u32_at_word by assumption. apply Nat.ltb_lt, H. apply in_map_iff. exists j.
    split; [reflexivity|]. apply in_seq. lia.
  - intros H x Hin. apply in_map_iff in Hin. destruct Hin as (j & <- & Hj). apply in_seq in Hj. apply Nat.ltb_lt.
    specialize (H j). rewrite u32_at_word in H by assumption. apply H. lia.
Qed.

Lemma sum_all_masked2_compr_ok w slice idxs nm fm : valid_width w = true ->
  wf_blocks slice -> wf_blocks idxs -> wf_blocks nm -> wf_blocks fm ->
  length slice = length idxs * w -> length slice = length nm * w -> idx_ok_for idxs fm ->
  (N.of_nat (length slice) < 2 ^ 27)%N -> (N.of_nat (length fm) * 8 <= 2 ^ 31)%N ->
  sum_all_masked2_compr w slice idxs nm fm =
  Ok (masked_sum (length nm * 256) (gmask nm fm (ixw idxs)) (slice_val w (sbsize w) slice)).
Proof.
  intros Hw Hs Hx Hn Hf E1 E2 Hix Hb Hbf. unfold sum_all_masked2_compr.
  rewrite <- E1, <- E2, Nat.eqb_refl. rewrite (proj2 (idx_check_ok idxs fm Hx Hf)) by assumption. cbn [rassert rbind].
  assert (Hb' : (N.of_nat (length slice) < 2 ^ 40)%N) by (eapply N.lt_trans; [exact Hb|reflexivity]).
  destruct (valid_width_cases w Hw) as [->|[->|[->| ->]]];
    unfold sum_all_masked2_compr_unsafe, idx; cbn [Nat.sub nth_error rbind].
  - change (sbsize 1) with 256. unfold btslce_summ1_c, harvey_seal_64, reduce64_1.
    rewrite (hs64_masked 1 256 _ _ slice (gmask nm fm (ixw idxs))); [|reflexivity|weights wt1| |assumption].
    + f_equal. f_equal. lia.
    + intros i Hi. apply load_w1_c_ok; assumption.
  - change (sbsize 2) with 128. unfold btslce_summ2_c, harvey_seal_64, reduce64_2.
    rewrite (hs64_masked 2 128 _ _ slice (gmask nm fm (ixw idxs))); [|reflexivity|weights wt2| |assumption].
    + f_equal. f_equal. lia.
    + intros i Hi. apply load_w2_c_ok; assumption.
  - change (sbsize 4) with 64. unfold btslce_summ4_c, harvey_seal_64, reduce64_4.
    rewrite (hs64_masked 4 64 _ _ slice (gmask nm fm (ixw idxs))); [|reflexivity|weights wt4| |assumption].
    + f_equal. f_equal. lia.
    + intros i Hi. apply load_w4_c_ok; assumption.
  - change (sbsize 8) with 32. unfold btslce_summ8_c, harvey_seal_32, reduce32_8.
    rewrite (hs32_masked add_epi64 _ slice (gmask nm fm (ixw idxs))); [|apply good_add_epi64_32| |assumption].
    + f_equal. f_equal. lia.
    + intros i Hi. apply load_w8_c_ok; assumption.
Qed.
