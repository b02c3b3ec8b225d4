(** Proofs about the set-bit iterators and visitors. *)
From Coq Require Import Sorting.Sorted.
From Verif Require Import Base BaseProofs BitModel BitSpec BitProofs BitProofs2 SimdProofs SliceSpec SliceProofs IterModel IterSpec.

Definition bits (W : nat) (m : N) : list nat := filter (fun t => N.testbit m (N.of_nat t)) (seq 0 W).

Lemma ctz_pos_spec p : N.testbit (Npos p) (N.of_nat (ctz_pos p)) = true /\
  forall t, t < ctz_pos p -> N.testbit (Npos p) (N.of_nat t) = false.
Proof.
  induction p as [q IH|q IH|]; cbn [ctz_pos].
  - split; [reflexivity|intros; lia].
  - destruct IH as [H1 H2]. change (Npos q~0) with (N.double (Npos q)). split.
    + rewrite Nat2N.inj_succ, N.double_spec, N.testbit_even_succ by lia. exact H1.
    + intros [|t] Ht; [reflexivity|]. rewrite Nat2N.inj_succ, N.double_spec, N.testbit_even_succ by lia. apply H2. lia.
  - split; [reflexivity|intros; lia].
Qed.
Lemma ctz_spec m : m <> 0%N -> N.testbit m (N.of_nat (ctz m)) = true /\
  forall t, t < ctz m -> N.testbit m (N.of_nat t) = false.
Proof. destruct m as [|p]; [congruence|]. intros _. exact (ctz_pos_spec p). Qed.

Lemma filter_none A (p : A -> bool) l : (forall x, In x l -> p x = false) -> filter p l = [].
Proof. induction l as [|x l IH]; intros H; [reflexivity|]. cbn [filter]. rewrite (H x) by (left; reflexivity). apply IH. intros; apply H; right; assumption. Qed.
Lemma filter_ext_in' A (p q : A -> bool) l : (forall x, In x l -> p x = q x) -> filter p l = filter q l.
Proof. apply filter_ext_in. Qed.

Lemma bits_zero W : bits W 0 = [].
Proof. apply filter_none. intros. apply N.bits_0. Qed.

Lemma testbit_lxor_bit m c t : N.testbit (N.lxor m (N.shiftl 1 (N.of_nat c))) (N.of_nat t) = xorb (N.testbit m (N.of_nat t)) (t =? c).
Proof.
  rewrite N.lxor_spec, N.shiftl_1_l, N.pow2_bits_eqb. f_equal.
  destruct (N.eqb_spec (N.of_nat c) (N.of_nat t)), (Nat.eqb_spec t c); try reflexivity; lia.
Qed.

Lemma bits_ctz W m : m <> 0%N -> (m < 2 ^ N.of_nat W)%N ->
  bits W m = ctz m :: bits W (N.lxor m (N.shiftl 1 (N.of_nat (ctz m)))).
Proof.
  intros Hm Hlt. destruct (ctz_spec m Hm) as [H1 H2]. set (c := ctz m) in *.
  assert (Hc : c < W).
  { destruct (Nat.ltb_spec c W); [assumption|]. rewrite (testbit_high m (N.of_nat W)) in H1 by (try assumption; lia). discriminate. }
  unfold bits. replace W with (c + S (W - S c)) by lia. rewrite seq_app, !filter_app. cbn [Nat.add seq filter].
  rewrite (filter_none _ _ (seq 0 c)) by (intros t Ht; apply in_seq in Ht; apply H2; lia).
  rewrite (filter_none _ _ (seq 0 c)).
  2:{ intros t Ht. apply in_seq in Ht. rewrite testbit_lxor_bit, H2 by lia. destruct (Nat.eqb_spec t c); [lia|reflexivity]. }
  rewrite H1, testbit_lxor_bit, H1, Nat.eqb_refl. cbn [xorb app]. f_equal.
  apply filter_ext_in. intros t Ht. apply in_seq in Ht. rewrite testbit_lxor_bit.
  destruct (Nat.eqb_spec t c); [lia|]. rewrite xorb_false_r. reflexivity.
Qed.

Lemma lxor_bit_lt W m : m <> 0%N -> (m < 2 ^ N.of_nat W)%N -> (N.lxor m (N.shiftl 1 (N.of_nat (ctz m))) < 2 ^ N.of_nat W)%N.
Proof.
  intros Hm Hlt. destruct (ctz_spec m Hm) as [H1 _]. apply lt_pow2_testbit. intros q Hq.
  replace q with (N.of_nat (N.to_nat q)) by lia. rewrite testbit_lxor_bit.
  rewrite (testbit_high m (N.of_nat W)) by (try assumption; lia).
  destruct (Nat.eqb_spec (N.to_nat q) (ctz m)) as [E|]; [|reflexivity].
  rewrite <- E, (testbit_high m (N.of_nat W)) in H1 by (try assumption; lia). discriminate.
Qed.

Lemma bits_len W m : length (bits W m) <= W.
Proof.
  unfold bits. rewrite <- (seq_length W 0) at 2. generalize (seq 0 W). intros l.
  induction l as [|x l IH]; cbn [filter length]; [lia|]. destruct (N.testbit _ _); cbn [length]; lia.
Qed.

(** Items of words [i .. i+c-1]. *)
Definition wlist (W : nat) (g : nat -> N) (ix : nat -> nat) (i c : nat) : list nat :=
  concat (map (fun i => map (fun t => t + W * ix i) (bits W (g i))) (seq i c)).

Lemma wlist_cons W g ix i c : wlist W g ix i (S c) = map (fun t => t + W * ix i) (bits W (g i)) ++ wlist W g ix (S i) c.
Proof. reflexivity. Qed.
Lemma wlist_len W g ix i c : length (wlist W g ix i c) <= c * W.
Proof.
  revert i. induction c as [|c IH]; intros i; [cbn; lia|]. rewrite wlist_cons, app_length, map_length.
  pose proof (bits_len W (g i)). specialize (IH (S i)). lia.
Qed.

Section Iter.
  Variables (k n : nat) (vec : blocks) (maskf : nat -> res N) (indexf : nat -> res nat).
  Variables (g : nat -> N) (ix : nat -> nat).
  Let W := k * 8.
  Hypothesis Hix : forall i, i < n -> indexf i = Ok (ix i).
  Hypothesis Hg : forall i, i < n -> exists m1 m2, bs_get_uc k vec i = Ok m1 /\ maskf (ix i) = Ok m2 /\ N.land m1 m2 = g i.
  Hypothesis Hlt : forall i, i < n -> (g i < 2 ^ N.of_nat W)%N.

  Definition remaining (st : index_iter) : list nat :=
    map (fun t => t + W * it_j st) (bits W (it_mask st)) ++ wlist W g ix (it_i st) (n - it_i st).
  Definition st_ok (st : index_iter) : Prop := (it_mask st < 2 ^ N.of_nat W)%N.

  Lemma next_loop_ok : forall fuel st, n - it_i st + 1 < fuel -> st_ok st ->
    exists st', iter_next_loop fuel k n vec maskf indexf st =
      Ok (match remaining st with [] => None | x :: _ => Some x end, st') /\ st_ok st' /\
      remaining st' = tl (remaining st).
  Proof.
    induction fuel as [|fuel IH]; intros st Hf Hst; [lia|]. cbn [iter_next_loop].
    destruct (N.eqb_spec (it_mask st) 0) as [E0|E0]; cbn [negb].
    - destruct (Nat.ltb_spec (it_i st) n) as [Hi|Hi].
      + rewrite Hix by assumption. cbn [rbind]. destruct (Hg _ Hi) as (m1 & m2 & -> & -> & Em). cbn [rbind]. rewrite Em.
        set (st1 := mkiter (S (it_i st)) (ix (it_i st)) (g (it_i st))).
        assert (Er : remaining st = remaining st1).
        { unfold remaining at 1. rewrite E0, bits_zero. cbn [map app].
          replace (n - it_i st) with (S (n - S (it_i st))) by lia. rewrite wlist_cons. reflexivity. }
        rewrite Er. apply IH; [cbn [it_i st1]; unfold st1; cbn [it_i]; lia|]. apply Hlt; assumption.
      + assert (Er : remaining st = []).
        { unfold remaining. rewrite E0, bits_zero. replace (n - it_i st) with 0 by lia. reflexivity. }
        exists st. rewrite Er. split; [reflexivity|]. split; [assumption|]. reflexivity.
    - eexists; split; [|split].
      + unfold remaining. rewrite (bits_ctz W) by assumption. cbn [map app]. unfold W. reflexivity.
      + unfold st_ok. cbn [it_mask]. apply lxor_bit_lt; assumption.
      + unfold remaining at 2. rewrite (bits_ctz W) by assumption. reflexivity.
  Qed.

  Lemma drain_ok : forall fuel st, length (remaining st) < fuel -> st_ok st ->
    iter_drain fuel k n vec maskf indexf st = Ok (remaining st).
  Proof.
    induction fuel as [|fuel IH]; intros st Hf Hst; [lia|]. cbn [iter_drain]. unfold iter_next.
    destruct (next_loop_ok (S (S n)) st) as (st' & -> & Hst' & Er); [lia|assumption|]. cbn [rbind].
    destruct (remaining st) as [|x r]; [reflexivity|]. cbn [tl length] in *.
    rewrite IH by (rewrite ?Er; try assumption; lia). rewrite Er. reflexivity.
  Qed.
End Iter.

Lemma collect_ok k vec maskf indexf g ix : 0 < k -> 0 < block_len k vec ->
  (forall i, i < block_len k vec -> indexf i = Ok (ix i)) ->
  (forall i, i < block_len k vec -> exists m1 m2, bs_get_uc k vec i = Ok m1 /\ maskf (ix i) = Ok m2 /\ N.land m1 m2 = g i) ->
  (forall i, i < block_len k vec -> (g i < 2 ^ N.of_nat (k * 8))%N) ->
  iter_collect k vec maskf indexf = Ok (wlist (k * 8) g ix 0 (block_len k vec)).
Proof.
  intros Hk Hn Hix Hg Hlt. unfold iter_collect, iter_new. set (n := block_len k vec) in *.
  destruct (Nat.ltb_spec 0 n); [|lia]. cbn [rassert rbind].
  rewrite (drain_ok k n vec maskf indexf g ix); try assumption.
  - unfold remaining. cbn [it_mask it_i]. rewrite bits_zero, Nat.sub_0_r. reflexivity.
  - unfold remaining. cbn [it_mask it_i]. rewrite bits_zero, Nat.sub_0_r. cbn [map app].
    pose proof (wlist_len (k * 8) g ix 0 n). lia.
  - unfold st_ok. cbn [it_mask]. apply N.neq_0_lt_0, N.pow_nonzero. lia.
Qed.

Section Each.
  Context {S : Type} (f : S -> nat -> S * bool).
  Variables (k n : nat) (load : nat -> res (N * nat)) (g : nat -> N) (ix : nat -> nat).
  Let W := k * 8.
  Hypothesis Hload : forall i, i < n -> load i = Ok (g i, ix i).
  Hypothesis Hlt : forall i, i < n -> (g i < 2 ^ N.of_nat W)%N.

  Lemma each_loop_ok : forall fuel i mask index s, (n - Datatypes.S i) * (W + 1) + length (bits W mask) < fuel -> i < n ->
    (mask < 2 ^ N.of_nat W)%N ->
    each_loop fuel k n load f i mask index s =
    Ok (visit f s (map (fun t => t + W * index) (bits W mask) ++ wlist W g ix (Datatypes.S i) (n - Datatypes.S i))).
  Proof.
    induction fuel as [|fuel IH]; intros i mask index s Hf Hi Hm; [lia|]. cbn [each_loop].
    destruct (N.eqb_spec mask 0) as [E0|E0]; cbn [negb].
    - subst mask. rewrite bits_zero in *. cbn [map app length] in *.
      destruct (Nat.ltb_spec (Datatypes.S i) n) as [Hi'|Hi'].
      + rewrite Hload by assumption. cbn [rbind fst snd].
        replace (n - Datatypes.S i) with (Datatypes.S (n - Datatypes.S (Datatypes.S i))) by lia. rewrite wlist_cons.
        apply IH; [|assumption|apply Hlt; assumption]. pose proof (bits_len W (g (Datatypes.S i))). nia.
      + replace (n - Datatypes.S i) with 0 by lia. reflexivity.
    - rewrite (bits_ctz W) in * by assumption. cbn [map app visit length] in *. unfold W.
      destruct (f s (ctz mask + k * 8 * index)) as [s' stop]. destruct stop; [reflexivity|].
      apply IH; [fold W; lia|assumption|apply lxor_bit_lt; assumption].
  Qed.

  Lemma for_each_ok s : 0 < n -> for_each k n load f s = Ok (visit f s (wlist W g ix 0 n)).
  Proof.
    intros Hn. unfold for_each. destruct (Nat.ltb_spec 0 n); [|lia]. cbn [rassert rbind]. rewrite Hload by assumption.
    cbn [rbind fst snd]. rewrite each_loop_ok; [|fold W|assumption|apply Hlt; assumption].
    - destruct n as [|n']; [lia|]. rewrite wlist_cons. do 3 f_equal. rewrite Nat.sub_succ, Nat.sub_0_r. reflexivity.
    - pose proof (bits_len W (g 0)). nia.
  Qed.
End Each.

(* --- from words to positions --- *)

Lemma filter_map A B (h : A -> B) p l : filter p (map h l) = map h (filter (fun x => p (h x)) l).
Proof. induction l as [|x l IH]; [reflexivity|]. cbn [map filter]. destruct (p (h x)); cbn [map]; rewrite IH; reflexivity. Qed.

Lemma filter_seq_group p W n : filter p (seq 0 (n * W)) =
  concat (map (fun i => map (fun t => i * W + t) (filter (fun t => p (i * W + t)) (seq 0 W))) (seq 0 n)).
Proof.
  induction n as [|n IH]; [reflexivity|].
  rewrite seq_S, map_app, concat_app, <- IH. cbn [Nat.add map concat]. rewrite app_nil_r.
  replace (S n * W) with (n * W + W) by lia. rewrite seq_app, filter_app. f_equal.
  cbn [Nat.add]. rewrite <- (Nat.add_0_r (n * W)) at 1. rewrite seq_shift_add, filter_map. reflexivity.
Qed.

Lemma wlist_positions W g ix (p : nat -> bool) n : 0 < W ->
  (forall i t, i < n -> t < W -> N.testbit (g i) (N.of_nat t) = p (i * W + t)) ->
  wlist W g ix 0 n = map (fun q => W * ix (q / W) + q mod W) (filter p (seq 0 (n * W))).
Proof.
  intros HW Hp. unfold wlist. rewrite filter_seq_group, concat_map, map_map. f_equal.
  apply map_ext_in. intros i Hi. apply in_seq in Hi. rewrite map_map. unfold bits.
  rewrite (filter_ext_in (fun t => N.testbit (g i) (N.of_nat t)) (fun t => p (i * W + t))).
  2:{ intros t Ht. apply in_seq in Ht. apply Hp; lia. }
  apply map_ext_in. intros t Ht. apply filter_In in Ht. destruct Ht as [Ht _]. apply in_seq in Ht.
  rewrite Nat.div_add_l, (Nat.div_small t) by lia. rewrite Nat.add_0_r, (Nat.add_comm (i * W) t), Nat.mod_add, Nat.mod_small by lia. lia.
Qed.

Lemma wlist_pos_id W g p n : 0 < W ->
  (forall i t, i < n -> t < W -> N.testbit (g i) (N.of_nat t) = p (i * W + t)) ->
  wlist W g (fun i => i) 0 n = positions (n * W) p.
Proof.
  intros HW Hp. rewrite (wlist_positions W g _ p) by assumption. unfold positions.
  rewrite <- (map_id (filter p (seq 0 (n * W)))) at 2. apply map_ext. intros q. symmetry. apply Nat.div_mod. lia.
Qed.

(* --- the public functions --- *)

Lemma testbit_wnot k x t : t < k * 8 -> N.testbit (wnot k x) (N.of_nat t) = negb (N.testbit x (N.of_nat t)).
Proof. intros Ht. unfold wnot. rewrite testbit_lnot_full. destruct (N.ltb_spec (N.of_nat t) (8 * N.of_nat k)); [reflexivity|lia]. Qed.

Lemma word_bit k bs i t : wf_blocks bs -> t < k * 8 -> N.testbit (word k (concat bs) i) (N.of_nat t) = bbit bs (i * (k * 8) + t).
Proof. intros H Ht. rewrite testbit_bs_word by assumption. destruct (Nat.ltb_spec t (k * 8)); [reflexivity|lia]. Qed.

Lemma blen8 bs : block_len 8 bs = length bs * 4. Proof. reflexivity. Qed.
Lemma blen4 bs : block_len 4 bs = length bs * 8. Proof. reflexivity. Qed.
Lemma q8 : exists q, q * 8 = 32. Proof. exists 4; reflexivity. Qed.
Lemma q4 : exists q, q * 4 = 32. Proof. exists 8; reflexivity. Qed.

Lemma word_lt' k bs i x : wf_blocks bs -> (N.land (word k (concat bs) i) x < 2 ^ N.of_nat (k * 8))%N.
Proof. intros H. apply land_lt. replace (N.of_nat (k * 8)) with (8 * N.of_nat k)%N by lia. apply word_lt, concat_wf, H. Qed.

(** One lemma for the three uncompressed iterators. *)
Lemma iter8_ok a maskf (mw : nat -> N) (mp : nat -> bool) : wf_blocks a -> 0 < length a ->
  (forall j, j < length a * 4 -> maskf j = Ok (mw j)) ->
  (forall j t, j < length a * 4 -> t < 64 -> N.testbit (mw j) (N.of_nat t) = mp (j * 64 + t)) ->
  iter_collect 8 a maskf (fun i => Ok i) = Ok (positions (length a * 256) (fun p => bbit a p && mp p)).
Proof.
  intros Ha Hn Hm Hb.
  rewrite (collect_ok 8 a maskf (fun i => Ok i) (fun i => N.land (word 8 (concat a) i) (mw i)) (fun i => i)).
  - f_equal. rewrite (wlist_pos_id _ _ (fun p => bbit a p && mp p)); [rewrite blen8; f_equal; lia|lia|].
    intros i t Hi Ht. rewrite blen8 in Hi. rewrite N.land_spec, word_bit, Hb by assumption. reflexivity.
  - lia.
  - rewrite blen8. lia.
  - reflexivity.
  - intros i Hi. exists (word 8 (concat a) i), (mw i). split; [apply bs_get_uc_ok; try assumption; apply q8|].
    split; [apply Hm; exact Hi|reflexivity].
  - intros i Hi. apply word_lt'; assumption.
Qed.

Lemma iter4_ok a idxs maskf (mw : nat -> N) (mp : nat -> bool) : wf_blocks a -> wf_blocks idxs -> 0 < length a -> length a = length idxs ->
  (forall i, i < length a * 8 -> maskf (ixw idxs i) = Ok (mw (ixw idxs i))) ->
  (forall i t, i < length a * 8 -> t < 32 -> N.testbit (mw (ixw idxs i)) (N.of_nat t) = mp (32 * ixw idxs i + t)) ->
  iter_collect 4 a maskf (fun i => let* x := bs_get_uc 4 idxs i in Ok (N.to_nat x)) =
  Ok (positions_compr (length a * 256) (ixw idxs) (fun p => bbit a p && mp (expand_pos (ixw idxs) p))).
Proof.
  intros Ha Hx Hn Hl Hm Hb.
  rewrite (collect_ok 4 a maskf _ (fun i => N.land (word 4 (concat a) i) (mw (ixw idxs i))) (ixw idxs)).
  - f_equal. rewrite (wlist_positions _ _ _ (fun p => bbit a p && mp (expand_pos (ixw idxs) p))).
    + unfold positions_compr. rewrite blen4. change (4 * 8) with 32. replace (length a * 8 * 32) with (length a * 256) by lia. reflexivity.
    + lia.
    + intros i t Hi Ht. rewrite blen4 in Hi. rewrite N.land_spec, word_bit, Hb by assumption. unfold expand_pos.
      change (4 * 8) with 32. replace ((i * 32 + t) / 32) with i by lia. replace ((i * 32 + t) mod 32) with t by lia. reflexivity.
  - lia.
  - rewrite blen4. lia.
  - intros i Hi. rewrite blen4, Hl in Hi. rewrite bs_get_uc_ok by (try assumption; try apply q4; rewrite blen4; assumption). cbn [rbind].
    unfold ixw. rewrite u32_at_word by assumption. reflexivity.
  - intros i Hi. exists (word 4 (concat a) i), (mw (ixw idxs i)). split; [apply bs_get_uc_ok; try assumption; apply q4|].
    split; [apply Hm; exact Hi|reflexivity].
  - intros i Hi. apply word_lt'; assumption.
Qed.

Lemma positions_ext n p q : (forall i, i < n -> p i = q i) -> positions n p = positions n q.
Proof. intros H. apply filter_ext_in. intros i Hi. apply in_seq in Hi. apply H. lia. Qed.
Lemma positions_compr_ext n ix p q : (forall i, i < n -> p i = q i) -> positions_compr n ix p = positions_compr n ix q.
Proof. intros H. unfold positions_compr. f_equal. apply positions_ext. exact H. Qed.

Lemma index_list_ok a : wf_blocks a -> 0 < length a -> index_list a = Ok (positions (length a * 256) (bbit a)).
Proof.
  intros Ha Hn. unfold index_list. rewrite (iter8_ok a _ (fun _ => wnot 8 0) (fun _ => true)); try assumption.
  - f_equal. apply positions_ext. intros. apply andb_true_r.
  - reflexivity.
  - intros j t _ Ht. rewrite testbit_wnot by assumption. rewrite N.bits_0. reflexivity.
Qed.
Lemma index_list_and_ok a m : wf_blocks a -> wf_blocks m -> 0 < length a -> length a = length m ->
  index_list_and a m = Ok (positions (length a * 256) (fun p => bbit a p && bbit m p)).
Proof.
  intros Ha Hm Hn Hl. unfold index_list_and. rewrite !blen8, Hl, Nat.eqb_refl. cbn [rassert rbind]. rewrite <- Hl.
  apply (iter8_ok a _ (fun j => word 8 (concat m) j) (bbit m)); try assumption.
  - intros j Hj. apply bs_get_uc_ok; try assumption; [apply q8|rewrite blen8; lia].
  - intros j t _ Ht. apply word_bit; assumption.
Qed.
Lemma index_list_andnot_ok a m : wf_blocks a -> wf_blocks m -> 0 < length a -> length a = length m ->
  index_list_andnot a m = Ok (positions (length a * 256) (fun p => bbit a p && negb (bbit m p))).
Proof.
  intros Ha Hm Hn Hl. unfold index_list_andnot. rewrite !blen8, Hl, Nat.eqb_refl. cbn [rassert rbind]. rewrite <- Hl.
  apply (iter8_ok a _ (fun j => wnot 8 (word 8 (concat m) j)) (fun p => negb (bbit m p))); try assumption.
  - intros j Hj. rewrite bs_get_uc_ok; try assumption; [reflexivity|apply q8|rewrite blen8; lia].
  - intros j t _ Ht. rewrite testbit_wnot by assumption. f_equal. apply word_bit; assumption.
Qed.
Lemma index_list_compr_ok a idxs : wf_blocks a -> wf_blocks idxs -> 0 < length a -> length a = length idxs ->
  index_list_compr a idxs = Ok (positions_compr (length a * 256) (ixw idxs) (bbit a)).
Proof.
  intros Ha Hx Hn Hl. unfold index_list_compr. rewrite !blen4, <- Hl, Nat.eqb_refl. cbn [rassert rbind].
  rewrite (iter4_ok a idxs _ (fun _ => wnot 4 0) (fun _ => true)); try assumption.
  - f_equal. apply positions_compr_ext. intros. apply andb_true_r.
  - reflexivity.
  - intros j t _ Ht. rewrite testbit_wnot by assumption. rewrite N.bits_0. reflexivity.
Qed.
Lemma index_list_and_compr_ok a m idxs : wf_blocks a -> wf_blocks m -> wf_blocks idxs -> 0 < length a -> length a = length idxs ->
  length a <= length m -> idx_ok_for idxs m ->
  index_list_and_compr a m idxs = Ok (positions_compr (length a * 256) (ixw idxs) (fun p => bbit a p && bbit m (expand_pos (ixw idxs) p))).
Proof.
  intros Ha Hm Hx Hn Hl Hle Hix. unfold index_list_and_compr. rewrite !blen4, <- Hl, Nat.eqb_refl. cbn [rassert rbind].
  destruct (Nat.leb_spec (length a * 8) (length m * 8)); [|lia]. cbn [rassert rbind].
  apply (iter4_ok a idxs _ (fun j => word 4 (concat m) j) (bbit m)); try assumption.
  - intros i Hi. apply bs_get_ok; try assumption; [apply q4|rewrite blen4; apply Hix; lia].
  - intros i t _ Ht. rewrite word_bit by assumption. f_equal. lia.
Qed.
Lemma index_list_andnot_compr_ok a m idxs : wf_blocks a -> wf_blocks m -> wf_blocks idxs -> 0 < length a -> length a = length idxs ->
  length a <= length m -> idx_ok_for idxs m ->
  index_list_andnot_compr a m idxs = Ok (positions_compr (length a * 256) (ixw idxs) (fun p => bbit a p && negb (bbit m (expand_pos (ixw idxs) p)))).
Proof.
  intros Ha Hm Hx Hn Hl Hle Hix. unfold index_list_andnot_compr. rewrite !blen4, <- Hl, Nat.eqb_refl. cbn [rassert rbind].
  destruct (Nat.leb_spec (length a * 8) (length m * 8)); [|lia]. cbn [rassert rbind].
  apply (iter4_ok a idxs _ (fun j => wnot 4 (word 4 (concat m) j)) (fun p => negb (bbit m p))); try assumption.
  - intros i Hi. rewrite bs_get_ok; try assumption; [reflexivity|apply q4|rewrite blen4; apply Hix; lia].
  - intros i t _ Ht. rewrite testbit_wnot by assumption. f_equal. rewrite word_bit by assumption. f_equal. lia.
Qed.

Section Visitors.
  Context {S : Type} (f : S -> nat -> S * bool) (s : S).
  Lemma for_each_index_ok a : wf_blocks a -> 0 < length a ->
    for_each_index a f s = Ok (visit f s (positions (length a * 256) (bbit a))).
  Proof.
    intros Ha Hn. unfold for_each_index.
    rewrite (for_each_ok f 8 _ _ (fun i => word 8 (concat a) i) (fun i => i)).
    - do 2 f_equal. rewrite (wlist_pos_id _ _ (bbit a)); [rewrite blen8; f_equal; lia|lia|].
      intros i t Hi Ht. apply word_bit; assumption.
    - intros i Hi. rewrite bs_get_uc_ok by (try assumption; apply q8). reflexivity.
    - intros i Hi. change (8 * 8) with (8 * 8). apply (word_lt_k 8); [assumption|reflexivity].
    - rewrite blen8. lia.
  Qed.
  Lemma for_each_index_and_ok a m : wf_blocks a -> wf_blocks m -> 0 < length a -> length a = length m ->
    for_each_index_and a m f s = Ok (visit f s (positions (length a * 256) (fun p => bbit a p && bbit m p))).
  Proof.
    intros Ha Hm Hn Hl. unfold for_each_index_and. rewrite !blen8, <- Hl, Nat.eqb_refl.
    destruct (Nat.ltb_spec 0 (length a * 4)); [|lia]. cbn [rassert rbind].
    rewrite (for_each_ok f 8 _ _ (fun i => N.land (word 8 (concat a) i) (word 8 (concat m) i)) (fun i => i)).
    - do 2 f_equal. rewrite (wlist_pos_id _ _ (fun p => bbit a p && bbit m p)); [f_equal; lia|lia|].
      intros i t Hi Ht. rewrite N.land_spec, !word_bit by assumption. reflexivity.
    - intros i Hi. rewrite !bs_get_uc_ok by (try assumption; try apply q8; rewrite blen8; lia). reflexivity.
    - intros i Hi. apply word_lt'; assumption.
    - lia.
  Qed.
  Lemma for_each_index_compr_ok a idxs : wf_blocks a -> wf_blocks idxs -> 0 < length a -> length a = length idxs ->
    for_each_index_compr a idxs f s = Ok (visit f s (positions_compr (length a * 256) (ixw idxs) (bbit a))).
  Proof.
    intros Ha Hx Hn Hl. unfold for_each_index_compr. rewrite !blen4, <- Hl, Nat.eqb_refl.
    destruct (Nat.ltb_spec 0 (length a * 8)); [|lia]. cbn [rassert rbind].
    rewrite (for_each_ok f 4 _ _ (fun i => word 4 (concat a) i) (ixw idxs)).
    - do 2 f_equal. rewrite (wlist_positions _ _ _ (bbit a)).
      + unfold positions_compr. change (4 * 8) with 32. replace (length a * 8 * 32) with (length a * 256) by lia. reflexivity.
      + lia.
      + intros i t Hi Ht. apply word_bit; assumption.
    - intros i Hi. rewrite !bs_get_uc_ok by (try assumption; try apply q4; rewrite blen4; lia). cbn [rbind].
      unfold ixw. rewrite u32_at_word by assumption. reflexivity.
    - intros i Hi. apply (word_lt_k 4); [assumption|reflexivity].
    - lia.
  Qed.
  Lemma for_each_index_and_compr_ok a m idxs : wf_blocks a -> wf_blocks m -> wf_blocks idxs -> 0 < length a -> length a = length idxs ->
    length a <= length m -> idx_ok_for idxs m ->
    for_each_index_and_compr a m idxs f s =
    Ok (visit f s (positions_compr (length a * 256) (ixw idxs) (fun p => bbit a p && bbit m (expand_pos (ixw idxs) p)))).
  Proof.
    intros Ha Hm Hx Hn Hl Hle Hix. unfold for_each_index_and_compr. rewrite !blen4, <- Hl, Nat.eqb_refl.
    destruct (Nat.ltb_spec 0 (length a * 8)); [|lia]. destruct (Nat.leb_spec (length a * 8) (length m * 8)); [|lia]. cbn [rassert rbind].
    rewrite (for_each_ok f 4 _ _ (fun i => N.land (word 4 (concat a) i) (word 4 (concat m) (ixw idxs i))) (ixw idxs)).
    - do 2 f_equal. rewrite (wlist_positions _ _ _ (fun p => bbit a p && bbit m (expand_pos (ixw idxs) p))).
      + unfold positions_compr. change (4 * 8) with 32. replace (length a * 8 * 32) with (length a * 256) by lia. reflexivity.
      + lia.
      + intros i t Hi Ht. rewrite N.land_spec, !word_bit by assumption. unfold expand_pos.
        change (4 * 8) with 32. replace ((i * 32 + t) / 32) with i by lia. replace ((i * 32 + t) mod 32) with t by lia.
        do 2 f_equal. lia.
    - intros i Hi. rewrite !bs_get_uc_ok by (try assumption; try apply q4; rewrite blen4; lia). cbn [rbind].
      replace (N.to_nat (word 4 (concat idxs) i)) with (ixw idxs i) by (unfold ixw; rewrite u32_at_word by assumption; reflexivity).
      rewrite bs_get_uc_ok by (try assumption; try apply q4; rewrite blen4; apply Hix; lia). reflexivity.
    - intros i Hi. apply word_lt'; assumption.
    - lia.
  Qed.
End Visitors.

(* --- consequences of the specification lists --- *)

Lemma positions_in n p x : In x (positions n p) <-> x < n /\ p x = true.
Proof. unfold positions. rewrite filter_In, in_seq. split; intros [? ?]; split; auto; lia. Qed.
Lemma seq_sorted a n : StronglySorted lt (seq a n).
Proof.
  revert a. induction n as [|n IH]; intros a; cbn [seq]; constructor; [apply IH|].
  apply Forall_forall. intros x Hx. apply in_seq in Hx. lia.
Qed.
Lemma filter_sorted p l : StronglySorted lt l -> StronglySorted lt (filter p l).
Proof.
  induction 1 as [|x l H IH F]; cbn [filter]; [constructor|]. destruct (p x); [|assumption].
  constructor; [assumption|]. rewrite Forall_forall in *. intros y Hy. apply filter_In in Hy. apply F, Hy.
Qed.
Lemma positions_sorted n p : StronglySorted lt (positions n p).
Proof. apply filter_sorted, seq_sorted. Qed.
