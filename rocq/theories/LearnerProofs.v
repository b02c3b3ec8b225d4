From Coq Require Import Permutation Sorting.Sorted.
From Verif Require Import Base BaseProofs BitModel BitSpec BitProofs BitProofs2 SimdModel SliceModel SliceSpec SliceProofs SliceProofs2 SliceProps
  CountSumProofs IterModel IterSpec IterProofs Num ScaledModel DataModel Config TreeModel DatasetModel DatasetSpec DatasetProofs LearnerModel LearnerSpec.

(* ---- lists of positions ---- *)
Lemma map_sorted (h : nat -> nat) l : StronglySorted lt l -> (forall x y, In x l -> In y l -> x < y -> h x < h y) -> StronglySorted lt (map h l).
Proof.
  intros HS. induction HS as [|x t Ht IH Hx]; intros H; cbn [map]; constructor.
  - apply IH. intros a b Ha Hb. apply H; right; assumption.
  - apply Forall_map. rewrite Forall_forall in *. intros y Hy. apply H; [left; reflexivity|right; exact Hy|apply Hx, Hy].
Qed.

Lemma in_compr_spec ix m x : in_compr_set ix m x = true <-> exists p, p < length ix * 256 /\ bbit m p = true /\ expand_pos (ixw ix) p = x.
Proof.
  unfold in_compr_set. rewrite existsb_exists. split.
  - intros (j & Hj & H). apply in_seq in Hj. apply andb_true_iff in H as [H1 H2]. apply Nat.eqb_eq in H1.
    exists (32 * j + x mod 32). split; [lia|]. split; [exact H2|]. unfold expand_pos, ixw.
    replace ((32 * j + x mod 32) / 32) with j by lia. rewrite H1. lia.
  - intros (p & Hp & Hb & <-). exists (p / 32). split; [apply in_seq; lia|]. apply andb_true_iff. unfold expand_pos, ixw. split.
    + apply Nat.eqb_eq. lia.
    + replace (32 * (p / 32) + (32 * N.to_nat (u32_at ix (p / 32)) + p mod 32) mod 32) with p by lia. exact Hb.
Qed.

Lemma block_nonzero m p : wf_blocks m -> bbit m p = true -> u32_at m (p / 32) <> 0%N.
Proof.
  intros Hm Hb E. assert (N.testbit (u32_at m (p / 32)) (N.of_nat (p mod 32)) = true) as H.
  { rewrite testbit_u32_at by (try assumption; lia). replace (32 * (p / 32) + p mod 32) with p by lia. exact Hb. }
  rewrite E in H. discriminate.
Qed.
Lemma u32_nonzero m j : wf_blocks m -> u32_at m j <> 0%N -> exists t, t < 32 /\ bbit m (32 * j + t) = true.
Proof.
  intros Hm Hn. destruct (existsb (fun t => bbit m (32 * j + t)) (seq 0 32)) eqn:E.
  - apply existsb_exists in E as (t & Ht & E). apply in_seq in Ht. exists t. split; [lia|exact E].
  - exfalso. apply Hn. apply sumf_zero. intros t Ht. destruct (bbit m (32 * j + t)) eqn:Eb; [|cbn [b2n]; lia].
    assert (existsb (fun t => bbit m (32 * j + t)) (seq 0 32) = true); [|congruence]. apply existsb_exists. exists t. split; [apply in_seq; lia|exact Eb].
Qed.

Lemma expand_mono ix m p q : wf_blocks m -> increasing_blocks ix m -> q < length ix * 256 -> p < q -> bbit m q = true ->
  expand_pos (ixw ix) p < expand_pos (ixw ix) q.
Proof.
  intros Hm Hi Hq Hpq Hb. unfold expand_pos. destruct (Nat.eq_dec (p / 32) (q / 32)) as [E|E].
  - rewrite E. lia.
  - assert (ixw ix (p / 32) < ixw ix (q / 32)); [|lia]. unfold ixw. specialize (Hi (p / 32) (q / 32)).
    pose proof (block_nonzero m q Hm Hb). specialize (Hi ltac:(lia) ltac:(lia) ltac:(assumption)). lia.
Qed.

Lemma compr_members n ix m : wf_blocks m -> increasing_blocks ix m ->
  (forall p, p < length ix * 256 -> bbit m p = true -> expand_pos (ixw ix) p < n) ->
  positions_compr (length ix * 256) (ixw ix) (bbit m) = positions n (in_compr_set ix m).
Proof.
  intros Hm Hi Hn. apply increasing_ext.
  - unfold positions_compr. apply map_sorted; [apply filter_sorted, seq_sorted|]. intros p q Hp Hq Hpq. apply filter_In in Hp as [_ _]. apply filter_In in Hq as [Hq Hb].
    apply in_seq in Hq. eapply expand_mono; try eassumption; lia.
  - apply positions_sorted.
  - intros x. rewrite positions_in. unfold positions_compr. rewrite in_map_iff, in_compr_spec. split.
    + intros (p & <- & Hp). apply filter_In in Hp as [Hp Hb]. apply in_seq in Hp. split; [apply Hn; [lia|exact Hb]|]. exists p. split; [lia|]. auto.
    + intros (_ & p & Hp & Hb & E). exists p. split; [exact E|]. apply filter_In. split; [apply in_seq; lia|exact Hb].
Qed.

Lemma filter_andb A (p q : A -> bool) l : filter (fun x => p x && q x) l = filter q (filter p l).
Proof. induction l as [|x t IH]; [reflexivity|]. cbn [filter]. destruct (p x); cbn [andb filter]; [destruct (q x)|]; rewrite IH; reflexivity. Qed.
Lemma compr_filter n ix m q : wf_blocks m -> increasing_blocks ix m ->
  (forall p, p < length ix * 256 -> bbit m p = true -> expand_pos (ixw ix) p < n) ->
  positions_compr (length ix * 256) (ixw ix) (fun p => bbit m p && q (expand_pos (ixw ix) p)) = filter q (positions n (in_compr_set ix m)).
Proof.
  intros Hm Hi Hn. rewrite <- (compr_members n ix m Hm Hi Hn). unfold positions_compr. rewrite filter_map. f_equal.
  rewrite <- filter_andb. reflexivity.
Qed.
Lemma countf_compr n ix m q : wf_blocks m -> increasing_blocks ix m ->
  (forall p, p < length ix * 256 -> bbit m p = true -> expand_pos (ixw ix) p < n) ->
  countf (length ix * 256) (fun p => bbit m p && q (expand_pos (ixw ix) p)) = N.of_nat (length (filter q (positions n (in_compr_set ix m)))).
Proof.
  intros Hm Hi Hn. rewrite <- (compr_filter n ix m q Hm Hi Hn). unfold positions_compr. rewrite map_length. reflexivity.
Qed.
Lemma sum_filter n (p : nat -> bool) (v : nat -> N) : sumf n (fun i => if p i then v i else 0%N) = sumN (map v (filter p (seq 0 n))).
Proof.
  unfold sumf. induction (seq 0 n) as [|x t IH]; [reflexivity|]. cbn [map filter sumN]. rewrite IH. destruct (p x); cbn [map sumN]; lia.
Qed.
Lemma sum_compr n ix m q (vals gv : nat -> N) : wf_blocks m -> increasing_blocks ix m ->
  (forall p, p < length ix * 256 -> bbit m p = true -> expand_pos (ixw ix) p < n) ->
  (forall p, p < length ix * 256 -> bbit m p = true -> vals p = gv (expand_pos (ixw ix) p)) ->
  masked_sum (length ix * 256) (fun p => bbit m p && q (expand_pos (ixw ix) p)) vals = sumN (map gv (filter q (positions n (in_compr_set ix m)))).
Proof.
  intros Hm Hi Hn Hv. rewrite <- (compr_filter n ix m q Hm Hi Hn). unfold positions_compr, masked_sum. rewrite sum_filter, map_map.
  apply sumN_map_ext. intros p Hp. apply filter_In in Hp as [Hp Hb]. apply in_seq in Hp. apply andb_true_iff in Hb as [Hb _]. apply Hv; [lia|exact Hb].
Qed.

Lemma filter_length_le A (p : A -> bool) l : length (filter p l) <= length l.
Proof. induction l as [|x t IH]; [reflexivity|]. cbn [filter]. destruct (p x); cbn [length]; lia. Qed.

(* ---- nodes ---- *)
Section Nodes.
Variable O : numops.
Variable cfg : config O.
Variable n : nat.
Variable gv : nat -> N.
Notation w := (c_discr_nbits cfg).
Notation N0 := (blocks_required_for n).

(** The contents of a node are well formed; [gv] gives the gradients. *)
Record node_ok (nd : node O) : Prop := {
  no_ix : wf_blocks (nd_idx nd);
  no_m : wf_blocks (nd_mask nd);
  no_g : wf_blocks (nd_grads nd);
  no_lm : length (nd_mask nd) = length (nd_idx nd);
  no_pos : 0 < length (nd_idx nd);
  no_le : length (nd_idx nd) <= N0;
  no_lg : length (nd_grads nd) = length (nd_idx nd) * w;
  no_ixlt : forall j, j < length (nd_idx nd) * 8 -> ixw (nd_idx nd) j < N0 * 8;
  no_inc : increasing_blocks (nd_idx nd) (nd_mask nd);
  no_unc : nd_compr nd = false -> length (nd_idx nd) = N0 /\ forall j, j < N0 * 8 -> ixw (nd_idx nd) j = j;
  no_lt : forall p, p < length (nd_idx nd) * 256 -> bbit (nd_mask nd) p = true -> expand_pos (ixw (nd_idx nd)) p < n;
  no_val : forall p, p < length (nd_idx nd) * 256 -> bbit (nd_mask nd) p = true ->
    slice_val w (sbsize w) (nd_grads nd) p = gv (expand_pos (ixw (nd_idx nd)) p)
}.

Definition fmask_ok (fm : blocks) : Prop := wf_blocks fm /\ length fm = N0.

Lemma unc_expand nd p : node_ok nd -> nd_compr nd = false -> p < length (nd_idx nd) * 256 -> expand_pos (ixw (nd_idx nd)) p = p.
Proof.
  intros H Hc Hp. destruct (no_unc nd H Hc) as [HL HE]. unfold expand_pos. rewrite HE by lia. lia.
Qed.

Hypothesis Hw : valid_width w = true.
Hypothesis Hsmall : (N.of_nat n <= 2 ^ 31)%N.

Lemma N0_bound : (N.of_nat N0 <= 8388608)%N.
Proof.
  destruct (Nat.eq_dec n 0) as [->|Hz]; [rewrite blocks_required_0; lia|]. pose proof (blocks_required_lt n ltac:(lia)). change (2 ^ 31)%N with 2147483648%N in Hsmall. lia.
Qed.
Lemma w_le : w <= 8.
Proof. destruct (valid_width_cases w Hw) as [->|[->|[->| ->]]]; lia. Qed.
Lemma slices_bound nd : node_ok nd -> (N.of_nat (length (nd_grads nd)) < 2 ^ 27)%N.
Proof.
  intros H. rewrite (no_lg nd H). pose proof (no_le nd H). pose proof N0_bound. pose proof w_le. change (2 ^ 27)%N with 134217728%N.
  assert (length (nd_idx nd) * w <= N0 * 8) by nia. lia.
Qed.
Lemma fmask_bound fm : fmask_ok fm -> (N.of_nat (length fm) * 8 <= 2 ^ 31)%N.
Proof. intros [_ E]. rewrite E. pose proof N0_bound. change (2 ^ 31)%N with 2147483648%N. lia. Qed.
Lemma mask_bound nd : node_ok nd -> (N.of_nat (length (nd_mask nd)) < 2 ^ 40)%N.
Proof. intros H. rewrite (no_lm nd H). pose proof (no_le nd H). pose proof N0_bound. change (2 ^ 40)%N with 1099511627776%N. lia. Qed.
Lemma node_idx_ok nd fm : node_ok nd -> fmask_ok fm -> idx_ok_for (nd_idx nd) fm.
Proof. intros H [_ E] j Hj. rewrite E. apply (no_ixlt nd H), Hj. Qed.

Lemma members_length (nd : node O) : length (members n nd) <= n.
Proof. unfold members, positions. etransitivity; [apply filter_length_le|]. rewrite seq_length. reflexivity. Qed.
Lemma members_lt (nd : node O) x : In x (members n nd) -> x < n.
Proof. intros H. apply positions_in in H as [H _]. exact H. Qed.

(** The value of a histogram bin. *)
Lemma get_grad_sum_ok bounds nd fm : node_ok nd -> fmask_ok fm ->
  get_grad_sum cfg bounds nd fm = Ok (bin_summary cfg bounds gv (filter (bbit fm) (members n nd))).
Proof.
  intros H HF. pose proof (node_idx_ok nd fm H HF) as Hix. pose proof (fmask_bound fm HF) as HB. destruct HF as [Hf Lf]. unfold get_grad_sum, bin_summary, width.
  set (l := filter (bbit fm) (members n nd)).
  assert (length l <= n) as Hl by (unfold l; etransitivity; [apply filter_length_le|apply members_length]).
  assert ((N.of_nat (length l) mod 4294967296)%N = N.of_nat (length l)) as Hmod by (apply N.mod_small; change (2 ^ 31)%N with 2147483648%N in Hsmall; lia).
  destruct (nd_compr nd) eqn:Ec.
  - rewrite bitvec_count_and_c_ok by (first [apply H|apply mask_bound, H|assumption]). rewrite (no_lm nd H), Nat.min_id. cbn [rbind].
    rewrite (countf_compr n _ _ (bbit fm)) by apply H. fold (members n nd). fold l. rewrite Hmod. destruct (N.of_nat (length l) <? c_min_examples_leaf cfg)%N; [reflexivity|].
    pose proof (sum_all_masked2_compr_ok w (nd_grads nd) (nd_idx nd) (nd_mask nd) fm) as HS.
    specialize (HS Hw (no_g nd H) (no_ix nd H) (no_m nd H) Hf (no_lg nd H)). rewrite (no_lm nd H) in HS. specialize (HS (no_lg nd H) Hix (slices_bound nd H) HB).
    unfold sum_all_masked2_compr in HS. rewrite (no_lg nd H), (no_lm nd H), Nat.eqb_refl in HS. rewrite (proj2 (idx_check_ok _ _ (no_ix nd H) Hf) Hix) in HS.
    cbn [rassert rbind] in HS. rewrite HS. cbn [rbind]. unfold gmask. rewrite (sum_compr n _ _ (bbit fm) _ gv) by apply H. reflexivity.
  - destruct (no_unc nd H Ec) as [HL HE].
    assert (Hcong : forall p, p < length (nd_idx nd) * 256 -> bbit (nd_mask nd) p && bbit fm p = bbit (nd_mask nd) p && bbit fm (expand_pos (ixw (nd_idx nd)) p)).
    { intros p Hp. rewrite (unc_expand nd p H Ec Hp). reflexivity. }
    rewrite C08_count_ones_and by (first [apply H|apply mask_bound, H|assumption|rewrite (no_lm nd H); lia]). cbn [rbind]. rewrite (no_lm nd H).
    rewrite (countf_ext _ _ _ Hcong), (countf_compr n _ _ (bbit fm)) by apply H. fold (members n nd). fold l. rewrite Hmod.
    destruct (N.of_nat (length l) <? c_min_examples_leaf cfg)%N; [reflexivity|].
    pose proof (sum_all_masked2_ok w (nd_grads nd) (nd_mask nd) fm) as HS.
    specialize (HS Hw (no_g nd H) (no_m nd H) Hf). rewrite (no_lm nd H), Lf in HS. specialize (HS (no_lg nd H)). rewrite <- HL in HS. specialize (HS (no_lg nd H) (slices_bound nd H)).
    unfold sum_all_masked2 in HS. rewrite (no_lg nd H), (no_lm nd H), Lf, HL, Nat.eqb_refl in HS. cbn [rassert rbind] in HS. rewrite HS. cbn [rbind].
    rewrite <- HL. rewrite (masked_sum_ext _ _ _ _ _ Hcong (fun i _ => eq_refl)). rewrite (sum_compr n _ _ (bbit fm) _ gv) by apply H. reflexivity.
Qed.

(** The examples listed for leaf values. *)
Lemma node_positions nd : node_ok nd -> (if nd_compr nd then index_list_compr (nd_mask nd) (nd_idx nd) else index_list (nd_mask nd)) = Ok (members n nd).
Proof.
  intros H. unfold members. assert (0 < length (nd_mask nd)) as Hp by (rewrite (no_lm nd H); apply H). destruct (nd_compr nd) eqn:Ec.
  - rewrite index_list_compr_ok by (first [apply H|assumption]). rewrite (no_lm nd H), (compr_members n) by apply H. reflexivity.
  - rewrite index_list_ok by (first [apply H|assumption]). rewrite (no_lm nd H), <- (compr_members n) by apply H. f_equal.
    unfold positions, positions_compr. symmetry. erewrite map_ext_in; [apply map_id|]. intros p Hin. apply filter_In in Hin as [Hin _]. apply in_seq in Hin.
    apply unc_expand; try assumption; lia.
Qed.
Lemma node_positions_and nd fm : node_ok nd -> fmask_ok fm ->
  (if nd_compr nd then index_list_and_compr (nd_mask nd) fm (nd_idx nd) else index_list_and (nd_mask nd) fm) = Ok (filter (bbit fm) (members n nd)).
Proof.
  intros H HF. pose proof (node_idx_ok nd fm H HF) as Hix. destruct HF as [Hf Lf]. unfold members. assert (0 < length (nd_mask nd)) as Hp by (rewrite (no_lm nd H); apply H).
  pose proof (no_le nd H) as Hle. destruct (nd_compr nd) eqn:Ec.
  - rewrite index_list_and_compr_ok by (first [apply H|assumption|rewrite (no_lm nd H); lia]). rewrite (no_lm nd H), (compr_filter n) by apply H. reflexivity.
  - destruct (no_unc nd H Ec) as [HL HE]. rewrite index_list_and_ok by (first [apply H|assumption|rewrite (no_lm nd H); lia]). rewrite (no_lm nd H), <- (compr_filter n) by apply H. f_equal.
    unfold positions, positions_compr. symmetry. erewrite map_ext_in; [rewrite map_id; apply filter_ext_in|]; intros p Hin.
    + apply in_seq in Hin. rewrite unc_expand; [reflexivity|assumption|assumption|lia].
    + apply filter_In in Hin as [Hin _]. apply in_seq in Hin. apply unc_expand; try assumption; lia.
Qed.
Lemma node_positions_andnot nd fm : node_ok nd -> fmask_ok fm ->
  (if nd_compr nd then index_list_andnot_compr (nd_mask nd) fm (nd_idx nd) else index_list_andnot (nd_mask nd) fm) = Ok (filter (fun x => negb (bbit fm x)) (members n nd)).
Proof.
  intros H HF. pose proof (node_idx_ok nd fm H HF) as Hix. destruct HF as [Hf Lf]. unfold members. assert (0 < length (nd_mask nd)) as Hp by (rewrite (no_lm nd H); apply H).
  pose proof (no_le nd H) as Hle. destruct (nd_compr nd) eqn:Ec.
  - rewrite index_list_andnot_compr_ok by (first [apply H|assumption|rewrite (no_lm nd H); lia]). rewrite (no_lm nd H).
    rewrite (compr_filter n _ _ (fun x => negb (bbit fm x))) by apply H. reflexivity.
  - destruct (no_unc nd H Ec) as [HL HE]. rewrite index_list_andnot_ok by (first [apply H|assumption|rewrite (no_lm nd H); lia]).
    rewrite (no_lm nd H), <- (compr_filter n _ _ (fun x => negb (bbit fm x))) by apply H. f_equal.
    unfold positions, positions_compr. symmetry. erewrite map_ext_in; [rewrite map_id; apply filter_ext_in|]; intros p Hin.
    + apply in_seq in Hin. rewrite unc_expand; [reflexivity|assumption|assumption|lia].
    + apply filter_In in Hin as [Hin _]. apply in_seq in Hin. apply unc_expand; try assumption; lia.
Qed.
End Nodes.
