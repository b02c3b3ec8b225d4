From Coq Require Import Permutation Sorting.Sorted.
From Verif Require Import Base BaseProofs BitModel BitSpec BitProofs BitProofs2 SimdModel SliceModel SliceSpec SliceProofs SliceProofs2 SliceProps
  CountSumProofs IterModel IterSpec IterProofs Num ScaledModel DataModel Config TreeModel TreeSpec TreeProofs TreeProofs2 DatasetModel DatasetSpec DatasetProofs DatasetProofs2 DatasetProofs3 DatasetProofs4 DatasetProofs5
  DatasetProps RouteProps LearnerModel LearnerSpec TrainSpec LearnerProofs LearnerProofs2 LearnerProofs3 LearnerProofs4 LearnerProofs5 LearnerProofs7 LearnerProofs8 SafeSpec SafeProofs.
Local Hint Resolve safe_inactive safe_map_index safe_examples_list safe_get_nbins safe_get_bitvec safe_split_value safe_active_features safe_feat_type
  safe_tree_new safe_split_node safe_set_node_value safe_predict_single : safe.

Lemma safe_u32_sub dbg a b : safe (u32_sub dbg a b). Proof. unfold u32_sub. sf. Qed.
Local Hint Resolve safe_u32_sub : safe.
Lemma safe_put O (cfg : config O) bounds g st ij : safe (put_gradient cfg bounds g st ij). Proof. unfold put_gradient, set_scaled_value. sf. Qed.
Lemma safe_alloc_hists O sizes : safe (alloc_hists O sizes). Proof. unfold alloc_hists. sf. Qed.
Lemma safe_subtract O dbg (p l : list (list (histval O))) : safe (hists_subtract dbg p l). Proof. unfold hists_subtract, hv_sub. sf. Qed.
Local Hint Resolve safe_put safe_alloc_hists safe_subtract : safe.
Lemma safe_derive O dbg (p l r : node O) : safe (derive_histograms dbg p l r). Proof. unfold derive_histograms. sf. Qed.
Lemma safe_best O dbg (cfg : config O) s nd : safe (find_best_split dbg cfg s nd). Proof. unfold find_best_split, split_step, make_crit. sf. Qed.
Lemma safe_to_examples O (s : dataset O) l : safe (to_examples s l). Proof. unfold to_examples. sf. Qed.
Lemma safe_hist_sizes O (d : data O) : safe (hist_sizes d). Proof. unfold hist_sizes. sf. apply safe_max_nbins. Qed.
Local Hint Resolve safe_derive safe_best safe_to_examples : safe.

(** A list of distinct numbers below a bound is no longer than the bound. *)
Lemma distinct_below k : forall l, NoDup l -> (forall j, In j l -> j < k) -> length l <= k.
Proof. intros l Hn Hl. rewrite <- (seq_length k 0). apply NoDup_incl_length; [exact Hn|]. intros j Hj. apply in_seq. specialize (Hl j Hj). lia. Qed.
Lemma rows_nodup O dbg (cfg : config O) d s rows : reachable dbg cfg d s -> example_rows s = Ok rows -> NoDup rows.
Proof.
  intros HR. pose proof (reachable_ok _ _ _ _ _ HR) as HS. unfold example_rows. destruct (example_sampling_enabled s) eqn:Es; [|intros E; injection E as <-; apply seq_NoDup].
  destruct (buffer_sampling _ _ _ s HS Es) as [_ HP]. unfold active_examples. intros E. apply subslice_ok in E as (_ & _ & ->). unfold sub. rewrite Nat.sub_0_r. cbn [skipn].
  assert (NoDup (ds_index_buffer s)) as Hb by (eapply Permutation_NoDup; [exact HP|apply seq_NoDup]). apply DatasetProps.nodup_firstn. exact Hb.
Qed.

Section Split.
Variable O : numops.
Variable dbg : bool.
Variable cfg : config O.
Variable n : nat.
Variable gv : nat -> N.
Hypothesis Hw : valid_width (c_discr_nbits cfg) = true.
Notation node_ok := (node_ok O cfg n gv).
Variable s : dataset O.
Variable sizes : list nat.
(** Splitting a node is safe, also when no example goes to the child: the child is not compressed, or the assertion of the allocation fails. *)
Lemma split_examples_safe parent child_id sp f g count grad fm : node_ok parent -> bitwise f g ->
  ds_get_bitvec s (sc_feature (sp_crit sp)) (sp_id sp) = Ok fm -> fmask_ok n fm -> safe (split_examples dbg cfg s sizes parent child_id sp f count grad).
Proof.
  intros HP Hg Efm HF. unfold split_examples. rewrite Efm. cbn [rbind]. apply safe_bind; [apply safe_alloc_hists|]. intros h Eh.
  rewrite zero_blocks_ok by apply HP. cbn [rbind]. rewrite blen4.
  assert (wf_block bb_zeros) as Wz by (split; [reflexivity|]; apply Forall_forall; intros x Hx; apply repeat_spec in Hx; subst; reflexivity).
  destruct (split_loop O cfg n gv parent fm f g (repeat bb_zeros (length (nd_idx parent))) HP HF Hg) with (k := length (nd_idx parent) * 8) as (mask & E & W & L & B).
  { apply wf_repeat, Wz. }
  { apply repeat_length. }
  { intros p. rewrite bbit_repeat by exact Wz. destruct (p <? _); [|reflexivity]. unfold bitAt, bb_zeros. rewrite nth_repeat. apply N.bits_0. }
  { reflexivity. }
  rewrite E. cbn [rbind].
  destruct (plain_child_ok O cfg n gv parent fm g child_id count grad h mask HP W L B) as [HC Hmem].
  set (child := mk_node _ _ _ _ _ _ _ _) in *. set (zc := length (filter (zero_block (child_bit O parent fm g)) (seq 0 (length (nd_idx parent) * 8)))).
  assert (length (nd_idx parent) * 8 - zc = length (filter (fun j => negb (u32_at (nd_mask child) j =? 0)%N) (seq 0 (length (nd_idx parent) * 8)))) as Hnz.
  { pose proof (filter_compl O cfg n gv _ (zero_block (child_bit O parent fm g)) (seq 0 (length (nd_idx parent) * 8))) as HCp. rewrite seq_length in HCp. fold zc in HCp.
    rewrite (filter_ext_in _ (fun j => negb (zero_block (child_bit O parent fm g) j))); [lia|]. intros j Hj. apply in_seq in Hj. f_equal. unfold child. cbn [nd_mask].
    rewrite u32_at_zero by exact W. unfold zero_block. apply eq_true_iff_eq. rewrite !forallb_forall. split; intros HH t Ht; specialize (HH t Ht); apply in_seq in Ht;
      rewrite B in *; replace (32 * j + t <? 32 * (length (nd_idx parent) * 8)) with true in * by lia; exact HH. }
  destruct (nlt O _ _ && _) eqn:Ec; [|apply safe_Ok]. apply safe_bind; [apply safe_rassert|]. intros u Hu. apply rassert_ok in Hu. apply Nat.ltb_lt in Hu.
  destruct (compress_ok O dbg cfg n gv Hw parent child _ HP HC eq_refl eq_refl Hnz Hu) as (ch' & -> & _). apply safe_Ok.
Qed.
End Split.

Section Learner.
Variable O : numops.
Variable dbg0 dbg : bool.
Variable cfg : config O.
Variable d : data O.
Variable s : dataset O.
Variable sizes : list nat.
Variable bounds : num O * num O.
Variable sched : nat -> list job -> list job.
Variable gradients : list (num O).
Variable St : Type.
Variable leaf_value : list nat -> St -> res (num O * St).
Variable oob : nat -> num O -> St -> res St.
Notation n := (nactive_examples s).
Notation D := (c_max_tree_depth cfg).
Hypothesis HR : reachable dbg0 cfg d s.
Hypothesis Hsizes : hist_sizes d = Ok sizes.
Hypothesis Hsched : forall k js, Permutation js (sched k js).
Hypothesis Hgrad : (N.of_nat (length gradients) <= 2 ^ 31)%N.
Hypothesis Hleafval : forall ex st, safe (leaf_value ex st).
Hypothesis Hoob : forall i v st, safe (oob i v st).

Lemma put_small g0 rows r : valid_width (c_discr_nbits cfg) = true -> example_rows s = Ok rows -> 0 < n -> zero_blocks (blocks_required_for n * width cfg) = Ok g0 ->
  foldM (put_gradient cfg bounds gradients) (combine (seq 0 (length rows)) rows) (g0, 0%N) = Ok r -> (N.of_nat n <= 2 ^ 31)%N.
Proof using HR Hgrad.
  clear - HR Hgrad. intros Hw Hrows Hn E0 E. destruct r as [slice sum]. pose proof (rows_length O s rows Hrows) as Lr. destruct (blocks_required_ok n) as [Hbr _].
  assert (0 < c_discr_nbits cfg) as Hwp by (destruct (c_discr_nbits cfg); [discriminate Hw|lia]). pose proof (blocks_required_pos n Hn) as HN0p. unfold width in E0. rewrite zero_blocks_ok in E0 by nia. injection E0 as <-.
  destruct (width_sb (c_discr_nbits cfg) Hw) as (Hw1 & Hw2 & Hw3 & Hw4).
  assert (wf_block bb_zeros) as Wz by (split; [reflexivity|]; apply Forall_forall; intros y Hy; apply repeat_spec in Hy; rewrite Hy; reflexivity).
  apply (put_all O cfg bounds Hw) in E as (_ & _ & G1 & _); [|apply wf_repeat, Wz|rewrite repeat_length, <- Nat.mul_assoc, Hw1; lia].
  assert (length rows <= length gradients) as Hle; [|lia]. apply distinct_below; [eapply rows_nodup; eassumption|].
  intros j Hj. apply In_nth_error in Hj as (k & Ek). destruct (G1 k j Ek) as (g & Eg & _). apply nth_error_Some. congruence.
Qed.

Lemma root_safe : safe (get_root_n2s cfg s sizes bounds sched gradients) /\ forall root, get_root_n2s cfg s sizes bounds sched gradients = Ok root -> (N.of_nat n <= 2 ^ 31)%N.
Proof using HR Hgrad Hsched Hsizes.
  clear - HR Hgrad Hsched Hsizes. split.
  - unfold get_root_n2s. apply safe_bind; [apply safe_rassert|]. intros ? Hw. apply rassert_ok in Hw. change (valid_width (c_discr_nbits cfg) = true) in Hw.
    apply safe_bind; [apply safe_zero_blocks|]. intros g0 E0. apply safe_bind; [apply safe_one_bits|]. intros mask Em. cbv zeta. apply safe_bind; [apply safe_from_iter|]. intros ix Eix.
    apply safe_bind; [apply safe_rassert|]. intros _ _. apply safe_bind; [apply safe_examples_list|]. intros ex Eex.
    destruct (examples_rows O s ex Eex) as (rows & Erows). rewrite (examples_list O s rows Erows) in Eex. injection Eex as <-.
    assert (0 < n) as Hn. { destruct (Nat.eq_dec n 0) as [En|]; [|lia]. rewrite En in Em. discriminate Em. }
    apply safe_bind; [apply safe_foldM; intros; apply safe_put|]. intros [grads sum] Eg. pose proof (put_small g0 rows _ Hw Erows Hn E0 Eg) as Hsmall.
    apply safe_bind; [apply safe_alloc_hists|]. intros h Eh. unfold alloc_hists in Eh. apply rbind_ok in Eh as (? & Esz & Eh). injection Eh as <-.
    assert (0 < c_discr_nbits cfg) as Hwp by (destruct (c_discr_nbits cfg); [discriminate Hw|lia]). pose proof (blocks_required_pos n Hn) as HN0p. unfold width in E0. rewrite zero_blocks_ok in E0 by nia. injection E0 as <-.
    destruct (active_features s) as [fs| | |] eqn:Ef; [|unfold build_histograms, jobs; rewrite Ef; apply safe_bind; [apply safe_rassert|intros; apply safe_Panic]|destruct (safe_active_features O s); congruence|destruct (safe_active_features O s); congruence].
    pose proof (lds_reachable _ _ _ _ _ _ _ HR Ef Hsizes) as HL.
    destruct (root_node O cfg s bounds Hw Hsmall gradients rows mask ix grads sum (map (repeat (hv_default O)) sizes) (linproj O (c_discr_nbits cfg) (nofN O sum) (nofnat O n) bounds) Erows Hn Em Eix Eg) as (_ & H0 & _).
    destruct (build_ok O cfg s sizes bounds (gradient_at cfg bounds gradients rows) HL Hw Hsmall sched _ (Hsched _) H0 eq_refl) as (r & Er & _). apply (safe_of_ok _ _ r). exact Er.
  - intros root H. unfold get_root_n2s in H. apply rbind_ok in H as (? & Hw & H). apply rassert_ok in Hw. apply rbind_ok in H as (g0 & E0 & H). apply rbind_ok in H as (mask & Em & H). apply rbind_ok in H as (ix & _ & H).
    apply rbind_ok in H as (? & _ & H). apply rbind_ok in H as (ex & Eex & H). apply rbind_ok in H as (r & Eg & _).
    destruct (examples_rows O s ex Eex) as (rows & Erows). rewrite (examples_list O s rows Erows) in Eex. injection Eex as <-.
    assert (0 < n) as Hn. { destruct (Nat.eq_dec n 0) as [En|]; [|lia]. rewrite En in Em. discriminate Em. }
    eapply put_small; eassumption.
Qed.

Section Small.
Hypothesis Hsmall : (N.of_nat n <= 2 ^ 31)%N.

Lemma left_right_safe gv p sp fm : lds s sizes -> valid_width (c_discr_nbits cfg) = true -> full_ok O cfg s sizes gv p -> candidate s (sc_feature (sp_crit sp)) (sp_id sp) ->
  ds_get_bitvec s (sc_feature (sp_crit sp)) (sp_id sp) = Ok fm -> fmask_ok n fm -> 0 < list_sum sizes -> safe (get_left_right_n2s dbg cfg s sizes bounds sched p sp).
Proof using Hsched Hsmall.
  clear - Hsched Hsmall.  intros HL Hw HF Hc Em Hfm Hs. pose proof HF as [PN PH PC]. unfold get_left_right_n2s. apply safe_bind; [apply safe_idx|]. intros hist _. apply safe_bind; [apply safe_idx|]. intros l _. apply safe_bind; [apply safe_u32_sub|]. intros rc _.
  apply safe_bind; [eapply split_examples_safe; [exact Hw|exact PN|apply bitwise_id|exact Em|exact Hfm]|]. intros left0 E0.
  apply safe_bind.
  { destruct (split_examples_ok O dbg cfg n gv Hw s sizes p (left_child (nd_id p)) sp (fun m => m) (fun b => b) (snd l) (fst l) fm PN bitwise_id Em Hfm Hs) as [_ LC].
    destruct (LC left0 E0) as (L1 & L2 & L3 & L4 & L5 & L6). destruct (build_ok O cfg s sizes bounds gv HL Hw Hsmall sched left0 (Hsched _) L1 L6) as (nd & -> & _). apply safe_Ok. }
  intros lnode _. apply safe_bind; [eapply split_examples_safe; [exact Hw|exact PN|apply (bitwise_not O cfg gv)|exact Em|exact Hfm]|]. intros right0 _.
  apply safe_bind; [apply safe_derive|]. intros; apply safe_Ok.
Qed.

Lemma step_safe W gs nd rest t st : loop_ok O dbg cfg s sizes bounds sched gradients W gs (nd :: rest) t -> safe (train_step dbg cfg s sizes bounds sched St leaf_value nd rest t st).
Proof using HR Hleafval Hsched Hsizes Hsmall.
  clear - HR Hleafval Hsched Hsizes Hsmall.   intros H. assert (grown dbg cfg s sizes bounds sched gradients nd) as HG by (apply (lo_grown _ _ _ _ _ _ _ _ _ _ _ _ H); left; reflexivity).
  destruct (grown_pre _ dbg0 dbg _ _ _ _ _ _ _ HR Hsizes Hsched Hsmall nd HG) as (HL & Hw & Hs & rows & Hrows & _).
  pose proof (grown_ok _ dbg0 dbg _ _ _ _ _ _ _ HR Hsizes Hsched Hsmall nd rows HG Hrows) as HF. pose proof HF as [FN FH FC].
  unfold train_step. apply safe_bind; [apply safe_best|]. intros sp Esp. destruct (is_no_split (sp_crit sp)) eqn:Ens.
  - apply safe_bind; [|intros [? ?] _; apply safe_Ok]. unfold predict_leaf_value, node_examples. rewrite (node_positions O cfg n _ Hsmall nd FN). cbn [rbind]. sf.
  - destruct (best_split_weak O dbg cfg s nd sp (fun f b v => full_bin_le O cfg s sizes _ HL nd f b v HF) Esp) as [->|(v & (Hc & _) & _)]; [discriminate Ens|].
    destruct (lds_fm _ _ HL _ _ Hc) as (fm & Em & Hfm). destruct (negb _).
    + apply safe_bind; [eapply left_right_safe; eassumption|]. intros [l r] _. sf.
    + apply safe_bind; [|intros [? ?] _; sf]. unfold predict_child_leaf_values. rewrite Em. cbn [rbind]. unfold left_examples, right_examples.
      rewrite (node_positions_and O cfg n _ Hsmall nd fm FN Hfm), (node_positions_andnot O cfg n _ Hsmall nd fm FN Hfm). cbn [rbind]. sf.
Qed.

Lemma loop_safe rows : example_rows s = Ok rows -> forall fuel W gs stack t st, loop_ok O dbg cfg s sizes bounds sched gradients W gs stack t -> ids_ok O cfg stack t -> weight D (map nd_id stack) <= fuel ->
  safe (train_loop dbg cfg s sizes bounds sched St leaf_value fuel stack t st).
Proof using HR Hleafval Hsched Hsizes Hsmall.
  clear - HR Hleafval Hsched Hsizes Hsmall.   intros Hrows. induction fuel as [|fuel IH]; intros W gs stack t st H Hi Hw.
  - destruct stack as [|nd rest]; [apply safe_Ok|]. pose proof (weight_pos O cfg sizes St leaf_value nd rest t Hi). lia.
  - destruct stack as [|nd rest]; [apply safe_Ok|]. cbn [train_loop]. apply safe_bind; [eapply step_safe; exact H|]. intros [[stack' t'] st'] E. cbn [fst snd].
    destruct (step_ok O dbg0 dbg cfg d s sizes bounds sched gradients St leaf_value rows HR Hsizes Hsched Hsmall Hrows W gs nd rest t st stack' t' st' H E) as (W' & new & H' & _).
    destruct (step_weight O dbg cfg s sizes bounds sched St leaf_value nd rest t st stack' t' st' Hi E) as [Hi' Hw']. eapply IH; [exact H'|exact Hi'|lia].
Qed.
End Small.

Lemma train_safe st : safe (train dbg cfg s sizes bounds sched St leaf_value oob gradients st).
Proof using HR Hgrad Hleafval Hoob Hsched Hsizes.
  unfold train. apply safe_bind; [apply safe_tree_new|]. intros t Et. destruct root_safe as [R1 R2]. apply safe_bind; [exact R1|]. intros root Er. pose proof (R2 root Er) as Hsmall.
  apply safe_bind.
  - destruct (loop_start O dbg0 dbg cfg d s sizes bounds sched gradients St leaf_value oob HR Hsizes Hsched Hsmall t root Et Er) as (H0 & _ & _ & _ & Hi & Hwt).
    destruct (grown_pre _ dbg0 dbg _ _ _ _ _ _ _ HR Hsizes Hsched Hsmall root (grown_root _ _ _ _ _ _ _ _ Er)) as (_ & _ & _ & rows & Hrows & _). eapply loop_safe; eassumption.
  - intros [t' st'] _. apply safe_bind; [|intros; apply safe_Ok]. unfold predict_out_of_bag. sf.
Qed.
End Learner.
