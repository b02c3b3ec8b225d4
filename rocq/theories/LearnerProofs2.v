From Coq Require Import Permutation Sorting.Sorted.
From Verif Require Import Base BaseProofs BitModel BitSpec BitProofs BitProofs2 SimdModel SliceModel SliceSpec SliceProofs SliceProofs2 SliceProps
  CountSumProofs IterModel IterSpec IterProofs Num ScaledModel DataModel Config TreeModel DatasetModel DatasetSpec DatasetProofs LearnerModel LearnerSpec LearnerProofs.

(* ---- 32-bit blocks ---- *)
Lemma bs_get4 bs j : wf_blocks bs -> j < length bs * 8 -> bs_get 4 bs j = Ok (u32_at bs j).
Proof. intros H Hj. rewrite bs_get_ok by (try assumption; try apply q4; rewrite blen4; exact Hj). rewrite u32_at_word by assumption. reflexivity. Qed.
Lemma bs_set4 bs i v : wf_blocks bs -> i < length bs * 8 ->
  exists bs', bs_set 4 bs i v = Ok bs' /\ wf_blocks bs' /\ length bs' = length bs /\
    (forall t, bbit bs' t = if t / 32 =? i then N.testbit v (N.of_nat (t mod 32)) else bbit bs t) /\
    ((v < 2 ^ 32)%N -> forall j, j < length bs * 8 -> u32_at bs' j = if j =? i then v else u32_at bs j).
Proof.
  intros H Hi. destruct (bs_set_ok 4 bs i v H q4) as (bs' & E & W & L & B); [rewrite blen4; exact Hi|].
  exists bs'. split; [exact E|]. split; [exact W|]. split; [exact L|]. split.
  - intros t. rewrite B. change (4 * 8) with 32. destruct (Nat.eqb_spec (t / 32) i) as [<-|Hn].
    + replace (t / 32 * 32 <=? t) with true by lia. replace (t <? t / 32 * 32 + 32) with true by lia. cbn [andb]. f_equal. lia.
    + destruct (Nat.leb_spec (i * 32) t), (Nat.ltb_spec t (i * 32 + 32)); cbn [andb]; try reflexivity. lia.
  - intros Hv j Hj. pose proof (bs_get_set 4 bs i v bs' j H q4 Hv E) as HG. rewrite blen4 in HG. specialize (HG Hj).
    rewrite bs_get4 in HG by (try assumption; lia). rewrite Nat.eqb_sym. destruct (i =? j); [congruence|]. rewrite bs_get4 in HG by assumption. congruence.
Qed.
Lemma zero_u32 (m : N) (cb : nat -> bool) : (m < 2 ^ 32)%N -> (forall t, t < 32 -> N.testbit m (N.of_nat t) = cb t) ->
  (m =? 0)%N = forallb (fun t => negb (cb t)) (seq 0 32).
Proof.
  intros Hm H. apply eq_true_iff_eq. rewrite N.eqb_eq, forallb_forall. split.
  - intros -> t Ht. apply in_seq in Ht. rewrite <- H by lia. reflexivity.
  - intros HF. apply N.bits_inj_0. intros t. destruct (N.ltb_spec t 32).
    + rewrite <- (N2Nat.id t). rewrite H by lia. specialize (HF (N.to_nat t)). apply negb_true_iff, HF, in_seq. lia.
    + apply (testbit_high m 32); assumption.
Qed.
Lemma u32_at_zero bs j : wf_blocks bs -> (u32_at bs j =? 0)%N = forallb (fun t => negb (bbit bs (32 * j + t))) (seq 0 32).
Proof. intros H. apply zero_u32; [apply u32_at_lt, H|]. intros t Ht. apply testbit_u32_at; assumption. Qed.
Lemma u32_at_0 bs j : (forall t, t < 32 -> bbit bs (32 * j + t) = false) -> u32_at bs j = 0%N.
Proof. intros H. apply sumf_zero. intros t Ht. rewrite H by exact Ht. cbn [b2n]. lia. Qed.
Lemma u32_at_beyond bs j : wf_blocks bs -> length bs * 8 <= j -> u32_at bs j = 0%N.
Proof.
  intros H Hj. apply u32_at_0. intros t Ht. unfold bbit, bitAt. rewrite nth_overflow; [reflexivity|]. rewrite concat_len by exact H. lia.
Qed.
Lemma bbit_beyond bs p : wf_blocks bs -> length bs * 256 <= p -> bbit bs p = false.
Proof. intros H Hp. unfold bbit, bitAt. rewrite nth_overflow; [reflexivity|]. rewrite concat_len by exact H. lia. Qed.
Lemma in_firstn A (x : A) k l : In x (firstn k l) -> In x l.
Proof. rewrite <- (firstn_skipn k l) at 2. intros H. apply in_or_app. left. exact H. Qed.
Lemma wf_firstn k bs : wf_blocks bs -> wf_blocks (firstn k bs).
Proof. unfold wf_blocks. rewrite !Forall_forall. intros H x Hx. apply H. eapply in_firstn, Hx. Qed.
Lemma bbit_firstn k bs p : wf_blocks bs -> k <= length bs -> p < k * 256 -> bbit (firstn k bs) p = bbit bs p.
Proof.
  intros H Hk Hp. unfold bbit, bitAt. rewrite <- (firstn_skipn k bs) at 2. rewrite concat_app, app_nth1; [reflexivity|].
  rewrite concat_len by (apply wf_firstn, H). rewrite firstn_length. lia.
Qed.

Section Split.
Variable O : numops.
Variable dbg : bool.
Variable cfg : config O.
Variable n : nat.
Variable gv : nat -> N.
Notation w := (c_discr_nbits cfg).
Notation N0 := (blocks_required_for n).
Notation node_ok := (node_ok O cfg n gv).
Notation fmask_ok := (fmask_ok n).
Hypothesis Hw : valid_width w = true.

(** Bit [p] of the child's mask. *)
Definition child_bit (parent : node O) (fm : blocks) (g : bool -> bool) (p : nat) : bool :=
  bbit (nd_mask parent) p && g (bbit fm (expand_pos (ixw (nd_idx parent)) p)).
Definition zero_block (cb : nat -> bool) (j : nat) : bool := forallb (fun t => negb (cb (32 * j + t))) (seq 0 32).

(** A block function acting bit by bit. *)
Definition bitwise (f : N -> N) (g : bool -> bool) : Prop :=
  forall v t, t < 32 -> N.testbit (f v) (N.of_nat t) = g (N.testbit v (N.of_nat t)).
Lemma bitwise_id : bitwise (fun m => m) (fun b => b). Proof. intros v t _. reflexivity. Qed.
Lemma bitwise_not : bitwise (wnot 4) negb. Proof. intros v t Ht. apply testbit_wnot. lia. Qed.

Lemma split_loop parent fm f g mask0 : node_ok parent -> fmask_ok fm -> bitwise f g -> wf_blocks mask0 -> length mask0 = length (nd_idx parent) ->
  (forall p, bbit mask0 p = false) -> forall k, k <= length (nd_idx parent) * 8 ->
  exists mask, foldM (split_block parent fm f) (seq 0 k) (mask0, 0) = Ok (mask, length (filter (zero_block (child_bit parent fm g)) (seq 0 k))) /\
    wf_blocks mask /\ length mask = length (nd_idx parent) /\ forall p, bbit mask p = if p <? 32 * k then child_bit parent fm g p else false.
Proof.
  intros H [Hf Lf] Hg W0 L0 Z0. induction k as [|k IH]; intros Hk.
  - exists mask0. split; [reflexivity|]. auto.
  - destruct IH as (mask & E & W & L & B); [lia|]. rewrite seq_S, foldM_app, E. cbn [rbind plus foldM]. unfold split_block at 1. cbn [fst snd].
    rewrite bs_get4 by (try apply H; lia). cbn [rbind]. rewrite bs_get4 by (try apply H; rewrite (no_lm _ _ _ _ _ H); lia). cbn [rbind].
    rewrite bs_get4 by (try assumption; rewrite Lf; apply (no_ixlt _ _ _ _ _ H); lia). cbn [rbind].
    set (m := N.land _ _).
    assert (m < 2 ^ 32)%N as Hm by (apply land_lt, u32_at_lt, H).
    assert (Htb : forall t, t < 32 -> N.testbit m (N.of_nat t) = child_bit parent fm g (32 * k + t)).
    { intros t Ht. unfold m. rewrite N.land_spec, Hg by exact Ht. rewrite !testbit_u32_at by (try assumption; apply H). unfold child_bit, expand_pos.
      replace ((32 * k + t) / 32) with k by lia. replace ((32 * k + t) mod 32) with t by lia. reflexivity. }
    destruct (bs_set4 mask k m W) as (mask' & E' & W' & L' & B' & _); [lia|]. rewrite E'. cbn [rbind].
    exists mask'. split.
    + rewrite (zero_u32 m _ Hm Htb). fold (zero_block (child_bit parent fm g) k). rewrite filter_app, app_length. cbn [filter].
      destruct (zero_block (child_bit parent fm g) k); cbn [length]; do 2 f_equal; lia.
    + split; [exact W'|]. split; [lia|]. intros p. rewrite B', B. destruct (Nat.eqb_spec (p / 32) k) as [Hp|Hp].
      * rewrite Htb by lia. replace (32 * k + p mod 32) with p by lia. destruct (Nat.ltb_spec p (32 * S k)); [reflexivity|lia].
      * destruct (Nat.ltb_spec p (32 * k)), (Nat.ltb_spec p (32 * S k)); try reflexivity; lia.
Qed.

(** A child with the parent's indices and gradients. *)
Lemma plain_child_ok parent fm g id count grad h mask : node_ok parent -> wf_blocks mask -> length mask = length (nd_idx parent) ->
  (forall p, bbit mask p = if p <? 32 * (length (nd_idx parent) * 8) then child_bit parent fm g p else false) ->
  let child := mk_node id count grad (nd_compr parent) h (nd_idx parent) mask (nd_grads parent) in
  node_ok child /\ members n child = filter (fun x => g (bbit fm x)) (members n parent).
Proof.
  intros H W L B child.
  assert (Hbit : forall p, p < length (nd_idx parent) * 256 -> bbit mask p = child_bit parent fm g p).
  { intros p Hp. rewrite B. replace (p <? _) with true by lia. reflexivity. }
  assert (Hsub : forall p, p < length (nd_idx parent) * 256 -> bbit mask p = true -> bbit (nd_mask parent) p = true).
  { intros p Hp Hb. rewrite Hbit in Hb by exact Hp. apply andb_true_iff in Hb. tauto. }
  assert (node_ok child) as Hc.
  { constructor; unfold child; cbn [nd_idx nd_mask nd_grads nd_compr]; try apply H; try assumption.
    - intros i j Hij Hj Hn. apply (no_inc _ _ _ _ _ H); [exact Hij|exact Hj|]. apply u32_nonzero in Hn as (t & Ht & Hb); [|exact W].
      apply Hsub in Hb; [|lia]. replace j with ((32 * j + t) / 32) by lia. apply block_nonzero; [apply H|exact Hb].
    - intros p Hp Hb. apply (no_lt _ _ _ _ _ H); auto.
    - intros p Hp Hb. apply (no_val _ _ _ _ _ H); auto. }
  split; [exact Hc|]. unfold members. rewrite <- (compr_filter n _ _ (fun x => g (bbit fm x))) by apply H. rewrite <- (compr_members n) by apply Hc.
  unfold positions_compr, child. cbn [nd_idx nd_mask]. f_equal. apply filter_ext_in. intros p Hp. apply in_seq in Hp. apply Hbit. lia.
Qed.

(* ---- compression ---- *)
Lemma filter_seq_snoc p k : filter p (seq 0 (S k)) = filter p (seq 0 k) ++ (if p k then [k] else []).
Proof. rewrite seq_S, filter_app. reflexivity. Qed.
Lemma filter_seq_split p j m : j <= m -> filter p (seq 0 m) = filter p (seq 0 j) ++ filter p (seq j (m - j)).
Proof. intros H. rewrite <- filter_app, <- seq_app. do 2 f_equal. lia. Qed.
Lemma filter_compl A (p : A -> bool) l : length (filter p l) + length (filter (fun x => negb (p x)) l) = length l.
Proof. induction l as [|x t IH]; [reflexivity|]. cbn [filter]. destruct (p x); cbn [negb length]; lia. Qed.
Lemma nth_filter_mono p m i j d : i < j -> j < length (filter p (seq 0 m)) -> nth i (filter p (seq 0 m)) d < nth j (filter p (seq 0 m)) d.
Proof.
  intros Hij Hj. assert (StronglySorted lt (filter p (seq 0 m))) as HS by apply filter_sorted, seq_sorted. revert i j Hij Hj.
  induction HS as [|x t Ht IH Hx]; intros i j Hij Hj; [cbn in Hj; lia|]. destruct j as [|j]; [lia|]. cbn [length] in Hj. destruct i as [|i]; cbn [nth].
  - rewrite Forall_forall in Hx. apply Hx, nth_In. lia.
  - apply IH; lia.
Qed.

Lemma compress_loop parent child n_child ix0 grads0 : node_ok parent -> node_ok child -> nd_idx child = nd_idx parent ->
  let np := length (nd_idx parent) * 8 in
  let nz := fun j => negb (u32_at (nd_mask child) j =? 0)%N in
  let L := filter nz (seq 0 np) in
  n_child = length L ->
  wf_blocks ix0 -> length ix0 = blocks_required_for (n_child * 32) -> (forall t, bbit ix0 t = false) ->
  wf_blocks grads0 -> length grads0 = blocks_required_for (n_child * 32) * w ->
  forall j, j <= np -> exists mask ix grads, let k := length (filter nz (seq 0 j)) in
    foldM (compress_step dbg cfg parent) (seq 0 j) (0, nd_mask child, ix0, grads0) = Ok (k, mask, ix, grads) /\
    wf_blocks mask /\ length mask = length (nd_idx parent) /\ wf_blocks ix /\ length ix = length ix0 /\ wf_blocks grads /\ length grads = length grads0 /\
    (forall i t, i < k -> t < 32 -> bbit mask (32 * i + t) = bbit (nd_mask child) (32 * nth i L 0 + t)) /\
    (forall p, 32 * j <= p -> bbit mask p = bbit (nd_mask child) p) /\
    (forall i, i < k -> u32_at ix i = u32_at (nd_idx parent) (nth i L 0)) /\
    (forall i, k <= i -> i < length ix * 8 -> u32_at ix i = 0%N) /\
    (forall i t, i < k -> t < 32 -> slice_val w (sbsize w) grads (32 * i + t) = slice_val w (sbsize w) (nd_grads parent) (32 * nth i L 0 + t)).
Proof.
  intros HP HC Eix np nz L En Wix Lix Zix Wg Lg. induction j as [|j IH]; intros Hj.
  - exists (nd_mask child), ix0, grads0. cbn [seq filter length foldM]. split; [reflexivity|]. split; [apply HC|]. split; [rewrite (no_lm _ _ _ _ _ HC), Eix; reflexivity|].
    split; [exact Wix|]. split; [reflexivity|]. split; [exact Wg|]. split; [reflexivity|]. split; [lia|]. split; [reflexivity|]. split; [lia|]. split; [|lia].
    intros i _ _. apply u32_at_0. intros; apply Zix.
  - destruct IH as (mask & ix & grads & E & Wm & Lm & Wi & Li & Wgr & Lgr & Hmask & Hrest & Hix & Hix0 & Hgr); [lia|].
    set (k := length (filter nz (seq 0 j))) in *.
    assert (k <= j) as Hkj by (unfold k; etransitivity; [apply (filter_length_le)|rewrite seq_length; reflexivity]).
    rewrite filter_seq_snoc, app_length. fold k. rewrite seq_S, foldM_app, E. cbn [rbind plus foldM]. unfold compress_step at 1.
    replace (negb dbg || (k <=? j)) with true by (destruct dbg; cbn [negb orb]; symmetry; try apply Nat.leb_le; auto). cbn [rassert rbind].
    rewrite bs_get4 by (try apply HP; unfold np in Hj; lia). cbn [rbind]. rewrite bs_get4 by (try assumption; unfold np in Hj; lia). cbn [rbind].
    assert (u32_at mask j = u32_at (nd_mask child) j) as Em.
    { apply sumf_ext. intros t Ht. rewrite Hrest by lia. reflexivity. }
    rewrite Em. destruct (N.eqb_spec (u32_at (nd_mask child) j) 0) as [Ez|Ez].
    + assert (nz j = false) as Hnz by (unfold nz; rewrite Ez; reflexivity). rewrite Hnz. cbn [length]. rewrite Nat.add_0_r. exists mask, ix, grads.
      split; [reflexivity|]. do 7 (split; [assumption|]). split; [intros; apply Hrest; lia|]. auto.
    + assert (nz j = true) as Hnz by (unfold nz; destruct (N.eqb_spec (u32_at (nd_mask child) j) 0); [contradiction|reflexivity]). rewrite Hnz. cbn [length].
      assert (L = filter nz (seq 0 j) ++ j :: filter nz (seq (S j) (np - S j))) as EL.
      { unfold L. rewrite (filter_seq_split nz (S j)) by exact Hj. rewrite filter_seq_snoc, Hnz, <- app_assoc. reflexivity. }
      assert (k < n_child) as Hkn by (rewrite En, EL, app_length; cbn [length]; fold k; lia).
      assert (nth k L 0 = j) as EkL by (rewrite EL, app_nth2, Nat.sub_diag by (fold k; lia); reflexivity).
      destruct (blocks_required_ok (n_child * 32)) as [Hbr _].
      destruct (bs_set4 mask k (u32_at (nd_mask child) j) Wm) as (mask' & E1 & W1 & L1 & B1 & _); [unfold np in Hj; lia|]. rewrite E1. cbn [rbind].
      destruct (bs_set4 ix k (u32_at (nd_idx parent) j) Wi) as (ix' & E2 & W2 & L2 & _ & U2); [lia|]. rewrite E2. cbn [rbind].
      specialize (U2 (u32_at_lt _ _ (no_ix _ _ _ _ _ HP))).
      destruct (width_sb w Hw) as (Hw1 & Hw2 & Hw3 & Hw4). 
      destruct (copy_block_from_ok w grads (nd_grads parent) j k Hw Wgr (no_g _ _ _ _ _ HP)) as (grads' & E3 & W3 & L3 & C3 & F3).
      { rewrite (no_lg _ _ _ _ _ HP), <- Nat.mul_assoc, Hw1. unfold np in Hj. lia. }
      { rewrite Lgr, Lg, <- Nat.mul_assoc, Hw1. lia. }
      unfold width. rewrite E3. cbn [rbind]. exists mask', ix', grads'. split; [do 4 f_equal; lia|]. split; [exact W1|]. split; [lia|]. split; [exact W2|]. split; [lia|].
      split; [exact W3|]. split; [lia|]. split; [|split; [|split; [|split]]].
      * intros i t Hi Ht. rewrite B1. replace ((32 * i + t) / 32) with i by lia. replace ((32 * i + t) mod 32) with t by lia. destruct (Nat.eqb_spec i k) as [->|Hne].
        -- rewrite EkL. apply testbit_u32_at; [apply HC|exact Ht].
        -- apply Hmask; lia.
      * intros p Hp. rewrite B1. destruct (Nat.eqb_spec (p / 32) k) as [Hk|Hk]; [|apply Hrest; lia]. lia.
      * intros i Hi. rewrite U2 by lia. destruct (Nat.eqb_spec i k) as [->|Hne]; [rewrite EkL; reflexivity|]. apply Hix. lia.
      * intros i Hi Hl. rewrite U2 by lia. replace (i =? k) with false by lia. apply Hix0; lia.
      * intros i t Hi Ht. destruct (Nat.eq_dec i k) as [->|Hne].
        -- rewrite EkL. apply C3, Ht.
        -- rewrite F3 by lia. apply Hgr; lia.
Qed.

Lemma zero_tail m : forall a mask, wf_blocks mask -> a + m <= length mask * 8 ->
  exists mask', foldM (fun m j => bs_set 4 m j 0%N) (seq a m) mask = Ok mask' /\ wf_blocks mask' /\ length mask' = length mask /\
    forall t, bbit mask' t = if (32 * a <=? t) && (t <? 32 * (a + m)) then false else bbit mask t.
Proof.
  induction m as [|m IH]; intros a mask W L; cbn [seq foldM].
  - exists mask. split; [reflexivity|]. split; [exact W|]. split; [reflexivity|]. intros t. destruct (Nat.leb_spec (32 * a) t), (Nat.ltb_spec t (32 * (a + 0))); try reflexivity; lia.
  - destruct (bs_set4 mask a 0%N W) as (m1 & E & W1 & L1 & B1 & _); [lia|]. rewrite E. cbn [rbind]. destruct (IH (S a) m1 W1) as (m2 & E2 & W2 & L2 & B2); [lia|].
    exists m2. split; [exact E2|]. split; [exact W2|]. split; [lia|]. intros t. rewrite B2, B1. rewrite N.bits_0.
    destruct (Nat.leb_spec (32 * S a) t), (Nat.ltb_spec t (32 * (S a + m))), (Nat.leb_spec (32 * a) t), (Nat.ltb_spec t (32 * (a + S m))), (Nat.eqb_spec (t / 32) a); cbn [andb]; try reflexivity; lia.
Qed.

Lemma compress_ok parent child n_child : node_ok parent -> node_ok child -> nd_idx child = nd_idx parent -> nd_grads child = nd_grads parent ->
  n_child = length (filter (fun j => negb (u32_at (nd_mask child) j =? 0)%N) (seq 0 (length (nd_idx parent) * 8))) -> 0 < n_child ->
  exists child', compress_examples dbg cfg parent child n_child = Ok child' /\ node_ok child' /\ members n child' = members n child /\
    nd_id child' = nd_id child /\ nd_count child' = nd_count child /\ nd_grad child' = nd_grad child /\ nd_hists child' = nd_hists child /\
    (forall j, j < n_child -> u32_at (nd_mask child') j <> 0%N) /\ length (nd_idx child') = blocks_required_for (n_child * 32).
Proof.
  intros HP HC Eix Egr En Hpos. unfold compress_examples, width. rewrite Hw. cbn [rassert rbind].
  set (np := length (nd_idx parent) * 8) in *. set (nz := fun j => negb (u32_at (nd_mask child) j =? 0)%N) in *. set (L := filter nz (seq 0 np)) in *.
  assert (n_child <= np) as Hle by (rewrite En; unfold L; etransitivity; [apply filter_length_le|rewrite seq_length; reflexivity]).
  destruct (zero_bits_ok (n_child * 32)) as (ix0 & E0 & W0 & L0 & Z0); [lia|]. rewrite E0. cbn [rbind].
  pose proof (blocks_required_pos (n_child * 32) ltac:(lia)) as Hbp. destruct (blocks_required_ok (n_child * 32)) as [Hbr Hbmin].
  destruct (width_sb w Hw) as (Hw1 & Hw2 & Hw3 & Hw4). assert (0 < w) as Hwp by (destruct w; lia).
  rewrite zero_blocks_ok by nia. cbn [rbind]. rewrite blen4. fold np.
  destruct (compress_loop parent child n_child ix0 (repeat bb_zeros (blocks_required_for (n_child * 32) * w)) HP HC Eix) with (j := np)
    as (mask & ix & grads & E & Wm & Lm & Wi & Li & Wgr & Lgr & Hmask & Hrest & Hix & Hix0 & Hgr); try assumption.
  { apply wf_repeat. split; [reflexivity|]. unfold wf_bytes. apply Forall_forall. intros x Hx. apply repeat_spec in Hx. subst. reflexivity. }
  { apply repeat_length. }
  { unfold np. lia. }
  fold np in E, Hmask, Hrest, Hix, Hix0, Hgr. fold nz in E, Hmask, Hix, Hix0, Hgr. fold L in E, Hmask, Hix, Hix0, Hgr. rewrite repeat_length in Lgr.
  rewrite E. cbn [rbind]. rewrite <- En in Hmask, Hix, Hix0, Hgr |- *. rewrite Nat.eqb_refl, orb_true_r. cbn [rassert rbind].
  destruct (zero_tail (np - n_child) n_child mask Wm) as (mask' & E' & W' & L' & B'); [unfold np in *; lia|]. rewrite E'. cbn [rbind].
  replace (n_child + (np - n_child)) with np in B' by lia.
  eexists. split; [reflexivity|].
  assert (length ix = blocks_required_for (n_child * 32)) as Lix by lia.
  assert (length ix <= length mask') as Hlm by (rewrite L', Lm, Lix; apply Hbmin; unfold np in *; lia).
  set (fm := firstn (length ix) mask').
  assert (Hfm : forall i t, t < 32 -> i < length ix * 8 -> bbit fm (32 * i + t) = if i <? n_child then bbit (nd_mask child) (32 * nth i L 0 + t) else false).
  { intros i t Ht Hi. unfold fm. rewrite bbit_firstn by (try assumption; lia). rewrite B'. destruct (Nat.ltb_spec i n_child) as [Hin|Hin].
    - replace (32 * n_child <=? 32 * i + t) with false by lia. cbn [andb]. apply Hmask; assumption.
    - replace (32 * n_child <=? 32 * i + t) with true by lia. cbn [andb]. destruct (Nat.ltb_spec (32 * i + t) (32 * np)); [reflexivity|].
      unfold np in *. apply bbit_beyond; [exact Wm|lia]. }
  assert (HL : forall i, i < n_child -> nth i L 0 < np /\ u32_at (nd_mask child) (nth i L 0) <> 0%N).
  { intros i Hi. assert (In (nth i L 0) L) as Hin by (apply nth_In; lia). apply (proj1 (filter_In nz (nth i L 0) (seq 0 np))) in Hin as [H1 H2]. apply in_seq in H1. split; [lia|].
    unfold nz in H2. destruct (N.eqb_spec (u32_at (nd_mask child) (nth i L 0)) 0); [discriminate|assumption]. }
  assert (Hixw : forall i, i < n_child -> ixw ix i = ixw (nd_idx parent) (nth i L 0)) by (intros i Hi; unfold ixw; rewrite Hix by exact Hi; reflexivity).
  assert (wf_blocks fm) as Wfm by apply wf_firstn, W'.
  assert (length fm = length ix) as Lfm by (unfold fm; rewrite firstn_length; lia).
  assert (Hexp : forall p, p < length ix * 256 -> bbit fm p = true -> p / 32 < n_child /\ bbit (nd_mask child) (32 * nth (p / 32) L 0 + p mod 32) = true /\
    32 * nth (p / 32) L 0 + p mod 32 < length (nd_idx parent) * 256 /\ expand_pos (ixw ix) p = expand_pos (ixw (nd_idx parent)) (32 * nth (p / 32) L 0 + p mod 32)).
  { intros p Hp Hb. replace p with (32 * (p / 32) + p mod 32) in Hb by lia. rewrite Hfm in Hb by lia. destruct (Nat.ltb_spec (p / 32) n_child) as [Hin|]; [|discriminate].
    destruct (HL _ Hin) as [HL1 _]. split; [exact Hin|]. split; [exact Hb|]. split; [unfold np in HL1; lia|]. unfold expand_pos. rewrite Hixw by exact Hin.
    replace ((32 * nth (p / 32) L 0 + p mod 32) / 32) with (nth (p / 32) L 0) by lia. replace ((32 * nth (p / 32) L 0 + p mod 32) mod 32) with (p mod 32) by lia. reflexivity. }
  rewrite <- En in *.
  assert (node_ok (mk_node (nd_id child) (nd_count child) (nd_grad child) true (nd_hists child) ix fm grads)) as Hok.
  { constructor; cbn [nd_idx nd_mask nd_grads nd_compr]; try assumption.
    - lia.
    - transitivity (length (nd_idx parent)); [|apply HP]. rewrite Lix. apply Hbmin. unfold np in *. lia.
    - rewrite Lgr, Lix. reflexivity.
    - intros j Hj. destruct (Nat.ltb_spec j n_child) as [Hin|Hin].
      + rewrite Hixw by exact Hin. apply (no_ixlt _ _ _ _ _ HP). apply HL, Hin.
      + unfold ixw. rewrite Hix0 by assumption. cbn. pose proof (no_pos _ _ _ _ _ HP). pose proof (no_le _ _ _ _ _ HP). lia.
    - intros i j Hij Hj Hn. assert (j < n_child) as Hjn.
      { apply u32_nonzero in Hn as (t & Ht & Hb); [|exact Wfm]. rewrite Hfm in Hb by (try assumption). destruct (Nat.ltb_spec j n_child); [assumption|discriminate]. }
      rewrite !Hix by lia. pose proof (no_inc _ _ _ _ _ HC) as Hinc. rewrite Eix in Hinc. apply Hinc.
      + apply nth_filter_mono; [exact Hij|]. fold L. lia.
      + apply HL, Hjn.
      + apply HL, Hjn.
    - discriminate.
    - intros p Hp Hb. destruct (Hexp p Hp Hb) as (_ & H2 & H3 & ->). pose proof (no_lt _ _ _ _ _ HC) as Hlt. rewrite Eix in Hlt. apply Hlt; assumption.
    - intros p Hp Hb. destruct (Hexp p Hp Hb) as (H1 & H2 & H3 & ->). pose proof (no_val _ _ _ _ _ HC) as Hv. rewrite Eix, Egr in Hv. rewrite <- Hv by assumption.
      rewrite <- (Hgr (p / 32) (p mod 32)) by lia. f_equal. lia. }
  split; [exact Hok|]. split.
  - unfold members. apply positions_ext. intros x Hx. apply eq_true_iff_eq. rewrite !in_compr_spec. cbn [nd_idx nd_mask]. rewrite Eix. split.
    + intros (p & Hp & Hb & <-). destruct (Hexp p Hp Hb) as (_ & H2 & H3 & H4). eexists. split; [exact H3|]. split; [exact H2|]. symmetry. exact H4.
    + intros (p & Hp & Hb & <-). assert (In (p / 32) L) as Hin.
      { unfold L. apply filter_In. split; [apply in_seq; unfold np; lia|]. unfold nz. pose proof (block_nonzero _ _ (no_m _ _ _ _ _ HC) Hb).
        destruct (N.eqb_spec (u32_at (nd_mask child) (p / 32)) 0); [contradiction|reflexivity]. }
      apply (In_nth _ _ 0) in Hin as (i & Hi & Ei). rewrite <- En in Hi. exists (32 * i + p mod 32). split; [lia|]. split.
      * rewrite Hfm by lia. replace (i <? n_child) with true by lia. rewrite Ei. replace (32 * (p / 32) + p mod 32) with p by lia. exact Hb.
      * unfold expand_pos. replace ((32 * i + p mod 32) / 32) with i by lia. replace ((32 * i + p mod 32) mod 32) with (p mod 32) by lia. rewrite Hixw, Ei by exact Hi. reflexivity.
  - cbn [nd_id nd_count nd_grad nd_hists nd_mask nd_idx]. do 4 (split; [reflexivity|]). split; [|exact Lix].
    intros j Hj Hz. destruct (HL j Hj) as [_ Hn]. apply u32_nonzero in Hn as (t & Ht & Hb); [|apply HC].
    assert (bbit fm (32 * j + t) = true) as Hb'. { rewrite Hfm by (try assumption; lia). replace (j <? n_child) with true by lia. exact Hb. }
    apply (block_nonzero fm) in Hb'; [|exact Wfm]. replace ((32 * j + t) / 32) with j in Hb' by lia. contradiction.
Qed.

(* ---- the two together ---- *)
Variable s : dataset O.
Variable sizes : list nat.
Lemma split_examples_ok parent child_id sp f g count grad fm : node_ok parent -> bitwise f g ->
  ds_get_bitvec s (sc_feature (sp_crit sp)) (sp_id sp) = Ok fm -> fmask_ok fm -> 0 < list_sum sizes ->
  let l := filter (fun x => g (bbit fm x)) (members n parent) in
  (l <> [] -> exists child, split_examples dbg cfg s sizes parent child_id sp f count grad = Ok child) /\
  forall child, split_examples dbg cfg s sizes parent child_id sp f count grad = Ok child ->
    node_ok child /\ members n child = l /\ nd_id child = child_id /\ nd_count child = count /\ nd_grad child = grad /\
    nd_hists child = map (repeat (hv_default O)) sizes.
Proof.
  intros HP Hg Efm HF Hsz l. unfold split_examples. rewrite Efm. cbn [rbind]. unfold alloc_hists. replace (0 <? list_sum sizes) with true by lia. cbn [rassert rbind].
  rewrite zero_blocks_ok by apply HP. cbn [rbind]. rewrite blen4.
  assert (wf_block bb_zeros) as Wz by (split; [reflexivity|]; apply Forall_forall; intros x Hx; apply repeat_spec in Hx; subst; reflexivity).
  destruct (split_loop parent fm f g (repeat bb_zeros (length (nd_idx parent))) HP HF Hg) with (k := length (nd_idx parent) * 8) as (mask & E & W & L & B).
  { apply wf_repeat, Wz. }
  { apply repeat_length. }
  { intros p. rewrite bbit_repeat by exact Wz. destruct (p <? _); [|reflexivity]. unfold bitAt, bb_zeros. rewrite nth_repeat. apply N.bits_0. }
  { reflexivity. }
  rewrite E. cbn [rbind].
  destruct (plain_child_ok parent fm g child_id count grad (map (repeat (hv_default O)) sizes) mask HP W L B) as [HC Hmem].
  set (child := mk_node _ _ _ _ _ _ _ _) in *. set (zc := length (filter (zero_block (child_bit parent fm g)) (seq 0 (length (nd_idx parent) * 8)))).
  assert (length (nd_idx parent) * 8 - zc = length (filter (fun j => negb (u32_at (nd_mask child) j =? 0)%N) (seq 0 (length (nd_idx parent) * 8)))) as Hnz.
  { pose proof (filter_compl _ (zero_block (child_bit parent fm g)) (seq 0 (length (nd_idx parent) * 8))) as HCp. rewrite seq_length in HCp. fold zc in HCp.
    rewrite (filter_ext_in _ (fun j => negb (zero_block (child_bit parent fm g) j))); [lia|]. intros j Hj. apply in_seq in Hj. f_equal. unfold child. cbn [nd_mask].
    rewrite u32_at_zero by exact W. unfold zero_block. apply eq_true_iff_eq. rewrite !forallb_forall. split; intros HH t Ht; specialize (HH t Ht); apply in_seq in Ht;
      rewrite B in *; replace (32 * j + t <? 32 * (length (nd_idx parent) * 8)) with true in * by lia; exact HH. }
  destruct (nlt O _ _ && _) eqn:Ec.
  2:{ split; [intros _; eexists; reflexivity|]. intros ch Ech. injection Ech as <-. split; [exact HC|]. split; [exact Hmem|]. repeat split; reflexivity. }
  split.
  - intros Hne. assert (0 < length (nd_idx parent) * 8 - zc) as Hp.
    { rewrite Hnz. destruct (members n child) as [|x rest] eqn:Em; [exfalso; apply Hne; symmetry; exact Hmem|].
      assert (In x (members n child)) as Hx by (rewrite Em; left; reflexivity). apply positions_in in Hx as [_ Hx]. apply in_compr_spec in Hx as (p & Hp & Hb & _).
      assert (In (p / 32) (filter (fun j => negb (u32_at (nd_mask child) j =? 0)%N) (seq 0 (length (nd_idx parent) * 8)))) as Hin.
      { apply filter_In. unfold child in Hp. cbn [nd_idx] in Hp. split; [apply in_seq; lia|]. pose proof (block_nonzero _ _ (no_m _ _ _ _ _ HC) Hb).
        destruct (N.eqb_spec (u32_at (nd_mask child) (p / 32)) 0); [contradiction|reflexivity]. }
      match goal with |- 0 < length ?q => destruct q; [destruct Hin|cbn [length]; lia] end. }
    replace (0 <? _) with true by lia. cbn [rassert rbind].
    destruct (compress_ok parent child _ HP HC eq_refl eq_refl Hnz Hp) as (ch & E' & _). exists ch. exact E'.
  - intros ch H. apply rbind_ok in H as (u & Hu & H). apply rassert_ok in Hu. apply Nat.ltb_lt in Hu.
    destruct (compress_ok parent child _ HP HC eq_refl eq_refl Hnz Hu) as (ch' & E' & A1 & A2 & A3 & A4 & A5 & A6 & _). rewrite E' in H. injection H as <-.
    split; [exact A1|]. split; [rewrite A2; exact Hmem|]. rewrite A3, A4, A5, A6. repeat split; reflexivity.
Qed.
End Split.
