From Coq Require Import Permutation Sorting.Sorted.
From Verif Require Import Base BaseProofs BitModel BitSpec BitProofs BitProofs2 SimdModel SliceProofs2 Num DataModel BinnerModel BinnerProofs Config
  DatasetModel DatasetSpec DatasetProofs.

(** Bit vectors of one feature: well-formed, all of [L] blocks. *)
Definition bvs_wf (L : nat) (bvs : list blocks) : Prop := Forall (fun b => wf_blocks b /\ length b = L) bvs.

Lemma zero_bitvecs_ok L bvs : bvs_wf L bvs -> bvs_wf L (zero_bitvecs bvs) /\ length (zero_bitvecs bvs) = length bvs /\
  forall b x i, nth_error (zero_bitvecs bvs) b = Some x -> bbit x i = false.
Proof.
  intros H. unfold zero_bitvecs. split; [|split].
  - unfold bvs_wf in *. rewrite Forall_forall in *. intros x Hx. apply in_map_iff in Hx as (y & <- & Hy). destruct (H y Hy) as [_ HL].
    split; [apply Forall_forall; intros z Hz; apply repeat_spec in Hz; subst; apply wf_bb_zeros|rewrite repeat_length; exact HL].
  - apply map_length.
  - intros b x i E. rewrite nth_error_map in E. destruct (nth_error bvs b); [|discriminate]. injection E as <-. rewrite bbit_repeat by apply wf_bb_zeros; rewrite bitAt_zeros; destruct (_ <? _); reflexivity.
Qed.

Definition has_cat (get_cat : nat -> res nat) (b j : nat) : bool := match get_cat j with Ok c => c =? b | _ => false end.

Lemma fill_loop_ok get_cat L : forall examples start bvs bvs', bvs_wf L bvs -> fill_loop get_cat examples start bvs = Ok bvs' ->
  bvs_wf L bvs' /\ length bvs' = length bvs /\ (forall j, In j examples -> exists c, get_cat j = Ok c) /\
  forall b x x' i, nth_error bvs b = Some x -> nth_error bvs' b = Some x' ->
    bbit x' i = bbit x i || ((start <=? i) && match nth_error examples (i - start) with Some j => has_cat get_cat b j | None => false end).
Proof.
  induction examples as [|j t IH]; intros start bvs bvs' HW E; cbn [fill_loop] in E.
  - injection E as <-. split; [exact HW|]. split; [reflexivity|]. split; [intros j []|]. intros b x x' i E1 E2.
    replace x' with x by congruence. destruct (i - start); cbn; rewrite andb_false_r, orb_false_r; reflexivity.
  - apply rbind_ok in E as (c & Ec & E). destruct (Nat.ltb_spec c (length bvs)) as [Hc|Hc].
    + apply rbind_ok in E as (bv & Eb & E). apply rbind_ok in E as (bv' & Ee & E). apply rbind_ok in E as (b1 & E1 & E).
      apply idx_ok in Eb. assert (wf_blocks bv /\ length bv = L) as [Wb Lb]. { unfold bvs_wf in HW. rewrite Forall_forall in HW. eapply HW, nth_error_In, Eb. }
      rewrite bv_enable_is_set in Ee.
      assert (start < length bv * 256) as Hs. { destruct (Nat.lt_ge_cases start (length bv * 256)) as [|Hge]; [assumption|]. rewrite bv_set_bit_panic in Ee by exact Hge. discriminate. }
      destruct (bv_set_bit_ok bv start true Wb Hs) as (bv2 & Ee' & W2 & L2 & B2). rewrite Ee in Ee'. injection Ee' as <-.
      rewrite set_idx_lt in E1 by exact Hc. injection E1 as <-.
      assert (bvs_wf L (upd bvs c bv')) as HW1. { apply upd_Forall; [exact HW|]. split; [exact W2|lia]. }
      destruct (IH _ _ _ HW1 E) as (A & B & C & D). split; [exact A|]. rewrite upd_length in B. split; [exact B|]. split.
      { intros k [<-|Hk]; [exists c; exact Ec|apply C, Hk]. }
      intros b x x' i N1 N2. assert (b < length bvs) as Hb by (apply nth_error_Some; congruence).
      destruct (nth_error (upd bvs c bv') b) as [y|] eqn:Ey; [|apply nth_error_None in Ey; rewrite upd_length in Ey; lia].
      rewrite (D b y x' i Ey N2). rewrite nth_error_upd in Ey. replace (c <? length bvs) with true in Ey by lia. rewrite andb_true_r in Ey.
      destruct (Nat.lt_trichotomy i start) as [Hi|[Hi|Hi]].
      * replace (S start <=? i) with false by lia. replace (start <=? i) with false by lia. cbn [andb]. rewrite !orb_false_r.
        destruct (Nat.eqb_spec c b) as [->|Hne]; [|congruence]. injection Ey as <-. rewrite B2. replace (start =? i) with false by lia. congruence.
      * subst i. replace (S start <=? start) with false by lia. replace (start <=? start) with true by lia. rewrite Nat.sub_diag. cbn [nth_error andb].
        rewrite orb_false_r. unfold has_cat. rewrite Ec. destruct (Nat.eqb_spec c b) as [->|Hne].
        { injection Ey as <-. rewrite B2, Nat.eqb_refl. rewrite orb_true_r. reflexivity. }
        { rewrite orb_false_r. congruence. }
      * replace (S start <=? i) with true by lia. replace (start <=? i) with true by lia. cbn [andb].
        replace (i - start) with (S (i - S start)) by lia. cbn [nth_error]. f_equal.
        destruct (Nat.eqb_spec c b) as [->|Hne]; [|congruence]. injection Ey as <-. rewrite B2. replace (start =? i) with false by lia. congruence.
    + destruct (IH _ _ _ HW E) as (A & B & C & D). split; [exact A|]. split; [exact B|]. split.
      { intros k [<-|Hk]; [exists c; exact Ec|apply C, Hk]. }
      intros b x x' i N1 N2. assert (b < length bvs) as Hb by (apply nth_error_Some; congruence).
      rewrite (D b x x' i N1 N2). f_equal. destruct (Nat.lt_trichotomy i start) as [Hi|[Hi|Hi]].
      * replace (S start <=? i) with false by lia. replace (start <=? i) with false by lia. reflexivity.
      * subst i. replace (S start <=? start) with false by lia. rewrite Nat.sub_diag. cbn [nth_error andb]. unfold has_cat. rewrite Ec.
        replace (c =? b) with false by lia. rewrite andb_false_r. reflexivity.
      * replace (S start <=? i) with true by lia. replace (start <=? i) with true by lia.
        replace (i - start) with (S (i - S start)) by lia. reflexivity.
Qed.

Lemma fill_zero_ok get_cat L examples bvs bvs' : bvs_wf L bvs -> fill_bitvecs (zero_bitvecs bvs) examples get_cat = Ok bvs' ->
  bvs_wf L bvs' /\ length bvs' = length bvs /\ (forall j, In j examples -> exists c, get_cat j = Ok c) /\
  forall b x' i, nth_error bvs' b = Some x' -> bbit x' i = match nth_error examples i with Some j => has_cat get_cat b j | None => false end.
Proof.
  intros HW E. destruct (zero_bitvecs_ok L bvs HW) as (W0 & L0 & Z0). unfold fill_bitvecs in E.
  destruct (fill_loop_ok get_cat L _ _ _ _ W0 E) as (A & B & C & D). split; [exact A|]. split; [lia|]. split; [exact C|].
  intros b x' i N1. assert (b < length bvs') as Hb by (apply nth_error_Some; congruence).
  destruct (nth_error (zero_bitvecs bvs) b) as [x|] eqn:Ex; [|apply nth_error_None in Ex; lia].
  rewrite (D b x x' i Ex N1), (Z0 b x i Ex). cbn [orb Nat.leb andb]. rewrite Nat.sub_0_r. reflexivity.
Qed.

Lemma accumulate_loop_ok L : forall rest b0, bvs_wf L (b0 :: rest) ->
  bvs_wf L (accumulate_loop b0 rest) /\ length (accumulate_loop b0 rest) = S (length rest) /\
  forall b x i, nth_error (accumulate_loop b0 rest) b = Some x -> bbit x i = existsb (fun b' => bbit b' i) (firstn (S b) (b0 :: rest)).
Proof.
  induction rest as [|b1 t IH]; intros b0 HW; cbn [accumulate_loop].
  - split; [exact HW|]. split; [reflexivity|]. intros [|[|b]] x i E; cbn in E; try discriminate. injection E as <-. cbn. rewrite orb_false_r. reflexivity.
  - inversion HW as [|? ? [W0 L0] HW1]; subst. inversion HW1 as [|? ? [W1 L1] HW2]; subst.
    destruct (or_assign_ok b1 b0 W1 W0) as (Wo & Lo & Bo).
    destruct (IH (or_assign b1 b0)) as (A & B & C). { constructor; [split; [exact Wo|lia]|exact HW2]. }
    split; [constructor; [split; auto|exact A]|]. split; [cbn [length]; rewrite B; reflexivity|].
    intros [|b] x i E; cbn [nth_error] in E.
    + injection E as <-. cbn. rewrite orb_false_r. reflexivity.
    + rewrite (C b x i E). cbn [firstn existsb]. rewrite Bo. rewrite (orb_assoc (bbit b0 i)). f_equal.
      destruct (Nat.ltb_spec i (length b1 * 256)) as [Hi|Hi]; [apply orb_comm|].
      rewrite (bbit_high b0 i) by (try assumption; lia). cbn [andb]. rewrite orb_false_r. reflexivity.
Qed.

Lemma fill_acc_ok get_cat L examples bvs bvs1 bvs2 : bvs_wf L bvs -> fill_bitvecs (zero_bitvecs bvs) examples get_cat = Ok bvs1 ->
  accumulate_bitvecs bvs1 = Ok bvs2 ->
  bvs_wf L bvs2 /\ length bvs2 = length bvs /\ (forall j, In j examples -> exists c, get_cat j = Ok c) /\
  forall b x' i, nth_error bvs2 b = Some x' ->
    bbit x' i = match nth_error examples i with Some j => match get_cat j with Ok c => c <=? b | _ => false end | None => false end.
Proof.
  intros HW E1 E2. destruct (fill_zero_ok _ _ _ _ _ HW E1) as (A & B & C & D).
  destruct bvs1 as [|b0 rest]; [discriminate|]. injection E2 as <-. destruct (accumulate_loop_ok L rest b0 A) as (A2 & B2 & C2).
  split; [exact A2|]. cbn [length] in B. split; [lia|]. split; [exact C|]. intros b x' i N1. rewrite (C2 b x' i N1).
  assert (b < S (length rest)) as Hb by (rewrite <- B2; apply nth_error_Some; congruence).
  apply eq_true_iff_eq. rewrite existsb_exists. split.
  - intros (y & Hy & By). apply In_nth_error in Hy as [k Ek]. rewrite nth_error_firstn in Ek.
    destruct (Nat.ltb_spec k (S b)) as [Hk|]; [|discriminate]. rewrite (D k y i Ek) in By. destruct (nth_error examples i) as [j|]; [|discriminate].
    unfold has_cat in By. destruct (get_cat j) as [c| | |]; try discriminate. lia.
  - destruct (nth_error examples i) as [j|] eqn:Ej; [|discriminate]. destruct (C j (nth_error_In _ _ Ej)) as [c Ec]. rewrite Ec. intros Hc.
    destruct (nth_error (b0 :: rest) c) as [y|] eqn:Ey; [|apply nth_error_None in Ey; cbn [length] in Ey; lia]. exists y. split.
    + eapply nth_error_In with (n := c). rewrite nth_error_firstn. replace (c <? S b) with true by lia. exact Ey.
    + rewrite (D c y i Ey), Ej. unfold has_cat. rewrite Ec. apply Nat.eqb_refl.
Qed.
