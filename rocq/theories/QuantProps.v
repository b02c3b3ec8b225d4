(** Properties C41 (groups of categories) and C53 (bins are quantiles).  [due_update dbg cfg d s grad bounds s'] (QuantSpec.v): after any history
    of updates the data set is [s]; the next update, with the gradients [grad], is due and gives [s']. *)
From Coq Require Import Reals Lra Sorting.Sorted.
From Flocq Require Import BinarySingleNaN.
From Verif Require Import Base BaseProofs Num F32 F32Proofs DataModel BinnerModel BinnerSpec BinnerProofs Config
  DatasetModel DatasetSpec QuantSpec DatasetProofs3 DatasetProofs4 DatasetProofs5 DatasetProps TotalProofs TotalProofs2 QuantProofs QuantProofs2.
Local Open Scope nat_scope.

Lemma mask_is O dbg (cfg : config O) d s ex : reachable dbg cfg d s -> mask_examples d s = Ok ex -> ds_examples O cfg d s = ex.
Proof.
  intros HR Hex. pose proof (reachable_ok _ _ _ _ _ HR) as H. unfold mask_examples in Hex. unfold ds_examples. destruct (example_sampling_enabled s); [|congruence].
  unfold active_examples in Hex. apply subslice_first in Hex as [_ ->]. unfold nactive_examples. rewrite (dv_nact _ _ _ _ (ds_inv _ _ _ _ H)). reflexivity.
Qed.
Lemma due_reachable O dbg (cfg : config O) d s grad bounds s' : due_update dbg cfg d s grad bounds s' -> reachable dbg cfg d s'.
Proof.
  intros ((g & us & s0 & E0 & E1) & _ & E). exists g, (us ++ [(grad, bounds)]), s0. split; [exact E0|]. unfold ds_run in *. rewrite foldM_app, E1.
  cbn [rbind foldM fst snd]. rewrite E. reflexivity.
Qed.
Lemma unsampled O (cfg : config O) d s : dsinv O cfg d s -> nlt O (c_example_fraction cfg) (nofZ O 1) = false -> ds_examples O cfg d s = seq 0 (d_nexamples d).
Proof.
  intros H Hf. pose proof (ds_buf _ _ _ _ H) as Hb. rewrite Hf in Hb. unfold ds_examples, example_sampling_enabled. rewrite Hb. reflexivity.
Qed.

(* ---- C41 ---- *)

(** What [update] stores for an active hi-cardinality feature. *)
Lemma stored_groups O dbg (cfg : config O) d s grad bounds s' fs f : due_update dbg cfg d s grad bounds s' -> active_features s' = Ok fs -> In f fs ->
  feat_type_of d f = Ok HiCardCat ->
  exists col card sw table, get_feature d f = Ok col /\ feat_card d f = Ok card /\
    hicard_groups dbg cfg col grad card (nact O cfg d) bounds (ds_examples O cfg d s') = Ok (sw, table) /\
    nth_error (get_supercats s') f = Some table /\ get_nbins s' f = Ok (length sw).
Proof.
  intros HU Ha Hin Hty. pose proof HU as (HR & Hres & E). pose proof (reachable_ok _ _ _ _ _ HR) as Hds.
  destruct (update_trace O cfg d dbg s grad bounds s' fs f Hds E Hres Ha Hin) as (u & lc & s1 & s2 & I1 & Eu & Eup & Hsame); [congruence|].
  unfold update_feature in Eup. rewrite (proj2 (idx_ok _ _ _ _) Eu) in Eup. cbn [rbind] in Eup. rewrite (dv_data _ _ _ _ I1), Hty in Eup. cbn [rbind] in Eup.
  pose proof (useful_lt O cfg d s1 f I1 (nth_error_In _ _ Eu)) as Hlt.
  unfold update_hicard_cat in Eup. rewrite (dv_data _ _ _ _ I1) in Eup. apply rbind_ok in Eup as (col & Ec & Eup). apply rbind_ok in Eup as (card & Ek & Eup).
  apply rbind_ok in Eup as ((sw & scs) & Eg & Eup). do 5 (apply rbind_ok in Eup as (? & _ & Eup)). apply rbind_ok in Eup as (used & Eused & Eup). apply rbind_ok in Eup as (scs' & Escs & Eup).
  injection Eup as <-. apply set_idx_ok in Eused as [Hul ->]. apply set_idx_ok in Escs as [Hsl ->]. rewrite (dv_nact _ _ _ _ I1) in Eg.
  exists col, card, sw, scs. split; [exact Ec|]. split; [exact Ek|]. split; [exact Eg|]. destruct Hsame as (_ & A & B & _). cbn [in_used_nbins in_supercats] in A, B. split.
  - unfold get_supercats. rewrite B. apply upd_same, Hsl.
  - unfold get_nbins. apply idx_ok. rewrite A. apply upd_same, Hul.
Qed.

Lemma stats_all O (feat grad : list (num O)) n card stats : n <= length grad -> length grad < 2 ^ 32 ->
  hicard_stats feat grad (seq 0 n) 0 (repeat (nofZ O 0, 0%N) card) = Ok stats -> stats = map (fun c => category_stats (own_gradients feat grad (seq 0 n) c)) (seq 0 card).
Proof.
  intros Hn HL H. destruct (C41_unsampled _ _ _ _ _ _ Hn HL H) as [A B]. apply nth_error_ext. intros c. rewrite nth_error_map, nth_error_seq. destruct (Nat.ltb_spec c card) as [Hc|Hc].
  - rewrite (B c Hc). reflexivity.
  - apply nth_error_None. lia.
Qed.
Lemma mean_weight O (gs : list (num O)) : fst (category_mean (category_stats gs)) = category_weight gs.
Proof.
  unfold category_mean, category_stats, category_weight. cbn [fst snd]. destruct gs as [|g t]; [reflexivity|]. cbn [length].
  replace (N.eqb (N.of_nat (S (length t))) 0) with false by (symmetry; apply N.eqb_neq; lia). cbn [fst]. unfold nofN, nofnat. rewrite nat_N_Z. reflexivity.
Qed.
Lemma mean_count O (gs : list (num O)) : snd (category_mean (category_stats gs)) = N.of_nat (length gs).
Proof. unfold category_mean, category_stats. cbn [fst snd]. destruct (N.eqb _ 0); reflexivity. Qed.

(** Without example sampling: the super-category of every category is the group of its weight - the mean of the gradients of the
    examples of this category - among the groups separated by the split weights; one bin per split weight. *)
Theorem C41_groups : forall O dbg (cfg : config O) d s grad bounds s' fs f col card, due_update dbg cfg d s grad bounds s' ->
  nlt O (c_example_fraction cfg) (nofZ O 1) = false -> d_nexamples d <= length grad -> length grad < 2 ^ 32 ->
  active_features s' = Ok fs -> In f fs -> feat_type_of d f = Ok HiCardCat -> get_feature d f = Ok col -> feat_card d f = Ok card ->
  exists splits table, nth_error (get_supercats s') f = Some table /\ get_nbins s' f = Ok (length splits) /\ length table = card /\
    forall c k, nth_error table c = Some k -> in_group splits (category_weight (own_gradients col grad (seq 0 (d_nexamples d)) c)) k.
Proof.
  intros O dbg cfg d s grad bounds s' fs f col card HU Hfr Hn HL Ha Hin Hty Hcol Hcard.
  destruct (stored_groups _ _ _ _ _ _ _ _ _ _ HU Ha Hin Hty) as (col' & card' & sw & table & E1 & E2 & Eg & Et & Enb).
  assert (col' = col) by congruence. assert (card' = card) by congruence. subst col' card'.
  rewrite (unsampled _ _ _ _ (reachable_ok _ _ _ _ _ (due_reachable _ _ _ _ _ _ _ _ HU)) Hfr) in Eg.
  exists sw, table. split; [exact Et|]. split; [exact Enb|]. destruct (hicard_groups_ok _ _ _ _ _ _ _ _ _ _ _ Eg) as [_ Hlen]. split; [exact Hlen|].
  intros c k Ek. unfold hicard_groups in Eg. apply rbind_ok in Eg as (st & Est & Eg). do 4 (apply rbind_ok in Eg as (? & _ & Eg)). apply ok_inj in Eg as [-> ->].
  apply (stats_all _ _ _ _ _ _ Hn HL) in Est. subst st. rewrite !nth_error_map, nth_error_seq in Ek. destruct (c <? card); [|discriminate]. cbn [option_map plus] in Ek. injection Ek as <-.
  rewrite mean_weight. apply leading_group.
Qed.
Print Assumptions C41_groups.

(** Consequence in exact arithmetic: categories with larger mean gradients are never in earlier groups. *)
Theorem C41_ordered : forall (splits : list (num Rops)) (w1 w2 : num Rops) k1 k2, (w1 <= w2)%R ->
  in_group splits w1 k1 -> in_group splits w2 k2 -> k1 <= k2.
Proof.
  intros splits w1 w2 k1 k2 Hw (A1 & B1 & _) (A2 & _ & C2). apply Nat.nlt_ge. intros Hlt.
  destruct (nth_error splits k2) as [x|] eqn:E; [|apply nth_error_None in E; lia]. pose proof (B1 k2 x Hlt E) as H1. pose proof (C2 x eq_refl) as H2. cbn [nlt Rops] in H1, H2.
  destruct (Flocq.Core.Raux.Rlt_bool_spec x w1) as [G|G]; [|discriminate]. destruct (Flocq.Core.Raux.Rlt_bool_spec x w2) as [G'|G']; [discriminate|]. lra.
Qed.
Print Assumptions C41_ordered.

(* ---- C53 ---- *)

(** The [i]-th of the cumulative weights at which a numerical feature is split: [i] of [m + 1] equal parts of the total. *)
Definition part (total : f32) (m i : nat) : f32 := f_mul (f_of_nat i) (f_div total (f_of_nat (m + 1))).

Lemma nan_rank (bins : list f32) r : is_nan r = true -> rank_next f_le f_add (fun x : f32 => x) bins r (mk_ri f_zero f_zero 0) = Panic.
Proof. intros H. destruct r; try discriminate H. unfold rank_next. destruct bins; reflexivity. Qed.

(** Numerical features: every active example weighs as much as the absolute value of its own gradient (plus a tiny constant); the split candidates
    are the upper edges of the histogram bins in which the [max_nbins] inner quantiles of that weight lie. *)
Theorem C53_numerical : forall dbg (cfg : config f32ops) d s grad bounds s' fs f ex col lo hi, due_update dbg cfg d s grad bounds s' ->
  (Z.of_nat (c_max_nbins cfg + 1) <= 2 ^ 24)%Z ->
  active_features s' = Ok fs -> In f fs -> feat_type_of d f = Ok Numerical -> mask_examples d s' = Ok ex -> get_feature d f = Ok col -> feat_limits d f = Ok (lo, hi) ->
  exists (items : list (f32 * f32)) (b : binner f32ops f32) cands,
    Forall2 (fun j it => exists v g, nth_error col j = Some v /\ nth_error grad j = Some g /\ it = (v, f_add (f_abs g) (EPSILON f32ops))) ex items /\
    equal_bins b QUANTILE_EST_NBINS lo hi /\ holds f_zero f_add b items /\
    quantile_edges f_zero f_le f_add b (map (part (fold_left f_add (map snd items) f_zero) (c_max_nbins cfg)) (seq 1 (c_max_nbins cfg))) cands /\
    get_nbins s' f = Ok (length cands) /\ forall k x, nth_error cands k = Some x -> get_split_value s' f k = Ok x.
Proof.
  intros dbg cfg d s grad bounds s' fs f ex col lo hi HU Hm Ha Hin Hty Hex Hcol Hlim. pose proof HU as (HR & Hres & E). pose proof (reachable_ok _ _ _ _ _ HR) as Hds.
  pose proof (due_reachable _ _ _ _ _ _ _ _ HU) as HR'.
  destruct (update_trace f32ops cfg d dbg s grad bounds s' fs f Hds E Hres Ha Hin) as (u & lc & s1 & s2 & I1 & Eu & Eup & Hsame); [congruence|].
  rewrite (mask_is _ _ _ _ _ _ HR' Hex) in Eup.
  unfold update_feature in Eup. rewrite (proj2 (idx_ok _ _ _ _) Eu) in Eup. cbn [rbind] in Eup. rewrite (dv_data _ _ _ _ I1), Hty in Eup. cbn [rbind] in Eup.
  unfold update_num in Eup. rewrite (dv_data _ _ _ _ I1), Hcol, Hlim in Eup. cbn [rbind] in Eup. apply rbind_ok in Eup as ((cands & bn) & Eg & Eup).
  do 5 (apply rbind_ok in Eup as (? & _ & Eup)). apply rbind_ok in Eup as (used & Eused & Eup). apply rbind_ok in Eup as (scs' & Escs & Eup).
  assert (forall A (x y : A), Ok x = Ok y -> x = y) as OkI by (clear; intros A p q Hpq; congruence).
  apply OkI in Eup. subst s2. apply set_idx_ok in Eused as [Hul ->]. apply set_idx_ok in Escs as [Hsl ->].
  destruct Hsame as (_ & A & _ & B). cbn [in_used_nbins in_split_candidates] in A, B. rewrite upd_same in A by exact Hul. rewrite upd_same in B by exact Hsl.
  unfold num_candidates in Eg. cbn [fst snd] in Eg. apply rbind_ok in Eg as (b0 & Eb0 & Eg). apply rbind_ok in Eg as (items & Eit & Eg). apply rbind_ok in Eg as (b1 & Eb1 & Eg).
  apply rbind_ok in Eg as (qb & Eqb & Eg). apply rbind_ok in Eg as (u1 & _ & Eg). apply rbind_ok in Eg as (u2 & E2 & Eg). apply rbind_ok in Eg as (b2 & _ & Eg).
  apply rassert_ok in E2. apply ok_inj in Eg as [-> _].
  set (cands := map (fun bin => bin_representative b1 (bin + 1)) (dedup_bins None qb)) in *.
  exists items, b1, cands.
  assert (Forall2 (fun j it => exists v g, nth_error col j = Some v /\ nth_error grad j = Some g /\ it = (v, f_add (f_abs g) (EPSILON f32ops))) ex items) as Hit.
  { unfold num_items in Eit. apply mapM_ok in Eit. clear - Eit OkI. induction Eit as [|j it ex items Hj Eit IH]; constructor; [|exact IH]. apply rbind_ok in Hj as (v & Ev & Hj). apply rbind_ok in Hj as (g & Egr & Hj).
    apply OkI in Hj. apply idx_ok in Ev, Egr. exists v, g. split; [exact Ev|]. split; [exact Egr|]. symmetry. exact Hj. }
  split; [exact Hit|].
  destruct (filled f32ops f32 f_zero f_add QUANTILE_EST_NBINS lo hi b0 b1 items) as [HE HH]; [unfold QUANTILE_EST_NBINS; lia|exact Eb0|exact Eb1|].
  split; [exact HE|]. split; [exact HH|]. pose proof (filled_ne _ _ b1 QUANTILE_EST_NBINS lo hi ltac:(unfold QUANTILE_EST_NBINS; lia) HE) as Hne.
  assert (fold_left f_add (map snd items) f_zero = fold_left (fun a it => nadd f32ops a (snd it)) items (nofZ f32ops 0)) as HW.
  { change (nofZ f32ops 0) with f_zero. generalize f_zero. clear. induction items as [|it t IH]; intros a; [reflexivity|]. cbn [map fold_left]. apply IH. }
  split.
  - assert (nn_or_nan (fold_left f_add (map snd items) f_zero)) as Hnn.
    { apply nn_sum; [|exact nn_zero]. apply Forall_map. clear - Hit. induction Hit as [|j it ex items H Hit IH]; constructor; [|exact IH]. destruct H as (v & g & _ & _ & ->). apply nn_weight. }
    rewrite <- HW in Eqb. set (W := fold_left f_add (map snd items) f_zero) in *.
    change (rank_iter_all f_zero f_le f_add (fun x => x) b1 (map (part W (c_max_nbins cfg)) (seq 1 (c_max_nbins cfg))) = Ok qb) in Eqb.
    destruct (f_of_Z_exact (Z.of_nat (c_max_nbins cfg + 1))) as [Fm Bm]; [lia|].
    assert (is_nan (f_div W (f_of_nat (c_max_nbins cfg + 1))) = false /\ (0 <= key (f_div W (f_of_nat (c_max_nbins cfg + 1))))%R) as [Ns Ks].
    { destruct Hnn as [Hn|[Hn Hk]].
      - exfalso. destruct (c_max_nbins cfg) as [|m].
        + cbn [seq map] in Eqb. apply OkI in Eqb. unfold cands in E2. rewrite <- Eqb in E2. apply Nat.ltb_lt in E2. cbn in E2. lia.
        + cbn [seq map] in Eqb. unfold rank_iter_all in Eqb. cbn [ranks_of] in Eqb. apply rbind_ok in Eqb as ((i & st) & Er & _). assert (is_nan (part W (S m) 1) = true) as Hnan by (apply nan_mul_r, nan_div_l, Hn).
          pose proof (nan_rank (bn_bins b1) _ Hnan) as Hp. pose proof (eq_trans (eq_sym Hp) Er) as Hx. discriminate Hx.
      - apply f_div_nn; [exact Hn|exact Hk|exact Fm|]. unfold f_of_nat. rewrite Bm. apply (IZR_lt 0). lia. }
    apply edges_ok; [exact BinnerProps.f_le_trans|reflexivity|exact Hne| |exact Eqb]. apply multiples_sorted; [exact Ns|exact Ks|lia].
  - split; [unfold get_nbins; apply idx_ok; exact A|]. intros k0 y0 Ek. unfold get_split_value. rewrite (dv_data _ _ _ _ (ds_inv _ _ _ _ (reachable_ok _ _ _ _ _ HR'))), Hty.
    cbn [rbind]. rewrite (proj2 (idx_ok _ _ _ _) B). cbn [rbind]. apply idx_ok, Ek.
Qed.
Print Assumptions C53_numerical.

Lemma mean_items_eq O (feat grad : list (num O)) ex card :
  mean_items (map category_mean (map (fun c => category_stats (own_gradients feat grad ex c)) (seq 0 card))) =
  map (fun it => (fst it, u32_inc (snd it))) (category_items feat grad ex card).
Proof.
  unfold category_items, mean_items. induction (seq 0 card) as [|c t IH]; [reflexivity|]. cbn [map filter flat_map]. rewrite mean_count.
  destruct (own_gradients feat grad ex c) as [|g gs] eqn:E.
  - cbn [length N.of_nat N.eqb negb app]. exact IH.
  - replace (negb (N.eqb (N.of_nat (length (g :: gs))) 0)) with true by (symmetry; apply negb_true_iff, N.eqb_neq; cbn; lia). cbn [map app]. rewrite mean_weight, mean_count. cbn [fst snd]. f_equal. exact IH.
Qed.
Lemma sum_items O (feat grad : list (num O)) ex card : sumN (map snd (category_items feat grad ex card)) = sumN (map (fun c => N.of_nat (length (own_gradients feat grad ex c))) (seq 0 card)).
Proof.
  unfold category_items. induction (seq 0 card) as [|c t IH]; [reflexivity|]. cbn [flat_map map]. destruct (own_gradients feat grad ex c) as [|g gs] eqn:E; cbn [app map sumN length snd]; [change (N.of_nat 0) with 0%N; rewrite N.add_0_l; exact IH|f_equal; exact IH].
Qed.
Lemma sum_one (x m : nat) : forall a, (sumN (map (fun c => if (x =? c)%nat then 1 else 0) (seq a m)) <= (if (a <=? x)%nat then 1 else 0))%N.
Proof.
  induction m as [|m IH]; intros a; cbn [seq map sumN]; [destruct (a <=? x); lia|]. specialize (IH (S a)). destruct (Nat.eqb_spec x a) as [->|Hn].
  - rewrite Nat.leb_refl. replace (S a <=? a) with false in IH by (symmetry; apply Nat.leb_gt; lia). lia.
  - destruct (Nat.leb_spec a x), (Nat.leb_spec (S a) x); lia.
Qed.
Lemma sum_add (f g : nat -> N) l : sumN (map (fun c => (f c + g c)%N) l) = (sumN (map f l) + sumN (map g l))%N.
Proof. induction l as [|c t IH]; [reflexivity|]. cbn [map sumN]. rewrite IH. lia. Qed.
Lemma sum_own O (feat grad : list (num O)) card : forall ex, (sumN (map (fun c => N.of_nat (length (own_gradients feat grad ex c))) (seq 0 card)) <= N.of_nat (length ex))%N.
Proof.
  induction ex as [|j t IH].
  - cbn. induction (seq 0 card); cbn [map sumN]; [lia|]. cbn. assumption.
  - assert (forall c, N.of_nat (length (own_gradients feat grad (j :: t) c)) =
      ((match nth_error feat j, nth_error grad j with Some v, Some _ => if (into_cat v =? c)%nat then 1 else 0 | _, _ => 0 end) + N.of_nat (length (own_gradients feat grad t c)))%N) as H.
    { intros c. cbn [own_gradients flat_map]. rewrite app_length. destruct (nth_error feat j); [|cbn; reflexivity]. destruct (nth_error grad j); [|cbn; reflexivity]. destruct (_ =? c); cbn [length app]; unfold own_gradients; lia. }
    rewrite (map_ext _ _ H), sum_add. cbn [length].
    assert (sumN (map (fun c => match nth_error feat j, nth_error grad j with Some v, Some _ => if (into_cat v =? c)%nat then 1 else 0 | _, _ => 0 end) (seq 0 card)) <= 1)%N as H1; [|lia].
    assert (sumN (map (fun _ : nat => 0%N) (seq 0 card)) <= 1)%N as H0 by (clear; induction (seq 0 card); cbn [map sumN]; lia).
    destruct (nth_error feat j) as [v|]; [|exact H0]. destruct (nth_error grad j); [|exact H0]. pose proof (sum_one (into_cat v) card 0) as Hs. cbn [Nat.leb] in Hs. exact Hs.
Qed.
Lemma sumN_fold l : forall a, fold_left N.add l a = (a + sumN l)%N.
Proof. induction l as [|x t IH]; intros a; cbn [fold_left sumN]; [lia|]. rewrite IH. lia. Qed.

(** Hi-cardinality features, without example sampling: every category that occurs weighs as much as it has examples, and lies where the mean of its gradients
    lies between the gradient bounds; the split weights are the upper edges of the histogram bins that contain the ranks [round(i n / (max_nbins + 1)) - 1]. *)
Theorem C53_hicard : forall dbg (cfg : config f32ops) d s grad bounds s' fs f col card, due_update dbg cfg d s grad bounds s' ->
  nlt f32ops (c_example_fraction cfg) (nofZ f32ops 1) = false -> d_nexamples d <= length grad -> length grad < 2 ^ 32 ->
  (Z.of_nat (c_max_nbins cfg + 1) <= 2 ^ 24)%Z -> (Z.of_nat (nactive_examples s') <= 2 ^ 24)%Z -> c_max_nbins cfg + 1 <= 2 * nactive_examples s' ->
  active_features s' = Ok fs -> In f fs -> feat_type_of d f = Ok HiCardCat -> get_feature d f = Ok col -> feat_card d f = Ok card ->
  exists (b : binner f32ops N) splits table,
    equal_bins b QUANTILE_EST_NBINS (fst bounds) (snd bounds) /\ holds 0%N N.add b (category_items col grad (seq 0 (d_nexamples d)) card) /\
    quantile_edges 0%N N.leb N.add b
      (map (fun i => Z.to_N (f_to_u32 (f_round (part (f_of_nat (nactive_examples s')) (c_max_nbins cfg) i)) - 1)) (seq 1 (c_max_nbins cfg))) splits /\
    nth_error (get_supercats s') f = Some table /\ get_nbins s' f = Ok (length splits) /\ length table = card /\
    forall c k, nth_error table c = Some k -> in_group splits (category_weight (own_gradients col grad (seq 0 (d_nexamples d)) c)) k.
Proof.
  intros dbg cfg d s grad bounds s' fs f col card HU Hfr Hn HL Hm Hk Hmk Ha Hin Hty Hcol Hcard.
  destruct (stored_groups _ _ _ _ _ _ _ _ _ _ HU Ha Hin Hty) as (col' & card' & sw & table & E1 & E2 & Eg & Et & Enb).
  assert (col' = col) by congruence. assert (card' = card) by congruence. subst col' card'.
  pose proof (reachable_ok _ _ _ _ _ (due_reachable _ _ _ _ _ _ _ _ HU)) as Hds'.
  rewrite (unsampled _ _ _ _ Hds' Hfr) in Eg.
  assert (nact f32ops cfg d = nactive_examples s') as Ena by (unfold nactive_examples; rewrite (dv_nact _ _ _ _ (ds_inv _ _ _ _ Hds')); reflexivity). rewrite Ena in Eg.
  destruct (hicard_groups_ok _ _ _ _ _ _ _ _ _ _ _ Eg) as [_ Hlen].
  unfold hicard_groups in Eg. apply rbind_ok in Eg as (st & Est & Eg). apply rbind_ok in Eg as (b0 & Eb0 & Eg). apply rbind_ok in Eg as (b & Eb & Eg). apply rbind_ok in Eg as (ranks & Er & Eg).
  apply rbind_ok in Eg as (qb & Eqb & Eg). apply ok_inj in Eg as [Esw Etab].
  apply (stats_all _ _ _ _ _ _ Hn HL) in Est. rewrite Est in Eb, Etab. rewrite mean_items_eq in Eb.
  assert (sumN (map snd (category_items col grad (seq 0 (d_nexamples d)) card)) < 2 ^ 32)%N as Hsum.
  { rewrite sum_items. eapply N.le_lt_trans; [apply sum_own|]. rewrite seq_length.
    assert (N.of_nat (d_nexamples d) < N.of_nat (2 ^ 32))%N as Hb by lia. rewrite Nat2N.inj_pow in Hb. exact Hb. }
  pose proof (binner_new_eq _ _ _ _ _ _ Eb0) as B0.
  destruct (counts_ok b0 (category_items col grad (seq 0 (d_nexamples d)) card)) as (b' & Eb' & M1 & M2 & M3 & M4).
  { rewrite B0. discriminate. }
  { rewrite B0. cbn [bn_bins]. apply Forall_forall. intros x Hx. apply repeat_spec in Hx. exact Hx. }
  { exact Hsum. }
  assert (forall A (x y : A), Ok x = Ok y -> x = y) as OkI by (clear; intros A p q Hpq; congruence).
  rewrite Eb in Eb'. apply OkI in Eb'. subst b'.
  assert (length (bn_bins b0) = QUANTILE_EST_NBINS) as L0 by (rewrite B0; apply repeat_length).
  exists b, sw, table.
  assert (equal_bins b QUANTILE_EST_NBINS (fst bounds) (snd bounds)) as HE.
  { split; [congruence|]. rewrite M1, M2, B0. cbn [bn_min bn_delta]. rewrite repeat_length. auto. }
  split; [exact HE|]. split.
  { intros i Hi. rewrite M4 by lia. f_equal. rewrite sumN_fold, N.add_0_l. f_equal. f_equal. apply filter_ext. intros it. rewrite (get_bin_same f32ops N b b0); [reflexivity|congruence..]. }
  split.
  - assert (ranks = map (fun i => Z.to_N (f_to_u32 (f_round (part (f_of_nat (nactive_examples s')) (c_max_nbins cfg) i)) - 1)) (seq 1 (c_max_nbins cfg))) as ->.
    { apply mapM_ok in Er. pose proof (laws_f32 (c_max_nbins cfg) (nactive_examples s') Hm Hk) as HLW. pose proof (nl_rank _ _ _ HLW (nactive_examples s')) as HR.
      assert (forall i, In i (seq 1 (c_max_nbins cfg)) -> 1 <= i <= c_max_nbins cfg) as Hi by (intros i H; apply in_seq in H; lia). clear - Er HR Hi Hmk OkI.
      induction Er as [|i r l rs H Er IH]; [reflexivity|]. cbn [map]. rewrite IH by (intros j Hj; apply Hi; right; exact Hj). f_equal.
      specialize (HR i (Hi i (or_introl eq_refl)) (le_n _) Hmk). unfold hicard_rank, u32_pred in H.
      change (nmul f32ops (nofnat f32ops i) (ndiv f32ops (nofnat f32ops (nactive_examples s')) (nofnat f32ops (c_max_nbins cfg + 1)))) with (part (f_of_nat (nactive_examples s')) (c_max_nbins cfg) i) in *.
      change (ntoZ f32ops 0 4294967295 (nround f32ops (part (f_of_nat (nactive_examples s')) (c_max_nbins cfg) i))) with (f_to_u32 (f_round (part (f_of_nat (nactive_examples s')) (c_max_nbins cfg) i))) in *.
      set (z := f_to_u32 _) in *. destruct (N.eqb_spec (Z.to_N z) 0) as [E|E]; [lia|]. apply OkI in H. subst r. lia. }
    subst sw. apply edges_ok; [|reflexivity|eapply (filled_ne _ _ b QUANTILE_EST_NBINS); [unfold QUANTILE_EST_NBINS; lia|exact HE]| |exact Eqb].
    + intros x y z H1 H2. apply N.leb_le in H1, H2. apply N.leb_le. lia.
    + constructor; [|destruct (c_max_nbins cfg); constructor; apply N.leb_le; lia].
      apply seq_sorted. intros i Hi Hl. apply N.leb_le.
      destruct (f_of_Z_exact (Z.of_nat (c_max_nbins cfg + 1))) as [Fm Bm]; [lia|]. destruct (f_of_Z_exact (Z.of_nat (nactive_examples s'))) as [Fk Bk]; [lia|].
      destruct (f_div_nn (f_of_nat (nactive_examples s')) (f_of_nat (c_max_nbins cfg + 1))) as [Ns Ks]; [unfold f_of_nat; destruct (f_of_Z (Z.of_nat (nactive_examples s'))); try discriminate Fk; reflexivity|unfold f_of_nat; rewrite (key_finite _ Fk), Bk; apply (IZR_le 0); lia|exact Fm|unfold f_of_nat; rewrite Bm; apply (IZR_lt 0); lia|].
      destruct (mult_mono _ i (S i) Ns Ks) as [H1 H2]; [lia|lia|]. pose proof (round_mono _ _ H1 H2) as HH.
      change (f_to_u32 (f_round (part (f_of_nat (nactive_examples s')) (c_max_nbins cfg) i)) <= f_to_u32 (f_round (part (f_of_nat (nactive_examples s')) (c_max_nbins cfg) (S i))))%Z in HH. lia.
  - split; [exact Et|]. split; [exact Enb|]. split; [exact Hlen|]. intros c k Ek. rewrite Etab in Ek. rewrite !nth_error_map, nth_error_seq in Ek.
    destruct (c <? card); [|discriminate]. cbn [option_map plus] in Ek. injection Ek as <-. change (in_group sw (category_weight (own_gradients col grad (seq 0 (d_nexamples d)) c)) (leading_below (nlt f32ops) (map (fun bin => bin_representative b (bin + 1)) (dedup_bins None qb)) (fst (category_mean (category_stats (own_gradients col grad (seq 0 (d_nexamples d)) c)))))). rewrite <- Esw, mean_weight. apply leading_group.
Qed.
Print Assumptions C53_hicard.

(** A run that meets the hypotheses: four examples, no example sampling, the first update. *)
Lemma due_ex dbg fr (P : dataset f32ops -> dataset f32ops -> Prop) :
  match (let* s0 := dataset_new (ex_cfg fr) ex_data ex_rng in let* s1 := dataset_update dbg (ex_cfg fr) s0 ex_grad (fz (-2), fz 2) in Ok (s0, s1)) with Ok (s, s') => ds_update_count s = 0 /\ P s s' | _ => False end ->
  exists s s', due_update dbg (ex_cfg fr) ex_data s ex_grad (fz (-2), fz 2) s' /\ P s s'.
Proof.
  destruct (dataset_new (ex_cfg fr) ex_data ex_rng) as [s0| | |] eqn:E0; cbn [rbind]; try intros [].
  destruct (dataset_update dbg (ex_cfg fr) s0 ex_grad (fz (-2), fz 2)) as [s1| | |] eqn:E1; cbn [rbind]; try intros [].
  exists s0, s1. split; [|assumption]. split; [exists ex_rng, [], s0; auto|]. split; [|exact E1]. rewrite H. split; [cbn; lia|left; reflexivity].
Qed.
Example C53_ex : exists s s', due_update true (ex_cfg (fz 1)) ex_data s ex_grad (fz (-2), fz 2) s' /\
  (nlt f32ops (fz 1) (nofZ f32ops 1) = false /\ d_nexamples ex_data <= length ex_grad /\ c_max_nbins (ex_cfg (fz 1)) = 3 /\ nactive_examples s' = 4 /\
   active_features s' = Ok [0; 1; 2; 3] /\ feat_type_of ex_data 1 = Ok Numerical /\ feat_type_of ex_data 2 = Ok HiCardCat /\ mask_examples ex_data s' = Ok [0; 1; 2; 3] /\
   get_nbins s' 1 = Ok 3 /\ get_nbins s' 2 = Ok 3 /\ nth_error (get_supercats s') 2 = Some [2; 2; 3; 0; 1]).
Proof. apply (due_ex true (fz 1)). vm_compute. repeat split; lia. Qed.
