From Coq Require Import Permutation Sorting.Sorted.
From Verif Require Import Base BaseProofs BitModel BitSpec BitProofs BitProofs2 SimdModel SliceProofs2 Num DataModel BinnerModel BinnerProofs Config
  DatasetModel DatasetSpec DatasetProofs DatasetProofs2.

Section Inv.
Variable O : numops.
Variable cfg : config O.
Variable d : data O.

Definition nact : nat := scaled_count (d_nexamples d) (c_example_fraction cfg).
Definition bvL : nat := blocks_required_for nact.
Definition locard (f : nat) : Prop := feat_type_of d f = Ok LoCardCat.

(** Static part of the invariant. *)
Record dinv (s : inner O) : Prop := mk_dinv {
  dv_data : in_data s = d;
  dv_nact : in_nactive_examples s = nact;
  dv_nodup : NoDup (in_useful s);
  dv_useful : forall f, In f (in_useful s) <-> useful_feature d f;
  dv_nfeat : in_nactive_features s = scaled_count (length (in_useful s)) (c_feature_fraction cfg);
  dv_lbv : length (in_bitvecs s) = d_nfeatures d;
  dv_lused : length (in_used_nbins s) = d_nfeatures d;
  dv_lsc : length (in_split_candidates s) = d_nfeatures d;
  dv_scats : length (in_supercats s) = d_nfeatures d \/
             (in_supercats s = [] /\ forall f, In f (in_useful s) -> locard f \/ nth_error (in_used_nbins s) f = Some 0);
  dv_bvs : forall f bvs, In f (in_useful s) -> nth_error (in_bitvecs s) f = Some bvs -> bvs_wf bvL bvs /\ max_nbins d f = Ok (length bvs);
  dv_used : forall f nb bvs, In f (in_useful s) -> nth_error (in_used_nbins s) f = Some nb -> nth_error (in_bitvecs s) f = Some bvs -> nb <= length bvs;
  dv_locard : in_has_non_locard s = false -> forall f, In f (in_useful s) -> locard f;
  dv_lowused : forall f nb, In f (in_useful s) -> locard f -> nth_error (in_used_nbins s) f = Some nb -> nb = 0 \/ max_nbins d f = Ok nb;
  dv_hicard : forall f nb, In f (in_useful s) -> ~ locard f -> nth_error (in_used_nbins s) f = Some nb -> nb <= c_max_nbins cfg
}.

Definition same_feature (s s' : inner O) (f : nat) : Prop :=
  nth_error (in_bitvecs s') f = nth_error (in_bitvecs s) f /\ nth_error (in_used_nbins s') f = nth_error (in_used_nbins s) f /\
  nth_error (in_supercats s') f = nth_error (in_supercats s) f /\ nth_error (in_split_candidates s') f = nth_error (in_split_candidates s) f.
Definition same_static (s s' : inner O) : Prop :=
  in_rng s' = in_rng s /\ in_data s' = in_data s /\ in_useful s' = in_useful s /\ in_nactive_features s' = in_nactive_features s /\
  in_nactive_examples s' = in_nactive_examples s /\ in_has_non_locard s' = in_has_non_locard s /\ length (in_supercats s') = length (in_supercats s).

(** The masks of the bins in use of feature [f] describe the examples [ex] (in this order). *)
Definition feature_ok (s : inner O) (ex : list nat) (f : nat) : Prop :=
  forall nb b, nth_error (in_used_nbins s) f = Some nb -> b < nb ->
  exists bvs x, nth_error (in_bitvecs s) f = Some bvs /\ nth_error bvs b = Some x /\
    forall i, match nth_error ex i with Some j => in_bin (mk_ds s [] 0) f b j (bbit x i) | None => bbit x i = false end.

(** The split candidates of a numerical feature are upper edges of strictly increasing bins. *)
Definition cands_ok (f : nat) (cands : list (num O)) : Prop :=
  exists lo hi bn qs, feat_limits d f = Ok (lo, hi) /\ binner_new (repeat 0 QUANTILE_EST_NBINS) lo hi = Ok bn /\
    cands = map (fun q => bin_representative bn (q + 1)) qs /\ StronglySorted lt qs /\ Forall (fun q => q < QUANTILE_EST_NBINS) qs.
(** ... and the feature has bins; a table of super-categories has one entry per category. *)
Definition feature_full (s : inner O) (ex : list nat) (f : nat) : Prop :=
  feature_ok s ex f /\ (exists nb, nth_error (in_used_nbins s) f = Some nb /\ 0 < nb) /\
  (feat_type_of d f = Ok HiCardCat -> exists table, nth_error (in_supercats s) f = Some table /\ feat_card d f = Ok (length table)) /\
  (feat_type_of d f = Ok Numerical -> exists cands, nth_error (in_split_candidates s) f = Some cands /\ cands_ok f cands /\ nth_error (in_used_nbins s) f = Some (length cands)).

Lemma same_feature_refl s f : same_feature s s f. Proof. repeat split. Qed.
Lemma same_feature_trans s1 s2 s3 f : same_feature s1 s2 f -> same_feature s2 s3 f -> same_feature s1 s3 f.
Proof. intros (A & B & C & D) (A' & B' & C' & D'). repeat split; congruence. Qed.
Lemma same_static_refl s : same_static s s. Proof. repeat split. Qed.
Lemma same_static_trans s1 s2 s3 : same_static s1 s2 -> same_static s2 s3 -> same_static s1 s3.
Proof. intros (A1 & A2 & A3 & A4 & A5 & A6 & A7) (B1 & B2 & B3 & B4 & B5 & B6 & B7). repeat split; congruence. Qed.

Lemma feature_ok_same s s' ex f : in_data s' = in_data s -> same_feature s s' f -> feature_ok s ex f -> feature_ok s' ex f.
Proof.
  intros Hd (A & B & C & D) H nb b E Hb. rewrite B in E. destruct (H nb b E Hb) as (bvs & x & E1 & E2 & E3). exists bvs, x.
  rewrite A. split; [exact E1|]. split; [exact E2|]. intros i. specialize (E3 i). destruct (nth_error ex i) as [j|]; [|exact E3].
  unfold in_bin, get_supercats in *. cbn [ds_inner in_data in_supercats in_split_candidates] in *. rewrite Hd, C, D. exact E3.
Qed.

Lemma feature_full_same s s' ex f : in_data s' = in_data s -> same_feature s s' f -> feature_full s ex f -> feature_full s' ex f.
Proof.
  intros Hd Hs (A & B & C). split; [eapply feature_ok_same; eassumption|]. destruct Hs as (_ & E & F & G). rewrite E, F, G. auto.
Qed.

(** What an update of feature [f] does. *)
Definition updated (s s' : inner O) (ex : list nat) (f : nat) : Prop :=
  dinv s' /\ same_static s s' /\ feature_full s' ex f /\ forall f', f' <> f -> same_feature s s' f'.

Lemma upd_same A (l : list A) i x : i < length l -> nth_error (upd l i x) i = Some x.
Proof. intros H. rewrite nth_error_upd, Nat.eqb_refl. replace (i <? length l) with true by lia. reflexivity. Qed.
Lemma upd_other A (l : list A) i j x : j <> i -> nth_error (upd l i x) j = nth_error l j.
Proof. intros H. rewrite nth_error_upd. replace (i =? j) with false by lia. reflexivity. Qed.

Lemma useful_lt s f : dinv s -> In f (in_useful s) -> f < d_nfeatures d.
Proof. intros H Hf. apply (dv_useful s H) in Hf as (Hl & _). exact Hl. Qed.

Lemma not_locard f ft : feat_type_of d f = Ok ft -> ft <> LoCardCat -> ~ locard f.
Proof. unfold locard. intros E H. congruence. Qed.

(** Common part: the components of [f] are replaced. *)
Lemma updated_intro s f bvs bvs' nb scs' cands' ex ft : dinv s -> In f (in_useful s) ->
  feat_type_of d f = Ok ft ->
  nth_error (in_bitvecs s) f = Some bvs -> bvs_wf bvL bvs' -> length bvs' = length bvs -> nb <= length bvs -> 0 < nb ->
  (ft = HiCardCat -> exists table, nth_error scs' f = Some table /\ feat_card d f = Ok (length table)) ->
  (ft = Numerical -> exists cands, nth_error cands' f = Some cands /\ cands_ok f cands /\ nb = length cands) ->
  (ft = LoCardCat -> max_nbins d f = Ok nb) -> (ft <> LoCardCat -> nb <= c_max_nbins cfg) ->
  (scs' = in_supercats s \/ exists t, f < length (in_supercats s) /\ scs' = upd (in_supercats s) f t) ->
  (ft <> LoCardCat -> ft <> HiCardCat -> in_supercats s <> [] \/ nb = 0) ->
  (cands' = in_split_candidates s \/ exists t, cands' = upd (in_split_candidates s) f t) ->
  let s' := mk_inner (in_rng s) (in_data s) (in_useful s) (in_nactive_features s) (in_nactive_examples s)
              (upd (in_bitvecs s) f bvs') scs' cands' (upd (in_used_nbins s) f nb) (in_has_non_locard s) in
  feature_ok s' ex f -> (ft = HiCardCat -> scs' <> in_supercats s \/ in_supercats s <> []) -> updated s s' ex f.
Proof.
  intros Hinv Hf Hft Hb HW HL Hnb Hnb0 Htab Hnum Hlow Hhi Hscs Hscn Hcands s' Hok Hhc. pose proof (useful_lt s f Hinv Hf) as Hlt.
  assert (length scs' = length (in_supercats s)) as HLs by (destruct Hscs as [->|(t & _ & ->)]; rewrite ?upd_length; reflexivity).
  split; [|split; [|split; [split; [exact Hok|split; [|split]]|]]].
  3:{ exists nb. split; [|exact Hnb0]. apply upd_same. rewrite (dv_lused s Hinv). exact Hlt. }
  3:{ intros Eh. apply Htab. congruence. }
  3:{ intros Eh. destruct Hnum as (cands & E1 & E2 & ->); [congruence|]. exists cands. split; [exact E1|]. split; [exact E2|]. apply upd_same. rewrite (dv_lused s Hinv). exact Hlt. }
  - destruct Hinv. constructor; unfold s'; cbn [in_data in_nactive_examples in_useful in_nactive_features in_bitvecs in_used_nbins in_split_candidates in_supercats in_has_non_locard]; try assumption.
    + rewrite upd_length. assumption.
    + rewrite upd_length. assumption.
    + destruct Hcands as [->|(t & ->)]; rewrite ?upd_length; assumption.
    + rewrite HLs. destruct dv_scats0 as [HS|[HS HS']]; [left; exact HS|]. right. split; [destruct scs'; [reflexivity|rewrite HS in HLs; discriminate]|].
      intros f' Hf'. destruct (Nat.eq_dec f' f) as [->|Hne].
      * destruct ft.
        -- left. exact Hft.
        -- exfalso. destruct (Hhc eq_refl) as [Hc|Hc]; [|contradiction]. destruct Hscs as [->|(t & Ht & ->)]; [congruence|]. rewrite HS in Ht. cbn in Ht. lia.
        -- destruct Hscn as [Hc| ->]; try discriminate; [contradiction|]. right. apply upd_same. lia.
      * rewrite upd_other by exact Hne. auto.
    + intros f' b' Hf' E. destruct (Nat.eq_dec f' f) as [->|Hne].
      * rewrite upd_same in E by lia. injection E as <-. split; [exact HW|]. rewrite HL. apply (dv_bvs0 f bvs Hf Hb).
      * rewrite upd_other in E by exact Hne. eauto.
    + intros f' n' b' Hf' E1 E2. destruct (Nat.eq_dec f' f) as [->|Hne].
      * rewrite upd_same in E1, E2 by lia. injection E1 as <-. injection E2 as <-. lia.
      * rewrite upd_other in E1, E2 by exact Hne. eauto.
    + intros f' n' Hf' Hl E. destruct (Nat.eq_dec f' f) as [->|Hne].
      * rewrite upd_same in E by lia. injection E as <-. right. apply Hlow. unfold locard in Hl. congruence.
      * rewrite upd_other in E by exact Hne. eauto.
    + intros f' n' Hf' Hl E. destruct (Nat.eq_dec f' f) as [->|Hne].
      * rewrite upd_same in E by lia. injection E as <-. apply Hhi. intros ->. contradiction.
      * rewrite upd_other in E by exact Hne. eauto.
  - unfold s'. repeat split; cbn; congruence.
  - intros f' Hne. unfold s', same_feature. cbn [in_bitvecs in_used_nbins in_supercats in_split_candidates]. rewrite !upd_other by exact Hne.
    split; [reflexivity|]. split; [reflexivity|]. split.
    + destruct Hscs as [->|(t & _ & ->)]; rewrite ?upd_other by exact Hne; reflexivity.
    + destruct Hcands as [->|(t & ->)]; rewrite ?upd_other by exact Hne; reflexivity.
Qed.

Lemma set_bitvecs_ok (s : inner O) f bvs new l : nth_error (in_bitvecs s) f = Some bvs -> set_bitvecs s f new = Ok l -> l = upd (in_bitvecs s) f (new ++ skipn (length new) bvs).
Proof.
  intros E H. unfold set_bitvecs in H. rewrite (proj2 (idx_ok _ _ _ _) E) in H. cbn [rbind] in H. apply set_idx_ok in H as [_ ->]. reflexivity.
Qed.

Lemma update_locard_ok s f ex s' : dinv s -> In f (in_useful s) -> locard f -> update_locard_cat s f ex = Ok s' -> updated s s' ex f.
Proof.
  intros Hinv Hf Hft H. pose proof (dv_data s Hinv) as Hd. pose proof (useful_lt s f Hinv Hf) as Hlt. unfold update_locard_cat in H.
  apply rbind_ok in H as (feat & Efeat & H). apply rbind_ok in H as (nb & Enb & H). apply rbind_ok in H as (used & Eused & H).
  apply rbind_ok in H as (bvs & Ebvs & H). apply rbind_ok in H as (bvs' & Efill & H). apply rbind_ok in H as (bitvecs & Ebits & H).
  injection H as <-. rewrite Hd in Efeat, Enb. apply idx_ok in Ebvs. apply set_idx_ok in Eused as [_ ->]. rewrite (set_bitvecs_ok _ _ _ _ _ Ebvs Ebits).
  destruct (dv_bvs s Hinv f bvs Hf Ebvs) as [HW Hm]. rewrite Enb in Hm. injection Hm as ->.
  destruct (fill_zero_ok _ _ _ _ _ HW Efill) as (A & B & C & D). rewrite B, skipn_all, app_nil_r.
  assert (0 < length bvs) as Hpos. { apply (dv_useful s Hinv) in Hf as (_ & (n & E & Hn) & _). rewrite Enb in E. injection E as <-. exact Hn. }
  eapply updated_intro with (ft := LoCardCat); try eassumption; try (intros; congruence); try lia.
  - left. reflexivity.
  - left. reflexivity.
  - intros nb' b E Hb. cbn [in_used_nbins in_bitvecs] in *. rewrite upd_same in E by (rewrite (dv_lused s Hinv); exact Hlt). injection E as <-.
    exists bvs'. destruct (nth_error bvs' b) as [x|] eqn:Ex; [|apply nth_error_None in Ex; exfalso; unfold blocks in *; lia]. exists x.
    split; [apply upd_same; rewrite (dv_lbv s Hinv); exact Hlt|]. split; [reflexivity|]. intros i. rewrite (D b x i Ex).
    destruct (nth_error ex i) as [j|] eqn:Ej; [|reflexivity]. destruct (C j (nth_error_In _ _ Ej)) as [c Ec]. unfold has_cat. rewrite Ec.
    unfold in_bin. cbn [ds_inner in_data]. rewrite Hd. unfold cat_at in Ec. apply rbind_ok in Ec as (v & Ev & Ec). injection Ec as <-.
    apply idx_ok in Ev. exists feat, v, LoCardCat. auto.
Qed.

Lemma dedup_length bins : forall last, length (dedup_bins last bins) <= length bins.
Proof.
  induction bins as [|b t IH]; intros last; cbn [dedup_bins length]; [lia|]. specialize (IH last) as H1. specialize (IH (Some b)) as H2.
  destruct last as [l|]; [destruct (b =? l)|]; cbn [length]; lia.
Qed.
Lemma ranks_of_length B R rle radd (w : B -> R) bins : forall ranks st is, ranks_of rle radd w bins ranks st = Ok is -> length is = length ranks.
Proof.
  induction ranks as [|r t IH]; intros st is H; cbn [ranks_of] in H; [injection H as <-; reflexivity|].
  apply rbind_ok in H as ((i & st') & _ & H). apply rbind_ok in H as (l & E & H). injection H as <-. cbn [length]. f_equal. eapply IH, E.
Qed.
Lemma mapM_length A B (f : A -> res B) l ys : mapM f l = Ok ys -> length ys = length l.
Proof. intros H. apply mapM_ok in H. induction H; cbn [length]; congruence. Qed.

Lemma rank_loop_idx B R rle radd (w : B -> R) r : forall rest st st' rest', rank_loop rle radd w rest r st = (st', rest') ->
  ri_idx st <= ri_idx st' /\ ri_idx st' + length rest' = ri_idx st + length rest.
Proof.
  induction rest as [|x t IH]; intros st st' rest' H; cbn [rank_loop] in H; [injection H as <- <-; lia|].
  destruct (rle (ri_accum st) r); [|injection H as <- <-; lia]. apply IH in H. cbn [ri_idx length] in *. lia.
Qed.
Lemma ranks_of_mono B R rle radd (w : B -> R) bins : forall ranks st is, ri_idx st <= length bins -> ranks_of rle radd w bins ranks st = Ok is ->
  StronglySorted le is /\ Forall (fun i => ri_idx st <= S i /\ i < length bins) is.
Proof.
  induction ranks as [|r t IH]; intros st is Hst H; cbn [ranks_of] in H; [injection H as <-; split; constructor|].
  apply rbind_ok in H as ((i & st') & En & H). apply rbind_ok in H as (l & E & H). injection H as <-. unfold rank_next in En.
  destruct (rank_loop rle radd w (skipn (ri_idx st) bins) r st) as [st1 rest1] eqn:El. apply rank_loop_idx in El as [H1 H2]. rewrite skipn_length in H2.
  destruct (ri_idx st1) as [|k] eqn:Ek; [discriminate|]. injection En as <- <-. apply IH in E as [S1 F1]; [|lia]. rewrite Ek in F1.
  split; constructor; try assumption; try lia.
  - eapply Forall_impl; [|exact F1]. cbn. intros; lia.
  - eapply Forall_impl; [|exact F1]. cbn. intros; lia.
Qed.
Lemma dedup_sorted bins : forall last, StronglySorted le bins -> Forall (fun b => match last with Some l => l <= b | None => True end) bins ->
  StronglySorted lt (dedup_bins last bins) /\ Forall (fun b => match last with Some l => l < b | None => True end) (dedup_bins last bins) /\ incl (dedup_bins last bins) bins.
Proof.
  induction bins as [|b t IH]; intros last HS HF; cbn [dedup_bins]; [split; [constructor|split; [constructor|intros x []]]|].
  inversion HS as [|? ? HS' Hb]; subst. inversion HF as [|? ? Hl HF']; subst.
  destruct (match last with Some l => b =? l | None => false end) eqn:E.
  - destruct (IH last HS' HF') as (A & B & C). split; [exact A|]. split; [exact B|]. intros x Hx. right. apply C, Hx.
  - destruct (IH (Some b) HS' Hb) as (A & B & C). split; [constructor; assumption|]. split.
    + constructor.
      * destruct last as [l|]; [|exact I]. apply Nat.eqb_neq in E. lia.
      * eapply Forall_impl; [|exact B]. cbn. intros a Ha. destruct last as [l|]; [lia|exact I].
    + intros x [->|Hx]; [left; reflexivity|right; apply C, Hx].
Qed.

Lemma stats_length feat grad ex : forall i st st', hicard_stats (O := O) feat grad ex i st = Ok st' -> length st' = length st.
Proof.
  induction ex as [|j t IH]; intros i st st' H; cbn [hicard_stats] in H; [congruence|].
  apply rbind_ok in H as (c & _ & H). apply rbind_ok in H as (e & _ & H). apply rbind_ok in H as (g & _ & H). apply rbind_ok in H as (st1 & E & H).
  apply set_idx_ok in E as [_ ->]. apply IH in H. rewrite upd_length in H. exact H.
Qed.
Lemma hicard_groups_ok dbg feat grad card na bounds ex sw scs : hicard_groups dbg cfg feat grad card na bounds ex = Ok (sw, scs) ->
  length sw <= c_max_nbins cfg /\ length scs = card.
Proof.
  intros H. unfold hicard_groups in H. apply rbind_ok in H as (st & Est & H). apply rbind_ok in H as (b0 & _ & H). apply rbind_ok in H as (b & _ & H).
  apply rbind_ok in H as (ranks & Er & H). apply rbind_ok in H as (qb & Eq & H). injection H as <- <-. rewrite !map_length.
  split.
  - apply ranks_of_length in Eq. apply mapM_length in Er. rewrite seq_length in Er. pose proof (dedup_length qb None). lia.
  - apply stats_length in Est. rewrite repeat_length in Est. exact Est.
Qed.

Lemma subslice_first A (l : list A) k r : subslice l 0 k = Ok r -> k <= length l /\ r = firstn k l.
Proof. intros H. apply subslice_ok in H as (_ & Hk & ->). split; [exact Hk|]. unfold sub. rewrite Nat.sub_0_r. reflexivity. Qed.
Lemma Forall_firstn A (P : A -> Prop) k l : Forall P l -> Forall P (firstn k l).
Proof. intros H. apply Forall_forall. intros x Hx. rewrite Forall_forall in H. apply H. apply In_nth_error in Hx as [n E]. rewrite nth_error_firstn in E.
  destruct (n <? k); [|discriminate]. eapply nth_error_In, E. Qed.
Lemma Forall_skipn A (P : A -> Prop) k l : Forall P l -> Forall P (skipn k l).
Proof. intros H. apply Forall_forall. intros x Hx. rewrite Forall_forall in H. apply H. apply In_nth_error in Hx as [n E]. rewrite nth_error_skipn in E. eapply nth_error_In, E. Qed.

Lemma update_hicard_ok dbg s f ex grad bounds s' : dinv s -> In f (in_useful s) -> feat_type_of d f = Ok HiCardCat ->
  update_hicard_cat dbg cfg s f ex grad bounds = Ok s' -> updated s s' ex f.
Proof.
  intros Hinv Hf Hft H. pose proof (dv_data s Hinv) as Hd. pose proof (useful_lt s f Hinv Hf) as Hlt. unfold update_hicard_cat in H.
  apply rbind_ok in H as (feat & Efeat & H). apply rbind_ok in H as (card & Ecard & H). apply rbind_ok in H as ((sw & scs) & Eg & H).
  apply rbind_ok in H as (bvs & Ebvs & H). apply rbind_ok in H as (bvs0 & Esub & H). apply rbind_ok in H as (bvs1 & Efill & H).
  apply rbind_ok in H as (bvs2 & Eacc & H). apply rbind_ok in H as (bitvecs & Ebits & H). apply rbind_ok in H as (used & Eused & H).
  apply rbind_ok in H as (scs' & Escs & H). injection H as <-. rewrite Hd in Efeat, Ecard.
  apply idx_ok in Ebvs. apply set_idx_ok in Eused as [_ ->]. apply set_idx_ok in Escs as [Hsl ->]. rewrite (set_bitvecs_ok _ _ _ _ _ Ebvs Ebits).
  destruct (dv_bvs s Hinv f bvs Hf Ebvs) as [HW Hm]. apply subslice_first in Esub as [Hle ->].
  destruct (fill_acc_ok _ bvL _ _ _ _ (Forall_firstn _ _ _ _ HW) Efill Eacc) as (A & B & C & D). rewrite firstn_length, Nat.min_l in B by exact Hle.
  destruct (hicard_groups_ok _ _ _ _ _ _ _ _ _ Eg) as [Hsw Hsc].
  assert (0 < length sw) as Hpos. { rewrite <- B. destruct bvs1 as [|b0 [|b1 t]]; [discriminate Eacc| |]; injection Eacc as <-; cbn; lia. }
  eapply updated_intro with (ft := HiCardCat); try eassumption; try (intros; congruence); try (intros; lia).
  - apply Forall_app. split; [exact A|]. apply Forall_skipn, HW.
  - rewrite app_length, skipn_length. lia.
  - intros _. exists scs. rewrite Hsc. split; [apply upd_same, Hsl|exact Ecard].
  - right. exists scs. auto.
  - left. reflexivity.
  - intros nb' b E Hb. cbn [in_used_nbins in_bitvecs] in *. rewrite upd_same in E by (rewrite (dv_lused s Hinv); exact Hlt). injection E as <-.
    exists (bvs2 ++ skipn (length bvs2) bvs). destruct (nth_error bvs2 b) as [x|] eqn:Ex; [|apply nth_error_None in Ex; exfalso; unfold blocks in *; lia]. exists x.
    split; [apply upd_same; rewrite (dv_lbv s Hinv); exact Hlt|]. split; [rewrite nth_error_app1 by lia; exact Ex|]. intros i. rewrite (D b x i Ex).
    destruct (nth_error ex i) as [j|] eqn:Ej; [|reflexivity]. destruct (C j (nth_error_In _ _ Ej)) as [c Ec]. rewrite Ec.
    unfold in_bin, get_supercats. cbn [ds_inner in_data in_supercats]. rewrite Hd. apply rbind_ok in Ec as (cat & Ecat & Ec). unfold cat_at in Ecat.
    apply rbind_ok in Ecat as (v & Ev & Ecat). injection Ecat as <-. apply idx_ok in Ev, Ec. exists feat, v, HiCardCat.
    split; [exact Efeat|]. split; [exact Ev|]. split; [exact Hft|]. exists scs, c. split; [apply upd_same, Hsl|]. auto.
  - intros _. right. intros E0. rewrite E0 in Hsl. cbn in Hsl. lia.
Qed.

Lemma binner_new_bins B (bins : list B) (lo hi : num O) b : binner_new bins lo hi = Ok b -> bn_bins b = bins.
Proof.
  unfold binner_new. intros H. do 4 (apply rbind_ok in H as (? & _ & H)). injection H as <-. reflexivity.
Qed.
Lemma ok_inj A B (x a : A) (y b : B) : Ok (x, y) = Ok (a, b) -> a = x /\ b = y.
Proof. intros H. injection H as <- <-. auto. Qed.
Lemma num_candidates_ok feat grad lim ex cands b : num_candidates cfg feat grad lim ex = Ok (cands, b) ->
  length cands <= c_max_nbins cfg /\ 0 < length cands /\
  (exists b2 qs, binner_new (repeat 0 QUANTILE_EST_NBINS) (fst lim) (snd lim) = Ok b2 /\ cands = map (fun q => bin_representative b2 (q + 1)) qs /\
    StronglySorted lt qs /\ Forall (fun q => q < QUANTILE_EST_NBINS) qs) /\
  exists b2, binner_new (repeat 0 QUANTILE_EST_NBINS) (fst lim) (snd lim) = Ok b2 /\
    forall v, exists c, idx (bn_bins b) (get_bin b v) = Ok c /\ c = leading_below (nlt O) cands (bin_representative b2 (get_bin b2 v + 1)).
Proof.
  intros H. unfold num_candidates in H. apply rbind_ok in H as (b0 & Eb0 & H). apply rbind_ok in H as (items & _ & H). apply rbind_ok in H as (b1 & Eb1 & H).
  apply rbind_ok in H as (qb & Eqb & H). apply rbind_ok in H as (u1 & E1 & H). apply rbind_ok in H as (u2 & E2 & H). apply rbind_ok in H as (b2 & Eb2 & H).
  apply rassert_ok in E1, E2. apply ok_inj in H as [-> ->]. split; [lia|]. split; [lia|]. split.
  { exists b2, (dedup_bins None qb). split; [exact Eb2|]. destruct (insert_all_ok _ _ (map (fun it => (fst it, fun x => nadd O x (snd it))) items) b0) as (b' & Eb' & M1 & M2 & M3 & _).
    { rewrite (binner_new_bins _ _ _ _ _ Eb0). discriminate. }
    rewrite Eb1 in Eb'. injection Eb' as <-. assert (length (bn_bins b0) = QUANTILE_EST_NBINS) as L0 by (rewrite (binner_new_bins _ _ _ _ _ Eb0); apply repeat_length).
    assert (bn_min b2 = bn_min b0 /\ bn_delta b2 = bn_delta b0 /\ length (bn_bins b2) = length (bn_bins b0)) as (Q1 & Q2 & Q3).
    { split; [|split].
      - unfold binner_new in Eb0, Eb2. do 4 (apply rbind_ok in Eb0 as (? & _ & Eb0); apply rbind_ok in Eb2 as (? & _ & Eb2)).
        assert (forall A (x y : A), Ok x = Ok y -> x = y) as Hoi by (clear; intros A x y Hxy; congruence). apply Hoi in Eb0, Eb2. rewrite <- Eb0, <- Eb2. reflexivity.
      - unfold binner_new in Eb0, Eb2. do 4 (apply rbind_ok in Eb0 as (? & _ & Eb0); apply rbind_ok in Eb2 as (? & _ & Eb2)).
        assert (forall A (x y : A), Ok x = Ok y -> x = y) as Hoi by (clear; intros A x y Hxy; congruence). apply Hoi in Eb0, Eb2. rewrite <- Eb0, <- Eb2. cbn [bn_delta].
        rewrite !repeat_length. reflexivity.
      - rewrite (binner_new_bins _ _ _ _ _ Eb2), (binner_new_bins _ _ _ _ _ Eb0), !repeat_length. reflexivity. }
    split; [apply map_ext; intros q; unfold bin_representative; congruence|].
    unfold rank_iter_all in Eqb. apply ranks_of_mono in Eqb as [SQ FQ]; [|cbn [ri_idx]; lia].
    destruct (dedup_sorted qb None SQ) as (A & _ & C); [apply Forall_forall; intros; exact I|]. split; [exact A|].
    apply Forall_forall. intros q Hq. rewrite Forall_forall in FQ. apply C in Hq. apply FQ in Hq. lia. }
  exists b2. split; [exact Eb2|]. intros v. cbn [bn_bins].
  assert (length (bn_bins b2) = 512) as HL2.
  { rewrite (binner_new_bins _ _ _ _ _ Eb2). apply repeat_length. }
  match goal with |- context [idx ?l _] => set (cats := l) end. assert (length cats = 512) as HLc by (unfold cats; rewrite map_length, seq_length; reflexivity).
  set (bb := mk_binner cats (bn_min b2) (bn_delta b2)).
  assert (get_bin bb v = get_bin b2 v) as Hg by (apply get_bin_same; cbn [bb bn_min bn_delta bn_bins]; congruence).
  rewrite Hg. assert (get_bin b2 v < 512) as Hlt. { rewrite <- HL2. apply get_bin_valid. intros E. rewrite E in HL2. discriminate. }
  eexists. split; [|reflexivity]. apply idx_ok. unfold cats. rewrite nth_error_map, nth_error_seq. unfold QUANTILE_EST_NBINS.
  replace (get_bin b2 v <? 512) with true by lia. reflexivity.
Qed.

Lemma update_num_ok s f ex grad s' : dinv s -> In f (in_useful s) -> feat_type_of d f = Ok Numerical -> in_supercats s <> [] ->
  update_num cfg s f ex grad = Ok s' -> updated s s' ex f.
Proof.
  intros Hinv Hf Hft Hsne H. pose proof (dv_data s Hinv) as Hd. pose proof (useful_lt s f Hinv Hf) as Hlt. unfold update_num in H.
  apply rbind_ok in H as (feat & Efeat & H). apply rbind_ok in H as (lim & Elim & H). apply rbind_ok in H as ((cands & bn) & Eg & H).
  apply rbind_ok in H as (bvs & Ebvs & H). apply rbind_ok in H as (bvs0 & Esub & H). apply rbind_ok in H as (bvs1 & Efill & H).
  apply rbind_ok in H as (bvs2 & Eacc & H). apply rbind_ok in H as (bitvecs & Ebits & H). apply rbind_ok in H as (used & Eused & H).
  apply rbind_ok in H as (scs' & Escs & H). injection H as <-. rewrite Hd in Efeat, Elim.
  apply idx_ok in Ebvs. apply set_idx_ok in Eused as [_ ->]. apply set_idx_ok in Escs as [Hsl ->]. rewrite (set_bitvecs_ok _ _ _ _ _ Ebvs Ebits).
  destruct (dv_bvs s Hinv f bvs Hf Ebvs) as [HW Hm]. apply subslice_first in Esub as [Hle ->].
  destruct (fill_acc_ok _ bvL _ _ _ _ (Forall_firstn _ _ _ _ HW) Efill Eacc) as (A & B & C & D). rewrite firstn_length, Nat.min_l in B by exact Hle.
  destruct (num_candidates_ok _ _ _ _ _ _ Eg) as (Hc1 & Hc2 & (b3 & qs & Eb3 & Ecs & Sqs & Fqs) & b2 & Eb2 & Hb2).
  eapply updated_intro with (ft := Numerical); try eassumption; try (intros; congruence); try (intros; lia).
  - apply Forall_app. split; [exact A|]. apply Forall_skipn, HW.
  - rewrite app_length, skipn_length. lia.
  - intros _. exists cands. split; [apply upd_same, Hsl|]. split; [|reflexivity]. exists (fst lim), (snd lim), b3, qs. rewrite <- surjective_pairing. auto.
  - left. reflexivity.
  - intros _ _. left. exact Hsne.
  - right. exists cands. auto.
  - intros nb' b E Hb. cbn [in_used_nbins in_bitvecs] in *. rewrite upd_same in E by (rewrite (dv_lused s Hinv); exact Hlt). injection E as <-.
    exists (bvs2 ++ skipn (length bvs2) bvs). destruct (nth_error bvs2 b) as [x|] eqn:Ex; [|apply nth_error_None in Ex; exfalso; unfold blocks in *; lia]. exists x.
    split; [apply upd_same; rewrite (dv_lbv s Hinv); exact Hlt|]. split; [rewrite nth_error_app1 by lia; exact Ex|]. intros i. rewrite (D b x i Ex).
    destruct (nth_error ex i) as [j|] eqn:Ej; [|reflexivity]. destruct (C j (nth_error_In _ _ Ej)) as [c Ec]. rewrite Ec.
    unfold in_bin. cbn [ds_inner in_data in_split_candidates]. rewrite Hd. apply rbind_ok in Ec as (v & Ev & Ec).
    apply idx_ok in Ev. destruct (Hb2 v) as (c' & Ec' & ->). rewrite Ec in Ec'. injection Ec' as ->. exists feat, v, Numerical.
    split; [exact Efeat|]. split; [exact Ev|]. split; [exact Hft|]. exists cands, (fst lim), (snd lim), b2. split; [apply upd_same, Hsl|].
    rewrite <- surjective_pairing. auto.
Qed.
End Inv.
