(** The data set: creation and updates succeed on trainable input. *)
From Coq Require Import Permutation Sorting.Sorted.
From Verif Require Import Base BaseProofs BitModel BitSpec BitProofs BitProofs2 SimdModel SliceProofs2 Num DataModel BinnerModel BinnerProofs Config
  DatasetModel DatasetSpec DatasetProofs DatasetProofs2 DatasetProofs3 DatasetProofs4 DatasetProofs5 BoostSpec TotalSpec.

Lemma fill_loop_total get_cat L : forall examples start bvs, bvs_wf L bvs -> (forall j, In j examples -> exists c, get_cat j = Ok c) ->
  start + length examples <= L * 256 -> exists bvs', fill_loop get_cat examples start bvs = Ok bvs'.
Proof.
  induction examples as [|j t IH]; intros start bvs HW Hg Hl; cbn [fill_loop]; [eauto|]. cbn [length] in Hl.
  destruct (Hg j (or_introl eq_refl)) as [c Ec]. rewrite Ec. cbn [rbind].
  destruct (Nat.ltb_spec c (length bvs)) as [Hc|Hc]; [|apply IH; [exact HW|intros k Hk; apply Hg; right; exact Hk|lia]].
  destruct (nth_error bvs c) as [bv|] eqn:Eb; [|apply nth_error_None in Eb; lia]. rewrite (proj2 (idx_ok _ _ _ _) Eb). cbn [rbind].
  assert (wf_blocks bv /\ length bv = L) as [Wb Lb]. { unfold bvs_wf in HW. rewrite Forall_forall in HW. eapply HW, nth_error_In, Eb. }
  rewrite bv_enable_is_set. destruct (bv_set_bit_ok bv start true Wb) as (bv2 & Ee & W2 & L2 & _); [unfold blocks in *; lia|]. rewrite Ee. cbn [rbind].
  rewrite set_idx_lt by exact Hc. cbn [rbind]. apply IH; [|intros k Hk; apply Hg; right; exact Hk|lia].
  apply upd_Forall; [exact HW|]. split; [exact W2|unfold blocks in *; lia].
Qed.
Lemma fill_total get_cat L examples bvs : bvs_wf L bvs -> (forall j, In j examples -> exists c, get_cat j = Ok c) ->
  length examples <= L * 256 -> exists bvs', fill_bitvecs (zero_bitvecs bvs) examples get_cat = Ok bvs' /\ length bvs' = length bvs.
Proof.
  intros HW Hg Hl. destruct (zero_bitvecs_ok L bvs HW) as (W0 & L0 & _). destruct (fill_loop_total get_cat L examples 0 _ W0 Hg Hl) as [b E]. exists b. split; [exact E|].
  destruct (fill_loop_ok _ _ _ _ _ _ W0 E) as (_ & B & _). congruence.
Qed.
Lemma accumulate_total bvs : 0 < length bvs -> exists bvs', accumulate_bitvecs bvs = Ok bvs'.
Proof. destruct bvs; cbn; [lia|eauto]. Qed.

Lemma mapM_exists A B (f : A -> res B) l : (forall x, In x l -> exists y, f x = Ok y) -> exists ys, mapM f l = Ok ys.
Proof.
  induction l as [|x t IH]; intros H; cbn [mapM]; [eauto|]. destruct (H x (or_introl eq_refl)) as [y E]. rewrite E. cbn [rbind].
  destruct IH as [ys Ey]; [intros z Hz; apply H; right; exact Hz|]. rewrite Ey. cbn [rbind]. eauto.
Qed.

Lemma ranks_of_total B R rle radd (w : B -> R) bins : forall ranks st,
  (1 <= ri_idx st \/ bins <> [] /\ ri_idx st = 0 /\ match ranks with r :: _ => rle (ri_accum st) r = true | [] => True end) ->
  exists is, ranks_of rle radd w bins ranks st = Ok is.
Proof.
  induction ranks as [|r t IH]; intros st H; cbn [ranks_of]; [eauto|]. unfold rank_next.
  destruct (rank_loop rle radd w (skipn (ri_idx st) bins) r st) as [st1 rest1] eqn:El.
  assert (1 <= ri_idx st1) as H1.
  { destruct H as [H|(Hne & H0 & Hle)].
    - apply rank_loop_idx in El as [H1 _]. lia.
    - rewrite H0 in El. cbn [skipn] in El. destruct bins as [|x bins]; [congruence|]. cbn [rank_loop] in El. rewrite Hle in El.
      apply rank_loop_idx in El as [H1 _]. cbn [ri_idx] in H1. lia. }
  destruct (ri_idx st1) as [|k] eqn:Ek; [lia|]. cbn [rbind]. destruct (IH st1) as [is Ei]; [left; lia|]. rewrite Ei. cbn [rbind]. eauto.
Qed.

(** The facts about the arithmetic that are needed, for at most [m] bins and [n] examples. *)
Record num_laws (O : numops) (m n : nat) : Prop := mk_laws {
  nl_zero : nle O (nofZ O 0) (nofZ O 0) = true;
  nl_add : forall x y, nle O (nofZ O 0) x = true -> nle O (nofZ O 0) y = true -> nle O (nofZ O 0) (nadd O x y) = true;
  nl_weight : forall g, neq O g g = true -> nle O (nofZ O 0) (nadd O (nabs O g) (EPSILON O)) = true;
  nl_step : forall x, nle O (nofZ O 0) x = true -> nle O (nofZ O 0) (nmul O (nofnat O 1) (ndiv O x (nofnat O (m + 1)))) = true;
  nl_rank : forall k i, 1 <= i <= m -> k <= n -> m + 1 <= 2 * k -> (1 <= ntoZ O 0 4294967295 (nround O (nmul O (nofnat O i) (ndiv O (nofnat O k) (nofnat O (m + 1))))))%Z
}.

Section Total.
Variable O : numops.
Variable cfg : config O.
Variable d : data O.
Hypothesis laws : num_laws O (c_max_nbins cfg) (d_nexamples d).
Hypothesis HT : trainable cfg d.
Notation dinv := (dinv O cfg d). Notation nact := (nact O cfg d). Notation locard := (locard O d).
Notation same_static := (same_static O). Notation dsinv := (dsinv O cfg d). Notation bvL := (bvL O cfg d).

(** The examples an update runs over. *)
Definition good_examples (ex : list nat) : Prop := length ex <= nact /\ forall j, In j ex -> j < d_nexamples d.

Lemma col_len f col : get_feature d f = Ok col -> length col = d_nexamples d.
Proof. intros E. unfold get_feature in E. apply idx_ok in E. destruct HT as ((_ & _ & H) & _). apply H. eapply nth_error_In, E. Qed.
Lemma feature_total f : f < d_nfeatures d -> exists col, get_feature d f = Ok col /\ length col = d_nexamples d.
Proof.
  intros Hf. destruct HT as ((_ & Hn & _) & _). unfold get_feature. destruct (nth_error (d_features d) f) as [col|] eqn:E; [|apply nth_error_None in E; lia].
  exists col. assert (get_feature d f = Ok col) as Eg by (unfold get_feature; apply idx_ok; exact E). split; [exact Eg|eapply col_len, Eg].
Qed.
Lemma cats_total f col j : get_feature d f = Ok col -> j < d_nexamples d -> exists v, nth_error col j = Some v /\ cat_at col j = Ok (into_cat v).
Proof.
  intros Ef Hj. apply col_len in Ef. destruct (nth_error col j) as [v|] eqn:E; [|apply nth_error_None in E; lia]. exists v. split; [reflexivity|].
  unfold cat_at. rewrite (proj2 (idx_ok _ _ _ _) E). reflexivity.
Qed.
Lemma bvs_total s f : dinv s -> In f (in_useful s) -> exists bvs, nth_error (in_bitvecs s) f = Some bvs /\ bvs_wf bvL bvs /\ max_nbins d f = Ok (length bvs).
Proof.
  intros Hinv Hf. pose proof (useful_lt _ _ _ _ _ Hinv Hf) as Hlt. destruct (nth_error (in_bitvecs s) f) as [bvs|] eqn:E; [|apply nth_error_None in E; rewrite (dv_lbv _ _ _ s Hinv) in E; lia].
  exists bvs. split; [reflexivity|]. apply (dv_bvs _ _ _ s Hinv f bvs Hf E).
Qed.
Lemma good_len ex : good_examples ex -> length ex <= bvL * 256.
Proof. intros [H _]. unfold DatasetProofs3.bvL. destruct (blocks_required_ok nact) as [H1 _]. lia. Qed.
Lemma set_bitvecs_total (s : inner O) f bvs new : dinv s -> In f (in_useful s) -> nth_error (in_bitvecs s) f = Some bvs -> exists l, set_bitvecs s f new = Ok l.
Proof.
  intros Hinv Hf E. pose proof (useful_lt _ _ _ _ _ Hinv Hf) as Hlt. unfold set_bitvecs. rewrite (proj2 (idx_ok _ _ _ _) E). cbn [rbind].
  rewrite set_idx_lt by (rewrite (dv_lbv _ _ _ s Hinv); exact Hlt). eauto.
Qed.
Lemma hi_max_nbins f ft : feat_type_of d f = Ok ft -> ft <> LoCardCat -> max_nbins d f = Ok (d_max_nbins d).
Proof. intros E Hn. unfold max_nbins. rewrite E. cbn [rbind]. destruct ft; [congruence|reflexivity|reflexivity]. Qed.

Lemma update_locard_total s f ex : dinv s -> In f (in_useful s) -> good_examples ex -> exists s', update_locard_cat s f ex = Ok s'.
Proof.
  intros Hinv Hf Hex. pose proof (useful_lt _ _ _ _ _ Hinv Hf) as Hlt. unfold update_locard_cat. rewrite (dv_data _ _ _ s Hinv).
  destruct (feature_total f Hlt) as (col & Ec & _). rewrite Ec. cbn [rbind]. destruct (bvs_total s f Hinv Hf) as (bvs & Eb & HW & Em). rewrite Em. cbn [rbind].
  rewrite set_idx_lt by (rewrite (dv_lused _ _ _ s Hinv); exact Hlt). cbn [rbind]. rewrite (proj2 (idx_ok _ _ _ _) Eb). cbn [rbind].
  destruct (fill_total (cat_at col) bvL ex bvs HW) as (b & E & _); [|apply good_len, Hex|].
  { intros j Hj. destruct (cats_total f col j Ec (proj2 Hex j Hj)) as (v & _ & E). eauto. }
  rewrite E. cbn [rbind]. destruct (set_bitvecs_total s f bvs b Hinv Hf Eb) as [l El]. rewrite El. cbn [rbind]. eauto.
Qed.

Lemma hicard_stats_total col grad card : forall ex i st, length st = card -> (forall j, In j ex -> exists c, cat_at col j = Ok c /\ c < card) -> i + length ex <= length grad ->
  exists st', hicard_stats (O := O) col grad ex i st = Ok st'.
Proof.
  induction ex as [|j t IH]; intros i st Hl Hc Hg; cbn [hicard_stats]; [eauto|]. cbn [length] in Hg.
  destruct (Hc j (or_introl eq_refl)) as (c & Ec & Hlt). rewrite Ec. cbn [rbind].
  destruct (nth_error st c) as [e|] eqn:Ee; [|apply nth_error_None in Ee; lia]. rewrite (proj2 (idx_ok _ _ _ _) Ee). cbn [rbind].
  destruct (nth_error grad i) as [g|] eqn:Eg; [|apply nth_error_None in Eg; lia]. rewrite (proj2 (idx_ok _ _ _ _) Eg). cbn [rbind].
  rewrite set_idx_lt by lia. cbn [rbind]. apply IH; [rewrite upd_length; exact Hl|intros k Hk; apply Hc; right; exact Hk|lia].
Qed.
Lemma binner_total B (bins : list B) (l : num O * num O) : proper_limits l -> bins <> [] -> exists b, binner_new bins (fst l) (snd l) = Ok b /\ bn_bins b = bins.
Proof.
  intros (A & B' & C) Hne. unfold binner_new. rewrite A, B', C. cbn [rassert rbind]. destruct bins; [congruence|]. cbn [length Nat.eqb negb rassert rbind].
  eexists. split; [reflexivity|]. reflexivity.
Qed.
Lemma dedup_pos bins : 0 < length bins -> 0 < length (dedup_bins None bins).
Proof. destruct bins; cbn; lia. Qed.
Lemma seq_repeat_ne A (x : A) : repeat x QUANTILE_EST_NBINS <> []. Proof. discriminate. Qed.

Lemma hicard_groups_total dbg col grad card bounds ex : proper_limits bounds -> (dbg = true -> c_max_nbins cfg + 1 <= 2 * nact) -> good_examples ex -> length grad = d_nexamples d ->
  (forall j, In j ex -> exists c, cat_at col j = Ok c /\ c < card) ->
  exists sw scs, hicard_groups dbg cfg col grad card nact bounds ex = Ok (sw, scs) /\ 0 < length sw.
Proof.
  intros Hb Hdbg Hex Hg Hc. unfold hicard_groups. pose proof HT as (_ & _ & _ & _ & Hm & _ & _ & Hna & _).
  destruct (hicard_stats_total col grad card ex 0 (repeat (nofZ O 0, 0%N) card)) as [st Est]; [apply repeat_length|exact Hc|destruct Hex as [He _]; unfold DatasetProofs3.nact in He; lia|].
  rewrite Est. cbn [rbind]. destruct (binner_total N (repeat 0%N QUANTILE_EST_NBINS) bounds Hb (seq_repeat_ne _ _)) as (b0 & Eb0 & B0). rewrite Eb0. cbn [rbind].
  destruct (insert_all_ok O N (mean_items (map category_mean st)) b0) as (b & Eb & _ & _ & HL & _); [rewrite B0; apply seq_repeat_ne|]. rewrite Eb. cbn [rbind].
  destruct (mapM_exists _ _ (hicard_rank dbg (ndiv O (nofnat O nact) (nofnat O (c_max_nbins cfg + 1)))) (seq 1 (c_max_nbins cfg))) as [ranks Er].
  { intros i Hi. apply in_seq in Hi. unfold hicard_rank, u32_pred. destruct (N.eqb_spec (Z.to_N (ntoZ O 0 4294967295 (nround O (nmul O (nofnat O i) (ndiv O (nofnat O nact) (nofnat O (c_max_nbins cfg + 1))))))) 0) as [E|E]; [|eauto].
    destruct dbg; [|eauto]. exfalso. pose proof (nl_rank _ _ _ laws nact i) as HR. unfold DatasetProofs3.nact in *. specialize (HR ltac:(lia) ltac:(lia) (Hdbg eq_refl)). lia. }
  rewrite Er. cbn [rbind]. unfold rank_iter_all.
  destruct (ranks_of_total N N N.leb N.add (fun x => x) (bn_bins b) ranks (mk_ri 0%N 0%N 0)) as [qs Eq].
  { right. split; [|split; [reflexivity|]].
    - intros E. rewrite E, B0, repeat_length in HL. discriminate HL.
    - destruct ranks; [exact I|]. cbn [ri_accum]. apply N.leb_le. lia. }
  rewrite Eq. cbn [rbind]. eexists _, _. split; [reflexivity|]. rewrite map_length. apply dedup_pos. apply ranks_of_length in Eq. apply mapM_length in Er. rewrite seq_length in Er. lia.
Qed.

Lemma update_hicard_total dbg s f ex grad bounds : dinv s -> In f (in_useful s) -> feat_type_of d f = Ok HiCardCat -> length (in_supercats s) = d_nfeatures d -> good_examples ex ->
  usable_gradients dbg cfg d grad bounds -> exists s', update_hicard_cat dbg cfg s f ex grad bounds = Ok s'.
Proof.
  intros Hinv Hf Hft Hsc Hex (Hg & _ & Hh). pose proof (useful_lt _ _ _ _ _ Hinv Hf) as Hlt. unfold update_hicard_cat. rewrite (dv_data _ _ _ s Hinv).
  destruct Hh as [Hno|[Hb Hdbg]]; [exfalso; apply (dv_useful _ _ _ s Hinv) in Hf; apply (Hno f Hf Hft)|].
  destruct (feature_total f Hlt) as (col & Ec & _). rewrite Ec. cbn [rbind].
  pose proof HT as (_ & _ & _ & Hcards & Hm & Hcat & _). unfold feat_card at 1. destruct (nth_error (d_cards d) f) as [card|] eqn:Ek; [|apply nth_error_None in Ek; lia].
  rewrite (proj2 (idx_ok _ _ _ _) Ek). cbn [rbind]. rewrite (dv_nact _ _ _ s Hinv).
  assert (forall j, In j ex -> exists c, cat_at col j = Ok c /\ c < card) as Hcs.
  { intros j Hj. destruct (cats_total f col j Ec (proj2 Hex j Hj)) as (v & Ev & E). exists (into_cat v). split; [exact E|].
    eapply (Hcat f); [apply (dv_useful _ _ _ s Hinv), Hf|exact Hft|exact Ec|apply idx_ok, Ek|eapply nth_error_In, Ev]. }
  destruct (hicard_groups_total dbg col grad card bounds ex Hb Hdbg Hex Hg Hcs) as (sw & scs & Eg & Hpos). rewrite Eg. cbn [rbind].
  destruct (hicard_groups_ok _ _ _ _ _ _ _ _ _ _ _ Eg) as [Hsw Hsl].
  destruct (bvs_total s f Hinv Hf) as (bvs & Eb & HW & Em). rewrite (proj2 (idx_ok _ _ _ _) Eb). cbn [rbind].
  rewrite (hi_max_nbins f _ Hft) in Em by discriminate. injection Em as Em.
  assert (subslice bvs 0 (length sw) = Ok (firstn (length sw) bvs)) as Es. { apply subslice_ok. split; [lia|]. split; [lia|]. unfold sub. rewrite Nat.sub_0_r. reflexivity. }
  rewrite Es. cbn [rbind].
  destruct (fill_total (fun i => let* c := cat_at col i in idx scs c) bvL ex (firstn (length sw) bvs)) as (b & E & Hl); [apply Forall_firstn, HW| |apply good_len, Hex|].
  { intros j Hj. destruct (Hcs j Hj) as (c & Ecc & Hcl). rewrite Ecc. cbn [rbind]. destruct (nth_error scs c) as [k|] eqn:E; [|apply nth_error_None in E; lia]. exists k. apply idx_ok, E. }
  rewrite E. cbn [rbind]. destruct (accumulate_total b) as [b2 E2]; [rewrite Hl, firstn_length; lia|]. rewrite E2. cbn [rbind].
  destruct (set_bitvecs_total s f bvs b2 Hinv Hf Eb) as [l El]. rewrite El. cbn [rbind].
  rewrite set_idx_lt by (rewrite (dv_lused _ _ _ s Hinv); exact Hlt). cbn [rbind]. rewrite set_idx_lt by lia. cbn [rbind]. eauto.
Qed.

Lemma weights_nonneg items : Forall (fun it : num O * num O => nle O (nofZ O 0) (snd it) = true) items -> forall a, nle O (nofZ O 0) a = true ->
  nle O (nofZ O 0) (fold_left (fun a it => nadd O a (snd it)) items a) = true.
Proof. induction 1 as [|it t Hit _ IH]; intros a Ha; cbn [fold_left]; [exact Ha|]. apply IH. apply (nl_add _ _ _ laws); assumption. Qed.
Lemma num_items_total col grad ex : length col = d_nexamples d -> length grad = d_nexamples d -> (forall g, In g grad -> neq O g g = true) -> (forall j, In j ex -> j < d_nexamples d) ->
  exists items, num_items col grad ex = Ok items /\ Forall (fun it : num O * num O => nle O (nofZ O 0) (snd it) = true) items.
Proof.
  intros Hc Hg Hn. unfold num_items. induction ex as [|j t IH]; intros Hj; cbn [mapM]; [eauto|].
  pose proof (Hj j (or_introl eq_refl)) as Hl. destruct (nth_error col j) as [v|] eqn:Ev; [|apply nth_error_None in Ev; lia]. destruct (nth_error grad j) as [g|] eqn:Eg; [|apply nth_error_None in Eg; lia].
  rewrite (proj2 (idx_ok _ _ _ _) Ev), (proj2 (idx_ok _ _ _ _) Eg). cbn [rbind]. destruct IH as (items & E & HF); [intros k Hk; apply Hj; right; exact Hk|]. rewrite E. cbn [rbind].
  eexists. split; [reflexivity|]. constructor; [|exact HF]. cbn [snd]. apply (nl_weight _ _ _ laws), Hn. eapply nth_error_In, Eg.
Qed.

Lemma num_candidates_total col grad lim ex : proper_limits lim -> length col = d_nexamples d -> length grad = d_nexamples d -> (forall g, In g grad -> neq O g g = true) ->
  (forall j, In j ex -> j < d_nexamples d) -> exists cands b, num_candidates cfg col grad lim ex = Ok (cands, b).
Proof.
  intros Hlim Hc Hg Hn Hj. unfold num_candidates. pose proof HT as (_ & _ & _ & _ & Hm & _).
  destruct (binner_total (num O) (repeat (nofZ O 0) QUANTILE_EST_NBINS) lim Hlim (seq_repeat_ne _ _)) as (b0 & Eb0 & B0). rewrite Eb0. cbn [rbind].
  destruct (num_items_total col grad ex Hc Hg Hn Hj) as (items & Ei & HF). rewrite Ei. cbn [rbind].
  destruct (insert_all_ok O (num O) (map (fun it : num O * num O => (fst it, fun x => nadd O x (snd it))) items) b0) as (b & Eb & _ & _ & HL & _); [rewrite B0; apply seq_repeat_ne|]. rewrite Eb. cbn [rbind].
  set (ws := map _ (seq 1 (c_max_nbins cfg))). unfold rank_iter_all.
  destruct (ranks_of_total (num O) (num O) (nle O) (nadd O) (fun x => x) (bn_bins b) ws (mk_ri (nofZ O 0) (nofZ O 0) 0)) as [qs Eq].
  { right. split; [|split; [reflexivity|]].
    - intros E. rewrite E, B0, repeat_length in HL. discriminate HL.
    - unfold ws. replace (seq 1 (c_max_nbins cfg)) with (1 :: seq 2 (c_max_nbins cfg - 1)) by (clear - Hm; destruct (c_max_nbins cfg) as [|k]; [lia|]; cbn [seq]; rewrite Nat.sub_succ, Nat.sub_0_r; reflexivity). cbn [map ri_accum]. apply (nl_step _ _ _ laws). apply weights_nonneg; [exact HF|apply (nl_zero _ _ _ laws)]. }
  rewrite Eq. cbn [rbind]. assert (length qs = c_max_nbins cfg) as Hq. { apply ranks_of_length in Eq. unfold ws in Eq. rewrite map_length, seq_length in Eq. exact Eq. }
  pose proof (dedup_length qs None) as HD. pose proof (dedup_pos qs) as HD2. rewrite map_length.
  replace (length (dedup_bins None qs) <=? c_max_nbins cfg) with true by (symmetry; apply Nat.leb_le; lia).
  replace (0 <? length (dedup_bins None qs)) with true by (symmetry; apply Nat.ltb_lt; lia). cbn [rassert rbind].
  destruct (binner_total nat (repeat 0 QUANTILE_EST_NBINS) lim Hlim (seq_repeat_ne _ _)) as (b2 & Eb2 & B2). rewrite Eb2. cbn [rbind]. eauto.
Qed.

Lemma update_num_total dbg s f ex grad bounds : dinv s -> In f (in_useful s) -> feat_type_of d f = Ok Numerical -> good_examples ex ->
  usable_gradients dbg cfg d grad bounds -> exists s', update_num cfg s f ex grad = Ok s'.
Proof.
  intros Hinv Hf Hft Hex (Hg & Hn & _). pose proof (useful_lt _ _ _ _ _ Hinv Hf) as Hlt. unfold update_num. rewrite (dv_data _ _ _ s Hinv).
  destruct (feature_total f Hlt) as (col & Ec & Hcl). rewrite Ec. cbn [rbind].
  pose proof HT as (_ & Hlims & _ & _ & Hm & _ & Hnum & _). destruct (nth_error (d_limits d) f) as [lim|] eqn:Ek; [|apply nth_error_None in Ek; lia].
  assert (feat_limits d f = Ok lim) as El by (apply idx_ok, Ek). rewrite El. cbn [rbind].
  assert (proper_limits lim) as Hlim by (eapply Hnum; [apply (dv_useful _ _ _ s Hinv), Hf|exact Hft|exact El]).
  destruct (num_candidates_total col grad lim ex Hlim Hcl Hg Hn (proj2 Hex)) as (cands & bn & Eg). rewrite Eg. cbn [rbind].
  destruct (num_candidates_ok _ _ _ _ _ _ _ _ Eg) as (Hc1 & Hc2 & _ & b2 & Eb2 & Hb2).
  destruct (bvs_total s f Hinv Hf) as (bvs & Eb & HW & Em). rewrite (proj2 (idx_ok _ _ _ _) Eb). cbn [rbind].
  rewrite (hi_max_nbins f _ Hft) in Em by discriminate. injection Em as Em.
  assert (subslice bvs 0 (length cands) = Ok (firstn (length cands) bvs)) as Es. { apply subslice_ok. split; [lia|]. split; [lia|]. unfold sub. rewrite Nat.sub_0_r. reflexivity. }
  rewrite Es. cbn [rbind].
  destruct (fill_total (fun i => let* v := idx col i in idx (bn_bins bn) (get_bin bn v)) bvL ex (firstn (length cands) bvs)) as (b & E & Hl); [apply Forall_firstn, HW| |apply good_len, Hex|].
  { intros j Hj. destruct (cats_total f col j Ec (proj2 Hex j Hj)) as (v & Ev & _). rewrite (proj2 (idx_ok _ _ _ _) Ev). cbn [rbind]. destruct (Hb2 v) as (c & E & _). exists c. exact E. }
  rewrite E. cbn [rbind]. destruct (accumulate_total b) as [b3 E2]; [rewrite Hl, firstn_length; lia|]. rewrite E2. cbn [rbind].
  destruct (set_bitvecs_total s f bvs b3 Hinv Hf Eb) as [l El']. rewrite El'. cbn [rbind].
  rewrite set_idx_lt by (rewrite (dv_lused _ _ _ s Hinv); exact Hlt). cbn [rbind]. rewrite set_idx_lt by (rewrite (dv_lsc _ _ _ s Hinv); exact Hlt). cbn [rbind]. eauto.
Qed.

Lemma type_total f : f < d_nfeatures d -> exists ft, feat_type_of d f = Ok ft.
Proof. intros Hf. pose proof HT as (_ & _ & Ht & _). destruct (nth_error (d_ftypes d) f) as [ft|] eqn:E; [|apply nth_error_None in E; lia]. exists ft. apply idx_ok, E. Qed.

Lemma update_feature_total dbg lc ex grad bounds s u : dinv s -> length (in_supercats s) = d_nfeatures d -> u < length (in_useful s) -> good_examples ex -> usable_gradients dbg cfg d grad bounds ->
  exists s', update_feature dbg cfg lc ex grad bounds s u = Ok s'.
Proof.
  intros Hinv Hsc Hu Hex Hg. unfold update_feature. destruct (nth_error (in_useful s) u) as [f|] eqn:Ef; [|apply nth_error_None in Ef; lia].
  rewrite (proj2 (idx_ok _ _ _ _) Ef). cbn [rbind]. pose proof (nth_error_In _ _ Ef) as Hf. pose proof (useful_lt _ _ _ _ _ Hinv Hf) as Hlt.
  rewrite (dv_data _ _ _ s Hinv). destruct (type_total f Hlt) as [ft Eft]. rewrite Eft. cbn [rbind]. destruct ft.
  - destruct lc; [apply update_locard_total; assumption|eauto].
  - eapply update_hicard_total; eassumption.
  - eapply update_num_total; eassumption.
Qed.
Lemma update_features_total dbg lc ex grad bounds us : forall s, dinv s -> length (in_supercats s) = d_nfeatures d -> (forall u, In u us -> u < length (in_useful s)) -> good_examples ex ->
  usable_gradients dbg cfg d grad bounds -> exists s', foldM (update_feature dbg cfg lc ex grad bounds) us s = Ok s'.
Proof.
  induction us as [|u t IH]; intros s Hinv Hsc Hus Hex Hg; cbn [foldM]; [eauto|].
  destruct (update_feature_total dbg lc ex grad bounds s u Hinv Hsc (Hus u (or_introl eq_refl)) Hex Hg) as [s1 E1]. rewrite E1. cbn [rbind].
  assert (in_supercats s <> []) as Hne.
  { intros E. rewrite E in Hsc. cbn in Hsc. pose proof (Hus u (or_introl eq_refl)) as Hu. destruct (nth_error (in_useful s) u) as [f|] eqn:Ef; [|apply nth_error_None in Ef; lia].
    pose proof (useful_lt _ _ _ _ _ Hinv (nth_error_In _ _ Ef)). lia. }
  destruct (update_feature_inv _ _ _ _ _ _ _ _ _ _ _ Hinv Hne E1) as (Hinv1 & _ & _ & S3 & _ & _ & _ & S7). apply IH; try assumption; [congruence|].
  intros k Hk. rewrite S3. apply Hus. right. exact Hk.
Qed.

Lemma useful_count s : dinv s -> length (in_useful s) <= d_nfeatures d.
Proof.
  intros Hinv. rewrite <- (seq_length (d_nfeatures d) 0). apply NoDup_incl_length; [apply (dv_nodup _ _ _ s Hinv)|]. intros f Hf. apply in_seq. pose proof (useful_lt _ _ _ _ _ Hinv Hf). lia.
Qed.
Lemma nfeat_le s : dinv s -> in_nactive_features s <= length (in_useful s).
Proof. intros Hinv. rewrite (dv_nfeat _ _ _ s Hinv). pose proof HT as (_ & _ & _ & _ & _ & _ & _ & _ & _ & HF). apply HF, useful_count, Hinv. Qed.

Lemma dataset_update_total dbg s grad bounds : dsinv s -> usable_gradients dbg cfg d grad bounds -> exists s', dataset_update dbg cfg s grad bounds = Ok s'.
Proof.
  intros Hds Hg. pose proof (ds_inv _ _ _ s Hds) as Hinv. unfold dataset_update.
  destruct (init_supercats_ok _ _ _ _ Hinv) as (Hinv0 & _ & D0 & U0 & NF0 & B0 & N0 & L0 & C0 & SL0 & _ & K0).
  set (i0 := initialize_supercats (ds_inner s)) in *. cbv zeta. destruct (skip_update (c_sample_freq cfg) (ds_update_count s + 1)); [eauto|].
  assert (exists i1, sample_features i0 = Ok i1) as [i1 E1].
  { unfold sample_features. destruct (in_feature_sampling_enabled i0); [|eauto]. destruct (shuffle_ok (in_rng i0) (in_nactive_features i0) (in_useful i0) (nfeat_le _ Hinv0)) as (b & g & E & _).
    rewrite E. cbn [rbind]. eauto. }
  rewrite E1. cbn [rbind]. destruct (sample_features_ok _ _ _ _ _ Hinv0 E1) as (Hinv1 & P1 & D1 & NF1 & B1 & N1 & L1 & C1 & S1).
  assert (length (in_supercats i1) = d_nfeatures d) as SL1 by congruence.
  assert (forall u, In u (seq 0 (in_nactive_features i1)) -> u < length (in_useful i1)) as Hus. { intros u Hu. apply in_seq in Hu. pose proof (nfeat_le _ Hinv1). lia. }
  pose proof HT as ((Hn & _) & _ & _ & _ & _ & _ & _ & Hna & Hall & _).
  destruct (example_sampling_enabled _) eqn:Esa.
  - unfold sample_examples. cbn [ds_inner ds_index_buffer]. unfold nactive_examples at 1. cbn [ds_inner]. rewrite (dv_nact _ _ _ _ Hinv1).
    destruct (buffer_sampling _ _ _ s Hds) as [Hfr HPb]; [exact Esa|].
    assert (nact <= length (ds_index_buffer s)) as Hk. { rewrite <- (Permutation_length HPb), seq_length. unfold DatasetProofs3.nact. lia. }
    destruct (shuffle_ok (in_rng i1) nact (ds_index_buffer s) Hk) as (buf & g & Eb & HP & HS). rewrite Eb. cbn [rbind].
    unfold active_examples, nactive_examples, nactive_features. cbn [ds_inner ds_index_buffer in_nactive_examples in_nactive_features]. 
    assert (subslice buf 0 nact = Ok (firstn nact buf)) as Es. { apply subslice_ok. split; [lia|]. split; [rewrite <- (Permutation_length HP); exact Hk|]. unfold sub. rewrite Nat.sub_0_r. reflexivity. }
    rewrite Es. cbn [rbind]. edestruct (update_features_total dbg true (firstn nact buf) grad bounds (seq 0 (in_nactive_features i1))) as [i3 E3];
      [apply (dinv_rng _ _ _ i1 g Hinv1)|exact SL1|exact Hus| |exact Hg|rewrite (dv_nact _ _ _ _ Hinv1) in E3; rewrite E3; cbn [rbind]; eauto].
    split; [rewrite firstn_length; lia|]. intros j Hj. assert (In j buf) as Hj2 by (rewrite <- (firstn_skipn nact buf); apply in_or_app; left; exact Hj).
    apply (Permutation_in _ (Permutation_sym HP)) in Hj2. apply (Permutation_in _ (Permutation_sym HPb)) in Hj2. apply in_seq in Hj2. lia.
  - destruct (in_has_non_locard i1); [|eauto].
    edestruct (update_features_total dbg false (seq 0 (d_nexamples (in_data i1))) grad bounds (seq 0 (in_nactive_features i1)) i1) as [i3 E3]; try assumption; [|rewrite E3; cbn [rbind]; eauto].
    rewrite (dv_data _ _ _ _ Hinv1). split; [|intros j Hj; apply in_seq in Hj; lia]. rewrite seq_length. unfold DatasetProofs3.nact. rewrite Hall; [lia|].
    pose proof (ds_buf _ _ _ s Hds) as HB. destruct (nlt O (c_example_fraction cfg) (nofZ O 1)); [|reflexivity].
    unfold example_sampling_enabled in Esa. cbn [ds_index_buffer] in Esa. rewrite <- (Permutation_length HB), seq_length in Esa. destruct (d_nexamples d); [lia|discriminate].
Qed.

Lemma max_nbins_total f : f < d_nfeatures d -> exists nb, max_nbins d f = Ok nb.
Proof.
  intros Hf. unfold max_nbins. destruct (type_total f Hf) as [ft E]. rewrite E. cbn [rbind]. destruct ft; [|eauto|eauto].
  pose proof HT as (_ & _ & _ & Hc & _). unfold feat_card. rewrite (idx_lt _ _ f 0) by lia. cbn [rbind]. eauto.
Qed.
Lemma useful_total m : forall a st, a + m <= d_nfeatures d -> length (snd (fst st)) = d_nfeatures d -> exists st', foldM (useful_step d nact) (seq a m) st = Ok st'.
Proof.
  induction m as [|m IH]; intros a st Ha Hl; cbn [seq foldM]; [eauto|]. pose proof HT as (_ & Hlims & _ & _ & _ & _ & _ & Hna & _).
  assert (exists st1, useful_step d nact st a = Ok st1 /\ length (snd (fst st1)) = d_nfeatures d) as (st1 & E1 & H1).
  { destruct st as [[u b] n0]. cbn [fst snd] in Hl. unfold useful_step. destruct (max_nbins_total a) as [nb Enb]; [lia|]. rewrite Enb. cbn [rbind].
    destruct (nb =? 0); [eauto|]. unfold feat_limits. destruct (nth_error (d_limits d) a) as [lim|] eqn:Ek; [|apply nth_error_None in Ek; lia]. rewrite (proj2 (idx_ok _ _ _ _) Ek). cbn [rbind].
    destruct (neq O (fst lim) (snd lim)); [eauto|]. destruct (type_total a) as [ft Eft]; [lia|]. rewrite Eft. cbn [rbind].
    destruct (mapM_exists _ _ (fun _ : nat => zero_bits nact) (seq 0 nb)) as [bvs Ebv].
    { intros _ _. destruct (zero_bits_ok nact) as (bs & E & _); [unfold DatasetProofs3.nact; lia|]. eauto. }
    rewrite Ebv. cbn [rbind]. rewrite set_idx_lt by (unfold blocks in *; lia). cbn [rbind]. eexists. split; [reflexivity|]. cbn [fst snd]. rewrite upd_length. exact Hl. }
  rewrite E1. cbn [rbind]. apply IH; [lia|exact H1].
Qed.
Lemma inner_new_total g : exists s, inner_new cfg d g = Ok s.
Proof.
  unfold inner_new. destruct (useful_total (d_nfeatures d) 0 ([], repeat [] (d_nfeatures d), false)) as [[[u b] nl] E]; [lia|apply repeat_length|].
  fold nact. rewrite E. cbn [rbind]. eauto.
Qed.
Lemma new_fold_total ex : good_examples ex -> forall fs s, dinv s -> (forall f, In f fs -> In f (in_useful s)) ->
  exists s', foldM (fun s feat_id => let* ft := feat_type_of d feat_id in if is_locard ft then update_locard_cat s feat_id ex else Ok s) fs s = Ok s'.
Proof.
  intros Hex. induction fs as [|f t IH]; intros s Hinv Hin; cbn [foldM]; [eauto|].
  destruct (type_total f) as [ft Eft]; [apply (useful_lt _ _ _ s f Hinv), Hin; left; reflexivity|]. rewrite Eft. cbn [rbind].
  destruct (is_locard ft) eqn:El.
  - destruct (update_locard_total s f ex Hinv (Hin f (or_introl eq_refl)) Hex) as [s1 E1]. rewrite E1. cbn [rbind].
    assert (locard f) as Hl by (unfold DatasetProofs3.locard; rewrite Eft; destruct ft; [reflexivity|discriminate|discriminate]).
    destruct (update_locard_ok _ _ _ s f ex s1 Hinv (Hin f (or_introl eq_refl)) Hl E1) as (Hinv1 & (_ & _ & S3 & _) & _). apply IH; [exact Hinv1|].
    intros k Hk. rewrite S3. apply Hin. right. exact Hk.
  - cbn [rbind]. apply IH; [exact Hinv|]. intros k Hk. apply Hin. right. exact Hk.
Qed.
Lemma dataset_new_total g : exists s, dataset_new cfg d g = Ok s.
Proof.
  unfold dataset_new. destruct (inner_new_total g) as [s E]. rewrite E. cbn [rbind]. destruct (inner_new_ok _ _ _ _ _ E) as (Hinv & _). destruct (nlt O (c_example_fraction cfg) (nofZ O 1)) eqn:Ef; [eauto|].
  pose proof HT as (_ & _ & _ & _ & _ & _ & _ & Hna & Hall & _).
  destruct (new_fold_total (seq 0 (d_nexamples d))) with (fs := in_useful s) (s := s) as [s' E']; [|exact Hinv|auto|].
  { split; [|intros j Hj; apply in_seq in Hj; lia]. rewrite seq_length. unfold DatasetProofs3.nact. rewrite Hall by exact Ef. lia. }
  rewrite E'. cbn [rbind]. eauto.
Qed.
End Total.
