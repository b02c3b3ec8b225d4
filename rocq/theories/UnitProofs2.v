(** Training on a table whose numerical columns are measured in other units: the data set and the learner. *)
From Coq Require Import Permutation.
From Verif Require Import Base BaseProofs BitModel Num ScaledModel DataModel BinnerModel Config TreeModel DatasetModel LearnerModel ObjectiveModel MetricModel BoostModel AlikeProofs UnitProofs.

Section Unit.
Variable O : numops.
Variables d d' : data O.
(** The new unit of each column; only numerical columns change. *)
Variable h : nat -> num O -> num O.
Hypothesis Hu : forall f, unit_map (h f).
Hypothesis Hcat : forall f ft, feat_type_of d f = Ok ft -> ft <> Numerical -> forall x, h f x = x.
Hypothesis Hd : d' = mk_data (d_max_nbins d) (d_nfeatures d) (d_nexamples d) (mapi (fun f => map (h f)) 0 (d_features d)) (mapi (fun f l => (h f (fst l), h f (snd l))) 0 (d_limits d)) (d_ftypes d) (d_cards d).

Lemma un_type f : feat_type_of d' f = feat_type_of d f. Proof. rewrite Hd. reflexivity. Qed.
Lemma un_card f : feat_card d' f = feat_card d f. Proof. rewrite Hd. reflexivity. Qed.
Lemma un_nf : d_nfeatures d' = d_nfeatures d. Proof. rewrite Hd. reflexivity. Qed.
Lemma un_n : d_nexamples d' = d_nexamples d. Proof. rewrite Hd. reflexivity. Qed.
Lemma un_nbins f : max_nbins d' f = max_nbins d f. Proof. rewrite Hd. reflexivity. Qed.
Lemma un_feature f : get_feature d' f = rmap (map (h f)) (get_feature d f). Proof. rewrite Hd. unfold get_feature. cbn [d_features]. apply (idx_mapi (fun f => map (h f))). Qed.
Lemma un_limits f : feat_limits d' f = rmap (fun l => (h f (fst l), h f (snd l))) (feat_limits d f). Proof. rewrite Hd. unfold feat_limits. cbn [d_limits]. apply (idx_mapi (fun f l => (h f (fst l), h f (snd l)))). Qed.
Lemma un_cat_feature f ft : feat_type_of d f = Ok ft -> ft <> Numerical -> get_feature d' f = get_feature d f.
Proof. intros H1 H2. rewrite un_feature. unfold rmap. destruct (get_feature d f) as [c| | |]; try reflexivity. cbn [rbind]. f_equal. transitivity (map (fun x => x) c); [|apply map_id]. apply map_ext. apply (Hcat f ft H1 H2). Qed.

Definition cands (l : list (list (num O))) : list (list (num O)) := mapi (fun f => map (h f)) 0 l.
Definition conv_inner (s : inner O) : inner O :=
  mk_inner (in_rng s) d' (in_useful s) (in_nactive_features s) (in_nactive_examples s) (in_bitvecs s) (in_supercats s) (cands (in_split_candidates s)) (in_used_nbins s) (in_has_non_locard s).
Definition conv (s : dataset O) : dataset O := mk_ds (conv_inner (ds_inner s)) (ds_index_buffer s) (ds_update_count s).
Ltac fields := cbn [in_data conv_inner in_used_nbins in_bitvecs in_rng in_useful in_nactive_features in_nactive_examples in_supercats in_split_candidates in_has_non_locard].

Lemma conv_locard s f ex : in_data s = d -> feat_type_of d f = Ok LoCardCat -> update_locard_cat (conv_inner s) f ex = rmap conv_inner (update_locard_cat s f ex).
Proof.
  intros Es Et. unfold update_locard_cat, set_bitvecs. fields. rewrite Es, un_nbins, (un_cat_feature f _ Et) by discriminate.
  destruct (get_feature d f); cbn [rbind rmap]; try reflexivity. destruct (max_nbins d f); cbn [rbind]; try reflexivity. destruct (set_idx (in_used_nbins s) f _); cbn [rbind]; try reflexivity. destruct (idx (in_bitvecs s) f); cbn [rbind]; try reflexivity.
  destruct (fill_bitvecs _ _ _); cbn [rbind]; try reflexivity. destruct (set_idx _ _ _); cbn [rbind]; reflexivity.
Qed.
Lemma conv_hicard dbg cfg s f ex grad bounds : in_data s = d -> feat_type_of d f = Ok HiCardCat -> update_hicard_cat dbg cfg (conv_inner s) f ex grad bounds = rmap conv_inner (update_hicard_cat dbg cfg s f ex grad bounds).
Proof.
  intros Es Et. unfold update_hicard_cat, set_bitvecs. fields. rewrite Es, un_card, (un_cat_feature f _ Et) by discriminate.
  destruct (get_feature d f); cbn [rbind rmap]; try reflexivity. destruct (feat_card d f); cbn [rbind]; try reflexivity. destruct (hicard_groups _ _ _ _ _ _ _ _) as [[w sc]| | |]; cbn [rbind]; try reflexivity. destruct (idx (in_bitvecs s) f); cbn [rbind]; try reflexivity.
  destruct (subslice _ _ _); cbn [rbind]; try reflexivity. destruct (fill_bitvecs _ _ _); cbn [rbind]; try reflexivity. destruct (accumulate_bitvecs _); cbn [rbind]; try reflexivity. destruct (set_idx _ _ _); cbn [rbind]; try reflexivity. destruct (set_idx _ _ _); cbn [rbind]; try reflexivity. destruct (set_idx _ _ _); cbn [rbind]; reflexivity.
Qed.
Lemma fill_ext g g' l : (forall i, In i l -> g' i = g i) -> forall bvs, fill_bitvecs bvs l g' = fill_bitvecs bvs l g.
Proof.
  unfold fill_bitvecs. generalize 0. induction l as [|x l IH]; intros k H bvs; [reflexivity|]. cbn [fill_loop]. rewrite H by (left; reflexivity). destruct (g x); cbn [rbind]; try reflexivity.
  assert (forall i, In i l -> g' i = g i) as H' by (intros; apply H; right; assumption). destruct (_ <? _); [|apply IH; exact H']. destruct (idx _ _); cbn [rbind]; try reflexivity. destruct (bv_enable_bit _ _); cbn [rbind]; try reflexivity. destruct (set_idx _ _ _); cbn [rbind]; try reflexivity. apply IH. exact H'.
Qed.
Lemma conv_num cfg s f ex grad : in_data s = d -> update_num cfg (conv_inner s) f ex grad = rmap conv_inner (update_num cfg s f ex grad).
Proof.
  intros Es. unfold update_num, set_bitvecs. fields. rewrite Es, un_feature, un_limits.
  destruct (get_feature d f) as [col| | |]; cbn [rbind rmap]; try reflexivity. destruct (feat_limits d f) as [[lo hi]| | |]; cbn [rbind rmap]; try reflexivity. cbn [fst snd].
  destruct (candidates_h O (h f) (Hu f) cfg col grad lo hi ex) as [EC EB]. rewrite EC. destruct (num_candidates cfg col grad (lo, hi) ex) as [[cs b]| | |]; cbn [rbind rmap fst snd]; try reflexivity. destruct (EB cs b eq_refl) as [Eb Hlt].
  rewrite map_length. destruct (idx (in_bitvecs s) f); cbn [rbind]; try reflexivity. destruct (subslice _ _ _); cbn [rbind]; try reflexivity.
  rewrite (fill_ext (fun i => let* v := idx col i in idx (bn_bins b) (get_bin b v))).
  2:{ intros i _. rewrite idx_maph. unfold rmap. destruct (idx col i) as [v| | |]; cbn [rbind]; try reflexivity. rewrite get_bin_h by (try exact (Hu f); try exact Hlt; discriminate). rewrite <- Eb. reflexivity. }
  destruct (fill_bitvecs _ _ _); cbn [rbind]; try reflexivity. destruct (accumulate_bitvecs _); cbn [rbind]; try reflexivity. destruct (set_idx _ _ _); cbn [rbind]; try reflexivity. destruct (set_idx _ _ _); cbn [rbind]; try reflexivity.
  unfold cands. rewrite (set_idx_mapi (fun f => map (h f))). destruct (set_idx _ _ _); cbn [rbind rmap]; reflexivity.
Qed.
Lemma conv_feature dbg cfg locard ex grad bounds s u : in_data s = d -> update_feature dbg cfg locard ex grad bounds (conv_inner s) u = rmap conv_inner (update_feature dbg cfg locard ex grad bounds s u).
Proof.
  intros Es. unfold update_feature. fields. destruct (idx (in_useful s) u) as [f| | |]; cbn [rbind rmap]; try reflexivity. rewrite Es, un_type. destruct (feat_type_of d f) as [[]| | |] eqn:Et; cbn [rbind]; try reflexivity.
  - destruct locard; [|reflexivity]. apply conv_locard; assumption.
  - apply conv_hicard; assumption.
  - apply conv_num; assumption.
Qed.
Lemma conv_features dbg cfg locard ex grad bounds l s : in_data s = d -> foldM (update_feature dbg cfg locard ex grad bounds) l (conv_inner s) = rmap conv_inner (foldM (update_feature dbg cfg locard ex grad bounds) l s).
Proof.
  intros H. apply (foldM_rmap conv_inner (fun s => in_data s = d)); [intros; apply conv_feature; assumption| |exact H].
  intros s0 x s1 G1 _ E. apply keeps_useful in E as [E1 E2]. congruence.
Qed.
Lemma features_data dbg (cfg : config O) locard ex grad bounds l : forall s s1, foldM (update_feature dbg cfg locard ex grad bounds) l s = Ok s1 -> in_data s1 = in_data s.
Proof. induction l as [|x l IH]; intros s s1 E; cbn [foldM] in E; [injection E as <-; reflexivity|]. apply rbind_ok in E as (s2 & E2 & E). apply keeps_useful in E2 as [E2 _]. apply IH in E. congruence. Qed.
Lemma conv_sample s : sample_examples (conv s) = rmap conv (sample_examples s).
Proof. unfold sample_examples, nactive_examples. cbn [ds_inner in_rng conv conv_inner in_nactive_examples ds_index_buffer]. destruct (shuffle_first_k _ _ _) as [[buf g]| | |]; reflexivity. Qed.
Lemma sample_data (s s1 : dataset O) : sample_examples s = Ok s1 -> in_data (ds_inner s1) = in_data (ds_inner s).
Proof. intros E. unfold sample_examples in E. apply rbind_ok in E as ((buf & g) & _ & E). injection E as <-. reflexivity. Qed.
Lemma conv_update dbg cfg s grad bounds : in_data (ds_inner s) = d -> dataset_update dbg cfg (conv s) grad bounds = rmap conv (dataset_update dbg cfg s grad bounds) /\
  forall s1, dataset_update dbg cfg s grad bounds = Ok s1 -> in_data (ds_inner s1) = d.
Proof.
  intros Es. unfold dataset_update. cbn [ds_update_count ds_inner ds_index_buffer conv].
  assert (initialize_supercats (conv_inner (ds_inner s)) = conv_inner (initialize_supercats (ds_inner s))) as ->. { unfold initialize_supercats, conv_inner. fields. rewrite un_nf, Es. reflexivity. }
  assert (in_data (initialize_supercats (ds_inner s)) = d) as G0 by exact Es. revert G0. generalize (initialize_supercats (ds_inner s)). intros i0 G0.
  destruct (skip_update _ _); [split; [reflexivity|intros s1 E; injection E as <-; exact G0]|].
  assert (sample_features (conv_inner i0) = rmap conv_inner (sample_features i0)) as ->.
  { unfold sample_features, in_feature_sampling_enabled. fields. destruct (in_nactive_features i0 <? length (in_useful i0)); [|reflexivity]. destruct (shuffle_first_k _ _ _) as [[u g]| | |]; reflexivity. }
  destruct (sample_features i0) as [i1| | |] eqn:E1; cbn [rbind rmap]; [|split; [reflexivity|discriminate]..].
  assert (in_data i1 = d) as G1.
  { unfold sample_features in E1. destruct (in_feature_sampling_enabled i0); [|injection E1 as <-; exact G0]. apply rbind_ok in E1 as ((u & g) & Es' & E1). injection E1 as <-. exact G0. }
  clear E1 G0. change (mk_ds (conv_inner i1) (ds_index_buffer s) (ds_update_count s + 1)) with (conv (mk_ds i1 (ds_index_buffer s) (ds_update_count s + 1))).
  set (s1 := mk_ds i1 (ds_index_buffer s) (ds_update_count s + 1)). change (example_sampling_enabled (conv s1)) with (example_sampling_enabled s1). destruct (example_sampling_enabled s1).
  - rewrite conv_sample. destruct (sample_examples s1) as [s2| | |] eqn:E2; cbn [rbind rmap]; [|split; [reflexivity|discriminate]..]. apply sample_data in E2. change (in_data (ds_inner s1)) with (in_data i1) in E2. rewrite G1 in E2. change (active_examples (conv s2)) with (active_examples s2). destruct (active_examples s2) as [ex| | |]; cbn [rbind]; [|split; [reflexivity|discriminate]..].
    change (nactive_features (conv s2)) with (nactive_features s2). change (ds_inner (conv s2)) with (conv_inner (ds_inner s2)). rewrite conv_features by exact E2. destruct (foldM _ _ _) as [i3| | |] eqn:E3; cbn [rbind rmap]; [|split; [reflexivity|discriminate]..]. split; [reflexivity|]. intros s3 E. injection E as <-. cbn [ds_inner]. apply features_data in E3. congruence.
  - fields. destruct (in_has_non_locard i1); [|split; [reflexivity|intros s2 E; injection E as <-; exact G1]]. rewrite un_n, G1.
    fold (conv_inner i1). rewrite conv_features by exact G1. destruct (foldM _ _ _) as [i3| | |] eqn:E3; cbn [rbind rmap]; [|split; [reflexivity|discriminate]..]. split; [reflexivity|]. intros s3 E. injection E as <-. cbn [ds_inner]. apply features_data in E3. congruence.
Qed.
Lemma useful_step_conv n st f : useful_step d' n st f = useful_step d n st f.
Proof.
  unfold useful_step. destruct st as ((us & bv) & nl). rewrite un_nbins, un_limits, un_type. destruct (max_nbins d f) as [nb| | |]; cbn [rbind]; try reflexivity. destruct (nb =? 0); [reflexivity|]. unfold rmap. destruct (feat_limits d f) as [[lo hi]| | |]; cbn [rbind fst snd]; try reflexivity. rewrite (um_eq _ (Hu f)). reflexivity.
Qed.
Lemma conv_new cfg g : dataset_new cfg d' g = rmap conv (dataset_new cfg d g) /\ forall s, dataset_new cfg d g = Ok s -> in_data (ds_inner s) = d.
Proof.
  unfold dataset_new, inner_new. rewrite un_nf, un_n. rewrite (foldM_ext_in (useful_step d (scaled_count (d_nexamples d) (c_example_fraction cfg)))) by (intros; apply useful_step_conv).
  destruct (foldM _ _ _) as [((u & bv) & nl)| | |]; cbn [rbind rmap]; [|split; [reflexivity|discriminate]..].
  set (i0 := mk_inner g d u (scaled_count (length u) (c_feature_fraction cfg)) (scaled_count (d_nexamples d) (c_example_fraction cfg)) bv [] (repeat [] (d_nfeatures d)) (repeat 0 (d_nfeatures d)) nl).
  assert (mk_inner g d' u (scaled_count (length u) (c_feature_fraction cfg)) (scaled_count (d_nexamples d) (c_example_fraction cfg)) bv [] (repeat [] (d_nfeatures d)) (repeat 0 (d_nfeatures d)) nl = conv_inner i0) as ->.
  { unfold conv_inner, i0. fields. f_equal. unfold cands. generalize 0. generalize (d_nfeatures d). clear. intros n. induction n; intros k; cbn; [reflexivity|]. f_equal. apply IHn. }
  destruct (nlt O (c_example_fraction cfg) (nofZ O 1)).
  - cbn [rmap rbind]. split; [reflexivity|]. intros s E. injection E as <-. reflexivity.
  - assert (in_data i0 = d) as G0 by reflexivity. change (in_useful (conv_inner i0)) with (in_useful i0). clearbody i0. generalize (in_useful i0). intros l.
    assert (forall s x s', in_data s = d -> (let* ft := feat_type_of d x in if is_locard ft then update_locard_cat s x (seq 0 (d_nexamples d)) else Ok s) = Ok s' -> in_data s' = d) as HK.
    { intros s x s' Hs E. apply rbind_ok in E as (ft & _ & E). destruct (is_locard ft); [|injection E as <-; exact Hs]. unfold update_locard_cat in E. repeat (apply rbind_ok in E as (? & _ & E)). injection E as <-. exact Hs. }
    rewrite (foldM_rmap conv_inner (fun s => in_data s = d) (fun s feat_id => let* ft := feat_type_of d feat_id in if is_locard ft then update_locard_cat s feat_id (seq 0 (d_nexamples d)) else Ok s)); [| |intros s x s' Hs _; apply HK; exact Hs|exact G0].
    + destruct (foldM _ l i0) as [s1| | |] eqn:E1; cbn [rbind rmap]; [|split; [reflexivity|discriminate]..]. split; [reflexivity|]. intros s E. injection E as <-. cbn [ds_inner].
      revert i0 G0 E1. induction l as [|x l IH]; intros i0 G0 E1; cbn [foldM] in E1; [injection E1 as <-; exact G0|]. apply rbind_ok in E1 as (s2 & E2 & E1). eapply IH; [|exact E1]. eapply HK; eassumption.
    + intros s x Hs _. rewrite un_type. destruct (feat_type_of d x) as [ft| | |] eqn:Et; cbn [rbind rmap]; try reflexivity. destruct ft; cbn [is_locard]; try reflexivity. apply conv_locard; assumption.
Qed.
Lemma conv_sizes : hist_sizes d' = hist_sizes d.
Proof. rewrite Hd. reflexivity. Qed.
End Unit.
