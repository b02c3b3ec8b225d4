(** Training with all gradients in another unit: the learner and the data set make the same decisions. *)
From Coq Require Import Permutation.
From Verif Require Import Base BaseProofs BitModel SliceModel Num ScaledModel DataModel BinnerModel Config TreeModel DatasetModel LearnerModel AlikeProofs UnitProofs ScaleSpec.

Section Scale.
Variable O : numops.
(** The units of the gradients and of the gains. *)
Variables u u2 : num O -> num O.
Hypothesis Hlin : forall w x n lo hi, linproj O w x n (u lo, u hi) = u (linproj O w x n (lo, hi)).
Hypothesis Hdisc : forall w v lo hi, discretise O w (u v) (u lo, u hi) = discretise O w v (lo, hi).
Hypothesis Hu0 : u (nofZ O 0) = nofZ O 0.
Hypothesis Hsub : forall x y, nsub O (u x) (u y) = u (nsub O x y).
Hypothesis Hadd : forall x y, nadd O (u x) (u y) = u (nadd O x y).
Hypothesis Hdiv : forall x y, ndiv O (u x) y = u (ndiv O x y).
Hypothesis Hloss : forall (cfg : config O) g c, get_loss cfg (u g) c = u2 (get_loss cfg g c).
Hypothesis Hsub2 : forall x y, nsub O (u2 x) (u2 y) = u2 (nsub O x y).
Hypothesis Hlt2 : forall x y, nlt O (u2 x) (u2 y) = nlt O x y.
Hypothesis Hunit : unit_map u.
Notation ub b := (u (fst b), u (snd b)).

Definition hvu (v : histval O) : histval O := (u (fst v), snd v).
Definition sn (nd : node O) : node O :=
  mk_node (nd_id nd) (nd_count nd) (u (nd_grad nd)) (nd_compr nd) (map (map hvu) (nd_hists nd)) (nd_idx nd) (nd_mask nd) (nd_grads nd).

Lemma foldM_map {A S S'} (h : S -> S') (f : S -> A -> res S) (g : S' -> A -> res S') l : (forall s x, g (h s) x = rmap h (f s x)) -> forall s, foldM g l (h s) = rmap h (foldM f l s).
Proof. intros H s. apply (foldM_rmap h (fun _ => True)); auto. Qed.
Lemma set_idx_maph {A B} (f : A -> B) l i x : set_idx (map f l) i (f x) = rmap (map f) (set_idx l i x).
Proof. unfold set_idx, rmap. rewrite map_length. destruct (i <? length l); [|reflexivity]. cbn [rbind]. f_equal. clear. revert i. induction l as [|y l IH]; intros [|i]; cbn; try reflexivity. f_equal. apply IH. Qed.

Section Learn.
Variable dbg : bool.
Variable cfg : config O.
Let cfg' := with_min_gain cfg (u2 (c_min_gain cfg)).
Variable s : dataset O.
Variable sizes : list nat.
Variable bounds : num O * num O.
Variable sched : nat -> list job -> list job.

Lemma sc_grad_sum nd fm : get_grad_sum cfg' (ub bounds) (sn nd) fm = rmap hvu (get_grad_sum cfg bounds nd fm).
Proof.
  unfold get_grad_sum. cbn [sn nd_compr nd_mask nd_idx nd_grads]. change (width cfg') with (width cfg). change (c_min_examples_leaf cfg') with (c_min_examples_leaf cfg).
  destruct (if nd_compr nd then _ else _) as [c| | |]; cbn [rbind rmap]; try reflexivity. destruct (_ <? _)%N; [unfold hvu; cbn [fst snd rbind rmap]; rewrite Hu0; reflexivity|].
  destruct (if nd_compr nd then _ else _) as [x| | |]; cbn [rbind rmap]; try reflexivity. rewrite Hlin. destruct bounds. reflexivity.
Qed.
Lemma sc_job nd hs j : run_job cfg' s (ub bounds) (sn nd) (map (map hvu) hs) j = rmap (map (map hvu)) (run_job cfg s bounds nd hs j).
Proof.
  unfold run_job. destruct (ds_get_bitvec _ _ _) as [fm| | |]; cbn [rbind rmap]; try reflexivity. rewrite sc_grad_sum. unfold rmap at 1. destruct (get_grad_sum _ _ _ _) as [v| | |]; cbn [rbind rmap]; try reflexivity.
  rewrite idx_maph. destruct (idx hs (fst j)) as [h| | |]; cbn [rbind rmap]; try reflexivity. rewrite set_idx_maph. destruct (set_idx h (snd j) v) as [h'| | |]; cbn [rbind rmap]; try reflexivity. apply set_idx_maph.
Qed.
Lemma sc_build nd : build_histograms cfg' s (ub bounds) sched (sn nd) = rmap sn (build_histograms cfg s bounds sched nd).
Proof.
  unfold build_histograms. change (width cfg') with (width cfg). destruct (rassert _); cbn [rbind rmap]; try reflexivity. destruct (jobs s) as [js| | |]; cbn [rbind rmap]; try reflexivity. change (nd_id (sn nd)) with (nd_id nd). change (nd_hists (sn nd)) with (map (map hvu) (nd_hists nd)).
  rewrite (foldM_map (map (map hvu)) (run_job cfg s bounds nd)) by (intros; apply sc_job). destruct (foldM _ _ _) as [h| | |]; cbn [rbind rmap]; reflexivity.
Qed.
Lemma sc_put grads st ij : put_gradient cfg' (ub bounds) (map u grads) st ij = put_gradient cfg bounds grads st ij.
Proof.
  unfold put_gradient. rewrite idx_maph. unfold rmap. destruct (idx grads (snd ij)) as [v| | |]; cbn [rbind]; try reflexivity. unfold set_scaled_value. rewrite Hdisc. change (width cfg') with (width cfg). destruct bounds. reflexivity.
Qed.
Lemma sc_hists : map (map hvu) (map (repeat (hv_default O)) sizes) = map (repeat (hv_default O)) sizes.
Proof.
  rewrite map_map. apply map_ext. intros n. induction n; cbn; [reflexivity|]. f_equal; [|exact IHn]. unfold hvu, hv_default. cbn [fst snd]. rewrite Hu0. reflexivity.
Qed.
Lemma sc_alloc : alloc_hists O sizes = rmap (map (map hvu)) (alloc_hists O sizes).
Proof. unfold alloc_hists. destruct (rassert _); cbn [rbind rmap]; try reflexivity. f_equal. symmetry. apply sc_hists. Qed.
Lemma sc_root grads : get_root_n2s cfg' s sizes (ub bounds) sched (map u grads) = rmap sn (get_root_n2s cfg s sizes bounds sched grads).
Proof.
  unfold get_root_n2s. change (width cfg') with (width cfg). destruct (rassert _); cbn [rbind rmap]; try reflexivity. destruct (zero_blocks _) as [gr0| | |]; cbn [rbind rmap]; try reflexivity. destruct (one_bits _) as [mask| | |]; cbn [rbind rmap]; try reflexivity.
  destruct (from_iter _ _ _) as [ix| | |]; cbn [rbind rmap]; try reflexivity. destruct (rassert _); cbn [rbind rmap]; try reflexivity. destruct (active_examples_list s) as [ex| | |]; cbn [rbind rmap]; try reflexivity.
  rewrite (foldM_ext_in (put_gradient cfg bounds grads)) by (intros; apply sc_put). destruct (foldM _ _ _) as [[gr sum]| | |]; cbn [rbind rmap]; try reflexivity.
  rewrite sc_alloc at 1. destruct (alloc_hists O sizes) as [h| | |]; cbn [rbind rmap]; try reflexivity. rewrite <- sc_build. f_equal. unfold sn. cbn [nd_id nd_count nd_grad nd_compr nd_hists nd_idx nd_mask nd_grads]. f_equal. rewrite Hlin. destruct bounds. reflexivity.
Qed.
Definition scst (st : num O * split O) : num O * split O := (u2 (fst st), snd st).
Lemma sc_step nd f hist st b : split_step dbg cfg' s (sn nd) f (map hvu hist) (scst st) b = rmap scst (split_step dbg cfg s nd f hist st b).
Proof.
  unfold split_step. rewrite idx_maph. unfold rmap at 1. destruct (idx hist b) as [l| | |]; cbn [rbind rmap]; try reflexivity. cbn [hvu fst snd sn nd_grad nd_count scst]. destruct (u32_sub _ _ _) as [rc| | |]; cbn [rbind rmap]; try reflexivity.
  change (c_min_examples_leaf cfg') with (c_min_examples_leaf cfg). destruct (_ || _); [reflexivity|]. rewrite Hsub.
  change (get_loss cfg') with (get_loss cfg). rewrite !Hloss, !Hsub2, Hlt2. destruct (nlt _ _ _); [|reflexivity]. destruct (make_crit s f b); reflexivity.
Qed.
Lemma sc_best nd : find_best_split dbg cfg' s (sn nd) = find_best_split dbg cfg s nd.
Proof.
  unfold find_best_split. destruct (active_features s) as [fs| | |]; cbn [rbind]; try reflexivity. change (c_min_gain cfg', split_none O) with (scst (c_min_gain cfg, split_none O)).
  rewrite (foldM_map scst (fun st f => let* hist := idx (nd_hists nd) f in let* nb := get_nbins s f in foldM (split_step dbg cfg s nd f hist) (seq 0 nb) st)).
  - unfold rmap. destruct (foldM _ _ _) as [st| | |]; reflexivity.
  - intros st f. cbn [sn nd_hists]. rewrite idx_maph. unfold rmap at 1. destruct (idx (nd_hists nd) f) as [hist| | |]; cbn [rbind rmap]; try reflexivity. destruct (get_nbins s f) as [nb| | |]; cbn [rbind rmap]; try reflexivity.
    apply foldM_map. intros. apply sc_step.
Qed.
Lemma sc_compress parent nd n : compress_examples dbg cfg' (sn parent) (sn nd) n = rmap sn (compress_examples dbg cfg parent nd n).
Proof.
  unfold compress_examples. change (width cfg') with (width cfg). destruct (rassert _); cbn [rbind rmap]; try reflexivity. destruct (zero_bits _); cbn [rbind rmap]; try reflexivity. destruct (zero_blocks _); cbn [rbind rmap]; try reflexivity. cbn [sn nd_idx nd_mask].
  change (compress_step dbg cfg' (sn parent)) with (compress_step dbg cfg parent). destruct (foldM _ _ _) as [[[[k mask] ix] gr]| | |]; cbn [rbind rmap]; try reflexivity. destruct (rassert _); cbn [rbind rmap]; try reflexivity. destruct (foldM _ _ _); reflexivity.
Qed.
Lemma sc_split parent id sp f c g : split_examples dbg cfg' s sizes (sn parent) id sp f c (u g) = rmap sn (split_examples dbg cfg s sizes parent id sp f c g).
Proof.
  unfold split_examples. destruct (ds_get_bitvec _ _ _) as [fm| | |]; cbn [rbind rmap]; try reflexivity. rewrite sc_alloc at 1. destruct (alloc_hists O sizes) as [h| | |]; cbn [rbind rmap]; try reflexivity. cbn [sn nd_idx nd_compr nd_grads].
  destruct (zero_blocks _); cbn [rbind rmap]; try reflexivity. change (split_block (sn parent) fm f) with (split_block parent fm f). destruct (foldM _ _ _) as [[mask zc]| | |]; cbn [rbind rmap]; try reflexivity. change (c_compression_threshold cfg') with (c_compression_threshold cfg).
  destruct (_ && _); [|reflexivity]. destruct (rassert _); cbn [rbind rmap]; try reflexivity. rewrite <- sc_compress. reflexivity.
Qed.
Lemma sc_hvsub x y : hv_sub O dbg (hvu x) (hvu y) = rmap hvu (hv_sub O dbg x y).
Proof. unfold hv_sub, hvu. cbn [fst snd]. destruct (u32_sub _ _ _); cbn [rbind rmap fst snd]; try reflexivity. rewrite Hsub. reflexivity. Qed.
Lemma mapM_maph {A B A' B'} (f : A -> res B) (f' : A' -> res B') (ha : A -> A') (hb : B -> B') l : (forall x, f' (ha x) = rmap hb (f x)) -> mapM f' (map ha l) = rmap (map hb) (mapM f l).
Proof. intros H. induction l as [|x l IH]; [reflexivity|]. cbn [map mapM]. rewrite H, IH. unfold rmap. destruct (f x); cbn [rbind]; try reflexivity. destruct (mapM f l); reflexivity. Qed.
Lemma combine_maph {A B A' B'} (f : A -> A') (g : B -> B') l : forall m, combine (map f l) (map g m) = map (fun p => (f (fst p), g (snd p))) (combine l m).
Proof. induction l as [|x l IH]; intros [|y m]; cbn; try reflexivity. f_equal. apply IH. Qed.
Lemma sc_hists_sub p l : hists_subtract dbg (map (map hvu) p) (map (map hvu) l) = rmap (map (map hvu)) (hists_subtract dbg p l).
Proof.
  unfold hists_subtract. rewrite combine_maph. apply mapM_maph. intros [p1 l1]. cbn [fst snd]. rewrite combine_maph. apply mapM_maph. intros [x y]. apply sc_hvsub.
Qed.
Lemma sc_derive p l r : derive_histograms dbg (sn p) (sn l) (sn r) = rmap sn (derive_histograms dbg p l r).
Proof. unfold derive_histograms. cbn [sn nd_hists]. rewrite sc_hists_sub. unfold rmap at 1. destruct (hists_subtract _ _ _); reflexivity. Qed.
Definition sn2 (p : node O * node O) := (sn (fst p), sn (snd p)).
Lemma sc_lr nd sp : get_left_right_n2s dbg cfg' s sizes (ub bounds) sched (sn nd) sp = rmap sn2 (get_left_right_n2s dbg cfg s sizes bounds sched nd sp).
Proof.
  unfold get_left_right_n2s. cbn [sn nd_hists nd_grad nd_count nd_id]. rewrite idx_maph. unfold rmap at 1. destruct (idx (nd_hists nd) _) as [hist| | |]; cbn [rbind rmap]; try reflexivity. rewrite idx_maph. unfold rmap at 1. destruct (idx hist _) as [l| | |]; cbn [rbind rmap]; try reflexivity.
  cbn [hvu fst snd]. destruct (u32_sub _ _ _) as [rc| | |]; cbn [rbind rmap]; try reflexivity. rewrite Hsub. fold (sn nd). rewrite !sc_split. unfold rmap at 1. destruct (split_examples _ _ _ _ _ _ _ (fun m => m) _ _) as [l0| | |]; cbn [rbind rmap]; try reflexivity.
  rewrite sc_build. unfold rmap at 1. destruct (build_histograms _ _ _ _ _) as [ln| | |]; cbn [rbind rmap]; try reflexivity. unfold rmap at 1. destruct (split_examples _ _ _ _ _ _ _ _ _ _) as [r0| | |]; cbn [rbind rmap]; try reflexivity.
  rewrite sc_derive. unfold rmap at 1. destruct (derive_histograms _ _ _ _); reflexivity.
Qed.
Variable St : Type.
Variable lv : list nat -> St -> res (num O * St).
Variable oob : nat -> num O -> St -> res St.
Definition snst (r : list (node O) * tree O * St) : list (node O) * tree O * St := (map sn (fst (fst r)), snd (fst r), snd r).
Lemma sc_train_step nd stack t st : train_step dbg cfg' s sizes (ub bounds) sched St lv (sn nd) (map sn stack) t st = rmap snst (train_step dbg cfg s sizes bounds sched St lv nd stack t st).
Proof.
  unfold train_step. rewrite sc_best. destruct (find_best_split _ _ _ _) as [sp| | |]; cbn [rbind rmap]; try reflexivity. destruct (is_no_split (sp_crit sp)).
  - change (predict_leaf_value s St lv (sn nd) t st) with (predict_leaf_value s St lv nd t st). destruct (predict_leaf_value _ _ _ _ _ _) as [[t1 st1]| | |]; reflexivity.
  - change (nd_id (sn nd)) with (nd_id nd). destruct (negb _).
    + rewrite sc_lr. unfold rmap at 1. destruct (get_left_right_n2s _ _ _ _ _ _ _ _) as [[ln rn]| | |]; cbn [rbind rmap sn2 fst snd]; try reflexivity. destruct (split_node _ _ _); reflexivity.
    + change (predict_child_leaf_values s St lv (sn nd) sp t st) with (predict_child_leaf_values s St lv nd sp t st). destruct (predict_child_leaf_values _ _ _ _ _ _ _) as [[t1 st1]| | |]; cbn [rbind rmap]; try reflexivity. destruct (split_node _ _ _); reflexivity.
Qed.
Lemma sc_loop fuel : forall stack t st, train_loop dbg cfg' s sizes (ub bounds) sched St lv fuel (map sn stack) t st = train_loop dbg cfg s sizes bounds sched St lv fuel stack t st.
Proof.
  induction fuel as [|fuel IH]; intros [|nd stack] t st; cbn [map train_loop]; try reflexivity. rewrite sc_train_step. unfold rmap. destruct (train_step _ _ _ _ _ _ _ _ _ _ _ _) as [((stack1 & t1) & st1)| | |]; cbn [rbind snst fst snd]; try reflexivity. apply IH.
Qed.
(** The same tree is grown from the gradients in the other unit. *)
Lemma sc_train grads st : train dbg cfg' s sizes (ub bounds) sched St lv oob (map u grads) st = train dbg cfg s sizes bounds sched St lv oob grads st.
Proof.
  unfold train. change (c_max_tree_depth cfg') with (c_max_tree_depth cfg). destruct (tree_new _ _ _) as [t| | |]; cbn [rbind]; try reflexivity. rewrite sc_root. unfold rmap. destruct (get_root_n2s _ _ _ _ _ _) as [root| | |]; cbn [rbind]; try reflexivity.
  change [sn root] with (map sn [root]). rewrite sc_loop. reflexivity.
Qed.

(* ---- the data set ---- *)
Definition stu (e : num O * N) : num O * N := (u (fst e), snd e).
Lemma sc_stats feat grad ex : forall i stats, hicard_stats feat (map u grad) ex i (map stu stats) = rmap (map stu) (hicard_stats feat grad ex i stats).
Proof.
  induction ex as [|j ex IH]; intros i stats; cbn [hicard_stats]; [reflexivity|]. destruct (cat_at feat j) as [c| | |]; cbn [rbind rmap]; try reflexivity. rewrite idx_maph. unfold rmap at 1. destruct (idx stats c) as [e| | |]; cbn [rbind rmap]; try reflexivity.
  rewrite idx_maph. unfold rmap at 1. destruct (idx grad i) as [g| | |]; cbn [rbind rmap]; try reflexivity. cbn [stu fst snd]. rewrite Hadd. change (u (nadd O (fst e) g), u32_inc 1 (snd e)) with (stu (nadd O (fst e) g, u32_inc 1 (snd e))). rewrite set_idx_maph. unfold rmap at 1. destruct (set_idx stats c _) as [st1| | |]; cbn [rbind rmap]; try reflexivity. apply IH.
Qed.
Lemma sc_mean e : category_mean (stu e) = stu (category_mean e).
Proof. unfold category_mean. cbn [stu snd fst]. destruct (N.eqb (snd e) 0); [reflexivity|]. unfold stu. cbn [fst snd]. rewrite Hdiv. reflexivity. Qed.
Lemma sc_items stats : mean_items (map stu stats) = map (fun it => (u (fst it), snd it)) (mean_items stats).
Proof. unfold mean_items. induction stats as [|e l IH]; [reflexivity|]. cbn [map filter stu snd]. destruct (negb _); cbn [map fst snd]; rewrite IH; reflexivity. Qed.
Lemma sc_groups feat grad card n ex : hicard_groups dbg cfg' feat (map u grad) card n (ub bounds) ex = rmap (fun r => (map u (fst r), snd r)) (hicard_groups dbg cfg feat grad card n bounds ex).
Proof.
  unfold hicard_groups. change (c_max_nbins cfg') with (c_max_nbins cfg). assert (repeat (nofZ O 0, 0%N) card = map stu (repeat (nofZ O 0, 0%N) card)) as -> by (clear - Hu0; induction card; cbn; [reflexivity|]; unfold stu at 1; cbn [fst snd]; rewrite Hu0; f_equal; assumption).
  rewrite sc_stats. assert (repeat (nofZ O 0, 0%N) card = map stu (repeat (nofZ O 0, 0%N) card)) as <- by (clear - Hu0; induction card; cbn; [reflexivity|]; unfold stu at 1; cbn [fst snd]; rewrite Hu0; f_equal; assumption).
  unfold rmap at 1. destruct (hicard_stats _ _ _ _ _) as [stats| | |]; cbn [rbind rmap]; try reflexivity. cbn [fst snd]. rewrite (new_h O u Hunit). destruct bounds as [lo hi]. cbn [fst snd]. unfold rmap at 1.
  destruct (binner_new (repeat 0%N QUANTILE_EST_NBINS) lo hi) as [b0| | |] eqn:E0; cbn [rbind rmap]; try reflexivity. apply new_inv in E0 as (-> & Hlt & Hne). rewrite repeat_length in *. cbn [bn_bins bin_at].
  assert (map category_mean (map stu stats) = map stu (map category_mean stats)) as -> by (rewrite !map_map; apply map_ext; intros; apply sc_mean). rewrite sc_items.
  destruct (insert_h O u Hunit QUANTILE_EST_NBINS lo hi (mean_items (map category_mean stats)) Hne Hlt (repeat 0%N QUANTILE_EST_NBINS)) as [EI EB]. rewrite EI. unfold rmap at 1.
  destruct (binner_insert_all (bin_at O (repeat 0%N QUANTILE_EST_NBINS) QUANTILE_EST_NBINS lo hi) (mean_items (map category_mean stats))) as [b| | |]; cbn [rbind rmap]; try reflexivity. specialize (EB b eq_refl).
  destruct (mapM _ _) as [ranks| | |]; cbn [rbind rmap]; try reflexivity. unfold rank_iter_all. cbn [bn_bins bin_at]. destruct (ranks_of _ _ _ _ _ _) as [qb| | |]; cbn [rbind rmap fst snd]; try reflexivity.
  assert (map (fun bin => bin_representative (bin_at O (bn_bins b) QUANTILE_EST_NBINS (u lo) (u hi)) (bin + 1)) (dedup_bins None qb) = map u (map (fun bin => bin_representative b (bin + 1)) (dedup_bins None qb))) as EC.
  { rewrite map_map. apply map_ext. intros k. rewrite rep_h by assumption. rewrite <- EB. reflexivity. }
  rewrite EC. f_equal. f_equal. rewrite map_map. apply map_ext. intros e. cbn [stu fst]. apply below_h. exact Hunit.
Qed.
Lemma sc_hicard i f ex grad : update_hicard_cat dbg cfg' i f ex (map u grad) (ub bounds) = update_hicard_cat dbg cfg i f ex grad bounds.
Proof.
  unfold update_hicard_cat. destruct (get_feature _ _) as [feat| | |]; cbn [rbind]; try reflexivity. destruct (feat_card _ _) as [card| | |]; cbn [rbind]; try reflexivity. rewrite sc_groups. unfold rmap. destruct (hicard_groups _ _ _ _ _ _ _ _) as [[w sc]| | |]; cbn [rbind fst snd]; try reflexivity. rewrite map_length. reflexivity.
Qed.
Lemma sc_feature locard ex grad i x : (forall f, In f (in_useful i) -> feat_type_of (in_data i) f <> Ok Numerical) -> update_feature dbg cfg' locard ex (map u grad) (ub bounds) i x = update_feature dbg cfg locard ex grad bounds i x.
Proof.
  intros HN. unfold update_feature. destruct (idx (in_useful i) x) as [f| | |] eqn:Ef; cbn [rbind]; try reflexivity. apply idx_ok in Ef. apply nth_error_In in Ef. specialize (HN f Ef). destruct (feat_type_of (in_data i) f) as [[]| | |]; cbn [rbind]; try reflexivity; [|congruence]. apply sc_hicard.
Qed.
Definition cats (i : inner O) : Prop := forall f, In f (in_useful i) -> feat_type_of (in_data i) f <> Ok Numerical.
Lemma sc_features locard ex grad l : forall i, cats i -> foldM (update_feature dbg cfg' locard ex (map u grad) (ub bounds)) l i = foldM (update_feature dbg cfg locard ex grad bounds) l i /\
  forall i1, foldM (update_feature dbg cfg locard ex grad bounds) l i = Ok i1 -> cats i1.
Proof.
  induction l as [|x l IH]; intros i HC; cbn [foldM]; [split; [reflexivity|intros i1 E; injection E as <-; exact HC]|]. rewrite sc_feature by exact HC. destruct (update_feature _ _ _ _ _ _ i x) as [i1| | |] eqn:E; cbn [rbind]; [|split; [reflexivity|discriminate]..].
  apply IH. apply keeps_useful in E as [E1 E2]. unfold cats. rewrite E1, E2. exact HC.
Qed.
Lemma sc_update grad : cats (ds_inner s) -> dataset_update dbg cfg' s (map u grad) (ub bounds) = dataset_update dbg cfg s grad bounds /\ forall s1, dataset_update dbg cfg s grad bounds = Ok s1 -> cats (ds_inner s1).
Proof.
  intros HC. unfold dataset_update. change (c_sample_freq cfg') with (c_sample_freq cfg). assert (cats (initialize_supercats (ds_inner s))) as HC0 by exact HC. revert HC0. generalize (initialize_supercats (ds_inner s)). intros i0 HC0.
  destruct (skip_update _ _); [split; [reflexivity|intros s1 E; injection E as <-; exact HC0]|]. destruct (sample_features i0) as [i1| | |] eqn:E1; cbn [rbind]; [|split; [reflexivity|discriminate]..].
  assert (cats i1) as HC1.
  { unfold sample_features in E1. destruct (in_feature_sampling_enabled i0); [|injection E1 as <-; exact HC0]. apply rbind_ok in E1 as ((us & g) & Es & E1). injection E1 as <-. apply shuffle_perm in Es. intros f Hf. cbn [in_useful in_data] in *. apply HC0. eapply Permutation_in; [apply Permutation_sym, Es|exact Hf]. }
  clear E1 HC0 HC. set (s1 := mk_ds i1 _ _). destruct (example_sampling_enabled s1).
  - destruct (sample_examples s1) as [s2| | |] eqn:E2; cbn [rbind]; [|split; [reflexivity|discriminate]..].
    assert (cats (ds_inner s2)) as HC2. { unfold sample_examples in E2. apply rbind_ok in E2 as ((buf & g) & _ & E2). injection E2 as <-. exact HC1. }
    destruct (active_examples s2) as [ex| | |]; cbn [rbind]; [|split; [reflexivity|discriminate]..]. destruct (sc_features true ex grad (seq 0 (nactive_features s2)) (ds_inner s2) HC2) as [-> HX]. destruct (foldM _ _ _) as [i3| | |]; cbn [rbind]; [|split; [reflexivity|discriminate]..].
    split; [reflexivity|]. intros s3 E. injection E as <-. apply HX. reflexivity.
  - destruct (in_has_non_locard i1); [|split; [reflexivity|intros s2 E; injection E as <-; exact HC1]].
    destruct (sc_features false (seq 0 (d_nexamples (in_data i1))) grad (seq 0 (in_nactive_features i1)) i1 HC1) as [-> HX]. destruct (foldM _ _ _) as [i3| | |]; cbn [rbind]; [|split; [reflexivity|discriminate]..].
    split; [reflexivity|]. intros s3 E. injection E as <-. apply HX. reflexivity.
Qed.
End Learn.
End Scale.

(** On categorical features only, no split of a tree is numerical. *)
Section NoNum.
Variable O : numops.
Variable dbg : bool.
Variable cfg : config O.
Variable s : dataset O.
Hypothesis HC : cats O (ds_inner s).
Variable sizes : list nat.
Variable bounds : num O * num O.
Variable sched : nat -> list job -> list job.
Variable St : Type.
Variable lv : list nat -> St -> res (num O * St).
Variable oob : nat -> num O -> St -> res St.
Definition no_num (t : tree O) : Prop := forall c, In c (t_crits t) -> sc_type c <> NumLt.
Lemma best_no_num nd sp : find_best_split dbg cfg s nd = Ok sp -> sc_type (sp_crit sp) <> NumLt.
Proof.
  unfold find_best_split. intros E. apply rbind_ok in E as (fs & Ef & E). apply rbind_ok in E as (st & Es & E). injection E as <-.
  assert (forall f, In f fs -> In f (in_useful (ds_inner s))) as HF. { intros f Hf. unfold active_features, in_active_features, subslice in Ef. destruct (_ && _) in Ef; [|discriminate]. injection Ef as <-. cbn [skipn] in Hf. rewrite <- (firstn_skipn (in_nactive_features (ds_inner s) - 0) (in_useful (ds_inner s))). apply in_or_app. left. exact Hf. }
  assert (sc_type (sp_crit (snd (c_min_gain cfg, split_none O))) <> NumLt) as H0 by discriminate. clear Ef. revert Es H0. generalize (c_min_gain cfg, split_none O). revert HF. induction fs as [|f fs IH]; intros HF st0 Es H0; cbn [foldM] in Es; [injection Es as <-; exact H0|].
  apply rbind_ok in Es as (st1 & E1 & Es). refine (IH _ _ Es _); [intros; apply HF; right; assumption|]. clear IH Es. apply rbind_ok in E1 as (hist & _ & E1). apply rbind_ok in E1 as (nb & _ & E1). revert st0 E1 H0. generalize (seq 0 nb). intros l. induction l as [|b l IH]; intros st0 E1 H0; cbn [foldM] in E1; [injection E1 as <-; exact H0|].
  apply rbind_ok in E1 as (st2 & E2 & E1). refine (IH _ E1 _). clear IH E1. unfold split_step in E2. apply rbind_ok in E2 as (lh & _ & E2). apply rbind_ok in E2 as (rc & _ & E2). destruct (_ || _); [injection E2 as <-; exact H0|]. destruct (nlt O _ _); [|injection E2 as <-; exact H0].
  apply rbind_ok in E2 as (cr & Ec & E2). injection E2 as <-. cbn [snd sp_crit]. unfold make_crit in Ec. apply rbind_ok in Ec as (v & _ & Ec). apply rbind_ok in Ec as (ft & Et & Ec). injection Ec as <-. cbn [sc_type]. specialize (HC f (HF f (or_introl eq_refl))). destruct ft; try discriminate. congruence.
Qed.
Lemma value_no_num (t t1 : tree O) n v : set_node_value t n v = Ok t1 -> t_crits t1 = t_crits t.
Proof. unfold set_node_value. intros E. apply rbind_ok in E as (? & _ & E). apply rbind_ok in E as (vs & _ & E). injection E as <-. reflexivity. Qed.
Lemma split_no_num (t t1 : tree O) n c : split_node t n c = Ok t1 -> sc_type c <> NumLt -> no_num t -> no_num t1.
Proof.
  unfold split_node. intros E Hc Ht. repeat (apply rbind_ok in E as (? & ?E & E)). injection E as <-. intros c0 Hin. cbn [t_crits] in Hin. match goal with H : set_idx _ _ _ = Ok _ |- _ => apply set_idx_ok in H as [_ ->] end.
  apply In_nth_error in Hin as [m Hm]. rewrite nth_error_upd in Hm. match type of Hm with (if ?b then _ else _) = _ => destruct b end; [injection Hm as <-; exact Hc|]. apply Ht. eapply nth_error_In, Hm.
Qed.
Lemma step_no_num nd stack t st stack1 t1 st1 : train_step dbg cfg s sizes bounds sched St lv nd stack t st = Ok (stack1, t1, st1) -> no_num t -> no_num t1.
Proof.
  unfold train_step. intros E Ht. apply rbind_ok in E as (sp & Esp & E). apply best_no_num in Esp. destruct (is_no_split _).
  - apply rbind_ok in E as ((t2 & st2) & E2 & E). injection E as _ <- _. unfold predict_leaf_value in E2. apply rbind_ok in E2 as (? & _ & E2). apply rbind_ok in E2 as ((? & ?) & _ & E2). apply rbind_ok in E2 as (t3 & E3 & E2). injection E2 as <- _. apply value_no_num in E3. unfold no_num. rewrite E3. exact Ht.
  - destruct (negb _).
    + apply rbind_ok in E as ((? & ?) & _ & E). apply rbind_ok in E as (t2 & E2 & E). injection E as _ <- _. eapply split_no_num; eassumption.
    + apply rbind_ok in E as ((t2 & st2) & E2 & E). apply rbind_ok in E as (t3 & E3 & E). injection E as _ <- _. refine (split_no_num _ _ _ _ E3 Esp _). unfold predict_child_leaf_values in E2. do 2 apply rbind_ok in E2 as (? & _ & E2). apply rbind_ok in E2 as ((? & ?) & _ & E2). apply rbind_ok in E2 as (? & _ & E2). apply rbind_ok in E2 as ((? & ?) & _ & E2).
      apply rbind_ok in E2 as (t4 & E4 & E2). apply rbind_ok in E2 as (t5 & E5 & E2). injection E2 as <- _. apply value_no_num in E4. apply value_no_num in E5. unfold no_num. rewrite E5, E4. exact Ht.
Qed.
Lemma train_no_num grads st t st1 : train dbg cfg s sizes bounds sched St lv oob grads st = Ok (t, st1) -> no_num t.
Proof.
  unfold train. intros E. apply rbind_ok in E as (t0 & Et & E). apply rbind_ok in E as (root & _ & E). apply rbind_ok in E as ((t1 & st2) & E1 & E). apply rbind_ok in E as (? & _ & E). injection E as <- _.
  assert (no_num t0) as H0. { unfold tree_new in Et. apply rbind_ok in Et as (? & _ & Et). injection Et as <-. intros c Hc. cbn [t_crits] in Hc. apply repeat_spec in Hc. subst c. discriminate. }
  clear Et. revert H0 E1. generalize [root]. generalize (2 ^ (c_max_tree_depth cfg + 1)). intros fuel. revert t0 st. induction fuel as [|fuel IH]; intros t0 st0 [|nd rest] H0 E1; cbn [train_loop] in E1; try discriminate; try (injection E1 as <- _; exact H0).
  apply rbind_ok in E1 as (((stack2 & t2) & st3) & E2 & E1). refine (IH _ _ _ _ E1). eapply step_no_num; [exact E2|exact H0].
Qed.
End NoNum.
