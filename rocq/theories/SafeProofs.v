From Coq Require Import Permutation Sorting.Sorted.
From Verif Require Import Base BaseProofs BitModel BitSpec BitProofs BitProofs2 SimdModel SliceModel Num ScaledModel DataModel BinnerModel Config TreeModel DatasetModel LearnerModel ObjectiveModel MetricModel SafeSpec.

(* ---- composition ---- *)
Lemma safe_Ok A (a : A) : safe (Ok a). Proof. split; discriminate. Qed.
Lemma safe_Panic A : safe (@Panic A). Proof. split; discriminate. Qed.
Lemma safe_bind A B (m : res A) (k : A -> res B) : safe m -> (forall x, m = Ok x -> safe (k x)) -> safe (rbind m k).
Proof. intros [H1 H2] H. destruct m; cbn [rbind]; [apply H; reflexivity|apply safe_Panic|congruence|congruence]. Qed.
Lemma safe_of_ok A (m : res A) x : m = Ok x -> safe m. Proof. intros ->. apply safe_Ok. Qed.
Lemma safe_cases A (m : res A) : safe m -> (exists x, m = Ok x) \/ m = Panic.
Proof. intros [H1 H2]. destruct m; [left; eauto|right; reflexivity|congruence|congruence]. Qed.
Lemma safe_rassert b : safe (rassert b). Proof. destruct b; [apply safe_Ok|apply safe_Panic]. Qed.
Lemma safe_idx A (l : list A) i : safe (idx l i). Proof. unfold idx. destruct (nth_error l i); [apply safe_Ok|apply safe_Panic]. Qed.
Lemma safe_set_idx A (l : list A) i x : safe (set_idx l i x). Proof. unfold set_idx. destruct (_ <? _); [apply safe_Ok|apply safe_Panic]. Qed.
Lemma safe_subslice A (l : list A) a b : safe (subslice l a b). Proof. unfold subslice. destruct (_ && _); [apply safe_Ok|apply safe_Panic]. Qed.
Lemma safe_mapM A B (f : A -> res B) l : (forall x, In x l -> safe (f x)) -> safe (mapM f l).
Proof.
  induction l as [|x l IH]; intros H; [apply safe_Ok|]. cbn [mapM]. apply safe_bind; [apply H; left; reflexivity|]. intros y _. apply safe_bind; [|intros ys _; apply safe_Ok].
  apply IH. intros z Hz. apply H. right. exact Hz.
Qed.
Lemma safe_foldM A S (f : S -> A -> res S) l : (forall s x, In x l -> safe (f s x)) -> forall s, safe (foldM f l s).
Proof.
  induction l as [|x l IH]; intros H s; [apply safe_Ok|]. cbn [foldM]. apply safe_bind; [apply H; left; reflexivity|]. intros s' _. apply IH. intros s0 z Hz. apply H. right. exact Hz.
Qed.
Lemma safe_foldM_inv A S (I : S -> Prop) (f : S -> A -> res S) l : (forall s x, In x l -> I s -> safe (f s x) /\ forall s', f s x = Ok s' -> I s') -> forall s, I s -> safe (foldM f l s).
Proof.
  induction l as [|x l IH]; intros H s HI; [apply safe_Ok|]. cbn [foldM]. destruct (H s x (or_introl eq_refl) HI) as [H1 H2]. apply safe_bind; [exact H1|]. intros s' E. apply IH; [|apply H2, E].
  intros s0 z Hz. apply H. right. exact Hz.
Qed.
Create HintDb safe.
Global Hint Resolve safe_Ok safe_Panic safe_rassert safe_idx safe_set_idx safe_subslice : safe.
Ltac sf1 :=
  match goal with
  | |- safe (rbind _ _) => apply safe_bind; [|intros ? _]
  | |- safe (foldM _ _ _) => apply safe_foldM; intros
  | |- safe (mapM _ _) => apply safe_mapM; intros
  | |- safe (match ?x with _ => _ end) => destruct x
  | |- safe _ => solve [auto with safe]
  | _ => intros
  end.
Ltac sf := repeat (cbv zeta; sf1).

(* ---- bits ---- *)
Lemma safe_rd k m i : safe (rd k m i). Proof. unfold rd. sf. Qed.
Lemma safe_wr k m i v : safe (wr k m i v). Proof. unfold wr. sf. Qed.
Global Hint Resolve safe_rd safe_wr : safe.
Lemma safe_bs_get k m i : safe (bs_get k m i). Proof. unfold bs_get. sf. Qed.
Lemma safe_bs_set k m i v : safe (bs_set k m i v). Proof. unfold bs_set. sf. Qed.
Lemma safe_zero_blocks n : safe (zero_blocks n). Proof. unfold zero_blocks. sf. Qed.
Global Hint Resolve safe_bs_get safe_bs_set safe_zero_blocks : safe.
Lemma safe_zero_bits n : safe (zero_bits n). Proof. unfold zero_bits. sf. Qed.
Lemma safe_from_iter k n it : safe (from_iter k n it). Proof. unfold from_iter. sf. Qed.
Lemma safe_one_bits n : safe (one_bits n).
Proof. destruct n as [|n]; [split; vm_compute; discriminate|]. destruct (one_bits_ok (S n)) as (m & -> & _); [lia|]. apply safe_Ok. Qed.
Lemma safe_enable b i : safe (bv_enable_bit b i). Proof. unfold bv_enable_bit, bb_enable_bit. sf. Qed.
Lemma safe_set_value w v i x : safe (set_value w v i x). Proof. unfold set_value. sf. Qed.
Global Hint Resolve safe_zero_bits safe_from_iter safe_one_bits safe_enable safe_set_value : safe.

Section Safe.
Variable O : numops.

(* ---- data and binner ---- *)
Lemma safe_get_feature (d : data O) f : safe (get_feature d f). Proof. unfold get_feature. sf. Qed.
Lemma safe_feat_type (d : data O) f : safe (feat_type_of d f). Proof. unfold feat_type_of. sf. Qed.
Lemma safe_feat_card (d : data O) f : safe (feat_card d f). Proof. unfold feat_card. sf. Qed.
Lemma safe_feat_limits (d : data O) f : safe (feat_limits d f). Proof. unfold feat_limits. sf. Qed.
Hint Resolve safe_get_feature safe_feat_type safe_feat_card safe_feat_limits : safe.
Lemma safe_max_nbins (d : data O) f : safe (max_nbins d f). Proof. unfold max_nbins. sf. Qed.
Lemma safe_get_target (d : data O) : safe (get_target d). Proof. unfold get_target. sf. Qed.
Lemma safe_set_feature_data (d : data O) f v c : safe (set_feature_data d f v c). Proof. unfold set_feature_data. sf. Qed.
Hint Resolve safe_max_nbins safe_get_target : safe.
Lemma safe_binner_new B (bins : list B) (lo hi : num O) : safe (binner_new bins lo hi). Proof. unfold binner_new. sf. Qed.
Lemma safe_binner_insert B (b : binner O B) v c : safe (binner_insert b v c). Proof. unfold binner_insert. sf. Qed.
Hint Resolve safe_binner_new safe_binner_insert : safe.
Lemma safe_insert_all B l : forall b : binner O B, safe (binner_insert_all b l).
Proof. induction l as [|[v c] l IH]; intros b; cbn [binner_insert_all]; sf; apply IH. Qed.
Lemma safe_rank_next B R rle radd ex (bins : list B) (r : R) st : safe (@rank_next B R rle radd ex bins r st). Proof. unfold rank_next. sf. Qed.
Hint Resolve safe_insert_all safe_rank_next : safe.
Lemma safe_ranks_of B R rle radd ex (bins : list B) rs : forall st, safe (@ranks_of B R rle radd ex bins rs st).
Proof. induction rs as [|r rs IH]; intros st; cbn [ranks_of]; sf; apply IH. Qed.
Hint Resolve safe_ranks_of : safe.
Lemma safe_quantile n q l v : safe (quantile O n q l v). Proof. unfold quantile, bin_with_rank. sf. Qed.
Hint Resolve safe_quantile : safe.

(* ---- data sets ---- *)
Lemma safe_gen_range g a b : safe (gen_range g a b). Proof. unfold gen_range. sf. Qed.
Lemma safe_swap A (l : list A) i j : safe (swap l i j). Proof. unfold swap. sf. Qed.
Hint Resolve safe_gen_range safe_swap : safe.
Lemma safe_shuffle_loop n is : forall g buf, safe (shuffle_loop n is g buf).
Proof. induction is as [|i is IH]; intros g buf; cbn [shuffle_loop]; sf; apply IH. Qed.
Hint Resolve safe_shuffle_loop : safe.
Lemma safe_shuffle g k buf : safe (shuffle_first_k g k buf). Proof. unfold shuffle_first_k. sf. Qed.
Hint Resolve safe_shuffle : safe.
Lemma safe_fill get ex : (forall j, safe (get j)) -> forall i bvs, safe (fill_loop get ex i bvs).
Proof. intros H. induction ex as [|j ex IH]; intros i bvs; cbn [fill_loop]; sf; apply H || apply IH. Qed.
Lemma safe_accumulate bvs : safe (accumulate_bitvecs bvs). Proof. unfold accumulate_bitvecs. sf. Qed.
Lemma safe_set_bitvecs (s : inner O) f n : safe (set_bitvecs s f n). Proof. unfold set_bitvecs. sf. Qed.
Lemma safe_cat_at (f : list (num O)) i : safe (cat_at f i). Proof. unfold cat_at. sf. Qed.
Hint Resolve safe_accumulate safe_set_bitvecs safe_cat_at : safe.
Lemma safe_fill_bitvecs bvs ex get : (forall j, safe (get j)) -> safe (fill_bitvecs bvs ex get). Proof. intros H. apply safe_fill, H. Qed.
Lemma safe_locard (s : inner O) f ex : safe (update_locard_cat s f ex).
Proof. unfold update_locard_cat. sf. apply safe_fill_bitvecs. sf. Qed.
Hint Resolve safe_locard : safe.
Lemma safe_hicard_stats (feat grad : list (num O)) ex : forall i st, safe (hicard_stats feat grad ex i st).
Proof. induction ex as [|j ex IH]; intros i st; cbn [hicard_stats]; sf; apply IH. Qed.
Lemma safe_hicard_rank dbg (r : num O) i : safe (hicard_rank dbg r i). Proof. unfold hicard_rank, u32_pred. sf. Qed.
Hint Resolve safe_hicard_stats safe_hicard_rank : safe.
Lemma safe_groups dbg (cfg : config O) feat grad card n b ex : safe (hicard_groups dbg cfg feat grad card n b ex). Proof. unfold hicard_groups, rank_iter_all. sf. Qed.
Hint Resolve safe_groups : safe.
Lemma safe_hicard dbg (cfg : config O) s f ex grad b : safe (update_hicard_cat dbg cfg s f ex grad b).
Proof. unfold update_hicard_cat. sf. apply safe_fill_bitvecs. sf. Qed.
Lemma safe_num_items (feat grad : list (num O)) ex : safe (num_items feat grad ex). Proof. unfold num_items. sf. Qed.
Hint Resolve safe_hicard safe_num_items : safe.
Lemma safe_candidates (cfg : config O) feat grad l ex : safe (num_candidates cfg feat grad l ex). Proof. unfold num_candidates, rank_iter_all. sf. Qed.
Hint Resolve safe_candidates : safe.
Lemma safe_update_num (cfg : config O) s f ex grad : safe (update_num cfg s f ex grad).
Proof. unfold update_num. sf. apply safe_fill_bitvecs. sf. Qed.
Hint Resolve safe_update_num : safe.
Lemma safe_useful_step (d : data O) n st f : safe (useful_step d n st f). Proof. unfold useful_step. sf. Qed.
Hint Resolve safe_useful_step : safe.
Lemma safe_inner_new (cfg : config O) d g : safe (inner_new cfg d g). Proof. unfold inner_new. sf. Qed.
Hint Resolve safe_inner_new : safe.
Lemma safe_dataset_new (cfg : config O) d g : safe (dataset_new cfg d g). Proof. unfold dataset_new. sf. Qed.
Lemma safe_sample_features (s : inner O) : safe (sample_features s). Proof. unfold sample_features. sf. Qed.
Lemma safe_sample_examples (s : dataset O) : safe (sample_examples s). Proof. unfold sample_examples. sf. Qed.
Lemma safe_active_examples (s : dataset O) : safe (active_examples s). Proof. unfold active_examples. sf. Qed.
Lemma safe_update_feature dbg (cfg : config O) lo ex grad b s u : safe (update_feature dbg cfg lo ex grad b s u). Proof. unfold update_feature. sf. Qed.
Hint Resolve safe_sample_features safe_sample_examples safe_active_examples safe_update_feature : safe.
Lemma safe_dataset_update dbg (cfg : config O) s grad b : safe (dataset_update dbg cfg s grad b). Proof. unfold dataset_update. sf. Qed.
Lemma skip_active_ge a : forall i, i <= snd (skip_active a i).
Proof. induction a as [|x a IH]; intros i; cbn [skip_active]; [apply le_n|]. destruct (x =? i); [|apply le_n]. specialize (IH (S i)). lia. Qed.
Lemma safe_drain fuel n : forall a i, n <= fuel + i -> safe (inactive_drain (S fuel) n (a, i)).
Proof.
  induction fuel as [|fuel IH]; intros a i H.
  - cbn [inactive_drain]. unfold inactive_next. cbn [fst snd]. pose proof (skip_active_ge a i) as Hge. destruct (skip_active a i) as [a' i']. cbn [snd] in Hge. destruct (i' <? n) eqn:E; [|apply safe_Ok].
    apply Nat.ltb_lt in E. lia.
  - remember (S fuel) as k. cbn [inactive_drain]. subst k. unfold inactive_next. cbn [fst snd]. pose proof (skip_active_ge a i) as Hge. destruct (skip_active a i) as [a' i']. cbn [snd] in Hge. destruct (i' <? n) eqn:E; [|apply safe_Ok].
    apply safe_bind; [|intros; apply safe_Ok]. apply IH. lia.
Qed.
Lemma safe_inactive (s : dataset O) : safe (inactive_examples s). Proof. unfold inactive_examples. sf. apply safe_drain. lia. Qed.
Lemma safe_map_index (s : dataset O) i : safe (map_index s i). Proof. unfold map_index. sf. Qed.
Lemma safe_examples_list (s : dataset O) : safe (active_examples_list s). Proof. unfold active_examples_list. sf. Qed.
Lemma safe_get_nbins (s : dataset O) f : safe (get_nbins s f). Proof. unfold get_nbins. sf. Qed.
Lemma safe_get_bitvec (s : dataset O) f b : safe (ds_get_bitvec s f b). Proof. unfold ds_get_bitvec. sf. Qed.
Lemma safe_split_value (s : dataset O) f b : safe (get_split_value s f b). Proof. unfold get_split_value. sf. Qed.
Lemma safe_active_features (s : dataset O) : safe (active_features s). Proof. unfold active_features, in_active_features. sf. Qed.
Hint Resolve safe_inactive safe_map_index safe_examples_list safe_get_nbins safe_get_bitvec safe_split_value safe_active_features : safe.

(* ---- trees ---- *)
Lemma safe_goes_left (t : tree O) c v : safe (goes_left t c v). Proof. unfold goes_left. sf. Qed.
Hint Resolve safe_goes_left : safe.
Lemma safe_leaf_loop (t : tree O) d i : forall fuel node, length (t_crits t) <= fuel + node -> safe (leaf_id_loop (S fuel) t d i node).
Proof.
  induction fuel as [|fuel IH]; intros node H.
  - cbn [leaf_id_loop]. unfold idx at 1. rewrite (proj2 (nth_error_None _ _)) by lia. apply safe_Panic.
  - remember (S fuel) as k. cbn [leaf_id_loop]. subst k. sf; apply IH; unfold left_child, right_child; lia.
Qed.
Lemma safe_leaf_id (t : tree O) d i : safe (predict_leaf_id t d i). Proof. unfold predict_leaf_id. apply safe_leaf_loop. lia. Qed.
Hint Resolve safe_leaf_id : safe.
Lemma safe_predict_single (t : tree O) d i : safe (predict_single t d i). Proof. unfold predict_single. sf. Qed.
Hint Resolve safe_predict_single : safe.
Lemma safe_predict_and (t : tree O) d f buf : safe (predict_and t d f buf). Proof. unfold predict_and. sf. Qed.
Hint Resolve safe_predict_and : safe.
Lemma safe_additive_predict (m : additive_tree O) d buf : safe (additive_predict_buf m d buf). Proof. unfold additive_predict_buf. sf. Qed.
Lemma safe_tree_new D sup : safe (tree_new O D sup). Proof. unfold tree_new. sf. Qed.
Lemma safe_split_node (t : tree O) n c : safe (split_node t n c). Proof. unfold split_node. sf. Qed.
Lemma safe_set_node_value (t : tree O) n v : safe (set_node_value t n v). Proof. unfold set_node_value. sf. Qed.

(* ---- objectives and metrics ---- *)
Lemma safe_oob i v (ob : objective O) : safe (update_out_of_bag i v ob). Proof. unfold update_out_of_bag. sf. Qed.
Lemma safe_median l v : safe (@median O l v). Proof. unfold median. sf. Qed.
Hint Resolve safe_median : safe.
Lemma safe_obj_initialize M dbg (cfg : config O) t ob : safe (obj_initialize M dbg cfg t ob). Proof. unfold obj_initialize. sf. Qed.
Lemma safe_obj_update M t (ob : objective O) : safe (obj_update M t ob). Proof. unfold obj_update. sf. Qed.
Lemma safe_residual (t p : list (num O)) i : safe (residual t p i). Proof. unfold residual. sf. Qed.
Hint Resolve safe_residual : safe.
Lemma safe_raw_leaf M t ex (ob : objective O) : safe (raw_leaf_value M t ex ob). Proof. unfold raw_leaf_value. sf. Qed.
Lemma safe_update_pred (v : num O) p i : safe (update_pred v p i). Proof. unfold update_pred. sf. Qed.
Hint Resolve safe_raw_leaf safe_update_pred : safe.
Lemma safe_leaf_value M t ex (ob : objective O) : safe (obj_leaf_value M t ex ob). Proof. unfold obj_leaf_value, update_predictions. sf. Qed.
End Safe.
