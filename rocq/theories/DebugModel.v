(** Model of debug builds: the functions of the other models with the code's [debug_assert!]s that those models leave out.  Definitions only.
    Each function is that of the release model plus [rassert]s; the citations are those of the assertions. *)
From Verif Require Import Base BitModel BitSpec SliceModel SimdModel Num DataModel Config BinnerModel TreeModel DatasetModel ScaledModel LearnerModel ObjectiveModel.

Section Debug.
Variable O : numops.

(** lib.rs:18: [debug_assert!(x >= 0.0 && x.round() == x)] *)
Definition is_cat (x : num O) : bool := nle O (nofZ O 0) x && neq O (nround O x) x.
Definition into_cat_dbg (x : num O) : res nat := let* _ := rassert (is_cat x) in Ok (into_cat x).

(** binner.rs:98-117 with the assertions of lines 107, 116 and 117. *)
Section Rank.
Variables (B R : Type) (rzero : R) (rle : R -> R -> bool) (radd : R -> R -> R) (extractor : B -> R).
Definition rank_next_dbg (bins : list B) (rank : R) (st : rank_iter R) : res (nat * rank_iter R) :=
  let* _ := rassert (rle rzero rank) in
  let '(st', _) := rank_loop rle radd extractor (skipn (ri_idx st) bins) rank st in
  let* _ := rassert (rle rank (ri_accum st')) in
  let* _ := rassert (ri_idx st' <=? length bins) in
  match ri_idx st' with
  | 0 => Panic
  | S i => Ok (i, st')
  end.
Fixpoint ranks_of_dbg (bins : list B) (ranks : list R) (st : rank_iter R) : res (list nat) :=
  match ranks with
  | [] => Ok []
  | r :: t =>
    let* (i, st') := rank_next_dbg bins r st in
    let* is := ranks_of_dbg bins t st' in
    Ok (i :: is)
  end.
Definition rank_iter_all_dbg (b : binner O B) (ranks : list R) : res (list nat) := ranks_of_dbg (bn_bins b) ranks (mk_ri rzero rzero 0).
Definition bin_with_rank_dbg (b : binner O B) (rank : R) : res nat := let* (i, _) := rank_next_dbg (bn_bins b) rank (mk_ri rzero rzero 0) in Ok i.
End Rank.

(** objective.rs:125-143: as [quantile], with the assertions of binner.rs. *)
Definition quantile_dbg (nbins : nat) (q : num O) (limits : num O * num O) (values : list (num O)) : res (num O) :=
  let* b0 := binner_new (repeat 0%N nbins) (fst limits) (snd limits) in
  let* b := binner_insert_all b0 (map (fun v => (v, u32_inc 1)) values) in
  let rank := Z.to_N (ntoZ O 0 4294967295 (nfloor O (nmul O (nofnat O (length values)) q))) in
  let* bin := bin_with_rank_dbg N N 0%N N.leb N.add (fun x => x) b rank in
  Ok (bin_representative b (bin + 1)).

(** dataset.rs:274-287 with the assertion of line 282. *)
Fixpoint fill_loop_dbg (get_cat : nat -> res nat) (examples : list nat) (i : nat) (bvs : list blocks) : res (list blocks) :=
  match examples with
  | [] => Ok bvs
  | j :: rest =>
    let* category := get_cat j in
    let* _ := rassert (category <=? length bvs) in
    if category <? length bvs then
      let* bv := idx bvs category in
      let* bv' := bv_enable_bit bv i in
      let* bvs' := set_idx bvs category bv' in
      fill_loop_dbg get_cat rest (S i) bvs'
    else fill_loop_dbg get_cat rest (S i) bvs
  end.

(** dataset.rs:289-294 with the assertion of simd.rs:465. *)
Fixpoint accumulate_loop_dbg (b0 : blocks) (rest : list blocks) : res (list blocks) :=
  match rest with
  | [] => Ok [b0]
  | b1 :: t => let* _ := rassert (length b1 =? length b0) in let* t' := accumulate_loop_dbg (or_assign b1 b0) t in Ok (b0 :: t')
  end.
Definition accumulate_dbg (bvs : list blocks) : res (list blocks) :=
  match bvs with [] => Panic | b0 :: t => accumulate_loop_dbg b0 t end.

(** dataset.rs:105-114: lib.rs:18, dataset.rs:111, 282 *)
Definition cat_at_dbg (feat : list (num O)) (i : nat) : res nat := let* v := idx feat i in into_cat_dbg v.
Definition update_locard_dbg (s : inner O) (feat_id : nat) (examples : list nat) : res (inner O) :=
  let* feat := get_feature (in_data s) feat_id in
  let* nb := max_nbins (in_data s) feat_id in
  let* used := set_idx (in_used_nbins s) feat_id nb in
  let* bvs := idx (in_bitvecs s) feat_id in
  let* _ := rassert (nb =? length bvs) in
  let* bvs' := fill_loop_dbg (cat_at_dbg feat) examples 0 (zero_bitvecs bvs) in
  let* bitvecs := set_bitvecs s feat_id bvs' in
  Ok (mk_inner (in_rng s) (in_data s) (in_useful s) (in_nactive_features s) (in_nactive_examples s) bitvecs (in_supercats s)
        (in_split_candidates s) used (in_has_non_locard s)).

(** dataset.rs:122-130: lib.rs:18 *)
Fixpoint hicard_stats_dbg (feat grad : list (num O)) (examples : list nat) (i : nat) (stats : list (num O * N)) : res (list (num O * N)) :=
  match examples with
  | [] => Ok stats
  | j :: rest =>
    let* category := cat_at_dbg feat j in
    let* e := idx stats category in
    let* g := idx grad i in
    let* stats' := set_idx stats category (nadd O (fst e) g, u32_inc 1 (snd e)) in
    hicard_stats_dbg feat grad rest (S i) stats'
  end.
(** dataset.rs:122-168: binner.rs:107-117, dataset.rs:156 *)
Definition hicard_groups_dbg (cfg : config O) (feat grad : list (num O)) (card nactive : nat) (bounds : num O * num O)
  (examples : list nat) : res (list (num O) * list nat) :=
  let* stats0 := hicard_stats_dbg feat grad examples 0 (repeat (nofZ O 0, 0%N) card) in
  let* b0 := binner_new (repeat 0%N QUANTILE_EST_NBINS) (fst bounds) (snd bounds) in
  let stats := map category_mean stats0 in
  let* b := binner_insert_all b0 (mean_items stats) in
  let rank_step := ndiv O (nofnat O nactive) (nofnat O (c_max_nbins cfg + 1)) in
  let* ranks := mapM (hicard_rank true rank_step) (seq 1 (c_max_nbins cfg)) in
  let* qbins := rank_iter_all_dbg N N 0%N N.leb N.add (fun x => x) b ranks in
  let split_weights := map (fun bin => bin_representative b (bin + 1)) (dedup_bins None qbins) in
  let* _ := rassert (length split_weights <=? c_max_nbins cfg) in
  Ok (split_weights, map (fun e => leading_below (nlt O) split_weights (fst e)) stats).
(** dataset.rs:116-184: the above, and lib.rs:18, dataset.rs:282 again *)
Definition update_hicard_dbg (cfg : config O) (s : inner O) (feat_id : nat) (examples : list nat) (grad : list (num O))
  (bounds : num O * num O) : res (inner O) :=
  let* feat := get_feature (in_data s) feat_id in
  let* card := feat_card (in_data s) feat_id in
  let* (split_weights, supercats) := hicard_groups_dbg cfg feat grad card (in_nactive_examples s) bounds examples in
  let supercard := length split_weights in
  let* all := idx (in_bitvecs s) feat_id in
  let* bvs := subslice all 0 supercard in
  let* bvs1 := fill_loop_dbg (fun i => let* c := cat_at_dbg feat i in idx supercats c) examples 0 (zero_bitvecs bvs) in
  let* bvs2 := accumulate_dbg bvs1 in
  let* bitvecs := set_bitvecs s feat_id bvs2 in
  let* used := set_idx (in_used_nbins s) feat_id supercard in
  let* scs := set_idx (in_supercats s) feat_id supercats in
  Ok (mk_inner (in_rng s) (in_data s) (in_useful s) (in_nactive_features s) (in_nactive_examples s) bitvecs scs
        (in_split_candidates s) used (in_has_non_locard s)).

(** dataset.rs:186-235: binner.rs:107-117 *)
Definition num_candidates_dbg (cfg : config O) (feat grad : list (num O)) (limits : num O * num O) (examples : list nat)
  : res (list (num O) * binner O nat) :=
  let* b0 := binner_new (repeat (nofZ O 0) QUANTILE_EST_NBINS) (fst limits) (snd limits) in
  let* items := num_items feat grad examples in
  let* b := binner_insert_all b0 (map (fun it => (fst it, fun x => nadd O x (snd it))) items) in
  let weight_sum := fold_left (fun a it => nadd O a (snd it)) items (nofZ O 0) in
  let weight_step := ndiv O weight_sum (nofnat O (c_max_nbins cfg + 1)) in
  let weights := map (fun i => nmul O (nofnat O i) weight_step) (seq 1 (c_max_nbins cfg)) in
  let* qbins := rank_iter_all_dbg (num O) (num O) (nofZ O 0) (nle O) (nadd O) (fun x => x) b weights in
  let cands := map (fun bin => bin_representative b (bin + 1)) (dedup_bins None qbins) in
  let* _ := rassert (length cands <=? c_max_nbins cfg) in
  let* _ := rassert (0 <? length cands) in
  let* b2 := binner_new (repeat 0 QUANTILE_EST_NBINS) (fst limits) (snd limits) in
  let cats := map (fun i => leading_below (nlt O) cands (bin_representative b2 (i + 1))) (seq 0 QUANTILE_EST_NBINS) in
  Ok (cands, mk_binner cats (bn_min b2) (bn_delta b2)).
(** dataset.rs:237-266: dataset.rs:282 *)
Definition update_num_dbg (cfg : config O) (s : inner O) (feat_id : nat) (examples : list nat) (grad : list (num O)) : res (inner O) :=
  let* feat := get_feature (in_data s) feat_id in
  let* limits := feat_limits (in_data s) feat_id in
  let* (cands, b) := num_candidates_dbg cfg feat grad limits examples in
  let* all := idx (in_bitvecs s) feat_id in
  let* bvs := subslice all 0 (length cands) in
  let* bvs1 := fill_loop_dbg (fun i => let* v := idx feat i in idx (bn_bins b) (get_bin b v)) examples 0 (zero_bitvecs bvs) in
  let* bvs2 := accumulate_dbg bvs1 in
  let* bitvecs := set_bitvecs s feat_id bvs2 in
  let* used := set_idx (in_used_nbins s) feat_id (length cands) in
  let* scands := set_idx (in_split_candidates s) feat_id cands in
  Ok (mk_inner (in_rng s) (in_data s) (in_useful s) (in_nactive_features s) (in_nactive_examples s) bitvecs (in_supercats s)
        scands used (in_has_non_locard s)).

(** dataset.rs:373-385, 395-404 *)
Definition update_feature_dbg (cfg : config O) (locard : bool) (examples : list nat) (grad : list (num O))
  (bounds : num O * num O) (s : inner O) (u : nat) : res (inner O) :=
  let* feat_id := idx (in_useful s) u in
  let* ft := feat_type_of (in_data s) feat_id in
  match ft with
  | LoCardCat => if locard then update_locard_dbg s feat_id examples else Ok s
  | HiCardCat => update_hicard_dbg cfg s feat_id examples grad bounds
  | Numerical => update_num_dbg cfg s feat_id examples grad
  end.
(** dataset.rs:352-405 *)
Definition dataset_update_dbg (cfg : config O) (s : dataset O) (grad : list (num O)) (bounds : num O * num O) : res (dataset O) :=
  let count := ds_update_count s + 1 in
  let i0 := initialize_supercats (ds_inner s) in
  if skip_update (c_sample_freq cfg) count then Ok (mk_ds i0 (ds_index_buffer s) count) else
  let* i1 := sample_features i0 in
  let s1 := mk_ds i1 (ds_index_buffer s) count in
  if example_sampling_enabled s1 then
    let* s2 := sample_examples s1 in
    let* examples := active_examples s2 in
    let* i3 := foldM (update_feature_dbg cfg true examples grad bounds) (seq 0 (nactive_features s2)) (ds_inner s2) in
    Ok (mk_ds i3 (ds_index_buffer s2) count)
  else if in_has_non_locard i1 then
    let* i2 := foldM (update_feature_dbg cfg false (seq 0 (d_nexamples (in_data i1))) grad bounds) (seq 0 (in_nactive_features i1)) i1 in
    Ok (mk_ds i2 (ds_index_buffer s1) count)
  else Ok s1.
(** dataset.rs:314-337 *)
Definition dataset_new_dbg (cfg : config O) (d : data O) (g : rng) : res (dataset O) :=
  let* s := inner_new cfg d g in
  if nlt O (c_example_fraction cfg) (nofZ O 1) then Ok (mk_ds s (seq 0 (d_nexamples d)) 0)
  else
    let* s' := foldM (fun s feat_id =>
                 let* ft := feat_type_of d feat_id in
                 if is_locard ft then update_locard_dbg s feat_id (seq 0 (d_nexamples d)) else Ok s) (in_useful s) s in
    Ok (mk_ds s' [] 0).
(** dataset.rs:415-418 *)
Definition map_index_dbg (s : dataset O) (local_index : nat) : res nat :=
  let* _ := rassert (example_sampling_enabled s) in
  let* a := active_examples s in idx a local_index.
(** learner.rs:191-219 [extend_examples] with the assertion of [map_index]. *)
Definition to_examples_dbg (s : dataset O) (l : list nat) : res (list nat) :=
  let* ex := (if example_sampling_enabled s then mapM (map_index_dbg s) l else Ok l) in
  let* _ := rassert (negb (length ex =? 0)) in
  Ok ex.

(** tree.rs:115-160 with the assertions of line 129 and lib.rs:18 (twice). *)
Definition goes_left_dbg (t : tree O) (c : split_crit O) (value : num O) : res (option bool) :=
  match sc_type c with
  | LoCardCatEq => Ok (Some (neq O value (sc_value c)))
  | HiCardCatLt =>
    let* _ := rassert (negb (length (t_supercats t) =? 0)) in
    let* _ := rassert (sc_feature c <? length (t_supercats t)) in
    let* supercats := idx (t_supercats t) (sc_feature c) in
    let* cat_value := into_cat_dbg value in
    let* spcat := (if cat_value <? length supercats then idx supercats cat_value else Ok (length supercats)) in
    let* sv := into_cat_dbg (sc_value c) in
    Ok (Some (spcat <=? sv))
  | NumLt => Ok (Some (nlt O value (sc_value c)))
  | NoSplit => Ok None
  end.
Fixpoint leaf_id_loop_dbg (fuel : nat) (t : tree O) (d : data O) (i node : nat) : res nat :=
  match fuel with
  | 0 => OutOfFuel
  | S fuel' =>
    let* c := idx (t_crits t) node in
    let* feat := get_feature d (sc_feature c) in
    let* value := idx feat i in
    let* r := goes_left_dbg t c value in
    match r with
    | Some true => leaf_id_loop_dbg fuel' t d i (left_child node)
    | Some false => leaf_id_loop_dbg fuel' t d i (right_child node)
    | None => Ok node
    end
  end.
Definition predict_leaf_id_dbg (t : tree O) (d : data O) (i : nat) : res nat := leaf_id_loop_dbg (S (length (t_crits t))) t d i 0.

(** learner.rs:804-833 with the assertions of simd.rs:352-389 (not compressed) and 402-448 (compressed): lengths of the arguments of the summing kernel. *)
Definition get_grad_sum_dbg (cfg : config O) (bounds : num O * num O) (nd : node O) (fm : blocks) : res (histval O) :=
  let w := c_discr_nbits cfg in
  let* count := (if nd_compr nd then bitvec_count_and_c (nd_mask nd) (nd_idx nd) fm else count_ones_and (nd_mask nd) fm) in
  let c := (count mod 4294967296)%N in
  if (c <? c_min_examples_leaf cfg)%N then Ok (nofZ O 0, c) else
  let* sum := (if nd_compr nd then
                 let* _ := rassert (length (nd_idx nd) * w =? length (nd_grads nd)) in
                 let* _ := rassert (length (nd_mask nd) * w =? length (nd_grads nd)) in
                 sum_all_masked2_compr_unsafe w (nd_grads nd) (nd_idx nd) (nd_mask nd) fm
               else
                 let* _ := rassert (length (nd_mask nd) * w =? length (nd_grads nd)) in
                 let* _ := rassert (length fm * w =? length (nd_grads nd)) in
                 sum_all_masked2_unsafe w (nd_grads nd) (nd_mask nd) fm) in
  Ok (linproj O w (nofN O sum) (nofN O c) bounds, c).
End Debug.
