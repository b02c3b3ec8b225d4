(** Model of src/dataset.rs.  Definitions only.

    Bit vectors are modelled by their contents (a list of 256-bit blocks per bin); that a slice handed out by the block
    store is not changed through another one is property C13.  The random number generator is an arbitrary infinite
    stream of naturals; a number in a range is drawn from its head, so that every sequence of draws is the behaviour
    of some stream.  [dbg] is the build mode (debug builds panic on integer underflow, release builds wrap). *)
From Verif Require Import Base BitModel SimdModel Num DataModel BinnerModel Config.

(** dataset.rs:21 *)
Definition QUANTILE_EST_NBINS : nat := 512.

(** The generator: rand's [gen_range(low, high)] panics unless [low < high]. *)
Definition rng := nat -> nat.
Definition gen_range (g : rng) (low high : nat) : res (nat * rng) :=
  if low <? high then Ok (low + g 0 mod (high - low), fun k => g (S k)) else Panic.

(** [slice::swap] *)
Definition swap {A} (l : list A) (i j : nat) : res (list A) :=
  let* x := idx l i in
  let* y := idx l j in
  Ok (upd (upd l i y) j x).

(** [sort_unstable] on [usize] (the result does not depend on the algorithm). *)
Fixpoint insert_sorted (x : nat) (l : list nat) : list nat :=
  match l with [] => [x] | y :: t => if x <=? y then x :: l else y :: insert_sorted x t end.
Definition sort_unstable (l : list nat) : list nat := fold_right insert_sorted [] l.

(** dataset.rs:521-529 [shuffle_first_k] *)
Fixpoint shuffle_loop (n : nat) (is : list nat) (g : rng) (buf : list nat) : res (list nat * rng) :=
  match is with
  | [] => Ok (buf, g)
  | i :: is' =>
    let* (j, g') := gen_range g i n in
    let* buf' := swap buf i j in
    shuffle_loop n is' g' buf'
  end.
Definition shuffle_first_k (g : rng) (k : nat) (buf : list nat) : res (list nat * rng) :=
  let* (buf', g') := shuffle_loop (length buf) (seq 0 k) g buf in
  let* first := subslice buf' 0 k in
  Ok (sort_unstable first ++ skipn k buf', g').

(** dataset.rs:494-513: [next] of the iterator over the inactive examples; state: remaining active examples, index. *)
Fixpoint skip_active (active : list nat) (index : nat) : list nat * nat :=
  match active with
  | i :: rest => if i =? index then skip_active rest (S index) else (active, index)
  | [] => ([], index)
  end.
Definition inactive_next (n : nat) (st : list nat * nat) : option (nat * (list nat * nat)) :=
  let '(active, index) := skip_active (fst st) (snd st) in
  if index <? n then Some (index, (active, S index)) else None.
(** The iterator run to its end (one unit of fuel per item). *)
Fixpoint inactive_drain (fuel n : nat) (st : list nat * nat) : res (list nat) :=
  match fuel with
  | 0 => OutOfFuel
  | S fuel' => match inactive_next n st with
               | None => Ok []
               | Some (x, st') => let* l := inactive_drain fuel' n st' in Ok (x :: l)
               end
  end.

(** [Vec::resize] *)
Definition vec_resize {A} (l : list A) (n : nat) (x : A) : list A :=
  if length l <=? n then l ++ repeat x (n - length l) else firstn n l.

(** dataset.rs:160-163, 228-231: the number of leading [split]s below [x]. *)
Fixpoint leading_below {A} (lt : A -> A -> bool) (splits : list A) (x : A) : nat :=
  match splits with
  | [] => 0
  | s :: t => if lt s x then S (leading_below lt t x) else 0
  end.

(** dataset.rs:143-150, 208-215: consecutive equal bins are skipped; [last] is [None] for [usize::max_value()]. *)
Fixpoint dedup_bins (last : option nat) (bins : list nat) : list nat :=
  match bins with
  | [] => []
  | b :: t => if match last with Some l => b =? l | None => false end then dedup_bins last t else b :: dedup_bins (Some b) t
  end.

(** dataset.rs:268-272 *)
Definition zero_bitvecs (bvs : list blocks) : list blocks := map (fun b : blocks => repeat bb_zeros (length b)) bvs.

(** dataset.rs:274-287 *)
Fixpoint fill_loop (get_cat : nat -> res nat) (examples : list nat) (i : nat) (bvs : list blocks) : res (list blocks) :=
  match examples with
  | [] => Ok bvs
  | j :: rest =>
    let* category := get_cat j in
    if category <? length bvs then
      let* bv := idx bvs category in
      let* bv' := bv_enable_bit bv i in
      let* bvs' := set_idx bvs category bv' in
      fill_loop get_cat rest (S i) bvs'
    else fill_loop get_cat rest (S i) bvs
  end.
Definition fill_bitvecs (bvs : list blocks) (examples : list nat) (get_cat : nat -> res nat) : res (list blocks) :=
  fill_loop get_cat examples 0 bvs.

(** dataset.rs:289-294; [bitvecs[1..]] panics if there are no bitvecs. *)
Fixpoint accumulate_loop (b0 : blocks) (rest : list blocks) : list blocks :=
  match rest with
  | [] => [b0]
  | b1 :: t => b0 :: accumulate_loop (or_assign b1 b0) t
  end.
Definition accumulate_bitvecs (bvs : list blocks) : res (list blocks) :=
  match bvs with [] => Panic | b0 :: t => Ok (accumulate_loop b0 t) end.

Section Dataset.
Variable O : numops.

(** lib.rs:16, [std::f32::EPSILON] = 2^-23 *)
Definition EPSILON : num O := ndiv O (nofZ O 1) (nofZ O 8388608).

(** dataset.rs:23-35 *)
Record inner : Type := mk_inner {
  in_rng : rng;
  in_data : data O;
  in_useful : list nat;
  in_nactive_features : nat;
  in_nactive_examples : nat;
  in_bitvecs : list (list blocks);
  in_supercats : list (list nat);
  in_split_candidates : list (list (num O));
  in_used_nbins : list nat;
  in_has_non_locard : bool
}.

(** [(n as NumT * fraction).round() as usize] (saturating at the bounds of a 64-bit [usize]). *)
Definition scaled_count (n : nat) (fraction : num O) : nat :=
  Z.to_nat (ntoZ O 0 18446744073709551615 (nround O (nmul O (nofnat O n) fraction))).

(** dataset.rs:53-69: the loop over the features. *)
Definition useful_step (d : data O) (nactive : nat) (st : list nat * list (list blocks) * bool) (feat_id : nat)
  : res (list nat * list (list blocks) * bool) :=
  let '(useful, bitvecs, non_locard) := st in
  let* nb := max_nbins d feat_id in
  if nb =? 0 then Ok st else
  let* lim := feat_limits d feat_id in
  if neq O (fst lim) (snd lim) then Ok st else
  let* ft := feat_type_of d feat_id in
  let* bvs := mapM (fun _ => zero_bits nactive) (seq 0 nb) in
  let* bitvecs' := set_idx bitvecs feat_id bvs in
  Ok (useful ++ [feat_id], bitvecs', non_locard || negb (is_locard ft)).
(** dataset.rs:38-85 *)
Definition inner_new (cfg : config O) (d : data O) (g : rng) : res inner :=
  let n := d_nfeatures d in
  let nactive := scaled_count (d_nexamples d) (c_example_fraction cfg) in
  let* (u, non_locard) := foldM (useful_step d nactive) (seq 0 n) ([], repeat [] n, false) in
  let '(useful, bitvecs) := u in
  Ok (mk_inner g d useful (scaled_count (length useful) (c_feature_fraction cfg)) nactive bitvecs [] (repeat [] n) (repeat 0 n) non_locard).

(** dataset.rs:87-89 *)
Definition in_feature_sampling_enabled (s : inner) : bool := in_nactive_features s <? length (in_useful s).
(** dataset.rs:91-95 *)
Definition sample_features (s : inner) : res inner :=
  if in_feature_sampling_enabled s then
    let* (u, g) := shuffle_first_k (in_rng s) (in_nactive_features s) (in_useful s) in
    Ok (mk_inner g (in_data s) u (in_nactive_features s) (in_nactive_examples s) (in_bitvecs s) (in_supercats s)
          (in_split_candidates s) (in_used_nbins s) (in_has_non_locard s))
  else Ok s.
(** dataset.rs:97-99 *)
Definition in_active_features (s : inner) : res (list nat) := subslice (in_useful s) 0 (in_nactive_features s).
(** dataset.rs:101-103 *)
Definition initialize_supercats (s : inner) : inner :=
  mk_inner (in_rng s) (in_data s) (in_useful s) (in_nactive_features s) (in_nactive_examples s) (in_bitvecs s)
    (vec_resize (in_supercats s) (d_nfeatures (in_data s)) []) (in_split_candidates s) (in_used_nbins s) (in_has_non_locard s).

(** A feature's bit vectors replaced: the first [length new] of them, the others kept ([store] writes through ranges). *)
Definition set_bitvecs (s : inner) (feat_id : nat) (new : list blocks) : res (list (list blocks)) :=
  let* old := idx (in_bitvecs s) feat_id in
  set_idx (in_bitvecs s) feat_id (new ++ skipn (length new) old).

(** [into_cat(data[i]) as usize] *)
Definition cat_at (feat : list (num O)) (i : nat) : res nat := let* v := idx feat i in Ok (into_cat v).

(** dataset.rs:105-114 *)
Definition update_locard_cat (s : inner) (feat_id : nat) (examples : list nat) : res inner :=
  let* feat := get_feature (in_data s) feat_id in
  let* nb := max_nbins (in_data s) feat_id in
  let* used := set_idx (in_used_nbins s) feat_id nb in
  let* bvs := idx (in_bitvecs s) feat_id in
  let* bvs' := fill_bitvecs (zero_bitvecs bvs) examples (cat_at feat) in
  let* bitvecs := set_bitvecs s feat_id bvs' in
  Ok (mk_inner (in_rng s) (in_data s) (in_useful s) (in_nactive_features s) (in_nactive_examples s) bitvecs (in_supercats s)
        (in_split_candidates s) used (in_has_non_locard s)).

(** dataset.rs:122-130: gradient sum and count per category.  The gradient is indexed with the position [i] of the
    example in the iteration, the category with its index [j].  The [u32] counter does not overflow below 2^32 examples. *)
Fixpoint hicard_stats (feat grad : list (num O)) (examples : list nat) (i : nat) (stats : list (num O * N)) : res (list (num O * N)) :=
  match examples with
  | [] => Ok stats
  | j :: rest =>
    let* category := cat_at feat j in
    let* e := idx stats category in
    let* g := idx grad i in
    let* stats' := set_idx stats category (nadd O (fst e) g, u32_inc 1 (snd e)) in
    hicard_stats feat grad rest (S i) stats'
  end.
(** dataset.rs:135-141: a category's sum is replaced by its mean; categories that do not occur keep the sum 0. *)
Definition category_mean (e : num O * N) : num O * N :=
  if N.eqb (snd e) 0 then e else (ndiv O (fst e) (nofN O (snd e)), snd e).
Definition mean_items (stats : list (num O * N)) : list (num O * (N -> N)) :=
  map (fun e => (fst e, u32_inc (snd e))) (filter (fun e => negb (N.eqb (snd e) 0)) stats).
(** dataset.rs:143-145: [(i as NumT * rank_step).round() as u32 - 1] *)
Definition u32_pred (dbg : bool) (x : N) : res N := if N.eqb x 0 then (if dbg then Panic else Ok 4294967295%N) else Ok (x - 1)%N.
Definition hicard_rank (dbg : bool) (rank_step : num O) (i : nat) : res N :=
  u32_pred dbg (Z.to_N (ntoZ O 0 4294967295 (nround O (nmul O (nofnat O i) rank_step)))).

(** dataset.rs:122-168: the grouping of the categories: split weights and super-category of every category. *)
Definition hicard_groups (dbg : bool) (cfg : config O) (feat grad : list (num O)) (card nactive : nat) (bounds : num O * num O)
  (examples : list nat) : res (list (num O) * list nat) :=
  let* stats0 := hicard_stats feat grad examples 0 (repeat (nofZ O 0, 0%N) card) in
  let* b0 := binner_new (repeat 0%N QUANTILE_EST_NBINS) (fst bounds) (snd bounds) in
  let stats := map category_mean stats0 in
  let* b := binner_insert_all b0 (mean_items stats) in
  let rank_step := ndiv O (nofnat O nactive) (nofnat O (c_max_nbins cfg + 1)) in
  let* ranks := mapM (hicard_rank dbg rank_step) (seq 1 (c_max_nbins cfg)) in
  let* qbins := rank_iter_all 0%N N.leb N.add (fun x => x) b ranks in
  let split_weights := map (fun bin => bin_representative b (bin + 1)) (dedup_bins None qbins) in
  Ok (split_weights, map (fun e => leading_below (nlt O) split_weights (fst e)) stats).

(** dataset.rs:116-184 *)
Definition update_hicard_cat (dbg : bool) (cfg : config O) (s : inner) (feat_id : nat) (examples : list nat) (grad : list (num O))
  (bounds : num O * num O) : res inner :=
  let* feat := get_feature (in_data s) feat_id in
  let* card := feat_card (in_data s) feat_id in
  let* (split_weights, supercats) := hicard_groups dbg cfg feat grad card (in_nactive_examples s) bounds examples in
  let supercard := length split_weights in
  let* all := idx (in_bitvecs s) feat_id in
  let* bvs := subslice all 0 supercard in
  let* bvs1 := fill_bitvecs (zero_bitvecs bvs) examples (fun i => let* c := cat_at feat i in idx supercats c) in
  let* bvs2 := accumulate_bitvecs bvs1 in
  let* bitvecs := set_bitvecs s feat_id bvs2 in
  let* used := set_idx (in_used_nbins s) feat_id supercard in
  let* scs := set_idx (in_supercats s) feat_id supercats in
  Ok (mk_inner (in_rng s) (in_data s) (in_useful s) (in_nactive_features s) (in_nactive_examples s) bitvecs scs
        (in_split_candidates s) used (in_has_non_locard s)).

(** dataset.rs:192-202: weight of an example, [grad[j].abs() + EPSILON]. *)
Definition num_items (feat grad : list (num O)) (examples : list nat) : res (list (num O * num O)) :=
  mapM (fun j => let* v := idx feat j in let* g := idx grad j in Ok (v, nadd O (nabs O g) EPSILON)) examples.
(** dataset.rs:186-235: the split candidates, and the bins mapped to split categories (with the binner's parameters). *)
Definition num_candidates (cfg : config O) (feat grad : list (num O)) (limits : num O * num O) (examples : list nat)
  : res (list (num O) * binner O nat) :=
  let* b0 := binner_new (repeat (nofZ O 0) QUANTILE_EST_NBINS) (fst limits) (snd limits) in
  let* items := num_items feat grad examples in
  let* b := binner_insert_all b0 (map (fun it => (fst it, fun x => nadd O x (snd it))) items) in
  let weight_sum := fold_left (fun a it => nadd O a (snd it)) items (nofZ O 0) in
  let weight_step := ndiv O weight_sum (nofnat O (c_max_nbins cfg + 1)) in
  let weights := map (fun i => nmul O (nofnat O i) weight_step) (seq 1 (c_max_nbins cfg)) in
  let* qbins := rank_iter_all (nofZ O 0) (nle O) (nadd O) (fun x => x) b weights in
  let cands := map (fun bin => bin_representative b (bin + 1)) (dedup_bins None qbins) in
  let* _ := rassert (length cands <=? c_max_nbins cfg) in
  let* _ := rassert (0 <? length cands) in
  let* b2 := binner_new (repeat 0 QUANTILE_EST_NBINS) (fst limits) (snd limits) in
  let cats := map (fun i => leading_below (nlt O) cands (bin_representative b2 (i + 1))) (seq 0 QUANTILE_EST_NBINS) in
  Ok (cands, mk_binner cats (bn_min b2) (bn_delta b2)).

(** dataset.rs:237-266 *)
Definition update_num (cfg : config O) (s : inner) (feat_id : nat) (examples : list nat) (grad : list (num O)) : res inner :=
  let* feat := get_feature (in_data s) feat_id in
  let* limits := feat_limits (in_data s) feat_id in
  let* (cands, b) := num_candidates cfg feat grad limits examples in
  let* all := idx (in_bitvecs s) feat_id in
  let* bvs := subslice all 0 (length cands) in
  let* bvs1 := fill_bitvecs (zero_bitvecs bvs) examples (fun i => let* v := idx feat i in idx (bn_bins b) (get_bin b v)) in
  let* bvs2 := accumulate_bitvecs bvs1 in
  let* bitvecs := set_bitvecs s feat_id bvs2 in
  let* used := set_idx (in_used_nbins s) feat_id (length cands) in
  let* scands := set_idx (in_split_candidates s) feat_id cands in
  Ok (mk_inner (in_rng s) (in_data s) (in_useful s) (in_nactive_features s) (in_nactive_examples s) bitvecs (in_supercats s)
        scands used (in_has_non_locard s)).

(* ---- Dataset ---- *)

(** dataset.rs:308-312 *)
Record dataset : Type := mk_ds { ds_inner : inner; ds_index_buffer : list nat; ds_update_count : nat }.

(** dataset.rs:410, 408-412 *)
Definition example_sampling_enabled (s : dataset) : bool := negb (length (ds_index_buffer s) =? 0).
Definition nactive_features (s : dataset) : nat := in_nactive_features (ds_inner s).
Definition nactive_examples (s : dataset) : nat := in_nactive_examples (ds_inner s).
Definition active_features (s : dataset) : res (list nat) := in_active_features (ds_inner s).
(** dataset.rs:344-350 *)
Definition active_examples (s : dataset) : res (list nat) := subslice (ds_index_buffer s) 0 (nactive_examples s).

(** dataset.rs:314-337 *)
Definition dataset_new (cfg : config O) (d : data O) (g : rng) : res dataset :=
  let* s := inner_new cfg d g in
  if nlt O (c_example_fraction cfg) (nofZ O 1) then Ok (mk_ds s (seq 0 (d_nexamples d)) 0)
  else
    let* s' := foldM (fun s feat_id =>
                 let* ft := feat_type_of d feat_id in
                 if is_locard ft then update_locard_cat s feat_id (seq 0 (d_nexamples d)) else Ok s) (in_useful s) s in
    Ok (mk_ds s' [] 0).

(** dataset.rs:339-342 *)
Definition sample_examples (s : dataset) : res dataset :=
  let* (buf, g) := shuffle_first_k (in_rng (ds_inner s)) (nactive_examples s) (ds_index_buffer s) in
  let i := ds_inner s in
  Ok (mk_ds (mk_inner g (in_data i) (in_useful i) (in_nactive_features i) (in_nactive_examples i) (in_bitvecs i) (in_supercats i)
               (in_split_candidates i) (in_used_nbins i) (in_has_non_locard i)) buf (ds_update_count s)).

(** dataset.rs:373-385 and 395-404: the update of one active feature; [locard] says whether low-cardinality features
    are updated too. *)
Definition update_feature (dbg : bool) (cfg : config O) (locard : bool) (examples : list nat) (grad : list (num O))
  (bounds : num O * num O) (s : inner) (u : nat) : res inner :=
  let* feat_id := idx (in_useful s) u in
  let* ft := feat_type_of (in_data s) feat_id in
  match ft with
  | LoCardCat => if locard then update_locard_cat s feat_id examples else Ok s
  | HiCardCat => update_hicard_cat dbg cfg s feat_id examples grad bounds
  | Numerical => update_num cfg s feat_id examples grad
  end.

(** dataset.rs:356-358: the update is skipped. *)
Definition skip_update (freq count : nat) : bool := (freq =? 0) || ((1 <? count) && negb (count mod freq =? 0)).

(** dataset.rs:352-405 *)
Definition dataset_update (dbg : bool) (cfg : config O) (s : dataset) (grad : list (num O)) (bounds : num O * num O) : res dataset :=
  let count := ds_update_count s + 1 in
  let i0 := initialize_supercats (ds_inner s) in
  if skip_update (c_sample_freq cfg) count then Ok (mk_ds i0 (ds_index_buffer s) count) else
  let* i1 := sample_features i0 in
  let s1 := mk_ds i1 (ds_index_buffer s) count in
  if example_sampling_enabled s1 then
    let* s2 := sample_examples s1 in
    let* examples := active_examples s2 in
    let* i3 := foldM (update_feature dbg cfg true examples grad bounds) (seq 0 (nactive_features s2)) (ds_inner s2) in
    Ok (mk_ds i3 (ds_index_buffer s2) count)
  else if in_has_non_locard i1 then
    let* i2 := foldM (update_feature dbg cfg false (seq 0 (d_nexamples (in_data i1))) grad bounds) (seq 0 (in_nactive_features i1)) i1 in
    Ok (mk_ds i2 (ds_index_buffer s1) count)
  else Ok s1.

(** dataset.rs:415-418 *)
Definition map_index (s : dataset) (local_index : nat) : res nat := let* a := active_examples s in idx a local_index.
(** dataset.rs:420-427: the (local, global) pairs passed to the body, in order. *)
Definition active_examples_list (s : dataset) : res (list (nat * nat)) :=
  if example_sampling_enabled s then let* a := active_examples s in Ok (combine (seq 0 (length a)) a)
  else Ok (map (fun i => (i, i)) (seq 0 (nactive_examples s))).
(** dataset.rs:429-436, the iterator run to its end. *)
Definition inactive_examples (s : dataset) : res (list nat) :=
  let* _ := rassert (example_sampling_enabled s) in
  let* a := active_examples s in
  let n := d_nexamples (in_data (ds_inner s)) in
  inactive_drain (S n) n (a, 0).
(** dataset.rs:438-440 *)
Definition get_nbins (s : dataset) (feat_id : nat) : res nat := idx (in_used_nbins (ds_inner s)) feat_id.
(** dataset.rs:442-445 *)
Definition ds_get_bitvec (s : dataset) (feat_id split_id : nat) : res blocks :=
  let* bvs := idx (in_bitvecs (ds_inner s)) feat_id in idx bvs split_id.
(** dataset.rs:447-453 *)
Definition get_split_value (s : dataset) (feat_id split_id : nat) : res (num O) :=
  let* ft := feat_type_of (in_data (ds_inner s)) feat_id in
  match ft with
  | LoCardCat | HiCardCat => Ok (nofnat O split_id)
  | Numerical => let* l := idx (in_split_candidates (ds_inner s)) feat_id in idx l split_id
  end.
(** dataset.rs:455-463 *)
Definition get_supercats (s : dataset) : list (list nat) := in_supercats (ds_inner s).
End Dataset.
Arguments scaled_count {O}.
Arguments mk_inner {O}. Arguments in_rng {O}. Arguments in_data {O}. Arguments in_useful {O}. Arguments in_nactive_features {O}.
Arguments in_nactive_examples {O}. Arguments in_bitvecs {O}. Arguments in_supercats {O}. Arguments in_split_candidates {O}.
Arguments in_used_nbins {O}. Arguments in_has_non_locard {O}.
Arguments useful_step {O}. Arguments inner_new {O}. Arguments in_feature_sampling_enabled {O}. Arguments sample_features {O}.
Arguments in_active_features {O}. Arguments initialize_supercats {O}. Arguments set_bitvecs {O}. Arguments cat_at {O}.
Arguments update_locard_cat {O}. Arguments hicard_stats {O}. Arguments category_mean {O}. Arguments mean_items {O}. Arguments hicard_rank {O}.
Arguments hicard_groups {O}. Arguments update_hicard_cat {O}. Arguments num_items {O}. Arguments num_candidates {O}. Arguments update_num {O}.
Arguments mk_ds {O}. Arguments ds_inner {O}. Arguments ds_index_buffer {O}. Arguments ds_update_count {O}.
Arguments example_sampling_enabled {O}. Arguments nactive_features {O}. Arguments nactive_examples {O}. Arguments active_features {O}.
Arguments active_examples {O}. Arguments dataset_new {O}. Arguments sample_examples {O}.
Arguments update_feature {O}. Arguments dataset_update {O}. Arguments map_index {O}. Arguments active_examples_list {O}.
Arguments inactive_examples {O}. Arguments get_nbins {O}. Arguments ds_get_bitvec {O}. Arguments get_split_value {O}. Arguments get_supercats {O}.
