(** Model of src/tree/learner.rs with the four stores the nodes are kept in: a node refers to slices of a histogram store, an index
    store, a mask store and a gradient store (LearnerModel.v gives every node its own arrays instead).  Definitions only.

    A borrowed slice is read once and, if the borrow is mutable, written back when the borrow ends.  What the code computes from the
    contents of the slices is taken from LearnerModel.v ([put_gradient], [split_block], [compress_step], [get_grad_sum],
    [split_step], [node_examples], [left_examples], [right_examples]). *)
From Verif Require Import Base BitModel SimdModel SliceModel IterModel StoreModel Num ScaledModel DataModel Config TreeModel DatasetModel LearnerModel ObjectiveModel MetricModel BoostModel.

Section Stores.
Variable O : numops.

(** learner.rs:70-87 [Node2Split] *)
Record snode : Type := mk_snode {
  sn_id : nat;
  sn_count : N;
  sn_grad : num O;
  sn_compr : bool;
  sn_hists : range;
  sn_idx : range;
  sn_mask : range;
  sn_grads : range
}.
(** learner.rs:125-135 [TreeLearnerContext]; the stack and the example buffer are arguments of the loop. *)
Record ctx : Type := mk_ctx {
  cx_hist : hist_store (histval O);
  cx_idx : bstore;
  cx_mask : bstore;
  cx_grad : bstore
}.
(** learner.rs:138-154.  slice_store.rs:50-59: a [HistVal] has 8 bytes and alignment 4, the element alignment is 8/4. *)
Definition ctx_new (cfg : config O) (d : data O) : res ctx :=
  let* sizes := hist_sizes d in
  let* h := hist_new 8192 2 sizes in
  let* i := bstore_new 4096 in
  let* m := bstore_new 4096 in
  let* g := bstore_new (4096 * c_discr_nbits cfg) in
  Ok (mk_ctx h i m g).
(** learner.rs:156-162 *)
Definition ctx_reset (c : ctx) : ctx :=
  mk_ctx (mk_hist (store_reset (hs_store (cx_hist c))) (hs_layout (cx_hist c))) (store_reset (cx_idx c)) (store_reset (cx_mask c)) (store_reset (cx_grad c)).

(** learner.rs:89-101 [Node2Split::new] *)
Definition snode_new (id : nat) (c : ctx) : res (snode * ctx) :=
  let* (h, r) := StoreModel.alloc_hists (hv_default O) (cx_hist c) in
  Ok (mk_snode id 0 (nofZ O 0) false r (0, 0) (0, 0) (0, 0), mk_ctx h (cx_idx c) (cx_mask c) (cx_grad c)).

Section Train.
Variable dbg : bool.
Variable cfg : config O.
Variable s : dataset O.
Variable bounds : num O * num O.
Variable sched : nat -> list job -> list job.
Let w : nat := c_discr_nbits cfg.

(** slice_store.rs:425-431 and 433-439 [get_bitslice], [get_bitslice_mut] *)
Definition get_bitslice (g : bstore) (r : range) : res blocks :=
  let* _ := rassert (negb dbg || ((snd r - fst r) mod w =? 0)) in get_bitvec g r.

(** The header of a node with contents. *)
Definition with_contents (sn : snode) (ix mask grads : blocks) : node O :=
  mk_node (sn_id sn) (sn_count sn) (sn_grad sn) (sn_compr sn) [] ix mask grads.
(** The index list is read if the node is compressed only (learner.rs:203-206, 823-824). *)
Definition read_idx (c : ctx) (sn : snode) : res blocks := if sn_compr sn then get_bitvec (cx_idx c) (sn_idx sn) else Ok [].

(** learner.rs:748-761 with 804-833: one job.  The state is the histogram store behind the lock. *)
Definition s_run_job (c : ctx) (sn : snode) (h : hist_store (histval O)) (j : job) : res (hist_store (histval O)) :=
  let* fm := ds_get_bitvec s (fst j) (snd j) in
  let* mask := get_bitvec (cx_mask c) (sn_mask sn) in
  let* grads := get_bitslice (cx_grad c) (sn_grads sn) in
  let* ix := read_idx c sn in
  let* v := get_grad_sum cfg bounds (with_contents sn ix mask grads) fm in
  put_hist_elem h (sn_hists sn) (fst j) (snd j) v.
(** learner.rs:716-764 *)
Definition s_build_histograms (c : ctx) (sn : snode) : res ctx :=
  let* _ := rassert (valid_width w) in
  let* js := jobs s in
  let* h := foldM (s_run_job c sn) (sched (sn_id sn) js) (cx_hist c) in
  Ok (mk_ctx h (cx_idx c) (cx_mask c) (cx_grad c)).

(** learner.rs:611-653 [get_root_n2s] *)
Definition s_get_root_n2s (c : ctx) (gradients : list (num O)) : res (snode * ctx) :=
  let* _ := rassert (valid_width w) in
  let n := nactive_examples s in
  let* (gs, gr) := alloc_zero_bitslice w (cx_grad c) n in
  let* (ms, mr) := alloc_one_bits (cx_mask c) n in
  let* mask := get_bitvec ms mr in
  let nblocks := block_len 4 mask in
  let* (is, ir) := alloc_from_iter 4 (cx_idx c) nblocks (map N.of_nat (seq 0 nblocks)) in
  let* _ := rassert (N.of_nat n <? 4294967295)%N in
  let* grads0 := get_bitslice gs gr in
  let* ex := active_examples_list s in
  let* (grads, sum) := foldM (put_gradient cfg bounds gradients) ex (grads0, 0%N) in
  let* gs' := put_slice gs gr grads in
  let* (sn0, c1) := snode_new 0 (mk_ctx (cx_hist c) is ms gs') in
  let sn := mk_snode 0 (N.of_nat n) (linproj O w (nofN O sum) (nofnat O n) bounds) false (sn_hists sn0) ir mr gr in
  let* c2 := s_build_histograms c1 sn in
  Ok (sn, c2).

(** learner.rs:297-340 *)
Definition s_find_best_split (c : ctx) (sn : snode) : res (split O) :=
  let* fs := active_features s in
  let* st := foldM (fun st f =>
               let* hist := get_hist (cx_hist c) (sn_hists sn) f in
               let* nb := get_nbins s f in
               foldM (split_step dbg cfg s (with_contents sn [] [] []) f hist) (seq 0 nb) st) fs (c_min_gain cfg, split_none O) in
  Ok (snd st).

(** learner.rs:660-708 [compress_examples] *)
Definition s_compress_examples (c : ctx) (parent child : snode) (n_child : nat) : res (snode * ctx) :=
  let* _ := rassert (valid_width w) in
  let nvalues := n_child * 32 in
  let* (is, ir) := alloc_zero_bits (cx_idx c) nvalues in
  let* (gs, gr) := alloc_zero_bitslice w (cx_grad c) nvalues in
  let* (vpi, vci) := get_two_slices_mut dbg is (sn_idx parent) ir in
  let* pix := get_slice is vpi in
  let* cix := get_slice is vci in
  let n_parent := block_len 4 pix in
  let* cmask := get_bitvec (cx_mask c) (sn_mask child) in
  let* (vpg, vcg) := get_two_slices_mut dbg gs (sn_grads parent) gr in
  let* pg := get_slice gs vpg in
  let* cg := get_slice gs vcg in
  let* (st, grads) := foldM (compress_step dbg cfg (with_contents parent pix [] pg)) (seq 0 n_parent) (0, cmask, cix, cg) in
  let '(k, mask, ix) := st in
  let* _ := rassert (negb dbg || (k =? n_child)) in
  let* mask' := foldM (fun m j => bs_set 4 m j 0%N) (seq n_child (n_parent - n_child)) mask in
  let* ms' := put_slice (cx_mask c) (sn_mask child) mask' in
  let* is' := put_slice is vci ix in
  let* gs' := put_slice gs vcg grads in
  let idx_len := snd ir - fst ir in
  Ok (mk_snode (sn_id child) (sn_count child) (sn_grad child) true (sn_hists child) ir (fst (sn_mask child), fst (sn_mask child) + idx_len) gr,
      mk_ctx (cx_hist c) is' ms' gs').

(** learner.rs:371-416 [split_examples]; [count] and [grad] are set by the caller (357-358, 362-363). *)
Definition s_split_examples (c : ctx) (parent : snode) (child_id : nat) (sp : split O) (f : N -> N) (count : N) (grad : num O) : res (snode * ctx) :=
  let* fm := ds_get_bitvec s (sc_feature (sp_crit sp)) (sp_id sp) in
  let* pix := get_bitvec (cx_idx c) (sn_idx parent) in
  let nblocks := length pix in
  let n_u32 := block_len 4 pix in
  let* (sn0, c1) := snode_new child_id c in
  let* (ms, mr) := alloc_zero_blocks (cx_mask c1) nblocks in
  let child := mk_snode child_id count grad (sn_compr parent) (sn_hists sn0) (sn_idx parent) mr (sn_grads parent) in
  let* (vp, vc) := get_two_slices_mut dbg ms (sn_mask parent) mr in
  let* pmask := get_slice ms vp in
  let* cmask := get_slice ms vc in
  let* (mask, zero_count) := foldM (split_block (with_contents parent pix pmask []) fm f) (seq 0 n_u32) (cmask, 0) in
  let* ms' := put_slice ms vc mask in
  let c2 := mk_ctx (cx_hist c1) (cx_idx c1) ms' (cx_grad c1) in
  if nlt O (c_compression_threshold cfg) (ndiv O (nofnat O zero_count) (nofnat O n_u32)) && (8 <? n_u32) then
    let* _ := rassert (0 <? n_u32 - zero_count) in
    s_compress_examples c2 parent child (n_u32 - zero_count)
  else Ok (child, c2).

(** slice_store.rs:270-287 [hists_subtract]; the [Sub] of [HistVal] can panic in debug builds (learner.rs:40-48). *)
Fixpoint s_subtract_loop (is : list nat) (plo llo rlo : nat) (buf : list (option (histval O))) : res (list (option (histval O))) :=
  match is with
  | [] => Ok buf
  | i :: is' =>
    let* po := idx buf (plo + i) in let* p := rd_cell po in
    let* lo := idx buf (llo + i) in let* l := rd_cell lo in
    let* v := hv_sub O dbg p l in
    let* buf' := set_idx buf (rlo + i) (Some v) in
    s_subtract_loop is' plo llo rlo buf'
  end.
(** learner.rs:429-434 *)
Definition s_derive_histograms (c : ctx) (parent lnode rnode : snode) : res ctx :=
  let h := cx_hist c in
  let (plo, phi) := sn_hists parent in
  let* total := idx (hs_layout h) (length (hs_layout h) - 1) in
  let* _ := rassert (negb dbg || (phi - plo =? total)) in
  let st := hs_store h in
  let* buf := s_subtract_loop (seq 0 (phi - plo)) plo (fst (sn_hists lnode)) (fst (sn_hists rnode)) (st_buf st) in
  Ok (mk_ctx (mk_hist (mk_store buf (st_len st) (st_align st) (st_free st) (st_ends st)) (hs_layout h)) (cx_idx c) (cx_mask c) (cx_grad c)).

(** learner.rs:346-369 *)
Definition s_get_left_right_n2s (c : ctx) (parent : snode) (sp : split O) : res (snode * snode * ctx) :=
  let* hist := get_hist (cx_hist c) (sn_hists parent) (sc_feature (sp_crit sp)) in
  let* l := idx hist (sp_id sp) in
  let rgrad := nsub O (sn_grad parent) (fst l) in
  let* rcount := u32_sub dbg (sn_count parent) (snd l) in
  let* (lnode, c1) := s_split_examples c parent (left_child (sn_id parent)) sp (fun m => m) (snd l) (fst l) in
  let* c2 := s_build_histograms c1 lnode in
  let* (rnode, c3) := s_split_examples c2 parent (right_child (sn_id parent)) sp (wnot 4) rcount rgrad in
  let* c4 := s_derive_histograms c3 parent lnode rnode in
  Ok (lnode, rnode, c4).

Variable St : Type.
Variable leaf_value : list nat -> St -> res (num O * St).
Variable oob : nat -> num O -> St -> res St.

(** learner.rs:448-472 and 474-519: the leaf values are computed from the node's mask and, if it is compressed, its index list. *)
Definition s_examples_view (c : ctx) (sn : snode) : res (node O) :=
  let* mask := get_bitvec (cx_mask c) (sn_mask sn) in
  let* ix := read_idx c sn in
  Ok (with_contents sn ix mask []).

(** learner.rs:281-282: the popped node's histograms and mask are released. *)
Definition s_release (c : ctx) (sn : snode) : res ctx :=
  let* h := free_hists dbg (cx_hist c) (sn_hists sn) in
  let* m := free_blocks dbg (cx_mask c) (sn_mask sn) in
  Ok (mk_ctx h (cx_idx c) m (cx_grad c)).

(** learner.rs:257-283: one turn of the loop, on the popped node. *)
Definition s_train_step (c : ctx) (sn : snode) (stack : list snode) (t : tree O) (st : St) : res (list snode * tree O * St * ctx) :=
  let* sp := s_find_best_split c sn in
  let* (r, c') :=
    (if is_no_split (sp_crit sp) then
       let* nd := s_examples_view c sn in
       let* (t', st') := predict_leaf_value s St leaf_value nd t st in Ok (stack, t', st', c)
     else if negb (is_max_leaf_node t (left_child (sn_id sn))) then
       let* (lr, c') := s_get_left_right_n2s c sn sp in
       let* t' := split_node t (sn_id sn) (sp_crit sp) in
       Ok (fst lr :: snd lr :: stack, t', st, c')
     else
       let* nd := s_examples_view c sn in
       let* (t1, st') := predict_child_leaf_values s St leaf_value nd sp t st in
       let* t' := split_node t1 (sn_id sn) (sp_crit sp) in
       Ok (stack, t', st', c)) in
  let* c'' := s_release c' sn in
  Ok (r, c'').
(** The loop; one unit of fuel per popped node. *)
Fixpoint s_train_loop (fuel : nat) (c : ctx) (stack : list snode) (t : tree O) (st : St) : res (tree O * St * ctx) :=
  match stack with
  | [] => Ok (t, st, c)
  | sn :: rest =>
    match fuel with
    | 0 => OutOfFuel
    | S fuel' =>
      let* (r, c') := s_train_step c sn rest t st in
      s_train_loop fuel' c' (fst (fst r)) (snd (fst r)) (snd r)
    end
  end.
(** learner.rs:233-295: [new] and [train] *)
Definition s_train (c0 : ctx) (gradients : list (num O)) (st : St) : res (tree O * St * ctx) :=
  let c := ctx_reset c0 in
  let* t := tree_new O (c_max_tree_depth cfg) (get_supercats s) in
  let* (root, c1) := s_get_root_n2s c gradients in
  let* (r, c2) := s_train_loop (2 ^ (c_max_tree_depth cfg + 1)) c1 [root] t st in
  let* st'' := predict_out_of_bag s St oob (fst r) (snd r) in
  Ok (fst r, st'', c2).
End Train.

(** boost.rs:59-116 with one context for all iterations. *)
Section Boost.
Variable M : mathops O.
Variable dbg : bool.
Variable cfg : config O.
Variable d : data O.
Variable sched : nat -> nat -> list job -> list job.

Definition s_train_one_iter (metrics : list metric) (bc : booster O * ctx) : res (booster O * ctx) :=
  let '(b, c) := bc in
  let* target := get_target d in
  let iter := S (bs_iter b) in
  let* ob := obj_update M target (bs_objective b) in
  let* s := dataset_update dbg cfg (bs_dataset b) (ob_grads ob) (obj_bounds ob) in
  let* (r, c') := s_train dbg cfg s (obj_bounds ob) (sched iter) (objective O) (obj_leaf_value M target) update_out_of_bag c (ob_grads ob) ob in
  let '(t, ob') := r in
  let evals := if run_metrics cfg metrics iter then bs_evals b ++ [map (fun m => metric_eval M m target (ob_preds ob')) metrics] else bs_evals b in
  Ok (mk_booster s ob' iter (push_tree (bs_ensemble b) t) evals, c').
Definition s_boost_run (kind : obj_kind) (metrics : list metric) (g : rng) (k : nat) : res (booster O * ctx) :=
  let* b0 := boost_start M dbg cfg d kind g in
  let* c0 := ctx_new cfg d in
  foldM (fun bc _ => s_train_one_iter metrics bc) (seq 0 k) (b0, c0).
Definition s_boost_train (kind : obj_kind) (metrics : list metric) (g : rng) : res (additive_tree O) :=
  let* (b, _) := s_boost_run kind metrics g (c_niterations cfg) in Ok (bs_ensemble b).
End Boost.
End Stores.
Arguments mk_snode {O}. Arguments sn_id {O}. Arguments sn_count {O}. Arguments sn_grad {O}. Arguments sn_compr {O}. Arguments sn_hists {O}. Arguments sn_idx {O}. Arguments sn_mask {O}. Arguments sn_grads {O}.
Arguments mk_ctx {O}. Arguments cx_hist {O}. Arguments cx_idx {O}. Arguments cx_mask {O}. Arguments cx_grad {O}.
Arguments ctx_new {O}. Arguments ctx_reset {O}. Arguments snode_new {O}. Arguments get_bitslice {O}. Arguments with_contents {O}. Arguments read_idx {O}. Arguments s_run_job {O}. Arguments s_build_histograms {O}.
Arguments s_get_root_n2s {O}. Arguments s_find_best_split {O}. Arguments s_compress_examples {O}. Arguments s_split_examples {O}. Arguments s_subtract_loop {O}. Arguments s_derive_histograms {O}.
Arguments s_get_left_right_n2s {O}. Arguments s_examples_view {O}. Arguments s_release {O}. Arguments s_train_step {O}. Arguments s_train_loop {O}. Arguments s_train {O}.
Arguments s_train_one_iter {O}. Arguments s_boost_run {O}. Arguments s_boost_train {O}.
