(** Model of src/tree/learner.rs.  Definitions only.

    The slices of the four stores a node refers to are modelled by their contents (histograms, block indices, example mask,
    bit-sliced gradients); NodeStoreModel.v has the slices, and C55 proves the two have the same outcome.  The objective is given by the two calls the
    learner makes on it ([leaf_value], [oob]), which act on an arbitrary state.  [dbg] is the build mode.  [sched n] is the order
    in which the parallel jobs of node [n] get the lock of the histogram store. *)
From Verif Require Import Base BitModel SimdModel SliceModel IterModel Num ScaledModel DataModel Config TreeModel DatasetModel.

(** [a - b] on [u32]: panics on underflow in debug builds, wraps in release builds. *)
Definition u32_sub (dbg : bool) (a b : N) : res N :=
  if (b <=? a)%N then Ok (a - b)%N else if dbg then Panic else Ok (a + 4294967296 - b)%N.

(** A job of build_histograms: (feature, bin). *)
Definition job := (nat * nat)%type.

Section Learner.
Variable O : numops.

(** learner.rs:28-32 [HistVal]: gradient sum and number of examples. *)
Definition histval : Type := (num O * N)%type.
Definition hv_default : histval := (nofZ O 0, 0%N).
(** learner.rs:40-48 *)
Definition hv_sub (dbg : bool) (p l : histval) : res histval :=
  let* c := u32_sub dbg (snd p) (snd l) in Ok (nsub O (fst p) (fst l), c).

(** learner.rs:70-87 [Node2Split]; one histogram per feature. *)
Record node : Type := mk_node {
  nd_id : nat;
  nd_count : N;
  nd_grad : num O;
  nd_compr : bool;
  nd_hists : list (list histval);
  nd_idx : blocks;
  nd_mask : blocks;
  nd_grads : blocks
}.
(** learner.rs:103-115 [Split] *)
Record split : Type := mk_split { sp_crit : split_crit O; sp_id : nat }.
Definition split_none : split := mk_split (no_split O) 0.

(** learner.rs:140-141: the sizes of the histograms. *)
Definition hist_sizes (d : data O) : res (list nat) := mapM (max_nbins d) (seq 0 (d_nfeatures d)).
(** slice_store.rs:300-303: fresh histograms; [alloc_slice] asserts a positive length. *)
Definition alloc_hists (sizes : list nat) : res (list (list histval)) :=
  let* _ := rassert (0 <? list_sum sizes) in Ok (map (repeat hv_default) sizes).

Section Train.
Variable dbg : bool.
Variable cfg : config O.
Variable s : dataset O.
Variable sizes : list nat.
Variable bounds : num O * num O.
Variable sched : nat -> list job -> list job.

Definition width : nat := c_discr_nbits cfg.

(** learner.rs:804-833 [get_grad_sum] (simd). *)
Definition get_grad_sum (nd : node) (fm : blocks) : res histval :=
  let* count := (if nd_compr nd then bitvec_count_and_c (nd_mask nd) (nd_idx nd) fm else count_ones_and (nd_mask nd) fm) in
  let c := (count mod 4294967296)%N in
  if (c <? c_min_examples_leaf cfg)%N then Ok (nofZ O 0, c) else
  let* sum := (if nd_compr nd then sum_all_masked2_compr_unsafe width (nd_grads nd) (nd_idx nd) (nd_mask nd) fm
               else sum_all_masked2_unsafe width (nd_grads nd) (nd_mask nd) fm) in
  Ok (linproj O width (nofN O sum) (nofN O c) bounds, c).

(** learner.rs:744-747: the jobs, in sequential order. *)
Definition jobs : res (list job) :=
  let* fs := active_features s in
  let* js := mapM (fun f => let* nb := get_nbins s f in Ok (map (pair f) (seq 0 nb))) fs in
  Ok (concat js).
(** learner.rs:748-761: one job. *)
Definition run_job (nd : node) (hists : list (list histval)) (j : job) : res (list (list histval)) :=
  let* fm := ds_get_bitvec s (fst j) (snd j) in
  let* v := get_grad_sum nd fm in
  let* hist := idx hists (fst j) in
  let* hist' := set_idx hist (snd j) v in
  set_idx hists (fst j) hist'.
(** learner.rs:716-764 *)
Definition build_histograms (nd : node) : res node :=
  let* _ := rassert (valid_width width) in
  let* js := jobs in
  let* h := foldM (run_job nd) (sched (nd_id nd) js) (nd_hists nd) in
  Ok (mk_node (nd_id nd) (nd_count nd) (nd_grad nd) (nd_compr nd) h (nd_idx nd) (nd_mask nd) (nd_grads nd)).

(** learner.rs:628-633: one example's gradient put in the bitslice; the sum of the discretised values. *)
Definition put_gradient (gradients : list (num O)) (st : blocks * N) (ij : nat * nat) : res (blocks * N) :=
  let* v := idx gradients (snd ij) in
  let* (slice, x) := set_scaled_value O width (fst st) (fst ij) v bounds in
  Ok (slice, (snd st + Z.to_N x)%N).
(** learner.rs:615-650 [get_root_n2s] *)
Definition get_root_n2s (gradients : list (num O)) : res node :=
  let* _ := rassert (valid_width width) in
  let n := nactive_examples s in
  let* grads0 := zero_blocks (blocks_required_for n * width) in
  let* mask := one_bits n in
  let nblocks := block_len 4 mask in
  let* ix := from_iter 4 nblocks (map N.of_nat (seq 0 nblocks)) in
  let* _ := rassert (N.of_nat n <? 4294967295)%N in
  let* ex := active_examples_list s in
  let* (grads, sum) := foldM (put_gradient gradients) ex (grads0, 0%N) in
  let* h := alloc_hists sizes in
  build_histograms (mk_node 0 (N.of_nat n) (linproj O width (nofN O sum) (nofnat O n) bounds) false h ix mask grads).

(** learner.rs:436-439 *)
Definition get_loss (grad_sum : num O) (count : N) : num O :=
  nmul O (nneg O (ndiv O (nofZ O 1) (nofZ O 2))) (ndiv O (nmul O grad_sum grad_sum) (nadd O (nofN O count) (c_reg_lambda cfg))).

(** learner.rs:322-335 *)
Definition make_crit (f b : nat) : res (split_crit O) :=
  let* v := get_split_value s f b in
  let* ft := feat_type_of (in_data (ds_inner s)) f in
  Ok (mk_crit match ft with LoCardCat => LoCardCatEq | HiCardCat => HiCardCatLt | Numerical => NumLt end f v).
(** learner.rs:309-337: one bin. *)
Definition split_step (nd : node) (f : nat) (hist : list histval) (st : num O * split) (b : nat) : res (num O * split) :=
  let* l := idx hist b in
  let rgrad := nsub O (nd_grad nd) (fst l) in
  let* rcount := u32_sub dbg (nd_count nd) (snd l) in
  if (snd l <? c_min_examples_leaf cfg)%N || (rcount <? c_min_examples_leaf cfg)%N then Ok st else
  let gain := nsub O (nsub O (get_loss (nd_grad nd) (nd_count nd)) (get_loss (fst l) (snd l))) (get_loss rgrad rcount) in
  if nlt O (fst st) gain then
    let* c := make_crit f b in Ok (gain, mk_split c b)
  else Ok st.
(** learner.rs:297-340 *)
Definition find_best_split (nd : node) : res split :=
  let* fs := active_features s in
  let* st := foldM (fun st f =>
               let* hist := idx (nd_hists nd) f in
               let* nb := get_nbins s f in
               foldM (split_step nd f hist) (seq 0 nb) st) fs (c_min_gain cfg, split_none) in
  Ok (snd st).

(** learner.rs:657-709 [compress_examples]; [nd] is the child, [n_child] its number of non-zero 32-bit blocks.
    State of the loop: [k], the child's mask, indices and gradients. *)
Definition compress_step (parent : node) (st : nat * blocks * blocks * blocks) (j : nat) : res (nat * blocks * blocks * blocks) :=
  let '(k, mask, ix, grads) := st in
  let* _ := rassert (negb dbg || (k <=? j)) in
  let* i := bs_get 4 (nd_idx parent) j in
  let* m := bs_get 4 mask j in
  if (m =? 0)%N then Ok st else
  let* mask' := bs_set 4 mask k m in
  let* ix' := bs_set 4 ix k i in
  let* grads' := copy_block_from width grads (nd_grads parent) j k in
  Ok (S k, mask', ix', grads').
Definition compress_examples (parent nd : node) (n_child : nat) : res node :=
  let* _ := rassert (valid_width width) in
  let nvalues := n_child * 32 in
  let* ix0 := zero_bits nvalues in
  let* grads0 := zero_blocks (blocks_required_for nvalues * width) in
  let n_parent := block_len 4 (nd_idx parent) in
  let* (st, grads) := foldM (compress_step parent) (seq 0 n_parent) (0, nd_mask nd, ix0, grads0) in
  let '(k, mask, ix) := st in
  let* _ := rassert (negb dbg || (k =? n_child)) in
  let* mask' := foldM (fun m j => bs_set 4 m j 0%N) (seq n_child (n_parent - n_child)) mask in
  Ok (mk_node (nd_id nd) (nd_count nd) (nd_grad nd) true (nd_hists nd) ix (firstn (length ix) mask') grads).

(** learner.rs:391-401: one 32-bit block of the child's mask.  State: the mask, the number of zero blocks. *)
Definition split_block (parent : node) (fm : blocks) (f : N -> N) (st : blocks * nat) (j : nat) : res (blocks * nat) :=
  let* i := bs_get 4 (nd_idx parent) j in
  let* pm := bs_get 4 (nd_mask parent) j in
  let* v := bs_get 4 fm (N.to_nat i) in
  let m := N.land pm (f v) in
  let* mask := bs_set 4 (fst st) j m in
  Ok (mask, if (m =? 0)%N then S (snd st) else snd st).
(** learner.rs:371-416 [split_examples]; [count] and [grad] are set by the caller (356-357, 361-362). *)
Definition split_examples (parent : node) (child_id : nat) (sp : split) (f : N -> N) (count : N) (grad : num O) : res node :=
  let* fm := ds_get_bitvec s (sc_feature (sp_crit sp)) (sp_id sp) in
  let nblocks := length (nd_idx parent) in
  let n_u32 := block_len 4 (nd_idx parent) in
  let* h := alloc_hists sizes in
  let* mask0 := zero_blocks nblocks in
  let* (mask, zero_count) := foldM (split_block parent fm f) (seq 0 n_u32) (mask0, 0) in
  let child := mk_node child_id count grad (nd_compr parent) h (nd_idx parent) mask (nd_grads parent) in
  if nlt O (c_compression_threshold cfg) (ndiv O (nofnat O zero_count) (nofnat O n_u32)) && (8 <? n_u32) then
    let* _ := rassert (0 <? n_u32 - zero_count) in
    compress_examples parent child (n_u32 - zero_count)
  else Ok child.

(** learner.rs:429-434 with slice_store.rs:270-287. *)
Definition hists_subtract (p l : list (list histval)) : res (list (list histval)) :=
  mapM (fun pl => mapM (fun x => hv_sub dbg (fst x) (snd x)) (combine (fst pl) (snd pl))) (combine p l).
Definition derive_histograms (parent lnode rnode : node) : res node :=
  let* h := hists_subtract (nd_hists parent) (nd_hists lnode) in
  Ok (mk_node (nd_id rnode) (nd_count rnode) (nd_grad rnode) (nd_compr rnode) h (nd_idx rnode) (nd_mask rnode) (nd_grads rnode)).

(** learner.rs:346-369 *)
Definition get_left_right_n2s (parent : node) (sp : split) : res (node * node) :=
  let* hist := idx (nd_hists parent) (sc_feature (sp_crit sp)) in
  let* l := idx hist (sp_id sp) in
  let rgrad := nsub O (nd_grad parent) (fst l) in
  let* rcount := u32_sub dbg (nd_count parent) (snd l) in
  let* left0 := split_examples parent (left_child (nd_id parent)) sp (fun m => m) (snd l) (fst l) in
  let* lnode := build_histograms left0 in
  let* right0 := split_examples parent (right_child (nd_id parent)) sp (wnot 4) rcount rgrad in
  let* rnode := derive_histograms parent lnode right0 in
  Ok (lnode, rnode).

(** learner.rs:191-219 [extend_examples]: local indices mapped to rows of the data. *)
Definition to_examples (l : list nat) : res (list nat) :=
  let* ex := (if example_sampling_enabled s then mapM (map_index s) l else Ok l) in
  let* _ := rassert (negb (length ex =? 0)) in
  Ok ex.
(** learner.rs:463-467 *)
Definition node_examples (nd : node) : res (list nat) :=
  let* l := (if nd_compr nd then index_list_compr (nd_mask nd) (nd_idx nd) else index_list (nd_mask nd)) in
  to_examples l.
(** learner.rs:491-495 and 506-510 *)
Definition left_examples (nd : node) (fm : blocks) : res (list nat) :=
  let* l := (if nd_compr nd then index_list_and_compr (nd_mask nd) fm (nd_idx nd) else index_list_and (nd_mask nd) fm) in
  to_examples l.
Definition right_examples (nd : node) (fm : blocks) : res (list nat) :=
  let* l := (if nd_compr nd then index_list_andnot_compr (nd_mask nd) fm (nd_idx nd) else index_list_andnot (nd_mask nd) fm) in
  to_examples l.

(** The objective: [leaf_value examples] is [predict_leaf_value(targets, examples)], [oob i v] is [update_out_of_bag_prediction(i, v)]. *)
Variable St : Type.
Variable leaf_value : list nat -> St -> res (num O * St).
Variable oob : nat -> num O -> St -> res St.

(** learner.rs:448-472 *)
Definition predict_leaf_value (nd : node) (t : tree O) (st : St) : res (tree O * St) :=
  let* ex := node_examples nd in
  let* (v, st') := leaf_value ex st in
  let* t' := set_node_value t (nd_id nd) v in
  Ok (t', st').
(** learner.rs:474-519 *)
Definition predict_child_leaf_values (nd : node) (sp : split) (t : tree O) (st : St) : res (tree O * St) :=
  let* fm := ds_get_bitvec s (sc_feature (sp_crit sp)) (sp_id sp) in
  let* exl := left_examples nd fm in
  let* (vl, st1) := leaf_value exl st in
  let* exr := right_examples nd fm in
  let* (vr, st2) := leaf_value exr st1 in
  let* t1 := set_node_value t (left_child (nd_id nd)) vl in
  let* t2 := set_node_value t1 (right_child (nd_id nd)) vr in
  Ok (t2, st2).
(** learner.rs:521-532 *)
Definition predict_out_of_bag (t : tree O) (st : St) : res St :=
  if example_sampling_enabled s then
    let* is := inactive_examples s in
    foldM (fun st i => let* p := predict_single t (in_data (ds_inner s)) i in oob i p st) is st
  else Ok st.

(** learner.rs:260-285: one turn of the loop, on the popped node. *)
Definition train_step (nd : node) (stack : list node) (t : tree O) (st : St) : res (list node * tree O * St) :=
  let* sp := find_best_split nd in
  if is_no_split (sp_crit sp) then
    let* (t', st') := predict_leaf_value nd t st in Ok (stack, t', st')
  else if negb (is_max_leaf_node t (left_child (nd_id nd))) then
    let* (lnode, rnode) := get_left_right_n2s nd sp in
    let* t' := split_node t (nd_id nd) (sp_crit sp) in
    Ok (lnode :: rnode :: stack, t', st)
  else
    let* (t1, st') := predict_child_leaf_values nd sp t st in
    let* t' := split_node t1 (nd_id nd) (sp_crit sp) in
    Ok (stack, t', st').
(** The loop; one unit of fuel per popped node. *)
Fixpoint train_loop (fuel : nat) (stack : list node) (t : tree O) (st : St) : res (tree O * St) :=
  match stack with
  | [] => Ok (t, st)
  | nd :: rest =>
    match fuel with
    | 0 => OutOfFuel
    | S fuel' =>
      let* (r, st') := train_step nd rest t st in
      train_loop fuel' (fst r) (snd r) st'
    end
  end.
(** learner.rs:241-295: [new] and [train].  The fuel is the number of nodes of a complete tree. *)
Definition train (gradients : list (num O)) (st : St) : res (tree O * St) :=
  let* t := tree_new O (c_max_tree_depth cfg) (get_supercats s) in
  let* root := get_root_n2s gradients in
  let* (t', st') := train_loop (2 ^ (c_max_tree_depth cfg + 1)) [root] t st in
  let* st'' := predict_out_of_bag t' st' in
  Ok (t', st'').
End Train.
End Learner.
Arguments mk_node {O}. Arguments nd_id {O}. Arguments nd_count {O}. Arguments nd_grad {O}. Arguments nd_compr {O}.
Arguments nd_hists {O}. Arguments nd_idx {O}. Arguments nd_mask {O}. Arguments nd_grads {O}.
Arguments mk_split {O}. Arguments sp_crit {O}. Arguments sp_id {O}.
Arguments hist_sizes {O}. Arguments width {O}. Arguments get_grad_sum {O}. Arguments jobs {O}. Arguments run_job {O}.
Arguments build_histograms {O}. Arguments put_gradient {O}. Arguments get_root_n2s {O}. Arguments get_loss {O}. Arguments make_crit {O}.
Arguments split_step {O}. Arguments find_best_split {O}. Arguments compress_step {O}. Arguments compress_examples {O}.
Arguments split_block {O}. Arguments split_examples {O}. Arguments hists_subtract {O}. Arguments derive_histograms {O}.
Arguments get_left_right_n2s {O}. Arguments to_examples {O}. Arguments node_examples {O}. Arguments left_examples {O}. Arguments right_examples {O}.
Arguments predict_leaf_value {O}. Arguments predict_child_leaf_values {O}. Arguments predict_out_of_bag {O}.
Arguments train_step {O}. Arguments train_loop {O}. Arguments train {O}.
