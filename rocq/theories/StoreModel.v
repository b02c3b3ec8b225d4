(** Model of src/slice_store.rs:31-452: [SliceStore], [HistStore], [BitBlockStore].
    Definitions only.

    A store is its buffer ([capacity] cells; [None] = memory never written), the length in use, the element
    alignment, the list of freed slices and the table of slice ends.  Offsets and lengths are naturals; the
    [u32] limit is the explicit assertion of [alloc_slice].  Memory exhaustion of the system allocator and
    the addresses behind [ptr] are not modelled.  A mutable borrow is modelled by the writes done through it.
    [dbg] says whether debug assertions are compiled in. *)
From Verif Require Import Base BitModel.

Definition range := (nat * nat)%type.   (* slice_store.rs:24 SliceRange *)

Record store (T : Type) : Type := mk_store {
  st_buf : list (option T);    (* ptr and capacity *)
  st_len : nat;
  st_align : nat;              (* get_elem_align(), slice_store.rs:56-59 *)
  st_free : list range;
  st_ends : list range         (* slice_ends: HashMap start -> end *)
}.
Arguments mk_store {T}. Arguments st_buf {T}. Arguments st_len {T}. Arguments st_align {T}.
Arguments st_free {T}. Arguments st_ends {T}.

Definition U32_MAX : N := 4294967295.

Section Store.
Context {T : Type}.

(** slice_store.rs:61-82 [new], [aligned]; 84-92 [alloc] asserts a positive capacity. *)
Definition store_new (cap align : nat) : res (store T) :=
  let* _ := rassert (0 <? cap) in
  Ok (mk_store (repeat None cap) 0 align [] []).

(** slice_store.rs:113-114: [while new_cap < new_len { new_cap *= 2 }]. *)
Fixpoint grow_cap (fuel : nat) (new_cap new_len : nat) : res nat :=
  if new_cap <? new_len then
    match fuel with
    | O => OutOfFuel
    | S fuel' => grow_cap fuel' (new_cap * 2) new_len
    end
  else Ok new_cap.

(** slice_store.rs:119-121: write [value] to the cells [from .. from+n) through the raw pointer. *)
Fixpoint write_cells (n from : nat) (value : T) (buf : list (option T)) : res (list (option T)) :=
  match n with
  | O => Ok buf
  | S n' => let* buf' := set_idx_uc buf from (Some value) in write_cells n' (S from) value buf'
  end.

(** slice_store.rs:110-124 [resize], with 94-108 [realloc]. *)
Definition resize (s : store T) (new_len : nat) (value : T) : res (store T) :=
  let cap := length (st_buf s) in
  let* buf1 :=
    (if cap <? new_len then
       let* _ := rassert (0 <? cap) in
       let* new_cap := grow_cap new_len (cap * 2) new_len in
       let* _ := rassert (cap <? new_cap) in
       Ok (st_buf s ++ repeat None (new_cap - cap))
     else Ok (st_buf s)) in
  let* buf2 := write_cells (new_len - st_len s) (st_len s) value buf1 in
  Ok (mk_store buf2 new_len (st_align s) (st_free s) (st_ends s)).

(** Reading a cell; reading memory never written is undefined. *)
Definition rd_cell (o : option T) : res T := match o with Some v => Ok v | None => UB end.

(** slice_store.rs:148-150 [get_slice]: bounds are checked against the capacity. *)
Definition get_slice (s : store T) (r : range) : res (list T) :=
  let* cells := subslice (st_buf s) (fst r) (snd r) in mapM rd_cell cells.

(** slice_store.rs:152-154 [get_slice_mut], used to overwrite the whole slice with [vs]. *)
Definition put_slice (s : store T) (r : range) (vs : list T) : res (store T) :=
  let* _ := subslice (st_buf s) (fst r) (snd r) in
  let* _ := rassert (length vs =? snd r - fst r) in
  Ok (mk_store (firstn (fst r) (st_buf s) ++ map Some vs ++ skipn (snd r) (st_buf s))
               (st_len s) (st_align s) (st_free s) (st_ends s)).

(** slice_store.rs:152-154 [get_slice_mut(r)[i] = v]. *)
Definition put_elem (s : store T) (r : range) (i : nat) (v : T) : res (store T) :=
  let* cells := subslice (st_buf s) (fst r) (snd r) in
  let* _ := rassert (i <? length cells) in
  Ok (mk_store (upd (st_buf s) (fst r + i) (Some v)) (st_len s) (st_align s) (st_free s) (st_ends s)).

(** A borrowed part of the buffer, as (start, end) offsets; re-slicing it with [a..b]. *)
Definition subview (v : range) (a b : nat) : res range :=
  if (a <=? b) && (b <=? snd v - fst v) then Ok (fst v + a, fst v + b) else Panic.
(** [split_at_mut(mid)] of the whole buffer. *)
Definition split_view (cap mid : nat) : res (range * range) :=
  if mid <=? cap then Ok ((0, mid), (mid, cap)) else Panic.

(** slice_store.rs:156-167 [get_two_slices_mut]: the two parts of the buffer the references point to.
    The [u32] subtractions panic on underflow in debug builds and wrap to an out-of-range (panicking)
    length in release builds. *)
Definition get_two_slices_mut (dbg : bool) (s : store T) (r1 r2 : range) : res (range * range) :=
  let* _ := rassert (negb dbg || negb ((fst r1 =? fst r2) && (snd r1 =? snd r2))) in
  let cap := length (st_buf s) in
  if fst r1 <? fst r2 then
    let* (s1, s2) := split_view cap (fst r2) in
    let* v1 := subview s1 (fst r1) (snd r1) in
    let* _ := rassert (fst r2 <=? snd r2) in
    let* v2 := subview s2 0 (snd r2 - fst r2) in
    Ok (v1, v2)
  else
    let* (s1, s2) := split_view cap (fst r1) in
    let* _ := rassert (fst r1 <=? snd r1) in
    let* v1 := subview s2 0 (snd r1 - fst r1) in
    let* v2 := subview s1 (fst r2) (snd r2) in
    Ok (v1, v2).

(** slice_store.rs:174-176: index of the first free slice that is long enough.  (Free slices are full
    slices of the table, so [r.1 - r.0] does not underflow.) *)
Fixpoint find_free (len : nat) (free : list range) : option nat :=
  match free with
  | [] => None
  | r :: t => if len <=? snd r - fst r then Some 0
              else match find_free len t with Some i => Some (S i) | None => None end
  end.

(** [Vec::swap_remove(i)]: the last element replaces element [i]. *)
Definition swap_remove {A} (l : list A) (i : nat) : list A :=
  match nth_error l (length l - 1) with
  | Some x => firstn (length l - 1) (upd l i x)
  | None => l
  end.

(** slice_store.rs:169-201 [alloc_slice]. *)
Definition alloc_slice (s : store T) (len : nat) (value : T) : res (store T * range) :=
  let* _ := rassert (0 <? len) in
  match find_free len (st_free s) with
  | Some i =>
    let* r := idx (st_free s) i in
    let s1 := mk_store (st_buf s) (st_len s) (st_align s) (swap_remove (st_free s) i) (st_ends s) in
    let* s2 := put_slice s1 r (repeat value (snd r - fst r)) in
    Ok (s2, (fst r, fst r + len))
  | None =>
    let m := st_len s mod st_align s in
    let old_len := if m =? 0 then st_len s else st_len s + st_align s - m in
    let new_len := old_len + len in
    let* _ := rassert (N.of_nat new_len <? U32_MAX)%N in
    let* s1 := resize s new_len value in
    Ok (mk_store (st_buf s1) (st_len s1) (st_align s1) (st_free s1) ((old_len, new_len) :: st_ends s1),
        (old_len, new_len))
  end.

(** [slice_ends[&start]]: panics when the key is missing.  (An insert puts the newest entry first.) *)
Fixpoint ends_get (ends : list range) (start : nat) : res nat :=
  match ends with
  | [] => Panic
  | (a, e) :: t => if a =? start then Ok e else ends_get t start
  end.

(** slice_store.rs:208-212 [free_slice]. *)
Definition free_slice (dbg : bool) (s : store T) (r : range) : res (store T) :=
  let* _ := rassert (negb dbg || negb (existsb (fun f => fst f =? fst r) (st_free s))) in
  let* e := ends_get (st_ends s) (fst r) in
  Ok (mk_store (st_buf s) (st_len s) (st_align s) (st_free s ++ [(fst r, e)]) (st_ends s)).

(** slice_store.rs:214-218 [reset]. *)
Definition store_reset (s : store T) : store T :=
  mk_store (st_buf s) 0 (st_align s) [] [].

(* - histories of a client ------------------------------------------------------------------ *)

(** One call of a client.  Slices are named by their position in the list of slices the client holds
    (allocated and not yet freed), so a client never frees or writes a slice it does not hold. *)
Inductive op : Type :=
| OpAlloc (len : nat) (v : T)
| OpFree (k : nat)
| OpWrite (k i : nat) (v : T)
| OpReset.

Definition remove_nth {A} (k : nat) (l : list A) : list A := firstn k l ++ skipn (S k) l.

Definition exec (dbg : bool) (st : store T * list range) (o : op) : res (store T * list range) :=
  let '(s, held) := st in
  match o with
  | OpAlloc len v => let* (s', r) := alloc_slice s len v in Ok (s', held ++ [r])
  | OpFree k =>
    match nth_error held k with
    | None => Ok (s, held)
    | Some r => let* s' := free_slice dbg s r in Ok (s', remove_nth k held)
    end
  | OpWrite k i v =>
    match nth_error held k with
    | None => Ok (s, held)
    | Some r => let* s' := put_elem s r i v in Ok (s', held)
    end
  | OpReset => Ok (store_reset s, [])
  end.

Definition run_ops (dbg : bool) (ops : list op) (st : store T * list range) : res (store T * list range) :=
  foldM (exec dbg) ops st.

End Store.
Arguments op : clear implicits.

(* - HistStore: slice_store.rs:230-312 ------------------------------------------------------- *)

Record hist_store (T : Type) : Type := mk_hist { hs_store : store T; hs_layout : list nat }.
Arguments mk_hist {T}. Arguments hs_store {T}. Arguments hs_layout {T}.

(** slice_store.rs:239-247: running sums.  (The [u32] accumulator's overflow is not modelled.) *)
Fixpoint layout_from (accum : nat) (sizes : list nat) : list nat :=
  match sizes with
  | [] => []
  | n :: t => (accum + n) :: layout_from (accum + n) t
  end.

Section Hist.
Context {T : Type}.
Variable dflt : T.   (* T::default() *)

(** slice_store.rs:236-252 [new]; [align] is the element alignment [SliceStore::new] computes for T. *)
Definition hist_new (cap align : nat) (sizes : list nat) : res (hist_store T) :=
  let* s := store_new cap align in
  Ok (mk_hist s (0 :: layout_from 0 sizes)).

(** slice_store.rs:254-258 *)
Definition get_histogram_range (h : hist_store T) (feat : nat) : res range :=
  let* lo := idx (hs_layout h) feat in
  let* hi := idx (hs_layout h) (feat + 1) in
  Ok (lo, hi).

(** slice_store.rs:260-263 *)
Definition get_hist (h : hist_store T) (r : range) (feat : nat) : res (list T) :=
  let* (lo, hi) := get_histogram_range h feat in
  let* sl := get_slice (hs_store h) r in
  subslice sl lo hi.

(** slice_store.rs:265-268: [get_hist_mut(r, feat)[i] = v]. *)
Definition put_hist_elem (h : hist_store T) (r : range) (feat i : nat) (v : T) : res (hist_store T) :=
  let* (lo, hi) := get_histogram_range h feat in
  let* sl := get_slice (hs_store h) r in
  let* hist := subslice sl lo hi in
  let* _ := rassert (i <? length hist) in
  let* s := put_elem (hs_store h) r (lo + i) v in
  Ok (mk_hist s (hs_layout h)).

(** slice_store.rs:270-287 [hists_subtract]; [minus] is the type's [Sub]. *)
Fixpoint subtract_loop (minus : T -> T -> T) (is : list nat) (plo llo rlo : nat) (buf : list (option T))
  : res (list (option T)) :=
  match is with
  | [] => Ok buf
  | i :: is' =>
    let* po := idx buf (plo + i) in let* p := rd_cell po in
    let* lo := idx buf (llo + i) in let* l := rd_cell lo in
    let* buf' := set_idx buf (rlo + i) (Some (minus p l)) in
    subtract_loop minus is' plo llo rlo buf'
  end.
Definition hists_subtract (minus : T -> T -> T) (h : hist_store T) (pr lr rr : range) : res (hist_store T) :=
  let s := hs_store h in
  let* buf := subtract_loop minus (seq 0 (snd pr - fst pr)) (fst pr) (fst lr) (fst rr) (st_buf s) in
  Ok (mk_hist (mk_store buf (st_len s) (st_align s) (st_free s) (st_ends s)) (hs_layout h)).

(** slice_store.rs:300-303 [alloc_hists]. *)
Definition alloc_hists (h : hist_store T) : res (hist_store T * range) :=
  let* total := idx (hs_layout h) (length (hs_layout h) - 1) in
  let* (s, r) := alloc_slice (hs_store h) total dflt in
  Ok (mk_hist s (hs_layout h), r).

(** slice_store.rs:305-307 *)
Definition free_hists (dbg : bool) (h : hist_store T) (r : range) : res (hist_store T) :=
  let* s := free_slice dbg (hs_store h) r in Ok (mk_hist s (hs_layout h)).
End Hist.

(* - BitBlockStore: slice_store.rs:322-452 --------------------------------------------------- *)

Definition bstore := store block.

(** slice_store.rs:327-334: 64-byte alignment of 32-byte aligned blocks, element alignment 64/32. *)
Definition bstore_new (cap : nat) : res bstore := store_new cap 2.

(** slice_store.rs:336-339 *)
Definition alloc_zero_blocks (s : bstore) (nblocks : nat) : res (bstore * range) :=
  let* _ := rassert (N.of_nat nblocks <? U32_MAX)%N in
  alloc_slice s nblocks bb_zeros.
(** slice_store.rs:341-344 *)
Definition alloc_zero_bits (s : bstore) (nbits : nat) : res (bstore * range) :=
  alloc_zero_blocks s (blocks_required_for nbits).
(** slice_store.rs:346-349 (the assertion is a debug assertion; a larger number is truncated in release
    builds, which is not modelled) *)
Definition alloc_one_blocks (s : bstore) (nblocks : nat) : res (bstore * range) :=
  let* _ := rassert (N.of_nat nblocks <? U32_MAX)%N in
  alloc_slice s nblocks bb_ones.
(** slice_store.rs:351-369: same tail loop as bitblock.rs:267-276. *)
Definition alloc_one_bits (s : bstore) (nbits : nat) : res (bstore * range) :=
  let* (s1, r) := alloc_one_blocks s (blocks_required_for nbits) in
  let* sl := get_slice s1 r in
  let* sl' := mask_tail nbits sl in
  let* s2 := put_slice s1 r sl' in
  Ok (s2, r).
(** slice_store.rs:371-383; [k] bytes per value. *)
Definition alloc_from_iter (k : nat) (s : bstore) (nvalues : nat) (it : list N) : res (bstore * range) :=
  let nblocks := blocks_required_for (nvalues * k * 8) in
  let* (s1, r) := alloc_zero_blocks s nblocks in
  let* s2 := put_slice s1 r (fill_from_iter k nblocks it) in
  Ok (s2, r).
(** slice_store.rs:385-396 *)
Definition alloc_from_bits_iter (s : bstore) (nbits : nat) (it : list bool) : res (bstore * range) :=
  let nblocks := blocks_required_for nbits in
  let* (s1, r) := alloc_zero_blocks s nblocks in
  let* bs := fill_from_bool_iter nblocks it in
  let* s2 := put_slice s1 r bs in
  Ok (s2, r).
(** slice_store.rs:398-402 *)
Definition alloc_zero_bitslice (width : nat) (s : bstore) (nvalues : nat) : res (bstore * range) :=
  alloc_zero_blocks s (blocks_required_for nvalues * width).
(** slice_store.rs:404-406 *)
Definition free_blocks := @free_slice block.
(** slice_store.rs:408-414 *)
Definition get_bitvec (s : bstore) (r : range) : res blocks := get_slice s r.
