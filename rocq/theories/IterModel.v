(** Model of the set-bit iterators and visitors of BitVec: slice_store.rs:542-775.  Definitions only. *)
From Verif Require Import Base BitModel.

(** [trailing_zeros()] of a non-zero word. *)
Fixpoint ctz_pos (p : positive) : nat := match p with xO q => S (ctz_pos q) | _ => 0 end.
Definition ctz (v : N) : nat := match v with N0 => 0 | Npos p => ctz_pos p end.

(* - IndexIter: slice_store.rs:713-775 ------------------------------------------------------------ *)

(** slice_store.rs:713-727: the mutable part of the iterator. *)
Record index_iter := mkiter { it_i : nat; it_j : nat; it_mask : N }.

(** slice_store.rs:759-775 [new]: [n > 0] is asserted. *)
Definition iter_new (n : nat) : res index_iter :=
  let* _ := rassert (0 <? n) in Ok (mkiter 0 0 0).

(** slice_store.rs:735-750 [next].  [k] is [size_of::<T>()], [vec] the iterated vector, [maskf i] the word
    [f(mask_f(j))], [indexf i] the value of [index_f(i)].  [fuel] bounds the loop (one turn per word). *)
Fixpoint iter_next_loop (fuel k n : nat) (vec : blocks) (maskf : nat -> res N) (indexf : nat -> res nat)
         (st : index_iter) : res (option nat * index_iter) :=
  match fuel with
  | O => OutOfFuel
  | S fuel' =>
    if negb (it_mask st =? 0)%N then
      let b := ctz (it_mask st) in
      Ok (Some (b + k * 8 * it_j st),
          mkiter (it_i st) (it_j st) (N.lxor (it_mask st) (N.shiftl 1 (N.of_nat b))))
    else if it_i st <? n then
      let* j := indexf (it_i st) in
      let* mask1 := bs_get_uc k vec (it_i st) in
      let* mask2 := maskf j in
      iter_next_loop fuel' k n vec maskf indexf (mkiter (S (it_i st)) j (N.land mask1 mask2))
    else Ok (None, st)
  end.
Definition iter_next (k n : nat) (vec : blocks) (maskf : nat -> res N) (indexf : nat -> res nat) (st : index_iter) :=
  iter_next_loop (S (S n)) k n vec maskf indexf st.

(** Draining an iterator ([for x in iter] / [collect]): at most one item per bit. *)
Fixpoint iter_drain (fuel k n : nat) (vec : blocks) (maskf : nat -> res N) (indexf : nat -> res nat)
         (st : index_iter) : res (list nat) :=
  match fuel with
  | O => OutOfFuel
  | S fuel' =>
    let* r := iter_next k n vec maskf indexf st in
    match r with
    | (None, _) => Ok []
    | (Some x, st') => let* l := iter_drain fuel' k n vec maskf indexf st' in Ok (x :: l)
    end
  end.
Definition iter_collect (k : nat) (vec : blocks) (maskf : nat -> res N) (indexf : nat -> res nat) : res (list nat) :=
  let n := block_len k vec in
  let* st := iter_new n in
  iter_drain (S (n * (k * 8))) k n vec maskf indexf st.

(** The items of the six public iterators, in order. [wnot k] is [!x] on [k]-byte words. *)
Definition wnot (k : nat) (x : N) : N := N.lnot x (8 * N.of_nat k).
(** slice_store.rs:643-645 *)
Definition index_list (a : blocks) : res (list nat) :=
  iter_collect 8 a (fun _ => Ok (wnot 8 0)) (fun i => Ok i).
(** slice_store.rs:647-653 *)
Definition index_list_compr (a idxs : blocks) : res (list nat) :=
  let* _ := rassert (block_len 4 a =? block_len 4 idxs) in
  iter_collect 4 a (fun _ => Ok (wnot 4 0)) (fun i => let* x := bs_get_uc 4 idxs i in Ok (N.to_nat x)).
(** slice_store.rs:655-661 *)
Definition index_list_and (a mask : blocks) : res (list nat) :=
  let* _ := rassert (block_len 8 a =? block_len 8 mask) in
  iter_collect 8 a (fun j => bs_get_uc 8 mask j) (fun i => Ok i).
(** slice_store.rs:663-672 *)
Definition index_list_and_compr (a mask idxs : blocks) : res (list nat) :=
  let* _ := rassert (block_len 4 a =? block_len 4 idxs) in
  let* _ := rassert (block_len 4 a <=? block_len 4 mask) in
  iter_collect 4 a (fun j => bs_get 4 mask j) (fun i => let* x := bs_get_uc 4 idxs i in Ok (N.to_nat x)).
(** slice_store.rs:674-680 *)
Definition index_list_andnot (a mask : blocks) : res (list nat) :=
  let* _ := rassert (block_len 8 a =? block_len 8 mask) in
  iter_collect 8 a (fun j => let* m := bs_get_uc 8 mask j in Ok (wnot 8 m)) (fun i => Ok i).
(** slice_store.rs:682-691 *)
Definition index_list_andnot_compr (a mask idxs : blocks) : res (list nat) :=
  let* _ := rassert (block_len 4 a =? block_len 4 idxs) in
  let* _ := rassert (block_len 4 a <=? block_len 4 mask) in
  iter_collect 4 a (fun j => let* m := bs_get 4 mask j in Ok (wnot 4 m))
               (fun i => let* x := bs_get_uc 4 idxs i in Ok (N.to_nat x)).

(* - visitors: slice_store.rs:542-641 -------------------------------------------------------------- *)

(** The common loop.  [load i] is (mask, index) of word [i]; the visitor [f] is a state transformer returning
    [true] to stop.  [fuel]: one turn per bit and per word. *)
Fixpoint each_loop {S} (fuel k n : nat) (load : nat -> res (N * nat)) (f : S -> nat -> S * bool)
         (i : nat) (mask : N) (index : nat) (s : S) : res S :=
  match fuel with
  | O => OutOfFuel
  | Datatypes.S fuel' =>
    if negb (mask =? 0)%N then
      let j := ctz mask in
      let mask := N.lxor mask (N.shiftl 1 (N.of_nat j)) in
      let '(s', stop) := f s (j + k * 8 * index) in
      if stop then Ok s' else each_loop fuel' k n load f i mask index s'
    else
      if Datatypes.S i <? n then
        let* mi := load (Datatypes.S i) in
        each_loop fuel' k n load f (Datatypes.S i) (fst mi) (snd mi) s
      else Ok s
  end.
Definition for_each {S} (k n : nat) (load : nat -> res (N * nat)) (f : S -> nat -> S * bool) (s : S) : res S :=
  let* _ := rassert (0 <? n) in
  let* mi := load 0 in
  each_loop (n * (k * 8 + 1) + 1) k n load f 0 (fst mi) (snd mi) s.

(** slice_store.rs:542-561 *)
Definition for_each_index {S} (a : blocks) (f : S -> nat -> S * bool) (s : S) : res S :=
  for_each 8 (block_len 8 a) (fun i => let* m := bs_get_uc 8 a i in Ok (m, i)) f s.
(** slice_store.rs:563-585 *)
Definition for_each_index_compr {S} (a idxs : blocks) (f : S -> nat -> S * bool) (s : S) : res S :=
  let n := block_len 4 a in
  let* _ := rassert (0 <? n) in
  let* _ := rassert (n =? block_len 4 idxs) in
  for_each 4 n (fun i => let* x := bs_get_uc 4 idxs i in let* m := bs_get_uc 4 a i in Ok (m, N.to_nat x)) f s.
(** slice_store.rs:587-611 *)
Definition for_each_index_and {S} (a other : blocks) (f : S -> nat -> S * bool) (s : S) : res S :=
  let n := block_len 8 a in
  let* _ := rassert (0 <? n) in
  let* _ := rassert (n =? block_len 8 other) in
  for_each 8 n (fun i => let* m1 := bs_get_uc 8 a i in let* m2 := bs_get_uc 8 other i in Ok (N.land m1 m2, i)) f s.
(** slice_store.rs:614-641: the index into [other] is not checked. *)
Definition for_each_index_and_compr {S} (a other idxs : blocks) (f : S -> nat -> S * bool) (s : S) : res S :=
  let n := block_len 4 a in
  let* _ := rassert (0 <? n) in
  let* _ := rassert (n <=? block_len 4 other) in
  let* _ := rassert (n =? block_len 4 idxs) in
  for_each 4 n (fun i => let* x := bs_get_uc 4 idxs i in
                         let* m1 := bs_get_uc 4 a i in
                         let* m2 := bs_get_uc 4 other (N.to_nat x) in
                         Ok (N.land m1 m2, N.to_nat x)) f s.
