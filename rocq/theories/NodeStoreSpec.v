(** What the store-level theorems (C43, C55) talk about: the contexts a program can have, and when the slices of one tree fit. *)
From Verif Require Import Base BitModel StoreModel Num DataModel Config TreeModel DatasetModel LearnerModel NodeStoreModel.

(** The addresses of a store are 32-bit numbers of cells.  A tree of depth [D] needs fewer than [2^D] slices in each bit store (one per node
    that is looked at), none longer than the bit-sliced gradients of all [n] examples (blocks of 256 bits, [width] blocks for each 256
    examples), and [D + 1] slices in the histogram store; every slice may be preceded by padding. *)
Definition room {O} (cfg : config O) (n : nat) (sizes : list nat) : Prop :=
  let D := c_max_tree_depth cfg in
  let slice := (n + 255) / 256 * Nat.max 1 (c_discr_nbits cfg) in
  (N.of_nat (2 ^ D * (slice + 2)) <= 4294967295)%N /\ (N.of_nat ((D + 1) * (list_sum sizes + 2)) <= 4294967295)%N.

(** The contexts a program can have: a new one, and what a tree learned with such a context leaves behind (whatever the data set,
    gradients and objective of that tree were). *)
Inductive context {O} (dbg : bool) (cfg : config O) (sizes : list nat) : ctx O -> Prop :=
| context_new d c : hist_sizes d = Ok sizes -> ctx_new cfg d = Ok c -> context dbg cfg sizes c
| context_used c s bounds sched (St : Type) leaf_value oob gradients (st st' : St) t c' :
    context dbg cfg sizes c -> room cfg (nactive_examples s) sizes ->
    s_train dbg cfg s bounds sched St leaf_value oob c gradients st = Ok (t, st', c') -> context dbg cfg sizes c'.

(** Every slice ever made since the last reset is on the free list (and the free list has nothing else and nothing twice). *)
Definition all_free {T} (s : store T) : Prop :=
  NoDup (st_free s) /\ forall r, In r (st_ends s) <-> In r (st_free s).

(** The outcome without the context that is left behind. *)
Definition outcome {A C} (x : res (A * C)) : res A := let* (a, _) := x in Ok a.
