(** Specification for memory safety (C50): what a program may do with the C API, and what it may not. *)
From Coq Require Import Permutation.
From Verif Require Import Base Num CapiModel LearnerModel.

(** A call that has no undefined behaviour and returns (a panic returns too: it unwinds). *)
Definition safe {A} (m : res A) : Prop := m <> UB /\ m <> OutOfFuel.

(** What a program knows about the addresses it got: from its calls and their replies alone.  An address is alive from the [Alloc] that returns it to the
    successful [Dealloc] of it; its number of rows is the one of the last successful [Refresh_data]. *)
Record address : Type := mk_address { ad_live : bool; ad_rows : nat }.
Definition ledger : Type := nat -> address.
Definition nothing : ledger := fun _ => mk_address false 0.
Definition note (l : ledger) (p : nat) (a : address) : ledger := fun q => if q =? p then a else l q.
Definition after {O} (l : ledger) (e : call O * reply O) : ledger :=
  match e with
  | (Alloc _, Pointer (S i)) => note l (S i) (mk_address true 0)
  | (Dealloc p, Code z) => if (z =? 0)%Z then note l p (mk_address false 0) else l
  | (Refresh_data p n, Code z) => if (z =? 0)%Z then note l p (mk_address true (Z.to_nat n)) else l
  | _ => l
  end.
Definition known {O} (es : list (call O * reply O)) : ledger := fold_left after es nothing.

(** The rules for the next call: null or a live address; a number of rows is a C [int]; a buffer has at least as many values as there are rows; the threads of the
    training do all the jobs of a node, in any order (this one is a fact about rayon, not an obligation of the program). *)
Definition usable (l : ledger) (p : nat) : Prop := p = 0 \/ ad_live (l p) = true.
Definition allowed {O} (l : ledger) (c : call O) : Prop :=
  match c with
  | Numt_nbytes | Alloc _ => True
  | Dealloc p | Set_config_field p _ _ => usable l p
  | Refresh_data p n => usable l p /\ (n < 2 ^ 31)%Z
  | Set_feature_data p _ column _ => usable l p /\ ad_rows (l p) <= length column
  | Train p _ sched => usable l p /\ forall iter node jobs, Permutation jobs (sched iter node jobs)
  | Predict p out => usable l p /\ ad_rows (l p) <= length out
  end.
(** A program that follows the rules: [run] is how the library replies to a list of calls. *)
Fixpoint follows {O} (call1 : heap O -> call O -> res (heap O * reply O)) (l : ledger) (h : heap O) (cs : list (call O)) : Prop :=
  match cs with
  | [] => True
  | c :: t => allowed l c /\ forall h' r, call1 h c = Ok (h', r) -> follows call1 (after l (c, r)) h' t
  end.
