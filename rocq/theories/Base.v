(** Base definitions shared by the whole model: the error monad and list access with the
    failure modes of the Rust code (panic on out-of-range index, undefined behaviour on raw pointers).
    Definitions only. *)
From Coq Require Export List Arith NArith ZArith Lia Bool.
From Coq Require Export ZifyBool ZifyNat ZifyN.
Export ListNotations.

Ltac Zify.zify_post_hook ::= Z.div_mod_to_equations.

Arguments N.add : simpl never.
Arguments N.mul : simpl never.
Arguments N.sub : simpl never.
Arguments N.div : simpl never.
Arguments N.modulo : simpl never.
Arguments N.pow : simpl never.
Arguments N.shiftl : simpl never.
Arguments N.shiftr : simpl never.
Arguments N.land : simpl never.
Arguments N.lor : simpl never.
Arguments N.lxor : simpl never.
Arguments N.testbit : simpl never.
Arguments Nat.div : simpl never.
Arguments Nat.modulo : simpl never.

(** Outcome of a Rust call.  [Panic]: a Rust panic (failed [assert!], slice index out of range,
    [unwrap] on [None], debug-mode arithmetic overflow).  [UB]: an out-of-bounds access through a raw
    pointer / [get_unchecked].  [OutOfFuel]: the fuel of a modelled loop is exhausted (never a Rust
    behaviour; every theorem excludes it by stating [= Ok _]). *)
Inductive res (A : Type) : Type :=
| Ok (a : A)
| Panic
| UB
| OutOfFuel.
Arguments Ok {A} a.
Arguments Panic {A}.
Arguments UB {A}.
Arguments OutOfFuel {A}.

Definition rbind {A B} (m : res A) (f : A -> res B) : res B :=
  match m with
  | Ok a => f a
  | Panic => Panic
  | UB => UB
  | OutOfFuel => OutOfFuel
  end.

Notation "'let*' x ':=' m 'in' k" := (rbind m (fun x => k))
  (at level 200, x pattern, m at level 100, k at level 200, right associativity).

Definition is_ok {A} (m : res A) : bool := match m with Ok _ => true | _ => false end.

(** [assert!(b)] *)
Definition rassert (b : bool) : res unit := if b then Ok tt else Panic.

(** [debug_assert!]-guarded raw access: undefined behaviour when violated. *)
Definition runsafe (b : bool) : res unit := if b then Ok tt else UB.

(** Slice indexing [l[i]] (panics when out of range). *)
Definition idx {A} (l : list A) (i : nat) : res A :=
  match nth_error l i with Some a => Ok a | None => Panic end.

(** Unchecked indexing [*ptr.add(i)] / [get_unchecked(i)]. *)
Definition idx_uc {A} (l : list A) (i : nat) : res A :=
  match nth_error l i with Some a => Ok a | None => UB end.

(** List update at a position (no change if out of range). *)
Fixpoint upd {A} (l : list A) (i : nat) (x : A) : list A :=
  match l, i with
  | [], _ => []
  | _ :: t, O => x :: t
  | h :: t, S j => h :: upd t j x
  end.

(** [l[i] = x] (panics when out of range). *)
Definition set_idx {A} (l : list A) (i : nat) (x : A) : res (list A) :=
  if i <? length l then Ok (upd l i x) else Panic.

(** [*ptr.add(i) = x]. *)
Definition set_idx_uc {A} (l : list A) (i : nat) (x : A) : res (list A) :=
  if i <? length l then Ok (upd l i x) else UB.

(** Sub-slice [l[a..b]] without bounds check. *)
Definition sub {A} (l : list A) (a b : nat) : list A := firstn (b - a) (skipn a l).

(** Sub-slice [&l[a..b]]: panics unless a <= b <= len. *)
Definition subslice {A} (l : list A) (a b : nat) : res (list A) :=
  if (a <=? b) && (b <=? length l) then Ok (sub l a b) else Panic.

(** Monadic map and fold, in order. *)
Fixpoint mapM {A B} (f : A -> res B) (l : list A) : res (list B) :=
  match l with
  | [] => Ok []
  | x :: t => let* y := f x in let* ys := mapM f t in Ok (y :: ys)
  end.

Fixpoint foldM {A S} (f : S -> A -> res S) (l : list A) (s : S) : res S :=
  match l with
  | [] => Ok s
  | x :: t => let* s' := f s x in foldM f t s'
  end.

Fixpoint sumN (l : list N) : N := match l with [] => 0%N | x :: t => (x + sumN t)%N end.

Definition b2n (b : bool) : N := if b then 1%N else 0%N.
