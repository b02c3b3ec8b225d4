(** Specification for slice stores: the client's view.  A client holds a list of independent arrays; nothing
    here mentions buffers, offsets or free lists. *)
From Verif Require Import Base StoreModel.

Section Heap.
Context {T : Type}.

(** What each call does to the arrays the client holds. *)
Definition heap_step (h : list (list T)) (o : op T) : list (list T) :=
  match o with
  | OpAlloc len v => h ++ [repeat v len]
  | OpFree k => firstn k h ++ skipn (S k) h
  | OpWrite k i v => upd h k (upd (nth k h []) i v)
  | OpReset => []
  end.
Definition heap_run (ops : list (op T)) (h : list (list T)) : list (list T) := fold_left heap_step ops h.

(** Calls a careful client makes: positive lengths, writes inside the array. *)
Definition careful_step (h : list (list T)) (o : op T) : Prop :=
  match o with
  | OpAlloc len _ => 0 < len
  | OpWrite k i _ => i < length (nth k h []) \/ length h <= k
  | _ => True
  end.
Fixpoint careful (h : list (list T)) (ops : list (op T)) : Prop :=
  match ops with
  | [] => True
  | o :: t => careful_step h o /\ careful (heap_step h o) t
  end.

(** Upper bound of the space a history can take: every allocation with its padding. *)
Fixpoint space (align : nat) (ops : list (op T)) : nat :=
  match ops with
  | [] => 0
  | OpAlloc len _ :: t => len + align + space align t
  | _ :: t => space align t
  end.
End Heap.

(** Two ranges have no position in common. *)
Definition disjoint (r1 r2 : range) : Prop :=
  forall p, ~ (fst r1 <= p < snd r1 /\ fst r2 <= p < snd r2).
