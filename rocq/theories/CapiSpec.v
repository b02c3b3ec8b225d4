(** Specification for the C API: what a caller sees. *)
From Coq Require Import String.
From Verif Require Import Base Num DataModel Config ConfigSpec CapiModel.

(** The context at an address. *)
Definition context_at {O} (h : heap O) (p : nat) : option (context O) :=
  match p with 0 => None | S i => match nth_error h i with Some o => o | None => None end end.
(** The reply says that the call failed. *)
Definition failed {O} (r : reply O) : Prop := r = Pointer 0 \/ r = Code (-1) \/ exists o, r = Filled (-1) o.
(** The context a call is about. *)
Definition about {O} (c : call O) : option nat :=
  match c with
  | Numt_nbytes | Alloc _ => None
  | Dealloc p | Refresh_data p _ | Set_feature_data p _ _ _ | Set_config_field p _ _ | Train p _ _ | Predict p _ => Some p
  end.
(** Two data sets with the same shape that agree on all columns but one. *)
Definition same_but_column {O} (f : nat) (d d' : data O) : Prop :=
  d_nfeatures d' = d_nfeatures d /\ d_nexamples d' = d_nexamples d /\ d_max_nbins d' = d_max_nbins d /\
  forall j, j <> f -> nth_error (d_features d') j = nth_error (d_features d) j /\ nth_error (d_limits d') j = nth_error (d_limits d) j /\
    nth_error (d_ftypes d') j = nth_error (d_ftypes d) j /\ nth_error (d_cards d') j = nth_error (d_cards d) j.
(** The calls of a program and their replies, as pairs: a successful training, a successful deallocation, a successful loading of data. *)
Definition trains {O} (p : nat) (e : call O * reply O) : Prop := match e with (Train q _ _, Code z) => q = p /\ z = 0%Z | _ => False end.
Definition frees {O} (p : nat) (e : call O * reply O) : Prop := match e with (Dealloc q, Code z) => q = p /\ z = 0%Z | _ => False end.
Definition loads {O} (p : nat) (e : call O * reply O) : Prop := match e with (Refresh_data q _, Code z) => q = p /\ z = 0%Z | _ => False end.
(** The settings made for a context: names and texts of the successful calls, in order. *)
Definition setting_of {O} (p : nat) (e : call O * reply O) : list (string * string) :=
  match e with (Set_config_field q name text, Code z) => if (q =? p) && (z =? 0)%Z then [(name, text)] else [] | _ => [] end.
Definition settings {O} (p : nat) (es : list (call O * reply O)) : list (string * string) := flat_map (setting_of p) es.
