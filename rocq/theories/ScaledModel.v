(** Model of the scaled (discretised) values of bitslices, slice_store.rs:779-794 and 883-899, 946-959.
    Definitions only. *)
From Verif Require Import Base BitModel SliceModel Num.

Section Scaled.
Variable O : numops.

(** slice_store.rs:787-788 [nunique_values] and [maxval]. *)
Definition maxval (w : nat) : num O := nofZ O (Z.of_nat (2 ^ w) - 1).

(** slice_store.rs:790-793 [linproj] *)
Definition linproj (w : nat) (value count : num O) (bounds : num O * num O) : num O :=
  let '(lo, hi) := bounds in
  nadd O (nmul O (ndiv O value (maxval w)) (nsub O hi lo)) (nmul O count lo).

(** slice_store.rs:891-894: the discretised value computed by [set_scaled_value] (before the store). *)
Definition discretise (w : nat) (value : num O) (bounds : num O * num O) : Z :=
  let '(lo, hi) := bounds in
  let v0 := nmin O hi (nmax O lo value) in
  let v1 := nmul O (ndiv O (nsub O v0 lo) (nsub O hi lo)) (maxval w) in
  ntoZ O 0 255 (nround O v1).

(** slice_store.rs:888-899 [set_scaled_value]: stores and returns the discretised value. *)
Definition set_scaled_value (w : nat) (slice : blocks) (index : nat) (value : num O) (bounds : num O * num O)
  : res (blocks * Z) :=
  let v2 := discretise w value bounds in
  let* slice' := set_value w slice index (Z.to_N v2) in
  Ok (slice', v2).

(** slice_store.rs:883-885 [get_scaled_value] *)
Definition get_scaled_value (w : nat) (slice : blocks) (index : nat) (bounds : num O * num O) : res (num O) :=
  let* v := get_value w slice index in
  Ok (linproj w (nofN O v) (nofZ O 1) bounds).

(** slice_store.rs:954-959 (with 946-952) [sum_scaled_masked] *)
Definition sum_scaled_masked (w : nat) (slice : blocks) (index : nat) (mask : N) (bounds : num O * num O)
  : res (num O * N) :=
  let count := popcount mask in
  let* sum := sum_masked w slice index mask in
  Ok (linproj w (nofN O sum) (nofN O count) bounds, count).
End Scaled.
