(** 32-bit floating point ([NumT = f32], lib.rs:13): IEEE-754 binary32 as formalised by Flocq, rounding to
    nearest even, one NaN.  Definitions only; all are executable. *)
From Coq Require Import ZArith Bool List.
From Flocq Require Import Core BinarySingleNaN.

Definition f32 : Type := binary_float 24 128.
Global Instance f32_prec : Prec_gt_0 24 := eq_refl.
Global Instance f32_emax : Prec_lt_emax 24 128 := eq_refl.

Definition f_add : f32 -> f32 -> f32 := Bplus mode_NE.
Definition f_sub : f32 -> f32 -> f32 := Bminus mode_NE.
Definition f_mul : f32 -> f32 -> f32 := Bmult mode_NE.
Definition f_div : f32 -> f32 -> f32 := Bdiv mode_NE.
Definition f_neg : f32 -> f32 := Bopp.
Definition f_abs : f32 -> f32 := Babs.

(** Rust's [<], [<=], [==] (false when an argument is NaN); [>] and [>=] are the swapped versions. *)
Definition f_lt : f32 -> f32 -> bool := Bltb.
Definition f_le : f32 -> f32 -> bool := Bleb.
Definition f_eq : f32 -> f32 -> bool := Beqb.

Definition f_is_finite : f32 -> bool := is_finite.
Definition f_is_nan : f32 -> bool := is_nan.

(** Rust's [f32::max]/[f32::min]: the other argument when one is NaN. *)
Definition f_max (x y : f32) : f32 := if f_is_nan x then y else if f_is_nan y then x else if f_le y x then x else y.
Definition f_min (x y : f32) : f32 := if f_is_nan x then y else if f_is_nan y then x else if f_le x y then x else y.

(** [n as f32] for an integer. *)
Definition f_of_Z (z : Z) : f32 := binary_normalize 24 128 f32_prec f32_emax mode_NE z 0 false.
Definition f_of_nat (n : nat) : f32 := f_of_Z (Z.of_nat n).
Definition f_of_N (n : N) : f32 := f_of_Z (Z.of_N n).
Definition f_zero : f32 := B754_zero false.
Definition f_one : f32 := f_of_Z 1.
Definition f_inf : f32 := B754_infinity false.
Definition f_ninf : f32 := B754_infinity true.
Definition f_nan : f32 := B754_nan.

(** [floor()] and [round()] (halfway cases away from zero). *)
Definition f_floor : f32 -> f32 := Bnearbyint mode_DN.
Definition f_round : f32 -> f32 := Bnearbyint mode_NA.

(** [x as iN]/[x as uN]: truncation, saturating at [lo] and [hi], NaN to 0 (Rust 1.45 and later; before that an
    out-of-range conversion was undefined behaviour). *)
Definition f_to_int (lo hi : Z) (x : f32) : Z :=
  match x with
  | B754_nan => 0
  | B754_infinity false => hi
  | B754_infinity true => lo
  | _ => Z.max lo (Z.min hi (Btrunc x))
  end.
Definition f_to_u8 : f32 -> Z := f_to_int 0 255.
Definition f_to_u32 : f32 -> Z := f_to_int 0 4294967295.
Definition f_to_isize : f32 -> Z := f_to_int (- 9223372036854775808) 9223372036854775807.
Definition f_to_usize : f32 -> Z := f_to_int 0 18446744073709551615.
