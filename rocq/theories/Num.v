(** Arithmetic the numerical code is written over.  The same model code is instantiated with binary32 floats
    ([f32ops]: what the program computes) and with exact real arithmetic ([Rops]: for statements the program
    satisfies up to rounding).  Definitions only. *)
From Coq Require Import ZArith Bool Reals.
From Flocq Require Import Core BinarySingleNaN.
From Verif Require Import F32.

Record numops : Type := mk_numops {
  num : Type;
  nadd : num -> num -> num;
  nsub : num -> num -> num;
  nmul : num -> num -> num;
  ndiv : num -> num -> num;
  nneg : num -> num;
  nabs : num -> num;
  nlt : num -> num -> bool;
  nle : num -> num -> bool;
  neq : num -> num -> bool;
  nisfin : num -> bool;      (* is_finite() *)
  nmax : num -> num -> num;
  nmin : num -> num -> num;
  nofZ : Z -> num;           (* n as NumT *)
  nfloor : num -> num;       (* floor() *)
  nround : num -> num;       (* round() *)
  ntoZ : Z -> Z -> num -> Z  (* x as iN, saturating at the bounds of the type *)
}.

Definition f32ops : numops :=
  mk_numops f32 f_add f_sub f_mul f_div f_neg f_abs f_lt f_le f_eq f_is_finite f_max f_min f_of_Z f_floor f_round f_to_int.

Definition Rops : numops :=
  mk_numops R Rplus Rminus Rmult Rdiv Ropp Rabs Rlt_bool Rle_bool Req_bool (fun _ => true) Rmax Rmin IZR
    (fun x => IZR (Zfloor x)) (fun x => IZR (ZnearestA x)) (fun lo hi x => Z.max lo (Z.min hi (Ztrunc x))).

(** [n as NumT] for the unsigned types. *)
Definition nofnat (O : numops) (n : nat) : num O := nofZ O (Z.of_nat n).
Definition nofN (O : numops) (n : N) : num O := nofZ O (Z.of_N n).
