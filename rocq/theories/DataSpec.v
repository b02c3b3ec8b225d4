(** Specification of loading data. *)
From Coq Require Import Reals.
From Flocq Require Import Core BinarySingleNaN.
From Verif Require Import Base F32 DataModel.

(** The value of a field is a category: a non-negative whole number (or, as the code accepts it, +infinity). *)
Definition valid_category (v : f32) : Prop :=
  v = f_inf \/ (is_finite v = true /\ exists z : Z, (0 <= z)%Z /\ B2R v = IZR z).

(** The category number it stands for (32 bits). *)
Definition category_number (v : f32) (c : nat) : Prop :=
  (v = f_inf /\ c = Z.to_nat 4294967295) \/
  (is_finite v = true /\ exists z : Z, (0 <= z)%Z /\ B2R v = IZR z /\ c = Z.to_nat (Z.min z 4294967295)).

(** [vs] is column [j] of the table. *)
Definition column (items : list csv_item) (j : nat) (vs : list f32) : Prop :=
  Forall2 (fun it v => exists fields, it = CsvRecord fields /\ nth_error fields j = Some (Some v)) items vs.

Definition columns_of (items : list csv_item) : nat := match items with CsvRecord fields :: _ => length fields | _ => 0 end.

(** [lo] and [hi] are the smallest and the largest number among [vs]; NaN entries do not count. *)
Definition smallest (vs : list f32) (lo : f32) : Prop :=
  In lo vs /\ f_is_nan lo = false /\ forall v, In v vs -> f_is_nan v = false -> f_le lo v = true.
Definition largest (vs : list f32) (hi : f32) : Prop :=
  In hi vs /\ f_is_nan hi = false /\ forall v, In v vs -> f_is_nan v = false -> f_le v hi = true.
Definition limits_of (vs : list f32) (lo hi : f32) : Prop :=
  (smallest vs lo /\ largest vs hi) \/
  ((forall v, In v vs -> f_is_nan v = true) /\ lo = f_inf /\ hi = f_ninf).

(** The number of categories: one more than the largest category number. *)
Definition cardinality (vs : list f32) (n : nat) : Prop :=
  (exists v c, In v vs /\ category_number v c /\ n = S c) /\
  forall v c, In v vs -> category_number v c -> c < n.

(** The table is acceptable: at least one record and one column, every field a number, and a category in the columns
    [cats]. *)
Definition acceptable (cats : list nat) (items : list csv_item) : Prop :=
  0 < columns_of items /\
  forall j, j < columns_of items -> exists vs, column items j vs /\ (In j cats -> Forall valid_category vs).
