(** Specification for the Python wrapper (C52): what a Python program may do, and what the rows of a matrix are. *)
From Coq Require Import Permutation.
From Coq Require Import String.
From Verif Require Import Base Num DataModel Config ConfigModel LearnerModel CapiModel PyModel.
Local Open Scope nat_scope.
Local Open Scope list_scope.

(** All columns have one value per row. *)
Definition rectangular {O} (x : matrix O) : Prop := Forall (fun col => length col = x_rows x) (x_cols x).
(** The rows of a matrix, each as a list of values. *)
Definition rows_of {O} (x : matrix O) : list (list (num O)) := map (fun i => map (fun col => nth i col (nofZ O 0)) (x_cols x)) (seq 0 (x_rows x)).

(** The object an operation is about. *)
Definition on {O} (op : pyop O) : option nat :=
  match op with
  | PyNew _ _ => None
  | PyDealloc o | PyDel o | PySetFeature o _ _ _ | PySetData o _ _ | PySetTarget o _ | PySetConfig o _ _ | PyTrain o _ _ | PyPredict o => Some o
  end.
(** It trains, or frees, object [o]. *)
Definition retrains {O} (o : nat) (op : pyop O) : Prop := match op with PyTrain q _ _ | PyDealloc q | PyDel q => q = o | _ => False end.

(** For each object, the number of rows of the last matrix that [set_data] accepted: known from the operations and their outcomes. *)
Definition given : Type := nat -> nat.
Definition py_after {O} (k : given) (e : pyop O * outcome O) : given :=
  match e with
  | (PySetData o x _, Nothing) => fun q => if q =? o then x_rows x else k q
  | _ => k
  end.
(** The rules: matrices have at least one row; a column given by itself has at least as many values as the last matrix has rows; the threads of the training do all the jobs, in any order (a fact about
    rayon).  There is no rule about the use of objects that are freed. *)
Definition py_allowed {O} (k : given) (op : pyop O) : Prop :=
  match op with
  | PySetFeature o _ a _ | PySetTarget o a => k o <= length (a_values a)
  | PySetData _ x _ => 0 < x_rows x /\ rectangular x
  | PyTrain _ _ sched => forall iter node jobs, Permutation jobs (sched iter node jobs)
  | _ => True
  end.
Fixpoint py_follows {O} (step : pystate O -> pyop O -> res (pystate O * outcome O)) (k : given) (st : pystate O) (ops : list (pyop O)) : Prop :=
  match ops with
  | [] => True
  | op :: t => py_allowed k op /\ forall st' r, step st op = Ok (st', r) -> py_follows step (py_after k (op, r)) st' t
  end.
(** A new Python process. *)
Definition fresh {O} : pystate O := mk_py [] [].
Definition no_rows : given := fun _ => 0.

(** The table that [fit] hands to the training: the columns of the matrix and the targets, with the kinds asked for. *)
Definition table {O} (x : matrix O) (y : list (num O)) (cats : list nat) (d : data O) : Prop :=
  d_nfeatures d = length (x_cols x) /\ d_nexamples d = x_rows x /\ d_features d = x_cols x ++ [y] /\
  forall f, f <= length (x_cols x) -> exists ft, nth_error (d_ftypes d) f = Some ft /\ (ft = Numerical <-> ~ (In f cats /\ f < length (x_cols x))).
(** A matrix of the element type of the library for [nf] features; sizes are C [int]s. *)
Definition matrix_for {O} (nf : nat) (x : matrix O) : Prop :=
  x_numt x = true /\ length (x_cols x) = nf /\ (Z.of_nat nf < 2 ^ 31)%Z /\ 0 < x_rows x /\ (Z.of_nat (x_rows x) < 2 ^ 31)%Z /\ rectangular x.
(** An object that is not freed, for [nf] features. *)
Definition usable_object {O} (st : pystate O) (o nf : nat) : Prop := exists ob, nth_error (py_objs st) o = Some ob /\ po_ptr ob <> 0 /\ po_nfeatures ob = nf.
(** The columns of a matrix are the first columns of a table of that length. *)
Definition columns_of {O} (x : matrix O) (d : data O) : Prop :=
  d_nexamples d = x_rows x /\ Forall (fun col => length col = d_nexamples d) (d_features d) /\ 0 < length (d_features d) /\ exists rest, d_features d = x_cols x ++ rest.
(** Settings one after the other, none of them rejected. *)
Inductive configured {O} (parse_num : string -> option (num O)) : config O -> list (string * string) -> config O -> Prop :=
  | conf_nil : forall c, configured parse_num c [] c
  | conf_cons : forall c name text t c' c'', utf8_valid name = true -> utf8_valid text = true -> parse_record parse_num c name text = Done c' -> configured parse_num c' t c'' -> configured parse_num c ((name, text) :: t) c''.
