(** Model of python/bitboost/bitboost.py:53-167 (class RawBitBoost) and python/bitboost/sklearn.py.  Definitions only.

    Objects are numbered in the order of their creation and are copied only by [py_copy].  The reply codes of the library are ignored, as in the code.  Locating the library and the documentation are not modelled. *)
From Coq Require Import String.
From Verif Require Import Base Num DataModel Config LearnerModel DatasetModel ObjectiveModel CapiModel.

(** ctypes converts a Python integer to a C int without a check. *)
Definition to_cint (z : Z) : Z := let m := (z mod 2 ^ 32)%Z in if (m <? 2 ^ 31)%Z then m else (m - 2 ^ 32)%Z.

Section Py.
Variable O : numops.
Variable M : mathops O.
Variable parse_num : string -> option (num O).
Variable dbg : bool.
(** The keys of [config_params] (bitboost.py:197-206): the names in the generated csv file, without those for the command line only. *)
Variable known_param : string -> bool.

(** numpy arrays: whether the element type is [numt], and the elements; a matrix by columns, with its number of rows. *)
Record array : Type := mk_array { a_numt : bool; a_values : list (num O) }.
Record matrix : Type := mk_matrix { x_numt : bool; x_rows : nat; x_cols : list (list (num O)) }.

(** bitboost.py:94-99: the attributes; a pointer of 0 is [None] or [c_void_p(0)]. *)
Record pyobj : Type := mk_pyobj { po_nfeatures : nat; po_nexamples : Z; po_ptr : nat }.
Record pystate : Type := mk_py { py_heap : heap O; py_objs : list pyobj }.

Inductive pyop : Type :=
  | PyNew (nfeatures nexamples : Z)
  | PyDealloc (o : nat)
  | PyDel (o : nat)
  | PySetFeature (o : nat) (feat_id : Z) (a : array) (is_categorical : bool)
  | PySetData (o : nat) (x : matrix) (cat_features : list nat)
  | PySetTarget (o : nat) (a : array)
  | PySetConfig (o : nat) (name value : string)
  | PyTrain (o : nat) (g : rng) (sched : nat -> nat -> list job -> list job)
  | PyPredict (o : nat).
(** What an operation gives: an exception; nothing; an object; an array ([None]: partly written). *)
Inductive outcome : Type := Raised | Nothing | Object (o : nat) | Array (a : option (list (num O))).

Notation api := (api_call M parse_num dbg).
Definition set_obj (st : pystate) (h : heap O) (o : nat) (ob : pyobj) : pystate := mk_py h (upd (py_objs st) o ob).
(** bitboost.py:110-112 [_check] *)
Definition checked (st : pystate) (o : nat) (k : pyobj -> res (pystate * outcome)) : res (pystate * outcome) :=
  match nth_error (py_objs st) o with
  | None => Ok (st, Raised)
  | Some ob => if po_ptr ob =? 0 then Ok (st, Raised) else k ob
  end.
(** [assert] *)
Definition asserted (b : bool) (st : pystate) (k : res (pystate * outcome)) : res (pystate * outcome) := if b then k else Ok (st, Raised).

(** bitboost.py:105-108 *)
Definition py_dealloc (st : pystate) (o : nat) (ob : pyobj) : res (pystate * outcome) :=
  let* (h, _) := api (py_heap st) (Dealloc (po_ptr ob)) in
  Ok (set_obj st h o (mk_pyobj (po_nfeatures ob) (po_nexamples ob) 0), Nothing).
(** bitboost.py:114-123 *)
Definition py_set_feature (st : pystate) (ob : pyobj) (feat_id : Z) (a : array) (is_categorical : bool) : res (pystate * outcome) :=
  asserted (a_numt a && (0 <=? feat_id)%Z && (feat_id <=? Z.of_nat (po_nfeatures ob))%Z) st
    (let* (h, _) := api (py_heap st) (Set_feature_data (po_ptr ob) (to_cint feat_id) (a_values a) (if is_categorical then 1 else 0)) in
     Ok (mk_py h (py_objs st), Nothing)).
(** bitboost.py:125-136 *)
Definition py_set_data (st : pystate) (o : nat) (ob : pyobj) (x : matrix) (cat_features : list nat) : res (pystate * outcome) :=
  asserted (x_numt x && (length (x_cols x) =? po_nfeatures ob)) st
    (let ob' := mk_pyobj (po_nfeatures ob) (Z.of_nat (x_rows x)) (po_ptr ob) in
     let* (h, _) := api (py_heap st) (Refresh_data (po_ptr ob) (to_cint (Z.of_nat (x_rows x)))) in
     let st' := set_obj st h o ob' in
     let* st'' := foldM (fun st f => let* col := idx (x_cols x) f in
                                     let* (st', _) := py_set_feature st ob' (Z.of_nat f) (mk_array (x_numt x) col) (existsb (Nat.eqb f) cat_features) in Ok st')
                        (seq 0 (po_nfeatures ob)) st' in
     Ok (st'', Nothing)).

(** bitboost.py:94-167: the methods; [PyNew] is [__init__] (94-99). *)
Definition py_step (st : pystate) (op : pyop) : res (pystate * outcome) :=
  match op with
  | PyNew nf ne =>
    asserted ((0 <? nf) && (0 <? ne))%Z st
      (let* (h, r) := api (py_heap st) (Alloc (to_cint nf)) in
       Ok (mk_py h (py_objs st ++ [mk_pyobj (Z.to_nat nf) (-1) (match r with Pointer p => p | _ => 0 end)]), Object (length (py_objs st))))
  | PyDealloc o => checked st o (py_dealloc st o)
  (** bitboost.py:101-103 *)
  | PyDel o => match nth_error (py_objs st) o with Some ob => if po_ptr ob =? 0 then Ok (st, Nothing) else py_dealloc st o ob | None => Ok (st, Raised) end
  | PySetFeature o f a c => checked st o (fun ob => py_set_feature st ob f a c)
  | PySetData o x cats => checked st o (fun ob => py_set_data st o ob x cats)
  (** bitboost.py:138-140 *)
  | PySetTarget o a => checked st o (fun ob => py_set_feature st ob (Z.of_nat (po_nfeatures ob)) a false)
  (** bitboost.py:142-149; [value] is the text of the value *)
  | PySetConfig o name value => checked st o (fun ob => asserted (known_param name) st (let* (h, _) := api (py_heap st) (Set_config_field (po_ptr ob) name value) in Ok (mk_py h (py_objs st), Nothing)))
  (** bitboost.py:157-159 *)
  | PyTrain o g sched => checked st o (fun ob => let* (h, _) := api (py_heap st) (Train (po_ptr ob) g sched) in Ok (mk_py h (py_objs st), Nothing))
  (** bitboost.py:161-167 *)
  | PyPredict o => checked st o (fun ob => asserted (0 <? po_nexamples ob)%Z st
      (let* (h, r) := api (py_heap st) (Predict (po_ptr ob) (repeat (nofZ O 0) (Z.to_nat (po_nexamples ob)))) in
       Ok (mk_py h (py_objs st), Array (match r with Filled _ out => out | _ => None end))))
  end.
(** A program: the outcomes of its operations; an exception does not stop it (the program may catch it). *)
Fixpoint py_run (st : pystate) (ops : list pyop) : res (pystate * list outcome) :=
  match ops with
  | [] => Ok (st, [])
  | op :: t => let* (st', r) := py_step st op in let* (st'', rs) := py_run st' t in Ok (st'', r :: rs)
  end.

(** bitboost.py:53-167: the class says nothing about copying, so [copy.copy], [copy.deepcopy] and a round trip through [pickle] make a second object with the same attributes, [_ctx_ptr] (99) among them.
    (Copying a freed object is modelled as an exception: its pointer is a ctypes object, which refuses to be copied deeply.)  The copy is the last object of the new state. *)
Definition py_copy (st : pystate) (o : nat) : pystate * outcome :=
  match nth_error (py_objs st) o with
  | Some ob => if po_ptr ob =? 0 then (st, Raised) else (mk_py (py_heap st) (py_objs st ++ [ob]), Object (length (py_objs st)))
  | None => (st, Raised)
  end.

(** sklearn.py:23-52 [fit], after [check_X_y] (which gives a matrix of [numt] with at least one row and column, finite values and as many targets as rows): [params] are the texts of [get_params()].  The object created is number [o]. *)
Definition sk_fit (o : nat) (x : matrix) (y : list (num O)) (params : list (string * string)) (cats : list nat) (g : rng) (sched : nat -> nat -> list job -> list job) : list pyop :=
  PyNew (Z.of_nat (length (x_cols x))) (Z.of_nat (x_rows x)) :: map (fun p => PySetConfig o (fst p) (snd p)) params ++ [PySetData o x cats; PySetTarget o (mk_array true y); PyTrain o g sched].
(** sklearn.py:54-71 [predict], after [check_array], which keeps the element type. *)
Definition sk_predict (o : nat) (x : matrix) : list pyop := [PySetData o x []; PyPredict o].
End Py.
Arguments mk_array {O}. Arguments a_numt {O}. Arguments a_values {O}. Arguments mk_matrix {O}. Arguments x_numt {O}. Arguments x_rows {O}. Arguments x_cols {O}.
Arguments mk_py {O}. Arguments py_heap {O}. Arguments py_objs {O}.
Arguments PyNew {O}. Arguments PyDealloc {O}. Arguments PyDel {O}. Arguments PySetFeature {O}. Arguments PySetData {O}. Arguments PySetTarget {O}. Arguments PySetConfig {O}. Arguments PyTrain {O}. Arguments PyPredict {O}.
Arguments Raised {O}. Arguments Nothing {O}. Arguments Object {O}. Arguments Array {O}.
Arguments set_obj {O}. Arguments checked {O}. Arguments asserted {O}. Arguments py_dealloc {O}. Arguments py_set_feature {O}. Arguments py_set_data {O}. Arguments py_step {O}. Arguments py_run {O}. Arguments py_copy {O}.
Arguments sk_fit {O}. Arguments sk_predict {O}.
