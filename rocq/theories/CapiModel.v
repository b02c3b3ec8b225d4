(** Model of src/c_api.rs.  Definitions only.

    An address is a natural number, 0 the null pointer.  The n-th successful [bb_alloc] returns address n (addresses are not reused: using an address after it is freed is undefined behaviour whether
    or not it is reused).  A pointer to numbers is the list of numbers that can be accessed from it on.  Running out of memory is not modelled. *)
From Coq Require Import String Ascii.
From Verif Require Import Base Num DataModel Config ConfigModel TreeModel LearnerModel DatasetModel ObjectiveModel MetricModel BoostModel.

(** [CStr::to_str]: is the string well-formed UTF-8 ([str::from_utf8])? *)
Definition cont (a : ascii) : bool := let n := N_of_ascii a in ((128 <=? n) && (n <=? 191))%N.
Definition between (lo hi : N) (a : ascii) : bool := let n := N_of_ascii a in ((lo <=? n) && (n <=? hi))%N.
Fixpoint utf8_valid (s : string) : bool :=
  match s with
  | EmptyString => true
  | String a t =>
    if between 0 127 a then utf8_valid t else
    match t with
    | EmptyString => false
    | String b t2 =>
      if between 194 223 a && cont b then utf8_valid t2 else
      match t2 with
      | EmptyString => false
      | String c t3 =>
        if (between 224 224 a && between 160 191 b || between 225 236 a && cont b || between 237 237 a && between 128 159 b || between 238 239 a && cont b) && cont c then utf8_valid t3 else
        match t3 with
        | EmptyString => false
        | String e t4 => (between 240 240 a && between 144 191 b || between 241 243 a && cont b || between 244 244 a && between 128 143 b) && cont c && cont e && utf8_valid t4
        end
      end
    end
  end.

Section Capi.
Variable O : numops.
Variable M : mathops O.
Variable parse_num : string -> option (num O).
(** The build mode: with debug assertions or not. *)
Variable dbg : bool.

(** c_api.rs:22-27 *)
Record context : Type := mk_context { cx_config : config O; cx_nfeatures : nat; cx_data : option (data O); cx_model : option (additive_tree O) }.
(** The contexts allocated so far; [None]: freed. *)
Definition heap : Type := list (option context).

(** The calls (c_api.rs:97-194).  Integers are C integers.  [g] and [sched]: the random numbers drawn and the order in which the threads get the lock. *)
Inductive call : Type :=
  | Numt_nbytes
  | Alloc (nfeatures : Z)
  | Dealloc (p : nat)
  | Refresh_data (p : nat) (nexamples : Z)
  | Set_feature_data (p : nat) (feat_id : Z) (column : list (num O)) (is_categorical : Z)
  | Set_config_field (p : nat) (name value : string)
  | Train (p : nat) (g : rng) (sched : nat -> nat -> list job -> list job)
  | Predict (p : nat) (result_out : list (num O)).
(** What a call returns: a pointer, or a code; [Predict] also writes to its buffer: [Some] is its content after the call, [None] if it is left partly written by a panic. *)
Inductive reply : Type := Pointer (p : nat) | Code (c : Z) | Filled (c : Z) (out : option (list (num O))).

(** c_api.rs:36-39 [from_raw_ptr_mut]: null panics; an address that is not allocated is undefined behaviour. *)
Definition deref (h : heap) (p : nat) : res context :=
  match p with
  | 0 => Panic
  | S i => match nth_error h i with Some (Some c) => Ok c | _ => UB end
  end.
Definition store (h : heap) (p : nat) (c : option context) : heap := upd h (p - 1) c.
(** [expect] *)
Definition expect {A} (o : option A) : res A := match o with Some a => Ok a | None => Panic end.
(** [slice::from_raw_parts] *)
Definition raw_parts (l : list (num O)) (n : nat) : res (list (num O)) := if n <=? length l then Ok (firstn n l) else UB.
Definition dcfg (c : config O) : data_config := mk_dcfg (c_max_nbins c) (c_categorical_features c).

(** c_api.rs:107-114 and 41-55 *)
Definition bb_alloc (h : heap) (nfeatures : Z) : res (heap * reply) :=
  let* _ := rassert (0 <? nfeatures)%Z in
  Ok (h ++ [Some (mk_context (config_new O) (Z.to_nat nfeatures) None None)], Pointer (S (length h))).
(** c_api.rs:117-123 and 57-62 *)
Definition bb_dealloc (h : heap) (p : nat) : res (heap * reply) :=
  let* _ := deref h p in Ok (store h p None, Code 0).
(** c_api.rs:126-134 *)
Definition bb_refresh_data (h : heap) (p : nat) (nexamples : Z) : res (heap * reply) :=
  let* _ := rassert (0 <? nexamples)%Z in
  let* c := deref h p in
  let d := data_empty O (dcfg (cx_config c)) (cx_nfeatures c) (Z.to_nat nexamples) in
  Ok (store h p (Some (mk_context (cx_config c) (cx_nfeatures c) (Some d) (cx_model c))), Code 0).
(** c_api.rs:137-153.  [unwrap] on the error of [set_feature_data] panics: what was written before stays. *)
Definition bb_set_feature_data (h : heap) (p : nat) (feat_id : Z) (column : list (num O)) (is_categorical : Z) : res (heap * reply) :=
  let* c := deref h p in
  let* _ := rassert ((0 <=? feat_id) && (feat_id <=? Z.of_nat (cx_nfeatures c)))%Z in
  let* d := expect (cx_data c) in
  let* column := raw_parts column (d_nexamples d) in
  let* (d', r) := set_feature_data d (Z.to_nat feat_id) column (negb (is_categorical =? 0)%Z) in
  Ok (store h p (Some (mk_context (cx_config c) (cx_nfeatures c) (Some d') (cx_model c))), Code (match r with Done _ => 0 | Err => -1 end)).
(** c_api.rs:156-167 *)
Definition bb_set_config_field (h : heap) (p : nat) (name value : string) : res (heap * reply) :=
  let* c := deref h p in
  let* _ := rassert (match cx_data c with None => true | Some _ => false end) in
  let* _ := rassert (utf8_valid name) in
  let* _ := rassert (utf8_valid value) in
  match parse_record parse_num (cx_config c) name value with
  | Done cfg => Ok (store h p (Some (mk_context cfg (cx_nfeatures c) (cx_data c) (cx_model c))), Code 0)
  | Err => Panic
  end.
(** c_api.rs:170-180 *)
Definition bb_train (h : heap) (p : nat) (g : rng) (sched : nat -> nat -> list job -> list job) : res (heap * reply) :=
  let* c := deref h p in
  let* d := expect (cx_data c) in
  let* kind := expect (objective_from_name (c_objective (cx_config c))) in
  let* metrics := expect (metrics_from_names (c_metrics (cx_config c))) in
  let* m := boost_train M dbg (cx_config c) d sched kind metrics g in
  Ok (store h p (Some (mk_context (cx_config c) (cx_nfeatures c) (cx_data c) (Some m))), Code 0).
(** c_api.rs:183-193: the data and the model the call uses, and the prediction. *)
Definition bb_predict_args (h : heap) (p : nat) (result_out : list (num O)) : res (data O * additive_tree O * list (num O)) :=
  let* c := deref h p in
  let* d := expect (cx_data c) in
  let* m := expect (cx_model c) in
  let* out := raw_parts result_out (d_nexamples d) in
  Ok (d, m, out).
Definition bb_predict (h : heap) (p : nat) (result_out : list (num O)) : res (heap * reply) :=
  match bb_predict_args h p result_out with
  | Ok (d, m, out) =>
    match additive_predict_buf m d out with
    | Ok ps => Ok (h, Filled 0 (Some (ps ++ skipn (d_nexamples d) result_out)))
    | Panic => Ok (h, Filled (-1) None)
    | UB => UB
    | OutOfFuel => OutOfFuel
    end
  | Panic => Ok (h, Filled (-1) (Some result_out))
  | UB => UB
  | OutOfFuel => OutOfFuel
  end.

(** c_api.rs:74-95 [wrap_catch_unwind]: a panic returns the error value; the context is as it was (no function changes it before its last panic, except [bb_set_feature_data], see there). *)
Definition catch_unwind (h : heap) (error : reply) (r : res (heap * reply)) : res (heap * reply) :=
  match r with Panic => Ok (h, error) | _ => r end.
Definition api_call (h : heap) (c : call) : res (heap * reply) :=
  match c with
  | Numt_nbytes => Ok (h, Code 4)
  | Alloc n => catch_unwind h (Pointer 0) (bb_alloc h n)
  | Dealloc p => catch_unwind h (Code (-1)) (bb_dealloc h p)
  | Refresh_data p n => catch_unwind h (Code (-1)) (bb_refresh_data h p n)
  | Set_feature_data p f col cat => catch_unwind h (Code (-1)) (bb_set_feature_data h p f col cat)
  | Set_config_field p n v => catch_unwind h (Code (-1)) (bb_set_config_field h p n v)
  | Train p g sched => catch_unwind h (Code (-1)) (bb_train h p g sched)
  | Predict p out => bb_predict h p out
  end.
(** A program: its calls and their replies, from the start. *)
Fixpoint api_run (h : heap) (cs : list call) : res (heap * list reply) :=
  match cs with
  | [] => Ok (h, [])
  | c :: t => let* (h', r) := api_call h c in let* (h'', rs) := api_run h' t in Ok (h'', r :: rs)
  end.
End Capi.
Arguments mk_context {O}. Arguments cx_config {O}. Arguments cx_nfeatures {O}. Arguments cx_data {O}. Arguments cx_model {O}.
Arguments Numt_nbytes {O}. Arguments Alloc {O}. Arguments Dealloc {O}. Arguments Refresh_data {O}. Arguments Set_feature_data {O}. Arguments Set_config_field {O}. Arguments Train {O}. Arguments Predict {O}.
Arguments Pointer {O}. Arguments Code {O}. Arguments Filled {O}. Arguments deref {O}. Arguments store {O}. Arguments raw_parts {O}. Arguments dcfg {O}.
Arguments bb_alloc {O}. Arguments bb_dealloc {O}. Arguments bb_refresh_data {O}. Arguments bb_set_feature_data {O}. Arguments bb_set_config_field {O}. Arguments bb_train {O}.
Arguments bb_predict_args {O}. Arguments bb_predict {O}. Arguments catch_unwind {O}. Arguments api_call {O}. Arguments api_run {O}.

(** * python/bitboost/bitboost.py: the wrapper ignores the codes *)
Section Python.
Variable O : numops.
Variable M : mathops O.
Variable parse_num : string -> option (num O).
Variable dbg : bool.
(** bitboost.py:157-159 *)
Definition py_train (h : heap O) (p : nat) (g : rng) (sched : nat -> nat -> list job -> list job) : res (heap O) :=
  let* (h', _) := api_call M parse_num dbg h (Train p g sched) in Ok h'.
(** bitboost.py:161-167: the buffer is filled with zeros first. *)
Definition py_predict (h : heap O) (p nexamples : nat) : res (heap O * option (list (num O))) :=
  let* (h', r) := api_call M parse_num dbg h (Predict p (repeat (nofZ O 0) nexamples)) in
  Ok (h', match r with Filled _ out => out | _ => None end).
End Python.
Arguments py_train {O}. Arguments py_predict {O}.
