(** Model of src/objective.rs.  Definitions only.

    [exp] and [ln] on f32 are library functions without a specified result: the f32 instance takes them as arguments, and
    the theorems hold for all of them.  The scratch bins of [quantile!] are zeroed before each use (objective.rs:126-127) and are
    not part of the state. *)
From Coq Require Import Reals String.
From Flocq Require Import Core BinarySingleNaN.
From Verif Require Import Base F32 Num BinnerModel Config.
Local Close Scope R_scope.

(** Functions used by the objectives and metrics besides [numops]. *)
Record mathops (O : numops) : Type := mk_math {
  m_limits : list (num O) -> num O * num O;  (* smallest and largest value: min and max folded from POS_INF and NEG_INF *)
  m_signum : num O -> num O;
  m_exp : num O -> num O;
  m_ln : num O -> num O;
  m_sqrt : num O -> num O
}.
Arguments mk_math {O}. Arguments m_limits {O}. Arguments m_signum {O}. Arguments m_exp {O}. Arguments m_ln {O}. Arguments m_sqrt {O}.

(** [f32::signum]: by the sign bit; NaN for NaN. *)
Definition f_signum (x : f32) : f32 := if f_is_nan x then f_nan else if Bsign x then f_neg f_one else f_one.
(** objective.rs:176-180, 214-218, 227-231, 263-267, 281-286 (the argument order differs between them, which only matters for the sign of a zero). *)
Definition f_limits (l : list f32) : f32 * f32 := fold_left (fun st x => (f_min (fst st) x, f_max (snd st) x)) l (f_inf, f_ninf).
Definition f_sqrt : f32 -> f32 := Bsqrt mode_NE.
Definition f32math (fexp fln : f32 -> f32) : mathops f32ops := @mk_math f32ops f_limits f_signum fexp fln f_sqrt.

(** Exact arithmetic.  There are no infinities: the limits are those of the values. *)
Definition R_limits (l : list R) : R * R :=
  match l with [] => (0%R, 0%R) | x :: t => (fold_left Rmin t x, fold_left Rmax t x) end.
Definition R_signum (x : R) : R := if Rlt_bool x 0 then (-1)%R else 1%R.
Definition Rmath : mathops Rops := @mk_math Rops R_limits R_signum exp ln sqrt.

Inductive obj_kind : Type := L2 | L1 | Huber | Binary | Hinge.

Section Objective.
Variable O : numops.
Variable M : mathops O.

(** objective.rs:72-93 with the additional fields of the objectives (158-160, 205-208, 252-257, 322-324, 375).  [ob_bounds] is the
    field [bounds] of L2, and [limits] of L1 and Huber. *)
Record objective : Type := mk_obj {
  ob_kind : obj_kind;
  ob_lr : num O;
  ob_bias : num O;
  ob_preds : list (num O);
  ob_grads : list (num O);
  ob_bounds : num O * num O;
  ob_alpha : num O;
  ob_delta : num O;
  ob_bound : num O
}.
Definition zero : num O := nofZ O 0.
Definition one : num O := nofZ O 1.
Definition two : num O := nofZ O 2.
Definition half : num O := ndiv O one two.
(** lib.rs:15 [EPSILON] = 2^-23. *)
Definition epsilon : num O := ndiv O one (nofZ O 8388608).
(** objective.rs:84-96 [new]: 1.25 is the initial bound of Binary. *)
Definition objective_new (k : obj_kind) : objective :=
  mk_obj k zero zero [] [] (zero, zero) zero zero (ndiv O (nofZ O 5) (nofZ O 4)).

(** objective.rs:61 and 163, 211, 260, 327, 378 *)
Definition obj_bounds (ob : objective) : num O * num O :=
  match ob_kind ob with
  | L2 => ob_bounds ob
  | L1 => (nneg O one, one)
  | Huber => (nneg O (ob_delta ob), ob_delta ob)
  | Binary => (nneg O (ob_bound ob), ob_bound ob)
  | Hinge => (nneg O one, two)
  end.

(** objective.rs:64-68 *)
Definition update_out_of_bag (i : nat) (value : num O) (ob : objective) : res objective :=
  let* p := idx (ob_preds ob) i in
  let* _ := rassert (nisfin O p) in
  let* preds := set_idx (ob_preds ob) i (nadd O p value) in
  Ok (mk_obj (ob_kind ob) (ob_lr ob) (ob_bias ob) preds (ob_grads ob) (ob_bounds ob) (ob_alpha ob) (ob_delta ob) (ob_bound ob)).

(** objective.rs:97-104 *)
Definition initialize_base (cfg : config O) (n : nat) (bias : num O) (ob : objective) : objective :=
  mk_obj (ob_kind ob) (c_learning_rate cfg) bias (repeat bias n) (repeat zero n) (ob_bounds ob) (ob_alpha ob) (ob_delta ob) (ob_bound ob).

(** objective.rs:108-116 *)
Definition update_pred (value : num O) (preds : list (num O)) (i : nat) : res (list (num O)) :=
  let* p := idx preds i in
  let p' := nadd O p value in
  let* preds' := set_idx preds i p' in
  let* _ := rassert (nisfin O p') in
  Ok preds'.
Definition update_predictions (examples : list nat) (value : num O) (ob : objective) : res (num O * objective) :=
  let value := nmul O (ob_lr ob) value in
  let* preds := foldM (update_pred value) examples (ob_preds ob) in
  Ok (value, mk_obj (ob_kind ob) (ob_lr ob) (ob_bias ob) preds (ob_grads ob) (ob_bounds ob) (ob_alpha ob) (ob_delta ob) (ob_bound ob)).

(** objective.rs:122-124: [targets[i] - predictions[i]]. *)
Definition residual (targets preds : list (num O)) (i : nat) : res (num O) :=
  let* t := idx targets i in let* p := idx preds i in Ok (nsub O t p).
(** objective.rs:121-150 [quantile!]/[median!] with 1024 bins ([quantile], BinnerModel.v). *)
Definition NBINS : nat := 1024.
Definition median (limits : num O * num O) (values : list (num O)) : res (num O) := quantile O NBINS half limits values.

Definition nsum (l : list (num O)) : num O := fold_left (nadd O) l zero.
Definition count_neg (targets : list (num O)) : nat := length (filter (fun x => nlt O x half) targets).
Definition is_01 (t : num O) : bool := neq O t zero || neq O t one.

(** objective.rs:165-169, 213-222, 262-273, 329-342, 380-392 *)
Definition obj_initialize (dbg : bool) (cfg : config O) (targets : list (num O)) (ob : objective) : res objective :=
  let n := length targets in
  match ob_kind ob with
  | L2 => Ok (initialize_base cfg n (ndiv O (nsum targets) (nofnat O n)) ob)
  | L1 =>
    let* bias := median (m_limits M targets) targets in
    Ok (initialize_base cfg n bias ob)
  | Huber =>
    let* bias := median (m_limits M targets) targets in
    let ob' := initialize_base cfg n bias ob in
    let alpha := c_huber_alpha cfg in
    let* _ := rassert (nlt O zero alpha && nlt O alpha one) in
    Ok (mk_obj (ob_kind ob') (ob_lr ob') (ob_bias ob') (ob_preds ob') (ob_grads ob') (ob_bounds ob') alpha (ob_delta ob') (ob_bound ob'))
  | Binary =>
    let* _ := rassert (negb dbg || forallb is_01 targets) in
    let nneg_ := nofnat O (count_neg targets) in
    let npos := nsub O (nofnat O n) nneg_ in
    let avg := ndiv O (nadd O (nmul O (nneg O one) nneg_) (nmul O one npos)) (nofnat O n) in
    let prior := nmul O half (m_ln M (ndiv O (nadd O one avg) (nsub O one avg))) in
    let ob' := initialize_base cfg n prior ob in
    Ok (mk_obj (ob_kind ob') (ob_lr ob') (ob_bias ob') (ob_preds ob') (ob_grads ob') (ob_bounds ob') (ob_alpha ob') (ob_delta ob') (c_binary_gradient_bound cfg))
  | Hinge =>
    let* _ := rassert (negb dbg || forallb is_01 targets) in
    let* _ := rassert (c_discr_nbits cfg =? 2) in
    let nneg_ := nofnat O (count_neg targets) in
    let npos := nsub O (nofnat O n) nneg_ in
    let prior := ndiv O (nadd O (nmul O nneg_ (nneg O one)) npos) (nofnat O n) in
    Ok (initialize_base cfg n prior ob)
  end.

(** The gradient of one example: objective.rs:181, 232, 292-297, 350-352, 400-406.  [delta] is used by Huber only. *)
Definition gradient (k : obj_kind) (delta t p : num O) : num O :=
  let err := nsub O t p in
  match k with
  | L2 => nneg O err
  | L1 => nneg O (m_signum M err)
  | Huber => if nle O (nabs O err) delta then err else nmul O delta (m_signum M err)
  | Binary =>
    let y := nsub O (nmul O two t) one in
    ndiv O (nneg O (nmul O two y)) (nadd O one (m_exp M (nmul O (nmul O two y) p)))
  | Hinge =>
    if nlt O t half then (if nlt O (nneg O one) p then one else zero)
    else (if nlt O p one then nneg O one else zero)
  end.
Definition pair_gradients (k : obj_kind) (delta : num O) (targets preds : list (num O)) : list (num O) :=
  map (fun tp => gradient k delta (fst tp) (snd tp)) (combine targets preds).
Definition residuals (targets preds : list (num O)) : list (num O) := map (fun tp => nsub O (fst tp) (snd tp)) (combine targets preds).

(** objective.rs:171-186, 224-236, 275-300, 344-354, 394-408 *)
Definition obj_update (targets : list (num O)) (ob : objective) : res objective :=
  let n := length targets in
  let* _ := rassert (length (ob_preds ob) =? n) in
  let* _ := rassert (length (ob_grads ob) =? n) in
  let preds := ob_preds ob in
  let errs := residuals targets preds in
  let set grads bounds delta := mk_obj (ob_kind ob) (ob_lr ob) (ob_bias ob) preds grads bounds (ob_alpha ob) delta (ob_bound ob) in
  match ob_kind ob with
  | L2 =>
    let '(mn, mx) := m_limits M errs in
    let bound := nmin O (nabs O mn) (nabs O mx) in
    Ok (set (pair_gradients L2 zero targets preds) (nneg O bound, bound) (ob_delta ob))
  | L1 => Ok (set (pair_gradients L1 zero targets preds) (m_limits M errs) (ob_delta ob))
  | Huber =>
    let* q := quantile O NBINS (ob_alpha ob) (m_limits M errs) errs in
    let delta := nabs O q in
    Ok (set (pair_gradients Huber delta targets preds) (m_limits M errs) delta)
  | k => Ok (set (pair_gradients k zero targets preds) (ob_bounds ob) (ob_delta ob))
  end.

(** The value of a leaf before the learning rate is applied: objective.rs:189-193, 239-240, 303-313, 357-365, 411-423. *)
Definition raw_leaf_value (targets : list (num O)) (examples : list nat) (ob : objective) : res (num O) :=
  let n := nofnat O (length examples) in
  match ob_kind ob with
  | L2 =>
    let* sum := foldM (fun s i => let* e := residual targets (ob_preds ob) i in Ok (nadd O s e)) examples zero in
    Ok (ndiv O sum n)
  | L1 =>
    let* rs := mapM (residual targets (ob_preds ob)) examples in
    median (ob_bounds ob) rs
  | Huber =>
    let* rs := mapM (residual targets (ob_preds ob)) examples in
    let* rmed := median (ob_bounds ob) rs in
    let s := fold_left (fun s e => let d := nsub O e rmed in nadd O s (nmul O (m_signum M d) (nmin O (ob_delta ob) (nabs O d)))) rs zero in
    Ok (nadd O rmed (ndiv O s n))
  | Binary =>
    let* nd := foldM (fun st i =>
                 let* g := idx (ob_grads ob) i in
                 let y := nneg O g in
                 let yabs := nabs O y in
                 Ok (nadd O (fst st) y, nadd O (snd st) (nmul O yabs (nsub O two yabs)))) examples (zero, epsilon) in
    Ok (ndiv O (fst nd) (snd nd))
  | Hinge =>
    let* v := foldM (fun v i =>
                let* t := idx targets i in
                let* p := idx (ob_preds ob) i in
                if nlt O t half then
                  let x := nmax O (nadd O two p) zero in Ok (nsub O v (nmul O x x))
                else
                  let x := nmax O (nsub O two p) zero in Ok (nadd O v (nmul O x x))) examples zero in
    Ok (ndiv O v n)
  end.
(** objective.rs:188-195, 238-242, 302-315, 356-367, 410-432 *)
Definition obj_leaf_value (targets : list (num O)) (examples : list nat) (ob : objective) : res (num O * objective) :=
  let* v := raw_leaf_value targets examples ob in
  update_predictions examples v ob.
End Objective.
Arguments mk_obj {O}. Arguments ob_kind {O}. Arguments ob_lr {O}. Arguments ob_bias {O}. Arguments ob_preds {O}. Arguments ob_grads {O}.
Arguments ob_bounds {O}. Arguments ob_alpha {O}. Arguments ob_delta {O}. Arguments ob_bound {O}.
Arguments obj_bounds {O}. Arguments update_out_of_bag {O}. Arguments initialize_base {O}. Arguments update_pred {O}. Arguments update_predictions {O}.
Arguments residual {O}. Arguments median {O}. Arguments nsum {O}. Arguments count_neg {O}. Arguments is_01 {O}. Arguments obj_initialize {O}.
Arguments gradient {O}. Arguments pair_gradients {O}. Arguments residuals {O}. Arguments obj_update {O}. Arguments raw_leaf_value {O}. Arguments obj_leaf_value {O}.

(** ASCII part of [str::to_lowercase] (names with other characters match none of the names below either way, except those with the Kelvin sign,
    which lowercases to "k", a letter that occurs in no name). *)
Definition lower_ascii (c : Ascii.ascii) : Ascii.ascii :=
  let n := Ascii.nat_of_ascii c in if (65 <=? n) && (n <=? 90) then Ascii.ascii_of_nat (n + 32) else c.
Fixpoint lowercase (s : string) : string :=
  match s with EmptyString => EmptyString | String c t => String (lower_ascii c) (lowercase t) end.
(** objective.rs:45-54 *)
Definition objective_from_name (name : string) : option obj_kind :=
  let n := lowercase name in
  if String.eqb n "l2" then Some L2 else if String.eqb n "l1" then Some L1 else if String.eqb n "huber" then Some Huber
  else if String.eqb n "binary" then Some Binary else if String.eqb n "hinge" then Some Hinge else None.
