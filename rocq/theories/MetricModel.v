(** Model of src/metric.rs.  Definitions only. *)
From Coq Require Import String.
From Verif Require Import Base Num ObjectiveModel.

Inductive metric : Type := ML2 | MRmse | MBinaryLoss | MBinaryError | MBinaryError01.

Section Metric.
Variable O : numops.
Variable M : mathops O.

(** metric.rs:73-76, 97-100, 109-116, 126-133: the loss of one example. *)
Definition metric_one (m : metric) (t p : num O) : num O :=
  match m with
  | ML2 | MRmse => let d := nsub O t p in nmul O d d
  | MBinaryLoss =>
    let y := nsub O (nmul O (two O) t) (one O) in
    m_ln M (nadd O (one O) (m_exp M (nmul O (nmul O (nneg O (two O)) y) p)))
  | MBinaryError =>
    if nlt O t (half O) then (if nlt O p (zero O) then zero O else one O) else (if nlt O p (zero O) then one O else zero O)
  | MBinaryError01 =>
    if nlt O t (half O) then (if nlt O p (half O) then zero O else one O) else (if nlt O p (half O) then one O else zero O)
  end.
(** metric.rs:13-21; [zip] stops at the shorter list. *)
Definition metric_mean (m : metric) (targets preds : list (num O)) : num O :=
  let '(loss, count) := fold_left (fun st tp => (nadd O (fst st) (metric_one m (fst tp) (snd tp)), S (snd st))) (combine targets preds) (zero O, 0) in
  ndiv O loss (nofnat O count).
(** metric.rs:26-28, 86-88 *)
Definition metric_eval (m : metric) (targets preds : list (num O)) : num O :=
  match m with
  | MRmse => m_sqrt M (metric_mean ML2 targets preds)
  | _ => metric_mean m targets preds
  end.
End Metric.
Arguments metric_one {O}. Arguments metric_mean {O}. Arguments metric_eval {O}.

(** metric.rs:39-48 *)
Definition metric_from_name (name : string) : option metric :=
  let n := lowercase name in
  if String.eqb n "l2" then Some ML2 else if String.eqb n "rmse" then Some MRmse
  else if String.eqb n "binaryloss" || String.eqb n "binary_loss" then Some MBinaryLoss
  else if String.eqb n "binaryerror" || String.eqb n "binary_error" then Some MBinaryError
  else if String.eqb n "binaryerror01" || String.eqb n "binary_error01" then Some MBinaryError01
  else None.
(** metric.rs:50-59 *)
Fixpoint metrics_from_names (names : list string) : option (list metric) :=
  match names with
  | [] => Some []
  | n :: t =>
    match metric_from_name n with
    | Some m => match metrics_from_names t with Some ms => Some (m :: ms) | None => None end
    | None => None
    end
  end.
(** metric.rs:61-67 *)
Definition metric_for_objective (name : string) : option metric :=
  let n := lowercase name in
  if String.eqb n "l2" || String.eqb n "l1" || String.eqb n "huber" then Some MRmse
  else if String.eqb n "binary" then Some MBinaryLoss else None.
