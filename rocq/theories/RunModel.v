(** Model of src/bin/run.rs, the command line tool, and of data.rs:36-48 (loading a file).  Definitions only.

    Not modelled: the logger, timings and the layout of what is printed (progress messages, names); [print_predictions] and [print_predictions2] are dead code.  Arguments are UTF-8
    ([env::args] panics otherwise). *)
From Coq Require Import String.
From Verif Require Import Base Num F32 DataModel Config ConfigModel TreeModel DatasetModel LearnerModel ObjectiveModel MetricModel BoostModel CapiModel.
Local Open Scope string_scope.

(** [?] on a [Result] *)
Definition rtry {A B} (m : result A) (k : A -> res (result B)) : res (result B) := match m with Done a => k a | Err => Ok Err end.
(** [Option::ok_or] *)
Definition ok_or {A} (o : option A) : result A := match o with Some a => Done a | None => Err end.
(** [Option::map] with a function that can panic *)
Definition omapM {A B} (f : A -> res B) (o : option A) : res (option B) := match o with Some a => let* b := f a in Ok (Some b) | None => Ok None end.

(** What a command reports: the metric values printed while boosting, and [tree], [boost]: for every metric its value on the training and the test data; [boost_and_predict_raw]: the predictions for
    the training and the test data. *)
Inductive output : Type :=
  | Summary (evals : list (list f32)) (final : list (f32 * option f32))
  | Raw (evals : list (list f32)) (train : list f32) (test : option (list f32)).

Section Run.
Variable M : mathops f32ops.
Variable parse_num : string -> option (num f32ops).
Variable dbg : bool.
(** The files: the records of the file with this name, for this header setting and delimiter, as the csv crate gives them; [None]: it cannot be opened or is not UTF-8. *)
Variable read : string -> bool -> N -> option (list csv_item).
Variable g : rng.
Variable sched : nat -> nat -> list job -> list job.

(** data.rs:36-48 *)
Definition from_csv_path (c : config f32ops) (path : string) : res (result (data f32ops)) :=
  match read path (c_csv_has_header c) (c_csv_delimiter c) with
  | Some items => from_csv (dcfg c) items
  | None => Ok Err
  end.
(** run.rs:70-96: both files are loaded before an error is returned. *)
Definition load_data (c : config f32ops) : res (result (data f32ops * option (data f32ops))) :=
  let* train := from_csv_path c (c_train c) in
  let* test := if String.eqb (c_test c) "" then Ok None else let* r := from_csv_path c (c_test c) in Ok (Some r) in
  rtry train (fun train => match test with Some r => rtry r (fun test => Ok (Done (train, Some test))) | None => Ok (Done (train, None)) end).
(** run.rs:59-68 *)
Definition parse (args : list string) : res (result (config f32ops * data f32ops * option (data f32ops) * obj_kind * list metric)) :=
  rtry (config_parse parse_num args) (fun c =>
  rtry (ok_or (objective_from_name (c_objective c))) (fun kind =>
  rtry (ok_or (metrics_from_names (c_metrics c))) (fun ms =>
  let* loaded := load_data c in
  rtry loaded (fun tt => Ok (Done (c, fst tt, snd tt, kind, ms)))))).
(** run.rs:98-115 (TreeLearnerContext::new: learner.rs:140-141) *)
Definition single_tree (c : config f32ops) (d : data f32ops) (kind : obj_kind) : res (tree f32ops) :=
  let* target := get_target d in
  let* ob := obj_initialize M dbg c target (objective_new f32ops kind) in
  let* ob := obj_update M target ob in
  let* s := dataset_new c d g in
  let* s := dataset_update dbg c s (ob_grads ob) (obj_bounds ob) in
  let* sizes := hist_sizes d in
  let* (t, ob) := train dbg c s sizes (obj_bounds ob) (sched 1) (objective f32ops) (obj_leaf_value M target) update_out_of_bag (ob_grads ob) ob in
  Ok (set_tree_bias t (ob_bias ob)).
(** run.rs:117-130; [ms]: the metrics, parsed a second time from the same names. *)
Definition boost (c : config f32ops) (d : data f32ops) (kind : obj_kind) : res (result (additive_tree f32ops * list (list f32))) :=
  rtry (ok_or (metrics_from_names (c_metrics c))) (fun ms =>
  let* b := boost_run M dbg c d sched kind ms g (c_niterations c) in
  Ok (Done (bs_ensemble b, bs_evals b))).
(** run.rs:132-165 *)
Definition summary (model : data f32ops -> res (list f32)) (evals : list (list f32)) (train : data f32ops) (test : option (data f32ops)) (ms : list metric) : res output :=
  let* train_pred := model train in
  let* test_pred := omapM (fun t => let* p := model t in Ok (t, p)) test in
  let* final := mapM (fun m =>
    let* target := get_target train in
    let* test_eval := omapM (fun tp => let* target := get_target (fst tp) in Ok (metric_eval M m target (snd tp))) test_pred in
    Ok (metric_eval M m target train_pred, test_eval)) ms in
  Ok (Summary evals final).
(** run.rs:24-57; [args]: the arguments after the name of the program. *)
Definition run (args : list string) : res (result output) :=
  match args with
  | [] => Ok Err
  | cmd :: args =>
    if String.eqb cmd "tree" then
      let* p := parse args in
      rtry p (fun '(c, train, test, kind, ms) =>
      let* t := single_tree c train kind in
      let* o := summary (tree_predict t) [] train test ms in Ok (Done o))
    else if String.eqb cmd "boost" then
      let* p := parse args in
      rtry p (fun '(c, train, test, kind, ms) =>
      let* r := boost c train kind in
      rtry r (fun '(model, evals) =>
      let* o := summary (additive_predict model) evals train test ms in Ok (Done o)))
    else if String.eqb cmd "boost_and_predict_raw" then
      let* p := parse args in
      rtry p (fun '(c, train, test, kind, ms) =>
      let* r := boost c train kind in
      rtry r (fun '(model, evals) =>
      let* train_pred := additive_predict model train in
      let* test_pred := omapM (additive_predict model) test in
      Ok (Done (Raw evals train_pred test_pred))))
    else Ok Err
  end.
End Run.
