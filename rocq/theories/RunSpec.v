(** Specification for the command line tool (C54). *)
From Coq Require Import String.
From Verif Require Import Base Num F32 DataModel DataSpec Config ConfigSpec ObjectiveModel ObjectiveProps MetricModel MetricProps DatasetModel RunModel.
Local Open Scope string_scope.

Definition commands : list string := ["tree"; "boost"; "boost_and_predict_raw"].

Section Spec.
(** The text of a real number, and the files, as the tool sees them. *)
Variable real : string -> num f32ops -> Prop.
Variable read : string -> bool -> N -> option (list csv_item).

(** The arguments are assignments; every field has the value of the last assignment to it, or its default. *)
Definition settings (args : list string) (c : config f32ops) : Prop :=
  exists recs, Forall2 (fun line r => assigns real line (fst r) (snd r)) args recs /\ forall name, field c name = last_of name recs (lookup (defaults f32ops) name).
(** The file can be read and holds numbers only, and categories in the categorical columns. *)
Definition good_file (c : config f32ops) (path : string) : Prop :=
  exists items, read path (c_csv_has_header c) (c_csv_delimiter c) = Some items /\ acceptable (c_categorical_features c) items.
(** The table holds exactly the columns of the file. *)
Definition table_of (c : config f32ops) (path : string) (d : data f32ops) : Prop :=
  exists items, read path (c_csv_has_header c) (c_csv_delimiter c) = Some items /\ acceptable (c_categorical_features c) items /\
    d_nexamples d = length items /\ S (d_nfeatures d) = columns_of items /\ length (d_features d) = columns_of items /\
    forall j col, nth_error (d_features d) j = Some col -> column items j col.
(** The request can be served. *)
Definition valid_request (args : list string) (c : config f32ops) : Prop :=
  exists cmd rest, args = cmd :: rest /\ In cmd commands /\ settings rest c /\
    (exists k, lowercase (c_objective c) = objective_name k) /\ Forall (fun n => exists m, In (lowercase n) (metric_names m)) (c_metrics c) /\
    good_file c (c_train c) /\ (c_test c <> "" -> good_file c (c_test c)).
(** Files as the csv reader delivers them: a file that can be read has a first record or an error, and a record has a field. *)
Definition proper_files : Prop := forall path header delimiter items, read path header delimiter = Some items ->
  items <> [] /\ forall fields rest, items = CsvRecord fields :: rest -> fields <> [].
End Spec.

(** The part of a report that is about the training data. *)
Definition train_part (o : output) : list (list f32) * list f32 :=
  match o with Summary evals final => (evals, map fst final) | Raw evals train _ => (evals, train) end.
(** The part about the test data. *)
Definition test_part (o : output) : list (option f32) :=
  match o with Summary _ final => map snd final | Raw _ _ (Some test) => map Some test | Raw _ _ None => [] end.
