(** Model of src/config.rs: defaults and parsing.  Definitions only.

    Strings are the bytes of their UTF-8 encoding.  The parser of floating-point numbers ([f32::from_str]) is library code: it is an
    argument of the model. *)
From Coq Require Import String Ascii.
From Verif Require Import Base Num DataModel Config.
Local Open Scope string_scope.

(** [char::is_whitespace] (Unicode property White_Space), which [str::trim] uses: the encodings of these characters. *)
Definition ch (n : N) : ascii := ascii_of_N n.
Definition bytes (l : list N) : string := fold_right (fun n s => String (ch n) s) EmptyString l.
Definition ws_table : list string := map bytes
  ([[9]; [10]; [11]; [12]; [13]; [32]; [194; 133]; [194; 160]; [225; 154; 128]] ++ map (fun z => [226; 128; z])
    [128; 129; 130; 131; 132; 133; 134; 135; 136; 137; 138; 168; 169; 175] ++ [[226; 129; 159]; [227; 128; 128]])%N%list.
Fixpoint drop (n : nat) (s : string) : string := match n, s with S k, String _ t => drop k t | _, _ => s end.
Fixpoint rev_append (s acc : string) : string := match s with EmptyString => acc | String c t => rev_append t (String c acc) end.
Definition rev_string (s : string) : string := rev_append s "".
(** Removes the prefixes from the table, as long as there is one. *)
Fixpoint strip (table : list string) (fuel : nat) (s : string) : string :=
  match fuel with 0 => s | S k => match find (fun w => String.prefix w s) table with Some w => strip table k (drop (String.length w) s) | None => s end end.
Definition trim_start (s : string) : string := strip ws_table (String.length s) s.
(** From the end: the same on reversed strings. *)
Definition trim_end (s : string) : string := rev_string (strip (map rev_string ws_table) (String.length s) (rev_string s)).
(** [str::trim] *)
Definition trim (s : string) : string := trim_end (trim_start s).

(** [str::split] with a one-byte character: the parts between its occurrences. *)
Fixpoint split_on (c : ascii) (s : string) : list string :=
  match s with
  | EmptyString => [""]
  | String a t => if Ascii.eqb a c then "" :: split_on c t else match split_on c t with p :: ps => String a p :: ps | [] => [String a ""] end
  end.

(** [FromStr] of the unsigned integers: an optional plus sign, at least one digit, no overflow. *)
Definition digit (c : ascii) : option N := let x := N_of_ascii c in if ((48 <=? x) && (x <=? 57))%N then Some (x - 48)%N else None.
Fixpoint parse_digits (max acc : N) (s : string) : option N :=
  match s with
  | EmptyString => Some acc
  | String c t => match digit c with
                  | Some d => let v := (acc * 10 + d)%N in if (v <=? max)%N then parse_digits max v t else None
                  | None => None
                  end
  end.
Definition parse_unsigned (max : N) (s : string) : option N :=
  let body := match s with String c t => if Ascii.eqb c "+" then t else s | EmptyString => s end in
  match body with EmptyString => None | _ => parse_digits max 0 body end.
(** config.rs:91 [parse_fromstr] for usize (64 bits), String and bool. *)
Definition parse_usize (s : string) : option nat := option_map N.to_nat (parse_unsigned (2 ^ 64 - 1) s).
Definition parse_text (s : string) : option string := Some s.
Definition parse_bool (s : string) : option bool := if String.eqb s "true" then Some true else if String.eqb s "false" then Some false else None.
(** config.rs:92-104 *)
Fixpoint parse_all {T} (parse : string -> option T) (l : list string) : option (list T) :=
  match l with
  | [] => Some []
  | s :: t => match parse (trim s) with Some x => option_map (cons x) (parse_all parse t) | None => None end
  end.
Definition parse_vec {T} (parse : string -> option T) (s : string) : option (list T) :=
  if String.eqb s "" then Some [] else parse_all parse (split_on "," s).

Section Config.
Variable O : numops.
(** [f32::from_str] *)
Variable parse_num : string -> option (num O).

(** config.rs:50-54 with the defaults of 117-190 *)
Definition config_new : config O :=
  mk_config "" "" "L2" [] 1 true 44 [] 100 (nofZ O 1) (nofZ O 0) 1 (ndiv O (nofZ O 1) (nofZ O 1000000)) (ndiv O (nofZ O 95) (nofZ O 100))
    16 4 6 (ndiv O (nofZ O 1) (nofZ O 2)) (ndiv O (nofZ O 125) (nofZ O 100)) 1 (nofZ O 1) (nofZ O 1) 1.

(** Assignments to the fields. *)
Definition set_train (x : string) (c : config O) : config O := mk_config x (c_test c) (c_objective c) (c_metrics c) (c_metric_frequency c) (c_csv_has_header c) (c_csv_delimiter c) (c_categorical_features c) (c_niterations c) (c_learning_rate c) (c_reg_lambda c) (c_min_examples_leaf c) (c_min_gain c) (c_huber_alpha c) (c_max_nbins c) (c_discr_nbits c) (c_max_tree_depth c) (c_compression_threshold c) (c_binary_gradient_bound c) (c_random_seed c) (c_feature_fraction c) (c_example_fraction c) (c_sample_freq c).
Definition set_test (x : string) (c : config O) : config O := mk_config (c_train c) x (c_objective c) (c_metrics c) (c_metric_frequency c) (c_csv_has_header c) (c_csv_delimiter c) (c_categorical_features c) (c_niterations c) (c_learning_rate c) (c_reg_lambda c) (c_min_examples_leaf c) (c_min_gain c) (c_huber_alpha c) (c_max_nbins c) (c_discr_nbits c) (c_max_tree_depth c) (c_compression_threshold c) (c_binary_gradient_bound c) (c_random_seed c) (c_feature_fraction c) (c_example_fraction c) (c_sample_freq c).
Definition set_objective (x : string) (c : config O) : config O := mk_config (c_train c) (c_test c) x (c_metrics c) (c_metric_frequency c) (c_csv_has_header c) (c_csv_delimiter c) (c_categorical_features c) (c_niterations c) (c_learning_rate c) (c_reg_lambda c) (c_min_examples_leaf c) (c_min_gain c) (c_huber_alpha c) (c_max_nbins c) (c_discr_nbits c) (c_max_tree_depth c) (c_compression_threshold c) (c_binary_gradient_bound c) (c_random_seed c) (c_feature_fraction c) (c_example_fraction c) (c_sample_freq c).
Definition set_metrics (x : list string) (c : config O) : config O := mk_config (c_train c) (c_test c) (c_objective c) x (c_metric_frequency c) (c_csv_has_header c) (c_csv_delimiter c) (c_categorical_features c) (c_niterations c) (c_learning_rate c) (c_reg_lambda c) (c_min_examples_leaf c) (c_min_gain c) (c_huber_alpha c) (c_max_nbins c) (c_discr_nbits c) (c_max_tree_depth c) (c_compression_threshold c) (c_binary_gradient_bound c) (c_random_seed c) (c_feature_fraction c) (c_example_fraction c) (c_sample_freq c).
Definition set_metric_frequency (x : N) (c : config O) : config O := mk_config (c_train c) (c_test c) (c_objective c) (c_metrics c) x (c_csv_has_header c) (c_csv_delimiter c) (c_categorical_features c) (c_niterations c) (c_learning_rate c) (c_reg_lambda c) (c_min_examples_leaf c) (c_min_gain c) (c_huber_alpha c) (c_max_nbins c) (c_discr_nbits c) (c_max_tree_depth c) (c_compression_threshold c) (c_binary_gradient_bound c) (c_random_seed c) (c_feature_fraction c) (c_example_fraction c) (c_sample_freq c).
Definition set_csv_has_header (x : bool) (c : config O) : config O := mk_config (c_train c) (c_test c) (c_objective c) (c_metrics c) (c_metric_frequency c) x (c_csv_delimiter c) (c_categorical_features c) (c_niterations c) (c_learning_rate c) (c_reg_lambda c) (c_min_examples_leaf c) (c_min_gain c) (c_huber_alpha c) (c_max_nbins c) (c_discr_nbits c) (c_max_tree_depth c) (c_compression_threshold c) (c_binary_gradient_bound c) (c_random_seed c) (c_feature_fraction c) (c_example_fraction c) (c_sample_freq c).
Definition set_csv_delimiter (x : N) (c : config O) : config O := mk_config (c_train c) (c_test c) (c_objective c) (c_metrics c) (c_metric_frequency c) (c_csv_has_header c) x (c_categorical_features c) (c_niterations c) (c_learning_rate c) (c_reg_lambda c) (c_min_examples_leaf c) (c_min_gain c) (c_huber_alpha c) (c_max_nbins c) (c_discr_nbits c) (c_max_tree_depth c) (c_compression_threshold c) (c_binary_gradient_bound c) (c_random_seed c) (c_feature_fraction c) (c_example_fraction c) (c_sample_freq c).
Definition set_categorical_features (x : list nat) (c : config O) : config O := mk_config (c_train c) (c_test c) (c_objective c) (c_metrics c) (c_metric_frequency c) (c_csv_has_header c) (c_csv_delimiter c) x (c_niterations c) (c_learning_rate c) (c_reg_lambda c) (c_min_examples_leaf c) (c_min_gain c) (c_huber_alpha c) (c_max_nbins c) (c_discr_nbits c) (c_max_tree_depth c) (c_compression_threshold c) (c_binary_gradient_bound c) (c_random_seed c) (c_feature_fraction c) (c_example_fraction c) (c_sample_freq c).
Definition set_niterations (x : nat) (c : config O) : config O := mk_config (c_train c) (c_test c) (c_objective c) (c_metrics c) (c_metric_frequency c) (c_csv_has_header c) (c_csv_delimiter c) (c_categorical_features c) x (c_learning_rate c) (c_reg_lambda c) (c_min_examples_leaf c) (c_min_gain c) (c_huber_alpha c) (c_max_nbins c) (c_discr_nbits c) (c_max_tree_depth c) (c_compression_threshold c) (c_binary_gradient_bound c) (c_random_seed c) (c_feature_fraction c) (c_example_fraction c) (c_sample_freq c).
Definition set_learning_rate (x : num O) (c : config O) : config O := mk_config (c_train c) (c_test c) (c_objective c) (c_metrics c) (c_metric_frequency c) (c_csv_has_header c) (c_csv_delimiter c) (c_categorical_features c) (c_niterations c) x (c_reg_lambda c) (c_min_examples_leaf c) (c_min_gain c) (c_huber_alpha c) (c_max_nbins c) (c_discr_nbits c) (c_max_tree_depth c) (c_compression_threshold c) (c_binary_gradient_bound c) (c_random_seed c) (c_feature_fraction c) (c_example_fraction c) (c_sample_freq c).
Definition set_reg_lambda (x : num O) (c : config O) : config O := mk_config (c_train c) (c_test c) (c_objective c) (c_metrics c) (c_metric_frequency c) (c_csv_has_header c) (c_csv_delimiter c) (c_categorical_features c) (c_niterations c) (c_learning_rate c) x (c_min_examples_leaf c) (c_min_gain c) (c_huber_alpha c) (c_max_nbins c) (c_discr_nbits c) (c_max_tree_depth c) (c_compression_threshold c) (c_binary_gradient_bound c) (c_random_seed c) (c_feature_fraction c) (c_example_fraction c) (c_sample_freq c).
Definition set_min_examples_leaf (x : N) (c : config O) : config O := mk_config (c_train c) (c_test c) (c_objective c) (c_metrics c) (c_metric_frequency c) (c_csv_has_header c) (c_csv_delimiter c) (c_categorical_features c) (c_niterations c) (c_learning_rate c) (c_reg_lambda c) x (c_min_gain c) (c_huber_alpha c) (c_max_nbins c) (c_discr_nbits c) (c_max_tree_depth c) (c_compression_threshold c) (c_binary_gradient_bound c) (c_random_seed c) (c_feature_fraction c) (c_example_fraction c) (c_sample_freq c).
Definition set_min_gain (x : num O) (c : config O) : config O := mk_config (c_train c) (c_test c) (c_objective c) (c_metrics c) (c_metric_frequency c) (c_csv_has_header c) (c_csv_delimiter c) (c_categorical_features c) (c_niterations c) (c_learning_rate c) (c_reg_lambda c) (c_min_examples_leaf c) x (c_huber_alpha c) (c_max_nbins c) (c_discr_nbits c) (c_max_tree_depth c) (c_compression_threshold c) (c_binary_gradient_bound c) (c_random_seed c) (c_feature_fraction c) (c_example_fraction c) (c_sample_freq c).
Definition set_huber_alpha (x : num O) (c : config O) : config O := mk_config (c_train c) (c_test c) (c_objective c) (c_metrics c) (c_metric_frequency c) (c_csv_has_header c) (c_csv_delimiter c) (c_categorical_features c) (c_niterations c) (c_learning_rate c) (c_reg_lambda c) (c_min_examples_leaf c) (c_min_gain c) x (c_max_nbins c) (c_discr_nbits c) (c_max_tree_depth c) (c_compression_threshold c) (c_binary_gradient_bound c) (c_random_seed c) (c_feature_fraction c) (c_example_fraction c) (c_sample_freq c).
Definition set_max_nbins (x : nat) (c : config O) : config O := mk_config (c_train c) (c_test c) (c_objective c) (c_metrics c) (c_metric_frequency c) (c_csv_has_header c) (c_csv_delimiter c) (c_categorical_features c) (c_niterations c) (c_learning_rate c) (c_reg_lambda c) (c_min_examples_leaf c) (c_min_gain c) (c_huber_alpha c) x (c_discr_nbits c) (c_max_tree_depth c) (c_compression_threshold c) (c_binary_gradient_bound c) (c_random_seed c) (c_feature_fraction c) (c_example_fraction c) (c_sample_freq c).
Definition set_discr_nbits (x : nat) (c : config O) : config O := mk_config (c_train c) (c_test c) (c_objective c) (c_metrics c) (c_metric_frequency c) (c_csv_has_header c) (c_csv_delimiter c) (c_categorical_features c) (c_niterations c) (c_learning_rate c) (c_reg_lambda c) (c_min_examples_leaf c) (c_min_gain c) (c_huber_alpha c) (c_max_nbins c) x (c_max_tree_depth c) (c_compression_threshold c) (c_binary_gradient_bound c) (c_random_seed c) (c_feature_fraction c) (c_example_fraction c) (c_sample_freq c).
Definition set_max_tree_depth (x : nat) (c : config O) : config O := mk_config (c_train c) (c_test c) (c_objective c) (c_metrics c) (c_metric_frequency c) (c_csv_has_header c) (c_csv_delimiter c) (c_categorical_features c) (c_niterations c) (c_learning_rate c) (c_reg_lambda c) (c_min_examples_leaf c) (c_min_gain c) (c_huber_alpha c) (c_max_nbins c) (c_discr_nbits c) x (c_compression_threshold c) (c_binary_gradient_bound c) (c_random_seed c) (c_feature_fraction c) (c_example_fraction c) (c_sample_freq c).
Definition set_compression_threshold (x : num O) (c : config O) : config O := mk_config (c_train c) (c_test c) (c_objective c) (c_metrics c) (c_metric_frequency c) (c_csv_has_header c) (c_csv_delimiter c) (c_categorical_features c) (c_niterations c) (c_learning_rate c) (c_reg_lambda c) (c_min_examples_leaf c) (c_min_gain c) (c_huber_alpha c) (c_max_nbins c) (c_discr_nbits c) (c_max_tree_depth c) x (c_binary_gradient_bound c) (c_random_seed c) (c_feature_fraction c) (c_example_fraction c) (c_sample_freq c).
Definition set_binary_gradient_bound (x : num O) (c : config O) : config O := mk_config (c_train c) (c_test c) (c_objective c) (c_metrics c) (c_metric_frequency c) (c_csv_has_header c) (c_csv_delimiter c) (c_categorical_features c) (c_niterations c) (c_learning_rate c) (c_reg_lambda c) (c_min_examples_leaf c) (c_min_gain c) (c_huber_alpha c) (c_max_nbins c) (c_discr_nbits c) (c_max_tree_depth c) (c_compression_threshold c) x (c_random_seed c) (c_feature_fraction c) (c_example_fraction c) (c_sample_freq c).
Definition set_random_seed (x : N) (c : config O) : config O := mk_config (c_train c) (c_test c) (c_objective c) (c_metrics c) (c_metric_frequency c) (c_csv_has_header c) (c_csv_delimiter c) (c_categorical_features c) (c_niterations c) (c_learning_rate c) (c_reg_lambda c) (c_min_examples_leaf c) (c_min_gain c) (c_huber_alpha c) (c_max_nbins c) (c_discr_nbits c) (c_max_tree_depth c) (c_compression_threshold c) (c_binary_gradient_bound c) x (c_feature_fraction c) (c_example_fraction c) (c_sample_freq c).
Definition set_feature_fraction (x : num O) (c : config O) : config O := mk_config (c_train c) (c_test c) (c_objective c) (c_metrics c) (c_metric_frequency c) (c_csv_has_header c) (c_csv_delimiter c) (c_categorical_features c) (c_niterations c) (c_learning_rate c) (c_reg_lambda c) (c_min_examples_leaf c) (c_min_gain c) (c_huber_alpha c) (c_max_nbins c) (c_discr_nbits c) (c_max_tree_depth c) (c_compression_threshold c) (c_binary_gradient_bound c) (c_random_seed c) x (c_example_fraction c) (c_sample_freq c).
Definition set_example_fraction (x : num O) (c : config O) : config O := mk_config (c_train c) (c_test c) (c_objective c) (c_metrics c) (c_metric_frequency c) (c_csv_has_header c) (c_csv_delimiter c) (c_categorical_features c) (c_niterations c) (c_learning_rate c) (c_reg_lambda c) (c_min_examples_leaf c) (c_min_gain c) (c_huber_alpha c) (c_max_nbins c) (c_discr_nbits c) (c_max_tree_depth c) (c_compression_threshold c) (c_binary_gradient_bound c) (c_random_seed c) (c_feature_fraction c) x (c_sample_freq c).
Definition set_sample_freq (x : nat) (c : config O) : config O := mk_config (c_train c) (c_test c) (c_objective c) (c_metrics c) (c_metric_frequency c) (c_csv_has_header c) (c_csv_delimiter c) (c_categorical_features c) (c_niterations c) (c_learning_rate c) (c_reg_lambda c) (c_min_examples_leaf c) (c_min_gain c) (c_huber_alpha c) (c_max_nbins c) (c_discr_nbits c) (c_max_tree_depth c) (c_compression_threshold c) (c_binary_gradient_bound c) (c_random_seed c) (c_feature_fraction c) (c_example_fraction c) x.

Definition assign {T} (v : option T) (set : T -> config O -> config O) (c : config O) : result (config O) := match v with Some x => Done (set x c) | None => Err end.
(** config.rs:76-86, with the fields and parsers of 117-190.  On an error nothing is assigned. *)
Definition parse_record (c : config O) (name value : string) : result (config O) :=
  if String.eqb name "train" then assign (parse_text value) set_train c else
  if String.eqb name "test" then assign (parse_text value) set_test c else
  if String.eqb name "objective" then assign (parse_text value) set_objective c else
  if String.eqb name "metrics" then assign (parse_vec parse_text value) set_metrics c else
  if String.eqb name "metric_frequency" then assign (parse_unsigned (2 ^ 64 - 1) value) set_metric_frequency c else
  if String.eqb name "csv_has_header" then assign (parse_bool value) set_csv_has_header c else
  if String.eqb name "csv_delimiter" then assign (parse_unsigned (2 ^ 8 - 1) value) set_csv_delimiter c else
  if String.eqb name "categorical_features" then assign (parse_vec parse_usize value) set_categorical_features c else
  if String.eqb name "niterations" then assign (parse_usize value) set_niterations c else
  if String.eqb name "learning_rate" then assign (parse_num value) set_learning_rate c else
  if String.eqb name "reg_lambda" then assign (parse_num value) set_reg_lambda c else
  if String.eqb name "min_examples_leaf" then assign (parse_unsigned (2 ^ 32 - 1) value) set_min_examples_leaf c else
  if String.eqb name "min_gain" then assign (parse_num value) set_min_gain c else
  if String.eqb name "huber_alpha" then assign (parse_num value) set_huber_alpha c else
  if String.eqb name "max_nbins" then assign (parse_usize value) set_max_nbins c else
  if String.eqb name "discr_nbits" then assign (parse_usize value) set_discr_nbits c else
  if String.eqb name "max_tree_depth" then assign (parse_usize value) set_max_tree_depth c else
  if String.eqb name "compression_threshold" then assign (parse_num value) set_compression_threshold c else
  if String.eqb name "binary_gradient_bound" then assign (parse_num value) set_binary_gradient_bound c else
  if String.eqb name "random_seed" then assign (parse_unsigned (2 ^ 64 - 1) value) set_random_seed c else
  if String.eqb name "feature_fraction" then assign (parse_num value) set_feature_fraction c else
  if String.eqb name "example_fraction" then assign (parse_num value) set_example_fraction c else
  if String.eqb name "sample_freq" then assign (parse_usize value) set_sample_freq c else
  Err.
(** config.rs:68-74: what follows a second equals sign is dropped. *)
Definition parse_record_str (c : config O) (line : string) : result (config O) :=
  match split_on "=" line with name :: value :: _ => parse_record c (trim name) (trim value) | _ => Err end.
(** config.rs:57-66 *)
Fixpoint parse_lines (c : config O) (lines : list string) : result (config O) :=
  match lines with
  | [] => Done c
  | l :: t => match parse_record_str c l with Done c' => parse_lines c' t | Err => Err end
  end.
Definition config_parse (lines : list string) : result (config O) := parse_lines config_new lines.
End Config.
Arguments assign {O T}. Arguments parse_record {O}. Arguments parse_record_str {O}. Arguments parse_lines {O}. Arguments config_parse {O}.
Arguments set_train {O}. Arguments set_test {O}. Arguments set_objective {O}. Arguments set_metrics {O}. Arguments set_metric_frequency {O}. Arguments set_csv_has_header {O}. Arguments set_csv_delimiter {O}. Arguments set_categorical_features {O}. Arguments set_niterations {O}. Arguments set_learning_rate {O}. Arguments set_reg_lambda {O}. Arguments set_min_examples_leaf {O}. Arguments set_min_gain {O}. Arguments set_huber_alpha {O}. Arguments set_max_nbins {O}. Arguments set_discr_nbits {O}. Arguments set_max_tree_depth {O}. Arguments set_compression_threshold {O}. Arguments set_binary_gradient_bound {O}. Arguments set_random_seed {O}. Arguments set_feature_fraction {O}. Arguments set_example_fraction {O}. Arguments set_sample_freq {O}.

(** [Display] of an unsigned integer, used by [PythonRepr] (config.rs:235-247): decimal. *)
Fixpoint show_digits (fuel : nat) (n : N) (acc : string) : string :=
  match fuel with
  | 0 => acc
  | S k => let acc' := String (ascii_of_N (48 + n mod 10)) acc in if (n / 10 =? 0)%N then acc' else show_digits k (n / 10) acc'
  end.
Definition show_N (n : N) : string := show_digits (S (N.to_nat (N.log2 n))) n "".
(** config.rs:215-220 *)
Definition show_bool (b : bool) : string := if b then "True" else "False".
(** config.rs:209-213 *)
Definition show_text (s : string) : string := String "034" (s ++ String "034" "").
(** config.rs:222-233 *)
Definition show_list {T} (show : T -> string) (l : list T) : string := "[" ++ String.concat "," (map show l) ++ "]".
(** python/bitboost/bitboost.py:142-149 [set_config_field]: lists are joined with commas. *)
Definition join {T} (show : T -> string) (l : list T) : string := String.concat "," (map show l).
