(** What a configuration is, how its text is written.  No model functions but the fields of the configuration record. *)
From Coq Require Import String Ascii.
From Verif Require Import Base Num Config.
Local Open Scope string_scope.

(** * White space: the code points with the property White_Space and their UTF-8 encodings *)
Definition ws_points : list N :=
  [0x9; 0xA; 0xB; 0xC; 0xD; 0x20; 0x85; 0xA0; 0x1680; 0x2000; 0x2001; 0x2002; 0x2003; 0x2004; 0x2005; 0x2006; 0x2007; 0x2008; 0x2009; 0x200A;
   0x2028; 0x2029; 0x202F; 0x205F; 0x3000]%N.
Definition utf8 (p : N) : string :=
  if (p <? 128)%N then String (ascii_of_N p) ""
  else if (p <? 2048)%N then String (ascii_of_N (192 + p / 64)) (String (ascii_of_N (128 + p mod 64)) "")
  else String (ascii_of_N (224 + p / 4096)) (String (ascii_of_N (128 + p / 64 mod 64)) (String (ascii_of_N (128 + p mod 64)) "")).
Definition white (w : string) : Prop := exists p, In p ws_points /\ w = utf8 p.
Inductive blank : string -> Prop := blank_nil : blank "" | blank_cons : forall w s, white w -> blank s -> blank (w ++ s).
(** [t] is [s] without the white space around it. *)
Definition trimmed (s t : string) : Prop :=
  exists a b, s = a ++ t ++ b /\ blank a /\ blank b /\ (forall w r, white w -> t <> w ++ r) /\ (forall w r, white w -> t <> r ++ w).

(** * Separators *)
Fixpoint without (c : ascii) (s : string) : Prop := match s with EmptyString => True | String a t => a <> c /\ without c t end.
(** [parts] are what [s] has between the commas. *)
Definition separated (parts : list string) (s : string) : Prop := parts <> [] /\ s = String.concat "," parts /\ Forall (without ",") parts.

(** * Numerals *)
Definition digits (ds : list N) (s : string) : Prop := Forall (fun d => d < 10)%N ds /\ s = fold_right (fun d t => String (ascii_of_N (48 + d)) t) "" ds.
Definition decimal (ds : list N) : N := fold_left (fun v d => (10 * v + d)%N) ds 0%N.
(** A numeral below [bound] (the number of values of the type): digits, possibly after a plus sign. *)
Definition numeral (bound : N) (s : string) (n : N) : Prop :=
  exists ds t, ds <> [] /\ digits ds t /\ (s = t \/ s = String "+" t) /\ n = decimal ds /\ (n < bound)%N.

Section Values.
Variable O : numops.
Inductive value := VText (s : string) | VBool (b : bool) | VUInt (n : N) | VReal (x : num O) | VTexts (l : list string) | VUInts (l : list N).
Inductive kind := KText | KBool | KUInt (bound : N) | KReal | KTexts | KUInts (bound : N).
(** The texts of the numbers: [f32::from_str] is not specified here. *)
Variable real : string -> num O -> Prop.

(** [s] is a text for the value, of that kind. *)
Inductive reads : kind -> string -> value -> Prop :=
  | reads_text : forall s, reads KText s (VText s)
  | reads_true : reads KBool "true" (VBool true)
  | reads_false : reads KBool "false" (VBool false)
  | reads_uint : forall b s n, numeral b s n -> reads (KUInt b) s (VUInt n)
  | reads_real : forall s x, real s x -> reads KReal s (VReal x)
  | reads_no_texts : reads KTexts "" (VTexts [])
  | reads_texts : forall s parts l, s <> "" -> separated parts s -> Forall2 trimmed parts l -> reads KTexts s (VTexts l)
  | reads_no_uints : forall b, reads (KUInts b) "" (VUInts [])
  | reads_uints : forall b s parts l, s <> "" -> separated parts s -> Forall2 (fun p n => exists t, trimmed p t /\ numeral b t n) parts l ->
      reads (KUInts b) s (VUInts l).

(** * The fields: names, types and defaults of python/bitboost_config.gen.csv.  [lookup] finds the first entry. *)
Fixpoint lookup {A} (table : list (string * A)) (name : string) : option A :=
  match table with [] => None | (n, x) :: t => if String.eqb n name then Some x else lookup t name end.
Definition kinds : list (string * kind) :=
  [("train", KText);
   ("test", KText);
   ("objective", KText);
   ("metrics", KTexts);
   ("metric_frequency", (KUInt (2 ^ 64)));
   ("csv_has_header", KBool);
   ("csv_delimiter", (KUInt (2 ^ 8)));
   ("categorical_features", (KUInts (2 ^ 64)));
   ("niterations", (KUInt (2 ^ 64)));
   ("learning_rate", KReal);
   ("reg_lambda", KReal);
   ("min_examples_leaf", (KUInt (2 ^ 32)));
   ("min_gain", KReal);
   ("huber_alpha", KReal);
   ("max_nbins", (KUInt (2 ^ 64)));
   ("discr_nbits", (KUInt (2 ^ 64)));
   ("max_tree_depth", (KUInt (2 ^ 64)));
   ("compression_threshold", KReal);
   ("binary_gradient_bound", KReal);
   ("random_seed", (KUInt (2 ^ 64)));
   ("feature_fraction", KReal);
   ("example_fraction", KReal);
   ("sample_freq", (KUInt (2 ^ 64)))].
Definition defaults : list (string * value) :=
  [("train", VText "");
   ("test", VText "");
   ("objective", VText "L2");
   ("metrics", VTexts []);
   ("metric_frequency", VUInt 1);
   ("csv_has_header", VBool true);
   ("csv_delimiter", VUInt 44);
   ("categorical_features", VUInts []);
   ("niterations", VUInt 100);
   ("learning_rate", VReal (nofZ O 1));
   ("reg_lambda", VReal (nofZ O 0));
   ("min_examples_leaf", VUInt 1);
   ("min_gain", VReal (ndiv O (nofZ O 1) (nofZ O 1000000)));
   ("huber_alpha", VReal (ndiv O (nofZ O 95) (nofZ O 100)));
   ("max_nbins", VUInt 16);
   ("discr_nbits", VUInt 4);
   ("max_tree_depth", VUInt 6);
   ("compression_threshold", VReal (ndiv O (nofZ O 1) (nofZ O 2)));
   ("binary_gradient_bound", VReal (ndiv O (nofZ O 125) (nofZ O 100)));
   ("random_seed", VUInt 1);
   ("feature_fraction", VReal (nofZ O 1));
   ("example_fraction", VReal (nofZ O 1));
   ("sample_freq", VUInt 1)].
(** The fields of a configuration. *)
Definition fields (c : config O) : list (string * value) :=
  [("train", VText (c_train c));
   ("test", VText (c_test c));
   ("objective", VText (c_objective c));
   ("metrics", VTexts (c_metrics c));
   ("metric_frequency", VUInt (c_metric_frequency c));
   ("csv_has_header", VBool (c_csv_has_header c));
   ("csv_delimiter", VUInt (c_csv_delimiter c));
   ("categorical_features", VUInts (map N.of_nat (c_categorical_features c)));
   ("niterations", VUInt (N.of_nat (c_niterations c)));
   ("learning_rate", VReal (c_learning_rate c));
   ("reg_lambda", VReal (c_reg_lambda c));
   ("min_examples_leaf", VUInt (c_min_examples_leaf c));
   ("min_gain", VReal (c_min_gain c));
   ("huber_alpha", VReal (c_huber_alpha c));
   ("max_nbins", VUInt (N.of_nat (c_max_nbins c)));
   ("discr_nbits", VUInt (N.of_nat (c_discr_nbits c)));
   ("max_tree_depth", VUInt (N.of_nat (c_max_tree_depth c)));
   ("compression_threshold", VReal (c_compression_threshold c));
   ("binary_gradient_bound", VReal (c_binary_gradient_bound c));
   ("random_seed", VUInt (c_random_seed c));
   ("feature_fraction", VReal (c_feature_fraction c));
   ("example_fraction", VReal (c_example_fraction c));
   ("sample_freq", VUInt (N.of_nat (c_sample_freq c)))].
Definition field (c : config O) (name : string) : option value := lookup (fields c) name.

(** * Lines: [name = text], and what comes after a further equals sign is ignored *)
Definition line_parts (line name text : string) : Prop :=
  exists a b rest, line = a ++ "=" ++ b ++ rest /\ without "=" a /\ without "=" b /\ (rest = "" \/ exists r, rest = String "=" r) /\ trimmed a name /\ trimmed b text.
(** The line assigns the value to the field. *)
Definition assigns (line name : string) (v : value) : Prop :=
  exists text k, line_parts line name text /\ lookup kinds name = Some k /\ reads k text v.
(** The last of the assignments to that field, or the default. *)
Fixpoint last_of (name : string) (recs : list (string * value)) (init : option value) : option value :=
  match recs with [] => init | (n, v) :: t => last_of name t (if String.eqb n name then Some v else init) end.
End Values.
Arguments VText {O}. Arguments VBool {O}. Arguments VUInt {O}. Arguments VReal {O}. Arguments VTexts {O}. Arguments VUInts {O}.
Arguments reads {O}. Arguments fields {O}. Arguments field {O}. Arguments assigns {O}. Arguments last_of {O}.
