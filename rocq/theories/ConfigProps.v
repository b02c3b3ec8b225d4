(** Configuration strings (C37). *)
From Coq Require Import String Ascii Lia ZArith.
From Verif Require Import Base BaseProofs Num F32 DataModel Config ConfigModel ConfigSpec ConfigProofs.
Local Open Scope string_scope.

Lemma Forall2_impl : forall A B (P Q : A -> B -> Prop), (forall a b, P a b -> Q a b) -> forall l m, Forall2 P l m -> Forall2 Q l m.
Proof. induction 2; constructor; auto. Qed.
Lemma numeral_unique : forall b t n m, numeral b t n -> numeral b t m -> n = m.
Proof.
  intros b t n m X Y. destruct b as [|p]; [destruct X as (? & ? & ? & ? & ? & ? & ?); lia|].
  replace (N.pos p) with (N.pred (N.pos p) + 1)%N in * by lia. apply parse_unsigned_spec in X, Y. congruence.
Qed.
Section Record.
Variable O : numops.
Variable parse_num : string -> option (num O).
Definition real : string -> num O -> Prop := fun s x => parse_num s = Some x.

Lemma reads_uint_iff : forall max s v, @reads O real (KUInt (max + 1)) s v <-> exists n, parse_unsigned max s = Some n /\ v = VUInt n.
Proof.
  split.
  - intros H; inversion H; subst. exists n; split; [apply parse_unsigned_spec; assumption | reflexivity].
  - intros (n & P & ->). constructor. apply parse_unsigned_spec; assumption.
Qed.
Lemma reads_usize_iff : forall s v, @reads O real (KUInt (2 ^ 64)) s v <-> exists n, parse_usize s = Some n /\ v = VUInt (N.of_nat n).
Proof.
  intros s v. change (2 ^ 64)%N with (2 ^ 64 - 1 + 1)%N. rewrite reads_uint_iff. unfold parse_usize. split.
  - intros (n & -> & ->). exists (N.to_nat n). rewrite N2Nat.id; auto.
  - intros (n & P & ->). destruct (parse_unsigned (2 ^ 64 - 1) s) as [m|]; [|discriminate]. injection P as <-. exists m. rewrite N2Nat.id; auto.
Qed.
Lemma reads_text_iff : forall s v, @reads O real KText s v <-> exists x, parse_text s = Some x /\ v = VText x.
Proof. split; [intros H; inversion H; subst; unfold parse_text; eauto | intros (x & [= <-] & ->); constructor]. Qed.
Lemma reads_bool_iff : forall s v, @reads O real KBool s v <-> exists x, parse_bool s = Some x /\ v = VBool x.
Proof.
  split; [intros H; inversion H; subst; cbn; eauto|]. intros (x & P & ->). unfold parse_bool in P.
  destruct (String.eqb s "true") eqn:A; [apply String.eqb_eq in A; injection P as <-; subst; constructor|].
  destruct (String.eqb s "false") eqn:B; [apply String.eqb_eq in B; injection P as <-; subst; constructor | discriminate].
Qed.
Lemma reads_real_iff : forall s v, @reads O real KReal s v <-> exists x, parse_num s = Some x /\ v = VReal x.
Proof. split; [intros H; inversion H; subst; eauto | intros (x & P & ->); constructor; exact P]. Qed.
Lemma reads_texts_iff : forall s v, @reads O real KTexts s v <-> exists x, parse_vec parse_text s = Some x /\ v = VTexts x.
Proof.
  split.
  - intros H; inversion H; subst; [exists []; auto|]. exists l. split; [|reflexivity]. apply parse_vec_spec. right; split; [assumption|].
    exists parts. split; [assumption|]. eapply Forall2_impl; [|eassumption]. intros p t T; exists t; split; [exact T | reflexivity].
  - intros (x & P & ->). apply parse_vec_spec in P. destruct P as [(-> & ->)|(N & parts & S & F)]; [constructor|].
    econstructor; [exact N | exact S|]. eapply Forall2_impl; [|exact F]. intros p t (u & T & [= ->]); exact T.
Qed.
Lemma reads_usizes_iff : forall s v, @reads O real (KUInts (2 ^ 64)) s v <-> exists x, parse_vec parse_usize s = Some x /\ v = VUInts (map N.of_nat x).
Proof.
  assert (K : forall t n, numeral (2 ^ 64) t n <-> parse_usize t = Some (N.to_nat n)).
  { intros t n. change (2 ^ 64)%N with (2 ^ 64 - 1 + 1)%N. rewrite <- parse_unsigned_spec. unfold parse_usize. split; [intros ->; reflexivity|].
    destruct (parse_unsigned (2 ^ 64 - 1) t) as [m|]; [|discriminate]. cbn. intros [= E]. f_equal. lia. }
  assert (M : forall l, map N.of_nat (map N.to_nat l) = l).
  { intros; rewrite map_map. rewrite <- (map_id l) at 2. apply map_ext; intros; apply N2Nat.id. }
  split.
  - intros H; inversion H; subst; [exists []; auto|]. exists (map N.to_nat l). rewrite M. split; [|reflexivity]. apply parse_vec_spec. right; split; [assumption|].
    exists parts. split; [assumption|]. match goal with F : Forall2 _ _ _ |- _ => clear - F K; induction F as [|p n ps ns (t & T & U) F IH]; cbn [map]; constructor end; [|assumption].
    exists t; split; [exact T | apply K; exact U].
  - intros (x & P & ->). apply parse_vec_spec in P. destruct P as [(-> & ->)|(N & parts & S & F)]; [constructor|].
    econstructor; [exact N | exact S|]. clear - F K. induction F as [|p n ps ns (t & T & U) F IH]; cbn [map]; constructor; [|assumption].
    exists t; split; [exact T|]. apply K. rewrite Nat2N.id; exact U.
Qed.

Lemma branch : forall T (p : option T) (set : T -> config O -> config O) (inj : T -> value O) k c name text,
  (forall v, reads real k text v <-> exists x, p = Some x /\ v = inj x) -> lookup kinds name = Some k ->
  (forall x, field (set x c) name = Some (inj x)) -> (forall x other, other <> name -> field (set x c) other = field c other) ->
  match assign p set c with
  | Done c' => exists k v, lookup kinds name = Some k /\ reads real k text v /\ field c' name = Some v /\ (forall other, other <> name -> field c' other = field c other)
  | Err => forall k v, lookup kinds name = Some k -> ~ reads real k text v
  end.
Proof.
  intros T p set inj k c name text R K F Fo. destruct p as [x|] eqn:P; cbn [assign].
  - exists k, (inj x). split; [exact K|]. split; [apply R; eauto|]. split; [apply F | apply Fo].
  - intros k2 v K2 R2. rewrite K in K2. injection K2 as <-. apply R in R2. destruct R2 as (x & Q & _). discriminate.
Qed.
Ltac other name := intros x o Ho; unfold field, fields; cbn [lookup];
  let E := fresh in destruct (String.eqb name o) eqn:E; [apply String.eqb_eq in E; congruence | reflexivity].

(** One record: the named field gets the value that the text denotes and no other field changes; if there is no field of that name, or the text
    denotes no value of its type, the configuration is not changed (the result is an error). *)
Theorem C37_record : forall c name text,
  match parse_record parse_num c name text with
  | Done c' => exists k v, lookup kinds name = Some k /\ reads real k text v /\ field c' name = Some v /\ (forall other, other <> name -> field c' other = field c other)
  | Err => forall k v, lookup kinds name = Some k -> ~ reads real k text v
  end.
Proof.
  intros c name text. unfold parse_record.
  destruct (String.eqb name "train") eqn:E_train; [apply String.eqb_eq in E_train; subst name; eapply branch; [apply reads_text_iff | reflexivity | reflexivity | other "train"]|].
  destruct (String.eqb name "test") eqn:E_test; [apply String.eqb_eq in E_test; subst name; eapply branch; [apply reads_text_iff | reflexivity | reflexivity | other "test"]|].
  destruct (String.eqb name "objective") eqn:E_objective; [apply String.eqb_eq in E_objective; subst name; eapply branch; [apply reads_text_iff | reflexivity | reflexivity | other "objective"]|].
  destruct (String.eqb name "metrics") eqn:E_metrics; [apply String.eqb_eq in E_metrics; subst name; eapply branch; [apply reads_texts_iff | reflexivity | reflexivity | other "metrics"]|].
  destruct (String.eqb name "metric_frequency") eqn:E_metric_frequency; [apply String.eqb_eq in E_metric_frequency; subst name; eapply branch; [apply (reads_uint_iff (2 ^ 64 - 1)) | reflexivity | reflexivity | other "metric_frequency"]|].
  destruct (String.eqb name "csv_has_header") eqn:E_csv_has_header; [apply String.eqb_eq in E_csv_has_header; subst name; eapply branch; [apply reads_bool_iff | reflexivity | reflexivity | other "csv_has_header"]|].
  destruct (String.eqb name "csv_delimiter") eqn:E_csv_delimiter; [apply String.eqb_eq in E_csv_delimiter; subst name; eapply branch; [apply (reads_uint_iff (2 ^ 8 - 1)) | reflexivity | reflexivity | other "csv_delimiter"]|].
  destruct (String.eqb name "categorical_features") eqn:E_categorical_features; [apply String.eqb_eq in E_categorical_features; subst name; eapply branch; [apply reads_usizes_iff | reflexivity | reflexivity | other "categorical_features"]|].
  destruct (String.eqb name "niterations") eqn:E_niterations; [apply String.eqb_eq in E_niterations; subst name; eapply branch; [apply reads_usize_iff | reflexivity | reflexivity | other "niterations"]|].
  destruct (String.eqb name "learning_rate") eqn:E_learning_rate; [apply String.eqb_eq in E_learning_rate; subst name; eapply branch; [apply reads_real_iff | reflexivity | reflexivity | other "learning_rate"]|].
  destruct (String.eqb name "reg_lambda") eqn:E_reg_lambda; [apply String.eqb_eq in E_reg_lambda; subst name; eapply branch; [apply reads_real_iff | reflexivity | reflexivity | other "reg_lambda"]|].
  destruct (String.eqb name "min_examples_leaf") eqn:E_min_examples_leaf; [apply String.eqb_eq in E_min_examples_leaf; subst name; eapply branch; [apply (reads_uint_iff (2 ^ 32 - 1)) | reflexivity | reflexivity | other "min_examples_leaf"]|].
  destruct (String.eqb name "min_gain") eqn:E_min_gain; [apply String.eqb_eq in E_min_gain; subst name; eapply branch; [apply reads_real_iff | reflexivity | reflexivity | other "min_gain"]|].
  destruct (String.eqb name "huber_alpha") eqn:E_huber_alpha; [apply String.eqb_eq in E_huber_alpha; subst name; eapply branch; [apply reads_real_iff | reflexivity | reflexivity | other "huber_alpha"]|].
  destruct (String.eqb name "max_nbins") eqn:E_max_nbins; [apply String.eqb_eq in E_max_nbins; subst name; eapply branch; [apply reads_usize_iff | reflexivity | reflexivity | other "max_nbins"]|].
  destruct (String.eqb name "discr_nbits") eqn:E_discr_nbits; [apply String.eqb_eq in E_discr_nbits; subst name; eapply branch; [apply reads_usize_iff | reflexivity | reflexivity | other "discr_nbits"]|].
  destruct (String.eqb name "max_tree_depth") eqn:E_max_tree_depth; [apply String.eqb_eq in E_max_tree_depth; subst name; eapply branch; [apply reads_usize_iff | reflexivity | reflexivity | other "max_tree_depth"]|].
  destruct (String.eqb name "compression_threshold") eqn:E_compression_threshold; [apply String.eqb_eq in E_compression_threshold; subst name; eapply branch; [apply reads_real_iff | reflexivity | reflexivity | other "compression_threshold"]|].
  destruct (String.eqb name "binary_gradient_bound") eqn:E_binary_gradient_bound; [apply String.eqb_eq in E_binary_gradient_bound; subst name; eapply branch; [apply reads_real_iff | reflexivity | reflexivity | other "binary_gradient_bound"]|].
  destruct (String.eqb name "random_seed") eqn:E_random_seed; [apply String.eqb_eq in E_random_seed; subst name; eapply branch; [apply (reads_uint_iff (2 ^ 64 - 1)) | reflexivity | reflexivity | other "random_seed"]|].
  destruct (String.eqb name "feature_fraction") eqn:E_feature_fraction; [apply String.eqb_eq in E_feature_fraction; subst name; eapply branch; [apply reads_real_iff | reflexivity | reflexivity | other "feature_fraction"]|].
  destruct (String.eqb name "example_fraction") eqn:E_example_fraction; [apply String.eqb_eq in E_example_fraction; subst name; eapply branch; [apply reads_real_iff | reflexivity | reflexivity | other "example_fraction"]|].
  destruct (String.eqb name "sample_freq") eqn:E_sample_freq; [apply String.eqb_eq in E_sample_freq; subst name; eapply branch; [apply reads_usize_iff | reflexivity | reflexivity | other "sample_freq"]|].
  intros k v K _. unfold kinds in K. cbn [lookup] in K.
  rewrite !(String.eqb_sym _ name) in K.
  rewrite E_train, E_test, E_objective, E_metrics, E_metric_frequency, E_csv_has_header, E_csv_delimiter, E_categorical_features, E_niterations, E_learning_rate, E_reg_lambda, E_min_examples_leaf, E_min_gain, E_huber_alpha, E_max_nbins, E_discr_nbits, E_max_tree_depth, E_compression_threshold, E_binary_gradient_bound, E_random_seed, E_feature_fraction, E_example_fraction, E_sample_freq in K. discriminate.
Qed.

(** A text denotes at most one value. *)
Lemma reads_unique : forall k s v w, @reads O real k s v -> @reads O real k s w -> v = w.
Proof.
  intros k s v w H1 H2. destruct k.
  - apply reads_text_iff in H1, H2. destruct H1 as (x & A & ->), H2 as (y & B & ->). congruence.
  - apply reads_bool_iff in H1, H2. destruct H1 as (x & A & ->), H2 as (y & B & ->). congruence.
  - inversion H1; inversion H2; subst. f_equal. eapply numeral_unique; eassumption.
  - apply reads_real_iff in H1, H2. destruct H1 as (x & A & ->), H2 as (y & B & ->). congruence.
  - apply reads_texts_iff in H1, H2. destruct H1 as (x & A & ->), H2 as (y & B & ->). congruence.
  - assert (I : forall v, @reads O real (KUInts bound) s v -> exists l, v = VUInts l /\
      (s = "" /\ l = [] \/ s <> "" /\ Forall2 (fun p n => exists t, trimmed p t /\ numeral bound t n) (split_on "," s) l)).
    { intros u H; inversion H; subst; [eauto|]. match goal with A : separated _ s |- _ => apply separated_iff in A; subst parts end. eauto. }
    destruct (I _ H1) as (l & -> & L), (I _ H2) as (m & -> & M). f_equal.
    destruct L as [(A & ->)|(A & L)], M as [(B & ->)|(B & M)]; try contradiction; [reflexivity|]. clear - L M.
    revert m M. induction L as [|p n ps ns (t & T & U) L IH]; intros m M; inversion M as [|? m1 ? ms (t2 & T2 & U2) M2]; subst; [reflexivity|].
    apply trimmed_iff in T. apply trimmed_iff in T2. rewrite <- T in U. rewrite <- T2 in U2. f_equal; [exact (numeral_unique _ _ _ _ U U2) | apply IH; assumption].
Qed.
Lemma assigns_iff : forall c line c', parse_record_str parse_num c line = Done c' ->
  exists name v, assigns real line name v /\ forall n, field c' n = (if String.eqb name n then Some v else field c n).
Proof.
  intros c line c' E. unfold parse_record_str in E. destruct (split_on "=" line) as [|a [|b ps]] eqn:S; try discriminate.
  pose proof (C37_record c (trim a) (trim b)) as H. rewrite E in H. destruct H as (k & v & K & R & Fv & Fo).
  exists (trim a), v. split.
  - exists (trim b), k. split; [apply line_parts_iff; eauto 6 | auto].
  - intros n. destruct (String.eqb (trim a) n) eqn:Q; [apply String.eqb_eq in Q; subst n; exact Fv | apply String.eqb_neq in Q; apply Fo; congruence].
Qed.
Lemma assigns_err : forall c line, parse_record_str parse_num c line = Err -> forall name v, ~ assigns real line name v.
Proof.
  intros c line E name v (text & k & P & K & R). apply line_parts_iff in P. destruct P as (a & b & ps & S & <- & <-).
  unfold parse_record_str in E. rewrite S in E. pose proof (C37_record c (trim a) (trim b)) as H. rewrite E in H. exact (H k v K R).
Qed.
Lemma lines_spec : forall lines c,
  match parse_lines parse_num c lines with
  | Done c' => exists recs, Forall2 (fun line r => assigns real line (fst r) (snd r)) lines recs /\ forall name, field c' name = last_of name recs (field c name)
  | Err => exists line, In line lines /\ forall name v, ~ assigns real line name v
  end.
Proof.
  induction lines as [|l lines IH]; intros c; cbn [parse_lines].
  - exists []. split; [constructor | reflexivity].
  - destruct (parse_record_str parse_num c l) as [c1|] eqn:E.
    + specialize (IH c1). destruct (parse_lines parse_num c1 lines) as [c'|].
      * destruct IH as (recs & F & L). destruct (assigns_iff _ _ _ E) as (name & v & A & B). exists ((name, v) :: recs). split; [constructor; assumption|].
        intros n. rewrite L. cbn [last_of fst snd]. rewrite B. reflexivity.
      * destruct IH as (line & I & N). exists line. split; [right; exact I | exact N].
    + exists l. split; [left; reflexivity | eapply assigns_err; exact E].
Qed.

(** A whole configuration: every line is an assignment, and every field has the value of the last assignment to it, or its documented default;
    if the result is an error, some line is not an assignment. *)
Theorem C37_lines : forall lines,
  match config_parse parse_num lines with
  | Done c => exists recs, Forall2 (fun line r => assigns real line (fst r) (snd r)) lines recs /\
                forall name, field c name = last_of name recs (lookup (defaults O) name)
  | Err => exists line, In line lines /\ forall name v, ~ assigns real line name v
  end.
Proof. intros. apply (lines_spec lines (config_new O)). Qed.

(** The assignments of the lines are determined by the text, so the error cases of the two theorems above are exactly the others. *)
Theorem C37_unique : forall line n1 v1 n2 v2, assigns real line n1 v1 -> assigns real line n2 v2 -> n1 = n2 /\ v1 = v2.
Proof.
  intros line n1 v1 n2 v2 (t1 & k1 & P1 & K1 & R1) (t2 & k2 & P2 & K2 & R2). apply line_parts_iff in P1, P2.
  destruct P1 as (a & b & ps & S & <- & <-), P2 as (a2 & b2 & ps2 & S2 & <- & <-). rewrite S in S2. injection S2 as <- <- <-.
  split; [reflexivity|]. rewrite K1 in K2. injection K2 as <-. eapply reads_unique; eassumption.
Qed.
(** The fields make up the configuration: two configurations with the same fields are equal. *)
Theorem C37_fields : forall (c d : config O), (forall name, field c name = field d name) -> c = d.
Proof.
  intros c d H. destruct c, d.
  pose proof (H "train") as E_train; unfold field, fields in E_train; cbn in E_train.
  pose proof (H "test") as E_test; unfold field, fields in E_test; cbn in E_test.
  pose proof (H "objective") as E_objective; unfold field, fields in E_objective; cbn in E_objective.
  pose proof (H "metrics") as E_metrics; unfold field, fields in E_metrics; cbn in E_metrics.
  pose proof (H "metric_frequency") as E_metric_frequency; unfold field, fields in E_metric_frequency; cbn in E_metric_frequency.
  pose proof (H "csv_has_header") as E_csv_has_header; unfold field, fields in E_csv_has_header; cbn in E_csv_has_header.
  pose proof (H "csv_delimiter") as E_csv_delimiter; unfold field, fields in E_csv_delimiter; cbn in E_csv_delimiter.
  pose proof (H "categorical_features") as E_categorical_features; unfold field, fields in E_categorical_features; cbn in E_categorical_features.
  pose proof (H "niterations") as E_niterations; unfold field, fields in E_niterations; cbn in E_niterations.
  pose proof (H "learning_rate") as E_learning_rate; unfold field, fields in E_learning_rate; cbn in E_learning_rate.
  pose proof (H "reg_lambda") as E_reg_lambda; unfold field, fields in E_reg_lambda; cbn in E_reg_lambda.
  pose proof (H "min_examples_leaf") as E_min_examples_leaf; unfold field, fields in E_min_examples_leaf; cbn in E_min_examples_leaf.
  pose proof (H "min_gain") as E_min_gain; unfold field, fields in E_min_gain; cbn in E_min_gain.
  pose proof (H "huber_alpha") as E_huber_alpha; unfold field, fields in E_huber_alpha; cbn in E_huber_alpha.
  pose proof (H "max_nbins") as E_max_nbins; unfold field, fields in E_max_nbins; cbn in E_max_nbins.
  pose proof (H "discr_nbits") as E_discr_nbits; unfold field, fields in E_discr_nbits; cbn in E_discr_nbits.
  pose proof (H "max_tree_depth") as E_max_tree_depth; unfold field, fields in E_max_tree_depth; cbn in E_max_tree_depth.
  pose proof (H "compression_threshold") as E_compression_threshold; unfold field, fields in E_compression_threshold; cbn in E_compression_threshold.
  pose proof (H "binary_gradient_bound") as E_binary_gradient_bound; unfold field, fields in E_binary_gradient_bound; cbn in E_binary_gradient_bound.
  pose proof (H "random_seed") as E_random_seed; unfold field, fields in E_random_seed; cbn in E_random_seed.
  pose proof (H "feature_fraction") as E_feature_fraction; unfold field, fields in E_feature_fraction; cbn in E_feature_fraction.
  pose proof (H "example_fraction") as E_example_fraction; unfold field, fields in E_example_fraction; cbn in E_example_fraction.
  pose proof (H "sample_freq") as E_sample_freq; unfold field, fields in E_sample_freq; cbn in E_sample_freq.
  assert (M : forall l m, map N.of_nat l = map N.of_nat m -> l = m).
  { induction l; destruct m; cbn; intros Q; try discriminate; [reflexivity|]. injection Q as Q1 Q2. f_equal; [lia | auto]. }
  assert (Sm : forall (x y : value O), Some x = Some y -> x = y) by congruence.
  repeat match goal with Q : Some _ = Some _ |- _ => apply Sm in Q end.
  repeat match goal with Q : VUInt (N.of_nat _) = VUInt (N.of_nat _) |- _ => injection Q as Q; apply Nat2N.inj in Q
                       | Q : VUInts _ = VUInts _ |- _ => injection Q as Q; apply M in Q
                       | Q : VUInt _ = VUInt _ |- _ => injection Q as Q | Q : VText _ = VText _ |- _ => injection Q as Q
                       | Q : VTexts _ = VTexts _ |- _ => injection Q as Q | Q : VBool _ = VBool _ |- _ => injection Q as Q
                       | Q : VReal _ = VReal _ |- _ => injection Q as Q end.
  subst. reflexivity.
Qed.
End Record.

(** Removing the white space around a text. *)
Theorem C37_trim : forall s t, trimmed s t <-> trim s = t.
Proof. exact trimmed_iff. Qed.

(** * Printing *)
Lemma digits_app : forall ds s ds' t, digits ds s -> digits ds' t -> digits (ds ++ ds')%list (s ++ t).
Proof.
  intros ds s ds' t (F & ->) (F' & ->). split; [apply Forall_app; auto|]. clear. induction ds; cbn; [reflexivity | rewrite IHds; reflexivity].
Qed.
Lemma show_digits_spec : forall fuel n acc, (n < 2 ^ N.of_nat (S fuel))%N ->
  exists ds s, ds <> [] /\ digits ds s /\ show_digits (S fuel) n acc = s ++ acc /\ decimal ds = n.
Proof.
  induction fuel; intros n acc L; cbn [show_digits].
  - change (2 ^ N.of_nat 1)%N with 2%N in L. rewrite (N.div_small n 10), N.eqb_refl, (N.mod_small n 10) by lia.
    exists [n], (String (ascii_of_N (48 + n)) ""). split; [discriminate|]. split; [split; [repeat constructor; lia | reflexivity]|]. split; [reflexivity|].
    unfold decimal; cbn; lia.
  - pose proof (N.div_mod n 10 ltac:(lia)) as D. pose proof (N.mod_lt n 10 ltac:(lia)) as R. destruct (n / 10 =? 0)%N eqn:Z.
    + apply N.eqb_eq in Z. exists [(n mod 10)%N], (String (ascii_of_N (48 + n mod 10)) "").
      split; [discriminate|]. split; [split; [repeat constructor; lia | reflexivity]|]. split; [reflexivity|]. unfold decimal; cbn; lia.
    + destruct (IHfuel (n / 10)%N (String (ascii_of_N (48 + n mod 10)) acc)) as (ds & s & Nd & Ds & E & V).
      { rewrite Nat2N.inj_succ, N.pow_succ_r' in L. lia. }
      exists (ds ++ [(n mod 10)%N])%list, (s ++ String (ascii_of_N (48 + n mod 10)) ""). split; [destruct ds; discriminate|].
      split; [apply digits_app; [exact Ds | split; [repeat constructor; lia | reflexivity]]|].
      split; [change (show_digits (S fuel) (n / 10) (String (ascii_of_N (48 + n mod 10)) acc) = (s ++ String (ascii_of_N (48 + n mod 10)) "") ++ acc); rewrite E, app_assoc; reflexivity|].
      unfold decimal in V |- *. rewrite fold_left_app, V. cbn. lia.
Qed.
Lemma show_numeral : forall n, exists ds, ds <> [] /\ digits ds (show_N n) /\ decimal ds = n.
Proof.
  intros n. unfold show_N. destruct (show_digits_spec (N.to_nat (N.log2 n)) n "") as (ds & s & N0 & D & E & V).
  { rewrite Nat2N.inj_succ, N2Nat.id. destruct n as [|p]; [reflexivity | apply N.log2_spec; lia]. }
  rewrite E, app_nil. eauto.
Qed.
(** An unsigned integer that fits its type is read back from its decimal form. *)
Theorem C37_print_uint : forall bound n, (n < bound)%N -> numeral bound (show_N n) n.
Proof. intros b n L. destruct (show_numeral n) as (ds & A & B & C). exists ds, (show_N n). split; [exact A|]. split; [exact B|]. split; [left; reflexivity|]. split; [congruence | exact L]. Qed.

Fixpoint all_digits (s : string) : bool := match s with EmptyString => true | String c t => match digit c with Some _ => all_digits t | None => false end end.
Lemma digits_all : forall ds s, digits ds s -> all_digits s = true.
Proof.
  intros ds s (F & ->). induction F; cbn; [reflexivity|]. rewrite (proj2 (digit_spec _ x)); [exact IHF | auto].
Qed.
Lemma all_digits_app : forall a b, all_digits (a ++ b) = true -> all_digits a = true /\ all_digits b = true.
Proof. induction a; cbn; [auto|]. intros b. destruct (digit a); [apply IHa | discriminate]. Qed.
Lemma white_digits : forall w, white w -> all_digits w = false.
Proof.
  intros w H. apply white_table in H. assert (F : forallb (fun w => negb (all_digits w)) ws_table = true) by (vm_compute; reflexivity).
  rewrite forallb_forall in F. apply Bool.negb_true_iff, F, H.
Qed.
Lemma trimmed_digits : forall s, all_digits s = true -> trimmed s s.
Proof.
  intros s A. exists "", "". rewrite app_nil. split; [reflexivity|]. split; [constructor|]. split; [constructor|].
  split; intros w r W ->; apply all_digits_app in A; rewrite (white_digits w W) in A; destruct A; discriminate.
Qed.
Lemma digits_comma : forall s, all_digits s = true -> without "," s.
Proof.
  induction s; cbn; [auto|]. destruct (digit a) eqn:D; [|discriminate]. intros A. split; [|auto]. intros ->. vm_compute in D. discriminate.
Qed.
Lemma concat_empty : forall (l : list string), String.concat "," l = "" -> l = [] \/ l = [""].
Proof. destruct l as [|a [|b l]]; cbn; intros E; [auto | subst; auto | destruct a; discriminate]. Qed.
Lemma concat_separated : forall l, l <> [] -> Forall (without ",") l -> separated l (String.concat "," l).
Proof. intros l N F. split; [exact N | split; [reflexivity | exact F]]. Qed.

(** A list of unsigned integers is read back from what the Python wrapper makes of it. *)
Theorem C37_print_uints : forall (O : numops) (real : string -> num O -> Prop) bound l, Forall (fun n => n < bound)%N l ->
  reads real (KUInts bound) (join show_N l) (VUInts l).
Proof.
  intros O real bound l F. unfold join. destruct l as [|n l]; [constructor|].
  assert (D : Forall (fun s => all_digits s = true) (map show_N (n :: l))).
  { apply Forall_forall. intros s I. apply in_map_iff in I. destruct I as (m & <- & _). destruct (show_numeral m) as (ds & _ & X & _). eapply digits_all; exact X. }
  apply reads_uints with (parts := map show_N (n :: l)).
  - intros E. apply concat_empty in E. destruct E as [E|E]; [discriminate|]. injection E as E _. destruct (show_numeral n) as (ds & Nd & (_ & X) & _).
    rewrite E in X. destruct ds; [contradiction | discriminate].
  - apply concat_separated; [discriminate|]. eapply Forall_impl; [|exact D]. intros; apply digits_comma; assumption.
  - clear - F D. induction F; cbn [map] in *; [constructor|]. inversion D; subst. constructor; [|apply IHF; assumption].
    exists (show_N x). split; [apply trimmed_digits; assumption | apply C37_print_uint; assumption].
Qed.
(** So is a list of texts without commas and without white space around them, if it is not the list of one empty text. *)
Theorem C37_print_texts : forall (O : numops) (real : string -> num O -> Prop) l, Forall (fun s => without "," s /\ trimmed s s) l -> l <> [""] ->
  reads real KTexts (join (fun s => s) l) (VTexts l).
Proof.
  intros O real l F N. unfold join. rewrite map_id. destruct l as [|s l]; [constructor|]. apply reads_texts with (parts := s :: l).
  - intros E. apply concat_empty in E. destruct E; [discriminate | contradiction].
  - apply concat_separated; [discriminate|]. eapply Forall_impl; [|exact F]. intros u Hu; apply Hu.
  - clear N. induction F as [|u us Hu F IH]; constructor; [apply Hu | apply IH].
Qed.

(** * What does not hold *)
(** The text after a second equals sign is lost: the value of [train = a=b] is [a], not [a=b]. *)
Theorem C37_equals_refuted : forall (O : numops) parse_num a b, without "=" a -> trimmed a a ->
  exists c, config_parse (O := O) parse_num ["train=" ++ a ++ "=" ++ b] = Done c /\ field c "train" = Some (VText a).
Proof.
  intros O parse_num a b W T. apply trimmed_iff in T. exists (set_train a (config_new O)). split; [|reflexivity].
  unfold config_parse. cbn [parse_lines]. unfold parse_record_str. change ("train=" ++ a ++ "=" ++ b) with ("train" ++ String "=" (a ++ String "=" b)).
  rewrite split_app by (cbn; repeat split; discriminate). rewrite split_app by exact W.
  rewrite T. replace (trim "train") with "train" by (vm_compute; reflexivity). reflexivity.
Qed.
(** What [write_doc_csv] (and Python's [str]) prints for a Boolean is never accepted as one. *)
Theorem C37_bool_refuted : forall b (O : numops) (real : string -> num O -> Prop) v, ~ reads real KBool (show_bool b) v.
Proof. intros [] O real v H; inversion H. Qed.
(** What it prints for a text is read as another text: with quotation marks. *)
Theorem C37_text_refuted : forall s (O : numops) (real : string -> num O -> Prop) v, reads real KText (show_text s) v -> v <> VText s.
Proof.
  intros s O real v H E. assert (X : v = VText (show_text s)) by (inversion H; reflexivity). rewrite E in X. injection X as X. apply (f_equal String.length) in X. unfold show_text in X.
  cbn in X. rewrite app_length in X. cbn in X. lia.
Qed.
(** What it prints for a list of integers is never accepted. *)
Lemma blank_bracket : forall s, ~ blank (String "[" s).
Proof.
  intros s H. remember (String "[" s) as u eqn:E. destruct H as [|w r W _]; [discriminate|]. apply white_table in W.
  assert (F : forallb (fun w => match w with String c _ => negb (Ascii.eqb c "[") | _ => false end) ws_table = true) by (vm_compute; reflexivity).
  rewrite forallb_forall in F. specialize (F w W). destruct w as [|c w]; [discriminate|]. cbn in E. injection E as -> _. discriminate.
Qed.
Theorem C37_list_refuted : forall l (O : numops) (real : string -> num O -> Prop) bound v, ~ reads real (KUInts bound) (show_list show_N l) v.
Proof.
  intros l O real bound v H. unfold show_list in H. set (x := String.concat "," (map show_N l) ++ "]") in H. cbn [append] in H. inversion H as [| | | | | | | |? ? parts l0 Ne Se Fa]; subst.
  apply separated_iff in Se. destruct (split_nonempty "," x) as (p & ps & E). cbn [split_on] in Se. rewrite E in Se. cbn in Se. subst parts.
  inversion Fa as [|? n0 ? ns Hd Tl]; subst. destruct Hd as (t & (a & b & Ea & Ba & Bb & _) & ds & u & Nd & Du & X & _).
  destruct a as [|c a]; [|injection Ea as <- _; exact (blank_bracket _ Ba)].
  destruct t as [|c t]; [cbn in Ea; rewrite <- Ea in Bb; exact (blank_bracket _ Bb)|].
  cbn in Ea. injection Ea as <- _. destruct X as [<-|X]; [|discriminate]. apply digits_all in Du. discriminate.
Qed.
(** What it prints for the empty list of texts is read as a list of one text. *)
Theorem C37_texts_refuted : forall (O : numops) (real : string -> num O -> Prop), reads real KTexts (show_list show_text []) (VTexts ["[]"]).
Proof.
  intros. apply reads_texts with (parts := ["[]"]); [discriminate | split; [discriminate | split; [reflexivity | repeat constructor; discriminate]]|].
  repeat constructor. apply trimmed_iff. vm_compute; reflexivity.
Qed.

(** * Examples *)
(** A parser of a few numbers, and a configuration. *)
Definition some_num (s : string) : option (num f32ops) := if String.eqb s "0.5" then Some (ndiv f32ops (nofZ f32ops 1) (nofZ f32ops 2)) else None.
Example C37_lines_ex : match config_parse some_num [" niterations = 10 "; "metrics=l2, rmse"; "niterations=+0020"; "csv_has_header = false"; "categorical_features=1,2 ,3"; "learning_rate=0.5"] with
  | Done c => field c "niterations" = Some (VUInt 20) /\ field c "metrics" = Some (VTexts ["l2"; "rmse"]) /\ field c "csv_has_header" = Some (VBool false) /\
              field c "categorical_features" = Some (VUInts [1; 2; 3]%N) /\ field c "max_nbins" = Some (VUInt 16)
  | Err => False end.
Proof. repeat split; vm_compute; reflexivity. Qed.
Example C37_errors_ex : map (fun l => match parse_record_str some_num (config_new f32ops) l with Done _ => true | Err => false end)
  ["niterations"; "niteration=3"; "niterations=-1"; "niterations=1.0"; "csv_delimiter=256"; "csv_delimiter=,"; "csv_has_header=True"; "categorical_features=1,,2"; "random_seed=18446744073709551616"; "=1"; "";
   "csv_delimiter=255"; "random_seed=18446744073709551615"; "metrics="; "categorical_features="; "train = x y "]
  = [false; false; false; false; false; false; false; false; false; false; false; true; true; true; true; true].
Proof. vm_compute; reflexivity. Qed.
Example C37_print_ex : show_N 18446744073709551615 = "18446744073709551615" /\ join show_N [0; 10; 205]%N = "0,10,205".
Proof. vm_compute; auto. Qed.
Example C37_texts_ex : Forall (fun s => without "," s /\ trimmed s s) ["l2"; "binary_error"] /\ ["l2"; "binary_error"] <> [""].
Proof. split; [|discriminate]. repeat constructor; try discriminate; apply trimmed_iff; vm_compute; reflexivity. Qed.
Example C37_equals_ex : without "=" "data.csv" /\ trimmed "data.csv" "data.csv".
Proof. split; [repeat split; discriminate | apply trimmed_iff; vm_compute; reflexivity]. Qed.

Print Assumptions C37_record. Print Assumptions C37_lines. Print Assumptions C37_unique. Print Assumptions C37_fields. Print Assumptions C37_trim.
Print Assumptions C37_print_uint. Print Assumptions C37_print_uints. Print Assumptions C37_print_texts. Print Assumptions C37_equals_refuted.
Print Assumptions C37_bool_refuted. Print Assumptions C37_text_refuted. Print Assumptions C37_list_refuted. Print Assumptions C37_texts_refuted.
