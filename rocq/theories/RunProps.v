(** The command line tool (C54). *)
From Coq Require Import String Permutation.
From Verif Require Import Base BaseProofs Num F32 DataModel DataSpec DataProofs2 DataProps Config ConfigModel ConfigSpec ConfigProps TreeModel TreeProofs2 TreeProps DatasetModel DatasetSpec DatasetProps LearnerModel LearnerProps
  ObjectiveModel ObjectiveProps MetricModel MetricProps BoostModel BoostSpec BoostProofs BoostProps PredSpec PredProofs PredProps CapiModel RunModel RunSpec RunProofs SafeSpec SafeProofs SafeProofs2 SafeProofs3 SafeProps.
Local Open Scope nat_scope. Local Open Scope list_scope.

Section Run.
Variable M : mathops f32ops.
Variable parse_num : string -> option (num f32ops).
Variable dbg : bool.

Section Files.
Variable read : string -> bool -> N -> option (list csv_item).
Variable g : rng.
Variable sched : nat -> nat -> list job -> list job.
Notation real := (real f32ops parse_num).
Notation run := (run M parse_num dbg read g sched).
Notation parse := (parse parse_num read).
Notation single_tree := (single_tree M dbg g sched).
Notation boosting c d kind ms := (boost_run M dbg c d sched kind ms g).

(* ---- inversion ---- *)
Definition test_loaded (c : config f32ops) (te : option (data f32ops)) : Prop :=
  match te with None => c_test c = ""%string | Some d => c_test c <> ""%string /\ from_csv_path read c (c_test c) = Ok (Done d) end.
Lemma parse_done args c tr te kind ms : parse args = Ok (Done (c, tr, te, kind, ms)) <->
  config_parse parse_num args = Done c /\ objective_from_name (c_objective c) = Some kind /\ metrics_from_names (c_metrics c) = Some ms /\ from_csv_path read c (c_train c) = Ok (Done tr) /\ test_loaded c te.
Proof.
  unfold RunModel.parse. destruct (config_parse parse_num args) as [c0|]; cbn [rtry]; [|split; [discriminate|intros (H & _); discriminate]].
  split.
  - intros E. destruct (objective_from_name (c_objective c0)) as [k|] eqn:Ek; cbn [ok_or rtry] in E; [|discriminate]. destruct (metrics_from_names (c_metrics c0)) as [ms0|] eqn:Em; cbn [ok_or rtry] in E; [|discriminate].
    apply rbind_ok in E as (r & El & E). destruct r as [[tr0 te0]|]; cbn [rtry] in E; [|discriminate]. cbn [fst snd] in E.
    assert (c0 = c /\ tr0 = tr /\ te0 = te /\ k = kind /\ ms0 = ms) as (<- & <- & <- & <- & <-) by (injection E; auto). clear E.
    unfold load_data in El. apply rbind_ok in El as (rt & Et & El). apply rbind_ok in El as (rs & Es & El). destruct rt as [tr1|]; cbn [rtry] in El; [|discriminate].
    do 3 (split; [auto|]). destruct (String.eqb_spec (c_test c0) "") as [Ee|Ee].
    + injection Es as <-. assert (tr1 = tr0 /\ None = te0) as [<- <-] by (injection El; auto). split; assumption.
    + apply rbind_ok in Es as (r2 & E2 & Es). injection Es as <-. destruct r2 as [d2|]; cbn [rtry] in El; [|discriminate]. assert (tr1 = tr0 /\ Some d2 = te0) as [<- <-] by (injection El; auto). split; [exact Et|]. split; assumption.
  - intros (Ec & Ek & Em & Et & Es). assert (c0 = c) as -> by congruence. rewrite Ek, Em. cbn [ok_or rtry]. unfold load_data. rewrite Et. cbn [rbind]. destruct te as [d|]; cbn [test_loaded] in Es.
    + destruct Es as [Hn Es]. rewrite (proj2 (String.eqb_neq _ _) Hn), Es. reflexivity.
    + rewrite Es, String.eqb_refl. reflexivity.
Qed.

Lemma done_inj A (x y : A) : Ok (Done x) = Ok (Done y) -> x = y. Proof. congruence. Qed.

Inductive served (cmd : string) (rest : list string) (out : output) : Prop :=
  | served_tree : forall c tr te kind ms t, cmd = "tree"%string -> parse rest = Ok (Done (c, tr, te, kind, ms)) -> single_tree c tr kind = Ok t -> summary M (tree_predict t) [] tr te ms = Ok out -> served cmd rest out
  | served_boost : forall c tr te kind ms b, cmd = "boost"%string -> parse rest = Ok (Done (c, tr, te, kind, ms)) -> boosting c tr kind ms (c_niterations c) = Ok b ->
      summary M (additive_predict (bs_ensemble b)) (bs_evals b) tr te ms = Ok out -> served cmd rest out
  | served_raw : forall c tr te kind ms b ptr pte, cmd = "boost_and_predict_raw"%string -> parse rest = Ok (Done (c, tr, te, kind, ms)) -> boosting c tr kind ms (c_niterations c) = Ok b ->
      additive_predict (bs_ensemble b) tr = Ok ptr -> omapM (additive_predict (bs_ensemble b)) te = Ok pte -> out = Raw (bs_evals b) ptr pte -> served cmd rest out.

Lemma boost_done c tr te kind ms rest model evals : parse rest = Ok (Done (c, tr, te, kind, ms)) -> boost M dbg g sched c tr kind = Ok (Done (model, evals)) ->
  exists b, boosting c tr kind ms (c_niterations c) = Ok b /\ model = bs_ensemble b /\ evals = bs_evals b.
Proof.
  intros Ep E. apply parse_done in Ep as (_ & _ & Em & _). unfold boost in E. rewrite Em in E. cbn [ok_or rtry] in E. apply rbind_ok in E as (b & Eb & E). apply done_inj in E. exists b. split; [exact Eb|].
  split; [exact (f_equal fst (eq_sym E))|exact (f_equal snd (eq_sym E))].
Qed.
Lemma run_done cmd rest out : run (cmd :: rest) = Ok (Done out) -> served cmd rest out.
Proof.
  unfold RunModel.run. destruct (String.eqb_spec cmd "tree") as [->|N1]; [|destruct (String.eqb_spec cmd "boost") as [->|N2]; [|destruct (String.eqb_spec cmd "boost_and_predict_raw") as [->|N3]; [|discriminate]]].
  - intros E. apply rbind_ok in E as ([[[[[c tr] te] kind] ms]|] & Ep & E); cbn [rtry] in E; [|discriminate]. apply rbind_ok in E as (t & Et & E). apply rbind_ok in E as (o & Eo & E). apply done_inj in E as ->.
    eapply served_tree; eauto.
  - intros E. apply rbind_ok in E as ([[[[[c tr] te] kind] ms]|] & Ep & E); cbn [rtry] in E; [|discriminate]. apply rbind_ok in E as ([[model evals]|] & Eb & E); cbn [rtry] in E; [|discriminate].
    apply rbind_ok in E as (o & Eo & E). apply done_inj in E as ->. destruct (boost_done _ _ _ _ _ _ _ _ Ep Eb) as (b & Eb' & -> & ->). eapply served_boost; eauto.
  - intros E. apply rbind_ok in E as ([[[[[c tr] te] kind] ms]|] & Ep & E); cbn [rtry] in E; [|discriminate]. apply rbind_ok in E as ([[model evals]|] & Eb & E); cbn [rtry] in E; [|discriminate].
    apply rbind_ok in E as (ptr & E1 & E). apply rbind_ok in E as (pte & E2 & E). apply done_inj in E as <-. destruct (boost_done _ _ _ _ _ _ _ _ Ep Eb) as (b & Eb' & -> & ->). eapply served_raw; eauto.
Qed.
Lemma boost_not_err c tr te kind ms rest : parse rest = Ok (Done (c, tr, te, kind, ms)) -> boost M dbg g sched c tr kind <> Ok Err.
Proof.
  intros Ep E. apply parse_done in Ep as (_ & _ & Em & _). unfold boost in E. rewrite Em in E. cbn [ok_or rtry] in E. apply rbind_ok in E as (b & Eb & E). discriminate.
Qed.
Lemma run_err cmd rest : In cmd commands -> run (cmd :: rest) = Ok Err <-> parse rest = Ok Err.
Proof.
  intros Hc. destruct (parse rest) as [[[[[[c tr] te] kind] ms]|]| | |] eqn:Ep.
  2-5: destruct Hc as [<-|[<-|[<-|[]]]]; unfold RunModel.run; cbn [String.eqb Ascii.eqb Bool.eqb]; rewrite Ep; cbn [rbind rtry]; split; congruence.
  split; [|discriminate]. intros E. exfalso. destruct Hc as [<-|[<-|[<-|[]]]]; unfold RunModel.run in E; cbn [String.eqb Ascii.eqb Bool.eqb] in E; rewrite Ep in E; cbn [rbind rtry] in E.
  - apply rbind_ok in E as (? & _ & E). apply rbind_ok in E as (? & _ & E). discriminate.
  - apply rbind_ok in E as ([[model evals]|] & Eb & E); cbn [rtry] in E; [|exact (boost_not_err _ _ _ _ _ _ Ep Eb)]. apply rbind_ok in E as (? & _ & E). discriminate.
  - apply rbind_ok in E as ([[model evals]|] & Eb & E); cbn [rtry] in E; [|exact (boost_not_err _ _ _ _ _ _ Ep Eb)]. apply rbind_ok in E as (? & _ & E). apply rbind_ok in E as (? & _ & E). discriminate.
Qed.
Lemma settings_iff args c : settings real args c <-> config_parse parse_num args = Done c.
Proof.
  pose proof (C37_lines f32ops parse_num args) as H. split.
  - intros (recs & F & L). destruct (config_parse parse_num args) as [c'|].
    + destruct H as (recs' & F' & L'). f_equal. symmetry. apply (C37_fields f32ops parse_num). intros name. refine (eq_trans (L name) (eq_trans _ (eq_sym (L' name)))). f_equal. clear -F F'. revert recs' F'. induction F as [|line [n v] lines recs A F IH]; intros recs' F'; inversion F' as [|? [n' v'] ? recs2 A' F2]; subst; [reflexivity|].
      destruct (C37_unique f32ops parse_num _ _ _ _ _ A A') as [Hn Hv]. cbn [fst snd] in Hn, Hv. subst n' v'. f_equal. apply IH. exact F2.
    + destruct H as (line & Hin & Hno). exfalso. apply (RunProofs.Forall2_in_l _ _ _ _ _ _ F) in Hin as (r & _ & Hr). exact (Hno _ _ Hr).
  - intros E. rewrite E in H. exact H.
Qed.
Lemma names_iff c : (exists ms, metrics_from_names (c_metrics c) = Some ms) <-> Forall (fun n => exists m, In (lowercase n) (metric_names m)) (@c_metrics f32ops c).
Proof.
  generalize (c_metrics c). intros l. split.
  - intros (ms & E). apply C39_names_list in E. induction E as [|n m l ms A F IH]; constructor; eauto.
  - intros H. enough (exists ms, Forall2 (fun n m => In (lowercase n) (metric_names m)) l ms) as (ms & F) by (exists ms; apply C39_names_list; exact F).
    induction H as [|n l (m & A) F (ms & IH)]; [exists []; constructor|exists (m :: ms); constructor; assumption].
Qed.
Lemma path_cases c path : proper_files read ->
  (good_file read c path /\ exists d, from_csv_path read c path = Ok (Done d)) \/ (~ good_file read c path /\ from_csv_path read c path = Ok Err).
Proof.
  intros HP. unfold from_csv_path, good_file. destruct (read path (c_csv_has_header c) (c_csv_delimiter c)) as [items|] eqn:E.
  - destruct (HP _ _ _ _ E) as [P1 P2]. destruct (from_csv_cases (dcfg c) items P1 P2) as [A B].
    destruct (from_csv (dcfg c) items) as [[d|]| | |] eqn:Ef.
    + left. split; [|eauto]. exists items. split; [reflexivity|]. apply from_csv_done in Ef as (Ha & _). exact Ha.
    + right. split; [|reflexivity]. intros (items' & X & Ha). injection X as <-. destruct (A Ha) as (d & X). discriminate.
    + exfalso. destruct (from_csv_decided (dcfg c) _ P1 P2) as [(d & X)|X]; rewrite X in Ef; discriminate.
    + exfalso. destruct (from_csv_decided (dcfg c) _ P1 P2) as [(d & X)|X]; rewrite X in Ef; discriminate.
    + exfalso. destruct (from_csv_decided (dcfg c) _ P1 P2) as [(d & X)|X]; rewrite X in Ef; discriminate.
  - right. split; [|reflexivity]. intros (items & X & _). discriminate.
Qed.

(** A request that cannot be served gives an error before anything is trained, and only such a request does: the command, an assignment, the name of the objective or of a metric, or a file is not acceptable. *)
Theorem C54_error : proper_files read -> forall args, run args = Ok Err <-> ~ exists c, valid_request real read args c.
Proof.
  intros HP args. destruct args as [|cmd rest].
  { split; [|reflexivity]. intros _ (c & ? & ? & H & _). discriminate. }
  destruct (in_dec String.string_dec cmd commands) as [Hc|Hc].
  2:{ split.
    - intros _ (c & cmd' & rest' & E & Hin & _). injection E as <- <-. contradiction.
    - intros _. unfold RunModel.run. cbn [commands In] in Hc. destruct (String.eqb_spec cmd "tree") as [->|]; [tauto|]. destruct (String.eqb_spec cmd "boost") as [->|]; [tauto|]. destruct (String.eqb_spec cmd "boost_and_predict_raw") as [->|]; [tauto|]. reflexivity. }
  rewrite (run_err cmd rest Hc). split.
  - intros E (c & cmd' & rest' & X & _ & Hs & (k & Hk) & Hm & Hf & Ht). injection X as <- <-. apply settings_iff in Hs. apply C40_names in Hk. apply names_iff in Hm as (ms & Hm).
    destruct (path_cases c (c_train c) HP) as [(_ & tr & E1)|(X & _)]; [|contradiction].
    assert (exists te, test_loaded c te) as (te & E2).
    { destruct (String.string_dec (c_test c) "") as [Ee|Ee]; [exists None; exact Ee|]. destruct (path_cases c (c_test c) HP) as [(_ & d & E2)|(X & _)]; [|elim X; apply Ht, Ee]. exists (Some d). split; assumption. }
    assert (parse rest = Ok (Done (c, tr, te, k, ms))) as X by (apply parse_done; auto). rewrite X in E. discriminate.
  - intros HN. assert (parse rest = Ok Err \/ exists x, parse rest = Ok (Done x)) as [E|([[[[c tr] te] kind] ms] & E)]; [|exact E|].
    + unfold RunModel.parse. destruct (config_parse parse_num rest) as [c|]; cbn [rtry]; [|auto]. destruct (objective_from_name (c_objective c)); cbn [ok_or rtry]; [|auto]. destruct (metrics_from_names (c_metrics c)); cbn [ok_or rtry]; [|auto].
      unfold load_data. destruct (path_cases c (c_train c) HP) as [(_ & tr & ->)|(_ & ->)]; cbn [rbind].
      * destruct (String.eqb (c_test c) ""); cbn [rbind rtry]; [right; eauto|]. destruct (path_cases c (c_test c) HP) as [(_ & te & ->)|(_ & ->)]; cbn [rbind rtry]; eauto.
      * destruct (String.eqb (c_test c) ""); cbn [rbind rtry]; [auto|]. destruct (path_cases c (c_test c) HP) as [(_ & te & ->)|(_ & ->)]; cbn [rbind rtry]; auto.
    + exfalso. apply HN. apply parse_done in E as (Ec & Ek & Em & Et & Es). exists c, cmd, rest. split; [reflexivity|]. split; [exact Hc|]. split; [apply settings_iff, Ec|]. split; [exists kind; apply C40_names, Ek|].
      split; [apply names_iff; eauto|]. split.
      * destruct (path_cases c (c_train c) HP) as [(X & _)|(_ & X)]; [exact X|]. rewrite X in Et. discriminate.
      * intros Hne. destruct te as [d|]; cbn [test_loaded] in Es; [|contradiction]. destruct Es as [_ Es]. destruct (path_cases c (c_test c) HP) as [(X & _)|(_ & X)]; [exact X|]. rewrite X in Es. discriminate.
Qed.

(* ---- what is reported ---- *)
Lemma path_table c path d : from_csv_path read c path = Ok (Done d) -> table_of read c path d.
Proof.
  unfold from_csv_path, table_of. destruct (read path (c_csv_has_header c) (c_csv_delimiter c)) as [items|]; [|discriminate]. intros E. exists items. split; [reflexivity|]. apply from_csv_done in E. exact E.
Qed.
Lemma table_target c path d : table_of read c path d -> exists target, get_target d = Ok target /\ length target = d_nexamples d.
Proof.
  intros (items & _ & _ & N & A & B & C). unfold get_target, get_feature. destruct (nth_error (d_features d) (d_nfeatures d)) as [col|] eqn:E; [|apply nth_error_None in E; lia]. exists col. split; [apply idx_ok, E|].
  specialize (C _ _ E). rewrite N. exact (Forall2_len _ _ _ _ _ C).
Qed.
Lemma table_columns c path d nf : table_of read c path d -> nf <= S (d_nfeatures d) -> has_columns nf d.
Proof.
  intros (items & _ & _ & N & A & B & C) Hle. split; [lia|]. split; [lia|]. intros col Hin. apply In_nth_error in Hin as (j & Hj). specialize (C _ _ Hj). rewrite N. exact (Forall2_len _ _ _ _ _ C).
Qed.
Lemma table_rows c path d : table_of read c path d -> 0 < d_nexamples d.
Proof. intros (items & _ & Ha & N & _). rewrite N. destruct items; [destruct Ha as [H _]; cbn in H; lia|cbn; lia]. Qed.

Lemma summary_done model evals tr te ms out target : get_target tr = Ok target -> match te with Some d => exists t2, get_target d = Ok t2 | None => True end -> summary M model evals tr te ms = Ok out ->
  exists ptr, model tr = Ok ptr /\
  match te with
  | None => out = Summary evals (map (fun m => (metric_eval M m target ptr, None)) ms)
  | Some d => exists t2 p2, get_target d = Ok t2 /\ model d = Ok p2 /\ out = Summary evals (map (fun m => (metric_eval M m target ptr, Some (metric_eval M m t2 p2))) ms)
  end.
Proof.
  intros Et Es E. unfold summary in E. apply rbind_ok in E as (ptr & E1 & E). exists ptr. split; [exact E1|]. apply rbind_ok in E as (tp & E2 & E). apply rbind_ok in E as (final & E3 & E).
  assert (out = Summary evals final) as -> by congruence. clear E. destruct te as [d|]; cbn [omapM] in E2.
  - apply rbind_ok in E2 as (tp' & E2 & X). apply rbind_ok in E2 as (p2 & E2 & Y). assert (tp = Some (d, p2)) as -> by congruence. clear X Y. destruct Es as (t2 & Es). exists t2, p2. split; [exact Es|]. split; [exact E2|]. f_equal.
    apply mapM_ok in E3. cbn [omapM fst snd] in E3. rewrite Et, Es in E3. cbn [rbind] in E3. clear -E3. induction E3 as [|m r ms rs H F IH]; [reflexivity|]. cbn [map]. rewrite <- IH. f_equal. exact (eq_sym (Ok_inj _ _ H)).
  - assert (tp = None) as -> by congruence. f_equal. apply mapM_ok in E3. cbn [omapM] in E3. rewrite Et in E3. cbn [rbind] in E3. clear -E3. induction E3 as [|m r ms rs H F IH]; [reflexivity|]. cbn [map]. rewrite <- IH. f_equal. exact (eq_sym (Ok_inj _ _ H)).
Qed.

Lemma predict_and_len (t : tree f32ops) d f buf ps : predict_and t d f buf = Ok ps -> length ps = d_nexamples d.
Proof.
  unfold predict_and. intros E. apply rbind_ok in E as (u & A & E). apply rassert_ok, Nat.eqb_eq in A. rewrite <- A. clear A. revert buf E. induction (seq 0 (d_nexamples d)) as [|i l IH]; intros buf E; cbn [foldM] in E; [congruence|].
  apply rbind_ok in E as (b1 & E1 & E). rewrite (IH _ E). apply rbind_ok in E1 as (p & _ & E1). apply rbind_ok in E1 as (x & _ & E1). apply set_idx_ok in E1 as (_ & ->). apply upd_length.
Qed.
Lemma tree_predict_len (t : tree f32ops) d ps : tree_predict t d = Ok ps -> length ps = d_nexamples d.
Proof. apply predict_and_len. Qed.
Lemma additive_predict_len (m : additive_tree f32ops) d ps : additive_predict m d = Ok ps -> length ps = d_nexamples d.
Proof.
  unfold additive_predict, additive_predict_buf. rewrite map_const_repeat. assert (length (repeat (at_bias m) (d_nexamples d)) = d_nexamples d) as L by apply repeat_length. revert L. generalize (repeat (at_bias m) (d_nexamples d)).
  induction (at_trees m) as [|t ts IH]; intros buf L E; cbn [foldM] in E; [congruence|]. apply rbind_ok in E as (b1 & E1 & E). eapply IH; [|exact E]. eapply predict_and_len, E1.
Qed.

(** What a request reports: its settings and files are as requested, the model is trained on the training file with these settings ("tree": one tree; otherwise: boosting), and the reported values are
    the metrics of (raw: the predictions of) that model on the training file and, if there is one, on the test file, each compared with its own last column. *)
Theorem C54_reports : forall cmd rest out, run (cmd :: rest) = Ok (Done out) ->
  exists c tr te kind ms model target ptr, In cmd commands /\ settings real rest c /\ lowercase (c_objective c) = objective_name kind /\ Forall2 (fun n m => In (lowercase n) (metric_names m)) (c_metrics c) ms /\
    table_of read c (c_train c) tr /\ get_target tr = Ok target /\ model tr = Ok ptr /\ length ptr = d_nexamples tr /\
    (cmd = "tree"%string -> exists t, single_tree c tr kind = Ok t /\ fst (train_part out) = [] /\ model = tree_predict t) /\
    (cmd <> "tree"%string -> exists b, boosting c tr kind ms (c_niterations c) = Ok b /\ fst (train_part out) = bs_evals b /\ model = additive_predict (bs_ensemble b)) /\
    (cmd = "boost_and_predict_raw"%string -> snd (train_part out) = ptr) /\
    (cmd <> "boost_and_predict_raw"%string -> snd (train_part out) = map (fun m => metric_eval M m target ptr) ms) /\
    match te with
    | None => c_test c = ""%string /\ Forall (fun x => x = None) (test_part out)
    | Some d => c_test c <> ""%string /\ table_of read c (c_test c) d /\ exists t2 p2, get_target d = Ok t2 /\ model d = Ok p2 /\ length p2 = d_nexamples d /\
        (cmd = "boost_and_predict_raw"%string -> test_part out = map Some p2) /\ (cmd <> "boost_and_predict_raw"%string -> test_part out = map (fun m => Some (metric_eval M m t2 p2)) ms)
    end.
Proof.
  intros cmd rest out E. apply run_done in E.
  assert (forall c tr te kind ms, parse rest = Ok (Done (c, tr, te, kind, ms)) -> settings real rest c /\ lowercase (c_objective c) = objective_name kind /\ Forall2 (fun n m => In (lowercase n) (metric_names m)) (c_metrics c) ms /\
    table_of read c (c_train c) tr /\ match te with None => c_test c = ""%string | Some d => c_test c <> ""%string /\ table_of read c (c_test c) d end) as K.
  { intros c tr te kind ms Ep. apply parse_done in Ep as (A1 & A2 & A3 & A4 & A5). split; [apply settings_iff, A1|]. split; [apply C40_names, A2|]. split; [apply C39_names_list, A3|]. split; [apply path_table, A4|].
    destruct te; cbn [test_loaded] in A5; [|exact A5]. split; [apply A5|apply path_table, A5]. }
  destruct E as [c tr te kind ms t Hc Ep Et Eo|c tr te kind ms b Hc Ep Eb Eo|c tr te kind ms b ptr pte Hc Ep Eb E1 E2 Eo]; destruct (K _ _ _ _ _ Ep) as (A1 & A2 & A3 & A4 & A5); destruct (table_target _ _ _ A4) as (target & Etg & _).
  - assert (match te with Some d => exists t2, get_target d = Ok t2 | None => True end) as Hte. { destruct te; [|exact I]. destruct A5 as [_ A5]. destruct (table_target _ _ _ A5) as (t2 & X & _). eauto. }
    destruct (summary_done _ _ _ _ _ _ _ Etg Hte Eo) as (ptr & Ept & H). exists c, tr, te, kind, ms, (tree_predict t), target, ptr. split; [subst cmd; cbn; auto|].
    repeat (split; [first [assumption|eapply tree_predict_len; eassumption|idtac]|]).
    + intros _. exists t. split; [exact Et|]. split; [|reflexivity]. destruct te; [destruct H as (? & ? & _ & _ & ->)|rewrite H]; reflexivity.
    + intros X; contradiction.
    + intros X. rewrite X in Hc. discriminate.
    + intros _. destruct te; [destruct H as (? & ? & _ & _ & ->)|rewrite H]; cbn [train_part snd]; rewrite map_map; reflexivity.
    + destruct te as [d|].
      * destruct A5 as [A5 A6]. destruct H as (t2 & p2 & B1 & B2 & ->). split; [exact A5|]. split; [exact A6|]. exists t2, p2. split; [exact B1|]. split; [exact B2|]. split; [eapply tree_predict_len, B2|]. split; [intros X; rewrite X in Hc; discriminate|].
        intros _. cbn [test_part]. rewrite map_map. reflexivity.
      * split; [exact A5|]. rewrite H. cbn [test_part]. rewrite map_map. apply Forall_forall. intros x Hx. apply in_map_iff in Hx as (m & <- & _). reflexivity.
  - assert (match te with Some d => exists t2, get_target d = Ok t2 | None => True end) as Hte. { destruct te; [|exact I]. destruct A5 as [_ A5]. destruct (table_target _ _ _ A5) as (t2 & X & _). eauto. }
    destruct (summary_done _ _ _ _ _ _ _ Etg Hte Eo) as (ptr & Ept & H). exists c, tr, te, kind, ms, (additive_predict (bs_ensemble b)), target, ptr. split; [subst cmd; cbn; auto|].
    repeat (split; [first [assumption|eapply additive_predict_len; eassumption|idtac]|]).
    + intros X. rewrite X in Hc. discriminate.
    + intros _. exists b. split; [exact Eb|]. split; [|reflexivity]. destruct te; [destruct H as (? & ? & _ & _ & ->)|rewrite H]; reflexivity.
    + intros X. rewrite X in Hc. discriminate.
    + intros _. destruct te; [destruct H as (? & ? & _ & _ & ->)|rewrite H]; cbn [train_part snd]; rewrite map_map; reflexivity.
    + destruct te as [d|].
      * destruct A5 as [A5 A6]. destruct H as (t2 & p2 & B1 & B2 & ->). split; [exact A5|]. split; [exact A6|]. exists t2, p2. split; [exact B1|]. split; [exact B2|]. split; [eapply additive_predict_len, B2|]. split; [intros X; rewrite X in Hc; discriminate|].
        intros _. cbn [test_part]. rewrite map_map. reflexivity.
      * split; [exact A5|]. rewrite H. cbn [test_part]. rewrite map_map. apply Forall_forall. intros x Hx. apply in_map_iff in Hx as (m & <- & _). reflexivity.
  - exists c, tr, te, kind, ms, (additive_predict (bs_ensemble b)), target, ptr. split; [subst cmd; cbn; auto|].
    repeat (split; [first [assumption|eapply additive_predict_len; eassumption|idtac]|]).
    + intros X. rewrite X in Hc. discriminate.
    + intros _. exists b. split; [exact Eb|]. split; [rewrite Eo; reflexivity|reflexivity].
    + intros _. rewrite Eo. reflexivity.
    + intros X; contradiction.
    + destruct te as [d|]; cbn [omapM] in E2.
      * apply rbind_ok in E2 as (p2 & E2 & X). assert (pte = Some p2) as -> by congruence. destruct A5 as [A5 A6]. destruct (table_target _ _ _ A6) as (t2 & Et2 & _). split; [exact A5|]. split; [exact A6|]. exists t2, p2. split; [exact Et2|]. split; [exact E2|].
        split; [eapply additive_predict_len, E2|]. split; [intros _; rewrite Eo; reflexivity|contradiction].
      * split; [exact A5|]. assert (pte = None) as -> by congruence. rewrite Eo. constructor.
Qed.

(** No undefined behaviour and termination: for every request, if no file has more than 2^31 records. *)
Theorem C54_safe : any_order sched -> (forall path header delimiter items, read path header delimiter = Some items -> (N.of_nat (length items) <= 2 ^ 31)%N) -> forall args, safe (run args).
Proof.
  intros Hs Hf args. assert (forall c path, safe (from_csv_path read c path)) as S1. { intros. unfold from_csv_path. destruct (read _ _ _); [apply from_csv_safe|apply safe_Ok]. }
  assert (forall A B (m : result A) (k : A -> res (result B)), (forall a, m = Done a -> safe (k a)) -> safe (rtry m k)) as ST. { intros A B [a|] k H; [apply H; reflexivity|apply safe_Ok]. }
  assert (forall A B (f : A -> res B) o, (forall a, safe (f a)) -> safe (omapM f o)) as SO. { intros A B f [a|] H; [apply safe_bind; [apply H|intros; apply safe_Ok]|apply safe_Ok]. }
  assert (forall args, safe (parse args)) as SP.
  { intros args'. unfold RunModel.parse. apply ST. intros c _. apply ST. intros kind _. apply ST. intros ms _. apply safe_bind; [|intros r _; apply ST; intros; apply safe_Ok]. unfold load_data. apply safe_bind; [apply S1|]. intros r _.
    apply safe_bind; [destruct (String.eqb _ _); [apply safe_Ok|apply safe_bind; [apply S1|intros; apply safe_Ok]]|]. intros r2 _. apply ST. intros tr _. destruct r2 as [r2|]; [apply ST; intros; apply safe_Ok|apply safe_Ok]. }
  assert (forall model evals tr te ms, (forall d, safe (model d)) -> safe (summary M model evals tr te ms)) as SS.
  { intros model evals tr te ms Hm. unfold summary. apply safe_bind; [apply Hm|]. intros ptr _. apply safe_bind; [apply SO; intros d; apply safe_bind; [apply Hm|intros; apply safe_Ok]|]. intros tp _.
    apply safe_bind; [|intros; apply safe_Ok]. apply safe_mapM. intros m _. apply safe_bind; [apply safe_get_target|]. intros t _. apply safe_bind; [|intros; apply safe_Ok]. apply SO. intros x. apply safe_bind; [apply safe_get_target|intros; apply safe_Ok]. }
  assert (forall args c tr te kind ms, parse args = Ok (Done (c, tr, te, kind, ms)) -> forall target, get_target tr = Ok target -> (N.of_nat (length target) <= 2 ^ 31)%N) as HT.
  { intros args' c tr te kind ms Ep target Et. apply parse_done in Ep as (_ & _ & _ & A & _). apply path_table in A. destruct (table_target _ _ _ A) as (t' & Et' & L). assert (t' = target) as <- by (pose proof (eq_trans (eq_sym Et') Et) as X; injection X as X; exact X).
    rewrite L. destruct A as (items & R & _ & -> & _). eapply Hf, R. }
  assert (forall args c tr te kind ms, parse args = Ok (Done (c, tr, te, kind, ms)) -> safe (boost M dbg g sched c tr kind)) as SB.
  { intros args' c tr te kind ms Ep. unfold boost. apply ST. intros ms' _. assert (safe (boost_train M dbg c tr sched kind ms' g)) as H by (apply C50_train; [exact Hs|eapply HT, Ep]). unfold boost_train in H.
    destruct (boost_run M dbg c tr sched kind ms' g (c_niterations c)); cbn [rbind] in *; [apply safe_Ok|apply safe_Panic|exfalso; destruct H; congruence|exfalso; destruct H; congruence]. }
  destruct args as [|cmd rest]; [apply safe_Ok|]. unfold RunModel.run. destruct (String.eqb cmd "tree"); [|destruct (String.eqb cmd "boost"); [|destruct (String.eqb cmd "boost_and_predict_raw"); [|apply safe_Ok]]].
  - apply safe_bind; [apply SP|]. intros r Ep. apply ST. intros [[[[c tr] te] kind] ms] ->. apply safe_bind; [|intros t _; apply safe_bind; [apply SS; intros d; exact (safe_predict_and f32ops t d _ _)|intros; apply safe_Ok]].
    unfold RunModel.single_tree. apply safe_bind; [apply safe_get_target|]. intros target Et. apply safe_bind; [apply safe_obj_initialize|]. intros ob0 _. apply safe_bind; [apply safe_obj_update|]. intros ob Eob. apply safe_bind; [apply safe_dataset_new|]. intros s0 E0.
    apply safe_bind; [apply safe_dataset_update|]. intros s Es. apply safe_bind; [apply safe_hist_sizes|]. intros sizes Hsz. apply safe_bind; [|intros [t ob'] _; apply safe_Ok]. eapply train_safe.
    + exists g, [(ob_grads ob, obj_bounds ob)], s0. split; [exact E0|]. unfold ds_run. cbn [foldM fst snd]. rewrite Es. reflexivity.
    + exact Hsz.
    + intros k js. apply Hs.
    + rewrite (update_length _ _ _ _ _ Eob). eapply HT; [exact Ep|exact Et].
    + intros; apply safe_leaf_value.
    + intros; apply safe_oob.
  - apply safe_bind; [apply SP|]. intros r Ep. apply ST. intros [[[[c tr] te] kind] ms] ->. apply safe_bind; [eapply SB, Ep|]. intros r _. apply ST. intros [m e] _. apply safe_bind; [apply SS; intros d; exact (safe_additive_predict f32ops m d _)|intros; apply safe_Ok].
  - apply safe_bind; [apply SP|]. intros r Ep. apply ST. intros [[[[c tr] te] kind] ms] ->. apply safe_bind; [eapply SB, Ep|]. intros r _. apply ST. intros [m e] _. apply safe_bind; [exact (safe_additive_predict f32ops m tr _)|]. intros p1 _.
    apply safe_bind; [apply SO; intros d; exact (safe_additive_predict f32ops m d _)|intros; apply safe_Ok].
Qed.

(** A row gets the same prediction wherever it occurs: two rows, of the training or the test file, with the same values in the feature columns of the training file have the same prediction. *)
Theorem C54_rows : any_order sched -> (forall path header delimiter items, read path header delimiter = Some items -> (N.of_nat (length items) <= 2 ^ 31)%N) ->
  forall rest evals ptr pte, run ("boost_and_predict_raw"%string :: rest) = Ok (Done (Raw evals ptr pte)) ->
  exists c tr, settings real rest c /\ table_of read c (c_train c) tr /\ length ptr = d_nexamples tr /\
    (forall i j, i < length ptr -> j < length ptr -> same_row (d_nfeatures tr) tr i tr j -> nth_error ptr i = nth_error ptr j) /\
    forall p2, pte = Some p2 -> exists d, table_of read c (c_test c) d /\ length p2 = d_nexamples d /\
      (d_nfeatures tr <= S (d_nfeatures d) -> forall i j, i < length ptr -> j < length p2 -> same_row (d_nfeatures tr) tr i d j -> nth_error ptr i = nth_error p2 j).
Proof.
  intros Hs Hf rest evals ptr pte E. destruct (run_done _ _ _ E) as [? ? ? ? ? ? X|? ? ? ? ? ? X|c tr te kind ms b ptr' pte' _ Ep Eb E1 E2 Eo]; [discriminate X|discriminate X|].
  assert (evals = bs_evals b /\ ptr = ptr' /\ pte = pte') as (-> & -> & ->) by (split; [exact (f_equal (fun o => match o with Raw a _ _ => a | _ => [] end) Eo)|split; [exact (f_equal (fun o => match o with Raw _ a _ => a | _ => [] end) Eo)|exact (f_equal (fun o => match o with Raw _ _ a => a | _ => None end) Eo)]]).
  pose proof Ep as Ep'. apply parse_done in Ep' as (A1 & _ & _ & A4 & A5). pose proof (path_table _ _ _ A4) as T. exists c, tr. split; [apply settings_iff, A1|]. split; [exact T|]. pose proof (additive_predict_len _ _ _ E1) as L1. split; [exact L1|].
  destruct (table_target _ _ _ T) as (target & Et & Lt).
  assert (forall t, get_target tr = Ok t -> (N.of_nat (length t) <= 2 ^ 31)%N) as Htg.
  { intros t Et'. assert (target = t) as <- by (pose proof (eq_trans (eq_sym Et) Et') as X; injection X as X; exact X). rewrite Lt. destruct T as (items & R & _ & -> & _). eapply Hf, R. }
  assert (boost_train M dbg c tr sched kind ms g = Ok (bs_ensemble b)) as Hm by (unfold boost_train; rewrite Eb; reflexivity).
  pose proof (C51_row_only f32ops M dbg c tr sched kind ms g (bs_ensemble b) Hs (table_rows _ _ _ T) Htg Hm) as R.
  split.
  - intros i j Hi Hj HS. assert (has_columns (d_nfeatures tr) tr) as HC by (eapply table_columns; [exact T|lia]). eapply (R tr tr); try eassumption; rewrite <- L1; assumption.
  - intros p2 ->. destruct te as [d|]; cbn [omapM] in E2; [|discriminate]. apply rbind_ok in E2 as (p2' & E2 & X). assert (p2' = p2) as -> by congruence. destruct A5 as [_ A5]. pose proof (path_table _ _ _ A5) as T2. exists d. split; [exact T2|]. pose proof (additive_predict_len _ _ _ E2) as L2. split; [exact L2|].
    intros Hle i j Hi Hj HS. assert (has_columns (d_nfeatures tr) tr) as HC by (eapply table_columns; [exact T|lia]). assert (has_columns (d_nfeatures tr) d) as HC2 by (eapply table_columns; [exact T2|lia]).
    eapply (R tr d); try eassumption; [rewrite <- L1|rewrite <- L2]; assumption.
Qed.

(** If the test file has the same content as the training file, the test values are the training values. *)
Theorem C54_same_file : forall cmd rest c out, settings real rest c -> c_test c <> ""%string ->
  read (c_test c) (c_csv_has_header c) (c_csv_delimiter c) = read (c_train c) (c_csv_has_header c) (c_csv_delimiter c) -> run (cmd :: rest) = Ok (Done out) ->
  test_part out = map Some (snd (train_part out)).
Proof.
  intros cmd rest c out Hs Hne HR E. apply settings_iff in Hs. apply run_done in E.
  assert (forall c' tr te kind ms, parse rest = Ok (Done (c', tr, te, kind, ms)) -> te = Some tr /\ exists t, get_target tr = Ok t) as K.
  { intros c' tr te kind ms Ep. apply parse_done in Ep as (A1 & _ & _ & A4 & A5). assert (c' = c) as -> by congruence. split; [|destruct (table_target _ _ _ (path_table _ _ _ A4)) as (t & Et & _); eauto].
    destruct te as [d|]; cbn [test_loaded] in A5; [|contradiction]. destruct A5 as [_ A5]. unfold from_csv_path in A4, A5. rewrite HR in A5. rewrite A4 in A5. apply done_inj in A5. congruence. }
  destruct E as [c' tr te kind ms t Hc Ep Et Eo|c' tr te kind ms b Hc Ep Eb Eo|c' tr te kind ms b ptr pte Hc Ep Eb E1 E2 Eo]; destruct (K _ _ _ _ _ Ep) as (-> & target & Etg).
  - destruct (summary_done _ _ _ (Some tr) _ _ _ Etg (ex_intro _ target Etg) Eo) as (ptr & Ept & t2 & p2 & B1 & B2 & ->). assert (t2 = target) as -> by exact (Ok_inj _ _ (eq_trans (eq_sym B1) Etg)). assert (p2 = ptr) as -> by exact (Ok_inj _ _ (eq_trans (eq_sym B2) Ept)).
    cbn [test_part train_part snd]. rewrite !map_map. reflexivity.
  - destruct (summary_done _ _ _ (Some tr) _ _ _ Etg (ex_intro _ target Etg) Eo) as (ptr & Ept & t2 & p2 & B1 & B2 & ->). assert (t2 = target) as -> by exact (Ok_inj _ _ (eq_trans (eq_sym B1) Etg)). assert (p2 = ptr) as -> by exact (Ok_inj _ _ (eq_trans (eq_sym B2) Ept)).
    cbn [test_part train_part snd]. rewrite !map_map. reflexivity.
  - cbn [omapM] in E2. apply rbind_ok in E2 as (p2 & E2 & X). assert (p2 = ptr) as -> by exact (Ok_inj _ _ (eq_trans (eq_sym E2) E1)). assert (pte = Some ptr) as -> by congruence. rewrite Eo. reflexivity.
Qed.

(** Training one tree is one round of boosting: one succeeds if the other does, the tree is the tree of the ensemble with the ensemble's bias, ... *)
Lemma single_boost c d kind ms t : single_tree c d kind = Ok t ->
  exists b t1, boosting c d kind ms 1 = Ok b /\ at_trees (bs_ensemble b) = [t1] /\ t = set_tree_bias t1 (at_bias (bs_ensemble b)).
Proof.
  intros E. unfold RunModel.single_tree in E. apply rbind_ok in E as (target & Et & E). apply rbind_ok in E as (ob0 & E0 & E). apply rbind_ok in E as (ob & Eu & E). apply rbind_ok in E as (s0 & Es0 & E). apply rbind_ok in E as (s & Es & E).
  apply rbind_ok in E as (sizes & Esz & E). apply rbind_ok in E as ([t1 ob'] & Etr & E). apply Ok_inj in E.
  unfold boost_run, boost_start. rewrite Es0. cbn [rbind]. rewrite Et. cbn [rbind]. rewrite E0. cbn [rbind]. rewrite Esz. cbn [rbind seq foldM]. unfold train_one_iter. rewrite Et. cbn [rbind bs_iter bs_objective bs_dataset]. rewrite Eu. cbn [rbind]. rewrite Es. cbn [rbind].
  rewrite Etr. cbn [rbind]. eexists. exists t1. split; [reflexivity|]. cbn [bs_ensemble push_tree at_trees at_bias additive_set_bias additive_new app]. split; [reflexivity|]. rewrite <- E, (train_bias _ _ _ _ _ _ _ _ _ _ _ _ _ Etr), (update_bias _ _ _ _ _ Eu). reflexivity.
Qed.
Lemma boost_single c d kind ms b : boosting c d kind ms 1 = Ok b -> exists t, single_tree c d kind = Ok t.
Proof.
  intros E. unfold boost_run, boost_start in E. apply rbind_ok in E as (b0 & E0 & E). apply rbind_ok in E0 as (s0 & Es0 & E0). apply rbind_ok in E0 as (target & Et & E0). apply rbind_ok in E0 as (ob0 & Ei & E0). apply Ok_inj in E0. apply rbind_ok in E as (sizes & Esz & E).
  cbn [seq foldM] in E. apply rbind_ok in E as (b1 & E & _). unfold train_one_iter in E. rewrite Et in E. cbn [rbind] in E. rewrite <- E0 in E. cbn [bs_iter bs_objective bs_dataset] in E. apply rbind_ok in E as (ob & Eu & E). apply rbind_ok in E as (s & Es & E).
  apply rbind_ok in E as ([t1 ob'] & Etr & E). exists (set_tree_bias t1 (ob_bias ob')). unfold RunModel.single_tree. rewrite Et. cbn [rbind]. rewrite Ei. cbn [rbind]. rewrite Eu. cbn [rbind]. rewrite Es0. cbn [rbind]. rewrite Es. cbn [rbind]. rewrite Esz. cbn [rbind].
  rewrite Etr. reflexivity.
Qed.
(** ... and both predict the same numbers, for all data with enough columns. *)
Theorem C54_tree : any_order sched -> forall c d kind ms, 0 < d_nexamples d -> (forall target, get_target d = Ok target -> (N.of_nat (length target) <= 2 ^ 31)%N) ->
  ((exists t, single_tree c d kind = Ok t) <-> exists b, boosting c d kind ms 1 = Ok b) /\
  forall t b, single_tree c d kind = Ok t -> boosting c d kind ms 1 = Ok b ->
    (exists t1, at_trees (bs_ensemble b) = [t1] /\ t = set_tree_bias t1 (at_bias (bs_ensemble b))) /\
    forall d2, has_columns (d_nfeatures d) d2 -> exists ps qs, tree_predict t d2 = Ok ps /\ additive_predict (bs_ensemble b) d2 = Ok qs /\ length ps = d_nexamples d2 /\ Forall2 same_number ps qs.
Proof.
  intros Hs c d kind ms Hn Ht. split; [split|].
  - intros (t & E). destruct (single_boost _ _ _ ms _ E) as (b & _ & Eb & _). eauto.
  - intros (b & E). eapply boost_single, E.
  - intros t b Et Eb. destruct (single_boost _ _ _ ms _ Et) as (b' & t1 & Eb' & E1 & E2). assert (b' = b) as -> by exact (Ok_inj _ _ (eq_trans (eq_sym Eb') Eb)). split; [eauto|].
    intros d2 HC. destruct (boost_fit _ _ _ _ _ _ Hs Hn Ht _ _ _ _ _ Eb) as [_ HF]. rewrite E1 in HF. apply Forall_inv in HF.
    assert (forall i, i < d_nexamples d2 -> exists v : f32, predict_single t d2 i = Ok (f_mul (f_of_Z 1) (f_add v (at_bias (bs_ensemble b)))) /\ predict_single t1 d2 i = Ok (f_mul (f_of_Z 1) (f_add v (f_of_Z 0)))) as K.
    { intros i Hi. destruct (fit_predicts _ _ _ _ _ i HF HC Hi) as (leaf & v & _ & Hl & Hv & Hx). exists v. split; [|exact Hx]. rewrite E2. unfold predict_single. rewrite leaf_id_bias, Hl. cbn [rbind set_tree_bias t_values t_shrinkage t_bias]. unfold node_value in Hv. rewrite Hv. cbn [rbind].
      destruct HF as (_ & -> & _). reflexivity. }
    destruct (predict_and_ok f32ops t d2 (fun p _ => p) (repeat (nofZ f32ops 0) (d_nexamples d2)) (repeat_length _ _)) as (ps & Ep & Lp & Hp); [intros i Hi; destruct (K i Hi) as (v & X & _); eauto|].
    destruct (C42_sum f32ops (bs_ensemble b) d2) as (qs & Eq & Lq & Hq); [rewrite E1; intros t' i [<-|[]] Hi; destruct (K i Hi) as (v & _ & X); eauto|].
    rewrite repeat_length in Lp. exists ps, qs. split; [exact Ep|]. split; [exact Eq|]. split; [exact Lp|]. apply forall2_nth; [exact (eq_trans Lp (eq_sym Lq))|]. intros i x y Hx Hy.
    assert (i < d_nexamples d2) as Hi by (rewrite <- Lp; apply nth_error_Some; intros X; pose proof (eq_trans (eq_sym X) Hx); discriminate). destruct (K i Hi) as (v & X1 & X2).
    pose proof (Hp i _ _ X1 (nth_error_repeat _ Hi)) as P1. assert (mapM (fun t => predict_single t d2 i) (at_trees (bs_ensemble b)) = Ok [f_mul (f_of_Z 1) (f_add v (f_of_Z 0)) : num f32ops]) as Q by (rewrite E1; cbn [mapM]; rewrite X2; reflexivity).
    pose proof (Hq i _ Hi Q) as P2. cbn [fold_left] in P2.
    assert (x = f_mul (f_of_Z 1) (f_add v (at_bias (bs_ensemble b)))) as -> by (pose proof (eq_trans (eq_sym Hx) P1) as Z0; injection Z0 as Z0; exact Z0).
    assert (y = f_add (at_bias (bs_ensemble b)) (f_mul (f_of_Z 1) (f_add v (f_of_Z 0)))) as -> by (pose proof (eq_trans (eq_sym Hy) P2) as Z0; injection Z0 as Z0; exact Z0).
    rewrite f_one_mul, f_add_comm. apply same_number_add; [left; reflexivity|apply same_number_leaf].
Qed.
End Files.

(** The training results do not depend on the test file: two requests with the same settings except "test", and the same training file, report the same about the training data. *)
Theorem C54_no_leak : forall read read' g sched cmd rest rest' c c' out out', settings (real f32ops parse_num) rest c -> settings (real f32ops parse_num) rest' c' ->
  (forall name, name <> "test"%string -> field c name = field c' name) -> read (c_train c) (c_csv_has_header c) (c_csv_delimiter c) = read' (c_train c) (c_csv_has_header c) (c_csv_delimiter c) ->
  run M parse_num dbg read g sched (cmd :: rest) = Ok (Done out) -> run M parse_num dbg read' g sched (cmd :: rest') = Ok (Done out') -> train_part out = train_part out'.
Proof.
  intros read read' g sched cmd rest rest' c c' out out' Hs Hs' Hc HR E E'. apply settings_iff in Hs, Hs'.
  assert (c' = set_test (c_test c') c) as Hcc.
  { apply (C37_fields f32ops parse_num). intros name. destruct (String.string_dec name "test") as [->|N]; [reflexivity|]. rewrite <- (Hc name N). unfold field, fields. cbn [lookup]. rewrite (proj2 (String.eqb_neq "test" name)) by congruence. reflexivity. }
  apply run_done in E, E'.
  assert (forall tr te kind ms tr' te' kind' ms' c1 c1', parse parse_num read rest = Ok (Done (c1, tr, te, kind, ms)) -> parse parse_num read' rest' = Ok (Done (c1', tr', te', kind', ms')) ->
    c1 = c /\ c1' = c' /\ tr' = tr /\ kind' = kind /\ ms' = ms /\ (exists t, get_target tr = Ok t) /\ match te with Some d => exists t, get_target d = Ok t | None => True end /\ match te' with Some d => exists t, get_target d = Ok t | None => True end) as K.
  { intros tr te kind ms tr' te' kind' ms' c1 c1' Ep Ep'. apply parse_done in Ep as (A1 & A2 & A3 & A4 & A5), Ep' as (B1 & B2 & B3 & B4 & B5). assert (c1 = c) as -> by congruence. assert (c1' = c') as -> by congruence.
    split; [reflexivity|]. split; [reflexivity|]. rewrite Hcc in B2, B3, B4. split.
    { unfold from_csv_path in A4, B4. change (c_train (set_test (c_test c') c)) with (c_train c) in B4. change (c_csv_has_header (set_test (c_test c') c)) with (c_csv_has_header c) in B4. change (c_csv_delimiter (set_test (c_test c') c)) with (c_csv_delimiter c) in B4.
      change (dcfg (set_test (c_test c') c)) with (dcfg c) in B4. rewrite <- HR in B4. rewrite A4 in B4. apply done_inj in B4. congruence. }
    split; [change (c_objective (set_test (c_test c') c)) with (c_objective c) in B2; congruence|]. split; [change (c_metrics (set_test (c_test c') c)) with (c_metrics c) in B3; congruence|].
    split; [|split].
    - destruct (table_target _ _ _ _ (path_table _ _ _ _ A4)) as (t & X & _). eauto.
    - destruct te as [d|]; [|exact I]. destruct A5 as [_ A5]. destruct (table_target _ _ _ _ (path_table _ _ _ _ A5)) as (t & X & _). eauto.
    - destruct te' as [d|]; [|exact I]. destruct B5 as [_ B5]. destruct (table_target _ _ _ _ (path_table _ _ _ _ B5)) as (t & X & _). eauto. }
  assert (forall model evals tr te te' ms o o' target, get_target tr = Ok target -> match te with Some d => exists t, get_target d = Ok t | None => True end -> match te' with Some d => exists t, get_target d = Ok t | None => True end ->
    summary M model evals tr te ms = Ok o -> summary M model evals tr te' ms = Ok o' -> train_part o = train_part o') as S.
  { intros model evals tr te te' ms o o' target Et H1 H2 F1 F2. destruct (summary_done model evals tr te ms o target Et H1 F1) as (p & P & X). destruct (summary_done model evals tr te' ms o' target Et H2 F2) as (p' & P' & X'). assert (p' = p) as -> by exact (Ok_inj _ _ (eq_trans (eq_sym P') P)).
    assert (train_part o = (evals, map (fun m => metric_eval M m target p) ms)) as -> by (destruct te; [destruct X as (? & ? & _ & _ & ->)|rewrite X]; cbn [train_part]; rewrite map_map; reflexivity).
    destruct te'; [destruct X' as (? & ? & _ & _ & ->)|rewrite X']; cbn [train_part]; rewrite map_map; reflexivity. }
  destruct E as [c1 tr te kind ms t Hn Ep Et Eo|c1 tr te kind ms b Hn Ep Eb Eo|c1 tr te kind ms b ptr pte Hn Ep Eb E1 E2 Eo];
  destruct E' as [c1' tr' te' kind' ms' t' Hn' Ep' Et' Eo'|c1' tr' te' kind' ms' b' Hn' Ep' Eb' Eo'|c1' tr' te' kind' ms' b' ptr' pte' Hn' Ep' Eb' E1' E2' Eo']; try congruence;
  destruct (K _ _ _ _ _ _ _ _ _ _ Ep Ep') as (-> & -> & -> & -> & -> & (target & Etg) & G1 & G2).
  - assert (t' = t) as -> by (rewrite Hcc in Et'; exact (Ok_inj _ _ (eq_trans (eq_sym Et') Et))). exact (S _ _ _ _ _ _ _ _ _ Etg G1 G2 Eo Eo').
  - assert (b' = b) as -> by (rewrite Hcc in Eb'; exact (Ok_inj _ _ (eq_trans (eq_sym Eb') Eb))). exact (S _ _ _ _ _ _ _ _ _ Etg G1 G2 Eo Eo').
  - assert (b' = b) as -> by (rewrite Hcc in Eb'; exact (Ok_inj _ _ (eq_trans (eq_sym Eb') Eb))). assert (ptr' = ptr) as -> by exact (Ok_inj _ _ (eq_trans (eq_sym E1') E1)). rewrite Eo, Eo'. reflexivity.
Qed.
End Run.
Print Assumptions C54_error. Print Assumptions C54_reports. Print Assumptions C54_safe. Print Assumptions C54_rows. Print Assumptions C54_same_file. Print Assumptions C54_tree. Print Assumptions C54_no_leak.

(** * Example: a training file with six records of two categorical columns and the target, and a test file with two *)
Definition ex_record (a b t : Z) : csv_item := CsvRecord [Some (fz a); Some (fz b); Some (fz t)].
Definition ex_files (path : string) (header : bool) (delimiter : N) : option (list csv_item) :=
  if String.eqb path "train.csv" then Some [ex_record 0 1 1; ex_record 1 0 2; ex_record 2 1 4; ex_record 0 0 1; ex_record 1 1 3; ex_record 2 0 4]
  else if String.eqb path "test.csv" then Some [ex_record 1 0 9; ex_record 0 1 9] else if String.eqb path "bad.csv" then Some [CsvRecord [Some (fz 1); None]] else None.
Definition ex_args : list string := ["train=train.csv"; "test = test.csv"; "objective=L2"; "metrics=l2,rmse"; "categorical_features=0,1"; "niterations=2"; "min_examples_leaf=1"; "max_tree_depth=2"]%string.
Definition ex_run (cmd : string) (args : list string) : res (result output) := run bst_math (fun _ => None) true ex_files ex_rng bst_sched (cmd :: args).
Definition ex_raw (r : res (result output)) : bool :=
  match r with Ok (Done (Raw evals p (Some q))) => (length evals =? 2) && (length p =? 6) && num_eqb q [nth 1 p f_nan; nth 0 p f_nan] && negb (num_eqb q [nth 0 p f_nan; nth 1 p f_nan]) | _ => false end.
Definition ex_summary (r : res (result output)) : bool := match r with Ok (Done (Summary _ final)) => (length final =? 2) && forallb (fun x => match snd x with Some y => negb (f_eq (fst x) y) | None => false end) final | _ => false end.
Definition ex_same (r : res (result output)) : bool := match r with Ok (Done (Summary _ final)) => (length final =? 2) && forallb (fun x => match snd x with Some y => f_eq (fst x) y | None => false end) final | _ => false end.
Definition is_err (r : res (result output)) : bool := match r with Ok Err => true | _ => false end.
Example C54_ex : proper_files ex_files /\ any_order bst_sched /\ (forall path header delimiter items, ex_files path header delimiter = Some items -> (N.of_nat (length items) <= 2 ^ 31)%N) /\
  ex_raw (ex_run "boost_and_predict_raw" ex_args) = true /\ ex_summary (ex_run "tree" ex_args) = true /\ ex_summary (ex_run "boost" ex_args) = true /\ ex_same (ex_run "boost" (ex_args ++ ["test=train.csv"%string])) = true /\
  map is_err [ex_run "predict" ex_args; ex_run "tree" (ex_args ++ ["train=bad.csv"%string]); ex_run "tree" (ex_args ++ ["test=none.csv"%string]); ex_run "boost" (ex_args ++ ["metrics=l3"%string]); ex_run "boost" (ex_args ++ ["objective"%string])] = [true; true; true; true; true].
Proof.
  split; [|split; [intros i k js; apply rev_sched_perm|split; [|split; [|split; [|split; [|split]]]; vm_compute; reflexivity]]].
  - intros path header delimiter items E. unfold ex_files in E. destruct (String.eqb path "train.csv"); [|destruct (String.eqb path "test.csv"); [|destruct (String.eqb path "bad.csv"); [|discriminate]]];
      assert (exists fields rest, items = CsvRecord fields :: rest /\ fields <> []) as (fields & rest & -> & Hf) by (eexists; eexists; split; [exact (eq_sym (f_equal (fun o => match o with Some x => x | None => [] end) E))|discriminate]);
      (split; [discriminate|]); intros fields' rest' X; assert (fields = fields') as <- by exact (f_equal (fun l => match l with CsvRecord f :: _ => f | _ => [] end) X); exact Hf.
  - intros path header delimiter items E. unfold ex_files in E. destruct (String.eqb path "train.csv"); [|destruct (String.eqb path "test.csv"); [|destruct (String.eqb path "bad.csv"); [|discriminate]]];
      assert (length items <= 6) as L by (rewrite <- (f_equal (fun o => match o with Some x => length x | None => 0 end) E); cbn; lia); lia.
Qed.
