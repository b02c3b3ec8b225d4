(** C72: copies of columns change nothing. *)
From Coq Require Import Reals Lra Permutation.
From Verif Require Import Base BaseProofs BitModel Num F32 F32Proofs DataModel DataSpec DataProofs DataProofs2 DataProps Config TreeModel DatasetModel DatasetSpec LearnerModel LearnerSpec ObjectiveModel MetricModel BoostModel BoostSpec TreeProps DatasetProps LearnerProps BoostProofs BoostProps
  ColSpec ColProps WideSpec WideProofs4 WideProofs5 WideProps DupSpec DupProofs4.
Local Open Scope nat_scope.

(** Two trainings without feature sampling (example sampling is allowed), with the same settings, objective, metrics and random draws, on tables that differ in copies of columns, wherever they are: if the first one succeeds so does the second
    one, its state has the same running predictions and the same reported metric values, and its model is the first one's with the features renumbered: no split is on a copy.  The two models predict the same.  For every order of the jobs in
    both, and in every arithmetic whose [<] is a strict order. *)
Theorem C72_run : forall O (M : mathops O) dbg (cfg : config O) p q d d' sched sched' kind metrics g k b,
  (forall x, nlt O x x = false) -> (forall x y z, nlt O x y = true -> nlt O y z = true -> nlt O x z = true) ->
  duplicated p q d d' -> all_features cfg d' -> any_order sched -> any_order sched' ->
  boost_run M dbg cfg d sched kind metrics g k = Ok b ->
  exists b', boost_run M dbg cfg d' sched' kind metrics g k = Ok b' /\ ob_preds (bs_objective b') = ob_preds (bs_objective b) /\ bs_evals b' = bs_evals b /\ widened_model p (d_nfeatures d) (bs_ensemble b) (bs_ensemble b') /\
    forall D D', wider p D D' -> d_nfeatures D = d_nfeatures d -> additive_predict (bs_ensemble b') D' = additive_predict (bs_ensemble b) D.
Proof.
  intros O M dbg cfg p q d d' sched sched' kind metrics g k b Hirr Htr HD HA HS HS' E. destruct (qrun O M dbg cfg p q d d' HD HA Hirr Htr sched sched' HS HS' kind metrics g k b E) as (b' & E' & H).
  exists b'. split; [exact E'|]. split; [rewrite (qb_ob _ _ _ _ _ _ _ H); reflexivity|]. split; [apply H|]. split; [split; [apply H|apply widened_of, H]|].
  intros D D' HW En. destruct H as [_ _ _ _ Hb Ht]. destruct (bs_ensemble b) as [b0 ts], (bs_ensemble b') as [b0' ts']. cbn [at_bias at_trees] in *. subst b0'. apply (wadditive O p (d_nfeatures d) D D' HW En ts ts' b0 Ht).
Qed.
Print Assumptions C72_run.

(** The same for the model a user gets, in the arithmetic of the program and in exact arithmetic. *)
Lemma dup_model O (M : mathops O) dbg (cfg : config O) p q d d' sched sched' kind metrics g m :
  (forall x, nlt O x x = false) -> (forall x y z, nlt O x y = true -> nlt O y z = true -> nlt O x z = true) ->
  duplicated p q d d' -> all_features cfg d' -> any_order sched -> any_order sched' -> boost_train M dbg cfg d sched kind metrics g = Ok m ->
  exists m', boost_train M dbg cfg d' sched' kind metrics g = Ok m' /\ widened_model p (d_nfeatures d) m m' /\ forall D D', wider p D D' -> d_nfeatures D = d_nfeatures d -> additive_predict m' D' = additive_predict m D.
Proof.
  intros Hirr Htr HD HA HS HS' E. unfold boost_train in E. apply rbind_ok in E as (b & E & Em). apply Ok_inj in Em. subst m.
  destruct (C72_run O M dbg cfg p q d d' sched sched' kind metrics g _ b Hirr Htr HD HA HS HS' E) as (b' & E' & _ & _ & HM & HP). exists (bs_ensemble b'). unfold boost_train. rewrite E'. split; [reflexivity|]. split; [exact HM|exact HP].
Qed.
Theorem C72_model : forall (M : mathops f32ops) dbg (cfg : config f32ops) p q d d' sched sched' kind metrics g m, duplicated p q d d' -> all_features cfg d' -> any_order sched -> any_order sched' ->
  boost_train M dbg cfg d sched kind metrics g = Ok m ->
  exists m', boost_train M dbg cfg d' sched' kind metrics g = Ok m' /\ widened_model p (d_nfeatures d) m m' /\
    forall D D', wider p D D' -> d_nfeatures D = d_nfeatures d -> additive_predict m' D' = additive_predict m D.
Proof. intros M dbg cfg p q d d' sched sched' kind metrics g m. apply (dup_model f32ops M dbg cfg p q d d' sched sched' kind metrics g m); [exact f_lt_irr|exact f_lt_trans]. Qed.
Print Assumptions C72_model.
Theorem C72_model_R : forall (M : mathops Rops) dbg (cfg : config Rops) p q d d' sched sched' kind metrics g m, duplicated p q d d' -> all_features cfg d' -> any_order sched -> any_order sched' ->
  boost_train M dbg cfg d sched kind metrics g = Ok m ->
  exists m', boost_train M dbg cfg d' sched' kind metrics g = Ok m' /\ widened_model p (d_nfeatures d) m m' /\
    forall D D', wider p D D' -> d_nfeatures D = d_nfeatures d -> additive_predict m' D' = additive_predict m D.
Proof. intros M dbg cfg p q d d' sched sched' kind metrics g m. apply (dup_model Rops M dbg cfg p q d d' sched sched' kind metrics g m); [exact R_lt_irr|exact R_lt_trans]. Qed.
Print Assumptions C72_model_R.

(** Loaded from CSV files, columns that repeat the values of an earlier column are such copies. *)
Theorem C72_csv : forall p q cfg cfg' items items' d d', from_csv cfg items = Ok (Done d) -> from_csv cfg' items' = Ok (Done d') -> copied_csv p q cfg cfg' items items' -> duplicated p q d d'.
Proof.
  intros p q cfg cfg' items items' d d' E E' (Hm & Hr & HL & HB & Hqp & Htar & HG). pose proof (C35_columns _ _ _ E) as (_ & _ & HC). pose proof (C35_columns _ _ _ E') as (_ & _ & HC').
  rewrite from_csv_spec in E, E'. destruct (all_ok cfg items); [|discriminate]. destruct (Nat.ltb_spec 0 (columns_of items)) as [Hn|]; [|discriminate]. injection E as <-. destruct (all_ok cfg' items'); [|discriminate]. destruct (Nat.ltb_spec 0 (columns_of items')) as [Hn'|]; [|discriminate]. injection E' as <-.
  change (d_nfeatures (csv_data cfg items)) with (columns_of items - 1) in *. change (d_nfeatures (csv_data cfg' items')) with (columns_of items' - 1) in *.
  assert (forall g, g < columns_of items' - 1 -> map (fun it => val_of it g) items' = map (fun it => val_of it (q g)) items) as Hv.
  { intros g Hg. destruct (HG g Hg) as (Hq & _ & Hcol & _). destruct (HC (q g) ltac:(lia)) as (vs & lo & hi & c & ft & Hc & _). rewrite <- (column_val _ _ _ Hc), <- (column_val _ _ _ (Hcol vs Hc)). reflexivity. }
  assert (forall g, g < columns_of items' - 1 -> fts_of cfg' g = fts_of cfg (q g)) as Hft.
  { intros g Hg. destruct (HG g Hg) as (_ & _ & _ & Hcat). pose proof (cat_fts cfg (q g)) as C1. pose proof (cat_fts cfg' g) as C2. unfold cat, fts_of in *. destruct (existsb (Nat.eqb (q g)) _), (existsb (Nat.eqb g) _); cbn [is_locard] in *; try reflexivity; exfalso; intuition discriminate. }
  split; [|split; [exact HB|split; [|split; [exact Hqp|]]]].
  - split; [exact Hm|]. split; [exact Hr|]. split; [exact HL|]. split; [unfold csv_data; cbn [d_features d_nfeatures st_of cs_features]; rewrite map_length, seq_length; lia|]. split; [unfold csv_data; cbn [d_features d_nfeatures st_of cs_features]; rewrite map_length, seq_length; lia|]. split.
    + intros f Hf. change (d_nfeatures (csv_data cfg items)) with (columns_of items - 1) in Hf. pose proof (Hr f Hf). rewrite (proj1 (csv_cols cfg' items' (p f) ltac:(lia))), (proj1 (csv_cols cfg items f ltac:(lia))). f_equal. rewrite (Hv (p f)), (Hqp f) by assumption. reflexivity.
    + unfold csv_data. cbn [d_features d_nexamples st_of cs_features]. intros col [Hc|Hc]; apply in_map_iff in Hc as (j & <- & _); rewrite map_length; [reflexivity|exact HL].
  - unfold get_target. change (d_nfeatures (csv_data cfg items)) with (columns_of items - 1). change (d_nfeatures (csv_data cfg' items')) with (columns_of items' - 1).
    rewrite (proj1 (csv_cols cfg' items' (columns_of items' - 1) ltac:(lia))), (proj1 (csv_cols cfg items (columns_of items - 1) ltac:(lia))). f_equal. destruct (HC (columns_of items - 1) ltac:(lia)) as (vs & lo & hi & c & ft & Hc & _). rewrite <- (column_val _ _ _ Hc), <- (column_val _ _ _ (Htar vs Hc)). reflexivity.
  - intros g Hg. change (d_nfeatures (csv_data cfg' items')) with (columns_of items' - 1) in Hg. destruct (HG g Hg) as (Hq & Hle & _). change (d_nfeatures (csv_data cfg items)) with (columns_of items - 1). split; [exact Hq|]. split; [exact Hle|].
    destruct (csv_cols cfg' items' g ltac:(lia)) as (-> & -> & -> & ->). destruct (csv_cols cfg items (q g) ltac:(lia)) as (-> & -> & -> & ->). rewrite (Hv g Hg), (Hft g Hg), HB. auto.
Qed.
Print Assumptions C72_csv.
Definition csv_one : list csv_item := [CsvRecord [Some (fz 3); Some (fz 7)]; CsvRecord [Some (fz 4); Some (fz 9)]].
Definition csv_two : list csv_item := [CsvRecord [Some (fz 3); Some (fz 3); Some (fz 7)]; CsvRecord [Some (fz 4); Some (fz 4); Some (fz 9)]].
Example C72_csv_ex : copied_csv (fun f => match f with 0 => 0 | S f => S (S f) end) (fun _ => 0) (mk_dcfg 16 [0]) (mk_dcfg 16 [0; 1]) csv_one csv_two /\
  match from_csv (mk_dcfg 16 [0]) csv_one, from_csv (mk_dcfg 16 [0; 1]) csv_two with Ok (Done d), Ok (Done d') => (d_nfeatures d, d_nfeatures d') = (1, 2) | _, _ => False end.
Proof.
  split; [|vm_compute; reflexivity]. unfold copied_csv. cbn [columns_of csv_one csv_two length dc_max_nbins dc_categorical Nat.sub]. split; [intros [|f] [|h] H; lia|]. split; [intros [|f] H; lia|]. split; [reflexivity|]. split; [reflexivity|]. split; [intros [|f] H; [reflexivity|lia]|].
  assert (forall j j' vs, (j = 0 /\ j' <= 1) \/ (j = 1 /\ j' = 2) -> column csv_one j vs -> column csv_two j' vs) as Hc.
  { intros j j' vs Hj Hcol. inversion Hcol as [|it v t vs1 (fl & Ef & Ev) H1]; subst. inversion H1 as [|it2 v2 t2 vs2 (fl2 & Ef2 & Ev2) H2]; subst. inversion H2; subst.
    assert (fl = [Some (fz 3); Some (fz 7)]) as -> by (symmetry; exact (f_equal (fun c => match c with CsvRecord l => l | _ => [] end) Ef)). assert (fl2 = [Some (fz 4); Some (fz 9)]) as -> by (symmetry; exact (f_equal (fun c => match c with CsvRecord l => l | _ => [] end) Ef2)).
    constructor; [eexists; split; [reflexivity|]|constructor; [eexists; split; [reflexivity|]|constructor]]; (destruct Hj as [[-> Hj]|[-> ->]]; [destruct j' as [|[|]]; [..|lia]|]; assumption). }
  split; [intros vs; apply Hc; auto|]. intros [|[|g]] Hg; [..|lia]; (split; [lia|]; split; [lia|]; split; [intros vs; apply Hc; auto|cbn; tauto]).
Qed.

(** Three columns, the second one a copy of the first: the trees split on the original and on the other column, never on the copy. *)
Definition dup_back (g : nat) : nat := match g with 0 => 0 | S g => g end.
Definition dup_cfg : config f32ops :=
  @mk_config f32ops String.EmptyString String.EmptyString String.EmptyString [] 2%N true 44%N [0; 1] 3 f_half (fz 0) 1%N (fz 0) (fz 1) 4 4 2 f_half (fz 1) 1%N f_one f_one 1.
Definition dup_s : data f32ops := @mk_data f32ops 4 2 6 [col_b; col_a; col_t] [(fz 0, fz 2); (fz 0, fz 1); (fz 1, fz 13)] [LoCardCat; LoCardCat; Numerical] [3; 2; 0].
Definition dup_d : data f32ops := @mk_data f32ops 4 3 6 [col_b; col_b; col_a; col_t] [(fz 0, fz 2); (fz 0, fz 2); (fz 0, fz 1); (fz 1, fz 13)] [LoCardCat; LoCardCat; LoCardCat; Numerical] [3; 3; 2; 0].
Example C72_ex : duplicated ins1 dup_back dup_s dup_d /\ all_features dup_cfg dup_d /\ any_order bst_sched /\
  match boost_train bst_math true dup_cfg dup_s bst_sched L2 [ML2] wide_rng, boost_train bst_math true dup_cfg dup_d bst_sched L2 [ML2] wide_rng with
  | Ok m, Ok m' => (map (fun t => map (fun c => (negb (is_no_split c), sc_feature c)) (firstn 3 (t_crits t))) (at_trees m), map (fun t => map (fun c => (negb (is_no_split c), sc_feature c)) (firstn 3 (t_crits t))) (at_trees m')) = ([[(true, 1); (true, 0); (true, 0)]; [(true, 1); (true, 0); (true, 0)]; [(true, 1); (true, 0); (true, 0)]], [[(true, 2); (true, 0); (true, 0)]; [(true, 2); (true, 0); (true, 0)]; [(true, 2); (true, 0); (true, 0)]])
  | _, _ => False
  end.
Proof.
  split.
  { split; [apply wide_wider; reflexivity|]. split; [reflexivity|]. split; [reflexivity|]. split; [intros [|[|f]] Hf; [reflexivity..|cbn [dup_s d_nfeatures] in Hf; lia]|].
    intros [|[|[|g]]] Hg; cbn [dup_d d_nfeatures] in Hg; [..|lia]; cbn [dup_back ins1]; repeat split; cbn [dup_s d_nfeatures]; lia. }
  split; [intros [|[|[|[|n]]]] Hn; cbn [dup_d d_nfeatures] in Hn; [vm_compute; reflexivity..|lia]|]. split; [intros i k js; apply rev_sched_perm|].
  vm_compute. reflexivity.
Qed.
