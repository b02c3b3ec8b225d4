(** Properties C16 and C17 for whole models: neither the compression threshold nor the order of the jobs nor the build mode changes a model. *)
From Coq Require Import Reals Permutation.
From Flocq Require Import Core.
From Verif Require Import Base BaseProofs Num F32 F32Proofs ScaledModel DataModel DataSpec Config TreeModel TreeSpec DatasetModel DatasetSpec DatasetProofs DatasetProofs2 DatasetProofs3 DatasetProofs4 DatasetProofs5
  DatasetProps LearnerModel LearnerSpec LearnerProofs9 LearnerProofs10 LearnerProps ObjectiveModel MetricModel BoostModel BoostSpec BoostProofs BoostProps TotalProps.
Local Close Scope R_scope.

(** [a] succeeds only if [b] does, with the same value. *)
Definition below {A} (a b : res A) : Prop := forall r, a = Ok r -> b = Ok r.
Lemma below_refl A (a : res A) : below a a. Proof. intros r. auto. Qed.
Lemma below_bind A B (m m' : res A) (f f' : A -> res B) : below m m' -> (forall x, m = Ok x -> below (f x) (f' x)) -> below (rbind m f) (rbind m' f').
Proof. intros H1 H2 r E. apply rbind_ok in E as (x & Ex & E). rewrite (H1 x Ex). cbn [rbind]. apply (H2 x Ex r E). Qed.
Lemma below_mapM A B (f g : A -> res B) l : (forall x, below (f x) (g x)) -> below (mapM f l) (mapM g l).
Proof.
  intros H. induction l as [|x l IH]; [apply below_refl|]. cbn [mapM]. apply below_bind; [apply H|]. intros y _. apply below_bind; [apply IH|]. intros ys _. apply below_refl.
Qed.
Lemma below_foldM A T (f g : T -> A -> res T) l : (forall st x, below (f st x) (g st x)) -> forall st, below (foldM f l st) (foldM g l st).
Proof. intros H st r. apply foldM_mono. intros st0 x st' _. apply H. Qed.

Section Release.
Variable O : numops.
Variable M : mathops O.
Variable dbg : bool.
Variable cfg : config O.
Lemma groups_release feat grad card nactive bounds ex : below (hicard_groups dbg cfg feat grad card nactive bounds ex) (hicard_groups false cfg feat grad card nactive bounds ex).
Proof.
  unfold hicard_groups. do 3 (apply below_bind; [apply below_refl|intros ? _]). apply below_bind; [|intros ? _; apply below_refl].
  apply below_mapM. intros i r. unfold hicard_rank, u32_pred. destruct (N.eqb _ 0); [|auto]. destruct dbg; [discriminate|auto].
Qed.
Lemma feature_release locard ex grad bounds s u : below (update_feature dbg cfg locard ex grad bounds s u) (update_feature false cfg locard ex grad bounds s u).
Proof.
  unfold update_feature. do 2 (apply below_bind; [apply below_refl|intros ? _]). match goal with |- context[match ?x with LoCardCat => _ | _ => _ end] => destruct x end; try apply below_refl.
  unfold update_hicard_cat. do 2 (apply below_bind; [apply below_refl|intros ? _]). apply below_bind; [apply groups_release|]. intros ? _. apply below_refl.
Qed.
Lemma update_release s grad bounds : below (dataset_update dbg cfg s grad bounds) (dataset_update false cfg s grad bounds).
Proof.
  unfold dataset_update. destruct (skip_update _ _); [apply below_refl|]. apply below_bind; [apply below_refl|]. intros i1 _. destruct (example_sampling_enabled _).
  - do 2 (apply below_bind; [apply below_refl|intros ? _]). apply below_bind; [|intros ? _; apply below_refl]. apply below_foldM. intros. apply feature_release.
  - destruct (in_has_non_locard i1); [|apply below_refl]. apply below_bind; [|intros ? _; apply below_refl]. apply below_foldM. intros. apply feature_release.
Qed.
Lemma initialize_release targets ob : below (obj_initialize M dbg cfg targets ob) (obj_initialize M false cfg targets ob).
Proof.
  unfold obj_initialize. destruct (ob_kind ob); try apply below_refl; (apply below_bind; [|intros ? _; apply below_refl]); intros r E; cbn [negb orb rassert]; destruct r; reflexivity.
Qed.
End Release.

Section Same.
Variable O : numops.
Variable M : mathops O.
Variable dbg dbg' : bool.
Variable cfg : config O.
Variable x : num O.
Variable d : data O.
Variable sched sched' : nat -> nat -> list job -> list job.
Notation cfg' := (with_threshold cfg x).
Hypothesis Hdbg : dbg' = dbg \/ dbg' = false.
Hypothesis Hsched : any_order sched.
Hypothesis Hsched' : any_order sched'.
Hypothesis Hmin : (1 <= c_min_examples_leaf cfg)%N.
Hypothesis Hsmall : forall s, reachable dbg cfg d s -> (N.of_nat (nactive_examples s) <= 2 ^ 31)%N.

Lemma same_update s grad bounds : below (dataset_update dbg cfg s grad bounds) (dataset_update dbg' cfg' s grad bounds).
Proof. change (dataset_update dbg' cfg' s grad bounds) with (dataset_update dbg' cfg s grad bounds). destruct Hdbg as [->| ->]; [apply below_refl|apply update_release]. Qed.
Lemma same_start kind g : below (boost_start M dbg cfg d kind g) (boost_start M dbg' cfg' d kind g).
Proof.
  unfold boost_start. change (dataset_new cfg' d g) with (dataset_new cfg d g). apply below_bind; [apply below_refl|]. intros s _. apply below_bind; [apply below_refl|]. intros target _. apply below_bind; [|intros ? _; apply below_refl].
  change (obj_initialize M dbg' cfg' target (objective_new O kind)) with (obj_initialize M dbg' cfg target (objective_new O kind)). destruct Hdbg as [->| ->]; [apply below_refl|apply initialize_release].
Qed.
Lemma same_iter sizes metrics b : hist_sizes d = Ok sizes -> reachable dbg cfg d (bs_dataset b) -> below (train_one_iter M dbg cfg d sched sizes metrics b) (train_one_iter M dbg' cfg' d sched' sizes metrics b).
Proof.
  intros Hsz HR. unfold train_one_iter. apply below_bind; [apply below_refl|]. intros target _. apply below_bind; [apply below_refl|]. intros ob _. apply below_bind; [apply same_update|]. intros s Es.
  assert (reachable dbg cfg d s) as HR'.
  { destruct HR as (g & us & s0 & E0 & E1). exists g, (us ++ [(ob_grads ob, obj_bounds ob)]), s0. split; [exact E0|]. unfold ds_run in *. rewrite foldM_app, E1. cbn [rbind foldM fst snd]. rewrite Es. reflexivity. }
  apply below_bind; [|intros ? _; apply below_refl].
  intros r. apply (sim_train O dbg dbg dbg' cfg x d s sizes (obj_bounds ob) (sched (S (bs_iter b))) (sched' (S (bs_iter b))) (ob_grads ob) (objective O) (obj_leaf_value M target) update_out_of_bag HR' Hsz (Hsched _) (Hsched' _) (Hsmall s HR') Hmin).
Qed.
Lemma iter_reach sizes metrics b b' : reachable dbg cfg d (bs_dataset b) -> train_one_iter M dbg cfg d sched sizes metrics b = Ok b' -> reachable dbg cfg d (bs_dataset b').
Proof.
  intros HR E. unfold train_one_iter in E. apply rbind_ok in E as (target & _ & E). apply rbind_ok in E as (ob & _ & E). apply rbind_ok in E as (s & Es & E). apply rbind_ok in E as ((t & ob') & _ & E). apply Ok_inj in E. subst b'. cbn [bs_dataset].
  destruct HR as (g & us & s0 & E0 & E1). exists g, (us ++ [(ob_grads ob, obj_bounds ob)]), s0. split; [exact E0|]. unfold ds_run in *. rewrite foldM_app, E1. cbn [rbind foldM fst snd]. rewrite Es. reflexivity.
Qed.
Lemma same_run kind metrics g k : below (boost_run M dbg cfg d sched kind metrics g k) (boost_run M dbg' cfg' d sched' kind metrics g k).
Proof.
  unfold boost_run. apply below_bind; [apply same_start|]. intros b0 E0. apply below_bind; [apply below_refl|]. intros sizes Hsz.
  assert (reachable dbg cfg d (bs_dataset b0)) as HR0.
  { unfold boost_start in E0. apply rbind_ok in E0 as (s & Es & E0). apply rbind_ok in E0 as (target & _ & E0). apply rbind_ok in E0 as (ob & _ & E0). apply Ok_inj in E0. subst b0. exists g, [], s. split; [exact Es|reflexivity]. }
  clear E0. generalize (seq 0 k). intros l. revert b0 HR0. induction l as [|i l IH]; intros b0 HR0; [apply below_refl|]. cbn [foldM]. apply below_bind; [apply same_iter; assumption|].
  intros b1 E1. apply IH. eapply iter_reach; eassumption.
Qed.
Lemma same_train kind metrics g : below (boost_train M dbg cfg d sched kind metrics g) (boost_train M dbg' cfg' d sched' kind metrics g).
Proof. unfold boost_train. apply below_bind; [apply same_run|]. intros b _. apply below_refl. Qed.
End Same.

Lemma threshold_twice O (cfg : config O) x : with_threshold (with_threshold cfg x) (c_compression_threshold cfg) = cfg.
Proof. destruct cfg. reflexivity. Qed.
Lemma threshold_same O (cfg : config O) : with_threshold cfg (c_compression_threshold cfg) = cfg.
Proof. destruct cfg. reflexivity. Qed.

(** At most 2^31 examples are ever active. *)
Definition few_active {O} (dbg : bool) (cfg : config O) (d : data O) : Prop := forall s, reachable dbg cfg d s -> (N.of_nat (nactive_examples s) <= 2 ^ 31)%N.

(** Whole models: with another compression threshold a run of boosting that succeeds has the same outcome (trees, running predictions, metric values, the data set's state), for every arithmetic, including binary32 and NaN thresholds. *)
Theorem C16_model : forall O (M : mathops O) dbg (cfg : config O) x d sched kind metrics g, any_order sched -> (1 <= c_min_examples_leaf cfg)%N -> few_active dbg cfg d ->
  (forall k b, boost_run M dbg cfg d sched kind metrics g k = Ok b <-> boost_run M dbg (with_threshold cfg x) d sched kind metrics g k = Ok b) /\
  (forall m, boost_train M dbg cfg d sched kind metrics g = Ok m <-> boost_train M dbg (with_threshold cfg x) d sched kind metrics g = Ok m).
Proof.
  intros O M dbg cfg x d sched kind metrics g HO Hmin Hs.
  pose proof (same_run O M dbg dbg (with_threshold cfg x) (c_compression_threshold cfg) d sched sched (or_introl eq_refl) HO HO Hmin Hs kind metrics g) as H1.
  pose proof (same_train O M dbg dbg (with_threshold cfg x) (c_compression_threshold cfg) d sched sched (or_introl eq_refl) HO HO Hmin Hs kind metrics g) as H2. rewrite threshold_twice in H1, H2.
  split; [intros k b; split; [apply same_run|apply H1]|intros m; split; [apply same_train|apply H2]]; auto.
Qed.
Print Assumptions C16_model.

(** Whole models: the outcome does not depend on the order in which the jobs of the nodes are run, in any iteration. *)
Theorem C17_model : forall O (M : mathops O) dbg (cfg : config O) d sched sched' kind metrics g, any_order sched -> any_order sched' -> (1 <= c_min_examples_leaf cfg)%N -> few_active dbg cfg d ->
  (forall k b, boost_run M dbg cfg d sched kind metrics g k = Ok b <-> boost_run M dbg cfg d sched' kind metrics g k = Ok b) /\
  (forall m, boost_train M dbg cfg d sched kind metrics g = Ok m <-> boost_train M dbg cfg d sched' kind metrics g = Ok m).
Proof.
  intros O M dbg cfg d sched sched' kind metrics g HO HO' Hmin Hs.
  pose proof (fun s s' H H' => same_run O M dbg dbg cfg (c_compression_threshold cfg) d s s' (or_introl eq_refl) H H' Hmin Hs kind metrics g) as H1.
  pose proof (fun s s' H H' => same_train O M dbg dbg cfg (c_compression_threshold cfg) d s s' (or_introl eq_refl) H H' Hmin Hs kind metrics g) as H2. rewrite threshold_same in H1, H2.
  split; [intros k b; split; apply H1|intros m; split; apply H2]; assumption.
Qed.
Print Assumptions C17_model.

(** A run that succeeds in a debug build has the same outcome in a release build (the converse fails: C49). *)
Theorem C17_release : forall O (M : mathops O) (cfg : config O) d sched sched' kind metrics g, any_order sched -> any_order sched' -> (1 <= c_min_examples_leaf cfg)%N -> few_active true cfg d ->
  (forall k b, boost_run M true cfg d sched kind metrics g k = Ok b -> boost_run M false cfg d sched' kind metrics g k = Ok b) /\
  (forall m, boost_train M true cfg d sched kind metrics g = Ok m -> boost_train M false cfg d sched' kind metrics g = Ok m).
Proof.
  intros O M cfg d sched sched' kind metrics g HO HO' Hmin Hs.
  pose proof (same_run O M true false cfg (c_compression_threshold cfg) d sched sched' (or_intror eq_refl) HO HO' Hmin Hs kind metrics g) as H1.
  pose proof (same_train O M true false cfg (c_compression_threshold cfg) d sched sched' (or_intror eq_refl) HO HO' Hmin Hs kind metrics g) as H2. rewrite threshold_same in H1, H2.
  split; [intros k b; apply H1|intros m; apply H2].
Qed.
Print Assumptions C17_release.

(** In binary32, up to 2^24 examples and an example fraction between 0 and 1 suffice. *)
Theorem C17_few_active : forall dbg (cfg : config f32ops) (d : data f32ops), (Z.of_nat (d_nexamples d) <= 2 ^ 24)%Z ->
  f_is_finite (c_example_fraction cfg) = true -> f_le f_zero (c_example_fraction cfg) = true -> f_le (c_example_fraction cfg) f_one = true -> few_active dbg cfg d.
Proof.
  intros dbg cfg d Hn H1 H2 H3 s HR. destruct (C27_sample_size (d_nexamples d) (c_example_fraction cfg) Hn H1 H2 H3) as (Hle & _).
  unfold nactive_examples. rewrite (dv_nact _ _ _ _ (ds_inv _ _ _ _ (reachable_ok _ _ _ _ _ HR))). unfold nact. lia.
Qed.
Print Assumptions C17_few_active.
(** A concrete case in binary32 (four examples), and one over the reals (six examples, L2, two iterations), in a debug build. *)
Example C17_few_ex : few_active true bst_cfg bst_data.
Proof. apply C17_few_active; vm_compute; try reflexivity; discriminate. Qed.
Example C17_model_ex : few_active true exr_cfg exr_data /\ (1 <= c_min_examples_leaf exr_cfg)%N /\ any_order bst_sched /\ exists b, boost_run Rmath true exr_cfg exr_data bst_sched L2 [] ex_rng 2 = Ok b /\ length (at_trees (bs_ensemble b)) = 2.
Proof.
  split; [|split; [|split; [exact exr_perm|]]].
  - intros s HR. unfold nactive_examples. rewrite (dv_nact _ _ _ _ (ds_inv _ _ _ _ (reachable_ok _ _ _ _ _ HR))). unfold nact.
    replace (scaled_count (O := Rops) (d_nexamples exr_data) (c_example_fraction exr_cfg)) with (d_nexamples exr_data); [vm_compute; discriminate|].
    symmetry. apply scaled_R; [cbn; Lra.lra|cbn; lia|]. cbn. apply Rlt_bool_false. Lra.lra.
  - cbn. lia.
  - destruct C25_exact_ex as (b & E & L & _). exists b. auto.
Qed.
