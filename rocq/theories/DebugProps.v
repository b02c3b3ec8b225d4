(** Debug and release builds (C58): on sound data no debug assertion fires, and both builds compute the same. *)
From Coq Require Import Permutation Reals.
From Flocq Require Import Core BinarySingleNaN.
From Verif Require Import Base BaseProofs BitModel BitSpec F32 F32Proofs Num DataModel Config BinnerModel TreeModel DatasetModel DatasetSpec DatasetProofs4 DatasetProofs5 LearnerModel LearnerSpec ObjectiveModel MetricModel BoostModel
  BoostSpec TotalSpec TotalProofs TotalProofs2 TotalProps PredSpec PredProofs LearnerProps DebugModel DebugSpec DebugProofs DebugProofs2 DebugProofs3 DebugProofs4 DebugProofs5.
Local Close Scope R_scope.

(** A history of updates in a debug build. *)
Definition ds_run_dbg {O} (cfg : config O) (us : list (list (num O) * (num O * num O))) (s : dataset O) : res (dataset O) :=
  foldM (fun s u => dataset_update_dbg O cfg s (fst u) (snd u)) us s.

Lemma run_same O (cfg : config O) d (gok : list (num O) -> Prop) : trainable cfg d -> whole_categories d -> (N.of_nat (d_nexamples d) < 2 ^ 32)%N ->
  (forall k i, 1 <= i <= c_max_nbins cfg -> k <= d_nexamples d -> (ntoZ O 0 4294967295 (nround O (nmul O (nofnat O i) (ndiv O (nofnat O k) (nofnat O (c_max_nbins cfg + 1))))) <= Z.of_nat k)%Z) ->
  (forall col grad lim ex r, gok grad -> full_examples O cfg d ex -> num_candidates cfg col grad lim ex = Ok r -> num_candidates_dbg O cfg col grad lim ex = Ok r) ->
  forall us s s', dsinv O cfg d s -> (forall u, In u us -> gok (fst u)) -> ds_run true cfg us s = Ok s' -> ds_run_dbg cfg us s = Ok s'.
Proof.
  intros HT HC Hn Hr Hnum. induction us as [|u t IH]; intros s s' Hs Hg E; unfold ds_run, ds_run_dbg in *; cbn [foldM] in *; [exact E|]. apply rbind_ok in E as (s1 & E1 & E).
  erewrite dataset_update_same; [cbn [rbind]| | | | | | | |exact E1]; try eassumption; [|apply Hg; left; reflexivity].
  apply IH; [eapply dataset_update_ok; eassumption|intros v Hv; apply Hg; right; exact Hv|exact E].
Qed.

(** Exact arithmetic: the data set is created and takes any history of updates with usable gradients in a debug build exactly as in a release build: same state, no assertion fires. *)
Theorem C58_dataset_exact : forall (cfg : config Rops) (d : data Rops) g us, trainable cfg d -> whole_categories d -> (N.of_nat (d_nexamples d) < 2 ^ 32)%N ->
  (forall u, In u us -> usable_gradients true cfg d (fst u) (snd u)) ->
  exists s0 s, dataset_new cfg d g = Ok s0 /\ dataset_new_dbg Rops cfg d g = Ok s0 /\ ds_run false cfg us s0 = Ok s /\ ds_run_dbg cfg us s0 = Ok s.
Proof.
  intros cfg d g us HT HC Hn Hu. destruct (dataset_new_total _ cfg d HT g) as [s0 E0]. destruct (dataset_new_ok _ _ _ _ _ E0) as [H0 _].
  destruct (ds_run_total _ cfg d true (laws_R _ _) HT us s0 H0 Hu) as [s E]. exists s0, s. split; [exact E0|].
  split; [apply (dataset_new_same Rops cfg d HC Hn (fun k i Hi _ => rank_le_R _ k i Hi) (fun _ => False)); [contradiction|exact E0]|]. split; [apply ds_run_le, E|].
  apply (run_same Rops cfg d (fun _ => True)) with (us := us) (s := s0); auto.
  - intros k i Hi _. apply rank_le_R, Hi.
  - intros. apply num_same_R. assumption.
Qed.
Print Assumptions C58_dataset_exact.

(** f32: the same, for gradients of ordinary size when the number of active examples times the number of bins is at most about [2^23]. *)
Theorem C58_dataset_f32 : forall (cfg : config f32ops) (d : data f32ops) g us, trainable cfg d -> whole_categories d -> (Z.of_nat (d_nexamples d) <= 2 ^ 24)%Z ->
  few_enough (scaled_count (d_nexamples d) (c_example_fraction cfg)) (c_max_nbins cfg) -> (forall u, In u us -> usable_gradients true cfg d (fst u) (snd u) /\ ordinary_gradients (fst u)) ->
  exists s0 s, dataset_new cfg d g = Ok s0 /\ dataset_new_dbg f32ops cfg d g = Ok s0 /\ ds_run false cfg us s0 = Ok s /\ ds_run_dbg cfg us s0 = Ok s.
Proof.
  intros cfg d g us HT HC Hn Hfew Hu. assert (Z.of_nat (c_max_nbins cfg + 1) <= 2 ^ 24)%Z as Hm by (unfold few_enough in Hfew; nia).
  assert (N.of_nat (d_nexamples d) < 2 ^ 32)%N as Hn32 by (change (2 ^ 32)%N with (Z.to_N (2 ^ 32)); lia).
  destruct (dataset_new_total _ cfg d HT g) as [s0 E0]. destruct (dataset_new_ok _ _ _ _ _ E0) as [H0 _].
  destruct (ds_run_total _ cfg d true (laws_f32 _ _ Hm Hn) HT us s0 H0) as [s E]; [intros u Hi; apply Hu, Hi|]. exists s0, s. split; [exact E0|].
  split; [apply (dataset_new_same f32ops cfg d HC Hn32 (fun k i Hi Hk => rank_le_f32 _ _ k i Hm Hn Hi Hk) (fun _ => False)); [contradiction|exact E0]|]. split; [apply ds_run_le, E|].
  apply (run_same f32ops cfg d ordinary_gradients) with (us := us) (s := s0); auto.
  - intros k i Hi Hk. exact (rank_le_f32 _ _ k i Hm Hn Hi Hk).
  - intros col grad lim ex r Hg [Hl _] E1. destruct HT as (_ & _ & _ & _ & _ & _ & _ & Hs & _). apply num_same_f32; [rewrite Hl; unfold DatasetProofs3.nact; lia|rewrite Hl; exact Hfew|exact Hg|exact E1].
  - intros u Hi. apply Hu, Hi.
Qed.
Print Assumptions C58_dataset_f32.

(** Training: if a debug build (with its overflow checks and assertions on counts, targets and compressed nodes) trains a model, a release build trains the same model, with the same metrics and running predictions. *)
Theorem C58_training : forall O (M : mathops O) cfg d sched kind metrics g k b, boost_run M true cfg d sched kind metrics g k = Ok b -> boost_run M false cfg d sched kind metrics g k = Ok b.
Proof. intros O M cfg d sched kind metrics g k b E. apply boost_run_le, E. Qed.
Print Assumptions C58_training.

(** The sum of every histogram bin, at every node that is grown: the lengths asserted by the summing kernels are right, in the plain and in the compressed representation. *)
Theorem C58_sums : forall O dbg0 dbg (cfg : config O) d s sizes bounds sched gradients nd f b fm, setting dbg0 cfg d s sizes sched -> grown dbg cfg s sizes bounds sched gradients nd -> candidate s f b ->
  ds_get_bitvec s f b = Ok fm -> exists v, get_grad_sum cfg bounds nd fm = Ok v /\ get_grad_sum_dbg O cfg bounds nd fm = Ok v.
Proof.
  intros O dbg0 dbg cfg d s sizes bounds sched gradients nd f b fm HS HG Hc Em. rewrite (grad_sum_same _ dbg0 dbg _ _ _ _ _ _ _ _ _ _ _ HS HG Hc Em).
  destruct HS as (HR & Hsz & Hsch & Hsm). destruct (LearnerProofs5.grown_pre _ dbg0 dbg _ _ _ _ _ _ _ HR Hsz Hsch Hsm nd HG) as (HL & Hw & Hs & rows & Hrows & _).
  pose proof (LearnerProofs5.grown_ok _ dbg0 dbg _ _ _ _ _ _ _ HR Hsz Hsch Hsm nd rows HG Hrows) as [HN _ _]. destruct (LearnerProofs3.lds_fm _ _ HL _ _ Hc) as (fm' & Em' & HF). rewrite Em in Em'. injection Em' as <-.
  eexists. rewrite (LearnerProofs.get_grad_sum_ok _ _ _ _ Hw Hsm bounds nd fm HN HF). split; reflexivity.
Qed.
Print Assumptions C58_sums.

(** The rows of a leaf: the assertion of [map_index] (example sampling is in use) never fires, for any data set and any list of positions. *)
Theorem C58_leaf_examples : forall O (s : dataset O) l, to_examples_dbg O s l = to_examples s l.
Proof.
  intros O s l. unfold to_examples_dbg, to_examples. destruct (example_sampling_enabled s) eqn:E; [|reflexivity]. f_equal. induction l as [|k l IH]; [reflexivity|]. cbn [mapM]. rewrite IH. unfold map_index_dbg at 1. rewrite E. reflexivity.
Qed.
Print Assumptions C58_leaf_examples.
(** Predictions of a trained model, for every table with enough columns whose high-cardinality categorical columns hold non-negative whole numbers (also categories never seen in training):
    every row reaches the same leaf in both builds. *)
Definition naturals_whole (O : numops) (m : nat) : Prop := forall k, k < m -> @whole O (nofnat O k).
Theorem C58_predict : forall O (M : mathops O) dbg cfg d sched kind metrics g m d2 t i, naturals_whole O (c_max_nbins cfg) -> any_order sched -> 0 < d_nexamples d ->
  (forall target, get_target d = Ok target -> (N.of_nat (length target) <= 2 ^ 31)%N) -> boost_train M dbg cfg d sched kind metrics g = Ok m ->
  has_columns (d_nfeatures d) d2 -> whole_columns d d2 -> In t (at_trees m) -> i < d_nexamples d2 ->
  exists leaf, predict_leaf_id t d2 i = Ok leaf /\ predict_leaf_id_dbg O t d2 i = Ok leaf.
Proof.
  intros O M dbg cfg d sched kind metrics g m d2 t i Hnat HO Hn Ht E HC HW Hin Hi. unfold boost_train in E. apply rbind_ok in E as (b & Eb & E). injection E as <-.
  destruct (boost_fit O M dbg cfg d sched HO Hn Ht _ _ _ _ _ Eb) as [_ HF]. pose proof (boost_groups O dbg cfg d Hnat Hn M sched HO Ht _ _ _ _ _ Eb) as HG. rewrite Forall_forall in HF, HG.
  destruct (fit_predicts O _ _ t d2 i (HF t Hin) HC Hi) as (leaf & v & _ & Ep & _). exists leaf. split; [exact Ep|]. unfold predict_leaf_id_dbg, predict_leaf_id in *.
  rewrite (leaf_loop_same O d t d2 i (HG t Hin)); [exact Ep|]. intros f col x Hf Ecol Ex. eapply HW; [exact Hf|exact Ecol|eapply nth_error_In, Ex].
Qed.
Print Assumptions C58_predict.
Theorem C58_naturals : (forall m, naturals_whole Rops m) /\ (forall m, (Z.of_nat m <= 2 ^ 24)%Z -> naturals_whole f32ops m).
Proof. split; intros m; [intros k _; apply nat_whole_R|]. intros Hm k Hk. apply nat_whole_f32. lia. Qed.
Print Assumptions C58_naturals.

(** Quantiles (the bias of L1 and Huber, the size of Huber's steps): the rank is within the counted values. *)
Theorem C58_quantile_exact : forall nbins (q : R) lim vs v, (N.of_nat (length vs) < 2 ^ 32)%N -> (0 <= q <= 1)%R -> quantile Rops nbins q lim vs = Ok v -> quantile_dbg Rops nbins q lim vs = Ok v.
Proof. intros nbins q lim vs v Hn Hq E. apply quantile_same; [exact Hn|apply quantile_rank_R, Hq|exact E]. Qed.
Print Assumptions C58_quantile_exact.
Theorem C58_quantile_f32 : forall nbins (q : f32) lim (vs : list f32) v, (Z.of_nat (length vs) <= 2 ^ 24)%Z -> is_finite q = true -> (0 <= B2R q <= 1)%R ->
  quantile f32ops nbins q lim vs = Ok v -> quantile_dbg f32ops nbins q lim vs = Ok v.
Proof. intros nbins q lim vs v Hn Fq Hq E. apply quantile_same; [change (2 ^ 32)%N with (Z.to_N (2 ^ 32)); change (num f32ops) with f32; lia|exact (quantile_rank_f32 (length vs) q Hn Fq Hq)|exact E]. Qed.
Print Assumptions C58_quantile_f32.

(* ---- cases ---- *)
From Verif Require Import DatasetProps BoostProps.
Lemma ex_whole z : (0 <= z <= 9)%Z -> @whole f32ops (f_of_Z z).
Proof. intros Hz. pose proof (nat_whole_f32 (Z.to_nat z)) as H. unfold nofnat in H. rewrite Z2Nat.id in H by lia. apply H. lia. Qed.
(** The data with features of all kinds of C49_dataset_ex, half of its examples sampled. *)
Example C58_dataset_f32_ex : whole_categories ex_data /\ few_enough (scaled_count (d_nexamples ex_data) (c_example_fraction (ex_cfg f_half))) (c_max_nbins (ex_cfg f_half)) /\ ordinary_gradients ex_grad.
Proof.
  split; [|split].
  - intros [|[|[|[|[|f]]]]] ft col card v [Hf _] E0 Hne E1 E2 Hv; cbn in E0; try (injection E0 as <-); try congruence; [..|cbn in Hf; lia];
      unfold get_feature, feat_card, ex_data in *; cbn [d_features d_cards idx nth_error] in *; apply Ok_inj in E1; apply Ok_inj in E2; subst card col; cbn [In] in Hv;
      repeat destruct Hv as [<-|Hv]; try destruct Hv; (split; [apply ex_whole; lia|vm_compute; lia]).
  - assert (scaled_count (O := f32ops) (d_nexamples ex_data) (c_example_fraction (ex_cfg f_half)) = 2) as -> by (vm_compute; reflexivity). unfold few_enough. cbn. lia.
  - intros x Hx. cbn [ex_grad In] in Hx. assert (forall z, (Z.abs z <= 2)%Z -> is_finite (fz z) = true /\ (Rabs (B2R (fz z)) <= bpow radix2 100)%R) as H.
    { intros z Hz. destruct (f_of_Z_exact z) as [F B]; [lia|]. unfold fz. split; [exact F|]. rewrite B, <- abs_IZR. apply Rle_trans with (IZR 2); [apply IZR_le; lia|]. change (IZR 2) with (bpow radix2 1). apply bpow_le. lia. }
    repeat destruct Hx as [<-|Hx]; try destruct Hx; apply H; lia.
Qed.
(** Exact arithmetic: the data of C49_training_ex and a model trained on it (C25_exact_ex). *)
Example C58_dataset_exact_ex : whole_categories exr_data /\ exists m, boost_train Rmath true exr_cfg exr_data bst_sched L2 [] ex_rng = Ok m /\ length (at_trees m) = 2 /\ has_columns (d_nfeatures exr_data) exr_data /\ whole_columns exr_data exr_data.
Proof.
  destruct C49_training_ex as (HT & Htgt & HA & HN & HU0 & HU1 & Hb & Hd & Hm). split; [|].
  - intros [|[|f]] ft col card v [Hf _] E0 Hne E1 E2 Hv; cbn in E0; try (injection E0 as <-); try congruence; [|cbn in Hf; lia].
    unfold get_feature, feat_card, exr_data in *; cbn [d_features d_cards idx nth_error] in *; apply Ok_inj in E1; apply Ok_inj in E2; subst card col; cbn [In] in Hv.
    assert (forall k, k < 3 -> @whole Rops (IZR (Z.of_nat k)) /\ into_cat (O := Rops) (IZR (Z.of_nat k)) < 3) as H.
    { intros k Hk. split; [apply (nat_whole_R k)|]. unfold into_cat. cbn [ntoZ Rops]. rewrite Ztrunc_IZR. lia. }
    repeat destruct Hv as [<-|Hv]; try destruct Hv; [apply (H 0)|apply (H 0)|apply (H 1)|apply (H 1)|apply (H 2)|apply (H 2)]; lia.
  - destruct (C49_training true exr_cfg exr_data bst_sched L2 [] ex_rng _ HT Htgt (HA L2 (or_introl eq_refl)) exr_perm) as (m & Em & Lm); try assumption; [cbn; lia|right; left; reflexivity|intros _; left; exact HN|].
    exists m. split; [exact Em|]. split; [exact Lm|]. destruct HT as ((_ & A & B) & _). split; [split; [lia|split; [lia|exact B]]|].
    intros [|[|[|f]]] col v Hf; cbn in Hf; try discriminate. destruct f; discriminate.
Qed.
(** A category of -1 in new data: a release build predicts, a debug build panics. *)
Definition dbg_tree : tree f32ops := @mk_tree f32ops 1 1 [@mk_crit f32ops HiCardCatLt 0 (f_of_Z 0); no_split f32ops; no_split f32ops] [f_of_Z 0; f_of_Z 1; f_of_Z 2] (f_of_Z 1) (f_of_Z 0) [[0; 1]].
Definition dbg_new : data f32ops := @mk_data f32ops 4 1 2 [[f_of_Z 1; f_of_Z (-1)]; [f_of_Z 0; f_of_Z 0]] [] [] [].
Example C58_negative_category : predict_leaf_id dbg_tree dbg_new 0 = Ok 2 /\ predict_leaf_id_dbg f32ops dbg_tree dbg_new 0 = Ok 2 /\ predict_leaf_id dbg_tree dbg_new 1 = Ok 1 /\ predict_leaf_id_dbg f32ops dbg_tree dbg_new 1 = Panic.
Proof. vm_compute. auto. Qed.
