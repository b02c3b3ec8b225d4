(** C59: the order of the rows. *)
From Coq Require Import Reals Lra Permutation.
From Flocq Require Import Core BinarySingleNaN.
From Verif Require Import Base BaseProofs BitModel BitSpec F32 F32Proofs Num DataModel BinnerModel Config TreeModel DatasetModel DatasetSpec DatasetProofs6 DatasetProps LearnerModel LearnerSpec TrainSpec ObjectiveModel ObjectiveProps MetricModel
  BoostModel BoostSpec BoostProofs BoostProps TotalSpec TotalProps RowSpec DebugProps TotalProofs5 RowProofs RowProofs2 RowProofs3 RowProofs4 RowF32Proofs.
Local Close Scope R_scope.

(* ---- exact arithmetic ---- *)
Lemma R_min_spec t : forall x : R, (In (fold_left Rmin t x) (x :: t)) /\ forall y, In y (x :: t) -> (fold_left Rmin t x <= y)%R.
Proof.
  induction t as [|z t IH]; intros x; cbn [fold_left]; [split; [left; reflexivity|intros y [<-|[]]; lra]|]. destruct (IH (Rmin x z)) as [H1 H2]. split.
  - destruct H1 as [H1|H1]; [|right; right; exact H1]. rewrite <- H1. unfold Rmin. destruct (Rle_dec x z); [left; reflexivity|right; left; reflexivity].
  - pose proof (H2 _ (or_introl eq_refl)) as H3. pose proof (Rmin_l x z). pose proof (Rmin_r x z). intros y [<-|[<-|Hy]]; [lra|lra|]. apply H2. right. exact Hy.
Qed.
Lemma R_max_spec t : forall x : R, (In (fold_left Rmax t x) (x :: t)) /\ forall y, In y (x :: t) -> (y <= fold_left Rmax t x)%R.
Proof.
  induction t as [|z t IH]; intros x; cbn [fold_left]; [split; [left; reflexivity|intros y [<-|[]]; lra]|]. destruct (IH (Rmax x z)) as [H1 H2]. split.
  - destruct H1 as [H1|H1]; [|right; right; exact H1]. rewrite <- H1. unfold Rmax. destruct (Rle_dec x z); [right; left; reflexivity|left; reflexivity].
  - pose proof (H2 _ (or_introl eq_refl)) as H3. pose proof (Rmax_l x z). pose proof (Rmax_r x z). intros y [<-|[<-|Hy]]; [lra|lra|]. apply H2. right. exact Hy.
Qed.
Lemma R_limits_perm l l' : Permutation l l' -> R_limits l' = R_limits l.
Proof.
  intros HP. destruct l as [|x t], l' as [|x' t']; [reflexivity|apply Permutation_nil in HP; discriminate|apply Permutation_sym, Permutation_nil in HP; discriminate|]. unfold R_limits.
  destruct (R_min_spec t x) as [A1 A2]. destruct (R_min_spec t' x') as [B1 B2]. destruct (R_max_spec t x) as [C1 C2]. destruct (R_max_spec t' x') as [D1 D2]. f_equal; apply Rle_antisym.
  - apply B2. eapply Permutation_in; [exact HP|exact A1].
  - apply A2. eapply Permutation_in; [apply Permutation_sym, HP|exact B1].
  - apply C2. eapply Permutation_in; [apply Permutation_sym, HP|exact D1].
  - apply D2. eapply Permutation_in; [exact HP|exact C1].
Qed.
Lemma rows_in_order O (d d' : data O) order A (l l' : list A) : reordered order d d' -> rows_of O d order l l' -> in_order order l l'.
Proof.
  intros Hre (L1 & L2 & H). unfold in_order. rewrite <- (order_row O d d' order Hre). apply nth_error_ext. intros k. rewrite map_map, !nth_error_map, nth_error_seq. destruct (Nat.ltb_spec k (d_nexamples d)) as [Hk|Hk]; cbn [option_map].
  - rewrite <- H by exact Hk. destruct (nth_error l' k) eqn:E; [reflexivity|]. apply nth_error_None in E. lia.
  - assert (nth_error l' k = None) as -> by (apply nth_error_None; lia). reflexivity.
Qed.
Lemma metric_rows (d d' : data Rops) order (target target' : list R) m (ps ps' : list R) : reordered order d d' -> rows_of Rops d order target target' -> rows_of Rops d order ps ps' -> metric_eval Rmath m target' ps' = metric_eval Rmath m target ps.
Proof.
  intros Hre Ht Hp. assert (forall m, metric_mean Rmath m target' ps' = metric_mean Rmath m target ps) as H.
  { intros m0. unfold metric_mean. rewrite (fold_left_permP _ _ (fun _ => True) (fun (st : R * nat) (tp : R * R) => ((fst st + metric_one Rmath m0 (fst tp) (snd tp))%R, S (snd st)))) with (l := combine target ps) (l' := combine target' ps'); [reflexivity| | |].
    - intros s a b _ _. cbn [fst snd]. f_equal. lra.
    - apply (rows_perm Rops d d' order Hre). apply combine_rows; assumption.
    - apply Forall_forall. auto. }
  destruct m; cbn [metric_eval]; rewrite ?H; try reflexivity; apply H.
Qed.

(** Exact arithmetic, without example sampling: for data with the rows in another order (and the same random draws; any two orders of the histogram jobs, any two build modes) the same model is trained. The running predictions are the same for every
    example, in the other order, and so are the values of the metrics. *)
Theorem C59_row_order : forall dbg dbg' (cfg : config Rops) (d d' : data Rops) order sched sched' kind metrics g k b b', reordered order d d' -> well_formed d -> any_order sched -> any_order sched' ->
  c_example_fraction cfg = 1%R -> (Z.of_nat (d_nexamples d) <= 2 ^ 31)%Z -> (1 <= c_min_examples_leaf cfg)%N -> 0 < c_sample_freq cfg ->
  boost_run Rmath dbg cfg d sched kind metrics g k = Ok b -> boost_run Rmath dbg' cfg d' sched' kind metrics g k = Ok b' ->
  bs_ensemble b' = bs_ensemble b /\ in_order order (ob_preds (bs_objective b)) (ob_preds (bs_objective b')) /\ bs_evals b' = bs_evals b.
Proof.
  intros dbg dbg' cfg d d' order sched sched' kind metrics g k b b' Hre HW Hs Hs' Hfr Hn Hmin Hfreq E E'.
  assert (exists target, get_target d = Ok target) as [target Ht]. { unfold boost_run, boost_start in E. apply rbind_ok in E as (b0 & E & _). apply rbind_ok in E as (s & _ & E). apply rbind_ok in E as (t & Et & _). eauto. }
  assert (exists target', get_target d' = Ok target') as [target' Ht']. { unfold boost_run, boost_start in E'. apply rbind_ok in E' as (b0 & E' & _). apply rbind_ok in E' as (s & _ & E'). apply rbind_ok in E' as (t & Et & _). eauto. }
  assert (length target = d_nexamples d) as Hl. { destruct HW as (_ & _ & H). apply H. unfold get_target, get_feature in Ht. apply idx_ok in Ht. eapply nth_error_In, Ht. }
  assert (nlt Rops (c_example_fraction cfg) (nofZ Rops 1) = false) as Hfrac. { rewrite Hfr. cbn. apply Rlt_bool_false. lra. }
  destruct (run_rel Rops Rmath dbg dbg' cfg d d' order Hre sched sched' Hs Hs' target target' Ht Ht' Hl kind) with (Gw := fun _ : R => True) (Gg := fun _ : R => True) (metrics := metrics) (g := g) (k := k) (b := b) (b' := b') as [B1 B2 B3 B4 B5 B6 B7]; try assumption; auto.
  - right. cbn. repeat split; intros; lra.
  - intros l HP. apply R_limits_perm, HP.
  - intros preds l _ _ HP. apply R_limits_perm, HP.
  - cbn. intros. lra.
  - cbn. intros. lra.
  - apply scaled_R; [rewrite Hfr; lra|lia|exact Hfrac].
  - lia.
  - split; [exact B4|]. split; [apply (rows_in_order Rops d d'); [exact Hre|apply (or_preds _ _ _ _ _ _ B2)]|]. apply B5. intros m ps ps' _ Hps. apply (metric_rows d d' order); try assumption. apply (target_rows Rops d d' order Hre target target' Ht Ht' Hl).
Qed.
Print Assumptions C59_row_order.

Lemma in_order_in A order (l l' : list A) v : in_order order l l' -> In v l' -> In v l.
Proof.
  intros H Hin. assert (In (Some v) (map Some l')) as Hs by (apply in_map, Hin). rewrite H in Hs. apply in_map_iff in Hs as (k & Ek & _). eapply nth_error_In, Ek.
Qed.
Lemma reordered_feature O order (d d' : data O) f col' : reordered order d d' -> get_feature d' f = Ok col' -> exists col, get_feature d f = Ok col /\ in_order order col col'.
Proof.
  intros (_ & _ & _ & _ & _ & _ & _ & HF) E. unfold get_feature in *. apply idx_ok in E. revert f E. induction HF as [|c c' l l' Hc _ IH]; intros [|f] E; try discriminate; cbn [nth_error] in *.
  - injection E as <-. exists c. split; [reflexivity|exact Hc].
  - apply IH, E.
Qed.
Lemma useful_reordered O order (d d' : data O) f : reordered order d d' -> useful_feature d' f -> useful_feature d f.
Proof.
  intros Hre (H1 & H2 & H3). split; [rewrite <- (re_nf O d d' order Hre); exact H1|]. rewrite (re_max_nbins O d d' order Hre), (re_limits O d d' order Hre) in *. auto.
Qed.
Lemma trainable_reordered O order (cfg : config O) (d d' : data O) : reordered order d d' -> trainable cfg d -> trainable cfg d'.
Proof.
  intros Hre (HW & T1 & T2 & T3 & T4 & T5 & T6 & T7 & T8 & T9). pose proof Hre as (HP & E1 & E2 & E3 & E4 & E5 & E6 & HF). unfold trainable. rewrite E1, E2, E3, E4, E5, E6.
  assert (length (d_features d') = length (d_features d)) as HL by (symmetry; clear - HF; induction HF; cbn [length]; lia).
  split; [|split; [exact T1|split; [exact T2|split; [exact T3|split; [exact T4|split; [|split; [|split; [exact T7|split; [exact T8|exact T9]]]]]]]]].
  - destruct HW as (W1 & W2 & W3). split; [lia|]. split; [lia|]. intros col Hc. apply In_nth_error in Hc as [f Ef]. destruct (reordered_feature O order d d' f col Hre) as (c0 & _ & Ho); [apply idx_ok, Ef|]. unfold in_order in Ho. apply (f_equal (@length _)) in Ho. rewrite !map_length in Ho. rewrite Ho, (Permutation_length HP), seq_length. symmetry. exact E3.
  - intros f col card v Hf Et Ec Ek Hv. destruct (reordered_feature O order d d' f col Hre Ec) as (c0 & Ec0 & Ho). rewrite (re_type O d d' order Hre) in Et. rewrite (re_card O d d' order Hre) in Ek. eapply (T5 f c0 card v); try eassumption; [eapply useful_reordered; eassumption|eapply in_order_in; eassumption].
  - intros f l Hf Et El. rewrite (re_type O d d' order Hre) in Et. rewrite (re_limits O d d' order Hre) in El. eapply (T6 f l); try eassumption. eapply useful_reordered; eassumption.
Qed.
Lemma no_hicard_reordered O order (d d' : data O) : reordered order d d' -> no_hicard d -> no_hicard d'.
Proof. intros Hre H f Hf. rewrite (re_type O d d' order Hre). apply H. eapply useful_reordered; eassumption. Qed.

(** On data training accepts (C49): it succeeds for both orders, with the same model. *)
Theorem C59_training : forall dbg (cfg : config Rops) (d d' : data Rops) order sched sched' kind metrics g target,
  reordered order d d' -> trainable cfg d -> get_target d = Ok target -> accepts dbg cfg d target kind -> any_order sched -> any_order sched' -> (Z.of_nat (d_nexamples d) <= 2 ^ 31)%Z ->
  (exists f nb, f < d_nfeatures d /\ max_nbins d f = Ok nb /\ 0 < nb) ->
  (c_discr_nbits cfg = 1 \/ c_discr_nbits cfg = 2 \/ c_discr_nbits cfg = 4 \/ c_discr_nbits cfg = 8) -> 0 < c_max_tree_depth cfg -> (1 <= c_min_examples_leaf cfg)%N ->
  (dbg = true -> no_hicard d \/ c_max_nbins cfg + 1 <= 2 * scaled_count (d_nexamples d) (c_example_fraction cfg)) -> c_example_fraction cfg = 1%R -> 0 < c_sample_freq cfg ->
  exists m, boost_train Rmath dbg cfg d sched kind metrics g = Ok m /\ boost_train Rmath dbg cfg d' sched' kind metrics g = Ok m /\ length (at_trees m) = c_niterations cfg.
Proof.
  intros dbg cfg d d' order sched sched' kind metrics g target Hre HT Htgt HA Hs Hs' Hn Hb Hw Hd Hm Hdbg Hfr Hfq.
  destruct (C49_training dbg cfg d sched kind metrics g target HT Htgt HA Hs Hn Hb Hw Hd Hm Hdbg) as (m & Em & Hlm).
  pose proof (trainable_reordered Rops order cfg d d' Hre HT) as HT'. pose proof HT' as (HW' & _).
  assert (exists target', get_target d' = Ok target') as [target' Ht']. { unfold get_target, get_feature. destruct HW' as (_ & Hlt & _). destruct (nth_error (d_features d') (d_nfeatures d')) as [c|] eqn:E; [exists c; apply idx_ok, E|]. apply nth_error_None in E. lia. }
  assert (forall t, In t target' -> In t target) as Hin. { intros t Hin. unfold get_target in *. destruct (reordered_feature Rops order d d' _ _ Hre Ht') as (c & Ec & Ho). rewrite (re_nf Rops d d' order Hre) in Ec. rewrite Htgt in Ec. apply Ok_inj in Ec. subst c. eapply in_order_in; eassumption. }
  assert (accepts dbg cfg d' target' kind) as HA'.
  { destruct kind; cbn [accepts] in *; try contradiction; try (eapply no_hicard_reordered; eassumption).
    - destruct HA as [H1 [H2|H2]]; split; auto. left. eapply no_hicard_reordered; eassumption.
    - destruct HA as [H1 H2]; split; auto. }
  destruct (C49_training dbg cfg d' sched' kind metrics g target' HT' Ht' HA' Hs') as (m' & Em' & _); try assumption.
  - rewrite (re_n Rops d d' order Hre). exact Hn.
  - destruct Hb as (f & nb & H1 & H2 & H3). exists f, nb. rewrite (re_nf Rops d d' order Hre), (re_max_nbins Rops d d' order Hre). auto.
  - intros Hdb. rewrite (re_n Rops d d' order Hre). destruct (Hdbg Hdb) as [H|H]; [left; eapply no_hicard_reordered; eassumption|right; exact H].
  - exists m. split; [exact Em|]. split; [|exact Hlm]. rewrite Em'. f_equal. unfold boost_train in Em, Em'. apply rbind_ok in Em as (b & Eb & Em). apply rbind_ok in Em' as (b' & Eb' & Em'). apply Ok_inj in Em, Em'. subst m m'.
    eapply (C59_row_order dbg dbg cfg d d' order sched sched' kind metrics g); try eassumption. apply HT.
Qed.
Print Assumptions C59_training.

(** The data of [exr_data] with the rows 3, 0, 5, 1, 4, 2. *)
Definition exr_data2 : data Rops :=
  @mk_data Rops 4 2 6 [[1; 0; 2; 0; 2; 1]; [5; 1; 13; 2; 8; 3]; [0; 1; 1; 0; 1; 1]]%R [(0, 2); (1, 13); (0, 1)]%R [LoCardCat; Numerical; Numerical] [3; 0; 0].
Example C59_ex : reordered [3; 0; 5; 1; 4; 2] exr_data exr_data2 /\
  forall kind, kind = L2 \/ kind = Binary \/ kind = Hinge -> exists m, boost_train Rmath true exr_cfg exr_data bst_sched kind [] ex_rng = Ok m /\ boost_train Rmath true exr_cfg exr_data2 (fun _ _ js => js) kind [] ex_rng = Ok m /\ length (at_trees m) = 2.
Proof.
  assert (reordered [3; 0; 5; 1; 4; 2] exr_data exr_data2) as Hre.
  { split; [|repeat split; repeat constructor]. cbn [d_nexamples exr_data seq]. transitivity [0; 3; 5; 1; 4; 2]; [constructor|]. constructor. transitivity [1; 3; 5; 4; 2]; [change [3; 5; 1; 4; 2] with ([3; 5] ++ 1 :: [4; 2]); symmetry; apply (Permutation_middle [3; 5] [4; 2] 1)|]. constructor.
    transitivity (2 :: [3; 5; 4]); [symmetry; apply (Permutation_cons_append [3; 5; 4] 2)|]. constructor. constructor. constructor. }
  split; [exact Hre|]. destruct C49_training_ex as (HT & Htgt & HA & HN & HU0 & HU1 & Hb & Hd & Hm). intros kind Hk.
  apply (C59_training true exr_cfg exr_data exr_data2 [3; 0; 5; 1; 4; 2] bst_sched (fun _ _ js => js) kind [] ex_rng _ Hre HT Htgt (HA kind Hk) exr_perm); try assumption.
  - intros i k js. reflexivity.
  - cbn. lia.
  - cbn. auto.
  - intros _. left. exact HN.
  - reflexivity.
  - cbn. lia.
Qed.

(* ---- f32 ---- *)
(** In f32 the absolute error computes with medians, counts and signs only: without high-cardinality features and with targets that are not -0 and of size at most 2^125, the same holds bit for bit, whatever [exp] and [ln] are. *)
Theorem C59_row_order_f32 : forall fexp fln dbg dbg' (cfg : config f32ops) (d d' : data f32ops) order sched sched' metrics g k target b b', reordered order d d' -> well_formed d -> any_order sched -> any_order sched' ->
  get_target d = Ok target -> (forall t, In t target -> is_finite t = true /\ t <> B754_zero true /\ (Rabs (B2R t) <= bpow radix2 125)%R) -> (forall f, feat_type_of d f <> Ok HiCardCat) ->
  c_example_fraction cfg = f_one -> (Z.of_nat (d_nexamples d) <= 2 ^ 24)%Z -> (1 <= c_min_examples_leaf cfg)%N -> 0 < c_sample_freq cfg ->
  boost_run (f32math fexp fln) dbg cfg d sched L1 metrics g k = Ok b -> boost_run (f32math fexp fln) dbg' cfg d' sched' L1 metrics g k = Ok b' ->
  bs_ensemble b' = bs_ensemble b /\ in_order order (ob_preds (bs_objective b)) (ob_preds (bs_objective b')).
Proof.
  intros fexp fln dbg dbg' cfg d d' order sched sched' metrics g k target b b' Hre HW Hs Hs' Ht Hfin Hcat Hfr Hn Hmin Hfreq E E'.
  assert (exists target', get_target d' = Ok target') as [target' Ht']. { unfold boost_run, boost_start in E'. apply rbind_ok in E' as (b0 & E' & _). apply rbind_ok in E' as (s & _ & E'). apply rbind_ok in E' as (t & Et & _). eauto. }
  assert (length target = d_nexamples d) as Hl. { destruct HW as (_ & _ & H). apply H. unfold get_target, get_feature in Ht. apply idx_ok in Ht. eapply nth_error_In, Ht. }
  assert (nlt f32ops (c_example_fraction cfg) (nofZ f32ops 1) = false) as Hfrac. { rewrite Hfr. reflexivity. }
  assert (Forall plain target) as Hplain. { apply Forall_forall. intros t Hin. destruct (Hfin t Hin) as (F & Z & _). split; [|exact Z]. clear - F. destruct t; try discriminate F; reflexivity. }
  destruct (run_rel f32ops (f32math fexp fln) dbg dbg' cfg d d' order Hre sched sched' Hs Hs' target target' Ht Ht' Hl L1) with (Gw := fun w : f32 => w = f_add f_one (EPSILON f32ops)) (Gg := fun _ : f32 => False) (metrics := metrics) (g := g) (k := k) (b := b) (b' := b') as [B1 B2 B3 B4 B5 B6 B7]; try assumption; auto.
  - intros l HP. exact (f_limits_perm target l HP Hplain).
  - intros preds l _ Hp HP. refine (f_limits_perm _ l HP _). apply Forall_forall. intros x Hx. unfold residuals in Hx. apply in_map_iff in Hx as ((t & p) & <- & Hin). pose proof (in_combine_l _ _ _ _ Hin) as H1. pose proof (in_combine_r _ _ _ _ Hin) as H2. destruct (Hfin t H1) as (F & Z & _). exact (sub_plain t p F Z (Hp p H2)).
  - intros ob Eo. unfold obj_initialize in Eo. cbn [ob_kind objective_new] in Eo. apply rbind_ok in Eo as (bias & Eb & Eo). apply Ok_inj in Eo. subst ob. cbn [ob_bias initialize_base]. refine (quantile_finite _ target bias _ Eb). intros t Hin. destruct (Hfin t Hin) as (F & _ & B). split; assumption.
  - intros x a c -> ->. reflexivity.
  - intros x a c [].
  - intros ob ob1 Hk Hp Eu. split; [|left; exact Hcat]. intros gr Hg. unfold obj_update in Eu. apply rbind_ok in Eu as (u1 & _ & Eu). apply rbind_ok in Eu as (u2 & _ & Eu). rewrite Hk in Eu. apply Ok_inj in Eu. subst ob1. cbn [ob_grads] in Hg. unfold pair_gradients in Hg. apply in_map_iff in Hg as ((t & p) & <- & Hin). pose proof (in_combine_l _ _ _ _ Hin) as H1. pose proof (in_combine_r _ _ _ _ Hin) as H2. destruct (Hfin t H1) as (F & Z & _).
    refine (f_equal (fun w => f_add w (EPSILON f32ops)) _). exact (l1_weight t p F (Hp p H2)).
  - rewrite Hfr. apply scaled_all. exact Hn.
  - lia.
  - split; [exact B4|]. apply (rows_in_order f32ops d d'); [exact Hre|apply (or_preds _ _ _ _ _ _ B2)].
Qed.
Print Assumptions C59_row_order_f32.
(** [bst_data] and the same rows in the order 3, 0, 5, 1, 4, 2. *)
Definition row_cfg : config f32ops :=
  @mk_config f32ops String.EmptyString String.EmptyString String.EmptyString [] 2%N true 44%N [0; 1] 2 f_half (fz 0) 1%N (fz 0) (fz 1) 4 4 2 f_half (fz 1) 1%N (fz 1) f_one 1.
Definition bst_data2 : data f32ops :=
  @mk_data f32ops 4 2 6 [[fz 1; fz 0; fz 1; fz 0; fz 1; fz 0]; [fz 0; fz 0; fz 1; fz 1; fz 0; fz 2]; [fz 5; fz 1; fz 13; fz 2; fz 8; fz 3]]
    [(fz 0, fz 1); (fz 0, fz 2); (fz 1, fz 13)] [LoCardCat; LoCardCat; Numerical] [2; 3; 0].
Lemma fz_target z : (1 <= z <= 2 ^ 24)%Z -> is_finite (fz z) = true /\ fz z <> B754_zero true /\ (Rabs (B2R (fz z)) <= bpow radix2 125)%R.
Proof.
  intros Hz. destruct (f_of_Z_exact z) as (F & B); [lia|]. split; [exact F|]. split.
  - intros E. unfold fz in E. rewrite E in B. cbn [B2R] in B. apply eq_IZR in B. lia.
  - unfold fz. rewrite B, <- abs_IZR. apply Rle_trans with (IZR (2 ^ 24)); [apply IZR_le; lia|]. change (IZR (2 ^ 24)) with (bpow radix2 24). apply bpow_le. lia.
Qed.
Example C59_f32_ex : reordered [3; 0; 5; 1; 4; 2] bst_data bst_data2 /\ well_formed bst_data /\ (exists target, get_target bst_data = Ok target /\ forall t, In t target -> is_finite t = true /\ t <> B754_zero true /\ (Rabs (B2R t) <= bpow radix2 125)%R) /\
  (forall f, feat_type_of bst_data f <> Ok HiCardCat) /\
  (match boost_run bst_math true row_cfg bst_data bst_sched L1 [] ex_rng 2 with Ok b => map nleafs (at_trees (bs_ensemble b)) | _ => [] end) = [3; 3] /\
  (match boost_run bst_math false row_cfg bst_data2 (fun _ _ js => js) L1 [] ex_rng 2 with Ok b => map nleafs (at_trees (bs_ensemble b)) | _ => [] end) = [3; 3].
Proof.
  split. { split; [|repeat split; repeat constructor]. cbn [d_nexamples bst_data seq]. transitivity [0; 3; 5; 1; 4; 2]; [constructor|]. constructor. transitivity [1; 3; 5; 4; 2]; [change [3; 5; 1; 4; 2] with ([3; 5] ++ 1 :: [4; 2]); symmetry; apply (Permutation_middle [3; 5] [4; 2] 1)|]. constructor.
    transitivity (2 :: [3; 5; 4]); [symmetry; apply (Permutation_cons_append [3; 5; 4] 2)|]. constructor. constructor. constructor. }
  destruct C25_ex as (HW & _). split; [exact HW|]. split.
  - eexists. split; [unfold get_target, get_feature, bst_data; cbn [d_features d_nfeatures idx nth_error]; reflexivity|]. intros t Hin. cbn [In] in Hin. repeat destruct Hin as [<-|Hin]; try destruct Hin; apply fz_target; lia.
  - split; [intros [|[|[|f]]]; cbn; try congruence; destruct f; discriminate|]. split; vm_compute; reflexivity.
Qed.

Lemma train_release O (M : mathops O) cfg d sched kind metrics g m : boost_train M true cfg d sched kind metrics g = Ok m -> boost_train M false cfg d sched kind metrics g = Ok m.
Proof. unfold boost_train. intros E. apply rbind_ok in E as (b & E & Em). rewrite (C58_training O M cfg d sched kind metrics g _ b E). exact Em. Qed.
(** The squared error sums in f32: targets 2^24, 1, 1 and the same rows in the order 1, 2, 0 give models with different biases. *)
Definition big_data (a b c : Z) (x y z : Z) : data f32ops :=
  @mk_data f32ops 4 1 3 [[fz x; fz y; fz z]; [fz a; fz b; fz c]] [(fz 0, fz 1); (fz 1, fz 16777216)] [LoCardCat; Numerical] [2; 0].
Theorem C59_f32_refuted : exists (cfg : config f32ops) (d d' : data f32ops) order b b', reordered order d d' /\ well_formed d /\ c_example_fraction cfg = f_one /\
  (forall dbg, boost_train bst_math dbg cfg d bst_sched L2 [] ex_rng = Ok b) /\ (forall dbg, boost_train bst_math dbg cfg d' bst_sched L2 [] ex_rng = Ok b') /\ f_eq (at_bias b) (at_bias b') = false.
Proof.
  exists row_cfg, (big_data 16777216 1 1 0 1 1), (big_data 1 1 16777216 1 1 0), [1; 2; 0].
  assert (match boost_train bst_math true row_cfg (big_data 16777216 1 1 0 1 1) bst_sched L2 [] ex_rng, boost_train bst_math true row_cfg (big_data 1 1 16777216 1 1 0) bst_sched L2 [] ex_rng with Ok b, Ok b' => f_eq (at_bias b) (at_bias b') | _, _ => true end = false) as H by (vm_compute; reflexivity).
  destruct (boost_train bst_math true row_cfg (big_data 16777216 1 1 0 1 1) bst_sched L2 [] ex_rng) as [b| | |] eqn:E; [|exfalso; exact (Bool.diff_true_false H)..].
  destruct (boost_train bst_math true row_cfg (big_data 1 1 16777216 1 1 0) bst_sched L2 [] ex_rng) as [b'| | |] eqn:E'; [|exfalso; exact (Bool.diff_true_false H)..].
  exists b, b'. split. { split; [|repeat split; repeat constructor]. cbn [d_nexamples big_data seq]. symmetry. apply (Permutation_cons_append [1; 2] 0). }
  split; [split; [cbn; lia|split; [cbn; lia|intros col [<-|[<-|[]]]; reflexivity]]|]. split; [reflexivity|]. split; [|split; [|exact H]].
  - intros []; [exact E|]. apply train_release, E.
  - intros []; [exact E'|]. apply train_release, E'.
Qed.
Print Assumptions C59_f32_refuted.
