(** Property C49 for long f32 runs of the objective L2: the fit does not deteriorate (C56), so the predictions do not overflow. *)
From Coq Require Import Reals Psatz.
From Flocq Require Import Core BinarySingleNaN.
From Verif Require Import Base BaseProofs SliceModel F32 F32Proofs Num DataModel DataSpec Config TreeModel DatasetModel DatasetSpec DatasetProofs6 LearnerModel LearnerSpec TrainSpec ObjectiveModel MetricModel BoostModel BoostSpec BoostProps
  TotalSpec TotalProofs2 TotalProofs5 TotalProofs6 TotalProps FitErrProps FitErrProofs2.
Local Close Scope R_scope. Local Open Scope nat_scope.

(** f32 training of the squared error on all examples succeeds and delivers the requested number of trees, for every order of the jobs and all random draws: targets of at most [2^a], at most [2^(2h)] examples,
    [(n + 4) * iterations <= q * 2^23] and [a + 3h + q + 7 <= 127].  With targets of up to a million this covers a million examples and 580 iterations, or ten thousand examples and 66000 iterations. *)
Theorem C49_long_f32 : forall fexp fln dbg (cfg : config f32ops) (d : data f32ops) sched metrics g target (a : Z) (h q : nat),
  trainable cfg d -> no_hicard d -> get_target d = Ok target -> any_order sched ->
  (0 <= a)%Z -> (forall t, In t target -> is_finite t = true /\ (Rabs (B2R t) <= bpow radix2 a)%R) ->
  h <= 12 -> (Z.of_nat (d_nexamples d) <= 2 ^ Z.of_nat (2 * h))%Z -> (Z.of_nat ((d_nexamples d + 4) * c_niterations cfg) <= Z.of_nat q * 2 ^ 23)%Z -> (a + 3 * Z.of_nat h + Z.of_nat q + 7 <= 127)%Z ->
  (Z.of_nat (c_max_nbins cfg + 1) <= 2 ^ 24)%Z -> c_example_fraction cfg = f_one -> f_le f_zero (c_learning_rate cfg) = true -> f_le (c_learning_rate cfg) f_one = true ->
  (exists f nb, f < d_nfeatures d /\ max_nbins d f = Ok nb /\ 0 < nb) ->
  (c_discr_nbits cfg = 1 \/ c_discr_nbits cfg = 2 \/ c_discr_nbits cfg = 4 \/ c_discr_nbits cfg = 8) -> 0 < c_max_tree_depth cfg -> (1 <= c_min_examples_leaf cfg)%N ->
  exists m, boost_train (f32math fexp fln) dbg cfg d sched L2 metrics g = Ok m /\ length (at_trees m) = c_niterations cfg.
Proof.
  intros fexp fln dbg cfg d sched metrics g target a h q HT HN Htgt HO Ha Htg Hh Hnh Hq Hexp Hnb Hfr Hl0 Hl1 Hbins Hw Hdep Hmin.
  assert (length target = d_nexamples d) as Ht. { apply idx_ok in Htgt. destruct HT as ((_ & _ & H) & _). apply H. eapply nth_error_In, Htgt. }
  assert (0 < d_nexamples d) as Hpos by apply HT. destruct (unit_range _ Hl0 Hl1) as (Fl & Bl).
  assert (Z.of_nat (d_nexamples d) <= 2 ^ 24)%Z as H24 by (pose proof (Z.pow_le_mono_r 2 (Z.of_nat (2 * h)) 24); lia).
  set (gb := ndiv f32ops (nofZ f32ops 5) (nofZ f32ops 4)).
  destruct (init_all fexp fln target (d_nexamples d) Ht Hpos a h q (c_niterations cfg) Ha Hh Hnh Hq Hexp Htg (c_learning_rate cfg) gb dbg cfg eq_refl eq_refl) as (ob0 & E0 & I0).
  destruct (run_all f32ops (f32math fexp fln) dbg cfg d sched (laws_f32 _ _ Hnb H24) HT HO) with (target := target) (K := c_niterations cfg) (k := c_niterations cfg)
    (I := start target (d_nexamples d) a (c_learning_rate cfg) gb) (J := middle target (d_nexamples d) a (c_learning_rate cfg) gb) (v0 := f_of_Z 0)
    (kind := L2) (metrics := metrics) (g := g) (ob0 := ob0) as (b & Eb & _ & Hlen); try assumption.
  - rewrite Hfr. change f_one with (f_of_Z 1). rewrite scaled_all by exact H24. lia.
  - rewrite Hfr. reflexivity.
  - destruct Hw as [->|[->|[->| ->]]]; reflexivity.
  - reflexivity.
  - intros k ob Hk HS. eapply upd_all; try eassumption. reflexivity.
  - intros k ex done ob Hk HM Hne HNd Hex. eapply leaf_all; eassumption.
  - intros k done ob Hk HM. eapply middle_start; eassumption.
  - lia.
  - unfold boost_train. rewrite Eb. cbn [rbind]. eauto.
Qed.
Print Assumptions C49_long_f32.

(** The hypotheses: six examples and five thousand iterations. *)
Example C49_long_f32_ex : trainable (hng_cfg 5000) hng_data /\ no_hicard hng_data /\ get_target hng_data = Ok hng_target /\ any_order bst_sched /\
  (forall t, In t hng_target -> is_finite t = true /\ (Rabs (B2R t) <= bpow radix2 0)%R) /\ (Z.of_nat (d_nexamples hng_data) <= 2 ^ Z.of_nat (2 * 2))%Z /\
  (Z.of_nat ((d_nexamples hng_data + 4) * c_niterations (hng_cfg 5000)) <= Z.of_nat 1 * 2 ^ 23)%Z /\ (0 + 3 * Z.of_nat 2 + Z.of_nat 1 + 7 <= 127)%Z /\ c_example_fraction (hng_cfg 5000) = f_one /\
  f_le f_zero (c_learning_rate (hng_cfg 5000)) = true /\ f_le (c_learning_rate (hng_cfg 5000)) f_one = true /\ (exists f nb, f < d_nfeatures hng_data /\ max_nbins hng_data f = Ok nb /\ 0 < nb).
Proof.
  destruct C49_training_f32_ex as (_ & _ & H3 & H4 & _ & H6 & _ & H8 & H9 & _). destruct H4 as (_ & a & m & _).
  split; [apply hng_trainable|]. split; [exact H9|]. split; [exact H3|]. split; [exact H6|]. split.
  { assert (forall z, (0 <= z <= 1)%Z -> is_finite (f_of_Z z) = true /\ (Rabs (B2R (f_of_Z z)) <= bpow radix2 0)%R) as H.
    { intros z Hz. destruct (f_of_Z_exact z) as (F & B); [lia|]. split; [exact F|]. rewrite B. rewrite <- abs_IZR. apply IZR_le. lia. }
    intros t Ht. unfold hng_target in Ht. cbn [In] in Ht. repeat destruct Ht as [<-|Ht]; try destruct Ht; apply H; lia. }
  split; [cbn; lia|]. split; [cbn [d_nexamples hng_data c_niterations hng_cfg]; lia|]. split; [lia|]. split; [reflexivity|]. split; [vm_compute; reflexivity|]. split; [vm_compute; reflexivity|]. exact H8.
Qed.
