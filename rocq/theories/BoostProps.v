(** Properties C25: boosting. *)
From Coq Require Import Reals Lra Permutation Sorting.Sorted.
From Flocq Require Import Core BinarySingleNaN.
From Verif Require Import Base BaseProofs F32 F32Proofs Num ScaledProofs DataModel DataSpec Config TreeModel TreeSpec TreeProofs TreeProps DatasetModel DatasetSpec DatasetProofs DatasetProofs2 DatasetProofs3 DatasetProofs4 DatasetProofs5 DatasetProofs6 DatasetProps
  RouteProps LearnerModel LearnerSpec TrainSpec LearnerProps TrainProps ObjectiveModel ObjectiveProps MetricModel BoostModel BoostSpec BoostProofs.
Local Close Scope R_scope.

(* ---- C25 ---- *)

Lemma f_add_zero (x : f32) s : is_finite x = true -> ~ is_zero x -> f_add x (B754_zero s) = x.
Proof. intros F N. destruct x as [s'|s'| |s' m e h]; try discriminate; [destruct N; exists s'; reflexivity|reflexivity]. Qed.
Lemma f_zero_add (x : f32) s : is_finite x = true -> ~ is_zero x -> f_add (B754_zero s) x = x.
Proof. intros F N. destruct x as [s'|s'| |s' m e h]; try discriminate; [destruct N; exists s'; reflexivity|reflexivity]. Qed.
Lemma f_add_zeros s s' : is_zero (f_add (B754_zero s) (B754_zero s')).
Proof. destruct s, s'; eexists; reflexivity. Qed.
Lemma zero_dec (x : f32) : is_zero x \/ ~ is_zero x.
Proof. destruct x as [s| | |]; [left; exists s; reflexivity|right; intros [s' H]; discriminate..]. Qed.
Lemma same_add_l (x : f32) s s' : same_number (f_add x (B754_zero s)) (f_add x (B754_zero s')).
Proof. destruct x as [t|t| |t m e h]; [right; split; apply f_add_zeros|left; reflexivity..]. Qed.
Lemma same_add_r (x : f32) s s' : same_number (f_add (B754_zero s) x) (f_add (B754_zero s') x).
Proof. destruct x as [t|t| |t m e h]; [right; split; apply f_add_zeros|left; reflexivity..]. Qed.
Lemma same_number_add (p p' v v' : f32) : same_number p p' -> same_number v v' -> same_number (f_add p v) (f_add p' v').
Proof.
  intros [->|[[s ->] [s' ->]]] [->|[[u ->] [u' ->]]].
  - left. reflexivity.
  - apply same_add_l.
  - apply same_add_r.
  - right. split; apply f_add_zeros.
Qed.
Lemma f_one_mul (x : f32) : f_mul (f_of_Z 1) x = x.
Proof.
  destruct (f_of_Z_exact 1) as (F1 & B1); [lia|]. assert (Bsign (f_of_Z 1) = false) as S1 by reflexivity.
  assert (is_finite_strict (f_of_Z 1) = true) as FS by reflexivity.
  destruct x as [s|s| |s m e h].
  - unfold f_mul. destruct (f_of_Z 1) as [a|a| |a m e h]; try discriminate. cbn in S1. subst a. destruct s; reflexivity.
  - unfold f_mul. destruct (f_of_Z 1) as [a|a| |a m e h]; try discriminate. cbn in S1. subst a. destruct s; reflexivity.
  - unfold f_mul. destruct (f_of_Z 1) as [a|a| |a m e h]; try discriminate; reflexivity.
  - set (x := B754_finite s m e h : f32). pose proof (Bmult_correct 24 128 f32_prec f32_emax mode_NE (f_of_Z 1) x) as H. unfold f_mul.
    change (B2R (f_of_Z 1)) with (B2R' (f_of_Z 1)) in H. rewrite B1, Rmult_1_l in H.
    change (round radix2 (SpecFloat.fexp 24 128) (round_mode mode_NE) (B2R x)) with (rnd (B2R' x)) in H. rewrite rnd_generic in H by apply generic_f32.
    rewrite Rlt_bool_true in H by (apply B2R_lt_M). destruct H as (HB & HF & HS). rewrite F1 in HF. apply B2R_Bsign_inj; [exact HF|reflexivity|exact HB|].
    rewrite HS; [rewrite S1; destruct (Bsign x); reflexivity|]. destruct (Bmult mode_NE (f_of_Z 1) x); try reflexivity. discriminate HF.
Qed.
Lemma same_number_leaf (v : f32) : same_number v (f_mul (f_of_Z 1) (f_add v (f_of_Z 0))).
Proof. rewrite f_one_mul. change (f_of_Z 0) with (B754_zero false : f32). destruct v as [s|s| |s m e h]; [right; split; [exists s; reflexivity|apply f_add_zeros]|left; reflexivity..]. Qed.

Lemma well_formed_cols O (d : data O) : well_formed d -> 0 < length (d_features d) /\ d_nfeatures d <= length (d_features d) /\ forall col, In col (d_features d) -> length col = d_nexamples d.
Proof. intros (_ & H & H'). split; [lia|]. split; [lia|exact H']. Qed.

(** Categorical features, f32: after [k] iterations, for every [k], the running predictions are those of the model built so far (a bias and [k] trees). *)
Theorem C25_running_predictions : forall fexp fln dbg (cfg : config f32ops) (d : data f32ops) sched kind metrics g k b,
  well_formed d -> any_order sched -> 0 < c_sample_freq cfg -> (Z.of_nat (d_nexamples d) <= 2 ^ 24)%Z ->
  f_is_finite (c_example_fraction cfg) = true -> f_le f_zero (c_example_fraction cfg) = true -> f_le (c_example_fraction cfg) f_one = true ->
  (forall f ft, f < d_nfeatures d -> feat_type_of d f = Ok ft -> ft <> Numerical) ->
  (forall f col v, f < d_nfeatures d -> get_feature d f = Ok col -> In v col -> valid_category v) ->
  (forall f nb, max_nbins d f = Ok nb -> (Z.of_nat nb <= 2 ^ 24)%Z) ->
  boost_run (f32math fexp fln) dbg cfg d sched kind metrics g k = Ok b ->
  exists ps, additive_predict (bs_ensemble b) d = Ok ps /\ Forall2 same_number (ob_preds (bs_objective b)) ps /\ length ps = d_nexamples d /\
    length (at_trees (bs_ensemble b)) = k /\ at_bias (bs_ensemble b) = ob_bias (bs_objective b).
Proof.
  intros fexp fln dbg cfg d sched kind metrics g k b HW HO Hfr Hn24 Hf1 Hf2 Hf3 Hft Hval Hnb Hrun. pose proof HW as (Hn & _ & _).
  destruct (C27_sample_size (d_nexamples d) (c_example_fraction cfg) Hn24 Hf1 Hf2 Hf3) as (Hle & Hone).
  assert (exists sizes, hist_sizes d = Ok sizes) as (sizes & Hsz). { unfold boost_run in Hrun. apply rbind_ok in Hrun as (b0 & _ & Hrun). apply rbind_ok in Hrun as (sz & Esz & _). exists sz. exact Esz. }
  assert (boost_inv f32ops dbg cfg d same_number b /\ bs_iter b = k) as (HI & Hk).
  { refine (run_inv f32ops (f32math fexp fln) dbg cfg d sched same_number (fun x => or_introl eq_refl) same_number_add Hn (well_formed_cols _ d HW) HO _ _ sizes Hsz _ kind metrics g k b Hrun).
    - lia.
    - intros Hlt. cbn [f32ops nlt nofZ] in Hlt. destruct (f_le_nan_l _ _ Hf2) as [_ Nf]. destruct (f_of_Z_exact 1) as (F1 & B1); [lia|].
      assert (f_le f_one (c_example_fraction cfg) = true) as Hge.
      { apply f_le_key; [reflexivity|exact Nf|]. apply Rnot_lt_le. intros Hc. assert (f_lt (c_example_fraction cfg) f_one = true) as Hc'; [apply f_lt_key; [exact Nf|reflexivity|exact Hc]|]. unfold f_one in Hc'. rewrite Hlt in Hc'. discriminate. }
      assert (B2R' (c_example_fraction cfg) = 1%R) as HB.
      { apply f_le_key in Hge; [|reflexivity|exact Nf]. apply f_le_key in Hf3; [|exact Nf|reflexivity]. rewrite (key_finite f_one F1) in *. rewrite (key_finite _ Hf1) in *. unfold f_one in *. rewrite B1 in *. lra. }
      destruct (scaled_bounds (d_nexamples d) (c_example_fraction cfg) Hn24) as (Es & _); [rewrite HB; lra|exact Hf1|].
      destruct (scaled_bounds (d_nexamples d) f_one Hn24) as (Es' & _); [unfold f_one; rewrite B1; lra|exact F1|]. rewrite Es, HB. rewrite Es' in Hone. unfold f_one in Hone. rewrite B1 in Hone. exact Hone.
    - intros s iter grads bounds target t ob ob' HS Hc Hlg Et.
      destruct (C26_predicted_categorical _ _ _ _ _ _ _ _ _ _ _ _ _ _ _ HS Hn Hfr Hc Hlg (well_formed_cols _ d HW) Hft Hval Hnb Et) as (rows & gs & others & st1 & H1 & H2 & H3 & H4 & H5 & H6 & H7 & H8).
      exists rows, gs, others, st1. split; [exact H1|]. split; [exact H2|]. split; [exact H3|]. split; [exact H4|]. split; [exact H5|]. split; [exact H6|]. split; [exact H7|]. intros gr j Hg Hj. destruct (H8 gr j Hg Hj) as (_ & Hp).
      eexists. split; [exact Hp|]. apply same_number_leaf. }
  destruct (bi_preds _ _ _ _ _ _ HI) as (ps & Eps & HF). exists ps. split; [exact Eps|]. split; [exact HF|]. split; [rewrite <- (bi_len _ _ _ _ _ _ HI); symmetry; apply (proj1 (forall2_get _ _ _ HF))|].
  split; [rewrite <- Hk; apply (bi_trees _ _ _ _ _ _ HI)|apply (bi_bias _ _ _ _ _ _ HI)].
Qed.
Print Assumptions C25_running_predictions.

Lemma scaled_R n (fr : R) : (fr <= 1)%R -> (Z.of_nat n <= 18446744073709551615)%Z -> scaled_count (O := Rops) n fr <= n /\ (nlt Rops fr (nofZ Rops 1) = false -> scaled_count (O := Rops) n fr = n).
Proof.
  intros Hf Hn. unfold scaled_count, nofnat. cbn [Rops ntoZ nround nmul nofZ num nlt]. rewrite Ztrunc_IZR.
  assert (0 <= IZR (Z.of_nat n))%R as H0 by (apply IZR_le; lia). split.
  - assert (ZnearestA (IZR (Z.of_nat n) * fr) <= Z.of_nat n)%Z as H. { rewrite <- (ZnearestA_IZR (Z.of_nat n)) at 2. apply ZnearestA_le. nra. } lia.
  - intros Hlt. assert (fr = 1%R) as ->. { destruct (Rlt_bool_spec fr 1); [discriminate|lra]. } rewrite Rmult_1_r, ZnearestA_IZR. lia.
Qed.

(** Exact arithmetic, features of any kind. *)
Theorem C25_running_predictions_exact : forall dbg (cfg : config Rops) (d : data Rops) sched kind metrics g k b,
  well_formed d -> any_order sched -> 0 < c_sample_freq cfg -> (Z.of_nat (d_nexamples d) <= 2 ^ 31)%Z -> (1 <= c_min_examples_leaf cfg)%N -> (c_example_fraction cfg <= 1)%R ->
  (forall f col v, feat_type_of d f <> Ok Numerical -> get_feature d f = Ok col -> In v col -> category_R v) ->
  (forall f nb, max_nbins d f = Ok nb -> (Z.of_nat nb <= 2 ^ 32)%Z) ->
  boost_run Rmath dbg cfg d sched kind metrics g k = Ok b ->
  additive_predict (bs_ensemble b) d = Ok (ob_preds (bs_objective b)) /\ length (ob_preds (bs_objective b)) = d_nexamples d /\
  length (at_trees (bs_ensemble b)) = k /\ at_bias (bs_ensemble b) = ob_bias (bs_objective b).
Proof.
  intros dbg cfg d sched kind metrics g k b HW HO Hfr Hn31 Hmin Hf1 Hval Hnb Hrun. pose proof HW as (Hn & _ & _).
  destruct (scaled_R (d_nexamples d) (c_example_fraction cfg) Hf1 ltac:(lia)) as (Hle & Hone).
  assert (exists sizes, hist_sizes d = Ok sizes) as (sizes & Hsz). { unfold boost_run in Hrun. apply rbind_ok in Hrun as (b0 & _ & Hrun). apply rbind_ok in Hrun as (sz & Esz & _). exists sz. exact Esz. }
  assert (boost_inv Rops dbg cfg d eq b /\ bs_iter b = k) as (HI & Hk).
  { refine (run_inv Rops Rmath dbg cfg d sched eq (fun x => eq_refl) _ Hn (well_formed_cols _ d HW) HO _ Hone sizes Hsz _ kind metrics g k b Hrun).
    - intros p p' v v' -> ->. reflexivity.
    - lia.
    - intros s iter grads bounds target t ob ob' HS Hc Hlg Et.
      destruct (C26_predicted_exact _ _ _ _ _ _ _ _ _ _ _ _ _ _ _ HS Hn Hfr Hc Hlg Hmin (well_formed_cols _ d HW) Hval Hnb Et) as (rows & gs & others & st1 & H1 & H2 & H3 & H4 & H5 & H6 & H7 & H8).
      exists rows, gs, others, st1. split; [exact H1|]. split; [exact H2|]. split; [exact H3|]. split; [exact H4|]. split; [exact H5|]. split; [exact H6|]. split; [exact H7|]. intros gr j Hg Hj. destruct (H8 gr j Hg Hj) as (_ & Hp).
      eexists. split; [exact Hp|reflexivity]. }
  destruct (bi_preds _ _ _ _ _ _ HI) as (ps & Eps & HF). assert (ob_preds (bs_objective b) = ps) as Heq. { clear -HF. induction HF; congruence. }
  rewrite Heq in *. split; [exact Eps|]. split; [rewrite <- Heq; apply (bi_len _ _ _ _ _ _ HI)|]. split; [rewrite <- Hk; apply (bi_trees _ _ _ _ _ _ HI)|apply (bi_bias _ _ _ _ _ _ HI)].
Qed.
Print Assumptions C25_running_predictions_exact.

(** Two iterations on six examples with two categorical features, half of the examples sampled in each: the hypotheses of C25_running_predictions.  The metrics are evaluated in the second iteration. *)
Definition bst_cfg : config f32ops :=
  @mk_config f32ops String.EmptyString String.EmptyString String.EmptyString [] 2%N true 44%N [0; 1] 2 f_half (fz 0) 1%N (fz 0) (fz 1) 4 4 2 f_half (fz 1) 1%N (fz 1) f_half 1.
Definition bst_data : data f32ops :=
  @mk_data f32ops 4 2 6 [[fz 0; fz 0; fz 0; fz 1; fz 1; fz 1]; [fz 0; fz 1; fz 2; fz 0; fz 0; fz 1]; [fz 1; fz 2; fz 3; fz 5; fz 8; fz 13]]
    [(fz 0, fz 1); (fz 0, fz 2); (fz 1, fz 13)] [LoCardCat; LoCardCat; Numerical] [2; 3; 0].
Definition bst_math : mathops f32ops := f32math (fun x => x) (fun x => x).
Definition bst_sched : nat -> nat -> list job -> list job := fun _ => rev_sched.
Definition num_eqb (a b : list f32) : bool := (length a =? length b) && forallb (fun p => f_eq (fst p) (snd p)) (combine a b).
Lemma fz_category z : (0 <= z <= 2 ^ 24)%Z -> valid_category (fz z).
Proof. intros Hz. right. destruct (f_of_Z_exact z) as (F & B); [lia|]. split; [exact F|]. exists z. split; [lia|exact B]. Qed.
Lemma Ok_inj {A} (x y : A) : Ok x = Ok y -> x = y. Proof. congruence. Qed.
Example C25_ex : well_formed bst_data /\ any_order bst_sched /\
  f_is_finite (c_example_fraction bst_cfg) = true /\ f_le f_zero (c_example_fraction bst_cfg) = true /\ f_le (c_example_fraction bst_cfg) f_one = true /\
  (forall f ft, f < d_nfeatures bst_data -> feat_type_of bst_data f = Ok ft -> ft <> Numerical) /\
  (forall f col v, f < d_nfeatures bst_data -> get_feature bst_data f = Ok col -> In v col -> valid_category v) /\
  (forall f nb, max_nbins bst_data f = Ok nb -> (Z.of_nat nb <= 2 ^ 24)%Z) /\
  match boost_run bst_math true bst_cfg bst_data bst_sched L2 [ML2] ex_rng 2 with
  | Ok b => map nleafs (at_trees (bs_ensemble b)) = [3; 3] /\ length (bs_evals b) = 1 /\
      match additive_predict (bs_ensemble b) bst_data with Ok ps => num_eqb ps (ob_preds (bs_objective b)) = true /\ num_eqb ps (repeat (at_bias (bs_ensemble b)) 6) = false | _ => False end
  | _ => False
  end.
Proof.
  split; [split; [cbn; lia|split; [cbn; lia|intros col [<-|[<-|[<-|[]]]]; reflexivity]]|]. split; [intros i k js; apply rev_sched_perm|].
  split; [vm_compute; reflexivity|]. split; [vm_compute; reflexivity|]. split; [vm_compute; reflexivity|].
  split; [intros [|[|f]] ft Hf E; cbn in *; [injection E as <-; discriminate..|lia]|].
  split; [intros [|[|f]] col v Hf E Hin; cbn [d_nfeatures bst_data] in Hf; unfold get_feature, bst_data in E; cbn [d_features idx nth_error] in E; [apply Ok_inj in E; subst col; cbn [In] in Hin; repeat destruct Hin as [<-|Hin]; try destruct Hin; apply fz_category; lia..|lia]|].
  split; [intros [|[|[|f]]] nb E; cbn in E; [injection E as <-; lia..|]; destruct f; discriminate|].
  vm_compute. repeat split.
Qed.

(** In f32 the property fails for numerical features: after one iteration the running prediction of example 1 differs from what the model predicts for it (C24_rounding_refuted). *)
Definition rt_data_items : list csv_item := map (fun p => CsvRecord [Some (fst p); Some (snd p)]) (combine [rt_lo; rt_v; rt_v; rt_hi] [fz 1; fz 1; fz 1; fz 0]).
Theorem C25_numerical_refuted : exists d b ps, from_csv (mk_dcfg 1 []) rt_data_items = Ok (Done d) /\ boost_run bst_math false rt_cfg d bst_sched L2 [] ex_rng 1 = Ok b /\
  additive_predict (bs_ensemble b) d = Ok ps /\ map (fun p => f_eq (fst p) (snd p)) (combine ps (ob_preds (bs_objective b))) = [true; false; false; true].
Proof.
  assert (match from_csv (mk_dcfg 1 []) rt_data_items with
          | Ok (Done d) =>
            match boost_run bst_math false rt_cfg d bst_sched L2 [] ex_rng 1 with
            | Ok b => match additive_predict (bs_ensemble b) d with Ok ps => map (fun p => f_eq (fst p) (snd p)) (combine ps (ob_preds (bs_objective b))) = [true; false; false; true] | _ => False end
            | _ => False
            end
          | _ => False
          end) as H by (vm_compute; reflexivity).
  destruct (from_csv (mk_dcfg 1 []) rt_data_items) as [[d|]| | |]; try destruct H. exists d.
  destruct (boost_run bst_math false rt_cfg d bst_sched L2 [] ex_rng 1) as [b| | |]; try destruct H. exists b.
  destruct (additive_predict (bs_ensemble b) d) as [ps| | |]; try destruct H. exists ps. auto.
Qed.
Print Assumptions C25_numerical_refuted.

(* ---- C48 ---- *)

(** The reported metric values: one list for every iteration [j] that is a multiple of the metric frequency, with the value of each metric on the targets and the running predictions after [j] iterations. *)
Theorem C48_reports : forall O (M : mathops O) dbg cfg d sched kind metrics g k b, boost_run M dbg cfg d sched kind metrics g k = Ok b ->
  exists target preds, get_target d = Ok target /\
    (forall j, j <= k -> exists bj, boost_run M dbg cfg d sched kind metrics g j = Ok bj /\ ob_preds (bs_objective bj) = preds j) /\
    bs_evals b = map (fun j => map (fun m => metric_eval M m target (preds j)) metrics)
      (filter (fun j => negb (length metrics =? 0) && (0 <? N.to_nat (c_metric_frequency cfg)) && (j mod N.to_nat (c_metric_frequency cfg) =? 0)) (seq 1 k)).
Proof.
  intros O M dbg cfg d sched kind metrics g k b Hrun.
  assert (exists target, get_target d = Ok target) as (target & Etgt).
  { unfold boost_run in Hrun. apply rbind_ok in Hrun as (b0 & E0 & _). unfold boost_start in E0. apply rbind_ok in E0 as (s & _ & E0). apply rbind_ok in E0 as (tg & E & _). exists tg. exact E. }
  exists target.
  assert (forall k b, boost_run M dbg cfg d sched kind metrics g k = Ok b ->
    (forall j, j <= k -> exists bj, boost_run M dbg cfg d sched kind metrics g j = Ok bj) /\ bs_iter b = k /\
    exists preds, (forall j bj, j <= k -> boost_run M dbg cfg d sched kind metrics g j = Ok bj -> ob_preds (bs_objective bj) = preds j) /\
    bs_evals b = map (fun j => map (fun m => metric_eval M m target (preds j)) metrics) (filter (run_metrics cfg metrics) (seq 1 k))) as H.
  { clear k b Hrun. induction k as [|k IH]; intros b Hrun.
    - split; [intros j Hj; exists b; replace j with 0 by lia; exact Hrun|]. split.
      + unfold boost_run in Hrun. apply rbind_ok in Hrun as (b0 & E0 & Hrun). apply rbind_ok in Hrun as (sz & _ & Hrun). injection Hrun as <-. unfold boost_start in E0.
        apply rbind_ok in E0 as (s & _ & E0). apply rbind_ok in E0 as (tg & _ & E0). apply rbind_ok in E0 as (ob & _ & E0). injection E0 as <-. reflexivity.
      + exists (fun _ => ob_preds (bs_objective b)). split.
        * intros j bj Hj Ej. replace j with 0 in Ej by lia. congruence.
        * unfold boost_run in Hrun. apply rbind_ok in Hrun as (b0 & E0 & Hrun). apply rbind_ok in Hrun as (sz & _ & Hrun). injection Hrun as <-. unfold boost_start in E0.
          apply rbind_ok in E0 as (s & _ & E0). apply rbind_ok in E0 as (tg & _ & E0). apply rbind_ok in E0 as (ob & _ & E0). injection E0 as <-. reflexivity.
    - pose proof Hrun as Hrun0. unfold boost_run in Hrun. apply rbind_ok in Hrun as (b0 & E0 & Hrun). apply rbind_ok in Hrun as (sz & Esz & Hrun). rewrite seq_S, foldM_app in Hrun. apply rbind_ok in Hrun as (b1 & E1 & Hrun).
      cbn [foldM] in Hrun. apply rbind_ok in Hrun as (b2 & E2 & Hrun). injection Hrun as ->.
      assert (boost_run M dbg cfg d sched kind metrics g k = Ok b1) as Ek by (unfold boost_run; rewrite E0; cbn [rbind]; rewrite Esz; exact E1).
      destruct (IH b1 Ek) as (Hex & Hit & preds & Hp & Hev). unfold train_one_iter in E2. apply rbind_ok in E2 as (tg & Etg & E2). assert (tg = target) as -> by congruence. clear Etg.
      apply rbind_ok in E2 as (ob & _ & E2). apply rbind_ok in E2 as (s & _ & E2). apply rbind_ok in E2 as ((t & ob') & _ & E2). rewrite Hit in E2. injection E2 as <-.
      split; [|split; [reflexivity|]].
      + intros j Hj. destruct (Nat.eq_dec j (S k)) as [->|Hne]; [eexists; exact Hrun0|apply Hex; lia].
      + exists (fun j => if j =? S k then ob_preds ob' else preds j). split.
        * intros j bj Hj Ej. destruct (Nat.eqb_spec j (S k)) as [->|Hne]; [rewrite Hrun0 in Ej; injection Ej as <-; reflexivity|apply Hp; [lia|exact Ej]].
        * cbn [bs_evals]. rewrite seq_S, filter_app, map_app. cbn [plus]. rewrite Hev.
          assert (forall l, (forall j, In j l -> j <= k) -> map (fun j => map (fun m => metric_eval M m target (preds j)) metrics) l = map (fun j => map (fun m => metric_eval M m target (if j =? S k then ob_preds ob' else preds j)) metrics) l) as HM.
          { intros l Hl. apply map_ext_in. intros j Hj. specialize (Hl j Hj). destruct (Nat.eqb_spec j (S k)); [lia|reflexivity]. }
          rewrite <- HM by (intros j Hj; apply filter_In in Hj as [Hj _]; apply in_seq in Hj; lia). cbn [filter].
          destruct (run_metrics cfg metrics (S k)); [|rewrite app_nil_r; reflexivity]. cbn [map]. rewrite Nat.eqb_refl. reflexivity. }
  destruct (H k b Hrun) as (Hex & _ & preds & Hp & Hev). exists preds. split; [exact Etgt|]. split; [|exact Hev].
  intros j Hj. destruct (Hex j Hj) as (bj & Ej). exists bj. split; [exact Ej|exact (Hp j bj Hj Ej)].
Qed.
Print Assumptions C48_reports.
