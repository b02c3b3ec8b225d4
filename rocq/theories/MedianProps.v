(** C49 for the absolute and the Huber error (exact arithmetic): training goes on exactly until all residuals are equal. *)
From Coq Require Import Permutation Reals Lra.
From Flocq Require Import Core.
From Verif Require Import Base BaseProofs SliceModel Num F32 DataModel BinnerModel BinnerProofs Config TreeModel DatasetModel DatasetSpec LearnerModel LearnerSpec LearnerProofs3 LearnerProps TrainSpec TrainProps ObjectiveModel MetricModel BoostModel BoostSpec BoostProofs BoostProps
  PrefixProps TotalSpec TotalProofs TotalProofs2 TotalProofs3 TotalProofs4 TotalProps DatasetProofs3 DatasetProofs4 DatasetProofs5 DatasetProofs6 DatasetProps MedianSpec.
Local Close Scope R_scope.

Lemma quantile_total nbins (al lo hi : R) (vs : list R) : 0 < nbins -> (lo < hi)%R -> exists v, quantile Rops nbins al (lo, hi) vs = Ok v.
Proof.
  intros Hn Hlt. unfold quantile, binner_new. cbn [fst snd nisfin nlt Rops rassert rbind]. rewrite (Rlt_bool_true _ _ Hlt). cbn [rassert rbind]. rewrite repeat_length. replace (nbins =? 0) with false by (symmetry; apply Nat.eqb_neq; lia). cbn [negb rassert rbind].
  match goal with |- context [binner_insert_all ?b ?its] => set (b0 := b); set (items := its) end.
  assert (bn_bins b0 <> []) as H0. { cbn. destruct nbins; [lia|discriminate]. }
  destruct (insert_all_ok Rops N items b0 H0) as (b & Eb & _ & _ & HL & _). rewrite (Eb : binner_insert_all b0 items = Ok b). cbn [rbind].
  match goal with |- context [bin_with_rank _ _ _ _ b ?r] => set (rank := r) end. destruct (bin_with_rank_ok N N 0%N N.leb N.add (fun x => x) b rank) as (i & Ei & _).
  - intros E. rewrite E in HL. destruct (bn_bins b0); [contradiction|discriminate].
  - apply N.leb_le. lia.
  - rewrite Ei. cbn [rbind]. eauto.
Qed.
Lemma quantile_stuck nbins (al r : R) (vs : list R) v : quantile Rops nbins al (r, r) vs <> Ok v.
Proof. unfold quantile, binner_new. cbn [fst snd nisfin nlt Rops rassert rbind]. rewrite Rlt_bool_false by lra. discriminate. Qed.

Lemma fold_min (l : list R) : forall x, (fold_left Rmin l x <= x)%R /\ forall y, In y l -> (fold_left Rmin l x <= y)%R.
Proof.
  induction l as [|z l IH]; intros x; cbn [fold_left]; [split; [lra|intros y []]|]. destruct (IH (Rmin x z)) as [A B]. pose proof (Rmin_l x z). pose proof (Rmin_r x z). split; [lra|]. intros y [->|Hy]; [lra|apply B, Hy].
Qed.
Lemma fold_max (l : list R) : forall x, (x <= fold_left Rmax l x)%R /\ forall y, In y l -> (y <= fold_left Rmax l x)%R.
Proof.
  induction l as [|z l IH]; intros x; cbn [fold_left]; [split; [lra|intros y []]|]. destruct (IH (Rmax x z)) as [A B]. pose proof (Rmax_l x z). pose proof (Rmax_r x z). split; [lra|]. intros y [->|Hy]; [lra|apply B, Hy].
Qed.
Lemma limits_within (l : list R) x : In x l -> (fst (R_limits l) <= x <= snd (R_limits l))%R.
Proof. destruct l as [|y l]; [intros []|]. cbn [R_limits fst snd]. destruct (fold_min l y) as [A B], (fold_max l y) as [C D]. intros [->|H]; [split; assumption|]. split; auto. Qed.
Lemma limits_spread (l : list R) x y : In x l -> In y l -> x <> y -> (fst (R_limits l) < snd (R_limits l))%R.
Proof. intros Hx Hy Hne. apply limits_within in Hx, Hy. destruct (Rtotal_order x y) as [H|[H|H]]; [|contradiction|]; lra. Qed.
Lemma limits_same (l : list R) r : (forall x, In x l -> x = r) -> l <> [] -> R_limits l = (r, r).
Proof.
  destruct l as [|y l]; [contradiction|]. intros H _. cbn [R_limits]. assert (y = r) as -> by (apply H; left; reflexivity). assert (forall x, In x l -> x = r) as H' by (intros; apply H; right; assumption). clear H.
  f_equal; induction l as [|z l IH]; cbn [fold_left]; try reflexivity; rewrite (H' z) by (left; reflexivity); [rewrite Rmin_left by lra|rewrite Rmax_left by lra]; apply IH; intros; apply H'; right; assumption.
Qed.
(** Decide whether all residuals are equal. *)
Lemma same_dec (l : list R) : (exists r, forall x, In x l -> x = r) \/ exists x y, In x l /\ In y l /\ x <> y.
Proof.
  destruct l as [|x l]; [left; exists 0%R; intros x []|]. induction l as [|y l IH]; [left; exists x; intros z [->|[]]; reflexivity|].
  destruct IH as [[r H]|(a & b & Ha & Hb & Hne)].
  - destruct (Req_dec y x) as [->|Hne]; [|right; exists y, x; cbn; auto]. left. exists x. intros z [->|[->|Hz]]; try reflexivity. rewrite (H z), (H x); [reflexivity|left; reflexivity|right; exact Hz].
  - right. exists a, b. cbn in *. tauto.
Qed.
Lemma residuals_in (target preds : list R) i t p : nth_error target i = Some t -> nth_error preds i = Some p -> In (t - p)%R (@residuals Rops target preds).
Proof.
  revert preds i. induction target as [|t0 target IH]; intros [|p0 preds] [|i] E1 E2; try discriminate; cbn in E1, E2.
  - injection E1 as ->. injection E2 as ->. left. reflexivity.
  - right. eapply IH; eassumption.
Qed.
Lemma residuals_of (target preds : list R) x : In x (@residuals Rops target preds) -> exists i t p, nth_error target i = Some t /\ nth_error preds i = Some p /\ x = (t - p)%R.
Proof.
  revert preds. induction target as [|t0 target IH]; intros [|p0 preds] H; try destruct H as [<-|H]; try (cbn in H; contradiction).
  - exists 0, t0, p0. auto.
  - destruct (IH preds H) as (i & t & p & A & B & C). exists (S i), t, p. auto.
Qed.
Lemma same_iff (target preds : list R) : same_residuals target preds <-> exists r, forall x, In x (@residuals Rops target preds) -> x = r.
Proof.
  split; intros [r H]; exists r.
  - intros x Hx. apply residuals_of in Hx as (i & t & p & A & B & ->). eapply H; eassumption.
  - intros i t p A B. apply H. eapply residuals_in; eassumption.
Qed.

Section Median.
Variable dbg : bool.
Variable cfg : config Rops.
Variable d : data Rops.
Variable sched : nat -> nat -> list job -> list job.
Variable kind : obj_kind.
Variable target : list R.
Hypothesis HT : trainable cfg d.
Hypothesis Htgt : get_target d = Ok target.
Hypothesis HK : median_settings cfg d kind.
Hypothesis HO : any_order sched.
Hypothesis Hn : (Z.of_nat (d_nexamples d) <= 2 ^ 31)%Z.
Hypothesis Hbins : exists f nb, f < d_nfeatures d /\ max_nbins d f = Ok nb /\ 0 < nb.
Hypothesis Hw : valid_width (c_discr_nbits cfg) = true.
Hypothesis Hdep : 0 < c_max_tree_depth cfg.
Hypothesis Hmin : (1 <= c_min_examples_leaf cfg)%N.
Hypothesis Hdbg : dbg = true -> no_hicard d \/ c_max_nbins cfg + 1 <= 2 * scaled_count (d_nexamples d) (c_example_fraction cfg).
Notation n := (d_nexamples d).
Lemma med_len : length target = n.
Proof. apply idx_ok in Htgt. destruct HT as ((_ & _ & H) & _). apply H. eapply nth_error_In, Htgt. Qed.
Lemma med_count : (N.of_nat (scaled_count n (c_example_fraction cfg)) <= 2 ^ 31)%N.
Proof. destruct HT as (_ & _ & _ & _ & _ & _ & _ & Hs & _). lia. Qed.

Definition mbase (ob : objective Rops) : Prop := ob_kind ob = kind /\ length (ob_preds ob) = n /\ length (ob_grads ob) = n.
Definition mbounds (ob : objective Rops) : Prop := exists lo hi : R, ob_bounds ob = (lo, hi) /\ (lo < hi)%R.
Definition spread (ob : objective Rops) : Prop := exists x y, In x (@residuals Rops target (ob_preds ob)) /\ In y (@residuals Rops target (ob_preds ob)) /\ x <> y.
Lemma spread_limits ob : spread ob -> exists lo hi : R, m_limits Rmath (@residuals Rops target (ob_preds ob)) = (lo, hi) /\ (lo < hi)%R.
Proof. intros (x & y & Hx & Hy & Hne). exists (fst (R_limits (@residuals Rops target (ob_preds ob)))), (snd (R_limits (@residuals Rops target (ob_preds ob)))). split; [apply surjective_pairing|]. exact (limits_spread _ x y Hx Hy Hne). Qed.

Lemma med_update ob : mbase ob -> spread ob -> exists ob', obj_update Rmath target ob = Ok ob' /\ usable_gradients dbg cfg d (ob_grads ob') (obj_bounds ob') /\ mbase ob' /\ mbounds ob'.
Proof.
  intros (K & Lp & Lg) HSp. destruct (spread_limits ob HSp) as (lo & hi & El & Hlt). unfold obj_update. change (num Rops) with R in *. rewrite Lp, Lg, med_len, Nat.eqb_refl. cbn [rassert rbind].
  assert (forall (gs : list R), length gs = n -> forall bounds, no_hicard d \/ proper_limits bounds -> usable_gradients dbg cfg d gs bounds) as HU.
  { intros gs Hl bounds Hh. split; [exact Hl|]. split; [intros g _; cbn; apply Req_bool_true; reflexivity|]. destruct Hh as [Hh|Hh]; [left; exact Hh|].
    destruct dbg; [|right; split; [exact Hh|discriminate]]. destruct (Hdbg eq_refl) as [Hx|Hc]; [left; exact Hx|right; auto]. }
  assert (forall kk delta, length (pair_gradients (O := Rops) Rmath kk delta target (ob_preds ob)) = n) as HL by (intros; rewrite pair_len; change (num Rops) with R in *; rewrite ?med_len; auto).
  rewrite K. destruct HK as [Hk|(Hk & Hno & _)]; rewrite Hk.
  - eexists. split; [reflexivity|]. cbn [ob_grads]. split; [|split].
    + apply HU; [apply HL|]. right. unfold obj_bounds. cbn [ob_kind]. unfold proper_limits. cbn [fst snd]. repeat split. apply Rlt_bool_true. unfold one. cbn. lra.
    + unfold mbase. cbn [ob_kind ob_preds ob_grads]. rewrite Hk. auto using HL.
    + exists lo, hi. cbn [ob_bounds]. auto.
  - rewrite El. destruct (quantile_total NBINS (ob_alpha ob) lo hi (@residuals Rops target (ob_preds ob))) as [v Ev]; [unfold NBINS; lia|exact Hlt|]. rewrite (Ev : quantile Rops NBINS _ _ _ = Ok v). cbn [rbind]. eexists. split; [reflexivity|]. cbn [ob_grads]. split; [|split].
    + apply HU; [apply HL|left; exact Hno].
    + unfold mbase. cbn [ob_kind ob_preds ob_grads]. rewrite Hk. auto using HL.
    + exists lo, hi. cbn [ob_bounds]. auto.
Qed.
Lemma med_leaf ex ob : mbase ob -> mbounds ob -> (forall j, In j ex -> j < n) -> exists v ob', obj_leaf_value Rmath target ex ob = Ok (v, ob') /\ mbase ob' /\ mbounds ob'.
Proof.
  intros (K & Lp & Lg) (lo & hi & El & Hlt) Hex. unfold obj_leaf_value. assert (exists v, raw_leaf_value Rmath target ex ob = Ok v) as [v Ev].
  { unfold raw_leaf_value. rewrite K, El. assert (exists rs, mapM (@residual Rops target (ob_preds ob)) ex = Ok rs) as [rs Ers].
    { clear - Hex Lp HT Htgt. induction ex as [|j ex IH]; cbn [mapM]; [eauto|]. unfold residual at 1. destruct (idx_exists _ target j) as [t Et]; [rewrite med_len; apply Hex; left; reflexivity|]. destruct (idx_exists _ (ob_preds ob) j) as [p Ep]; [rewrite Lp; apply Hex; left; reflexivity|].
      change (num Rops) with R in *. rewrite Et, Ep. cbn [rbind]. destruct IH as [rs E]; [intros; apply Hex; right; assumption|]. rewrite E. cbn [rbind]. eauto. }
    destruct (quantile_total NBINS (half Rops) lo hi rs) as [v Ev]; [unfold NBINS; lia|exact Hlt|].
    destruct HK as [Hk|(Hk & _)]; rewrite Hk; (rewrite Ers || (etransitivity; [eapply (f_equal (fun m => rbind m _)); exact Ers|])); cbn [rbind]; unfold median; rewrite (Ev : quantile Rops NBINS (half Rops) (lo, hi) rs = Ok v); cbn [rbind]; eauto. }
  rewrite Ev. cbn [rbind]. unfold update_predictions. destruct (fold_pred_total (nmul Rops (ob_lr ob) v) ex (ob_preds ob)) as (ps & Eps & Lps); [intros j Hj; change (num Rops) with R in *; rewrite Lp; apply Hex, Hj|].
  change (num Rops) with R in *. rewrite Eps. cbn [rbind]. eexists _, _. split; [reflexivity|]. unfold mbase, mbounds. cbn [ob_kind ob_preds ob_grads ob_bounds]. change (num Rops) with R in *. rewrite Lps. split; [auto|eauto].
Qed.
Lemma med_oob i (v : R) ob : mbase ob -> mbounds ob -> i < n -> exists ob', update_out_of_bag (O := Rops) i v ob = Ok ob' /\ mbase ob' /\ mbounds ob'.
Proof.
  intros (K & Lp & Lg) HB Hi. unfold update_out_of_bag. destruct (idx_exists _ (ob_preds ob) i) as [p Ep]; [lia|]. change (num Rops) with R in *. rewrite Ep. cbn [rbind nisfin Rops rassert].
  rewrite set_idx_lt by (change (num Rops) with R; lia). cbn [rbind]. eexists. split; [reflexivity|]. unfold mbase, mbounds. cbn [ob_kind ob_preds ob_grads ob_bounds]. change (num Rops) with R in *. rewrite upd_length. auto.
Qed.
Lemma med_iter sizes metrics b : hist_sizes d = Ok sizes -> 0 < list_sum sizes -> reachable dbg cfg d (bs_dataset b) -> mbase (bs_objective b) -> spread (bs_objective b) ->
  exists b', train_one_iter Rmath dbg cfg d sched sizes metrics b = Ok b' /\ reachable dbg cfg d (bs_dataset b') /\ mbase (bs_objective b') /\ exists t, bs_ensemble b' = push_tree (bs_ensemble b) t.
Proof.
  intros Hsz Hpos HR HB HSp.
  destruct (iter_once Rops Rmath dbg cfg d sched (laws_R _ _) HT HO med_count Hw Hdep Hmin target Htgt 1 (fun k ob => mbase ob /\ (k = 0 -> spread ob)) (fun _ _ ob => mbase ob /\ mbounds ob) (fun _ (_ : R) => True)) with (k := 0) (sizes := sizes) (metrics := metrics) (b := b) as (b' & E & HR' & (HB' & _) & t & Et & _); try assumption; auto.
  - intros k ob Hk (H1 & H2). replace k with 0 in * by lia. destruct (med_update ob H1 (H2 eq_refl)) as (ob' & A & B & C). exists ob'. auto.
  - intros k _. exists 0%R. auto.
  - intros k ex done ob _ (H1 & H2) _ _ Hex. destruct (med_leaf ex ob H1 H2 Hex) as (v & ob' & A & B). exists v, ob'. auto.
  - intros k i v done ob _ (H1 & H2) Hi _ _. apply med_oob; assumption.
  - intros k done ob Hk (H1 & H2). split; [exact H1|]. intros Hc. discriminate.
  - exists b'. eauto 6.
Qed.
Lemma med_stuck sizes metrics b b' : hist_sizes d = Ok sizes -> reachable dbg cfg d (bs_dataset b) -> mbase (bs_objective b) -> same_residuals target (ob_preds (bs_objective b)) -> train_one_iter Rmath dbg cfg d sched sizes metrics b <> Ok b'.
Proof.
  intros Hsz HR (K & Lp & Lg) HS E. apply same_iff in HS as [r Hr]. pose proof med_len as Ht. assert (0 < n) as Hn0 by apply HT.
  assert (m_limits Rmath (@residuals Rops target (ob_preds (bs_objective b))) = (r, r)) as El.
  { apply limits_same; [exact Hr|]. destruct target as [|t0 ts]; [cbn in Ht; lia|]. destruct (ob_preds (bs_objective b)) as [|p0 ps]; [cbn in Lp; lia|]. discriminate. }
  unfold train_one_iter in E. rewrite Htgt in E. cbn [rbind] in E. apply rbind_ok in E as (ob & Eo & E). unfold obj_update in Eo. rewrite K, El in Eo. apply rbind_ok in Eo as (? & _ & Eo). apply rbind_ok in Eo as (? & _ & Eo).
  destruct HK as [Hk|(Hk & _)]; rewrite Hk in Eo.
  - apply Ok_inj in Eo. apply rbind_ok in E as (s & Es & E). apply rbind_ok in E as ((t & ob1) & E1 & E).
    assert (reachable dbg cfg d s) as HRs.
    { destruct HR as (g & us & s0 & E0 & E2). exists g, (us ++ [(ob_grads ob, obj_bounds ob)]), s0. split; [exact E0|]. unfold ds_run in *. rewrite foldM_app, E2. cbn [rbind foldM fst snd]. rewrite Es. reflexivity. }
    pose proof (reachable_ok _ _ _ _ _ HRs) as Hds. pose proof (dv_nact _ _ _ _ (ds_inv _ _ _ _ Hds)) as Hna.
    assert (setting dbg cfg d s sizes (sched (S (bs_iter b)))) as HS. { split; [exact HRs|]. split; [exact Hsz|]. split; [apply HO|]. unfold nactive_examples. rewrite Hna. exact med_count. }
    destruct (C26_leaves Rops dbg dbg cfg d s sizes _ _ _ _ _ _ t ob ob1 HS E1) as (rows & gs & others & st1 & Hrows & _ & _ & HP & _ & _ & HC & _).
    pose proof (rows_length Rops s rows Hrows) as Lr. destruct gs as [|gr gs].
    + cbn in HP. apply Permutation_nil in HP. subst rows. cbn in Lr. destruct HT as (_ & _ & _ & _ & _ & _ & _ & Hs & _). unfold nactive_examples, nact in *. lia.
    + destruct HC as (st2 & Ev & _). unfold obj_leaf_value in Ev. apply rbind_ok in Ev as (v & Ev & _). unfold raw_leaf_value in Ev. subst ob. cbn [ob_kind ob_bounds] in Ev. apply rbind_ok in Ev as (rs & _ & Ev). exact (quantile_stuck _ _ _ _ _ Ev).
  - apply rbind_ok in Eo as (v & Ev & _). exact (quantile_stuck _ _ _ _ _ Ev).
Qed.
Variables (metrics : list metric) (g : rng).
Definition run_k (k : nat) : res (booster Rops) := boost_run Rmath dbg cfg d sched kind metrics g k.
Lemma med_init : ~ (exists r, forall t, In t target -> t = r) -> exists ob0, obj_initialize Rmath dbg cfg target (objective_new Rops kind) = Ok ob0 /\ mbase ob0.
Proof.
  intros Hne. destruct (same_dec target) as [H|(x & y & Hx & Hy & Hxy)]; [contradiction|].
  destruct (quantile_total NBINS (half Rops) (fst (R_limits target)) (snd (R_limits target)) target) as [v Ev]; [unfold NBINS; lia|exact (limits_spread _ x y Hx Hy Hxy)|]. rewrite <- surjective_pairing in Ev.
  assert (median (O := Rops) (m_limits Rmath target) target = Ok v) as Em by exact Ev. pose proof med_len as Ht.
  unfold obj_initialize. cbn [ob_kind objective_new]. destruct HK as [Hk|(Hk & Hno & Ha1 & Ha2)]; rewrite Hk; rewrite Em; cbn [rbind].
  - eexists. split; [reflexivity|]. unfold mbase. cbn [ob_kind ob_preds ob_grads initialize_base objective_new]. rewrite !repeat_length. auto.
  - assert (nlt Rops (zero Rops) (c_huber_alpha cfg) && nlt Rops (c_huber_alpha cfg) (one Rops) = true) as ->. { apply andb_true_iff. split; apply Rlt_bool_true; assumption. } cbn [rassert rbind].
    eexists. split; [reflexivity|]. unfold mbase. cbn [ob_kind ob_preds ob_grads initialize_base objective_new]. rewrite !repeat_length. auto.
Qed.
Lemma med_run : ~ (exists r, forall t, In t target -> t = r) -> forall k, (exists b, run_k k = Ok b /\ reachable dbg cfg d (bs_dataset b) /\ mbase (bs_objective b) /\ length (at_trees (bs_ensemble b)) = k) \/
  (exists j b, j < k /\ run_k j = Ok b /\ same_residuals target (ob_preds (bs_objective b)) /\ forall b', run_k (S j) <> Ok b').
Proof.
  intros Hne. destruct (med_init Hne) as (ob0 & Eo & HB0). destruct (dataset_new_total Rops cfg d HT g) as [s Es]. destruct (sizes_total Rops cfg d HT Hbins) as (sizes & Hsz & Hpos).
  assert (forall k, run_k k = foldM (fun b _ => train_one_iter Rmath dbg cfg d sched sizes metrics b) (seq 0 k) (mk_booster s ob0 0 (additive_set_bias (additive_new Rops) (ob_bias ob0)) [])) as ER.
  { intros k. unfold run_k, boost_run, boost_start. rewrite Es, Htgt. cbn [rbind]. rewrite Eo, Hsz. reflexivity. }
  induction k as [|k IH].
  - left. rewrite ER. eexists. split; [reflexivity|]. cbn [bs_dataset bs_objective bs_ensemble]. split; [exists g, [], s; split; [exact Es|reflexivity]|]. split; [exact HB0|reflexivity].
  - destruct IH as [(b & Eb & HR & HB & HL)|(j & b & Hj & H)]; [|right; exists j, b; split; [lia|exact H]].
    assert (run_k (S k) = train_one_iter Rmath dbg cfg d sched sizes metrics b) as EN. { rewrite ER, seq_S, foldM_app, <- ER, Eb. cbn [rbind foldM]. destruct (train_one_iter _ _ _ _ _ _ _ b); reflexivity. }
    destruct (same_dec (@residuals Rops target (ob_preds (bs_objective b)))) as [HS|(x & y & Hx & Hy & Hxy)].
    + right. exists k, b. split; [lia|]. split; [exact Eb|]. apply same_iff in HS. split; [exact HS|]. intros b'. rewrite EN. apply med_stuck; assumption.
    + left. destruct (med_iter sizes metrics b Hsz Hpos HR HB) as (b' & E' & HR' & HB' & t & Et); [exists x, y; auto|]. exists b'. rewrite EN. split; [exact E'|]. split; [exact HR'|]. split; [exact HB'|]. rewrite Et. cbn [push_tree at_trees]. rewrite app_length, HL. cbn. lia.
Qed.
End Median.

Lemma width_ok w : w = 1 \/ w = 2 \/ w = 4 \/ w = 8 -> valid_width w = true.
Proof. intros [->|[->|[->| ->]]]; reflexivity. Qed.

(** Exact arithmetic, targets that are not all equal: [k] iterations of training with the absolute or the Huber error succeed, unless after some number of iterations all residuals are equal. *)
Theorem C49_median : forall dbg (cfg : config Rops) (d : data Rops) sched kind metrics g (target : list R) k,
  trainable cfg d -> get_target d = Ok target -> median_settings cfg d kind -> ~ (exists r, forall t, In t target -> t = r) -> any_order sched -> (Z.of_nat (d_nexamples d) <= 2 ^ 31)%Z ->
  (exists f nb, f < d_nfeatures d /\ max_nbins d f = Ok nb /\ 0 < nb) ->
  (c_discr_nbits cfg = 1 \/ c_discr_nbits cfg = 2 \/ c_discr_nbits cfg = 4 \/ c_discr_nbits cfg = 8) -> 0 < c_max_tree_depth cfg -> (1 <= c_min_examples_leaf cfg)%N ->
  (dbg = true -> no_hicard d \/ c_max_nbins cfg + 1 <= 2 * scaled_count (d_nexamples d) (c_example_fraction cfg)) ->
  (exists b, boost_run Rmath dbg cfg d sched kind metrics g k = Ok b /\ length (at_trees (bs_ensemble b)) = k) <->
  (forall j b, j < k -> boost_run Rmath dbg cfg d sched kind metrics g j = Ok b -> ~ same_residuals target (ob_preds (bs_objective b))).
Proof.
  intros dbg cfg d sched kind metrics g target k HT Htgt HK Hne HO Hn Hbins Hw Hdep Hmin Hdbg. apply width_ok in Hw.
  split.
  - intros (b & Eb & _) j b1 Hj E1 HS.
    destruct (med_run dbg cfg d sched kind target HT Htgt HK HO Hn Hbins Hw Hdep Hmin Hdbg metrics g Hne (S j)) as [(b2 & E2 & HR & HB & _)|(i & b2 & Hi & E2 & _ & HX)].
    + destruct (med_run dbg cfg d sched kind target HT Htgt HK HO Hn Hbins Hw Hdep Hmin Hdbg metrics g Hne j) as [(b3 & E3 & HR3 & HB3 & _)|(i & b3 & Hi & E3 & _ & HX)].
      * assert (b3 = b1) as -> by (apply Ok_inj; unfold run_k in E3; congruence). destruct (sizes_total Rops cfg d HT Hbins) as (sizes & Hsz & Hpos).
        assert (boost_run Rmath dbg cfg d sched kind metrics g (S j) = train_one_iter Rmath dbg cfg d sched sizes metrics b1) as EN.
        { unfold run_k, boost_run in *. destruct (boost_start _ _ _ _ _ _) as [b0| | |]; cbn [rbind] in *; try discriminate. rewrite Hsz in *. cbn [rbind] in *. rewrite seq_S, foldM_app, E1. cbn [rbind foldM]. destruct (train_one_iter _ _ _ _ _ _ _ b1); reflexivity. }
        unfold run_k in E2. rewrite EN in E2. revert E2. eapply med_stuck; eassumption.
      * destruct (run_prefix Rops Rmath dbg cfg d sched kind metrics g (S i) j b1 ltac:(lia) E1) as (b4 & E4 & _). exact (HX _ E4).
    + destruct (run_prefix Rops Rmath dbg cfg d sched kind metrics g (S i) k b ltac:(lia) Eb) as (b4 & E4 & _). exact (HX _ E4).
  - intros H. destruct (med_run dbg cfg d sched kind target HT Htgt HK HO Hn Hbins Hw Hdep Hmin Hdbg metrics g Hne k) as [(b & Eb & _ & _ & HL)|(j & b & Hj & E & HS & _)]; [eauto|]. exfalso. exact (H j b Hj E HS).
Qed.
Print Assumptions C49_median.
(** In particular the first iteration succeeds. *)
Theorem C49_median_first : forall dbg (cfg : config Rops) (d : data Rops) sched kind metrics g (target : list R),
  trainable cfg d -> get_target d = Ok target -> median_settings cfg d kind -> ~ (exists r, forall t, In t target -> t = r) -> any_order sched -> (Z.of_nat (d_nexamples d) <= 2 ^ 31)%Z ->
  (exists f nb, f < d_nfeatures d /\ max_nbins d f = Ok nb /\ 0 < nb) ->
  (c_discr_nbits cfg = 1 \/ c_discr_nbits cfg = 2 \/ c_discr_nbits cfg = 4 \/ c_discr_nbits cfg = 8) -> 0 < c_max_tree_depth cfg -> (1 <= c_min_examples_leaf cfg)%N ->
  (dbg = true -> no_hicard d \/ c_max_nbins cfg + 1 <= 2 * scaled_count (d_nexamples d) (c_example_fraction cfg)) ->
  exists b, boost_run Rmath dbg cfg d sched kind metrics g 1 = Ok b /\ length (at_trees (bs_ensemble b)) = 1.
Proof.
  intros dbg cfg d sched kind metrics g target HT Htgt HK Hne HO Hn Hbins Hw Hdep Hmin Hdbg. apply (C49_median dbg cfg d sched kind metrics g target 1); try assumption.
  intros j b Hj E [r Hr]. replace j with 0 in E by lia. apply Hne. unfold boost_run, boost_start in E. rewrite Htgt in E. cbn [rbind seq foldM] in E. apply rbind_ok in E as (b0 & E & E2). apply rbind_ok in E2 as (? & _ & E2). apply Ok_inj in E2. subst b0.
  apply rbind_ok in E as (s & _ & E). apply rbind_ok in E as (ob & Eo & E). apply Ok_inj in E. subst b. cbn [bs_objective] in Hr. destruct (ObjectiveProps.C40_initialize _ _ _ _ _ _ _ Eo) as (_ & Hp & _). change (num Rops) with R in *. rewrite Hp in Hr.
  exists (r + ob_bias ob)%R. intros t Ht. apply In_nth_error in Ht as [i Ei]. assert (nth_error (repeat (ob_bias ob : R) (length target)) i = Some (ob_bias ob : R)) as Er. { apply nth_error_repeat. apply nth_error_Some. rewrite Ei. discriminate. }
  specialize (Hr i t _ Ei Er). change (num Rops) with R in *. change ((t - (ob_bias ob : R))%R = r) in Hr. revert Hr. generalize (ob_bias ob : R). intros z Hz. lra.
Qed.
Print Assumptions C49_median_first.

(** One iteration with the absolute error on the six examples of [exr_data]. *)
Definition exr_cfg1 : config Rops :=
  @mk_config Rops String.EmptyString String.EmptyString String.EmptyString [] 2%N true 44%N [0] 1 (1 / 2)%R 0%R 1%N 0%R (1 / 2)%R 4 2 2 (1 / 2)%R 1%R 1%N 1%R 1%R 1.
Example C49_median_ex : trainable exr_cfg1 exr_data /\ (forall k, k = L1 \/ k = Huber -> median_settings exr_cfg1 exr_data k) /\ ~ (exists r, forall t, In t [1; 0; 1; 0; 1; 1]%R -> t = r) /\
  forall k, k = L1 \/ k = Huber -> exists b, boost_run Rmath true exr_cfg1 exr_data bst_sched k [] ex_rng 1 = Ok b /\ length (at_trees (bs_ensemble b)) = 1.
Proof.
  destruct C49_training_ex as (HT & Htgt & HA & HN & _ & _ & Hb & Hdep & Hmin).
  assert (trainable exr_cfg1 exr_data) as HT1 by exact HT.
  assert (forall k, k = L1 \/ k = Huber -> median_settings exr_cfg1 exr_data k) as HM. { intros k [->| ->]; [left; reflexivity|]. right. split; [reflexivity|]. split; [exact HN|]. cbn. lra. }
  assert (~ (exists r, forall t, In t [1; 0; 1; 0; 1; 1]%R -> t = r)) as Hne. { intros [r Hr]. assert (1 = r)%R by (apply Hr; cbn; auto). assert (0 = r)%R by (apply Hr; cbn; auto). lra. }
  split; [exact HT1|]. split; [exact HM|]. split; [exact Hne|]. intros k Hk. apply (C49_median_first true exr_cfg1 exr_data bst_sched k [] ex_rng [1; 0; 1; 0; 1; 1]%R); try assumption; auto; try exact exr_perm; try (cbn; lia).
Qed.
