(** Training succeeds on valid input (C49). *)
From Coq Require Import Permutation Reals String Psatz.
From Flocq Require Import Core BinarySingleNaN.
From Verif Require Import Base BaseProofs F32 F32Proofs SliceModel Num DataModel Config TreeModel DatasetModel DatasetSpec DatasetProofs5 DatasetProofs6 ScaledProofs
  LearnerModel LearnerSpec ObjectiveModel MetricModel BoostModel BoostSpec TotalSpec TotalProofs TotalProofs2 TotalProofs3 TotalProofs4 TotalProofs5 TotalProofs6 TotalProofs7.
Local Close Scope R_scope.

Lemma ds_run_total O (cfg : config O) (d : data O) dbg : num_laws O (c_max_nbins cfg) (d_nexamples d) -> trainable cfg d -> forall us s0, DatasetProofs4.dsinv O cfg d s0 ->
  (forall u, In u us -> usable_gradients dbg cfg d (fst u) (snd u)) -> exists s, ds_run dbg cfg us s0 = Ok s.
Proof.
  intros L HT. induction us as [|u t IH]; intros s0 H0 Hu; unfold ds_run; cbn [foldM]; [eauto|].
  destruct (dataset_update_total O cfg d L HT dbg s0 (fst u) (snd u) H0 (Hu u (or_introl eq_refl))) as [s1 E1]. rewrite E1. cbn [rbind].
  apply IH; [eapply dataset_update_ok; eassumption|]. intros v Hv. apply Hu. right. exact Hv.
Qed.

(** f32: the data set is created and takes any history of updates with gradients that are numbers. *)
Theorem C49_dataset : forall dbg (cfg : config f32ops) (d : data f32ops) g us, trainable cfg d -> (Z.of_nat (d_nexamples d) <= 2 ^ 24)%Z -> (Z.of_nat (c_max_nbins cfg + 1) <= 2 ^ 24)%Z ->
  (forall u, In u us -> usable_gradients dbg cfg d (fst u) (snd u)) ->
  exists s0 s, dataset_new cfg d g = Ok s0 /\ ds_run dbg cfg us s0 = Ok s.
Proof.
  intros dbg cfg d g us HT Hn Hm Hu. destruct (dataset_new_total _ cfg d HT g) as [s0 E0]. exists s0.
  destruct (ds_run_total _ cfg d dbg (laws_f32 _ _ Hm Hn) HT us s0) as [s E]; [eapply dataset_new_ok, E0|exact Hu|]. eauto.
Qed.
Print Assumptions C49_dataset.

(** The number of active examples and features is right for fractions in (0, 1]. *)
Theorem C49_fractions : forall (n : nat) (fr : f32), (Z.of_nat n <= 2 ^ 24)%Z -> is_finite fr = true -> f_le f_zero fr = true -> f_le fr f_one = true ->
  scaled_count (O := f32ops) n fr <= n /\ (nlt f32ops fr (nofZ f32ops 1) = false -> scaled_count (O := f32ops) n fr = n).
Proof.
  intros n fr Hn Ff H0 H1. pose proof (f_le_nan_l _ _ H0) as [N0 Nf]. pose proof (f_le_nan_l _ _ H1) as [_ N1].
  apply (f_le_key _ _ N0 Nf) in H0. apply (f_le_key _ _ Nf N1) in H1. destruct (f_of_Z_exact 1) as [F1 B1]; [cbn; lia|].
  assert (key f_zero = 0%R) as K0 by reflexivity. assert (key f_one = 1%R) as K1 by (unfold f_one; rewrite (key_finite _ F1); exact B1). rewrite K0, (key_finite _ Ff) in H0. rewrite K1, (key_finite _ Ff) in H1.
  split.
  - pose proof (scaled_bounds n fr Hn (conj H0 H1) Ff) as Hb. lia.
  - intros Hlt. assert (fr = f_of_Z 1) as ->; [|apply scaled_all, Hn].
    assert (B2R' fr = 1%R) as HB.
    { apply Rle_antisym; [exact H1|]. apply Rnot_lt_le. intros Hc. assert (f_lt fr (f_of_Z 1) = true) as Hl; [|change (f_lt fr (f_of_Z 1) = false) in Hlt; rewrite Hl in Hlt; discriminate Hlt].
      apply f_lt_key; [exact Nf|apply fin_nan, F1|]. rewrite (key_finite _ Ff), (key_finite _ F1), B1. exact Hc. }
    apply B2R_inj; [destruct fr; try discriminate; try reflexivity; cbn in HB; lra|reflexivity|]. unfold B2R' in *. rewrite HB, B1. reflexivity.
Qed.
Print Assumptions C49_fractions.

(* ---- exact arithmetic ---- *)

Definition obj_inv (cfg : config Rops) (n : nat) (k : obj_kind) (ob : objective Rops) : Prop :=
  ob_kind ob = k /\ length (ob_preds ob) = n /\ length (ob_grads ob) = n /\ (k = Binary -> ob_bound ob = c_binary_gradient_bound cfg).

Lemma init_inv dbg cfg d target k : accepts dbg cfg d target k -> exists ob, obj_initialize Rmath dbg cfg target (objective_new Rops k) = Ok ob /\ obj_inv cfg (length target) k ob.
Proof.
  intros HA. assert ((dbg = true -> forall t, In t target -> t = IZR 0 \/ t = IZR 1) -> negb dbg || forallb (@is_01 Rops) target = true) as H01.
  { destruct dbg; cbn [negb orb]; [|reflexivity]. intros H. apply forallb_forall. intros t Ht. unfold is_01, zero, one. cbn [neq nofZ Rops]. destruct (H eq_refl t Ht) as [->| ->]; rewrite (Req_bool_true _ _ eq_refl); [reflexivity|apply orb_true_r]. }
  unfold obj_initialize. cbn [ob_kind objective_new]. unfold obj_inv. destruct k; cbn in HA; try contradiction.
  - eexists. split; [reflexivity|]. cbn [ob_kind ob_preds ob_grads ob_bound initialize_base objective_new]. rewrite !repeat_length. repeat split. discriminate.
  - rewrite H01 by apply HA. cbn [rassert rbind]. eexists. split; [reflexivity|]. cbn [ob_kind ob_preds ob_grads ob_bound initialize_base objective_new]. rewrite !repeat_length. repeat split.
  - rewrite H01 by apply HA. cbn [rassert rbind]. destruct HA as [_ HA]. rewrite HA. cbn [Nat.eqb rassert rbind]. eexists. split; [reflexivity|].
    cbn [ob_kind ob_preds ob_grads ob_bound initialize_base objective_new]. rewrite !repeat_length. repeat split. discriminate.
Qed.
Lemma idx_exists A (l : list A) i : i < length l -> exists x, idx l i = Ok x.
Proof. intros H. destruct (nth_error l i) as [x|] eqn:E; [|apply nth_error_None in E; lia]. exists x. apply idx_ok, E. Qed.
Lemma foldM_exists A S (f : S -> A -> res S) l : (forall s x, In x l -> exists s', f s x = Ok s') -> forall s, exists s', foldM f l s = Ok s'.
Proof.
  induction l as [|x t IH]; intros H s; cbn [foldM]; [eauto|]. destruct (H s x (or_introl eq_refl)) as [s1 E]. rewrite E. cbn [rbind]. apply IH. intros s2 y Hy. apply H. right. exact Hy.
Qed.
Lemma fold_pred_total (v : R) ex : forall ps : list R, (forall j, In j ex -> j < length ps) -> exists ps', foldM (update_pred (O := Rops) v) ex ps = Ok ps' /\ length ps' = length ps.
Proof.
  induction ex as [|j t IH]; intros ps H; cbn [foldM]; [eauto|]. unfold update_pred at 1. destruct (idx_exists _ ps j (H j (or_introl eq_refl))) as [p E]. change (num Rops) with R in *. rewrite E. cbn [rbind].
  rewrite set_idx_lt by (apply H; left; reflexivity). cbn [rbind nisfin Rops rassert]. destruct (IH (upd ps j (nadd Rops p v))) as (ps' & E' & L').
  { intros k Hk. change (num Rops) with R. rewrite upd_length. apply H. right. exact Hk. }
  exists ps'. split; [exact E'|]. rewrite L'. apply upd_length.
Qed.
Lemma leaf_total cfg (target : list R) n k ex ob : k = L2 \/ k = Binary \/ k = Hinge -> length target = n -> obj_inv cfg n k ob -> (forall j, In j ex -> j < n) ->
  exists v ob', obj_leaf_value Rmath target ex ob = Ok (v, ob') /\ obj_inv cfg n k ob'.
Proof.
  intros Hk Ht (K & Lp & Lg & Hb) Hex. unfold obj_leaf_value. assert (exists v, raw_leaf_value Rmath target ex ob = Ok v) as [v Ev].
  { unfold raw_leaf_value. rewrite K. destruct Hk as [->|[->| ->]].
    - match goal with |- context [foldM ?f ex ?s0] => destruct (foldM_exists nat _ f ex) with (s := s0) as [s E]; [|rewrite E; cbn [rbind]; eauto] end. intros s x Hx. unfold residual.
      destruct (idx_exists _ target x) as [t Et]; [rewrite Ht; apply Hex, Hx|]. destruct (idx_exists _ (ob_preds ob) x) as [p Ep]; [rewrite Lp; apply Hex, Hx|]. change (num Rops) with R in *. rewrite Et, Ep. cbn [rbind]. eauto.
    - match goal with |- context [foldM ?f ex ?s0] => destruct (foldM_exists nat _ f ex) with (s := s0) as [s E]; [|rewrite E; cbn [rbind]; eauto] end. intros s x Hx.
      destruct (idx_exists _ (ob_grads ob) x) as [p Ep]; [rewrite Lg; apply Hex, Hx|]. change (num Rops) with R in *. rewrite Ep. cbn [rbind]. eauto.
    - match goal with |- context [foldM ?f ex ?s0] => destruct (foldM_exists nat _ f ex) with (s := s0) as [s E]; [|rewrite E; cbn [rbind]; eauto] end. intros s x Hx.
      destruct (idx_exists _ target x) as [t Et]; [rewrite Ht; apply Hex, Hx|]. destruct (idx_exists _ (ob_preds ob) x) as [p Ep]; [rewrite Lp; apply Hex, Hx|]. change (num Rops) with R in *. rewrite Et, Ep. cbn [rbind].
      destruct (nlt Rops t (half Rops)); eauto. }
  rewrite Ev. cbn [rbind]. unfold update_predictions. destruct (fold_pred_total (nmul Rops (ob_lr ob) v) ex (ob_preds ob)) as (ps & Eps & Lps); [intros j Hj; change (num Rops) with R in *; rewrite Lp; apply Hex, Hj|].
  change (num Rops) with R in *. rewrite Eps. cbn [rbind]. eexists _, _. split; [reflexivity|]. unfold obj_inv. cbn [ob_kind ob_preds ob_grads ob_bound]. change (num Rops) with R in *. rewrite Lps. auto.
Qed.
Lemma oob_total cfg n k i (v : R) ob : obj_inv cfg n k ob -> i < n -> exists ob', update_out_of_bag (O := Rops) i v ob = Ok ob' /\ obj_inv cfg n k ob'.
Proof.
  intros (K & Lp & Lg & Hb) Hi. unfold update_out_of_bag. destruct (idx_exists _ (ob_preds ob) i) as [p Ep]; [lia|]. change (num Rops) with R in *. rewrite Ep. cbn [rbind nisfin Rops rassert].
  rewrite set_idx_lt by (change (num Rops) with R; lia). cbn [rbind]. eexists. split; [reflexivity|]. unfold obj_inv. cbn [ob_kind ob_preds ob_grads ob_bound]. change (num Rops) with R in *. rewrite upd_length. auto.
Qed.
Lemma pair_len k delta (ts ps : list R) : length ps = length ts -> length (pair_gradients (O := Rops) Rmath k delta ts ps) = length ts.
Proof. intros H. unfold pair_gradients. rewrite map_length, combine_length. change (num Rops) with R in *. lia. Qed.
Lemma upd_total dbg cfg (d : data Rops) (target : list R) k ob : accepts dbg cfg d target k -> (dbg = true -> no_hicard d \/ c_max_nbins cfg + 1 <= 2 * scaled_count (d_nexamples d) (c_example_fraction cfg)) ->
  length target = d_nexamples d -> obj_inv cfg (d_nexamples d) k ob ->
  exists ob', obj_update Rmath target ob = Ok ob' /\ usable_gradients dbg cfg d (ob_grads ob') (obj_bounds ob') /\ obj_inv cfg (d_nexamples d) k ob'.
Proof.
  intros HA Hdbg Ht (K & Lp & Lg & Hb). unfold obj_update. change (num Rops) with R in *. rewrite Lp, Lg, Ht, Nat.eqb_refl. cbn [rassert rbind].
  assert (forall (gs : list R), length gs = d_nexamples d -> forall bounds, no_hicard d \/ proper_limits bounds -> usable_gradients dbg cfg d gs bounds) as HU.
  { intros gs Hl bounds Hh. split; [exact Hl|]. split; [intros g _; cbn; apply Req_bool_true; reflexivity|]. destruct Hh as [Hh|Hh]; [left; exact Hh|].
    destruct dbg; [|right; split; [exact Hh|discriminate]]. destruct (Hdbg eq_refl) as [Hn|Hc]; [left; exact Hn|right; auto]. }
  assert (forall kk delta, length (pair_gradients (O := Rops) Rmath kk delta target (ob_preds ob)) = d_nexamples d) as HL by (intros; rewrite pair_len; change (num Rops) with R in *; lia).
  rewrite K. destruct k; cbn [accepts] in HA; try contradiction.
  - destruct (m_limits Rmath (@residuals Rops target (ob_preds ob))) as [mn mx]. eexists. split; [reflexivity|]. cbn [ob_grads]. split; [apply HU; [apply HL|left; exact HA]|].
    unfold obj_inv. cbn [ob_kind ob_preds ob_grads ob_bound]. auto using HL.
  - eexists. split; [reflexivity|]. cbn [ob_grads]. split.
    + apply HU; [apply HL|]. destruct HA as [_ [HA|HA]]; [left; exact HA|right]. unfold obj_bounds. cbn [ob_kind ob_bound]. rewrite (Hb eq_refl). repeat split. cbn. apply Rlt_bool_true. lra.
    + unfold obj_inv. cbn [ob_kind ob_preds ob_grads ob_bound]. auto using HL.
  - eexists. split; [reflexivity|]. cbn [ob_grads]. split.
    + apply HU; [apply HL|]. right. repeat split. unfold obj_bounds. cbn [ob_kind]. cbn. apply Rlt_bool_true. lra.
    + unfold obj_inv. cbn [ob_kind ob_preds ob_grads ob_bound]. auto using HL.
Qed.

(** Exact arithmetic: training succeeds and delivers the requested number of trees, for every order of the jobs and all random draws. *)
Theorem C49_training : forall dbg (cfg : config Rops) (d : data Rops) sched kind metrics g target,
  trainable cfg d -> get_target d = Ok target -> accepts dbg cfg d target kind -> any_order sched -> (Z.of_nat (d_nexamples d) <= 2 ^ 31)%Z ->
  (exists f nb, f < d_nfeatures d /\ max_nbins d f = Ok nb /\ 0 < nb) ->
  (c_discr_nbits cfg = 1 \/ c_discr_nbits cfg = 2 \/ c_discr_nbits cfg = 4 \/ c_discr_nbits cfg = 8) -> 0 < c_max_tree_depth cfg -> (1 <= c_min_examples_leaf cfg)%N ->
  (dbg = true -> no_hicard d \/ c_max_nbins cfg + 1 <= 2 * scaled_count (d_nexamples d) (c_example_fraction cfg)) ->
  exists m, boost_train Rmath dbg cfg d sched kind metrics g = Ok m /\ length (at_trees m) = c_niterations cfg.
Proof.
  intros dbg cfg d sched kind metrics g target HT Htgt HA HO Hn Hbins Hw Hdep Hmin Hdbg.
  assert (length target = d_nexamples d) as Ht. { apply idx_ok in Htgt. destruct HT as ((_ & _ & H) & _). apply H. eapply nth_error_In, Htgt. }
  assert (kind = L2 \/ kind = Binary \/ kind = Hinge) as Hk by (destruct kind; cbn in HA; tauto).
  destruct (init_inv dbg cfg d target kind HA) as (ob0 & E0 & I0). change (num Rops) with R in *. rewrite Ht in I0.
  destruct (run_total Rops Rmath dbg cfg d sched (laws_R _ _) HT HO) with (target := target) (I := obj_inv cfg (d_nexamples d) kind) (J := obj_inv cfg (d_nexamples d) kind) (V := fun _ : R => True)
    (kind := kind) (metrics := metrics) (g := g) (k := c_niterations cfg) (ob0 := ob0) as (b & Eb & _ & Hl & _); try assumption.
  - destruct HT as (_ & _ & _ & _ & _ & _ & _ & Hs & _). lia.
  - destruct Hw as [->|[->|[->| ->]]]; reflexivity.
  - intros ob Hob. apply upd_total; assumption.
  - intros ex ob Hob _ Hex. destruct (leaf_total cfg target (d_nexamples d) kind ex ob Hk Ht Hob Hex) as (v & ob' & E & H'). exists v, ob'. auto.
  - intros i v ob Hob Hi _. apply oob_total; assumption.
  - auto.
  - unfold boost_train. rewrite Eb. cbn [rbind]. eauto.
Qed.
Print Assumptions C49_training.

(** What the program computes: f32 training of the squared error and of binary classification succeeds and delivers the requested number of trees, for every order of the jobs and all random draws. *)
Theorem C49_training_f32 : forall fexp fln dbg (cfg : config f32ops) (d : data f32ops) sched kind metrics g target, ordinary fexp fln ->
  trainable cfg d -> get_target d = Ok target -> accepts_f32 cfg d target kind -> any_order sched -> (Z.of_nat (d_nexamples d) <= 2 ^ 24)%Z -> (Z.of_nat (c_max_nbins cfg + 1) <= 2 ^ 24)%Z ->
  f_le (f_abs (c_learning_rate cfg)) f_one = true -> (exists f nb, f < d_nfeatures d /\ max_nbins d f = Ok nb /\ 0 < nb) ->
  (c_discr_nbits cfg = 1 \/ c_discr_nbits cfg = 2 \/ c_discr_nbits cfg = 4 \/ c_discr_nbits cfg = 8) -> 0 < c_max_tree_depth cfg -> (1 <= c_min_examples_leaf cfg)%N ->
  (dbg = true -> no_hicard d \/ c_max_nbins cfg + 1 <= 2 * scaled_count (d_nexamples d) (c_example_fraction cfg)) ->
  exists m, boost_train (f32math fexp fln) dbg cfg d sched kind metrics g = Ok m /\ length (at_trees m) = c_niterations cfg.
Proof.
  intros fexp fln dbg cfg d sched kind metrics g target Hmath HT Htgt HA HO Hn Hnb Hlr Hbins Hw Hdep Hmin Hdbg.
  assert (length target = d_nexamples d) as Ht. { apply idx_ok in Htgt. destruct HT as ((_ & _ & H) & _). apply H. eapply nth_error_In, Htgt. }
  assert (0 < d_nexamples d) as Hpos by apply HT.
  assert (bnd (c_learning_rate cfg) 1) as Hl.
  { pose proof (f_le_nan_l _ _ Hlr) as [N1 N2]. apply (f_le_key _ _ N1 N2) in Hlr. destruct (f_of_Z_exact 1) as [F1 B1]; [cbn; lia|]. change f_one with (f_of_Z 1) in Hlr. rewrite (key_finite _ F1), B1 in Hlr.
    assert (is_finite (c_learning_rate cfg : f32) = true) as F. { pose proof M_big as HM. destruct (c_learning_rate cfg : f32) as [s|s| |s m e He]; try reflexivity; [cbn in Hlr; lra|discriminate N1]. }
    split; [exact F|]. assert (is_finite (f_abs (c_learning_rate cfg)) = true) as Fa by (unfold f_abs; rewrite is_finite_Babs; exact F). rewrite (key_finite _ Fa) in Hlr. unfold f_abs in Hlr. rewrite B2R_Babs in Hlr. exact Hlr. }
  assert (exists (Pb Rb : nat -> R) gb ob0, (forall k, k <= c_niterations cfg -> okb (Pb k)) /\ (forall k, k < c_niterations cfg -> okb (Rb k)) /\ (forall k, k < c_niterations cfg -> (Pb k + Rb k <= Pb (S k))%R) /\
    (forall k ob, k < c_niterations cfg -> before (d_nexamples d) kind (c_learning_rate cfg) gb Pb k ob -> exists ob', obj_update (f32math fexp fln) target ob = Ok ob' /\ usable_gradients dbg cfg d (ob_grads ob') (obj_bounds ob') /\ within (d_nexamples d) kind (c_learning_rate cfg) gb Pb k [] ob') /\
    (forall k ex done ob, k < c_niterations cfg -> within (d_nexamples d) kind (c_learning_rate cfg) gb Pb k done ob -> ex <> [] -> length ex <= d_nexamples d -> (forall j, In j ex -> j < d_nexamples d /\ ~ In j done) -> exists v : f32, raw_leaf_value (f32math fexp fln) target ex ob = Ok v /\ bnd v (Rb k)) /\
    obj_initialize (f32math fexp fln) dbg cfg target (objective_new f32ops kind) = Ok ob0 /\ before (d_nexamples d) kind (c_learning_rate cfg) gb Pb 0 ob0) as (Pb & Rb & gb & ob0 & H1 & H2 & H3 & H4 & H5 & H6 & H7).
  { destruct kind; cbn [accepts_f32] in HA; try contradiction.
    - destruct HA as (HN & a & m & Ha & Hm & Hnm & HK & Htg). exists (pred_bound a), (res_bound a), (ndiv f32ops (nofZ f32ops 5) (nofZ f32ops 4)).
      destruct (init_squared fexp fln target (d_nexamples d) Ht Hpos a m Ha (proj2 Hm) Hnm Htg (c_niterations cfg) HK (c_learning_rate cfg) (f_of_Z 0) dbg cfg eq_refl) as (ob0 & E0 & I0). exists ob0.
      split; [|split; [|split; [|split; [|split; [|split]]]]].
      + intros k Hk. apply pred_ok; try exact Ha; lia.
      + intros k Hk. apply res_ok; try exact Ha; lia.
      + intros k _. apply pred_step; exact Ha.
      + intros k ob Hk HB. eapply (upd_squared fexp fln target _ Ht Hpos a m Ha (proj2 Hm)); try eassumption. reflexivity.
      + intros k ex done ob Hk HWi. exact (raw_squared fexp fln target _ Ht Hpos a m Ha (proj2 Hm) Hnm Htg _ HK _ _ k ex done ob Hk HWi).
      + exact E0.
      + exact I0.
    - destruct HA as (H01 & Hng & Hps & HK' & HB). assert (Z.of_nat (c_niterations cfg + 1) <= 2 ^ 24)%Z as HK by lia. exists Pb, Rb, (c_binary_gradient_bound cfg).
      destruct (init_binary fexp fln Hmath target (d_nexamples d) Ht Hn H01 Hng Hps (c_niterations cfg) HK (c_learning_rate cfg) (c_binary_gradient_bound cfg) dbg cfg eq_refl eq_refl) as (ob0 & E0 & I0). exists ob0.
      split; [|split; [|split; [|split; [|split; [|split]]]]].
      + intros k Hk. exact (Pb_ok target _ Ht H01 _ HK (f_of_Z 0) k Hk).
      + intros k Hk. exact (Rb_ok target _ Ht H01 _ HK (f_of_Z 0) k).
      + intros k _. exact (PR_step target _ Ht H01 _ HK (f_of_Z 0) k).
      + intros k ob Hk HBe. eapply (upd_binary fexp fln Hmath target _ Ht H01 Hps _ HK); try eassumption; [reflexivity|].
        destruct HB as [HB|[Fb Lb]]; [left; exact HB|]. assert (proper_limits (O := f32ops) (f_neg (c_binary_gradient_bound cfg), c_binary_gradient_bound cfg)) as HL.
        { unfold proper_limits. cbn [fst snd]. assert (is_finite (f_neg (c_binary_gradient_bound cfg)) = true) as Fn by (unfold f_neg; rewrite is_finite_Bopp; exact Fb). split; [exact Fn|]. split; [exact Fb|].
          apply f_lt_key in Lb; [|reflexivity|apply fin_nan, Fb]. change (key f_zero) with 0%R in Lb. rewrite (key_finite _ Fb) in Lb. apply f_lt_key; [apply fin_nan, Fn|apply fin_nan, Fb|]. rewrite (key_finite _ Fb), (key_finite _ Fn). unfold f_neg. rewrite B2R_Bopp. lra. }
        destruct dbg; [|right; split; [exact HL|discriminate]]. destruct (Hdbg eq_refl) as [Hx|Hc]; [left; exact Hx|right; auto].
      + intros k ex done ob Hk HWi. exact (raw_binary fexp fln target _ Ht Hn H01 _ HK _ _ k ex done ob Hk HWi).
      + exact E0.
      + exact I0. }
  destruct (run_once f32ops (f32math fexp fln) dbg cfg d sched (laws_f32 _ _ Hnb Hn) HT HO) with (target := target) (K := c_niterations cfg) (k := c_niterations cfg)
    (I := before (d_nexamples d) kind (c_learning_rate cfg) gb Pb) (J := within (d_nexamples d) kind (c_learning_rate cfg) gb Pb) (V := fun k (v : f32) => bnd v (Rb k))
    (kind := kind) (metrics := metrics) (g := g) (ob0 := ob0) as (b & Eb & _ & Hlen & _); try assumption.
  - destruct HT as (_ & _ & _ & _ & _ & _ & _ & Hs & _). lia.
  - destruct Hw as [->|[->|[->| ->]]]; reflexivity.
  - intros k Hk. exists (f_of_Z 0). destruct (f_of_Z_exact 0) as [F0 B0]; [cbn; lia|]. split; [split; [exact F0|]|exact F0]. rewrite B0, Rabs_R0. apply (H2 k Hk).
  - intros k ex done ob Hk HW Hne HN Hex. eapply leaf_bounded; eassumption.
  - intros k i v done ob Hk HW Hi Hd Hv. eapply oob_bounded; eassumption.
  - intros k done ob Hk HW. eapply within_before; eassumption.
  - lia.
  - unfold boost_train. rewrite Eb. cbn [rbind]. eauto.
Qed.
Print Assumptions C49_training_f32.

(* ---- cases that meet the hypotheses ---- *)
From Verif Require Import ObjectiveSpec MetricProps DatasetProps LearnerProps TrainProps BoostProps.

(** A data set with features of all kinds, half of its examples sampled; an update in a debug build. *)
Example C49_dataset_ex : trainable (ex_cfg f_half) ex_data /\ usable_gradients true (ex_cfg f_half) ex_data ex_grad (fz (-2), fz 2) /\
  useful_feature ex_data 2 /\ feat_type_of ex_data 2 = Ok HiCardCat /\ useful_feature ex_data 1 /\ feat_type_of ex_data 1 = Ok Numerical.
Proof.
  split.
  { split; [split; [cbn; lia|split; [cbn; lia|]]; intros col Hc; repeat destruct Hc as [<-|Hc]; try destruct Hc; reflexivity|].
    split; [cbn; lia|]. split; [cbn; lia|]. split; [cbn; lia|]. split; [cbn; lia|]. split; [|split; [|split; [|split]]].
    - intros [|[|[|f]]] col card v Hf E1 E2 E3 Hv; try discriminate E1; cbn in E1; [|destruct Hf as [Hf _]; cbn in Hf; do 2 (destruct f as [|f]; [discriminate|]); lia].
      unfold get_feature, feat_card, ex_data in *; cbn [d_features d_cards idx nth_error] in *. apply Ok_inj in E2. apply Ok_inj in E3. subst card col. cbn [In] in Hv. repeat destruct Hv as [<-|Hv]; try destruct Hv; vm_compute; lia.
    - intros [|[|f]] l Hf E1 E2; try discriminate E1; [|destruct Hf as [Hf _]; cbn in Hf, E1; do 3 (destruct f as [|f]; [discriminate|]); lia].
      unfold feat_limits, ex_data in *; cbn [d_limits idx nth_error] in *. apply Ok_inj in E2. subst l. unfold proper_limits. cbn [fst snd]. vm_compute. repeat split.
    - vm_compute. lia.
    - vm_compute. discriminate.
    - intros n Hn. cbn in Hn. do 6 (destruct n as [|n]; [vm_compute; lia|]). lia. }
  split.
  { split; [reflexivity|]. split; [intros g Hg; cbn [ex_grad In] in Hg; repeat destruct Hg as [<-|Hg]; try destruct Hg; vm_compute; reflexivity|].
    right. split; [unfold proper_limits; cbn [fst snd]; vm_compute; repeat split|]. intros _. vm_compute. lia. }
  repeat split; try (cbn; lia); try (eexists; split; [reflexivity|cbn; lia]); (eexists _, _; split; [reflexivity|vm_compute; reflexivity]).
Qed.

(** Exact arithmetic: six examples with a categorical and a numerical feature. *)
Definition exr_data : data Rops :=
  @mk_data Rops 4 2 6 [[0; 0; 1; 1; 2; 2]; [1; 2; 3; 5; 8; 13]; [1; 0; 1; 0; 1; 1]]%R [(0, 2); (1, 13); (0, 1)]%R [LoCardCat; Numerical; Numerical] [3; 0; 0].
Definition exr_cfg : config Rops :=
  @mk_config Rops EmptyString EmptyString EmptyString [] 2%N true 44%N [0] 2 (1 / 2)%R 0%R 1%N 0%R 1%R 4 2 2 (1 / 2)%R 1%R 1%N 1%R 1%R 1.
Example C49_training_ex : trainable exr_cfg exr_data /\ get_target exr_data = Ok [1; 0; 1; 0; 1; 1]%R /\
  (forall k, k = L2 \/ k = Binary \/ k = Hinge -> accepts true exr_cfg exr_data [1; 0; 1; 0; 1; 1]%R k) /\ no_hicard exr_data /\
  useful_feature exr_data 0 /\ useful_feature exr_data 1 /\
  (exists f nb, f < d_nfeatures exr_data /\ max_nbins exr_data f = Ok nb /\ 0 < nb) /\ 0 < c_max_tree_depth exr_cfg /\ (1 <= c_min_examples_leaf exr_cfg)%N.
Proof.
  assert (no_hicard exr_data) as HN. { intros [|[|f]] [Hf _]; try discriminate. cbn in Hf. lia. }
  assert (scaled_count (O := Rops) (d_nexamples exr_data) (c_example_fraction exr_cfg) = d_nexamples exr_data) as Hsc.
  { apply scaled_R; [cbn; lra|cbn; lia|]. cbn. apply Rlt_bool_false. lra. }
  split.
  { split; [split; [cbn; lia|split; [cbn; lia|]]; intros col Hc; repeat destruct Hc as [<-|Hc]; try destruct Hc; reflexivity|].
    split; [cbn; lia|]. split; [cbn; lia|]. split; [cbn; lia|]. split; [cbn; lia|]. split; [|split; [|split; [|split]]].
    - intros f col card v Hf E1 E2 E3 Hv. destruct (HN f Hf E1).
    - intros [|[|f]] l Hf E1 E2; try discriminate E1; [|destruct Hf as [Hf _]; cbn in Hf; lia].
      unfold feat_limits, exr_data in *; cbn [d_limits idx nth_error] in *. apply Ok_inj in E2. subst l. unfold proper_limits. cbn. repeat split. apply Rlt_bool_true. lra.
    - rewrite Hsc. cbn. lia.
    - intros _. exact Hsc.
    - intros n Hn. apply scaled_R; [cbn; lra|cbn in Hn; lia]. }
  split; [reflexivity|]. split; [|split; [exact HN|]].
  { intros k Hk. assert (forall t : R, In t [1; 0; 1; 0; 1; 1]%R -> t = IZR 0 \/ t = IZR 1) as H01 by (intros t Ht; cbn in Ht; repeat destruct Ht as [<-|Ht]; try destruct Ht; auto).
    destruct Hk as [->|[->| ->]]; cbn [accepts]; auto. }
  split; [|split; [|split; [|split]]].
  - split; [cbn; lia|split; [eexists; split; [reflexivity|cbn; lia]|]]. eexists _, _. split; [reflexivity|cbn; apply Req_bool_false; lra].
  - split; [cbn; lia|split; [eexists; split; [reflexivity|cbn; lia]|]]. eexists _, _. split; [reflexivity|cbn; apply Req_bool_false; lra].
  - exists 0, 3. cbn. split; [lia|]. split; [reflexivity|lia].
  - cbn. lia.
  - cbn. lia.
Qed.

(** Exact arithmetic: the hypotheses of C19_exact, C20_exact, C26_predicted_exact (the objective answers 1) and C25_running_predictions_exact. *)
Definition exr_grad : list R := [1; -1; 2; -2; 1; 1]%R.
Lemma exr_perm : any_order bst_sched. Proof. intros i k js. apply rev_sched_perm. Qed.
Example C20_exact_ex : exists s sizes rows root sp t, setting true exr_cfg exr_data s sizes rev_sched /\ 0 < ds_update_count s /\ example_rows s = Ok rows /\ length rows = 6 /\
  grown true exr_cfg s sizes (-2, 2)%R rev_sched exr_grad root /\ find_best_split true exr_cfg s root = Ok sp /\
  train true exr_cfg s sizes (-2, 2)%R rev_sched unit (fun _ _ => Ok (1%R, tt)) (fun _ _ _ => Ok tt) exr_grad tt = Ok (t, tt).
Proof.
  destruct C49_training_ex as (HT & Htgt & HA & HN & HU0 & HU1 & Hb & Hd & Hm).
  assert (scaled_count (O := Rops) (d_nexamples exr_data) (c_example_fraction exr_cfg) = d_nexamples exr_data) as Hsc.
  { apply scaled_R; [cbn; lra|cbn; lia|]. cbn. apply Rlt_bool_false. lra. }
  destruct (dataset_new_total Rops exr_cfg exr_data HT ex_rng) as [s0 E0]. destruct (dataset_new_ok _ _ _ _ _ E0) as [I0 C0].
  assert (usable_gradients (O := Rops) true exr_cfg exr_data exr_grad (-2, 2)%R) as HG.
  { split; [reflexivity|]. split; [intros g _; cbn; apply Req_bool_true; reflexivity|]. left. exact HN. }
  destruct (dataset_update_total Rops exr_cfg exr_data (laws_R _ _) HT true s0 exr_grad (-2, 2)%R I0 HG) as [s E1]. destruct (dataset_update_ok _ _ _ _ _ _ _ _ I0 E1) as [I1 C1].
  destruct (sizes_total Rops exr_cfg exr_data HT Hb) as (sizes & Hsz & Hpos).
  assert (nactive_examples s = 6) as Hna. { unfold nactive_examples. rewrite (DatasetProofs3.dv_nact _ _ _ _ (DatasetProofs4.ds_inv _ _ _ _ I1)). unfold DatasetProofs3.nact. rewrite Hsc. reflexivity. }
  assert (setting true exr_cfg exr_data s sizes rev_sched) as HS.
  { split; [exists ex_rng, [(exr_grad, (-2, 2)%R)], s0; split; [exact E0|unfold ds_run; cbn [foldM fst snd]; rewrite E1; reflexivity]|]. split; [exact Hsz|]. split; [exact rev_sched_perm|]. rewrite Hna. vm_compute. discriminate. }
  destruct (rows_total Rops exr_cfg exr_data HT s I1) as (rows & Erows & Hrows). destruct (features_total Rops exr_cfg exr_data HT s I1) as (fs & Efs).
  destruct (C43_total Rops true true exr_cfg exr_data s sizes (-2, 2)%R rev_sched exr_grad unit (fun _ _ => Ok (1%R, tt)) (fun _ _ _ => Ok tt) rows fs (fun _ => True) (fun _ => True) tt HS) as (t & [] & Et & _); try assumption; auto.
  - split; [cbn; lia|]. split; [cbn; lia|]. apply HT.
  - cbn. lia.
  - rewrite Hna. lia.
  - intros ex st _ _ _. exists 1%R, tt. auto.
  - intros i v st _ _ _. exists tt. auto.
  - assert (exists root, get_root_n2s exr_cfg s sizes (-2, 2)%R rev_sched exr_grad = Ok root) as [root Er].
    { unfold train in Et. apply rbind_ok in Et as (t0 & _ & Et). apply rbind_ok in Et as (root & Er & _). eauto. }
    assert (grown true exr_cfg s sizes (-2, 2)%R rev_sched exr_grad root) as HGr by (apply grown_root, Er).
    destruct (C20_total Rops true true exr_cfg exr_data s sizes (-2, 2)%R rev_sched exr_grad root HS ltac:(cbn; lia) HGr) as [sp Esp].
    exists s, sizes, rows, root, sp, t. split; [exact HS|]. split; [lia|]. split; [exact Erows|]. split; [|auto].
    rewrite (LearnerProofs3.rows_length Rops s rows Erows). exact Hna.
Qed.
Example C25_exact_ex : exists b, boost_run Rmath true exr_cfg exr_data bst_sched L2 [] ex_rng 2 = Ok b /\ length (at_trees (bs_ensemble b)) = 2 /\
  additive_predict (bs_ensemble b) exr_data = Ok (ob_preds (bs_objective b)).
Proof.
  destruct C49_training_ex as (HT & Htgt & HA & HN & HU0 & HU1 & Hb & Hd & Hm).
  destruct (C49_training true exr_cfg exr_data bst_sched L2 [] ex_rng _ HT Htgt (HA L2 (or_introl eq_refl)) exr_perm) as (m & Em & Lm); try assumption.
  - cbn. lia.
  - cbn. auto.
  - intros _. left. exact HN.
  - unfold boost_train in Em. apply rbind_ok in Em as (b & Eb & Em). injection Em as <-. exists b. split; [exact Eb|]. split; [exact Lm|].
    eapply (C25_running_predictions_exact true exr_cfg exr_data bst_sched L2 [] ex_rng 2 b); try exact Eb.
    + apply HT.
    + exact exr_perm.
    + cbn. lia.
    + cbn. lia.
    + exact Hm.
    + cbn. lra.
    + intros [|[|[|f]]] col v Hf E Hin; try (destruct Hf; reflexivity).
      * unfold get_feature, exr_data in E; cbn [d_features idx nth_error] in E. apply Ok_inj in E. subst col. cbn [In] in Hin. repeat destruct Hin as [<-|Hin]; try destruct Hin; eexists; (split; [|reflexivity]); lia.
      * unfold get_feature, exr_data in E; cbn [d_features idx nth_error] in E. destruct f; discriminate.
    + intros [|[|[|f]]] nb E; unfold max_nbins, exr_data in E; cbn in E; [injection E as <-; lia..|]. destruct f; discriminate.
Qed.

(** f32: six examples with a categorical feature and the classes 0, 1, 1 in either category; [k] iterations, learning rate 1. *)
Definition hng_cfg (k : nat) : config f32ops :=
  @mk_config f32ops EmptyString EmptyString EmptyString [] 1%N true 44%N [0] k (fz 1) (fz 0) 1%N (fz 0) (fz 1) 4 2 2 f_half (fz 1) 1%N (fz 1) (fz 1) 1.
Definition hng_target : list f32 := [fz 0; fz 1; fz 1; fz 0; fz 1; fz 1].
Definition hng_data : data f32ops :=
  @mk_data f32ops 4 1 6 [[fz 0; fz 0; fz 0; fz 1; fz 1; fz 1]; hng_target] [(fz 0, fz 1); (fz 0, fz 1)] [LoCardCat; Numerical] [2; 0].
Lemma hng_no_hicard : no_hicard hng_data. Proof. intros [|f] [Hf _]; try discriminate. cbn in Hf. lia. Qed.
Lemma hng_trainable k : trainable (hng_cfg k) hng_data.
Proof.
  split; [split; [cbn; lia|split; [cbn; lia|]]; intros col Hc; cbn [hng_data d_features In] in Hc; repeat destruct Hc as [<-|Hc]; try destruct Hc; reflexivity|].
  split; [cbn; lia|]. split; [cbn; lia|]. split; [cbn; lia|]. split; [cbn; lia|]. split; [|split; [|split; [|split]]].
  - intros f col card v Hf E1 E2 E3 Hv. destruct (hng_no_hicard f Hf E1).
  - intros [|f] l [Hf _] E1 E2; try discriminate E1. cbn in Hf. lia.
  - vm_compute. lia.
  - intros _. vm_compute. reflexivity.
  - intros n Hn. cbn in Hn. do 2 (destruct n as [|n]; [vm_compute; lia|]). lia.
Qed.
Lemma hng_useful : useful_feature hng_data 0.
Proof. split; [cbn; lia|split; [eexists; split; [reflexivity|cbn; lia]|]]. eexists _, _. split; [reflexivity|vm_compute; reflexivity]. Qed.
Lemma hng_01 t : In t hng_target -> f_eq t (f_of_Z 0) = true \/ f_eq t (f_of_Z 1) = true.
Proof. intros Ht. unfold hng_target in Ht. cbn [In] in Ht. repeat destruct Ht as [<-|Ht]; try destruct Ht; [left|right|right|left|right|right]; vm_compute; reflexivity. Qed.
Lemma ordinary_case : ordinary (fun _ => f_of_Z 1) (fun _ => f_of_Z 0).
Proof. split; intros; [|split]; vm_compute; reflexivity. Qed.
Example C49_training_f32_ex : ordinary (fun _ => f_of_Z 1) (fun _ => f_of_Z 0) /\ trainable (hng_cfg 100) hng_data /\ get_target hng_data = Ok hng_target /\
  accepts_f32 (hng_cfg 100) hng_data hng_target L2 /\ accepts_f32 (hng_cfg 100) hng_data hng_target Binary /\ any_order bst_sched /\
  f_le (f_abs (c_learning_rate (hng_cfg 100))) f_one = true /\ (exists f nb, f < d_nfeatures hng_data /\ max_nbins hng_data f = Ok nb /\ 0 < nb) /\ no_hicard hng_data /\ useful_feature hng_data 0.
Proof.
  split; [exact ordinary_case|]. split; [apply hng_trainable|]. split; [reflexivity|]. split; [|split; [|split; [|split; [|split; [|split]]]]].
  - split; [exact hng_no_hicard|]. exists 0%Z, 3. split; [lia|]. split; [lia|]. split; [cbn; lia|]. split; [cbn; lia|].
    assert (forall z, (0 <= z <= 1)%Z -> is_finite (fz z) = true /\ (Rabs (B2R (fz z)) <= bpow radix2 0)%R) as H.
    { intros z Hz. destruct (f_of_Z_exact z) as (F & B); [lia|]. unfold fz. split; [exact F|]. rewrite B. rewrite <- abs_IZR. apply IZR_le. lia. }
    intros t Ht. unfold hng_target in Ht. cbn [In] in Ht. repeat destruct Ht as [<-|Ht]; try destruct Ht; apply H; lia.
  - split; [exact hng_01|]. split; [exists (fz 0); split; [left; reflexivity|vm_compute; reflexivity]|]. split; [exists (fz 1); split; [right; left; reflexivity|vm_compute; reflexivity]|]. split; [cbn; lia|]. left. exact hng_no_hicard.
  - exact exr_perm.
  - vm_compute. reflexivity.
  - exists 0, 1. cbn. split; [lia|]. split; [reflexivity|lia].
  - exact hng_no_hicard.
  - exact hng_useful.
Qed.

Definition is_ok {A} (r : res A) : bool := match r with Ok _ => true | _ => false end.
Definition is_panic {A} (r : res A) : bool := match r with Panic => true | _ => false end.
Lemma is_ok_ex {A} (r : res A) : is_ok r = true -> exists a, r = Ok a. Proof. destruct r; try discriminate. eauto. Qed.
Lemma is_panic_eq {A} (r : res A) : is_panic r = true -> r = Panic. Proof. destruct r; try discriminate. reflexivity. Qed.
(** The hinge objective, with which training always succeeds in exact arithmetic, can overflow in f32: with the default learning rate 1 the predictions of classes 0, 1, 1 that no feature separates are squared again and again,
    and training panics in the thirteenth of the default 100 iterations. *)
Theorem C49_hinge_refuted : exists (cfg : config f32ops) (d : data f32ops) target sched g, trainable cfg d /\ no_hicard d /\ get_target d = Ok target /\
  (forall t, In t target -> f_eq t (f_of_Z 0) = true \/ f_eq t (f_of_Z 1) = true) /\ any_order sched /\ c_learning_rate cfg = f_one /\ c_niterations cfg = 100 /\ c_discr_nbits cfg = 2 /\ useful_feature d 0 /\
  forall fexp fln, (exists b, boost_run (f32math fexp fln) false cfg d sched Hinge [] g 12 = Ok b) /\ boost_run (f32math fexp fln) false cfg d sched Hinge [] g 13 = Panic /\ boost_train (f32math fexp fln) false cfg d sched Hinge [] g = Panic.
Proof.
  exists (hng_cfg 100), hng_data, hng_target, bst_sched, ex_rng. split; [apply hng_trainable|]. split; [exact hng_no_hicard|]. split; [reflexivity|]. split; [exact hng_01|]. split; [exact exr_perm|].
  split; [reflexivity|]. split; [reflexivity|]. split; [reflexivity|]. split; [exact hng_useful|].
  intros fexp fln. split; [|split].
  - apply is_ok_ex. vm_compute. reflexivity.
  - apply is_panic_eq. vm_compute. reflexivity.
  - apply is_panic_eq. vm_compute. reflexivity.
Qed.
Print Assumptions C49_hinge_refuted.
