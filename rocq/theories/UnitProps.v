(** C63, C64: the units of numerical features, and the unit of the target under the absolute error, do not matter (exact arithmetic). *)
From Coq Require Import Reals Lra.
From Verif Require Import Base BaseProofs Num F32 DataModel BinnerModel Config TreeModel DatasetModel DatasetSpec LearnerModel ObjectiveModel MetricModel BoostModel BoostSpec DatasetProps LearnerProps BoostProofs BoostProps PrefixSpec PrefixProps TotalSpec TotalProps
  AlikeProofs UnitSpec UnitProofs UnitProofs2 UnitProofs3 ShiftProofs MedianProps.
From Flocq Require Import Core.
Local Open Scope R_scope.
Local Open Scope nat_scope.

Lemma affine_unit (p q : R) : (0 < p)%R -> @unit_map Rops (fun x : R => (p * x + q)%R).
Proof.
  intros Hp. constructor.
  - intros a b. change (Rlt_bool (p * a + q) (p * b + q) = Rlt_bool a b). destruct (Rlt_bool_spec a b), (Rlt_bool_spec (p * a + q) (p * b + q)); try reflexivity; exfalso; nra.
  - intros a b. change (Req_bool (p * a + q) (p * b + q) = Req_bool a b). destruct (Req_bool_spec a b), (Req_bool_spec (p * a + q) (p * b + q)); try reflexivity; exfalso; [subst; auto|]. apply H. nra.
  - intros a. reflexivity.
  - intros n lo hi v Hn Hlt. change ((((p * v + q) - (p * lo + q)) / (((p * hi + q) - (p * lo + q)) / IZR (Z.of_nat n)))%R = ((v - lo) / ((hi - lo) / IZR (Z.of_nat n)))%R).
    change (num Rops) with R in lo, hi, v. change (Rlt_bool lo hi = true) in Hlt. destruct (Rlt_bool_spec lo hi); [|discriminate]. assert (IZR (Z.of_nat n) <> 0)%R as H1 by (apply not_0_IZR; lia).
    field. repeat split; try lra; try assumption. replace ((p * hi + q - (p * lo + q)))%R with (p * (hi - lo))%R by ring. nra.
  - intros n k lo hi Hn Hlt. change (((p * lo + q) + IZR (Z.of_nat k) * (((p * hi + q) - (p * lo + q)) / IZR (Z.of_nat n)))%R = (p * (lo + IZR (Z.of_nat k) * ((hi - lo) / IZR (Z.of_nat n))) + q)%R).
    assert (IZR (Z.of_nat n) <> 0)%R as H1 by (apply not_0_IZR; lia). field. exact H1.
Qed.

Section U.
Variables p q : nat -> R.
Variables d d' : data Rops.
Hypothesis HS : rescaled p q d d'.
Notation h := (in_unit p q : nat -> num Rops -> num Rops).
Lemma res_pos f : (0 < p f)%R. Proof. apply HS. Qed.
Lemma res_unit f : @unit_map Rops (h f). Proof. apply affine_unit, res_pos. Qed.
Lemma res_cat f ft : feat_type_of d f = Ok ft -> ft <> Numerical -> forall x : num Rops, h f x = x.
Proof.
  intros E Hne x. unfold feat_type_of in E. apply idx_ok in E. destruct HS as (_ & _ & _ & _ & _ & _ & _ & _ & HC & _). destruct (HC _ _ E Hne) as [E1 E2]. unfold in_unit. rewrite E1, E2. change ((1 * x + 0)%R = x). ring.
Qed.
Lemma mapi_ext {A B} (F : nat -> A -> B) l l' : length l' = length l -> (forall i x, nth_error l i = Some x -> nth_error l' i = Some (F i x)) -> l' = mapi F 0 l.
Proof.
  intros HL H. apply nth_error_ext. intros i. rewrite nth_mapi. cbn [Nat.add]. destruct (nth_error l i) as [x|] eqn:E; cbn [option_map]; [apply H, E|]. apply nth_error_None in E. apply nth_error_None. lia.
Qed.
Lemma res_data : d' = @mk_data Rops (d_max_nbins d) (d_nfeatures d) (d_nexamples d) (mapi (fun f => map (h f)) 0 (d_features d)) (mapi (fun f l => (h f (fst l), h f (snd l))) 0 (d_limits d)) (d_ftypes d) (d_cards d).
Proof.
  destruct HS as (A1 & A2 & A3 & A4 & A5 & A6 & A7 & _ & _ & A8 & A9). destruct d' as [mb nf n fs ls ts cs]. cbn in *. subst. f_equal.
  - apply mapi_ext; [exact A6|exact A8].
  - apply mapi_ext; [exact A7|]. intros i [lo hi] E. exact (A9 _ _ _ E).
Qed.

(** Models in the new units. *)
Variable a : R.
Hypothesis Ha : (0 < a)%R.
Notation u := ((fun v : R => (a * v)%R) : num Rops -> num Rops).
Lemma u_0 : u (nofZ Rops 0) = nofZ Rops 0. Proof. change ((a * 0)%R = 0%R). ring. Qed.
Lemma u_1 (v : R) : nmul Rops (nofZ Rops 1) (nadd Rops (u v) (nofZ Rops 0)) = u (nmul Rops (nofZ Rops 1) (nadd Rops v (nofZ Rops 0))).
Proof. change ((1 * (a * v + 0))%R = (a * (1 * (v + 0)))%R). ring. Qed.
Notation ct := (convt Rops h u).
Lemma ct_eq (t : tree Rops) : ct t = tree_times a (tree_in_unit p q t). Proof. reflexivity. Qed.

Variables D D' : data Rops.
Hypothesis HD : rows_rescaled p q D D'.
Lemma rows_leaf t i : (forall c, In c (t_crits t) -> typed_crit Rops d c) -> forall fuel n l, leaf_id_loop fuel t D i n = Ok l -> leaf_id_loop fuel (ct t) D' i n = Ok l.
Proof.
  intros HT fuel. induction fuel as [|fuel IH]; intros n l E; [exact E|]. cbn [leaf_id_loop] in *. change (t_crits (ct t)) with (map (convc Rops h) (t_crits t)). rewrite idx_maph. unfold rmap. apply rbind_ok in E as (c & Ec & E). rewrite Ec. cbn [rbind].
  rewrite convc_feature. apply rbind_ok in E as (col & Ef & E). unfold get_feature in *. apply idx_ok in Ef. apply (proj2 HD) in Ef. assert (idx (d_features D') (sc_feature c) = Ok (map (h (sc_feature c)) col)) as -> by (apply idx_ok; exact Ef). cbn [rbind]. rewrite idx_maph. unfold rmap. apply rbind_ok in E as (v & -> & E). cbn [rbind].
  rewrite (conv_goes Rops d h res_unit res_cat u t c v) by (apply HT; apply idx_ok in Ec; eapply nth_error_In, Ec). apply rbind_ok in E as (r & -> & E). cbn [rbind]. destruct r as [[]|]; [apply IH, E..|exact E].
Qed.
Lemma rows_single t i v : typed Rops d t -> predict_single t D i = Ok v -> predict_single (ct t) D' i = Ok (u v).
Proof.
  intros (T1 & T2 & HT) E. unfold predict_single, predict_leaf_id in *. change (length (t_crits (ct t))) with (length (map (convc Rops h) (t_crits t))). rewrite map_length. apply rbind_ok in E as (l & El & E). rewrite (rows_leaf _ _ HT _ _ _ El). cbn [rbind].
  apply rbind_ok in E as (x & Ex & E). assert (idx (t_values (ct t)) l = Ok (u x)) as ->. { cbn [convt t_values]. etransitivity; [exact (idx_maph (u : num Rops -> num Rops) (t_values t) l)|]. rewrite Ex. reflexivity. } cbn [rbind]. apply Ok_inj in E. subst v. cbn [convt t_shrinkage t_bias]. rewrite T1, T2. f_equal. apply u_1.
Qed.
Variable c : R.
Notation H := ((fun y : R => (a * y + c)%R) : num Rops -> num Rops).
Lemma rows_and t buf buf1 : typed Rops d t -> predict_and t D (fun p acc => nadd Rops acc p) buf = Ok buf1 -> predict_and (ct t) D' (fun p acc => nadd Rops acc p) (map H buf) = Ok (map H buf1).
Proof.
  intros HT E. unfold predict_and in *. rewrite map_length, (proj1 HD). apply rbind_ok in E as (? & -> & E). cbn [rbind]. revert buf E. generalize (seq 0 (d_nexamples D)). intros l. induction l as [|i l IH]; intros buf E; cbn [foldM] in *; [apply Ok_inj in E; subst; reflexivity|].
  apply rbind_ok in E as (b1 & E1 & E). apply rbind_ok in E1 as (v & Ev & E1). rewrite (rows_single _ _ _ HT Ev). cbn [rbind]. rewrite idx_maph. unfold rmap. apply rbind_ok in E1 as (z & Ez & E1). rewrite Ez. cbn [rbind].
  assert (nadd Rops (H z) (u v) = H (nadd Rops z v)) as ->. { change ((a * z + c + a * v)%R = (a * (z + v) + c)%R). ring. }
  rewrite (set_idx_map H). rewrite E1. cbn [rbind]. apply IH, E.
Qed.
Lemma rows_additive bias ts ps : (forall t, In t ts -> typed Rops d t) -> additive_predict (@mk_add Rops bias ts) D = Ok ps -> additive_predict (@mk_add Rops (H bias) (map ct ts)) D' = Ok (map H ps).
Proof.
  intros HT E. unfold additive_predict, additive_predict_buf in *. cbn [at_bias at_trees] in *. rewrite (proj1 HD). rewrite <- (map_map (fun _ => bias) H). revert E. generalize (map (fun _ : num Rops => bias) (repeat (nofZ Rops 0) (d_nexamples D))). intros buf. revert buf.
  induction ts as [|t ts IH]; intros buf E; cbn [map foldM] in *; [apply Ok_inj in E; subst; reflexivity|]. apply rbind_ok in E as (b1 & E1 & E). rewrite (rows_and t buf b1) by (try apply HT; auto with datatypes). cbn [rbind]. apply IH; [intros; apply HT; right; assumption|exact E].
Qed.
End U.

(* ---- features only ---- *)
Lemma tree_times_1 t : tree_times 1 t = t.
Proof. destruct t. unfold tree_times. cbn. f_equal. transitivity (map (fun v : R => v) t_values); [|apply map_id]. apply map_ext. intros v. ring. Qed.
Lemma one_fin (v : R) : nisfin Rops (1 * v)%R = nisfin Rops v. Proof. reflexivity. Qed.
Lemma one_id (v : R) : (1 * v)%R = v. Proof. ring. Qed.

Lemma rescaled_run p q dbg cfg d d' sched kind metrics g k b : rescaled p q d d' -> get_target d' = get_target d -> boost_run Rmath dbg cfg d sched kind metrics g k = Ok b ->
  exists b', boost_run Rmath dbg cfg d' sched kind metrics g k = Ok b' /\ bs_objective b' = bs_objective b /\ bs_evals b' = bs_evals b /\
    at_bias (bs_ensemble b') = at_bias (bs_ensemble b) /\ at_trees (bs_ensemble b') = map (tree_in_unit p q) (at_trees (bs_ensemble b)) /\ (forall t, In t (at_trees (bs_ensemble b)) -> typed Rops d t).
Proof.
  intros HS HT E.
  assert (exists target ob, get_target d = Ok target /\ obj_initialize Rmath dbg cfg target (objective_new Rops kind) = Ok ob) as (target & ob & Et & Eo).
  { unfold boost_run, boost_start in E. apply rbind_ok in E as (b0 & E & _). apply rbind_ok in E as (s & _ & E). apply rbind_ok in E as (target & Et & E). apply rbind_ok in E as (ob & Eo & _). eauto. }
  destruct (conv_run Rops d d' (in_unit p q) (res_unit p q d d' HS) (res_cat p q d d' HS) (res_data p q d d' HS) (fun v : R => (1 * v)%R) (u_0 1) (fun _ => eq_refl) (u_1 1) dbg cfg Rmath sched target target Et (eq_trans HT Et) eq) with (metrics := metrics) (kind := kind) (g := g) (ob0 := ob) (ob0' := ob) (k := k) (b := b) as (b' & E' & A & B1 & B2); try assumption; try reflexivity.
  - intros o o' <-. auto.
  - intros o o' o1 <- Eu. eauto.
  - intros ex st st' v st1 <- Ev. change (num Rops) with R in v. exists st1. split; [|reflexivity]. replace (1 * v)%R with v by ring. exact Ev.
  - intros i v st st' st1 <- Ev. change (num Rops) with R in v. exists st1. split; [|reflexivity]. replace (1 * v)%R with v by ring. exact Ev.
  - intros m o o' _ <-. reflexivity.
  - exists b'. destruct A as (_ & _ & A1 & _ & A2 & A3 & A4). split; [exact E'|]. split; [symmetry; exact A1|]. split; [exact A4|]. split; [congruence|]. split; [|exact A3]. rewrite A2. apply map_ext. intros t. rewrite ct_eq. apply tree_times_1.
Qed.

(** In exact arithmetic, for all five objectives: measuring the numerical features in other units gives the same model with the thresholds in the new units. *)
Theorem C63_training : forall p q dbg cfg d d' sched kind metrics g m, rescaled p q d d' -> get_target d' = get_target d -> boost_train Rmath dbg cfg d sched kind metrics g = Ok m ->
  boost_train Rmath dbg cfg d' sched kind metrics g = Ok (@mk_add Rops (at_bias m) (map (tree_in_unit p q) (at_trees m))).
Proof.
  intros p q dbg cfg d d' sched kind metrics g m HS HT E. unfold boost_train in *. apply rbind_ok in E as (b & E & Em). apply Ok_inj in Em. subst m.
  destruct (rescaled_run _ _ _ _ _ _ _ _ _ _ _ _ HS HT E) as (b' & -> & _ & _ & E1 & E2 & _). cbn [rbind]. f_equal. destruct (bs_ensemble b') as [bi ts]. cbn [at_bias at_trees] in *. subst. reflexivity.
Qed.
Print Assumptions C63_training.
(** After every number of iterations the running predictions and gradients, and all metrics reported so far, are the same. *)
Theorem C63_run : forall p q dbg cfg d d' sched kind metrics g k b, rescaled p q d d' -> get_target d' = get_target d -> boost_run Rmath dbg cfg d sched kind metrics g k = Ok b ->
  exists b', boost_run Rmath dbg cfg d' sched kind metrics g k = Ok b' /\ ob_preds (bs_objective b') = ob_preds (bs_objective b) /\ ob_grads (bs_objective b') = ob_grads (bs_objective b) /\ bs_evals b' = bs_evals b.
Proof. intros p q dbg cfg d d' sched kind metrics g k b HS HT E. destruct (rescaled_run _ _ _ _ _ _ _ _ _ _ _ _ HS HT E) as (b' & E' & E1 & E2 & _). exists b'. rewrite E1. auto. Qed.
Print Assumptions C63_run.
(** Rows measured in the new units get from the new model the predictions they got from the old one. *)
Theorem C63_predict : forall p q dbg cfg d d' sched kind metrics g m D D' ps, rescaled p q d d' -> get_target d' = get_target d -> boost_train Rmath dbg cfg d sched kind metrics g = Ok m ->
  rows_rescaled p q D D' -> additive_predict m D = Ok ps -> exists m', boost_train Rmath dbg cfg d' sched kind metrics g = Ok m' /\ additive_predict m' D' = Ok ps.
Proof.
  intros p q dbg cfg d d' sched kind metrics g m D D' ps HS HT E HD Ep. eexists. split; [eapply C63_training; eassumption|]. unfold boost_train in E. apply rbind_ok in E as (b & E & Em). apply Ok_inj in Em. subst m.
  destruct (rescaled_run _ _ _ _ _ _ _ _ _ _ _ _ HS HT E) as (_ & _ & _ & _ & _ & _ & HTy). destruct (bs_ensemble b) as [bi ts]. cbn [at_bias at_trees] in *.
  assert (X := rows_additive p q d d' HS 1 D D' HD 0 bi ts ps HTy Ep). assert (forall l : list R, map (fun y : R => (1 * y + 0)%R) l = l) as Hid. { intros l. transitivity (map (fun y : R => y) l); [|apply map_id]. apply map_ext. intros. ring. }
  transitivity (@Ok (list (num Rops)) (map (fun y : R => (1 * y + 0)%R) ps)); [|rewrite Hid; reflexivity]. etransitivity; [|exact X]. do 2 f_equal; [change (num Rops) with R in bi; change (bi = (1 * bi + 0)%R); ring|]. apply map_ext. intros t. rewrite ct_eq. symmetry. apply tree_times_1.
Qed.
Print Assumptions C63_predict.

(* ---- the target under the absolute error ---- *)
Lemma quantile_h (h : num Rops -> num Rops) nbins al lo hi vs : unit_map h -> quantile Rops nbins al (h lo, h hi) (map h vs) = rmap h (quantile Rops nbins al (lo, hi) vs).
Proof.
  intros Hh. unfold quantile. cbn [fst snd]. rewrite (new_h Rops h Hh), map_length. unfold rmap. destruct (binner_new _ lo hi) as [b0| | |] eqn:E0; cbn [rbind]; try reflexivity.
  apply new_inv in E0 as (-> & Hlt & Hne). cbn [bn_bins bin_at]. destruct (insert_h Rops h Hh (length (repeat 0%N nbins)) lo hi (map (fun v => (v, u32_inc 1)) vs) Hne Hlt (repeat 0%N nbins)) as [EI EB]. rewrite !map_map in *. cbn [fst snd] in EI.
  match type of EI with ?l = rmap _ ?r => set (L := l) in *; set (X := r) in * end. clearbody L. subst L. clearbody X. unfold rmap. destruct X as [b| | |]; cbn [rbind]; try reflexivity. specialize (EB b eq_refl).
  unfold bin_with_rank. cbn [bn_bins bin_at]. destruct (rank_next _ _ _ _ _ _) as [[i st]| | |]; cbn [rbind]; try reflexivity. rewrite (rep_h Rops h Hh) by assumption. rewrite <- EB. reflexivity.
Qed.
Lemma unit_ext (h h' : num Rops -> num Rops) : (forall x, h' x = h x) -> unit_map h -> unit_map h'.
Proof.
  intros HE [X1 X2 X3 X4 X5]. constructor.
  - intros x y. rewrite (HE x), (HE y). apply X1.
  - intros x y. rewrite (HE x), (HE y). apply X2.
  - intros x. rewrite (HE x). apply X3.
  - intros n lo hi v H1 H2. rewrite (HE lo), (HE hi), (HE v). apply X4; assumption.
  - intros n k lo hi H1 H2. rewrite (HE lo), (HE hi), (HE (nadd Rops _ _)). apply X5; assumption.
Qed.
Section L1.
Variables a c : R.
Hypothesis Ha : (0 < a)%R.
Notation H := ((fun y : R => (a * y + c)%R) : num Rops -> num Rops).
Notation u := ((fun y : R => (a * y)%R) : num Rops -> num Rops).
Lemma H_unit : unit_map H. Proof. apply affine_unit, Ha. Qed.
Lemma u_unit : unit_map u.
Proof. apply (unit_ext (fun x : R => (a * x + 0)%R) u); [|apply affine_unit, Ha]. intros y. change (num Rops) with R in y. change ((a * y)%R = (a * y + 0)%R). ring. Qed.
Lemma limits_H (l : list R) : l <> [] -> m_limits Rmath (map H l) = (H (fst (m_limits Rmath l)), H (snd (m_limits Rmath l))).
Proof.
  intros Hl. destruct l as [|x t]; [contradiction|]. unfold m_limits, Rmath, R_limits. cbn [map fst snd]. apply (f_equal2 (@pair R R)).
  - clear Hl. revert x. induction t as [|y t IH]; intros x; [reflexivity|]. cbn [map fold_left]. rewrite <- IH. f_equal. unfold Rmin. destruct (Rle_dec x y), (Rle_dec (a * x + c) (a * y + c)); try reflexivity; exfalso; nra.
  - clear Hl. revert x. induction t as [|y t IH]; intros x; [reflexivity|]. cbn [map fold_left]. rewrite <- IH. f_equal. unfold Rmax. destruct (Rle_dec x y), (Rle_dec (a * x + c) (a * y + c)); try reflexivity; exfalso; nra.
Qed.
Lemma limits_u (l : list R) : m_limits Rmath (map u l) = (u (fst (m_limits Rmath l)), u (snd (m_limits Rmath l))).
Proof.
  destruct l as [|x t]; [unfold m_limits, Rmath, R_limits; cbn [map fst snd]; apply (f_equal2 (@pair R R)); ring|]. unfold m_limits, Rmath, R_limits. cbn [map fst snd]. apply (f_equal2 (@pair R R)).
  - revert x. induction t as [|y t IH]; intros x; [reflexivity|]. cbn [map fold_left]. rewrite <- IH. f_equal. unfold Rmin. destruct (Rle_dec x y), (Rle_dec (a * x) (a * y)); try reflexivity; exfalso; nra.
  - revert x. induction t as [|y t IH]; intros x; [reflexivity|]. cbn [map fold_left]. rewrite <- IH. f_equal. unfold Rmax. destruct (Rle_dec x y), (Rle_dec (a * x) (a * y)); try reflexivity; exfalso; nra.
Qed.
Definition l1_obj (ob ob' : objective Rops) : Prop :=
  ob_kind ob = L1 /\ ob_kind ob' = L1 /\ ob_lr ob' = ob_lr ob /\ ob_bias ob' = H (ob_bias ob) /\ ob_preds ob' = map H (ob_preds ob) /\ ob_grads ob' = ob_grads ob /\ ob_bounds ob' = (u (fst (ob_bounds ob)), u (snd (ob_bounds ob))).
Lemma sub_H (x y : num Rops) : nsub Rops (H x) (H y) = u (nsub Rops x y).
Proof. change ((a * x + c - (a * y + c))%R = (a * (x - y))%R). ring. Qed.
Lemma res_H t ps : residuals (map H t) (map H ps) = map u (residuals t ps).
Proof. unfold residuals. rewrite combine_h, !map_map. apply map_ext. intros [x y]. cbn [fst snd]. apply sub_H. Qed.
Lemma res1_H t ps i : residual (map H t) (map H ps) i = rmap u (residual t ps i).
Proof. unfold residual. rewrite !idx_maph. unfold rmap. destruct (idx t i); cbn [rbind]; try reflexivity. destruct (idx ps i); cbn [rbind]; try reflexivity. rewrite sub_H. reflexivity. Qed.
Lemma sign_u (x : num Rops) : m_signum Rmath (u x) = m_signum Rmath x.
Proof. change (R_signum (a * x) = R_signum x). unfold R_signum. change (num Rops) with R in x. destruct (Rlt_bool_spec x 0), (Rlt_bool_spec (a * x) 0); try reflexivity; exfalso; nra. Qed.
Lemma grads_H z t ps : pair_gradients Rmath L1 z (map H t) (map H ps) = pair_gradients Rmath L1 z t ps.
Proof. unfold pair_gradients. rewrite combine_h, map_map. apply map_ext. intros [x y]. cbn [fst snd]. unfold gradient. rewrite sub_H, sign_u. reflexivity. Qed.
Lemma init_l1 dbg cfg target ob : target <> [] -> obj_initialize Rmath dbg cfg target (objective_new Rops L1) = Ok ob ->
  exists ob', obj_initialize Rmath dbg cfg (map H target) (objective_new Rops L1) = Ok ob' /\ l1_obj ob ob'.
Proof.
  intros Hn E. unfold obj_initialize in *. cbn [ob_kind objective_new] in *. rewrite map_length. unfold median in *. rewrite limits_H by exact Hn. destruct (m_limits Rmath target) as [lo hi]. cbn [fst snd] in *. rewrite (quantile_h H _ _ _ _ _ H_unit). unfold rmap. apply rbind_ok in E as (x & -> & E). cbn [rbind].
  apply Ok_inj in E. subst ob. eexists. split; [reflexivity|]. unfold l1_obj. cbn [initialize_base ob_kind ob_lr ob_bias ob_preds ob_grads ob_bounds objective_new fst snd]. do 4 (split; [reflexivity|]). split; [|split; [reflexivity|]].
  - generalize (length target). intros n. induction n; cbn; f_equal; auto.
  - unfold zero. f_equal; change (0%R = (a * 0)%R); ring.
Qed.
Lemma upd_l1 target ob ob' ob1 : l1_obj ob ob' -> obj_update Rmath target ob = Ok ob1 -> exists ob1', obj_update Rmath (map H target) ob' = Ok ob1' /\ l1_obj ob1 ob1'.
Proof.
  intros (K & K' & E2 & E3 & E4 & E5 & E6) E. unfold obj_update in *. rewrite K in E. rewrite K', E2, E4, E5, !map_length, res_H, limits_u, !grads_H.
  apply rbind_ok in E as (u1 & -> & E). cbn [rbind]. apply rbind_ok in E as (u2 & -> & E). cbn [rbind]. apply Ok_inj in E. subst ob1. eexists. split; [reflexivity|]. unfold l1_obj. cbn [ob_kind ob_lr ob_bias ob_preds ob_grads ob_bounds]. auto 10.
Qed.
Lemma add_H (x v : num Rops) : nadd Rops (H x) (u v) = H (nadd Rops x v).
Proof. change ((a * x + c + a * v)%R = (a * (x + v) + c)%R). ring. Qed.
Lemma preds_l1 v ex : forall ps ps1, foldM (update_pred v) ex ps = Ok ps1 -> foldM (update_pred (u v)) ex (map H ps) = Ok (map H ps1).
Proof.
  induction ex as [|i ex IH]; intros ps ps1 E; cbn [foldM] in *; [apply Ok_inj in E; subst; reflexivity|]. apply rbind_ok in E as (ps2 & E2 & E).
  assert (update_pred (u v) (map H ps) i = Ok (map H ps2)) as ->.
  { unfold update_pred in *. rewrite idx_map. apply rbind_ok in E2 as (z & -> & E2). cbn [rbind]. rewrite add_H, (set_idx_map H). apply rbind_ok in E2 as (ps3 & -> & E2). cbn [rbind]. apply rbind_ok in E2 as (w & _ & E2). cbn [rbind]. apply Ok_inj in E2. subst. reflexivity. }
  cbn [rbind]. apply IH. exact E.
Qed.
Lemma leaf_l1 target ex ob ob' v ob1 : l1_obj ob ob' -> obj_leaf_value Rmath target ex ob = Ok (v, ob1) -> exists ob1', obj_leaf_value Rmath (map H target) ex ob' = Ok (u v, ob1') /\ l1_obj ob1 ob1'.
Proof.
  intros (K & K' & E2 & E3 & E4 & E5 & E6) E.
  assert (raw_leaf_value Rmath (map H target) ex ob' = rmap u (raw_leaf_value Rmath target ex ob)) as HR.
  { unfold raw_leaf_value. rewrite K, K', E4, E6. unfold median.
    assert (mapM (residual (map H target) (map H (ob_preds ob))) ex = rmap (map u) (mapM (residual target (ob_preds ob)) ex)) as ->.
    { clear. induction ex as [|i ex IH]; [reflexivity|]. cbn [mapM]. rewrite res1_H, IH. unfold rmap. destruct (residual target (ob_preds ob) i); cbn [rbind]; try reflexivity. destruct (mapM (residual target (ob_preds ob)) ex); reflexivity. }
    unfold rmap. destruct (mapM _ ex) as [rs| | |]; cbn [rbind]; try reflexivity. rewrite (quantile_h u _ _ _ _ _ u_unit). destruct (ob_bounds ob). reflexivity. }
  unfold obj_leaf_value in *. rewrite HR. clear HR. apply rbind_ok in E as (raw & -> & E). cbn [rbind rmap]. unfold update_predictions in *. rewrite K in E. rewrite K', E2, E4, E5, E6.
  assert (nmul Rops (ob_lr ob) (u raw) = u (nmul Rops (ob_lr ob) raw)) as ->. { generalize (ob_lr ob). intros l. change ((l * (a * raw))%R = (a * (l * raw))%R). ring. }
  apply rbind_ok in E as (ps & Ep & E). rewrite (preds_l1 _ _ _ _ Ep). cbn [rbind]. apply Ok_inj in E. injection E as <- <-. eexists. split; [reflexivity|]. unfold l1_obj. cbn [ob_kind ob_lr ob_bias ob_preds ob_grads ob_bounds]. auto 10.
Qed.
Lemma oob_l1 i v (ob ob' ob1 : objective Rops) : l1_obj ob ob' -> update_out_of_bag i v ob = Ok ob1 -> exists ob1', update_out_of_bag i (u v) ob' = Ok ob1' /\ l1_obj ob1 ob1'.
Proof.
  intros (K & K' & E2 & E3 & E4 & E5 & E6) E. unfold update_out_of_bag in *. rewrite K in E. rewrite K', E2, E4, E5, E6, idx_map. apply rbind_ok in E as (z & -> & E). cbn [rbind]. apply rbind_ok in E as (w & _ & E). cbn [rbind].
  rewrite add_H, (set_idx_map H). apply rbind_ok in E as (ps & -> & E). cbn [rbind]. apply Ok_inj in E. subst. eexists. split; [reflexivity|]. unfold l1_obj. cbn [ob_kind ob_lr ob_bias ob_preds ob_grads ob_bounds]. auto 10.
Qed.
End L1.

Lemma l1_run p q dbg cfg d d' sched g k b : rescaled p q d d' -> boost_run Rmath dbg cfg d sched L1 [] g k = Ok b ->
  exists b', boost_run Rmath dbg cfg d' sched L1 [] g k = Ok b' /\ ob_preds (bs_objective b') = map (in_unit p q (d_nfeatures d)) (ob_preds (bs_objective b)) /\ ob_grads (bs_objective b') = ob_grads (bs_objective b) /\
    at_bias (bs_ensemble b') = in_unit p q (d_nfeatures d) (at_bias (bs_ensemble b)) /\ at_trees (bs_ensemble b') = map (fun t => tree_times (p (d_nfeatures d)) (tree_in_unit p q t)) (at_trees (bs_ensemble b)) /\ (forall t, In t (at_trees (bs_ensemble b)) -> typed Rops d t).
Proof.
  intros HS E. set (a := p (d_nfeatures d)) in *. set (c := q (d_nfeatures d)). assert (0 < a)%R as Ha by apply (res_pos p q d d' HS).
  assert (exists target ob, get_target d = Ok target /\ obj_initialize Rmath dbg cfg target (objective_new Rops L1) = Ok ob) as (target & ob & Et & Eo).
  { unfold boost_run, boost_start in E. apply rbind_ok in E as (b0 & E & _). apply rbind_ok in E as (s & _ & E). apply rbind_ok in E as (target & Et & E). apply rbind_ok in E as (ob & Eo & _). eauto. }
  assert (target <> []) as Hne.
  { intros ->. unfold obj_initialize in Eo. cbn [ob_kind objective_new] in Eo. apply rbind_ok in Eo as (x & Eo & _). unfold median, quantile in Eo. apply rbind_ok in Eo as (b0 & Eo & _). unfold binner_new in Eo. do 2 apply rbind_ok in Eo as (? & _ & Eo). apply rbind_ok in Eo as (? & Eo & _).
    unfold rassert in Eo. change (nlt Rops (fst (m_limits Rmath [])) (snd (m_limits Rmath []))) with (Rlt_bool 0 0) in Eo. rewrite Rlt_bool_false in Eo by lra. discriminate. }
  assert (get_target d' = Ok (map (in_unit p q (d_nfeatures d)) target)) as Et'.
  { destruct HS as (A1 & _ & _ & _ & _ & _ & _ & _ & _ & A8 & _). unfold get_target, get_feature in *. rewrite A1. apply idx_ok. apply A8. apply idx_ok. exact Et. }
  destruct (init_l1 a c Ha dbg cfg target ob Hne Eo) as (ob' & Eo' & HR0).
  destruct (conv_run Rops d d' (in_unit p q) (res_unit p q d d' HS) (res_cat p q d d' HS) (res_data p q d d' HS) (fun v : R => (a * v)%R) (u_0 a) (fun _ => eq_refl) (u_1 a) dbg cfg Rmath sched target _ Et Et' (l1_obj a c)) with (metrics := @nil metric) (kind := L1) (g := g) (ob0 := ob) (ob0' := ob') (k := k) (b := b) as (b' & E' & A & B1 & B2); try assumption.
  - intros o o' (K & K' & _ & _ & _ & K5 & _). split; [exact K5|]. unfold obj_bounds. rewrite K, K'. reflexivity.
  - intros o o' o1. apply upd_l1; exact Ha.
  - intros ex st st' v st1. apply leaf_l1; exact Ha.
  - intros i v st st' st1. apply oob_l1.
  - intros m o o' [].
  - exists b'. destruct A as (_ & _ & (_ & _ & _ & _ & R1 & R2 & _) & _ & A2 & A3 & _). split; [exact E'|]. split; [exact R1|]. split; [exact R2|]. split; [|split; [|exact A3]].
    + rewrite B1, B2. apply HR0.
    + rewrite A2. apply map_ext. intros t. apply ct_eq.
Qed.

(** In exact arithmetic, under the absolute error also the target may be measured in another unit: all leaf values are multiplied, the bias is converted. *)
Theorem C64_training : forall p q dbg cfg d d' sched metrics g m, rescaled p q d d' -> boost_train Rmath dbg cfg d sched L1 metrics g = Ok m ->
  boost_train Rmath dbg cfg d' sched L1 metrics g = Ok (@mk_add Rops (in_unit p q (d_nfeatures d) (at_bias m)) (map (fun t => tree_times (p (d_nfeatures d)) (tree_in_unit p q t)) (at_trees m))).
Proof.
  intros p q dbg cfg d d' sched metrics g m HS E. unfold boost_train in *. apply rbind_ok in E as (b & E & Em). apply Ok_inj in Em. subst m.
  assert (forall k : config Rops, same_learning k k) as Href by (intros k; repeat split).
  destruct (run_same Rops cfg cfg (Href cfg) Rmath dbg d sched L1 metrics [] g _ b E) as (b1 & E1 & _ & _ & _ & H1).
  destruct (l1_run p q dbg cfg d d' sched g _ b1 HS E1) as (b2 & E2 & _ & _ & B1 & B2 & _).
  destruct (run_same Rops cfg cfg (Href cfg) Rmath dbg d' sched L1 [] metrics g _ b2 E2) as (b3 & E3 & _ & _ & _ & H3). rewrite E3. cbn [rbind]. rewrite H3, <- H1. f_equal.
  destruct (bs_ensemble b2) as [bi ts]. cbn [at_bias at_trees] in *. subst. reflexivity.
Qed.
Print Assumptions C64_training.
(** The running predictions are converted, the gradients are the same. *)
Theorem C64_run : forall p q dbg cfg d d' sched metrics g k b, rescaled p q d d' -> boost_run Rmath dbg cfg d sched L1 metrics g k = Ok b ->
  exists b', boost_run Rmath dbg cfg d' sched L1 metrics g k = Ok b' /\ ob_preds (bs_objective b') = map (in_unit p q (d_nfeatures d)) (ob_preds (bs_objective b)) /\ ob_grads (bs_objective b') = ob_grads (bs_objective b).
Proof.
  intros p q dbg cfg d d' sched metrics g k b HS E.
  assert (forall k : config Rops, same_learning k k) as Href by (intros k0; repeat split).
  destruct (run_same Rops cfg cfg (Href cfg) Rmath dbg d sched L1 metrics [] g _ b E) as (b1 & E1 & _ & H0 & _ & H1).
  destruct (l1_run p q dbg cfg d d' sched g _ b1 HS E1) as (b2 & E2 & P1 & P2 & _).
  destruct (run_same Rops cfg cfg (Href cfg) Rmath dbg d' sched L1 [] metrics g _ b2 E2) as (b3 & E3 & _ & H3 & _). exists b3. split; [exact E3|]. rewrite H3, P1, P2, H0. auto.
Qed.
Print Assumptions C64_run.
(** Rows measured in the new units get the converted predictions. *)
Theorem C64_predict : forall p q dbg cfg d d' sched metrics g m D D' ps, rescaled p q d d' -> boost_train Rmath dbg cfg d sched L1 metrics g = Ok m -> rows_rescaled p q D D' -> additive_predict m D = Ok ps ->
  exists m', boost_train Rmath dbg cfg d' sched L1 metrics g = Ok m' /\ additive_predict m' D' = Ok (map (in_unit p q (d_nfeatures d)) ps).
Proof.
  intros p q dbg cfg d d' sched metrics g m D D' ps HS E HD Ep. eexists. split; [eapply C64_training; eassumption|]. unfold boost_train in E. apply rbind_ok in E as (b & E & Em). apply Ok_inj in Em. subst m.
  assert (forall k : config Rops, same_learning k k) as Href by (intros k0; repeat split).
  destruct (run_same Rops cfg cfg (Href cfg) Rmath dbg d sched L1 metrics [] g _ b E) as (b1 & E1 & _ & _ & _ & H1).
  destruct (l1_run p q dbg cfg d d' sched g _ b1 HS E1) as (_ & _ & _ & _ & _ & _ & HTy). rewrite H1 in HTy. destruct (bs_ensemble b) as [bi ts]. cbn [at_bias at_trees] in *.
  exact (rows_additive p q d d' HS (p (d_nfeatures d)) D D' HD (q (d_nfeatures d)) bi ts ps HTy Ep).
Qed.
Print Assumptions C64_predict.

(** The six examples of [exr_data] with the numerical column in other units, and with also the target in other units. *)
Definition exr_p (f : nat) : R := match f with 1 => 10%R | _ => 1%R end.
Definition exr_q (f : nat) : R := match f with 1 => 3%R | _ => 0%R end.
Definition exr_data_u : data Rops :=
  @mk_data Rops 4 2 6 [[0; 0; 1; 1; 2; 2]; [13; 23; 33; 53; 83; 133]; [1; 0; 1; 0; 1; 1]]%R [(0, 2); (13, 133); (0, 1)]%R [LoCardCat; Numerical; Numerical] [3; 0; 0].
Example C63_ex : rescaled exr_p exr_q exr_data exr_data_u /\ exists m, boost_train Rmath true exr_cfg exr_data bst_sched L2 [] ex_rng = Ok m /\ length (at_trees m) = 2 /\
  boost_train Rmath true exr_cfg exr_data_u bst_sched L2 [] ex_rng = Ok (@mk_add Rops (at_bias m) (map (tree_in_unit exr_p exr_q) (at_trees m))).
Proof.
  assert (rescaled exr_p exr_q exr_data exr_data_u) as HS.
  { do 7 (split; [reflexivity|]). split; [|split; [|split]].
    - intros [|[|f]]; cbn; lra.
    - intros [|[|[|f]]] ft E Hne; cbn in E; try (injection E as <-; try contradiction; cbn; split; lra); destruct f; discriminate.
    - intros [|[|[|f]]] col E; cbn [nth_error exr_data exr_data_u d_features] in *; try (injection E as <-; unfold in_unit; cbn [map exr_p exr_q]; f_equal; repeat (apply f_equal2; [lra|]); reflexivity). destruct f; discriminate.
    - intros [|[|[|f]]] lo hi E; cbn [nth_error exr_data exr_data_u d_limits] in *; try (injection E as <- <-; unfold in_unit; cbn [exr_p exr_q]; f_equal; apply f_equal2; lra). destruct f; discriminate. }
  split; [exact HS|]. destruct C49_training_ex as (HT & Htgt & HA & HN & _ & _ & Hb & Hdep & Hmin).
  destruct (C49_training true exr_cfg exr_data bst_sched L2 [] ex_rng _ HT Htgt (HA L2 (or_introl eq_refl)) exr_perm) as (m & Em & Lm); try assumption; try (cbn; lia); auto.
  exists m. split; [exact Em|]. split; [exact Lm|]. eapply C63_training; [exact HS|reflexivity|exact Em].
Qed.
Definition exr_p2 (f : nat) : R := match f with 1 => 10%R | 2 => 2%R | _ => 1%R end.
Definition exr_q2 (f : nat) : R := match f with 1 => 3%R | 2 => 5%R | _ => 0%R end.
Definition exr_data_u2 : data Rops :=
  @mk_data Rops 4 2 6 [[0; 0; 1; 1; 2; 2]; [13; 23; 33; 53; 83; 133]; [7; 5; 7; 5; 7; 7]]%R [(0, 2); (13, 133); (5, 7)]%R [LoCardCat; Numerical; Numerical] [3; 0; 0].
Example C64_ex : rescaled exr_p2 exr_q2 exr_data exr_data_u2 /\ exists m, boost_train Rmath true exr_cfg1 exr_data bst_sched L1 [] ex_rng = Ok m /\ length (at_trees m) = 1 /\
  boost_train Rmath true exr_cfg1 exr_data_u2 bst_sched L1 [] ex_rng = Ok (@mk_add Rops (2 * at_bias m + 5)%R (map (fun t => tree_times 2 (tree_in_unit exr_p2 exr_q2 t)) (at_trees m))).
Proof.
  assert (rescaled exr_p2 exr_q2 exr_data exr_data_u2) as HS.
  { do 7 (split; [reflexivity|]). split; [|split; [|split]].
    - intros [|[|[|f]]]; cbn; lra.
    - intros [|[|[|f]]] ft E Hne; cbn in E; try (injection E as <-; try contradiction; cbn; split; lra); destruct f; discriminate.
    - intros [|[|[|f]]] col E; cbn [nth_error exr_data exr_data_u2 d_features] in *; try (injection E as <-; unfold in_unit; cbn [map exr_p2 exr_q2]; f_equal; repeat (apply f_equal2; [lra|]); reflexivity). destruct f; discriminate.
    - intros [|[|[|f]]] lo hi E; cbn [nth_error exr_data exr_data_u2 d_limits] in *; try (injection E as <- <-; unfold in_unit; cbn [exr_p2 exr_q2]; f_equal; apply f_equal2; lra). destruct f; discriminate. }
  split; [exact HS|]. destruct C49_median_ex as (_ & _ & _ & H). destruct (H L1 (or_introl eq_refl)) as (b & Eb & Lb). exists (bs_ensemble b).
  assert (boost_train Rmath true exr_cfg1 exr_data bst_sched L1 [] ex_rng = Ok (bs_ensemble b)) as Em. { unfold boost_train. change (c_niterations exr_cfg1) with 1. rewrite Eb. reflexivity. }
  split; [exact Em|]. split; [exact Lb|]. exact (C64_training exr_p2 exr_q2 true exr_cfg1 exr_data exr_data_u2 bst_sched [] ex_rng _ HS Em).
Qed.
