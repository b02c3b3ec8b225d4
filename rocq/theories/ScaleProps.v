(** C68: the unit of the target does not matter for the squared error and the Huber loss, on tables of categorical features (exact arithmetic). *)
From Coq Require Import Reals Lra.
From Verif Require RowProps.
From Verif Require Import Base BaseProofs Num F32 TreeProps ScaledModel DataModel BinnerModel Config TreeModel DatasetModel DatasetSpec LearnerModel ObjectiveModel MetricModel BoostModel BoostSpec DatasetProps LearnerProps BoostProofs BoostProps PrefixSpec PrefixProps TotalSpec TotalProps
  AlikeProofs UnitSpec UnitProofs UnitProofs2 UnitProofs3 ShiftProofs MedianProps UnitProps ScaleSpec ScaleProofs ScaleProofs2.
From Flocq Require Import Core.
Local Open Scope R_scope.
Local Open Scope nat_scope.

Section Scale.
Variables a c : R.
Hypothesis Ha : (0 < a)%R.
Notation H := ((fun y : R => (a * y + c)%R) : num Rops -> num Rops).
Notation u := ((fun y : R => (a * y)%R) : num Rops -> num Rops).
Notation u2 := ((fun y : R => (a * a * y)%R) : num Rops -> num Rops).

Lemma s_min (x y : R) : Rmin (a * x) (a * y) = (a * Rmin x y)%R.
Proof. unfold Rmin. destruct (Rle_dec x y), (Rle_dec (a * x) (a * y)); try reflexivity; exfalso; nra. Qed.
Lemma s_max (x y : R) : Rmax (a * x) (a * y) = (a * Rmax x y)%R.
Proof. unfold Rmax. destruct (Rle_dec x y), (Rle_dec (a * x) (a * y)); try reflexivity; exfalso; nra. Qed.
Lemma s_abs (x : R) : Rabs (a * x) = (a * Rabs x)%R.
Proof. rewrite Rabs_mult, (Rabs_pos_eq a) by lra. reflexivity. Qed.
Lemma s_ratio (x y : R) : ((a * x) / (a * y))%R = (x / y)%R.
Proof. unfold Rdiv. rewrite Rinv_mult. transitivity (a * / a * (x * / y))%R; [ring|]. rewrite Rinv_r by lra. ring. Qed.
Lemma s_lin w (x n lo hi : R) : linproj Rops w x n (u lo, u hi) = u (linproj Rops w x n (lo, hi)).
Proof. unfold linproj. generalize (maxval Rops w). intros m. change ((x / m * (a * hi - a * lo) + n * (a * lo))%R = (a * (x / m * (hi - lo) + n * lo))%R). ring. Qed.
Lemma s_disc w (v lo hi : R) : discretise Rops w (u v) (u lo, u hi) = discretise Rops w v (lo, hi).
Proof.
  unfold discretise. generalize (maxval Rops w). intros m. f_equal. f_equal. change (((Rmin (a * hi) (Rmax (a * lo) (a * v)) - a * lo) / (a * hi - a * lo) * m)%R = ((Rmin hi (Rmax lo v) - lo) / (hi - lo) * m)%R).
  rewrite s_max, s_min. f_equal. rewrite <- !Rmult_minus_distr_l. apply s_ratio.
Qed.
Lemma s_sub (x y : R) : nsub Rops (u x) (u y) = u (nsub Rops x y). Proof. change ((a * x - a * y)%R = (a * (x - y))%R). ring. Qed.
Lemma s_add (x y : R) : nadd Rops (u x) (u y) = u (nadd Rops x y). Proof. change ((a * x + a * y)%R = (a * (x + y))%R). ring. Qed.
Lemma s_div (x y : R) : ndiv Rops (u x) y = u (ndiv Rops x y). Proof. change ((a * x / y)%R = (a * (x / y))%R). unfold Rdiv. ring. Qed.
Lemma s_loss (cfg : config Rops) (g : R) n : get_loss cfg (u g) n = u2 (get_loss cfg g n).
Proof. unfold get_loss. generalize (nadd Rops (nofN Rops n) (c_reg_lambda cfg)). intros x. change ((- (1 / 2) * ((a * g * (a * g)) / x))%R = (a * a * (- (1 / 2) * (g * g / x)))%R). unfold Rdiv. ring. Qed.
Lemma s_sub2 (x y : R) : nsub Rops (u2 x) (u2 y) = u2 (nsub Rops x y). Proof. change ((a * a * x - a * a * y)%R = (a * a * (x - y))%R). ring. Qed.
Lemma s_lt2 (x y : R) : nlt Rops (u2 x) (u2 y) = nlt Rops x y.
Proof. change (Rlt_bool (a * a * x) (a * a * y) = Rlt_bool x y). assert (0 < a * a)%R by nra. destruct (Rlt_bool_spec x y), (Rlt_bool_spec (a * a * x) (a * a * y)); try reflexivity; exfalso; nra. Qed.

(** The objectives in the two units. *)
Definition s_obj (k : obj_kind) (ob ob' : objective Rops) : Prop :=
  ob_kind ob = k /\ ob_kind ob' = k /\ ob_lr ob' = ob_lr ob /\ ob_bias ob' = H (ob_bias ob) /\ ob_preds ob' = map H (ob_preds ob) /\ ob_grads ob' = map u (ob_grads ob) /\
  ob_bounds ob' = (u (fst (ob_bounds ob)), u (snd (ob_bounds ob))) /\ ob_alpha ob' = ob_alpha ob /\ ob_delta ob' = u (ob_delta ob).
Lemma s_bounds k ob ob' : k = L2 \/ k = Huber -> s_obj k ob ob' -> obj_bounds ob' = (u (fst (obj_bounds ob)), u (snd (obj_bounds ob))).
Proof.
  intros Hk (K & K' & _ & _ & _ & _ & EB & _ & ED). unfold obj_bounds. rewrite K, K'. destruct Hk as [->| ->]; cbv beta iota; [rewrite EB; reflexivity|]. rewrite ED. cbn [fst snd]. f_equal. generalize (ob_delta ob). intros x. change ((- (a * x))%R = (a * - x)%R). ring.
Qed.
Lemma s_grads k z t ps : k = L2 \/ k = Huber -> pair_gradients Rmath k (u z) (map H t) (map H ps) = map u (pair_gradients Rmath k z t ps).
Proof.
  intros Hk. unfold pair_gradients. rewrite combine_h, !map_map. apply map_ext. intros [x y]. cbn [fst snd]. unfold gradient. rewrite (sub_H a c). destruct Hk as [->| ->].
  - generalize (nsub Rops x y). intros e. change ((- (a * e))%R = (a * - e)%R). ring.
  - rewrite (sign_u a Ha). generalize (nsub Rops x y). intros e. change ((if Rle_bool (Rabs (a * e)) (a * z) then (a * e)%R else (a * z * m_signum Rmath e)%R) = (a * (if Rle_bool (Rabs e) z then e else (z * m_signum Rmath e)%R))%R).
    change (num Rops) with R in e, z. rewrite s_abs. destruct (Rle_bool_spec (Rabs e) z), (Rle_bool_spec (a * Rabs e) (a * z)); try reflexivity; try (exfalso; nra). ring.
Qed.
Lemma s_sum (l : list R) : @nsum Rops (map H l) = (a * @nsum Rops l + c * INR (length l))%R.
Proof.
  unfold nsum. assert (forall z z' : R, z' = (a * z + c * 0)%R -> fold_left (nadd Rops) (map H l) z' = (a * fold_left (nadd Rops) l z + c * INR (length l))%R) as G.
  { assert (forall (k : nat) (z z' : R), z' = (a * z + c * INR k)%R -> fold_left (nadd Rops) (map H l) z' = (a * fold_left (nadd Rops) l z + c * INR (k + length l))%R) as G0; [|intros z z' E; apply (G0 0); exact E].
    induction l as [|x t IH]; intros k z z' E; cbn [map fold_left length]; [rewrite Nat.add_0_r; exact E|]. rewrite (IH (S k) (z + x)%R); [do 3 f_equal; lia|]. change ((z' + (a * x + c))%R = (a * (z + x) + c * INR (S k))%R). rewrite S_INR, E. ring. }
  apply G. change (0%R = (a * 0 + c * 0)%R). ring.
Qed.
Lemma s_init k dbg cfg m target ob : k = L2 \/ k = Huber -> target <> [] -> obj_initialize Rmath dbg cfg target (objective_new Rops k) = Ok ob ->
  exists ob', obj_initialize Rmath dbg (with_min_gain cfg m) (map H target) (objective_new Rops k) = Ok ob' /\ s_obj k ob ob'.
Proof.
  intros Hk Hn E. unfold obj_initialize in *. cbn [ob_kind objective_new] in *. rewrite map_length.
  assert (forall (x : num Rops) n, repeat (H x) n = map H (repeat x n)) as HP by (intros x n; induction n; cbn; f_equal; auto).
  assert (forall n, repeat (zero Rops) n = map u (repeat (zero Rops) n)) as HZ. { intros n. induction n; cbn; f_equal; auto. change (0%R = (a * 0)%R). ring. }
  assert ((zero Rops, zero Rops) = (u (zero Rops), u (zero Rops))) as H0 by (change ((0%R, 0%R) = ((a * 0)%R, (a * 0)%R)); rewrite Rmult_0_r; reflexivity).
  destruct Hk as [->| ->]; cbv beta iota in *.
  - apply Ok_inj in E. subst ob. eexists. split; [reflexivity|]. unfold s_obj. cbn [initialize_base ob_kind ob_lr ob_bias ob_preds ob_grads ob_bounds ob_alpha ob_delta objective_new fst snd].
    assert (ndiv Rops (@nsum Rops (map H target)) (nofnat Rops (length target)) = H (ndiv Rops (@nsum Rops target) (nofnat Rops (length target)))) as ->.
    { etransitivity; [exact (f_equal (fun x : R => ndiv Rops x (nofnat Rops (length target))) (s_sum target))|]. generalize (@nsum Rops target). intros z. change (num Rops) with R in z. unfold nofnat. change (((a * z + c * INR (length target)) / IZR (Z.of_nat (length target)))%R = (a * (z / IZR (Z.of_nat (length target))) + c)%R).
      rewrite <- INR_IZR_INZ. assert (INR (length target) <> 0)%R. { apply not_0_INR. destruct target; [contradiction|discriminate]. } field. assumption. }
    do 4 (split; [reflexivity|]). split; [apply HP|]. split; [apply HZ|]. split; [exact H0|]. split; [reflexivity|]. injection H0 as H0 _. exact H0.
  - unfold median in *. rewrite (limits_H a c Ha) by exact Hn. destruct (m_limits Rmath target) as [lo hi]. cbn [fst snd] in *. rewrite (quantile_h H _ _ _ _ _ (H_unit a c Ha)). unfold rmap. apply rbind_ok in E as (x & -> & E). cbn [rbind]. change (c_huber_alpha (with_min_gain cfg m)) with (c_huber_alpha cfg).
    apply rbind_ok in E as (y & -> & E). cbn [rbind]. apply Ok_inj in E. subst ob. eexists. split; [reflexivity|]. unfold s_obj. cbn [initialize_base ob_kind ob_lr ob_bias ob_preds ob_grads ob_bounds ob_alpha ob_delta objective_new fst snd].
    do 4 (split; [reflexivity|]). split; [apply HP|]. split; [apply HZ|]. split; [exact H0|]. split; [reflexivity|]. injection H0 as H0 _. exact H0.
Qed.
Lemma s_upd k target ob ob' ob1 : k = L2 \/ k = Huber -> s_obj k ob ob' -> obj_update Rmath target ob = Ok ob1 -> exists ob1', obj_update Rmath (map H target) ob' = Ok ob1' /\ s_obj k ob1 ob1' /\ ob_grads ob1' = map u (ob_grads ob1).
Proof.
  intros Hk (K & K' & E2 & E3 & E4 & E5 & E6 & E7 & E8) E. unfold obj_update in *. rewrite K in E. rewrite K', E2, E4, E5, !map_length, (res_H a c), (limits_u a Ha).
  apply rbind_ok in E as (x1 & -> & E). cbn [rbind]. apply rbind_ok in E as (x2 & -> & E). cbn [rbind]. destruct Hk as [Hk|Hk]; subst k; cbv beta iota in *.
  - destruct (m_limits Rmath (residuals target (ob_preds ob))) as [mn mx]. cbn [fst snd]. apply Ok_inj in E. subst ob1. eexists. split; [reflexivity|]. unfold s_obj. cbn [ob_kind ob_lr ob_bias ob_preds ob_grads ob_bounds ob_alpha ob_delta].
    assert (pair_gradients Rmath L2 (zero Rops) (map H target) (map H (ob_preds ob)) = map u (pair_gradients Rmath L2 (zero Rops) target (ob_preds ob))) as ->. { rewrite <- s_grads by auto. f_equal. change (0%R = (a * 0)%R). ring. }
    split; [|reflexivity]. do 6 (split; [first [reflexivity|assumption]|]). split; [|auto].
    assert (nmin Rops (nabs Rops (u mn)) (nabs Rops (u mx)) = u (nmin Rops (nabs Rops mn) (nabs Rops mx))) as ->. { change (Rmin (Rabs (a * mn)) (Rabs (a * mx)) = (a * Rmin (Rabs mn) (Rabs mx))%R). rewrite !s_abs. apply s_min. }
    cbn [fst snd]. f_equal. generalize (nmin Rops (nabs Rops mn) (nabs Rops mx)). intros z. change ((- (a * z))%R = (a * - z)%R). ring.
  - destruct (m_limits Rmath (residuals target (ob_preds ob))) as [mn mx]. cbn [fst snd] in *. rewrite E7, (quantile_h u _ _ _ _ _ (u_unit a Ha)). unfold rmap. apply rbind_ok in E as (q & -> & E). cbn [rbind]. apply Ok_inj in E. subst ob1. eexists. split; [reflexivity|]. unfold s_obj. cbn [ob_kind ob_lr ob_bias ob_preds ob_grads ob_bounds ob_alpha ob_delta].
    assert (nabs Rops (u q) = u (nabs Rops q)) as -> by (change (Rabs (a * q) = (a * Rabs q)%R); apply s_abs). rewrite s_grads by auto. split; [|reflexivity]. auto 12.
Qed.
Lemma s_mapM target ps ex : mapM (residual (map H target) (map H ps)) ex = rmap (map u) (mapM (residual target ps) ex).
Proof. induction ex as [|i ex IH]; [reflexivity|]. cbn [mapM]. rewrite (res1_H a c), IH. unfold rmap. destruct (residual target ps i); cbn [rbind]; try reflexivity. destruct (mapM (residual target ps) ex); reflexivity. Qed.
Lemma s_leaf k target ex ob ob' v ob1 : k = L2 \/ k = Huber -> s_obj k ob ob' -> obj_leaf_value Rmath target ex ob = Ok (v, ob1) -> exists ob1', obj_leaf_value Rmath (map H target) ex ob' = Ok (u v, ob1') /\ s_obj k ob1 ob1'.
Proof.
  intros Hk (K & K' & E2 & E3 & E4 & E5 & E6 & E7 & E8) E.
  assert (raw_leaf_value Rmath (map H target) ex ob' = rmap u (raw_leaf_value Rmath target ex ob)) as HR.
  { unfold raw_leaf_value. rewrite K, K', E4, E6, E8. destruct Hk as [->| ->]; cbv beta iota.
    - assert (foldM (fun s i => let* e := residual (map H target) (map H (ob_preds ob)) i in Ok (nadd Rops s e)) ex (zero Rops) = rmap u (foldM (fun s i => let* e := residual target (ob_preds ob) i in Ok (nadd Rops s e)) ex (zero Rops))) as ->.
      { assert (zero Rops = u (zero Rops)) as HZ by (change (0%R = (a * 0)%R); ring). rewrite HZ at 1. apply foldM_map. intros s i. rewrite (res1_H a c). unfold rmap. destruct (residual target (ob_preds ob) i) as [e| | |]; cbn [rbind]; try reflexivity. rewrite s_add. reflexivity. }
      unfold rmap. destruct (foldM _ _ _) as [z| | |]; cbn [rbind]; try reflexivity. rewrite s_div. reflexivity.
    - rewrite s_mapM. unfold rmap. destruct (mapM (residual target (ob_preds ob)) ex) as [rs| | |]; cbn [rbind]; try reflexivity. destruct (ob_bounds ob) as [lo hi]. cbn [fst snd]. unfold median. rewrite (quantile_h u _ _ _ _ _ (u_unit a Ha)). unfold rmap. destruct (quantile Rops NBINS (half Rops) (lo, hi) rs) as [md| | |]; cbn [rbind]; try reflexivity. f_equal.
      generalize (ob_delta ob). intros dl. rewrite <- s_add, <- s_div. f_equal. f_equal. assert (zero Rops = u (zero Rops)) as HZ by (change (0%R = (a * 0)%R); ring). rewrite HZ at 1. generalize (zero Rops). clear - Ha. induction rs as [|e rs IH]; intros z; [reflexivity|]. cbn [map fold_left]. rewrite <- IH. f_equal.
      rewrite s_sub, (sign_u a Ha). generalize (nsub Rops e md). intros x. generalize (m_signum Rmath x). intros sg. change (num Rops) with R in *. change ((a * z + sg * Rmin (a * dl) (Rabs (a * x)))%R = (a * (z + sg * Rmin dl (Rabs x)))%R). rewrite s_abs, s_min. ring. }
  unfold obj_leaf_value in *. rewrite HR. clear HR. apply rbind_ok in E as (raw & -> & E). cbn [rbind rmap]. unfold update_predictions in *. rewrite K in E. rewrite K', E2, E4, E5, E6.
  assert (nmul Rops (ob_lr ob) (u raw) = u (nmul Rops (ob_lr ob) raw)) as ->. { generalize (ob_lr ob). intros l. change ((l * (a * raw))%R = (a * (l * raw))%R). ring. }
  apply rbind_ok in E as (ps & Ep & E). rewrite (preds_l1 a c _ _ _ _ Ep). cbn [rbind]. apply Ok_inj in E. injection E as <- <-. eexists. split; [reflexivity|]. unfold s_obj. cbn [ob_kind ob_lr ob_bias ob_preds ob_grads ob_bounds ob_alpha ob_delta]. auto 12.
Qed.
Lemma s_oob k i v (ob ob' ob1 : objective Rops) : s_obj k ob ob' -> update_out_of_bag i v ob = Ok ob1 -> exists ob1', update_out_of_bag i (u v) ob' = Ok ob1' /\ s_obj k ob1 ob1'.
Proof.
  intros (K & K' & E2 & E3 & E4 & E5 & E6 & E7 & E8) E. unfold update_out_of_bag in *. rewrite K in E. rewrite K', E2, E4, E5, E6, idx_map. apply rbind_ok in E as (z & -> & E). cbn [rbind]. apply rbind_ok in E as (w & _ & E). cbn [rbind].
  rewrite (add_H a c), (set_idx_map H). apply rbind_ok in E as (ps & -> & E). cbn [rbind]. apply Ok_inj in E. subst. eexists. split; [reflexivity|]. unfold s_obj. cbn [ob_kind ob_lr ob_bias ob_preds ob_grads ob_bounds ob_alpha ob_delta]. auto 12.
Qed.
End Scale.

Lemma target_res a c (d d' : data Rops) : (0 < a)%R -> target_rescaled a c d d' -> rescaled (fun f => if f =? d_nfeatures d then a else 1%R) (fun f => if f =? d_nfeatures d then c else 0%R) d d'.
Proof.
  intros Ha (A1 & A2 & A3 & A4 & A5 & A6 & A7 & AF & AT & AC & AL). do 7 (split; [assumption|]). split; [|split; [|split]].
  - intros f. destruct (f =? d_nfeatures d); lra.
  - intros f ft E Hne. destruct (Nat.eqb_spec f (d_nfeatures d)) as [->|]; [|auto]. apply AT in E. contradiction.
  - intros f col E. unfold in_unit. destruct (Nat.eqb_spec f (d_nfeatures d)) as [->|Hf]; [apply AC, E|]. rewrite (proj1 (AF f Hf)), E. f_equal. symmetry. transitivity (map (fun y : R => y) col); [|apply map_id]. apply map_ext. intros y. change ((1 * y + 0)%R = y). ring.
  - intros f lo hi E. unfold in_unit. destruct (Nat.eqb_spec f (d_nfeatures d)) as [->|Hf]; [apply AL, E|]. rewrite (proj2 (AF f Hf)), E. do 2 f_equal; symmetry.
    + change ((1 * lo + 0)%R = lo). ring.
    + change ((1 * hi + 0)%R = hi). ring.
Qed.
Lemma no_num_unit p q (t : tree Rops) : no_num Rops t -> tree_in_unit p q t = t.
Proof.
  intros HN. destruct t as [x1 x2 cs x4 x5 x6 x7]. unfold tree_in_unit, no_num in *. cbn [t_ninternal t_max_depth t_crits t_values t_shrinkage t_bias t_supercats] in *. f_equal. transitivity (map (fun c => c) cs); [|apply map_id]. apply map_ext_in. intros c Hc. apply HN in Hc. unfold crit_in_unit. destruct (sc_type c); congruence.
Qed.
Lemma scaled_run a c dbg cfg d d' sched kind g k b : (0 < a)%R -> kind = L2 \/ kind = Huber -> target_rescaled a c d d' -> all_categorical d -> get_target d <> Ok [] -> boost_run Rmath dbg cfg d sched kind [] g k = Ok b ->
  exists b', boost_run Rmath dbg (with_min_gain cfg (a * a * c_min_gain cfg)%R) d' sched kind [] g k = Ok b' /\ ob_preds (bs_objective b') = map (fun y : R => (a * y + c)%R) (ob_preds (bs_objective b)) /\
    at_bias (bs_ensemble b') = (a * at_bias (bs_ensemble b) + c)%R /\ at_trees (bs_ensemble b') = map (tree_times a) (at_trees (bs_ensemble b)) /\
    (forall t, In t (at_trees (bs_ensemble b)) -> typed Rops d t /\ no_num Rops t).
Proof.
  intros Ha Hk HT HAll Hne0 E. pose proof (target_res a c d d' Ha HT) as HS. set (p := fun f => if f =? d_nfeatures d then a else 1%R) in *. set (q := fun f => if f =? d_nfeatures d then c else 0%R) in *.
  assert (exists target ob, get_target d = Ok target /\ obj_initialize Rmath dbg cfg target (objective_new Rops kind) = Ok ob) as (target & ob & Et & Eo).
  { unfold boost_run, boost_start in E. apply rbind_ok in E as (b0 & E & _). apply rbind_ok in E as (s & _ & E). apply rbind_ok in E as (target & Et & E). apply rbind_ok in E as (ob & Eo & _). eauto. }
  assert (target <> []) as Hne by congruence.
  assert (get_target d' = Ok (map (fun y : R => (a * y + c)%R) target)) as Et'.
  { destruct HT as (A1 & _ & _ & _ & _ & _ & _ & _ & _ & AC & _). unfold get_target, get_feature in *. rewrite A1. apply idx_ok. apply AC. apply idx_ok. exact Et. }
  destruct (s_init a c Ha kind dbg cfg (a * a * c_min_gain cfg)%R target ob Hk Hne Eo) as (ob' & Eo' & HR0).
  destruct (scale_run Rops (fun v : R => (a * v)%R) (fun v : R => (a * a * v)%R) (s_lin a) (s_disc a Ha) (u_0 a) (s_sub a) (s_add a) (s_div a) (s_loss a) (s_sub2 a) (s_lt2 a Ha) (u_unit a Ha) (fun _ => eq_refl) (u_1 a)
    d d' (in_unit p q) (res_unit p q d d' HS) (res_cat p q d d' HS) (res_data p q d d' HS) HAll dbg cfg Rmath sched target _ Et Et' (s_obj a c kind)) with (kind := kind) (g := g) (ob0 := ob) (ob0' := ob') (k := k) (b := b) as (b' & E' & A & B1 & B2); try assumption.
  - intros o o'. apply s_bounds; assumption.
  - intros o o' o1. apply s_upd; assumption.
  - intros ex st st' v st1. apply s_leaf; assumption.
  - intros i v st st' st1. apply s_oob.
  - exists b'. destruct A as (_ & _ & _ & (_ & _ & _ & _ & R1 & _) & _ & A2 & A3). split; [exact E'|]. split; [exact R1|]. split; [|split; [|exact A3]].
    + rewrite B1, B2. apply HR0.
    + rewrite A2. apply map_ext_in. intros t Ht. change (convt Rops (in_unit p q) (fun v : R => (a * v)%R) t) with (tree_times a (tree_in_unit p q t)). rewrite no_num_unit by (apply A3, Ht). reflexivity.
Qed.

(** Exact arithmetic, squared error or Huber loss, only categorical features: if the target is measured as [a * y + c] and the smallest gain is multiplied by [a * a], training grows the same trees with all leaf values
    multiplied by [a], and the bias is converted. *)
Theorem C68_training : forall a c dbg cfg d d' sched kind metrics g m, (0 < a)%R -> kind = L2 \/ kind = Huber -> target_rescaled a c d d' -> all_categorical d -> get_target d <> Ok [] ->
  boost_train Rmath dbg cfg d sched kind metrics g = Ok m ->
  boost_train Rmath dbg (with_min_gain cfg (a * a * c_min_gain cfg)%R) d' sched kind metrics g = Ok (@mk_add Rops (a * at_bias m + c)%R (map (tree_times a) (at_trees m))).
Proof.
  intros a c dbg cfg d d' sched kind metrics g m Ha Hk HT HAll Hne E. unfold boost_train in *. apply rbind_ok in E as (b & E & Em). apply Ok_inj in Em. subst m. change (c_niterations (with_min_gain cfg (a * a * c_min_gain cfg)%R)) with (c_niterations cfg).
  assert (forall k : config Rops, same_learning k k) as Href by (intros k; repeat split).
  destruct (run_same Rops cfg cfg (Href cfg) Rmath dbg d sched kind metrics [] g _ b E) as (b1 & E1 & _ & _ & _ & H1).
  destruct (scaled_run a c dbg cfg d d' sched kind g _ b1 Ha Hk HT HAll Hne E1) as (b2 & E2 & _ & B1 & B2 & _).
  destruct (run_same Rops _ _ (Href (with_min_gain cfg (a * a * c_min_gain cfg)%R)) Rmath dbg d' sched kind [] metrics g _ b2 E2) as (b3 & E3 & _ & _ & _ & H3). rewrite E3. cbn [rbind]. rewrite H3, <- H1. f_equal.
  destruct (bs_ensemble b2) as [bi ts]. cbn [at_bias at_trees] in *. subst. reflexivity.
Qed.
Print Assumptions C68_training.
(** Training in the new unit succeeds only if it does in the old one. *)
Lemma back_R (a c y : R) : (0 < a)%R -> (/ a * (a * y + c) + - c / a)%R = y.
Proof. intros H. field. lra. Qed.
Lemma back_gain (a m : R) : (0 < a)%R -> (/ a * / a * (a * a * m))%R = m.
Proof. intros H. field. lra. Qed.
Lemma rescaled_back : forall a c d d', (0 < a)%R -> target_rescaled a c d d' -> target_rescaled (/ a) (- c / a) d' d.
Proof.
  intros a c d d' Ha (E1 & E2 & E3 & E4 & E5 & E6 & E7 & E8 & E9 & E10 & E11). unfold target_rescaled. rewrite E1. do 7 (split; [congruence|]). split; [|split; [|split]].
  - intros f Hf. destruct (E8 f Hf) as [-> ->]. auto.
  - intros ft. rewrite E4. apply E9.
  - intros col Ec. destruct (nth_error (d_features d) (d_nfeatures d)) as [col0|] eqn:E0.
    + rewrite (E10 _ eq_refl) in Ec. injection Ec as <-. f_equal. rewrite map_map. symmetry. transitivity (map (fun y : R => y) col0); [|apply map_id]. apply map_ext. intros y. apply back_R, Ha.
    + apply nth_error_None in E0. assert (nth_error (d_features d') (d_nfeatures d) = None) as X by (apply nth_error_None; lia). congruence.
  - intros lo hi Ec. destruct (nth_error (d_limits d) (d_nfeatures d)) as [[lo0 hi0]|] eqn:E0.
    + rewrite (E11 lo0 hi0 eq_refl) in Ec. injection Ec as <- <-. f_equal. apply f_equal2; symmetry; apply back_R, Ha.
    + apply nth_error_None in E0. assert (nth_error (d_limits d') (d_nfeatures d) = None) as X by (apply nth_error_None; lia). congruence.
Qed.
Theorem C68_converse : forall a c dbg (cfg : config Rops) d d' sched kind metrics g m', (0 < a)%R -> kind = L2 \/ kind = Huber -> target_rescaled a c d d' -> all_categorical d -> get_target d <> Ok [] ->
  boost_train Rmath dbg (with_min_gain cfg (a * a * c_min_gain cfg)%R) d' sched kind metrics g = Ok m' -> exists m, boost_train Rmath dbg cfg d sched kind metrics g = Ok m.
Proof.
  intros a c dbg cfg d d' sched kind metrics g m' Ha Hk HT HAll Hne E. pose proof (rescaled_back a c d d' Ha HT) as HB. destruct HT as (E1 & _ & _ & E4 & _ & E6 & _ & _ & _ & E10 & _). eexists.
  pose proof (C68_training (/ a) (- c / a) dbg (with_min_gain cfg (a * a * c_min_gain cfg)%R) d' d sched kind metrics g m' (Rinv_0_lt_compat a Ha) Hk HB) as X.
  assert (with_min_gain (with_min_gain cfg (a * a * c_min_gain cfg)%R) (/ a * / a * c_min_gain (with_min_gain cfg (a * a * c_min_gain cfg)%R))%R = cfg) as EC.
  { destruct cfg. unfold with_min_gain. cbn. f_equal. apply back_gain, Ha. }
  rewrite EC in X. apply X; [|..|exact E].
  - intros f Hf. rewrite E1 in Hf. rewrite E4. apply HAll, Hf.
  - intros Et. apply Hne. unfold get_target, get_feature, idx in *. rewrite E1 in Et. destruct (nth_error (d_features d) (d_nfeatures d)) as [col|] eqn:Ec.
    + rewrite (E10 _ eq_refl) in Et. apply Ok_inj in Et. destruct col; [reflexivity|discriminate Et].
    + apply nth_error_None in Ec. assert (nth_error (d_features d') (d_nfeatures d) = None) as Y by (apply nth_error_None; lia). rewrite Y in Et. discriminate Et.
Qed.
Print Assumptions C68_converse.
(** The running predictions are converted. *)
Theorem C68_run : forall a c dbg cfg d d' sched kind metrics g k b, (0 < a)%R -> kind = L2 \/ kind = Huber -> target_rescaled a c d d' -> all_categorical d -> get_target d <> Ok [] ->
  boost_run Rmath dbg cfg d sched kind metrics g k = Ok b ->
  exists b', boost_run Rmath dbg (with_min_gain cfg (a * a * c_min_gain cfg)%R) d' sched kind metrics g k = Ok b' /\ ob_preds (bs_objective b') = map (fun y : R => (a * y + c)%R) (ob_preds (bs_objective b)).
Proof.
  intros a c dbg cfg d d' sched kind metrics g k b Ha Hk HT HAll Hne E.
  assert (forall k : config Rops, same_learning k k) as Href by (intros k0; repeat split).
  destruct (run_same Rops cfg cfg (Href cfg) Rmath dbg d sched kind metrics [] g _ b E) as (b1 & E1 & _ & H0 & _ & H1).
  destruct (scaled_run a c dbg cfg d d' sched kind g _ b1 Ha Hk HT HAll Hne E1) as (b2 & E2 & P1 & _).
  destruct (run_same Rops _ _ (Href (with_min_gain cfg (a * a * c_min_gain cfg)%R)) Rmath dbg d' sched kind [] metrics g _ b2 E2) as (b3 & E3 & _ & H3 & _). exists b3. split; [exact E3|]. rewrite H3, P1, H0. auto.
Qed.
Print Assumptions C68_run.
(** All rows get the converted predictions. *)
Theorem C68_predict : forall a c dbg cfg d d' sched kind metrics g m D ps, (0 < a)%R -> kind = L2 \/ kind = Huber -> target_rescaled a c d d' -> all_categorical d -> get_target d <> Ok [] ->
  boost_train Rmath dbg cfg d sched kind metrics g = Ok m -> additive_predict m D = Ok ps ->
  exists m', boost_train Rmath dbg (with_min_gain cfg (a * a * c_min_gain cfg)%R) d' sched kind metrics g = Ok m' /\ additive_predict m' D = Ok (map (fun y : R => (a * y + c)%R) ps).
Proof.
  intros a c dbg cfg d d' sched kind metrics g m D ps Ha Hk HT HAll Hne E Ep. eexists. split; [eapply C68_training; eassumption|]. unfold boost_train in E. apply rbind_ok in E as (b & E & Em). apply Ok_inj in Em. subst m.
  assert (forall k : config Rops, same_learning k k) as Href by (intros k0; repeat split).
  destruct (run_same Rops cfg cfg (Href cfg) Rmath dbg d sched kind metrics [] g _ b E) as (b1 & E1 & _ & _ & _ & H1).
  destruct (scaled_run a c dbg cfg d d' sched kind g _ b1 Ha Hk HT HAll Hne E1) as (_ & _ & _ & _ & _ & HTy). rewrite H1 in HTy. destruct (bs_ensemble b) as [bi ts]. cbn [at_bias at_trees] in *.
  assert (rescaled (fun _ => 1%R) (fun _ => 0%R) d d) as HI.
  { do 7 (split; [reflexivity|]). split; [intros; lra|]. split; [auto|]. split.
    - intros f col Ec. rewrite Ec. f_equal. symmetry. transitivity (map (fun y : R => y) col); [|apply map_id]. apply map_ext. intros y. unfold in_unit. change ((1 * y + 0)%R = y). ring.
    - intros f lo hi Ec. rewrite Ec. unfold in_unit. do 2 f_equal; symmetry; [change ((1 * lo + 0)%R = lo)|change ((1 * hi + 0)%R = hi)]; ring. }
  assert (rows_rescaled (fun _ => 1%R) (fun _ => 0%R) D D) as HD.
  { split; [reflexivity|]. intros f col Ec. rewrite Ec. f_equal. symmetry. transitivity (map (fun y : R => y) col); [|apply map_id]. apply map_ext. intros y. unfold in_unit. change ((1 * y + 0)%R = y). ring. }
  pose proof (rows_additive (fun _ => 1%R) (fun _ => 0%R) d d HI a D D HD c bi ts ps (fun t Ht => proj1 (HTy t Ht)) Ep) as X.
  assert (map (convt Rops (in_unit (fun _ : nat => 1%R) (fun _ : nat => 0%R)) (fun v : R => (a * v)%R)) ts = map (tree_times a) ts) as EM; [|rewrite EM in X; exact X].
  apply map_ext_in. intros t Ht. change (tree_times a (tree_in_unit (fun _ => 1%R) (fun _ => 0%R) t) = tree_times a t). rewrite no_num_unit by (apply HTy, Ht). reflexivity.
Qed.
Print Assumptions C68_predict.

(** Six examples with two categorical features, and with the target as [2 * y + 5]. *)
Definition exs_data : data Rops :=
  @mk_data Rops 4 2 6 [[0; 0; 1; 1; 2; 2]; [0; 1; 0; 1; 0; 1]; [1; 0; 3; 0; 1; 1]]%R [(0, 2); (0, 1); (0, 3)]%R [LoCardCat; LoCardCat; Numerical] [3; 2; 0].
Definition exs_data2 : data Rops :=
  @mk_data Rops 4 2 6 [[0; 0; 1; 1; 2; 2]; [0; 1; 0; 1; 0; 1]; [7; 5; 11; 5; 7; 7]]%R [(0, 2); (0, 1); (5, 11)]%R [LoCardCat; LoCardCat; Numerical] [3; 2; 0].
Example C68_ex : target_rescaled 2 5 exs_data exs_data2 /\ all_categorical exs_data /\ get_target exs_data <> Ok [] /\
  (exists m, boost_train Rmath true exr_cfg exs_data bst_sched L2 [] ex_rng = Ok m /\ length (at_trees m) = 2 /\
    boost_train Rmath true (with_min_gain exr_cfg (2 * 2 * c_min_gain exr_cfg)%R) exs_data2 bst_sched L2 [] ex_rng = Ok (@mk_add Rops (2 * at_bias m + 5)%R (map (tree_times 2) (at_trees m)))) /\
  (exists m, boost_train Rmath true exr_cfg1 exs_data bst_sched Huber [] ex_rng = Ok m /\ length (at_trees m) = 1 /\
    boost_train Rmath true (with_min_gain exr_cfg1 (2 * 2 * c_min_gain exr_cfg1)%R) exs_data2 bst_sched Huber [] ex_rng = Ok (@mk_add Rops (2 * at_bias m + 5)%R (map (tree_times 2) (at_trees m)))).
Proof.
  assert (target_rescaled 2 5 exs_data exs_data2) as HS.
  { do 7 (split; [reflexivity|]). split; [|split; [|split]].
    - intros [|[|[|f]]] Hf; cbn in *; try lia; auto.
    - intros ft E. cbn in E. injection E as <-. reflexivity.
    - intros col E. cbn [nth_error exs_data exs_data2 d_features d_nfeatures] in *. injection E as <-. cbn [map]. f_equal. repeat (apply f_equal2; [lra|]). reflexivity.
    - intros lo hi E. cbn [nth_error exs_data exs_data2 d_limits d_nfeatures] in *. injection E as <- <-. f_equal. apply f_equal2; lra. }
  assert (all_categorical exs_data) as HAll by (intros [|[|f]] Hf; cbn in *; try discriminate; lia).
  assert (get_target exs_data <> Ok []) as Hne by (unfold get_target, get_feature; cbn; discriminate).
  split; [exact HS|]. split; [exact HAll|]. split; [exact Hne|].
  assert (no_hicard exs_data) as HN. { intros [|[|f]] [Hf _]; try discriminate. cbn in Hf. lia. }
  assert (scaled_count (O := Rops) (d_nexamples exs_data) (c_example_fraction exr_cfg) = d_nexamples exs_data) as Hsc.
  { apply scaled_R; [cbn; lra|cbn; lia|]. cbn. apply Rlt_bool_false. lra. }
  assert (trainable exr_cfg exs_data) as HT.
  { split; [split; [cbn; lia|split; [cbn; lia|]]; intros col Hc; repeat destruct Hc as [<-|Hc]; try destruct Hc; reflexivity|].
    split; [cbn; lia|]. split; [cbn; lia|]. split; [cbn; lia|]. split; [cbn; lia|]. split; [|split; [|split; [|split]]].
    - intros f col card v Hf E1 E2 E3 Hv. destruct (HN f Hf E1).
    - intros [|[|f]] l Hf E1 E2; try discriminate E1. destruct Hf as [Hf _]; cbn in Hf; lia.
    - rewrite Hsc. cbn. lia.
    - intros _. exact Hsc.
    - intros n Hn. apply scaled_R; [cbn; lra|cbn in Hn; lia]. }
  assert (exists f nb, f < d_nfeatures exs_data /\ max_nbins exs_data f = Ok nb /\ 0 < nb) as Hb by (exists 0, 3; cbn; split; [lia|]; split; [reflexivity|lia]).
  assert (get_target exs_data = Ok [1; 0; 3; 0; 1; 1]%R) as Htgt by reflexivity. split.
  - destruct (C49_training true exr_cfg exs_data bst_sched L2 [] ex_rng _ HT Htgt HN exr_perm) as (m & Em & Lm); try assumption; try (cbn; lia); auto.
    exists m. split; [exact Em|]. split; [exact Lm|]. eapply C68_training; try eassumption; auto; lra.
  - assert (~ (exists r, forall t, In t [1; 0; 3; 0; 1; 1]%R -> t = r)) as Hnc. { intros [r Hr]. assert (1 = r)%R by (apply Hr; cbn; auto). assert (0 = r)%R by (apply Hr; cbn; auto). lra. }
    assert (trainable exr_cfg1 exs_data) as HT1 by exact HT.
    destruct (C49_median_first true exr_cfg1 exs_data bst_sched Huber [] ex_rng [1; 0; 3; 0; 1; 1]%R) as (b & Eb & Lb); try assumption; auto; try exact exr_perm; try (cbn; lia).
    { right. split; [reflexivity|]. split; [exact HN|]. cbn. lra. }
    exists (bs_ensemble b). assert (boost_train Rmath true exr_cfg1 exs_data bst_sched Huber [] ex_rng = Ok (bs_ensemble b)) as Em. { unfold boost_train. change (c_niterations exr_cfg1) with 1. rewrite Eb. reflexivity. }
    split; [exact Em|]. split; [exact Lb|]. eapply C68_training; try eassumption; auto; lra.
Qed.

(** With a numerical feature the unit of the target matters: the gradients weigh the examples from which the candidate thresholds are taken, and a constant (2^-23) is added to these weights.
    Eight examples, one numerical feature; measuring the target in units 2^40 times larger (which is exact in f32, as are all the operations of this run that do not involve the constant) moves the threshold, and the predictions are no
    longer the converted ones. *)
Definition wgt_data (s : f32) : data f32ops :=
  @mk_data f32ops 1 1 8 [[fz 0; fz 1; fz 2; fz 3; fz 4; fz 5; fz 6; fz 7]; map (f_mul s) [fz 0; fz 0; fz 0; fz 0; fz 0; fz 0; fz 0; fz 8]] [(fz 0, fz 7); (f_mul s (fz 0), f_mul s (fz 8))] [Numerical; Numerical] [0; 0].
Definition wgt_cfg : config f32ops :=
  @mk_config f32ops String.EmptyString String.EmptyString String.EmptyString [] 2%N true 44%N [] 1 f_one (fz 0) 1%N (fz 0) (fz 1) 1 8 1 f_half (fz 1) 1%N (fz 1) f_one 1.
Definition wgt_unit : f32 := f_div (fz 1) (fz 1099511627776).
Theorem C68_numerical_refuted : exists (cfg : config f32ops) (s : f32) (target : list f32) (d d' : data f32ops) m m' ps ps' i p p',
  well_formed d /\ well_formed d' /\ get_target d = Ok target /\ get_target d' = Ok (map (f_mul s) target) /\
  firstn (d_nfeatures d) (d_features d') = firstn (d_nfeatures d) (d_features d) /\ f_eq (c_min_gain cfg) (f_mul (f_mul s s) (c_min_gain cfg)) = true /\ f_lt (fz 0) s = true /\
  (forall dbg, boost_train bst_math dbg cfg d bst_sched L2 [] ex_rng = Ok m) /\ (forall dbg, boost_train bst_math dbg cfg d' bst_sched L2 [] ex_rng = Ok m') /\
  additive_predict m d = Ok ps /\ additive_predict m' d' = Ok ps' /\ nth_error ps i = Some p /\ nth_error ps' i = Some p' /\ f_eq (f_mul s p) p' = false.
Proof.
  exists wgt_cfg, wgt_unit, [fz 0; fz 0; fz 0; fz 0; fz 0; fz 0; fz 0; fz 8], (wgt_data f_one), (wgt_data wgt_unit).
  assert (match boost_train bst_math true wgt_cfg (wgt_data f_one) bst_sched L2 [] ex_rng, boost_train bst_math true wgt_cfg (wgt_data wgt_unit) bst_sched L2 [] ex_rng with
    Ok m, Ok m' => match additive_predict m (wgt_data f_one), additive_predict m' (wgt_data wgt_unit) with Ok ps, Ok ps' => match nth_error ps 7, nth_error ps' 7 with Some p, Some p' => f_eq (f_mul wgt_unit p) p' | _, _ => true end | _, _ => true end | _, _ => true end = false) as H by (vm_compute; reflexivity).
  destruct (boost_train bst_math true wgt_cfg (wgt_data f_one) bst_sched L2 [] ex_rng) as [m| | |] eqn:E; [|exfalso; exact (Bool.diff_true_false H)..].
  destruct (boost_train bst_math true wgt_cfg (wgt_data wgt_unit) bst_sched L2 [] ex_rng) as [m'| | |] eqn:E'; [|exfalso; exact (Bool.diff_true_false H)..].
  destruct (additive_predict m (wgt_data f_one)) as [ps| | |] eqn:P; [|exfalso; exact (Bool.diff_true_false H)..].
  destruct (additive_predict m' (wgt_data wgt_unit)) as [ps'| | |] eqn:P'; [|exfalso; exact (Bool.diff_true_false H)..].
  destruct (nth_error ps 7) as [p|] eqn:I; [|exfalso; exact (Bool.diff_true_false H)].
  destruct (nth_error ps' 7) as [p'|] eqn:I'; [|exfalso; exact (Bool.diff_true_false H)].
  exists m, m', ps, ps', 7, p, p'.
  assert (forall s, well_formed (wgt_data s)) as HW by (intros s; split; [cbn; lia|split; [cbn; lia|intros col [<-|[<-|[]]]; reflexivity]]).
  split; [apply HW|]. split; [apply HW|]. split; [|split; [reflexivity|]].
  - unfold get_target, get_feature, wgt_data. cbn [d_features d_nfeatures idx nth_error]. f_equal. cbn [map].
    assert (f_mul f_one (fz 0) = fz 0 /\ f_mul f_one (fz 8) = fz 8) as [E0 E8]; [|rewrite E0, E8; reflexivity].
    split; apply f_one_mul.
  - split; [reflexivity|]. split; [vm_compute; reflexivity|]. split; [vm_compute; reflexivity|]. split; [intros []; [exact E|apply RowProps.train_release, E]|]. split; [intros []; [exact E'|apply RowProps.train_release, E']|]. auto.
Qed.
Print Assumptions C68_numerical_refuted.
