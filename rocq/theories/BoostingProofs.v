From Coq Require Import Reals Lra Permutation.
From Verif Require Import Base BaseProofs BitModel BitSpec F32 Num DataModel DataSpec Config TreeModel TreeSpec DatasetModel DatasetSpec DatasetProofs3 DatasetProofs4 DatasetProofs5 DatasetProps
  RouteProps LearnerModel LearnerSpec GainSpec TrainSpec LearnerProofs3 LearnerProofs7 LearnerProofs8 LearnerProps TrainProps ObjectiveModel ObjectiveSpec ObjectiveProofs ObjectiveProps MetricModel MetricSpec MetricProps BoostModel BoostSpec BoostProofs BoostProps GreedySpec GreedyProofs GreedyProps FitProps BoostingSpec.
Local Close Scope R_scope.

(** The gain depends only on the gradients. *)
Lemma gradient_sum_ext w lo hi gv gv' l : (forall k, gv k = gv' k) -> gradient_sum w lo hi gv l = gradient_sum w lo hi gv' l.
Proof. intros H. unfold gradient_sum. f_equal. apply map_ext. intros k. rewrite H. reflexivity. Qed.
Lemma split_gain_ext w lo hi gv gv' la left l : (forall k, gv k = gv' k) -> split_gain w lo hi gv la left l = split_gain w lo hi gv' la left l.
Proof. intros H. unfold split_gain, score. rewrite !(gradient_sum_ext w lo hi gv gv' _ H). reflexivity. Qed.

(** The raw leaf value depends only on the predictions of the examples. *)
Lemma foldM_eq {A S} (f g : S -> A -> res S) l : (forall s x, In x l -> f s x = g s x) -> forall s, foldM f l s = foldM g l s.
Proof.
  induction l as [|x l IH]; intros H s; [reflexivity|]. cbn [foldM]. rewrite (H s x (or_introl eq_refl)). destruct (g s x); try reflexivity. cbn [rbind]. apply IH. intros s' y Hy. apply H. right. exact Hy.
Qed.
Lemma mapM_eq {A B} (f g : A -> res B) l : (forall x, In x l -> f x = g x) -> mapM f l = mapM g l.
Proof. induction l as [|x l IH]; intros H; [reflexivity|]. cbn [mapM]. rewrite (H x (or_introl eq_refl)), IH; [reflexivity|]. intros y Hy. apply H. right. exact Hy. Qed.
Lemma raw_leaf_ext O (M : mathops O) targets ex ob ob' : same_settings ob ob' -> (forall i, In i ex -> nth_error (ob_preds ob') i = nth_error (ob_preds ob) i) ->
  raw_leaf_value M targets ex ob' = raw_leaf_value M targets ex ob.
Proof.
  intros (H1 & H2 & H3 & H4 & H5 & H6 & H7 & H8) H. unfold raw_leaf_value. rewrite H1, H4, H5, H7.
  assert (forall i, In i ex -> idx (ob_preds ob') i = idx (ob_preds ob) i) as Hi by (intros i Hi; unfold idx; rewrite (H i Hi); reflexivity).
  assert (forall i, In i ex -> residual targets (ob_preds ob') i = residual targets (ob_preds ob) i) as Hr by (intros i Hx; unfold residual; rewrite (Hi i Hx); reflexivity).
  destruct (ob_kind ob).
  - rewrite (foldM_eq _ (fun s i => let* e := residual targets (ob_preds ob) i in Ok (nadd O s e)) ex); [reflexivity|]. intros s x Hx. rewrite (Hr x Hx). reflexivity.
  - rewrite (mapM_eq _ (residual targets (ob_preds ob)) ex Hr). reflexivity.
  - rewrite (mapM_eq _ (residual targets (ob_preds ob)) ex Hr). reflexivity.
  - reflexivity.
  - f_equal. apply foldM_eq. intros s x Hx. rewrite (Hi x Hx). reflexivity.
Qed.
Lemma leaf_call_settings O (M : mathops O) targets ex ob v ob1 : obj_leaf_value M targets ex ob = Ok (v, ob1) -> same_settings ob ob1.
Proof. intros E1. unfold obj_leaf_value in E1. apply rbind_ok in E1 as (r & _ & E1). unfold update_predictions in E1. apply rbind_ok in E1 as (ps & _ & E1). injection E1 as _ <-. repeat split. Qed.

(** Each leaf of a tree gets the learning rate times the raw value for its examples, from the predictions before the tree. *)
Lemma leaves_raw O (M : mathops O) targets : forall (gs : list (group O)) ob ob', NoDup (concat (map g_examples gs)) -> leaf_calls (obj_leaf_value M targets) gs ob ob' ->
  forall g, In g gs -> exists raw, raw_leaf_value M targets (g_examples g) ob = Ok raw /\ g_value g = nmul O (ob_lr ob) raw.
Proof.
  induction gs as [|g0 gs IH]; intros ob ob' Hnd H g Hg; [destruct Hg|]. cbn [leaf_calls map concat] in *. destruct H as (ob1 & E1 & H). apply nodup_app in Hnd as (Hn1 & Hn2 & Hd).
  destruct (C40_apply _ _ _ _ _ _ _ Hn1 E1) as (raw & Eraw & Ev & Hl & Hp). destruct Hg as [<-|Hg]; [exists raw; auto|].
  destruct (IH ob1 ob' Hn2 H g Hg) as (raw' & Er' & Ev'). pose proof (leaf_call_settings _ _ _ _ _ _ _ E1) as HS. exists raw'. split; [|rewrite Ev'; destruct HS as (_ & -> & _); reflexivity].
  rewrite <- Er'. symmetry. apply raw_leaf_ext; [exact HS|]. intros i Hi. assert (~ In i (g_examples g0)) as Hni.
  { intros Hc. apply (Hd i Hc). apply in_concat. exists (g_examples g). split; [apply in_map, Hg|exact Hi]. }
  destruct (nth_error (ob_preds ob) i) as [p|] eqn:Ep; [apply (Hp i p Ep), Hni|]. apply nth_error_None in Ep. apply nth_error_None. rewrite Hl. exact Ep.
Qed.

Lemma update_settings O (M : mathops O) target (ob ob' : objective O) : obj_update M target ob = Ok ob' -> ob_lr ob' = ob_lr ob /\ ob_bound ob' = ob_bound ob /\ ob_kind ob' = ob_kind ob /\ ob_preds ob' = ob_preds ob.
Proof.
  intros E. unfold obj_update in E. apply rbind_ok in E as (? & _ & E). apply rbind_ok in E as (? & _ & E). destruct (ob_kind ob) eqn:Ek.
  - destruct (m_limits M _). apply Ok_inj in E. subst ob'. cbn. auto.
  - apply Ok_inj in E. subst ob'. cbn. auto.
  - apply rbind_ok in E as (q & _ & E). apply Ok_inj in E. subst ob'. cbn. auto.
  - apply Ok_inj in E. subst ob'. cbn. auto.
  - apply Ok_inj in E. subst ob'. cbn. auto.
Qed.

(** Two predicates of leaves. *)
Lemma boosting_tree_mono cfg s t lo hi grad grad' (fits fits' : list nat -> R -> Prop) : (forall rows, example_rows s = Ok rows -> (forall j, In j rows -> grad j = grad' j) /\ NoDup rows /\ (forall ex v, ex <> [] -> NoDup ex -> incl ex rows -> fits ex v -> fits' ex v)) ->
  boosting_tree cfg s t lo hi grad fits -> boosting_tree cfg s t lo hi grad' fits'.
Proof.
  intros H (rows & Er & HG). exists rows. split; [exact Er|]. cbv zeta in *. destruct (H rows Er) as (H1 & HND & H2).
  assert (forall k, match nth_error rows k with Some j => stored_gradient cfg (lo, hi) (grad j) | None => 0%N end = match nth_error rows k with Some j => stored_gradient cfg (lo, hi) (grad' j) | None => 0%N end) as Hg.
  { intros k. destruct (nth_error rows k) eqn:E; [|reflexivity]. rewrite (H1 n); [reflexivity|]. eapply nth_error_In, E. }
  assert (forall fm l, split_gain (c_discr_nbits cfg) lo hi (fun k => match nth_error rows k with Some j => stored_gradient cfg (lo, hi) (grad j) | None => 0%N end) (c_reg_lambda cfg) (bbit fm) l =
    split_gain (c_discr_nbits cfg) lo hi (fun k => match nth_error rows k with Some j => stored_gradient cfg (lo, hi) (grad' j) | None => 0%N end) (c_reg_lambda cfg) (bbit fm) l) as HS.
  { intros fm l. apply split_gain_ext, Hg. }
  assert (forall r m l, greedy s t
     (fun l => forall f b fm, divides s l f b fm -> (split_gain (c_discr_nbits cfg) lo hi (fun k => match nth_error rows k with Some j => stored_gradient cfg (lo, hi) (grad j) | None => 0%N end) (c_reg_lambda cfg) (bbit fm) l <= c_min_gain cfg)%R)
     (fun l f b fm => divides s l f b fm /\ (c_min_gain cfg < split_gain (c_discr_nbits cfg) lo hi (fun k => match nth_error rows k with Some j => stored_gradient cfg (lo, hi) (grad j) | None => 0%N end) (c_reg_lambda cfg) (bbit fm) l)%R /\
        forall f' b' fm', divides s l f' b' fm' -> (split_gain (c_discr_nbits cfg) lo hi (fun k => match nth_error rows k with Some j => stored_gradient cfg (lo, hi) (grad j) | None => 0%N end) (c_reg_lambda cfg) (bbit fm') l <= split_gain (c_discr_nbits cfg) lo hi (fun k => match nth_error rows k with Some j => stored_gradient cfg (lo, hi) (grad j) | None => 0%N end) (c_reg_lambda cfg) (bbit fm) l)%R)
     (fun m l => l <> [] /\ exists v, fits (map (fun k => nth k rows 0) l) v /\ node_value t m = Ok (c_learning_rate cfg * v)%R) r m l -> NoDup l -> incl l (seq 0 (length rows)) ->
     greedy s t
     (fun l => forall f b fm, divides s l f b fm -> (split_gain (c_discr_nbits cfg) lo hi (fun k => match nth_error rows k with Some j => stored_gradient cfg (lo, hi) (grad' j) | None => 0%N end) (c_reg_lambda cfg) (bbit fm) l <= c_min_gain cfg)%R)
     (fun l f b fm => divides s l f b fm /\ (c_min_gain cfg < split_gain (c_discr_nbits cfg) lo hi (fun k => match nth_error rows k with Some j => stored_gradient cfg (lo, hi) (grad' j) | None => 0%N end) (c_reg_lambda cfg) (bbit fm) l)%R /\
        forall f' b' fm', divides s l f' b' fm' -> (split_gain (c_discr_nbits cfg) lo hi (fun k => match nth_error rows k with Some j => stored_gradient cfg (lo, hi) (grad' j) | None => 0%N end) (c_reg_lambda cfg) (bbit fm') l <= split_gain (c_discr_nbits cfg) lo hi (fun k => match nth_error rows k with Some j => stored_gradient cfg (lo, hi) (grad' j) | None => 0%N end) (c_reg_lambda cfg) (bbit fm) l)%R)
     (fun m l => l <> [] /\ exists v, fits' (map (fun k => nth k rows 0) l) v /\ node_value t m = Ok (c_learning_rate cfg * v)%R) r m l) as K; [|apply K; [exact HG|apply seq_NoDup|apply incl_refl]].
  intros r m l HX. induction HX as [r m l Hi Hs (Hne & v & Hf & Hv)|r m l c b fm Hc Hn Hcd Hb Hso (P1 & P2 & P3) _ IHl _ IHr]; intros HNl Hin.
  - apply greedy_leaf; [exact Hi| |].
    + destruct Hs as [Hs|Hs]; [left; exact Hs|right]. intros f b fm Hd. rewrite <- HS. apply (Hs f b fm Hd).
    + split; [exact Hne|]. exists v. split; [|exact Hv]. apply H2; [intros Hc; apply Hne; destruct l; [reflexivity|discriminate]| | |exact Hf].
      { clear - HNl Hin HND. induction HNl as [|x l Hx HNl IH]; [constructor|]. cbn [map]. constructor; [|apply IH; intros y Hy; apply Hin; right; exact Hy].
        intros Hc. apply in_map_iff in Hc as (y & Ey & Hy). apply Hx. assert (In x (seq 0 (length rows)) /\ In y (seq 0 (length rows))) as (A & B) by (split; apply Hin; [left; reflexivity|right; exact Hy]).
        apply in_seq in A, B. assert (y = x) as -> by (eapply (proj1 (NoDup_nth rows 0) HND); [lia|lia|exact Ey]). exact Hy. }
      intros j Hj. apply in_map_iff in Hj as (k & <- & Hk). apply nth_In. apply Hin, in_seq in Hk. lia.
  - eapply greedy_split; try eassumption.
    + split; [exact P1|]. rewrite <- HS. split; [exact P2|]. intros f' b' fm' Hd. rewrite <- HS. apply (P3 f' b' fm' Hd).
    + apply IHl; [apply NoDup_filter, HNl|]. intros x Hx. apply filter_In in Hx. apply Hin, Hx.
    + apply IHr; [apply NoDup_filter, HNl|]. intros x Hx. apply filter_In in Hx. apply Hin, Hx.
Qed.

Section Round.
Variable dbg : bool.
Variable cfg : config Rops.
Variable d : data Rops.
Variable sched : nat -> nat -> list job -> list job.
Variable kind : obj_kind.
Variable metrics : list metric.
Variable g : rng.
Hypothesis HW : well_formed d.
Hypothesis HO : any_order sched.
Hypothesis Hn31 : (Z.of_nat (d_nexamples d) <= 2 ^ 31)%Z.
Hypothesis Hf1 : (c_example_fraction cfg <= 1)%R.

Lemma update_alpha target (ob ob' : objective Rops) : obj_update Rmath target ob = Ok ob' -> ob_alpha ob' = ob_alpha ob.
Proof.
  intros E. unfold obj_update in E. apply rbind_ok in E as (? & _ & E). apply rbind_ok in E as (? & _ & E). destruct (ob_kind ob).
  - destruct (m_limits Rmath _). apply Ok_inj in E. subst ob'. reflexivity.
  - apply Ok_inj in E. subst ob'. reflexivity.
  - apply rbind_ok in E as (q & _ & E). apply Ok_inj in E. subst ob'. reflexivity.
  - apply Ok_inj in E. subst ob'. reflexivity.
  - apply Ok_inj in E. subst ob'. reflexivity.
Qed.
Lemma kind_facts k b : boost_run Rmath dbg cfg d sched kind metrics g k = Ok b ->
  ob_kind (bs_objective b) = kind /\ ob_lr (bs_objective b) = c_learning_rate cfg /\ ((kind = Binary -> ob_bound (bs_objective b) = c_binary_gradient_bound cfg) /\ (kind = Huber -> ob_alpha (bs_objective b) = c_huber_alpha cfg)) /\ reachable dbg cfg d (bs_dataset b).
Proof.
  revert b. induction k as [|k IH]; intros b E.
  - unfold boost_run in E. apply rbind_ok in E as (b0 & E0 & E). apply rbind_ok in E as (sz & _ & E). cbn in E. apply Ok_inj in E. subst b0. unfold boost_start in E0.
    apply rbind_ok in E0 as (s & Es & E0). apply rbind_ok in E0 as (target & Et & E0). apply rbind_ok in E0 as (ob & Eo & E0). apply Ok_inj in E0. subst b. cbn [bs_objective bs_dataset].
    destruct (C40_initialize _ _ _ _ _ _ _ Eo) as (Hk & Hp & Hl & _). split; [exact Hk|]. split; [exact Hl|]. split.
    + split; intros ->; cbn [obj_initialize objective_new ob_kind] in Eo.
      * apply rbind_ok in Eo as (? & _ & Eo). apply Ok_inj in Eo. subst ob. reflexivity.
      * apply rbind_ok in Eo as (? & _ & Eo). apply rbind_ok in Eo as (? & _ & Eo). apply Ok_inj in Eo. subst ob. reflexivity.
    + exists g, [], s. split; [exact Es|reflexivity].
  - apply boost_run_S in E as (b1 & sz & E1 & Esz & E). destruct (IH b1 E1) as (K1 & R1 & B1 & G1). unfold train_one_iter in E.
    apply rbind_ok in E as (target & Etg & E). apply rbind_ok in E as (ob & Eu & E). apply rbind_ok in E as (s & Es & E). apply rbind_ok in E as ((t & ob') & Et & E). apply Ok_inj in E. subst b. cbn [bs_objective bs_dataset].
    destruct (update_settings _ _ _ _ _ Eu) as (R2 & B2 & K2 & P2).
    assert (reachable dbg cfg d s) as HR.
    { destruct G1 as (g0 & us & s0 & E0 & E2). exists g0, (us ++ [(ob_grads ob, obj_bounds ob)]), s0. split; [exact E0|]. unfold ds_run in *. rewrite foldM_app, E2. cbn [rbind foldM fst snd]. rewrite Es. reflexivity. }
    assert (setting dbg cfg d s sz (sched (S (bs_iter b1)))) as HS.
    { split; [exact HR|]. split; [exact Esz|]. split; [apply HO|]. unfold nactive_examples. rewrite (dv_nact _ _ _ _ (ds_inv _ _ _ _ (reachable_ok _ _ _ _ _ HR))). unfold nact. pose proof (scaled_R (d_nexamples d) (c_example_fraction cfg) Hf1 ltac:(lia)) as (Hle & _). lia. }
    destruct (C26_leaves _ _ _ _ _ _ _ _ _ _ _ _ _ _ _ _ HS Et) as (rows & gs & others & ob1 & Hrows & _ & _ & HP & Hnd & _ & HL & HB & Ho1 & Ho2).
    assert (NoDup (map fst others)) as Hnd2. { destruct (example_sampling_enabled s); [apply increasing_nodup, Ho2; reflexivity|rewrite (Ho1 eq_refl); constructor]. }
    destruct (leaf_calls_preds _ _ _ _ _ _ Hnd HL) as (S1 & La & _). destruct (oob_calls_preds _ _ _ _ Hnd2 HB) as (S2 & Lb & _). destruct S1 as (Sk1 & Sl1 & _ & _ & _ & Sa1 & _ & Sb1), S2 as (Sk2 & Sl2 & _ & _ & _ & Sa2 & _ & Sb2).
    split; [congruence|]. split; [congruence|]. split; [split; intros Hk; [rewrite Sb2, Sb1, B2; apply B1, Hk|rewrite Sa2, Sa1, (update_alpha _ _ _ Eu); apply B1, Hk]|exact HR].
Qed.

Lemma round k b' : c_min_examples_leaf cfg = 1%N -> boost_run Rmath dbg cfg d sched kind metrics g (S k) = Ok b' ->
  exists b target ob s t, boost_run Rmath dbg cfg d sched kind metrics g k = Ok b /\ get_target d = Ok target /\ obj_update Rmath target (bs_objective b) = Ok ob /\ reachable dbg cfg d s /\ bs_ensemble b' = push_tree (bs_ensemble b) t /\
    forall lo hi : R, obj_bounds ob = (lo, hi) -> (lo < hi)%R ->
      boosting_tree cfg s t lo hi (fun j => nth j (ob_grads ob) 0%R) (fun ex v => raw_leaf_value Rmath target ex ob = Ok v).
Proof.
  intros Hmin E'. apply boost_run_S in E' as (b & sz & E & Esz & E'). destruct (kind_facts k b E) as (K1 & R1 & _ & G1).
  unfold train_one_iter in E'. apply rbind_ok in E' as (target & Etg & E').
  apply rbind_ok in E' as (ob & Eu & E'). apply rbind_ok in E' as (s & Es & E'). apply rbind_ok in E' as ((t & ob') & Et & E'). apply Ok_inj in E'. subst b'. cbn [bs_ensemble].
  destruct (update_settings _ _ _ _ _ Eu) as (R2 & B2 & K2 & P2).
  assert (reachable dbg cfg d s) as HR.
  { destruct G1 as (g0 & us & s0 & E0 & E2). exists g0, (us ++ [(ob_grads ob, obj_bounds ob)]), s0. split; [exact E0|]. unfold ds_run in *. rewrite foldM_app, E2. cbn [rbind foldM fst snd]. rewrite Es. reflexivity. }
  assert (setting dbg cfg d s sz (sched (S (bs_iter b)))) as HS.
  { split; [exact HR|]. split; [exact Esz|]. split; [apply HO|]. unfold nactive_examples. rewrite (dv_nact _ _ _ _ (ds_inv _ _ _ _ (reachable_ok _ _ _ _ _ HR))). unfold nact. pose proof (scaled_R (d_nexamples d) (c_example_fraction cfg) Hf1 ltac:(lia)) as (Hle & _). lia. }
  exists b, target, ob, s, t. split; [exact E|]. split; [exact Etg|]. split; [exact Eu|]. split; [exact HR|]. split; [reflexivity|].
  intros lo hi Hb Hlt. rewrite Hb in Et. pose proof HS as (_ & _ & Hsch & Hsm).
  destruct (train_greedy Rops dbg dbg cfg d s sz (lo, hi) (sched (S (bs_iter b))) (ob_grads ob) _ (obj_leaf_value Rmath target) update_out_of_bag HR Esz Hsch Hsm t ob ob' _ _ (fun l H => H) (fun l f b fm H => H) Et)
    as (rows & gs & st1 & Hrows & C & Eo & HG & Hl & Hnd & HP & Hgne).
  exists rows. split; [exact Hrows|]. cbv zeta. rewrite (rows_length Rops s rows Hrows).
  assert (forall j, In j rows -> j < length target) as Hin.
  { intros j Hj. rewrite (target_len _ d (well_formed_cols _ d HW) target Etg). eapply run_rows_lt; [exact HR| |exact Hrows|exact Hj]. apply (scaled_R (d_nexamples d) (c_example_fraction cfg) Hf1 ltac:(lia)). }
  assert (length (ob_grads ob) = length target) as Hlg by (apply (C40_update _ _ _ _ _ Eu)).
  assert (forall fm l, split_gain (c_discr_nbits cfg) lo hi (fun k => match nth_error rows k with Some j => stored_gradient cfg (lo, hi) (nth j (ob_grads ob) 0%R) | None => 0%N end) (c_reg_lambda cfg) (bbit fm) l =
    split_gain (c_discr_nbits cfg) lo hi (gradient_at cfg (lo, hi) (ob_grads ob) rows) (c_reg_lambda cfg) (bbit fm) l) as HE.
  { intros fm l. apply split_gain_ext. intros j. unfold gradient_at. destruct (nth_error rows j) as [r|] eqn:Er; [|reflexivity].
    assert (r < length (ob_grads ob)) as Hr by (rewrite Hlg; apply Hin; eapply nth_error_In, Er). rewrite (nth_error_nth' (ob_grads ob) (0%R : num Rops) Hr). reflexivity. }
  assert (NoDup (concat (map g_examples (map (to_rows Rops rows) gs)))) as Hnd'.
  { assert (concat (map g_examples (map (to_rows Rops rows) gs)) = map (fun k => nth k rows 0) (concat (map g_examples gs))) as -> by (rewrite concat_map, !map_map; reflexivity).
    eapply Permutation_NoDup; [apply Permutation_map; symmetry; exact HP|]. rewrite <- (rows_length Rops s rows Hrows).
    assert (map (fun k => nth k rows 0) (seq 0 (length rows)) = rows) as ->; [|eapply rows_nodup; eassumption]. clear. induction rows as [|x l IH]; [reflexivity|]. cbn [length seq map nth]. f_equal. rewrite <- seq_shift, map_map. exact IH. }
  revert HG. apply greedy_mono.
  - intros l (nd & sp & HGr & Hm & Esp & Ens). pose proof (C20_exact dbg dbg cfg d s sz lo hi (sched (S (bs_iter b))) (ob_grads ob) nd sp rows HS Hmin Hlt HGr Esp Hrows) as HB. cbv zeta in HB. rewrite Ens, Hm in HB.
    intros f b0 fm Hd. rewrite HE. apply (HB f b0 fm Hd).
  - intros l f b0 fm (nd & sp & HGr & Hm & Esp & Ens & -> & -> & Em). pose proof (C20_exact dbg dbg cfg d s sz lo hi (sched (S (bs_iter b))) (ob_grads ob) nd sp rows HS Hmin Hlt HGr Esp Hrows) as HB. cbv zeta in HB. rewrite Ens, Hm in HB.
    destruct HB as (f' & fm' & Hd & (Hf & _) & Hg & Hbest). subst f'. assert (fm' = fm) as -> by (destruct Hd as (_ & Ed & _); congruence). split; [exact Hd|]. rewrite HE. split; [exact Hg|].
    intros f' b' fm' Hd'. rewrite HE. apply (Hbest f' b' fm' Hd').
  - intros m l (v & Hinm & Hv). split; [apply (Hgne _ Hinm)|].
    destruct (leaves_raw Rops Rmath target _ _ _ Hnd' C _ (in_map (to_rows Rops rows) _ _ Hinm)) as (raw & Er & Ev). exists raw. split; [exact Er|]. rewrite Hv. cbn [to_rows g_value snd] in Ev. f_equal. etransitivity; [exact Ev|]. rewrite R2, R1. reflexivity.
Qed.
End Round.
