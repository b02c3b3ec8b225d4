(** Constant targets (C44), and input on which training panics (C49). *)
From Coq Require Import Permutation Reals String Psatz.
From Flocq Require Import Core BinarySingleNaN.
From Verif Require Import Base BaseProofs F32 F32Proofs SliceModel Num BinnerModel DataModel Config TreeModel DatasetModel DatasetSpec DatasetProofs5 DatasetProofs6 DatasetProps ScaledProofs
  LearnerModel LearnerSpec LearnerProps TrainSpec TrainProps ObjectiveModel ObjectiveSpec MetricModel BoostModel BoostSpec BoostProofs BoostProps TotalSpec TotalProofs TotalProofs2 TotalProofs3 TotalProps ConstProofs.
Local Close Scope R_scope.

(** Exact arithmetic: with the L2 objective the constant is predicted. *)
Theorem C44_L2_exact : forall dbg (cfg : config Rops) (d : data Rops) sched metrics g target (c : R),
  trainable cfg d -> get_target d = Ok target -> (forall t, In t target -> t = c) -> no_hicard d -> any_order sched -> (Z.of_nat (d_nexamples d) <= 2 ^ 31)%Z ->
  (exists f nb, f < d_nfeatures d /\ max_nbins d f = Ok nb /\ 0 < nb) ->
  (c_discr_nbits cfg = 1 \/ c_discr_nbits cfg = 2 \/ c_discr_nbits cfg = 4 \/ c_discr_nbits cfg = 8) -> 0 < c_max_tree_depth cfg -> (1 <= c_min_examples_leaf cfg)%N ->
  exists m, boost_train Rmath dbg cfg d sched L2 metrics g = Ok m /\ length (at_trees m) = c_niterations cfg /\ additive_predict m d = Ok (repeat c (d_nexamples d)).
Proof.
  intros dbg cfg d sched metrics g target c HT Htgt Hc Hno HO Hn Hbins Hw Hdep Hmin.
  assert (length target = d_nexamples d) as Ht by (eapply target_len; eassumption). pose proof HT as ((Hn0 & _) & _ & _ & _ & _ & _ & _ & Hs & _).
  assert (forall l (s : R), (forall t, In t l -> t = c) -> fold_left Rplus l s = (s + INR (length l) * c)%R) as Hsum.
  { induction l as [|t l IH]; intros s H; cbn [fold_left length]; [cbn; ring|]. rewrite IH by (intros x Hx; apply H; right; exact Hx). rewrite (H t (or_introl eq_refl)), S_INR. ring. }
  destruct (const_train Rops Rmath dbg cfg d sched (laws_R _ _) HT HO) with (target := target) (P := fun x : R => x = c) (Z := fun x : R => x = 0%R) (metrics := metrics) (g := g) as (m & ps & E & L & Ep & Lp & HF); try assumption; cbn [Rops nsub nneg neq nofZ nadd ndiv nmul nisfin num].
  - lia.
  - destruct Hw as [->|[->|[->| ->]]]; reflexivity.
  - intros t p Hin ->. rewrite (Hc t Hin). ring.
  - intros z _. apply Req_bool_true. reflexivity.
  - reflexivity.
  - intros a b -> ->. ring.
  - intros a n -> _. unfold nofnat. cbn. unfold Rdiv. ring.
  - intros a ->. ring.
  - intros a ->. ring.
  - intros p z -> ->. ring.
  - reflexivity.
  - reflexivity.
  - unfold nsum, nofnat, zero. cbn [Rops nsub nneg neq nofZ nadd ndiv nmul nisfin num]. change (num Rops) with R in *. rewrite Hsum by exact Hc. rewrite INR_IZR_INZ. field. apply Rgt_not_eq, Rlt_gt, IZR_lt. lia.
  - exists m. split; [exact E|]. split; [exact L|]. rewrite Ep. f_equal. rewrite <- Lp. clear - HF. induction HF as [|x t -> _ IH]; cbn [repeat length]; [reflexivity|]. f_equal. exact IH.
Qed.
Print Assumptions C44_L2_exact.

(* ---- f32 ---- *)

Definition is_num (c x : f32) : Prop := is_finite x = true /\ B2R' x = B2R' c.
Definition is_null (x : f32) : Prop := is_finite x = true /\ B2R' x = 0%R.
Lemma exact_repr x r : repr x r -> generic_format radix2 fexp32 r -> (Rabs r < F32Proofs.M)%R -> is_finite x = true /\ B2R' x = r.
Proof. intros H G HM. rewrite <- (rnd_generic r G) in HM. destruct (MetricProps.repr_fin x r H HM) as [A B]. split; [exact A|]. rewrite <- (rnd_generic r G). exact B. Qed.
Lemma M_pos : (0 < F32Proofs.M)%R. Proof. apply bpow_gt_0. Qed.
Lemma null_repr x : repr x 0 -> is_null x.
Proof. intros H. apply exact_repr; [exact H|apply generic_format_0|]. rewrite Rabs_R0. apply M_pos. Qed.
Lemma finite_abs (x : f32) : is_finite x = true -> (Rabs (B2R' x) < F32Proofs.M)%R.
Proof. intros F. apply (abs_B2R_lt_emax 24 128 x). Qed.
Lemma f_eq_num c x : is_finite c = true -> is_finite x = true -> f_eq x c = true <-> B2R' x = B2R' c.
Proof. intros Fc Fx. rewrite <- (key_finite _ Fc), <- (key_finite _ Fx). apply RouteProps.f_eq_key; apply fin_nan; assumption. Qed.
Lemma f_eq_fin c x : is_finite c = true -> f_eq x c = true -> is_num c x.
Proof.
  intros Fc E. assert (is_finite x = true) as Fx. { destruct x as [s|s| |s m e h]; try reflexivity; destruct c as [s'|s'| |s' m' e' h']; try discriminate; destruct s; try destruct s'; discriminate. }
  split; [exact Fx|]. apply f_eq_num; assumption.
Qed.
Lemma null_div a n : is_null a -> 0 < n -> is_null (f_div a (f_of_Z (Z.of_nat n))).
Proof.
  intros [Fa Ba] Hn. destruct (f_of_Z_repr (Z.of_nat n)) as [N K]. destruct (is_finite (f_of_Z (Z.of_nat n))) eqn:F.
  - assert (0 < B2R' (f_of_Z (Z.of_nat n)))%R as Hp.
    { destruct (f_of_Z_exact 1) as [F1 B1]; [cbn; lia|]. apply Rlt_le_trans with 1%R; [lra|]. rewrite <- (key_finite _ F), K. rewrite <- B1, <- (key_finite _ F1). destruct (f_of_Z_repr 1) as [_ K1]. rewrite K1. apply clampM_mono, rnd_mono, IZR_le. lia. }
    apply null_repr. replace 0%R with (B2R' a / B2R' (f_of_Z (Z.of_nat n)))%R by (rewrite Ba; unfold Rdiv; ring). apply div_repr; [exact Fa|exact F|lra].
  - destruct (f_of_Z (Z.of_nat n)) as [s|s| |s m e h]; try discriminate. destruct a as [s'|s'| |s' m' e' h']; try discriminate.
    + split; reflexivity.
    + exfalso. cbn in Ba. apply eq_0_F2R in Ba. destruct s'; discriminate.
Qed.

(** f32: with the L2 objective the constant is predicted, if the computed mean of the targets is the constant. *)
Theorem C44_L2 : forall fexp fln dbg (cfg : config f32ops) (d : data f32ops) sched metrics g target (c : f32),
  trainable cfg d -> get_target d = Ok target -> is_finite c = true -> (forall t, In t target -> f_eq t c = true) -> f_eq (f_div (nsum (O := f32ops) target) (f_of_Z (Z.of_nat (length target)))) c = true ->
  is_finite (c_learning_rate cfg : f32) = true -> no_hicard d -> any_order sched -> (Z.of_nat (d_nexamples d) <= 2 ^ 24)%Z -> (Z.of_nat (c_max_nbins cfg + 1) <= 2 ^ 24)%Z ->
  (exists f nb, f < d_nfeatures d /\ max_nbins d f = Ok nb /\ 0 < nb) ->
  (c_discr_nbits cfg = 1 \/ c_discr_nbits cfg = 2 \/ c_discr_nbits cfg = 4 \/ c_discr_nbits cfg = 8) -> 0 < c_max_tree_depth cfg -> (1 <= c_min_examples_leaf cfg)%N ->
  exists m ps, boost_train (f32math fexp fln) dbg cfg d sched L2 metrics g = Ok m /\ length (at_trees m) = c_niterations cfg /\
    additive_predict m d = Ok ps /\ length ps = d_nexamples d /\ forall p, In p ps -> f_eq p c = true.
Proof.
  intros fexp fln dbg cfg d sched metrics g target c HT Htgt Fc Hc Hmean Flr Hno HO Hn Hm Hbins Hw Hdep Hmin.
  pose proof HT as (_ & _ & _ & _ & _ & _ & _ & Hs & _).
  destruct (const_train f32ops (f32math fexp fln) dbg cfg d sched (laws_f32 _ _ Hm Hn) HT HO) with (target := target) (P := is_num c) (Z := is_null) (metrics := metrics) (g := g) as (m & ps & E & L & Ep & Lp & HF); try assumption; cbn [f32ops nsub nneg neq nofZ nadd ndiv nmul nisfin num].
  - lia.
  - destruct Hw as [->|[->|[->| ->]]]; reflexivity.
  - intros t p Hin [Fp Bp]. destruct (f_eq_fin c t Fc (Hc t Hin)) as [Ft Bt]. apply null_repr. replace 0%R with (B2R' t - B2R' p)%R by (rewrite Bt, Bp; ring). apply sub_repr; assumption.
  - intros z [Fz Bz]. destruct z as [s|s| |s m e h]; try discriminate; [destruct s; reflexivity|]. exfalso. cbn in Bz. apply eq_0_F2R in Bz. destruct s; discriminate.
  - split; reflexivity.
  - intros a b [Fa Ba] [Fb Bb]. apply null_repr. replace 0%R with (B2R' a + B2R' b)%R by (rewrite Ba, Bb; ring). apply add_repr; assumption.
  - intros a n Ha Hp. apply null_div; assumption.
  - intros a [Fa Ba]. apply null_repr. replace 0%R with (B2R' (c_learning_rate cfg) * B2R' a)%R by (rewrite Ba; ring). apply mul_repr; assumption.
  - intros a [Fa Ba]. apply null_repr. replace 0%R with (B2R' (f_of_Z 1) * B2R' a)%R by (rewrite Ba; ring). apply mul_repr; [apply f_of_Z_exact; lia|assumption].
  - intros p z [Fp Bp] [Fz Bz]. apply exact_repr; [|apply generic_f32|apply finite_abs, Fc]. replace (B2R' c) with (B2R' p + B2R' z)%R by (rewrite Bp, Bz; ring). apply add_repr; assumption.
  - intros p [Fp _]. exact Fp.
  - intros z [Fz _]. exact Fz.
  - apply f_eq_fin; assumption.
  - exists m, ps. split; [exact E|]. split; [exact L|]. split; [exact Ep|]. split; [exact Lp|]. intros p Hp. rewrite Forall_forall in HF. destruct (HF p Hp) as [Fp Bp]. apply f_eq_num; assumption.
Qed.
Print Assumptions C44_L2.

(** The computed mean is exact for integers [z] if [|z| * n] is at most 2^24. *)
Theorem C44_mean_integers : forall (target : list f32) z, 0 < length target -> (Z.of_nat (length target) <= 2 ^ 24)%Z -> (Z.abs z * Z.of_nat (length target) <= 2 ^ 24)%Z ->
  (forall t, In t target -> f_eq t (f_of_Z z) = true) -> f_eq (f_div (nsum (O := f32ops) target) (f_of_Z (Z.of_nat (length target)))) (f_of_Z z) = true.
Proof.
  intros target z Hpos Hn Hz Ht. destruct (f_of_Z_exact z) as [Fz Bz]; [nia|]. destruct (f_of_Z_exact (Z.of_nat (length target))) as [Fn Bn]; [lia|].
  assert (forall y, (Z.abs y <= 2 ^ 24)%Z -> (Rabs (IZR y) < F32Proofs.M)%R) as HM. { intros y Hy. destruct (f_of_Z_exact y Hy) as [F B]. rewrite <- B. apply finite_abs, F. }
  assert (forall l (s : f32) k, (forall t, In t l -> f_eq t (f_of_Z z) = true) -> (Z.abs z * (k + Z.of_nat (length l)) <= 2 ^ 24)%Z -> (0 <= k)%Z -> is_finite s = true -> B2R' s = IZR (z * k) ->
    is_finite (fold_left f_add l s) = true /\ B2R' (fold_left f_add l s) = IZR (z * (k + Z.of_nat (length l)))) as Hsum.
  { induction l as [|t l IH]; intros s k Hl Hk Hk0 Fs Bs; cbn [fold_left length]. { split; [exact Fs|]. rewrite Bs. f_equal. cbn [length]. lia. }
    destruct (f_eq_fin _ t Fz (Hl t (or_introl eq_refl))) as [Ft Bt]. cbn [length] in Hk. destruct (exact_repr (f_add s t) (IZR (z * (k + 1)))) as [Fs' Bs'].
    - replace (IZR (z * (k + 1))) with (B2R' s + B2R' t)%R by (rewrite Bs, Bt, Bz, <- plus_IZR; f_equal; ring). apply add_repr; assumption.
    - apply generic_int. nia.
    - apply HM. nia.
    - replace (k + Z.of_nat (S (length l)))%Z with (k + 1 + Z.of_nat (length l))%Z by lia. apply IH; auto; [intros u Hu; apply Hl; right; exact Hu|lia|lia]. }
  destruct (Hsum target (f_of_Z 0) 0%Z Ht) as [Fs Bs]; try lia; try reflexivity; [rewrite Z.mul_0_r; reflexivity|].
  change (nsum (O := f32ops) target) with (fold_left f_add target (f_of_Z 0)). assert (0 < IZR (Z.of_nat (length target)))%R as Hp by (apply IZR_lt; lia).
  destruct (exact_repr (f_div (fold_left f_add target (f_of_Z 0)) (f_of_Z (Z.of_nat (length target)))) (IZR z)) as [Fq Bq].
  - replace (IZR z) with (B2R' (fold_left f_add target (f_of_Z 0)) / B2R' (f_of_Z (Z.of_nat (length target))))%R.
    + apply div_repr; [exact Fs|exact Fn|lra].
    + rewrite Bs, Bn, Z.add_0_l, mult_IZR. field. lra.
  - apply generic_int. nia.
  - apply HM. nia.
  - apply f_eq_num; [exact Fz|exact Fq|]. rewrite Bq, Bz. reflexivity.
Qed.
Print Assumptions C44_mean_integers.

(* ---- the other objectives ---- *)

Lemma const_limits (c : f32) l : (forall t, In t l -> f_eq t c = true) -> f_lt (fst (f_limits l)) (snd (f_limits l)) = false.
Proof.
  intros Hl. assert (forall x : f32, f_eq x c = true -> is_nan x = false /\ is_nan c = false) as Hnan.
  { intros x. unfold f_eq, Beqb, SpecFloat.SFeqb, SpecFloat.SFcompare. destruct x, c; cbn; auto; discriminate. }
  assert (forall l (st : f32 * f32), (forall t, In t l -> f_eq t c = true) -> (is_nan (fst st) = false /\ is_nan (snd st) = false /\ (key (snd st) <= key (fst st) /\ key (snd st) <= key c <= key (fst st))%R) ->
    let st' := fold_left (fun st x => (f_min (fst st) x, f_max (snd st) x)) l st in is_nan (fst st') = false /\ is_nan (snd st') = false /\ (key (snd st') <= key (fst st'))%R) as H.
  { clear Hl l. induction l as [|x l IH]; intros st Hl (N1 & N2 & K); cbn [fold_left]; [tauto|]. pose proof (Hl x (or_introl eq_refl)) as Ex. destruct (Hnan x Ex) as [Nx Nc].
    apply (RouteProps.f_eq_key x c Nx Nc) in Ex. apply IH; [intros t Ht; apply Hl; right; exact Ht|]. cbn [fst snd]. destruct (f_min_key (fst st) x N1 Nx) as [A1 A2]. destruct (f_max_key (snd st) x N2 Nx) as [B1 B2].
    split; [exact A1|]. split; [exact B1|]. rewrite A2, B2, Ex. unfold Rmin, Rmax. repeat destruct Rle_dec; lra. }
  destruct l as [|x l]; [reflexivity|]. pose proof (Hl x (or_introl eq_refl)) as Ex. destruct (Hnan x Ex) as [Nx Nc]. pose proof Ex as Kx. apply (RouteProps.f_eq_key x c Nx Nc) in Kx.
  assert (f_min f_inf x = x) as E1. { unfold f_min. cbn. destruct x as [s|[|]| |s m e h]; try discriminate; reflexivity. }
  assert (f_max f_ninf x = x) as E2. { unfold f_max. cbn. destruct x as [s|[|]| |s m e h]; try discriminate; reflexivity. }
  unfold f_limits. cbn [fold_left fst snd]. rewrite E1, E2. destruct (H l (x, x)) as (N1 & N2 & K).
  - intros t Ht. apply Hl. right. exact Ht.
  - cbn [fst snd]. rewrite Kx. repeat split; try assumption; lra.
  - cbv zeta in *. set (st := fold_left _ l (x, x)) in *. destruct (f_lt (fst st) (snd st)) eqn:E; [|reflexivity]. apply f_lt_key in E; [lra|assumption..].
Qed.

(** With the L1 or the Huber objective training panics on every constant target. *)
Theorem C44_median_refuted : forall fexp fln dbg (cfg : config f32ops) (d : data f32ops) sched kind metrics g (target : list f32) (c : f32), kind = L1 \/ kind = Huber ->
  get_target d = Ok target -> (forall t, In t target -> f_eq t c = true) -> (exists s, dataset_new cfg d g = Ok s) ->
  boost_train (f32math fexp fln) dbg cfg d sched kind metrics g = Panic.
Proof.
  intros fexp fln dbg cfg d sched kind metrics g target c Hk Htgt Hc [s Es]. unfold boost_train, boost_run, boost_start. rewrite Es. cbn [rbind]. rewrite Htgt. cbn [rbind].
  assert (median (O := f32ops) (m_limits (f32math fexp fln) target) target = Panic) as Hm.
  { unfold median, quantile, binner_new. change (m_limits (f32math fexp fln) target) with (f_limits target). cbn [f32ops nisfin nlt num]. rewrite (const_limits c target Hc).
    destruct (f_is_finite (fst (f_limits target))); [|reflexivity]. destruct (f_is_finite (snd (f_limits target))); reflexivity. }
  assert (obj_initialize (f32math fexp fln) dbg cfg target (objective_new f32ops kind) = Panic) as Hi.
  { unfold obj_initialize. destruct Hk as [->| ->]; cbn [ob_kind objective_new]; rewrite Hm; reflexivity. }
  rewrite Hi. reflexivity.
Qed.
Print Assumptions C44_median_refuted.

(** Examples of C44_L2 and C44_median_refuted: four examples with target 7 and a feature with three categories. *)
Definition con_data (card : nat) (t : f32) : data f32ops :=
  @mk_data f32ops 4 1 4 [[fz 0; fz 1; fz 2; fz 1]; [t; t; t; t]] [(fz 0, fz 2); (t, t)] [if card <=? 4 then LoCardCat else HiCardCat; Numerical] [card; 0].
Definition con_cfg (iterations discr_nbits : nat) : config f32ops :=
  @mk_config f32ops EmptyString EmptyString EmptyString [] 1%N true 44%N [0] iterations (fz 1) (fz 0) 1%N (fz 0) f_half 4 discr_nbits 2 f_half (fz 1) 1%N (fz 1) (fz 1) 1.
Example C44_L2_ex : trainable (con_cfg 2 4) (con_data 3 (fz 7)) /\ no_hicard (con_data 3 (fz 7)) /\ get_target (con_data 3 (fz 7)) = Ok [fz 7; fz 7; fz 7; fz 7] /\
  (forall t : f32, In t [fz 7; fz 7; fz 7; fz 7] -> f_eq t (fz 7) = true) /\
  match boost_train bst_math true (con_cfg 2 4) (con_data 3 (fz 7)) bst_sched L2 [] ex_rng with
  | Ok m => length (at_trees m) = 2 /\ match additive_predict m (con_data 3 (fz 7)) with Ok ps => num_eqb ps (repeat (fz 7) 4) = true | _ => False end
  | _ => False
  end /\ (exists s, dataset_new (con_cfg 2 4) (con_data 3 (fz 7)) ex_rng = Ok s).
Proof.
  assert (no_hicard (con_data 3 (fz 7))) as HN. { intros [|f] [Hf _]; cbn in *; [discriminate|lia]. }
  assert (trainable (con_cfg 2 4) (con_data 3 (fz 7))) as HT.
  { split; [split; [cbn; lia|split; [cbn; lia|]]; intros col Hc; repeat destruct Hc as [<-|Hc]; try destruct Hc; reflexivity|].
    split; [cbn; lia|]. split; [cbn; lia|]. split; [cbn; lia|]. split; [cbn; lia|]. split; [|split; [|split; [|split]]].
    - intros f col card v Hf E1 E2 E3 Hv. destruct (HN f Hf E1).
    - intros [|f] l Hf E1 E2; try discriminate E1. destruct Hf as [Hf _]. cbn in Hf. lia.
    - vm_compute. lia.
    - intros _. vm_compute. reflexivity.
    - intros n Hn. cbn in Hn. do 2 (destruct n as [|n]; [vm_compute; lia|]). lia. }
  split; [exact HT|]. split; [exact HN|]. split; [reflexivity|]. split.
  { intros t Ht. cbn [In] in Ht. repeat destruct Ht as [<-|Ht]; try destruct Ht; vm_compute; reflexivity. }
  split; [vm_compute; repeat split|]. apply (dataset_new_total f32ops _ _ HT).
Qed.

(** L2 with a high-cardinality feature panics on a constant target; in a debug or a release build. *)
Theorem C44_hicard_refuted : forall dbg, panics (boost_train bst_math dbg (con_cfg 1 4) (con_data 5 (fz 7)) bst_sched L2 [] ex_rng).
Proof. intros [|]; vm_compute; exact I. Qed.
Print Assumptions C44_hicard_refuted.

(** The hinge objective leaves the constant: all targets are 1, every prediction starts at 1 and is 2 after one iteration. *)
Theorem C44_hinge_refuted :
  match boost_train bst_math true (con_cfg 1 2) (con_data 3 (fz 1)) bst_sched Hinge [] ex_rng with
  | Ok m => f_eq (at_bias m) (fz 1) = true /\ match additive_predict m (con_data 3 (fz 1)) with Ok ps => num_eqb ps (repeat (fz 2) 4) = true | _ => False end
  | _ => False
  end.
Proof. vm_compute. repeat split. Qed.
Print Assumptions C44_hinge_refuted.

(* ---- logistic ---- *)

Lemma B2R_of_Z (x : f32) z : (Z.abs z <= 2 ^ 24)%Z -> z <> 0%Z -> is_finite x = true -> B2R' x = IZR z -> x = f_of_Z z.
Proof.
  intros Hz H0 F B. destruct (f_of_Z_exact z Hz) as [Fz Bz]. assert (B2R' x <> 0%R) as N1 by (rewrite B; apply IZR_neq, H0).
  apply B2R_inj; [| |rewrite B; symmetry; exact Bz].
  - destruct x as [s|s| |s m e h]; try discriminate; [destruct N1|]; reflexivity.
  - rewrite B, <- Bz in N1. destruct (f_of_Z z) as [s|s| |s m e h]; try discriminate; [destruct N1|]; reflexivity.
Qed.
Lemma exact_int x z : repr x (IZR z) -> (Z.abs z <= 2 ^ 24)%Z -> is_finite x = true /\ B2R' x = IZR z.
Proof. intros H Hz. apply exact_repr; [exact H|apply generic_int, Hz|]. destruct (f_of_Z_exact z Hz) as [F B]. rewrite <- B. apply finite_abs, F. Qed.
Lemma ratio_one (n a b : nat) z : 0 < n -> (Z.of_nat n <= 2 ^ 24)%Z -> (z = 1 \/ z = -1)%Z -> (a <= n) -> n = a + b -> (- Z.of_nat a + Z.of_nat b = z * Z.of_nat n)%Z ->
  f_div (f_add (f_mul (f_neg (f_of_Z 1)) (f_of_Z (Z.of_nat a))) (f_mul (f_of_Z 1) (f_sub (f_of_Z (Z.of_nat n)) (f_of_Z (Z.of_nat a))))) (f_of_Z (Z.of_nat n)) = f_of_Z z.
Proof.
  intros Hn Hn24 Hz Ha Hab Hs. destruct (f_of_Z_exact 1) as [F1 B1]; [lia|]. destruct (f_of_Z_exact (Z.of_nat n)) as [Fn Bn]; [lia|]. destruct (f_of_Z_exact (Z.of_nat a)) as [Fa Ba]; [lia|].
  assert (is_finite (f_neg (f_of_Z 1)) = true /\ B2R' (f_neg (f_of_Z 1)) = (-1)%R) as [Fm Bm]. { split; [reflexivity|]. unfold f_neg. rewrite B2R_Bopp. rewrite B1. reflexivity. }
  destruct (exact_int (f_sub (f_of_Z (Z.of_nat n)) (f_of_Z (Z.of_nat a))) (Z.of_nat b)) as [Fb Bb]; [|lia|].
  { replace (IZR (Z.of_nat b)) with (B2R' (f_of_Z (Z.of_nat n)) - B2R' (f_of_Z (Z.of_nat a)))%R by (rewrite Bn, Ba, <- minus_IZR; f_equal; lia). apply sub_repr; assumption. }
  destruct (exact_int (f_mul (f_neg (f_of_Z 1)) (f_of_Z (Z.of_nat a))) (- Z.of_nat a)) as [Fp Bp]; [|lia|].
  { replace (IZR (- Z.of_nat a)) with (B2R' (f_neg (f_of_Z 1)) * B2R' (f_of_Z (Z.of_nat a)))%R by (rewrite Bm, Ba, opp_IZR; ring). apply mul_repr; assumption. }
  destruct (exact_int (f_mul (f_of_Z 1) (f_sub (f_of_Z (Z.of_nat n)) (f_of_Z (Z.of_nat a)))) (Z.of_nat b)) as [Fq Bq]; [|lia|].
  { replace (IZR (Z.of_nat b)) with (B2R' (f_of_Z 1) * B2R' (f_sub (f_of_Z (Z.of_nat n)) (f_of_Z (Z.of_nat a))))%R by (rewrite B1, Bb; ring). apply mul_repr; assumption. }
  match goal with |- f_div ?x _ = _ => destruct (exact_int x (z * Z.of_nat n)) as [Fs Bs] end; [|lia|].
  { match goal with |- repr (f_add ?x ?y) _ => replace (IZR (z * Z.of_nat n)) with (B2R' x + B2R' y)%R by (rewrite Bp, Bq, <- plus_IZR; f_equal; lia) end. apply add_repr; assumption. }
  match goal with |- f_div ?x ?y = _ => destruct (exact_int (f_div x y) z) as [Fd Bd] end; [|lia|].
  { match goal with |- repr (f_div ?x ?y) _ => replace (IZR z) with (B2R' x / B2R' y)%R end; [apply div_repr; [assumption|assumption|]|]; rewrite ?Bs, Bn; [apply IZR_neq; lia|]. rewrite mult_IZR. field. apply IZR_neq. lia. }
  apply B2R_of_Z; [lia|lia|exact Fd|exact Bd].
Qed.
Lemma count_neg_all (target : list f32) (b : bool) : (forall t, In t target -> nlt f32ops t (half f32ops) = b) -> count_neg (O := f32ops) target = if b then length target else 0.
Proof.
  intros H. unfold count_neg. induction target as [|t l IH]; [destruct b; reflexivity|]. cbn [filter]. rewrite (H t (or_introl eq_refl)). destruct b; cbn [length]; rewrite IH by (intros x Hx; apply H; right; exact Hx); reflexivity.
Qed.
Lemma half_R : is_finite (half f32ops : f32) = true /\ B2R' (half f32ops : f32) = (/ 2)%R.
Proof.
  unfold half, one, two. cbn [f32ops nofZ ndiv num]. destruct (f_of_Z_exact 1) as [F1 B1]; [lia|]. destruct (f_of_Z_exact 2) as [F2 B2]; [lia|]. apply exact_repr.
  - replace (/ 2)%R with (B2R' (f_of_Z 1) / B2R' (f_of_Z 2))%R by (rewrite B1, B2; lra). apply div_repr; [exact F1|exact F2|rewrite B2; lra].
  - change (/ 2)%R with (bpow radix2 (-1)). apply generic_format_FLT_bpow; [reflexivity|]. cbn. lia.
  - change (/ 2)%R with (bpow radix2 (-1)). rewrite Rabs_pos_eq by apply bpow_ge_0. apply bpow_lt. reflexivity.
Qed.
Lemma below_half (x : f32) z : f_eq x (f_of_Z z) = true -> (z = 0 \/ z = 1)%Z -> nlt f32ops x (half f32ops) = (z =? 0)%Z.
Proof.
  intros E Hz. destruct (f_of_Z_exact z) as [Fz Bz]; [lia|]. destruct (f_eq_fin _ _ Fz E) as [Fx Bx]. rewrite Bz in Bx. destruct half_R as [Fh Bh].
  change (f_lt x (half f32ops) = (z =? 0)%Z). pose proof (f_lt_key x (half f32ops) (fin_nan _ Fx) (fin_nan _ Fh)) as K. rewrite !key_finite, Bx, Bh in K by assumption.
  destruct Hz as [->| ->]; cbn [Z.eqb]; [apply K; lra|]. destruct (f_lt x (half f32ops)); [|reflexivity]. exfalso. assert (1 < / 2)%R by (apply K; reflexivity). lra.
Qed.

(** With the logistic objective training panics if all targets are 1 or all are 0, if the logarithms of infinity and 0 are the infinities: the prior is infinite. *)
Theorem C44_binary_refuted : forall (fexp fln : f32 -> f32) dbg (cfg : config f32ops) (d : data f32ops) sched metrics g (target : list f32) z m, fln f_inf = f_inf -> fln f_zero = f_ninf ->
  (z = 0 \/ z = 1)%Z -> get_target d = Ok target -> (forall t, In t target -> f_eq t (f_of_Z z) = true) -> 0 < length target -> (Z.of_nat (length target) <= 2 ^ 24)%Z ->
  any_order sched -> 0 < scaled_count (d_nexamples d) (c_example_fraction cfg) -> (Z.of_nat (scaled_count (d_nexamples d) (c_example_fraction cfg)) <= 2 ^ 31)%Z -> 0 < c_niterations cfg ->
  boost_train (f32math fexp fln) dbg cfg d sched Binary metrics g <> Ok m.
Proof.
  intros fexp fln dbg cfg d sched metrics g target z m Hinf Hzero Hz Htgt Hall Hpos Hn HO Ha Ha31 Hk E.
  unfold boost_train, boost_run, boost_start in E. apply rbind_ok in E as (b & E & _). apply rbind_ok in E as (b0 & E0 & E). apply rbind_ok in E0 as (s & Es & E0). rewrite Htgt in E0. cbn [rbind] in E0.
  apply rbind_ok in E0 as (ob & Eo & E0). injection E0 as <-. apply rbind_ok in E as (sizes & Hsz & E).
  (* the prior *)
  assert (ob_kind ob = Binary /\ exists p : f32, is_finite p = false /\ ob_preds ob = repeat p (length target)) as (K & p & Fp & Ep).
  { unfold obj_initialize in Eo. cbn [ob_kind objective_new] in Eo. apply rbind_ok in Eo as (_ & _ & Eo). apply Ok_inj in Eo. subst ob. cbn [ob_kind ob_preds initialize_base objective_new]. split; [reflexivity|]. eexists. split; [|reflexivity].
    rewrite (count_neg_all target (z =? 0)%Z) by (intros t Ht; apply below_half; [apply Hall, Ht|exact Hz]). unfold nofnat, one. cbn [f32ops nofZ nadd nmul nsub ndiv nneg num m_ln f32math]. change (num f32ops) with f32 in *. cbv beta.
    rewrite (ratio_one (length target) (if (z =? 0)%Z then length target else 0) (if (z =? 0)%Z then 0 else length target) (2 * z - 1)); try assumption; try (destruct Hz as [->| ->]; cbn [Z.eqb]; lia).
    destruct Hz as [->| ->]; [change (2 * 0 - 1)%Z with (-1)%Z|change (2 * 1 - 1)%Z with 1%Z].
    - replace (f_div (f_add (f_of_Z 1) (f_of_Z (-1))) (f_sub (f_of_Z 1) (f_of_Z (-1)))) with f_zero by (vm_compute; reflexivity). rewrite Hzero. vm_compute. reflexivity.
    - replace (f_div (f_add (f_of_Z 1) (f_of_Z 1)) (f_sub (f_of_Z 1) (f_of_Z 1))) with f_inf by (vm_compute; reflexivity). rewrite Hinf. vm_compute. reflexivity. }
  (* the first iteration *)
  destruct (c_niterations cfg) as [|k]; [lia|]. cbn [seq foldM] in E. apply rbind_ok in E as (b1 & E & _). unfold train_one_iter in E. rewrite Htgt in E. cbn [rbind bs_objective bs_dataset bs_iter] in E.
  apply rbind_ok in E as (ob1 & Eu & E). apply rbind_ok in E as (s1 & Es1 & E). apply rbind_ok in E as ([t ob'] & Et & _).
  assert (ob_preds ob1 = ob_preds ob) as Ep1.
  { unfold obj_update in Eu. rewrite K in Eu. apply rbind_ok in Eu as (_ & _ & Eu). apply rbind_ok in Eu as (_ & _ & Eu). injection Eu as <-. reflexivity. }
  assert (reachable dbg cfg d s1) as HR. { exists g, [(ob_grads ob1, obj_bounds ob1)], s. split; [exact Es|]. unfold ds_run. cbn [foldM fst snd]. rewrite Es1. reflexivity. }
  pose proof (reachable_ok _ _ _ _ _ HR) as HD. pose proof (DatasetProofs3.dv_nact _ _ _ _ (DatasetProofs4.ds_inv _ _ _ _ HD)) as Hna. unfold DatasetProofs3.nact in Hna.
  assert (setting dbg cfg d s1 sizes (sched 1)) as HS. { split; [exact HR|]. split; [exact Hsz|]. split; [apply HO|]. unfold nactive_examples. rewrite Hna. lia. }
  destruct (C26_leaves _ _ _ _ _ _ _ _ _ _ _ _ _ _ _ _ HS Et) as (rows & gs & others & st1 & Hrows & _ & _ & HP & _ & Hg & HC & _).
  destruct gs as [|gr gs].
  - cbn in HP. apply Permutation_nil in HP. pose proof (LearnerProofs3.rows_length f32ops s1 rows Hrows) as HL. rewrite HP in HL. unfold nactive_examples in HL. cbn [length] in HL. lia.
  - destruct HC as (st2 & Ec & _). destruct (Hg gr (or_introl eq_refl)) as (_ & Hne & _). destruct (g_examples gr) as [|j ex]; [destruct (Hne eq_refl)|].
    unfold obj_leaf_value in Ec. apply rbind_ok in Ec as (v & _ & Ec). unfold update_predictions in Ec. apply rbind_ok in Ec as (ps & Ec & _). cbn [foldM] in Ec. apply rbind_ok in Ec as (ps1 & Ec & _).
    unfold update_pred in Ec. apply rbind_ok in Ec as (q & Eq & Ec). apply rbind_ok in Ec as (ps2 & _ & Ec). apply rbind_ok in Ec as (u0 & Ec & _). destruct u0. apply rassert_ok in Ec.
    apply idx_ok in Eq. rewrite Ep1, Ep in Eq. apply nth_error_In in Eq. apply repeat_spec in Eq. subst q. cbn [f32ops nisfin nadd num] in Ec.
    match type of Ec with f_is_finite (f_add _ ?w) = true => revert Ec; generalize w end. intros w Ec. destruct p as [?|u| |]; try discriminate Fp; destruct w as [?|u'| |]; try discriminate Ec; destruct u; try destruct u'; discriminate Ec.
Qed.
Print Assumptions C44_binary_refuted.

(** All targets are 1 (with functions that have the values of the logarithm at the ends). *)
Definition end_ln (x : f32) : f32 := if f_eq x f_zero then f_ninf else x.
Example C44_binary_ex : end_ln f_inf = f_inf /\ end_ln f_zero = f_ninf /\ get_target (con_data 3 (fz 1)) = Ok [fz 1; fz 1; fz 1; fz 1] /\ (forall t : f32, In t [fz 1; fz 1; fz 1; fz 1] -> f_eq t (f_of_Z 1) = true) /\
  scaled_count (d_nexamples (con_data 3 (fz 1))) (c_example_fraction (con_cfg 1 4)) = 4 /\ 0 < c_niterations (con_cfg 1 4) /\
  panics (boost_train (f32math (fun x => x) end_ln) false (con_cfg 1 4) (con_data 3 (fz 1)) bst_sched Binary [] ex_rng).
Proof.
  split; [vm_compute; reflexivity|]. split; [vm_compute; reflexivity|]. split; [reflexivity|]. split; [intros t Ht; cbn [In] in Ht; repeat destruct Ht as [<-|Ht]; try destruct Ht; vm_compute; reflexivity|].
  split; [vm_compute; reflexivity|]. split; [cbn; lia|]. vm_compute. exact I.
Qed.

(* ---- C49 ---- *)

(** A debug build panics on a high-cardinality feature with few examples where a release build succeeds: here 2 examples, 5 categories and 4 bins. *)
Definition few_data : data f32ops := @mk_data f32ops 4 1 2 [[fz 0; fz 4]; [fz 0; fz 1]] [(fz 0, fz 4); (fz 0, fz 1)] [HiCardCat; Numerical] [5; 0].
Theorem C49_debug_refuted : trainable (con_cfg 1 4) few_data /\
  match boost_train bst_math false (con_cfg 1 4) few_data bst_sched L2 [] ex_rng with Ok m => length (at_trees m) = 1 | _ => False end /\
  panics (boost_train bst_math true (con_cfg 1 4) few_data bst_sched L2 [] ex_rng).
Proof.
  split; [|split; vm_compute; auto].
  split; [split; [cbn; lia|split; [cbn; lia|]]; intros col Hc; repeat destruct Hc as [<-|Hc]; try destruct Hc; reflexivity|].
  split; [cbn; lia|]. split; [cbn; lia|]. split; [cbn; lia|]. split; [cbn; lia|]. split; [|split; [|split; [|split]]].
  - intros [|f] col card v Hf E1 E2 E3 Hv; [|destruct Hf as [Hf _]; cbn in Hf; lia].
    unfold get_feature, feat_card, few_data in *; cbn [d_features d_cards idx nth_error] in *. apply Ok_inj in E2. apply Ok_inj in E3. subst card col. cbn [In] in Hv. repeat destruct Hv as [<-|Hv]; try destruct Hv; vm_compute; lia.
  - intros [|f] l Hf E1 E2; [discriminate E1|]. destruct Hf as [Hf _]; cbn in Hf; lia.
  - vm_compute. lia.
  - intros _. vm_compute. reflexivity.
  - intros n Hn. cbn in Hn. do 2 (destruct n as [|n]; [vm_compute; lia|]). lia.
Qed.
Print Assumptions C49_debug_refuted.
