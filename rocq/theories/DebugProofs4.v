(** Debug builds: predictions, the sums of histogram bins, and quantiles. *)
From Coq Require Import Reals Permutation Psatz.
From Flocq Require Import Core BinarySingleNaN.
From Verif Require Import Base BaseProofs BitModel BitSpec F32 F32Proofs Num ScaledProofs DataModel Config BinnerModel BinnerSpec BinnerProofs TreeModel TreeSpec DatasetModel DatasetSpec DatasetProofs3 DatasetProofs4 DatasetProofs5 RouteProps LearnerModel LearnerSpec TrainSpec
  LearnerProofs LearnerProofs3 LearnerProofs5 LearnerProofs7 LearnerProofs8 LearnerProofs10 ObjectiveModel MetricModel BoostModel SafeSpec SafeProofs SafeProofs2 SafeProofs3 PredSpec PredProofs TotalProofs TotalProofs2 DebugModel DebugSpec DebugProofs.
Local Close Scope R_scope.

(** What training guarantees about the tests on group numbers: they are made for features of that kind, with a whole number to compare to. *)
Definition fit_groups {O} (d : data O) (t : tree O) : Prop :=
  forall c, In c (t_crits t) -> sc_type c = HiCardCatLt -> feat_type_of d (sc_feature c) = Ok HiCardCat /\ whole (sc_value c) /\ sc_feature c < length (t_supercats t).

Section Predict.
Variable O : numops.

Lemma goes_left_same (t : tree O) c v : (sc_type c = HiCardCatLt -> whole v /\ whole (sc_value c) /\ sc_feature c < length (t_supercats t)) -> goes_left_dbg O t c v = goes_left t c v.
Proof.
  intros H. unfold goes_left_dbg, goes_left. destruct (sc_type c); try reflexivity. destruct (H eq_refl) as (Hv & Hs & Hl).
  assert (forall x : num O, whole x -> into_cat_dbg O x = Ok (into_cat x)) as HW. { intros x Hx. unfold into_cat_dbg. rewrite (is_cat_whole O x Hx). reflexivity. }
  rewrite (HW v Hv), (HW (sc_value c) Hs). replace (length (t_supercats t) =? 0) with false by (symmetry; apply Nat.eqb_neq; lia). cbn [rassert negb rbind].
  destruct (rassert (sc_feature c <? length (t_supercats t))); [|reflexivity..]. cbn [rbind]. destruct (idx (t_supercats t) (sc_feature c)); [|reflexivity..]. cbn [rbind].
  match goal with |- (let* spcat := ?x in _) = _ => destruct x end; reflexivity.
Qed.
Lemma leaf_loop_same (d : data O) (t : tree O) d2 i : fit_groups d t ->
  (forall f col v, feat_type_of d f = Ok HiCardCat -> get_feature d2 f = Ok col -> nth_error col i = Some v -> whole v) ->
  forall fuel node, leaf_id_loop_dbg O fuel t d2 i node = leaf_id_loop fuel t d2 i node.
Proof.
  intros HF Hw. induction fuel as [|fuel IH]; intros node; [reflexivity|]. cbn [leaf_id_loop_dbg leaf_id_loop].
  destruct (idx (t_crits t) node) as [c| | |] eqn:Ec; [|reflexivity..]. cbn [rbind]. apply idx_ok, nth_error_In in Ec.
  destruct (get_feature d2 (sc_feature c)) as [col| | |] eqn:Ecol; [|reflexivity..]. cbn [rbind]. destruct (idx col i) as [v| | |] eqn:Ev; [|reflexivity..]. cbn [rbind]. apply idx_ok in Ev.
  rewrite goes_left_same; [|intros Hty; destruct (HF c Ec Hty) as (A & B & C); split; [exact (Hw _ _ _ A Ecol Ev)|split; assumption]].
  destruct (goes_left t c v) as [[[]|]| | |]; cbn [rbind]; auto.
Qed.
End Predict.

Section Train.
Variable O : numops.
Variable dbg : bool.
Variable cfg : config O.
Variable d : data O.
Hypothesis Hnat : forall k, k < c_max_nbins cfg -> whole (nofnat O k).
Hypothesis Hnd : 0 < d_nexamples d.

Section One.
Variable dbg0 : bool.
Variable s : dataset O.
Variable sizes : list nat.
Variable bounds : num O * num O.
Variable sched : nat -> list job -> list job.
Variable gradients : list (num O).
Variable St : Type.
Variable leaf_value : list nat -> St -> res (num O * St).
Variable oob : nat -> num O -> St -> res St.
Hypothesis HR : reachable dbg0 cfg d s.
Hypothesis Hsizes : hist_sizes d = Ok sizes.
Hypothesis Hsched : forall k js, Permutation js (sched k js).
Hypothesis Hgrad : (N.of_nat (length gradients) <= 2 ^ 31)%N.

Lemma train_groups t st st' : train dbg cfg s sizes bounds sched St leaf_value oob gradients st = Ok (t, st') -> fit_groups d t.
Proof using HR Hsizes Hsched Hgrad Hnd Hnat.
  clear - HR Hsizes Hsched Hgrad Hnd Hnat. intros E.
  pose proof (train_fit O dbg0 dbg cfg d s sizes bounds sched gradients St leaf_value oob HR Hsizes Hsched Hgrad Hnd t st st' E) as (_ & _ & _ & _ & Hsupc).
  assert ((N.of_nat (nactive_examples s) <= 2 ^ 31)%N /\ 0 < nactive_examples s) as [Hsmall Hn].
  { unfold train in E. apply rbind_ok in E as (t0 & _ & E). apply rbind_ok in E as (root & Er & _). split; [exact (proj2 (root_safe O dbg0 cfg d s sizes bounds sched gradients HR Hsizes Hsched Hgrad) root Er)|].
    unfold get_root_n2s in Er. apply rbind_ok in Er as (? & _ & Er). apply rbind_ok in Er as (g0 & _ & Er). apply rbind_ok in Er as (mask & Em & _). destruct (Nat.eq_dec (nactive_examples s) 0) as [En|]; [|lia]. rewrite En in Em. discriminate Em. }
  destruct (train_ok O dbg0 dbg cfg d s sizes bounds sched gradients St leaf_value oob HR Hsizes Hsched Hsmall t st st' E) as (rows & W & gs & st1 & Hrows & HOK & _).
  pose proof (ds_inv _ _ _ _ (reachable_ok _ _ _ _ _ HR)) as HI. intros c Hc Hty. pose proof (Hsupc c Hc Hty) as Hlt.
  apply In_nth_error in Hc as (m & Em). destruct (lo_crit _ _ _ _ _ _ _ _ _ _ _ _ HOK m c Em) as [->|[(b & Hb & (_ & Hv & ft & Eft & Et) & _) _]]; [discriminate|]. rewrite (dv_data _ _ _ _ HI) in Eft.
  assert (ft = HiCardCat) as -> by (rewrite Hty in Et; destruct ft; congruence). split; [exact Eft|]. split; [|exact Hlt].
  unfold get_split_value in Hv. rewrite (dv_data _ _ _ _ HI), Eft in Hv. cbn [rbind] in Hv.
  assert (sc_value c = nofnat O b) as -> by congruence. apply Hnat.
  destruct (candidate_useful _ _ _ _ _ _ _ HR Hb) as (u & _ & _ & Hu & _). destruct Hb as (fs & nb & _ & _ & Enb & Hb). apply idx_ok in Enb.
  assert (nb <= c_max_nbins cfg); [|lia]. eapply (dv_hicard _ _ _ _ HI); [exact Hu| |exact Enb]. unfold DatasetProofs3.locard. rewrite Eft. discriminate.
Qed.
End One.

Variable M : mathops O.
Variable sched : nat -> nat -> list job -> list job.
Hypothesis Hsched : forall k i js, Permutation js (sched k i js).
Hypothesis Htarget : forall target, get_target d = Ok target -> (N.of_nat (length target) <= 2 ^ 31)%N.

Lemma boost_groups kind metrics g k b : boost_run M dbg cfg d sched kind metrics g k = Ok b -> Forall (fit_groups d) (at_trees (bs_ensemble b)).
Proof.
  intros E. unfold boost_run in E. apply rbind_ok in E as (b0 & E0 & E). apply rbind_ok in E as (sizes & Hsz & E).
  enough (reachable dbg cfg d (bs_dataset b) /\ Forall (fit_groups d) (at_trees (bs_ensemble b))) as H by apply H.
  revert b E. induction k as [|k IH]; intros b E.
  - injection E as <-. unfold boost_start in E0. apply rbind_ok in E0 as (s & Es & E0). apply rbind_ok in E0 as (t & _ & E0). apply rbind_ok in E0 as (ob & _ & E0). injection E0 as <-. cbn [bs_dataset bs_ensemble additive_set_bias additive_new at_trees].
    split; [exists g, [], s; split; [exact Es|reflexivity]|constructor].
  - rewrite seq_S, foldM_app in E. apply rbind_ok in E as (b1 & E1 & E). cbn [foldM] in E. apply rbind_ok in E as (b2 & E & E2). injection E2 as <-. destruct (IH b1 E1) as (HR1 & F1). unfold train_one_iter in E.
    apply rbind_ok in E as (target & Et & E). cbv zeta in E. apply rbind_ok in E as (ob & Eob & E). apply rbind_ok in E as (s & Es & E). apply rbind_ok in E as ([t ob'] & Etr & E). injection E as <-. cbn [bs_dataset bs_ensemble push_tree at_trees].
    assert (reachable dbg cfg d s) as HR.
    { destruct HR1 as (g0 & us & s0 & A & B). exists g0, (us ++ [(ob_grads ob, obj_bounds ob)]), s0. split; [exact A|]. unfold ds_run in *. rewrite foldM_app, B. cbn [rbind foldM fst snd]. rewrite Es. reflexivity. }
    split; [exact HR|]. apply Forall_app. split; [exact F1|]. constructor; [|constructor].
    eapply train_groups; [exact HR|exact Hsz|intros; apply Hsched| |exact Etr]. rewrite (update_length _ _ _ _ _ Eob). apply Htarget, Et.
Qed.
End Train.

(** The sums of histogram bins: at every node of a tree being grown and for every candidate mask the lengths are as asserted. *)
Lemma grad_sum_same O dbg0 dbg (cfg : config O) d s sizes bounds sched gradients nd f b fm : setting dbg0 cfg d s sizes sched -> grown dbg cfg s sizes bounds sched gradients nd -> candidate s f b ->
  ds_get_bitvec s f b = Ok fm -> get_grad_sum_dbg O cfg bounds nd fm = get_grad_sum cfg bounds nd fm.
Proof.
  intros (HR & Hsz & Hsch & Hsm) HG Hc Em. destruct (grown_pre _ dbg0 dbg _ _ _ _ _ _ _ HR Hsz Hsch Hsm nd HG) as (HL & Hw & Hs & rows & Hrows & _).
  pose proof (grown_ok _ dbg0 dbg _ _ _ _ _ _ _ HR Hsz Hsch Hsm nd rows HG Hrows) as [HN _ _]. destruct (lds_fm _ _ HL _ _ Hc) as (fm' & Em' & HF). rewrite Em in Em'. injection Em' as <-.
  destruct HF as [_ Lf]. unfold get_grad_sum_dbg, get_grad_sum. pose proof (no_lm _ _ _ _ _ HN) as Hlm. pose proof (no_lg _ _ _ _ _ HN) as Hlg.
  destruct (nd_compr nd) eqn:Ec.
  - rewrite Hlg, Hlm, Nat.eqb_refl. cbn [rassert rbind]. reflexivity.
  - destruct (no_unc _ _ _ _ _ HN Ec) as [HL0 _]. rewrite Hlg, Hlm, Lf, HL0, Nat.eqb_refl. cbn [rassert rbind]. reflexivity.
Qed.

(** Quantiles. *)
Lemma sumN_zeros k : sumN (repeat 0%N k) = 0%N. Proof. induction k; cbn; [reflexivity|rewrite IHk; reflexivity]. Qed.
Lemma quantile_same O nbins q lim vs v : (N.of_nat (length vs) < 2 ^ 32)%N -> (0 <= ntoZ O 0 4294967295 (nfloor O (nmul O (nofnat O (length vs)) q)) <= Z.of_nat (length vs))%Z ->
  quantile O nbins q lim vs = Ok v -> quantile_dbg O nbins q lim vs = Ok v.
Proof.
  intros Hn Hr H. unfold quantile in H. unfold quantile_dbg. apply rbind_ok in H as (b0 & E0 & H). rewrite E0. cbn [rbind]. apply rbind_ok in H as (b & Eb & H). rewrite Eb. cbn [rbind]. cbv zeta in *.
  apply rbind_ok in H as (bin & Er & H). unfold bin_with_rank in Er. apply rbind_ok in Er as ((i & st') & Er & Ei). unfold bin_with_rank_dbg.
  match type of Er with rank_next _ _ _ _ ?r _ = _ => set (rk := r) in * end.
  assert (rank_inside N N 0%N N.leb N.add (fun x => x) (bn_bins b) rk) as HI; [unfold rk|destruct (rank_next_same N N 0%N N.leb N.add (fun x => x) (bn_bins b) rk _ i st' (at_start N N 0%N N.leb N.add (fun x => x) (bn_bins b)) HI Er) as [-> _]; cbn [rbind]; injection Ei as <-; exact H].
  split; [apply N.leb_le; lia|]. split.
  - apply N.leb_le. rewrite total_is_sum.
    assert (map (fun v0 : num O => (v0, u32_inc 1)) vs = map (fun it => (fst it, u32_inc (snd it))) (map (fun v0 => (v0, 1%N)) vs)) as EM by (rewrite map_map; reflexivity).
    assert (sumN (map snd (map (fun v0 : num O => (v0, 1%N)) vs)) = N.of_nat (length vs)) as ES.
    { clear. induction vs as [|x l IH]; [reflexivity|]. cbn [map sumN snd length]. rewrite IH. lia. }
    assert (bn_bins b0 = repeat 0%N nbins) as EB. { unfold binner_new in E0. repeat (apply rbind_ok in E0 as (? & _ & E0)). injection E0 as <-. reflexivity. }
    rewrite EM in Eb. rewrite (insert_counts _ _ _ _ ltac:(rewrite EB, sumN_zeros, ES; lia) Eb), EB, sumN_zeros, ES. lia.
  - intros k _ Hk. apply N.leb_gt in Hk. apply N.leb_le. lia.
Qed.

(** Arithmetic. *)
Lemma nat_whole_R k : @whole Rops (nofnat Rops k).
Proof.
  unfold whole, nofnat. cbn [nle neq nround nofZ Rops]. split; [apply Rle_bool_true; apply IZR_le; lia|]. rewrite ZnearestA_IZR. apply Req_bool_true. reflexivity.
Qed.
Lemma nat_whole_f32 k : (Z.of_nat k <= 2 ^ 24)%Z -> @whole f32ops (nofnat f32ops k).
Proof.
  intros Hk. unfold whole, nofnat. cbn [nle neq nround nofZ f32ops]. destruct (f_of_Z_exact 0) as [F0 B0]; [cbn; lia|]. destruct (f_of_Z_exact (Z.of_nat k)) as [Fk Bk]; [lia|].
  destruct (round_key _ Fk) as [Fr Br]. split.
  - apply f_le_key; [apply fin_nan, F0|apply fin_nan, Fk|]. rewrite !key_finite by assumption. rewrite B0, Bk. apply IZR_le. lia.
  - apply f_eq_key; [apply fin_nan, Fr|apply fin_nan, Fk|]. rewrite !key_finite by assumption. rewrite Br, Bk, ZnearestA_IZR. reflexivity.
Qed.
Lemma quantile_rank_R n (q : R) : (0 <= q <= 1)%R -> (0 <= ntoZ Rops 0 4294967295 (nfloor Rops (nmul Rops (nofnat Rops n) q)) <= Z.of_nat n)%Z.
Proof.
  intros Hq. unfold nofnat. cbn [ntoZ nfloor nofZ nmul Rops]. rewrite Ztrunc_IZR. assert (0 <= IZR (Z.of_nat n))%R as H0 by (apply (IZR_le 0); lia).
  assert (Zfloor (IZR (Z.of_nat n) * q) <= Z.of_nat n)%Z; [|lia]. rewrite <- (Zfloor_IZR (Z.of_nat n)) at 2. apply Zfloor_le. nra.
Qed.
Lemma quantile_rank_f32 n (q : f32) : (Z.of_nat n <= 2 ^ 24)%Z -> is_finite q = true -> (0 <= B2R q <= 1)%R ->
  (0 <= ntoZ f32ops 0 4294967295 (nfloor f32ops (nmul f32ops (nofnat f32ops n) q)) <= Z.of_nat n)%Z.
Proof.
  intros Hn Fq Hq. unfold nofnat. cbn [ntoZ nfloor nofZ nmul f32ops]. destruct (f_of_Z_exact (Z.of_nat n)) as [Fn Bn]; [lia|]. assert (0 <= IZR (Z.of_nat n))%R as H0 by (apply (IZR_le 0); lia).
  assert (IZR (Z.of_nat n) <= 16777216)%R as H1 by (apply IZR_le; lia). pose proof M_big as HM. pose proof (mul_repr _ _ Fn Fq) as [Np Kp]. rewrite Bn in Kp. set (p := f_mul _ q) in *. change (B2R' q) with (B2R q) in Kp.
  assert (0 <= rnd (IZR (Z.of_nat n) * B2R q) <= IZR (Z.of_nat n))%R as Hr.
  { split; [apply rnd_nn; apply Rmult_le_pos; [exact H0|apply Hq]|]. rewrite <- (rnd_int (Z.of_nat n)) at 2 by lia. apply rnd_mono. nra. }
  rewrite clampM_id in Kp by lra. assert (is_finite p = true) as Fp by (apply finite_of_key; [exact Np|lra]). rewrite (key_finite _ Fp) in Kp.
  rewrite f_to_int_floor by exact Fp. rewrite Kp. assert (Zfloor (rnd (IZR (Z.of_nat n) * B2R q)) <= Z.of_nat n)%Z; [|lia]. rewrite <- (Zfloor_IZR (Z.of_nat n)) at 2. apply Zfloor_le. apply Hr.
Qed.
