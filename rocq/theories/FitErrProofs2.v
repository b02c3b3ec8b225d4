(** f32 training of the squared error without example sampling: the predictions stay close to the targets. *)
From Coq Require Import Reals Psatz Permutation.
From Flocq Require Import Core BinarySingleNaN.
From Verif Require Import Base BaseProofs SliceModel F32 F32Proofs Num ScaledProofs DataModel DataSpec Config TreeModel DatasetModel DatasetSpec DatasetProofs3 DatasetProofs4 DatasetProofs5 LearnerModel LearnerSpec TrainSpec TrainProps
  TreeProofs2 ObjectiveModel ObjectiveProps MetricModel MetricSpec BoostModel BoostSpec BoostProofs BoostProps TotalSpec TotalProofs TotalProofs2 TotalProofs3 TotalProofs4 TotalProofs5 TotalProofs6 SumErrProofs ErrProofs NormProofs FitProps FitErrProofs FitErrSpec FitErrProps.
Local Close Scope R_scope. Local Open Scope nat_scope.

(* ---- training without out-of-bag examples ---- *)
Lemma train_no_oob O dbg (cfg : config O) s sizes bounds sched X leaf oob oob' gradients (x : X) : example_sampling_enabled s = false ->
  train dbg cfg s sizes bounds sched X leaf oob gradients x = train dbg cfg s sizes bounds sched X leaf oob' gradients x.
Proof. intros H. unfold train, predict_out_of_bag. rewrite H. reflexivity. Qed.

Section RunAll.
Variable O : numops.
Variable M : mathops O.
Variable dbg : bool.
Variable cfg : config O.
Variable d : data O.
Variable sched : nat -> nat -> list job -> list job.
Hypothesis laws : num_laws O (c_max_nbins cfg) (d_nexamples d).
Hypothesis HT : trainable cfg d.
Hypothesis Hsched : any_order sched.
Hypothesis Hcount : (N.of_nat (scaled_count (d_nexamples d) (c_example_fraction cfg)) <= 2 ^ 31)%N.
Hypothesis Hall : nlt O (c_example_fraction cfg) (nofZ O 1) = false.
Hypothesis Hbins : exists f nb, f < d_nfeatures d /\ max_nbins d f = Ok nb /\ 0 < nb.
Hypothesis Hwidth : valid_width (c_discr_nbits cfg) = true.
Hypothesis Hdepth : 0 < c_max_tree_depth cfg.
Hypothesis Hmin : (1 <= c_min_examples_leaf cfg)%N.
Variable target : list (num O).
Hypothesis Htarget : get_target d = Ok target.
Variable K : nat.
Variables (I : nat -> objective O -> Prop) (J : nat -> list nat -> objective O -> Prop).
Variable v0 : num O.
Hypothesis Hv0 : nisfin O v0 = true.
Hypothesis Hupd : forall k ob, k < K -> I k ob -> exists ob', obj_update M target ob = Ok ob' /\ usable_gradients dbg cfg d (ob_grads ob') (obj_bounds ob') /\ J k [] ob'.
Hypothesis Hleaf : forall k ex done ob, k < K -> J k done ob -> ex <> [] -> NoDup (ex ++ done) -> (forall j, In j ex -> j < d_nexamples d) ->
  exists v ob', obj_leaf_value M target ex ob = Ok (v, ob') /\ nisfin O v = true /\ J k (ex ++ done) ob'.
Hypothesis HJI : forall k done ob, k < K -> J k done ob -> I (S k) ob.

Lemma iter_all k sizes metrics b : k < K -> hist_sizes d = Ok sizes -> 0 < list_sum sizes -> reachable dbg cfg d (bs_dataset b) -> I k (bs_objective b) ->
  exists b', train_one_iter M dbg cfg d sched sizes metrics b = Ok b' /\ reachable dbg cfg d (bs_dataset b') /\ I (S k) (bs_objective b') /\ exists t, bs_ensemble b' = push_tree (bs_ensemble b) t.
Proof.
  intros Hk Hsz Hpos HR HI. unfold train_one_iter. rewrite Htarget. cbn [rbind]. destruct (Hupd _ _ Hk HI) as (ob & Eo & Hg & HJ). rewrite Eo. cbn [rbind].
  destruct (dataset_update_total O cfg d laws HT dbg (bs_dataset b) (ob_grads ob) (obj_bounds ob) (reachable_ok _ _ _ _ _ HR) Hg) as [s Es]. rewrite Es. cbn [rbind].
  assert (reachable dbg cfg d s) as HRs.
  { destruct HR as (g & us & s0 & E0 & E1). exists g, (us ++ [(ob_grads ob, obj_bounds ob)]), s0. split; [exact E0|]. unfold ds_run in *. rewrite foldM_app, E1. cbn [rbind foldM fst snd]. rewrite Es. reflexivity. }
  pose proof (reachable_ok _ _ _ _ _ HRs) as Hds. pose proof (dv_nact _ _ _ _ (ds_inv _ _ _ _ Hds)) as Hna.
  assert (example_sampling_enabled s = false) as Hsam. { pose proof (ds_buf _ _ _ _ Hds) as HB. rewrite Hall in HB. unfold example_sampling_enabled. rewrite HB. reflexivity. }
  assert (setting dbg cfg d s sizes (sched (S (bs_iter b)))) as HS.
  { split; [exact HRs|]. split; [exact Hsz|]. split; [apply Hsched|]. unfold nactive_examples. rewrite Hna. exact Hcount. }
  destruct (rows_total O cfg d HT s Hds) as (rows & Erows & Hrows). destruct (features_total O cfg d HT s Hds) as (fs & Efs). pose proof HT as (HW & _ & _ & _ & _ & _ & _ & Hact & _). pose proof HW as (Hn & Hnf & Hcol).
  destruct Hg as (Hlg & _). rewrite (train_no_oob O dbg cfg s sizes (obj_bounds ob) (sched (S (bs_iter b))) (objective O) (obj_leaf_value M target) update_out_of_bag (fun _ _ st => Ok st) (ob_grads ob) ob Hsam).
  destruct (train_once O dbg dbg cfg d s sizes (obj_bounds ob) (sched (S (bs_iter b))) (ob_grads ob) (objective O) (obj_leaf_value M target) (fun _ _ st => Ok st) rows fs
    (fun done st => exists done', NoDup done' /\ incl done' done /\ J k done' st) (fun _ => True) ob HS) as (t & ob' & done & Et & (done' & _ & _ & HJ') & _); try assumption.
  - split; [lia|]. split; [lia|exact Hcol].
  - intros j Hj. rewrite Hlg. apply Hrows, Hj.
  - unfold nactive_examples. rewrite Hna. unfold nact. lia.
  - exists v0. split; [exact Logic.I|exact Hv0].
  - exists []. split; [constructor|]. split; [apply incl_refl|exact HJ].
  - intros ex done st (done' & Hnd & Hinc & HJst) Hne HN Hex.
    assert (NoDup (ex ++ done')) as HN'.
    { apply nodup_app in HN as (N1 & _ & Hd). clear - N1 Hd Hnd Hinc. induction ex as [|a l IH]; [exact Hnd|]. cbn. apply NoDup_cons_iff in N1 as [Ha N1]. constructor.
      - intros Hc. apply in_app_or in Hc as [Hc|Hc]; [contradiction|]. apply (Hd a); [left; reflexivity|apply Hinc, Hc].
      - apply IH; [exact N1|]. intros x Hx. apply Hd. right. exact Hx. }
    destruct (Hleaf k ex done' st Hk HJst Hne HN') as (v & st' & E & F & HJ'); [auto|]. exists v, st'. split; [exact E|]. split; [exact F|]. split; [exact Logic.I|]. exists (ex ++ done'). split; [exact HN'|]. split; [|exact HJ'].
    apply incl_app; [apply incl_appl, incl_refl|apply incl_appr, Hinc].
  - intros i v done st (done' & Hnd & Hinc & HJst) _ _ _. exists st. split; [reflexivity|]. exists done'. split; [exact Hnd|]. split; [apply incl_tl, Hinc|exact HJst].
  - rewrite Et. cbn [rbind]. eexists. split; [reflexivity|]. cbn [bs_dataset bs_objective bs_ensemble]. split; [exact HRs|]. split; [eapply HJI; eassumption|]. exists t. reflexivity.
Qed.

Lemma run_all kind metrics g ob0 : obj_initialize M dbg cfg target (objective_new O kind) = Ok ob0 -> I 0 ob0 ->
  forall k, k <= K -> exists b, boost_run M dbg cfg d sched kind metrics g k = Ok b /\ I k (bs_objective b) /\ length (at_trees (bs_ensemble b)) = k.
Proof.
  intros E0 HI0 k Hk. unfold boost_run, boost_start. destruct (dataset_new_total O cfg d HT g) as [s Es]. rewrite Es. cbn [rbind]. rewrite Htarget. cbn [rbind]. rewrite E0. cbn [rbind].
  destruct (sizes_total O cfg d HT Hbins) as (sizes & Hsz & Hpos). rewrite Hsz. cbn [rbind]. set (b0 := mk_booster _ _ _ _ _).
  assert (exists b, foldM (fun b _ => train_one_iter M dbg cfg d sched sizes metrics b) (seq 0 k) b0 = Ok b /\ reachable dbg cfg d (bs_dataset b) /\ I k (bs_objective b) /\ length (at_trees (bs_ensemble b)) = k) as (b & A & B & C & D).
  { induction k as [|k IH].
    - exists b0. split; [reflexivity|]. split; [exists g, [], s; split; [exact Es|reflexivity]|]. split; [exact HI0|reflexivity].
    - destruct IH as (b & A & B & C & D); [lia|]. rewrite seq_S, foldM_app, A. cbn [rbind foldM]. destruct (iter_all k sizes metrics b Hk Hsz Hpos B C) as (b' & A' & B' & C' & t & D'). rewrite A'. cbn [rbind].
      exists b'. split; [reflexivity|]. split; [exact B'|]. split; [exact C'|]. rewrite D'. cbn [push_tree at_trees]. rewrite app_length, D. cbn. lia. }
  exists b. auto.
Qed.
End RunAll.

(* ---- bounds ---- *)
Lemma hi_pow2 q : forall j, (Z.of_nat j <= Z.of_nat q * 2 ^ 23)%Z -> (hi j <= bpow radix2 (Z.of_nat q))%R.
Proof.
  induction q as [|q IH]; intros j Hj.
  - assert (j = 0) as -> by lia. unfold hi. cbn. lra.
  - pose (r := Nat.min j (Z.to_nat (2 ^ 23))). replace j with (r + (j - r)) by (unfold r; lia). rewrite hi_add. replace (Z.of_nat (S q)) with (1 + Z.of_nat q)%Z by lia. rewrite bpow_plus.
    apply Rmult_le_compat; [pose proof (hi_ge1 r); lra|pose proof (hi_ge1 (j - r)); lra| |].
    + change (bpow radix2 1) with 2%R. apply hi_two. assert (Z.of_nat r <= 8388608)%Z as H by (unfold r; lia). apply IZR_le in H. lra.
    + apply IH. unfold r. lia.
Qed.

Section SquaredAll.
Variable fexp_ fln_ : f32 -> f32.
Notation math := (f32math fexp_ fln_).
Variable target : list f32.
Variable n : nat.
Hypothesis Hn : length target = n.
Hypothesis Hpos : 0 < n.
Variables (a : Z) (h q K : nat).
Hypothesis Ha : (0 <= a)%Z.
Hypothesis Hh : h <= 12.
Hypothesis Hnh : (Z.of_nat n <= 2 ^ Z.of_nat (2 * h))%Z.
Hypothesis Hq : (Z.of_nat ((n + 4) * K) <= Z.of_nat q * 2 ^ 23)%Z.
Hypothesis Hexp : (a + 3 * Z.of_nat h + Z.of_nat q + 7 <= 127)%Z.
Hypothesis Htgt : forall t, In t target -> bnd t (bpow radix2 a).
Variable lr gb : f32.
Hypothesis Fl : is_finite lr = true.
Hypothesis Hlr : (0 <= B2R' lr <= 1)%R.
Notation all := (seq 0 n).
Notation A := (bpow radix2 a).
Notation sq := (sqrt (INR n)).

Definition step_c : R := (u * (A * sq) + bpow radix2 (-148) * sq)%R.
Fixpoint ebound (k : nat) : R := match k with 0 => (2 * (A * sq))%R | S k => (hi (n + 4) * ebound k + step_c)%R end.
Definition eexp : Z := (a + Z.of_nat h + Z.of_nat q + 5)%Z.

Lemma sq_nn : (0 <= sq)%R. Proof. apply sqrt_pos. Qed.
Lemma sq_le : (sq <= bpow radix2 (Z.of_nat h))%R.
Proof.
  apply le_of_sq; [apply bpow_ge_0|]. rewrite sqrt_sqrt by apply pos_INR. rewrite <- bpow_plus, INR_IZR_INZ. replace (Z.of_nat h + Z.of_nat h)%Z with (Z.of_nat (2 * h)) by lia. apply IZR_nat_pow, Hnh.
Qed.
Lemma sq_ge1 : (1 <= sq)%R. Proof. rewrite <- sqrt_1. apply sqrt_le_1_alt. apply (le_INR 1). lia. Qed.
Lemma A_ge1 : (1 <= A)%R. Proof. change 1%R with (bpow radix2 0). apply bpow_le, Ha. Qed.
Lemma step_nn : (0 <= step_c)%R.
Proof. unfold step_c. pose proof sq_nn. pose proof A_ge1. pose proof (bpow_ge_0 radix2 (-148)). apply Rplus_le_le_0_compat; [apply Rmult_le_pos; [lra|apply Rmult_le_pos; lra]|apply Rmult_le_pos; assumption]. Qed.
Lemma ebound_le k : (ebound k <= hi ((n + 4) * k) * (2 * (A * sq) + INR k * step_c))%R.
Proof.
  induction k as [|k IH]; [rewrite Nat.mul_0_r; cbn [ebound INR]; unfold hi; cbn [pow]; lra|]. cbn [ebound]. replace ((n + 4) * S k) with (n + 4 + (n + 4) * k) by lia. rewrite (hi_add (n + 4) ((n + 4) * k)), S_INR. pose proof step_nn as Hs.
  set (x := hi (n + 4)) in *. set (y := hi ((n + 4) * k)) in *. set (e := (2 * (A * sq))%R) in *. set (c := step_c) in *. assert (1 <= x)%R as Hx by apply hi_ge1. assert (1 <= y)%R as Hy by apply hi_ge1.
  assert (x * ebound k <= x * (y * (e + INR k * c)))%R as H1 by (apply Rmult_le_compat_l; [lra|exact IH]). assert (c <= x * y * c)%R as H2. { clearbody x y c. assert (1 <= x * y)%R by (clear - Hx Hy; nra). clear - H Hs. nra. } eapply Rle_trans; [apply Rplus_le_compat; [exact H1|exact H2]|]. apply Req_le. ring.
Qed.
Lemma ebound_ok k : k <= K -> (A + ebound k <= bpow radix2 eexp)%R.
Proof.
  intros Hk. pose proof (ebound_le k) as H. pose proof sq_ge1 as Hs. pose proof A_ge1 as HA.
  assert (hi ((n + 4) * k) <= bpow radix2 (Z.of_nat q))%R as Hhi by (apply hi_pow2; assert ((n + 4) * k <= (n + 4) * K) by (apply Nat.mul_le_mono_l, Hk); lia).
  assert (INR k <= 213909504)%R as Hk'. { rewrite INR_IZR_INZ. apply IZR_le. assert (5 * K <= (n + 4) * K) by (apply Nat.mul_le_mono_r; lia). lia. }
  assert (INR k * step_c <= 13 * (A * sq))%R as Hkc.
  { unfold step_c. assert (1 <= A * sq)%R by nra. assert (bpow radix2 (-148) <= / 1152921504606846976)%R as Hb. { apply Rle_trans with (bpow radix2 (-60)); [apply bpow_le; lia|]. cbn. lra. }
    assert (bpow radix2 (-148) * sq <= / 1152921504606846976 * (A * sq))%R as H1. { apply Rmult_le_compat; [apply bpow_ge_0|lra|exact Hb|nra]. } pose proof (pos_INR k) as Hk0. assert (0 <= bpow radix2 (-148) * sq)%R by (apply Rmult_le_pos; [apply bpow_ge_0|lra]).
    apply Rle_trans with (INR k * ((u + / 1152921504606846976) * (A * sq)))%R; [apply Rmult_le_compat_l; [exact Hk0|lra]|]. rewrite <- Rmult_assoc. apply Rmult_le_compat_r; [lra|]. lra. }
  assert (A * sq <= bpow radix2 (a + Z.of_nat h))%R as HAs by (rewrite bpow_plus; apply Rmult_le_compat_l; [apply bpow_ge_0|exact sq_le]).
  assert (ebound k <= bpow radix2 (Z.of_nat q) * (15 * bpow radix2 (a + Z.of_nat h)))%R as HE.
  { eapply Rle_trans; [exact H|]. apply Rmult_le_compat; [pose proof (hi_ge1 ((n + 4) * k)); lra| |exact Hhi|lra]. pose proof step_nn. pose proof (pos_INR k). assert (0 <= INR k * step_c)%R by (apply Rmult_le_pos; assumption). nra. }
  unfold eexp. replace (a + Z.of_nat h + Z.of_nat q + 5)%Z with (5 + (Z.of_nat q + (a + Z.of_nat h)))%Z by lia. rewrite bpow_plus. change (bpow radix2 5) with 32%R. rewrite (bpow_plus radix2 (Z.of_nat q)).
  assert (1 <= bpow radix2 (Z.of_nat q))%R as Hq1 by (change 1%R with (bpow radix2 0); apply bpow_le; lia). set (X := bpow radix2 (Z.of_nat q)) in *. set (Y := bpow radix2 (a + Z.of_nat h)) in *.
  assert (A <= Y)%R by (unfold Y; apply bpow_le; lia). assert (0 <= Y)%R by apply bpow_ge_0. assert (Y <= X * Y)%R by nra. lra.
Qed.

Definition finites (l : list f32) : Prop := forall p, In p l -> is_finite p = true.
Definition state_ok (ob : objective f32ops) : Prop := binv n L2 lr gb ob /\ finites (ob_preds ob).
Definition start (k : nat) (ob : objective f32ops) : Prop := state_ok ob /\ (nrm (rres target (ob_preds ob)) all <= ebound k)%R.
Definition middle (k : nat) (done : list nat) (ob : objective f32ops) : Prop := state_ok ob /\ NoDup done /\ (forall i, In i done -> i < n) /\
  exists ps : list f32, length ps = n /\ (nrm (rres target ps) all <= ebound k)%R /\ (forall i, ~ In i done -> nth_error (ob_preds ob) i = nth_error ps i) /\
    (nrm (rres target (ob_preds ob)) done <= hi (n + 4) * nrm (rres target ps) done + u * nrm (rt target) done + bpow radix2 (-148) * nrm (fun _ => 1) done)%R.

Lemma rt_le i : (Rabs (rt target i) <= A)%R.
Proof.
  unfold rt. destruct (nth_error target i) as [t|] eqn:E.
  - rewrite (nth_B2R _ _ _ E). apply Htgt. eapply nth_error_In, E.
  - apply nth_error_None in E. rewrite nth_overflow by (rewrite map_length; exact E). rewrite Rabs_R0. apply bpow_ge_0.
Qed.
Lemma rt_nrm l : (nrm (rt target) l <= A * sqrt (INR (length l)))%R.
Proof. rewrite <- nrm_const by apply bpow_ge_0. apply nrm_le. intros i _. apply rt_le. Qed.
Lemma middle_start k done ob : middle k done ob -> start (S k) ob.
Proof.
  intros (Hok & Hnd & Hin & ps & Hl & He & Hsame & Hdone). split; [exact Hok|]. set (rest := filter (fun i => negb (existsb (Nat.eqb i) done)) all).
  assert (forall i, In i rest <-> i < n /\ ~ In i done) as Hrest.
  { intros i. unfold rest. rewrite filter_In, in_seq, Bool.negb_true_iff. split.
    - intros [Hi Hx]. split; [lia|]. intros Hc. assert (existsb (Nat.eqb i) done = true) as Ht by (apply existsb_exists; exists i; split; [exact Hc|apply Nat.eqb_refl]). congruence.
    - intros [Hi Hx]. split; [lia|]. destruct (existsb (Nat.eqb i) done) eqn:Ex; [|reflexivity]. apply existsb_exists in Ex as (j & Hj & Ej). apply Nat.eqb_eq in Ej. subst j. contradiction. }
  assert (Permutation (done ++ rest) all) as HP.
  { apply NoDup_Permutation; [|apply seq_NoDup|].
    - apply TreeProofs2.nodup_app; [exact Hnd|apply NoDup_filter, seq_NoDup|]; intros x Hx Hc. apply Hrest in Hc. tauto.
    - intros i. rewrite in_app_iff, Hrest, in_seq. split; [intros [Hi|Hi]; [specialize (Hin i Hi)|]; lia|]. intros Hi. destruct (in_dec Nat.eq_dec i done); [left; assumption|right; split; [lia|assumption]]. }
  assert (forall i, In i rest -> rres target (ob_preds ob) i = rres target ps i) as Hres.
  { intros i Hi. apply Hrest in Hi as [Hi Hd]. unfold rres, rp. f_equal. destruct (nth_error ps i) as [p|] eqn:E; [|apply nth_error_None in E; lia]. rewrite (nth_B2R _ _ _ E). apply nth_B2R. rewrite <- E. apply Hsame, Hd. }
  pose proof (hi_ge1 (n + 4)) as Hg. pose proof (bpow_ge_0 radix2 (-148)) as Hb.
  assert (nrm (rres target (ob_preds ob)) (done ++ rest) <= hi (n + 4) * nrm (rres target ps) (done ++ rest) + u * nrm (rt target) (done ++ rest) + bpow radix2 (-148) * nrm (fun _ => 1) (done ++ rest))%R as H.
  { apply nrm_comb; [lra|lra|lra|exact Hdone|]. rewrite (nrm_ext _ _ _ Hres). pose proof (nrm_nn (rres target ps) rest). pose proof (nrm_nn (rt target) rest). pose proof (nrm_nn (fun _ : nat => 1%R) rest). assert (0 <= bpow radix2 (-148) * nrm (fun _ : nat => 1%R) rest)%R by (apply Rmult_le_pos; assumption). nra. }
  rewrite !(nrm_perm _ _ _ HP) in H. cbn [ebound]. unfold step_c. pose proof (rt_nrm all) as HR. rewrite ones in H. rewrite seq_length in *.
  assert (hi (n + 4) * nrm (rres target ps) all <= hi (n + 4) * ebound k)%R by (apply Rmult_le_compat_l; [lra|exact He]). lra.
Qed.

Lemma all_in (f : nat -> R) i : i < n -> (Rabs (f i) <= nrm f all)%R.
Proof. intros H. apply nrm_in, in_seq. lia. Qed.
Lemma preds_bnd k ob p : k <= K -> start k ob -> In p (ob_preds ob) -> bnd p (bpow radix2 eexp).
Proof.
  intros Hk (((W1 & W2 & W3 & W4 & W5) & HF) & He) Hp. split; [apply HF, Hp|]. apply In_nth_error in Hp as [i Hi]. assert (i < n) as Hin by (rewrite <- W4; apply nth_error_Some; rewrite Hi; discriminate).
  pose proof (all_in (rres target (ob_preds ob)) i Hin) as H. pose proof (rt_le i) as Ht. pose proof (ebound_ok k Hk) as Hb. pose proof (Rle_trans _ _ _ H He) as H'. unfold rres, rp in H'. rewrite (nth_B2R _ _ _ Hi) in H'. clear H He.
  replace (B2R' p) with (rt target i + - (rt target i - B2R' p))%R by ring. eapply Rle_trans; [apply Rabs_triang|]. rewrite Rabs_Ropp. lra.
Qed.
Definition Pb1 (j : nat) : R := match j with 0 => bpow radix2 eexp | _ => bpow radix2 (eexp + 2) end.
Definition Rb1 (_ : nat) : R := bpow radix2 (eexp + 1).
Lemma n24 : (Z.of_nat n <= 2 ^ 24)%Z. Proof. pose proof (Z.pow_le_mono_r 2 (Z.of_nat (2 * h)) 24). lia. Qed.
Lemma raw_all k ex done ob : k < 1 -> within n L2 lr gb Pb1 k done ob -> ex <> [] -> length ex <= n -> (forall j, In j ex -> j < n /\ ~ In j done) ->
  exists v : f32, raw_leaf_value math target ex ob = Ok v /\ bnd v (Rb1 k).
Proof.
  intros Hk ((W1 & W2 & W3 & W4 & W5) & W6 & W7) Hne Hl Hex. assert (k = 0) as -> by lia. unfold raw_leaf_value. rewrite W1. pose proof n24 as H24.
  assert (forall z, (0 <= z <= Z.of_nat n)%Z -> okb (IZR z * bpow radix2 (eexp + 1))) as Hok by (intros z Hz; unfold eexp; apply (okb_scaled z _ (Z.of_nat (2 * h))); lia).
  destruct (sum_bnd (bpow radix2 (eexp + 1)) (residual (O := f32ops) target (ob_preds ob)) n Hok ex 0 (zero f32ops)) as (s & E & Hs).
  - cbn. lia.
  - pose proof (bnd_ofZ 0 ltac:(cbn; lia)) as H0. cbn [Z.abs Z.of_nat] in *. rewrite Rmult_0_l. exact H0.
  - intros i Hi. destruct (Hex i Hi) as [Hin Hd]. unfold residual. destruct (idx_ex f32 target i) as (t & Et & Nt); [change (num f32ops) with f32 in *; lia|]. destruct (idx_ex _ (ob_preds ob) i) as (p & Ep & Np); [change (num f32ops) with f32 in *; lia|]. change (num f32ops) with f32 in *. rewrite Et. cbn [rbind]. rewrite Ep. cbn [rbind].
    eexists. split; [reflexivity|]. eapply bnd_sub; [apply Htgt; eapply nth_error_In, Nt|apply (proj2 (W7 i p Np)); exact Hd| |apply okb_bpow; unfold eexp; lia].
    cbn [Pb1]. replace (eexp + 1)%Z with (1 + eexp)%Z by lia. rewrite bpow_plus. change (bpow radix2 1) with 2%R. assert (A <= bpow radix2 eexp)%R by (apply bpow_le; unfold eexp; lia). lra.
  - change (nadd f32ops) with f_add. change (num f32ops) with f32 in *. rewrite E. cbn [rbind]. eexists. split; [reflexivity|]. cbn [Nat.add] in Hs. assert (0 < length ex) as Hpe by (destruct ex; [contradiction|cbn; lia]).
    destruct (nofnat_f (length ex)) as [Fq Bq]; [lia|]. unfold Rb1. eapply bnd_div; [exact Hs|exact Fq| |rewrite Bq; apply Rle_refl|rewrite Rmult_comm; apply Rle_refl|apply okb_bpow; unfold eexp; lia]. apply (IZR_lt 0). lia.
Qed.
Lemma nodup_sub {B} (l l' : list B) : NoDup (l ++ l') -> NoDup l /\ NoDup l' /\ forall x, In x l -> ~ In x l'. Proof. apply BoostProofs.nodup_app. Qed.
Lemma leaf_all k ex done ob : k < K -> middle k done ob -> ex <> [] -> NoDup (ex ++ done) -> (forall j, In j ex -> j < n) ->
  exists v ob', obj_leaf_value math target ex ob = Ok (v, ob') /\ nisfin f32ops v = true /\ middle k (ex ++ done) ob'.
Proof.
  intros Hk HM Hne HN Hex. pose proof (middle_start _ _ _ HM) as HS. pose proof n24 as H24. pose proof HM as (((W1 & W2 & W3 & W4 & W5) & HF) & Hnd & Hin & ps & Hl & He & Hsame & Hdone).
  assert (forall p, In p (ob_preds ob) -> bnd p (bpow radix2 eexp)) as Hpb by (intros p Hp; apply (preds_bnd (S k) ob p); [lia|exact HS|exact Hp]).
  assert (bpow radix2 eexp <= bpow radix2 (eexp + 2))%R as Hmono by (apply bpow_le; lia).
  assert (bnd lr 1) as Hl1. { split; [exact Fl|]. rewrite Rabs_pos_eq; apply Hlr. }
  destruct (leaf_bounded fexp_ fln_ target n Hn Hpos L2 lr gb Hl1 1 Pb1 Rb1) with (k := 0) (ex := ex) (done := done) (ob := ob) as (v & ob' & E & Fv & _ & HW').
  - intros [|[|j]] Hj; [apply okb_bpow; unfold eexp; lia|apply okb_bpow; unfold eexp; lia|lia].
  - intros j _. apply okb_bpow. unfold eexp. lia.
  - intros j Hj. assert (j = 0) as -> by lia. cbn [Pb1]. unfold Rb1. rewrite !bpow_plus. change (bpow radix2 1) with 2%R. change (bpow radix2 2) with 4%R. pose proof (bpow_ge_0 radix2 eexp). lra.
  - exact raw_all.
  - lia.
  - split; [unfold binv; auto 6|]. split; [intros Hc; discriminate|]. intros i p Hi. pose proof (Hpb p (nth_error_In _ _ Hi)) as Hb. cbn [Pb1]. split; [eapply bnd_le; [exact Hb|exact Hmono]|auto].
  - exact Hne.
  - exact HN.
  - exact Hex.
  - exists v, ob'. split; [exact E|]. split; [exact Fv|]. destruct (nodup_sub _ _ HN) as (N1 & N2 & Hd).
    assert (length ex <= n) as Hlen. { rewrite <- (seq_length n 0). apply NoDup_incl_length; [exact N1|]. intros j Hj. apply in_seq. specialize (Hex j Hj). lia. }
    assert (is_finite (ob_lr ob : f32) = true /\ (0 <= B2R' (ob_lr ob) <= 1)%R) as (Fo & Ho) by (rewrite W2; auto).
    destruct (leaf_err fexp_ fln_ target ex ob ob' v W1 Fo Ho N1 Hne ltac:(lia) E) as (HB & _ & Hfin).
    destruct (C40_apply _ _ _ _ _ _ _ N1 E) as (_ & _ & _ & HL & Hp). destruct HW' as ((V1 & V2 & V3 & V4 & V5) & _ & V7).
    split; [|split; [exact HN|split]].
    + split; [unfold binv; auto 6|]. intros p Hpi. apply In_nth_error in Hpi as [i Hi]. exact (proj1 (proj1 (V7 i p Hi))).
    + intros i Hi. apply in_app_or in Hi as [Hi|Hi]; auto.
    + exists ps. split; [exact Hl|]. split; [exact He|]. split.
      * intros i Hi. destruct (nth_error (ob_preds ob) i) as [p|] eqn:Ep.
        -- transitivity (nth_error (ob_preds ob) i); [|apply Hsame; intros Hc; apply Hi, in_or_app; right; exact Hc]. rewrite Ep. apply (proj2 (Hp i p Ep)). intros Hc. apply Hi, in_or_app. left. exact Hc.
        -- transitivity (nth_error (ob_preds ob) i); [|apply Hsame; intros Hc; apply Hi, in_or_app; right; exact Hc]. rewrite Ep. apply nth_error_None. apply nth_error_None in Ep. exact (eq_ind_r (fun m => m <= i) Ep HL).
      * pose proof (hi_ge1 (n + 4)) as Hg. pose proof (bpow_ge_0 radix2 (-148)) as Hb. apply nrm_comb; [lra|lra|lra| |].
        -- rewrite ones. rewrite (nrm_ext (rres target ps) (rres target (ob_preds ob)) ex).
           ++ eapply Rle_trans; [exact HB|]. pose proof (hi_mono (length ex + 4) (n + 4) ltac:(lia)) as Hm. pose proof (nrm_nn (rres target (ob_preds ob)) ex) as Hnn. clear - Hm Hnn. nra.
           ++ intros i Hi. unfold rres, rp. f_equal. destruct (Hfin i Hi) as (t & p & p' & _ & Ep & _). rewrite (nth_B2R _ _ _ Ep). apply nth_B2R. rewrite <- (Hsame i (Hd i Hi)). exact Ep.
        -- rewrite (nrm_ext (rres target (ob_preds ob')) (rres target (ob_preds ob)) done); [exact Hdone|]. intros i Hi. unfold rres, rp. f_equal. specialize (Hin i Hi).
           destruct (nth_error (ob_preds ob) i) as [p|] eqn:Ep; [|apply nth_error_None in Ep; exfalso; change (num f32ops) with f32 in *; lia].
           rewrite (nth_B2R _ _ _ Ep). apply nth_B2R. apply (proj2 (Hp i p Ep)). intros Hc. exact (Hd i Hc Hi).
Qed.
Lemma upd_all dbg (cfg : config f32ops) (d : data f32ops) k ob : d_nexamples d = n -> no_hicard d -> k < K -> start k ob ->
  exists ob', obj_update math target ob = Ok ob' /\ usable_gradients dbg cfg d (ob_grads ob') (obj_bounds ob') /\ middle k [] ob'.
Proof.
  intros Hd HN Hk HS. pose proof HS as (((W1 & W2 & W3 & W4 & W5) & HF) & He). unfold obj_update. change (num f32ops) with f32 in *. rewrite W4, W5, Hn, Nat.eqb_refl. cbn [rassert rbind]. rewrite W1.
  destruct (m_limits math _) as [mn mx]. eexists. split; [reflexivity|]. cbn [ob_grads].
  assert (length (pair_gradients (O := f32ops) math L2 (zero f32ops) target (ob_preds ob)) = n) as HL by (unfold pair_gradients; rewrite map_length, combine_length; change (num f32ops) with f32 in *; lia).
  split; [|split; [|split; [constructor|split; [intros i []|]]]].
  - split; [change (num f32ops) with f32 in *; rewrite HL; symmetry; exact Hd|]. split; [|left; exact HN]. intros g Hg. unfold pair_gradients in Hg. apply in_map_iff in Hg as ([t p] & <- & Htp). cbn [fst snd gradient].
    pose proof (in_combine_l _ _ _ _ Htp) as Ht. pose proof (in_combine_r _ _ _ _ Htp) as Hp.
    assert (bnd (f_neg (f_sub t p)) (bpow radix2 (eexp + 1))) as Hb.
    { apply bnd_neg. eapply bnd_sub; [apply Htgt, Ht|exact (preds_bnd k ob p ltac:(lia) HS Hp)| |apply okb_bpow; unfold eexp; lia].
      replace (eexp + 1)%Z with (1 + eexp)%Z by lia. rewrite bpow_plus. change (bpow radix2 1) with 2%R. assert (A <= bpow radix2 eexp)%R by (apply bpow_le; unfold eexp; lia). lra. }
    exact (bnd_eq _ (proj1 Hb)).
  - split; [unfold binv; cbn [ob_kind ob_lr ob_bound ob_preds ob_grads]; auto 6|exact HF].
  - exists (ob_preds ob). cbn [ob_preds]. split; [exact W4|]. split; [exact He|]. split; [reflexivity|]. rewrite !nrm_nil. lra.
Qed.
Lemma init_all dbg (cfg : config f32ops) : c_learning_rate cfg = lr -> gb = ndiv f32ops (nofZ f32ops 5) (nofZ f32ops 4) -> exists ob, obj_initialize math dbg cfg target (objective_new f32ops L2) = Ok ob /\ start 0 ob.
Proof.
  intros El Eg. destruct (init_squared fexp_ fln_ target n Hn Hpos a (2 * h) Ha ltac:(lia) Hnh Htgt 0 ltac:(lia) lr gb dbg cfg El) as (ob & E & HB & Hp). exists ob. split; [exact E|]. rewrite <- Eg in HB.
  split; [split; [exact HB|intros p Hpi; apply (Hp p Hpi)]|]. cbn [ebound]. destruct HB as (_ & _ & _ & W4 & _).
  apply Rle_trans with (nrm (fun _ : nat => (2 * A)%R) all).
  - apply nrm_le. intros i Hi. apply in_seq in Hi. unfold rres, rp. destruct (nth_error (ob_preds ob) i) as [p|] eqn:Ep; [|apply nth_error_None in Ep; exfalso; change (num f32ops) with f32 in *; lia].
    rewrite (nth_B2R _ _ _ Ep). pose proof (rt_le i) as Ht. destruct (Hp p (nth_error_In _ _ Ep)) as [_ Hb]. rewrite pred_0 in Hb. unfold Rminus. eapply Rle_trans; [apply Rabs_triang|]. rewrite Rabs_Ropp. lra.
  - rewrite nrm_const by (pose proof A_ge1; lra). rewrite seq_length. lra.
Qed.
End SquaredAll.
