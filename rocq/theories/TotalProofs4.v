(** Training with an objective whose answers depend on every example being handled once. *)
From Coq Require Import Permutation Sorted ListDec.
From Verif Require Import Base BaseProofs SliceModel Num DataModel Config TreeModel DatasetModel DatasetSpec DatasetProofs3 DatasetProofs4 DatasetProofs5
  LearnerModel LearnerSpec TrainSpec TrainProps ObjectiveModel MetricModel BoostModel BoostSpec BoostProofs TotalSpec TotalProofs TotalProofs3.

(* ---- an objective with a record of its calls behaves like the objective ---- *)
Section Simulation.
Variable O : numops.
Variable dbg : bool.
Variable cfg : config O.
Variable s : dataset O.
Variable sizes : list nat.
Variable bounds : num O * num O.
Variable sched : nat -> list job -> list job.
Variables X St : Type.
Variable leaf1 : list nat -> X -> res (num O * X).
Variable oob1 : nat -> num O -> X -> res X.
Variable leaf : list nat -> St -> res (num O * St).
Variable oob : nat -> num O -> St -> res St.
Variable good : X -> bool.
Variable p : X -> St.
Hypothesis Hl : forall ex x v x', leaf1 ex x = Ok (v, x') -> good x' = true -> good x = true /\ leaf ex (p x) = Ok (v, p x').
Hypothesis Ho : forall i v x x', oob1 i v x = Ok x' -> good x' = true -> good x = true /\ oob i v (p x) = Ok (p x').

Lemma leaf_sim nd t x t' x' : predict_leaf_value s X leaf1 nd t x = Ok (t', x') -> good x' = true -> good x = true /\ predict_leaf_value s St leaf nd t (p x) = Ok (t', p x').
Proof.
  unfold predict_leaf_value. intros E H. apply rbind_ok in E as (ex & E0 & E). apply rbind_ok in E as ([v x1] & E1 & E). apply rbind_ok in E as (t1 & E2 & E). injection E as <- <-.
  destruct (Hl _ _ _ _ E1 H) as [G E3]. split; [exact G|]. rewrite E0. cbn [rbind]. rewrite E3. cbn [rbind]. rewrite E2. reflexivity.
Qed.
Lemma child_sim nd sp t x t' x' : predict_child_leaf_values s X leaf1 nd sp t x = Ok (t', x') -> good x' = true -> good x = true /\ predict_child_leaf_values s St leaf nd sp t (p x) = Ok (t', p x').
Proof.
  unfold predict_child_leaf_values. intros E H. apply rbind_ok in E as (fm & E0 & E). apply rbind_ok in E as (exl & E1 & E). apply rbind_ok in E as ([vl x1] & E2 & E).
  apply rbind_ok in E as (exr & E3 & E). apply rbind_ok in E as ([vr x2] & E4 & E). apply rbind_ok in E as (t1 & E5 & E). apply rbind_ok in E as (t2 & E6 & E). injection E as <- <-.
  destruct (Hl _ _ _ _ E4 H) as [G1 F1]. destruct (Hl _ _ _ _ E2 G1) as [G2 F2]. split; [exact G2|].
  rewrite E0. cbn [rbind]. rewrite E1. cbn [rbind]. rewrite F2. cbn [rbind]. rewrite E3. cbn [rbind]. rewrite F1. cbn [rbind]. rewrite E5. cbn [rbind]. rewrite E6. reflexivity.
Qed.
Lemma step_sim nd stack t x stack' t' x' : train_step dbg cfg s sizes bounds sched X leaf1 nd stack t x = Ok (stack', t', x') -> good x' = true ->
  good x = true /\ train_step dbg cfg s sizes bounds sched St leaf nd stack t (p x) = Ok (stack', t', p x').
Proof.
  unfold train_step. intros E H. apply rbind_ok in E as (sp & E0 & E). rewrite E0. cbn [rbind]. destruct (is_no_split (sp_crit sp)).
  - apply rbind_ok in E as ([t1 x1] & E1 & E). injection E as <- <- <-. destruct (leaf_sim _ _ _ _ _ E1 H) as [G F]. split; [exact G|]. rewrite F. reflexivity.
  - destruct (negb _).
    + apply rbind_ok in E as ([l r] & E1 & E). apply rbind_ok in E as (t1 & E2 & E). injection E as <- <- <-. split; [exact H|]. rewrite E1. cbn [rbind]. rewrite E2. reflexivity.
    + apply rbind_ok in E as ([t1 x1] & E1 & E). apply rbind_ok in E as (t2 & E2 & E). injection E as <- <- <-. destruct (child_sim _ _ _ _ _ _ E1 H) as [G F]. split; [exact G|]. rewrite F. cbn [rbind]. rewrite E2. reflexivity.
Qed.
Lemma loop_sim fuel : forall stack t x t' x', train_loop dbg cfg s sizes bounds sched X leaf1 fuel stack t x = Ok (t', x') -> good x' = true ->
  good x = true /\ train_loop dbg cfg s sizes bounds sched St leaf fuel stack t (p x) = Ok (t', p x').
Proof.
  induction fuel as [|fuel IH]; intros [|nd stack] t x t' x' E H; cbn [train_loop] in *; try discriminate; try (injection E as <- <-; auto).
  apply rbind_ok in E as ([[stack1 t1] x1] & E1 & E). destruct (IH _ _ _ _ _ E H) as [G F]. destruct (step_sim _ _ _ _ _ _ _ E1 G) as [G1 F1]. split; [exact G1|]. rewrite F1. cbn [rbind]. exact F.
Qed.
Lemma train_sim gradients t x x' : train dbg cfg s sizes bounds sched X leaf1 oob1 gradients x = Ok (t, x') -> good x' = true ->
  train dbg cfg s sizes bounds sched St leaf oob gradients (p x) = Ok (t, p x').
Proof.
  unfold train. intros E H. apply rbind_ok in E as (t0 & E0 & E). apply rbind_ok in E as (root & E1 & E). apply rbind_ok in E as ([t1 x1] & E2 & E). apply rbind_ok in E as (x2 & E3 & E). injection E as <- <-.
  rewrite E0. cbn [rbind]. rewrite E1. cbn [rbind].
  assert (good x1 = true /\ predict_out_of_bag s St oob t1 (p x1) = Ok (p x2)) as [G F].
  { clear E2. unfold predict_out_of_bag in *. destruct (example_sampling_enabled s); [|injection E3 as <-; auto]. apply rbind_ok in E3 as (is & Eis & E3). rewrite Eis. cbn [rbind]. clear Eis.
    revert x1 E3. induction is as [|i is IH]; intros x1 E3; cbn [foldM] in *; [injection E3 as <-; auto|]. apply rbind_ok in E3 as (x3 & E1' & E3). apply rbind_ok in E1' as (q & Eq & E4).
    destruct (IH _ E3) as [G F]. destruct (Ho _ _ _ _ E4 G) as [G1 F1]. split; [exact G1|]. rewrite Eq. cbn [rbind]. rewrite F1. cbn [rbind]. exact F. }
  destruct (loop_sim _ _ _ _ _ _ E2 G) as [_ F2]. rewrite F2. cbn [rbind]. rewrite F. reflexivity.
Qed.
End Simulation.

(* ---- training one tree ---- *)
Section Once.
Variable O : numops.
Variable St : Type.
Variable leaf : list nat -> St -> res (num O * St).
Variable oob : nat -> num O -> St -> res St.
Variable v0 : num O.

Definition fresh (ex done : list nat) : bool := if NoDup_dec Nat.eq_dec (ex ++ done) then true else false.
Definition leaf1 (ex : list nat) (x : St * list nat * bool) : res (num O * (St * list nat * bool)) :=
  let '(st, done, ok) := x in
  if ok && fresh ex done then let* (v, st') := leaf ex st in Ok (v, (st', ex ++ done, true)) else Ok (v0, (st, done, false)).
Definition oob1 (i : nat) (v : num O) (x : St * list nat * bool) : res (St * list nat * bool) :=
  let '(st, done, ok) := x in
  if ok && fresh [i] done then let* st' := oob i v st in Ok (st', i :: done, true) else Ok (st, done, false).

Lemma leaf1_sim ex x v x' : leaf1 ex x = Ok (v, x') -> snd x' = true -> snd x = true /\ leaf ex (fst (fst x)) = Ok (v, fst (fst x')).
Proof.
  destruct x as [[st done] ok]. unfold leaf1. destruct ok; cbn [andb]; [|intros E H; injection E as _ <-; discriminate]. destruct (fresh ex done); [|intros E H; injection E as _ <-; discriminate].
  intros E _. apply rbind_ok in E as ([w st'] & E1 & E). injection E as <- <-. cbn [fst snd]. auto.
Qed.
Lemma oob1_sim i v x x' : oob1 i v x = Ok x' -> snd x' = true -> snd x = true /\ oob i v (fst (fst x)) = Ok (fst (fst x')).
Proof.
  destruct x as [[st done] ok]. unfold oob1. destruct ok; cbn [andb]; [|intros E H; injection E as <-; discriminate]. destruct (fresh [i] done); [|intros E H; injection E as <-; discriminate].
  intros E _. apply rbind_ok in E as (st' & E1 & E). injection E as <-. cbn [fst snd]. auto.
Qed.
Lemma fresh_ok ex done : NoDup (ex ++ done) -> fresh ex done = true.
Proof. intros H. unfold fresh. destruct (NoDup_dec _ _); [reflexivity|contradiction]. Qed.
Lemma calls_good gs : forall st done x', leaf_calls leaf1 gs (st, done, true) x' -> NoDup (concat (map g_examples gs) ++ done) -> snd x' = true /\ Permutation (snd (fst x')) (concat (map g_examples gs) ++ done).
Proof.
  induction gs as [|g gs IH]; intros st done x' HC HN; cbn [leaf_calls] in HC; [subst; cbn; auto|]. destruct HC as (x1 & E & HC). cbn [map concat] in *. unfold leaf1 in E. cbn [andb] in E.
  rewrite <- app_assoc in HN. assert (NoDup (concat (map g_examples gs) ++ g_examples g ++ done)) as HN'.
  { eapply Permutation_NoDup; [|exact HN]. apply Permutation_app_swap_app. }
  rewrite fresh_ok in E by (clear - HN'; induction (concat (map g_examples gs)) as [|a l IHl]; [exact HN'|inversion HN'; auto]).
  apply rbind_ok in E as ([v st'] & _ & E). assert (x1 = (st', g_examples g ++ done, true)) as -> by congruence. destruct (IH _ _ _ HC HN') as [H1 H2]. split; [exact H1|]. etransitivity; [exact H2|]. rewrite <- app_assoc. apply Permutation_app_swap_app.
Qed.
Lemma oobs_good l : forall st done x', oob_calls oob1 l (st, done, true) x' -> NoDup (map fst l ++ done) -> snd x' = true.
Proof.
  induction l as [|[i v] l IH]; intros st done x' HC HN; cbn [oob_calls] in HC; [subst; reflexivity|]. destruct HC as (x1 & E & HC). cbn [map fst app] in HN. unfold oob1 in E. cbn [andb] in E.
  apply NoDup_cons_iff in HN as [Hi HN]. rewrite fresh_ok in E.
  2: { cbn. constructor; [intros Hc; apply Hi, in_or_app; right; exact Hc|]. clear - HN. induction (map fst l) as [|a t IHl]; [exact HN|inversion HN; auto]. }
  apply rbind_ok in E as (st' & _ & E). assert (x1 = (st', i :: done, true)) as -> by congruence. eapply IH; [exact HC|]. apply (Permutation_NoDup (Permutation_middle _ _ _)). constructor; assumption.
Qed.
End Once.

(** Every active example is in one leaf, every other one is told its prediction: [I done st] may depend on the examples handled so far. *)
Lemma train_once O dbg0 dbg (cfg : config O) d s sizes bounds sched gradients St leaf_value oob rows fs (I : list nat -> St -> Prop) (V : num O -> Prop) (st : St) : setting dbg0 cfg d s sizes sched ->
  (0 < length (d_features d) /\ d_nfeatures d <= length (d_features d) /\ forall col, In col (d_features d) -> length col = d_nexamples d) ->
  active_features s = Ok fs -> example_rows s = Ok rows -> (forall j, In j rows -> j < length gradients) -> 0 < d_nexamples d -> 0 < nactive_examples s -> 0 < list_sum sizes ->
  valid_width (c_discr_nbits cfg) = true -> 0 < c_max_tree_depth cfg -> (1 <= c_min_examples_leaf cfg)%N ->
  (exists v, V v /\ nisfin O v = true) -> I [] st ->
  (forall ex done st, I done st -> ex <> [] -> NoDup (ex ++ done) -> (forall j, In j ex -> In j rows) -> exists v st', leaf_value ex st = Ok (v, st') /\ nisfin O v = true /\ V v /\ I (ex ++ done) st') ->
  (forall i v done st, I done st -> i < d_nexamples d -> ~ In i done -> V v -> exists st', oob i (nmul O (nofZ O 1) (nadd O v (nofZ O 0))) st = Ok st' /\ I (i :: done) st') ->
  exists t st' done, train dbg cfg s sizes bounds sched St leaf_value oob gradients st = Ok (t, st') /\ I done st' /\
    forall i, i < d_nexamples d -> exists v, V v /\ predict_single t d i = Ok (nmul O (nofZ O 1) (nadd O v (nofZ O 0))).
Proof.
  intros HS Hcols Hfs Hrows Hg Hn Hact Hsum Hw HD Hmin (v0 & Hv0 & Fv0) HI Hlv Ho.
  destruct (C43_total O dbg0 dbg cfg d s sizes bounds sched gradients (St * list nat * bool) (leaf1 O St leaf_value v0) (oob1 O St oob) rows fs
    (fun x => snd x = true -> I (snd (fst x)) (fst (fst x))) V (st, [], true) HS Hcols Hfs Hrows Hg Hn Hact Hsum Hw HD Hmin (fun _ => HI)) as (t & x' & E & HI' & HV).
  - intros ex [[st1 done] ok] H1 Hne Hex. unfold leaf1. cbn [fst snd] in H1. destruct ok; cbn [andb]; [|exists v0, (st1, done, false); repeat split; auto; discriminate].
    unfold fresh. destruct (NoDup_dec Nat.eq_dec (ex ++ done)) as [HN|HN]; [|exists v0, (st1, done, false); repeat split; auto; discriminate].
    destruct (Hlv ex done st1 (H1 eq_refl) Hne HN Hex) as (v & st' & E & F & Hv & HI'). rewrite E. cbn [rbind]. exists v, (st', ex ++ done, true). auto.
  - intros i v [[st1 done] ok] H1 Hi Hv. unfold oob1. cbn [fst snd] in H1. destruct ok; cbn [andb]; [|exists (st1, done, false); split; [reflexivity|discriminate]].
    unfold fresh. destruct (NoDup_dec Nat.eq_dec ([i] ++ done)) as [HN|HN]; [|exists (st1, done, false); split; [reflexivity|discriminate]].
    destruct (Ho i v done st1 (H1 eq_refl) Hi) as (st' & E & HI'); [cbn in HN; apply NoDup_cons_iff in HN; apply HN|exact Hv|]. rewrite E. cbn [rbind]. exists (st', i :: done, true). auto.
  - destruct (C26_leaves O dbg0 dbg cfg d s sizes bounds sched gradients _ _ _ t _ x' HS E) as (rows' & gs & others & x1 & Hr' & _ & _ & HP & HN & _ & HC & HO & Hu & Hs).
    rewrite Hrows in Hr'. injection Hr' as <-. destruct x1 as [[st1 done] ok].
    destruct (calls_good O St leaf_value v0 gs _ _ _ HC) as [G HP1]; [rewrite app_nil_r; exact HN|]. cbn [fst snd] in G, HP1. subst ok. rewrite app_nil_r in HP1.
    assert (snd x' = true) as G'.
    { eapply oobs_good; [exact HO|]. destruct (example_sampling_enabled s); [|rewrite (Hu eq_refl); cbn; eapply Permutation_NoDup; [symmetry; exact HP1|exact HN]].
      destruct (Hs eq_refl) as (Hinc & Hin & _).
      assert (NoDup (map fst others)) as HNo.
      { clear - Hinc. unfold increasing in Hinc. induction Hinc as [|a l Hl IH Ha]; constructor; [|exact IH]. intros Hc. rewrite Forall_forall in Ha. specialize (Ha a Hc). lia. }
      clear - HNo HN HP HP1 Hin. revert HNo. assert (forall j, In j (map fst others) -> ~ In j done) as Hd.
      { intros j Hj Hc. apply Hin in Hj. apply (proj2 Hj). eapply Permutation_in; [exact HP|]. eapply Permutation_in; [exact HP1|exact Hc]. }
      assert (NoDup done) as HNd by (eapply Permutation_NoDup; [symmetry; exact HP1|exact HN]). clear - Hd HNd. induction (map fst others) as [|a l IH]; intros HNo; [exact HNd|]. cbn [app]. apply NoDup_cons_iff in HNo as [Ha HNo]. constructor.
      - intros Hc. apply in_app_or in Hc as [Hc|Hc]; [contradiction|]. apply (Hd a); [left; reflexivity|exact Hc].
      - apply IH; [intros j Hj; apply Hd; right; exact Hj|exact HNo]. }
    exists t, (fst (fst x')), (snd (fst x')). split; [|auto].
    exact (train_sim O dbg cfg s sizes bounds sched _ _ _ _ leaf_value oob snd (fun x => fst (fst x)) (leaf1_sim O St leaf_value v0) (oob1_sim O St oob) gradients t (st, [], true) x' E G').
Qed.

(* ---- boosting ---- *)
Section RunOnce.
Variable O : numops.
Variable M : mathops O.
Variable dbg : bool.
Variable cfg : config O.
Variable d : data O.
Variable sched : nat -> nat -> list job -> list job.
Hypothesis laws : num_laws O (c_max_nbins cfg) (d_nexamples d).
Hypothesis HT : trainable cfg d.
Hypothesis Hsched : any_order sched.
Hypothesis Hcount : (N.of_nat (scaled_count (d_nexamples d) (c_example_fraction cfg)) <= 2 ^ 31)%N.
Hypothesis Hbins : exists f nb, f < d_nfeatures d /\ max_nbins d f = Ok nb /\ 0 < nb.
Hypothesis Hwidth : valid_width (c_discr_nbits cfg) = true.
Hypothesis Hdepth : 0 < c_max_tree_depth cfg.
Hypothesis Hmin : (1 <= c_min_examples_leaf cfg)%N.
Variable target : list (num O).
Hypothesis Htarget : get_target d = Ok target.
(** [I k]: before iteration [k]; [J k done]: within iteration [k], when the examples in [done] have their new predictions. *)
Variable K : nat.
Variables (I : nat -> objective O -> Prop) (J : nat -> list nat -> objective O -> Prop) (V : nat -> num O -> Prop).
Hypothesis Hupd : forall k ob, k < K -> I k ob -> exists ob', obj_update M target ob = Ok ob' /\ usable_gradients dbg cfg d (ob_grads ob') (obj_bounds ob') /\ J k [] ob'.
Hypothesis HV : forall k, k < K -> exists v, V k v /\ nisfin O v = true.
Hypothesis Hleaf : forall k ex done ob, k < K -> J k done ob -> ex <> [] -> NoDup (ex ++ done) -> (forall j, In j ex -> j < d_nexamples d) ->
  exists v ob', obj_leaf_value M target ex ob = Ok (v, ob') /\ nisfin O v = true /\ V k v /\ J k (ex ++ done) ob'.
Hypothesis Hoob : forall k i v done ob, k < K -> J k done ob -> i < d_nexamples d -> ~ In i done -> V k v -> exists ob', update_out_of_bag i (nmul O (nofZ O 1) (nadd O v (nofZ O 0))) ob = Ok ob' /\ J k (i :: done) ob'.
Hypothesis HJI : forall k done ob, k < K -> J k done ob -> I (S k) ob.

Lemma iter_once k sizes metrics b : k < K -> hist_sizes d = Ok sizes -> 0 < list_sum sizes -> reachable dbg cfg d (bs_dataset b) -> I k (bs_objective b) ->
  exists b', train_one_iter M dbg cfg d sched sizes metrics b = Ok b' /\ reachable dbg cfg d (bs_dataset b') /\ I (S k) (bs_objective b') /\ exists t, bs_ensemble b' = push_tree (bs_ensemble b) t /\ from_values O d (V k) t.
Proof.
  intros Hk Hsz Hpos HR HI. unfold train_one_iter. rewrite Htarget. cbn [rbind]. destruct (Hupd _ _ Hk HI) as (ob & Eo & Hg & HJ). rewrite Eo. cbn [rbind].
  destruct (dataset_update_total O cfg d laws HT dbg (bs_dataset b) (ob_grads ob) (obj_bounds ob) (reachable_ok _ _ _ _ _ HR) Hg) as [s Es]. rewrite Es. cbn [rbind].
  assert (reachable dbg cfg d s) as HRs.
  { destruct HR as (g & us & s0 & E0 & E1). exists g, (us ++ [(ob_grads ob, obj_bounds ob)]), s0. split; [exact E0|]. unfold ds_run in *. rewrite foldM_app, E1. cbn [rbind foldM fst snd]. rewrite Es. reflexivity. }
  pose proof (reachable_ok _ _ _ _ _ HRs) as Hds. pose proof (dv_nact _ _ _ _ (ds_inv _ _ _ _ Hds)) as Hna.
  assert (setting dbg cfg d s sizes (sched (S (bs_iter b)))) as HS.
  { split; [exact HRs|]. split; [exact Hsz|]. split; [apply Hsched|]. unfold nactive_examples. rewrite Hna. exact Hcount. }
  destruct (rows_total O cfg d HT s Hds) as (rows & Erows & Hrows). destruct (features_total O cfg d HT s Hds) as (fs & Efs). pose proof HT as (HW & _ & _ & _ & _ & _ & _ & Hact & _). pose proof HW as (Hn & Hnf & Hcol).
  destruct Hg as (Hlg & _).
  destruct (train_once O dbg dbg cfg d s sizes (obj_bounds ob) (sched (S (bs_iter b))) (ob_grads ob) (objective O) (obj_leaf_value M target) update_out_of_bag rows fs (J k) (V k) ob HS) as (t & ob' & done & Et & HJ' & Hval);
    try assumption.
  - split; [lia|]. split; [lia|exact Hcol].
  - intros j Hj. rewrite Hlg. apply Hrows, Hj.
  - unfold nactive_examples. rewrite Hna. unfold nact. lia.
  - apply HV, Hk.
  - intros ex done st HJst Hne HN Hex. apply Hleaf; auto.
  - intros i v done st HJst Hi Hd Hv. apply Hoob; auto.
  - rewrite Et. cbn [rbind]. eexists. split; [reflexivity|]. cbn [bs_dataset bs_objective bs_ensemble]. split; [exact HRs|]. split; [eapply HJI, HJ'; exact Hk|]. exists t. split; [reflexivity|exact Hval].
Qed.

Lemma run_once kind metrics g ob0 : obj_initialize M dbg cfg target (objective_new O kind) = Ok ob0 -> I 0 ob0 ->
  forall k, k <= K -> exists b, boost_run M dbg cfg d sched kind metrics g k = Ok b /\ I k (bs_objective b) /\ length (at_trees (bs_ensemble b)) = k /\ at_bias (bs_ensemble b) = ob_bias ob0 /\
    forall i t, nth_error (at_trees (bs_ensemble b)) i = Some t -> from_values O d (V i) t.
Proof.
  intros E0 HI0 k Hk. unfold boost_run, boost_start. destruct (dataset_new_total O cfg d HT g) as [s Es]. rewrite Es. cbn [rbind]. rewrite Htarget. cbn [rbind]. rewrite E0. cbn [rbind].
  destruct (sizes_total O cfg d HT Hbins) as (sizes & Hsz & Hpos). rewrite Hsz. cbn [rbind].
  set (b0 := mk_booster _ _ _ _ _).
  assert (exists b, foldM (fun b _ => train_one_iter M dbg cfg d sched sizes metrics b) (seq 0 k) b0 = Ok b /\ reachable dbg cfg d (bs_dataset b) /\ I k (bs_objective b) /\ length (at_trees (bs_ensemble b)) = k /\ at_bias (bs_ensemble b) = ob_bias ob0 /\
    forall i t, nth_error (at_trees (bs_ensemble b)) i = Some t -> from_values O d (V i) t) as (b & A & B & C & D).
  { induction k as [|k IH].
    - exists b0. split; [reflexivity|]. split; [exists g, [], s; split; [exact Es|reflexivity]|]. split; [exact HI0|]. split; [reflexivity|]. split; [reflexivity|]. intros [|i] t; discriminate.
    - destruct IH as (b & A & B & C & D & F & G); [lia|]. rewrite seq_S, foldM_app, A. cbn [rbind foldM]. destruct (iter_once k sizes metrics b Hk Hsz Hpos B C) as (b' & A' & B' & C' & t & D' & Hv). rewrite A'. cbn [rbind].
      exists b'. split; [reflexivity|]. split; [exact B'|]. split; [exact C'|]. rewrite D'. cbn [push_tree at_trees at_bias]. split; [rewrite app_length, D; cbn; lia|]. split; [exact F|].
      intros i t' Ht. destruct (Nat.eq_dec i k) as [->|Hik].
      + rewrite nth_error_app2 in Ht by lia. rewrite D, Nat.sub_diag in Ht. cbn in Ht. injection Ht as <-. exact Hv.
      + apply (G i t'). rewrite nth_error_app1 in Ht; [exact Ht|]. assert (i < length (at_trees (bs_ensemble b) ++ [t])) as Hi by (apply nth_error_Some; rewrite Ht; discriminate). rewrite app_length in Hi. cbn in Hi. lia. }
  exists b. auto.
Qed.
End RunOnce.
