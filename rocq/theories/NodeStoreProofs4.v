(** Training with stores: one tree and many. *)
From Coq Require Import Sorting.Permutation.
From Verif Require Import Base BaseProofs BitModel BitProofs BitProofs2 SliceModel IterModel StoreModel StoreProofs StoreProofs2 StoreProofs3 Num ScaledModel DataModel Config TreeModel DatasetModel DatasetSpec DatasetProofs3 DatasetProofs4 DatasetProofs5 LearnerModel
  ObjectiveModel MetricModel BoostModel NodeStoreModel NodeStoreSpec NodeStoreProofs1 NodeStoreProofs2 NodeStoreProofs3.

Lemma required_div n : blocks_required_for n = (n + 255) / 256.
Proof.
  unfold blocks_required_for, BB_NBITS. pose proof (Nat.div_mod n 256 ltac:(lia)) as E. pose proof (Nat.mod_upper_bound n 256 ltac:(lia)). set (q := n / 256) in *. set (r := n mod 256) in *.
  destruct (Nat.eqb_spec r 0).
  - apply (Nat.div_unique _ _ _ 255); lia.
  - apply (Nat.div_unique _ _ _ (r - 1)); lia.
Qed.
Lemma owns_all_free T (s : store T) : owns s [] -> all_free s.
Proof.
  intros [I [_ C]]. cbn [length Nat.add] in C. split; [exact (I_fnd _ _ _ I)|]. intros r. split.
  - apply (NoDup_length_incl (I_fnd _ _ _ I)); [lia|]. intros x. apply (I_free _ _ _ I).
  - apply (I_free _ _ _ I).
Qed.
Lemma sim_outcome A C (P : C -> Prop) (x : res (A * C)) y : sim (fun r r' => fst r = r' /\ P (snd r)) x y -> outcome x = y.
Proof. unfold outcome. destruct x as [[a c]| | |], y; cbn; intros H; try destruct H; try reflexivity. congruence. Qed.

Section Train.
Variable O : numops.
Variable dbg : bool.
Variable cfg : config O.
Variable sizes : list nat.
Notation w := (c_discr_nbits cfg).
Notation D := (c_max_tree_depth cfg).

Record ready (c : ctx O) : Prop := {
  rd_layout : hs_layout (cx_hist c) = 0 :: layout_from 0 sizes;
  rd_hist : exists H, owns (hs_store (cx_hist c)) H;
  rd_idx : exists H, owns (cx_idx c) H;
  rd_mask : exists H, owns (cx_mask c) H;
  rd_grad : exists H, owns (cx_grad c) H
}.
Lemma new_ready d c : hist_sizes d = Ok sizes -> ctx_new cfg d = Ok c -> ready c.
Proof.
  intros Es E. unfold ctx_new in E. rewrite Es in E. cbn [rbind] in E. apply rbind_ok in E as (h & Eh & E). apply rbind_ok in E as (i & Ei & E). apply rbind_ok in E as (m & Em & E). apply rbind_ok in E as (g & Eg & E). injection E as <-.
  unfold hist_new in Eh. apply rbind_ok in Eh as (st & Est & Eh). injection Eh as <-. constructor; cbn; try (eexists; eapply owns_new; eassumption); reflexivity.
Qed.
Lemma holds_ready B peak c km kg : holds O cfg sizes B peak c [] km kg -> ready c.
Proof.
  intros [A1 A2 A3 A4 (Hi & A5 & A6 & A7) (Hg & A8 & A9 & A10) A11]. constructor; eauto. exists []. exact (U_owns _ _ _ _ A2).
Qed.

Section One.
Variable s : dataset O.
Variable bounds : num O * num O.
Variable sched : nat -> list job -> list job.
Variable St : Type.
Variable leaf_value : list nat -> St -> res (num O * St).
Variable oob : nat -> num O -> St -> res St.
Hypothesis Hroom : room cfg (nactive_examples s) sizes.
Let B := blocks_required_for (nactive_examples s).

Lemma train_sim c gradients st : ready c ->
  sim (fun r r' => fst r = r' /\ holds O cfg sizes B (D + 1) (snd r) [] 0 0) (s_train dbg cfg s bounds sched St leaf_value oob c gradients st) (train dbg cfg s sizes bounds sched St leaf_value oob gradients st).
Proof.
  intros [R1 (Hh & R2) (Hi & R3) (Hm & R4) (Hg & R5)]. unfold s_train, train. apply sim_same. intros t Et.
  assert (t_max_depth t = D) as Ed by (unfold tree_new in Et; apply rbind_ok in Et as (u & _ & Et); injection Et as <-; reflexivity).
  destruct Hroom as [Hr1 Hr2]. rewrite <- required_div in Hr1. fold B in Hr1.
  assert (holds O cfg sizes B (D + 1) (ctx_reset c) [] (S (2 ^ D - 2)) (S (2 ^ D - 2))) as H0.
  { pose proof (Nat.pow_nonzero 2 D ltac:(lia)) as Hz. unfold U32_MAX in *. constructor; cbn [ctx_reset cx_hist cx_idx cx_mask cx_grad hs_layout hs_store map].
    - exact R1.
    - exact (uniform_reset _ _ _ _ R2).
    - exact (owns_reset _ _ R4).
    - unfold fits, U32_MAX. cbn [store_reset st_len]. nia.
    - exists []. split; [exact (owns_reset _ _ R3)|]. split; [unfold fits, U32_MAX; cbn [store_reset st_len]; nia|]. intros p [].
    - exists []. split; [exact (owns_reset _ _ R5)|]. split; [unfold fits, U32_MAX; cbn [store_reset st_len]; nia|]. intros p [].
    - intros p []. }
  eapply sim_bind; [apply (root_sim O dbg cfg s sizes bounds sched B (D + 1) Hr2 (ctx_reset c) _ _ gradients H0); [unfold B; lia|lia]|]. intros [sn c1] nd _ Er H1. cbn [fst snd] in H1.
  assert (nd_id nd = 0) as Hid.
  { unfold get_root_n2s in Er. repeat match type of Er with rbind ?m _ = Ok _ => let x := fresh "x" in apply rbind_ok in Er as (x & _ & Er); try match type of x with (_ * _)%type => destruct x as [? ?] end end.
    unfold build_histograms in Er. apply rbind_ok in Er as (u & _ & Er). apply rbind_ok in Er as (js & _ & Er). apply rbind_ok in Er as (hh & _ & Er). injection Er as <-. reflexivity. }
  assert (weights O D [nd] = 2 ^ D - 2) as Hw. { unfold weights, weight. cbn [map list_sum fold_right]. rewrite Hid. change (Nat.log2 (0 + 1)) with 0. rewrite Nat.sub_0_r. lia. }
  eapply sim_bind; [apply (loop_sim O dbg cfg s sizes bounds sched B (D + 1) Hr2 St leaf_value (2 ^ (D + 1)) c1 [(sn, nd)] t st 0 0)|].
  - cbn [map snd]. rewrite Ed, Hw, Nat.add_0_r. exact H1.
  - rewrite Ed. reflexivity.
  - cbn [map snd deep length Nat.pow]. rewrite Hid. split; [lia|exact I].
  - intros [r c2] [t' st'] _ _ [E2 H2]. cbn [fst snd] in *. subst r. cbn [fst snd]. apply sim_same. intros st'' _. cbn [sim fst snd]. auto.
Qed.
End One.

Lemma context_ready c : context dbg cfg sizes c -> ready c.
Proof.
  induction 1 as [d c Es E|c s bounds sched St leaf oob gr st st' t c' _ IH Hr E]; [exact (new_ready d c Es E)|].
  pose proof (train_sim s bounds sched St leaf oob Hr c gr st IH) as HS. rewrite E in HS. destruct (train _ _ _ _ _ _ _ _ _ _ _); cbn [sim] in HS; try contradiction. destruct HS as [_ H]. exact (holds_ready _ _ _ _ _ H).
Qed.
End Train.

Lemma store_new_ok T cap al : 0 < cap -> exists s : store T, store_new cap al = Ok s.
Proof. intros H. unfold store_new. apply Nat.ltb_lt in H. rewrite H. cbn [rassert rbind]. eauto. Qed.

Section Boost.
Variable O : numops.
Variable M : mathops O.
Variable dbg : bool.
Variable cfg : config O.
Variable d : data O.
Variable sched : nat -> nat -> list job -> list job.

Lemma iter_sim sizes metrics b c : hist_sizes d = Ok sizes -> room cfg (scaled_count (d_nexamples d) (c_example_fraction cfg)) sizes ->
  ready O sizes c -> reachable dbg cfg d (bs_dataset b) ->
  sim (fun bc b' => fst bc = b' /\ (ready O sizes (snd bc) /\ reachable dbg cfg d (bs_dataset b'))) (s_train_one_iter M dbg cfg d sched metrics (b, c)) (train_one_iter M dbg cfg d sched sizes metrics b).
Proof.
  intros Es Hroom Hc HR. unfold s_train_one_iter, train_one_iter. apply sim_same. intros tg _. apply sim_same. intros ob _. apply sim_same. intros s Eu.
  assert (reachable dbg cfg d s) as HRs.
  { destruct HR as (g & us & s0 & E0 & E1). exists g, (us ++ [(ob_grads ob, obj_bounds ob)]), s0. split; [exact E0|]. unfold ds_run in *. rewrite foldM_app, E1. cbn [rbind foldM]. cbn [fst snd]. rewrite Eu. reflexivity. }
  assert (room cfg (nactive_examples s) sizes) as Hrs.
  { unfold nactive_examples. rewrite (dv_nact _ _ _ _ (ds_inv _ _ _ _ (reachable_ok _ _ _ _ _ HRs))). exact Hroom. }
  eapply sim_bind; [apply (train_sim O dbg cfg sizes s (obj_bounds ob) (sched (S (bs_iter b))) _ (obj_leaf_value M tg) update_out_of_bag Hrs c (ob_grads ob) ob Hc)|].
  intros [r c'] [t ob'] _ _ [E H]. cbn [fst snd] in *. subst r. cbn [sim fst snd bs_dataset]. split; [reflexivity|]. split; [exact (holds_ready _ _ _ _ _ _ _ _ H)|exact HRs].
Qed.
Lemma boost_sim kind metrics g k : 0 < c_discr_nbits cfg -> (forall sizes, hist_sizes d = Ok sizes -> room cfg (scaled_count (d_nexamples d) (c_example_fraction cfg)) sizes) ->
  outcome (s_boost_run M dbg cfg d sched kind metrics g k) = boost_run M dbg cfg d sched kind metrics g k.
Proof.
  intros Hw Hroom. unfold s_boost_run, boost_run. destruct (boost_start M dbg cfg d kind g) as [b0| | |] eqn:Eb; try reflexivity. cbn [rbind].
  assert (reachable dbg cfg d (bs_dataset b0)) as HR0.
  { unfold boost_start in Eb. apply rbind_ok in Eb as (s0 & E0 & Eb). apply rbind_ok in Eb as (tg & _ & Eb). apply rbind_ok in Eb as (ob & _ & Eb). injection Eb as <-. exists g, [], s0. split; [exact E0|reflexivity]. }
  destruct (hist_sizes d) as [sizes| | |] eqn:Es; try (unfold ctx_new; rewrite Es; reflexivity). specialize (Hroom sizes eq_refl).
  assert (exists c0, ctx_new cfg d = Ok c0) as (c0 & Ec).
  { unfold ctx_new, hist_new, bstore_new. rewrite Es.
    match goal with |- exists c0, (let* _ := _ in let* _ := (let* _ := store_new ?a _ in _) in let* _ := store_new ?b _ in let* _ := _ in let* _ := store_new ?e _ in _) = _ => assert (0 < a) as Ha by (apply Nat.ltb_lt; vm_compute; reflexivity); assert (0 < b) as Hb by (apply Nat.ltb_lt; vm_compute; reflexivity); assert (0 < e) as He by (apply Nat.mul_pos_pos; assumption) end.
    destruct (store_new_ok (histval O) _ 2 Ha) as (s1 & E1). destruct (store_new_ok block _ 2 Hb) as (s2 & E2). destruct (store_new_ok block _ 2 He) as (s3 & E3). rewrite E1, E2, E3. cbn [rbind]. eauto. }
  rewrite Ec. cbn [rbind].
  apply (sim_outcome _ _ (fun _ => True)).
  eapply sim_impl; [|apply (sim_foldM (fun bc b => fst bc = b /\ (ready O sizes (snd bc) /\ reachable dbg cfg d (bs_dataset b))))].
  - cbn beta. intros a b _ _ (H & _). auto.
  - intros [b c] b' i _ (E & Hc & HR). cbn [fst snd] in *. subst b'. apply iter_sim; assumption.
  - split; [reflexivity|]. split; [exact (new_ready O cfg sizes d c0 Es Ec)|exact HR0].
Qed.
End Boost.
