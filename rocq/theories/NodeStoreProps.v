(** Properties C43 (release) and C55: learning with the stores. *)
From Coq Require Import Reals.
From Verif Require Import Base BaseProofs BitModel StoreModel F32 Num DataModel DataSpec Config TreeModel DatasetModel DatasetSpec DatasetProps LearnerModel LearnerSpec LearnerProps TrainProps ObjectiveModel MetricModel BoostModel BoostSpec BoostProps TotalProps
  NodeStoreModel NodeStoreSpec NodeStoreProofs1 NodeStoreProofs3 NodeStoreProofs4.
Local Close Scope R_scope.

(* ---- C55 ---- *)

(** Learning a tree with any context a program can have has the outcome (tree and objective, or panic) of learning with separate arrays for every node: no two nodes share
    memory they write, nothing is read that an earlier node or an earlier tree left in a slice. *)
Theorem C55_train : forall O dbg (cfg : config O) sizes c s bounds sched (St : Type) leaf_value oob gradients (st : St),
  context dbg cfg sizes c -> room cfg (nactive_examples s) sizes ->
  outcome (s_train dbg cfg s bounds sched St leaf_value oob c gradients st) = train dbg cfg s sizes bounds sched St leaf_value oob gradients st.
Proof.
  intros O dbg cfg sizes c s bounds sched St leaf_value oob gradients st Hc Hr. eapply sim_outcome with (P := fun _ => True). eapply sim_impl; [|exact (train_sim O dbg cfg sizes s bounds sched St leaf_value oob Hr c gradients st (context_ready O dbg cfg sizes c Hc))].
  cbn beta. intros a b _ _ [H _]. auto.
Qed.
Print Assumptions C55_train.
(** In particular reusing a context for the next tree makes no difference. *)
Theorem C55_reuse : forall O dbg (cfg : config O) sizes c c' s bounds sched (St : Type) leaf_value oob gradients (st : St),
  context dbg cfg sizes c -> context dbg cfg sizes c' -> room cfg (nactive_examples s) sizes ->
  outcome (s_train dbg cfg s bounds sched St leaf_value oob c gradients st) = outcome (s_train dbg cfg s bounds sched St leaf_value oob c' gradients st).
Proof. intros. erewrite C55_train by eassumption. symmetry. apply C55_train; assumption. Qed.
Print Assumptions C55_reuse.
(** Boosting, where one context serves all iterations: the state after every number of iterations, and the model. *)
Theorem C55_boost : forall O (M : mathops O) dbg cfg d sched kind metrics g,
  0 < c_discr_nbits cfg -> (forall sizes, hist_sizes d = Ok sizes -> room cfg (scaled_count (d_nexamples d) (c_example_fraction cfg)) sizes) ->
  (forall k, outcome (s_boost_run M dbg cfg d sched kind metrics g k) = boost_run M dbg cfg d sched kind metrics g k) /\
  s_boost_train M dbg cfg d sched kind metrics g = boost_train M dbg cfg d sched kind metrics g.
Proof.
  intros O M dbg cfg d sched kind metrics g Hw Hr. pose proof (fun k => boost_sim O M dbg cfg d sched kind metrics g k Hw Hr) as H. split; [exact H|].
  unfold s_boost_train, boost_train. rewrite <- H. unfold outcome. destruct (s_boost_run M dbg cfg d sched kind metrics g (c_niterations cfg)) as [[b c]| | |]; reflexivity.
Qed.
Print Assumptions C55_boost.

(* ---- C43 ---- *)

(** After a tree is learned every slice made in the histogram store and in the mask store is free again, and the histogram store has made at most [max_depth + 1] slices. *)
Theorem C43_release : forall O dbg (cfg : config O) sizes c s bounds sched (St : Type) leaf_value oob gradients (st : St) t st' c',
  context dbg cfg sizes c -> room cfg (nactive_examples s) sizes ->
  s_train dbg cfg s bounds sched St leaf_value oob c gradients st = Ok (t, st', c') ->
  all_free (hs_store (cx_hist c')) /\ all_free (cx_mask c') /\ length (st_ends (hs_store (cx_hist c'))) <= c_max_tree_depth cfg + 1.
Proof.
  intros O dbg cfg sizes c s bounds sched St leaf_value oob gradients st t st' c' Hc Hr E. pose proof (train_sim O dbg cfg sizes s bounds sched St leaf_value oob Hr c gradients st (context_ready O dbg cfg sizes c Hc)) as HS.
  rewrite E in HS. destruct (train _ _ _ _ _ _ _ _ _ _ _); cbn [sim] in HS; try contradiction. destruct HS as [_ H]. cbn [snd] in H.
  split; [exact (owns_all_free _ _ (U_owns _ _ _ _ (h_hist _ _ _ _ _ _ _ _ _ H)))|]. split; [exact (owns_all_free _ _ (h_mask _ _ _ _ _ _ _ _ _ H))|exact (U_peak _ _ _ _ (h_hist _ _ _ _ _ _ _ _ _ H))].
Qed.
Print Assumptions C43_release.

(* ---- examples ---- *)

(** 320 examples, depth 3, two iterations: the second tree is learned with the used context. *)
Definition nst_cfg : config f32ops :=
  @mk_config f32ops String.EmptyString String.EmptyString String.EmptyString [] 2%N true 44%N [0; 1] 2 f_half (fz 0) 1%N (fz 0) (fz 1) 4 4 3 f_half (fz 1) 1%N (fz 1) (fz 1) 1.
Definition nst_data : data f32ops :=
  @mk_data f32ops 4 2 320 [map (fun i => fz (Z.of_nat (i / 80))) (seq 0 320); map (fun i => fz (Z.of_nat (i mod 2))) (seq 0 320); map (fun i => fz (Z.of_nat (3 * (i / 80) + i mod 2))) (seq 0 320)]
    [(fz 0, fz 3); (fz 0, fz 1); (fz 0, fz 10)] [LoCardCat; LoCardCat; Numerical] [4; 2; 0].
Definition roomb {O} (cfg : config O) (n : nat) (sizes : list nat) : bool :=
  (N.of_nat (2 ^ c_max_tree_depth cfg * ((n + 255) / 256 * Nat.max 1 (c_discr_nbits cfg) + 2)) <=? 4294967295)%N && (N.of_nat ((c_max_tree_depth cfg + 1) * (list_sum sizes + 2)) <=? 4294967295)%N.
Lemma roomb_ok O (cfg : config O) n sizes : roomb cfg n sizes = true -> room cfg n sizes.
Proof. unfold roomb. intros H. apply andb_prop in H as [A B]. apply N.leb_le in A, B. split; assumption. Qed.
(** Slices made in the histogram, index and mask stores for the last tree (the histogram store made [max_depth + 1]; more than one index slice: nodes were compressed), and the numbers of leaves. *)
Example C55_ex : 0 < c_discr_nbits nst_cfg /\ (forall sizes, hist_sizes nst_data = Ok sizes -> room nst_cfg (scaled_count (d_nexamples nst_data) (c_example_fraction nst_cfg)) sizes) /\
  match s_boost_run bst_math true nst_cfg nst_data bst_sched L2 [] ex_rng 2 with
  | Ok (b, c) => length (st_ends (hs_store (cx_hist c))) = 4 /\ length (st_ends (cx_idx c)) = 4 /\ length (st_ends (cx_mask c)) = 4 /\ map (fun t => nleafs t) (at_trees (bs_ensemble b)) = [6; 6]
  | _ => False
  end.
Proof.
  split; [cbn; lia|]. split.
  - intros sizes E. apply roomb_ok. assert (hist_sizes nst_data = Ok [4; 1]) as E' by (vm_compute; reflexivity). rewrite E' in E. apply Ok_inj in E. subst sizes. vm_compute. reflexivity.
  - vm_compute. repeat split.
Qed.
Lemma store_ex dbg cfg d us (P : dataset f32ops -> list nat -> ctx f32ops -> Prop) :
  match (let* s0 := dataset_new cfg d ex_rng in let* s := ds_run dbg cfg us s0 in let* sizes := hist_sizes d in let* c := ctx_new cfg d in Ok (s, sizes, c)) with
  | Ok (s, sizes, c) => (N.of_nat (nactive_examples s) <=? 2 ^ 31)%N = true /\ roomb cfg (nactive_examples s) sizes = true /\ P s sizes c
  | _ => False
  end ->
  exists s sizes c, setting dbg cfg d s sizes rev_sched /\ context dbg cfg sizes c /\ room cfg (nactive_examples s) sizes /\ P s sizes c.
Proof.
  destruct (dataset_new cfg d ex_rng) as [s0| | |] eqn:E0; cbn [rbind]; [|intros []..].
  destruct (ds_run dbg cfg us s0) as [s| | |] eqn:E1; cbn [rbind]; [|intros []..]. destruct (hist_sizes d) as [sizes| | |] eqn:E2; cbn [rbind]; [|intros []..]. destruct (ctx_new cfg d) as [c| | |] eqn:E3; cbn [rbind]; [|intros []..].
  intros (H1 & H2 & HP). exists s, sizes, c. split; [|split; [eapply context_new; eassumption|split; [exact (roomb_ok _ _ _ _ H2)|exact HP]]].
  split; [exists ex_rng, us, s0; auto|]. split; [exact E2|]. split; [exact rev_sched_perm|]. apply N.leb_le, H1.
Qed.
(** One tree with a new context, and one with the context it leaves behind. *)
Definition nst_grad : list (num f32ops) := map (fun i => fz (Z.of_nat (3 * (i / 80) + i mod 2) - 5)) (seq 0 320).
Example C43_release_ex : exists s sizes c, setting true nst_cfg nst_data s sizes rev_sched /\ context true nst_cfg sizes c /\ room nst_cfg (nactive_examples s) sizes /\
  match s_train true nst_cfg s (fz (-6), fz 6) rev_sched _ rec_leaf rec_oob c nst_grad [] with
  | Ok (t, calls, c') => nleafs t = 6 /\ map (@length nat) calls = [40; 40; 40; 40; 80; 80] /\ length (st_ends (hs_store (cx_hist c'))) = 4 /\
     match s_train true nst_cfg s (fz (-6), fz 6) rev_sched _ rec_leaf rec_oob c' nst_grad [] with Ok (t', _, _) => nleafs t' = 6 | _ => False end
  | _ => False
  end.
Proof. apply (store_ex true nst_cfg nst_data [(nst_grad, (fz (-6), fz 6))]). vm_compute. repeat split. Qed.
