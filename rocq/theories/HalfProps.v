(** C78: a training set smaller than two leaves gives trees without splits. *)
From Coq Require Import Permutation.
From Verif Require Import Base BaseProofs BitModel Num F32 F32Proofs DataModel Config TreeModel DatasetModel DatasetSpec DatasetProofs DatasetProofs2 DatasetProofs3 DatasetProofs4 LearnerModel LearnerSpec LearnerProofs LearnerProofs2 LearnerProofs3 LearnerProofs4 LearnerProofs5 LearnerProofs7 GainSpec LearnerProps TreeSpec TrainSpec GreedySpec GreedyProofs GreedyProps
  ObjectiveModel MetricModel BoostModel BoostSpec BoostProps TreeProps ColProps WideProps DatasetProps LearnerProps DatasetProofs5 FreqProofs FreqProps.
Local Open Scope nat_scope.

(** The leaves of a greedily grown part share its examples; if it is split, each gets at least [k]. *)
Lemma greedy_shares O (s : dataset O) t stops (picks : list nat -> nat -> nat -> blocks -> Prop) leaf k : (forall l f b fm, picks l f b fm -> both_sides k fm l) ->
  forall r m l, greedy s t stops picks leaf r m l ->
  exists ps, Permutation (concat (map snd ps)) l /\ Forall (fun p => leaf (fst p) (snd p)) ps /\ (ps = [(m, l)] \/ Forall (fun p => k <= length (snd p)) ps).
Proof.
  intros Hpk r m l H. induction H as [r m l _ _ Hl|r m l c b fm _ _ _ _ _ Hp H1 IH1 H2 IH2].
  - exists [(m, l)]. cbn [map concat snd]. rewrite app_nil_r. split; [reflexivity|]. split; [constructor; [exact Hl|constructor]|left; reflexivity].
  - destruct (Hpk _ _ _ _ Hp) as [Ha Hb]. destruct IH1 as (p1 & P1 & F1 & S1), IH2 as (p2 & P2 & F2 & S2). exists (p1 ++ p2). split; [|split; [apply Forall_app; split; assumption|right; apply Forall_app; split]].
    + rewrite map_app, concat_app, P1, P2. symmetry. apply filter_partition.
    + destruct S1 as [->|S1]; [constructor; [exact Ha|constructor]|exact S1].
    + destruct S2 as [->|S2]; [constructor; [exact Hb|constructor]|exact S2].
Qed.

Lemma concat_le A (P : list A) (f : A -> list nat) k : Forall (fun x => k <= length (f x)) P -> length P * k <= length (concat (map f P)).
Proof. induction 1 as [|x P Hx _ IH]; cbn [map concat length]; [lia|]. rewrite app_length. lia. Qed.
Lemma concat_same A (P : list A) (f : A -> list nat) a b x : NoDup (concat (map f P)) -> In a P -> In b P -> In x (f a) -> In x (f b) -> f a = f b.
Proof.
  induction P as [|y P IH]; intros Hnd Ha Hb Hxa Hxb; [destruct Ha|]. cbn [map concat] in Hnd.
  assert (forall z, In z (f y) -> ~ In z (concat (map f P))) as Hd.
  { intros z Hz Hin. apply in_split in Hz as (u & v & Hz). rewrite Hz in Hnd. rewrite <- app_assoc in Hnd. cbn [app] in Hnd. apply NoDup_remove_2 in Hnd. apply Hnd. apply in_or_app. right. apply in_or_app. right. exact Hin. }
  assert (NoDup (concat (map f P))) as Hnd'. { clear - Hnd. induction (f y) as [|z l IHl]; [exact Hnd|]. inversion Hnd. auto. }
  assert (forall c, In c P -> In x (f c) -> In x (concat (map f P))) as Hin by (intros c Hc Hx; apply in_concat; exists (f c); split; [apply in_map, Hc|exact Hx]).
  destruct Ha as [->|Ha], Hb as [->|Hb]; [reflexivity| | |exact (IH Hnd' Ha Hb Hxa Hxb)]; exfalso; [exact (Hd x Hxa (Hin b Hb Hxb))|exact (Hd x Hxb (Hin a Ha Hxa))].
Qed.

Lemma picked_min O dbg0 dbg (cfg : config O) d s sizes bounds sched gradients nd sp fm : setting dbg0 cfg d s sizes sched ->
  grown dbg cfg s sizes bounds sched gradients nd -> find_best_split dbg cfg s nd = Ok sp -> is_no_split (sp_crit sp) = false -> ds_get_bitvec s (sc_feature (sp_crit sp)) (sp_id sp) = Ok fm ->
  both_sides (N.to_nat (c_min_examples_leaf cfg)) fm (members (nactive_examples s) nd).
Proof.
  intros HS HG Esp Ens Em. pose proof HS as (HR & Hsz & Hsch & Hsm).
  destruct (grown_pre _ dbg0 dbg _ _ _ _ _ _ _ HR Hsz Hsch Hsm nd HG) as (HL & Hw & Hs & rows & Hrows & _).
  pose proof (grown_ok _ dbg0 dbg _ _ _ _ _ _ _ HR Hsz Hsch Hsm nd rows HG Hrows) as HF.
  destruct (best_split_weak O dbg cfg s nd sp (fun f b v => full_bin_le O cfg s sizes _ HL nd f b v HF) Esp) as [->|(v & Ha & _)]; [discriminate Ens|].
  exact (picked_sides O dbg0 dbg cfg d s sizes bounds sched gradients nd _ _ v fm HS HG Ha Em).
Qed.

Lemma train_few O dbg0 dbg (cfg : config O) d s sizes bounds sched gradients St leaf_value oob t (st st' : St) ms : setting dbg0 cfg d s sizes sched ->
  train dbg cfg s sizes bounds sched St leaf_value oob gradients st = Ok (t, st') ->
  NoDup ms -> (forall m, In m ms -> leaf_node t m) -> length ms <= 1 \/ length ms * N.to_nat (c_min_examples_leaf cfg) <= nactive_examples s.
Proof.
  intros HS E Hms Hlf. pose proof HS as (HR & Hsz & Hsch & Hsm). set (k := N.to_nat (c_min_examples_leaf cfg)). set (n := nactive_examples s).
  edestruct (train_greedy O dbg0 dbg cfg d s sizes bounds sched gradients St leaf_value oob HR Hsz Hsch Hsm t st st' (fun _ => True) (fun l f b fm => both_sides k fm l))
    as (rows & gs & st1 & Hrows & _ & _ & HG & Hl & Hnd & HP & Hne); [intros; exact I| |exact E|].
  { intros l f b fm (nd & sp & HG & Hm & Esp & Ens & -> & -> & Em). rewrite <- Hm. eapply picked_min; eassumption. }
  assert (length ms <= length gs) as Hlen. { rewrite <- (map_length g_leaf gs). apply NoDup_incl_length; [exact Hms|]. intros m Hm. apply Hl, Hlf, Hm. }
  destruct (greedy_shares O s t _ _ _ k (fun l f b fm H => H) _ _ _ HG) as (ps & P & F & S). fold n in HP, P.
  assert (length (concat (map g_examples gs)) = n) as Hc by (rewrite HP; apply seq_length).
  assert (forall p, In p ps -> exists v, In (fst p, snd p, v) gs) as Hin. { intros p Hp. rewrite Forall_forall in F. destruct (F p Hp) as (v & Hv & _). exists v. exact Hv. }
  destruct S as [->|S].
  - left. destruct (Hin _ (or_introl eq_refl)) as (v & Hv). apply in_split in Hv as (a & b & ->). rewrite map_app, concat_app, app_length in Hc. cbn [map concat] in Hc. rewrite app_length in Hc. change (g_examples (fst (0, seq 0 (nactive_examples s)), snd (0, seq 0 (nactive_examples s)), v)) with (seq 0 n) in Hc. rewrite seq_length in Hc.
    assert (forall c : list (nat * list nat * num O), (forall g, In g c -> g_examples g <> []) -> length (concat (map g_examples c)) = 0 -> c = []) as Hz.
    { intros [|g c] H0 H1; [reflexivity|]. exfalso. cbn [map concat] in H1. rewrite app_length in H1. apply (H0 g); [left; reflexivity|]. apply length_zero_iff_nil. lia. }
    match type of Hc with ?x + (?m + ?y) = ?m => assert (x = 0 /\ y = 0) as [Za Zb] by (clear - Hc; lia) end.
    assert (a = []) as -> by (apply Hz; [intros g Hg; apply Hne, in_or_app; left; exact Hg|exact Za]). assert (b = []) as -> by (apply Hz; [intros g Hg; apply Hne, in_or_app; right; right; exact Hg|exact Zb]). cbn [app length] in Hlen. exact Hlen.
  - right. assert (Forall (fun g => k <= length (g_examples g)) gs) as Hk; [|pose proof (concat_le _ gs g_examples k Hk); nia].
    assert (NoDup (concat (map g_examples gs))) as Hnd' by (eapply Permutation_NoDup; [symmetry; exact HP|apply seq_NoDup]).
    apply Forall_forall. intros g Hg. destruct (g_examples g) as [|x ex] eqn:Ex; [destruct (Hne g Hg Ex)|].
    assert (In x (concat (map snd ps))) as Hx. { eapply Permutation_in; [symmetry; exact P|]. eapply Permutation_in; [exact HP|]. apply in_concat. exists (g_examples g). split; [apply in_map, Hg|rewrite Ex; left; reflexivity]. }
    apply in_concat in Hx as (l & Hl' & Hx). apply in_map_iff in Hl' as (p & <- & Hp). destruct (Hin p Hp) as (v & Hv). rewrite Forall_forall in S. rewrite <- Ex.
    rewrite (concat_same _ gs g_examples g _ x Hnd' Hg Hv); [exact (S p Hp)|rewrite Ex; left; reflexivity|exact Hx].
Qed.

Section Few.
Variable O : numops.
Variable M : mathops O.
Variable dbg : bool.
Variable cfg : config O.
Variable d : data O.
Variable sched : nat -> nat -> list job -> list job.
Hypothesis HO : any_order sched.
Notation n := (scaled_count (O := O) (d_nexamples d) (c_example_fraction cfg)).
Hypothesis Hsmall : (N.of_nat n <= 2 ^ 31)%N.
Definition few (t : tree O) : Prop := forall ms, NoDup ms -> (forall m, In m ms -> leaf_node t m) -> length ms <= 1 \/ length ms * N.to_nat (c_min_examples_leaf cfg) <= n.

Lemma run_few kind metrics g k b : boost_run M dbg cfg d sched kind metrics g k = Ok b -> reachable dbg cfg d (bs_dataset b) /\ Forall few (at_trees (bs_ensemble b)).
Proof.
  unfold boost_run. intros E. apply rbind_ok in E as (b0 & E0 & E). apply rbind_ok in E as (sizes & Hsz & E). revert b E. induction k as [|k IH]; intros b E.
  - injection E as <-. unfold boost_start in E0. apply rbind_ok in E0 as (s & Es & E0). apply rbind_ok in E0 as (t & _ & E0). apply rbind_ok in E0 as (ob & _ & E0). injection E0 as <-.
    cbn [bs_dataset bs_ensemble additive_set_bias additive_new at_trees]. split; [|constructor]. exists g, [], s. split; [exact Es|reflexivity].
  - rewrite seq_S, foldM_app in E. apply rbind_ok in E as (b1 & E1 & E). cbn [foldM] in E. apply rbind_ok in E as (b2 & E & E2). injection E2 as <-. destruct (IH b1 E1) as (L1 & F1). unfold train_one_iter in E.
    apply rbind_ok in E as (target & Et & E). cbv zeta in E. apply rbind_ok in E as (ob & Eob & E). apply rbind_ok in E as (s & Es & E). apply rbind_ok in E as ([t ob'] & Etr & E). injection E as <-. cbn [bs_dataset bs_ensemble push_tree at_trees].
    assert (reachable dbg cfg d s) as HR.
    { destruct L1 as (g0 & us & s0 & E3 & E4). exists g0, (us ++ [(ob_grads ob, obj_bounds ob)]), s0. split; [exact E3|]. unfold ds_run in *. rewrite foldM_app, E4. cbn [rbind foldM fst snd]. rewrite Es. reflexivity. }
    split; [exact HR|]. apply Forall_app. split; [exact F1|]. constructor; [|constructor]. intros ms Hms Hlf.
    assert (nactive_examples s = n) as Hn by exact (dv_nact _ _ _ _ (ds_inv _ _ _ _ (reachable_ok _ _ _ _ _ HR))). rewrite <- Hn. eapply train_few; [|exact Etr|exact Hms|exact Hlf].
    split; [exact HR|]. split; [exact Hsz|]. split; [apply HO|]. rewrite Hn. exact Hsmall.
Qed.
End Few.

Section Half.
Variable O : numops.
Variable M : mathops O.
Variable dbg : bool.
Variable cfg : config O.
Variable d : data O.
Variable sched : nat -> nat -> list job -> list job.
Hypothesis HO : any_order sched.
Notation n := (scaled_count (O := O) (d_nexamples d) (c_example_fraction cfg)).
Hypothesis Hsmall : (N.of_nat n <= 2 ^ 31)%N.
Hypothesis Hhalf : (N.of_nat n < 2 * c_min_examples_leaf cfg)%N.

Lemma small_bare s sizes bounds sch gradients St leaf_value oob (st : St) t st' : reachable dbg cfg d s -> hist_sizes d = Ok sizes -> (forall k js, Permutation js (sch k js)) ->
  train dbg cfg s sizes bounds sch St leaf_value oob gradients st = Ok (t, st') -> bare O t.
Proof.
  intros HR Hsz Hsch E. assert (nactive_examples s = n) as Hn by exact (dv_nact _ _ _ _ (ds_inv _ _ _ _ (reachable_ok _ _ _ _ _ HR))).
  assert ((N.of_nat (nactive_examples s) <= 2 ^ 31)%N) as Hsm by (rewrite Hn; exact Hsmall).
  unfold train in E. apply rbind_ok in E as (t0 & E0 & E). apply rbind_ok in E as (root & Er & E). apply rbind_ok in E as ([t1 st1] & E1 & E). apply rbind_ok in E as (st2 & _ & E). injection E as <- _.
  pose proof (root_pre O dbg cfg d s sizes bounds sch gradients HR Hsz root Er) as (HL & Hw).
  destruct (root_ok O cfg s sizes bounds HL Hw Hsm sch gradients root Hsch Er) as (rows & Erows & _ & _ & _ & _ & _ & _ & _ & Hc & _).
  pose proof (grown_ok O dbg dbg cfg d s sizes bounds sch gradients HR Hsz Hsch Hsm root rows (grown_root _ _ _ _ _ _ _ _ Er) Erows) as HF.
  assert (bare O t0) as B0. { unfold tree_new in E0. apply rbind_ok in E0 as (u & _ & E0). injection E0 as <-. apply Forall_forall. intros c Hin. apply repeat_spec in Hin as ->. reflexivity. }
  destruct (2 ^ (c_max_tree_depth cfg + 1)) as [|fuel]; cbn [train_loop] in E1; [discriminate|].
  apply rbind_ok in E1 as ([[stack ta] sta] & Es & E1). unfold train_step in Es. apply rbind_ok in Es as (sp & Esp & Es).
  destruct (best_split_weak O dbg cfg s root sp (fun f b v => full_bin_le O cfg s sizes _ HL root f b v HF) Esp) as [->|(v & (_ & _ & Ha) & _)].
  2: { exfalso. rewrite Hc in Ha. lia. }
  cbn [is_no_split split_none sp_crit sc_type] in Es.
  apply rbind_ok in Es as ([t2 st3] & E2 & Es). injection Es as <- <- <-. cbn [fst snd] in E1.
  assert (t1 = t2) as ->. { destruct fuel; cbn [train_loop] in E1; injection E1 as <- _; reflexivity. }
  unfold predict_leaf_value in E2. apply rbind_ok in E2 as (ex & _ & E2). apply rbind_ok in E2 as ([w st4] & _ & E2). apply rbind_ok in E2 as (t3 & E3 & E2). injection E2 as <- _. unfold bare. rewrite (set_value_crits _ _ _ _ _ E3). exact B0.
Qed.

Lemma run_bare kind metrics g k b : boost_run M dbg cfg d sched kind metrics g k = Ok b -> reachable dbg cfg d (bs_dataset b) /\ Forall (bare O) (at_trees (bs_ensemble b)).
Proof.
  unfold boost_run. intros E. apply rbind_ok in E as (b0 & E0 & E). apply rbind_ok in E as (sizes & Hsz & E). revert b E. induction k as [|k IH]; intros b E.
  - injection E as <-. unfold boost_start in E0. apply rbind_ok in E0 as (s & Es & E0). apply rbind_ok in E0 as (t & _ & E0). apply rbind_ok in E0 as (ob & _ & E0). injection E0 as <-.
    cbn [bs_dataset bs_ensemble additive_set_bias additive_new at_trees]. split; [|constructor]. exists g, [], s. split; [exact Es|reflexivity].
  - rewrite seq_S, foldM_app in E. apply rbind_ok in E as (b1 & E1 & E). cbn [foldM] in E. apply rbind_ok in E as (b2 & E & E2). injection E2 as <-. destruct (IH b1 E1) as (L1 & F1). unfold train_one_iter in E.
    apply rbind_ok in E as (target & Et & E). cbv zeta in E. apply rbind_ok in E as (ob & Eob & E). apply rbind_ok in E as (s & Es & E). apply rbind_ok in E as ([t ob'] & Etr & E). injection E as <-. cbn [bs_dataset bs_ensemble push_tree at_trees].
    assert (reachable dbg cfg d s) as HR.
    { destruct L1 as (g0 & us & s0 & E3 & E4). exists g0, (us ++ [(ob_grads ob, obj_bounds ob)]), s0. split; [exact E3|]. unfold ds_run in *. rewrite foldM_app, E4. cbn [rbind foldM fst snd]. rewrite Es. reflexivity. }
    split; [exact HR|]. apply Forall_app. split; [exact F1|]. constructor; [|constructor]. exact (small_bare _ _ _ _ _ _ _ _ _ _ _ HR Hsz (HO _) Etr).
Qed.
End Half.

(** If the trees are grown from fewer than twice [min_examples_leaf] examples, no tree has a split; in any arithmetic, for all data and settings, every objective, random numbers and order of the jobs. *)
Theorem C78_no_splits : forall O (M : mathops O) dbg (cfg : config O) d sched kind metrics g k b, any_order sched ->
  let n := scaled_count (O := O) (d_nexamples d) (c_example_fraction cfg) in
  (N.of_nat n <= 2 ^ 31)%N -> (N.of_nat n < 2 * c_min_examples_leaf cfg)%N ->
  boost_run M dbg cfg d sched kind metrics g k = Ok b -> forall t c, In t (at_trees (bs_ensemble b)) -> In c (t_crits t) -> is_no_split c = true.
Proof.
  intros O M dbg cfg d sched kind metrics g k b HO n Hs Hh E t c Ht Hc. destruct (run_bare O M dbg cfg d sched HO Hs Hh kind metrics g k b E) as [_ H].
  rewrite Forall_forall in H. specialize (H t Ht). unfold bare in H. rewrite Forall_forall in H. exact (H c Hc).
Qed.
Print Assumptions C78_no_splits.

(** So the model predicts one number, the same for all rows of all tables. *)
Theorem C78_constant : forall O (M : mathops O) dbg (cfg : config O) d sched kind metrics g m, any_order sched ->
  let n := scaled_count (O := O) (d_nexamples d) (c_example_fraction cfg) in
  (N.of_nat n <= 2 ^ 31)%N -> (N.of_nat n < 2 * c_min_examples_leaf cfg)%N ->
  boost_train M dbg cfg d sched kind metrics g = Ok m ->
  exists v, forall D ps, additive_predict m D = Ok ps -> ps = repeat v (d_nexamples D).
Proof.
  intros O M dbg cfg d sched kind metrics g m HO n Hs Hh E. unfold boost_train in E. apply rbind_ok in E as (b & E & Em). apply Ok_inj in Em. subst m. eexists. intros D ps Ep. apply (bare_additive O (bs_ensemble b) D ps); [|exact Ep].
  exact (proj2 (run_bare O M dbg cfg d sched HO Hs Hh kind metrics g _ b E)).
Qed.
Print Assumptions C78_constant.

(** A tree has one leaf, or every leaf has its own [min_examples_leaf] examples to grow from: any list [ms] of different leaves is that short. *)
Theorem C78_leaves : forall O (M : mathops O) dbg (cfg : config O) d sched kind metrics g k b, any_order sched ->
  let n := scaled_count (O := O) (d_nexamples d) (c_example_fraction cfg) in (N.of_nat n <= 2 ^ 31)%N ->
  boost_run M dbg cfg d sched kind metrics g k = Ok b ->
  forall t ms, In t (at_trees (bs_ensemble b)) -> NoDup ms -> (forall m, In m ms -> leaf_node t m) -> length ms <= 1 \/ length ms * N.to_nat (c_min_examples_leaf cfg) <= n.
Proof.
  intros O M dbg cfg d sched kind metrics g k b HO n Hs E t ms Ht Hms Hlf. destruct (run_few O M dbg cfg d sched HO Hs kind metrics g k b E) as [_ H].
  rewrite Forall_forall in H. exact (H t Ht ms Hms Hlf).
Qed.
Print Assumptions C78_leaves.

Definition half_cfg (frac : f32) (min : N) : config f32ops :=
  @mk_config f32ops String.EmptyString String.EmptyString String.EmptyString [] 2%N true 44%N [0] 2 f_half (fz 0) min (fz 0) (fz 1) 4 4 2 f_half (fz 1) 1%N f_one frac 1.
(** Six examples: leaves of three can be made, leaves of four cannot; with half of the examples leaves of one can, leaves of two cannot. *)
Example C78_ex :
  map (fun p => splits_of (boost_train bst_math true (half_cfg (fst p) (snd p)) freq_d bst_sched L2 [ML2] wide_rng)) [(f_one, 1%N); (f_one, 3%N); (f_one, 4%N); (f_half, 1%N); (f_half, 2%N)] =
  [Some [[1; 0; 1]; [1; 0; 1]]; Some [[1]; [0]]; Some [[]; []]; Some [[1; 0]; [0; 1]]; Some [[]; []]].
Proof. vm_compute. reflexivity. Qed.
