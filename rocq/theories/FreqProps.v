(** C75: with [sample_freq = 0] most of the learning is off.  C76: what training cannot do without. *)
From Coq Require Import Permutation.
From Verif Require Import Base BaseProofs BitModel Num F32 F32Proofs DataModel Config TreeModel DatasetModel DatasetSpec LearnerModel LearnerSpec ObjectiveModel MetricModel BoostModel BoostSpec BoostProps TreeProps ColProps WideProps DatasetProps
  SafeSpec SafeProofs SafeProofs2 SafeProofs3 SafeProps LearnerProps FreqSpec FreqProofs FreqProofs2.
Local Open Scope nat_scope.

(** With [sample_freq = 0] no tree, in no iteration, splits on a numerical or high-cardinality feature; and no tree splits at all if the examples are sampled.  In any arithmetic, for all data and settings, every objective and order of the jobs. *)
Theorem C75_never_updated : forall O (M : mathops O) dbg (cfg : config O) d sched kind metrics g k b, c_sample_freq cfg = 0 -> boost_run M dbg cfg d sched kind metrics g k = Ok b ->
  forall t c, In t (at_trees (bs_ensemble b)) -> In c (t_crits t) -> is_no_split c = false ->
  feat_type_of d (sc_feature c) = Ok LoCardCat /\ nlt O (c_example_fraction cfg) (nofZ O 1) = false.
Proof.
  intros O M dbg cfg d sched kind metrics g k b Hf E t c Ht Hc Hs. pose proof (run_locard O M dbg cfg d sched kind metrics g k b Hf E) as H.
  rewrite Forall_forall in H. specialize (H t Ht). rewrite Forall_forall in H. destruct (H c Hc) as [X|X]; [congruence|exact X].
Qed.
Print Assumptions C75_never_updated.

(** So a model trained with [sample_freq = 0] and a fraction of the examples below one predicts one number, the same for all rows of all tables. *)
Theorem C75_constant : forall O (M : mathops O) dbg (cfg : config O) d sched kind metrics g m, c_sample_freq cfg = 0 -> nlt O (c_example_fraction cfg) (nofZ O 1) = true ->
  boost_train M dbg cfg d sched kind metrics g = Ok m ->
  exists v, forall D ps, additive_predict m D = Ok ps -> ps = repeat v (d_nexamples D).
Proof.
  intros O M dbg cfg d sched kind metrics g m Hf Hs E. unfold boost_train in E. apply rbind_ok in E as (b & E & Em). apply Ok_inj in Em. subst m. eexists. intros D ps Ep. apply (bare_additive O (bs_ensemble b) D ps); [|exact Ep].
  apply Forall_forall. intros t Ht. apply Forall_forall. intros c Hc. destruct (is_no_split c) eqn:Ec; [reflexivity|]. destruct (C75_never_updated O M dbg cfg d sched kind metrics g _ b Hf E t c Ht Hc Ec) as [_ X]. congruence.
Qed.
Print Assumptions C75_constant.

Definition freq_cfg (frac : f32) (freq : nat) : config f32ops :=
  @mk_config f32ops String.EmptyString String.EmptyString String.EmptyString [] 2%N true 44%N [0] 2 f_half (fz 0) 1%N (fz 0) (fz 1) 4 4 2 f_half (fz 1) 1%N f_one frac freq.
Definition col_n : list f32 := [fz 0; fz 1; fz 2; fz 9; fz 8; fz 7].
Definition freq_d : data f32ops := @mk_data f32ops 4 2 6 [col_b; col_n; col_t] [(fz 0, fz 2); (fz 0, fz 9); (fz 1, fz 13)] [LoCardCat; Numerical; Numerical] [3; 0; 0].
Definition splits_of (r : res (additive_tree f32ops)) : option (list (list nat)) :=
  match r with Ok m => Some (map (fun t => map sc_feature (filter (fun c => negb (is_no_split c)) (t_crits t))) (at_trees m)) | _ => None end.
(** The same table and settings with [sample_freq] one and zero: the numerical feature 1 is not split on any more; with half of the examples there are no splits left. *)
Example C75_ex :
  map (fun p => splits_of (boost_train bst_math true (freq_cfg (fst p) (snd p)) freq_d bst_sched L2 [ML2] wide_rng)) [(f_one, 1); (f_one, 0); (f_half, 1); (f_half, 0)] =
  [Some [[1; 0; 1]; [1; 0; 1]]; Some [[0; 0]; [0; 0]]; Some [[1; 0]; [0; 1]]; Some [[]; []]].
Proof. vm_compute. reflexivity. Qed.

(** A training of at least one iteration that succeeds has a configuration and a table that fit together (see [needed]). *)
Theorem C76_needs : forall O (M : mathops O) dbg (cfg : config O) d sched kind metrics g m, 0 < c_niterations cfg -> boost_train M dbg cfg d sched kind metrics g = Ok m -> needed cfg d.
Proof.
  intros O M dbg cfg d sched kind metrics g m Hn E. unfold boost_train in E. apply rbind_ok in E as (b & E & _). destruct (c_niterations cfg) as [|k]; [lia|]. exact (train_needs O M dbg cfg d sched kind metrics g k b E).
Qed.
Print Assumptions C76_needs.

(** If they do not fit together training does not report an error: it panics. *)
Theorem C76_panics : forall O (M : mathops O) dbg (cfg : config O) d sched kind metrics g, 0 < c_niterations cfg -> any_order sched ->
  (forall target, get_target d = Ok target -> (N.of_nat (length target) <= 2 ^ 31)%N) -> ~ needed cfg d -> boost_train M dbg cfg d sched kind metrics g = Panic.
Proof.
  intros O M dbg cfg d sched kind metrics g Hn HS Ht Hno. destruct (C50_train O M dbg cfg d sched kind metrics g HS Ht) as [H1 H2].
  destruct (boost_train M dbg cfg d sched kind metrics g) as [m| | |] eqn:E; [|reflexivity|congruence|congruence]. exfalso. exact (Hno (C76_needs O M dbg cfg d sched kind metrics g m Hn E)).
Qed.
Print Assumptions C76_panics.

Lemma one_useful f : useful_feature freq_d f <-> In f [0; 1].
Proof.
  split.
  - intros (Hf & _). cbn [freq_d d_nfeatures] in Hf. cbn. lia.
  - intros [<-|[<-|[]]]; (split; [cbn [freq_d d_nfeatures]; lia|]; split; [eexists; split; [reflexivity|cbn; lia]|]; do 2 eexists; split; [reflexivity|]; vm_compute; reflexivity).
Qed.
(** The table and the settings above fit together. *)
Example C76_needs_ex : needed (freq_cfg f_half 1) freq_d.
Proof.
  split; [cbn; tauto|]. split; [cbn; lia|]. split; [|split].
  - exists col_t. split; [reflexivity|]. cbv zeta. assert (scaled_count (O := f32ops) (d_nexamples freq_d) (c_example_fraction (freq_cfg f_half 1)) = 3) as -> by (vm_compute; reflexivity).
    split; [lia|]. split; [cbn; lia|]. match goal with |- if ?b then _ else _ => destruct b end; change (3 <= 6); lia.
  - exists [0; 1]. split; [repeat constructor; cbn; lia|]. split; [intros f; symmetry; apply one_useful|]. assert (scaled_count (O := f32ops) (length [0; 1]) (c_feature_fraction (freq_cfg f_half 1)) = 2) as -> by (vm_compute; reflexivity). cbn. lia.
  - exists 1, 4. split; [cbn [freq_d d_nfeatures]; lia|]. split; [reflexivity|lia].
Qed.

Definition is_panic {A} (m : res A) : bool := match m with Panic => true | _ => false end.
(** Each of these does not fit, and panics: twice as many examples as there are; a fraction that rounds to no example; twice as many features as there are; gradients of three bits; trees without levels; a table whose only column has one category.
    The first four settings differ from the ones above in one number. *)
Definition odd_cfg (ff frac : f32) (bits depth : nat) : config f32ops :=
  @mk_config f32ops String.EmptyString String.EmptyString String.EmptyString [] 2%N true 44%N [0] 2 f_half (fz 0) 1%N (fz 0) (fz 1) 4 bits depth f_half (fz 1) 1%N ff frac 1.
Definition one_code : data f32ops := @mk_data f32ops 4 1 6 [[fz 0; fz 0; fz 0; fz 0; fz 0; fz 0]; col_t] [(fz 0, fz 0); (fz 1, fz 13)] [LoCardCat; Numerical] [1; 0].
Example C76_panics_ex :
  map (fun p => let '(ff, frac, bits, depth, d) := p in is_panic (boost_train bst_math true (odd_cfg ff frac bits depth) d bst_sched L2 [ML2] wide_rng))
    [(f_one, fz 2, 4, 2, freq_d); (f_one, f_div f_one (fz 100), 4, 2, freq_d); (fz 2, f_one, 4, 2, freq_d); (f_one, f_one, 3, 2, freq_d); (f_one, f_one, 4, 0, freq_d); (f_one, f_one, 4, 2, one_code); (f_one, f_one, 4, 2, freq_d)] =
  [true; true; true; true; true; true; false].
Proof. vm_compute. reflexivity. Qed.
Example C76_panics_hyp : ~ needed (odd_cfg f_one f_one 4 2) one_code /\ any_order bst_sched /\ forall target, get_target one_code = Ok target -> (N.of_nat (length target) <= 2 ^ 31)%N.
Proof.
  split; [|split; [intros i k js; apply rev_sched_perm|]].
  - intros (_ & _ & _ & _ & f & nb & Hf & Hnb & Hp). destruct f as [|f]; [|cbn [one_code d_nfeatures] in Hf; lia]. apply Ok_inj in Hnb. cbn in Hnb. lia.
  - intros target E. apply Ok_inj in E. subst target. cbn. lia.
Qed.
