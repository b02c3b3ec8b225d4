(** Properties C27, C28, C29, C47, C23 (trained splits), C41, C46: sampling and the binned representation of the data.
    [reachable dbg cfg d s] (DatasetSpec.v): [s] is the data set after [Dataset::new] and any number of [update]s, with any
    random numbers, gradients and gradient bounds, in a debug or release build.  Stated for any arithmetic unless f32 is
    mentioned. *)
From Coq Require Import Permutation Sorting.Sorted.
From Verif Require Import Base BaseProofs BitModel BitSpec Num F32 F32Proofs DataModel DataSpec BinnerModel Config
  DatasetModel DatasetSpec QuantSpec DatasetProofs DatasetProofs2 DatasetProofs3 DatasetProofs4 DatasetProofs5 DatasetProofs6.

(* ---- C27 ---- *)

(** Drawing [k] of the items of a buffer: whatever the random numbers, the buffer is permuted and its first [k] items are
    the sample, in increasing order. *)
Theorem C27_draw : forall g k buf, NoDup buf -> k <= length buf ->
  exists buf' g', shuffle_first_k g k buf = Ok (buf', g') /\ Permutation buf buf' /\ increasing (firstn k buf') /\ length (firstn k buf') = k.
Proof.
  intros g k buf HN Hk. destruct (shuffle_ok g k buf Hk) as (b & g' & E & HP & HS). exists b, g'. split; [exact E|]. split; [exact HP|].
  pose proof (Permutation_length HP) as HL. split; [|rewrite firstn_length; lia].
  apply sorted_nodup_increasing; [exact HS|]. pose proof (Permutation_NoDup HP HN) as HN'. rewrite <- (firstn_skipn k b) in HN'.
  clear -HN'. induction (firstn k b) as [|x t IH]; [constructor|]. cbn in HN'. inversion HN'; subst. constructor; [rewrite in_app_iff in *; tauto|auto].
Qed.
Print Assumptions C27_draw.

(** More items than there are: a panic, not a sample with repetitions. *)
Theorem C27_draw_too_many : forall g k buf, length buf < k -> shuffle_first_k g k buf = Panic.
Proof. exact shuffle_panics. Qed.
Print Assumptions C27_draw_too_many.

(** No sample is excluded: each increasing selection is drawn for some random numbers (whatever numbers follow). *)
Theorem C27_draw_every_sample : forall tgt buf, NoDup buf -> increasing tgt -> incl tgt buf ->
  forall rest, exists g buf', shuffle_first_k g (length tgt) buf = Ok (buf', rest) /\ firstn (length tgt) buf' = tgt.
Proof. exact shuffle_surj. Qed.
Print Assumptions C27_draw_every_sample.

Example C27_draw_ex : NoDup [4; 7; 9; 1] /\
  match shuffle_first_k (fun k => nth k [3; 5] 0) 2 [4; 7; 9; 1] with Ok (b, _) => b = [1; 4; 9; 7] | _ => False end.
Proof. split; [repeat constructor; cbn; intuition lia|vm_compute; reflexivity]. Qed.

Lemma nodup_firstn {A} k (l : list A) : NoDup l -> NoDup (firstn k l).
Proof.
  rewrite <- (firstn_skipn k l) at 1. induction (firstn k l) as [|x t IH]; [constructor|]. cbn. intros H. inversion H; subst.
  constructor; [rewrite in_app_iff in *; tauto|auto].
Qed.
Lemma seq_increasing n : forall a, increasing (seq a n).
Proof.
  induction n as [|n IH]; intros a; [constructor|]. cbn [seq]. constructor; [exact (IH (S a))|]. apply Forall_forall. intros x Hx. apply in_seq in Hx. lia.
Qed.
Lemma increasing_firstn k l : increasing l -> increasing (firstn k l).
Proof.
  intros H. revert k. induction H as [|x t Ht IH Hx]; intros [|k]; try constructor; cbn [firstn].
  - exact (IH k).
  - apply Forall_firstn, Hx.
Qed.

(** In every reachable state of a sampled data set, the active examples are different rows of the data, in increasing order,
    and their number is the configured one. *)
Theorem C27_active_examples : forall O dbg (cfg : config O) d s a, reachable dbg cfg d s -> active_examples s = Ok a ->
  increasing a /\ Forall (fun j => j < d_nexamples d) a /\ length a = nactive_examples s /\
  nactive_examples s = scaled_count (d_nexamples d) (c_example_fraction cfg).
Proof.
  intros O dbg cfg d s a HR Ha. pose proof (reachable_ok _ _ _ _ _ HR) as H. unfold active_examples in Ha. apply subslice_first in Ha as [Hle ->].
  unfold nactive_examples in *. pose proof (dv_nact _ _ _ _ (ds_inv _ _ _ _ H)) as Hn. rewrite Hn in *.
  assert (ds_index_buffer s = [] \/ Permutation (seq 0 (d_nexamples d)) (ds_index_buffer s)) as HB.
  { pose proof (ds_buf _ _ _ _ H) as HB. destruct (nlt O (c_example_fraction cfg) (nofZ O 1)); auto. }
  split; [|split; [|split; [apply firstn_length_le, Hle|reflexivity]]].
  - assert (NoDup (ds_index_buffer s)) as HN. { destruct HB as [->|HB]; [constructor|]. eapply Permutation_NoDup; [exact HB|apply seq_NoDup]. }
    destruct (Nat.eq_dec (ds_update_count s) 0) as [Hc|Hc]; [|destruct (Nat.eq_dec (c_sample_freq cfg) 0) as [Hf|Hf]].
    + destruct (ds_fresh _ _ _ _ H (or_introl Hc)) as [[->| ->] _]; [rewrite firstn_nil; constructor|]. apply increasing_firstn, seq_increasing.
    + destruct (ds_fresh _ _ _ _ H (or_intror Hf)) as [[->| ->] _]; [rewrite firstn_nil; constructor|]. apply increasing_firstn, seq_increasing.
    + apply sorted_nodup_increasing; [apply (ds_sorted _ _ _ _ H); lia|]. apply nodup_firstn, HN.
  - apply Forall_firstn. destruct HB as [->|HB]; [constructor|]. eapply Permutation_Forall; [exact HB|]. apply Forall_forall. intros j Hj. apply in_seq in Hj. lia.
Qed.
Print Assumptions C27_active_examples.

(** The active features are different useful features, in the configured number. *)
Theorem C27_active_features : forall O dbg (cfg : config O) d s fs, reachable dbg cfg d s -> active_features s = Ok fs ->
  NoDup fs /\ Forall (useful_feature d) fs /\ length fs = nactive_features s /\
  exists all, NoDup all /\ (forall f, In f all <-> useful_feature d f) /\ nactive_features s = scaled_count (length all) (c_feature_fraction cfg).
Proof.
  intros O dbg cfg d s fs HR Ha. pose proof (ds_inv _ _ _ _ (reachable_ok _ _ _ _ _ HR)) as H. unfold active_features, in_active_features in Ha.
  apply subslice_first in Ha as [Hle ->]. split; [apply nodup_firstn, (dv_nodup _ _ _ _ H)|]. split; [|split].
  - apply Forall_firstn, Forall_forall. apply (dv_useful _ _ _ _ H).
  - apply firstn_length_le, Hle.
  - exists (in_useful (ds_inner s)). split; [apply (dv_nodup _ _ _ _ H)|]. split; [apply (dv_useful _ _ _ _ H)|]. apply (dv_nfeat _ _ _ _ H).
Qed.
Print Assumptions C27_active_features.

(** Every example of a sampled data set is active or inactive, and never both. *)
Theorem C28_inactive : forall O dbg (cfg : config O) d s a, reachable dbg cfg d s -> example_sampling_enabled s = true -> active_examples s = Ok a ->
  exists l, inactive_examples s = Ok l /\ increasing l /\ forall j, In j l <-> j < d_nexamples d /\ ~ In j a.
Proof.
  intros O dbg cfg d s a HR He Ha. destruct (C27_active_examples _ _ _ _ _ _ HR Ha) as (Hi & Hf & _ & _).
  unfold inactive_examples. rewrite He, Ha. cbn [rassert rbind]. rewrite (dv_data _ _ _ _ (ds_inv _ _ _ _ (reachable_ok _ _ _ _ _ HR))).
  rewrite inactive_drain_ok; [|exact Hi|intros; lia|lia]. eexists. split; [reflexivity|]. rewrite Nat.sub_0_r. split.
  - generalize (seq_increasing (d_nexamples d) 0). generalize (seq 0 (d_nexamples d)). intros l Hl. induction Hl as [|x t Ht IH Hx]; [constructor|]. cbn [filter].
    destruct (negb _); [|exact IH]. constructor; [exact IH|]. rewrite Forall_forall in *. intros y Hy. apply filter_In in Hy as [Hy _]. auto.
  - intros j. rewrite filter_In, in_seq, negb_true_iff, <- not_true_iff_false, existsb_exists. split.
    + intros [Hj Hn]. split; [lia|]. intros Hin. apply Hn. exists j. rewrite Nat.eqb_refl. auto.
    + intros [Hj Hn]. split; [lia|]. intros (y & Hy & E). apply Nat.eqb_eq in E. subst. contradiction.
Qed.
Print Assumptions C28_inactive.

(** Asking for the inactive examples of a data set that is not sampled panics. *)
Theorem C28_unsampled : forall O (s : dataset O), example_sampling_enabled s = false -> inactive_examples s = Panic.
Proof. intros O s H. unfold inactive_examples. rewrite H. reflexivity. Qed.
Print Assumptions C28_unsampled.

(* ---- C29 ---- *)

Lemma supercats_len O dbg (cfg : config O) d s : reachable dbg cfg d s -> 0 < ds_update_count s -> length (in_supercats (ds_inner s)) = d_nfeatures d.
Proof.
  intros (g & us & s0 & E0 & E). destruct (dataset_new_ok _ _ _ g s0 E0) as [H0 C0]. clear E0. revert s0 H0 C0 E. unfold ds_run.
  induction us as [|u t IH] using rev_ind; intros s0 H0 C0 E Hc; [cbn in E; injection E as <-; lia|].
  rewrite foldM_app in E. apply rbind_ok in E as (s1 & E1 & E). cbn [foldM] in E. apply rbind_ok in E as (s2 & E2 & E). injection E as <-.
  assert (dsinv O cfg d s1) as H1. { clear -E1 H0. revert s0 H0 E1. induction t as [|v r IHt]; intros s0 H0 E1; cbn [foldM] in E1; [injection E1 as <-; exact H0|].
    apply rbind_ok in E1 as (x & Ex & E1). apply (IHt x); [|exact E1]. eapply dataset_update_ok; eassumption. }
  pose proof (ds_inv _ _ _ _ H1) as I1. destruct (init_supercats_ok _ _ _ _ I1) as (I0 & _ & _ & _ & _ & _ & _ & _ & _ & L0 & _).
  unfold dataset_update in E2. cbv zeta in E2. destruct (skip_update _ _); [injection E2 as <-; exact L0|].
  apply rbind_ok in E2 as (i1 & Ei & E2). destruct (sample_features_ok _ _ _ _ _ I0 Ei) as (I2 & _ & _ & _ & _ & _ & _ & _ & S2).
  assert (length (in_supercats i1) = d_nfeatures d) as L1 by congruence.
  assert (forall i, dinv O cfg d i -> length (in_supercats i) = d_nfeatures d -> forall lc ex us i', foldM (update_feature dbg cfg lc ex (fst u) (snd u)) us i = Ok i' -> length (in_supercats i') = d_nfeatures d) as Hf.
  { intros i Hi HL lc ex us i' Ef. destruct us as [|w r]; [injection Ef as <-; exact HL|]. destruct (in_supercats i) as [|x y] eqn:Es.
    - cbn [foldM] in Ef. apply rbind_ok in Ef as (z & Ez & _). unfold update_feature in Ez. apply rbind_ok in Ez as (f & Efx & _). apply idx_ok in Efx.
      pose proof (useful_lt _ _ _ _ _ Hi (nth_error_In _ _ Efx)). cbn in HL. lia.
    - apply (update_features_inv O cfg d) in Ef as [_ (_ & _ & _ & _ & _ & _ & EL)]; [rewrite EL, Es; exact HL|exact Hi|congruence]. }
  destruct (example_sampling_enabled _).
  - apply rbind_ok in E2 as (s3 & E3 & E2). apply rbind_ok in E2 as (ex & _ & E2). apply rbind_ok in E2 as (i3 & E4 & E2). injection E2 as <-. cbn [ds_inner].
    unfold sample_examples in E3. apply rbind_ok in E3 as ((b & g0) & _ & E3). injection E3 as <-. eapply Hf; [| |exact E4]; cbn [ds_inner].
    + apply dinv_rng, I2.
    + exact L1.
  - destruct (in_has_non_locard i1).
    + apply rbind_ok in E2 as (i3 & E4 & E2). injection E2 as <-. cbn [ds_inner]. eapply Hf; eassumption.
    + injection E2 as <-. exact L1.
Qed.

(** An update that is not due leaves the data set as it is (the first update, which is only skipped if [sample_freq] is 0, still
    makes room for the super-category tables). *)
Theorem C29_not_due : forall O dbg (cfg : config O) d s grad bounds s', reachable dbg cfg d s -> dataset_update dbg cfg s grad bounds = Ok s' ->
  ~ resamples (c_sample_freq cfg) (S (ds_update_count s)) ->
  ds_update_count s' = S (ds_update_count s) /\ (0 < ds_update_count s -> ds_inner s' = ds_inner s) /\
  ds_index_buffer s' = ds_index_buffer s /\ in_rng (ds_inner s') = in_rng (ds_inner s) /\
  active_examples s' = active_examples s /\ active_features s' = active_features s /\
  (forall f, get_nbins s' f = get_nbins s f) /\ (forall f b, ds_get_bitvec s' f b = ds_get_bitvec s f b) /\ (forall f b, get_split_value s' f b = get_split_value s f b).
Proof.
  intros O dbg cfg d s grad bounds s' HR H Hn. pose proof (ds_inv _ _ _ _ (reachable_ok _ _ _ _ _ HR)) as Hinv. unfold dataset_update in H. rewrite Nat.add_1_r in H. cbv zeta in H.
  destruct (skip_update (c_sample_freq cfg) (S (ds_update_count s))) eqn:E; [|exfalso; apply Hn, skip_update_spec; [lia|exact E]].
  injection H as <-. split; [reflexivity|]. split; [|repeat split].
  intros Hc. destruct (init_supercats_ok _ _ _ _ Hinv) as (_ & _ & _ & _ & _ & _ & _ & _ & _ & _ & Hid & _). cbn [ds_inner]. apply Hid. eapply supercats_len; eassumption.
Qed.
Print Assumptions C29_not_due.

(** An update that is due draws a new feature sample from the previous arrangement (if not all features are used) and, with the
    random numbers left over, a new example sample (if examples are sampled); C27_draw describes such a sample. *)
Theorem C29_due : forall O dbg (cfg : config O) d s grad bounds s', reachable dbg cfg d s -> dataset_update dbg cfg s grad bounds = Ok s' ->
  resamples (c_sample_freq cfg) (S (ds_update_count s)) ->
  ds_update_count s' = S (ds_update_count s) /\ exists g1,
  (if nactive_features s <? length (in_useful (ds_inner s))
   then shuffle_first_k (in_rng (ds_inner s)) (nactive_features s) (in_useful (ds_inner s)) = Ok (in_useful (ds_inner s'), g1)
   else in_useful (ds_inner s') = in_useful (ds_inner s) /\ g1 = in_rng (ds_inner s)) /\
  (if example_sampling_enabled s
   then exists g2, shuffle_first_k g1 (nactive_examples s) (ds_index_buffer s) = Ok (ds_index_buffer s', g2) /\ in_rng (ds_inner s') = g2
   else ds_index_buffer s' = ds_index_buffer s /\ in_rng (ds_inner s') = g1).
Proof.
  intros O dbg cfg d s grad bounds s' HR H Hn. pose proof (ds_inv _ _ _ _ (reachable_ok _ _ _ _ _ HR)) as Hinv. unfold dataset_update in H. rewrite Nat.add_1_r in H. cbv zeta in H.
  apply skip_update_spec in Hn; [|lia]. rewrite Hn in H. destruct (init_supercats_ok _ _ _ _ Hinv) as (I0 & R0 & _ & U0 & N0 & _ & _ & _ & _ & L0 & _).
  apply rbind_ok in H as (i1 & E1 & H). destruct (sample_features_ok _ _ _ _ _ I0 E1) as (I1 & P1 & _ & N1 & _ & _ & _ & _ & S1).
  assert (length (in_supercats i1) = d_nfeatures d) as L1 by congruence.
  assert (if nactive_features s <? length (in_useful (ds_inner s))
    then shuffle_first_k (in_rng (ds_inner s)) (nactive_features s) (in_useful (ds_inner s)) = Ok (in_useful i1, in_rng i1)
    else in_useful i1 = in_useful (ds_inner s) /\ in_rng i1 = in_rng (ds_inner s)) as Hfeat.
  { unfold sample_features, in_feature_sampling_enabled in E1. rewrite U0, N0, R0 in E1. unfold nactive_features. destruct (_ <? _).
    - apply rbind_ok in E1 as ((u & g) & Es & E1). injection E1 as <-. exact Es.
    - injection E1 as <-. auto. }
  assert (forall i, dinv O cfg d i -> length (in_supercats i) = d_nfeatures d -> forall lc ex us i', foldM (update_feature dbg cfg lc ex grad bounds) us i = Ok i' -> same_static O i i') as Hst.
  { intros i Hi HL lc ex us i' Ef. destruct us as [|w r]; [injection Ef as <-; apply same_static_refl|]. destruct (in_supercats i) as [|x y] eqn:Es.
    - cbn [foldM] in Ef. apply rbind_ok in Ef as (z & Ez & _). unfold update_feature in Ez. apply rbind_ok in Ez as (f & Efx & _). apply idx_ok in Efx.
      pose proof (useful_lt _ _ _ _ _ Hi (nth_error_In _ _ Efx)). cbn in HL. lia.
    - apply (update_features_inv O cfg d) in Ef as [_ EL]; [exact EL|exact Hi|congruence]. }
  change (example_sampling_enabled (mk_ds i1 (ds_index_buffer s) (S (ds_update_count s)))) with (example_sampling_enabled s) in H.
  destruct (example_sampling_enabled s).
  - apply rbind_ok in H as (s3 & E3 & H). apply rbind_ok in H as (ex & _ & H). apply rbind_ok in H as (i3 & E4 & H). injection H as <-. split; [reflexivity|].
    unfold sample_examples in E3. apply rbind_ok in E3 as ((b & g0) & Es & E3). injection E3 as <-. cbn [ds_inner ds_index_buffer] in *.
    apply Hst in E4 as (T1 & _ & T3 & _); [|apply dinv_rng, I1|exact L1]. cbn [in_rng in_useful] in T1, T3. exists (in_rng i1). rewrite T3. split.
    + destruct (_ <? _); [exact Hfeat|]. exact Hfeat.
    + exists g0. split; [|exact T1]. unfold nactive_examples in Es. cbn [ds_inner] in Es. rewrite (dv_nact _ _ _ _ I1) in Es.
      unfold nactive_examples. rewrite (dv_nact _ _ _ _ Hinv). exact Es.
  - destruct (in_has_non_locard i1).
    + apply rbind_ok in H as (i3 & E4 & H). injection H as <-. split; [reflexivity|]. apply Hst in E4 as (T1 & _ & T3 & _); [|exact I1|exact L1].
      cbn [ds_inner ds_index_buffer]. exists (in_rng i1). rewrite T3. split; [|auto]. destruct (_ <? _); exact Hfeat.
    + injection H as <-. split; [reflexivity|]. cbn [ds_inner ds_index_buffer]. exists (in_rng i1). split; [|auto]. destruct (_ <? _); exact Hfeat.
Qed.
Print Assumptions C29_due.

(** [sample_freq] 0 never samples; otherwise the first update is due, and then those whose number is a multiple. *)
Theorem C29_schedule : forall freq count, (resamples 0 count -> False) /\ (0 < freq -> resamples freq 1) /\
  (0 < freq -> 1 < count -> (resamples freq count <-> count mod freq = 0)).
Proof.
  intros freq count. unfold resamples. split; [intros [? _]; lia|]. split; [intros H; split; [exact H|left; reflexivity]|]. intros Hf Hc. split.
  - intros [_ [?|[k ->]]]; [lia|]. apply Nat.mod_mul. lia.
  - intros Hm. split; [exact Hf|]. right. exists (count / freq). rewrite Nat.mul_comm. apply Nat.div_exact; lia.
Qed.
Print Assumptions C29_schedule.

(** The number of active examples in f32: at most the number of examples when the fraction is in [0,1] (2^24 examples at
    most), all of them for the fraction 1. *)
Theorem C27_sample_size : forall n (fr : f32), (Z.of_nat n <= 2 ^ 24)%Z -> f_is_finite fr = true -> f_le f_zero fr = true -> f_le fr f_one = true ->
  scaled_count (O := f32ops) n fr <= n /\ scaled_count (O := f32ops) n f_one = n.
Proof.
  intros n fr Hn Ff H0 H1. split; [|apply scaled_all, Hn]. apply scaled_bounds; [exact Hn| |exact Ff].
  destruct (f_of_Z_exact 1) as (F1 & B1); [lia|]. destruct (f_le_nan_l _ _ H0) as [_ Nf]. apply f_le_key in H0; [|reflexivity|exact Nf].
  apply f_le_key in H1; [|exact Nf|reflexivity]. rewrite key_finite in H0 by reflexivity. rewrite key_finite in H1 by exact Ff.
  rewrite (key_finite fr Ff) in H0. rewrite (key_finite f_one F1) in H1. unfold f_one in H1. rewrite B1 in H1. cbn in H0. split; assumption.
Qed.
Print Assumptions C27_sample_size.

(** Above 2^24 examples the count is computed in f32 and is wrong even when all examples are asked for: with 16777219 examples and the
    fraction 1, the data set believes to have 16777220 active examples. *)
Theorem C27_sample_size_large_refuted : Z.of_nat (scaled_count (O := f32ops) (Z.to_nat 16777219) f_one) = 16777220%Z.
Proof.
  unfold scaled_count, nofnat. rewrite (Z2Nat.id 16777219) by discriminate.
  rewrite Z2Nat.id; vm_compute; [reflexivity|discriminate].
Qed.
Print Assumptions C27_sample_size_large_refuted.

(* ---- a run ---- *)
From Coq Require String.
(** Four examples; a feature with 3 categories, a numerical one, one with 5 categories (more than the 3 bins), a binary and a constant one. *)
Definition fz (z : Z) : num f32ops := f_of_Z z.
Definition ex_data : data f32ops :=
  @mk_data f32ops 3 5 4
    [[fz 0; fz 1; fz 2; fz 1]; [fz 1; fz 5; fz 2; fz 8]; [fz 0; fz 4; fz 2; fz 3]; [fz 0; fz 1; fz 1; fz 0]; [fz 0; fz 0; fz 0; fz 0]; [fz 0; fz 1; fz 2; fz 3]]
    [(fz 0, fz 2); (fz 1, fz 8); (fz 0, fz 4); (fz 0, fz 1); (fz 0, fz 0); (fz 0, fz 3)]
    [LoCardCat; Numerical; HiCardCat; LoCardCat; LoCardCat; Numerical] [3; 0; 5; 2; 1; 0].
Definition ex_cfg (example_fraction : num f32ops) : config f32ops :=
  @mk_config f32ops String.EmptyString String.EmptyString String.EmptyString [] 1%N true 44%N [0; 2; 3; 4] 1 (fz 1) (fz 0) 1%N (fz 0) (fz 1) 3 4 2 (fz 1) (fz 1) 1%N (fz 1) example_fraction 2.
Definition f_half : num f32ops := f_div (f_of_Z 1) (f_of_Z 2).
Definition ex_grad : list (num f32ops) := [fz 1; fz (-1); fz 2; fz (-2)].
Definition ex_updates (k : nat) : list (list (num f32ops) * (num f32ops * num f32ops)) := repeat (ex_grad, (fz (-2), fz 2)) k.
Definition ex_rng : rng := fun k => nth k [2; 2] 0.
Definition bits_of (r : res blocks) : list bool := match r with Ok x => map (bbit x) (seq 0 5) | _ => [] end.
Lemma reach_ex dbg fr k (P : dataset f32ops -> Prop) :
  match (let* s0 := dataset_new (ex_cfg fr) ex_data ex_rng in ds_run dbg (ex_cfg fr) (ex_updates k) s0) with Ok s => P s | _ => False end ->
  exists s, reachable dbg (ex_cfg fr) ex_data s /\ P s.
Proof.
  destruct (dataset_new (ex_cfg fr) ex_data ex_rng) as [s0| | |] eqn:E0; cbn [rbind]; try intros [].
  destruct (ds_run dbg (ex_cfg fr) (ex_updates k) s0) as [s| | |] eqn:E1; try intros []. intros H. exists s. split; [|exact H]. exists ex_rng, (ex_updates k), s0. auto.
Qed.
Example C27_ex : exists s, reachable true (ex_cfg f_half) ex_data s /\
  (example_sampling_enabled s = true /\ active_examples s = Ok [2; 3] /\ inactive_examples s = Ok [0; 1] /\ active_features s = Ok [0; 1; 2; 3]).
Proof. apply (reach_ex true f_half 1). vm_compute. repeat split. Qed.

(** The examples in the order of their positions in the masks: the active ones, or all. *)
Definition mask_examples {O} (d : data O) (s : dataset O) : res (list nat) :=
  if example_sampling_enabled s then active_examples s else Ok (seq 0 (d_nexamples d)).

Lemma active_feature_full O dbg (cfg : config O) d s fs f ex : reachable dbg cfg d s -> 0 < d_nexamples d -> 0 < c_sample_freq cfg -> 0 < ds_update_count s ->
  active_features s = Ok fs -> In f fs -> mask_examples d s = Ok ex -> feature_full O d (ds_inner s) ex f /\ In f (in_useful (ds_inner s)).
Proof.
  intros HR Hn Hf Hc Ha Hin Hex. pose proof (reachable_ok _ _ _ _ _ HR) as H. unfold active_features, in_active_features in Ha. apply subslice_first in Ha as [Hle ->].
  apply In_nth_error in Hin as [u Eu]. rewrite nth_error_firstn in Eu. destruct (Nat.ltb_spec u (in_nactive_features (ds_inner s))) as [Hu|]; [|discriminate].
  pose proof (ds_active_ok _ _ _ _ H Hn Hf Hc u f Hu Eu) as Hok. split; [|eapply nth_error_In, Eu].
  replace ex with (ds_examples O cfg d s); [exact Hok|]. unfold mask_examples in Hex. unfold ds_examples. destruct (example_sampling_enabled s); [|congruence].
  unfold active_examples in Hex. apply subslice_first in Hex as [_ ->]. unfold nactive_examples. rewrite (dv_nact _ _ _ _ (ds_inv _ _ _ _ H)). reflexivity.
Qed.

(* ---- C47 ---- *)

(** After an update, every active feature has at least one bin; a bit of a bin's mask says whether the example at that position
    belongs to the bin ([in_bin], DatasetSpec.v), and there are no other bits. *)
Theorem C47_masks : forall O dbg (cfg : config O) d s fs f ex, reachable dbg cfg d s -> 0 < d_nexamples d -> 0 < c_sample_freq cfg -> 0 < ds_update_count s ->
  active_features s = Ok fs -> In f fs -> mask_examples d s = Ok ex ->
  exists nb, get_nbins s f = Ok nb /\ 0 < nb /\
    (feat_type_of d f = Ok LoCardCat -> max_nbins d f = Ok nb) /\
    (feat_type_of d f <> Ok LoCardCat -> nb <= c_max_nbins cfg) /\
    forall b, b < nb -> exists x, ds_get_bitvec s f b = Ok x /\
      forall i, match nth_error ex i with Some j => in_bin s f b j (bbit x i) | None => bbit x i = false end.
Proof.
  intros O dbg cfg d s fs f ex HR Hn Hf Hc Ha Hin Hex. destruct (active_feature_full _ _ _ _ _ _ _ _ HR Hn Hf Hc Ha Hin Hex) as [(Hok & (nb & Enb & Hnb) & _) Hu].
  pose proof (ds_inv _ _ _ _ (reachable_ok _ _ _ _ _ HR)) as Hi.
  exists nb. split; [apply idx_ok, Enb|]. split; [exact Hnb|]. split; [|split].
  - intros Hl. destruct (dv_lowused _ _ _ _ Hi f nb Hu Hl Enb); [lia|assumption].
  - intros Hl. apply (dv_hicard _ _ _ _ Hi f nb Hu Hl Enb).
  - intros b Hb. destruct (Hok nb b Enb Hb) as (bvs & x & E1 & E2 & E3). exists x. split; [|exact E3].
    unfold ds_get_bitvec. rewrite (proj2 (idx_ok _ _ _ _) E1). cbn [rbind]. apply idx_ok, E2.
Qed.
Print Assumptions C47_masks.

Example C47_ex : exists s, reachable true (ex_cfg f_half) ex_data s /\
  (0 < ds_update_count s /\ active_features s = Ok [0; 1; 2; 3] /\ mask_examples ex_data s = Ok [2; 3] /\
   bits_of (ds_get_bitvec s 0 1) = [false; true; false; false; false] /\ bits_of (ds_get_bitvec s 0 2) = [true; false; false; false; false] /\
   get_nbins s 1 = Ok 2 /\ bits_of (ds_get_bitvec s 1 0) = [true; false; false; false; false]).
Proof. apply (reach_ex true f_half 1). vm_compute. repeat split; lia. Qed.

(* ---- C23 ---- *)

(** The splits the trained trees use for a hi-cardinality feature satisfy the hypotheses of C23_hicard (TreeProps): the table of the
    feature exists and the split value is a super-category number below its length.  ([d_max_nbins d < card] is what makes the
    loader call a feature hi-cardinality, C35.) *)
Theorem C23_trained : forall dbg (cfg : config f32ops) d s fs f nb b v card, reachable dbg cfg d s -> 0 < d_nexamples d -> 0 < c_sample_freq cfg -> 0 < ds_update_count s ->
  (exists ex, mask_examples d s = Ok ex) -> active_features s = Ok fs -> In f fs -> feat_type_of d f = Ok HiCardCat -> feat_card d f = Ok card ->
  d_max_nbins d < card -> (Z.of_nat (d_max_nbins d) <= 2 ^ 24)%Z ->
  get_nbins s f = Ok nb -> b < nb -> get_split_value s f b = Ok v ->
  exists table, nth_error (get_supercats s) f = Some table /\ length table = card /\ into_cat v = b /\ b < length table.
Proof.
  intros dbg cfg d s fs f nb b v card HR Hn Hf Hc [ex Hex] Ha Hin Hty Hcard Hm Hz Hnb Hb Hv.
  destruct (active_feature_full _ _ _ _ _ _ _ _ HR Hn Hf Hc Ha Hin Hex) as [(_ & _ & Ht & _) Hu]. destruct (Ht Hty) as (table & Et & Ec).
  pose proof (ds_inv _ _ _ _ (reachable_ok _ _ _ _ _ HR)) as Hi. apply idx_ok in Hnb.
  rewrite Hcard in Ec. injection Ec as ->. exists table. split; [exact Et|]. split; [reflexivity|].
  pose proof (useful_lt _ _ _ _ _ Hi Hu) as Hlt.
  destruct (nth_error (in_bitvecs (ds_inner s)) f) as [bvs|] eqn:Eb; [|apply nth_error_None in Eb; rewrite (dv_lbv _ _ _ _ Hi) in Eb; lia].
  pose proof (dv_used _ _ _ _ Hi f nb bvs Hu Hnb Eb) as Hle. destruct (dv_bvs _ _ _ _ Hi f bvs Hu Eb) as [_ Hmx]. unfold max_nbins in Hmx. rewrite Hty in Hmx. injection Hmx as Hmx.
  unfold get_split_value in Hv. rewrite (dv_data _ _ _ _ Hi), Hty in Hv. assert (v = nofnat f32ops b) as -> by (cbn [rbind] in Hv; congruence). unfold blocks in *.
  assert (b < d_max_nbins d) as Hbm by lia. rewrite into_cat_of_nat by lia. lia.
Qed.
Print Assumptions C23_trained.
Example C23_ex : exists s, reachable true (ex_cfg f_half) ex_data s /\
  (0 < ds_update_count s /\ mask_examples ex_data s = Ok [2; 3] /\ active_features s = Ok [0; 1; 2; 3] /\ get_nbins s 2 = Ok 2 /\
   nth_error (get_supercats s) 2 = Some [1; 1; 1; 0; 1]).
Proof. apply (reach_ex true f_half 1). vm_compute. repeat split; lia. Qed.

(* ---- C46 ---- *)

(** A binary feature (categories 0 and 1) has one bin, and that bin offers the partitions of both categories: the examples of
    category 0, and as its complement the examples of category 1. *)
Theorem C46_binary : forall O dbg (cfg : config O) d s fs f ex col, reachable dbg cfg d s -> 0 < d_nexamples d -> 0 < c_sample_freq cfg -> 0 < ds_update_count s ->
  active_features s = Ok fs -> In f fs -> mask_examples d s = Ok ex ->
  feat_type_of d f = Ok LoCardCat -> feat_card d f = Ok 2 -> get_feature d f = Ok col -> (forall v, In v col -> into_cat v < 2) ->
  get_nbins s f = Ok 1 /\ exists x, ds_get_bitvec s f 0 = Ok x /\
    forall i j, nth_error ex i = Some j -> exists v, nth_error col j = Some v /\ bbit x i = (into_cat v =? 0) /\ negb (bbit x i) = (into_cat v =? 1).
Proof.
  intros O dbg cfg d s fs f ex col HR Hn Hf Hc Ha Hin Hex Hty Hcard Hcol Hval.
  destruct (C47_masks _ _ _ _ _ _ _ _ HR Hn Hf Hc Ha Hin Hex) as (nb & Enb & Hnb & Hlo & _ & Hm). specialize (Hlo Hty). unfold max_nbins in Hlo. rewrite Hty, Hcard in Hlo.
  cbn in Hlo. injection Hlo as <-. split; [exact Enb|]. destruct (Hm 0) as (x & Ex & Hx); [lia|]. exists x. split; [exact Ex|]. intros i j Ej. specialize (Hx i). rewrite Ej in Hx.
  destruct Hx as (col' & v & ft & E1 & E2 & E3 & E4). rewrite (dv_data _ _ _ _ (ds_inv _ _ _ _ (reachable_ok _ _ _ _ _ HR))) in *.
  rewrite Hcol in E1. injection E1 as <-. rewrite Hty in E3. injection E3 as <-. exists v. split; [exact E2|]. split; [exact E4|]. rewrite E4.
  pose proof (Hval v (nth_error_In _ _ E2)). destruct (into_cat v) as [|[|n]]; [reflexivity|reflexivity|lia].
Qed.
Print Assumptions C46_binary.
(** A constant feature (only category 0) is never active: it has no bins, and its only partition would put all examples on one side. *)
Theorem C46_constant : forall O dbg (cfg : config O) d s fs f, reachable dbg cfg d s -> active_features s = Ok fs ->
  feat_type_of d f = Ok LoCardCat -> feat_card d f = Ok 1 -> ~ In f fs.
Proof.
  intros O dbg cfg d s fs f HR Ha Hty Hcard Hin. destruct (C27_active_features _ _ _ _ _ _ HR Ha) as (_ & Hu & _). rewrite Forall_forall in Hu.
  destruct (Hu f Hin) as (_ & (nb & Enb & Hnb) & _). unfold max_nbins in Enb. rewrite Hty, Hcard in Enb. cbn in Enb. injection Enb as <-. lia.
Qed.
Print Assumptions C46_constant.
Example C46_ex : exists s, reachable true (ex_cfg f_half) ex_data s /\
  (0 < ds_update_count s /\ mask_examples ex_data s = Ok [2; 3] /\ active_features s = Ok [0; 1; 2; 3] /\ get_nbins s 3 = Ok 1 /\
   bits_of (ds_get_bitvec s 3 0) = [false; true; false; false; false] /\ feat_card ex_data 3 = Ok 2 /\ feat_card ex_data 4 = Ok 1).
Proof. apply (reach_ex true f_half 1). vm_compute. repeat split; lia. Qed.

(* ---- C41 ---- *)

Lemma hicard_stats_gen O (feat grad : list (num O)) : forall examples i stats stats',
  (forall k j, nth_error examples k = Some j -> j = i + k) -> length grad < 2 ^ 32 -> i + length examples <= length grad ->
  (forall c e, nth_error stats c = Some e -> snd e = N.of_nat (length (own_gradients feat grad (seq 0 i) c))) ->
  (forall c, length (own_gradients feat grad (seq 0 i) c) <= i) ->
  hicard_stats feat grad examples i stats = Ok stats' ->
  length stats' = length stats /\ forall c e, nth_error stats c = Some e -> nth_error stats' c =
    Some (fold_left (nadd O) (own_gradients feat grad examples c) (fst e), (snd e + N.of_nat (length (own_gradients feat grad examples c)))%N).
Proof.
  induction examples as [|j t IH]; intros i stats stats' Hpos HL Hi Hcnt Hle H; cbn [hicard_stats] in H.
  - injection H as <-. split; [reflexivity|]. intros c e E. cbn. rewrite N.add_0_r. rewrite E. destruct e; reflexivity.
  - assert (j = i) as -> by (rewrite (Hpos 0 j eq_refl); lia).
    apply rbind_ok in H as (c0 & Ec & H). apply rbind_ok in H as (e0 & Ee & H). apply rbind_ok in H as (g & Eg & H). apply rbind_ok in H as (st1 & Est & H).
    unfold cat_at in Ec. apply rbind_ok in Ec as (v & Ev & Ec). injection Ec as <-. apply idx_ok in Ev, Ee, Eg. apply set_idx_ok in Est as [Hlt ->].
    assert (forall c, own_gradients feat grad (seq 0 (S i)) c = own_gradients feat grad (seq 0 i) c ++ (if into_cat v =? c then [g] else [])) as Hs.
    { intros c. unfold own_gradients. rewrite seq_S, flat_map_app. cbn [flat_map plus]. rewrite Ev, Eg, app_nil_r. reflexivity. }
    cbn [length] in Hi.
    assert (u32_inc 1 (snd e0) = (snd e0 + 1)%N) as Hinc.
    { unfold u32_inc. rewrite N.mod_small; [reflexivity|]. rewrite (Hcnt _ _ Ee). specialize (Hle (into_cat v)).
      assert (N.of_nat i < N.of_nat (2 ^ 32))%N as Hb by lia. rewrite Nat2N.inj_pow in Hb. change (N.of_nat 2 ^ N.of_nat 32)%N with (2 ^ 32)%N in Hb. lia. }
    rewrite Hinc in H. apply IH in H as [L' H'].
    + rewrite upd_length in L'. split; [exact L'|]. intros c e E. cbn [own_gradients flat_map]. rewrite Ev, Eg. destruct (Nat.eqb_spec (into_cat v) c) as [<-|Hne].
      * rewrite (H' (into_cat v) (nadd O (fst e0) g, (snd e0 + 1)%N)) by (apply upd_same, Hlt). rewrite Ee in E. injection E as <-. cbn [app fold_left fst snd length].
        f_equal. f_equal. unfold own_gradients. lia.
      * rewrite (H' c e) by (rewrite upd_other by congruence; exact E). reflexivity.
    + intros k j Ej. rewrite (Hpos (S k) j Ej). lia.
    + exact HL.
    + lia.
    + intros c e E. rewrite Hs, app_length, Nat2N.inj_add. destruct (Nat.eqb_spec (into_cat v) c) as [<-|Hne].
      * rewrite upd_same in E by exact Hlt. injection E as <-. cbn [snd length]. rewrite (Hcnt _ _ Ee). reflexivity.
      * rewrite upd_other in E by congruence. rewrite (Hcnt _ _ E). cbn. lia.
    + intros c. rewrite Hs, app_length. specialize (Hle c). destruct (_ =? c); cbn [length]; lia.
Qed.

(** Without sampling (the examples are all rows, in order) the statistics are right. *)
Theorem C41_unsampled : forall O (feat grad : list (num O)) n card stats, n <= length grad -> length grad < 2 ^ 32 ->
  hicard_stats feat grad (seq 0 n) 0 (repeat (nofZ O 0, 0%N) card) = Ok stats ->
  length stats = card /\ forall c, c < card -> nth_error stats c = Some (category_stats (own_gradients feat grad (seq 0 n) c)).
Proof.
  intros O feat grad n card stats Hn HL H. apply hicard_stats_gen in H as [A B].
  - rewrite repeat_length in A. split; [exact A|]. intros c Hc. rewrite (B c (nofZ O 0, 0%N)) by (apply nth_repeat_some, Hc). reflexivity.
  - intros k j E. rewrite nth_error_seq in E. destruct (k <? n); [|discriminate]. injection E as <-. reflexivity.
  - exact HL.
  - rewrite seq_length. lia.
  - intros c e E. destruct (Nat.lt_ge_cases c card) as [Hc|Hc].
    + rewrite nth_repeat_some in E by exact Hc. injection E as <-. reflexivity.
    + assert (nth_error (repeat (nofZ O 0, 0%N) card) c = None) as E' by (apply nth_error_None; rewrite repeat_length; exact Hc). congruence.
  - intros c. cbn. lia.
Qed.
Print Assumptions C41_unsampled.

(** With sampling they are not: the gradient is looked up with the example's position in the sample instead of its row.  In the run
    above, rows 2 and 3 are active; they have the categories 2 and 3 and the gradients 2 and -2, but are given 1 and -1, the gradients of the
    inactive rows 0 and 1. *)
Theorem C41_sampled_refuted : exists s, reachable true (ex_cfg f_half) ex_data s /\
  (active_examples s = Ok [2; 3] /\
   match get_feature ex_data 2 with
   | Ok feat =>
     match hicard_stats feat ex_grad [2; 3] 0 (repeat (fz 0, 0%N) 5) with
     | Ok stats =>
       match nth_error stats 2, own_gradients feat ex_grad [2; 3] 2 with
       | Some (g, n), [own] => n = 1%N /\ f_eq g (fz 1) = true /\ f_eq own (fz 2) = true
       | _, _ => False
       end
     | _ => False
     end
   | _ => False
   end).
Proof. apply (reach_ex true f_half 1). vm_compute. repeat split. Qed.
Print Assumptions C41_sampled_refuted.
