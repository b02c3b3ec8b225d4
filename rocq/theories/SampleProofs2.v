From Coq Require Import Permutation Sorting.Sorted Factorial.
From Verif Require Import Base BaseProofs BitModel Num DataModel Config DatasetModel DatasetSpec DatasetProofs DatasetProofs3 DatasetProofs4 DatasetProofs5 SampleSpec SampleProofs.

(** Another generator in place of the data set's. *)
Definition set_rng {O} (i : inner O) (g : rng) : inner O :=
  mk_inner g (in_data i) (in_useful i) (in_nactive_features i) (in_nactive_examples i) (in_bitvecs i) (in_supercats i)
    (in_split_candidates i) (in_used_nbins i) (in_has_non_locard i).
Definition with_rng {O} (s : dataset O) (g : rng) : dataset O := mk_ds (set_rng (ds_inner s) g) (ds_index_buffer s) (ds_update_count s).

Section Update.
Variable O : numops.
Variable cfg : config O.
Variable d : data O.
Notation dsinv := (dsinv O cfg d).

Lemma update_feature_rng dbg lc ex grad bounds (s : inner O) u s' g : update_feature dbg cfg lc ex grad bounds s u = Ok s' ->
  update_feature dbg cfg lc ex grad bounds (set_rng s g) u = Ok (set_rng s' g).
Proof.
  unfold update_feature. cbn [set_rng in_useful in_data]. intros H. apply rbind_ok in H as (f & E & H). rewrite E. cbn [rbind]. apply rbind_ok in H as (ft & E1 & H). rewrite E1. cbn [rbind].
  destruct ft.
  - destruct lc; [|injection H as <-; reflexivity]. unfold update_locard_cat in *. change (set_bitvecs (set_rng s g)) with (set_bitvecs s). cbn [set_rng in_useful in_data in_used_nbins in_bitvecs] in *.
    repeat (apply rbind_ok in H as (? & E' & H); rewrite E'; clear E'; cbn [rbind]). injection H as <-. reflexivity.
  - unfold update_hicard_cat in *. change (set_bitvecs (set_rng s g)) with (set_bitvecs s). cbn [set_rng in_useful in_data in_used_nbins in_bitvecs in_nactive_examples in_supercats] in *.
    apply rbind_ok in H as (? & E' & H); rewrite E'; clear E'; cbn [rbind]. apply rbind_ok in H as (? & E' & H); rewrite E'; clear E'; cbn [rbind].
    apply rbind_ok in H as ((? & ?) & E' & H); rewrite E'; clear E'; cbn [rbind].
    repeat (apply rbind_ok in H as (? & E' & H); rewrite E'; clear E'; cbn [rbind]). injection H as <-. reflexivity.
  - unfold update_num in *. change (set_bitvecs (set_rng s g)) with (set_bitvecs s). cbn [set_rng in_useful in_data in_used_nbins in_bitvecs in_nactive_examples in_split_candidates] in *.
    apply rbind_ok in H as (? & E' & H); rewrite E'; clear E'; cbn [rbind]. apply rbind_ok in H as (? & E' & H); rewrite E'; clear E'; cbn [rbind].
    apply rbind_ok in H as ((? & ?) & E' & H); rewrite E'; clear E'; cbn [rbind].
    repeat (apply rbind_ok in H as (? & E' & H); rewrite E'; clear E'; cbn [rbind]). injection H as <-. reflexivity.
Qed.
Lemma update_features_rng dbg lc ex grad bounds us g : forall (s s' : inner O), foldM (update_feature dbg cfg lc ex grad bounds) us s = Ok s' ->
  foldM (update_feature dbg cfg lc ex grad bounds) us (set_rng s g) = Ok (set_rng s' g).
Proof.
  induction us as [|u us IH]; intros s s' H; cbn [foldM] in *; [injection H as <-; reflexivity|].
  apply rbind_ok in H as (s1 & E1 & H). rewrite (update_feature_rng _ _ _ _ _ _ _ _ g E1). cbn [rbind]. apply IH, H.
Qed.

(** What is left of the random numbers does not matter for the rest of the state. *)
Lemma update_rng dbg s nf kf n k eon df de g g' grad bounds s' :
  length (in_useful (ds_inner s)) = nf -> in_nactive_features (ds_inner s) = kf -> in_nactive_examples (ds_inner s) = k ->
  example_sampling_enabled s = eon -> (eon = true -> length (ds_index_buffer s) = n /\ k <= n) ->
  skip_update (c_sample_freq cfg) (ds_update_count s + 1) = false ->
  update_draws nf kf n k eon (df, de) ->
  dataset_update dbg cfg (with_rng s (stream df (stream de g))) grad bounds = Ok s' ->
  dataset_update dbg cfg (with_rng s (stream df (stream de g'))) grad bounds = Ok (with_rng s' g').
Proof.
  intros Hnf Hkf Hk Heon Hn Hskip [Hdf Hde] H. unfold dataset_update in *. cbn [with_rng ds_update_count ds_index_buffer ds_inner] in *. rewrite Hskip in *. cbn [fst snd] in *.
  apply rbind_ok in H as (i1 & E1 & H).
  assert (sample_features (initialize_supercats (set_rng (ds_inner s) (stream df (stream de g')))) = Ok (set_rng i1 (stream de g')) /\ in_rng i1 = stream de g /\ in_nactive_examples i1 = k) as (E1' & R1 & X1).
  { unfold sample_features, in_feature_sampling_enabled, initialize_supercats in *. cbn [set_rng in_useful in_nactive_features in_rng in_nactive_examples in_data] in *.
    rewrite Hnf, Hkf in *. destruct (Nat.ltb_spec kf nf) as [Hlt|Hge].
    - rewrite <- Hnf in Hdf. rewrite shuffle_stream in * by (try assumption; lia). cbn [rbind] in *. injection E1 as <-. auto.
    - subst df. injection E1 as <-. auto. }
  rewrite E1'. cbn [rbind]. unfold example_sampling_enabled in *. cbn [ds_index_buffer] in *. rewrite Heon in *.
  destruct eon.
  - destruct (Hn eq_refl) as [HL Hle]. apply rbind_ok in H as (s2 & E2 & H). apply rbind_ok in H as (ex & Eex & H). apply rbind_ok in H as (i3 & E3 & H). injection H as <-.
    unfold sample_examples, nactive_examples in *. cbn [ds_inner ds_index_buffer set_rng in_rng in_nactive_examples] in *. rewrite R1, X1 in E2. rewrite X1. rewrite <- HL in Hde.
    rewrite shuffle_stream in * by (try assumption; lia). cbn [rbind] in *. injection E2 as <-.
    unfold active_examples, nactive_examples, nactive_features in *. cbn [ds_inner ds_index_buffer in_nactive_examples in_nactive_features] in *.
    rewrite Eex. cbn [rbind]. pose proof (update_features_rng _ _ _ _ _ _ g' _ _ E3) as E3'.
    match type of E3' with ?l = _ => match goal with |- rbind ?r _ = _ => change r with l end end.
    rewrite E3'.
    cbn [rbind]. reflexivity.
  - subst de. cbn [stream] in *. cbn [set_rng in_has_non_locard in_data in_nactive_features]. destruct (in_has_non_locard i1).
    + apply rbind_ok in H as (i2 & E2 & H). injection H as <-. rewrite (update_features_rng _ _ _ _ _ _ g' _ _ E2). cbn [rbind]. reflexivity.
    + injection H as <-. reflexivity.
Qed.

Lemma useful_increasing m : forall a st useful bvs nl,
  (let '(u0, b0, n0) := st in increasing u0 /\ Forall (fun f => f < a) u0) ->
  foldM (useful_step d (scaled_count (d_nexamples d) (c_example_fraction cfg))) (seq a m) st = Ok (useful, bvs, nl) -> increasing useful.
Proof.
  induction m as [|m IH]; intros a [[u0 b0] n0] useful bvs nl [HI HF] H; cbn [seq foldM] in H.
  - injection H as <- _ _. exact HI.
  - apply rbind_ok in H as ([[u1 b1] n1] & E1 & H). apply (IH (S a) (u1, b1, n1) _ _ _) in H; [exact H|].
    unfold useful_step in E1. apply rbind_ok in E1 as (nb & _ & E1).
    assert (Forall (fun f => f < S a) u0) as HF' by (eapply Forall_impl; [|exact HF]; cbn; lia).
    destruct (nb =? 0); [injection E1 as <- <- <-; auto|].
    apply rbind_ok in E1 as (lim & _ & E1). destruct (neq O (fst lim) (snd lim)); [injection E1 as <- <- <-; auto|].
    apply rbind_ok in E1 as (ft & _ & E1). apply rbind_ok in E1 as (x & _ & E1). apply rbind_ok in E1 as (y & _ & E1). injection E1 as <- <- <-. split.
    + clear - HI HF. induction HI as [|x l HI IH Hx]; cbn; [repeat constructor|]. inversion HF; subst. constructor; [apply IH; assumption|].
      apply Forall_app. split; [exact Hx|]. repeat constructor. assumption.
    + apply Forall_app. split; [exact HF'|]. repeat constructor.
Qed.
Lemma new_increasing g s : dataset_new cfg d g = Ok s -> increasing (in_useful (ds_inner s)) /\ in_rng (ds_inner s) = g.
Proof.
  unfold dataset_new. intros H. apply rbind_ok in H as (i & Ei & H).
  assert (increasing (in_useful i) /\ in_rng i = g) as Hi.
  { unfold inner_new in Ei. apply rbind_ok in Ei as ([[u b] nl] & Eu & Ei). injection Ei as <-. cbn [in_useful in_rng]. split; [|reflexivity].
    eapply (useful_increasing _ 0); [|exact Eu]. split; constructor. }
  destruct (nlt O (c_example_fraction cfg) (nofZ O 1)).
  - injection H as <-. exact Hi.
  - apply rbind_ok in H as (i' & Ei' & H). injection H as <-. cbn [ds_inner].
    assert (in_useful i' = in_useful i /\ in_rng i' = in_rng i) as [-> ->]; [|exact Hi]. clear - Ei'. revert Ei'. generalize (in_useful i) at 1. intros l. revert i i'.
    induction l as [|f l IH]; intros i i' E; cbn [foldM] in E; [injection E as <-; auto|]. apply rbind_ok in E as (i1 & E1 & E). destruct (IH _ _ E) as [-> ->]. clear IH E.
    apply rbind_ok in E1 as (ft & _ & E1). destruct (is_locard ft); [|injection E1 as <-; auto]. unfold update_locard_cat in E1.
    repeat (apply rbind_ok in E1 as (? & _ & E1)). injection E1 as <-. auto.
Qed.
Lemma new_rng g g' s : dataset_new cfg d g = Ok s -> dataset_new cfg d g' = Ok (with_rng s g').
Proof.
  unfold dataset_new. intros H. apply rbind_ok in H as (i & Ei & H).
  assert (inner_new cfg d g' = Ok (set_rng i g')) as ->.
  { unfold inner_new in *. apply rbind_ok in Ei as ([[u b] nl] & Eu & Ei). rewrite Eu. cbn [rbind]. injection Ei as <-. reflexivity. }
  cbn [rbind]. destruct (nlt O (c_example_fraction cfg) (nofZ O 1)).
  - injection H as <-. reflexivity.
  - apply rbind_ok in H as (i' & Ei' & H). injection H as <-. cbn [set_rng in_useful].
    assert (forall l (i i' : inner O), foldM (fun s feat_id => let* ft := feat_type_of d feat_id in if is_locard ft then update_locard_cat s feat_id (seq 0 (d_nexamples d)) else Ok s) l i = Ok i' ->
      foldM (fun s feat_id => let* ft := feat_type_of d feat_id in if is_locard ft then update_locard_cat s feat_id (seq 0 (d_nexamples d)) else Ok s) l (set_rng i g') = Ok (set_rng i' g')) as L.
    { clear. induction l as [|f l IH]; intros i i' E; cbn [foldM] in *; [injection E as <-; reflexivity|]. apply rbind_ok in E as (i1 & E1 & E). apply rbind_ok in E1 as (ft & Eft & E1). rewrite Eft. cbn [rbind].
      destruct (is_locard ft); [|injection E1 as <-; cbn [rbind]; apply IH, E].
      assert (update_locard_cat (set_rng i g') f (seq 0 (d_nexamples d)) = Ok (set_rng i1 g')) as ->; [|cbn [rbind]; apply IH, E].
      unfold update_locard_cat in *. change (set_bitvecs (set_rng i g')) with (set_bitvecs i). cbn [set_rng in_useful in_data in_used_nbins in_bitvecs] in *.
      repeat (apply rbind_ok in E1 as (? & E' & E1); rewrite E'; clear E'; cbn [rbind]). injection E1 as <-. reflexivity. }
    pose proof (L _ _ _ Ei') as L'. cbn [rbind] in *. rewrite L'. reflexivity.
Qed.

Lemma subset_eq F u : increasing F -> increasing u -> incl F u -> length F = length u -> F = u.
Proof.
  intros HF Hu Hi HL. apply increasing_ext; [exact HF|exact Hu|]. intros x. split; [apply Hi|]. apply NoDup_length_incl; [apply increasing_nodup, HF|lia|exact Hi].
Qed.
Lemma part_count (on : bool) kk buf T : NoDup buf -> increasing T -> incl T buf -> length T = kk -> kk <= length buf -> (on = false -> increasing buf /\ kk = length buf) ->
  exactly (if on then fact kk else 1) (fun ds => (if on then offsets (length buf) kk ds else ds = []) /\ firstn kk (shuffled on kk ds buf) = T).
Proof.
  intros Hb HT Hi HL Hle Hon. destruct on.
  - eapply exactly_ext; [|apply (shuf_count kk buf T); auto using increasing_nodup]. intros ds. cbn [shuffled]. split.
    + intros [Hd Hp]. split; [exact Hd|]. rewrite firstn_sorted by assumption. apply sort_eq; assumption.
    + intros [Hd Hp]. split; [exact Hd|]. rewrite firstn_sorted in Hp by assumption. apply sort_eq in Hp; assumption.
  - destruct (Hon eq_refl) as [HI HE]. apply (exactly_one _ _ []). intros ds. split; [tauto|]. intros ->. split; [reflexivity|]. cbn [shuffled]. rewrite HE, firstn_all.
    symmetry. apply subset_eq; [assumption..|]. congruence.
Qed.

(* ---- histories ---- *)
Variable dbg : bool.
Variable all : list nat.
Hypothesis Hall : NoDup all.
Hypothesis Huse : forall f, In f all <-> useful_feature d f.
Let nf := length all.
Let kf := scaled_count nf (c_feature_fraction cfg).
Let n := d_nexamples d.
Let k := scaled_count n (c_example_fraction cfg).
Let eon := nlt O (c_example_fraction cfg) (nofZ O 1).
Hypothesis Hkf : kf <= nf.
Hypothesis Hk : 0 < k <= n.
Hypothesis Hoff : eon = false -> k = n.
Hypothesis Hfreq : c_sample_freq cfg = 1.

Definition ways : nat := (if kf <? nf then fact kf else 1) * (if eon then fact k else 1).
Record good (s : dataset O) : Prop := mk_good { g_inv : dsinv s; g_inc : nf <= kf -> increasing (in_useful (ds_inner s)) }.

Lemma useful_perm s : good s -> Permutation all (in_useful (ds_inner s)).
Proof.
  intros [H _]. apply NoDup_Permutation; [exact Hall|apply (dv_nodup _ _ _ _ (ds_inv _ _ _ _ H))|].
  intros f. rewrite Huse. symmetry. apply (dv_useful _ _ _ _ (ds_inv _ _ _ _ H)).
Qed.
Lemma good_numbers s : good s -> length (in_useful (ds_inner s)) = nf /\ in_nactive_features (ds_inner s) = kf /\ in_nactive_examples (ds_inner s) = k /\
  example_sampling_enabled s = eon /\ (eon = true -> length (ds_index_buffer s) = n /\ k <= n /\ Permutation (seq 0 n) (ds_index_buffer s)).
Proof.
  intros H. assert (length (in_useful (ds_inner s)) = nf) as HL by (symmetry; apply Permutation_length, useful_perm, H).
  pose proof (ds_inv _ _ _ _ (g_inv _ H)) as Hi. split; [exact HL|]. split; [rewrite (dv_nfeat _ _ _ _ Hi), HL; reflexivity|]. split; [apply (dv_nact _ _ _ _ Hi)|].
  pose proof (ds_buf _ _ _ _ (g_inv _ H)) as HB. fold eon n in HB. unfold example_sampling_enabled. destruct eon.
  - pose proof (Permutation_length HB) as HL'. rewrite seq_length in HL'. split; [destruct (Nat.eqb_spec (length (ds_index_buffer s)) 0); [lia|reflexivity]|].
    intros _. split; [lia|]. split; [lia|exact HB].
  - rewrite HB. split; [reflexivity|discriminate].
Qed.
Lemma good_rng s g : good s -> good (with_rng s g).
Proof.
  intros [H H']. constructor; [|exact H']. destruct H as [A B C D E F]. constructor; [apply dinv_rng, A|exact B|exact C|exact D| |].
  - intros ? ? ? u f Hu Hf. eapply feature_full_parts; [..|eapply E; eassumption]; reflexivity.
  - intros ? f Hf Hl. eapply feature_full_parts; [..|eapply F; eassumption]; reflexivity.
Qed.
Lemma never_skipped c : skip_update (c_sample_freq cfg) (c + 1) = false.
Proof. rewrite Hfreq. unfold skip_update. rewrite Nat.mod_1_r. cbn. rewrite andb_false_r. reflexivity. Qed.

Lemma good_update s dd g grad bounds s' : good s -> update_draws nf kf n k eon dd ->
  dataset_update dbg cfg (with_rng s (stream (fst dd) (stream (snd dd) g))) grad bounds = Ok s' ->
  good s' /\ sample s' = Ok (firstn kf (shuffled (kf <? nf) kf (fst dd) (in_useful (ds_inner s))), if eon then firstn k (shuffled eon k (snd dd) (ds_index_buffer s)) else seq 0 k).
Proof.
  intros H Hd E. destruct dd as [df de]. cbn [fst snd] in *. set (s0 := with_rng s (stream df (stream de g))) in *. assert (good s0) as H0 by apply good_rng, H.
  destruct (good_numbers _ H0) as (N1 & N2 & N3 & N4 & N5).
  destruct (update_effect O cfg dbg s0 nf kf n k eon df de g grad bounds s') as (R & U & B & F & X); try assumption; try reflexivity.
  { intros He. destruct (N5 He) as (? & ? & _). auto. }
  { apply never_skipped. }
  destruct (dataset_update_ok _ _ _ _ _ _ _ _ (g_inv _ H0) E) as [Hinv _].
  assert (good s') as H'.
  { constructor; [exact Hinv|]. intros Hle. rewrite U. replace (kf <? nf) with false by lia. apply (g_inc _ H0 Hle). }
  split; [exact H'|]. destruct (good_numbers _ H') as (M1 & M2 & M3 & M4 & M5).
  unfold sample, active_features, in_active_features. rewrite M2. unfold subslice at 1. rewrite M1. replace (0 <=? kf) with true by lia. replace (kf <=? nf) with true by lia. cbn [andb rbind].
  unfold sub. cbn [skipn]. rewrite Nat.sub_0_r, U. change (in_useful (ds_inner s0)) with (in_useful (ds_inner s)).
  unfold active_examples_list. rewrite M4. unfold active_examples, nactive_examples. rewrite M3. destruct eon.
  - destruct (M5 eq_refl) as (M6 & _). unfold subslice. rewrite M6. replace (0 <=? k) with true by lia. replace (k <=? n) with true by lia. cbn [andb rbind].
    unfold sub. cbn [skipn]. rewrite Nat.sub_0_r, B. change (ds_index_buffer s0) with (ds_index_buffer s). do 2 f_equal.
    generalize (firstn k (shuffled true k de (ds_index_buffer s))). intros l. generalize 0. induction l as [|x l IH]; intros a; cbn; [reflexivity|]. f_equal. apply IH.
  - cbn [rbind]. do 2 f_equal. rewrite map_map. cbn [snd]. apply map_id.
Qed.

Lemma one_count s T : good s -> selection d kf k T ->
  exactly ways (fun dd => update_draws nf kf n k eon dd /\
    (firstn kf (shuffled (kf <? nf) kf (fst dd) (in_useful (ds_inner s))), if eon then firstn k (shuffled eon k (snd dd) (ds_index_buffer s)) else seq 0 k) = T).
Proof.
  intros H (T1 & T2 & T3 & T4 & T5 & T6). destruct T as [F E]. cbn [fst snd] in *. destruct (good_numbers _ H) as (N1 & N2 & N3 & N4 & N5).
  pose proof (part_count (kf <? nf) kf (in_useful (ds_inner s)) F) as PF. rewrite N1 in PF.
  assert (exactly (if eon then fact k else 1) (fun de => (if eon then offsets n k de else de = []) /\ (if eon then firstn k (shuffled eon k de (ds_index_buffer s)) else seq 0 k) = E)) as PE.
  { destruct eon eqn:Eon.
    - destruct (N5 eq_refl) as (L & _ & P). pose proof (part_count true k (ds_index_buffer s) E) as PE. cbv iota in PE. rewrite L in PE. apply PE; auto; try lia; try discriminate.
      + eapply Permutation_NoDup; [exact P|apply seq_NoDup].
      + intros j Hj. eapply Permutation_in; [exact P|]. apply in_seq. specialize (T6 j Hj). fold n in T6. lia.
    - apply (exactly_one _ _ []). intros de. split; [tauto|]. intros ->. split; [reflexivity|]. symmetry. apply subset_eq; [exact T4| | |rewrite seq_length; exact T5].
      + clear. generalize 0. induction k as [|m IH]; intros a; cbn; constructor; [apply IH|]. apply Forall_forall. intros x Hx. apply in_seq in Hx. lia.
      + intros j Hj. apply in_seq. specialize (T6 j Hj). fold n in T6. specialize (Hoff eq_refl). lia. }
  eapply exactly_ext; [|apply exactly_and; [apply PF|exact PE]].
  - intros [df de]. unfold update_draws. cbn [fst snd]. rewrite pair_equal_spec. tauto.
  - eapply Permutation_NoDup; [apply useful_perm, H|exact Hall].
  - exact T1.
  - intros f Hf. eapply Permutation_in; [apply useful_perm, H|]. apply Huse, T3, Hf.
  - exact T2.
  - exact Hkf.
  - intros Hlt. apply Nat.ltb_ge in Hlt. split; [apply (g_inc _ H Hlt)|lia].
Qed.

Lemma history_count us rest : forall s Ts, good s -> length Ts = length us -> Forall (selection d kf k) Ts ->
  (forall g, exists r, ds_run dbg cfg us (with_rng s g) = Ok r) ->
  exactly (ways ^ length us) (fun dss => length dss = length us /\ Forall (update_draws nf kf n k eon) dss /\ samples dbg cfg us (with_rng s (stream_all dss rest)) = Ok Ts).
Proof.
  induction us as [|u us IH]; intros s Ts H HL HT Hrun.
  - destruct Ts; [|discriminate]. apply (exactly_one _ _ []). intros dss. split.
    + intros [E _]. destruct dss; [reflexivity|discriminate].
    + intros ->. split; [reflexivity|]. split; [constructor|reflexivity].
  - destruct Ts as [|T Ts]; [discriminate|]. inversion HT as [|? ? HT1 HT2]; subst. cbn [length] in HL. injection HL as HL.
    destruct (one_count s T H HT1) as (Os & O1 & O2 & O3). cbn [length Nat.pow]. rewrite <- O3 at 1.
    assert (forall dd g, update_draws nf kf n k eon dd -> exists s', dataset_update dbg cfg (with_rng s (stream (fst dd) (stream (snd dd) g))) (fst u) (snd u) = Ok s') as Hstep.
    { intros dd g Hd. destruct (Hrun (stream (fst dd) (stream (snd dd) g))) as [r Er]. unfold ds_run in Er. cbn [foldM] in Er. apply rbind_ok in Er as (s' & E & _). eauto. }
    apply (exactly_pairs (list nat * list nat) (list (list nat * list nat)) _ cons Os).
    + intros a b a' b' E. injection E as -> ->. auto.
    + exact O1.
    + intros dd Hdd. apply O2 in Hdd as [Hd Hs]. destruct (Hstep dd rest Hd) as [s1 E1].
      assert (forall g, dataset_update dbg cfg (with_rng s (stream (fst dd) (stream (snd dd) g))) (fst u) (snd u) = Ok (with_rng s1 g)) as E1'.
      { intros g. destruct (good_numbers _ H) as (N1 & N2 & N3 & N4 & N5). destruct dd as [df de]. apply (update_rng dbg s nf kf n k eon df de rest g); try assumption.
        - intros He. destruct (N5 He) as (? & ? & _). auto.
        - apply never_skipped. }
      destruct (good_update s dd rest (fst u) (snd u) s1 H Hd E1) as [H1 _].
      eapply exactly_ext; [|apply (IH s1 Ts H1 HL HT2)].
      * intros dss. cbn [length stream_all samples]. rewrite E1'. cbn [rbind].
        destruct (good_update s dd (stream_all dss rest) (fst u) (snd u) _ H Hd (E1' _)) as [_ Hsm]. rewrite Hsm, Hs. cbn [rbind]. split.
        -- intros (A & B & C). split; [lia|]. split; [constructor; assumption|]. rewrite C. reflexivity.
        -- intros (A & B & C). split; [lia|]. split; [inversion B; assumption|]. apply rbind_ok in C as (r & C & C'). injection C' as ->. exact C.
      * intros g. destruct (Hrun (stream (fst dd) (stream (snd dd) g))) as [r Er]. unfold ds_run in Er. cbn [foldM] in Er. rewrite E1' in Er. cbn [rbind] in Er. eauto.
    + intros dss (A & B & C). destruct dss as [|dd dss]; [discriminate|]. exists dd, dss. split; [reflexivity|]. apply O2. inversion B as [|? ? B1 B2]; subst.
      split; [exact B1|]. cbn [stream_all samples] in C. apply rbind_ok in C as (s1 & E1 & C). destruct (good_update s dd _ _ _ s1 H B1 E1) as [_ Hsm]. rewrite Hsm in C. cbn [rbind] in C.
      apply rbind_ok in C as (r & _ & C). injection C as C _. exact C.
Qed.
Lemma draws_count m : exactly (((if kf <? nf then falling nf kf else 1) * (if eon then falling n k else 1)) ^ m) (fun dss => length dss = m /\ Forall (update_draws nf kf n k eon) dss).
Proof.
  assert (exactly ((if kf <? nf then falling nf kf else 1) * (if eon then falling n k else 1)) (update_draws nf kf n k eon)) as (Os & O1 & O2 & O3).
  { apply (exactly_and (list nat) (list nat) _ _ (fun df => if kf <? nf then offsets nf kf df else df = []) (fun de => if eon then offsets n k de else de = [])).
    - destruct (kf <? nf); [apply offsets_count; lia|]. apply (exactly_one _ _ []). tauto.
    - destruct eon; [apply offsets_count; lia|]. apply (exactly_one _ _ []). tauto. }
  induction m as [|m IH].
  - apply (exactly_one _ _ []). intros dss. split; [intros [E _]; destruct dss; [reflexivity|discriminate]|intros ->; split; [reflexivity|constructor]].
  - cbn [Nat.pow]. rewrite <- O3 at 1. apply (exactly_pairs (list nat * list nat) (list (list nat * list nat)) _ cons Os).
    + intros a b a' b' E. injection E as -> ->. auto.
    + exact O1.
    + intros dd Hdd. apply O2 in Hdd. eapply exactly_ext; [|exact IH]. intros dss. cbn [length]. split.
      * intros [A B]. split; [lia|constructor; assumption].
      * intros [A B]. split; [lia|inversion B; assumption].
    + intros dss [A B]. destruct dss as [|dd dss]; [discriminate|]. exists dd, dss. split; [reflexivity|]. apply O2. inversion B; assumption.
Qed.
Lemma new_good g s : dataset_new cfg d g = Ok s -> good s.
Proof. intros E. destruct (dataset_new_ok _ _ _ _ _ E) as [H _]. constructor; [exact H|]. intros _. apply (new_increasing _ _ E). Qed.
End Update.
