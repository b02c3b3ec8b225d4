From Coq Require Import Permutation Sorting.Sorted.
From Verif Require Import Base BaseProofs BitModel BitSpec BitProofs BitProofs2 SimdModel SliceProofs2 Num DataModel BinnerModel BinnerProofs Config
  DatasetModel DatasetSpec DatasetProofs DatasetProofs2 DatasetProofs3 DatasetProofs4.

Section Inv3.
Variable O : numops.
Variable cfg : config O.
Variable d : data O.
Notation dinv := (dinv O cfg d). Notation nact := (nact O cfg d). Notation locard := (locard O d). Notation feature_full := (feature_full O d).
Notation same_feature := (same_feature O). Notation same_static := (same_static O). Notation dsinv := (dsinv O cfg d). Notation ds_examples := (ds_examples O cfg d).

Lemma nth_repeat_some A (x : A) n i : i < n -> nth_error (repeat x n) i = Some x.
Proof. intros H. rewrite nth_error_repeat by exact H. reflexivity. Qed.

Lemma inner_new_ok g s : inner_new cfg d g = Ok s -> dinv s /\ in_supercats s = [] /\ (forall f, f < d_nfeatures d -> nth_error (in_used_nbins s) f = Some 0).
Proof.
  unfold inner_new. intros H. apply rbind_ok in H as (((useful & bvs) & nl) & E & H). injection H as <-.
  apply useful_fold in E; [|lia|].
  2:{ split; [constructor|]. split; [intros f; split; [intros []|intros [? _]; lia]|]. split; [apply repeat_length|]. split; [intros f x []|intros _ f []]. }
  destruct E as (A & B & C & D & E). split; [|split; [reflexivity|]].
  - constructor; cbn [in_data in_nactive_examples in_useful in_nactive_features in_bitvecs in_used_nbins in_split_candidates in_supercats in_has_non_locard];
      try reflexivity; try assumption; try apply repeat_length.
    + right. split; [reflexivity|]. intros f Hf. right. apply nth_repeat_some. apply B in Hf as [Hf _]. exact Hf.
    + intros f nb x Hf E1 _. rewrite nth_repeat_some in E1 by (apply B in Hf as [Hf _]; exact Hf). injection E1 as <-. lia.
    + intros f nb Hf _ E1. rewrite nth_repeat_some in E1 by (apply B in Hf as [Hf _]; exact Hf). injection E1 as <-. auto.
    + intros f nb Hf _ E1. rewrite nth_repeat_some in E1 by (apply B in Hf as [Hf _]; exact Hf). injection E1 as <-. lia.
  - intros f Hf. apply nth_repeat_some, Hf.
Qed.

Lemma new_fold_ok ex fs : forall s s', dinv s -> (forall f, In f fs -> In f (in_useful s)) -> 
  foldM (fun s feat_id => let* ft := feat_type_of d feat_id in if is_locard ft then update_locard_cat s feat_id ex else Ok s) fs s = Ok s' ->
  dinv s' /\ same_static s s' /\ (forall f, locard f -> In f fs \/ feature_full s ex f -> feature_full s' ex f) /\
  (forall f, ~ locard f -> nth_error (in_used_nbins s') f = nth_error (in_used_nbins s) f).
Proof.
  induction fs as [|f t IH]; intros s s' Hinv Hin H; cbn [foldM] in H.
  - injection H as <-. split; [exact Hinv|]. split; [apply same_static_refl|]. split; [intros f _ [[]|Hf]; exact Hf|auto].
  - apply rbind_ok in H as (s1 & E1 & H). apply rbind_ok in E1 as (ft & Eft & E1).
    assert ((locard f /\ updated O cfg d s s1 ex f) \/ (s1 = s /\ ~ locard f)) as [[Hl Hu]|[-> Hl]].
    { destruct ft; cbn [is_locard] in E1.
      - left. split; [exact Eft|]. eapply update_locard_ok; [exact Hinv|apply Hin; left; reflexivity|exact Eft|exact E1].
      - right. injection E1 as <-. split; [reflexivity|]. unfold DatasetProofs3.locard. congruence.
      - right. injection E1 as <-. split; [reflexivity|]. unfold DatasetProofs3.locard. congruence. }
    + destruct Hu as (Hinv1 & Hst & Hok & Hfr). pose proof Hst as (S1 & S2 & S3 & S4 & S5 & S6 & S7).
      destruct (IH s1 s' Hinv1) as (A & B & C & D); [intros f' Hf'; rewrite S3; apply Hin; right; exact Hf'|exact H|].
      split; [exact A|]. split; [eapply same_static_trans; eassumption|]. split.
      * intros f' Hl' Hf'. apply C; [exact Hl'|]. destruct (Nat.eq_dec f' f) as [->|Hne]; [right; exact Hok|].
        destruct Hf' as [[->|Hf']|Hf']; [congruence|left; exact Hf'|right]. eapply feature_full_same; [exact S2|apply Hfr, Hne|exact Hf'].
      * intros f' Hl'. rewrite D by exact Hl'. destruct (Nat.eq_dec f' f) as [->|Hne]; [contradiction|]. apply Hfr, Hne.
    + destruct (IH s s' Hinv) as (A & B & C & D); [intros f' Hf'; apply Hin; right; exact Hf'|exact H|].
      split; [exact A|]. split; [exact B|]. split; [|exact D].
      intros f' Hl' Hf'. apply C; [exact Hl'|]. destruct Hf' as [[->|Hf']|Hf']; [contradiction|left; exact Hf'|right; exact Hf'].
Qed.

Lemma feature_full_ex s f ex ex' : ex = ex' -> feature_full s ex f -> feature_full s ex' f. Proof. intros ->. auto. Qed.

Lemma dataset_new_ok g s : dataset_new cfg d g = Ok s -> dsinv s /\ ds_update_count s = 0.
Proof.
  unfold dataset_new. intros H. apply rbind_ok in H as (i & Ei & H). destruct (inner_new_ok g i Ei) as (Hinv & Hsc & Hz).
  destruct (nlt O (c_example_fraction cfg) (nofZ O 1)) eqn:Ef.
  - injection H as <-. split; [|reflexivity]. constructor; cbn [ds_inner ds_index_buffer ds_update_count].
    + exact Hinv.
    + rewrite Ef. reflexivity.
    + intros; lia.
    + intros _. split; [right; reflexivity|]. intros f Hf _. apply Hz. eapply useful_lt; eassumption.
    + intros; lia.
    + congruence.
  - apply rbind_ok in H as (i' & Ei' & H). injection H as <-. split; [|reflexivity].
    destruct (new_fold_ok _ _ _ _ Hinv (fun _ h => h) Ei') as (A & B & C & D). pose proof B as (S1 & S2 & S3 & S4 & S5 & S6 & S7).
    constructor; cbn [ds_inner ds_index_buffer ds_update_count].
    + exact A.
    + rewrite Ef. reflexivity.
    + intros; lia.
    + intros _. split; [left; reflexivity|]. intros f Hf [Hs|Hl]; [discriminate|]. rewrite D by exact Hl. apply Hz. eapply useful_lt; eassumption.
    + intros; lia.
    + intros _ f Hf Hl. apply C; [exact Hl|]. left. rewrite <- S3. exact Hf.
Qed.

Lemma init_supercats_ok s : dinv s -> let s' := initialize_supercats s in
  dinv s' /\ in_rng s' = in_rng s /\ in_data s' = in_data s /\ in_useful s' = in_useful s /\ in_nactive_features s' = in_nactive_features s /\
  in_bitvecs s' = in_bitvecs s /\ in_used_nbins s' = in_used_nbins s /\ in_has_non_locard s' = in_has_non_locard s /\
  in_split_candidates s' = in_split_candidates s /\ length (in_supercats s') = d_nfeatures d /\
  (length (in_supercats s) = d_nfeatures d -> s' = s) /\ (forall f ex, In f (in_useful s) -> feature_full s ex f -> feature_full s' ex f).
Proof.
  intros Hinv s'. pose proof (dv_data _ _ _ s Hinv) as Hd.
  assert (length (in_supercats s') = d_nfeatures d) as HL.
  { unfold s', initialize_supercats. cbn [in_supercats]. rewrite Hd. unfold vec_resize. destruct (dv_scats _ _ _ s Hinv) as [E|[E _]]; rewrite E.
    - rewrite Nat.leb_refl, app_length, repeat_length. lia.
    - cbn [length Nat.leb app]. rewrite repeat_length. lia. }
  assert (length (in_supercats s) = d_nfeatures d -> s' = s) as Hid.
  { intros E. unfold s', initialize_supercats. rewrite Hd. unfold vec_resize. rewrite E, Nat.leb_refl, Nat.sub_diag. cbn [repeat]. rewrite app_nil_r, <- Hd. destruct s; reflexivity. }
  split; [destruct Hinv; constructor; try assumption; left; exact HL|].
  split; [reflexivity|]. split; [reflexivity|]. split; [reflexivity|]. split; [reflexivity|]. split; [reflexivity|]. split; [reflexivity|].
  split; [reflexivity|]. split; [reflexivity|]. split; [exact HL|]. split; [exact Hid|]. intros f ex Hf Hfull. destruct (dv_scats _ _ _ s Hinv) as [E|[E E']].
  - rewrite (Hid E). exact Hfull.
  - destruct (E' f Hf) as [Hl|Hz].
    + destruct Hfull as (A & B & C). split; [|split; [exact B|split; intros Hh; exfalso; unfold DatasetProofs3.locard in Hl; congruence]].
      intros nb b Enb Hb. destruct (A nb b Enb Hb) as (bvs & x & E1 & E2 & E3). exists bvs, x. split; [exact E1|]. split; [exact E2|]. intros i. specialize (E3 i).
      destruct (nth_error ex i) as [j|]; [|exact E3]. destruct E3 as (col & v & ft & F1 & F2 & F3 & F4). exists col, v, ft. split; [exact F1|]. split; [exact F2|]. split; [exact F3|].
      cbn [ds_inner in_data] in *. rewrite Hd in F3. rewrite Hl in F3. injection F3 as <-. exact F4.
    + destruct Hfull as (_ & (nb & Enb & Hnb) & _). rewrite Hz in Enb. injection Enb as <-. lia.
Qed.

Lemma sample_features_ok s s' : dinv s -> sample_features s = Ok s' ->
  dinv s' /\ Permutation (in_useful s) (in_useful s') /\ in_data s' = in_data s /\ in_nactive_features s' = in_nactive_features s /\
  in_bitvecs s' = in_bitvecs s /\ in_used_nbins s' = in_used_nbins s /\ in_has_non_locard s' = in_has_non_locard s /\
  in_split_candidates s' = in_split_candidates s /\ in_supercats s' = in_supercats s.
Proof.
  intros Hinv H. unfold sample_features in H. destruct (in_feature_sampling_enabled s) eqn:Es.
  2:{ injection H as <-. split; [exact Hinv|]. repeat split; reflexivity. }
  apply rbind_ok in H as ((u & g) & E & H). injection H as <-. unfold in_feature_sampling_enabled in Es. apply Nat.ltb_lt in Es.
  destruct (shuffle_ok (in_rng s) (in_nactive_features s) (in_useful s)) as (b & g' & E' & HP & _); [lia|]. rewrite E in E'. injection E' as <- <-.
  split; [|repeat split; exact HP].
  assert (forall f, In f u <-> In f (in_useful s)) as Hin. { intros f. split; apply Permutation_in; [symmetry|]; exact HP. }
  destruct Hinv. constructor; cbn [in_data in_nactive_examples in_useful in_nactive_features in_bitvecs in_used_nbins in_split_candidates in_supercats in_has_non_locard];
    try assumption.
  - eapply Permutation_NoDup; eassumption.
  - intros f. rewrite Hin. apply dv_useful.
  - rewrite <- (Permutation_length HP). assumption.
  - destruct dv_scats as [?|[? HS]]; [left; assumption|right]. split; [assumption|]. intros f Hf. apply HS, Hin, Hf.
  - intros f x Hf. apply dv_bvs, Hin, Hf.
  - intros f nb x Hf. apply dv_used, Hin, Hf.
  - intros Hn f Hf. apply dv_locard; [assumption|apply Hin, Hf].
  - intros f nb Hf. apply dv_lowused, Hin, Hf.
  - intros f nb Hf. apply dv_hicard, Hin, Hf.
Qed.

Lemma feature_full_parts s s' f ex : in_data s' = in_data s -> in_bitvecs s' = in_bitvecs s -> in_used_nbins s' = in_used_nbins s ->
  in_split_candidates s' = in_split_candidates s -> in_supercats s' = in_supercats s -> feature_full s ex f -> feature_full s' ex f.
Proof. intros A B C D E. apply feature_full_same; [exact A|]. repeat split; congruence. Qed.

Lemma dinv_rng s g : dinv s -> dinv (mk_inner g (in_data s) (in_useful s) (in_nactive_features s) (in_nactive_examples s) (in_bitvecs s) (in_supercats s)
               (in_split_candidates s) (in_used_nbins s) (in_has_non_locard s)).
Proof. intros []. constructor; assumption. Qed.

Lemma skip_update_spec freq count : 0 < count -> skip_update freq count = false <-> resamples freq count.
Proof.
  intros Hc. unfold skip_update, resamples. destruct (Nat.eqb_spec freq 0) as [->|Hf]; cbn [orb]; [split; [discriminate|intros [? _]; lia]|].
  rewrite andb_false_iff, negb_false_iff, Nat.ltb_ge, Nat.eqb_eq. split.
  - intros [H|H]; (split; [lia|]); [left; lia|]. right. exists (count / freq). rewrite Nat.mul_comm. apply Nat.div_exact; lia.
  - intros [_ [->|[k ->]]]; [left; lia|]. right. apply Nat.mod_mul, Hf.
Qed.

Lemma buffer_sampling s : dsinv s -> example_sampling_enabled s = true -> nlt O (c_example_fraction cfg) (nofZ O 1) = true /\ Permutation (seq 0 (d_nexamples d)) (ds_index_buffer s).
Proof.
  intros H E. pose proof (ds_buf _ _ _ s H) as HB. destruct (nlt O (c_example_fraction cfg) (nofZ O 1)); [auto|]. unfold example_sampling_enabled in E. rewrite HB in E. discriminate.
Qed.

Lemma sampling_count0 s : dsinv s -> example_sampling_enabled s = false -> ds_index_buffer s = [].
Proof. intros _ E. unfold example_sampling_enabled in E. destruct (ds_index_buffer s); [reflexivity|discriminate]. Qed.

Lemma nfeat_pos s f : dinv s -> In f (in_useful s) -> 0 < d_nfeatures d.
Proof. intros H Hf. pose proof (useful_lt _ _ _ s f H Hf). lia. Qed.

Lemma dataset_update_ok dbg s grad bounds s' : dsinv s -> dataset_update dbg cfg s grad bounds = Ok s' -> dsinv s' /\ ds_update_count s' = S (ds_update_count s).
Proof.
  intros Hds H. unfold dataset_update in H. pose proof (ds_inv _ _ _ s Hds) as Hinv. rewrite Nat.add_1_r in H.
  destruct (init_supercats_ok _ Hinv) as (Hinv0 & _ & D0 & U0 & NF0 & B0 & N0 & L0 & C0 & SL0 & _ & K0).
  set (i0 := initialize_supercats (ds_inner s)) in *. cbv zeta in H.
  destruct (skip_update (c_sample_freq cfg) (S (ds_update_count s))) eqn:Esk.
  { injection H as <-. split; [|reflexivity].
    assert (0 < c_sample_freq cfg -> 0 < ds_update_count s) as Hcnt.
    { intros Hf. destruct (ds_update_count s) as [|n]; [|lia]. exfalso. unfold skip_update in Esk. cbn [Nat.ltb Nat.leb andb] in Esk. rewrite orb_false_r in Esk. apply Nat.eqb_eq in Esk. lia. }
    constructor; cbn [ds_inner ds_index_buffer ds_update_count].
    - exact Hinv0.
    - apply (ds_buf _ _ _ s Hds).
    - intros Hf _. apply (ds_sorted _ _ _ s Hds Hf). auto.
    - intros [Hc|Hf]; [discriminate|]. rewrite U0, N0. apply (ds_fresh _ _ _ s Hds). right. exact Hf.
    - rewrite U0, NF0. intros Hn Hf _ u f Hu Ef. apply K0; [eapply nth_error_In, Ef|]. eapply (ds_active_ok _ _ _ s Hds); try eassumption. auto.
    - rewrite U0. intros Hfr f Hf Hl. apply K0; [exact Hf|]. apply (ds_locard_ok _ _ _ s Hds); assumption. }
  assert (0 < c_sample_freq cfg) as Hfreq. { apply skip_update_spec in Esk as [Hq _]; lia. }
  apply rbind_ok in H as (i1 & E1 & H). destruct (sample_features_ok _ _ Hinv0 E1) as (Hinv1 & P1 & D1 & NF1 & B1 & N1 & L1 & C1 & S1).
  assert (length (in_supercats i1) = d_nfeatures d) as SL1 by congruence.
  assert (forall ex f, In f (in_useful (ds_inner s)) -> feature_full (ds_inner s) ex f -> feature_full i1 ex f) as K1.
  { intros ex f Hf Hfull. eapply feature_full_parts with (s := i0); try eassumption. apply K0; assumption. }
  assert (forall f, In f (in_useful i1) -> In f (in_useful (ds_inner s))) as Hin1.
  { intros f Hf. rewrite <- U0. eapply Permutation_in; [symmetry; exact P1|exact Hf]. }
  assert (d_nfeatures d = 0 -> in_useful i1 = []) as Hno.
  { intros Hz. destruct (in_useful i1) as [|x t] eqn:E; [reflexivity|]. pose proof (nfeat_pos i1 x Hinv1) as Hp. rewrite E in Hp. specialize (Hp (or_introl eq_refl)). lia. }
  destruct (example_sampling_enabled (mk_ds i1 (ds_index_buffer s) (S (ds_update_count s)))) eqn:Esa.
  - apply rbind_ok in H as (s2 & E2 & H). apply rbind_ok in H as (ex & Eex & H). apply rbind_ok in H as (i3 & E3 & H). injection H as <-. split; [|reflexivity].
    unfold sample_examples in E2. apply rbind_ok in E2 as ((buf & g) & Eb & E2). injection E2 as <-.
    cbn [ds_inner ds_index_buffer nactive_examples nactive_features active_examples in_nactive_features] in *. unfold nactive_examples in *. cbn [ds_inner] in *.
    rewrite (dv_nact _ _ _ _ Hinv1) in Eb. apply subslice_first in Eex as [Hle ->]. cbn [nactive_examples ds_inner in_nactive_examples] in *.
    destruct (le_lt_dec nact (length (ds_index_buffer s))) as [Hk|Hk]; [|rewrite shuffle_panics in Eb by exact Hk; discriminate].
    destruct (shuffle_ok (in_rng i1) nact (ds_index_buffer s) Hk) as (b & g' & Eb' & HP & HS). rewrite Eb in Eb'. injection Eb' as <- <-.
    destruct (buffer_sampling s Hds) as [Hfr HPb]; [exact Esa|].
    assert (example_sampling_enabled (mk_ds i3 buf (S (ds_update_count s))) = true) as Hsa'.
    { unfold example_sampling_enabled in *. cbn [ds_index_buffer] in *. rewrite <- (Permutation_length HP). exact Esa. }
    assert (forall A, in_useful i1 = [] \/ in_supercats i1 <> [] \/ A) as Hcase.
    { intros A. destruct (in_supercats i1) eqn:E; [|right; left; discriminate]. left. apply Hno. rewrite <- SL1. reflexivity. }
    set (i2 := mk_inner g _ _ _ _ _ _ _ _ _) in *.
    assert (dinv i2) as Hinv2 by (apply dinv_rng, Hinv1).
    assert (dinv i3 /\ same_static i2 i3 /\ (forall u f, u < in_nactive_features i1 -> nth_error (in_useful i1) u = Some f -> feature_full i3 (firstn nact buf) f)) as (Hinv3 & St3 & K3).
    { unfold nactive_features in E3. cbn [ds_inner in_nactive_features i2] in E3. rewrite (dv_nact _ _ _ _ Hinv1) in E3. destruct (Hcase False) as [Hu|[Hsne|[]]].
      - destruct (in_nactive_features i1) as [|m].
        + injection E3 as <-. split; [exact Hinv2|]. split; [apply same_static_refl|]. intros; lia.
        + cbn [seq foldM] in E3. apply rbind_ok in E3 as (x & Ex & _). unfold update_feature in Ex. cbn [i2 in_useful] in Ex. rewrite Hu in Ex. discriminate.
      - destruct (update_features_ok O cfg d dbg true (firstn nact buf) grad bounds (in_nactive_features i1) 0 i2 i3) as (A & B & C & D); try assumption.
        + discriminate.
        + intros; lia.
        + split; [exact A|]. split; [exact B|]. exact D. }
    destruct St3 as (T1 & T2 & T3 & T4 & T5 & T6 & T7). cbn [i2 in_useful in_nactive_features] in *.
    constructor; cbn [ds_inner ds_index_buffer ds_update_count].
    + exact Hinv3.
    + rewrite Hfr. etransitivity; eassumption.
    + intros _ _. exact HS.
    + intros [?|?]; lia.
    + rewrite T3, T4. intros _ _ _ u f Hu Ef. unfold DatasetProofs4.ds_examples. rewrite Hsa'. cbn [ds_index_buffer]. eapply K3; eassumption.
    + congruence.
  - assert (ds_index_buffer s = []) as Hbuf. { unfold example_sampling_enabled in Esa. cbn [ds_index_buffer] in Esa. destruct (ds_index_buffer s); [reflexivity|discriminate]. }
    assert (0 < d_nexamples d -> nlt O (c_example_fraction cfg) (nofZ O 1) = false) as Hfr.
    { intros Hn. pose proof (ds_buf _ _ _ s Hds) as HB. destruct (nlt O (c_example_fraction cfg) (nofZ O 1)); [|reflexivity]. rewrite Hbuf in HB. apply Permutation_length in HB.
      rewrite seq_length in HB. cbn in HB. lia. }
    assert (ds_examples s = seq 0 (d_nexamples d)) as Hex. { unfold DatasetProofs4.ds_examples, example_sampling_enabled. rewrite Hbuf. reflexivity. }
    assert (nlt O (c_example_fraction cfg) (nofZ O 1) = false -> forall f, In f (in_useful i1) -> locard f -> feature_full i1 (seq 0 (d_nexamples d)) f) as Hlow.
    { intros Hfr' f Hf Hl. apply K1; [apply Hin1, Hf|]. rewrite <- Hex. apply (ds_locard_ok _ _ _ s Hds); auto. }
    destruct (in_has_non_locard i1) eqn:Enl.
    + apply rbind_ok in H as (i2 & E2 & H). injection H as <-. split; [|reflexivity]. rewrite (dv_data _ _ _ _ Hinv1) in E2.
      destruct (in_supercats i1) as [|x0 t0] eqn:Esc.
      { assert (in_useful i1 = []) as Hu by (apply Hno; rewrite <- SL1; reflexivity).
        destruct (in_nactive_features i1) as [|m] eqn:Em.
        - injection E2 as <-. constructor; cbn [ds_inner ds_index_buffer ds_update_count].
          + exact Hinv1.
          + apply (ds_buf _ _ _ s Hds).
          + intros _ _. rewrite Hbuf, firstn_nil. constructor.
          + intros [?|?]; lia.
          + rewrite Em. intros; lia.
          + rewrite Hu. intros _ f [].
        - cbn [seq foldM] in E2. apply rbind_ok in E2 as (x & Ex & _). unfold update_feature in Ex. rewrite Hu in Ex. discriminate. }
      assert (in_supercats i1 <> []) as Hsne by (rewrite Esc; discriminate).
      destruct (update_features_inv O cfg d dbg false _ grad bounds _ i1 i2 Hinv1 Hsne E2) as (Hinv2 & St2). destruct St2 as (T1 & T2 & T3 & T4 & T5 & T6 & T7).
      assert (nlt O (c_example_fraction cfg) (nofZ O 1) = false ->
        (forall f, In f (in_useful i1) -> locard f -> feature_full i2 (seq 0 (d_nexamples d)) f) /\
        (forall u f, u < in_nactive_features i1 -> nth_error (in_useful i1) u = Some f -> feature_full i2 (seq 0 (d_nexamples d)) f)) as K2.
      { intros Hfr'. destruct (update_features_ok O cfg d dbg false (seq 0 (d_nexamples d)) grad bounds (in_nactive_features i1) 0 i1 i2) as (A & B & C & D); try assumption.
        - intros _. apply Hlow, Hfr'.
        - intros; lia.
        - split; [apply C; reflexivity|exact D]. }
      constructor; cbn [ds_inner ds_index_buffer ds_update_count].
      * exact Hinv2.
      * apply (ds_buf _ _ _ s Hds).
      * intros _ _. rewrite Hbuf, firstn_nil. constructor.
      * intros [?|?]; lia.
      * rewrite T3, T4. intros Hn _ _ u f Hu Ef. unfold DatasetProofs4.ds_examples, example_sampling_enabled. cbn [ds_index_buffer]. rewrite Hbuf.
        eapply K2; try eassumption. auto.
      * rewrite T3. intros Hfr' f Hf Hl. unfold DatasetProofs4.ds_examples, example_sampling_enabled. cbn [ds_index_buffer]. rewrite Hbuf. apply K2; auto.
    + injection H as <-. split; [|reflexivity]. constructor; cbn [ds_inner ds_index_buffer ds_update_count].
      * exact Hinv1.
      * apply (ds_buf _ _ _ s Hds).
      * intros _ _. rewrite Hbuf, firstn_nil. constructor.
      * intros [?|?]; lia.
      * intros Hn _ _ u f Hu Ef. unfold DatasetProofs4.ds_examples, example_sampling_enabled. cbn [ds_index_buffer]. rewrite Hbuf. cbn [length Nat.eqb negb].
        apply Hlow; [auto|eapply nth_error_In, Ef|]. apply (dv_locard _ _ _ _ Hinv1 Enl). eapply nth_error_In, Ef.
      * intros Hfr' f Hf Hl. unfold DatasetProofs4.ds_examples, example_sampling_enabled. cbn [ds_index_buffer]. rewrite Hbuf. apply Hlow; auto.
Qed.

Lemma reachable_ok dbg s : reachable dbg cfg d s -> dsinv s.
Proof.
  intros (g & us & s0 & E0 & E). destruct (dataset_new_ok g s0 E0) as [H _]. clear E0. revert s0 H E. unfold ds_run.
  induction us as [|u t IH]; intros s0 H E; cbn [foldM] in E; [injection E as <-; exact H|].
  apply rbind_ok in E as (s1 & E1 & E). apply (IH s1); [|exact E]. eapply dataset_update_ok; eassumption.
Qed.
End Inv3.
