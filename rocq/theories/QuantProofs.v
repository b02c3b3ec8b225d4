From Coq Require Import Permutation Sorting.Sorted.
From Verif Require Import Base BaseProofs BitModel BitSpec Num F32 DataModel BinnerModel BinnerSpec BinnerProofs Config
  DatasetModel DatasetSpec QuantSpec DatasetProofs DatasetProofs2 DatasetProofs3 DatasetProofs4 DatasetProofs5.

Section Trace.
Variable O : numops.
Variable cfg : config O.
Variable d : data O.
Notation dinv := (dinv O cfg d). Notation same_feature := (same_feature O). Notation same_static := (same_static O).
Notation dsinv := (dsinv O cfg d). Notation ds_examples := (ds_examples O cfg d).

Lemma update_feature_frame dbg lc ex grad bounds s u s' : dinv s -> in_supercats s <> [] -> update_feature dbg cfg lc ex grad bounds s u = Ok s' ->
  dinv s' /\ same_static s s' /\ exists f, nth_error (in_useful s) u = Some f /\ forall f', f' <> f -> same_feature s s' f'.
Proof.
  intros Hinv Hne H. unfold update_feature in H. apply rbind_ok in H as (f & Ef & H). apply rbind_ok in H as (ft & Eft & H).
  apply idx_ok in Ef. rewrite (dv_data _ _ _ s Hinv) in Eft. pose proof (nth_error_In _ _ Ef) as Hf.
  destruct ft.
  - destruct lc.
    + destruct (update_locard_ok O cfg d s f ex s' Hinv Hf Eft H) as (A & B & _ & C). eauto 6.
    + injection H as <-. split; [exact Hinv|]. split; [apply same_static_refl|]. exists f. split; [exact Ef|]. intros; apply same_feature_refl.
  - destruct (update_hicard_ok O cfg d dbg s f ex grad bounds s' Hinv Hf Eft H) as (A & B & _ & C). eauto 6.
  - destruct (update_num_ok O cfg d s f ex grad s' Hinv Hf Eft Hne H) as (A & B & _ & C). eauto 6.
Qed.

Lemma fold_trace dbg lc ex grad bounds us : forall s s' u f, NoDup us -> dinv s -> in_supercats s <> [] ->
  foldM (update_feature dbg cfg lc ex grad bounds) us s = Ok s' -> nth_error (in_useful s) u = Some f ->
  (In u us -> exists s1 s2, dinv s1 /\ in_useful s1 = in_useful s /\ update_feature dbg cfg lc ex grad bounds s1 u = Ok s2 /\ same_feature s2 s' f) /\
  (~ In u us -> same_feature s s' f).
Proof.
  induction us as [|u0 t IH]; intros s s' u f HN Hinv Hne H Ef; cbn [foldM] in H.
  - injection H as <-. split; [intros []|intros _; apply same_feature_refl].
  - inversion HN as [|? ? Hn0 HN']; subst. apply rbind_ok in H as (s1 & E1 & H). destruct (update_feature_frame _ _ _ _ _ _ _ _ Hinv Hne E1) as (Hinv1 & Hst & f0 & Ef0 & Hfr).
    pose proof Hst as (S1 & S2 & S3 & S4 & S5 & S6 & S7).
    assert (in_supercats s1 <> []) as Hne1 by (destruct (in_supercats s); [congruence|]; destruct (in_supercats s1); [discriminate S7|discriminate]).
    destruct (IH s1 s' u f HN' Hinv1 Hne1 H) as [A B]; [rewrite S3; exact Ef|]. split.
    + intros [E|Hin].
      * subst u0. exists s, s1. split; [exact Hinv|]. split; [reflexivity|]. split; [exact E1|]. apply B, Hn0.
      * destruct (A Hin) as (t1 & t2 & C1 & C2 & C3 & C4). exists t1, t2. rewrite S3 in C2. auto.
    + intros Hni. apply (same_feature_trans _ _ s1); [|apply B; intros Hc; apply Hni; right; exact Hc]. apply Hfr. intros ->. apply Hni. left.
      pose proof (dv_nodup _ _ _ _ Hinv) as HU. apply (proj1 (NoDup_nth_error (in_useful s))); [exact HU|apply nth_error_Some; congruence|congruence].
Qed.

(** The update of an active feature during a due update of the data set, and that nothing changes it afterwards. *)
Lemma update_trace dbg s grad bounds s' fs f : dsinv s -> dataset_update dbg cfg s grad bounds = Ok s' -> resamples (c_sample_freq cfg) (S (ds_update_count s)) ->
  active_features s' = Ok fs -> In f fs -> feat_type_of d f <> Ok LoCardCat ->
  exists u lc s1 s2, dinv s1 /\ nth_error (in_useful s1) u = Some f /\ update_feature dbg cfg lc (ds_examples s') grad bounds s1 u = Ok s2 /\ same_feature s2 (ds_inner s') f.
Proof.
  intros Hds H Hres Ha Hin Hty. pose proof (ds_inv _ _ _ s Hds) as Hinv. unfold dataset_update in H. rewrite Nat.add_1_r in H.
  destruct (init_supercats_ok O cfg d _ Hinv) as (Hinv0 & _ & D0 & U0 & NF0 & B0 & N0 & L0 & C0 & SL0 & _ & K0).
  set (i0 := initialize_supercats (ds_inner s)) in *. cbv zeta in H.
  apply (skip_update_spec (c_sample_freq cfg) (S (ds_update_count s))) in Hres; [|lia]. rewrite Hres in H.
  apply rbind_ok in H as (i1 & E1 & H). destruct (sample_features_ok O cfg d _ _ Hinv0 E1) as (Hinv1 & P1 & D1 & NF1 & B1 & N1 & L1 & C1 & S1).
  assert (length (in_supercats i1) = d_nfeatures d) as SL1 by congruence.
  unfold active_features, in_active_features in Ha. apply subslice_first in Ha as [Hle ->]. apply In_nth_error in Hin as [u Eu]. rewrite nth_error_firstn in Eu.
  destruct (Nat.ltb_spec u (in_nactive_features (ds_inner s'))) as [Hu|]; [|discriminate].
  assert (forall A (x y : A), Ok x = Ok y -> x = y) as OkI by (clear; intros A x y Hxy; congruence).
  assert (forall lc i2 i3 ex n, dinv i2 -> in_useful i2 = in_useful i1 -> length (in_supercats i2) = d_nfeatures d -> n = in_nactive_features i2 ->
    foldM (update_feature dbg cfg lc ex grad bounds) (seq 0 n) i2 = Ok i3 -> ds_inner s' = i3 -> ds_examples s' = ex ->
    exists u lc s1 s2, dinv s1 /\ nth_error (in_useful s1) u = Some f /\ update_feature dbg cfg lc (ds_examples s') grad bounds s1 u = Ok s2 /\ same_feature s2 (ds_inner s') f) as Hgo.
  { intros lc i2 i3 ex n I2 U2 L2 -> HF Hi3 Hex.
    assert (in_supercats i2 <> []) as Hne.
    { intros E. rewrite E in L2. cbn in L2. apply nth_error_In in Eu.
      assert (in_useful i2 = []) as EU by (destruct (in_useful i2) as [|f0 t0] eqn:EU; [reflexivity|]; exfalso; assert (In f0 (in_useful i2)) as Hx by (rewrite EU; left; reflexivity); apply (useful_lt O cfg d i2 f0 I2) in Hx; lia).
      destruct (in_nactive_features i2) as [|k].
      - cbn [seq foldM] in HF. apply OkI in HF. rewrite Hi3, <- HF, EU in Eu. destruct Eu.
      - cbn [seq foldM] in HF. apply rbind_ok in HF as (z & Ez & _). unfold update_feature in Ez. rewrite EU in Ez. discriminate Ez. }
    destruct (update_features_inv O cfg d dbg lc ex grad bounds _ i2 i3 I2 Hne HF) as (I3 & St3). destruct St3 as (_ & _ & T3 & T4 & _).
    rewrite Hi3 in Eu, Hu. rewrite T3 in Eu. rewrite T4 in Hu.
    destruct (fold_trace dbg lc ex grad bounds (seq 0 (in_nactive_features i2)) i2 i3 u f (seq_NoDup _ _) I2 Hne HF Eu) as [A _].
    destruct A as (s1 & s2 & A1 & A2 & A3 & A4); [apply in_seq; lia|]. exists u, lc, s1, s2. rewrite Hi3, Hex, A2. auto. }
  destruct (example_sampling_enabled _) eqn:Ex.
  - apply rbind_ok in H as (s2 & E2 & H). apply rbind_ok in H as (ex & Eex & H). apply rbind_ok in H as (i3 & E3 & H). apply OkI in H. subst s'.
    unfold sample_examples in E2. cbn [ds_inner ds_index_buffer] in E2. apply rbind_ok in E2 as ((buf & g) & Esh & E2). apply OkI in E2. subst s2.
    cbn [ds_inner nactive_features ds_index_buffer] in *.
    eapply (Hgo true _ i3 ex _ (dinv_rng O cfg d i1 g Hinv1)); [reflexivity| |reflexivity|exact E3|reflexivity|].
    + exact SL1.
    + unfold active_examples in Eex. apply subslice_first in Eex as [Hl ->]. unfold nactive_examples. cbn [ds_inner ds_index_buffer in_nactive_examples]. rewrite (dv_nact _ _ _ _ Hinv1).
      unfold DatasetProofs4.ds_examples, example_sampling_enabled. cbn [ds_index_buffer]. replace (length buf =? 0) with false; [reflexivity|]. symmetry. apply Nat.eqb_neq.
      unfold example_sampling_enabled in Ex. cbn [ds_index_buffer] in Ex. apply negb_true_iff, Nat.eqb_neq in Ex.
      pose proof (shuffle_ok (in_rng i1)) as Hs. unfold nactive_examples in *. cbn [ds_inner in_nactive_examples ds_index_buffer] in *.
      destruct (Nat.le_gt_cases (in_nactive_examples i1) (length (ds_index_buffer s))) as [Hk|Hk].
      * destruct (Hs (in_nactive_examples i1) (ds_index_buffer s) Hk) as (b & g' & E' & HP & _). rewrite Esh in E'. apply OkI in E'. injection E' as <- <-. rewrite <- (Permutation_length HP). exact Ex.
      * lia.
  - destruct (in_has_non_locard i1) eqn:Enl.
    + apply rbind_ok in H as (i3 & E3 & H). apply OkI in H. subst s'. cbn [ds_inner ds_index_buffer] in *.
      eapply (Hgo false i1 i3); [exact Hinv1|reflexivity|exact SL1|reflexivity|exact E3|reflexivity|]. rewrite (dv_data _ _ _ _ Hinv1).
      unfold DatasetProofs4.ds_examples. unfold example_sampling_enabled in *. cbn [ds_index_buffer] in *. rewrite Ex. reflexivity.
    + exfalso. apply Hty. apply OkI in H. subst s'. cbn [ds_inner] in Eu. apply (dv_locard _ _ _ _ Hinv1 Enl). eapply nth_error_In, Eu.
Qed.
End Trace.
