From Coq Require Import Permutation Sorting.Sorted.
From Verif Require Import Base BaseProofs BitModel BitSpec BitProofs BitProofs2 SimdModel SliceProofs2 Num DataModel BinnerModel BinnerProofs Config
  DatasetModel DatasetSpec DatasetProofs DatasetProofs2 DatasetProofs3.

Section Inv2.
Variable O : numops.
Variable cfg : config O.
Variable d : data O.
Notation dinv := (dinv O cfg d). Notation nact := (nact O cfg d). Notation locard := (locard O d). Notation feature_full := (feature_full O d).
Notation same_feature := (same_feature O). Notation same_static := (same_static O).

Lemma feat_type_cases f ft : feat_type_of d f = Ok ft -> ft = LoCardCat \/ ft <> LoCardCat.
Proof. destruct ft; auto; right; discriminate. Qed.

Lemma update_feature_full dbg lc ex grad bounds s u s' : dinv s -> in_supercats s <> [] ->
  (lc = false -> forall f, In f (in_useful s) -> locard f -> feature_full s ex f) ->
  update_feature dbg cfg lc ex grad bounds s u = Ok s' ->
  exists f, nth_error (in_useful s) u = Some f /\ dinv s' /\ same_static s s' /\ feature_full s' ex f /\ forall f', f' <> f -> same_feature s s' f'.
Proof.
  intros Hinv Hne Hlc H. unfold update_feature in H. apply rbind_ok in H as (f & Ef & H). apply rbind_ok in H as (ft & Eft & H).
  apply idx_ok in Ef. rewrite (dv_data _ _ _ s Hinv) in Eft. pose proof (nth_error_In _ _ Ef) as Hf. exists f. split; [exact Ef|].
  destruct ft.
  - destruct lc.
    + apply (update_locard_ok O cfg d s f ex s' Hinv Hf Eft H).
    + injection H as <-. split; [exact Hinv|]. split; [apply same_static_refl|]. split; [apply Hlc; auto|]. intros; apply same_feature_refl.
  - apply (update_hicard_ok O cfg d dbg s f ex grad bounds s' Hinv Hf Eft H).
  - apply (update_num_ok O cfg d s f ex grad s' Hinv Hf Eft Hne H).
Qed.

Lemma update_feature_inv dbg lc ex grad bounds s u s' : dinv s -> in_supercats s <> [] ->
  update_feature dbg cfg lc ex grad bounds s u = Ok s' -> dinv s' /\ same_static s s'.
Proof.
  intros Hinv Hne H. unfold update_feature in H. apply rbind_ok in H as (f & Ef & H). apply rbind_ok in H as (ft & Eft & H).
  apply idx_ok in Ef. rewrite (dv_data _ _ _ s Hinv) in Eft. pose proof (nth_error_In _ _ Ef) as Hf.
  destruct ft.
  - destruct lc.
    + destruct (update_locard_ok O cfg d s f ex s' Hinv Hf Eft H) as (A & B & _). auto.
    + injection H as <-. split; [exact Hinv|]. apply same_static_refl.
  - destruct (update_hicard_ok O cfg d dbg s f ex grad bounds s' Hinv Hf Eft H) as (A & B & _). auto.
  - destruct (update_num_ok O cfg d s f ex grad s' Hinv Hf Eft Hne H) as (A & B & _). auto.
Qed.
Lemma update_features_inv dbg lc ex grad bounds us : forall s s', dinv s -> in_supercats s <> [] ->
  foldM (update_feature dbg cfg lc ex grad bounds) us s = Ok s' -> dinv s' /\ same_static s s'.
Proof.
  induction us as [|u t IH]; intros s s' Hinv Hne H; cbn [foldM] in H.
  - injection H as <-. split; [exact Hinv|]. apply same_static_refl.
  - apply rbind_ok in H as (s1 & E1 & H). destruct (update_feature_inv _ _ _ _ _ _ _ _ Hinv Hne E1) as (Hinv1 & Hst).
    destruct (IH s1 s' Hinv1) as (A & B); [|exact H|].
    + destruct Hst as (_ & _ & _ & _ & _ & _ & E7). destruct (in_supercats s); [congruence|]. destruct (in_supercats s1); [discriminate E7|discriminate].
    + split; [exact A|eapply same_static_trans; eassumption].
Qed.

Lemma update_features_ok dbg lc ex grad bounds m : forall a s s', dinv s -> in_supercats s <> [] ->
  (lc = false -> forall f, In f (in_useful s) -> locard f -> feature_full s ex f) ->
  (forall u f, u < a -> nth_error (in_useful s) u = Some f -> feature_full s ex f) ->
  foldM (update_feature dbg cfg lc ex grad bounds) (seq a m) s = Ok s' ->
  dinv s' /\ same_static s s' /\ (lc = false -> forall f, In f (in_useful s) -> locard f -> feature_full s' ex f) /\
  (forall u f, u < a + m -> nth_error (in_useful s) u = Some f -> feature_full s' ex f).
Proof.
  induction m as [|m IH]; intros a s s' Hinv Hne Hlc Hpre H; cbn [seq foldM] in H.
  - injection H as <-. split; [exact Hinv|]. split; [apply same_static_refl|]. split; [exact Hlc|]. intros u f Hu. apply Hpre. lia.
  - apply rbind_ok in H as (s1 & E1 & H). destruct (update_feature_full _ _ _ _ _ _ _ _ Hinv Hne Hlc E1) as (f & Ef & Hinv1 & Hst & Hok & Hfr).
    pose proof Hst as (S1 & S2 & S3 & S4 & S5 & S6 & S7).
    assert (forall f', feature_full s ex f' -> feature_full s1 ex f') as Hkeep.
    { intros f' Hf'. destruct (Nat.eq_dec f' f) as [->|Hn]; [exact Hok|]. eapply feature_full_same; [exact S2|apply Hfr, Hn|exact Hf']. }
    destruct (IH (S a) s1 s') as (A & B & C & D); try assumption.
    + destruct (in_supercats s); [congruence|]. destruct (in_supercats s1); [discriminate S7|discriminate].
    + rewrite S3. intros Hl f' Hf' Hlo. apply Hkeep, Hlc; assumption.
    + rewrite S3. intros u f' Hu Ef'. destruct (Nat.eq_dec u a) as [->|Hn]; [replace f' with f by congruence; exact Hok|]. apply Hkeep. eapply Hpre; [|exact Ef']. lia.
    + split; [exact A|]. split; [eapply same_static_trans; eassumption|]. rewrite S3 in C, D. split; [exact C|].
      intros u f' Hu Ef'. eapply D; [|exact Ef']. lia.
Qed.

(* ---- the data set ---- *)

Definition ds_examples (s : dataset O) : list nat :=
  if example_sampling_enabled s then firstn nact (ds_index_buffer s) else seq 0 (d_nexamples d).

Record dsinv (s : dataset O) : Prop := mk_dsinv {
  ds_inv : dinv (ds_inner s);
  ds_buf : if nlt O (c_example_fraction cfg) (nofZ O 1) then Permutation (seq 0 (d_nexamples d)) (ds_index_buffer s) else ds_index_buffer s = [];
  ds_sorted : 0 < c_sample_freq cfg -> 0 < ds_update_count s -> StronglySorted le (firstn nact (ds_index_buffer s));
  ds_fresh : ds_update_count s = 0 \/ c_sample_freq cfg = 0 -> (ds_index_buffer s = [] \/ ds_index_buffer s = seq 0 (d_nexamples d)) /\
    forall f, In f (in_useful (ds_inner s)) -> example_sampling_enabled s = true \/ ~ locard f -> nth_error (in_used_nbins (ds_inner s)) f = Some 0;
  ds_active_ok : 0 < d_nexamples d -> 0 < c_sample_freq cfg -> 0 < ds_update_count s ->
    forall u f, u < in_nactive_features (ds_inner s) -> nth_error (in_useful (ds_inner s)) u = Some f -> feature_full (ds_inner s) (ds_examples s) f;
  ds_locard_ok : nlt O (c_example_fraction cfg) (nofZ O 1) = false -> forall f, In f (in_useful (ds_inner s)) -> locard f -> feature_full (ds_inner s) (ds_examples s) f
}.

Lemma useful_fold m : forall a st useful bvs nl, a + m = d_nfeatures d ->
  (let '(u0, b0, n0) := st in
     NoDup u0 /\ (forall f, In f u0 <-> f < a /\ useful_feature d f) /\ length b0 = d_nfeatures d /\
     (forall f x, In f u0 -> nth_error b0 f = Some x -> bvs_wf (bvL O cfg d) x /\ max_nbins d f = Ok (length x)) /\
     (n0 = false -> forall f, In f u0 -> locard f)) ->
  foldM (useful_step d nact) (seq a m) st = Ok (useful, bvs, nl) ->
  NoDup useful /\ (forall f, In f useful <-> useful_feature d f) /\ length bvs = d_nfeatures d /\
  (forall f x, In f useful -> nth_error bvs f = Some x -> bvs_wf (bvL O cfg d) x /\ max_nbins d f = Ok (length x)) /\
  (nl = false -> forall f, In f useful -> locard f).
Proof.
  induction m as [|m IH]; intros a st useful bvs nl Ha Hst H; cbn [seq foldM] in H.
  - injection H as ->. destruct Hst as (A & B & C & D & E). split; [exact A|]. split; [|auto]. intros f. rewrite B. split; [tauto|]. intros Hu. split; [|exact Hu].
    destruct Hu as [Hu _]. lia.
  - apply rbind_ok in H as (st1 & E1 & H). eapply (IH (S a) st1); [lia| |exact H]. destruct st as [[u0 b0] n0]. destruct Hst as (A & B & C & D & E).
    unfold useful_step in E1. apply rbind_ok in E1 as (nb & Enb & E1). destruct (Nat.eqb_spec nb 0) as [->|Hnb].
    { injection E1 as <-. split; [exact A|]. split; [|auto]. intros f. rewrite B. split; [intros [? ?]; split; [lia|assumption]|]. intros [Hf Hu]. split; [|exact Hu].
      destruct (Nat.eq_dec f a) as [->|]; [|lia]. destruct Hu as (_ & (nb & E' & Hp) & _). rewrite Enb in E'. injection E' as <-. lia. }
    apply rbind_ok in E1 as (lim & Elim & E1). destruct (neq O (fst lim) (snd lim)) eqn:Eq.
    { injection E1 as <-. split; [exact A|]. split; [|auto]. intros f. rewrite B. split; [intros [? ?]; split; [lia|assumption]|]. intros [Hf Hu]. split; [|exact Hu].
      destruct (Nat.eq_dec f a) as [->|]; [|lia]. destruct Hu as (_ & _ & (lo & hi & E' & Hp)). rewrite Elim in E'. injection E' as ->. cbn in Eq. congruence. }
    apply rbind_ok in E1 as (ft & Eft & E1). apply rbind_ok in E1 as (bv & Ebv & E1). apply rbind_ok in E1 as (b1 & Eb1 & E1). injection E1 as <-.
    apply set_idx_ok in Eb1 as [Hlt ->].
    assert (useful_feature d a) as Hua.
    { split; [lia|]. split; [exists nb; split; [exact Enb|lia]|]. exists (fst lim), (snd lim). rewrite <- surjective_pairing. auto. }
    assert (~ In a u0) as Hni by (rewrite B; lia).
    assert (bvs_wf (bvL O cfg d) bv /\ length bv = nb) as [Hw Hl].
    { apply mapM_ok in Ebv. split.
      - clear -Ebv. induction Ebv as [|x y l l' Hxy _ IHl]; constructor; [|exact IHl].
        assert (0 < nact) as Hp. { destruct nact; [discriminate|lia]. }
        destruct (zero_bits_ok nact Hp) as (bs & E & W & L & _). rewrite E in Hxy. injection Hxy as <-. auto.
      - assert (length bv = length (seq 0 nb)) as -> by (clear -Ebv; induction Ebv; cbn; congruence). apply seq_length. }
    split. { clear - A Hni. induction u0 as [|x t IHt]; cbn; [repeat constructor; auto|].
      inversion A; subst. constructor; [|apply IHt; [assumption|intros Hc; apply Hni; right; exact Hc]]. rewrite in_app_iff. intros [Hc|[->|[]]]; [contradiction|]. apply Hni. left. reflexivity. }
    split. { intros f. rewrite in_app_iff, B. cbn [In]. split.
      - intros [[Hf Hu]|[<-|[]]]; [split; [lia|exact Hu]|split; [lia|exact Hua]].
      - intros [Hf Hu]. destruct (Nat.eq_dec f a) as [->|]; [right; left; reflexivity|]. left. split; [lia|exact Hu]. }
    split; [rewrite upd_length; exact C|]. split.
    + intros f x Hf Ex. destruct (Nat.eq_dec f a) as [->|Hne].
      * rewrite upd_same in Ex by exact Hlt. injection Ex as <-. rewrite Hl. auto.
      * rewrite upd_other in Ex by exact Hne. apply in_app_iff in Hf as [Hf|[Hf|[]]]; [apply D; assumption|congruence].
    + intros Hn f Hf. apply orb_false_iff in Hn as [Hn1 Hn2]. apply in_app_iff in Hf as [Hf|[<-|[]]]; [auto|]. unfold DatasetProofs3.locard. rewrite Eft.
      destruct ft; [reflexivity|discriminate|discriminate].
Qed.
End Inv2.
