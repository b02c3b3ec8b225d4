From Coq Require Import Permutation Sorting.Sorted Factorial.
From Verif Require Import Base BaseProofs Num DataModel Config DatasetModel DatasetSpec DatasetProofs SampleSpec.

(* ---- counting ---- *)

Lemma exactly_ext A c (P Q : A -> Prop) : (forall x, P x <-> Q x) -> exactly c P -> exactly c Q.
Proof. intros H (l & A1 & A2 & A3). exists l. split; [exact A1|]. split; [|exact A3]. intros x. rewrite A2. apply H. Qed.
Lemma exactly_one A (P : A -> Prop) x : (forall y, P y <-> y = x) -> exactly 1 P.
Proof. intros H. exists [x]. split; [repeat constructor; intros []|]. split; [|reflexivity]. intros y. cbn. rewrite H. intuition. Qed.
Lemma exactly_zero A (P : A -> Prop) : (forall y, ~ P y) -> exactly 0 P.
Proof. intros H. exists []. split; [constructor|]. split; [|reflexivity]. intros y. cbn. specialize (H y). tauto. Qed.
Lemma nodup_app A (l l' : list A) : NoDup l -> NoDup l' -> (forall x, In x l -> ~ In x l') -> NoDup (l ++ l').
Proof.
  intros H H' HD. induction H as [|x l Hx H IH]; cbn; [exact H'|]. constructor.
  - rewrite in_app_iff. intros [?|?]; [auto|]. apply (HD x); [left; reflexivity|assumption].
  - apply IH. intros y Hy. apply HD. right. exact Hy.
Qed.
(** The first component ranges over [Os], and for each of them there are [c] seconds. *)
Lemma exactly_pairs A B C (mk : A -> B -> C) (Os : list A) c (P : C -> Prop) :
  (forall a b a' b', mk a b = mk a' b' -> a = a' /\ b = b') -> NoDup Os ->
  (forall a, In a Os -> exactly c (fun b => P (mk a b))) -> (forall x, P x -> exists a b, x = mk a b /\ In a Os) ->
  exactly (length Os * c) P.
Proof.
  intros Hinj HN Hc HP.
  assert (forall Os', incl Os' Os -> NoDup Os' -> exactly (length Os' * c) (fun x => P x /\ exists a b, x = mk a b /\ In a Os')) as H.
  { induction Os' as [|a Os' IH]; intros Hi HN'.
    - apply exactly_zero. intros x (_ & a & b & _ & []).
    - inversion HN' as [|? ? Ha HN'']; subst. destruct IH as (l & A1 & A2 & A3); [intros z Hz; apply Hi; right; exact Hz|assumption|].
      destruct (Hc a) as (l' & B1 & B2 & B3); [apply Hi; left; reflexivity|].
      exists (map (mk a) l' ++ l). split; [|split].
      + apply nodup_app; [|exact A1|].
        * clear - B1 Hinj. induction B1 as [|x l' Hx B1 IH]; cbn; constructor; [|exact IH]. rewrite in_map_iff. intros (y & E & Hy). apply Hinj in E as [_ ->]. auto.
        * intros x Hx. apply in_map_iff in Hx as (b & <- & Hb). rewrite A2. intros (_ & a' & b' & E & Ha'). apply Hinj in E as [-> _]. auto.
      + intros x. rewrite in_app_iff, A2, in_map_iff. split.
        * intros [(b & <- & Hb)|(Hp & a' & b' & -> & Ha')].
          -- split; [apply B2, Hb|]. exists a, b. split; [reflexivity|left; reflexivity].
          -- split; [exact Hp|]. exists a', b'. split; [reflexivity|right; exact Ha'].
        * intros (Hp & a' & b' & -> & [<-|Ha']).
          -- left. exists b'. split; [reflexivity|]. apply B2, Hp.
          -- right. split; [exact Hp|]. exists a', b'. auto.
      + rewrite app_length, map_length, B3, A3. cbn. lia. }
  eapply exactly_ext; [|apply (H Os (incl_refl _) HN)]. intros x. split; [tauto|]. intros Hp. split; [exact Hp|]. apply HP, Hp.
Qed.
Lemma exactly_and A B c c' (P : A -> Prop) (Q : B -> Prop) : exactly c P -> exactly c' Q -> exactly (c * c') (fun x => P (fst x) /\ Q (snd x)).
Proof.
  intros (l & A1 & A2 & A3) HQ. rewrite <- A3. apply (exactly_pairs A B (A * B) pair l c').
  - intros a b a' b' E. injection E as -> ->. auto.
  - exact A1.
  - intros a Ha. cbn. eapply exactly_ext; [|exact HQ]. intros b. apply A2 in Ha. tauto.
  - intros [a b] [Hp _]. exists a, b. split; [reflexivity|]. apply A2, Hp.
Qed.

(* ---- one sampling ---- *)

(** Picks offset [o]: the element there, and the others (the first one in its place). *)
Definition rest_of (l : list nat) (o : nat) : list nat := match o with 0 => tl l | S o' => upd (tl l) o' (hd 0 l) end.
Fixpoint shuf (m : nat) (ds l : list nat) : list nat :=
  match m with 0 => l | S m' => nth (hd 0 ds) l 0 :: shuf m' (tl ds) (rest_of l (hd 0 ds)) end.

Lemma upd_app A (p l : list A) n x : upd (p ++ l) (length p + n) x = p ++ upd l n x.
Proof.
  apply nth_error_ext. intros k. rewrite nth_error_upd, app_length. destruct (Nat.lt_ge_cases k (length p)) as [H|H].
  - rewrite !nth_error_app1 by exact H. replace (length p + n =? k) with false by lia. reflexivity.
  - rewrite !nth_error_app2 by exact H. rewrite nth_error_upd. destruct (Nat.eqb_spec (length p + n) k) as [E|E].
    + replace (n =? k - length p) with true by lia. replace (length p + n <? length p + length l) with (n <? length l); [reflexivity|].
      destruct (Nat.ltb_spec n (length l)), (Nat.ltb_spec (length p + n) (length p + length l)); lia.
    + replace (n =? k - length p) with false by lia. reflexivity.
Qed.
Lemma swap_pick p l o : o < length l -> swap (p ++ l) (length p) (length p + o) = Ok (p ++ nth o l 0 :: rest_of l o).
Proof.
  intros Ho. destruct (swap_ok _ (p ++ l) (length p) (length p + o)) as (x & y & Ex & Ey & E); [rewrite app_length; lia..|].
  rewrite E. f_equal. rewrite nth_error_app2 in Ex, Ey by lia. replace (length p + o - length p) with o in Ey by lia. rewrite Nat.sub_diag in Ex.
  replace (upd (p ++ l) (length p) y) with (upd (p ++ l) (length p + 0) y) by (f_equal; lia). rewrite !upd_app. f_equal.
  destruct l as [|z l]; [cbn in Ho; lia|]. cbn in Ex. injection Ex as <-. rewrite (nth_error_nth _ _ 0 Ey).
  destruct o as [|o]; cbn; cbn in Ey; [injection Ey as <-|]; reflexivity.
Qed.
Lemma rest_length l o : o < length l -> length (rest_of l o) = length l - 1.
Proof. intros Ho. destruct l as [|x l]; [cbn in Ho; lia|]. destruct o; cbn; rewrite ?upd_length; lia. Qed.
Lemma rest_perm l o : o < length l -> Permutation l (nth o l 0 :: rest_of l o).
Proof.
  intros Ho. eapply (swap_perm _ l _ 0 o). exact (swap_pick [] l o Ho).
Qed.
Lemma offsets_cons n m o ds : offsets n (S m) (o :: ds) <-> o < n /\ offsets (n - 1) m ds.
Proof.
  unfold offsets. cbn [length]. split.
  - intros [HL H]. split; [specialize (H 0 o eq_refl); lia|]. split; [lia|]. intros i x Hx. specialize (H (S i) x Hx). lia.
  - intros [Ho [HL H]]. split; [lia|]. intros [|i] x Hx; cbn in Hx; [injection Hx as <-; lia|]. specialize (H i x Hx). lia.
Qed.
Lemma shuf_loop m : forall p l ds rest, offsets (length l) m ds -> m <= length l ->
  shuffle_loop (length p + length l) (seq (length p) m) (stream ds rest) (p ++ l) = Ok (p ++ shuf m ds l, rest).
Proof.
  induction m as [|m IH]; intros p l ds rest Hd Hm.
  - destruct Hd as [HL _]. destruct ds; [|discriminate]. reflexivity.
  - destruct ds as [|o ds]; [destruct Hd; discriminate|]. apply offsets_cons in Hd as [Ho Hd]. cbn [seq shuffle_loop].
    unfold gen_range. replace (length p <? length p + length l) with true by lia. cbn [stream].
    replace (length p + length l - length p) with (length l) by lia. rewrite Nat.mod_small by exact Ho. cbn [rbind].
    rewrite swap_pick by exact Ho. cbn [rbind].
    pose proof (rest_length l o Ho) as HR.
    specialize (IH (p ++ [nth o l 0]) (rest_of l o) ds rest). rewrite HR, app_length in IH. cbn [length] in IH.
    replace (length p + 1 + (length l - 1)) with (length p + length l) in IH by lia. replace (length p + 1) with (S (length p)) in IH by lia.
    rewrite <- !app_assoc in IH. cbn [app shuf hd tl] in *.
    change (fun k => stream ds rest k) with (stream ds rest). apply IH; [exact Hd|lia].
Qed.
Lemma shuf_length m : forall ds l, offsets (length l) m ds -> m <= length l -> length (shuf m ds l) = length l.
Proof.
  induction m as [|m IH]; intros ds l Hd Hm; [reflexivity|]. destruct ds as [|o ds]; [destruct Hd; discriminate|]. apply offsets_cons in Hd as [Ho Hd].
  cbn [shuf length hd tl]. rewrite IH, rest_length; rewrite ?rest_length; try assumption; lia.
Qed.

Lemma in_positions l T : NoDup l -> NoDup T -> incl T l -> exists Os, NoDup Os /\ length Os = length T /\ forall o, In o Os <-> o < length l /\ In (nth o l 0) T.
Proof.
  intros Hl HT Hi. exists (filter (fun o => if in_dec Nat.eq_dec (nth o l 0) T then true else false) (seq 0 (length l))).
  assert (forall o, In o (filter (fun o => if in_dec Nat.eq_dec (nth o l 0) T then true else false) (seq 0 (length l))) <-> o < length l /\ In (nth o l 0) T) as H.
  { intros o. rewrite filter_In, in_seq. destruct (in_dec Nat.eq_dec (nth o l 0) T); intuition (try lia; try discriminate). }
  split; [apply NoDup_filter, seq_NoDup|]. split; [|exact H].
  rewrite <- (map_length (fun o => nth o l 0)). apply Permutation_length, NoDup_Permutation; [|exact HT|].
  - remember (filter _ _) as Os eqn:E. assert (NoDup Os) as HO by (rewrite E; apply NoDup_filter, seq_NoDup).
    assert (forall o, In o Os -> o < length l) as Hb by (intros o Ho; apply H, Ho). clear E H.
    induction HO as [|o Os Hno HO IH]; cbn; constructor; [|apply IH; intros; apply Hb; right; assumption].
    rewrite in_map_iff. intros (o' & E & Ho'). apply Hno. replace o with o'; [exact Ho'|].
    apply (proj1 (NoDup_nth l 0) Hl); [apply Hb; right; exact Ho'|apply Hb; left; reflexivity|exact E].
  - intros x. rewrite in_map_iff. split.
    + intros (o & <- & Ho). apply H, Ho.
    + intros Hx. destruct (In_nth l x 0 (Hi x Hx)) as (o & Ho & E). exists o. split; [exact E|]. apply H. rewrite E. auto.
Qed.

Lemma shuf_count m : forall l T, NoDup l -> NoDup T -> incl T l -> length T = m ->
  exactly (fact m) (fun ds => offsets (length l) m ds /\ Permutation (firstn m (shuf m ds l)) T).
Proof.
  induction m as [|m IH]; intros l T Hl HT Hi HLT.
  - apply (exactly_one _ _ []). intros ds. destruct T; [|discriminate]. cbn. split.
    + intros [[H _] _]. destruct ds; [reflexivity|discriminate].
    + intros ->. split; [split; [reflexivity|]|constructor]. intros [|i] o E; discriminate.
  - destruct (in_positions l T Hl HT Hi) as (Os & HO & HLO & HOs).
    replace (fact (S m)) with (length Os * fact m) by (rewrite HLO, HLT; reflexivity).
    apply (exactly_pairs nat (list nat) (list nat) cons Os (fact m)).
    + intros a b a' b' E. injection E as -> ->. auto.
    + exact HO.
    + intros o Ho. apply HOs in Ho as [Ho HoT].
      destruct (in_split _ _ HoT) as (T1 & T2 & ET). set (T' := T1 ++ T2).
      assert (Permutation T (nth o l 0 :: T')) as HPT by (rewrite ET; symmetry; apply Permutation_middle).
      pose proof (rest_perm l o Ho) as HPl. pose proof (rest_length l o Ho) as HR.
      eapply exactly_ext; [|apply (IH (rest_of l o) T')].
      * intros ds. rewrite offsets_cons, HR. cbn [shuf hd tl firstn]. split.
        -- intros [Hd Hp]. split; [auto|]. rewrite HPT. constructor. exact Hp.
        -- intros [[_ Hd] Hp]. split; [exact Hd|]. rewrite HPT in Hp. apply Permutation_cons_inv in Hp. exact Hp.
      * eapply Permutation_NoDup in HPl; [|exact Hl]. inversion HPl; assumption.
      * eapply Permutation_NoDup in HPT; [|exact HT]. inversion HPT; assumption.
      * intros x Hx. assert (In x l) as Hxl. { apply Hi. eapply Permutation_in; [symmetry; exact HPT|right; exact Hx]. }
        eapply Permutation_in in Hxl; [|exact HPl]. destruct Hxl as [E|]; [|assumption]. exfalso.
        eapply Permutation_NoDup in HPT; [|exact HT]. inversion HPT; subst. auto.
      * apply Permutation_length in HPT. cbn in HPT. lia.
    + intros ds [Hd Hp]. destruct ds as [|o ds]; [destruct Hd; discriminate|]. exists o, ds. split; [reflexivity|]. apply HOs.
      apply offsets_cons in Hd as [Ho _]. split; [exact Ho|]. cbn [shuf hd tl firstn] in Hp. eapply Permutation_in; [exact Hp|left; reflexivity].
Qed.
Lemma offsets_count k : forall n, k <= n -> exactly (falling n k) (offsets n k).
Proof.
  induction k as [|k IH]; intros n Hk.
  - apply (exactly_one _ _ []). intros ds. unfold offsets. split.
    + intros [H _]. destruct ds; [reflexivity|discriminate].
    + intros ->. split; [reflexivity|]. intros [|i] o E; discriminate.
  - cbn [falling]. replace (n * falling (n - 1) k) with (length (seq 0 n) * falling (n - 1) k) by (rewrite seq_length; reflexivity).
    apply (exactly_pairs nat (list nat) (list nat) cons (seq 0 n)).
    + intros a b a' b' E. injection E as -> ->. auto.
    + apply seq_NoDup.
    + intros o Ho. apply in_seq in Ho. eapply exactly_ext; [|apply (IH (n - 1)); lia]. intros ds. rewrite offsets_cons. intuition lia.
    + intros ds Hd. destruct ds as [|o ds]; [destruct Hd; discriminate|]. exists o, ds. split; [reflexivity|]. apply offsets_cons in Hd as [Ho _]. apply in_seq. lia.
Qed.

Lemma sort_eq T l : increasing T -> sort_unstable l = T <-> Permutation l T.
Proof.
  intros HT. split.
  - intros <-. apply sort_perm.
  - intros HP. apply increasing_ext; [|exact HT|].
    + apply sorted_nodup_increasing; [apply sort_sorted|]. eapply Permutation_NoDup; [|apply increasing_nodup, HT]. rewrite <- HP. apply sort_perm.
    + intros x. split; apply Permutation_in; rewrite <- HP; [symmetry|]; apply sort_perm.
Qed.
Lemma shuffle_stream ds rest k buf : offsets (length buf) k ds -> k <= length buf ->
  shuffle_first_k (stream ds rest) k buf = Ok (sort_unstable (firstn k (shuf k ds buf)) ++ skipn k (shuf k ds buf), rest).
Proof.
  intros Hd Hk. unfold shuffle_first_k. pose proof (shuf_loop k [] buf ds rest Hd Hk) as E. cbn [length app Nat.add] in E. rewrite E. cbn [rbind].
  unfold subslice. rewrite shuf_length by assumption. replace (0 <=? k) with true by lia. replace (k <=? length buf) with true by lia. cbn [andb rbind].
  unfold sub. cbn [skipn]. rewrite Nat.sub_0_r. reflexivity.
Qed.
Lemma firstn_sorted ds k buf : offsets (length buf) k ds -> k <= length buf ->
  firstn k (sort_unstable (firstn k (shuf k ds buf)) ++ skipn k (shuf k ds buf)) = sort_unstable (firstn k (shuf k ds buf)).
Proof.
  intros Hd Hk. rewrite firstn_app. assert (length (sort_unstable (firstn k (shuf k ds buf))) = k) as HL.
  { rewrite <- (Permutation_length (sort_perm _)), firstn_length, shuf_length by assumption. lia. }
  rewrite HL, Nat.sub_diag, firstn_O, app_nil_r, firstn_all2 by lia. reflexivity.
Qed.

(* ---- one update ---- *)
From Verif Require Import BitModel DatasetProofs3 DatasetProofs4 DatasetProofs5.

Section Update.
Variable O : numops.
Variable cfg : config O.
Variable d : data O.
Notation dsinv := (dsinv O cfg d).

Lemma update_feature_static dbg lc ex grad bounds (s : inner O) u s' : update_feature dbg cfg lc ex grad bounds s u = Ok s' ->
  in_rng s' = in_rng s /\ in_useful s' = in_useful s /\ in_nactive_features s' = in_nactive_features s /\ in_nactive_examples s' = in_nactive_examples s.
Proof.
  unfold update_feature. intros H. apply rbind_ok in H as (f & _ & H). apply rbind_ok in H as (ft & _ & H). destruct ft.
  - destruct lc; [|injection H as <-; auto]. unfold update_locard_cat in H. repeat (apply rbind_ok in H as (? & _ & H)). injection H as <-. cbn. auto.
  - unfold update_hicard_cat in H. apply rbind_ok in H as (? & _ & H). apply rbind_ok in H as (? & _ & H).
    apply rbind_ok in H as ((? & ?) & _ & H). repeat (apply rbind_ok in H as (? & _ & H)). injection H as <-. cbn. auto.
  - unfold update_num in H. apply rbind_ok in H as (? & _ & H). apply rbind_ok in H as (? & _ & H).
    apply rbind_ok in H as ((? & ?) & _ & H). repeat (apply rbind_ok in H as (? & _ & H)). injection H as <-. cbn. auto.
Qed.
Lemma update_features_static dbg lc ex grad bounds us : forall (s s' : inner O), foldM (update_feature dbg cfg lc ex grad bounds) us s = Ok s' ->
  in_rng s' = in_rng s /\ in_useful s' = in_useful s /\ in_nactive_features s' = in_nactive_features s /\ in_nactive_examples s' = in_nactive_examples s.
Proof.
  induction us as [|u us IH]; intros s s' H; cbn [foldM] in H; [injection H as <-; auto|].
  apply rbind_ok in H as (s1 & E1 & H). destruct (update_feature_static _ _ _ _ _ _ _ _ E1) as (A & B & C & D). destruct (IH _ _ H) as (A' & B' & C' & D').
  repeat split; congruence.
Qed.

Definition shuffled (on : bool) (k : nat) (ds buf : list nat) : list nat :=
  if on then sort_unstable (firstn k (shuf k ds buf)) ++ skipn k (shuf k ds buf) else buf.

Lemma update_effect dbg s nf kf n k eon df de rest grad bounds s' :
  in_rng (ds_inner s) = stream df (stream de rest) ->
  length (in_useful (ds_inner s)) = nf -> in_nactive_features (ds_inner s) = kf -> in_nactive_examples (ds_inner s) = k ->
  example_sampling_enabled s = eon -> (eon = true -> length (ds_index_buffer s) = n /\ k <= n) ->
  skip_update (c_sample_freq cfg) (ds_update_count s + 1) = false ->
  update_draws nf kf n k eon (df, de) ->
  dataset_update dbg cfg s grad bounds = Ok s' ->
  in_rng (ds_inner s') = rest /\ in_useful (ds_inner s') = shuffled (kf <? nf) kf df (in_useful (ds_inner s)) /\
  ds_index_buffer s' = shuffled eon k de (ds_index_buffer s) /\ in_nactive_features (ds_inner s') = kf /\ in_nactive_examples (ds_inner s') = k.
Proof.
  intros Hrng Hnf Hkf Hk Heon Hn Hskip [Hdf Hde] H. unfold dataset_update in H. rewrite Hskip in H. cbn [fst snd] in *.
  apply rbind_ok in H as (i1 & E1 & H).
  assert (in_rng i1 = stream de rest /\ in_useful i1 = shuffled (kf <? nf) kf df (in_useful (ds_inner s)) /\ in_nactive_features i1 = kf /\ in_nactive_examples i1 = k /\
          length (in_useful i1) = nf) as (R1 & U1 & F1 & X1 & _).
  { unfold sample_features, in_feature_sampling_enabled, initialize_supercats in E1. cbn [in_useful in_nactive_features in_rng in_nactive_examples] in E1.
    rewrite Hnf, Hkf in E1. unfold shuffled. destruct (Nat.ltb_spec kf nf) as [Hlt|Hge].
    - rewrite Hrng in E1. rewrite <- Hnf in Hdf. rewrite shuffle_stream in E1 by (try assumption; lia). cbn [rbind] in E1. injection E1 as <-.
      cbn [in_rng in_useful in_nactive_features in_nactive_examples]. do 4 (split; [auto|]).
      rewrite app_length, <- (Permutation_length (sort_perm _)), <- app_length, firstn_skipn, shuf_length by (try assumption; lia). exact Hnf.
    - subst df. injection E1 as <-. cbn [in_rng in_useful in_nactive_features in_nactive_examples]. auto. }
  assert (example_sampling_enabled (mk_ds i1 (ds_index_buffer s) (ds_update_count s + 1)) = eon) as Heon' by exact Heon.
  rewrite Heon' in H. destruct eon.
  - destruct (Hn eq_refl) as [HL Hle]. apply rbind_ok in H as (s2 & E2 & H). apply rbind_ok in H as (ex & Eex & H). apply rbind_ok in H as (i3 & E3 & H). injection H as <-.
    unfold sample_examples, nactive_examples in E2. cbn [ds_inner ds_index_buffer] in E2. rewrite R1, X1 in E2. rewrite <- HL in Hde.
    rewrite shuffle_stream in E2 by (try assumption; lia). cbn [rbind] in E2. injection E2 as <-.
    apply update_features_static in E3 as (A & B & C & D). cbn [ds_inner in_rng in_useful in_nactive_features in_nactive_examples ds_index_buffer] in *.
    rewrite A, B, C, D. cbn [shuffled]. auto.
  - subst de. cbn [shuffled]. destruct (in_has_non_locard i1).
    + apply rbind_ok in H as (i2 & E2 & H). injection H as <-. apply update_features_static in E2 as (A & B & C & D). cbn [ds_inner ds_index_buffer]. rewrite A, B, C, D. auto.
    + injection H as <-. cbn [ds_inner ds_index_buffer]. auto.
Qed.
End Update.
