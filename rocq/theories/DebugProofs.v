(** Debug builds: on sound data the debug assertions of the data set hold. *)
From Coq Require Import Permutation Sorting.Sorted.
From Verif Require Import Base BaseProofs BitModel BitSpec BitProofs BitProofs2 SimdModel SliceProofs2 Num DataModel BinnerModel BinnerSpec BinnerProofs Config
  DatasetModel DatasetSpec DatasetProofs DatasetProofs2 DatasetProofs3 DatasetProofs4 DatasetProofs5 BoostSpec TotalSpec TotalProofs DebugModel DebugSpec.

Lemma rassert_true b : b = true -> rassert b = Ok tt.
Proof. intros ->. reflexivity. Qed.
Ltac passes := rewrite rassert_true by assumption; cbn [rbind].

(* --- ranks --- *)
Section Rank.
Variables (B R : Type) (rzero : R) (rle : R -> R -> bool) (radd : R -> R -> R) (w : B -> R).
Notation cum := (cumulative rzero radd w).

(** A rank inside the bins: not below zero, not above the total. *)
Definition rank_inside (bins : list B) (r : R) : Prop :=
  rle rzero r = true /\ rle r (cum bins (length bins)) = true /\ forall k, k <= length bins -> rle (cum bins k) r = false -> rle r (cum bins k) = true.

Lemma rank_next_same bins r st i st' : at_bin B R rzero radd w bins st -> rank_inside bins r -> rank_next rle radd w bins r st = Ok (i, st') ->
  rank_next_dbg B R rzero rle radd w bins r st = Ok (i, st') /\ at_bin B R rzero radd w bins st'.
Proof.
  intros Hat (H0 & HT & Ht) H. unfold rank_next in H. unfold rank_next_dbg. rewrite H0. cbn [rassert rbind].
  destruct (rank_loop rle radd w (skipn (ri_idx st) bins) r st) as (st1 & rest) eqn:E.
  destruct (rank_loop_ok B R rzero rle radd w bins r _ _ _ _ Hat eq_refl E) as ([A1 A2] & _ & _ & Hs).
  assert (rle r (ri_accum st1) = true) as Hr.
  { rewrite A2. destruct (Nat.eq_dec (ri_idx st1) (length bins)) as [->|Hn]; [exact HT|]. apply Ht; [exact A1|]. apply Hs. lia. }
  rewrite Hr. cbn [rassert rbind]. rewrite (proj2 (Nat.leb_le _ _) A1). cbn [rassert rbind].
  split; [exact H|]. destruct (ri_idx st1) as [|k] eqn:Ek; [discriminate|]. injection H as <- <-. split; [rewrite Ek; exact A1|rewrite Ek; exact A2].
Qed.
Lemma ranks_of_same bins : forall ranks st is, at_bin B R rzero radd w bins st -> (forall r, In r ranks -> rank_inside bins r) ->
  ranks_of rle radd w bins ranks st = Ok is -> ranks_of_dbg B R rzero rle radd w bins ranks st = Ok is.
Proof.
  induction ranks as [|r t IH]; intros st is Hat Hr H; cbn [ranks_of ranks_of_dbg] in *; [exact H|].
  apply rbind_ok in H as ((i & st') & E & H). destruct (rank_next_same bins r st i st' Hat (Hr r (or_introl eq_refl)) E) as [Ed Hat'].
  rewrite Ed. cbn [rbind]. apply rbind_ok in H as (is' & E2 & H). rewrite (IH st' is' Hat'); [exact H|intros x Hx; apply Hr; right; exact Hx|exact E2].
Qed.
Lemma at_start bins : at_bin B R rzero radd w bins (mk_ri rzero rzero 0).
Proof. split; [cbn; lia|reflexivity]. Qed.
End Rank.

(* --- filling the masks --- *)
Lemma fill_same get_cat get_cat' : forall examples start bvs bvs',
  (forall j c, In j examples -> get_cat j = Ok c -> get_cat' j = Ok c /\ c <= length bvs) ->
  fill_loop get_cat examples start bvs = Ok bvs' -> fill_loop_dbg get_cat' examples start bvs = Ok bvs'.
Proof.
  induction examples as [|j t IH]; intros start bvs bvs' Hg H; cbn [fill_loop fill_loop_dbg] in *; [exact H|].
  apply rbind_ok in H as (c & Ec & H). destruct (Hg j c (or_introl eq_refl) Ec) as [E' Hc]. rewrite E'. cbn [rbind].
  rewrite (proj2 (Nat.leb_le _ _) Hc). cbn [rassert rbind].
  destruct (c <? length bvs) eqn:Ecl; [|apply IH; [intros k x Hk; apply Hg; right; exact Hk|exact H]].
  apply rbind_ok in H as (bv & Eb & H). rewrite Eb. cbn [rbind]. apply rbind_ok in H as (bv1 & Eb1 & H). rewrite Eb1. cbn [rbind].
  apply rbind_ok in H as (bvs1 & Es & H). rewrite Es. cbn [rbind]. apply set_idx_ok in Es as [Hlt ->].
  apply IH; [|exact H]. intros k x Hk Ek. rewrite upd_length. apply Hg; [right; exact Hk|exact Ek].
Qed.
Lemma accumulate_same L bvs bvs' : bvs_wf L bvs -> accumulate_bitvecs bvs = Ok bvs' -> accumulate_dbg bvs = Ok bvs'.
Proof.
  destruct bvs as [|b0 t]; cbn [accumulate_bitvecs accumulate_dbg]; [discriminate|]. intros HW H. injection H as <-. revert b0 HW.
  induction t as [|b1 t IH]; intros b0 HW; cbn [accumulate_loop accumulate_loop_dbg]; [reflexivity|].
  inversion HW as [|? ? [W0 L0] HW1]; subst. inversion HW1 as [|? ? [W1 L1] HW2]; subst.
  rewrite L1, Nat.eqb_refl. cbn [rassert rbind]. destruct (or_assign_ok b1 b0 W1 W0) as (Wo & Lo & _). rewrite IH; [reflexivity|].
  constructor; [split; [exact Wo|lia]|]. exact HW2.
Qed.
Lemma leading_le A (lt : A -> A -> bool) splits x : leading_below lt splits x <= length splits.
Proof. induction splits as [|s t IH]; cbn; [lia|]. destruct (lt s x); lia. Qed.

(* --- counting binner --- *)
Lemma total_is_sum (bins : list N) : cumulative 0%N N.add (fun x => x) bins (length bins) = sumN bins.
Proof.
  unfold cumulative. rewrite firstn_all, map_id. assert (forall l a, fold_left N.add l a = (a + sumN l)%N) as H; [|rewrite H; lia].
  induction l as [|x l IH]; intros a; cbn; [lia|]. rewrite IH. lia.
Qed.
Lemma sumN_upd (l : list N) i x y : nth_error l i = Some x -> (sumN (upd l i y) + x = sumN l + y)%N.
Proof. revert i. induction l as [|z l IH]; intros [|i] H; cbn in H; try discriminate; cbn [upd sumN]; [injection H as ->; lia|]. specialize (IH i H). lia. Qed.
Lemma insert_counts O (items : list (num O * N)) : forall b b' : binner O N, (sumN (bn_bins b) + sumN (map snd items) < 2 ^ 32)%N ->
  binner_insert_all b (map (fun it => (fst it, u32_inc (snd it))) items) = Ok b' -> sumN (bn_bins b') = (sumN (bn_bins b) + sumN (map snd items))%N.
Proof.
  induction items as [|(v, k) t IH]; intros b b' Hs H; cbn [map binner_insert_all fst snd] in H; [injection H as <-; cbn; lia|].
  apply rbind_ok in H as (b1 & E1 & H). unfold binner_insert in E1. apply rbind_ok in E1 as (x & Ex & E1). apply rbind_ok in E1 as (bins & Eb & E1). injection E1 as <-.
  apply set_idx_ok in Eb as [_ ->]. apply idx_ok in Ex. pose proof (sumN_upd _ _ _ (u32_inc k x) Ex) as HU. cbn [map sumN snd] in *.
  assert (x <= sumN (bn_bins b))%N as Hx. { clear -Ex. revert Ex. generalize (get_bin b v). generalize (bn_bins b). induction l as [|z l IHl]; intros [|n] E; cbn in *; try discriminate; [injection E as ->; lia|]. apply IHl in E. lia. }
  assert (u32_inc k x = x + k)%N as Hu. { unfold u32_inc. apply N.mod_small. change (2 ^ 32)%N with 4294967296%N in *. lia. }
  rewrite Hu in HU, H. apply IH in H; cbn [bn_bins] in *; [|lia]. rewrite H. lia.
Qed.
Lemma sumN_filter (l : list N) : sumN (filter (fun n => negb (N.eqb n 0)) l) = sumN l.
Proof. induction l as [|x l IH]; cbn; [reflexivity|]. destruct (N.eqb_spec x 0); cbn; lia. Qed.

Section Dbg.
Variable O : numops.
Variable cfg : config O.
Variable d : data O.
Hypothesis HT : trainable cfg d.
Hypothesis HC : whole_categories d.
Hypothesis Hn32 : (N.of_nat (d_nexamples d) < 2 ^ 32)%N.
Hypothesis Hrank : forall k i, 1 <= i <= c_max_nbins cfg -> k <= d_nexamples d ->
  (ntoZ O 0 4294967295 (nround O (nmul O (nofnat O i) (ndiv O (nofnat O k) (nofnat O (c_max_nbins cfg + 1))))) <= Z.of_nat k)%Z.
Variable gok : list (num O) -> Prop.
Notation dinv := (dinv O cfg d). Notation nact := (nact O cfg d). Notation locard := (locard O d).
Notation same_static := (same_static O). Notation dsinv := (dsinv O cfg d). Notation bvL := (bvL O cfg d).
Definition full_examples (ex : list nat) : Prop := length ex = nact /\ forall j, In j ex -> j < d_nexamples d.
Hypothesis Hnum : forall col grad lim ex r, gok grad -> full_examples ex -> num_candidates cfg col grad lim ex = Ok r -> num_candidates_dbg O cfg col grad lim ex = Ok r.

Lemma is_cat_whole (v : num O) : whole v -> is_cat O v = true.
Proof. intros [A B]. unfold is_cat. rewrite A, B. reflexivity. Qed.
Lemma cat_same col j c : (forall v, In v col -> whole v) -> cat_at col j = Ok c -> cat_at_dbg O col j = Ok c.
Proof.
  intros Hw H. unfold cat_at in H. apply rbind_ok in H as (v & Ev & H). unfold cat_at_dbg. rewrite Ev. cbn [rbind]. unfold into_cat_dbg.
  apply idx_ok in Ev. rewrite (is_cat_whole v (Hw v (nth_error_In _ _ Ev))). exact H.
Qed.
Lemma cat_in (col : list (num O)) j c : cat_at col j = Ok c -> exists v, In v col /\ c = into_cat v.
Proof. intros H. unfold cat_at in H. apply rbind_ok in H as (v & Ev & H). injection H as <-. apply idx_ok in Ev. exists v. split; [eapply nth_error_In, Ev|reflexivity]. Qed.

Lemma update_locard_same s f ex s' : dinv s -> In f (in_useful s) -> locard f -> update_locard_cat s f ex = Ok s' -> update_locard_dbg O s f ex = Ok s'.
Proof.
  intros Hinv Hf Hft H. unfold update_locard_cat in H. unfold update_locard_dbg. rewrite (dv_data _ _ _ s Hinv) in *.
  apply rbind_ok in H as (col & Ec & H). rewrite Ec. cbn [rbind]. apply rbind_ok in H as (nb & Enb & H). rewrite Enb. cbn [rbind].
  apply rbind_ok in H as (used & Eu & H). rewrite Eu. cbn [rbind]. apply rbind_ok in H as (bvs & Eb & H). rewrite Eb. cbn [rbind]. apply idx_ok in Eb.
  destruct (dv_bvs _ _ _ s Hinv f bvs Hf Eb) as [HW Em]. rewrite Enb in Em. injection Em as ->. rewrite Nat.eqb_refl. cbn [rassert rbind].
  apply rbind_ok in H as (bvs1 & E1 & H). unfold fill_bitvecs in E1.
  apply (dv_useful _ _ _ s Hinv) in Hf. unfold DatasetProofs3.locard in Hft.
  pose proof Enb as Enb'. unfold max_nbins in Enb'. rewrite Hft in Enb'. cbn [rbind] in Enb'. apply rbind_ok in Enb' as (card & Ecard & Enb'). injection Enb' as Enb'.
  rewrite (fill_same (cat_at col) (cat_at_dbg O col) ex 0 (zero_bitvecs bvs) bvs1); [cbn [rbind]; exact H| |exact E1].
  intros j c Hj Ej. split; [apply cat_same; [|exact Ej]; intros v Hv; apply (HC f _ col card v Hf Hft ltac:(discriminate) Ec Ecard Hv)|].
  destruct (cat_in col j c Ej) as (v & Hv & ->). pose proof (proj2 (HC f _ col card v Hf Hft ltac:(discriminate) Ec Ecard Hv)) as Hlt.
  destruct (zero_bitvecs_ok bvL bvs HW) as (_ & L0 & _). rewrite L0, <- Enb'. destruct (Nat.eqb_spec card 2), (Nat.eqb_spec card 1); lia.
Qed.

Lemma stats_same col grad : (forall v, In v col -> whole v) -> forall ex i st st', hicard_stats (O := O) col grad ex i st = Ok st' -> hicard_stats_dbg O col grad ex i st = Ok st'.
Proof.
  intros Hw. induction ex as [|j t IH]; intros i st st' H; cbn [hicard_stats hicard_stats_dbg] in *; [exact H|].
  apply rbind_ok in H as (c & Ec & H). rewrite (cat_same col j c Hw Ec). cbn [rbind]. apply rbind_ok in H as (e & Ee & H). rewrite Ee. cbn [rbind].
  apply rbind_ok in H as (g & Eg & H). rewrite Eg. cbn [rbind]. apply rbind_ok in H as (st1 & Es & H). rewrite Es. cbn [rbind]. apply IH, H.
Qed.
Lemma map_upd A B (f : A -> B) (l : list A) i x : map f (upd l i x) = upd (map f l) i (f x).
Proof. revert i. induction l as [|y l IH]; intros [|i]; cbn; try reflexivity. rewrite IH. reflexivity. Qed.
Lemma stats_sum col grad : forall ex i st st', (sumN (map snd st) + N.of_nat (length ex) < 2 ^ 32)%N -> hicard_stats (O := O) col grad ex i st = Ok st' ->
  (sumN (map snd st') = sumN (map snd st) + N.of_nat (length ex))%N.
Proof.
  change (2 ^ 32)%N with 4294967296%N. induction ex as [|j t IH]; intros i st st' Hs H; cbn [hicard_stats] in *; [injection H as <-; cbn; lia|].
  apply rbind_ok in H as (c & _ & H). apply rbind_ok in H as (e & Ee & H). apply rbind_ok in H as (g & _ & H). apply rbind_ok in H as (st1 & Es & H).
  apply set_idx_ok in Es as [_ ->]. apply idx_ok in Ee. cbn [length] in *.
  assert (nth_error (map snd st) c = Some (snd e)) as Em by (apply map_nth_error, Ee).
  pose proof (sumN_upd _ _ _ (u32_inc 1 (snd e)) Em) as HU.
  assert (snd e <= sumN (map snd st))%N as Hx. { clear -Em. revert Em. generalize c. generalize (map snd st). induction l as [|z l IHl]; intros [|n] E; cbn in *; try discriminate; [injection E as ->; lia|]. apply IHl in E. lia. }
  assert (u32_inc 1 (snd e) = snd e + 1)%N as Hu. { unfold u32_inc. apply N.mod_small. change (2 ^ 32)%N with 4294967296%N. lia. }
  rewrite Hu in HU. apply IH in H; rewrite map_upd in *; cbn [snd] in *; rewrite Hu in *; lia.
Qed.
Lemma map_repeat A B (f : A -> B) x k : map f (repeat x k) = repeat (f x) k.
Proof. induction k; cbn; congruence. Qed.
Lemma sumN_repeat0 k : sumN (repeat 0%N k) = 0%N.
Proof. induction k; cbn; lia. Qed.
Lemma mean_items_eq (stats : list (num O * N)) : mean_items stats = map (fun it => (fst it, u32_inc (snd it))) (filter (fun e => negb (N.eqb (snd e) 0)) stats).
Proof. reflexivity. Qed.
Lemma sum_means (st : list (num O * N)) : sumN (map snd (filter (fun e => negb (N.eqb (snd e) 0)) (map category_mean st))) = sumN (map snd st).
Proof.
  induction st as [|e t IH]; cbn [map filter sumN]; [reflexivity|]. assert (snd (category_mean e) = snd e) as -> by (unfold category_mean; destruct (N.eqb (snd e) 0); reflexivity).
  destruct (N.eqb_spec (snd e) 0) as [E|E]; cbn [negb map sumN]; [lia|]. rewrite IH. f_equal. unfold category_mean. destruct (N.eqb (snd e) 0); reflexivity.
Qed.

Lemma Forall2_in_r A B (P : A -> B -> Prop) l l' y : Forall2 P l l' -> In y l' -> exists x, In x l /\ P x y.
Proof. induction 1 as [|a b l l' H _ IH]; intros []; [subst; exists a; cbn; auto|]. destruct IH as (x & Hx & E); [assumption|]. exists x. cbn. auto. Qed.
Lemma hicard_groups_same col grad card bounds ex r : (forall v, In v col -> whole v) -> full_examples ex -> hicard_groups true cfg col grad card nact bounds ex = Ok r ->
  hicard_groups_dbg O cfg col grad card nact bounds ex = Ok r.
Proof.
  intros Hw [Hex _] H. unfold hicard_groups in H. unfold hicard_groups_dbg. pose proof HT as (_ & _ & _ & _ & Hm & _ & _ & Hna & _).
  apply rbind_ok in H as (st & Est & H). rewrite (stats_same col grad Hw _ _ _ _ Est). cbn [rbind].
  apply rbind_ok in H as (b0 & Eb0 & H). rewrite Eb0. cbn [rbind]. cbv zeta in *. apply rbind_ok in H as (b & Eb & H). rewrite Eb. cbn [rbind].
  apply rbind_ok in H as (ranks & Er & H). rewrite Er. cbn [rbind]. apply rbind_ok in H as (qs & Eq & H).
  assert (nact <= d_nexamples d) as Hle by (unfold DatasetProofs3.nact; lia).
  assert (sumN (bn_bins b) = N.of_nat nact) as Htot.
  { rewrite mean_items_eq in Eb. assert (bn_bins b0 = repeat 0%N QUANTILE_EST_NBINS) as B0 by (unfold binner_new in Eb0; repeat (apply rbind_ok in Eb0 as (? & _ & Eb0)); injection Eb0 as <-; reflexivity).
    apply stats_sum in Est; [|rewrite map_repeat; cbn [snd]; rewrite sumN_repeat0; lia]. rewrite map_repeat in Est. cbn [snd] in Est. rewrite sumN_repeat0 in Est.
    apply insert_counts in Eb; [rewrite Eb, B0, sumN_repeat0, sum_means, Est; lia|rewrite B0, sumN_repeat0, sum_means, Est; lia]. }
  unfold rank_iter_all in Eq. unfold rank_iter_all_dbg. rewrite (ranks_of_same N N 0%N N.leb N.add (fun x => x) (bn_bins b) ranks _ qs (at_start _ _ _ N.leb _ _ _)); [cbn [rbind]| |exact Eq].
  - rewrite map_length. apply ranks_of_length in Eq. apply mapM_length in Er. rewrite seq_length in Er. pose proof (dedup_length qs None) as HD.
    rewrite (proj2 (Nat.leb_le _ _)) by lia. cbn [rassert rbind]. exact H.
  - intros r0 Hr0. assert (r0 < N.of_nat nact)%N as Hlt.
    { apply mapM_ok in Er. destruct (Forall2_in_r _ _ _ _ _ r0 Er Hr0) as (i & Hi & Ei). apply in_seq in Hi. pose proof (Hrank nact i ltac:(lia) Hle) as HR.
      unfold hicard_rank, u32_pred in Ei. set (z := ntoZ _ _ _ _) in *. destruct (N.eqb_spec (Z.to_N z) 0); [discriminate|]. injection Ei as <-. lia. }
    split; [apply N.leb_le; lia|]. split; [rewrite total_is_sum, Htot; apply N.leb_le; lia|]. intros k _ Hk. apply N.leb_gt in Hk. apply N.leb_le. lia.
Qed.

Lemma update_hicard_same s f ex grad bounds s' : dinv s -> In f (in_useful s) -> feat_type_of d f = Ok HiCardCat -> full_examples ex ->
  update_hicard_cat true cfg s f ex grad bounds = Ok s' -> update_hicard_dbg O cfg s f ex grad bounds = Ok s'.
Proof.
  intros Hinv Hf Hft Hex H. unfold update_hicard_cat in H. unfold update_hicard_dbg. rewrite (dv_data _ _ _ s Hinv), (dv_nact _ _ _ s Hinv) in *.
  apply rbind_ok in H as (col & Ec & H). rewrite Ec. cbn [rbind]. apply rbind_ok in H as (card & Ecard & H). rewrite Ecard. cbn [rbind].
  apply rbind_ok in H as ((sw & scs) & Eg & H).
  assert (forall v, In v col -> whole v) as Hw. { intros v Hv. apply (dv_useful _ _ _ s Hinv) in Hf. apply (HC f _ col card v Hf Hft ltac:(discriminate) Ec Ecard Hv). }
  rewrite (hicard_groups_same col grad card bounds ex _ Hw Hex Eg). cbn [rbind]. cbv zeta in *.
  apply rbind_ok in H as (bvs & Eb & H). rewrite Eb. cbn [rbind]. apply idx_ok in Eb. destruct (dv_bvs _ _ _ s Hinv f bvs Hf Eb) as [HW _].
  apply rbind_ok in H as (bvs0 & E0 & H). rewrite E0. cbn [rbind]. apply subslice_first in E0 as [Hk ->].
  destruct (zero_bitvecs_ok bvL (firstn (length sw) bvs)) as (W0 & L0 & _); [apply Forall_firstn, HW|].
  apply rbind_ok in H as (bvs1 & E1 & H). unfold fill_bitvecs in E1.
  rewrite (fill_same (fun i => let* c := cat_at col i in idx scs c) (fun i => let* c := cat_at_dbg O col i in idx scs c) ex 0 _ bvs1); [cbn [rbind]| |exact E1].
  - apply rbind_ok in H as (bvs2 & E2 & H). rewrite (accumulate_same bvL bvs1 bvs2); [cbn [rbind]; exact H| |exact E2]. apply (fill_loop_ok _ _ _ _ _ _ W0 E1).
  - intros j c Hj Ej. apply rbind_ok in Ej as (k & Ek & Ej). rewrite (cat_same col j k Hw Ek). cbn [rbind]. split; [exact Ej|].
    rewrite L0, firstn_length_le by exact Hk. clear - Eg Ej. unfold hicard_groups in Eg. apply rbind_ok in Eg as (st & _ & Eg). apply rbind_ok in Eg as (b0 & _ & Eg).
    cbv zeta in Eg. apply rbind_ok in Eg as (b & _ & Eg). apply rbind_ok in Eg as (rk & _ & Eg). apply rbind_ok in Eg as (q & _ & Eg).
    apply (f_equal (fun r => match r with Ok p => snd p | _ => [] end)) in Eg as Es. apply (f_equal (fun r => match r with Ok p => fst p | _ => [] end)) in Eg as Ew. cbn [fst snd] in Es, Ew.
    rewrite Ew in Es. subst scs. apply idx_ok in Ej. rewrite nth_error_map in Ej. destruct (nth_error (map category_mean st) k) as [e|]; cbn in Ej; [|discriminate]. injection Ej as <-. apply leading_le.
Qed.

Lemma update_num_same s f ex grad s' : dinv s -> In f (in_useful s) -> feat_type_of d f = Ok Numerical -> full_examples ex -> gok grad ->
  update_num cfg s f ex grad = Ok s' -> update_num_dbg O cfg s f ex grad = Ok s'.
Proof.
  intros Hinv Hf Hft Hex Hg H. unfold update_num in H. unfold update_num_dbg. rewrite (dv_data _ _ _ s Hinv) in *.
  apply rbind_ok in H as (col & Ec & H). rewrite Ec. cbn [rbind]. apply rbind_ok in H as (lim & El & H). rewrite El. cbn [rbind].
  apply rbind_ok in H as ((cands & bn) & Eg & H). rewrite (Hnum col grad lim ex _ Hg Hex Eg). cbn [rbind].
  apply rbind_ok in H as (bvs & Eb & H). rewrite Eb. cbn [rbind]. apply idx_ok in Eb. destruct (dv_bvs _ _ _ s Hinv f bvs Hf Eb) as [HW _].
  apply rbind_ok in H as (bvs0 & E0 & H). rewrite E0. cbn [rbind]. apply subslice_first in E0 as [Hk ->].
  destruct (zero_bitvecs_ok bvL (firstn (length cands) bvs)) as (W0 & L0 & _); [apply Forall_firstn, HW|].
  apply rbind_ok in H as (bvs1 & E1 & H). unfold fill_bitvecs in E1.
  rewrite (fill_same (fun i => let* v := idx col i in idx (bn_bins bn) (get_bin bn v)) (fun i => let* v := idx col i in idx (bn_bins bn) (get_bin bn v)) ex 0 _ bvs1); [cbn [rbind]| |exact E1].
  - apply rbind_ok in H as (bvs2 & E2 & H). rewrite (accumulate_same bvL bvs1 bvs2); [cbn [rbind]; exact H| |exact E2]. apply (fill_loop_ok _ _ _ _ _ _ W0 E1).
  - intros j c Hj Ej. split; [exact Ej|]. rewrite L0, firstn_length_le by exact Hk. apply rbind_ok in Ej as (v & _ & Ej).
    destruct (num_candidates_ok _ _ _ _ _ _ _ _ Eg) as (_ & _ & _ & b2 & _ & Hb2). destruct (Hb2 v) as (c' & E' & ->). rewrite Ej in E'. injection E' as ->. apply leading_le.
Qed.

Lemma update_feature_same lc ex grad bounds s u s' : dinv s -> full_examples ex -> gok grad ->
  update_feature true cfg lc ex grad bounds s u = Ok s' -> update_feature_dbg O cfg lc ex grad bounds s u = Ok s'.
Proof.
  intros Hinv Hex Hg H. unfold update_feature in H. unfold update_feature_dbg. apply rbind_ok in H as (f & Ef & H). rewrite Ef. cbn [rbind].
  apply idx_ok in Ef. apply nth_error_In in Ef. rewrite (dv_data _ _ _ s Hinv) in *. apply rbind_ok in H as (ft & Eft & H). rewrite Eft. cbn [rbind]. destruct ft.
  - destruct lc; [|exact H]. eapply update_locard_same; eassumption.
  - eapply update_hicard_same; eassumption.
  - eapply update_num_same; eassumption.
Qed.
Lemma update_features_same lc ex grad bounds us : forall s s', dinv s -> length (in_supercats s) = d_nfeatures d -> full_examples ex -> gok grad ->
  foldM (update_feature true cfg lc ex grad bounds) us s = Ok s' -> foldM (update_feature_dbg O cfg lc ex grad bounds) us s = Ok s'.
Proof.
  induction us as [|u t IH]; intros s s' Hinv Hsc Hex Hg H; cbn [foldM] in *; [exact H|].
  apply rbind_ok in H as (s1 & E1 & H).
  assert (in_supercats s <> []) as Hne.
  { intros E. rewrite E in Hsc. cbn in Hsc. unfold update_feature in E1. apply rbind_ok in E1 as (f & Ef & _). apply idx_ok in Ef. pose proof (useful_lt _ _ _ _ _ Hinv (nth_error_In _ _ Ef)). lia. } rewrite (update_feature_same _ _ _ _ _ _ _ Hinv Hex Hg E1). cbn [rbind].
  destruct (update_feature_inv _ _ _ _ _ _ _ _ _ _ _ Hinv Hne E1) as (Hinv1 & _ & _ & S3 & _ & _ & _ & S7). apply IH; try assumption. congruence.
Qed.

Lemma dataset_update_same s grad bounds s' : dsinv s -> gok grad -> dataset_update true cfg s grad bounds = Ok s' -> dataset_update_dbg O cfg s grad bounds = Ok s'.
Proof.
  intros Hds Hg H. pose proof (ds_inv _ _ _ s Hds) as Hinv. unfold dataset_update in H. unfold dataset_update_dbg.
  destruct (init_supercats_ok _ _ _ _ Hinv) as (Hinv0 & _ & D0 & U0 & NF0 & B0 & N0 & L0 & C0 & SL0 & _ & K0).
  set (i0 := initialize_supercats (ds_inner s)) in *. cbv zeta in *. destruct (skip_update (c_sample_freq cfg) (ds_update_count s + 1)); [exact H|].
  apply rbind_ok in H as (i1 & E1 & H). rewrite E1. cbn [rbind]. destruct (sample_features_ok _ _ _ _ _ Hinv0 E1) as (Hinv1 & P1 & D1 & NF1 & B1 & N1 & L1 & C1 & S1).
  assert (length (in_supercats i1) = d_nfeatures d) as SL1 by congruence.
  pose proof HT as ((Hn & _) & _ & _ & _ & _ & _ & _ & Hna & Hall & _).
  destruct (example_sampling_enabled _) eqn:Esa.
  - apply rbind_ok in H as (s2 & E2 & H). rewrite E2. cbn [rbind]. apply rbind_ok in H as (ex & Eex & H). rewrite Eex. cbn [rbind].
    unfold sample_examples in E2. apply rbind_ok in E2 as ((buf & g) & Eb & E2). injection E2 as <-. cbn [ds_inner ds_index_buffer] in *.
    unfold nactive_examples in Eb, Eex. unfold active_examples, nactive_examples, nactive_features in *. cbn [ds_inner ds_index_buffer in_nactive_examples in_nactive_features] in *.
    rewrite (dv_nact _ _ _ _ Hinv1) in *. destruct (buffer_sampling _ _ _ s Hds) as [Hfr HPb]; [exact Esa|].
    assert (nact <= length (ds_index_buffer s)) as Hk. { rewrite <- (Permutation_length HPb), seq_length. unfold DatasetProofs3.nact. lia. }
    destruct (shuffle_ok (in_rng i1) nact (ds_index_buffer s) Hk) as (buf' & g' & Eb' & HP & HS). rewrite Eb in Eb'. injection Eb' as <- <-.
    apply subslice_first in Eex as [Hk2 ->]. apply rbind_ok in H as (i3 & E3 & H).
    erewrite update_features_same; [cbn [rbind]; exact H| |exact SL1| |exact Hg|exact E3].
    + pose proof (dinv_rng _ _ _ i1 g Hinv1) as Hd. rewrite (dv_nact _ _ _ _ Hinv1) in Hd. exact Hd.
    + split; [rewrite firstn_length; lia|]. intros j Hj. assert (In j buf) as Hj2 by (rewrite <- (firstn_skipn nact buf); apply in_or_app; left; exact Hj).
      apply (Permutation_in _ (Permutation_sym HP)) in Hj2. apply (Permutation_in _ (Permutation_sym HPb)) in Hj2. apply in_seq in Hj2. lia.
  - destruct (in_has_non_locard i1); [|exact H]. apply rbind_ok in H as (i3 & E3 & H). erewrite update_features_same; [cbn [rbind]; exact H|exact Hinv1|exact SL1| |exact Hg|exact E3].
    rewrite (dv_data _ _ _ _ Hinv1). split; [|intros j Hj; apply in_seq in Hj; lia]. rewrite seq_length. unfold DatasetProofs3.nact. symmetry. apply Hall.
    pose proof (ds_buf _ _ _ s Hds) as HB. destruct (nlt O (c_example_fraction cfg) (nofZ O 1)); [|reflexivity].
    unfold example_sampling_enabled in Esa. cbn [ds_index_buffer] in Esa. rewrite <- (Permutation_length HB), seq_length in Esa. destruct (d_nexamples d); [lia|discriminate].
Qed.

Lemma new_fold_same ex fs : forall s s', dinv s -> (forall f, In f fs -> In f (in_useful s)) ->
  foldM (fun s feat_id => let* ft := feat_type_of d feat_id in if is_locard ft then update_locard_cat s feat_id ex else Ok s) fs s = Ok s' ->
  foldM (fun s feat_id => let* ft := feat_type_of d feat_id in if is_locard ft then update_locard_dbg O s feat_id ex else Ok s) fs s = Ok s'.
Proof.
  induction fs as [|f t IH]; intros s s' Hinv Hin H; cbn [foldM] in *; [exact H|].
  apply rbind_ok in H as (s1 & E1 & H). apply rbind_ok in E1 as (ft & Eft & E1). rewrite Eft. cbn [rbind]. destruct (is_locard ft) eqn:El.
  - assert (locard f) as Hl by (unfold DatasetProofs3.locard; rewrite Eft; destruct ft; [reflexivity|discriminate|discriminate]).
    rewrite (update_locard_same s f ex s1 Hinv (Hin f (or_introl eq_refl)) Hl E1). cbn [rbind].
    destruct (update_locard_ok _ _ _ s f ex s1 Hinv (Hin f (or_introl eq_refl)) Hl E1) as (Hinv1 & (_ & _ & S3 & _) & _). apply IH; [exact Hinv1| |exact H].
    intros k Hk. rewrite S3. apply Hin. right. exact Hk.
  - injection E1 as <-. cbn [rbind]. apply IH; [exact Hinv| |exact H]. intros k Hk. apply Hin. right. exact Hk.
Qed.
Lemma dataset_new_same g s : dataset_new cfg d g = Ok s -> dataset_new_dbg O cfg d g = Ok s.
Proof.
  unfold dataset_new, dataset_new_dbg. intros H. apply rbind_ok in H as (i & Ei & H). rewrite Ei. cbn [rbind]. destruct (inner_new_ok _ _ _ _ _ Ei) as (Hinv & _).
  destruct (nlt O (c_example_fraction cfg) (nofZ O 1)); [exact H|]. apply rbind_ok in H as (s' & E' & H). rewrite (new_fold_same _ _ _ _ Hinv (fun _ h => h) E'). cbn [rbind]. exact H.
Qed.
End Dbg.
