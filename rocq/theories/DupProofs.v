(** Tables with copies of columns: the data set. *)
From Coq Require Import Permutation Sorted.
From Verif Require Import Base BaseProofs BitModel Num DataModel BinnerModel Config TreeModel DatasetModel DatasetSpec LearnerProofs AlikeProofs ColSpec ColProofs ColProofs2 WideSpec WideProofs WideProofs2 DupSpec.

(** Updating the cells of different features one after the other, seen from the outside. *)
Definition omerge {A} (old new : option A) : option A := match old with None => None | Some x => match new with Some y => Some y | None => Some x end end.
Section Char.
Variable O : numops.
Definition cmerge (c c2 : cell O) : cell O := mk_cell (omerge (ce_bv c) (ce_bv c2)) (omerge (ce_sc c) (ce_sc c2)) (omerge (ce_sp c) (ce_sp c2)) (omerge (ce_nb c) (ce_nb c2)).
Lemma put_merge A (l : list A) f o : nth_error (put l f o) f = omerge (nth_error l f) o.
Proof.
  destruct (Nat.lt_ge_cases f (length l)) as [H|H].
  - rewrite put_same' by exact H. apply nth_error_Some in H. unfold omerge. destruct (nth_error l f); [destruct o; reflexivity|contradiction].
  - assert (nth_error l f = None) as -> by (apply nth_error_None; exact H). apply nth_error_None. rewrite put_length. exact H.
Qed.
Lemma get_set i f c : get_cell (set_cell i f c) f = cmerge (get_cell i f) c.
Proof. unfold get_cell, set_cell, cmerge. cbn. rewrite !put_merge. reflexivity. Qed.
Definition lens (i : inner O) := (length (in_bitvecs i), length (in_supercats i), length (in_split_candidates i), length (in_used_nbins i)).
Variable F : nat -> cell O -> res (cell O).
Lemma cells_ok l : NoDup l -> forall i r, foldM (cell_step F) l i = Ok r ->
  (forall f, In f l -> exists c, F f (get_cell i f) = Ok c /\ get_cell r f = cmerge (get_cell i f) c) /\ (forall f, ~ In f l -> get_cell r f = get_cell i f) /\ lens r = lens i.
Proof.
  induction 1 as [|f l Hni _ IH]; intros i r E; cbn [foldM] in E; [apply Ok_eq in E; subst r; split; [intros ? []|split; reflexivity]|]. apply rbind_ok in E as (i1 & E1 & E). unfold cell_step, rmap in E1. apply rbind_ok in E1 as (c & Ec & E1). apply Ok_eq in E1. subst i1.
  destruct (IH _ _ E) as (H1 & H2 & H3). split; [|split].
  - intros g [<-|Hg]; [exists c; split; [exact Ec|]; rewrite (H2 f Hni); apply get_set|]. destruct (H1 g Hg) as (c' & Ec' & ->). rewrite get_other in * by (intros ->; contradiction). exists c'. auto.
  - intros g Hg. rewrite H2 by (intros X; apply Hg; right; exact X). apply get_other. intros ->. apply Hg. left. reflexivity.
  - rewrite H3. unfold lens, set_cell. cbn. rewrite !put_length. reflexivity.
Qed.
Lemma cells_run l : NoDup l -> forall i, (forall f, In f l -> exists c, F f (get_cell i f) = Ok c) -> exists r, foldM (cell_step F) l i = Ok r.
Proof.
  induction 1 as [|f l Hni _ IH]; intros i H; cbn [foldM]; [eauto|]. destruct (H f (or_introl eq_refl)) as (c & Ec). unfold cell_step at 1, rmap. rewrite Ec. cbn [rbind]. apply IH. intros g Hg. rewrite get_other by (intros ->; contradiction). apply H. right. exact Hg.
Qed.
End Char.

Lemma updates_are O dbg (cfg : config O) locard ex grad bounds l2 : forall l1 i, in_useful i = l1 ++ l2 ->
  foldM (update_feature dbg cfg locard ex grad bounds) (seq (length l1) (length l2)) i = foldM (cell_step (feat_cell O dbg cfg (in_data i) (in_nactive_examples i) locard ex grad bounds)) l2 i.
Proof.
  induction l2 as [|f l2 IH]; intros l1 i E; [reflexivity|]. cbn [length seq foldM]. rewrite (update_one O dbg cfg). assert (idx (in_useful i) (length l1) = Ok f) as -> by (apply idx_ok; rewrite E, nth_error_app2 by lia; rewrite Nat.sub_diag; reflexivity). cbn [rbind].
  destruct (cell_step _ i f) as [i1| | |] eqn:E1; cbn [rbind]; try reflexivity. assert (foldM (cell_step (feat_cell O dbg cfg (in_data i) (in_nactive_examples i) locard ex grad bounds)) [f] i = Ok i1) as E2 by (cbn [foldM]; rewrite E1; reflexivity).
  destruct (cell_keeps O _ _ _ _ E2) as (K1 & K2 & K3 & K4 & _). specialize (IH (l1 ++ [f]) i1). rewrite app_length in IH. cbn [length] in IH. replace (length l1 + 1) with (S (length l1)) in IH by lia. rewrite K1, K4 in IH. apply IH. rewrite K2, E, <- List.app_assoc. reflexivity.
Qed.

Section Dataset.
Variable O : numops.
Variable dbg : bool.
Variable cfg : config O.
Variables p q : nat -> nat.
Variables d d' : data O.
Hypothesis HD : duplicated p q d d'.
Notation nf := (d_nfeatures d).
Notation nf' := (d_nfeatures d').
Hypothesis HA : all_features cfg d'.
Let HW : wider p d d' := proj1 HD.
Let Hm : forall f g, f < g -> p f < p g := proj1 HW.
Let Hr : forall f, f < nf -> p f < nf' := proj1 (proj2 HW).
Lemma q_p f : f < nf -> q (p f) = f. Proof. apply HD. Qed.
Lemma q_lt g : g < nf' -> q g < nf. Proof. intros H. apply HD, H. Qed.
Lemma p_q g : g < nf' -> p (q g) <= g. Proof. intros H. apply HD, H. Qed.
Lemma nf_le : nf <= nf'.
Proof. assert (forall n, n <= p n) as H by (induction n as [|n IH]; [lia|]; pose proof (Hm n (S n)); lia). pose proof (Hr (nf - 1)). pose proof (H (nf - 1)). lia. Qed.
Lemma q_feature g : g < nf' -> get_feature d' g = get_feature d (q g). Proof. intros H. apply HD, H. Qed.
Lemma q_limits g : g < nf' -> feat_limits d' g = feat_limits d (q g). Proof. intros H. apply HD, H. Qed.
Lemma q_type g : g < nf' -> feat_type_of d' g = feat_type_of d (q g). Proof. intros H. apply HD, H. Qed.
Lemma q_card g : g < nf' -> feat_card d' g = feat_card d (q g). Proof. intros H. apply HD, H. Qed.
Lemma q_max g : g < nf' -> max_nbins d' g = max_nbins d (q g).
Proof. intros H. unfold max_nbins. rewrite q_type, q_card by exact H. rewrite (proj1 (proj2 HD)). reflexivity. Qed.

(** Lists with one item per feature. *)
Definition ql {A} (l l' : list A) : Prop := (forall g, g < nf' -> nth_error l' g = nth_error l (q g)) /\ ((l = [] /\ l' = []) \/ (length l = nf /\ length l' = nf')).
Lemma ql_repeat A (x : A) : ql (repeat x nf) (repeat x nf').
Proof. split; [|right; rewrite !repeat_length; auto]. intros g Hg. rewrite !(nth_error_repeat x) by (try exact Hg; apply q_lt, Hg). reflexivity. Qed.
Lemma ql_nil A : ql (@nil A) []. Proof. split; [|left; auto]. intros g _. destruct g, (q _); reflexivity. Qed.
Lemma ql_resize A (l l' : list (list A)) : ql l l' -> ql (vec_resize l nf []) (vec_resize l' nf' []).
Proof.
  intros [H [[-> ->]|[H1 H2]]]; unfold vec_resize; [cbn [length]; rewrite !Nat.sub_0_r; cbn [Nat.leb app]; apply ql_repeat|]. rewrite H1, H2, !Nat.leb_refl, !Nat.sub_diag. cbn [repeat]. rewrite !app_nil_r. split; auto.
Qed.
Lemma ql_map A B (h : A -> B) l l' : ql l l' -> ql (map h l) (map h l').
Proof. intros [H HL]. split; [intros g Hg; rewrite !nth_error_map, H by exact Hg; reflexivity|]. rewrite !map_length. destruct HL as [[-> ->]|HL]; [left; auto|right; exact HL]. Qed.
Lemma ql_idx A (l l' : list A) g : ql l l' -> g < nf' -> idx l' g = idx l (q g).
Proof. intros [H _] Hg. unfold idx. rewrite (H g Hg). reflexivity. Qed.

Definition orig (g : nat) : bool := p (q g) =? g.
Record qin (i i' : inner O) : Prop := {
  qi_rng : in_rng i' = in_rng i; qi_data : in_data i = d; qi_data' : in_data i' = d'; qi_all : in_nactive_features i = length (in_useful i); qi_all' : in_nactive_features i' = length (in_useful i'); qi_ne : in_nactive_examples i' = in_nactive_examples i;
  qi_nl : in_has_non_locard i' = in_has_non_locard i; qi_sorted : StronglySorted lt (in_useful i); qi_sorted' : StronglySorted lt (in_useful i'); qi_lt : forall f, In f (in_useful i) -> f < nf;
  qi_useful : forall g, In g (in_useful i') <-> g < nf' /\ In (q g) (in_useful i);
  qi_bv : ql (in_bitvecs i) (in_bitvecs i'); qi_sc : ql (in_supercats i) (in_supercats i'); qi_sp : ql (in_split_candidates i) (in_split_candidates i'); qi_nb : ql (in_used_nbins i) (in_used_nbins i') }.
Lemma ss_nodup l : StronglySorted lt l -> NoDup l.
Proof. induction 1 as [|x l _ IH HF]; constructor; [|exact IH]. rewrite Forall_forall in HF. intros X. apply HF in X. lia. Qed.
Lemma qin_cell i i' g : qin i i' -> g < nf' -> get_cell i' g = get_cell i (q g).
Proof. intros H Hg. unfold get_cell. rewrite (proj1 (qi_bv _ _ H) g Hg), (proj1 (qi_sc _ _ H) g Hg), (proj1 (qi_sp _ _ H) g Hg), (proj1 (qi_nb _ _ H) g Hg). reflexivity. Qed.
Lemma qcells (F F' : nat -> cell O -> res (cell O)) : (forall g c, g < nf' -> F' g c = F (q g) c) -> forall i i' r, qin i i' -> foldM (cell_step F) (in_useful i) i = Ok r -> exists r', foldM (cell_step F') (in_useful i') i' = Ok r' /\ qin r r'.
Proof.
  intros HF i i' r H E. destruct (cells_ok O F _ (ss_nodup _ (qi_sorted _ _ H)) _ _ E) as (H1 & H2 & H3).
  destruct (cells_run O F' _ (ss_nodup _ (qi_sorted' _ _ H)) i') as (r' & E'). { intros g Hg. apply (qi_useful _ _ H) in Hg as [Hg Hq]. destruct (H1 _ Hq) as (c & Ec & _). exists c. rewrite HF, (qin_cell _ _ _ H Hg) by exact Hg. exact Ec. }
  exists r'. split; [exact E'|]. destruct (cells_ok O F' _ (ss_nodup _ (qi_sorted' _ _ H)) _ _ E') as (H1' & H2' & H3').
  assert (forall g, g < nf' -> get_cell r' g = get_cell r (q g)) as HC.
  { intros g Hg. destruct (in_dec Nat.eq_dec g (in_useful i')) as [Hi|Hi].
    - destruct (H1' g Hi) as (c' & Ec' & ->). apply (qi_useful _ _ H) in Hi as [_ Hq]. destruct (H1 _ Hq) as (c & Ec & ->). rewrite HF, (qin_cell _ _ _ H Hg) in Ec' by exact Hg. rewrite Ec in Ec'. apply Ok_eq in Ec'. subst c'. rewrite (qin_cell _ _ _ H Hg). reflexivity.
    - rewrite (H2' g Hi), (qin_cell _ _ _ H Hg), H2; [reflexivity|]. intros Hq. apply Hi, (qi_useful _ _ H). auto. }
  destruct (cell_keeps O _ _ _ _ E) as (K1 & K2 & K3 & K4 & K5 & K6). destruct (cell_keeps O _ _ _ _ E') as (K1' & K2' & K3' & K4' & K5' & K6'). unfold lens in *. injection H3 as L1 L2 L3 L4. injection H3' as L1' L2' L3' L4'.
  assert (forall A (l l' l1 l1' : list A), ql l l' -> length l1 = length l -> length l1' = length l' -> (forall g, g < nf' -> nth_error l1' g = nth_error l1 (q g)) -> ql l1 l1') as HQ.
  { clear. intros A l l' l1 l1' [_ HL] E1 E2 HN. split; [exact HN|]. destruct HL as [[-> ->]|[A1 A2]]; [left; destruct l1, l1'; try discriminate; auto|right; lia]. }
  destruct H. constructor; rewrite ?K1, ?K2, ?K3, ?K4, ?K5, ?K6, ?K1', ?K2', ?K3', ?K4', ?K5', ?K6'; try assumption.
  - eapply HQ; [exact qi_bv0|exact L1|exact L1'|]. intros g Hg. exact (f_equal ce_bv (HC g Hg)).
  - eapply HQ; [exact qi_sc0|exact L2|exact L2'|]. intros g Hg. exact (f_equal ce_sc (HC g Hg)).
  - eapply HQ; [exact qi_sp0|exact L3|exact L3'|]. intros g Hg. exact (f_equal ce_sp (HC g Hg)).
  - eapply HQ; [exact qi_nb0|exact L4|exact L4'|]. intros g Hg. exact (f_equal ce_nb (HC g Hg)).
Qed.
Lemma qcell_same nact locard ex grad bounds g c : g < nf' -> feat_cell O dbg cfg d' nact locard ex grad bounds g c = feat_cell O dbg cfg d nact locard ex grad bounds (q g) c.
Proof.
  intros H. unfold feat_cell. rewrite q_type by exact H. destruct (feat_type_of d (q g)) as [[| |]| | |]; cbn [rbind]; try reflexivity.
  - unfold locard_cell. rewrite q_feature, q_max by exact H. reflexivity.
  - unfold hicard_cell. rewrite q_feature, q_card by exact H. reflexivity.
  - unfold num_cell. rewrite q_feature, q_limits by exact H. reflexivity.
Qed.
Lemma qupdate_all locard ex grad bounds i i' r : qin i i' -> foldM (update_feature dbg cfg locard ex grad bounds) (seq 0 (in_nactive_features i)) i = Ok r ->
  exists r', foldM (update_feature dbg cfg locard ex grad bounds) (seq 0 (in_nactive_features i')) i' = Ok r' /\ qin r r'.
Proof.
  intros H E. rewrite (qi_all _ _ H) in E. rewrite (qi_all' _ _ H). pose proof (updates_are O dbg cfg locard ex grad bounds (in_useful i) [] i eq_refl) as X. cbn [length] in X. rewrite X in E. pose proof (updates_are O dbg cfg locard ex grad bounds (in_useful i') [] i' eq_refl) as X'. cbn [length] in X'. rewrite X'.
  rewrite (qi_data _ _ H) in E. rewrite (qi_data' _ _ H), (qi_ne _ _ H). eapply qcells; [|exact H|exact E]. intros g c Hg. apply qcell_same, Hg.
Qed.

(** A fresh data set. *)
Definition useful_b (D : data O) (f : nat) : bool := match max_nbins D f with Ok nb => if nb =? 0 then false else match feat_limits D f with Ok lim => negb (neq O (fst lim) (snd lim)) | _ => false end | _ => false end.
Definition fresh (D : data O) (nact f : nat) : res (list blocks) := let* nb := max_nbins D f in mapM (fun _ => zero_bits nact) (seq 0 nb).
Definition step_ok (D : data O) (nact n f : nat) : Prop :=
  (exists nb, max_nbins D f = Ok nb /\ (nb <> 0 -> exists lim, feat_limits D f = Ok lim)) /\ (useful_b D f = true -> f < n /\ (exists ft, feat_type_of D f = Ok ft) /\ exists bvs, fresh D nact f = Ok bvs).
Definition nl_b (D : data O) (f : nat) : bool := useful_b D f && match feat_type_of D f with Ok ft => negb (is_locard ft) | _ => false end.
Lemma useful_ok D nact l : NoDup l -> forall u bv b r, foldM (useful_step D nact) l (u, bv, b) = Ok r ->
  (forall f, In f l -> step_ok D nact (length bv) f) /\ fst (fst r) = u ++ filter (useful_b D) l /\ snd r = b || existsb (nl_b D) l /\ length (snd (fst r)) = length bv /\
  (forall f, In f l -> useful_b D f = true -> exists bvs, fresh D nact f = Ok bvs /\ nth_error (snd (fst r)) f = Some bvs) /\ (forall f, ~ In f l \/ useful_b D f = false -> nth_error (snd (fst r)) f = nth_error bv f).
Proof.
  induction 1 as [|f l Hni _ IH]; intros u bv b r E; cbn [foldM] in E; [apply Ok_eq in E; subst r; cbn; rewrite app_nil_r, Bool.orb_false_r; split; [intros ? []|]; split; [reflexivity|]; split; [reflexivity|]; split; [reflexivity|]; split; [intros ? []|reflexivity]|]. apply rbind_ok in E as (st & E1 & E). unfold useful_step in E1.
  apply rbind_ok in E1 as (nb & En & E1). cbn [filter existsb].
  assert (forall X : Prop, (useful_b D f = false -> st = (u, bv, b) -> X) -> (useful_b D f = true -> nb <> 0 -> (exists lim, feat_limits D f = Ok lim) -> (exists ft bvs, feat_type_of D f = Ok ft /\ fresh D nact f = Ok bvs /\ f < length bv /\ st = (u ++ [f], upd bv f bvs, b || negb (is_locard ft))) -> X) -> X) as Hcase.
  { intros X HX HY. unfold useful_b in *. rewrite En in *. destruct (Nat.eqb_spec nb 0) as [H0|H0]; [apply Ok_eq in E1; apply HX; auto|]. apply rbind_ok in E1 as (lim & El & E1). rewrite El in *. destruct (neq O (fst lim) (snd lim)); [apply Ok_eq in E1; apply HX; auto|].
    apply rbind_ok in E1 as (ft & Et & E1). apply rbind_ok in E1 as (bvs & Eb & E1). apply rbind_ok in E1 as (bv1 & Es & E1). apply Ok_eq in E1. apply set_idx_ok in Es as [Hl ->]. apply HY; [reflexivity|exact H0|eauto|]. exists ft, bvs. split; [exact Et|]. split; [unfold fresh; rewrite En; exact Eb|]. split; [exact Hl|auto]. }
  apply Hcase; clear Hcase.
  - intros Hu ->. destruct (IH _ _ _ _ E) as (A1 & A2 & A3 & A4 & A5 & A6). unfold nl_b at 1. rewrite Hu. cbn [andb orb]. split; [|split; [exact A2|split; [exact A3|split; [exact A4|split]]]].
    + intros g [<-|Hg]; [|apply A1, Hg]. split; [|congruence]. exists nb. split; [exact En|]. intros H0. destruct (Nat.eqb_spec nb 0) as [|_]; [contradiction|]. apply rbind_ok in E1 as (lim & El & _). eauto.
    + intros g [<-|Hg]; [congruence|apply A5, Hg].
    + intros g [Hg|Hg]; [apply A6; left; intros X; apply Hg; right; exact X|apply A6; auto].
  - intros Hu Hn0 Hlim (ft & bvs & Et & Eb & Hl & ->). destruct (IH _ _ _ _ E) as (A1 & A2 & A3 & A4 & A5 & A6). rewrite upd_length in *. unfold nl_b at 1. rewrite Hu, Et. cbn [andb].
    split; [|split; [rewrite A2, <- List.app_assoc; reflexivity|split; [rewrite A3, Bool.orb_assoc; reflexivity|split; [exact A4|split]]]].
    + intros g [<-|Hg]; [|apply A1, Hg]. split; [exists nb; auto|]. intros _. eauto.
    + intros g [<-|Hg]; [|apply A5, Hg]. intros _. exists bvs. split; [exact Eb|]. rewrite A6 by (left; exact Hni). rewrite nth_error_upd, Nat.eqb_refl. replace (f <? length bv) with true by (symmetry; apply Nat.ltb_lt; exact Hl). reflexivity.
    + intros g Hg. assert (f <> g) as Hne by (intros <-; destruct Hg as [Hg|Hg]; [apply Hg; left; reflexivity|congruence]). rewrite A6; [|destruct Hg as [Hg|Hg]; [left; intros X; apply Hg; right; exact X|auto]]. rewrite nth_error_upd. replace (f =? g) with false by (symmetry; apply Nat.eqb_neq; exact Hne). reflexivity.
Qed.
Lemma useful_run D nact l : forall u bv b, (forall f, In f l -> step_ok D nact (length bv) f) -> exists r, foldM (useful_step D nact) l (u, bv, b) = Ok r.
Proof.
  induction l as [|f l IH]; intros u bv b H; cbn [foldM]; [eauto|]. destruct (H f (or_introl eq_refl)) as ((nb & En & Hl) & Hu). unfold useful_step at 1. rewrite En. cbn [rbind]. unfold useful_b, fresh in Hu. rewrite En in Hu.
  assert (forall f, In f l -> step_ok D nact (length bv) f) as H' by (intros; apply H; right; assumption).
  destruct (Nat.eqb_spec nb 0) as [H0|H0]; [cbn [rbind]; apply IH, H'|]. destruct (Hl H0) as (lim & El). rewrite El in *. cbn [rbind]. destruct (neq O (fst lim) (snd lim)); [cbn [rbind]; apply IH, H'|]. destruct (Hu eq_refl) as (Hf & (ft & ->) & bvs & Eb). cbn [rbind] in *. rewrite Eb. cbn [rbind].
  assert (set_idx bv f bvs = Ok (upd bv f bvs)) as -> by (apply set_idx_ok; auto). cbn [rbind]. apply IH. rewrite upd_length. exact H'.
Qed.
Lemma useful_q g : g < nf' -> useful_b d' g = useful_b d (q g).
Proof. intros Hg. unfold useful_b. rewrite q_max, q_limits by exact Hg. reflexivity. Qed.
Lemma qnew g i : inner_new cfg d g = Ok i -> exists i', inner_new cfg d' g = Ok i' /\ qin i i'.
Proof.
  unfold inner_new. rewrite (w_ne O p d d' HW). intros E. apply rbind_ok in E as (((u & bv) & b) & E1 & E). apply Ok_eq in E. subst i. set (nact := scaled_count (d_nexamples d) (c_example_fraction cfg)) in *.
  destruct (useful_ok d nact _ (seq_NoDup nf 0) _ _ _ _ E1) as (A1 & A2 & A3 & A4 & A5 & A6). cbn [fst snd app orb] in *. rewrite repeat_length in *.
  destruct (useful_run d' nact (seq 0 nf') [] (repeat [] nf') false) as (((u' & bv') & b') & E1').
  { intros g0 Hg. apply in_seq in Hg. assert (g0 < nf') as Hg' by lia. pose proof (q_lt g0 Hg') as Hq. destruct (A1 (q g0) ltac:(apply in_seq; lia)) as (B1 & B2). unfold step_ok. rewrite useful_q, repeat_length by exact Hg'. unfold fresh in *. rewrite q_max, q_limits, q_type by exact Hg'. split; [exact B1|]. intros Hu. destruct (B2 Hu) as (_ & B3). auto. }
  rewrite E1'. cbn [rbind]. eexists. split; [reflexivity|].
  destruct (useful_ok d' nact _ (seq_NoDup nf' 0) _ _ _ _ E1') as (_ & A2' & A3' & A4' & A5' & A6'). cbn [fst snd app orb] in *. rewrite repeat_length in *.
  constructor; cbn; try reflexivity.
  - apply HA. subst u. pose proof (LearnerProofs.filter_length_le _ (useful_b d) (seq 0 nf)) as X. rewrite seq_length in X. pose proof nf_le. lia.
  - apply HA. subst u'. pose proof (LearnerProofs.filter_length_le _ (useful_b d') (seq 0 nf')) as X. rewrite seq_length in X. lia.
  - subst b b'. apply Bool.eq_iff_eq_true. rewrite !existsb_exists. assert (forall g0, g0 < nf' -> nl_b d' g0 = nl_b d (q g0)) as HN by (intros g0 Hg; unfold nl_b; rewrite useful_q, q_type by exact Hg; reflexivity). split.
    + intros (x & Hx & Hn). apply in_seq in Hx. assert (x < nf') as Hx' by lia. exists (q x). split; [apply in_seq; pose proof (q_lt x Hx'); lia|]. rewrite <- HN by exact Hx'. exact Hn.
    + intros (x & Hx & Hn). apply in_seq in Hx. assert (x < nf) as Hx' by lia. exists (p x). split; [apply in_seq; pose proof (Hr x Hx'); lia|]. rewrite HN by (apply Hr, Hx'). rewrite q_p by exact Hx'. exact Hn.
  - subst u. apply ss_filter, (ss_seq p Hm).
  - subst u'. apply ss_filter, (ss_seq p Hm).
  - subst u. intros f Hf. apply filter_In in Hf as [Hf _]. apply in_seq in Hf. lia.
  - subst u u'. intros g0. rewrite !filter_In, !in_seq. split; [intros [Hg Hu]; rewrite useful_q in Hu by lia; pose proof (q_lt g0); intuition lia|intros (Hg & Hq & Hu); rewrite useful_q by lia; intuition lia].
  - split; [|right; auto]. intros g0 Hg. pose proof (q_lt g0 Hg) as Hq. destruct (useful_b d (q g0)) eqn:Eu.
    + destruct (A5 (q g0) ltac:(apply in_seq; lia) Eu) as (x & Ex & ->). destruct (A5' g0 ltac:(apply in_seq; lia) ltac:(rewrite useful_q by exact Hg; exact Eu)) as (x' & Ex' & ->). unfold fresh in *. rewrite q_max in Ex' by exact Hg. congruence.
    + rewrite A6' by (right; rewrite useful_q by exact Hg; exact Eu). rewrite A6 by auto. rewrite !(nth_error_repeat []) by assumption. reflexivity.
  - apply ql_nil.
  - apply ql_repeat.
  - apply ql_repeat.
Qed.
Record qds (s s' : dataset O) : Prop := { qd_in : qin (ds_inner s) (ds_inner s'); qd_buf : ds_index_buffer s' = ds_index_buffer s; qd_count : ds_update_count s' = ds_update_count s }.
Lemma qdataset_new g s : dataset_new cfg d g = Ok s -> exists s', dataset_new cfg d' g = Ok s' /\ qds s s'.
Proof.
  unfold dataset_new. rewrite (w_ne O p d d' HW). intros E. apply rbind_ok in E as (i & Ei & E). destruct (qnew _ _ Ei) as (i' & -> & H). cbn [rbind]. destruct (nlt O (c_example_fraction cfg) (nofZ O 1)); [apply Ok_eq in E; subst s; eexists; split; [reflexivity|constructor; [exact H|reflexivity..]]|].
  apply rbind_ok in E as (i2 & E2 & E). apply Ok_eq in E. subst s. rewrite locard_fold in E2 by apply H. rewrite locard_fold by apply H.
  destruct (qcells (fun f c => let* ft := feat_type_of d f in if is_locard ft then locard_cell d f (seq 0 (d_nexamples d)) c else Ok c) (fun f c => let* ft := feat_type_of d' f in if is_locard ft then locard_cell d' f (seq 0 (d_nexamples d)) c else Ok c) ltac:(intros f c Hf; cbn beta; rewrite q_type by exact Hf; unfold locard_cell; rewrite q_feature, q_max by exact Hf; reflexivity) _ _ _ H E2) as (i2' & -> & H2).
  cbn [rbind]. eexists. split; [reflexivity|]. constructor; [exact H2|reflexivity..].
Qed.
Lemma qdataset_update grad bounds s s' r : qds s s' -> dataset_update dbg cfg s grad bounds = Ok r -> exists r', dataset_update dbg cfg s' grad bounds = Ok r' /\ qds r r'.
Proof.
  intros [H Hb Hc] E. unfold dataset_update in *. rewrite Hb, Hc.
  assert (qin (initialize_supercats (ds_inner s)) (initialize_supercats (ds_inner s'))) as H0.
  { destruct H. constructor; cbn; try assumption. rewrite qi_data0, qi_data'0. apply ql_resize; assumption. }
  set (i0 := initialize_supercats (ds_inner s)) in *. set (i0' := initialize_supercats (ds_inner s')) in *. clearbody i0 i0'.
  destruct (skip_update _ _); [apply Ok_eq in E; subst r; eexists; split; [reflexivity|constructor; [exact H0|reflexivity..]]|].
  assert (sample_features i0 = Ok i0) as E0 by (unfold sample_features, in_feature_sampling_enabled; rewrite (qi_all _ _ H0), Nat.ltb_irrefl; reflexivity).
  assert (sample_features i0' = Ok i0') as -> by (unfold sample_features, in_feature_sampling_enabled; rewrite (qi_all' _ _ H0), Nat.ltb_irrefl; reflexivity).
  rewrite E0 in E. cbn [rbind] in *. unfold example_sampling_enabled in *. cbn [ds_index_buffer] in *. destruct (negb (length (ds_index_buffer s) =? 0)).
  - apply rbind_ok in E as (s2 & E2 & E). unfold sample_examples, nactive_examples in *. cbn [ds_inner ds_index_buffer ds_update_count] in *. rewrite (qi_rng _ _ H0), (qi_ne _ _ H0). apply rbind_ok in E2 as ((buf & g) & -> & E2). cbn [rbind]. apply Ok_eq in E2. subst s2.
    unfold active_examples, nactive_examples, nactive_features in *. cbn [ds_inner ds_index_buffer in_nactive_examples] in *. apply rbind_ok in E as (ex & -> & E). cbn [rbind]. apply rbind_ok in E as (i3 & E3 & E). apply Ok_eq in E. subst r.
    match type of E3 with foldM _ _ ?x = _ => match goal with |- context [foldM _ _ ?y] => assert (qin x y) as H1 by (destruct H0; constructor; cbn; auto) end end.
    destruct (qupdate_all _ _ _ _ _ _ _ H1 E3) as (i3' & E3' & H3). cbn [in_nactive_features] in *. rewrite E3'. cbn [rbind]. eexists. split; [reflexivity|]. constructor; [exact H3|reflexivity..].
  - rewrite (qi_nl _ _ H0). destruct (in_has_non_locard i0); [|apply Ok_eq in E; subst r; eexists; split; [reflexivity|constructor; [exact H0|reflexivity..]]].
    apply rbind_ok in E as (i2 & E2 & E). apply Ok_eq in E. subst r. rewrite (qi_data' _ _ H0), (w_ne O p d d' HW). rewrite (qi_data _ _ H0) in E2. destruct (qupdate_all _ _ _ _ _ _ _ H0 E2) as (i2' & -> & H2). cbn [rbind]. eexists. split; [reflexivity|]. constructor; [exact H2|reflexivity..].
Qed.
End Dataset.
