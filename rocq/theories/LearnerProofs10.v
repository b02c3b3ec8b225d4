From Coq Require Import Permutation Sorting.Sorted.
From Verif Require Import Base BaseProofs BitModel BitSpec BitProofs BitProofs2 SimdModel SliceModel SliceSpec SliceProofs SliceProofs2 SliceProps
  CountSumProofs IterModel IterSpec IterProofs Num ScaledModel DataModel Config TreeModel TreeSpec TreeProofs TreeProofs2 TreeProps DatasetModel DatasetSpec DatasetProofs DatasetProofs2 DatasetProofs3 DatasetProofs4 DatasetProofs5
  DatasetProps RouteProps LearnerModel LearnerSpec TrainSpec LearnerProofs LearnerProofs2 LearnerProofs3 LearnerProofs4 LearnerProofs5 LearnerProofs7 LearnerProofs8.

(* ---- candidates of a reachable data set ---- *)
Lemma candidate_useful O dbg (cfg : config O) d s f b : reachable dbg cfg d s -> candidate s f b ->
  exists u, u < in_nactive_features (ds_inner s) /\ nth_error (in_useful (ds_inner s)) u = Some f /\ In f (in_useful (ds_inner s)) /\ f < d_nfeatures d.
Proof.
  intros HR (fs & nb & Ea & Hin & _). pose proof (ds_inv _ _ _ _ (reachable_ok _ _ _ _ _ HR)) as Hi. unfold active_features, in_active_features in Ea. apply subslice_first in Ea as [Hle ->].
  apply In_nth_error in Hin as [u Eu]. rewrite nth_error_firstn in Eu. destruct (Nat.ltb_spec u (in_nactive_features (ds_inner s))) as [Hu|]; [|discriminate].
  exists u. split; [exact Hu|]. split; [exact Eu|]. pose proof (nth_error_In _ _ Eu) as Hf. split; [exact Hf|]. eapply useful_lt; eassumption.
Qed.

(** Unless it is a low-cardinality one, a candidate's feature was updated: the data set was updated at least once. *)
Lemma candidate_full O dbg (cfg : config O) d s f b ft : reachable dbg cfg d s -> 0 < d_nexamples d -> candidate s f b -> feat_type_of d f = Ok ft -> ft <> LoCardCat ->
  0 < c_sample_freq cfg /\ 0 < ds_update_count s /\ feature_full O d (ds_inner s) (ds_examples O cfg d s) f.
Proof.
  intros HR Hn Hc Hft Hnl. destruct (candidate_useful _ _ _ _ _ _ _ HR Hc) as (u & Hu & Eu & Hf & _). pose proof (reachable_ok _ _ _ _ _ HR) as HS.
  destruct Hc as (fs & nb & _ & _ & Enb & Hb). apply idx_ok in Enb.
  assert (0 < c_sample_freq cfg /\ 0 < ds_update_count s) as [Hfr Hcnt].
  { destruct (Nat.eq_dec (c_sample_freq cfg) 0) as [E0|]; [|destruct (Nat.eq_dec (ds_update_count s) 0) as [E0|]; [|lia]].
    all: destruct (ds_fresh _ _ _ _ HS) as [_ H0]; [auto|]; assert (nth_error (in_used_nbins (ds_inner s)) f = Some 0) as E1;
      [apply H0; [exact Hf|]; right; unfold locard; rewrite Hft; intros Hx; apply Hnl; congruence|]; rewrite E1 in Enb; injection Enb as <-; lia. }
  split; [exact Hfr|]. split; [exact Hcnt|]. exact (ds_active_ok _ _ _ _ HS Hn Hfr Hcnt u f Hu Eu).
Qed.

Lemma split_value_total O dbg (cfg : config O) d s f b : reachable dbg cfg d s -> 0 < d_nexamples d -> candidate s f b -> exists v, get_split_value s f b = Ok v.
Proof.
  intros HR Hn Hc. pose proof (ds_inv _ _ _ _ (reachable_ok _ _ _ _ _ HR)) as Hi. destruct (candidate_useful _ _ _ _ _ _ _ HR Hc) as (u & _ & _ & Hf & Hlt).
  unfold get_split_value. rewrite (dv_data _ _ _ _ Hi). pose proof (proj1 (dv_useful _ _ _ _ Hi f) Hf) as Huse.
  assert (exists ft, feat_type_of d f = Ok ft) as [ft Eft].
  { destruct (nth_error (in_bitvecs (ds_inner s)) f) as [bvs|] eqn:Eb; [|apply nth_error_None in Eb; rewrite (dv_lbv _ _ _ _ Hi) in Eb; lia].
    destruct (dv_bvs _ _ _ _ Hi f bvs Hf Eb) as [_ Hm]. unfold max_nbins in Hm. apply rbind_ok in Hm as (ft & E & _). eauto. }
  rewrite Eft. cbn [rbind]. destruct ft; [eauto|eauto|].
  destruct (candidate_full _ _ _ _ _ _ _ _ HR Hn Hc Eft ltac:(discriminate)) as (_ & _ & (_ & _ & _ & Hnum)). destruct (Hnum Eft) as (cands & Ec & _ & Hl).
  rewrite (proj2 (idx_ok _ _ _ _) Ec). cbn [rbind]. destruct Hc as (fs & nb & _ & _ & Enb & Hb). apply idx_ok in Enb. rewrite Hl in Enb. injection Enb as <-.
  destruct (nth_error cands b) as [v|] eqn:Ev; [|apply nth_error_None in Ev; lia]. exists v. apply idx_ok, Ev.
Qed.

(* ---- prediction with a trained tree ---- *)
Section Predict.
Variable O : numops.
Variable dbg0 : bool.
Variable cfg : config O.
Variable d : data O.
Variable s : dataset O.
Variable D : nat.
Hypothesis HR : reachable dbg0 cfg d s.
Hypothesis Hn : 0 < d_nexamples d.
Hypothesis Hcols : 0 < length (d_features d) /\ d_nfeatures d <= length (d_features d) /\ forall col, In col (d_features d) -> length col = d_nexamples d.

Lemma trained_routable (t : tree O) W : t_supercats t = get_supercats s -> (forall m c, nth_error (t_crits t) m = Some c -> c = no_split O \/ split_mask s c (W m)) ->
  forall i, i < d_nexamples d -> routable t d i.
Proof.
  intros Hsup Hcr i Hi. pose proof (ds_inv _ _ _ _ (reachable_ok _ _ _ _ _ HR)) as HI. destruct Hcols as (Hc0 & Hc1 & Hc2). split.
  - intros c Hc. apply In_nth_error in Hc as (m & Em). assert (sc_feature c < length (d_features d)) as Hl.
    { destruct (Hcr m c Em) as [->|(b & Hb & _)]; [exact Hc0|]. destruct (candidate_useful _ _ _ _ _ _ _ HR Hb) as (u & _ & _ & _ & H). lia. }
    destruct (nth_error (d_features d) (sc_feature c)) as [col|] eqn:Ec; [|apply nth_error_None in Ec; lia]. exists col. split; [reflexivity|]. rewrite (Hc2 col (nth_error_In _ _ Ec)). exact Hi.
  - intros c Hc Hty. apply In_nth_error in Hc as (m & Em). destruct (Hcr m c Em) as [->|(b & Hb & (_ & _ & ft & Eft & Et) & _)]; [discriminate|]. rewrite (dv_data _ _ _ _ HI) in Eft.
    assert (ft = HiCardCat) as -> by (rewrite Hty in Et; destruct ft; congruence).
    destruct (candidate_full _ _ _ _ _ _ _ _ HR Hn Hb Eft ltac:(discriminate)) as (_ & _ & (_ & _ & Htab & _)). destruct (Htab Eft) as (table & E & _). rewrite Hsup. apply nth_error_Some. unfold get_supercats. congruence.
Qed.

(** An example that training sends to a leaf, and that every mask on the way agrees with the test of the split about, is predicted to be in that leaf. *)
Lemma sent_predicted (t : tree O) W k j leaf : tinv O D t -> j < d_nexamples d -> t_supercats t = get_supercats s ->
  (forall m c, nth_error (t_crits t) m = Some c -> c = no_split O \/ split_mask s c (W m)) ->
  (forall m c col v, inner_crit t m -> nth_error (t_crits t) m = Some c -> get_feature d (sc_feature c) = Ok col -> nth_error col j = Some v -> goes_left t c v = Ok (Some (bbit (W m) k))) ->
  sent t W k leaf -> leaf_node t leaf -> predict_leaf_id t d j = Ok leaf.
Proof.
  intros HT Hj Hsup Hcr Hgo HS [[kk Hk] Hleaf]. pose proof (trained_routable t W Hsup Hcr j Hj) as [R1 R2].
  assert (forall m, sent t W k m -> exists st, tree_node t st m /\ forall fuel, leaf_id_loop (st + fuel) t d j 0 = leaf_id_loop fuel t d j m) as Hreach.
  { induction 1 as [|m Hs IH Hi Hb|m Hs IH Hi Hb]; [exists 0; split; [constructor|reflexivity]|..]; destruct IH as (st & Ht & IH); exists (S st);
      (split; [first [apply tn_left; assumption|apply tn_right; assumption]|]); intros fuel; replace (S st + fuel) with (st + S fuel) by lia; rewrite IH; cbn [leaf_id_loop];
      pose proof Hi as (c & Ec & Hc); rewrite (proj2 (idx_ok _ _ _ _) Ec); cbn [rbind]; destruct (R1 c (nth_error_In _ _ Ec)) as (col & Ecol & Hl); unfold get_feature;
      rewrite (proj2 (idx_ok _ _ _ _) Ecol); cbn [rbind]; destruct (nth_error col j) as [v|] eqn:Ev; [|apply nth_error_None in Ev; lia| |apply nth_error_None in Ev; lia];
      rewrite (proj2 (idx_ok _ _ _ _) Ev); cbn [rbind]; rewrite (Hgo m c col v Hi Ec (proj2 (idx_ok _ _ _ _) Ecol) Ev), Hb; cbn [rbind]; reflexivity. }
  destruct (Hreach leaf HS) as (st & Ht & Hl). pose proof (tree_node_max O D t st leaf HT Ht) as Hst.
  assert (leaf < length (t_crits t)) as Hlen.
  { rewrite (ti_crits O D t HT). apply tree_node_depth in Ht. unfold at_depth in Ht. assert (2 ^ (st + 1) <= 2 ^ (D + 1)) by (apply Nat.pow_le_mono_r; lia). lia. }
  assert (st < length (t_crits t)) as Hst'.
  { rewrite (ti_crits O D t HT). pose proof (Nat.pow_gt_lin_r 2 (D + 1)). lia. }
  unfold predict_leaf_id. replace (S (length (t_crits t))) with (st + S (length (t_crits t) - st)) by lia. rewrite Hl. cbn [leaf_id_loop].
  destruct (nth_error (t_crits t) leaf) as [c|] eqn:Ec; [|apply nth_error_None in Ec; lia]. rewrite (proj2 (idx_ok _ _ _ _) Ec). cbn [rbind].
  destruct (R1 c (nth_error_In _ _ Ec)) as (col & Ecol & Hcl). unfold get_feature. rewrite (proj2 (idx_ok _ _ _ _) Ecol). cbn [rbind]. destruct (nth_error col j) as [v|] eqn:Ev; [|apply nth_error_None in Ev; lia].
  rewrite (proj2 (idx_ok _ _ _ _) Ev). cbn [rbind]. unfold goes_left. destruct (sc_type c) eqn:Ety; try reflexivity; exfalso; apply Hleaf; exists c; (split; [exact Ec|rewrite Ety; discriminate]).
Qed.

(** Prediction succeeds on every example of the data. *)
Lemma trained_predicts (t : tree O) W : tinv O D t -> t_supercats t = get_supercats s -> (forall m c, nth_error (t_crits t) m = Some c -> c = no_split O \/ split_mask s c (W m)) ->
  forall i, i < d_nexamples d -> exists leaf v, leaf_node t leaf /\ predict_leaf_id t d i = Ok leaf /\ node_value t leaf = Ok v /\ predict_single t d i = Ok (nmul O (t_shrinkage t) (nadd O v (t_bias t))).
Proof.
  intros HT Hsup Hcr i Hi. pose proof (trained_routable t W Hsup Hcr i Hi) as R.
  destruct (leaf_loop_ok O D t d i HT R D 0 0 (tn_root t) eq_refl) as (leaf & E & ((k & Hk) & Hl)).
  assert (predict_leaf_id t d i = Ok leaf) as Ep.
  { apply (leaf_loop_mono O (S D)); [exact E|]. rewrite (ti_crits O D t HT). pose proof (Nat.pow_gt_lin_r 2 (D + 1)). lia. }
  pose proof (tree_node_max O D t k leaf HT Hk) as Hkd.
  assert (leaf < length (t_values t)) as Hlen.
  { rewrite (ti_values O D t HT). apply tree_node_depth in Hk. unfold at_depth in Hk. assert (2 ^ (k + 1) <= 2 ^ (D + 1)) by (apply Nat.pow_le_mono_r; lia). lia. }
  exists leaf, (nth leaf (t_values t) (nofZ O 0)). split; [split; [exists k; exact Hk|exact Hl]|]. split; [exact Ep|].
  unfold node_value, predict_single. rewrite Ep. cbn [rbind]. rewrite (idx_lt _ _ _ (nofZ O 0) Hlen). cbn [rbind]. auto.
Qed.
End Predict.

(* ---- training one tree does not fail ---- *)
Lemma foldM_total A T (f : T -> A -> res T) l : (forall st x, In x l -> exists st', f st x = Ok st') -> forall st, exists r, foldM f l st = Ok r.
Proof.
  induction l as [|x l IH]; intros H st; [eexists; reflexivity|]. cbn [foldM]. destruct (H st x (or_introl eq_refl)) as (st1 & ->). cbn [rbind]. apply IH. intros st0 y Hy. apply H. right. exact Hy.
Qed.

Lemma foldM_total_inv A T (I : T -> Prop) (f : T -> A -> res T) l : (forall st x, I st -> In x l -> exists st', f st x = Ok st' /\ I st') -> forall st, I st -> exists r, foldM f l st = Ok r /\ I r.
Proof.
  induction l as [|x l IH]; intros H st HI; [exists st; auto|]. cbn [foldM]. destruct (H st x HI (or_introl eq_refl)) as (st1 & -> & HI1). cbn [rbind]. apply IH; [|exact HI1]. intros st0 y H0 Hy. apply H; [exact H0|right; exact Hy].
Qed.

Lemma leaf_calls_inv O St (leaf_value : list nat -> St -> res (num O * St)) (I : St -> Prop) (V : num O -> Prop) (Q : list nat -> Prop) :
  (forall ex st, I st -> Q ex -> exists v st', leaf_value ex st = Ok (v, st') /\ V v /\ I st') ->
  forall gs st st', leaf_calls leaf_value gs st st' -> I st -> (forall g, In g gs -> Q (g_examples g)) -> I st' /\ forall g, In g gs -> V (g_value g).
Proof.
  intros H. induction gs as [|g gs IH]; intros st st' HC HI HQ; cbn [leaf_calls] in HC; [subst; split; [exact HI|intros g []]|]. destruct HC as (st1 & E & HC).
  destruct (H (g_examples g) st HI (HQ g (or_introl eq_refl))) as (v & st2 & E2 & HV & HI2). rewrite E in E2. injection E2 as Ev Es2. subst v st2. destruct (IH st1 st' HC HI2) as (H1 & H2); [intros g' Hg; apply HQ; right; exact Hg|].
  split; [exact H1|]. intros g' [<-|Hg]; [exact HV|apply H2, Hg].
Qed.

Lemma train_total O dbg0 dbg (cfg : config O) d s sizes bounds sched gradients St (leaf_value : list nat -> St -> res (num O * St)) oob rows fs (I : St -> Prop) (V : num O -> Prop) st :
  reachable dbg0 cfg d s -> hist_sizes d = Ok sizes -> (forall k js, Permutation js (sched k js)) -> (N.of_nat (nactive_examples s) <= 2 ^ 31)%N ->
  0 < d_nexamples d -> (0 < length (d_features d) /\ d_nfeatures d <= length (d_features d) /\ forall col, In col (d_features d) -> length col = d_nexamples d) ->
  active_features s = Ok fs -> example_rows s = Ok rows -> (forall j, In j rows -> j < length gradients) -> 0 < nactive_examples s -> 0 < list_sum sizes ->
  (example_sampling_enabled s = true -> exists is, inactive_examples s = Ok is /\ forall i, In i is -> i < d_nexamples d) ->
  valid_width (c_discr_nbits cfg) = true -> 0 < c_max_tree_depth cfg -> (1 <= c_min_examples_leaf cfg)%N ->
  I st -> (forall ex st, I st -> ex <> [] -> (forall j, In j ex -> In j rows) -> exists v st', leaf_value ex st = Ok (v, st') /\ nisfin O v = true /\ V v /\ I st') ->
  (forall i v st, I st -> i < d_nexamples d -> V v -> exists st', oob i (nmul O (nofZ O 1) (nadd O v (nofZ O 0))) st = Ok st' /\ I st') ->
  exists t st', train dbg cfg s sizes bounds sched St leaf_value oob gradients st = Ok (t, st') /\ I st' /\
    forall i, i < d_nexamples d -> exists v, V v /\ predict_single t d i = Ok (nmul O (nofZ O 1) (nadd O v (nofZ O 0))).
Proof.
  intros HR Hsz Hsch Hsmall Hn Hcols Hfs Hrows Hg Hact Hsum Hoobx Hw HD Hmin HI Hlv Hoob. unfold train.
  assert (exists t0, tree_new O (c_max_tree_depth cfg) (get_supercats s) = Ok t0) as (t0 & Et).
  { unfold tree_new. replace (0 <? c_max_tree_depth cfg) with true by lia. cbn [rassert rbind]. eauto. }
  rewrite Et. cbn [rbind]. pose proof (lds_reachable _ _ _ _ _ _ _ HR Hfs Hsz) as HL.
  destruct (root_total O cfg s sizes bounds HL Hw Hsmall sched gradients rows Hsch Hrows Hact Hsum Hg) as (root & Er). rewrite Er. cbn [rbind].
  assert (forall rows0 ex st, example_rows s = Ok rows0 -> I st -> ex <> [] -> (forall j, In j ex -> In j rows0) -> exists v st', leaf_value ex st = Ok (v, st') /\ nisfin O v = true /\ I st') as Hlv'.
  { intros rows0 ex st0 Hr0 HI0 Hne Hin. rewrite Hrows in Hr0. injection Hr0 as <-. destruct (Hlv ex st0 HI0 Hne Hin) as (v & st' & E & Hf & _ & HI'). eauto 6. }
  destruct (loop_succeeds O dbg0 dbg cfg d s sizes bounds sched gradients St leaf_value oob HR Hsz Hsch Hsmall Hmin (fun f b => split_value_total _ _ _ _ _ f b HR Hn) I Hlv' t0 root st HI Et Er) as (t & st1 & El).
  rewrite El. cbn [rbind].
  destruct (loop_start O dbg0 dbg cfg d s sizes bounds sched gradients St leaf_value oob HR Hsz Hsch Hsmall t0 root Et Er) as (H0 & _).
  destruct (loop_run O dbg0 dbg cfg d s sizes bounds sched gradients St leaf_value HR Hsz Hsch Hsmall rows Hrows _ _ [] [root] t0 st t st1 H0 El) as (W & gs & HOK & HC).
  cbn [app] in HOK. pose proof (lo_perm _ _ _ _ _ _ _ _ _ _ _ _ HOK) as HP. cbn [map concat app] in HP. pose proof (rows_length O s rows Hrows) as Lr.
  destruct (leaf_calls_inv O St leaf_value I V (fun ex => ex <> [] /\ forall j, In j ex -> In j rows)) with (gs := map (to_rows O rows) gs) (st := st) (st' := st1) as (HI1 & HV); [|exact HC|exact HI| |].
  { intros ex st0 HI0 (Hne & Hin). destruct (Hlv ex st0 HI0 Hne Hin) as (v & st' & E & _ & HV & HI'). eauto. }
  { intros g Hin. apply in_map_iff in Hin as (g0 & <- & Hin). destruct (lo_val _ _ _ _ _ _ _ _ _ _ _ _ HOK g0 Hin) as (_ & Hne & _). cbn [to_rows g_examples fst snd]. split; [intros Hc; apply Hne; destruct (g_examples g0); [reflexivity|discriminate]|].
    intros j Hj. apply in_map_iff in Hj as (k & <- & Hk). apply nth_In. rewrite Lr. assert (In k (seq 0 (nactive_examples s))) as Hks; [|apply in_seq in Hks; lia].
    eapply Permutation_in; [exact HP|]. apply in_concat. exists (g_examples g0). split; [apply in_map, Hin|exact Hk]. }
  assert (forall i, i < d_nexamples d -> exists v, V v /\ predict_single t d i = Ok (nmul O (nofZ O 1) (nadd O v (nofZ O 0)))) as Hpred.
  { intros i Hi. destruct (trained_predicts O dbg0 cfg d s (c_max_tree_depth cfg) HR Hn Hcols t W (lo_tinv _ _ _ _ _ _ _ _ _ _ _ _ HOK) (proj1 (lo_sup _ _ _ _ _ _ _ _ _ _ _ _ HOK))) with (i := i) as (leaf & v & Hleaf & _ & Hval & Hp).
    - intros m c Ec. destruct (lo_crit _ _ _ _ _ _ _ _ _ _ _ _ HOK m c Ec) as [->|[H _]]; auto.
    - exact Hi.
    - destruct (lo_sup _ _ _ _ _ _ _ _ _ _ _ _ HOK) as (_ & Hshr & Hbias). rewrite Hshr, Hbias in Hp. exists v. split; [|exact Hp].
      apply (lo_leaf _ _ _ _ _ _ _ _ _ _ _ _ HOK) in Hleaf. cbn [map app] in Hleaf. apply in_map_iff in Hleaf as (g & <- & Hg'). destruct (lo_val _ _ _ _ _ _ _ _ _ _ _ _ HOK g Hg') as (Hv & _). rewrite Hval in Hv. injection Hv as ->.
      exact (HV (to_rows O rows g) (in_map _ _ _ Hg')). }
  unfold predict_out_of_bag. destruct (example_sampling_enabled s); [|cbn [rbind]; eauto 6]. destruct (Hoobx eq_refl) as (is & Eis & His). rewrite Eis. cbn [rbind].
  pose proof (ds_inv _ _ _ _ (reachable_ok _ _ _ _ _ HR)) as HII. rewrite (dv_data _ _ _ _ HII).
  match goal with |- context[foldM ?f is st1] => destruct (foldM_total_inv _ _ I f is) with (st := st1) as (st2 & E2 & HI2) end; [|exact HI1|].
  { intros st0 i HI0 Hi. destruct (Hpred i (His i Hi)) as (v & HVv & ->). cbn [rbind]. apply Hoob; [exact HI0|apply His, Hi|exact HVv]. }
  rewrite E2. cbn [rbind]. eauto 6.
Qed.
