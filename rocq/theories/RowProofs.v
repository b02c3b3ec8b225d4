(** Growing a tree from the same examples in another order. *)
From Coq Require Import Permutation Sorting.Sorted.
From Verif Require Import Base BaseProofs BitModel BitSpec BitProofs BitProofs2 SimdModel SliceModel SliceSpec SliceProofs SliceProofs2 SliceProps
  CountSumProofs IterModel IterSpec IterProofs Num ScaledModel DataModel Config TreeModel TreeSpec TreeProofs TreeProofs2 DatasetModel DatasetSpec DatasetProofs DatasetProofs2 DatasetProofs3 DatasetProofs4 DatasetProofs5
  RouteProps LearnerModel LearnerSpec TrainSpec LearnerProofs LearnerProofs2 LearnerProofs3 LearnerProofs4 LearnerProofs5 LearnerProofs7 LearnerProofs8 LearnerProofs9.

(* ---- lists in another order ---- *)
Lemma filter_perm {A} (g : A -> bool) l l' : Permutation l l' -> Permutation (filter g l) (filter g l').
Proof.
  induction 1 as [|x l l' _ IH|x y l|l l' l'' _ IH1 _ IH2]; cbn [filter]; [constructor| | |etransitivity; eassumption].
  - destruct (g x); [constructor|]; exact IH.
  - destruct (g x), (g y); try constructor; reflexivity.
Qed.
Lemma filter_map_in {A B} (p : A -> B) (g : B -> bool) (g' : A -> bool) l : (forall x, In x l -> g' x = g (p x)) -> filter g (map p l) = map p (filter g' l).
Proof.
  induction l as [|x l IH]; intros H; [reflexivity|]. cbn [map filter]. rewrite (H x (or_introl eq_refl)), IH by (intros y Hy; apply H; right; exact Hy). destruct (g (p x)); reflexivity.
Qed.
Lemma filter_reorder (p : nat -> nat) (g g' : nat -> bool) l l' : (forall x, In x l' -> g' x = g (p x)) -> Permutation (map p l') l -> Permutation (map p (filter g' l')) (filter g l).
Proof. intros H HP. rewrite <- (filter_map_in p g g' l' H). apply filter_perm, HP. Qed.
Lemma sumN_perm l l' : Permutation l l' -> sumN l = sumN l'.
Proof. unfold sumN. induction 1 as [|x l l' _ IH|x y l|l l' l'' _ IH1 _ IH2]; cbn [fold_right]; try lia. Qed.
Lemma sum_reorder (p : nat -> nat) (gv gv' : nat -> N) l l' : (forall x, In x l' -> gv' x = gv (p x)) -> Permutation (map p l') l -> sumN (map gv' l') = sumN (map gv l).
Proof.
  intros H HP. rewrite (sumN_perm (map gv l) (map gv (map p l'))) by (apply Permutation_map; symmetry; exact HP). rewrite map_map. f_equal. apply map_ext_in. exact H.
Qed.
Lemma length_reorder (p : nat -> nat) l l' : Permutation (map p l') l -> length l' = length l.
Proof. intros H. apply Permutation_length in H. rewrite map_length in H. exact H. Qed.
Lemma summary_reorder O (cfg : config O) bounds (p : nat -> nat) (gv gv' : nat -> N) l l' : (forall x, In x l' -> gv' x = gv (p x)) -> Permutation (map p l') l -> bin_summary cfg bounds gv' l' = bin_summary cfg bounds gv l.
Proof. intros H HP. unfold bin_summary. rewrite (sum_reorder p gv gv' l l' H HP), (length_reorder p l l' HP). reflexivity. Qed.

Section Rows.
Variable O : numops.
Variable dbg0 dbg0' dbg dbg' : bool.
Variable cfg : config O.
Variables d d' : data O.
Variables s s' : dataset O.
Variable sizes : list nat.
Variable bounds : num O * num O.
Variables sched sched' : nat -> list job -> list job.
Variables gradients gradients' : list (num O).
Variables St St' : Type.
Variable leaf_value : list nat -> St -> res (num O * St).
Variable leaf_value' : list nat -> St' -> res (num O * St').
Variable oob : nat -> num O -> St -> res St.
Variable oob' : nat -> num O -> St' -> res St'.
Variable Rst : St -> St' -> Prop.
Variable p : nat -> nat.   (* example k of the second data is example p k of the first *)
Notation n := (nactive_examples s).
Notation D := (c_max_tree_depth cfg).
Hypothesis HR : reachable dbg0 cfg d s.
Hypothesis HR' : reachable dbg0' cfg d' s'.
Hypothesis Hsizes : hist_sizes d = Ok sizes.
Hypothesis Hsizes' : hist_sizes d' = Ok sizes.
Hypothesis Hsched : forall k js, Permutation js (sched k js).
Hypothesis Hsched' : forall k js, Permutation js (sched' k js).
Hypothesis Hsmall : (N.of_nat n <= 2 ^ 31)%N.
Hypothesis Hmin : (1 <= c_min_examples_leaf cfg)%N.
Hypothesis Hn : nactive_examples s' = n.
Hypothesis Hsam : example_sampling_enabled s = false.
Hypothesis Hsam' : example_sampling_enabled s' = false.
Hypothesis Hfs : active_features s' = active_features s.
Hypothesis Hnb : forall f, get_nbins s' f = get_nbins s f.
Hypothesis Hcrit : forall f b, make_crit s' f b = make_crit s f b.
Hypothesis Hsup : get_supercats s' = get_supercats s.
Hypothesis Hmask : forall f b fm fm', candidate s f b -> ds_get_bitvec s f b = Ok fm -> ds_get_bitvec s' f b = Ok fm' -> forall k, k < n -> bbit fm' k = bbit fm (p k).
Hypothesis Hp : Permutation (map p (seq 0 n)) (seq 0 n).
Hypothesis Hgr : forall k, k < n -> nth_error gradients' k = nth_error gradients (p k).
Hypothesis Hleaf : forall ex ex' st st' v st1, Rst st st' -> Permutation (map p ex') ex -> ex <> [] -> NoDup ex' -> (forall k, In k ex' -> k < n) -> leaf_value ex st = Ok (v, st1) ->
  exists st1', leaf_value' ex' st' = Ok (v, st1') /\ Rst st1 st1'.

Lemma cand_iff f b : candidate s' f b <-> candidate s f b.
Proof. unfold candidate. split; intros (fs & nb & H1 & H2 & H3 & H4); exists fs, nb; [rewrite <- Hfs, <- Hnb|rewrite Hfs, Hnb]; auto. Qed.
Notation gv := (gradient_at cfg bounds gradients (seq 0 n)).
Notation gv' := (gradient_at cfg bounds gradients' (seq 0 n)).
Lemma p_lt k : k < n -> p k < n.
Proof. intros H. assert (In (p k) (seq 0 n)) as Hi by (eapply Permutation_in; [exact Hp|]; apply in_map, in_seq; lia). apply in_seq in Hi. lia. Qed.
Lemma gv_eq k : k < n -> gv' k = gv (p k).
Proof.
  intros H. unfold gradient_at. rewrite !nth_error_seq. pose proof (p_lt k H). replace (k <? n) with true by lia. replace (p k <? n) with true by lia. rewrite (Hgr k H). reflexivity.
Qed.
Lemma mem_lt (nd : node O) k : In k (members n nd) -> k < n.
Proof. unfold members, positions. intros H. apply filter_In in H as [H _]. apply in_seq in H. lia. Qed.
Lemma mem_nodup (nd : node O) : NoDup (members n nd).
Proof. unfold members, positions. apply NoDup_filter, seq_NoDup. Qed.

(** Nodes for the same examples. *)
Record rsim (nd nd' : node O) : Prop := {
  rs_l : full_ok O cfg s sizes gv nd;
  rs_r : full_ok O cfg s' sizes gv' nd';
  rs_id : nd_id nd' = nd_id nd;
  rs_count : nd_count nd' = nd_count nd;
  rs_grad : nd_grad nd' = nd_grad nd;
  rs_mem : Permutation (map p (members n nd')) (members n nd);
  rs_bin : forall f b, candidate s f b -> bin_of nd' f b = bin_of nd f b
}.

Lemma rsim_best nd nd' sp : lds s sizes -> rsim nd nd' -> find_best_split dbg cfg s nd = Ok sp -> find_best_split dbg' cfg s' nd' = Ok sp.
Proof.
  intros HL S E. unfold find_best_split in *. rewrite Hfs. apply rbind_ok in E as (fs & Efs & E). rewrite Efs. cbn [rbind]. apply rbind_ok in E as (st & Est & E). injection E as <-.
  enough (forall F F', (forall st f st', In f fs -> F st f = Ok st' -> F' st f = Ok st') -> foldM F fs (c_min_gain cfg, split_none O) = Ok st ->
     (let* st0 := foldM F' fs (c_min_gain cfg, split_none O) in Ok (snd st0)) = Ok (snd st)) as Hgoal.
  { eapply Hgoal; [|exact Est]. clear Hgoal Est st. cbv beta. intros st f st' Hf Ef. apply rbind_ok in Ef as (hist & Eh & Ef). apply idx_ok in Eh. apply rbind_ok in Ef as (nb & Enb & Ef).
    destruct (lds_fs _ _ HL) as (fs' & Efs' & _ & Hfs'). rewrite Efs in Efs'. injection Efs' as <-. destruct (Hfs' f Hf) as (nb' & sz & Enb' & Esz & Hsz). rewrite Enb in Enb'. injection Enb' as <-.
    assert (exists hist', nth_error (nd_hists nd') f = Some hist') as [hist' Eh'].
    { destruct (nth_error (nd_hists nd') f) eqn:E0; [eauto|]. pose proof (ho_shape _ _ _ _ (fo_hists _ _ _ _ _ _ (rs_r _ _ S))) as Hs. rewrite <- Hs, nth_error_map, E0 in Esz. discriminate. }
    rewrite (proj2 (idx_ok _ _ _ _) Eh'). cbn [rbind]. rewrite Hnb, Enb. cbn [rbind]. eapply foldM_mono; [|exact Ef]. intros st0 b st0' Hb Eb. apply in_seq in Hb.
    assert (candidate s f b) as Hc by (exists fs, nb; repeat split; try assumption; lia).
    pose proof (rs_bin _ _ S f b Hc) as Hbin. unfold bin_of in Hbin. rewrite Eh, Eh' in Hbin. unfold split_step in *. apply rbind_ok in Eb as (l & El & Eb). apply idx_ok in El.
    assert (nth_error hist' b = Some l) as El' by congruence. rewrite (proj2 (idx_ok _ _ _ _) El'). cbn [rbind].
    assert (snd l <= nd_count nd)%N as Hle by (eapply (full_bin_le O cfg s sizes gv HL nd f b l (rs_l _ _ S) Hc); unfold bin_of; rewrite Eh; exact El).
    rewrite (rs_count _ _ S), (rs_grad _ _ S), Hcrit. rewrite u32_sub_ok in * by exact Hle. exact Eb. }
  intros F F' HF E. rewrite (foldM_mono _ _ F F' fs HF _ _ E). reflexivity.
Qed.

Lemma rsim_left_right q q' sp l r : lds s sizes -> lds s' sizes -> valid_width (c_discr_nbits cfg) = true -> 0 < list_sum sizes -> rsim q q' ->
  candidate s (sc_feature (sp_crit sp)) (sp_id sp) ->
  (exists v, bin_of q (sc_feature (sp_crit sp)) (sp_id sp) = Some v /\ (c_min_examples_leaf cfg <= snd v)%N /\ (snd v + c_min_examples_leaf cfg <= nd_count q)%N) ->
  get_left_right_n2s dbg cfg s sizes bounds sched q sp = Ok (l, r) ->
  exists l' r', get_left_right_n2s dbg' cfg s' sizes bounds sched' q' sp = Ok (l', r') /\ rsim l l' /\ rsim r r'.
Proof.
  intros HL HL' Hw Hs S Hc (v & Ev & Hv1 & Hv2) E. destruct (lds_fm _ _ HL _ _ Hc) as (fm & Em & Hfm). pose proof (proj2 (cand_iff _ _) Hc) as Hc'. destruct (lds_fm _ _ HL' _ _ Hc') as (fm' & Em' & Hfm').
  destruct (left_right_gen O dbg cfg s sizes bounds sched gv HL Hw Hsmall Hsched Hs q sp fm (rs_l _ _ S) Hc Em) as [_ H1].
  destruct (H1 l r E) as (Fl & Fr & Ml & Mr & Il & Ir & (v0 & Ev0 & Gl & Gr) & Bl & Br). rewrite Ev in Ev0. injection Ev0 as <-.
  assert (N.of_nat (nactive_examples s') <= 2 ^ 31)%N as Hsmall' by (rewrite Hn; exact Hsmall).
  destruct (left_right_gen O dbg' cfg s' sizes bounds sched' gv' HL' Hw Hsmall' Hsched' Hs q' sp fm' (rs_r _ _ S) Hc' Em') as [T2 H2].
  pose proof (rs_l _ _ S) as [PN PH PC]. pose proof (ho_count _ _ _ _ PH _ _ fm v Hc Em Ev) as Hcv. pose proof (filter_halves _ (bbit fm) (members n q)) as Hh. rewrite Hn in T2, H2.
  assert (Permutation (map p (filter (bbit fm') (members n q'))) (filter (bbit fm) (members n q))) as PL.
  { apply filter_reorder; [|apply (rs_mem _ _ S)]. intros k Hk. apply (Hmask _ _ fm fm' Hc Em Em'). eapply mem_lt, Hk. }
  assert (Permutation (map p (filter (fun x => negb (bbit fm' x)) (members n q'))) (filter (fun x => negb (bbit fm x)) (members n q))) as PR.
  { apply filter_reorder; [|apply (rs_mem _ _ S)]. intros k Hk. f_equal. apply (Hmask _ _ fm fm' Hc Em Em'). eapply mem_lt, Hk. }
  destruct T2 as (l' & r' & E').
  { intros E0. apply length_reorder in PL. rewrite E0 in PL. rewrite <- PL in Hcv. cbn [length] in Hcv. lia. }
  { intros E0. apply length_reorder in PR. rewrite E0 in PR. rewrite <- PR in Hh. cbn [length] in Hh. lia. }
  exists l', r'. split; [exact E'|]. destruct (H2 l' r' E') as (Fl' & Fr' & Ml' & Mr' & Il' & Ir' & (v0 & Ev0 & Gl' & Gr') & Bl' & Br'). rewrite (rs_bin _ _ S _ _ Hc), Ev in Ev0. injection Ev0 as <-.
  assert (HBl : forall f b, candidate s f b -> bin_of l' f b = bin_of l f b).
  { intros f b Hcf. destruct (lds_fm _ _ HL _ _ Hcf) as (fm1 & Em1 & _). destruct (lds_fm _ _ HL' _ _ (proj2 (cand_iff f b) Hcf)) as (fm2 & Em2 & _). rewrite (Bl f b fm1 Hcf Em1), (Bl' f b fm2 (proj2 (cand_iff f b) Hcf) Em2). f_equal.
    apply (summary_reorder O cfg bounds p); [intros k Hk; apply filter_In in Hk as [Hk _]; apply gv_eq; eapply mem_lt, Hk|]. apply filter_reorder; [|rewrite Ml, Ml'; exact PL]. intros k Hk. apply (Hmask f b fm1 fm2 Hcf Em1 Em2). eapply mem_lt, Hk. }
  split; constructor; try assumption.
  - rewrite Il, Il', (rs_id _ _ S). reflexivity.
  - rewrite (fo_count _ _ _ _ _ _ Fl), (fo_count _ _ _ _ _ _ Fl'), Hn, Ml, Ml'. f_equal. apply (length_reorder p), PL.
  - congruence.
  - rewrite Ml, Ml'. exact PL.
  - rewrite Ir, Ir', (rs_id _ _ S). reflexivity.
  - rewrite (fo_count _ _ _ _ _ _ Fr), (fo_count _ _ _ _ _ _ Fr'), Hn, Mr, Mr'. f_equal. apply (length_reorder p), PR.
  - rewrite Gr, Gr', (rs_grad _ _ S). reflexivity.
  - rewrite Mr, Mr'. exact PR.
  - intros f b Hcf. destruct (bin_exists O s sizes HL q f b (ho_shape _ _ _ _ PH) Hcf) as (vp & Evp).
    destruct (bin_exists O s sizes HL l f b (ho_shape _ _ _ _ (fo_hists _ _ _ _ _ _ Fl)) Hcf) as (vl & Evl).
    rewrite (Br f b vp vl Evp Evl). apply Br'; [rewrite (rs_bin _ _ S f b Hcf); exact Evp|rewrite (HBl f b Hcf); exact Evl].
Qed.

Lemma to_examples_none (t : dataset O) l : example_sampling_enabled t = false -> to_examples t l = (if length l =? 0 then Panic else Ok l).
Proof. intros H. unfold to_examples. rewrite H. cbn [rbind]. destruct (length l =? 0); reflexivity. Qed.
Lemma leaf_step_rel l l' (A B : Type) (k : num O -> St -> res A) (k' : num O -> St' -> res B) (Q : A -> B -> Prop) st st' r :
  Rst st st' -> Permutation (map p l') l -> NoDup l' -> (forall j, In j l' -> j < n) ->
  (forall v st1 st1' r, Rst st1 st1' -> k v st1 = Ok r -> exists r', k' v st1' = Ok r' /\ Q r r') ->
  (let* ex := to_examples s l in let* (v, st1) := leaf_value ex st in k v st1) = Ok r -> exists r', (let* ex := to_examples s' l' in let* (v, st1) := leaf_value' ex st' in k' v st1) = Ok r' /\ Q r r'.
Proof.
  intros HS HP HN Hlt HQ E. rewrite to_examples_none in * by assumption. rewrite (length_reorder p l l' HP). destruct (Nat.eqb_spec (length l) 0) as [|Hne]; [discriminate|]. cbn [rbind] in *. apply rbind_ok in E as ((v & st1) & E1 & E).
  destruct (Hleaf l l' st st' v st1 HS HP) as (st1' & E1' & HS1); try assumption; [intros ->; apply Hne; reflexivity|]. rewrite E1'. cbn [rbind]. eapply HQ; eassumption.
Qed.
Definition step_rel (r : list (node O) * tree O * St) (r' : list (node O) * tree O * St') : Prop := Forall2 rsim (fst (fst r)) (fst (fst r')) /\ snd (fst r) = snd (fst r') /\ Rst (snd r) (snd r').

Lemma rsim_step nd nd' rest rest' t st st' r : lds s sizes -> lds s' sizes -> valid_width (c_discr_nbits cfg) = true -> 0 < list_sum sizes ->
  rsim nd nd' -> Forall2 rsim rest rest' -> Rst st st' -> train_step dbg cfg s sizes bounds sched St leaf_value nd rest t st = Ok r ->
  exists r', train_step dbg' cfg s' sizes bounds sched' St' leaf_value' nd' rest' t st' = Ok r' /\ step_rel r r'.
Proof.
  intros HL HL' Hw Hs S Hrest HRst E. unfold train_step in *. apply rbind_ok in E as (sp & Esp & E). rewrite (rsim_best nd nd' sp HL S Esp). cbn [rbind].
  assert (N.of_nat (nactive_examples s') <= 2 ^ 31)%N as Hsmall' by (rewrite Hn; exact Hsmall).
  pose proof (fo_node _ _ _ _ _ _ (rs_l _ _ S)) as N1. pose proof (fo_node _ _ _ _ _ _ (rs_r _ _ S)) as N2.
  destruct (is_no_split (sp_crit sp)) eqn:Ens.
  - unfold predict_leaf_value, node_examples in *. rewrite (node_positions O cfg n _ Hsmall nd N1) in E. rewrite (node_positions O cfg _ _ Hsmall' nd' N2), Hn, (rs_id _ _ S). cbn [rbind] in *.
    apply rbind_ok in E as ((t2 & st2) & E & E'). injection E' as <-.
    edestruct (leaf_step_rel (members n nd) (members n nd') _ _ (fun v st1 => let* t' := set_node_value t (nd_id nd) v in Ok (t', st1)) (fun v st1 => let* t' := set_node_value t (nd_id nd) v in Ok (t', st1)) (fun r r' => fst r = fst r' /\ Rst (snd r) (snd r')) st st' (t2, st2) HRst (rs_mem _ _ S) (mem_nodup nd') (mem_lt nd')) as ((t2' & st2') & E2 & Et & HR2).
    + intros v st1 st1' r H1 Er. apply rbind_ok in Er as (t' & Et & Er). injection Er as <-. rewrite Et. cbn [rbind]. eexists. split; [reflexivity|]. auto.
    + exact E.
    + rewrite E2. cbn [rbind fst snd] in *. subst t2'. eexists. split; [reflexivity|]. unfold step_rel. auto.
  - destruct (best_split_weak O dbg cfg s nd sp (fun f b v => full_bin_le O cfg s sizes gv HL nd f b v (rs_l _ _ S)) Esp) as [->|(v & (Hc & Ebin & Hmin1 & Hmin2) & Hso)]; [discriminate Ens|].
    rewrite (rs_id _ _ S). destruct (negb (is_max_leaf_node t (left_child (nd_id nd)))) eqn:Emax.
    + apply rbind_ok in E as ((l & r0) & Elr & E). apply rbind_ok in E as (t'' & Es & E). injection E as <-.
      destruct (rsim_left_right nd nd' sp l r0 HL HL' Hw Hs S Hc) as (l' & r' & E' & Sl & Sr); [eauto|exact Elr|]. rewrite E'. cbn [rbind]. rewrite Es. cbn [rbind]. eexists. split; [reflexivity|]. unfold step_rel. cbn [fst snd]. auto.
    + apply rbind_ok in E as ((t2 & st2) & E & E'). apply rbind_ok in E' as (t'' & Es & E'). injection E' as <-. unfold predict_child_leaf_values in *. pose proof (proj2 (cand_iff _ _) Hc) as Hc'.
      destruct (lds_fm _ _ HL _ _ Hc) as (fm & Em & Hfm). destruct (lds_fm _ _ HL' _ _ Hc') as (fm' & Em' & Hfm'). rewrite Em in E. rewrite Em'. cbn [rbind] in *. unfold left_examples, right_examples in *.
      rewrite (node_positions_and O cfg n _ Hsmall nd fm N1 Hfm), (node_positions_andnot O cfg n _ Hsmall nd fm N1 Hfm) in E.
      rewrite (node_positions_and O cfg _ _ Hsmall' nd' fm' N2 Hfm'), (node_positions_andnot O cfg _ _ Hsmall' nd' fm' N2 Hfm'), Hn, (rs_id _ _ S). cbn [rbind] in *.
      assert (Permutation (map p (filter (bbit fm') (members n nd'))) (filter (bbit fm) (members n nd))) as PL.
      { apply filter_reorder; [|apply (rs_mem _ _ S)]. intros k Hk. apply (Hmask _ _ fm fm' Hc Em Em'). eapply mem_lt, Hk. }
      assert (Permutation (map p (filter (fun x => negb (bbit fm' x)) (members n nd'))) (filter (fun x => negb (bbit fm x)) (members n nd))) as PR.
      { apply filter_reorder; [|apply (rs_mem _ _ S)]. intros k Hk. f_equal. apply (Hmask _ _ fm fm' Hc Em Em'). eapply mem_lt, Hk. }
      edestruct (leaf_step_rel (filter (bbit fm) (members n nd)) (filter (bbit fm') (members n nd'))) with (Q := fun (r : tree O * St) (r' : tree O * St') => fst r = fst r' /\ Rst (snd r) (snd r')) as ((t2' & st2') & E2 & Et & HR2);
        [exact HRst|exact PL|apply NoDup_filter, mem_nodup|intros j Hj; apply filter_In in Hj as [Hj _]; eapply mem_lt, Hj| |exact E|].
      2:{ rewrite E2. cbn [rbind fst snd] in *. subst t2'. rewrite Es. cbn [rbind]. eexists. split; [reflexivity|]. unfold step_rel. auto. }
      intros vl st1 st1' r1 HR1 Er. cbv beta in Er |- *.
      eapply (leaf_step_rel (filter (fun x => negb (bbit fm x)) (members n nd)) (filter (fun x => negb (bbit fm' x)) (members n nd')) _ _
        (fun vr st2 => let* t1 := set_node_value t (left_child (nd_id nd)) vl in let* t2 := set_node_value t1 (right_child (nd_id nd)) vr in Ok (t2, st2))
        (fun vr st2 => let* t1 := set_node_value t (left_child (nd_id nd)) vl in let* t2 := set_node_value t1 (right_child (nd_id nd)) vr in Ok (t2, st2))
        (fun (r : tree O * St) (r' : tree O * St') => fst r = fst r' /\ Rst (snd r) (snd r'))); [exact HR1|exact PR|apply NoDup_filter, mem_nodup|intros j Hj; apply filter_In in Hj as [Hj _]; eapply mem_lt, Hj| |exact Er].
      intros vr st3 st3' r3 HR3 Er3. cbv beta in Er3 |- *. apply rbind_ok in Er3 as (ta & Ea & Er3). rewrite Ea. cbn [rbind]. apply rbind_ok in Er3 as (tb & Eb & Er3). rewrite Eb. cbn [rbind]. injection Er3 as <-. eexists. split; [reflexivity|]. auto.
Qed.

Lemma rsim_loop : lds s sizes -> lds s' sizes -> valid_width (c_discr_nbits cfg) = true -> 0 < list_sum sizes -> forall fuel stack stack' t st st' t1 st1, Forall2 rsim stack stack' -> Rst st st' ->
  train_loop dbg cfg s sizes bounds sched St leaf_value fuel stack t st = Ok (t1, st1) -> exists st1', train_loop dbg' cfg s' sizes bounds sched' St' leaf_value' fuel stack' t st' = Ok (t1, st1') /\ Rst st1 st1'.
Proof.
  intros HL HL' Hw Hs. induction fuel as [|fuel IH]; intros stack stack' t st st' t1 st1 HF HS E.
  - destruct HF; [|discriminate]. injection E as <- <-. exists st'. auto.
  - destruct HF as [|nd nd' rest rest' S HF]; [injection E as <- <-; exists st'; auto|]. cbn [train_loop] in *. apply rbind_ok in E as ([[stack1 t2] st2] & E1 & E).
    destruct (rsim_step nd nd' rest rest' t st st' _ HL HL' Hw Hs S HF HS E1) as ([[stack2 t2'] st2'] & -> & (HF' & Et & HS')). cbn [rbind fst snd] in *. subst t2'. eapply IH; eassumption.
Qed.

(** The same tree is grown, and the leaf values are computed for the same examples. *)
Lemma rows_train st st' t st1 : Rst st st' -> train dbg cfg s sizes bounds sched St leaf_value oob gradients st = Ok (t, st1) ->
  exists st1', train dbg' cfg s' sizes bounds sched' St' leaf_value' oob' gradients' st' = Ok (t, st1') /\ Rst st1 st1'.
Proof.
  unfold train. intros HS E. apply rbind_ok in E as (t0 & Et & E). apply rbind_ok in E as (root & Er & E). apply rbind_ok in E as ((t1 & st2) & El & E).
  rewrite Hsup, Et. cbn [rbind]. assert (N.of_nat (nactive_examples s') <= 2 ^ 31)%N as Hsmall' by (rewrite Hn; exact Hsmall).
  assert (example_rows s = Ok (seq 0 n)) as Hrows by (unfold example_rows; rewrite Hsam; reflexivity).
  assert (example_rows s' = Ok (seq 0 n)) as Hrows' by (unfold example_rows; rewrite Hsam', Hn; reflexivity).
  destruct (root_pre O dbg0 cfg d s sizes bounds sched gradients HR Hsizes root Er) as [HL Hw].
  destruct (root_ok O cfg s sizes bounds HL Hw Hsmall sched gradients root Hsched Er) as (rows & Erows & Hn0 & Hsz & Hlen & R1 & R2 & R3 & R4 & R5 & R6 & R7). rewrite Hrows in Erows. injection Erows as <-.
  destruct (lds_fs _ _ HL) as (fs & Efs & _).
  assert (lds s' sizes) as HL' by (eapply lds_reachable; [exact HR'|rewrite Hfs; exact Efs|exact Hsizes']).
  destruct (root_total O cfg s' sizes bounds HL' Hw Hsmall' sched' gradients' (seq 0 n) Hsched' Hrows') as (root' & Er'); [rewrite Hn; exact Hn0|exact Hsz| |].
  { intros j Hj. apply in_seq in Hj. apply nth_error_Some. rewrite Hgr by lia. apply nth_error_Some, Hlen, in_seq. pose proof (p_lt j). lia. }
  destruct (root_ok O cfg s' sizes bounds HL' Hw Hsmall' sched' gradients' root' Hsched' Er') as (rows & Erows & _ & _ & _ & R1' & R2' & R3' & R4' & R5' & R6' & R7'). rewrite Hrows' in Erows. injection Erows as <-.
  rewrite Hn in R3', R5', R6', R7', R1'. rewrite Er'. cbn [rbind].
  assert (rsim root root') as HSim.
  { constructor; try congruence.
    - constructor; [exact R1|exact R2|]. rewrite R3, seq_length. exact R5.
    - constructor; [rewrite Hn; exact R1'|exact R2'|]. rewrite Hn, R3', seq_length. exact R5'.
    - rewrite R7, R7'. f_equal. f_equal.
      apply (sum_reorder p); [|exact Hp]. intros k Hk. apply in_seq in Hk. rewrite Hgr by lia. reflexivity.
    - intros f b Hc. destruct (lds_fm _ _ HL _ _ Hc) as (fm & Em & _). destruct (lds_fm _ _ HL' _ _ (proj2 (cand_iff f b) Hc)) as (fm' & Em' & _). rewrite (R6 f b fm Hc Em), (R6' f b fm' (proj2 (cand_iff f b) Hc) Em'), R3, R3'. f_equal.
      apply (summary_reorder O cfg bounds p).
      + intros k Hk. apply filter_In in Hk as [Hk _]. apply in_seq in Hk. apply gv_eq. lia.
      + apply filter_reorder; [|exact Hp]. intros k Hk. apply in_seq in Hk. apply (Hmask f b fm fm' Hc Em Em'). lia. }
  destruct (rsim_loop HL HL' Hw Hsz _ [root] [root'] t0 st st' t1 st2 ltac:(auto) HS El) as (st2' & El' & HS2). rewrite El'. cbn [rbind].
  unfold predict_out_of_bag in *. rewrite Hsam in E. rewrite Hsam'. cbn [rbind] in *. injection E as <- <-. eauto.
Qed.
End Rows.
