(** Tables with the columns in another order: trees, training and models. *)
From Coq Require Import Permutation.
From Verif Require Import Base BaseProofs BitModel Num DataModel BinnerModel Config TreeModel DatasetModel DatasetSpec LearnerModel LearnerSpec RouteProps LearnerProofs3 LearnerProofs4 LearnerProofs5 LearnerProps ObjectiveModel MetricModel BoostModel RowProofs2 AlikeProofs
  ColSpec ColProofs ColProofs2 ColProofs3 ColProofs4.

Section Trees.
Variable O : numops.
Variable p : nat -> nat.
Variable nf : nat.
Definition crit_ok (c : split_crit O) : Prop := (is_no_split c = true -> sc_feature c = 0) /\ (is_no_split c = false -> sc_feature c < nf).
Definition rtree (t t' : tree O) : Prop := renamed_tree p nf t t' /\ Forall crit_ok (t_crits t).
Lemma renamed_type (c : split_crit O) : sc_type (renamed_crit p c) = sc_type c.
Proof. unfold renamed_crit. destruct (is_no_split c); reflexivity. Qed.
Lemma renamed_value (c : split_crit O) : sc_value (renamed_crit p c) = sc_value c.
Proof. unfold renamed_crit. destruct (is_no_split c); reflexivity. Qed.
Lemma set_value_sim (t t' : tree O) m v r : rtree t t' -> set_node_value t m v = Ok r -> exists r', set_node_value t' m v = Ok r' /\ rtree r r'.
Proof.
  intros [(H1 & H2 & H3 & H4 & H5 & H6 & H7 & H8) HC] E. unfold set_node_value in *. rewrite H4. apply rbind_ok in E as (u & -> & E). cbn [rbind]. apply rbind_ok in E as (vs & -> & E). cbn [rbind]. apply Ok_eq in E. subst r. eexists. split; [reflexivity|].
  split; [|exact HC]. unfold renamed_tree. cbn. auto 10.
Qed.
Lemma map_upd A B (h : A -> B) l : forall k x, map h (upd l k x) = upd (map h l) k (h x).
Proof. induction l as [|y l IH]; intros [|k] x; cbn; try reflexivity. rewrite IH. reflexivity. Qed.
Lemma split_node_sim (t t' : tree O) m c r : rtree t t' -> crit_ok c -> split_node t m c = Ok r -> exists r', split_node t' m (renamed_crit p c) = Ok r' /\ rtree r r'.
Proof.
  intros [(H1 & H2 & H3 & H4 & H5 & H6 & H7 & H8) HC] Hc E. unfold split_node in *. apply rbind_ok in E as (old & Eo & E). apply idx_ok in Eo.
  assert (idx (t_crits t') m = Ok (renamed_crit p old)) as -> by (apply idx_ok; rewrite H3, nth_error_map, Eo; reflexivity). cbn [rbind].
  assert (forall x : split_crit O, is_no_split (renamed_crit p x) = is_no_split x) as Hns by (intros x; unfold is_no_split; rewrite renamed_type; reflexivity). rewrite !Hns.
  apply rbind_ok in E as (u1 & -> & E). cbn [rbind]. apply rbind_ok in E as (u2 & -> & E). cbn [rbind]. unfold is_max_leaf_node, max_ninternal in *. rewrite H2. apply rbind_ok in E as (u3 & -> & E). cbn [rbind].
  apply rbind_ok in E as (cs & Ec & E). apply set_idx_ok in Ec as [Hl ->]. apply Ok_eq in E. subst r.
  assert (set_idx (t_crits t') m (renamed_crit p c) = Ok (map (renamed_crit p) (upd (t_crits t) m c))) as -> by (apply set_idx_ok; rewrite H3, map_length, map_upd; auto). cbn [rbind]. eexists. split; [reflexivity|].
  split; [unfold renamed_tree; cbn; rewrite H1; auto 10|]. cbn [t_crits]. apply Forall_forall. intros x Hx. apply In_nth_error in Hx as (k & Hk). rewrite nth_error_upd in Hk. destruct (_ && _); [injection Hk as <-; exact Hc|]. rewrite Forall_forall in HC. apply HC. eapply nth_error_In, Hk.
Qed.

(** Prediction on a table with the columns in the new order. *)
Section Predict.
Variables D D' : data O.
Hypothesis HD : reordered_columns p D D'.
Hypothesis Hnf : d_nfeatures D = nf.
Lemma column_zero : exists c c', get_feature D 0 = Ok c /\ get_feature D' 0 = Ok c' /\ length c = d_nexamples D /\ length c' = d_nexamples D.
Proof.
  destruct HD as (_ & _ & _ & _ & _ & L & L' & _ & _ & HL). destruct (d_features D) as [|c cs] eqn:E; [discriminate L|]. destruct (d_features D') as [|c' cs'] eqn:E'; [discriminate L'|].
  exists c, c'. unfold get_feature. rewrite E, E'. split; [reflexivity|]. split; [reflexivity|]. split; apply HL; [left|right]; left; reflexivity.
Qed.
Lemma goes_sim (t t' : tree O) c v : rtree t t' -> crit_ok c -> goes_left t' (renamed_crit p c) v = goes_left t c v.
Proof.
  intros [(H1 & H2 & H3 & H4 & H5 & H6 & H7 & H8) _] [_ Hc]. unfold goes_left. rewrite renamed_type, renamed_value. destruct (sc_type c) eqn:Et; try reflexivity. assert (is_no_split c = false) as Hn by (unfold is_no_split; rewrite Et; reflexivity). specialize (Hc Hn).
  assert (sc_feature (renamed_crit p c) = p (sc_feature c)) as -> by (unfold renamed_crit; rewrite Hn; reflexivity). specialize (H8 _ Hc). unfold idx. rewrite H8.
  assert ((p (sc_feature c) <? length (t_supercats t')) = (sc_feature c <? length (t_supercats t))) as ->; [|reflexivity]. apply Bool.eq_iff_eq_true. rewrite !Nat.ltb_lt, <- !nth_error_Some, H8. reflexivity.
Qed.
Lemma loop_sim (t t' : tree O) i : rtree t t' -> forall f m, leaf_id_loop f t' D' i m = leaf_id_loop f t D i m.
Proof.
  intros HT. pose proof HT as [(H1 & H2 & H3 & H4 & H5 & H6 & H7 & H8) HC]. induction f as [|f IH]; intros m; [reflexivity|]. cbn [leaf_id_loop]. unfold idx at 1. unfold idx at 2. rewrite H3, nth_error_map. destruct (nth_error (t_crits t) m) as [c|] eqn:Ec; cbn [option_map rbind]; [|reflexivity].
  assert (crit_ok c) as Hc by (rewrite Forall_forall in HC; apply HC; eapply nth_error_In, Ec).
  destruct (is_no_split c) eqn:En.
  - assert (renamed_crit p c = c) as -> by (unfold renamed_crit; rewrite En; reflexivity). rewrite (proj1 Hc En). destruct column_zero as (a & a' & -> & -> & L & L'). cbn [rbind]. unfold idx.
    assert (sc_type c = NoSplit) as Et by (unfold is_no_split in En; destruct (sc_type c); [reflexivity|discriminate..]). unfold goes_left. rewrite Et. cbn [rbind].
    destruct (nth_error a i) eqn:E1, (nth_error a' i) eqn:E2; cbn [rbind]; try reflexivity; exfalso; [apply nth_error_None in E2; assert (i < length a) by (apply nth_error_Some; congruence); lia|apply nth_error_None in E1; assert (i < length a') by (apply nth_error_Some; congruence); lia].
  - assert (sc_feature (renamed_crit p c) = p (sc_feature c)) as -> by (unfold renamed_crit; rewrite En; reflexivity). assert (sc_feature c < d_nfeatures D) as Hf by (rewrite Hnf; apply Hc, En). rewrite (same_feature O p D D' HD _ Hf).
    destruct (get_feature D (sc_feature c)) as [col| | |]; cbn [rbind]; try reflexivity. destruct (idx col i) as [v| | |]; cbn [rbind]; try reflexivity. rewrite (goes_sim t t' c v HT Hc). destruct (goes_left t c v) as [[[|]|]| | |]; cbn [rbind]; try reflexivity; apply IH.
Qed.
Lemma single_sim (t t' : tree O) i : rtree t t' -> predict_single t' D' i = predict_single t D i.
Proof.
  intros HT. unfold predict_single, predict_leaf_id. rewrite (loop_sim t t' i HT). pose proof HT as [(H1 & H2 & H3 & H4 & H5 & H6 & _) _]. rewrite H3, map_length, H4, H5, H6. reflexivity.
Qed.
Lemma predict_and_sim (t t' : tree O) f buf : rtree t t' -> predict_and t' D' f buf = predict_and t D f buf.
Proof.
  intros HT. unfold predict_and. rewrite (same_ne O p D D' HD). destruct (rassert _); cbn [rbind]; try reflexivity. generalize (seq 0 (d_nexamples D)) as l. intros l. revert buf. induction l as [|i l IH]; intros buf; [reflexivity|]. cbn [foldM]. rewrite (single_sim _ _ _ HT). 
  destruct (let* q := predict_single t D i in let* x := idx buf i in set_idx buf i (f q x)); cbn [rbind]; try reflexivity. apply IH.
Qed.
Lemma additive_sim (ts ts' : list (tree O)) b : Forall2 rtree ts ts' -> additive_predict (mk_add b ts') D' = additive_predict (mk_add b ts) D.
Proof.
  intros H. unfold additive_predict, additive_predict_buf. rewrite (same_ne O p D D' HD). cbn [at_trees at_bias]. generalize (map (fun _ : num O => b) (repeat (nofZ O 0) (d_nexamples D))) as buf.
  induction H as [|t t' ts ts' Ht _ IH]; intros buf; [reflexivity|]. cbn [foldM]. rewrite (predict_and_sim _ _ _ _ Ht). destruct (predict_and t D _ buf); cbn [rbind]; try reflexivity. apply IH.
Qed.
End Predict.
End Trees.

Section Train.
Variable O : numops.
Variable dbg : bool.
Variable cfg : config O.
Variable p : nat -> nat.
Variables d d' : data O.
Hypothesis HR : reordered_columns p d d'.
Notation nf := (d_nfeatures d).
Variables s s' : dataset O.
Hypothesis Hds : rds O p d d' s s'.
Variables sizes sizes' : list nat.
Variable bounds : num O * num O.
Variables sched sched' : nat -> list job -> list job.
Hypothesis HS : setting dbg cfg d s sizes sched.
Hypothesis HS' : setting dbg cfg d' s' sizes' sched'.
Hypothesis Hsz : rl p nf sizes sizes'.
Hypothesis Hne : 0 < d_nexamples d.
Hypothesis Hirr : forall a, nlt O a a = false.
Hypothesis Htrans : forall a b c, nlt O a b = true -> nlt O b c = true -> nlt O a c = true.
Hypothesis Hco : forall m a b c, nlt O a b = true -> nlt O m c = true -> nlt O a c = true \/ nlt O c b = true.
Variable gradients : list (num O).
Notation grown1 := (grown dbg cfg s sizes bounds sched gradients).
Notation grown2 := (grown dbg cfg s' sizes' bounds sched' gradients).
Hypothesis HT : forall nd, grown1 nd -> no_ties_at cfg s nd.
Variable St : Type.
Variable leaf_value : list nat -> St -> res (num O * St).
Variable oob : nat -> num O -> St -> res St.
Notation rnode := (rnode O p d).
Notation rtree := (rtree O p nf).
Let Hin : rin O p d d' (ds_inner s) (ds_inner s') := rd_in _ _ _ _ _ _ Hds.

Lemma best_both nd nd' sp : grown1 nd -> grown2 nd' -> rnode nd nd' -> find_best_split dbg cfg s nd = Ok sp -> exists sp', find_best_split dbg cfg s' nd' = Ok sp' /\ rsplit O p d sp sp'.
Proof.
  intros G G' HN E. destruct (C20_total O dbg dbg cfg d' s' sizes' bounds sched' gradients nd' HS' ltac:(rewrite (same_ne O p d d' HR); exact Hne) G') as (sp' & E'). exists sp'. split; [exact E'|].
  destruct HS as (HRe & Hsz1 & Hsch & Hsm). destruct (grown_pre _ dbg dbg _ _ _ _ _ _ _ HRe Hsz1 Hsch Hsm nd G) as (HL & Hw & Hs & rows & Hrows & _).
  pose proof (grown_ok _ dbg dbg _ _ _ _ _ _ _ HRe Hsz1 Hsch Hsm nd rows G Hrows) as HF.
  eapply (best_sim O dbg cfg p d d' HR s s' Hds Hirr Htrans Hco nd nd' sp sp' HN); [|apply HT, G|exact E|exact E'].
  intros f b l. apply (full_bin_le O cfg s sizes _ HL nd f b l HF).
Qed.
Lemma to_examples_same l : to_examples s' l = to_examples s l.
Proof.
  unfold to_examples, map_index. rewrite (ex_sampling_same O p d d' s s' Hds), (active_ex_same O p d d' s s' Hds). reflexivity.
Qed.
Definition pair_ok (nd nd' : node O) : Prop := rnode nd nd' /\ grown1 nd /\ grown2 nd'.
Lemma step_sim nd nd' rest rest' t t' st r t1 st1 : pair_ok nd nd' -> Forall2 pair_ok rest rest' -> rtree t t' -> train_step dbg cfg s sizes bounds sched St leaf_value nd rest t st = Ok (r, t1, st1) ->
  exists r' t1', train_step dbg cfg s' sizes' bounds sched' St leaf_value nd' rest' t' st = Ok (r', t1', st1) /\ Forall2 pair_ok r r' /\ rtree t1 t1'.
Proof.
  intros (HN & G & G') HF Ht E. unfold train_step in *. apply rbind_ok in E as (sp & Esp & E). destruct (best_both nd nd' sp G G' HN Esp) as (sp' & Esp' & HP). rewrite Esp'. cbn [rbind].
  assert (is_no_split (sp_crit sp') = is_no_split (sp_crit sp)) as Ens by (destruct HP as (_ & -> & _); unfold is_no_split; rewrite renamed_type; reflexivity). rewrite Ens. destruct (is_no_split (sp_crit sp)) eqn:En.
  - apply rbind_ok in E as ((t2 & st2) & E1 & E). apply Ok_eq in E. injection E as <- <- <-. unfold predict_leaf_value in *. assert (node_examples s' nd' = node_examples s nd) as -> by (unfold node_examples; rewrite (rn_compr _ _ _ _ _ HN), (rn_mask _ _ _ _ _ HN), (rn_idx _ _ _ _ _ HN); destruct (if nd_compr nd then _ else _); cbn [rbind]; try reflexivity; apply to_examples_same).
    apply rbind_ok in E1 as (ex & -> & E1). cbn [rbind]. apply rbind_ok in E1 as ((v & st3) & -> & E1). cbn [rbind]. apply rbind_ok in E1 as (t3 & Ev & E1). apply Ok_eq in E1. injection E1 as <- <-. rewrite (rn_id _ _ _ _ _ HN). destruct (set_value_sim O p nf _ _ _ _ _ Ht Ev) as (t3' & -> & Ht3). cbn [rbind].
    eexists. eexists. split; [reflexivity|]. split; [exact HF|exact Ht3].
  - destruct (rsplit_feature O p d _ _ HP En) as (EF & Hf & _). assert (crit_ok O nf (sp_crit sp)) as Hcrit by (split; [congruence|intros _; exact Hf]).
    assert (is_max_leaf_node t' (left_child (nd_id nd')) = is_max_leaf_node t (left_child (nd_id nd))) as -> by (unfold is_max_leaf_node, max_ninternal; destruct Ht as [(_ & -> & _) _]; rewrite (rn_id _ _ _ _ _ HN); reflexivity). pose proof HP as (Eid & Ecrit & _ & _). rewrite (rn_id _ _ _ _ _ HN).
    destruct (negb (is_max_leaf_node t (left_child (nd_id nd)))).
    + apply rbind_ok in E as ((l & rn) & Elr & E). destruct (children_sim O dbg cfg p d d' HR s s' Hds sizes sizes' Hsz bounds sched sched' (proj1 (proj2 (proj2 HS))) (proj1 (proj2 (proj2 HS'))) _ _ _ _ _ _ HN HP En Elr) as (l' & rn' & Elr' & Hl & Hr). rewrite Elr'. cbn [rbind].
      apply rbind_ok in E as (t2 & Et & E). apply Ok_eq in E. injection E as <- <- <-. rewrite Ecrit. destruct (split_node_sim O p nf _ _ _ _ _ Ht Hcrit Et) as (t2' & -> & Ht2). cbn [rbind]. eexists. eexists. split; [reflexivity|]. split; [|exact Ht2].
      constructor; [split; [exact Hl|split; [eapply grown_left; eassumption|eapply grown_left; [exact G'|exact Esp'|congruence|exact Elr']]]|]. constructor; [|exact HF]. split; [exact Hr|split; [eapply grown_right; eassumption|eapply grown_right; [exact G'|exact Esp'|congruence|exact Elr']]].
    + apply rbind_ok in E as ((t2 & st2) & E1 & E). apply rbind_ok in E as (t3 & Et & E). apply Ok_eq in E. injection E as <- <- <-. unfold predict_child_leaf_values in *. rewrite EF, Eid, (bitvec_same O p d d' s s' Hds _ _ Hf), (rn_id _ _ _ _ _ HN).
      apply rbind_ok in E1 as (fm & -> & E1). cbn [rbind].
      assert (left_examples s' nd' fm = left_examples s nd fm) as -> by (unfold left_examples; rewrite (rn_compr _ _ _ _ _ HN), (rn_mask _ _ _ _ _ HN), (rn_idx _ _ _ _ _ HN); destruct (if nd_compr nd then _ else _); cbn [rbind]; try reflexivity; apply to_examples_same).
      apply rbind_ok in E1 as (exl & -> & E1). cbn [rbind]. apply rbind_ok in E1 as ((vl & sl) & -> & E1). cbn [rbind].
      assert (right_examples s' nd' fm = right_examples s nd fm) as -> by (unfold right_examples; rewrite (rn_compr _ _ _ _ _ HN), (rn_mask _ _ _ _ _ HN), (rn_idx _ _ _ _ _ HN); destruct (if nd_compr nd then _ else _); cbn [rbind]; try reflexivity; apply to_examples_same).
      apply rbind_ok in E1 as (exr & -> & E1). cbn [rbind]. apply rbind_ok in E1 as ((vr & sr) & -> & E1). cbn [rbind].
      apply rbind_ok in E1 as (ta & Ea & E1). destruct (set_value_sim O p nf _ _ _ _ _ Ht Ea) as (ta' & -> & Hta). cbn [rbind]. apply rbind_ok in E1 as (tb & Eb & E1). destruct (set_value_sim O p nf _ _ _ _ _ Hta Eb) as (tb' & -> & Htb). cbn [rbind]. apply Ok_eq in E1. injection E1 as <- <-.
      rewrite Ecrit. destruct (split_node_sim O p nf _ _ _ _ _ Htb Hcrit Et) as (t2' & -> & Ht2). cbn [rbind]. eexists. eexists. split; [reflexivity|]. split; [exact HF|exact Ht2].
Qed.
Lemma tloop_sim : forall fuel stack stack' t t' st t1 st1, Forall2 pair_ok stack stack' -> rtree t t' -> train_loop dbg cfg s sizes bounds sched St leaf_value fuel stack t st = Ok (t1, st1) ->
  exists t1', train_loop dbg cfg s' sizes' bounds sched' St leaf_value fuel stack' t' st = Ok (t1', st1) /\ rtree t1 t1'.
Proof.
  induction fuel as [|fuel IH]; intros stack stack' t t' st t1 st1 HF Ht E; (destruct HF as [|nd nd' rest rest' HN HF]; cbn [train_loop] in *; [apply Ok_eq in E; injection E as <- <-; eauto|]).
  - discriminate.
  - apply rbind_ok in E as (((r & t2) & st2) & E1 & E). destruct (step_sim _ _ _ _ _ _ _ _ _ _ HN HF Ht E1) as (r' & t2' & -> & HF2 & Ht2). cbn [rbind fst snd] in *. eapply IH; eassumption.
Qed.
Lemma oob_sim t t' st : rtree t t' -> predict_out_of_bag s' St oob t' st = predict_out_of_bag s St oob t st.
Proof.
  intros Ht. unfold predict_out_of_bag. rewrite (ex_sampling_same O p d d' s s' Hds). destruct (example_sampling_enabled s) eqn:Es; [|reflexivity].
  assert (inactive_examples s' = inactive_examples s) as -> by (unfold inactive_examples; rewrite (ex_sampling_same O p d d' s s' Hds), (active_ex_same O p d d' s s' Hds), (ri_data _ _ _ _ _ _ Hin), (ri_data' _ _ _ _ _ _ Hin), (same_ne O p d d' HR); reflexivity).
  destruct (inactive_examples s) as [l| | |]; cbn [rbind]; try reflexivity. revert st. induction l as [|i l IH]; intros st; [reflexivity|]. cbn [foldM]. rewrite (ri_data _ _ _ _ _ _ Hin), (ri_data' _ _ _ _ _ _ Hin), (single_sim O p nf d d' HR eq_refl _ _ _ Ht).
  destruct (let* q := predict_single t d i in oob i q st); cbn [rbind]; try reflexivity. rewrite (ri_data _ _ _ _ _ _ Hin), (ri_data' _ _ _ _ _ _ Hin) in IH. apply IH.
Qed.
Lemma train_sim t st st1 : train dbg cfg s sizes bounds sched St leaf_value oob gradients st = Ok (t, st1) -> exists t', train dbg cfg s' sizes' bounds sched' St leaf_value oob gradients st = Ok (t', st1) /\ rtree t t'.
Proof.
  intros E. unfold train in *. apply rbind_ok in E as (t0 & Et & E). unfold tree_new in *. apply rbind_ok in Et as (u & -> & Et). cbn [rbind]. apply Ok_eq in Et. apply rbind_ok in E as (root & Er & E).
  destruct (root_sim O cfg p d d' HR s s' Hds sizes sizes' Hsz bounds sched sched' (proj1 (proj2 (proj2 HS))) (proj1 (proj2 (proj2 HS'))) gradients root Er) as (root' & Er' & HN). rewrite Er'. cbn [rbind].
  apply rbind_ok in E as ((t2 & st2) & El & E).
  match goal with |- context [train_loop _ _ _ _ _ _ _ _ _ _ ?x _] => assert (rtree t0 x) as Ht0 end.
  { subst t0. split; [|apply Forall_forall; intros c Hc; cbn [t_crits] in Hc; apply repeat_spec in Hc; subst c; split; [reflexivity|discriminate]]. unfold renamed_tree, get_supercats. cbn [t_ninternal t_max_depth t_crits t_values t_shrinkage t_bias t_supercats].
    do 2 (split; [reflexivity|]). split; [generalize (2 ^ (c_max_tree_depth cfg + 1) - 1) as n; induction n as [|n IH]; cbn [repeat map]; [reflexivity|rewrite <- IH; reflexivity]|]. do 3 (split; [reflexivity|]). split; [apply (rl_length p nf), Hin|]. intros f Hf. apply (rl_nth p nf); [apply Hin|exact Hf]. }
  assert (Forall2 pair_ok [root] [root']) as HF by (constructor; [split; [exact HN|split; [apply grown_root, Er|apply grown_root, Er']]|constructor]).
  destruct (tloop_sim _ _ _ _ _ _ _ _ HF Ht0 El) as (t2' & -> & Ht2). cbn [rbind]. rewrite (oob_sim _ _ _ Ht2). apply rbind_ok in E as (st3 & -> & E). apply Ok_eq in E. injection E as <- <-. cbn [rbind]. eauto.
Qed.
End Train.
