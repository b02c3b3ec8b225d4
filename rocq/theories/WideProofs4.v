(** Tables with extra constant columns: trees, training. *)
From Coq Require Import Permutation.
From Verif Require Import Base BaseProofs BitModel Num DataModel BinnerModel Config TreeModel DatasetModel DatasetSpec LearnerModel LearnerSpec RouteProps LearnerProofs3 LearnerProofs4 LearnerProps ObjectiveModel MetricModel BoostModel RowProofs2 AlikeProofs
  ColSpec ColProofs ColProofs2 ColProofs3 ColProofs4 ColProofs5 WideSpec WideProofs WideProofs2 WideProofs3.

Section Trees.
Variable O : numops.
Variable p : nat -> nat.
Variable nf : nat.
Notation crit_ok := (crit_ok O nf).
Notation renamed_type := (renamed_type O p).
Notation renamed_value := (renamed_value O p).
Definition wtree (t t' : tree O) : Prop := widened_tree p nf t t' /\ Forall crit_ok (t_crits t).
Lemma wset_value (t t' : tree O) m v r : wtree t t' -> set_node_value t m v = Ok r -> exists r', set_node_value t' m v = Ok r' /\ wtree r r'.
Proof.
  intros [(H1 & H2 & H3 & H4 & H5 & H6 & H8) HC] E. unfold set_node_value in *. rewrite H4. apply rbind_ok in E as (u & -> & E). cbn [rbind]. apply rbind_ok in E as (vs & -> & E). cbn [rbind]. apply Ok_eq in E. subst r. eexists. split; [reflexivity|].
  split; [|exact HC]. unfold widened_tree. cbn. auto 10.
Qed.
Lemma wsplit_node (t t' : tree O) m c r : wtree t t' -> crit_ok c -> split_node t m c = Ok r -> exists r', split_node t' m (renamed_crit p c) = Ok r' /\ wtree r r'.
Proof.
  intros [(H1 & H2 & H3 & H4 & H5 & H6 & H8) HC] Hc E. unfold split_node in *. apply rbind_ok in E as (old & Eo & E). apply idx_ok in Eo.
  assert (idx (t_crits t') m = Ok (renamed_crit p old)) as -> by (apply idx_ok; rewrite H3, nth_error_map, Eo; reflexivity). cbn [rbind].
  assert (forall x : split_crit O, is_no_split (renamed_crit p x) = is_no_split x) as Hns by (intros x; unfold is_no_split; rewrite renamed_type; reflexivity). rewrite !Hns.
  apply rbind_ok in E as (u1 & -> & E). cbn [rbind]. apply rbind_ok in E as (u2 & -> & E). cbn [rbind]. unfold is_max_leaf_node, max_ninternal in *. rewrite H2. apply rbind_ok in E as (u3 & -> & E). cbn [rbind].
  apply rbind_ok in E as (cs & Ec & E). apply set_idx_ok in Ec as [Hl ->]. apply Ok_eq in E. subst r.
  assert (set_idx (t_crits t') m (renamed_crit p c) = Ok (map (renamed_crit p) (upd (t_crits t) m c))) as -> by (apply set_idx_ok; rewrite H3, map_length, map_upd; auto). cbn [rbind]. eexists. split; [reflexivity|].
  split; [unfold widened_tree; cbn; rewrite H1; auto 10|]. cbn [t_crits]. apply Forall_forall. intros x Hx. apply In_nth_error in Hx as (k & Hk). rewrite nth_error_upd in Hk. destruct (_ && _); [injection Hk as <-; exact Hc|]. rewrite Forall_forall in HC. apply HC. eapply nth_error_In, Hk.
Qed.

(** Prediction on a table with the columns in the new order. *)
Section Predict.
Variables D D' : data O.
Hypothesis HD : wider p D D'.
Hypothesis Hnf : d_nfeatures D = nf.
Lemma wcolumn_zero : exists c c', get_feature D 0 = Ok c /\ get_feature D' 0 = Ok c' /\ length c = d_nexamples D /\ length c' = d_nexamples D.
Proof.
  destruct HD as (_ & _ & _ & L & L' & _ & HL). destruct (d_features D) as [|c cs] eqn:E; [discriminate L|]. destruct (d_features D') as [|c' cs'] eqn:E'; [discriminate L'|].
  exists c, c'. unfold get_feature. rewrite E, E'. split; [reflexivity|]. split; [reflexivity|]. split; apply HL; [left|right]; left; reflexivity.
Qed.
Lemma wgoes (t t' : tree O) c v : wtree t t' -> crit_ok c -> goes_left t' (renamed_crit p c) v = goes_left t c v.
Proof.
  intros [(H1 & H2 & H3 & H4 & H5 & H6 & H8) _] [_ Hc]. unfold goes_left. rewrite renamed_type, renamed_value. destruct (sc_type c) eqn:Et; try reflexivity. assert (is_no_split c = false) as Hn by (unfold is_no_split; rewrite Et; reflexivity). specialize (Hc Hn).
  assert (sc_feature (renamed_crit p c) = p (sc_feature c)) as -> by (unfold renamed_crit; rewrite Hn; reflexivity). specialize (H8 _ Hc). unfold idx. rewrite H8.
  assert ((p (sc_feature c) <? length (t_supercats t')) = (sc_feature c <? length (t_supercats t))) as ->; [|reflexivity]. apply Bool.eq_iff_eq_true. rewrite !Nat.ltb_lt, <- !nth_error_Some, H8. reflexivity.
Qed.
Lemma wlid (t t' : tree O) i : wtree t t' -> forall f m, leaf_id_loop f t' D' i m = leaf_id_loop f t D i m.
Proof.
  intros HT. pose proof HT as [(H1 & H2 & H3 & H4 & H5 & H6 & H8) HC]. induction f as [|f IH]; intros m; [reflexivity|]. cbn [leaf_id_loop]. unfold idx at 1. unfold idx at 2. rewrite H3, nth_error_map. destruct (nth_error (t_crits t) m) as [c|] eqn:Ec; cbn [option_map rbind]; [|reflexivity].
  assert (crit_ok c) as Hc by (rewrite Forall_forall in HC; apply HC; eapply nth_error_In, Ec).
  destruct (is_no_split c) eqn:En.
  - assert (renamed_crit p c = c) as -> by (unfold renamed_crit; rewrite En; reflexivity). rewrite (proj1 Hc En). destruct wcolumn_zero as (a & a' & -> & -> & L & L'). cbn [rbind]. unfold idx.
    assert (sc_type c = NoSplit) as Et by (unfold is_no_split in En; destruct (sc_type c); [reflexivity|discriminate..]). unfold goes_left. rewrite Et. cbn [rbind].
    destruct (nth_error a i) eqn:E1, (nth_error a' i) eqn:E2; cbn [rbind]; try reflexivity; exfalso; [apply nth_error_None in E2; assert (i < length a) by (apply nth_error_Some; congruence); lia|apply nth_error_None in E1; assert (i < length a') by (apply nth_error_Some; congruence); lia].
  - assert (sc_feature (renamed_crit p c) = p (sc_feature c)) as -> by (unfold renamed_crit; rewrite En; reflexivity). assert (sc_feature c < d_nfeatures D) as Hf by (rewrite Hnf; apply Hc, En). rewrite (w_feature O p D D' HD _ Hf).
    destruct (get_feature D (sc_feature c)) as [col| | |]; cbn [rbind]; try reflexivity. destruct (idx col i) as [v| | |]; cbn [rbind]; try reflexivity. rewrite (wgoes t t' c v HT Hc). destruct (goes_left t c v) as [[[|]|]| | |]; cbn [rbind]; try reflexivity; apply IH.
Qed.
Lemma wsingle (t t' : tree O) i : wtree t t' -> predict_single t' D' i = predict_single t D i.
Proof.
  intros HT. unfold predict_single, predict_leaf_id. rewrite (wlid t t' i HT). pose proof HT as [(H1 & H2 & H3 & H4 & H5 & H6 & _) _]. rewrite H3, map_length, H4, H5, H6. reflexivity.
Qed.
Lemma wpredict_and (t t' : tree O) f buf : wtree t t' -> predict_and t' D' f buf = predict_and t D f buf.
Proof.
  intros HT. unfold predict_and. rewrite (w_ne O p D D' HD). destruct (rassert _); cbn [rbind]; try reflexivity. generalize (seq 0 (d_nexamples D)) as l. intros l. revert buf. induction l as [|i l IH]; intros buf; [reflexivity|]. cbn [foldM]. rewrite (wsingle _ _ _ HT). 
  destruct (let* q := predict_single t D i in let* x := idx buf i in set_idx buf i (f q x)); cbn [rbind]; try reflexivity. apply IH.
Qed.
Lemma wadditive (ts ts' : list (tree O)) b : Forall2 wtree ts ts' -> additive_predict (mk_add b ts') D' = additive_predict (mk_add b ts) D.
Proof.
  intros H. unfold additive_predict, additive_predict_buf. rewrite (w_ne O p D D' HD). cbn [at_trees at_bias]. generalize (map (fun _ : num O => b) (repeat (nofZ O 0) (d_nexamples D))) as buf.
  induction H as [|t t' ts ts' Ht _ IH]; intros buf; [reflexivity|]. cbn [foldM]. rewrite (wpredict_and _ _ _ _ Ht). destruct (predict_and t D _ buf); cbn [rbind]; try reflexivity. apply IH.
Qed.
End Predict.
End Trees.

Section Train.
Variable O : numops.
Variable dbg : bool.
Variable cfg : config O.
Variable p : nat -> nat.
Variables d d' : data O.
Hypothesis HW : wider p d d'.
Hypothesis HX : extra_constant p d d'.
Hypothesis HC : same_columns p d d'.
Notation nf := (d_nfeatures d).
Variables s s' : dataset O.
Hypothesis Hds : wds O p d d' s s'.
Variables sizes sizes' : list nat.
Hypothesis Hsz : wl p nf (d_nfeatures d') sizes sizes'.
Variable bounds : num O * num O.
Variables sched sched' : nat -> list job -> list job.
Hypothesis Hsched : forall k js, Permutation js (sched k js).
Hypothesis Hsched' : forall k js, Permutation js (sched' k js).
Variable gradients : list (num O).
Variable St : Type.
Variable leaf_value : list nat -> St -> res (num O * St).
Variable oob : nat -> num O -> St -> res St.
Notation wnode := (wnode O p d d').
Notation wtree := (wtree O p nf).
Let Hin : win O p d d' (ds_inner s) (ds_inner s') := wd_in _ _ _ _ _ _ Hds.

Lemma wto_examples l : to_examples s' l = to_examples s l.
Proof.
  unfold to_examples, map_index. rewrite (wex_sampling O p d d' s s' Hds), (wactive_ex O p d d' s s' Hds). reflexivity.
Qed.
Lemma wtstep nd nd' rest rest' t t' st r t1 st1 : wnode nd nd' -> Forall2 wnode rest rest' -> wtree t t' -> train_step dbg cfg s sizes bounds sched St leaf_value nd rest t st = Ok (r, t1, st1) ->
  exists r' t1', train_step dbg cfg s' sizes' bounds sched' St leaf_value nd' rest' t' st = Ok (r', t1', st1) /\ Forall2 wnode r r' /\ wtree t1 t1'.
Proof.
  intros HN HF Ht E. unfold train_step in *. apply rbind_ok in E as (sp & Esp & E). destruct (wbest O dbg cfg p d d' HC s s' Hds nd nd' sp HN Esp) as (sp' & Esp' & HP). rewrite Esp'. cbn [rbind].
  assert (is_no_split (sp_crit sp') = is_no_split (sp_crit sp)) as Ens by (destruct HP as (_ & -> & _); unfold is_no_split; rewrite renamed_type; reflexivity). rewrite Ens. destruct (is_no_split (sp_crit sp)) eqn:En.
  - apply rbind_ok in E as ((t2 & st2) & E1 & E). apply Ok_eq in E. injection E as <- <- <-. unfold predict_leaf_value in *. assert (node_examples s' nd' = node_examples s nd) as -> by (unfold node_examples; rewrite (wn_compr _ _ _ _ _ _ HN), (wn_mask _ _ _ _ _ _ HN), (wn_idx _ _ _ _ _ _ HN); destruct (if nd_compr nd then _ else _); cbn [rbind]; try reflexivity; apply wto_examples).
    apply rbind_ok in E1 as (ex & -> & E1). cbn [rbind]. apply rbind_ok in E1 as ((v & st3) & -> & E1). cbn [rbind]. apply rbind_ok in E1 as (t3 & Ev & E1). apply Ok_eq in E1. injection E1 as <- <-. rewrite (wn_id _ _ _ _ _ _ HN). destruct (wset_value O p nf _ _ _ _ _ Ht Ev) as (t3' & -> & Ht3). cbn [rbind].
    eexists. eexists. split; [reflexivity|]. split; [exact HF|exact Ht3].
  - destruct (rsplit_feature O p d _ _ HP En) as (EF & Hf & _). assert (crit_ok O nf (sp_crit sp)) as Hcrit by (split; [congruence|intros _; exact Hf]).
    assert (is_max_leaf_node t' (left_child (nd_id nd')) = is_max_leaf_node t (left_child (nd_id nd))) as -> by (unfold is_max_leaf_node, max_ninternal; destruct Ht as [(_ & -> & _) _]; rewrite (wn_id _ _ _ _ _ _ HN); reflexivity). pose proof HP as (Eid & Ecrit & _ & _). rewrite (wn_id _ _ _ _ _ _ HN).
    destruct (negb (is_max_leaf_node t (left_child (nd_id nd)))).
    + apply rbind_ok in E as ((l & rn) & Elr & E). destruct (wchildren O dbg cfg p d d' HW s s' Hds sizes sizes' Hsz bounds sched sched' Hsched Hsched' _ _ _ _ _ _ HN HP En Elr) as (l' & rn' & Elr' & Hl & Hr). rewrite Elr'. cbn [rbind].
      apply rbind_ok in E as (t2 & Et & E). apply Ok_eq in E. injection E as <- <- <-. rewrite Ecrit. destruct (wsplit_node O p nf _ _ _ _ _ Ht Hcrit Et) as (t2' & -> & Ht2). cbn [rbind]. eexists. eexists. split; [reflexivity|]. split; [|exact Ht2].
      constructor; [exact Hl|constructor; [exact Hr|exact HF]].
    + apply rbind_ok in E as ((t2 & st2) & E1 & E). apply rbind_ok in E as (t3 & Et & E). apply Ok_eq in E. injection E as <- <- <-. unfold predict_child_leaf_values in *. rewrite EF, Eid, (wbitvec O p d d' s s' Hds _ _ Hf), (wn_id _ _ _ _ _ _ HN).
      apply rbind_ok in E1 as (fm & -> & E1). cbn [rbind].
      assert (left_examples s' nd' fm = left_examples s nd fm) as -> by (unfold left_examples; rewrite (wn_compr _ _ _ _ _ _ HN), (wn_mask _ _ _ _ _ _ HN), (wn_idx _ _ _ _ _ _ HN); destruct (if nd_compr nd then _ else _); cbn [rbind]; try reflexivity; apply wto_examples).
      apply rbind_ok in E1 as (exl & -> & E1). cbn [rbind]. apply rbind_ok in E1 as ((vl & sl) & -> & E1). cbn [rbind].
      assert (right_examples s' nd' fm = right_examples s nd fm) as -> by (unfold right_examples; rewrite (wn_compr _ _ _ _ _ _ HN), (wn_mask _ _ _ _ _ _ HN), (wn_idx _ _ _ _ _ _ HN); destruct (if nd_compr nd then _ else _); cbn [rbind]; try reflexivity; apply wto_examples).
      apply rbind_ok in E1 as (exr & -> & E1). cbn [rbind]. apply rbind_ok in E1 as ((vr & sr) & -> & E1). cbn [rbind].
      apply rbind_ok in E1 as (ta & Ea & E1). destruct (wset_value O p nf _ _ _ _ _ Ht Ea) as (ta' & -> & Hta). cbn [rbind]. apply rbind_ok in E1 as (tb & Eb & E1). destruct (wset_value O p nf _ _ _ _ _ Hta Eb) as (tb' & -> & Htb). cbn [rbind]. apply Ok_eq in E1. injection E1 as <- <-.
      rewrite Ecrit. destruct (wsplit_node O p nf _ _ _ _ _ Htb Hcrit Et) as (t2' & -> & Ht2). cbn [rbind]. eexists. eexists. split; [reflexivity|]. split; [exact HF|exact Ht2].
Qed.
Lemma wtloop : forall fuel stack stack' t t' st t1 st1, Forall2 wnode stack stack' -> wtree t t' -> train_loop dbg cfg s sizes bounds sched St leaf_value fuel stack t st = Ok (t1, st1) ->
  exists t1', train_loop dbg cfg s' sizes' bounds sched' St leaf_value fuel stack' t' st = Ok (t1', st1) /\ wtree t1 t1'.
Proof.
  induction fuel as [|fuel IH]; intros stack stack' t t' st t1 st1 HF Ht E; (destruct HF as [|nd nd' rest rest' HN HF]; cbn [train_loop] in *; [apply Ok_eq in E; injection E as <- <-; eauto|]).
  - discriminate.
  - apply rbind_ok in E as (((r & t2) & st2) & E1 & E). destruct (wtstep _ _ _ _ _ _ _ _ _ _ HN HF Ht E1) as (r' & t2' & -> & HF2 & Ht2). cbn [rbind fst snd] in *. eapply IH; eassumption.
Qed.
Lemma woob t t' st : wtree t t' -> predict_out_of_bag s' St oob t' st = predict_out_of_bag s St oob t st.
Proof.
  intros Ht. unfold predict_out_of_bag. rewrite (wex_sampling O p d d' s s' Hds). destruct (example_sampling_enabled s) eqn:Es; [|reflexivity].
  assert (inactive_examples s' = inactive_examples s) as -> by (unfold inactive_examples; rewrite (wex_sampling O p d d' s s' Hds), (wactive_ex O p d d' s s' Hds), (wi_data _ _ _ _ _ _ Hin), (wi_data' _ _ _ _ _ _ Hin), (w_ne O p d d' HW); reflexivity).
  destruct (inactive_examples s) as [l| | |]; cbn [rbind]; try reflexivity. revert st. induction l as [|i l IH]; intros st; [reflexivity|]. cbn [foldM]. rewrite (wi_data _ _ _ _ _ _ Hin), (wi_data' _ _ _ _ _ _ Hin), (wsingle O p nf d d' HW eq_refl _ _ _ Ht).
  destruct (let* q := predict_single t d i in oob i q st); cbn [rbind]; try reflexivity. rewrite (wi_data _ _ _ _ _ _ Hin), (wi_data' _ _ _ _ _ _ Hin) in IH. apply IH.
Qed.
Lemma wtrain t st st1 : train dbg cfg s sizes bounds sched St leaf_value oob gradients st = Ok (t, st1) -> exists t', train dbg cfg s' sizes' bounds sched' St leaf_value oob gradients st = Ok (t', st1) /\ wtree t t'.
Proof.
  intros E. unfold train in *. apply rbind_ok in E as (t0 & Et & E). unfold tree_new in *. apply rbind_ok in Et as (u & -> & Et). cbn [rbind]. apply Ok_eq in Et. apply rbind_ok in E as (root & Er & E).
  destruct (wroot O cfg p d d' HW s s' Hds sizes sizes' Hsz bounds sched sched' Hsched Hsched' gradients root Er) as (root' & Er' & HN). rewrite Er'. cbn [rbind].
  apply rbind_ok in E as ((t2 & st2) & El & E).
  match goal with |- context [train_loop _ _ _ _ _ _ _ _ _ _ ?x _] => assert (wtree t0 x) as Ht0 end.
  { subst t0. split; [|apply Forall_forall; intros c Hc; cbn [t_crits] in Hc; apply repeat_spec in Hc; subst c; split; [reflexivity|discriminate]]. unfold widened_tree, get_supercats. cbn [t_ninternal t_max_depth t_crits t_values t_shrinkage t_bias t_supercats].
    do 2 (split; [reflexivity|]). split; [generalize (2 ^ (c_max_tree_depth cfg + 1) - 1) as n; induction n as [|n IH]; cbn [repeat map]; [reflexivity|rewrite <- IH; reflexivity]|]. do 3 (split; [reflexivity|]). intros f Hf. apply (wl_nth p nf (d_nfeatures d')); [apply Hin|exact Hf]. }
  assert (Forall2 wnode [root] [root']) as HF by (constructor; [exact HN|constructor]).
  destruct (wtloop _ _ _ _ _ _ _ _ HF Ht0 El) as (t2' & -> & Ht2). cbn [rbind]. rewrite (woob _ _ _ Ht2). apply rbind_ok in E as (st3 & -> & E). apply Ok_eq in E. injection E as <- <-. cbn [rbind]. eauto.
Qed.
End Train.
