(** Tables with copies of columns: training. *)
From Coq Require Import Permutation.
From Verif Require Import Base BaseProofs BitModel Num DataModel BinnerModel Config TreeModel DatasetModel DatasetSpec LearnerModel LearnerSpec RouteProps LearnerProofs3 LearnerProofs4 LearnerProps ObjectiveModel MetricModel BoostModel RowProofs2 AlikeProofs
  ColSpec ColProofs ColProofs2 ColProofs3 ColProofs4 ColProofs5 WideSpec WideProofs WideProofs2 WideProofs3 WideProofs4 DupSpec DupProofs DupProofs2.

Section Train.
Variable O : numops.
Variable dbg : bool.
Variable cfg : config O.
Variables p q : nat -> nat.
Variables d d' : data O.
Hypothesis HD : duplicated p q d d'.
Hypothesis Hirr : forall x, nlt O x x = false.
Hypothesis Htrans : forall x y z, nlt O x y = true -> nlt O y z = true -> nlt O x z = true.
Let HW : wider p d d' := proj1 HD.
Notation nf := (d_nfeatures d).
Variables s s' : dataset O.
Hypothesis Hds : qds O q d d' s s'.
Variables sizes sizes' : list nat.
Hypothesis Hsz : ql O q d d' sizes sizes'.
Variable bounds : num O * num O.
Variables sched sched' : nat -> list job -> list job.
Hypothesis Hsched : forall k js, Permutation js (sched k js).
Hypothesis Hsched' : forall k js, Permutation js (sched' k js).
Variable gradients : list (num O).
Variable St : Type.
Variable leaf_value : list nat -> St -> res (num O * St).
Variable oob : nat -> num O -> St -> res St.
Notation qnode := (qnode O q d d').
Notation wtree := (wtree O p nf).
Let Hin : qin O q d d' (ds_inner s) (ds_inner s') := qd_in _ _ _ _ _ _ Hds.

Lemma qto_examples l : to_examples s' l = to_examples s l.
Proof.
  unfold to_examples, map_index. rewrite (qex_sampling O q d d' s s' Hds), (qactive_ex O q d d' s s' Hds). reflexivity.
Qed.
Lemma qtstep nd nd' rest rest' t t' st r t1 st1 : qnode nd nd' -> Forall2 qnode rest rest' -> wtree t t' -> train_step dbg cfg s sizes bounds sched St leaf_value nd rest t st = Ok (r, t1, st1) ->
  exists r' t1', train_step dbg cfg s' sizes' bounds sched' St leaf_value nd' rest' t' st = Ok (r', t1', st1) /\ Forall2 qnode r r' /\ wtree t1 t1'.
Proof.
  intros HN HF Ht E. unfold train_step in *. apply rbind_ok in E as (sp & Esp & E). destruct (qbest O dbg cfg p q d d' HD Hirr Htrans s s' Hds sched sched' Hsched Hsched' nd nd' sp HN Esp) as (sp' & Esp' & HP). rewrite Esp'. cbn [rbind].
  assert (is_no_split (sp_crit sp') = is_no_split (sp_crit sp)) as Ens by (destruct HP as (_ & -> & _); unfold is_no_split; rewrite renamed_type; reflexivity). rewrite Ens. destruct (is_no_split (sp_crit sp)) eqn:En.
  - apply rbind_ok in E as ((t2 & st2) & E1 & E). apply Ok_eq in E. injection E as <- <- <-. unfold predict_leaf_value in *. assert (node_examples s' nd' = node_examples s nd) as -> by (unfold node_examples; rewrite (qn_compr _ _ _ _ _ _ HN), (qn_mask _ _ _ _ _ _ HN), (qn_idx _ _ _ _ _ _ HN); destruct (if nd_compr nd then _ else _); cbn [rbind]; try reflexivity; apply qto_examples).
    apply rbind_ok in E1 as (ex & -> & E1). cbn [rbind]. apply rbind_ok in E1 as ((v & st3) & -> & E1). cbn [rbind]. apply rbind_ok in E1 as (t3 & Ev & E1). apply Ok_eq in E1. injection E1 as <- <-. rewrite (qn_id _ _ _ _ _ _ HN). destruct (wset_value O p nf _ _ _ _ _ Ht Ev) as (t3' & -> & Ht3). cbn [rbind].
    eexists. eexists. split; [reflexivity|]. split; [exact HF|exact Ht3].
  - destruct (rsplit_feature O p d _ _ HP En) as (EF & Hf & _). assert (crit_ok O nf (sp_crit sp)) as Hcrit by (split; [congruence|intros _; exact Hf]).
    assert (is_max_leaf_node t' (left_child (nd_id nd')) = is_max_leaf_node t (left_child (nd_id nd))) as -> by (unfold is_max_leaf_node, max_ninternal; destruct Ht as [(_ & -> & _) _]; rewrite (qn_id _ _ _ _ _ _ HN); reflexivity). pose proof HP as (Eid & Ecrit & _ & _). rewrite (qn_id _ _ _ _ _ _ HN).
    destruct (negb (is_max_leaf_node t (left_child (nd_id nd)))).
    + apply rbind_ok in E as ((l & rn) & Elr & E). destruct (qchildren O dbg cfg p q d d' HD s s' Hds sizes sizes' Hsz bounds sched sched' Hsched Hsched' _ _ _ _ _ _ HN HP En Elr) as (l' & rn' & Elr' & Hl & Hr). rewrite Elr'. cbn [rbind].
      apply rbind_ok in E as (t2 & Et & E). apply Ok_eq in E. injection E as <- <- <-. rewrite Ecrit. destruct (wsplit_node O p nf _ _ _ _ _ Ht Hcrit Et) as (t2' & -> & Ht2). cbn [rbind]. eexists. eexists. split; [reflexivity|]. split; [|exact Ht2].
      constructor; [exact Hl|constructor; [exact Hr|exact HF]].
    + apply rbind_ok in E as ((t2 & st2) & E1 & E). apply rbind_ok in E as (t3 & Et & E). apply Ok_eq in E. injection E as <- <- <-. unfold predict_child_leaf_values in *. rewrite EF, Eid, (qpbitvec O p q d d' HD s s' Hds _ _ Hf), (qn_id _ _ _ _ _ _ HN).
      apply rbind_ok in E1 as (fm & -> & E1). cbn [rbind].
      assert (left_examples s' nd' fm = left_examples s nd fm) as -> by (unfold left_examples; rewrite (qn_compr _ _ _ _ _ _ HN), (qn_mask _ _ _ _ _ _ HN), (qn_idx _ _ _ _ _ _ HN); destruct (if nd_compr nd then _ else _); cbn [rbind]; try reflexivity; apply qto_examples).
      apply rbind_ok in E1 as (exl & -> & E1). cbn [rbind]. apply rbind_ok in E1 as ((vl & sl) & -> & E1). cbn [rbind].
      assert (right_examples s' nd' fm = right_examples s nd fm) as -> by (unfold right_examples; rewrite (qn_compr _ _ _ _ _ _ HN), (qn_mask _ _ _ _ _ _ HN), (qn_idx _ _ _ _ _ _ HN); destruct (if nd_compr nd then _ else _); cbn [rbind]; try reflexivity; apply qto_examples).
      apply rbind_ok in E1 as (exr & -> & E1). cbn [rbind]. apply rbind_ok in E1 as ((vr & sr) & -> & E1). cbn [rbind].
      apply rbind_ok in E1 as (ta & Ea & E1). destruct (wset_value O p nf _ _ _ _ _ Ht Ea) as (ta' & -> & Hta). cbn [rbind]. apply rbind_ok in E1 as (tb & Eb & E1). destruct (wset_value O p nf _ _ _ _ _ Hta Eb) as (tb' & -> & Htb). cbn [rbind]. apply Ok_eq in E1. injection E1 as <- <-.
      rewrite Ecrit. destruct (wsplit_node O p nf _ _ _ _ _ Htb Hcrit Et) as (t2' & -> & Ht2). cbn [rbind]. eexists. eexists. split; [reflexivity|]. split; [exact HF|exact Ht2].
Qed.
Lemma qtloop : forall fuel stack stack' t t' st t1 st1, Forall2 qnode stack stack' -> wtree t t' -> train_loop dbg cfg s sizes bounds sched St leaf_value fuel stack t st = Ok (t1, st1) ->
  exists t1', train_loop dbg cfg s' sizes' bounds sched' St leaf_value fuel stack' t' st = Ok (t1', st1) /\ wtree t1 t1'.
Proof.
  induction fuel as [|fuel IH]; intros stack stack' t t' st t1 st1 HF Ht E; (destruct HF as [|nd nd' rest rest' HN HF]; cbn [train_loop] in *; [apply Ok_eq in E; injection E as <- <-; eauto|]).
  - discriminate.
  - apply rbind_ok in E as (((r & t2) & st2) & E1 & E). destruct (qtstep _ _ _ _ _ _ _ _ _ _ HN HF Ht E1) as (r' & t2' & -> & HF2 & Ht2). cbn [rbind fst snd] in *. eapply IH; eassumption.
Qed.
Lemma qoob t t' st : wtree t t' -> predict_out_of_bag s' St oob t' st = predict_out_of_bag s St oob t st.
Proof.
  intros Ht. unfold predict_out_of_bag. rewrite (qex_sampling O q d d' s s' Hds). destruct (example_sampling_enabled s) eqn:Es; [|reflexivity].
  assert (inactive_examples s' = inactive_examples s) as -> by (unfold inactive_examples; rewrite (qex_sampling O q d d' s s' Hds), (qactive_ex O q d d' s s' Hds), (qi_data _ _ _ _ _ _ Hin), (qi_data' _ _ _ _ _ _ Hin), (w_ne O p d d' HW); reflexivity).
  destruct (inactive_examples s) as [l| | |]; cbn [rbind]; try reflexivity. revert st. induction l as [|i l IH]; intros st; [reflexivity|]. cbn [foldM]. rewrite (qi_data _ _ _ _ _ _ Hin), (qi_data' _ _ _ _ _ _ Hin), (wsingle O p nf d d' HW eq_refl _ _ _ Ht).
  destruct (let* q := predict_single t d i in oob i q st); cbn [rbind]; try reflexivity. rewrite (qi_data _ _ _ _ _ _ Hin), (qi_data' _ _ _ _ _ _ Hin) in IH. apply IH.
Qed.
Lemma qtrain t st st1 : train dbg cfg s sizes bounds sched St leaf_value oob gradients st = Ok (t, st1) -> exists t', train dbg cfg s' sizes' bounds sched' St leaf_value oob gradients st = Ok (t', st1) /\ wtree t t'.
Proof.
  intros E. unfold train in *. apply rbind_ok in E as (t0 & Et & E). unfold tree_new in *. apply rbind_ok in Et as (u & -> & Et). cbn [rbind]. apply Ok_eq in Et. apply rbind_ok in E as (root & Er & E).
  destruct (qroot O cfg p q d d' HD s s' Hds sizes sizes' Hsz bounds sched sched' Hsched Hsched' gradients root Er) as (root' & Er' & HN). rewrite Er'. cbn [rbind].
  apply rbind_ok in E as ((t2 & st2) & El & E).
  match goal with |- context [train_loop _ _ _ _ _ _ _ _ _ _ ?x _] => assert (wtree t0 x) as Ht0 end.
  { subst t0. split; [|apply Forall_forall; intros c Hc; cbn [t_crits] in Hc; apply repeat_spec in Hc; subst c; split; [reflexivity|discriminate]]. unfold widened_tree, get_supercats. cbn [t_ninternal t_max_depth t_crits t_values t_shrinkage t_bias t_supercats].
    do 2 (split; [reflexivity|]). split; [generalize (2 ^ (c_max_tree_depth cfg + 1) - 1) as n; induction n as [|n IH]; cbn [repeat map]; [reflexivity|rewrite <- IH; reflexivity]|]. do 3 (split; [reflexivity|]). intros f Hf. apply (ql_p O p q d d' HD); [apply Hin|exact Hf]. }
  assert (Forall2 qnode [root] [root']) as HF by (constructor; [exact HN|constructor]).
  destruct (qtloop _ _ _ _ _ _ _ _ HF Ht0 El) as (t2' & -> & Ht2). cbn [rbind]. rewrite (qoob _ _ _ Ht2). apply rbind_ok in E as (st3 & -> & E). apply Ok_eq in E. injection E as <- <-. cbn [rbind]. eauto.
Qed.
End Train.
