From Verif Require Import Base BaseProofs Num DataModel TreeModel TreeSpec.

Section P.
Variable O : numops.
Notation tree := (tree O).

(** Invariant of every tree built by [tree_new] and operations. *)
Record tinv (d : nat) (t : tree) : Prop := mk_tinv {
  ti_depth : t_max_depth t = d;
  ti_crits : length (t_crits t) = 2 ^ (d + 1) - 1;
  ti_values : length (t_values t) = 2 ^ (d + 1) - 1;
  ti_max : forall n c, nth_error (t_crits t) n = Some c -> sc_type c <> NoSplit -> n < 2 ^ d - 1;
  ti_count : t_ninternal t = length (filter (fun c => negb (is_no_split c)) (t_crits t)) }.

Lemma tree_new_inv d sup t : tree_new O d sup = Ok t -> tinv d t /\ 0 < d.
Proof.
  unfold tree_new. intros E. apply rbind_ok in E as (u & E & E'). apply rassert_ok in E. injection E' as <-. split; [|lia].
  constructor; cbn [t_max_depth t_crits t_values t_ninternal]; rewrite ?repeat_length; try reflexivity.
  - intros n c E1 E2. apply nth_error_In, repeat_spec in E1. subst. destruct E2. reflexivity.
  - induction (2 ^ (d + 1) - 1) as [|n IH]; [reflexivity|]. cbn. exact IH.
Qed.

Lemma filter_upd_count (cs : list (split_crit O)) n old c : nth_error cs n = Some old -> is_no_split old = true -> is_no_split c = false ->
  length (filter (fun c => negb (is_no_split c)) (upd cs n c)) = S (length (filter (fun c => negb (is_no_split c)) cs)).
Proof.
  revert n. induction cs as [|x t IH]; intros n E H1 H2; [destruct n; discriminate|]. destruct n as [|n]; cbn [upd filter nth_error] in *.
  - injection E as ->. rewrite H1, H2. reflexivity.
  - destruct (negb (is_no_split x)); cbn [length]; rewrite (IH n E H1 H2); reflexivity.
Qed.

Lemma is_no_split_iff (c : split_crit O) : is_no_split c = true <-> sc_type c = NoSplit.
Proof. unfold is_no_split. destruct (sc_type c); cbn; split; congruence. Qed.

Lemma split_node_ok (t : tree) n c t' : split_node t n c = Ok t' ->
  exists old, nth_error (t_crits t) n = Some old /\ sc_type old = NoSplit /\ sc_type c <> NoSplit /\ n < max_ninternal t /\
    t' = mk_tree (t_ninternal t + 1) (t_max_depth t) (upd (t_crits t) n c) (t_values t) (t_shrinkage t) (t_bias t) (t_supercats t).
Proof.
  unfold split_node. intros E. apply rbind_ok in E as (old & E1 & E). apply idx_ok in E1.
  apply rbind_ok in E as (u1 & E2 & E). apply rassert_ok in E2. apply rbind_ok in E as (u2 & E3 & E). apply rassert_ok in E3.
  apply rbind_ok in E as (u3 & E4 & E). apply rassert_ok in E4. apply rbind_ok in E as (cs & E5 & E). apply set_idx_ok in E5 as (_ & ->).
  injection E as <-. exists old. split; [exact E1|]. split; [apply is_no_split_iff, E2|].
  split; [intros Hc; apply is_no_split_iff in Hc; rewrite Hc in E3; discriminate|].
  split; [|reflexivity]. unfold is_max_leaf_node in E4. lia.
Qed.

Lemma tree_exec_inv d t o t' : tinv d t -> tree_exec t o = Ok t' -> tinv d t'.
Proof.
  intros I E. destruct o as [n c|n v|s|b]; cbn [tree_exec] in E.
  - apply split_node_ok in E as (old & E1 & E2 & E3 & E4 & ->). destruct I as [I1 I2 I3 I4 I5].
    constructor; cbn [t_max_depth t_crits t_values t_ninternal]; rewrite ?upd_length; auto.
    + intros m c' Hm Hc. rewrite nth_error_upd in Hm. destruct ((n =? m) && (n <? length (t_crits t))) eqn:Em.
      * unfold max_ninternal in E4. rewrite I1 in E4. assert (n = m) by lia. subst. exact E4.
      * apply (I4 m c' Hm Hc).
    + rewrite (filter_upd_count _ _ old); [rewrite I5; lia|exact E1|apply is_no_split_iff, E2|].
      destruct (is_no_split c) eqn:Ec; [|reflexivity]. apply is_no_split_iff in Ec. contradiction.
  - unfold set_node_value in E. apply rbind_ok in E as (u & _ & E). apply rbind_ok in E as (vs & E1 & E). apply set_idx_ok in E1 as (_ & ->).
    injection E as <-. destruct I as [I1 I2 I3 I4 I5]. constructor; cbn; rewrite ?upd_length; auto.
  - injection E as <-. destruct I as [I1 I2 I3 I4 I5]. constructor; cbn; auto.
  - injection E as <-. destruct I as [I1 I2 I3 I4 I5]. constructor; cbn; auto.
Qed.
Lemma tree_run_inv d ops : forall t t', tinv d t -> foldM tree_exec ops t = Ok t' -> tinv d t'.
Proof.
  induction ops as [|o ops IH]; intros t t' I E; cbn [foldM] in E.
  - injection E as <-. exact I.
  - apply rbind_ok in E as (t1 & E1 & E). eapply IH; [eapply tree_exec_inv; eassumption|exact E].
Qed.

(** Depth of a node. *)
Lemma tree_node_depth (t : tree) k n : tree_node t k n -> at_depth k n.
Proof.
  induction 1 as [|k n _ IH _|k n _ IH _]; unfold at_depth in *; [cbn; lia|..];
  replace (2 ^ S k) with (2 * 2 ^ k) by (cbn; lia); replace (2 ^ (S k + 1)) with (2 * 2 ^ (k + 1)) by (cbn; lia);
  pose proof (Nat.pow_nonzero 2 k); replace (2 ^ (k + 1)) with (2 * 2 ^ k) in * by (rewrite Nat.add_1_r; reflexivity); lia.
Qed.
Lemma tree_node_max d t k n : tinv d t -> tree_node t k n -> k <= d.
Proof.
  intros I H. destruct H as [|k n H (c & Ec & Hc)|k n H (c & Ec & Hc)]; [lia|..];
  apply tree_node_depth in H; pose proof (ti_max d t I n c Ec Hc) as Hn; unfold at_depth in H;
  assert (2 ^ k < 2 ^ d) as Hp by lia; apply Nat.pow_lt_mono_r_iff in Hp; lia.
Qed.
Lemma at_depth_fun k k' n : at_depth k n -> at_depth k' n -> k = k'.
Proof.
  unfold at_depth. intros H H'. destruct (Nat.lt_trichotomy k k') as [Hk|[Hk|Hk]]; [|exact Hk|].
  - assert (2 ^ (k + 1) <= 2 ^ k') by (apply Nat.pow_le_mono_r; lia). lia.
  - assert (2 ^ (k' + 1) <= 2 ^ k) by (apply Nat.pow_le_mono_r; lia). lia.
Qed.

(** Routing. *)
Lemma goes_left_total (t : tree) d i c : routable t d i -> In c (t_crits t) -> forall v, exists r, goes_left t c v = Ok r /\ (r = None <-> sc_type c = NoSplit).
Proof.
  intros (_ & H2) Hc v. unfold goes_left. destruct (sc_type c) eqn:E.
  - eexists. split; [reflexivity|]. tauto.
  - eexists. split; [reflexivity|]. split; discriminate.
  - specialize (H2 c Hc E). replace (sc_feature c <? length (t_supercats t)) with true by lia. cbn [rassert rbind].
    rewrite (idx_lt _ _ _ [] H2). cbn [rbind]. set (s := nth _ _ _).
    destruct (into_cat v <? length s) eqn:El; [rewrite (idx_lt _ s _ 0) by (apply Nat.ltb_lt in El; exact El)|];
    (eexists; split; [reflexivity|]; split; discriminate).
  - eexists. split; [reflexivity|]. split; discriminate.
Qed.

Lemma leaf_loop_ok d (t : tree) data i : tinv d t -> routable t data i -> forall m k n, tree_node t k n -> d = k + m ->
  exists leaf, leaf_id_loop (S m) t data i n = Ok leaf /\ leaf_node t leaf.
Proof.
  intros I R. induction m as [|m IH]; intros k n Hn Hd.
  - assert (n < length (t_crits t)) as Hlen.
    { apply tree_node_depth in Hn. unfold at_depth in Hn. rewrite (ti_crits d t I). rewrite Nat.add_0_r in Hd. subst k. lia. }
    cbn [leaf_id_loop]. rewrite (idx_lt _ _ _ (no_split O) Hlen). cbn [rbind]. set (c := nth n (t_crits t) (no_split O)).
    assert (nth_error (t_crits t) n = Some c) as Ec by (apply nth_error_nth', Hlen).
    assert (In c (t_crits t)) as Hin by (eapply nth_error_In, Ec).
    destruct (proj1 R c Hin) as (col & E1 & E2). unfold get_feature, idx at 1. rewrite E1. cbn [rbind]. unfold idx.
    destruct (nth_error col i) as [v|] eqn:Ev; [|apply nth_error_None in Ev; exfalso; lia]. cbn [rbind].
    destruct (goes_left_total t data i c R Hin v) as (r & Er & Hr). rewrite Er. cbn [rbind].
    destruct (sc_type c) eqn:Et.
    + rewrite (proj2 Hr eq_refl). exists n. split; [reflexivity|]. split; [exists k; exact Hn|]. intros (c' & Ec' & Hc'). congruence.
    + exfalso. assert (n < 2 ^ d - 1) as Hm by (eapply (ti_max d t I); [exact Ec|congruence]).
      apply tree_node_depth in Hn. unfold at_depth in Hn. replace k with d in Hn by lia. lia.
    + exfalso. assert (n < 2 ^ d - 1) as Hm by (eapply (ti_max d t I); [exact Ec|congruence]).
      apply tree_node_depth in Hn. unfold at_depth in Hn. replace k with d in Hn by lia. lia.
    + exfalso. assert (n < 2 ^ d - 1) as Hm by (eapply (ti_max d t I); [exact Ec|congruence]).
      apply tree_node_depth in Hn. unfold at_depth in Hn. replace k with d in Hn by lia. lia.
  - assert (n < length (t_crits t)) as Hlen.
    { apply tree_node_depth in Hn. unfold at_depth in Hn. rewrite (ti_crits d t I).
      assert (2 ^ (k + 1) <= 2 ^ (d + 1)) by (apply Nat.pow_le_mono_r; lia). lia. }
    remember (S m) as fuel eqn:Ef. cbn [leaf_id_loop]. rewrite (idx_lt _ _ _ (no_split O) Hlen). cbn [rbind]. set (c := nth n (t_crits t) (no_split O)).
    assert (nth_error (t_crits t) n = Some c) as Ec by (apply nth_error_nth', Hlen).
    assert (In c (t_crits t)) as Hin by (eapply nth_error_In, Ec).
    destruct (proj1 R c Hin) as (col & E1 & E2). unfold get_feature, idx at 1. rewrite E1. cbn [rbind]. unfold idx.
    destruct (nth_error col i) as [v|] eqn:Ev; [|apply nth_error_None in Ev; exfalso; lia]. cbn [rbind].
    destruct (goes_left_total t data i c R Hin v) as (r & Er & Hr). rewrite Er. cbn [rbind].
    assert (sc_type c <> NoSplit -> inner_crit t n) as Hic by (intros H; exists c; split; assumption).
    destruct r as [[|]|].
    + apply (IH (S k)); [|lia]. apply tn_left; [exact Hn|]. apply Hic. intros H. apply Hr in H. discriminate.
    + apply (IH (S k)); [|lia]. apply tn_right; [exact Hn|]. apply Hic. intros H. apply Hr in H. discriminate.
    + exists n. split; [reflexivity|]. split; [exists k; exact Hn|]. intros (c' & Ec' & Hc'). apply Hc'. rewrite Ec in Ec'. injection Ec' as <-. apply Hr. reflexivity.
Qed.

Lemma leaf_loop_mono f (t : tree) data i : forall n r, leaf_id_loop f t data i n = Ok r -> forall f', f <= f' -> leaf_id_loop f' t data i n = Ok r.
Proof.
  induction f as [|f IH]; intros n r E f' Hf; [discriminate|]. destruct f' as [|f']; [lia|]. cbn [leaf_id_loop] in *.
  destruct (idx (t_crits t) n) as [c| | |]; try discriminate. cbn [rbind] in *.
  destruct (get_feature data (sc_feature c)) as [col| | |]; try discriminate. cbn [rbind] in *.
  destruct (idx col i) as [v| | |]; try discriminate. cbn [rbind] in *.
  destruct (goes_left t c v) as [[[|]|]| | |]; try discriminate; cbn [rbind] in *; auto; apply IH; auto; lia.
Qed.
End P.
