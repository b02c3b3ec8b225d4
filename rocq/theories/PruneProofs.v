From Verif Require Import Base BaseProofs BitModel Num DataModel Config TreeModel DatasetModel LearnerModel PruneSpec.

Lemma Ok_eq {A} (x y : A) : Ok x = Ok y -> x = y. Proof. congruence. Qed.
Lemma below_trans a b c : below a b -> below b c -> below a c.
Proof. intros H. induction 1; [exact H|apply below_left; assumption|apply below_right; assumption]. Qed.
Lemma below_zero m : below 0 m.
Proof.
  induction m as [m IH] using (well_founded_induction lt_wf). destruct m as [|m]; [constructor|]. destruct (Nat.Even_or_Odd m) as [[k E]|[k E]].
  - replace (S m) with (2 * k + 1) by lia. apply below_left, IH. lia.
  - replace (S m) with (2 * k + 2) by lia. apply below_right, IH. lia.
Qed.
(** Below a place: the place itself, or below one of its two children. *)
Lemma below_inv m k : below m k -> k = m \/ below (2 * m + 1) k \/ below (2 * m + 2) k.
Proof.
  induction 1 as [|k _ IH|k _ IH]; [auto| |].
  - destruct IH as [->|[H|H]]; [right; left; constructor|right; left; apply below_left, H|right; right; apply below_left, H].
  - destruct IH as [->|[H|H]]; [right; right; constructor|right; left; apply below_right, H|right; right; apply below_right, H].
Qed.
Lemma below_le m k : below m k -> m <= k.
Proof. induction 1; lia. Qed.

Section Places.
Variable O : numops.
Variable dbg : bool.
Variable s : dataset O.
Variable sizes : list nat.
Variable bounds : num O * num O.
Variable sched : nat -> list job -> list job.
Variable gradients : list (num O).

(** The node at a place. *)
Inductive node_at (cfg : config O) : nat -> node O -> Prop :=
| at_root nd : get_root_n2s cfg s sizes bounds sched gradients = Ok nd -> node_at cfg 0 nd
| at_left m p sp l r : node_at cfg m p -> find_best_split dbg cfg s p = Ok sp -> is_no_split (sp_crit sp) = false -> get_left_right_n2s dbg cfg s sizes bounds sched p sp = Ok (l, r) -> node_at cfg (2 * m + 1) l
| at_right m p sp l r : node_at cfg m p -> find_best_split dbg cfg s p = Ok sp -> is_no_split (sp_crit sp) = false -> get_left_right_n2s dbg cfg s sizes bounds sched p sp = Ok (l, r) -> node_at cfg (2 * m + 2) r.

Lemma node_at_inv cfg m nd : node_at cfg m nd ->
  (m = 0 /\ get_root_n2s cfg s sizes bounds sched gradients = Ok nd) \/
  (exists k p sp l r, node_at cfg k p /\ find_best_split dbg cfg s p = Ok sp /\ is_no_split (sp_crit sp) = false /\ get_left_right_n2s dbg cfg s sizes bounds sched p sp = Ok (l, r) /\
    ((m = 2 * k + 1 /\ nd = l) \/ (m = 2 * k + 2 /\ nd = r))).
Proof. intros [nd' E|k p sp l r H1 H2 H3 H4|k p sp l r H1 H2 H3 H4]; [auto|right; exists k, p, sp, l, r; auto 10..]. Qed.

Lemma node_at_fun cfg m : forall nd nd', node_at cfg m nd -> node_at cfg m nd' -> nd = nd'.
Proof.
  induction m as [m IH] using (well_founded_induction lt_wf). intros nd nd' H H'. apply node_at_inv in H, H'.
  destruct H as [[Hm E]|(k & p & sp & l & r & H1 & H2 & H3 & H4 & H5)], H' as [[Hm' E']|(k' & p' & sp' & l' & r' & H1' & H2' & H3' & H4' & H5')]; [congruence|lia|lia|].
  assert (k' = k) as -> by lia. assert (p = p') as <- by (apply (IH k); [lia|assumption..]). rewrite H2 in H2'. apply Ok_eq in H2'. subst sp'. rewrite H4 in H4'. apply Ok_eq in H4'. injection H4' as <- <-.
  destruct H5 as [[E ->]|[E ->]], H5' as [[E' ->]|[E' ->]]; try reflexivity; lia.
Qed.
(** A place strictly below another one has a node only if that other one was split. *)
Lemma node_above cfg a k nd : node_at cfg k nd -> below a k -> k <> a -> exists p sp, node_at cfg a p /\ find_best_split dbg cfg s p = Ok sp /\ is_no_split (sp_crit sp) = false.
Proof.
  intros H HB. revert nd H. induction HB as [|k HB IH|k HB IH]; intros nd H Hne; [congruence| |].
  - apply node_at_inv in H. destruct H as [[Hm _]|(k' & p & sp & l & r & H1 & H2 & H3 & H4 & H5)]; [lia|]. assert (k' = k) as -> by lia. destruct (Nat.eq_dec k a) as [->|Hka]; [eauto|eapply IH; eassumption].
  - apply node_at_inv in H. destruct H as [[Hm _]|(k' & p & sp & l & r & H1 & H2 & H3 & H4 & H5)]; [lia|]. assert (k' = k) as -> by lia. destruct (Nat.eq_dec k a) as [->|Hka]; [eauto|eapply IH; eassumption].
Qed.

Section Loop.
Variable cfg : config O.
Variable St : Type.
Variable leaf_value : list nat -> St -> res (num O * St).
Variable oob : nat -> num O -> St -> res St.
Notation D := (c_max_tree_depth cfg).
Notation best := (find_best_split dbg cfg s).

Definition splits (t : tree O) : nat := length (filter (fun c => negb (is_no_split c)) (t_crits t)).
(** The state of the loop. *)
Record places (stack : list (node O)) (t : tree O) : Prop := {
  pl_depth : t_max_depth t = D;
  pl_stack : forall nd, In nd stack -> node_at cfg (nd_id nd) nd;
  pl_sound : forall m c, nth_error (t_crits t) m = Some c -> sc_type c <> NoSplit -> exists nd sp, node_at cfg m nd /\ best nd = Ok sp /\ c = sp_crit sp /\ m < 2 ^ D - 1;
  pl_full : forall m nd, node_at cfg m nd -> m < 2 ^ D - 1 -> (exists sp, best nd = Ok sp /\ (is_no_split (sp_crit sp) = false -> nth_error (t_crits t) m = Some (sp_crit sp))) \/ exists nd', In nd' stack /\ below (nd_id nd') m;
  pl_count : t_ninternal t = splits t;
  pl_supercats : t_supercats t = get_supercats s
}.

Lemma set_value_same (t : tree O) m v (t' : tree O) : set_node_value t m v = Ok t' -> t_crits t' = t_crits t /\ t_max_depth t' = t_max_depth t /\ t_ninternal t' = t_ninternal t /\ t_supercats t' = t_supercats t.
Proof. unfold set_node_value. intros E. apply rbind_ok in E as (_ & _ & E). apply rbind_ok in E as (vs & _ & E). apply Ok_eq in E. subst t'. repeat split. Qed.
Lemma filter_upd (l : list (split_crit O)) : forall m c x, nth_error l m = Some c -> is_no_split c = true -> is_no_split x = false ->
  length (filter (fun c => negb (is_no_split c)) (upd l m x)) = S (length (filter (fun c => negb (is_no_split c)) l)).
Proof.
  induction l as [|y l IH]; intros m c x E Hc Hx; [destruct m; discriminate|]. destruct m as [|m]; cbn [nth_error upd filter] in *.
  - injection E as ->. rewrite Hc, Hx. cbn [negb length]. reflexivity.
  - destruct (negb (is_no_split y)); cbn [length]; rewrite (IH m c x E Hc Hx); reflexivity.
Qed.
Lemma split_node_same (t : tree O) m c (t' : tree O) : split_node t m c = Ok t' -> is_no_split c = false /\ m < 2 ^ t_max_depth t - 1 /\ m < length (t_crits t) /\ t_crits t' = upd (t_crits t) m c /\ t_max_depth t' = t_max_depth t /\ t_supercats t' = t_supercats t /\
  (exists old, nth_error (t_crits t) m = Some old /\ is_no_split old = true) /\ (t_ninternal t = splits t -> t_ninternal t' = splits t').
Proof.
  unfold split_node. intros E. apply rbind_ok in E as (old & Eo & E). apply idx_ok in Eo. apply rbind_ok in E as (u1 & A1 & E). apply rbind_ok in E as (u2 & A2 & E). apply rbind_ok in E as (u3 & A3 & E).
  apply rbind_ok in E as (cs & Ec & E). apply Ok_eq in E. subst t'. apply set_idx_ok in Ec as [Hlt ->].
  assert (is_no_split old = true) as Ho by (destruct (is_no_split old); [reflexivity|discriminate A1]).
  assert (is_no_split c = false) as Hc by (destruct (is_no_split c); [discriminate A2|reflexivity]).
  assert (m < 2 ^ t_max_depth t - 1) as Hm. { unfold is_max_leaf_node, max_ninternal in A3. destruct (Nat.leb_spec (2 ^ t_max_depth t - 1) m); [discriminate A3|assumption]. }
  split; [exact Hc|]. split; [exact Hm|]. split; [exact Hlt|]. cbn [t_crits t_max_depth t_supercats t_ninternal]. do 3 (split; [reflexivity|]). split; [eauto|].
  intros H. unfold splits in *. cbn [t_crits]. rewrite (filter_upd _ _ old) by assumption. lia.
Qed.

(** A node that is done: its split, if any, is in the tree. *)
Lemma places_leaf nd rest t sp : places (nd :: rest) t -> best nd = Ok sp -> is_no_split (sp_crit sp) = true -> places rest t.
Proof.
  intros H Esp Ens. assert (node_at cfg (nd_id nd) nd) as Hnd by (apply (pl_stack _ _ H); left; reflexivity). constructor; try apply H.
  - intros nd' Hin. apply (pl_stack _ _ H). right. exact Hin.
  - intros m nd' Hm Hlt. destruct (pl_full _ _ H m nd' Hm Hlt) as [HF|(nd2 & [<-|Hin] & HB)]; [auto| |right; eauto]. left.
    destruct (Nat.eq_dec m (nd_id nd)) as [->|Hne].
    + assert (nd' = nd) as -> by (eapply node_at_fun; eassumption). exists sp. split; [exact Esp|]. congruence.
    + destruct (node_above _ _ _ _ Hm HB Hne) as (p & sp' & Hp & E' & Hs). assert (p = nd) as -> by (eapply node_at_fun; eassumption). congruence.
Qed.
Lemma places_value stack t (t' : tree O) m v : places stack t -> set_node_value t m v = Ok t' -> places stack t'.
Proof. intros H E. apply set_value_same in E as (E1 & E2 & E3 & E4). destruct H as [H1 H2 H3 H4 H5 H6]. constructor; unfold splits; rewrite ?E1, ?E2, ?E3, ?E4; assumption. Qed.
Lemma places_split nd rest stack' t t' sp : places (nd :: rest) t -> best nd = Ok sp -> is_no_split (sp_crit sp) = false -> split_node t (nd_id nd) (sp_crit sp) = Ok t' ->
  (forall x, In x stack' -> In x rest \/ node_at cfg (nd_id x) x) -> (forall x, In x rest -> In x stack') ->
  (forall m, m < 2 ^ D - 1 -> below (2 * nd_id nd + 1) m \/ below (2 * nd_id nd + 2) m -> exists x, In x stack' /\ below (nd_id x) m) -> places stack' t'.
Proof.
  intros H Esp Ens E HN HR HC. assert (node_at cfg (nd_id nd) nd) as Hnd by (apply (pl_stack _ _ H); left; reflexivity).
  apply split_node_same in E as (_ & Hlt & Hlen & Ec & Ed & Es & (old & Eo & Ho) & Hcount). rewrite (pl_depth _ _ H) in Hlt. constructor.
  - rewrite Ed. apply H.
  - intros x Hx. destruct (HN x Hx) as [Hx'|Hx']; [apply (pl_stack _ _ H); right; exact Hx'|exact Hx'].
  - intros m c. rewrite Ec, nth_error_upd. destruct (Nat.eqb_spec (nd_id nd) m) as [<-|Hne].
    + replace (nd_id nd <? length (t_crits t)) with true by (symmetry; apply Nat.ltb_lt; lia). intros Em Hn. injection Em as <-. exists nd, sp. auto.
    + apply (pl_sound _ _ H).
  - intros m nd' Hm Hlt'. rewrite Ec, nth_error_upd. destruct (Nat.eqb_spec (nd_id nd) m) as [<-|Hne].
    + replace (nd_id nd <? length (t_crits t)) with true by (symmetry; apply Nat.ltb_lt; lia). left. assert (nd' = nd) as -> by (eapply node_at_fun; eassumption). exists sp. auto.
    + destruct (pl_full _ _ H m nd' Hm Hlt') as [HF|(nd2 & [<-|Hin] & HB)]; [auto| |right; exists nd2; auto].
      right. apply HC; [exact Hlt'|]. apply below_inv in HB as [->|HB]; [congruence|exact HB].
  - apply Hcount, H.
  - rewrite Es. apply H.
Qed.

Lemma split_examples_id (p : node O) k sp f n g nd : split_examples dbg cfg s sizes p k sp f n g = Ok nd -> nd_id nd = k.
Proof.
  unfold split_examples. intros E. apply rbind_ok in E as (fm & _ & E). apply rbind_ok in E as (h & _ & E). apply rbind_ok in E as (m0 & _ & E). apply rbind_ok in E as ((mask & z) & _ & E).
  destruct (_ && _); [|apply Ok_eq in E; subst nd; reflexivity]. apply rbind_ok in E as (u & _ & E). unfold compress_examples in E. apply rbind_ok in E as (u1 & _ & E). apply rbind_ok in E as (ix0 & _ & E).
  apply rbind_ok in E as (g0 & _ & E). apply rbind_ok in E as ((((k0 & mk) & ix) & gr) & _ & E). apply rbind_ok in E as (u2 & _ & E). apply rbind_ok in E as (mk' & _ & E). apply Ok_eq in E. subst nd. reflexivity.
Qed.
Lemma children_ids (p : node O) sp l r : get_left_right_n2s dbg cfg s sizes bounds sched p sp = Ok (l, r) -> nd_id l = 2 * nd_id p + 1 /\ nd_id r = 2 * nd_id p + 2.
Proof.
  unfold get_left_right_n2s. intros E. apply rbind_ok in E as (hist & _ & E). apply rbind_ok in E as (lv & _ & E). apply rbind_ok in E as (rc & _ & E). apply rbind_ok in E as (l0 & E1 & E). apply split_examples_id in E1.
  apply rbind_ok in E as (l1 & E2 & E). apply rbind_ok in E as (r0 & E3 & E). apply split_examples_id in E3. apply rbind_ok in E as (r1 & E4 & E). apply Ok_eq in E. injection E as <- <-. split.
  - unfold build_histograms in E2. apply rbind_ok in E2 as (u & _ & E2). apply rbind_ok in E2 as (js & _ & E2). apply rbind_ok in E2 as (h & _ & E2). apply Ok_eq in E2. subst l1. exact E1.
  - unfold derive_histograms in E4. apply rbind_ok in E4 as (h & _ & E4). apply Ok_eq in E4. subst r1. exact E3.
Qed.

Lemma places_step nd rest t st stack' t' st' : places (nd :: rest) t -> train_step dbg cfg s sizes bounds sched St leaf_value nd rest t st = Ok (stack', t', st') -> places stack' t'.
Proof.
  intros H E. assert (node_at cfg (nd_id nd) nd) as Hnd by (apply (pl_stack _ _ H); left; reflexivity). unfold train_step in E. apply rbind_ok in E as (sp & Esp & E). destruct (is_no_split (sp_crit sp)) eqn:Ens.
  - apply rbind_ok in E as ((t1 & st1) & E1 & E). apply Ok_eq in E. injection E as <- <- <-. unfold predict_leaf_value in E1. apply rbind_ok in E1 as (ex & _ & E1). apply rbind_ok in E1 as ((v & st2) & _ & E1).
    apply rbind_ok in E1 as (t2 & Ev & E1). apply Ok_eq in E1. injection E1 as <- <-. eapply places_value; [|exact Ev]. eapply places_leaf; eassumption.
  - destruct (negb (is_max_leaf_node t (left_child (nd_id nd)))) eqn:Emax.
    + apply rbind_ok in E as ((l & r) & Elr & E). apply rbind_ok in E as (t1 & Et & E). apply Ok_eq in E. injection E as <- <- <-. destruct (children_ids _ _ _ _ Elr) as [Il Ir].
      eapply places_split; try eassumption.
      * intros x [<-|[<-|Hx]]; [right; rewrite Il; eapply at_left; eassumption|right; rewrite Ir; eapply at_right; eassumption|auto].
      * intros x Hx. right. right. exact Hx.
      * intros m _ [HB|HB]; [exists l; rewrite Il|exists r; rewrite Ir]; cbn [In]; auto.
    + apply rbind_ok in E as ((t1 & st1) & E1 & E). apply rbind_ok in E as (t2 & Et & E). apply Ok_eq in E. injection E as <- <- <-. unfold predict_child_leaf_values in E1.
      apply rbind_ok in E1 as (fm & _ & E1). apply rbind_ok in E1 as (exl & _ & E1). apply rbind_ok in E1 as ((vl & sa) & _ & E1). apply rbind_ok in E1 as (exr & _ & E1). apply rbind_ok in E1 as ((vr & sb) & _ & E1).
      apply rbind_ok in E1 as (ta & Ea & E1). apply rbind_ok in E1 as (tb & Eb & E1). apply Ok_eq in E1. injection E1 as <- <-.
      assert (places (nd :: rest) tb) as H' by (eapply places_value; [eapply places_value; [exact H|exact Ea]|exact Eb]).
      eapply places_split; try eassumption; [auto|auto|]. intros m Hm HB. exfalso. unfold is_max_leaf_node, max_ninternal, left_child in Emax. rewrite (pl_depth _ _ H) in Emax.
      destruct (Nat.leb_spec (2 ^ D - 1) (2 * nd_id nd + 1)) as [Hle|Hlt]; [|discriminate Emax]. destruct HB as [HB|HB]; apply below_le in HB; lia.
Qed.
Lemma places_loop fuel : forall stack t st t' st', places stack t -> train_loop dbg cfg s sizes bounds sched St leaf_value fuel stack t st = Ok (t', st') -> places [] t'.
Proof.
  induction fuel as [|fuel IH]; intros stack t st t' st' H E.
  - destruct stack; [|discriminate E]. apply Ok_eq in E. injection E as <- <-. exact H.
  - destruct stack as [|nd rest]; [apply Ok_eq in E; injection E as <- <-; exact H|]. cbn [train_loop] in E. apply rbind_ok in E as ([[stack1 t1] st1] & E1 & E). cbn [fst snd] in E. eapply IH; [|exact E]. eapply places_step; eassumption.
Qed.
Lemma no_splits k : length (filter (fun c => negb (is_no_split c)) (repeat (no_split O) k)) = 0.
Proof. induction k as [|k IH]; [reflexivity|exact IH]. Qed.
(** The trained tree has, at every place of a node within the depth, the best split of that node. *)
Lemma train_places t st st' : train dbg cfg s sizes bounds sched St leaf_value oob gradients st = Ok (t, st') -> places [] t.
Proof.
  intros E. unfold train in E. apply rbind_ok in E as (t0 & Et & E). apply rbind_ok in E as (root & Er & E). apply rbind_ok in E as ((t1 & st1) & El & E). apply rbind_ok in E as (st2 & _ & E). apply Ok_eq in E. injection E as <- <-.
  eapply places_loop; [|exact El]. unfold tree_new in Et. apply rbind_ok in Et as (u & _ & Et). apply Ok_eq in Et. subst t0.
  assert (nd_id root = 0) as Hid.
  { unfold get_root_n2s in Er. repeat (let x := fresh in apply rbind_ok in Er as (x & _ & Er); try (destruct x as [? ?])). unfold build_histograms in Er.
    repeat (let x := fresh in apply rbind_ok in Er as (x & _ & Er)). apply Ok_eq in Er. subst root. reflexivity. }
  constructor; cbn [t_max_depth t_crits t_ninternal t_supercats]; auto.
  - intros nd [<-|[]]. rewrite Hid. apply at_root, Er.
  - intros m c Em Hn. apply nth_error_In, repeat_spec in Em. subst c. destruct Hn. reflexivity.
  - intros m nd _ _. right. exists root. split; [left; reflexivity|]. rewrite Hid. apply below_zero.
  - unfold splits. cbn [t_crits]. symmetry. apply no_splits.
Qed.
End Loop.
End Places.
