From Verif Require Import Base BaseProofs Num DataModel TreeModel TreeSpec TreeProofs.

Section P.
Variable O : numops.
Notation tree := (tree O).

Record ginv (t : tree) : Prop := mk_ginv {
  gi_reach : forall n, inner_crit t n -> exists k, tree_node t k n;
  gi_inner : has_count (inner_node t) (t_ninternal t);
  gi_leaf : has_count (leaf_node t) (t_ninternal t + 1) }.

Lemma tree_node_ext (t t' : tree) : (forall n, inner_crit t n -> inner_crit t' n) -> forall k n, tree_node t k n -> tree_node t' k n.
Proof. intros H k n Hn. induction Hn; constructor; auto. Qed.

Lemma inner_crit_same (t t' : tree) : t_crits t' = t_crits t -> forall n, inner_crit t' n <-> inner_crit t n.
Proof. intros E n. unfold inner_crit. rewrite E. tauto. Qed.
Lemma ginv_same (t t' : tree) : t_crits t' = t_crits t -> t_ninternal t' = t_ninternal t -> ginv t -> ginv t'.
Proof.
  intros E1 E2 [A B C]. pose proof (inner_crit_same t t' E1) as HI.
  assert (forall k n, tree_node t' k n <-> tree_node t k n) as HT.
  { intros k n. split; apply tree_node_ext; intros m; apply HI. }
  constructor; rewrite ?E2.
  - intros n Hn. apply HI in Hn. destruct (A n Hn) as (k & Hk). exists k. apply HT, Hk.
  - destruct B as (l & H1 & H2 & H3). exists l. split; [exact H1|]. split; [|exact H3]. intros n. rewrite H2. unfold inner_node. rewrite HI.
    split; intros ((k & Hk) & Hn); (split; [exists k; apply HT, Hk|exact Hn]).
  - destruct C as (l & H1 & H2 & H3). exists l. split; [exact H1|]. split; [|exact H3]. intros n. rewrite H2. unfold leaf_node. rewrite HI.
    split; intros ((k & Hk) & Hn); (split; [exists k; apply HT, Hk|exact Hn]).
Qed.

Lemma child_inv (t : tree) n m k : tree_node t k m -> m = 2 * n + 1 \/ m = 2 * n + 2 -> inner_crit t n.
Proof. intros H. destruct H as [|k' n' H Hi|k' n' H Hi]; intros [E|E]; try lia; replace n with n' by lia; exact Hi. Qed.

Lemma ginv_split (t t' : tree) n c : ginv t -> leaf_node t n -> split_node t n c = Ok t' -> ginv t'.
Proof.
  intros [A B C] ((k0 & Hn) & Hleaf) E. apply split_node_ok in E as (old & E1 & E2 & E3 & _ & ->).
  set (t' := mk_tree _ _ _ _ _ _ _).
  assert (forall m, inner_crit t' m <-> inner_crit t m \/ m = n) as HI.
  { intros m. unfold inner_crit, t'. cbn [t_crits]. rewrite nth_error_upd.
    assert (n < length (t_crits t)) as Hl by (apply nth_error_Some; congruence).
    replace (n <? length (t_crits t)) with true by lia. destruct (Nat.eq_dec n m) as [->|Hne].
    - rewrite Nat.eqb_refl. cbn [andb]. split; [auto|]. intros _. exists c. auto.
    - replace (n =? m) with false by lia. cbn [andb]. split; [auto|]. intros [H|H]; [exact H|congruence]. }
  assert (forall k m, tree_node t k m -> tree_node t' k m) as HT1 by (apply tree_node_ext; intros m Hm; apply HI; auto).
  assert (forall k m, tree_node t' k m -> (exists k, tree_node t k m) \/ m = 2 * n + 1 \/ m = 2 * n + 2) as HT2.
  { induction 1 as [|k m H IH Hi|k m H IH Hi]; [left; exists 0; constructor|..]; apply HI in Hi as [Hi|Hi]; try (subst m; auto; fail).
    - left. destruct (A m Hi) as (k1 & Hk1). exists (S k1). apply tn_left; assumption.
    - left. destruct (A m Hi) as (k1 & Hk1). exists (S k1). apply tn_right; assumption. }
  assert (inner_crit t' n) as Hin by (apply HI; auto).
  assert (tree_node t' (S k0) (2 * n + 1)) as Hl by (apply tn_left; [apply HT1, Hn|exact Hin]).
  assert (tree_node t' (S k0) (2 * n + 2)) as Hr by (apply tn_right; [apply HT1, Hn|exact Hin]).
  assert (forall m, m = 2 * n + 1 \/ m = 2 * n + 2 -> ~ inner_crit t' m) as Hnew.
  { intros m Hm Hi. apply HI in Hi as [Hi|Hi]; [|lia]. destruct (A m Hi) as (k & Hk). apply Hleaf. eapply child_inv; eassumption. }
  constructor; unfold t' at 2; cbn [t_ninternal].
  - intros m Hm. apply HI in Hm as [Hm| ->]; [destruct (A m Hm) as (k & Hk); exists k; apply HT1, Hk|exists k0; apply HT1, Hn].
  - destruct B as (l & H1 & H2 & H3). exists (n :: l). split; [constructor; [|exact H1]|split; [|cbn; lia]].
    + intros Hc. apply H2 in Hc as (_ & Hc). contradiction.
    + intros m. cbn [In]. rewrite H2. unfold inner_node. rewrite HI. split.
      * intros [<-|((k & Hk) & Hm)]; [split; [exists k0; apply HT1, Hn|auto]|split; [exists k; apply HT1, Hk|auto]].
      * intros (_ & [Hm|Hm]); [|left; congruence]. right. split; [apply A, Hm|exact Hm].
  - destruct C as (l & H1 & H2 & H3).
    assert (In n l) as Hnl by (apply H2; split; [exists k0; exact Hn|exact Hleaf]).
    apply in_split in Hnl as (l1 & l2 & ->). apply NoDup_remove in H1 as (H1 & Hnot).
    exists (2 * n + 1 :: 2 * n + 2 :: l1 ++ l2).
    assert (forall m, In m (l1 ++ l2) <-> leaf_node t m /\ m <> n) as Hll.
    { intros m. rewrite <- H2. rewrite !in_app_iff. cbn [In]. split.
      - intros H. split; [tauto|]. intros ->. apply Hnot, in_app_iff, H.
      - intros ([H|[H|H]] & Hne); [tauto|congruence|tauto]. }
    assert (forall m, m = 2 * n + 1 \/ m = 2 * n + 2 -> ~ In m (l1 ++ l2)) as Hno.
    { intros m Hm H. apply Hll in H as (((k & Hk) & _) & _). apply Hleaf. eapply child_inv; eassumption. }
    split; [|split].
    + constructor; [|constructor; [|exact H1]].
      * intros [H|H]; [lia|]. apply (Hno (2 * n + 1)); auto.
      * apply Hno. auto.
    + intros m. cbn [In]. rewrite Hll. unfold leaf_node. split.
      * intros [<-|[<-|(((k & Hk) & Hm) & Hne)]].
        -- split; [exists (S k0); exact Hl|apply Hnew; auto].
        -- split; [exists (S k0); exact Hr|apply Hnew; auto].
        -- split; [exists k; apply HT1, Hk|]. intros Hi. apply HI in Hi as [Hi|Hi]; contradiction.
      * intros ((k & Hk) & Hm). destruct (HT2 _ _ Hk) as [Hk'|[->| ->]]; [|auto..]. right. right. split; [split; [exact Hk'|]|].
        -- intros Hi. apply Hm, HI. auto.
        -- intros ->. contradiction.
    + cbn [length]. rewrite app_length in *. cbn [length] in H3. lia.
Qed.

Lemma ginv_new d sup t : tree_new O d sup = Ok t -> ginv t.
Proof.
  intros E. unfold tree_new in E. apply rbind_ok in E as (u & E & E'). injection E' as <-.
  set (t := mk_tree _ _ _ _ _ _ _).
  assert (forall n, ~ inner_crit t n) as HI.
  { intros n (c & Ec & Hc). apply nth_error_In, repeat_spec in Ec. subst. apply Hc. reflexivity. }
  constructor; cbn [t_ninternal].
  - intros n Hn. destruct (HI n Hn).
  - exists []. split; [constructor|]. split; [|reflexivity]. intros n. split; [intros []|]. intros (_ & Hn). destruct (HI n Hn).
  - exists [0]. split; [constructor; [intros []|constructor]|]. split; [|reflexivity]. intros n. split.
    + intros [<-|[]]. split; [exists 0; constructor|apply HI].
    + intros ((k & Hk) & _). destruct Hk as [|k n _ Hn|k n _ Hn]; [left; reflexivity|destruct (HI n Hn)..].
Qed.
Lemma ginv_run ops : forall t t', ginv t -> splits_leaves ops t -> foldM tree_exec ops t = Ok t' -> ginv t'.
Proof.
  induction ops as [|o ops IH]; intros t t' G S E; cbn [foldM] in E.
  - injection E as <-. exact G.
  - apply rbind_ok in E as (t1 & E1 & E). cbn [splits_leaves] in S. destruct S as (S1 & S2). apply (IH t1 t'); [|apply S2, E1|exact E].
    destruct o as [n c|n v|s|b]; cbn [tree_exec] in E1.
    + eapply ginv_split; eassumption.
    + unfold set_node_value in E1. apply rbind_ok in E1 as (u & _ & E1). apply rbind_ok in E1 as (vs & _ & E1). injection E1 as <-.
      eapply ginv_same; [| |exact G]; reflexivity.
    + injection E1 as <-. eapply ginv_same; [| |exact G]; reflexivity.
    + injection E1 as <-. eapply ginv_same; [| |exact G]; reflexivity.
Qed.

Lemma nodup_app A (l1 l2 : list A) : NoDup l1 -> NoDup l2 -> (forall x, In x l1 -> ~ In x l2) -> NoDup (l1 ++ l2).
Proof.
  induction l1 as [|a t IH]; intros H1 H2 H; [exact H2|]. inversion H1; subst. cbn. constructor.
  - rewrite in_app_iff. intros [Hc|Hc]; [contradiction|]. apply (H a); [left; reflexivity|exact Hc].
  - apply IH; [assumption..|]. intros x Hx. apply H. right. exact Hx.
Qed.
Lemma map_const_repeat A B (x : A) (y : B) n : map (fun _ => y) (repeat x n) = repeat y n.
Proof. induction n as [|n IH]; [reflexivity|]. cbn. rewrite IH. reflexivity. Qed.
Lemma nodup_bound l m : NoDup l -> (forall x, In x l -> x < m) -> length l <= m.
Proof. intros H1 H2. rewrite <- (seq_length m 0). apply NoDup_incl_length; [exact H1|]. intros x Hx. apply in_seq. specialize (H2 x Hx). lia. Qed.

Lemma ninternal_bound d t : tinv O d t -> ginv t -> t_ninternal t <= 2 ^ d - 1.
Proof.
  intros I G. destruct (gi_inner t G) as (l & H1 & H2 & <-). apply nodup_bound; [exact H1|]. intros n Hn. apply H2 in Hn as (_ & c & Ec & Hc).
  eapply (ti_max O d t I); eassumption.
Qed.

(** predict_and *)
Lemma foldM_set (f : nat -> res (num O)) (g : num O -> num O -> num O) n : forall a buf,
  (forall i, a <= i < a + n -> exists p, f i = Ok p) -> a + n <= length buf ->
  exists buf', foldM (fun buf i => let* p := f i in let* x := idx buf i in set_idx buf i (g p x)) (seq a n) buf = Ok buf' /\ length buf' = length buf /\
    forall i, nth_error buf' i = if (a <=? i) && (i <? a + n) then match f i, nth_error buf i with Ok p, Some x => Some (g p x) | _, _ => None end else nth_error buf i.
Proof.
  induction n as [|n IH]; intros a buf Hf Hl; cbn [seq foldM].
  - exists buf. split; [reflexivity|]. split; [reflexivity|]. intros i. replace ((a <=? i) && (i <? a + 0)) with false by lia. reflexivity.
  - destruct (Hf a) as (p & Ep); [lia|]. rewrite Ep. cbn [rbind]. 
    destruct (nth_error buf a) as [x|] eqn:Ex; [|apply nth_error_None in Ex; lia]. rewrite (proj2 (idx_ok _ _ _ _) Ex). cbn [rbind].
    rewrite set_idx_lt by lia. cbn [rbind]. destruct (IH (S a) (upd buf a (g p x))) as (buf' & E & L & H); [intros; apply Hf; lia|rewrite upd_length; lia|].
    exists buf'. split; [exact E|]. rewrite upd_length in L. split; [exact L|]. intros i. rewrite H. rewrite nth_error_upd.
    destruct (Nat.eq_dec i a) as [->|Hne].
    + replace ((S a <=? a) && (a <? S a + n)) with false by lia. rewrite Nat.eqb_refl. replace (a <? length buf) with true by lia.
      replace ((a <=? a) && (a <? a + S n)) with true by lia. cbn [andb]. rewrite Ep, Ex. reflexivity.
    + replace (a =? i) with false by lia. cbn [andb]. replace ((S a <=? i) && (i <? S a + n)) with ((a <=? i) && (i <? a + S n)) by lia. reflexivity.
Qed.
Lemma predict_and_ok t (d : data O) g buf : length buf = d_nexamples d ->
  (forall i, i < d_nexamples d -> exists p, predict_single t d i = Ok p) ->
  exists buf', predict_and t d g buf = Ok buf' /\ length buf' = length buf /\
    forall i p x, predict_single t d i = Ok p -> nth_error buf i = Some x -> nth_error buf' i = Some (g p x).
Proof.
  intros Hl Hp. unfold predict_and. rewrite Hl, Nat.eqb_refl. cbn [rassert rbind].
  destruct (foldM_set (predict_single t d) g (d_nexamples d) 0 buf) as (buf' & E & L & H); [intros i Hi; apply Hp; lia|lia|].
  exists buf'. split; [exact E|]. split; [rewrite <- Hl; exact L|]. intros i p x Ei Ex. rewrite H.
  assert (i < length buf) by (apply nth_error_Some; congruence). replace ((0 <=? i) && (i <? 0 + d_nexamples d)) with true by lia.
  rewrite Ei, Ex. reflexivity.
Qed.
End P.
