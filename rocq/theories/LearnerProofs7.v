From Coq Require Import Permutation Sorting.Sorted.
From Verif Require Import Base BaseProofs BitModel BitSpec BitProofs BitProofs2 SimdModel SliceModel SliceSpec SliceProofs SliceProofs2 SliceProps
  CountSumProofs IterModel IterSpec IterProofs Num ScaledModel DataModel Config TreeModel TreeSpec TreeProofs TreeProofs2 DatasetModel DatasetSpec DatasetProofs DatasetProofs2 DatasetProofs3 DatasetProofs4 DatasetProofs5
  RouteProps LearnerModel LearnerSpec TrainSpec LearnerProofs LearnerProofs2 LearnerProofs3 LearnerProofs4 LearnerProofs5.

(* ---- trees ---- *)
Lemma leaf_node_split O (t t' : tree O) n c : ginv O t -> leaf_node t n -> split_node t n c = Ok t' ->
  forall m, leaf_node t' m <-> (leaf_node t m /\ m <> n) \/ m = 2 * n + 1 \/ m = 2 * n + 2.
Proof.
  intros [A B C] ((k0 & Hn) & Hleaf) E. apply split_node_ok in E as (old & E1 & E2 & E3 & _ & ->).
  set (t' := mk_tree _ _ _ _ _ _ _).
  assert (forall m, inner_crit t' m <-> inner_crit t m \/ m = n) as HI.
  { intros m. unfold inner_crit, t'. cbn [t_crits]. rewrite nth_error_upd.
    assert (n < length (t_crits t)) as Hl by (apply nth_error_Some; congruence).
    replace (n <? length (t_crits t)) with true by lia. destruct (Nat.eq_dec n m) as [->|Hne].
    - rewrite Nat.eqb_refl. cbn [andb]. split; [auto|]. intros _. exists c. auto.
    - replace (n =? m) with false by lia. cbn [andb]. split; [auto|]. intros [H|H]; [exact H|congruence]. }
  assert (forall k m, tree_node t k m -> tree_node t' k m) as HT1 by (apply tree_node_ext; intros m Hm; apply HI; auto).
  assert (forall k m, tree_node t' k m -> (exists k, tree_node t k m) \/ m = 2 * n + 1 \/ m = 2 * n + 2) as HT2.
  { induction 1 as [|k m H IH Hi|k m H IH Hi]; [left; exists 0; constructor|..]; apply HI in Hi as [Hi|Hi]; try (subst m; auto; fail).
    - left. destruct (A m Hi) as (k1 & Hk1). exists (S k1). apply tn_left; assumption.
    - left. destruct (A m Hi) as (k1 & Hk1). exists (S k1). apply tn_right; assumption. }
  assert (inner_crit t' n) as Hin by (apply HI; auto).
  assert (forall m, m = 2 * n + 1 \/ m = 2 * n + 2 -> ~ inner_crit t' m) as Hnew.
  { intros m Hm Hi. apply HI in Hi as [Hi|Hi]; [|lia]. destruct (A m Hi) as (k & Hk). apply Hleaf. eapply child_inv; eassumption. }
  intros m. split.
  - intros ((k & Hk) & Hm). destruct (HT2 _ _ Hk) as [Hk'|Hk']; [|right; exact Hk']. left. split; [split; [exact Hk'|]|].
    + intros Hi. apply Hm, HI. auto.
    + intros ->. contradiction.
  - intros [[[[k Hk] Hm] Hne]|Hm].
    + split; [exists k; apply HT1, Hk|]. intros Hi. apply HI in Hi as [Hi|Hi]; contradiction.
    + split; [|apply Hnew, Hm]. exists (S k0). destruct Hm as [->| ->]; [apply tn_left|apply tn_right]; try exact Hin; apply HT1, Hn.
Qed.
Lemma set_node_value_ok O (t t' : tree O) m v : set_node_value t m v = Ok t' ->
  nisfin O v = true /\ m < length (t_values t) /\ t' = mk_tree (t_ninternal t) (t_max_depth t) (t_crits t) (upd (t_values t) m v) (t_shrinkage t) (t_bias t) (t_supercats t).
Proof.
  unfold set_node_value. intros H. apply rbind_ok in H as (? & E & H). apply rassert_ok in E. apply rbind_ok in H as (vs & Ev & H). apply set_idx_ok in Ev as [Hl ->]. injection H as <-. auto.
Qed.
Lemma leaf_node_same O (t t' : tree O) : t_crits t' = t_crits t -> forall m, leaf_node t' m <-> leaf_node t m.
Proof.
  intros E m. pose proof (inner_crit_same O t t' E) as HI. pose proof (inner_crit_same O t' t (eq_sym E)) as HI'. unfold leaf_node. rewrite HI.
  split; intros [[k Hk] H]; (split; [exists k|exact H]); revert Hk; apply tree_node_ext; intros x; [apply HI|apply HI'].
Qed.

Lemma sent_ext O (t t' : tree O) W W' k m : (forall x, inner_crit t x -> inner_crit t' x /\ W' x = W x) -> sent t W k m -> sent t' W' k m.
Proof.
  intros H. induction 1 as [|m Hs IH Hi Hb|m Hs IH Hi Hb]; [constructor|..]; destruct (H m Hi) as [Hi' Hw].
  - apply sent_left; [exact IH|exact Hi'|rewrite Hw; exact Hb].
  - apply sent_right; [exact IH|exact Hi'|rewrite Hw; exact Hb].
Qed.

Lemma leaf_calls_app O St (lv : list nat -> St -> res (num O * St)) gs gs' : forall a b c, leaf_calls lv gs a b -> leaf_calls lv gs' b c -> leaf_calls lv (gs ++ gs') a c.
Proof.
  induction gs as [|g gs IH]; intros a b c H1 H2; cbn [leaf_calls app] in *; [subst; exact H2|]. destruct H1 as (st1 & E & H1). exists st1. split; [exact E|]. eapply IH; eassumption.
Qed.

Lemma filter_partition A (q : A -> bool) l : Permutation l (filter q l ++ filter (fun x => negb (q x)) l).
Proof.
  induction l as [|x l IH]; [constructor|]. cbn [filter]. destruct (q x); cbn [negb app]; [constructor; exact IH|]. apply Permutation_cons_app, IH.
Qed.

Section Loop.
Variable O : numops.
Variable dbg0 dbg : bool.
Variable cfg : config O.
Variable d : data O.
Variable s : dataset O.
Variable sizes : list nat.
Variable bounds : num O * num O.
Variable sched : nat -> list job -> list job.
Variable gradients : list (num O).
Variable St : Type.
Variable leaf_value : list nat -> St -> res (num O * St).
Variable rows : list nat.
Notation n := (nactive_examples s).
Notation D := (c_max_tree_depth cfg).
Hypothesis HR : reachable dbg0 cfg d s.
Hypothesis Hsizes : hist_sizes d = Ok sizes.
Hypothesis Hsched : forall k js, Permutation js (sched k js).
Hypothesis Hsmall : (N.of_nat n <= 2 ^ 31)%N.
Hypothesis Hrows : example_rows s = Ok rows.

Lemma to_examples_ok l ex : (forall k, In k l -> k < n) -> to_examples s l = Ok ex -> ex = map (fun k => nth k rows 0) l /\ l <> [].
Proof.
  intros Hl H. unfold to_examples in H. apply rbind_ok in H as (ex' & E & H). apply rbind_ok in H as (? & Hn & H). injection H as ->. apply rassert_ok in Hn.
  assert (ex = map (fun k => nth k rows 0) l) as ->; [|split; [reflexivity|intros ->; discriminate]].
  pose proof (rows_length O s rows Hrows) as Lr. unfold example_rows in Hrows. destruct (example_sampling_enabled s).
  - apply mapM_ok in E. clear Hn. induction E as [|x0 y l1 l2 Hxy _ IH]; [reflexivity|]. cbn [map]. rewrite IH by (intros k Hk; apply Hl; right; exact Hk). f_equal.
    unfold map_index in Hxy. rewrite Hrows in Hxy. cbn [rbind] in Hxy. apply idx_ok in Hxy. symmetry. apply nth_error_nth, Hxy.
  - injection E as <-. injection Hrows as <-. rewrite <- (map_id l) at 1. apply map_ext_in. intros k Hk. rewrite seq_nth by (apply Hl, Hk). reflexivity.
Qed.

Definition to_rows (g : group O) : group O := (g_leaf g, map (fun k => nth k rows 0) (g_examples g), g_value g).

(** The state of the loop: groups made so far (with positions in place of rows), the stack, the tree. *)
Record loop_ok (W : nat -> blocks) (gs : list (group O)) (stack : list (node O)) (t : tree O) : Prop := {
  lo_tinv : tinv O D t;
  lo_ginv : ginv O t;
  lo_grown : forall nd, In nd stack -> grown dbg cfg s sizes bounds sched gradients nd;
  lo_ids : NoDup (map nd_id stack ++ map g_leaf gs);
  lo_leaf : forall m, leaf_node t m <-> In m (map nd_id stack ++ map g_leaf gs);
  lo_perm : Permutation (concat (map (members n) stack) ++ concat (map g_examples gs)) (seq 0 n);
  lo_val : forall g, In g gs -> node_value t (g_leaf g) = Ok (g_value g) /\ g_examples g <> [] /\ nisfin O (g_value g) = true;
  lo_sent : forall m k, (exists nd, In nd stack /\ m = nd_id nd /\ In k (members n nd)) \/ (exists g, In g gs /\ m = g_leaf g /\ In k (g_examples g)) -> sent t W k m;
  lo_sup : t_supercats t = get_supercats s /\ t_shrinkage t = nofZ O 1 /\ t_bias t = nofZ O 0;
  lo_crit : forall m c, nth_error (t_crits t) m = Some c -> c = no_split O \/
    (split_mask s c (W m) /\ ((1 <= c_min_examples_leaf cfg)%N -> exists k k', k < n /\ k' < n /\ bbit (W m) k = true /\ bbit (W m) k' = false))
}.

Lemma NoDup_perm {A} (l l' : list A) : Permutation l l' -> NoDup l -> NoDup l'.
Proof. apply Permutation_NoDup. Qed.

(** What one turn of the loop does. *)
Definition step_desc (nd : node O) (rest : list (node O)) (t : tree O) (stack' : list (node O)) (t' : tree O) (new : list (group O)) : Prop :=
  exists sp, find_best_split dbg cfg s nd = Ok sp /\
  if is_no_split (sp_crit sp) then stack' = rest /\ t_crits t' = t_crits t /\ exists v, new = [(nd_id nd, members n nd, v)]
  else exists fm, candidate s (sc_feature (sp_crit sp)) (sp_id sp) /\ ds_get_bitvec s (sc_feature (sp_crit sp)) (sp_id sp) = Ok fm /\ split_on s (sc_feature (sp_crit sp)) (sp_id sp) (sp_crit sp) /\
    t_crits t' = upd (t_crits t) (nd_id nd) (sp_crit sp) /\ nd_id nd < length (t_crits t) /\
    ((is_max_leaf_node t (left_child (nd_id nd)) = false /\ new = [] /\ exists l r, stack' = l :: r :: rest /\ nd_id l = 2 * nd_id nd + 1 /\ nd_id r = 2 * nd_id nd + 2 /\
        members n l = filter (bbit fm) (members n nd) /\ members n r = filter (fun k => negb (bbit fm k)) (members n nd)) \/
     (is_max_leaf_node t (left_child (nd_id nd)) = true /\ stack' = rest /\
        exists vl vr, new = [(2 * nd_id nd + 1, filter (bbit fm) (members n nd), vl); (2 * nd_id nd + 2, filter (fun k => negb (bbit fm k)) (members n nd), vr)])).

Lemma split_crits (t1 : tree O) m c t' : split_node t1 m c = Ok t' -> t_crits t' = upd (t_crits t1) m c /\ m < length (t_crits t1).
Proof. intros Es. apply split_node_ok in Es as (old & E1 & E2 & E3 & _ & ->). split; [reflexivity|]. apply nth_error_Some. congruence. Qed.

Lemma step_ok W gs nd rest t st stack' t' st' : loop_ok W gs (nd :: rest) t ->
  train_step dbg cfg s sizes bounds sched St leaf_value nd rest t st = Ok (stack', t', st') ->
  exists W' new, loop_ok W' (gs ++ new) stack' t' /\ leaf_calls leaf_value (map to_rows new) st st' /\ step_desc nd rest t stack' t' new.
Proof.
  intros H E. destruct H as [H1 H2 H3 H4 H5 H6 H7 H8 H9 H10].
  assert (grown dbg cfg s sizes bounds sched gradients nd) as HG by (apply H3; left; reflexivity).
  destruct (grown_pre _ dbg0 dbg _ _ _ _ _ _ _ HR Hsizes Hsched Hsmall nd HG) as (HL & Hw & Hs & _).
  pose proof (grown_ok _ dbg0 dbg _ _ _ _ _ _ _ HR Hsizes Hsched Hsmall nd rows HG Hrows) as HF.
  assert (Hlt : forall k, In k (members n nd) -> k < n) by (intros k; apply members_lt).
  unfold train_step in E. apply rbind_ok in E as (sp & Esp & E). destruct (is_no_split (sp_crit sp)) eqn:Ens.
  - (* a leaf *)
    apply rbind_ok in E as ((t1 & st1) & E & E'). injection E' as <- <- <-. unfold predict_leaf_value in E. apply rbind_ok in E as (ex & Eex & E). apply rbind_ok in E as ((v & st2) & Elv & E).
    apply rbind_ok in E as (t2 & Et & E). injection E as <- <-. apply set_node_value_ok in Et as (Hfin & Hvl & ->).
    unfold node_examples in Eex. rewrite (node_positions O cfg n _ Hsmall nd (fo_node _ _ _ _ _ _ HF)) in Eex. cbn [rbind] in Eex. apply to_examples_ok in Eex as [-> Hne]; [|exact Hlt].
    exists W, [(nd_id nd, members n nd, v)]. split; [|split; [cbn [map leaf_calls to_rows g_examples g_value g_leaf fst snd]; exists st2; auto|exists sp; rewrite Ens; eauto 10]].
    assert (Hp : forall A (x : A) (l1 l2 : list A), Permutation (l1 ++ l2 ++ [x]) (x :: l1 ++ l2)) by (intros; rewrite app_assoc; symmetry; apply Permutation_cons_append).
    constructor.
    + assert (tree_exec t (TSetValue (nd_id nd) v) = Ok (mk_tree (t_ninternal t) (t_max_depth t) (t_crits t) (upd (t_values t) (nd_id nd) v) (t_shrinkage t) (t_bias t) (t_supercats t))) as Ee.
      { cbn [tree_exec]. unfold set_node_value. rewrite Hfin. cbn [rassert rbind]. rewrite set_idx_lt by exact Hvl. reflexivity. }
      eapply tree_exec_inv; [exact H1|exact Ee].
    + eapply ginv_same; [| |exact H2]; reflexivity.
    + intros nd' Hin. apply H3. right. exact Hin.
    + rewrite map_app. cbn [map g_leaf fst]. eapply NoDup_perm; [|exact H4]. cbn [map app]. symmetry. apply Hp.
    + intros m. rewrite (leaf_node_same O t) by reflexivity. rewrite H5. rewrite map_app. cbn [map g_leaf fst]. split; apply Permutation_in; [symmetry|]; apply Hp.
    + rewrite map_app, concat_app. cbn [map concat g_examples fst snd]. rewrite app_nil_r. etransitivity; [|exact H6]. cbn [map concat]. rewrite app_assoc. rewrite Permutation_app_comm, app_assoc. reflexivity.
    + intros g Hg. apply in_app_or in Hg as [Hg|[<-|[]]].
      * destruct (H7 g Hg) as [Hv Hx]. split; [|exact Hx]. unfold node_value in *. cbn [t_values]. apply idx_ok in Hv. apply idx_ok. rewrite nth_error_upd.
        replace (nd_id nd =? g_leaf g) with false; [exact Hv|]. symmetry. apply Nat.eqb_neq. intros Hc. inversion H4 as [|? ? Hni _]; subst. apply Hni, in_or_app. right. rewrite Hc. apply in_map, Hg.
      * cbn [g_leaf g_value g_examples fst snd]. split; [|split; [exact Hne|exact Hfin]]. unfold node_value. cbn [t_values]. apply idx_ok. rewrite nth_error_upd, Nat.eqb_refl. replace (nd_id nd <? length (t_values t)) with true by lia. reflexivity.
    + intros m k Hm. apply (sent_ext O t _ W W); [intros x Hx; split; [exact Hx|reflexivity]|]. apply H8. destruct Hm as [(nd' & Hin & Em & Hk)|(g & Hg & Em & Hk)].
      * left. exists nd'. split; [right; exact Hin|auto].
      * apply in_app_or in Hg as [Hg|[<-|[]]]; [right; exists g; auto|]. left. exists nd. split; [left; reflexivity|]. auto.
    + exact H9.
    + exact H10.
  - destruct (best_split_weak O dbg cfg s nd sp (fun f b v => full_bin_le O cfg s sizes _ HL nd f b v HF) Esp) as [->|(v & (Hc & Ebin & Hmin1 & Hmin2) & Hso)]; [discriminate Ens|].
    destruct (lds_fm _ _ HL _ _ Hc) as (fm & Em & Hfm).
    assert (leaf_node t (nd_id nd)) as Hleaf by (apply H5; left; reflexivity).
    assert (Hnochild : forall m, m = 2 * nd_id nd + 1 \/ m = 2 * nd_id nd + 2 -> ~ In m (nd_id nd :: map nd_id rest ++ map g_leaf gs)).
    { intros m Hm Hin. apply H5 in Hin as [[k Hk] _]. apply (proj2 Hleaf). eapply child_inv; eassumption. }
    assert (Hnid : ~ In (nd_id nd) (map nd_id rest ++ map g_leaf gs)) by (inversion H4; assumption).
    assert (Hrestnd : NoDup (map nd_id rest ++ map g_leaf gs)) by (inversion H4; assumption).
    (* the tree after the split *)
    set (W' := fun m => if m =? nd_id nd then fm else W m).
    assert (Hinner : forall x, inner_crit t x -> (x =? nd_id nd) = false) by (intros x Hx; apply Nat.eqb_neq; intros ->; exact (proj2 Hleaf Hx)).
    assert (Hboth : (1 <= c_min_examples_leaf cfg)%N -> exists k k', k < n /\ k' < n /\ bbit fm k = true /\ bbit fm k' = false).
    { intros Hmin. pose proof HF as [FN FH FC]. pose proof (ho_count _ _ _ _ FH _ _ fm v Hc Em Ebin) as Hcv. pose proof (filter_halves _ (bbit fm) (members n nd)) as Hh.
      destruct (filter (bbit fm) (members n nd)) as [|k l1] eqn:E1; [cbn [length] in Hcv; lia|]. destruct (filter (fun x => negb (bbit fm x)) (members n nd)) as [|k' l2] eqn:E2; [cbn [length] in Hcv, Hh; lia|].
      assert (In k (filter (bbit fm) (members n nd))) as H1' by (rewrite E1; left; reflexivity). assert (In k' (filter (fun x => negb (bbit fm x)) (members n nd))) as H2' by (rewrite E2; left; reflexivity).
      apply filter_In in H1' as [M1 B1], H2' as [M2 B2]. apply negb_true_iff in B2. exists k, k'. auto. }
    assert (Hsplit : forall t1 t', t_crits t1 = t_crits t -> ginv O t1 -> tinv O D t1 -> split_node t1 (nd_id nd) (sp_crit sp) = Ok t' ->
      tinv O D t' /\ ginv O t' /\ (forall m, leaf_node t' m <-> In m (2 * nd_id nd + 1 :: 2 * nd_id nd + 2 :: map nd_id rest ++ map g_leaf gs)) /\
      (forall m k, sent t W k m -> sent t' W' k m) /\ (forall k, In k (members n nd) -> sent t' W' k (if bbit fm k then 2 * nd_id nd + 1 else 2 * nd_id nd + 2)) /\
      t_values t' = t_values t1 /\ t_supercats t' = t_supercats t1 /\ t_shrinkage t' = t_shrinkage t1 /\ t_bias t' = t_bias t1 /\
      (forall m c, nth_error (t_crits t') m = Some c -> c = no_split O \/ (split_mask s c (W' m) /\ ((1 <= c_min_examples_leaf cfg)%N -> exists k k', k < n /\ k' < n /\ bbit (W' m) k = true /\ bbit (W' m) k' = false)))).
    { intros t1 t'' Ecr G1 I1 Es. assert (leaf_node t1 (nd_id nd)) as Hleaf1 by (apply (leaf_node_same O t t1 Ecr), Hleaf).
      split; [eapply (tree_exec_inv O D t1 (TSplit (nd_id nd) (sp_crit sp))); [exact I1|exact Es]|]. split; [eapply ginv_split; eassumption|]. split.
      { intros m. rewrite (leaf_node_split O t1 t'' _ _ G1 Hleaf1 Es m). rewrite (leaf_node_same O t t1 Ecr), H5. cbn [map app In]. split.
        - intros [[[Hx|Hx] Hne]|Hx]; [congruence|right; right; exact Hx|]. destruct Hx; [left|right; left]; congruence.
        - intros [Hx|[Hx|Hx]]; [right; left; congruence|right; right; congruence|]. left. split; [right; exact Hx|]. intros ->. contradiction. }
      apply split_node_ok in Es as (old & E1 & E2 & E3 & _ & ->). cbn [t_values t_supercats t_shrinkage t_bias].
      assert (nd_id nd < length (t_crits t1)) as Hln by (apply nth_error_Some; congruence).
      set (t2 := mk_tree _ _ _ _ _ _ _).
      assert (inner_crit t2 (nd_id nd)) as Hin2.
      { exists (sp_crit sp). unfold t2. cbn [t_crits]. rewrite nth_error_upd, Nat.eqb_refl. replace (nd_id nd <? length (t_crits t1)) with true by lia. split; [reflexivity|]. intros Hx. unfold is_no_split in Ens. rewrite Hx in Ens. discriminate. }
      assert (Hsent : forall m k, sent t W k m -> sent t2 W' k m).
      { intros m k. apply sent_ext. intros x Hx. pose proof (Hinner x Hx) as Hne. split; [|unfold W'; rewrite Hne; reflexivity]. destruct Hx as (c & Ec & Hty). exists c. split; [|exact Hty].
        unfold t2. cbn [t_crits]. rewrite nth_error_upd, Nat.eqb_sym, Hne. cbn [andb]. rewrite Ecr. exact Ec. }
      split; [exact Hsent|]. split; [|do 4 (split; [reflexivity|])].
      - intros k Hk. assert (sent t W k (nd_id nd)) as Hk' by (apply H8; left; exists nd; split; [left; reflexivity|auto]). apply Hsent in Hk'.
        destruct (bbit fm k) eqn:Eb; [apply sent_left|apply sent_right]; try assumption; unfold W'; rewrite Nat.eqb_refl; exact Eb.
      - intros m c. unfold t2. cbn [t_crits]. rewrite nth_error_upd, Ecr. unfold W'. destruct (Nat.eqb_spec (nd_id nd) m) as [<-|Hne].
        + rewrite Ecr in Hln. replace (nd_id nd <? length (t_crits t)) with true by lia. cbn [andb]. intros Ec. injection Ec as <-. rewrite Nat.eqb_refl. right. split; [|exact Hboth]. exists (sp_id sp). auto.
        + replace (m =? nd_id nd) with false by lia. cbn [andb]. apply H10. }
    destruct (negb (is_max_leaf_node t (left_child (nd_id nd)))) eqn:Emax.
    + (* two new nodes *)
      apply rbind_ok in E as ((l & r) & Elr & E). apply rbind_ok in E as (t'' & Es & E). injection E as <- <- <-.
      destruct (left_right_gen O dbg cfg s sizes bounds sched _ HL Hw Hsmall Hsched Hs nd sp fm HF Hc Em) as [_ Hlr].
      destruct (Hlr l r Elr) as (Fl & Fr & Ml & Mr & Il & Ir & _). unfold left_child, right_child in Il, Ir.
      destruct (Hsplit t t'' eq_refl H2 H1 Es) as (A1 & A2 & A3 & A4 & A5 & A6 & A7 & A8 & A9 & A10).
      exists W', []. rewrite app_nil_r. split; [|split; [reflexivity|exists sp; rewrite Ens; destruct (split_crits _ _ _ _ Es) as (Hcr & Hln); split; [exact Esp|]; exists fm; do 5 (split; [assumption|]); left; rewrite negb_true_iff in Emax; split; [exact Emax|]; split; [reflexivity|]; exists l, r; auto 10]]. constructor; try assumption.
      * intros nd' [<-|[<-|Hin]]; [eapply grown_left; eassumption|eapply grown_right; eassumption|apply H3; right; exact Hin].
      * cbn [map app]. rewrite Il, Ir. constructor; [|constructor; [|exact Hrestnd]].
        -- intros [Hx|Hx]; [lia|]. apply (Hnochild (2 * nd_id nd + 1)); [auto|right; exact Hx].
        -- intros Hx. apply (Hnochild (2 * nd_id nd + 2)); [auto|right; exact Hx].
      * cbn [map app]. rewrite Il, Ir. exact A3.
      * etransitivity; [|exact H6]. cbn [map concat]. rewrite !app_assoc. apply Permutation_app_tail. apply Permutation_app_tail. rewrite Ml, Mr. symmetry.
        apply filter_partition.
      * intros g Hg. destruct (H7 g Hg) as [Hv Hx]. split; [|exact Hx]. unfold node_value. rewrite A6. exact Hv.
      * intros m k [(nd' & [<-|[<-|Hin]] & Em' & Hk)|Hg].
        -- rewrite Ml in Hk. apply filter_In in Hk as [Hk Hb]. specialize (A5 k Hk). rewrite Hb in A5. rewrite Em', Il. exact A5.
        -- rewrite Mr in Hk. apply filter_In in Hk as [Hk Hb]. apply negb_true_iff in Hb. specialize (A5 k Hk). rewrite Hb in A5. rewrite Em', Ir. exact A5.
        -- apply A4, H8. left. exists nd'. split; [right; exact Hin|auto].
        -- apply A4, H8. right. exact Hg.
      * rewrite A7, A8, A9. exact H9.
    + (* two leaves *)
      apply rbind_ok in E as ((t1 & st1) & E & E'). apply rbind_ok in E' as (t'' & Es & E'). injection E' as <- <- <-. unfold predict_child_leaf_values in E.
      apply rbind_ok in E as (fm' & Em' & E). rewrite Em in Em'. injection Em' as <-. apply rbind_ok in E as (exl & Exl & E). apply rbind_ok in E as ((vl & stl) & Evl & E).
      apply rbind_ok in E as (exr & Exr & E). apply rbind_ok in E as ((vr & str) & Evr & E). apply rbind_ok in E as (ta & Ea & E). apply rbind_ok in E as (tb & Eb & E). injection E as <- <-.
      unfold left_examples in Exl. rewrite (node_positions_and O cfg n _ Hsmall nd fm (fo_node _ _ _ _ _ _ HF) Hfm) in Exl. cbn [rbind] in Exl.
      apply to_examples_ok in Exl as [-> Hnel]; [|intros k Hk; apply filter_In in Hk as [Hk _]; apply Hlt, Hk].
      unfold right_examples in Exr. rewrite (node_positions_andnot O cfg n _ Hsmall nd fm (fo_node _ _ _ _ _ _ HF) Hfm) in Exr. cbn [rbind] in Exr.
      apply to_examples_ok in Exr as [-> Hner]; [|intros k Hk; apply filter_In in Hk as [Hk _]; apply Hlt, Hk].
      apply set_node_value_ok in Ea as (Hfl & Hvl & ->). apply set_node_value_ok in Eb as (Hfr & Hvr & ->). cbn [t_ninternal t_max_depth t_crits t_values t_shrinkage t_bias t_supercats] in *. rewrite upd_length in Hvr.
      unfold left_child, right_child in *. set (il := 2 * nd_id nd + 1) in *. set (ir := 2 * nd_id nd + 2) in *.
      set (t1 := mk_tree (t_ninternal t) (t_max_depth t) (t_crits t) (upd (upd (t_values t) il vl) ir vr) (t_shrinkage t) (t_bias t) (t_supercats t)) in *.
      assert (tinv O D t1) as I1.
      { assert (foldM tree_exec [TSetValue il vl; TSetValue ir vr] t = Ok t1) as Ee; [|eapply tree_run_inv; [exact H1|exact Ee]].
        cbn [foldM tree_exec]. unfold set_node_value at 1. rewrite Hfl. cbn [rassert rbind]. rewrite set_idx_lt by exact Hvl. cbn [rbind]. unfold set_node_value. rewrite Hfr. cbn [rassert rbind t_values].
        rewrite set_idx_lt by (rewrite upd_length; exact Hvr). reflexivity. }
      assert (ginv O t1) as G1 by (eapply ginv_same; [| |exact H2]; reflexivity).
      destruct (Hsplit t1 t'' eq_refl G1 I1 Es) as (A1 & A2 & A3 & A4 & A5 & A6 & A7 & A8 & A9 & A10).
      exists W', [(il, filter (bbit fm) (members n nd), vl); (ir, filter (fun x => negb (bbit fm x)) (members n nd), vr)]. split.
      2: { split; [cbn [map leaf_calls to_rows g_examples g_value g_leaf fst snd]; exists stl; split; [exact Evl|]; exists str; auto|]. exists sp. rewrite Ens. destruct (split_crits _ _ _ _ Es) as (Hcr & Hln). split; [exact Esp|]. exists fm. do 5 (split; [assumption|]). right. rewrite negb_false_iff in Emax. split; [exact Emax|]. split; [reflexivity|]. exists vl, vr. reflexivity. }
      assert (Hperm2 : forall l1 l2 : list nat, Permutation (l1 ++ l2 ++ [il; ir]) (il :: ir :: l1 ++ l2)).
      { intros l1 l2. rewrite app_assoc, Permutation_app_comm. reflexivity. }
      constructor; try assumption.
      * intros nd' Hin. apply H3. right. exact Hin.
      * rewrite map_app. cbn [map g_leaf fst]. eapply NoDup_perm; [symmetry; apply Hperm2|]. constructor; [|constructor; [|exact Hrestnd]].
        -- intros [Hx|Hx]; [unfold il, ir in Hx; lia|]. apply (Hnochild il); [auto|right; exact Hx].
        -- intros Hx. apply (Hnochild ir); [auto|right; exact Hx].
      * intros m. rewrite A3, map_app. cbn [map g_leaf fst]. split; apply Permutation_in; [symmetry|]; apply Hperm2.
      * rewrite map_app, concat_app. cbn [map concat g_examples fst snd]. rewrite app_nil_r. etransitivity; [|exact H6]. cbn [map concat].
        rewrite app_assoc, Permutation_app_comm. rewrite <- !app_assoc. rewrite app_assoc. apply Permutation_app_tail. symmetry. apply filter_partition.
      * intros g Hg. unfold node_value. rewrite A6. unfold t1. cbn [t_values]. apply in_app_or in Hg as [Hg|[<-|[<-|[]]]].
        -- destruct (H7 g Hg) as [Hv Hx]. split; [|exact Hx]. unfold node_value in Hv. apply idx_ok in Hv. apply idx_ok. rewrite !nth_error_upd.
           assert (In (g_leaf g) (map nd_id rest ++ map g_leaf gs)) as Hin by (apply in_or_app; right; apply in_map, Hg).
           replace (ir =? g_leaf g) with false by (symmetry; apply Nat.eqb_neq; intros Hc'; apply (Hnochild ir); [auto|right; rewrite Hc'; exact Hin]).
           replace (il =? g_leaf g) with false by (symmetry; apply Nat.eqb_neq; intros Hc'; apply (Hnochild il); [auto|right; rewrite Hc'; exact Hin]). exact Hv.
        -- cbn [g_leaf g_value g_examples fst snd]. split; [|split; [exact Hnel|exact Hfl]]. apply idx_ok. rewrite !nth_error_upd, upd_length. replace (ir =? il) with false by (unfold ir, il; lia). cbn [andb].
           rewrite Nat.eqb_refl. replace (il <? length (t_values t)) with true by lia. reflexivity.
        -- cbn [g_leaf g_value g_examples fst snd]. split; [|split; [exact Hner|exact Hfr]]. apply idx_ok. rewrite nth_error_upd, upd_length, Nat.eqb_refl. replace (ir <? length (t_values t)) with true by lia. reflexivity.
      * intros m k [(nd' & Hin & Em' & Hk)|(g & Hg & Em' & Hk)].
        -- apply A4, H8. left. exists nd'. split; [right; exact Hin|auto].
        -- apply in_app_or in Hg as [Hg|[<-|[<-|[]]]].
           ++ apply A4, H8. right. exists g. auto.
           ++ cbn [g_leaf g_examples fst snd] in *. apply filter_In in Hk as [Hk Hb]. specialize (A5 k Hk). rewrite Hb in A5. rewrite Em'. exact A5.
           ++ cbn [g_leaf g_examples fst snd] in *. apply filter_In in Hk as [Hk Hb]. apply negb_true_iff in Hb. specialize (A5 k Hk). rewrite Hb in A5. rewrite Em'. exact A5.
      * rewrite A7, A8, A9. exact H9.
Qed.
End Loop.
