(** Low-cardinality columns with unused codes: trees, training, boosting. *)
From Coq Require Import Permutation.
From Verif Require Import Base BaseProofs BitModel Num DataModel BinnerModel Config TreeModel DatasetModel DatasetSpec LearnerModel LearnerSpec RouteProps LearnerProofs3 LearnerProofs4 ObjectiveModel MetricModel BoostModel BoostSpec RowProofs2 AlikeProofs ColSpec ColProofs ColProofs5 WideProofs3 DupProofs2 GapSpec GapProofs GapProofs2.

Lemma F2_length A B (R : A -> B -> Prop) l l' : Forall2 R l l' -> length l = length l'.
Proof. induction 1; cbn; congruence. Qed.
Lemma F2_impl A B (R Q : A -> B -> Prop) l l' : (forall x y, R x y -> Q x y) -> Forall2 R l l' -> Forall2 Q l l'.
Proof. intros HI. induction 1; constructor; auto. Qed.
Lemma Forall2_upd A (R : A -> A -> Prop) l l' k x x' : Forall2 R l l' -> R x x' -> Forall2 R (upd l k x) (upd l' k x').
Proof. intros H Hx. revert k. induction H as [|a a' l l' Ha H IH]; intros [|k]; cbn; constructor; auto. Qed.
Lemma Forall2_at A B (R : A -> B -> Prop) l l' k x : Forall2 R l l' -> nth_error l k = Some x -> exists x', nth_error l' k = Some x' /\ R x x'.
Proof. intros H. revert k. induction H as [|a a' l l' Ha H IH]; intros [|k] E; cbn in *; try discriminate; [injection E as ->; eauto|eauto]. Qed.
Lemma Forall2_none A B (R : A -> B -> Prop) l l' k : Forall2 R l l' -> nth_error l k = None -> nth_error l' k = None.
Proof. intros H E. apply nth_error_None. apply nth_error_None in E. rewrite <- (F2_length _ _ _ _ _ H). exact E. Qed.

Section Trees.
Variable O : numops.
Variable m : nat -> nat -> nat.
Variable d : data O.
Notation nf := (d_nfeatures d).
Notation gcrit := (gcrit O m d).
Definition gtree (t t' : tree O) : Prop := renumbered_tree m d t t' /\ Forall2 gcrit (t_crits t) (t_crits t').
Lemma gset_value (t t' : tree O) k v r : gtree t t' -> set_node_value t k v = Ok r -> exists r', set_node_value t' k v = Ok r' /\ gtree r r'.
Proof.
  intros [(H1 & H2 & H3 & H4 & H5 & H6 & H7) HC] E. unfold set_node_value in *. rewrite H4. apply rbind_ok in E as (u & -> & E). cbn [rbind]. apply rbind_ok in E as (vs & -> & E). cbn [rbind]. apply Ok_eq in E. subst r. eexists. split; [reflexivity|].
  split; [|exact HC]. unfold renumbered_tree. cbn. auto 10.
Qed.
Lemma gsplit_node (t t' : tree O) k c c' r : gtree t t' -> gcrit c c' -> split_node t k c = Ok r -> exists r', split_node t' k c' = Ok r' /\ gtree r r'.
Proof.
  intros [(H1 & H2 & H3 & H4 & H5 & H6 & H7) HC] Hc E. unfold split_node in *. apply rbind_ok in E as (old & Eo & E). apply idx_ok in Eo. destruct (Forall2_at _ _ _ _ _ _ _ HC Eo) as (old' & Eo' & Ho).
  assert (idx (t_crits t') k = Ok old') as -> by (apply idx_ok; exact Eo'). cbn [rbind]. rewrite (proj2 (gcrit_feature O m d _ _ Ho)), (proj2 (gcrit_feature O m d _ _ Hc)).
  apply rbind_ok in E as (u1 & -> & E). cbn [rbind]. apply rbind_ok in E as (u2 & -> & E). cbn [rbind]. unfold is_max_leaf_node, max_ninternal in *. rewrite H2. apply rbind_ok in E as (u3 & -> & E). cbn [rbind].
  apply rbind_ok in E as (cs & Ec & E). apply set_idx_ok in Ec as [Hl ->]. apply Ok_eq in E. subst r.
  assert (set_idx (t_crits t') k c' = Ok (upd (t_crits t') k c')) as -> by (apply set_idx_ok; rewrite <- (F2_length _ _ _ _ _ HC); auto). cbn [rbind]. eexists. split; [reflexivity|].
  split; [unfold renumbered_tree; cbn; rewrite H1; split; [reflexivity|]; split; [reflexivity|]; split; [apply Forall2_upd; [exact H3|apply Hc]|auto 10]|]. cbn [t_crits]. apply Forall2_upd; assumption.
Qed.

(** Prediction. *)
Section Predict.
Variables D D' : data O.
Hypothesis HR : renumbered_rows m d D D'.
Lemma gcolumn_zero : exists c c', get_feature D 0 = Ok c /\ get_feature D' 0 = Ok c' /\ length c = d_nexamples D /\ length c' = d_nexamples D.
Proof.
  destruct HR as (_ & _ & L & L' & HL & _). destruct (d_features D) as [|c cs] eqn:E; [discriminate L|]. destruct (d_features D') as [|c' cs'] eqn:E'; [discriminate L'|].
  exists c, c'. unfold get_feature. rewrite E, E'. split; [reflexivity|]. split; [reflexivity|]. split; apply HL; [left|right]; left; reflexivity.
Qed.
Lemma glid (t t' : tree O) i : gtree t t' -> forall f k, leaf_id_loop f t' D' i k = leaf_id_loop f t D i k.
Proof.
  intros HT. pose proof HT as [(H1 & H2 & H3 & H4 & H5 & H6 & H7) HC]. induction f as [|f IH]; intros k; [reflexivity|]. cbn [leaf_id_loop]. unfold idx at 1. unfold idx at 2. destruct (nth_error (t_crits t) k) as [c|] eqn:Ec; [|rewrite (Forall2_none _ _ _ _ _ _ HC Ec); reflexivity].
  destruct (Forall2_at _ _ _ _ _ _ _ HC Ec) as (c' & Ec' & Hc). rewrite Ec'. cbn [rbind]. destruct (gcrit_feature O m d _ _ Hc) as [EF EN]. rewrite EF. pose proof Hc as ((T1 & _ & TV) & TN & TS). destruct (is_no_split c) eqn:En.
  - specialize (TN eq_refl). subst c. cbn [no_split sc_feature]. destruct gcolumn_zero as (a & a' & -> & -> & L & L'). cbn [rbind]. unfold idx. unfold goes_left. rewrite T1. cbn [no_split sc_type rbind].
    destruct (nth_error a i) eqn:E1, (nth_error a' i) eqn:E2; cbn [rbind]; try reflexivity; exfalso; [apply nth_error_None in E2; assert (i < length a) by (apply nth_error_Some; congruence); lia|apply nth_error_None in E1; assert (i < length a') by (apply nth_error_Some; congruence); lia].
  - specialize (TS eq_refl). destruct TS as [Hf Hty]. destruct HR as (_ & _ & _ & _ & _ & HF). destruct (HF _ Hf) as [HP HL]. unfold goes_left. rewrite T1.
    destruct (sc_type c) eqn:Et.
    + unfold is_no_split in En. rewrite Et in En. discriminate.
    + destruct TV as (n & b & Ecd & Hb & Ev & Ev'). destruct (HL Hty n Ecd) as (col & col' & E1 & E2 & HV). rewrite E1, E2. cbn [rbind]. unfold idx. destruct (nth_error col i) as [v|] eqn:Ei; [|rewrite (Forall2_none _ _ _ _ _ _ HV Ei); reflexivity].
      destruct (Forall2_at _ _ _ _ _ _ _ HV Ei) as (v' & Ei' & Hv). rewrite Ei'. cbn [rbind]. rewrite Ev, Ev', (Hv b Hb). destruct (neq O v (nofnat O b)); apply IH.
    + rewrite (HP Hty), TV, H7, EF. destruct (get_feature D (sc_feature c)) as [col| | |]; cbn [rbind]; try reflexivity. destruct (idx col i) as [v| | |]; cbn [rbind]; try reflexivity.
      match goal with |- (let* r := ?x in _) = _ => destruct x as [[[|]|]| | |] end; cbn [rbind]; try reflexivity; apply IH.
    + rewrite (HP Hty), TV. destruct (get_feature D (sc_feature c)) as [col| | |]; cbn [rbind]; try reflexivity. destruct (idx col i) as [v| | |]; cbn [rbind]; try reflexivity. destruct (nlt O v (sc_value c)); apply IH.
Qed.
Lemma gsingle (t t' : tree O) i : gtree t t' -> predict_single t' D' i = predict_single t D i.
Proof.
  intros HT. unfold predict_single, predict_leaf_id. rewrite (glid t t' i HT). pose proof HT as [(H1 & H2 & H3 & H4 & H5 & H6 & _) HC]. rewrite <- (F2_length _ _ _ _ _ HC), H4, H5, H6. reflexivity.
Qed.
Lemma gpredict_and (t t' : tree O) f buf : gtree t t' -> predict_and t' D' f buf = predict_and t D f buf.
Proof.
  intros HT. unfold predict_and. assert (d_nexamples D' = d_nexamples D) as -> by apply HR. destruct (rassert _); cbn [rbind]; try reflexivity. generalize (seq 0 (d_nexamples D)) as l. intros l. revert buf. induction l as [|i l IH]; intros buf; [reflexivity|]. cbn [foldM]. rewrite (gsingle _ _ _ HT).
  destruct (let* q := predict_single t D i in let* x := idx buf i in set_idx buf i (f q x)); cbn [rbind]; try reflexivity. apply IH.
Qed.
Lemma gadditive (ts ts' : list (tree O)) b : Forall2 gtree ts ts' -> additive_predict (mk_add b ts') D' = additive_predict (mk_add b ts) D.
Proof.
  intros H. unfold additive_predict, additive_predict_buf. assert (d_nexamples D' = d_nexamples D) as -> by apply HR. cbn [at_trees at_bias]. generalize (map (fun _ : num O => b) (repeat (nofZ O 0) (d_nexamples D))) as buf.
  induction H as [|t t' ts ts' Ht _ IH]; intros buf; [reflexivity|]. cbn [foldM]. rewrite (gpredict_and _ _ _ _ Ht). destruct (predict_and t D _ buf); cbn [rbind]; try reflexivity. apply IH.
Qed.
End Predict.
End Trees.

Section Train.
Variable O : numops.
Variable M : mathops O.
Variable dbg : bool.
Variable cfg : config O.
Variable m : nat -> nat -> nat.
Variables d d' : data O.
Hypothesis HD : renumbered m d d'.
Hypothesis Hcodes : forall f n' c, feat_type_of d' f = Ok LoCardCat -> feat_card d' f = Ok n' -> c < n' -> into_cat (nofnat O c) = c.
Hypothesis Heq : forall f n' a b, feat_type_of d' f = Ok LoCardCat -> feat_card d' f = Ok n' -> a < n' -> b < n' -> neq O (nofnat O a) (nofnat O b) = (a =? b).
Hypothesis Hmin : (0 < c_min_examples_leaf cfg)%N.
Notation nf := (d_nfeatures d).
Variable sel : nat -> bool.
Hypothesis Hsel : forall f, f < nf -> if sel f then same_column m d d' f else exists n n', renumbered_column m d d' f n n'.
Notation gtree := (gtree O m d).

Lemma rows_same : renumbered_rows m d d d'.
Proof.
  pose proof HD as (H1 & H2 & H3 & H4 & H5 & H6 & H7 & H8). split; [reflexivity|]. split; [exact H2|]. split; [exact H5|]. split; [exact H6|]. split; [exact H7|]. intros f Hf. destruct (H8 f Hf) as [Ht [(G1 & G2 & G3 & G4)|(n & n' & K1 & K2 & K3 & K4 & K5 & K6 & (col & col' & E1 & E2 & HV) & _)]].
  - split; [intros _; exact G1|]. intros _ n _. assert (exists col, get_feature d f = Ok col) as (col & Ec). { unfold get_feature, idx. destruct (nth_error (d_features d) f) eqn:E; [eauto|]. apply nth_error_None in E. lia. }
    exists col, col. rewrite G1. split; [exact Ec|]. split; [exact Ec|]. clear - G4. induction col; constructor; [|assumption]. intros c _. rewrite G4. reflexivity.
  - split; [congruence|]. intros _ n0 En. rewrite K2 in En. apply Ok_eq in En. subst n0. exists col, col'. split; [exact E1|]. split; [exact E2|]. assert (feat_type_of d' f = Ok LoCardCat) as Kt by congruence.
    clear - HV K3 K5 K6 Kt Heq. induction HV as [|v v' l l' (a & Ha & -> & ->) _ IH]; constructor; [|exact IH]. intros c Hc. assert (forall a, a <= m f a) as X by (induction a0 as [|a0 IHa]; [lia|pose proof (K5 a0 (S a0) ltac:(lia)); lia]).
    pose proof (K6 a Ha). pose proof (K6 c Hc). pose proof (X a). pose proof (X c). rewrite (Heq f n') by (assumption || lia). rewrite (Heq f n' a c) by (assumption || lia).
    apply Bool.eq_iff_eq_true. rewrite !Nat.eqb_eq. split; [|congruence]. intros E. destruct (lt_eq_lt_dec a c) as [[Hl|Hl]|Hl]; [apply K5 in Hl; lia|exact Hl|apply K5 in Hl; lia].
Qed.

Section Tree.
Variables s s' : dataset O.
Hypothesis Hds : gds O m d d' sel s s'.
Variables sizes sizes' : list nat.
Hypothesis Hsizes : hist_sizes d = Ok sizes.
Hypothesis Hsz : gsizes O m d d' sel sizes sizes'.
Variable bounds : num O * num O.
Variables sched sched' : nat -> list job -> list job.
Hypothesis Hsched : forall k js, Permutation js (sched k js).
Hypothesis Hsched' : forall k js, Permutation js (sched' k js).
Variable gradients : list (num O).
Variable St : Type.
Variable leaf_value : list nat -> St -> res (num O * St).
Variable oob : nat -> num O -> St -> res St.
Notation gnode := (gnode O m d d' sel sizes).
Let Hin : ginner O m d d' sel (ds_inner s) (ds_inner s') := gd_in _ _ _ _ _ _ _ Hds.

Lemma gto_examples l : to_examples s' l = to_examples s l.
Proof.
  unfold to_examples, map_index. rewrite (gex_sampling O m d d' sel s s' Hds), (gactive_ex O m d d' sel s s' Hds). reflexivity.
Qed.
Lemma gtstep nd nd' rest rest' t t' st r t1 st1 : gnode nd nd' -> Forall2 gnode rest rest' -> gtree t t' -> train_step dbg cfg s sizes bounds sched St leaf_value nd rest t st = Ok (r, t1, st1) ->
  exists r' t1', train_step dbg cfg s' sizes' bounds sched' St leaf_value nd' rest' t' st = Ok (r', t1', st1) /\ Forall2 gnode r r' /\ gtree t1 t1'.
Proof.
  intros HN HF Ht E. unfold train_step in *. apply rbind_ok in E as (sp & Esp & E). destruct (gbest O dbg cfg m d d' HD Hcodes Hmin sel Hsel s s' Hds sizes Hsizes bounds sched sched' Hsched Hsched' nd nd' sp HN Esp) as (sp' & Esp' & HP). rewrite Esp'. cbn [rbind].
  pose proof HP as [HPc HPi]. destruct (gcrit_feature O m d _ _ HPc) as [EF Ens]. rewrite Ens. destruct (is_no_split (sp_crit sp)) eqn:En.
  - apply rbind_ok in E as ((t2 & st2) & E1 & E). apply Ok_eq in E. injection E as <- <- <-. unfold predict_leaf_value in *. assert (node_examples s' nd' = node_examples s nd) as -> by (unfold node_examples; rewrite (gn_compr _ _ _ _ _ _ _ _ HN), (gn_mask _ _ _ _ _ _ _ _ HN), (gn_idx _ _ _ _ _ _ _ _ HN); destruct (if nd_compr nd then _ else _); cbn [rbind]; try reflexivity; apply gto_examples).
    apply rbind_ok in E1 as (ex & -> & E1). cbn [rbind]. apply rbind_ok in E1 as ((v & st3) & -> & E1). cbn [rbind]. apply rbind_ok in E1 as (t3 & Ev & E1). apply Ok_eq in E1. injection E1 as <- <-. rewrite (gn_id _ _ _ _ _ _ _ _ HN). destruct (gset_value O m d _ _ _ _ _ Ht Ev) as (t3' & -> & Ht3). cbn [rbind].
    eexists. eexists. split; [reflexivity|]. split; [exact HF|exact Ht3].
  - pose proof HPc as (_ & _ & HPf). destruct (HPf En) as [Hf _].
    assert (is_max_leaf_node t' (left_child (nd_id nd')) = is_max_leaf_node t (left_child (nd_id nd))) as -> by (unfold is_max_leaf_node, max_ninternal; destruct Ht as [(_ & -> & _) _]; rewrite (gn_id _ _ _ _ _ _ _ _ HN); reflexivity). rewrite (gn_id _ _ _ _ _ _ _ _ HN).
    destruct (negb (is_max_leaf_node t (left_child (nd_id nd)))).
    + apply rbind_ok in E as ((l & rn) & Elr & E). destruct (gchildren O dbg cfg m d d' HD Hcodes Hmin sel Hsel s s' Hds sizes sizes' Hsz bounds sched sched' Hsched Hsched' _ _ _ _ _ _ HN HP En Elr) as (l' & rn' & Elr' & Hl & Hr). rewrite Elr'. cbn [rbind].
      apply rbind_ok in E as (t2 & Et & E). apply Ok_eq in E. injection E as <- <- <-. destruct (gsplit_node O m d _ _ _ _ _ _ Ht HPc Et) as (t2' & -> & Ht2). cbn [rbind]. eexists. eexists. split; [reflexivity|]. split; [|exact Ht2].
      constructor; [exact Hl|constructor; [exact Hr|exact HF]].
    + apply rbind_ok in E as ((t2 & st2) & E1 & E). apply rbind_ok in E as (t3 & Et & E). apply Ok_eq in E. injection E as <- <- <-. unfold predict_child_leaf_values in *. rewrite EF, (HPi eq_refl), (gn_id _ _ _ _ _ _ _ _ HN).
      apply rbind_ok in E1 as (fm & Efm & E1). rewrite (gbitvec O m d d' Hcodes sel Hsel s s' Hds _ _ _ Hf Efm). cbn [rbind].
      assert (left_examples s' nd' fm = left_examples s nd fm) as -> by (unfold left_examples; rewrite (gn_compr _ _ _ _ _ _ _ _ HN), (gn_mask _ _ _ _ _ _ _ _ HN), (gn_idx _ _ _ _ _ _ _ _ HN); destruct (if nd_compr nd then _ else _); cbn [rbind]; try reflexivity; apply gto_examples).
      apply rbind_ok in E1 as (exl & -> & E1). cbn [rbind]. apply rbind_ok in E1 as ((vl & sl) & -> & E1). cbn [rbind].
      assert (right_examples s' nd' fm = right_examples s nd fm) as -> by (unfold right_examples; rewrite (gn_compr _ _ _ _ _ _ _ _ HN), (gn_mask _ _ _ _ _ _ _ _ HN), (gn_idx _ _ _ _ _ _ _ _ HN); destruct (if nd_compr nd then _ else _); cbn [rbind]; try reflexivity; apply gto_examples).
      apply rbind_ok in E1 as (exr & -> & E1). cbn [rbind]. apply rbind_ok in E1 as ((vr & sr) & -> & E1). cbn [rbind].
      apply rbind_ok in E1 as (ta & Ea & E1). destruct (gset_value O m d _ _ _ _ _ Ht Ea) as (ta' & -> & Hta). cbn [rbind]. apply rbind_ok in E1 as (tb & Eb & E1). destruct (gset_value O m d _ _ _ _ _ Hta Eb) as (tb' & -> & Htb). cbn [rbind]. apply Ok_eq in E1. injection E1 as <- <-.
      destruct (gsplit_node O m d _ _ _ _ _ _ Htb HPc Et) as (t2' & -> & Ht2). cbn [rbind]. eexists. eexists. split; [reflexivity|]. split; [exact HF|exact Ht2].
Qed.
Lemma gtloop : forall fuel stack stack' t t' st t1 st1, Forall2 gnode stack stack' -> gtree t t' -> train_loop dbg cfg s sizes bounds sched St leaf_value fuel stack t st = Ok (t1, st1) ->
  exists t1', train_loop dbg cfg s' sizes' bounds sched' St leaf_value fuel stack' t' st = Ok (t1', st1) /\ gtree t1 t1'.
Proof.
  induction fuel as [|fuel IH]; intros stack stack' t t' st t1 st1 HF Ht E; (destruct HF as [|nd nd' rest rest' HN HF]; cbn [train_loop] in *; [apply Ok_eq in E; injection E as <- <-; eauto|]).
  - discriminate.
  - apply rbind_ok in E as (((r & t2) & st2) & E1 & E). destruct (gtstep _ _ _ _ _ _ _ _ _ _ HN HF Ht E1) as (r' & t2' & -> & HF2 & Ht2). cbn [rbind fst snd] in *. eapply IH; eassumption.
Qed.
Lemma goob t t' st : gtree t t' -> predict_out_of_bag s' St oob t' st = predict_out_of_bag s St oob t st.
Proof.
  intros Ht. unfold predict_out_of_bag. rewrite (gex_sampling O m d d' sel s s' Hds). destruct (example_sampling_enabled s) eqn:Es; [|reflexivity].
  assert (inactive_examples s' = inactive_examples s) as -> by (unfold inactive_examples; rewrite (gex_sampling O m d d' sel s s' Hds), (gactive_ex O m d d' sel s s' Hds), (gi_data _ _ _ _ _ _ _ Hin), (gi_data' _ _ _ _ _ _ _ Hin), (g_ne O m d d' HD); reflexivity).
  destruct (inactive_examples s) as [l| | |]; cbn [rbind]; try reflexivity. revert st. induction l as [|i l IH]; intros st; [reflexivity|]. cbn [foldM]. rewrite (gi_data _ _ _ _ _ _ _ Hin), (gi_data' _ _ _ _ _ _ _ Hin), (gsingle O m d d d' rows_same _ _ _ Ht).
  destruct (let* q := predict_single t d i in oob i q st); cbn [rbind]; try reflexivity. rewrite (gi_data _ _ _ _ _ _ _ Hin), (gi_data' _ _ _ _ _ _ _ Hin) in IH. apply IH.
Qed.
Lemma gtrain t st st1 : train dbg cfg s sizes bounds sched St leaf_value oob gradients st = Ok (t, st1) -> exists t', train dbg cfg s' sizes' bounds sched' St leaf_value oob gradients st = Ok (t', st1) /\ gtree t t'.
Proof.
  intros E. unfold train in *. apply rbind_ok in E as (t0 & Et & E). unfold tree_new in *. apply rbind_ok in Et as (u & -> & Et). cbn [rbind]. apply Ok_eq in Et. apply rbind_ok in E as (root & Er & E).
  destruct (groot O cfg m d d' HD Hcodes Hmin sel Hsel s s' Hds sizes sizes' Hsz bounds sched sched' Hsched Hsched' gradients root Er) as (root' & Er' & HN). rewrite Er'. cbn [rbind].
  apply rbind_ok in E as ((t2 & st2) & El & E).
  match goal with |- context [train_loop _ _ _ _ _ _ _ _ _ _ ?x _] => assert (gtree t0 x) as Ht0 end.
  { subst t0. assert (forall n, Forall2 (gcrit O m d) (repeat (no_split O) n) (repeat (no_split O) n)) as X by (induction n as [|n IH]; cbn [repeat]; constructor; [split; [repeat split; reflexivity|split; [reflexivity|discriminate]]|exact IH]).
    split; [|apply X]. unfold renumbered_tree, get_supercats. cbn [t_ninternal t_max_depth t_crits t_values t_shrinkage t_bias t_supercats].
    do 2 (split; [reflexivity|]). split; [eapply F2_impl; [|apply X]; intros ? ? Hg; exact (proj1 Hg)|]. do 3 (split; [reflexivity|]). apply Hin. }
  assert (Forall2 gnode [root] [root']) as HF by (constructor; [exact HN|constructor]).
  destruct (gtloop _ _ _ _ _ _ _ _ HF Ht0 El) as (t2' & -> & Ht2). cbn [rbind]. rewrite (goob _ _ _ Ht2). apply rbind_ok in E as (st3 & -> & E). apply Ok_eq in E. injection E as <- <-. cbn [rbind]. eauto.
Qed.
End Tree.

(** Boosting. *)
Variables sched sched' : nat -> nat -> list job -> list job.
Hypothesis Hsched : any_order sched.
Hypothesis Hsched' : any_order sched'.
Variable kind : obj_kind.
Variable metrics : list metric.
Variable g : rng.
Record gbst (b b' : booster O) : Prop := { gb_ds : gds O m d d' sel (bs_dataset b) (bs_dataset b'); gb_ob : bs_objective b' = bs_objective b; gb_iter : bs_iter b' = bs_iter b; gb_evals : bs_evals b' = bs_evals b;
  gb_bias : at_bias (bs_ensemble b') = at_bias (bs_ensemble b); gb_trees : Forall2 gtree (at_trees (bs_ensemble b)) (at_trees (bs_ensemble b')) }.
Lemma g_target : get_target d' = get_target d. Proof. apply HD. Qed.
Lemma gstart b : boost_start M dbg cfg d kind g = Ok b -> exists b', boost_start M dbg cfg d' kind g = Ok b' /\ gbst b b'.
Proof.
  unfold boost_start. intros E. apply rbind_ok in E as (s & Es & E). destruct (gdataset_new O cfg m d d' HD Hcodes sel Hsel g s Es) as (s' & Es' & Hs). rewrite Es'. cbn [rbind]. rewrite g_target. apply rbind_ok in E as (target & -> & E). cbn [rbind].
  apply rbind_ok in E as (ob & -> & E). cbn [rbind]. apply Ok_eq in E. subst b. eexists. split; [reflexivity|]. constructor; cbn; try reflexivity; [exact Hs|constructor].
Qed.
Lemma grun k b : boost_run M dbg cfg d sched kind metrics g k = Ok b -> exists b', boost_run M dbg cfg d' sched' kind metrics g k = Ok b' /\ gbst b b'.
Proof.
  intros E. pose proof E as E0. unfold boost_run in E0. apply rbind_ok in E0 as (b0 & Eb0 & E0). apply rbind_ok in E0 as (sizes & Esz & _). destruct (gsizes_sim O cfg m d d' HD Hcodes Hmin sel Hsel sizes Esz) as (sizes' & Esz' & Hsz).
  revert b E. induction k as [|k IH]; intros b E.
  - unfold boost_run in *. rewrite Eb0, Esz in E. cbn [rbind seq foldM] in E. apply Ok_eq in E. subst b0. destruct (gstart _ Eb0) as (b' & -> & H). rewrite Esz'. cbn [rbind seq foldM]. eauto.
  - assert (exists b1, boost_run M dbg cfg d sched kind metrics g k = Ok b1 /\ train_one_iter M dbg cfg d sched sizes metrics b1 = Ok b) as (b1 & Eb1 & E1).
    { unfold boost_run in *. rewrite Eb0, Esz in *. cbn [rbind] in *. rewrite seq_S, foldM_app in E. apply rbind_ok in E as (b1 & -> & E). exists b1. split; [reflexivity|]. cbn [foldM] in E. apply rbind_ok in E as (b2 & -> & E). exact E. }
    destruct (IH b1 Eb1) as (b1' & Eb1' & H).
    assert (forall b', train_one_iter M dbg cfg d' sched' sizes' metrics b1' = Ok b' -> boost_run M dbg cfg d' sched' kind metrics g (S k) = Ok b') as Hstep.
    { intros b' E'. unfold boost_run in *. apply rbind_ok in Eb1' as (b0' & -> & Eb1'). rewrite Esz' in *. cbn [rbind] in *. rewrite seq_S, foldM_app, Eb1'. cbn [rbind foldM]. rewrite E'. reflexivity. }
    unfold train_one_iter in E1. apply rbind_ok in E1 as (target & Et & E1). apply rbind_ok in E1 as (ob & Eu & E1). apply rbind_ok in E1 as (s & Es & E1). apply rbind_ok in E1 as ((t & ob') & Etr & E1). apply Ok_eq in E1. subst b.
    destruct (gdataset_update O dbg cfg m d d' HD Hcodes sel Hsel _ _ _ _ _ (gb_ds _ _ H) Es) as (s' & Es' & Hs).
    destruct (gtrain s s' Hs sizes sizes' Esz Hsz (obj_bounds ob) (sched (S (bs_iter b1))) (sched' (S (bs_iter b1))) (Hsched _) (Hsched' _) (ob_grads ob) (objective O) (obj_leaf_value M target) (@update_out_of_bag O) t ob ob' Etr) as (t' & Etr' & Ht).
    eexists. split; [apply Hstep|]; [unfold train_one_iter; rewrite g_target, Et; cbn [rbind]; rewrite (gb_ob _ _ H), Eu; cbn [rbind]; rewrite Es'; cbn [rbind]; rewrite (gb_iter _ _ H), Etr'; cbn [rbind]; reflexivity|].
    constructor; cbn [bs_dataset bs_objective bs_iter bs_ensemble bs_evals push_tree at_bias at_trees]; try assumption; try reflexivity.
    + rewrite (gb_evals _ _ H). reflexivity.
    + apply H.
    + apply Forall2_app; [apply H|constructor; [exact Ht|constructor]].
Qed.
End Train.
