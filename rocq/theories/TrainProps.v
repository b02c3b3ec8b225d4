(** Properties C26 and C43: training one tree. *)
From Coq Require Import Reals Lra Permutation Sorting.Sorted.
From Verif Require Import Base BaseProofs BitModel BitSpec BitProofs BitProofs2 SimdModel SliceModel SliceSpec SliceProofs SliceProofs2 SliceProps
  CountSumProofs IterModel IterSpec IterProofs Num F32 F32Proofs ScaledModel DataModel DataSpec Config TreeModel TreeSpec TreeProofs TreeProofs2 TreeProps DatasetModel DatasetSpec DatasetProofs DatasetProofs2 DatasetProofs3 DatasetProofs4 DatasetProofs5
  DatasetProps RouteProps LearnerModel LearnerSpec TrainSpec LearnerProofs LearnerProofs2 LearnerProofs3 LearnerProofs4 LearnerProofs5 LearnerProofs6 LearnerProofs7 LearnerProofs8 LearnerProofs9 LearnerProofs10 GainSpec LearnerProps.
Local Close Scope R_scope.

(* ---- C26 ---- *)

Lemma rows_nodup O dbg (cfg : config O) d s rows : reachable dbg cfg d s -> example_rows s = Ok rows -> NoDup rows.
Proof.
  intros HR H. unfold example_rows in H. destruct (example_sampling_enabled s); [|injection H as <-; apply seq_NoDup].
  destruct (C27_active_examples _ _ _ _ _ _ HR H) as (Hi & _). clear -Hi. induction Hi as [|x l Hl IH Hx]; constructor; [|exact IH]. rewrite Forall_forall in Hx. intros Hin. specialize (Hx x Hin). lia.
Qed.

Lemma oob_fold O St (oob : nat -> num O -> St -> res St) (t : tree O) d is : forall st st',
  foldM (fun st i => let* p := predict_single t d i in oob i p st) is st = Ok st' ->
  exists l, map fst l = is /\ (forall i v, In (i, v) l -> predict_single t d i = Ok v) /\ oob_calls oob l st st'.
Proof.
  induction is as [|i is IH]; intros st st' E; cbn [foldM] in E.
  - injection E as <-. exists []. split; [reflexivity|]. split; [intros i v []|reflexivity].
  - apply rbind_ok in E as (st1 & E1 & E). apply rbind_ok in E1 as (p & Ep & Eo). destruct (IH st1 st' E) as (l & L1 & L2 & L3). exists ((i, p) :: l). cbn [map fst]. rewrite L1. split; [reflexivity|]. split.
    + intros i' v [Hx|Hx]; [injection Hx as -> ->; exact Ep|apply L2, Hx].
    + exists st1. auto.
Qed.

Lemma oob_part O dbg (cfg : config O) d s St (oob : nat -> num O -> St -> res St) t rows st1 st' : reachable dbg cfg d s -> example_rows s = Ok rows -> predict_out_of_bag s St oob t st1 = Ok st' ->
  exists others, oob_calls oob others st1 st' /\
    (example_sampling_enabled s = false -> others = []) /\
    (example_sampling_enabled s = true -> increasing (map fst others) /\ (forall j, In j (map fst others) <-> j < d_nexamples d /\ ~ In j rows) /\ forall i v, In (i, v) others -> predict_single t d i = Ok v).
Proof.
  intros HR Hrows HO. unfold predict_out_of_bag in HO. destruct (example_sampling_enabled s) eqn:Es.
  - apply rbind_ok in HO as (is & Eis & HO). unfold example_rows in Hrows. rewrite Es in Hrows. destruct (C28_inactive _ _ _ _ _ _ HR Es Hrows) as (is' & Eis' & I1 & I2). rewrite Eis in Eis'. injection Eis' as <-.
    rewrite (dv_data _ _ _ _ (ds_inv _ _ _ _ (reachable_ok _ _ _ _ _ HR))) in HO. destruct (oob_fold O St oob t d is st1 st' HO) as (l & L1 & L2 & L3). exists l. split; [exact L3|]. split; [discriminate|]. intros _. rewrite L1. auto.
  - injection HO as <-. exists []. split; [reflexivity|]. split; [reflexivity|discriminate].
Qed.

(** A run of training: the leaves of the tree with their examples and values.  Every active example belongs to exactly one leaf; the objective is asked
    once per leaf, with the examples of the leaf, for the value the leaf gets (it updates the predictions of those examples); then it is told, once for each inactive example
    in turn, the prediction of the tree. *)
Theorem C26_leaves : forall O dbg0 dbg (cfg : config O) d s sizes bounds sched gradients St leaf_value oob t (st st' : St), setting dbg0 cfg d s sizes sched ->
  train dbg cfg s sizes bounds sched St leaf_value oob gradients st = Ok (t, st') ->
  exists rows (gs : list (group O)) others st1, example_rows s = Ok rows /\
    NoDup (map g_leaf gs) /\ (forall m, leaf_node t m <-> In m (map g_leaf gs)) /\
    Permutation (concat (map g_examples gs)) rows /\ NoDup (concat (map g_examples gs)) /\
    (forall g, In g gs -> node_value t (g_leaf g) = Ok (g_value g) /\ g_examples g <> [] /\ nisfin O (g_value g) = true) /\
    leaf_calls leaf_value gs st st1 /\ oob_calls oob others st1 st' /\
    (example_sampling_enabled s = false -> others = []) /\
    (example_sampling_enabled s = true -> increasing (map fst others) /\ (forall j, In j (map fst others) <-> j < d_nexamples d /\ ~ In j rows) /\ forall i v, In (i, v) others -> predict_single t d i = Ok v).
Proof.
  intros O dbg0 dbg cfg d s sizes bounds sched gradients St leaf_value oob t st st' (HR & Hsz & Hsch & Hsm) E.
  destruct (train_ok O dbg0 dbg cfg d s sizes bounds sched gradients St leaf_value oob HR Hsz Hsch Hsm t st st' E) as (rows & W & gs & st1 & Hrows & HOK & HC & HO).
  assert (Hmap : concat (map g_examples (map (to_rows O rows) gs)) = map (fun k => nth k rows 0) (concat (map g_examples gs))).
  { rewrite concat_map, !map_map. reflexivity. }
  assert (Permutation (concat (map g_examples (map (to_rows O rows) gs))) rows) as HP.
  { rewrite Hmap. pose proof (lo_perm _ _ _ _ _ _ _ _ _ _ _ _ HOK) as HP. cbn [map concat app] in HP. etransitivity; [apply Permutation_map, HP|]. rewrite <- (rows_length O s rows Hrows).
    clear. assert (map (fun k => nth k rows 0) (seq 0 (length rows)) = rows) as ->; [|reflexivity]. induction rows as [|x l IH]; [reflexivity|]. cbn [length seq map nth]. f_equal. rewrite <- seq_shift, map_map. exact IH. }
  destruct (oob_part _ _ _ _ _ _ _ _ _ _ _ HR Hrows HO) as (others & Ho & Ho1 & Ho2).
  exists rows, (map (to_rows O rows) gs), others, st1. split; [exact Hrows|].
  assert (map g_leaf (map (to_rows O rows) gs) = map g_leaf gs) as Hg by (rewrite map_map; reflexivity). rewrite Hg.
  split; [exact (lo_ids _ _ _ _ _ _ _ _ _ _ _ _ HOK)|]. split; [exact (lo_leaf _ _ _ _ _ _ _ _ _ _ _ _ HOK)|]. split; [exact HP|]. split; [eapply Permutation_NoDup; [symmetry; exact HP|eapply rows_nodup; eassumption]|].
  split; [|split; [exact HC|split; [exact Ho|split; [exact Ho1|exact Ho2]]]].
  intros g Hin. apply in_map_iff in Hin as (g0 & <- & Hin). destruct (lo_val _ _ _ _ _ _ _ _ _ _ _ _ HOK g0 Hin) as (H1 & H2 & H3). split; [exact H1|]. split; [|exact H3].
  cbn [to_rows g_examples fst snd]. intros Hc. apply H2. destruct (g_examples g0); [reflexivity|discriminate].
Qed.
Print Assumptions C26_leaves.

(** The leaf of an active example is the leaf prediction finds for it, if at every split training and prediction route alike (C24). *)
Lemma routed O dbg0 dbg (cfg : config O) d s sizes bounds sched gradients St leaf_value oob t (st st' : St) : setting dbg0 cfg d s sizes sched ->
  0 < d_nexamples d -> 0 < c_sample_freq cfg -> 0 < ds_update_count s -> length gradients = d_nexamples d ->
  (0 < length (d_features d) /\ d_nfeatures d <= length (d_features d) /\ forall col, In col (d_features d) -> length col = d_nexamples d) ->
  (forall fs f ex nb b x c, active_features s = Ok fs -> In f fs -> mask_examples d s = Ok ex -> t_supercats t = get_supercats s -> get_nbins s f = Ok nb -> b < nb -> ds_get_bitvec s f b = Ok x -> split_on s f b c ->
    ((1 <= c_min_examples_leaf cfg)%N -> exists i j, nth_error ex i = Some j /\ bbit x i = false) -> routes_alike s t c x ex) ->
  train dbg cfg s sizes bounds sched St leaf_value oob gradients st = Ok (t, st') ->
  exists rows (gs : list (group O)) others st1, example_rows s = Ok rows /\ Permutation (concat (map g_examples gs)) rows /\ leaf_calls leaf_value gs st st1 /\ oob_calls oob others st1 st' /\
    (example_sampling_enabled s = false -> others = []) /\
    (example_sampling_enabled s = true -> increasing (map fst others) /\ (forall j, In j (map fst others) <-> j < d_nexamples d /\ ~ In j rows) /\ forall i v, In (i, v) others -> predict_single t d i = Ok v) /\
    (forall j, In j rows -> j < d_nexamples d) /\
    forall g j, In g gs -> In j (g_examples g) -> predict_leaf_id t d j = Ok (g_leaf g) /\ predict_single t d j = Ok (nmul O (nofZ O 1) (nadd O (g_value g) (nofZ O 0))).
Proof.
  intros (HR & Hsz & Hsch & Hsm) Hn Hfr Hcnt Hlg Hcols Hroute E.
  destruct (train_ok O dbg0 dbg cfg d s sizes bounds sched gradients St leaf_value oob HR Hsz Hsch Hsm t st st' E) as (rows & W & gs & st1 & Hrows & HOK & HC & HO).
  destruct (oob_part _ _ _ _ _ _ _ _ _ _ _ HR Hrows HO) as (others & Ho & Ho1 & Ho2).
  assert (Hlt : forall j, In j rows -> j < d_nexamples d).
  { unfold train in E. apply rbind_ok in E as (t0 & _ & E). apply rbind_ok in E as (root & Er & _).
    destruct (grown_pre _ dbg0 dbg _ _ _ _ _ _ _ HR Hsz Hsch Hsm root (grown_root _ _ _ _ _ _ _ _ Er)) as (_ & _ & _ & rows' & Hrows' & Hl). rewrite Hrows in Hrows'. injection Hrows' as <-. rewrite <- Hlg. exact Hl. }
  exists rows, (map (to_rows O rows) gs), others, st1. split; [exact Hrows|]. split; [|split; [exact HC|split; [exact Ho|split; [exact Ho1|split; [exact Ho2|split; [exact Hlt|]]]]]].
  { assert (concat (map g_examples (map (to_rows O rows) gs)) = map (fun k => nth k rows 0) (concat (map g_examples gs))) as -> by (rewrite concat_map, !map_map; reflexivity).
    pose proof (lo_perm _ _ _ _ _ _ _ _ _ _ _ _ HOK) as HP. cbn [map concat app] in HP. etransitivity; [apply Permutation_map, HP|]. rewrite <- (rows_length O s rows Hrows).
    clear. assert (map (fun k => nth k rows 0) (seq 0 (length rows)) = rows) as ->; [|reflexivity]. induction rows as [|x l IH]; [reflexivity|]. cbn [length seq map nth]. f_equal. rewrite <- seq_shift, map_map. exact IH. }
  assert (forall k j, nth_error rows k = Some j -> exists ex, mask_examples d s = Ok ex /\ nth_error ex k = Some j) as Hmask.
  { intros k j Hk. pose proof (Hlt j (nth_error_In _ _ Hk)) as Hj. unfold mask_examples. unfold example_rows in Hrows. destruct (example_sampling_enabled s); [exists rows; auto|]. exists (seq 0 (d_nexamples d)). split; [reflexivity|].
    injection Hrows as <-. assert (k < nactive_examples s) as Hkl by (rewrite <- (seq_length (nactive_examples s) 0); apply nth_error_Some; congruence).
    assert (j = k) as -> by (apply (nth_error_nth _ _ 0) in Hk; rewrite seq_nth in Hk by exact Hkl; lia). rewrite nth_error_nth' with (d := 0) by (rewrite seq_length; exact Hj). rewrite seq_nth by exact Hj. reflexivity. }
  assert (Hcrit : forall m c, nth_error (t_crits t) m = Some c -> c = no_split O \/ split_mask s c (W m)).
  { intros m c Hc. destruct (lo_crit _ _ _ _ _ _ _ _ _ _ _ _ HOK m c Hc) as [H|[H _]]; auto. }
  destruct (lo_sup _ _ _ _ _ _ _ _ _ _ _ _ HOK) as (Hsup & Hshr & Hbias).
  intros g j Hg Hj. apply in_map_iff in Hg as (g0 & <- & Hg). cbn [to_rows g_examples g_leaf g_value fst snd] in *. apply in_map_iff in Hj as (k & Hkj & Hk).
  assert (k < nactive_examples s) as Hkn.
  { assert (In k (seq 0 (nactive_examples s))) as Hin; [|apply in_seq in Hin; lia]. eapply Permutation_in; [exact (lo_perm _ _ _ _ _ _ _ _ _ _ _ _ HOK)|]. cbn [map concat app].
    apply in_concat. exists (g_examples g0). split; [apply in_map, Hg|exact Hk]. }
  assert (nth_error rows k = Some j) as Ekj.
  { rewrite <- Hkj. apply nth_error_nth'. rewrite (rows_length O s rows Hrows). exact Hkn. }
  pose proof (Hlt j (nth_error_In _ _ Ekj)) as Hjn. destruct (lo_val _ _ _ _ _ _ _ _ _ _ _ _ HOK g0 Hg) as (Hval & _).
  assert (predict_leaf_id t d j = Ok (g_leaf g0)) as Hp.
  { apply (sent_predicted O dbg0 cfg d s (c_max_tree_depth cfg) HR Hn Hcols t W k j (g_leaf g0) (lo_tinv _ _ _ _ _ _ _ _ _ _ _ _ HOK) Hjn Hsup Hcrit).
    - intros m c col v (c' & Ec' & Hty) Ec Ecol Ev. rewrite Ec in Ec'. injection Ec' as <-. destruct (lo_crit _ _ _ _ _ _ _ _ _ _ _ _ HOK m c Ec) as [->|((b & (fs & nb & Hfs & Hin & Hnb & Hb) & Hso & Ex) & Hne)]; [destruct Hty; reflexivity|].
      destruct (Hmask k j Ekj) as (ex & Eex & Ek).
      refine (Hroute fs _ ex nb b (W m) c Hfs Hin Eex Hsup Hnb Hb Ex Hso _ k j col v Ek _ Ev).
      + intros Hmin. destruct (Hne Hmin) as (k1 & k2 & _ & Hk2 & _ & Hb2). destruct (nth_error rows k2) as [j2|] eqn:Ej2; [|apply nth_error_None in Ej2; rewrite (rows_length O s rows Hrows) in Ej2; lia].
        exists k2, j2. split; [|exact Hb2]. destruct (Hmask k2 j2 Ej2) as (ex' & Eex' & E2). rewrite Eex in Eex'. injection Eex' as <-. exact E2.
      + rewrite (dv_data _ _ _ _ (ds_inv _ _ _ _ (reachable_ok _ _ _ _ _ HR))). exact Ecol.
    - apply (lo_sent _ _ _ _ _ _ _ _ _ _ _ _ HOK). right. exists g0. auto.
    - apply (lo_leaf _ _ _ _ _ _ _ _ _ _ _ _ HOK). apply in_or_app. right. apply in_map, Hg. }
  split; [exact Hp|]. unfold predict_single. rewrite Hp. cbn [rbind]. unfold node_value in Hval. rewrite Hval. cbn [rbind]. rewrite Hshr, Hbias. reflexivity.
Qed.

Lemma nbins_max O dbg (cfg : config O) d s fs f nb : reachable dbg cfg d s -> active_features s = Ok fs -> In f fs -> get_nbins s f = Ok nb -> exists m, max_nbins d f = Ok m /\ nb <= m.
Proof.
  intros HR Hfs Hin Enb. pose proof (ds_inv _ _ _ _ (reachable_ok _ _ _ _ _ HR)) as Hi. destruct (C27_active_features _ _ _ _ _ _ HR Hfs) as (_ & Hu & _). rewrite Forall_forall in Hu. pose proof (Hu f Hin) as Hf.
  pose proof (proj2 (dv_useful _ _ _ _ Hi f) Hf) as Hf'. unfold get_nbins in Enb. apply idx_ok in Enb. destruct Hf as (Hlt & _). rewrite <- (dv_lbv _ _ _ _ Hi) in Hlt.
  destruct (nth_error (in_bitvecs (ds_inner s)) f) as [bvs|] eqn:Eb; [|apply nth_error_None in Eb; lia]. exists (length bvs). split; [apply (dv_bvs _ _ _ _ Hi f bvs Hf' Eb)|]. exact (dv_used _ _ _ _ Hi f nb bvs Hf' Enb Eb).
Qed.

(** What the program computes: if all features are categorical, every active example is predicted to be in the leaf that got it in training. *)
Theorem C26_predicted_categorical : forall dbg0 dbg (cfg : config f32ops) d s sizes bounds sched gradients St leaf_value oob t (st st' : St), setting dbg0 cfg d s sizes sched ->
  0 < d_nexamples d -> 0 < c_sample_freq cfg -> 0 < ds_update_count s -> length gradients = d_nexamples d ->
  (0 < length (d_features d) /\ d_nfeatures d <= length (d_features d) /\ forall col, In col (d_features d) -> length col = d_nexamples d) ->
  (forall f ft, f < d_nfeatures d -> feat_type_of d f = Ok ft -> ft <> Numerical) ->
  (forall f col v, f < d_nfeatures d -> get_feature d f = Ok col -> In v col -> valid_category v) ->
  (forall f nb, max_nbins d f = Ok nb -> (Z.of_nat nb <= 2 ^ 24)%Z) ->
  train dbg cfg s sizes bounds sched St leaf_value oob gradients st = Ok (t, st') ->
  exists rows (gs : list (group f32ops)) others st1, example_rows s = Ok rows /\ Permutation (concat (map g_examples gs)) rows /\ leaf_calls leaf_value gs st st1 /\ oob_calls oob others st1 st' /\
    (example_sampling_enabled s = false -> others = []) /\
    (example_sampling_enabled s = true -> increasing (map fst others) /\ (forall j, In j (map fst others) <-> j < d_nexamples d /\ ~ In j rows) /\ forall i v, In (i, v) others -> predict_single t d i = Ok v) /\
    (forall j, In j rows -> j < d_nexamples d) /\
    forall g j, In g gs -> In j (g_examples g) -> predict_leaf_id t d j = Ok (g_leaf g) /\ predict_single t d j = Ok (nmul f32ops (nofZ f32ops 1) (nadd f32ops (g_value g) (nofZ f32ops 0))).
Proof.
  intros dbg0 dbg cfg d s sizes bounds sched gradients St leaf_value oob t st st' HS Hn Hfr Hcnt Hlg Hcols Hft Hval Hnb E. pose proof HS as (HR & _).
  eapply routed; try eassumption. intros fs f ex nb b x c Hfs Hin Hex Hsup Enb Hb Ex Hso _.
  destruct (C27_active_features _ _ _ _ _ _ HR Hfs) as (_ & Hu & _). rewrite Forall_forall in Hu. destruct (Hu f Hin) as (Hf & _).
  destruct (nbins_max _ _ _ _ _ _ _ _ HR Hfs Hin Enb) as (mx & Emx & Hmx). specialize (Hnb f mx Emx). assert ((Z.of_nat nb <= 2 ^ 24)%Z) as Hnb' by lia.
  eapply (C24_categorical dbg0 cfg d s t fs f ex nb b x c); eauto.
  pose proof Hso as (_ & _ & ft & Eft & _). rewrite (dv_data _ _ _ _ (ds_inv _ _ _ _ (reachable_ok _ _ _ _ _ HR))) in Eft. specialize (Hft f ft Hf Eft). destruct ft; [auto|auto|congruence].
Qed.
Print Assumptions C26_predicted_categorical.

(** In exact arithmetic, for features of any kind, if every leaf keeps at least one example. *)
Theorem C26_predicted_exact : forall dbg0 dbg (cfg : config Rops) d s sizes bounds sched gradients St leaf_value oob t (st st' : St), setting dbg0 cfg d s sizes sched ->
  0 < d_nexamples d -> 0 < c_sample_freq cfg -> 0 < ds_update_count s -> length gradients = d_nexamples d -> (1 <= c_min_examples_leaf cfg)%N ->
  (0 < length (d_features d) /\ d_nfeatures d <= length (d_features d) /\ forall col, In col (d_features d) -> length col = d_nexamples d) ->
  (forall f col v, feat_type_of d f <> Ok Numerical -> get_feature d f = Ok col -> In v col -> category_R v) ->
  (forall f nb, max_nbins d f = Ok nb -> (Z.of_nat nb <= 2 ^ 32)%Z) ->
  train dbg cfg s sizes bounds sched St leaf_value oob gradients st = Ok (t, st') ->
  exists rows (gs : list (group Rops)) others st1, example_rows s = Ok rows /\ Permutation (concat (map g_examples gs)) rows /\ leaf_calls leaf_value gs st st1 /\ oob_calls oob others st1 st' /\
    (example_sampling_enabled s = false -> others = []) /\
    (example_sampling_enabled s = true -> increasing (map fst others) /\ (forall j, In j (map fst others) <-> j < d_nexamples d /\ ~ In j rows) /\ forall i v, In (i, v) others -> predict_single t d i = Ok v) /\
    (forall j, In j rows -> j < d_nexamples d) /\
    forall g j, In g gs -> In j (g_examples g) -> predict_leaf_id t d j = Ok (g_leaf g) /\ predict_single t d j = Ok (g_value g).
Proof.
  intros dbg0 dbg cfg d s sizes bounds sched gradients St leaf_value oob t st st' HS Hn Hfr Hcnt Hlg Hmin Hcols Hval Hnb E. pose proof HS as (HR & _).
  edestruct (routed Rops dbg0 dbg cfg d s sizes bounds sched gradients St leaf_value oob t st st') as (rows & gs & others & st1 & H1 & H2 & H3 & Ho & Ho1 & Ho2 & Hlt & H4); try eassumption.
  - intros fs f ex nb b x c Hfs Hin Hex Hsup Enb Hb Ex Hso Hne. pose proof Hso as (_ & _ & ft & Eft & _). rewrite (dv_data _ _ _ _ (ds_inv _ _ _ _ (reachable_ok _ _ _ _ _ HR))) in Eft.
    destruct (nbins_max _ _ _ _ _ _ _ _ HR Hfs Hin Enb) as (mx & Emx & Hmx). specialize (Hnb f mx Emx). assert ((Z.of_nat nb <= 2 ^ 32)%Z) as Hnb' by lia.
    destruct ft.
    1,2: eapply (C24_categorical_exact dbg0 cfg d s t fs f ex nb b x c); eauto; intros col v; apply Hval; congruence.
    eapply (C24_numerical dbg0 cfg d s t fs f ex nb b x c); eauto.
  - exists rows, gs, others, st1. split; [exact H1|]. split; [exact H2|]. split; [exact H3|]. split; [exact Ho|]. split; [exact Ho1|]. split; [exact Ho2|]. split; [exact Hlt|]. intros g j Hg Hj. destruct (H4 g j Hg Hj) as [Hp ->]. split; [exact Hp|]. f_equal. cbn [Rops num nmul nadd nofZ]. ring.
Qed.
Print Assumptions C26_predicted_exact.

(* ---- C43 ---- *)

(** The size of the tree: [d] levels of splits, at most 2^d leaves; every node is at depth at most [d]. *)
Theorem C43_size : forall O dbg0 dbg (cfg : config O) d s sizes bounds sched gradients St leaf_value oob t (st st' : St), setting dbg0 cfg d s sizes sched ->
  train dbg cfg s sizes bounds sched St leaf_value oob gradients st = Ok (t, st') ->
  has_count (leaf_node t) (nleafs t) /\ nleafs t <= 2 ^ c_max_tree_depth cfg /\ has_count (inner_node t) (ninternal t) /\
  (forall k m, tree_node t k m -> k <= c_max_tree_depth cfg) /\
  (* no more leaves than active examples *) nleafs t <= nactive_examples s.
Proof.
  intros O dbg0 dbg cfg d s sizes bounds sched gradients St leaf_value oob t st st' HS E. pose proof HS as (HR & Hsz & Hsch & Hsm).
  destruct (train_ok O dbg0 dbg cfg d s sizes bounds sched gradients St leaf_value oob HR Hsz Hsch Hsm t st st' E) as (rows & W & gs & st1 & Hrows & HOK & _).
  pose proof (lo_tinv _ _ _ _ _ _ _ _ _ _ _ _ HOK) as HT. pose proof (lo_ginv _ _ _ _ _ _ _ _ _ _ _ _ HOK) as HG. pose proof (ninternal_bound O _ t HT HG) as HB.
  assert (2 ^ c_max_tree_depth cfg <> 0) as Hpz by (apply Nat.pow_nonzero; lia).
  split; [apply (gi_leaf O t HG)|]. split; [unfold nleafs; lia|]. split; [apply (gi_inner O t HG)|]. split; [intros k m; apply (tree_node_max O _ t k m HT)|].
  destruct (gi_leaf O t HG) as (l & L1 & L2 & L3). unfold nleafs. rewrite <- L3. transitivity (length gs).
  - rewrite <- (map_length g_leaf gs). apply NoDup_incl_length; [exact L1|]. intros m Hm. apply (lo_leaf _ _ _ _ _ _ _ _ _ _ _ _ HOK), L2, Hm.
  - pose proof (lo_perm _ _ _ _ _ _ _ _ _ _ _ _ HOK) as HP. cbn [map concat app] in HP. apply Permutation_length in HP. rewrite seq_length in HP. rewrite <- HP.
    assert (forall g, In g gs -> g_examples g <> []) as Hne by (intros g Hg; apply (lo_val _ _ _ _ _ _ _ _ _ _ _ _ HOK g Hg)). clear -Hne. induction gs as [|g gs IH]; [apply le_n|]. cbn [map concat]. rewrite app_length.
    specialize (IH (fun g' H => Hne g' (or_intror H))). pose proof (Hne g (or_introl eq_refl)) as Hg. destruct (g_examples g); [congruence|]. cbn [length]. lia.
Qed.
Print Assumptions C43_size.

(** The loop ends after at most 2^(d+1) nodes: with more fuel it does the same. *)
Theorem C43_terminates : forall O dbg0 dbg (cfg : config O) d s sizes bounds sched gradients St leaf_value t root (st : St) k, setting dbg0 cfg d s sizes sched ->
  tree_new O (c_max_tree_depth cfg) (get_supercats s) = Ok t -> get_root_n2s cfg s sizes bounds sched gradients = Ok root ->
  train_loop dbg cfg s sizes bounds sched St leaf_value (2 ^ (c_max_tree_depth cfg + 1) + k) [root] t st = train_loop dbg cfg s sizes bounds sched St leaf_value (2 ^ (c_max_tree_depth cfg + 1)) [root] t st.
Proof.
  intros O dbg0 dbg cfg d s sizes bounds sched gradients St leaf_value t root st k (HR & Hsz & Hsch & Hsm) Et Er.
  exact (train_fuel O dbg0 dbg cfg d s sizes bounds sched gradients St leaf_value (fun _ _ st => Ok st) HR Hsz Hsch Hsm t root st k Et Er).
Qed.
Print Assumptions C43_terminates.

(** Training succeeds: neither a panic nor an undefined access, for every order of the jobs.  The conditions: at least one active example, no more gradients needed than given, at least one histogram bin, a supported
    number of bits, a positive depth, at least one example per leaf; and an objective that, in states with a property [I] it keeps, answers for non-empty lists of active examples with finite values (with a property [V]) and accepts out-of-bag
    predictions made from them.  The tree's predictions are made from such values. *)
Theorem C43_total : forall O dbg0 dbg (cfg : config O) d s sizes bounds sched gradients St leaf_value oob rows fs (I : St -> Prop) (V : num O -> Prop) (st : St), setting dbg0 cfg d s sizes sched ->
  (0 < length (d_features d) /\ d_nfeatures d <= length (d_features d) /\ forall col, In col (d_features d) -> length col = d_nexamples d) ->
  active_features s = Ok fs -> example_rows s = Ok rows -> (forall j, In j rows -> j < length gradients) -> 0 < d_nexamples d -> 0 < nactive_examples s -> 0 < list_sum sizes ->
  valid_width (c_discr_nbits cfg) = true -> 0 < c_max_tree_depth cfg -> (1 <= c_min_examples_leaf cfg)%N ->
  I st -> (forall ex st, I st -> ex <> [] -> (forall j, In j ex -> In j rows) -> exists v st', leaf_value ex st = Ok (v, st') /\ nisfin O v = true /\ V v /\ I st') ->
  (forall i v st, I st -> i < d_nexamples d -> V v -> exists st', oob i (nmul O (nofZ O 1) (nadd O v (nofZ O 0))) st = Ok st' /\ I st') ->
  exists t st', train dbg cfg s sizes bounds sched St leaf_value oob gradients st = Ok (t, st') /\ I st' /\
    forall i, i < d_nexamples d -> exists v, V v /\ predict_single t d i = Ok (nmul O (nofZ O 1) (nadd O v (nofZ O 0))).
Proof.
  intros O dbg0 dbg cfg d s sizes bounds sched gradients St leaf_value oob rows fs I V st (HR & Hsz & Hsch & Hsm) Hcols Hfs Hrows Hg Hn Hact Hsum Hw HD Hmin HI Hlv Ho.
  eapply train_total; try eassumption. intros Es. unfold example_rows in Hrows. rewrite Es in Hrows. destruct (C28_inactive _ _ _ _ _ _ HR Es Hrows) as (is & Eis & _ & I2). exists is. split; [exact Eis|]. intros i Hi. apply I2, Hi.
Qed.
Print Assumptions C43_total.

(* ---- examples ---- *)

(** An objective that answers with the number of examples and records what it is asked and told. *)
Definition rec_leaf (ex : list nat) (st : list (list nat)) : res (num f32ops * list (list nat)) := Ok (fz (Z.of_nat (length ex)), st ++ [ex]).
Definition rec_oob (i : nat) (v : num f32ops) (st : list (list nat)) : res (list (list nat)) := Ok (st ++ [[100 + i]]).
Lemma train_ex dbg cfg d us (P : dataset f32ops -> list nat -> Prop) :
  match (let* s0 := dataset_new cfg d ex_rng in let* s := ds_run dbg cfg us s0 in let* sizes := hist_sizes d in Ok (s, sizes)) with
  | Ok (s, sizes) => (N.of_nat (nactive_examples s) <=? 2 ^ 31)%N = true /\ P s sizes
  | _ => False
  end ->
  exists s sizes, setting dbg cfg d s sizes rev_sched /\ P s sizes.
Proof.
  destruct (dataset_new cfg d ex_rng) as [s0| | |] eqn:E0; cbn [rbind]; [|intros []..].
  destruct (ds_run dbg cfg us s0) as [s| | |] eqn:E1; cbn [rbind]; [|intros []..]. destruct (hist_sizes d) as [sizes| | |] eqn:E2; cbn [rbind]; [|intros []..].
  intros [H1 HP]. exists s, sizes. split; [|exact HP]. split; [exists ex_rng, us, s0; auto|]. split; [exact E2|]. split; [exact rev_sched_perm|]. apply N.leb_le, H1.
Qed.
(** The hypotheses of C26_leaves, C43_size and C43_total: two of four examples are active (rows 2 and 3). *)
Example C26_ex : exists s sizes, setting true (ex_cfg f_half) ex_data s sizes rev_sched /\
  (0 < ds_update_count s /\ example_rows s = Ok [2; 3] /\ active_features s = Ok [0; 1; 2; 3] /\ 0 < list_sum sizes /\
   match train true (ex_cfg f_half) s sizes (fz (-2), fz 2) rev_sched _ rec_leaf rec_oob ex_grad [] with
   | Ok (t, calls) => nleafs t = 2 /\ calls = [[3]; [2]; [100]; [101]]
   | _ => False
   end).
Proof. apply (train_ex true (ex_cfg f_half) ex_data (ex_updates 1)). vm_compute. repeat split; lia. Qed.
(** The hypotheses of C26_predicted_categorical. *)
Example C26_categorical_ex : exists s sizes, setting false ref_cfg ref_data s sizes rev_sched /\
  (0 < ds_update_count s /\ match train false ref_cfg s sizes (fz (-2), fz 2) rev_sched _ rec_leaf rec_oob ref_grad [] with
   | Ok (t, calls) => nleafs t = 2 /\ calls = [[0; 1; 2]; [3; 4; 5]] /\ map (predict_leaf_id t ref_data) (seq 0 6) = [Ok 1; Ok 1; Ok 1; Ok 2; Ok 2; Ok 2]
   | _ => False
   end).
Proof. apply (train_ex false ref_cfg ref_data [(ref_grad, (fz (-2), fz 2))]). vm_compute. repeat split; lia. Qed.

(** Without a positive [min_examples_leaf] training can panic: with [min_examples_leaf] 0 and a negative [min_gain] a split that leaves no example on one side is chosen.
    All the other hypotheses of C43_total hold. *)
Definition panics {A} (r : res A) : Prop := match r with Panic => True | _ => False end.
Definition min0_cfg : config f32ops :=
  @mk_config f32ops String.EmptyString String.EmptyString String.EmptyString [] 1%N true 44%N [0] 1 (fz 1) (fz 1) 0%N (fz (-1)) (fz 1) 4 2 1 (fz 1) (fz 1) 1%N (fz 1) (fz 1) 1.
Definition min0_data : data f32ops :=
  @mk_data f32ops 4 1 4 [[fz 0; fz 2; fz 0; fz 2]; [fz 1; fz 1; fz 1; fz 1]] [(fz 0, fz 2); (fz 1, fz 1)] [LoCardCat; Numerical] [3; 0].
Definition min0_grad : list (num f32ops) := [fz 2; fz 2; fz 2; fz 2].
Theorem C43_min_examples_zero_refuted : exists s sizes, setting true min0_cfg min0_data s sizes rev_sched /\
  (active_features s = Ok [0] /\ example_rows s = Ok [0; 1; 2; 3] /\ sizes = [3] /\
   panics (train true min0_cfg s sizes (fz (-2), fz 2) rev_sched _ rec_leaf rec_oob min0_grad []) /\
   panics (train false min0_cfg s sizes (fz (-2), fz 2) rev_sched _ rec_leaf rec_oob min0_grad [])).
Proof. apply (train_ex true min0_cfg min0_data [(min0_grad, (fz (-2), fz 2))]). vm_compute. repeat split. Qed.
Print Assumptions C43_min_examples_zero_refuted.
