(** Tables with extra constant columns: the data set (continued). *)
From Coq Require Import Permutation Sorted.
From Verif Require Import Base BaseProofs BitModel Num DataModel BinnerModel Config TreeModel DatasetModel DatasetSpec AlikeProofs ColSpec ColProofs ColProofs2 WideSpec WideProofs.

Section Dataset.
Variable O : numops.
Variable dbg : bool.
Variable cfg : config O.
Variable p : nat -> nat.
Variables d d' : data O.
Hypothesis HW : wider p d d'.
Hypothesis HX : extra_constant p d d'.
Hypothesis HC : same_columns p d d'.
Notation nf := (d_nfeatures d).
Notation nf' := (d_nfeatures d').
Let Hm : forall f g, f < g -> p f < p g := proj1 HW.
Let Hr : forall f, f < nf -> p f < nf' := proj1 (proj2 HW).
Notation wl := (wl p nf nf').

Lemma w_ne : d_nexamples d' = d_nexamples d. Proof. apply HW. Qed.
Lemma w_feature f : f < nf -> get_feature d' (p f) = get_feature d f. Proof. intros H. apply HW, H. Qed.
Lemma w_limits f : f < nf -> feat_limits d' (p f) = feat_limits d f. Proof. intros H. apply HC, H. Qed.
Lemma w_type f : f < nf -> feat_type_of d' (p f) = feat_type_of d f. Proof. intros H. apply HC, H. Qed.
Lemma w_card f : f < nf -> feat_card d' (p f) = feat_card d f. Proof. intros H. apply HC, H. Qed.
Lemma w_max f : f < nf -> max_nbins d' (p f) = max_nbins d f.
Proof. intros H. unfold max_nbins. rewrite w_type, w_card by exact H. rewrite (proj1 HC). reflexivity. Qed.

Record win (i i' : inner O) : Prop := {
  wi_rng : in_rng i' = in_rng i; wi_data : in_data i = d; wi_data' : in_data i' = d'; wi_nf : in_nactive_features i' = in_nactive_features i; wi_ne : in_nactive_examples i' = in_nactive_examples i;
  wi_nl : in_has_non_locard i' = in_has_non_locard i; wi_useful : in_useful i' = map p (in_useful i); wi_lt : forall f, In f (in_useful i) -> f < nf;
  wi_bv : wl (in_bitvecs i) (in_bitvecs i'); wi_sc : wl (in_supercats i) (in_supercats i'); wi_sp : wl (in_split_candidates i) (in_split_candidates i'); wi_nb : wl (in_used_nbins i) (in_used_nbins i') }.
Lemma win_cell i i' f : win i i' -> f < nf -> get_cell i' (p f) = get_cell i f.
Proof. intros H Hf. unfold get_cell. rewrite (wl_nth _ _ _ _ _ _ _ (wi_bv _ _ H) Hf), (wl_nth _ _ _ _ _ _ _ (wi_sc _ _ H) Hf), (wl_nth _ _ _ _ _ _ _ (wi_sp _ _ H) Hf), (wl_nth _ _ _ _ _ _ _ (wi_nb _ _ H) Hf). reflexivity. Qed.
Lemma win_set i i' f c : win i i' -> f < nf -> win (set_cell i f c) (set_cell i' (p f) c).
Proof. intros [] Hf. constructor; cbn; try assumption; apply wl_put; assumption. Qed.
Lemma wcell_same nact locard ex grad bounds f c : f < nf -> feat_cell O dbg cfg d' nact locard ex grad bounds (p f) c = feat_cell O dbg cfg d nact locard ex grad bounds f c.
Proof.
  intros H. unfold feat_cell. rewrite w_type by exact H. destruct (feat_type_of d f) as [[| |]| | |]; cbn [rbind]; try reflexivity.
  - unfold locard_cell. rewrite w_feature, w_max by exact H. reflexivity.
  - unfold hicard_cell. rewrite w_feature, w_card by exact H. reflexivity.
  - unfold num_cell. rewrite w_feature, w_limits by exact H. reflexivity.
Qed.
Lemma update_one locard ex grad bounds i k : update_feature dbg cfg locard ex grad bounds i k = let* f := idx (in_useful i) k in cell_step (feat_cell O dbg cfg (in_data i) (in_nactive_examples i) locard ex grad bounds) i f.
Proof.
  unfold update_feature, cell_step, feat_cell. destruct (idx (in_useful i) k) as [f| | |]; cbn [rbind]; try reflexivity. destruct (feat_type_of (in_data i) f) as [[| |]| | |]; cbn [rbind]; try reflexivity.
  - destruct locard; [apply locard_is|]. unfold rmap. cbn [rbind]. rewrite cell_id. reflexivity.
  - apply hicard_is.
  - apply num_is.
Qed.
Lemma step_sim (F F' : nat -> cell O -> res (cell O)) f i i' r : (forall c, F' (p f) c = F f c) -> f < nf -> win i i' -> cell_step F i f = Ok r -> exists r', cell_step F' i' (p f) = Ok r' /\ win r r'.
Proof.
  intros HF Hf H E. unfold cell_step, rmap in *. apply rbind_ok in E as (c & Ec & E). apply Ok_eq in E. subst r. rewrite HF, (win_cell _ _ _ H Hf), Ec. cbn [rbind]. eexists. split; [reflexivity|]. apply win_set; assumption.
Qed.
Lemma wupdate_all locard ex grad bounds l : forall i i' r, win i i' -> foldM (update_feature dbg cfg locard ex grad bounds) l i = Ok r -> exists r', foldM (update_feature dbg cfg locard ex grad bounds) l i' = Ok r' /\ win r r'.
Proof.
  induction l as [|k l IH]; intros i i' r H E; cbn [foldM] in *; [apply Ok_eq in E; subst; eauto|]. apply rbind_ok in E as (i1 & E1 & E). rewrite update_one in *. apply rbind_ok in E1 as (f & Ef & E1). rewrite (wi_useful _ _ H), idx_map, Ef. unfold rmap. cbn [rbind].
  assert (f < nf) as Hf by (apply (wi_lt _ _ H); apply idx_ok in Ef; eapply nth_error_In, Ef). rewrite (wi_data' _ _ H), (wi_ne _ _ H). rewrite (wi_data _ _ H) in E1.
  destruct (step_sim _ (feat_cell O dbg cfg d' (in_nactive_examples i) locard ex grad bounds) _ _ _ _ (fun c => wcell_same _ _ _ _ _ _ c Hf) Hf H E1) as (i1' & -> & H1). cbn [rbind]. eapply IH; eassumption.
Qed.
Lemma wcells_sim (F F' : nat -> cell O -> res (cell O)) l : (forall f c, f < nf -> F' (p f) c = F f c) -> (forall f, In f l -> f < nf) -> forall i i' r, win i i' -> foldM (cell_step F) l i = Ok r -> exists r', foldM (cell_step F') (map p l) i' = Ok r' /\ win r r'.
Proof.
  intros HF. induction l as [|f l IH]; intros HL i i' r H E; cbn [foldM map] in *; [apply Ok_eq in E; subst; eauto|]. apply rbind_ok in E as (i1 & E1 & E). assert (f < nf) as Hf by (apply HL; left; reflexivity).
  destruct (step_sim _ F' _ _ _ _ (fun c => HF f c Hf) Hf H E1) as (i1' & -> & H1). cbn [rbind]. eapply IH; [intros; apply HL; right; assumption|exact H1|exact E].
Qed.

(** A fresh data set. *)
Lemma wuseful_sim nact l : (forall f, In f l -> f < nf) -> forall u bv b bv' r, wl bv bv' -> foldM (useful_step d nact) l (u, bv, b) = Ok r ->
  exists bv2', foldM (useful_step d' nact) (map p l) (map p u, bv', b) = Ok (map p (fst (fst r)), bv2', snd r) /\ wl (snd (fst r)) bv2'.
Proof.
  induction l as [|f l IH]; intros HL u bv b bv' r H E; cbn [foldM map] in *; [apply Ok_eq in E; subst; cbn; eauto|]. apply rbind_ok in E as (s1 & E1 & E). assert (f < nf) as Hf by (apply HL; left; reflexivity). assert (forall g, In g l -> g < nf) as HL' by (intros; apply HL; right; assumption).
  unfold useful_step at 1. unfold useful_step in E1 at 1. rewrite w_max, w_limits, w_type by exact Hf. apply rbind_ok in E1 as (nb & -> & E1). cbn [rbind].
  destruct (nb =? 0); [apply Ok_eq in E1; subst s1; cbn [rbind]; eapply IH; eassumption|]. apply rbind_ok in E1 as (lim & -> & E1). cbn [rbind]. destruct (neq O (fst lim) (snd lim)); [apply Ok_eq in E1; subst s1; cbn [rbind]; eapply IH; eassumption|].
  apply rbind_ok in E1 as (ft & -> & E1). cbn [rbind]. apply rbind_ok in E1 as (bvs & -> & E1). cbn [rbind]. apply rbind_ok in E1 as (bv1 & Es & E1). apply Ok_eq in E1. subst s1. destruct (wl_set p Hm nf nf' Hr _ _ _ _ _ _ H Hf Es) as (bv1' & -> & H1). cbn [rbind].
  replace (map p u ++ [p f]) with (map p (u ++ [f])) by (rewrite map_app; reflexivity). eapply IH; eassumption.
Qed.
Lemma skip_extra nact st g : g < nf' -> img p nf g = false -> useful_step d' nact st g = Ok st.
Proof.
  intros Hg Hi. destruct (HX g Hg) as ((nb & En) & H); [intros f Hf E; assert (img p nf g = true) by (apply img_spec; eauto); congruence|]. unfold useful_step. destruct st as ((u & bv) & b). rewrite En. cbn [rbind]. destruct (Nat.eqb_spec nb 0) as [_|Hn]; [reflexivity|].
  destruct H as [H|(lim & -> & H)]; [congruence|]. cbn [rbind]. rewrite H. reflexivity.
Qed.
Lemma skip_all nact l : (forall g, In g l -> g < nf') -> forall st, foldM (useful_step d' nact) l st = foldM (useful_step d' nact) (filter (img p nf) l) st.
Proof.
  induction l as [|g l IH]; intros HL st; [reflexivity|]. assert (forall g, In g l -> g < nf') as HL' by (intros; apply HL; right; assumption). cbn [filter]. destruct (img p nf g) eqn:E.
  - cbn [foldM]. destruct (useful_step d' nact st g); cbn [rbind]; try reflexivity. apply IH, HL'.
  - cbn [foldM]. rewrite skip_extra by (try exact E; apply HL; left; reflexivity). cbn [rbind]. apply IH, HL'.
Qed.
Lemma wnew_sim g i : inner_new cfg d g = Ok i -> exists i', inner_new cfg d' g = Ok i' /\ win i i'.
Proof.
  unfold inner_new. rewrite w_ne. intros E. apply rbind_ok in E as (((u & bv) & b) & E1 & E). apply Ok_eq in E. subst i. set (nact := scaled_count (d_nexamples d) (c_example_fraction cfg)) in *.
  destruct (useful_facts _ _ _ _ _ _ E1) as (m & Em & _ & HI & _). cbn [fst snd app] in *. subst m.
  destruct (wuseful_sim nact (seq 0 nf) ltac:(intros f Hf; apply in_seq in Hf; lia) [] (repeat [] nf) false (repeat [] nf') _ (wl_repeat p nf nf' Hr _ _) E1) as (bv2 & E2 & H2). cbn [map fst snd] in *.
  rewrite (skip_all nact (seq 0 nf')) by (intros x Hx; apply in_seq in Hx; lia). rewrite (img_seq p Hm nf nf' Hr), E2. cbn [rbind]. eexists. split; [reflexivity|].
  constructor; cbn; try reflexivity; try assumption.
  - rewrite map_length. reflexivity.
  - intros f Hf. apply HI, in_seq in Hf. lia.
  - left; auto.
  - apply wl_repeat; assumption.
  - apply wl_repeat; assumption.
Qed.
Record wds (s s' : dataset O) : Prop := { wd_in : win (ds_inner s) (ds_inner s'); wd_buf : ds_index_buffer s' = ds_index_buffer s; wd_count : ds_update_count s' = ds_update_count s }.
Lemma wdataset_new g s : dataset_new cfg d g = Ok s -> exists s', dataset_new cfg d' g = Ok s' /\ wds s s'.
Proof.
  unfold dataset_new. rewrite w_ne. intros E. apply rbind_ok in E as (i & Ei & E). destruct (wnew_sim _ _ Ei) as (i' & -> & H). cbn [rbind]. destruct (nlt O (c_example_fraction cfg) (nofZ O 1)); [apply Ok_eq in E; subst s; eexists; split; [reflexivity|constructor; [exact H|reflexivity..]]|].
  apply rbind_ok in E as (i2 & E2 & E). apply Ok_eq in E. subst s. rewrite locard_fold in E2 by apply H. rewrite locard_fold by apply H. rewrite (wi_useful _ _ H).
  destruct (wcells_sim _ (fun f c => let* ft := feat_type_of d' f in if is_locard ft then locard_cell d' f (seq 0 (d_nexamples d)) c else Ok c) _ ltac:(intros f c Hf; cbn beta; rewrite w_type by exact Hf; unfold locard_cell; rewrite w_feature, w_max by exact Hf; reflexivity) (wi_lt _ _ H) _ _ _ H E2) as (i2' & -> & H2).
  cbn [rbind]. eexists. split; [reflexivity|]. constructor; [exact H2|reflexivity..].
Qed.
Lemma wsample i i' r : win i i' -> sample_features i = Ok r -> exists r', sample_features i' = Ok r' /\ win r r'.
Proof.
  intros H E. unfold sample_features, in_feature_sampling_enabled in *. rewrite (wi_nf _ _ H), (wi_useful _ _ H), map_length, (wi_rng _ _ H). destruct (_ <? _); [|apply Ok_eq in E; subst r; eauto]. apply rbind_ok in E as ((u & g) & E1 & E). apply Ok_eq in E. subst r.
  rewrite (first_k_map p Hm _ _ _ _ E1). cbn [rbind fst snd]. eexists. split; [reflexivity|]. apply shuffle_perm in E1. destruct H. constructor; cbn; try assumption; try reflexivity.
  intros f Hf. apply wi_lt0. eapply Permutation_in; [apply Permutation_sym, E1|exact Hf].
Qed.
Lemma wdataset_update grad bounds s s' r : wds s s' -> dataset_update dbg cfg s grad bounds = Ok r -> exists r', dataset_update dbg cfg s' grad bounds = Ok r' /\ wds r r'.
Proof.
  intros [H Hb Hc] E. unfold dataset_update in *. rewrite Hb, Hc.
  assert (win (initialize_supercats (ds_inner s)) (initialize_supercats (ds_inner s'))) as H0.
  { destruct H. constructor; cbn; try assumption. rewrite wi_data0, wi_data'0. apply wl_resize; assumption. }
  set (i0 := initialize_supercats (ds_inner s)) in *. set (i0' := initialize_supercats (ds_inner s')) in *. clearbody i0 i0'.
  destruct (skip_update _ _); [apply Ok_eq in E; subst r; eexists; split; [reflexivity|constructor; [exact H0|reflexivity..]]|].
  apply rbind_ok in E as (i1 & E1 & E). destruct (wsample _ _ _ H0 E1) as (i1' & -> & H1). cbn [rbind]. clear i0 i0' H0 E1.
  unfold example_sampling_enabled in *. cbn [ds_index_buffer] in *. destruct (negb (length (ds_index_buffer s) =? 0)).
  - apply rbind_ok in E as (s2 & E2 & E). unfold sample_examples, nactive_examples in *. cbn [ds_inner ds_index_buffer ds_update_count] in *. rewrite (wi_rng _ _ H1), (wi_ne _ _ H1). apply rbind_ok in E2 as ((buf & g) & -> & E2). cbn [rbind]. apply Ok_eq in E2. subst s2.
    unfold active_examples, nactive_examples, nactive_features in *. cbn [ds_inner ds_index_buffer in_nactive_examples in_nactive_features] in *. apply rbind_ok in E as (ex & -> & E). cbn [rbind]. apply rbind_ok in E as (i3 & E3 & E). apply Ok_eq in E. subst r.
    match type of E3 with foldM _ _ ?x = _ => match goal with |- context [foldM _ _ ?y] => assert (win x y) as H2 by (destruct H1; constructor; cbn; auto) end end.
    destruct (wupdate_all _ _ _ _ _ _ _ _ H2 E3) as (i3' & E3' & H3). rewrite <- (wi_nf _ _ H1) in E3'. rewrite E3'. cbn [rbind]. eexists. split; [reflexivity|]. constructor; [exact H3|reflexivity..].
  - rewrite (wi_nl _ _ H1). destruct (in_has_non_locard i1); [|apply Ok_eq in E; subst r; eexists; split; [reflexivity|constructor; [exact H1|reflexivity..]]].
    apply rbind_ok in E as (i2 & E2 & E). apply Ok_eq in E. subst r. rewrite (wi_data' _ _ H1), w_ne, (wi_nf _ _ H1). rewrite (wi_data _ _ H1) in E2. destruct (wupdate_all _ _ _ _ _ _ _ _ H1 E2) as (i2' & -> & H2). cbn [rbind]. eexists. split; [reflexivity|]. constructor; [exact H2|reflexivity..].
Qed.
End Dataset.
