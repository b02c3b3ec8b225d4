(** C71: extra constant columns change nothing. *)
From Coq Require Import Reals Lra Permutation.
From Flocq Require Import BinarySingleNaN.
From Verif Require Import Base BaseProofs BitModel Num F32 F32Proofs DataModel DataSpec DataProofs DataProofs2 DataProps Config TreeModel DatasetModel DatasetSpec LearnerModel LearnerSpec ObjectiveModel MetricModel BoostModel BoostSpec TreeProps DatasetProps LearnerProps BoostProofs BoostProps
  ColSpec ColProps WideSpec WideProofs4 WideProofs5.
Local Open Scope nat_scope.

Lemma widened_of O p n (ts ts' : list (tree O)) : Forall2 (wtree O p n) ts ts' -> Forall2 (widened_tree p n) ts ts'.
Proof. induction 1 as [|t t' ts ts' H _ IH]; constructor; [apply H|exact IH]. Qed.

(** Two trainings, in any arithmetic, with the same settings (feature and example sampling included), objective, metrics and random draws, on tables that differ in extra constant columns, wherever they are: if the first one succeeds so does the second
    one, its state has the same running predictions and the same reported metric values, and its model is the first one's with the features renumbered; on rows with and without the extra columns (with any values in them) the two models
    predict the same.  For every order of the jobs in both. *)
Theorem C71_run : forall O (M : mathops O) dbg (cfg : config O) p d d' sched sched' kind metrics g k b, wider p d d' -> extra_constant p d d' -> same_columns p d d' -> any_order sched -> any_order sched' ->
  boost_run M dbg cfg d sched kind metrics g k = Ok b ->
  exists b', boost_run M dbg cfg d' sched' kind metrics g k = Ok b' /\ ob_preds (bs_objective b') = ob_preds (bs_objective b) /\ bs_evals b' = bs_evals b /\ widened_model p (d_nfeatures d) (bs_ensemble b) (bs_ensemble b') /\
    forall D D', wider p D D' -> d_nfeatures D = d_nfeatures d -> additive_predict (bs_ensemble b') D' = additive_predict (bs_ensemble b) D.
Proof.
  intros O M dbg cfg p d d' sched sched' kind metrics g k b HW HX HC HS HS' E. destruct (wrun O M dbg cfg p d d' HW HX HC sched sched' HS HS' kind metrics g k b E) as (b' & E' & H).
  exists b'. split; [exact E'|]. split; [rewrite (wb_ob _ _ _ _ _ _ H); reflexivity|]. split; [apply H|]. split; [split; [apply H|apply widened_of, H]|].
  intros D D' HD En. destruct H as [_ _ _ _ Hb Ht]. destruct (bs_ensemble b) as [b0 ts], (bs_ensemble b') as [b0' ts']. cbn [at_bias at_trees] in *. subst b0'. apply (wadditive O p (d_nfeatures d) D D' HD En ts ts' b0 Ht).
Qed.
Print Assumptions C71_run.

(** The same for the model a user gets. *)
Theorem C71_model : forall O (M : mathops O) dbg (cfg : config O) p d d' sched sched' kind metrics g m, wider p d d' -> extra_constant p d d' -> same_columns p d d' -> any_order sched -> any_order sched' ->
  boost_train M dbg cfg d sched kind metrics g = Ok m ->
  exists m', boost_train M dbg cfg d' sched' kind metrics g = Ok m' /\ widened_model p (d_nfeatures d) m m' /\
    forall D D', wider p D D' -> d_nfeatures D = d_nfeatures d -> additive_predict m' D' = additive_predict m D.
Proof.
  intros O M dbg cfg p d d' sched sched' kind metrics g m HW HX HC HS HS' E. unfold boost_train in E. apply rbind_ok in E as (b & E & Em). apply Ok_inj in Em. subst m.
  destruct (C71_run O M dbg cfg p d d' sched sched' kind metrics g _ b HW HX HC HS HS' E) as (b' & E' & _ & _ & HM & HP). exists (bs_ensemble b'). unfold boost_train. rewrite E'. split; [reflexivity|]. split; [exact HM|exact HP].
Qed.
Print Assumptions C71_model.

(** Loaded from CSV files, columns that hold one number in all records (not NaN) are such extra columns. *)
Lemma csv_cols cfg items j : j < columns_of items -> let vs := map (fun it => val_of it j) items in let card := if is_locard (fts_of cfg j) then cfold 0 vs else 0 in
  get_feature (csv_data cfg items) j = Ok vs /\ feat_limits (csv_data cfg items) j = Ok (lfold (f_inf, f_ninf) vs) /\ feat_card (csv_data cfg items) j = Ok card /\ feat_type_of (csv_data cfg items) j = Ok (if dc_max_nbins cfg <? card then HiCardCat else fts_of cfg j).
Proof.
  intros Hj vs card. unfold csv_data, get_feature, feat_limits, feat_card, feat_type_of. cbn [d_features d_limits d_cards d_ftypes st_of cs_features cs_limits cs_cards].
  split; [exact (idx_map_seq _ (fun k => map (fun it => val_of it k) items) _ _ Hj)|]. split; [exact (idx_map_seq _ (fun k => lfold (f_inf, f_ninf) (map (fun it => val_of it k) items)) _ _ Hj)|].
  split; [exact (idx_map_seq _ (fun k => if is_locard (fts_of cfg k) then cfold 0 (map (fun it => val_of it k) items) else 0) _ _ Hj)|].
  unfold csv_hicard. cbn [st_of cs_ftypes cs_cards]. assert (forall A B (f : nat -> A) (h : nat -> B) l, combine (map f l) (map h l) = map (fun k => (f k, h k)) l) as Hcm by (intros A B f h; induction l as [|x t IH]; [reflexivity|cbn; rewrite IH; reflexivity]).
  rewrite Hcm, map_map. exact (idx_map_seq _ (fun k => if dc_max_nbins cfg <? (if is_locard (fts_of cfg k) then cfold 0 (map (fun it => val_of it k) items) else 0) then HiCardCat else fts_of cfg k) _ _ Hj).
Qed.
Lemma f_eq_refl v : f_is_nan v = false -> f_eq v v = true.
Proof. destruct v as [[|]|[|]| |s m e H]; cbn; try reflexivity; try discriminate. intros _. unfold f_eq, Beqb. cbn. rewrite Z.compare_refl. destruct s; cbn; rewrite ?Pos.compare_cont_refl, ?Pos.compare_refl; reflexivity. Qed.
Lemma const_limits v n : f_is_nan v = false -> 0 < n -> let lim := lfold (f_inf, f_ninf) (repeat v n) in f_eq (fst lim) (snd lim) = true.
Proof.
  intros Hv Hn lim. subst lim. destruct (lfold_limits (repeat v n)) as [((Hl & _) & Hh & _)|(H & _)].
  - apply repeat_spec in Hl, Hh. rewrite Hl, Hh. apply f_eq_refl, Hv.
  - destruct n as [|n]; [lia|]. rewrite (H v) in Hv; [discriminate|left; reflexivity].
Qed.
Theorem C71_csv : forall p cfg cfg' items items' d d', from_csv cfg items = Ok (Done d) -> from_csv cfg' items' = Ok (Done d') -> widened_csv p cfg cfg' items items' -> wider p d d' /\ extra_constant p d d' /\ same_columns p d d'.
Proof.
  intros p cfg cfg' items items' d d' E E' (Hm & Hr & HL & HB & Hcol & Htar & Hcat & Hconst). pose proof (C35_columns _ _ _ E) as (_ & _ & HC). pose proof (C35_columns _ _ _ E') as (_ & _ & HC').
  rewrite from_csv_spec in E, E'. destruct (all_ok cfg items); [|discriminate]. destruct (Nat.ltb_spec 0 (columns_of items)) as [Hn|]; [|discriminate]. injection E as <-. destruct (all_ok cfg' items'); [|discriminate]. destruct (Nat.ltb_spec 0 (columns_of items')) as [Hn'|]; [|discriminate]. injection E' as <-.
  change (d_nfeatures (csv_data cfg items)) with (columns_of items - 1) in *. change (d_nfeatures (csv_data cfg' items')) with (columns_of items' - 1) in *.
  assert (0 < length items) as Hi by (destruct items; [cbn in Hn; lia|cbn; lia]).
  assert (forall f, f < columns_of items - 1 -> map (fun it => val_of it (p f)) items' = map (fun it => val_of it f) items) as Hv.
  { intros f Hf. destruct (HC f ltac:(lia)) as (vs & lo & hi & c & ft & Hc & _). rewrite <- (column_val _ _ _ Hc), <- (column_val _ _ _ (Hcol f vs Hf Hc)). reflexivity. }
  assert (forall f, f < columns_of items - 1 -> fts_of cfg' (p f) = fts_of cfg f) as Hft.
  { intros f Hf. specialize (Hcat f Hf). pose proof (cat_fts cfg f) as C1. pose proof (cat_fts cfg' (p f)) as C2. unfold cat, fts_of in *. destruct (existsb (Nat.eqb f) _), (existsb (Nat.eqb (p f)) _); cbn [is_locard] in *; try reflexivity; exfalso; intuition discriminate. }
  split; [|split].
  - split; [exact Hm|]. split; [exact Hr|]. split; [exact HL|]. split; [unfold csv_data; cbn [d_features d_nfeatures st_of cs_features]; rewrite map_length, seq_length; lia|]. split; [unfold csv_data; cbn [d_features d_nfeatures st_of cs_features]; rewrite map_length, seq_length; lia|]. split.
    + intros f Hf. change (d_nfeatures (csv_data cfg items)) with (columns_of items - 1) in Hf. pose proof (Hr f Hf). rewrite (proj1 (csv_cols cfg' items' (p f) ltac:(lia))), (proj1 (csv_cols cfg items f ltac:(lia))). f_equal. apply Hv, Hf.
    + unfold csv_data. cbn [d_features d_nexamples st_of cs_features]. intros col [Hc|Hc]; apply in_map_iff in Hc as (j & <- & _); rewrite map_length; [reflexivity|exact HL].
  - intros g Hg Hne. destruct (csv_cols cfg' items' g ltac:(change (d_nfeatures (csv_data cfg' items')) with (columns_of items' - 1) in Hg; lia)) as (_ & El & Ec & Et). split.
    + unfold max_nbins. rewrite Et. cbn [rbind]. destruct (if _ <? _ then HiCardCat else _); try rewrite Ec; cbn [rbind]; eauto.
    + right. eexists. split; [exact El|]. destruct (Hconst g Hg Hne) as (v & Hnan & Hc). rewrite <- (column_val _ _ _ Hc). exact (const_limits v _ Hnan Hi).
  - split; [exact HB|]. split.
    + unfold get_target. change (d_nfeatures (csv_data cfg items)) with (columns_of items - 1). change (d_nfeatures (csv_data cfg' items')) with (columns_of items' - 1).
      rewrite (proj1 (csv_cols cfg' items' (columns_of items' - 1) ltac:(lia))), (proj1 (csv_cols cfg items (columns_of items - 1) ltac:(lia))). f_equal. destruct (HC (columns_of items - 1) ltac:(lia)) as (vs & lo & hi & c & ft & Hc & _). rewrite <- (column_val _ _ _ Hc), <- (column_val _ _ _ (Htar vs Hc)). reflexivity.
    + intros f Hf. change (d_nfeatures (csv_data cfg items)) with (columns_of items - 1) in Hf. pose proof (Hr f Hf). destruct (csv_cols cfg' items' (p f) ltac:(lia)) as (_ & -> & -> & ->). destruct (csv_cols cfg items f ltac:(lia)) as (_ & -> & -> & ->). rewrite (Hv f Hf), (Hft f Hf), HB. auto.
Qed.
Print Assumptions C71_csv.
Definition ins1 (f : nat) : nat := match f with 0 => 0 | S f => S (S f) end.
Definition csv_small : list csv_item := [CsvRecord [Some (fz 3); Some (fz 1); Some (fz 7)]; CsvRecord [Some (fz 4); Some (fz 0); Some (fz 9)]].
Definition csv_wide : list csv_item := [CsvRecord [Some (fz 3); Some (fz 5); Some (fz 1); Some (fz 7)]; CsvRecord [Some (fz 4); Some (fz 5); Some (fz 0); Some (fz 9)]].
Example C71_csv_ex : widened_csv ins1 (mk_dcfg 16 [1]) (mk_dcfg 16 [2]) csv_small csv_wide /\
  match from_csv (mk_dcfg 16 [1]) csv_small, from_csv (mk_dcfg 16 [2]) csv_wide with Ok (Done d), Ok (Done d') => (d_nfeatures d, d_nfeatures d') = (2, 3) | _, _ => False end.
Proof.
  split; [|vm_compute; reflexivity]. unfold widened_csv. cbn [columns_of csv_small csv_wide length dc_max_nbins dc_categorical Nat.sub]. split; [intros [|f] [|h] H; cbn [ins1]; lia|]. split; [intros [|[|f]] H; cbn [ins1]; lia|]. split; [reflexivity|]. split; [reflexivity|].
  assert (forall j j' vs, (j = 0 /\ j' = 0) \/ (j = 1 /\ j' = 2) \/ (j = 2 /\ j' = 3) -> column csv_small j vs -> column csv_wide j' vs) as Hc.
  { intros j j' vs Hj Hcol. inversion Hcol as [|it v t vs1 (fl & Ef & Ev) H1]; subst. inversion H1 as [|it2 v2 t2 vs2 (fl2 & Ef2 & Ev2) H2]; subst. inversion H2; subst.
    assert (fl = [Some (fz 3); Some (fz 1); Some (fz 7)]) as -> by (symmetry; exact (f_equal (fun c => match c with CsvRecord l => l | _ => [] end) Ef)). assert (fl2 = [Some (fz 4); Some (fz 0); Some (fz 9)]) as -> by (symmetry; exact (f_equal (fun c => match c with CsvRecord l => l | _ => [] end) Ef2)).
    constructor; [eexists; split; [reflexivity|]|constructor; [eexists; split; [reflexivity|]|constructor]]; destruct Hj as [[-> ->]|[[-> ->]|[-> ->]]]; assumption. }
  split; [intros [|[|f]] vs Hf; cbn [ins1]; [apply Hc; auto|apply Hc; auto|lia]|]. split; [intros vs; apply Hc; auto|]. split; [intros [|[|f]] Hf; cbn; lia|].
  intros [|[|[|h]]] Hh Hne; [exfalso; apply (Hne 0); [lia|reflexivity]| |exfalso; apply (Hne 1); [lia|reflexivity]|lia]. exists (fz 5). split; [reflexivity|]. constructor; [eexists; split; reflexivity|constructor; [eexists; split; reflexivity|constructor]].
Qed.

(** The table of C70 with a constant column inserted between its two; three trees of depth 2, each with one of the two features chosen at random; predictions for new rows that have other values in the inserted column. *)
Definition wide_cfg : config f32ops :=
  @mk_config f32ops String.EmptyString String.EmptyString String.EmptyString [] 2%N true 44%N [0; 1] 3 f_half (fz 0) 1%N (fz 0) (fz 1) 4 4 2 f_half (fz 1) 1%N f_half f_one 1.
Definition wide_rng : rng := fun k => k.
Definition wide_d : data f32ops := @mk_data f32ops 4 3 6 [col_a; [fz 7; fz 7; fz 7; fz 7; fz 7; fz 7]; col_b; col_t] [(fz 0, fz 1); (fz 7, fz 7); (fz 0, fz 2); (fz 1, fz 13)] [LoCardCat; Numerical; LoCardCat; Numerical] [2; 0; 3; 0].
Lemma wide_wider (a b t x : list f32) la lb lt lx ka kb kt kx ca cb ct cx nb n : length a = n -> length b = n -> length t = n -> length x = n ->
  wider ins1 (@mk_data f32ops nb 2 n [a; b; t] [la; lb; lt] [ka; kb; kt] [ca; cb; ct]) (@mk_data f32ops nb 3 n [a; x; b; t] [la; lx; lb; lt] [ka; kx; kb; kt] [ca; cx; cb; ct]).
Proof.
  intros Ha Hb Ht Hx. unfold wider. cbn [d_nfeatures d_nexamples d_features]. split; [intros [|f] [|h] H; cbn [ins1]; lia|]. split; [intros [|[|f]] H; cbn [ins1]; lia|]. split; [reflexivity|]. split; [reflexivity|]. split; [reflexivity|]. split; [intros [|[|f]] Hf; [reflexivity..|lia]|].
  intros col [[<-|[<-|[<-|[]]]]|[<-|[<-|[<-|[<-|[]]]]]]; assumption.
Qed.
Example C71_ex : wider ins1 col_d wide_d /\ extra_constant ins1 col_d wide_d /\ same_columns ins1 col_d wide_d /\ any_order bst_sched /\ 
  wider ins1 tie_new (@mk_data f32ops 4 3 2 [[fz 0; fz 1]; [fz 8; fz 2]; [fz 1; fz 0]; [fz 0; fz 0]] [(fz 0, fz 1); (fz 2, fz 8); (fz 0, fz 1); (fz 0, fz 0)] [LoCardCat; Numerical; LoCardCat; Numerical] [2; 0; 2; 0]) /\
  match boost_train bst_math true wide_cfg col_d bst_sched L2 [ML2] wide_rng, boost_train bst_math true wide_cfg wide_d bst_sched L2 [ML2] wide_rng with
  | Ok m, Ok m' => (map (fun t => map sc_feature (firstn 3 (t_crits t))) (at_trees m), map (fun t => map sc_feature (firstn 3 (t_crits t))) (at_trees m')) = ([[0; 0; 0]; [1; 0; 1]; [1; 0; 1]], [[0; 0; 0]; [2; 0; 2]; [2; 0; 2]])
  | _, _ => False
  end.
Proof.
  split; [apply wide_wider; reflexivity|]. split.
  { intros [|[|[|h]]] Hh Hne; [exfalso; apply (Hne 0); [cbn [col_d d_nfeatures]; lia|reflexivity]| |exfalso; apply (Hne 1); [cbn [col_d d_nfeatures]; lia|reflexivity]|cbn [wide_d d_nfeatures] in Hh; lia].
    split; [exists 4; reflexivity|]. right. exists (fz 7, fz 7). split; reflexivity. }
  split; [split; [reflexivity|]; split; [reflexivity|]; intros [|[|f]] Hf; [repeat split..|cbn [col_d d_nfeatures] in Hf; lia]|]. split; [intros i k js; apply rev_sched_perm|].
  split; [apply wide_wider; reflexivity|vm_compute; reflexivity].
Qed.
