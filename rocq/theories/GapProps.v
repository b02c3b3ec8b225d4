(** C73: category codes that never occur change nothing. *)
From Coq Require Import Reals Lra Permutation.
From Verif Require Import Base BaseProofs BitModel Num F32 F32Proofs DataModel DataSpec DataProofs DataProofs2 DataProps Config TreeModel DatasetModel DatasetSpec DatasetProofs6 LearnerModel LearnerSpec RouteProps ObjectiveModel MetricModel BoostModel BoostSpec TreeProps DatasetProps LearnerProps BoostProofs BoostProps
  ColSpec ColProps WideProps GapSpec GapProofs GapProofs2 GapProofs3.
Local Open Scope nat_scope.

Lemma sel_exists n (P Q : nat -> Prop) : (forall f, f < n -> P f \/ Q f) -> exists sel : nat -> bool, forall f, f < n -> if sel f then P f else Q f.
Proof.
  induction n as [|n IH]; intros H; [exists (fun _ => true); intros f Hf; lia|]. destruct IH as (sel & HS); [intros f Hf; apply H; lia|].
  destruct (H n ltac:(lia)) as [HP|HQ]; [exists (fun f => if f =? n then true else sel f)|exists (fun f => if f =? n then false else sel f)]; (intros f Hf; destruct (Nat.eqb_spec f n) as [->|Hn]; [assumption|apply HS; lia]).
Qed.

(** Two trainings with the same settings (feature and example sampling allowed; [min_examples_leaf] at least one), objective, metrics and random draws, on tables that differ in the codes of low-cardinality columns: the same categories in the same
    order, but codes in between that no row has.  If the first one succeeds so does the second one, its state has the same running predictions and the same reported metric values, and its model is the first one's with the codes in the splits
    renumbered: no split is on an unused code.  The two models predict the same, also for rows with categories unseen in training.  For every order of the jobs in both, and in every arithmetic whose numbers represent the codes exactly. *)
Theorem C73_run : forall O (M : mathops O) dbg (cfg : config O) m d d' sched sched' kind metrics g k b,
  (forall f n' c, feat_type_of d' f = Ok LoCardCat -> feat_card d' f = Ok n' -> c < n' -> into_cat (nofnat O c) = c) ->
  (forall f n' a c, feat_type_of d' f = Ok LoCardCat -> feat_card d' f = Ok n' -> a < n' -> c < n' -> neq O (nofnat O a) (nofnat O c) = (a =? c)) ->
  renumbered m d d' -> (1 <= c_min_examples_leaf cfg)%N -> any_order sched -> any_order sched' ->
  boost_run M dbg cfg d sched kind metrics g k = Ok b ->
  exists b', boost_run M dbg cfg d' sched' kind metrics g k = Ok b' /\ ob_preds (bs_objective b') = ob_preds (bs_objective b) /\ bs_evals b' = bs_evals b /\ renumbered_model m d (bs_ensemble b) (bs_ensemble b') /\
    forall D D', renumbered_rows m d D D' -> additive_predict (bs_ensemble b') D' = additive_predict (bs_ensemble b) D.
Proof.
  intros O M dbg cfg m d d' sched sched' kind metrics g k b Hc He HD Hmin HS HS' E. pose proof HD as (_ & _ & _ & _ & _ & _ & _ & HF).
  destruct (sel_exists (d_nfeatures d) (same_column m d d') (fun f => exists n n', renumbered_column m d d' f n n')) as (sel & Hsel); [intros f Hf; apply (HF f Hf)|].
  destruct (grun O M dbg cfg m d d' HD Hc He ltac:(lia) sel Hsel sched sched' HS HS' kind metrics g k b E) as (b' & E' & [H1 H2 H3 H4 H5 H6]).
  exists b'. split; [exact E'|]. split; [rewrite H2; reflexivity|]. split; [exact H4|]. split; [split; [exact H5|eapply F2_impl; [|exact H6]; intros ? ? Ht; exact (proj1 Ht)]|].
  intros D D' HR. destruct (bs_ensemble b) as [b0 ts], (bs_ensemble b') as [b0' ts']. cbn [at_bias at_trees] in *. subst b0'. exact (gadditive O m d D D' HR ts ts' b0 H6).
Qed.
Print Assumptions C73_run.

(** The same for the model a user gets, in the arithmetic of the program and in exact arithmetic. *)
Lemma gap_model O (M : mathops O) dbg (cfg : config O) m d d' sched sched' kind metrics g a :
  (forall f n' c, feat_type_of d' f = Ok LoCardCat -> feat_card d' f = Ok n' -> c < n' -> into_cat (nofnat O c) = c) ->
  (forall f n' a c, feat_type_of d' f = Ok LoCardCat -> feat_card d' f = Ok n' -> a < n' -> c < n' -> neq O (nofnat O a) (nofnat O c) = (a =? c)) ->
  renumbered m d d' -> (1 <= c_min_examples_leaf cfg)%N -> any_order sched -> any_order sched' -> boost_train M dbg cfg d sched kind metrics g = Ok a ->
  exists a', boost_train M dbg cfg d' sched' kind metrics g = Ok a' /\ renumbered_model m d a a' /\ forall D D', renumbered_rows m d D D' -> additive_predict a' D' = additive_predict a D.
Proof.
  intros Hc He HD HA HS HS' E. unfold boost_train in E. apply rbind_ok in E as (b & E & Em). apply Ok_inj in Em. subst a.
  destruct (C73_run O M dbg cfg m d d' sched sched' kind metrics g _ b Hc He HD HA HS HS' E) as (b' & E' & _ & _ & HM & HP). exists (bs_ensemble b'). unfold boost_train. rewrite E'. split; [reflexivity|]. split; [exact HM|exact HP].
Qed.
Lemma valid_nofnat a : (Z.of_nat a <= 2 ^ 24)%Z -> valid_category (nofnat f32ops a).
Proof. intros H. apply fz_category. lia. Qed.
Theorem C73_model : forall (M : mathops f32ops) dbg (cfg : config f32ops) m d d' sched sched' kind metrics g a,
  (forall f n', feat_type_of d' f = Ok LoCardCat -> feat_card d' f = Ok n' -> (Z.of_nat n' <= 2 ^ 24)%Z) ->
  renumbered m d d' -> (1 <= c_min_examples_leaf cfg)%N -> any_order sched -> any_order sched' -> boost_train M dbg cfg d sched kind metrics g = Ok a ->
  exists a', boost_train M dbg cfg d' sched' kind metrics g = Ok a' /\ renumbered_model m d a a' /\ forall D D', renumbered_rows m d D D' -> additive_predict a' D' = additive_predict a D.
Proof.
  intros M dbg cfg m d d' sched sched' kind metrics g a Hn. apply (gap_model f32ops M dbg cfg m d d' sched sched' kind metrics g a).
  - intros f n' c Ht Ec Hc. specialize (Hn f n' Ht Ec). apply into_cat_of_nat. lia.
  - intros f n' x c Ht Ec Hx Hc. specialize (Hn f n' Ht Ec). rewrite <- (into_cat_of_nat x) at 2 by lia. apply locard_eq; [apply valid_nofnat; lia|lia].
Qed.
Print Assumptions C73_model.
(** The rows of the two tables are themselves such rows to predict. *)
Theorem C73_training_rows : forall m (d d' : data f32ops), (forall f n', feat_type_of d' f = Ok LoCardCat -> feat_card d' f = Ok n' -> (Z.of_nat n' <= 2 ^ 24)%Z) -> renumbered m d d' -> renumbered_rows m d d d'.
Proof.
  intros m d d' Hn HD. pose proof HD as (_ & _ & _ & _ & _ & _ & _ & HF).
  destruct (sel_exists (d_nfeatures d) (same_column m d d') (fun f => exists n n', renumbered_column m d d' f n n')) as (sel & Hsel); [intros f Hf; apply (HF f Hf)|].
  refine (rows_same f32ops (@mk_config f32ops String.EmptyString String.EmptyString String.EmptyString [] 2%N true 44%N [] 1 f_zero f_zero 1%N f_zero f_zero 8 4 2 f_zero f_zero 1%N f_zero f_zero 1) m d d' HD _ _ _ sel Hsel).
  - intros f n' c Ht Ec Hc. specialize (Hn f n' Ht Ec). apply into_cat_of_nat. lia.
  - intros f n' x c Ht Ec Hx Hc. specialize (Hn f n' Ht Ec). rewrite <- (into_cat_of_nat x) at 2 by lia. apply locard_eq; [apply valid_nofnat; lia|lia].
  - cbn. lia.
Qed.
Print Assumptions C73_training_rows.
Theorem C73_model_R : forall (M : mathops Rops) dbg (cfg : config Rops) m d d' sched sched' kind metrics g a,
  (forall f n', feat_type_of d' f = Ok LoCardCat -> feat_card d' f = Ok n' -> (Z.of_nat n' <= 2 ^ 32)%Z) ->
  renumbered m d d' -> (1 <= c_min_examples_leaf cfg)%N -> any_order sched -> any_order sched' -> boost_train M dbg cfg d sched kind metrics g = Ok a ->
  exists a', boost_train M dbg cfg d' sched' kind metrics g = Ok a' /\ renumbered_model m d a a' /\ forall D D', renumbered_rows m d D D' -> additive_predict a' D' = additive_predict a D.
Proof.
  intros M dbg cfg m d d' sched sched' kind metrics g a Hn. apply (gap_model Rops M dbg cfg m d d' sched sched' kind metrics g a).
  - intros f n' c Ht Ec Hc. specialize (Hn f n' Ht Ec). unfold nofnat. cbn [Rops nofZ]. rewrite into_cat_R; lia.
  - intros f n' x c Ht Ec Hx Hc. specialize (Hn f n' Ht Ec). rewrite locard_eq_R by (exists (Z.of_nat x); split; [lia|reflexivity]). f_equal. unfold nofnat. cbn [Rops nofZ]. rewrite into_cat_R; lia.
Qed.
Print Assumptions C73_model_R.

(** Loaded from CSV files, columns with other codes in the same order are such columns. *)
Lemma code_nan a : (Z.of_nat a <= 2 ^ 24)%Z -> f_is_nan (nofnat f32ops a) = false.
Proof. intros H. unfold nofnat. cbn [f32ops nofZ]. destruct (f_of_Z_exact (Z.of_nat a)) as (F & _); [lia|]. destruct (f_of_Z (Z.of_nat a)); try reflexivity; discriminate F. Qed.
Lemma f_le_code a b : (Z.of_nat a <= 2 ^ 24)%Z -> (Z.of_nat b <= 2 ^ 24)%Z -> f_le (nofnat f32ops a) (nofnat f32ops b) = (a <=? b).
Proof.
  intros Ha Hb. pose proof (f_le_key _ _ (code_nan a Ha) (code_nan b Hb)) as K. unfold nofnat in *. cbn [f32ops nofZ] in *. destruct (f_of_Z_exact (Z.of_nat a)) as (Fa & Ba); [lia|]. destruct (f_of_Z_exact (Z.of_nat b)) as (Fb & Bb); [lia|].
  rewrite !key_finite, Ba, Bb in K by assumption. apply eq_true_iff_eq. rewrite Nat.leb_le. etransitivity; [exact K|]. split; intros H; [apply le_IZR in H; lia|apply IZR_le; lia].
Qed.
Lemma f_eq_code a b : (Z.of_nat a < 2 ^ 24)%Z -> (Z.of_nat b < 2 ^ 24)%Z -> f_eq (nofnat f32ops a) (nofnat f32ops b) = (a =? b).
Proof. intros Ha Hb. rewrite <- (into_cat_of_nat a) at 2 by lia. apply locard_eq; [apply valid_nofnat; lia|lia]. Qed.
Lemma codes_card cs mx : In mx cs -> (forall c, In c cs -> c <= mx) -> (Z.of_nat mx < 2 ^ 24)%Z -> cfold 0 (map (nofnat f32ops) cs) = S mx.
Proof.
  intros Hi Hm Hx. destruct (cfold_spec (map (nofnat f32ops) cs) 0) as (_ & [H0|(v & Hv & Hn)] & Hl).
  - specialize (Hl _ (in_map (nofnat f32ops) _ _ Hi)). lia.
  - pose proof (Hl _ (in_map (nofnat f32ops) _ _ Hi)) as Hl'. rewrite into_cat_of_nat in Hl' by lia. apply in_map_iff in Hv as (c & <- & Hc). pose proof (Hm c Hc). rewrite into_cat_of_nat in Hn by lia. lia.
Qed.
Lemma codes_limits cs mn mx : In mn cs -> In mx cs -> (forall c, In c cs -> mn <= c <= mx) -> (Z.of_nat mx < 2 ^ 24)%Z -> let lim := lfold (f_inf, f_ninf) (map (nofnat f32ops) cs) in f_eq (fst lim) (snd lim) = (mn =? mx).
Proof.
  intros Hn Hx Hm HX lim. subst lim. pose proof (Hm mn Hn) as Hnx. destruct (lfold_limits (map (nofnat f32ops) cs)) as [((Hl & _ & Hl') & Hh & _ & Hh')|(H & _)].
  - apply in_map_iff in Hl as (a & Ea & Ha), Hh as (b & Eb & Hb). rewrite <- Ea, <- Eb in *. pose proof (Hm a Ha). pose proof (Hm b Hb).
    specialize (Hl' _ (in_map (nofnat f32ops) _ _ Hn) (code_nan mn ltac:(lia))). specialize (Hh' _ (in_map (nofnat f32ops) _ _ Hx) (code_nan mx ltac:(lia))). rewrite f_le_code in Hl', Hh' by lia. apply Nat.leb_le in Hl', Hh'.
    assert (a = mn) as -> by lia. assert (b = mx) as -> by lia. apply f_eq_code; lia.
  - specialize (H _ (in_map (nofnat f32ops) _ _ Hn)). rewrite code_nan in H by lia. discriminate.
Qed.
Lemma extremes (cs : list nat) : cs <> [] -> exists mn mx, In mn cs /\ In mx cs /\ forall c, In c cs -> mn <= c <= mx.
Proof.
  induction cs as [|a cs IH]; [congruence|]. intros _. destruct cs as [|b cs]; [exists a, a; cbn; intuition lia|]. destruct IH as (mn & mx & Hn & Hx & H); [discriminate|].
  exists (Nat.min a mn), (Nat.max a mx). split; [destruct (Nat.min_spec a mn) as [[_ ->]|[_ ->]]; [left; reflexivity|right; exact Hn]|]. split; [destruct (Nat.max_spec a mx) as [[_ ->]|[_ ->]]; [right; exact Hx|left; reflexivity]|].
  intros c [->|Hc]; [lia|]. specialize (H c Hc). lia.
Qed.
Theorem C73_csv : forall m cfg cfg' items items' d d', (Z.of_nat (dc_max_nbins cfg) <= 2 ^ 24)%Z -> from_csv cfg items = Ok (Done d) -> from_csv cfg' items' = Ok (Done d') -> renumbered_csv m cfg cfg' items items' ->
  renumbered m d d' /\ forall f n', feat_type_of d' f = Ok LoCardCat -> feat_card d' f = Ok n' -> (Z.of_nat n' <= 2 ^ 24)%Z.
Proof.
  intros m cfg cfg' items items' d d' HM E E' (Hco & HL & HB & Htar & HG). pose proof (C35_columns _ _ _ E) as (_ & _ & HC). pose proof (C35_columns _ _ _ E') as (_ & En' & HC').
  rewrite from_csv_spec in E, E'. destruct (all_ok cfg items); [|discriminate]. destruct (Nat.ltb_spec 0 (columns_of items)) as [Hn|]; [|discriminate]. injection E as <-. destruct (all_ok cfg' items'); [|discriminate]. destruct (Nat.ltb_spec 0 (columns_of items')) as [Hn'|]; [|discriminate]. injection E' as <-.
  change (d_nfeatures (csv_data cfg items)) with (columns_of items - 1) in *. change (d_nfeatures (csv_data cfg' items')) with (columns_of items' - 1) in *.
  assert (forall g, g < columns_of items - 1 -> fts_of cfg' g = fts_of cfg g) as Hft.
  { intros g Hg. destruct (HG g Hg) as (Hcat & _). pose proof (cat_fts cfg g) as C1. pose proof (cat_fts cfg' g) as C2. unfold cat, fts_of in *. destruct (existsb (Nat.eqb g) (dc_categorical cfg)), (existsb (Nat.eqb g) (dc_categorical cfg')); cbn [is_locard] in *; try reflexivity; exfalso; intuition discriminate. }
  assert (forall j, j < columns_of items -> (forall vs, column items j vs -> column items' j vs) -> map (fun it => val_of it j) items' = map (fun it => val_of it j) items) as Hv.
  { intros j Hj Hs. destruct (HC j ltac:(lia)) as (vs & lo & hi & c & ft & Hc & _). rewrite <- (column_val _ _ _ Hc), <- (column_val _ _ _ (Hs vs Hc)). reflexivity. }
  split.
  - split; [change (columns_of items' - 1 = columns_of items - 1); lia|]. split; [exact HL|]. split; [exact HB|]. split.
    { unfold get_target. change (d_nfeatures (csv_data cfg items)) with (columns_of items - 1). change (d_nfeatures (csv_data cfg' items')) with (columns_of items' - 1). rewrite Hco.
      rewrite (proj1 (csv_cols cfg' items' (columns_of items - 1) ltac:(lia))), (proj1 (csv_cols cfg items (columns_of items - 1) ltac:(lia))). f_equal. apply Hv; [lia|exact Htar]. }
    split; [unfold csv_data; cbn [d_features d_nfeatures st_of cs_features]; rewrite map_length, seq_length; lia|]. split; [unfold csv_data; cbn [d_features d_nfeatures st_of cs_features]; rewrite map_length, seq_length; lia|]. split.
    { unfold csv_data. cbn [d_features d_nexamples st_of cs_features]. intros col [Hc|Hc]; apply in_map_iff in Hc as (j & <- & _); rewrite map_length; [reflexivity|exact HL]. }
    intros f Hf. change (d_nfeatures (csv_data cfg items)) with (columns_of items - 1) in Hf. destruct (HG f Hf) as (Hcat & HK).
    destruct (csv_cols cfg' items' f ltac:(lia)) as (F' & L' & C' & T'). destruct (csv_cols cfg items f ltac:(lia)) as (F & L & C & T). rewrite (Hft f Hf), HB in *.
    destruct HK as [(Hid & Hs)|(Hin & Hmon & vs & vs' & Hcol & Hcol' & (c2 & Hc2 & Hi2) & HV)].
    + rewrite (Hv f ltac:(lia) Hs) in *. split; [congruence|]. left. repeat split; [congruence..|exact Hid].
    + rewrite <- (column_val _ _ _ Hcol) in *. rewrite <- (column_val _ _ _ Hcol') in *.
      assert (forall a, a <= m f a) as Hge by (induction a as [|a IHa]; [lia|pose proof (Hmon a (S a) ltac:(lia)); lia]).
      assert (exists cs, vs = map (nofnat f32ops) cs /\ vs' = map (nofnat f32ops) (map (m f) cs) /\ forall c, In c cs -> m f c < dc_max_nbins cfg) as (cs & -> & -> & Hcs).
      { clear - HV. induction HV as [|v v' l l' (c & Hc & -> & ->) _ (cs & -> & -> & Hcs)]; [exists []; repeat split; intros c []|]. exists (c :: cs). split; [reflexivity|]. split; [reflexivity|]. intros x [<-|Hx]; [exact Hc|apply Hcs, Hx]. }
      destruct (extremes cs) as (mn & mx & Hmn & Hmx & Hall); [intros ->; destruct Hi2|]. pose proof (Hcs mx Hmx) as Hbx. pose proof (Hge mx) as Hgx.
      assert (forall a b, a <= b -> m f a <= m f b) as Hmle by (intros a b Hab; destruct (Nat.eq_dec a b) as [->|]; [lia|pose proof (Hmon a b ltac:(lia)); lia]).
      assert (forall c, In c (map (m f) cs) -> m f mn <= c <= m f mx) as Hall' by (intros c Hc; apply in_map_iff in Hc as (c0 & <- & Hc0); specialize (Hall c0 Hc0); split; apply Hmle; lia).
      assert (cfold 0 (map (nofnat f32ops) cs) = S mx) as Ecd by (apply codes_card; [exact Hmx|intros c Hc; apply Hall, Hc|lia]).
      assert (cfold 0 (map (nofnat f32ops) (map (m f) cs)) = S (m f mx)) as Ecd' by (apply codes_card; [apply in_map, Hmx|intros c Hc; apply Hall', Hc|lia]).
      assert (is_locard (fts_of cfg f) = true) as Elo by (pose proof (proj2 (cat_fts cfg f) Hin) as X; unfold cat in X; exact X). assert (fts_of cfg f = LoCardCat) as Eft by (unfold fts_of in *; destruct (existsb _ _); [reflexivity|discriminate Elo]).
      rewrite Elo, Ecd, Eft in *. rewrite Ecd' in *. assert (dc_max_nbins cfg <? S mx = false) as E1 by (apply Nat.ltb_ge; lia). assert (dc_max_nbins cfg <? S (m f mx) = false) as E2 by (apply Nat.ltb_ge; lia). rewrite E1 in *. rewrite E2 in *.
      split; [congruence|]. right. exists (S mx), (S (m f mx)). split; [exact T|]. split; [exact C|]. split; [exact C'|]. split.
      { apply in_map_iff in Hi2 as (c & Ec & Hc). pose proof (Hall c Hc). pose proof (Hcs c Hc). pose proof (Hge c). pose proof (f_eq_code c c2 ltac:(lia) ltac:(lia)) as X. rewrite Ec, f_eq_refl in X by (apply code_nan; lia). symmetry in X. apply Nat.eqb_eq in X. lia. }
      split; [exact Hmon|]. split; [intros c Hc; pose proof (Hmle c mx ltac:(lia)); lia|]. split.
      * eexists. eexists. split; [exact F|]. split; [exact F'|]. clear - Hall. assert (forall c, In c cs -> c < S mx) as H by (intros c Hc; specialize (Hall c Hc); lia). clear Hall. induction cs as [|c cs IH]; [constructor|]. cbn [map]. constructor; [exists c; split; [apply H; left; reflexivity|auto]|apply IH; intros x Hx; apply H; right; exact Hx].
      * eexists. eexists. split; [exact L|]. split; [exact L'|]. pose proof (codes_limits cs mn mx Hmn Hmx Hall ltac:(lia)) as X. pose proof (codes_limits (map (m f) cs) (m f mn) (m f mx) (in_map _ _ _ Hmn) (in_map _ _ _ Hmx) Hall' ltac:(lia)) as X'.
        etransitivity; [exact X'|]. etransitivity; [|symmetry; exact X].
        apply eq_true_iff_eq. rewrite !Nat.eqb_eq. split; [|congruence]. intros Heq. pose proof (Hall mn Hmn). destruct (Nat.eq_dec mn mx) as [|Hne]; [assumption|]. pose proof (Hmon mn mx ltac:(lia)). lia.
  - intros f n' Ht Ec. destruct (Nat.lt_ge_cases f (columns_of items')) as [Hf|Hf].
    + destruct (csv_cols cfg' items' f Hf) as (_ & _ & C' & T'). rewrite C' in Ec. apply Ok_inj in Ec. rewrite T' in Ht. destruct (Nat.ltb_spec (dc_max_nbins cfg') n') as [Hb|Hb]; [rewrite Ec in Ht; apply Nat.ltb_lt in Hb; rewrite Hb in Ht; discriminate Ht|lia].
    + exfalso. unfold feat_card in Ec. apply idx_ok in Ec. assert (f < length (d_cards (csv_data cfg' items'))) as X by (apply nth_error_Some; congruence). unfold csv_data in X. cbn [d_cards st_of cs_cards] in X. rewrite map_length, seq_length in X. lia.
Qed.
Print Assumptions C73_csv.

Definition gap_codes (f c : nat) : nat := match f, c with 0, 0 => 0 | 0, 1 => 2 | 0, S (S c) => 5 + c | _, c => c end.
Definition csv_dense : list csv_item := [CsvRecord [Some (fz 0); Some (fz 7)]; CsvRecord [Some (fz 2); Some (fz 9)]].
Definition csv_gaps : list csv_item := [CsvRecord [Some (fz 0); Some (fz 7)]; CsvRecord [Some (fz 5); Some (fz 9)]].
Example C73_csv_ex : renumbered_csv gap_codes (mk_dcfg 16 [0]) (mk_dcfg 16 [0]) csv_dense csv_gaps /\
  match from_csv (mk_dcfg 16 [0]) csv_dense, from_csv (mk_dcfg 16 [0]) csv_gaps with Ok (Done d), Ok (Done d') => (d_cards d, d_cards d') = ([3; 0], [6; 0]) | _, _ => False end.
Proof.
  split; [|vm_compute; reflexivity]. unfold renumbered_csv. cbn [columns_of csv_dense csv_gaps length dc_max_nbins dc_categorical Nat.sub]. split; [reflexivity|]. split; [reflexivity|]. split; [reflexivity|]. split.
  - intros vs Hcol. inversion Hcol as [|it v t vs1 (fl & Ef & Ev) H1]; subst. inversion H1 as [|it2 v2 t2 vs2 (fl2 & Ef2 & Ev2) H2]; subst. inversion H2; subst.
    assert (fl = [Some (fz 0); Some (fz 7)]) as -> by (symmetry; exact (f_equal (fun c => match c with CsvRecord l => l | _ => [] end) Ef)). assert (fl2 = [Some (fz 2); Some (fz 9)]) as -> by (symmetry; exact (f_equal (fun c => match c with CsvRecord l => l | _ => [] end) Ef2)).
    constructor; [eexists; split; [reflexivity|exact Ev]|constructor; [eexists; split; [reflexivity|exact Ev2]|constructor]].
  - intros [|f] Hf; [|lia]. split; [tauto|]. right. split; [left; reflexivity|]. split; [intros [|[|a]] [|[|b]] H; cbn [gap_codes]; lia|].
    exists [fz 0; fz 2], [fz 0; fz 5]. split; [constructor; [eexists; split; reflexivity|constructor; [eexists; split; reflexivity|constructor]]|]. split; [constructor; [eexists; split; reflexivity|constructor; [eexists; split; reflexivity|constructor]]|].
    split; [exists 2; split; [lia|right; left; reflexivity]|]. constructor; [exists 0; repeat split; cbn; lia|]. constructor; [exists 2; repeat split; cbn; lia|]. constructor.
Qed.

(** A column with the categories 0, 1 and 2 as codes 0, 2 and 5: the trees split on it, on the renumbered codes. *)
Definition gap_col : list f32 := [fz 0; fz 2; fz 5; fz 0; fz 0; fz 2].
Definition gap_cfg : config f32ops :=
  @mk_config f32ops String.EmptyString String.EmptyString String.EmptyString [] 2%N true 44%N [0; 1] 3 f_half (fz 0) 1%N (fz 0) (fz 1) 8 4 2 f_half (fz 1) 1%N f_half f_one 1.
Definition gap_s : data f32ops := @mk_data f32ops 8 2 6 [col_b; col_a; col_t] [(fz 0, fz 2); (fz 0, fz 1); (fz 1, fz 13)] [LoCardCat; LoCardCat; Numerical] [3; 2; 0].
Definition gap_d : data f32ops := @mk_data f32ops 8 2 6 [gap_col; col_a; col_t] [(fz 0, fz 5); (fz 0, fz 1); (fz 1, fz 13)] [LoCardCat; LoCardCat; Numerical] [6; 2; 0].
Definition crit_key (c : split_crit f32ops) : bool * nat * nat := (negb (is_no_split c), sc_feature c, into_cat (sc_value c)).
Example C73_ex : renumbered gap_codes gap_s gap_d /\ (1 <= c_min_examples_leaf gap_cfg)%N /\ any_order bst_sched /\ renumbered_rows gap_codes gap_s gap_s gap_d /\
  (forall f n', feat_type_of gap_d f = Ok LoCardCat -> feat_card gap_d f = Ok n' -> (Z.of_nat n' <= 2 ^ 24)%Z) /\
  match boost_train bst_math true gap_cfg gap_s bst_sched L2 [ML2] wide_rng, boost_train bst_math true gap_cfg gap_d bst_sched L2 [ML2] wide_rng with
  | Ok a, Ok a' => (map (fun t => map crit_key (firstn 3 (t_crits t))) (at_trees a), map (fun t => map crit_key (firstn 3 (t_crits t))) (at_trees a')) =
     ([[(true, 0, 2); (false, 0, 0); (true, 0, 1)]; [(true, 1, 0); (false, 0, 0); (false, 0, 0)]; [(true, 1, 0); (false, 0, 0); (false, 0, 0)]],
      [[(true, 0, 5); (false, 0, 0); (true, 0, 2)]; [(true, 1, 0); (false, 0, 0); (false, 0, 0)]; [(true, 1, 0); (false, 0, 0); (false, 0, 0)]])
  | _, _ => False
  end.
Proof.
  assert (renumbered gap_codes gap_s gap_d) as HD.
  { split; [reflexivity|]. split; [reflexivity|]. split; [reflexivity|]. split; [reflexivity|]. split; [reflexivity|]. split; [reflexivity|]. split; [intros col [[<-|[<-|[<-|[]]]]|[<-|[<-|[<-|[]]]]]; reflexivity|].
    intros [|[|f]] Hf; [..|cbn [gap_s d_nfeatures] in Hf; lia]; (split; [reflexivity|]).
    - right. exists 3, 6. split; [reflexivity|]. split; [reflexivity|]. split; [reflexivity|]. split; [lia|]. split; [intros [|[|a]] [|[|b]] H; cbn [gap_codes]; lia|]. split; [intros [|[|[|c]]] H; cbn [gap_codes]; lia|]. split.
      + exists col_b, gap_col. split; [reflexivity|]. split; [reflexivity|]. unfold col_b, gap_col.
        constructor; [exists 0; repeat split; lia|]. constructor; [exists 1; repeat split; lia|]. constructor; [exists 2; repeat split; lia|]. constructor; [exists 0; repeat split; lia|]. constructor; [exists 0; repeat split; lia|]. constructor; [exists 1; repeat split; lia|]. constructor.
      + exists (fz 0, fz 2), (fz 0, fz 5). split; [reflexivity|]. split; [reflexivity|]. vm_compute. reflexivity.
    - left. repeat split. }
  split; [exact HD|]. split; [cbn; lia|]. split; [intros i k js; apply rev_sched_perm|].
  assert (forall f n', feat_type_of gap_d f = Ok LoCardCat -> feat_card gap_d f = Ok n' -> (Z.of_nat n' <= 2 ^ 24)%Z) as HN.
  { intros [|[|[|f]]] n' Ht Ec; [apply Ok_inj in Ec; subst n'; cbn; lia|apply Ok_inj in Ec; subst n'; cbn; lia|discriminate Ht|unfold feat_card in Ec; cbn [gap_d d_cards idx nth_error] in Ec; destruct f; discriminate Ec]. }
  split; [|split; [exact HN|vm_compute; reflexivity]].
  apply (C73_training_rows gap_codes gap_s gap_d HN HD).
Qed.
