(** Properties C35, C36: loading data. *)
From Coq Require Import Reals Lra.
From Flocq Require Import Core BinarySingleNaN.
From Verif Require Import Base BaseProofs F32 F32Proofs Num DataModel DataSpec DataProofs DataProofs2.

(* ---- C35 ---- *)

(** Which values are accepted as categories. *)
Theorem C35_categories : forall v : f32, @check_categorical_value f32ops v = Done tt <-> valid_category v.
Proof. exact check_cat_ok. Qed.
Print Assumptions C35_categories.

(** A table is loaded exactly when it is acceptable; otherwise an error is returned (a table without any field
    panics). *)
Theorem C35_load : forall cfg items, 0 < columns_of items ->
  (acceptable (dc_categorical cfg) items -> exists d, from_csv cfg items = Ok (Done d)) /\
  (~ acceptable (dc_categorical cfg) items -> from_csv cfg items = Ok Err).
Proof.
  intros cfg items H. rewrite from_csv_spec. replace (0 <? columns_of items) with true by lia. rewrite <- (all_ok_spec cfg items H).
  destruct (all_ok cfg items); split; intros HH; try congruence. eexists. reflexivity.
Qed.
Print Assumptions C35_load.
Theorem C35_no_records_panics : forall cfg, from_csv cfg [] = Panic.
Proof. intros cfg. rewrite from_csv_spec. reflexivity. Qed.
Print Assumptions C35_no_records_panics.

(** What is recorded for every column [j] (the target is the last one): its values, their limits, its cardinality
    and its kind. *)
Theorem C35_columns : forall cfg items d, from_csv cfg items = Ok (Done d) ->
  d_nexamples d = length items /\ d_nfeatures d + 1 = columns_of items /\
  forall j, j <= d_nfeatures d ->
  exists vs lo hi card ft,
    column items j vs /\ get_feature d j = Ok vs /\
    feat_limits d j = Ok (lo, hi) /\ limits_of vs lo hi /\
    feat_card d j = Ok card /\ feat_type_of d j = Ok ft /\
    (In j (dc_categorical cfg) -> cardinality vs card /\ (ft = HiCardCat <-> dc_max_nbins cfg < card) /\ (ft = LoCardCat <-> card <= dc_max_nbins cfg)) /\
    (~ In j (dc_categorical cfg) -> card = 0 /\ ft = Numerical).
Proof.
  intros cfg items d E. rewrite from_csv_spec in E. destruct (all_ok cfg items) eqn:Ea; [|discriminate].
  destruct (0 <? columns_of items) eqn:Ec; [|discriminate]. injection E as <-. apply Nat.ltb_lt in Ec. 
  pose proof (proj1 (all_ok_spec cfg items Ec) Ea) as (_ & Hcols).
  unfold csv_data. cbn [d_nexamples d_nfeatures]. split; [reflexivity|]. split; [lia|]. intros j Hj.
  assert (j < columns_of items) as Hj' by lia. destruct (Hcols j Hj') as (vs & Hcol & Hv). pose proof (column_val _ _ _ Hcol) as Evs.
  set (L := columns_of items) in *.
  exists vs, (fst (lfold (f_inf, f_ninf) vs)), (snd (lfold (f_inf, f_ninf) vs)).
  set (card := if is_locard (fts_of cfg j) then cfold 0 vs else 0).
  exists card, (if dc_max_nbins cfg <? card then HiCardCat else fts_of cfg j).
  split; [exact Hcol|]. unfold get_feature, feat_limits, feat_card, feat_type_of. cbn [d_features d_limits d_cards d_ftypes st_of cs_features cs_limits cs_cards].
  split; [rewrite idx_map_seq by exact Hj'; rewrite <- Evs; reflexivity|].
  split; [rewrite (idx_map_seq _ (fun k => lfold (f_inf, f_ninf) (map (fun it => val_of it k) items))) by exact Hj'; rewrite <- Evs, <- surjective_pairing; reflexivity|].
  split; [apply lfold_limits|].
  split; [rewrite (idx_map_seq _ (fun k => if is_locard (fts_of cfg k) then cfold 0 (map (fun it => val_of it k) items) else 0)) by exact Hj'; rewrite <- Evs; reflexivity|].
  split.
  { unfold csv_hicard. cbn [st_of cs_ftypes cs_cards]. apply idx_ok. rewrite nth_error_map.
    assert (nth_error (combine (map (fts_of cfg) (seq 0 L)) (map (fun k => if is_locard (fts_of cfg k) then cfold 0 (map (fun it => val_of it k) items) else 0) (seq 0 L))) j
            = Some (fts_of cfg j, card)) as ->; [|reflexivity].
    assert (forall A B (f : nat -> A) (g : nat -> B) l, combine (map f l) (map g l) = map (fun k => (f k, g k)) l) as Hcm.
    { intros A B f g. induction l as [|x t IH]; [reflexivity|]. cbn. rewrite IH. reflexivity. }
    rewrite Hcm, nth_error_map, nth_error_seq. replace (j <? L) with true by lia. cbn [option_map]. rewrite <- Evs. reflexivity. }
  pose proof (cat_fts cfg j) as HC. unfold cat in HC. split.
  - intros Hin. pose proof (proj2 HC Hin) as Hl. unfold card. rewrite Hl. clear card.
    assert (vs <> []) as Hne by (intros ->; inversion Hcol; subst; cbv in Ec; lia).
    split; [apply cfold_cardinality; [exact Hne|apply Hv, Hin]|].
    destruct (fts_of cfg j) eqn:Ef; try discriminate Hl.
    destruct (dc_max_nbins cfg <? cfold 0 vs) eqn:Em; [apply Nat.ltb_lt in Em|apply Nat.ltb_ge in Em].
    + split; split; intros; try congruence; try reflexivity. exfalso. eapply Nat.lt_irrefl, Nat.lt_le_trans; eassumption.
    + split; split; intros; try congruence; try reflexivity; try discriminate. exfalso. eapply Nat.lt_irrefl, Nat.lt_le_trans; eassumption.
  - intros Hin. unfold card, fts_of in *. destruct (existsb (Nat.eqb j) (dc_categorical cfg)); [exfalso; apply Hin, HC; reflexivity|].
    cbn [is_locard]. split; reflexivity.
Qed.
Print Assumptions C35_columns.

(** The target is the last column of the file. *)
Theorem C35_target : forall cfg items d, from_csv cfg items = Ok (Done d) ->
  exists vs, column items (columns_of items - 1) vs /\ get_target d = Ok vs.
Proof.
  intros cfg items d E. destruct (C35_columns _ _ _ E) as (_ & Hc & H). destruct (H (d_nfeatures d) (le_n _)) as (vs & _ & _ & _ & _ & Hv & Hg & _).
  exists vs. rewrite <- Hc, Nat.add_sub. split; [exact Hv|exact Hg].
Qed.
Print Assumptions C35_target.

Lemma ok_done : forall A (m : res (result A)) (P : A -> Prop),
  match m with Ok (Done d) => P d | _ => False end -> exists d, m = Ok (Done d) /\ P d.
Proof. intros A [[d|]| | |] P H; try contradiction. exists d. auto. Qed.
Lemma ok_pair : forall A B (m : res (A * result B)) (P : A -> Prop) x,
  match m with Ok (d, Done y) => x = y /\ P d | _ => False end -> exists d, m = Ok (d, Done x) /\ P d.
Proof. intros A B [[d [y|]]| | |] P x H; try contradiction. destruct H as [-> H]. exists d. auto. Qed.

(** A table with a categorical column (0), a numerical column with a NaN (1) and a target (2). *)
Definition ex_items : list csv_item :=
  map (fun r => CsvRecord (map Some r)) [[f_of_Z 0; f_of_Z 5; f_of_Z 1]; [f_of_Z 3; f_nan; f_of_Z 2]; [f_of_Z 1; f_of_Z 2; f_of_Z 3]].
Example C35_ex : exists d, from_csv (mk_dcfg 16 [0; 9]) ex_items = Ok (Done d) /\ d_cards d = [4; 0; 0] /\
  d_ftypes d = [LoCardCat; Numerical; Numerical] /\ map (fun l => f_eq (fst l) (f_of_Z 2) && f_eq (snd l) (f_of_Z 5)) (d_limits d) = [false; true; false].
Proof. apply ok_done. vm_compute. auto. Qed.
(** ... and rejected because of a fractional, a negative or a NaN category. *)
Example C35_ex_rejected : forall v, In v [f_div (f_of_Z 1) (f_of_Z 2); f_of_Z (-1); f_nan; f_ninf] ->
  from_csv (mk_dcfg 16 [0]) [CsvRecord [Some v; Some f_zero]] = Ok Err.
Proof.
  assert (forall (m : res (result (data f32ops))), match m with Ok Err => true | _ => false end = true -> m = Ok Err) as L.
  { intros [[d|]| | |]; try discriminate. reflexivity. }
  intros v H. apply L. repeat (destruct H as [<-|H]; [vm_compute; reflexivity|]). destruct H.
Qed.

(* ---- C36 ---- *)

(** Feature data set on a fresh data set: same column, same cardinality and kind as when loaded from CSV
    (C35_columns); the limits are those of the column extended by the value 0. *)
Theorem C36_fresh : forall cfg nfeatures f (vs : list f32) categorical, f <= nfeatures -> vs <> [] ->
  (categorical = true -> Forall valid_category vs) ->
  exists d lo hi card ft,
    set_feature_data (data_empty f32ops cfg nfeatures (length vs)) f vs categorical = Ok (d, Done tt) /\
    get_feature d f = Ok vs /\
    feat_limits d f = Ok (lo, hi) /\ smallest (f_zero :: vs) lo /\ largest (f_zero :: vs) hi /\
    feat_card d f = Ok card /\ feat_type_of d f = Ok ft /\
    (categorical = true -> cardinality vs card /\ (ft = HiCardCat <-> dc_max_nbins cfg < card) /\ (ft = LoCardCat <-> card <= dc_max_nbins cfg)) /\
    (categorical = false -> card = 0 /\ ft = Numerical) /\
    d_nexamples d = length vs /\ d_nfeatures d = nfeatures /\
    forall g, g <> f -> get_feature d g = get_feature (data_empty f32ops cfg nfeatures (length vs)) g /\
                        feat_limits d g = feat_limits (data_empty f32ops cfg nfeatures (length vs)) g /\
                        feat_card d g = feat_card (data_empty f32ops cfg nfeatures (length vs)) g /\
                        feat_type_of d g = feat_type_of (data_empty f32ops cfg nfeatures (length vs)) g.
Proof.
  intros cfg nf f vs categorical Hf Hne Hv.
  assert (forall A (x : A), nth_error (repeat x (nf + 1)) f = Some x) as Hrep by (intros; apply nth_error_repeat; lia).
  assert (forall A (x : A), idx (repeat x (nf + 1)) f = Ok x) as Hidx by (intros; apply idx_ok, Hrep).
  unfold set_feature_data, data_empty. cbn [d_nexamples d_features d_limits d_cards d_ftypes d_max_nbins d_nfeatures].
  rewrite Nat.eqb_refl. cbn [rassert rbind]. rewrite !Hidx. cbn [rbind]. rewrite repeat_length, Nat.eqb_refl. cbn [rassert rbind].
  set (card := if categorical then cfold 0 vs else 0).
  set (lim := lfold (f_zero, f_zero) vs).
  assert (@set_feature_loop f32ops categorical 0 vs (repeat (nofZ f32ops 0) (length vs)) (nofZ f32ops 0, nofZ f32ops 0) 0 = (vs, lim, card, Done tt)) as E.
  { unfold card. destruct categorical.
    - rewrite set_loop_cat; [reflexivity|rewrite repeat_length; reflexivity|apply Hv; reflexivity].
    - rewrite set_loop_num; [reflexivity|rewrite repeat_length; reflexivity]. }
  change (num f32ops) with f32 in *. rewrite E.
  set (ft := if categorical then if dc_max_nbins cfg <? card then HiCardCat else LoCardCat else Numerical).
  eexists. exists (fst lim), (snd lim), card, ft. split; [reflexivity|].
  unfold get_feature, feat_limits, feat_card, feat_type_of. cbn [d_features d_limits d_cards d_ftypes d_nexamples d_nfeatures].
  assert (forall A (x y : A), idx (upd (repeat x (nf + 1)) f y) f = Ok y) as Hupd.
  { intros A x y. apply idx_ok. rewrite nth_error_upd, Nat.eqb_refl, repeat_length. replace (f <? nf + 1) with true by lia. reflexivity. }
  rewrite !Hupd. split; [reflexivity|]. split; [rewrite <- surjective_pairing; reflexivity|].
  unfold lim. rewrite lfold_fst, lfold_snd. cbn [fst snd].
  destruct (minfold vs f_zero eq_refl) as (A1 & A2 & A3 & A4). destruct (maxfold vs f_zero eq_refl) as (B1 & B2 & B3 & B4). cbv zeta in *.
  split. { split; [destruct A2 as [->|A2]; [left; reflexivity|right; exact A2]|]. split; [exact A1|]. intros v [<-|Hin] Nv; [exact A3|exact (A4 v Hin Nv)]. }
  split. { split; [destruct B2 as [->|B2]; [left; reflexivity|right; exact B2]|]. split; [exact B1|]. intros v [<-|Hin] Nv; [exact B3|exact (B4 v Hin Nv)]. }
  split; [reflexivity|]. split; [reflexivity|]. split.
  { intros ->. unfold ft, card. split; [apply cfold_cardinality; auto|].
    destruct (dc_max_nbins cfg <? cfold 0 vs) eqn:Em; [apply Nat.ltb_lt in Em|apply Nat.ltb_ge in Em];
    split; split; intros; try congruence; try reflexivity; try discriminate; exfalso; eapply Nat.lt_irrefl, Nat.lt_le_trans; eassumption. }
  split; [intros ->; split; reflexivity|]. split; [reflexivity|]. split; [reflexivity|].
  intros g Hg. unfold idx. rewrite !nth_error_upd. replace (f =? g) with false by lia. cbn [andb]. auto.
Qed.
Print Assumptions C36_fresh.

Example C36_ex : exists d, set_feature_data (data_empty f32ops (mk_dcfg 16 []) 1 2) 0 [f_of_Z 3; f_of_Z 1] true = Ok (d, Done tt) /\
  d_cards d = [4; 0] /\ d_ftypes d = [LoCardCat; Numerical].
Proof. apply ok_pair. vm_compute. auto. Qed.

(** The reported limits of feature [f] equal [lo] and [hi] (float comparison). *)
Definition limits_are (d : data f32ops) (f : nat) (lo hi : f32) : Prop :=
  match feat_limits d f with Ok (l, h) => f_eq l lo = true /\ f_eq h hi = true | _ => False end.

(** The limits are not those of the column (the CSV path gives 5 and 7): a data set starts with limits (0, 0). *)
Theorem C36_limits_refuted :
  (exists d, set_feature_data (data_empty f32ops (mk_dcfg 16 []) 1 2) 0 [f_of_Z 5; f_of_Z 7] false = Ok (d, Done tt) /\
     limits_are d 0 f_zero (f_of_Z 7)) /\
  (exists d', from_csv (mk_dcfg 16 []) [CsvRecord [Some (f_of_Z 5); Some f_zero]; CsvRecord [Some (f_of_Z 7); Some f_zero]] = Ok (Done d') /\
     limits_are d' 0 (f_of_Z 5) (f_of_Z 7)).
Proof. split; [apply ok_pair|apply ok_done]; vm_compute; auto. Qed.
Print Assumptions C36_limits_refuted.

(** Setting feature data again replaces the column but extends the previous limits and cardinality. *)
Theorem C36_replace : forall (d : data f32ops) f (vs old : list f32) lim card ft (categorical : bool), get_feature d f = Ok old -> feat_limits d f = Ok lim ->
  feat_card d f = Ok card -> feat_type_of d f = Ok ft -> length vs = d_nexamples d -> length old = d_nexamples d ->
  (categorical = true -> Forall valid_category vs) ->
  exists d', set_feature_data d f vs categorical = Ok (d', Done tt) /\ get_feature d' f = Ok vs /\
    feat_limits d' f = Ok (fold_left f_min vs (fst lim), fold_left f_max vs (snd lim)) /\
    (categorical = false -> feat_card d' f = Ok card /\ feat_type_of d' f = Ok ft) /\
    (categorical = true -> exists card', feat_card d' f = Ok card' /\ card <= card').
Proof.
  intros d f vs old lim card ft categorical E1 E2 E3 E4 H1 H2 Hv. unfold set_feature_data.
  unfold get_feature, feat_limits, feat_card, feat_type_of in *. change (num f32ops) with f32 in *. rewrite H1, Nat.eqb_refl. cbn [rassert rbind]. rewrite E1, E2, E3. cbn [rbind].
  change (num f32ops) with f32 in *. rewrite H2, Nat.eqb_refl. cbn [rassert rbind].
  assert (set_feature_loop (O := f32ops) categorical 0 vs old lim card = (vs, lfold lim vs, if categorical then cfold card vs else card, Done tt)) as E.
  { destruct categorical; [rewrite set_loop_cat|rewrite set_loop_num]; try reflexivity; try (apply Hv; reflexivity); exact (eq_trans H1 (eq_sym H2)). }
  change (num f32ops) with f32 in *. rewrite E, E4. cbn [rbind].
  assert (forall A (l : list A) x y, idx l f = Ok x -> idx (upd l f y) f = Ok y) as Hupd.
  { intros A l x y H. apply idx_ok in H. apply idx_ok. rewrite nth_error_upd, Nat.eqb_refl.
    assert (f < length l) by (apply nth_error_Some; congruence). replace (f <? length l) with true by lia. reflexivity. }
  eexists. split; [reflexivity|]. cbn [d_features d_limits d_cards d_ftypes].
  split; [eapply Hupd, E1|]. split; [erewrite Hupd by exact E2; rewrite <- lfold_fst, <- lfold_snd, <- surjective_pairing; reflexivity|].
  split; intros ->.
  - split; [eapply Hupd, E3|eapply Hupd, E4].
  - eexists. split; [eapply Hupd, E3|]. apply cfold_spec.
Qed.
Print Assumptions C36_replace.

(** So replacing feature data does not forget the previous data: the limits of [1; 2] after [-4; 9] stay (-4, 9), and a
    column once declared categorical stays so, with its old cardinality. *)
Theorem C36_replace_refuted :
  (exists d1, set_feature_data (data_empty f32ops (mk_dcfg 16 []) 1 2) 0 [f_of_Z (-4); f_of_Z 9] false = Ok (d1, Done tt) /\
     exists d2, set_feature_data d1 0 [f_of_Z 1; f_of_Z 2] false = Ok (d2, Done tt) /\ limits_are d2 0 (f_of_Z (-4)) (f_of_Z 9)) /\
  (exists d3, set_feature_data (data_empty f32ops (mk_dcfg 16 []) 1 2) 0 [f_of_Z 0; f_of_Z 9] true = Ok (d3, Done tt) /\
     exists d4, set_feature_data d3 0 [f_of_Z 1; f_of_Z 2] false = Ok (d4, Done tt) /\
       feat_card d4 0 = Ok 10 /\ feat_type_of d4 0 = Ok LoCardCat).
Proof.
  split.
  - assert (match set_feature_data (data_empty f32ops (mk_dcfg 16 []) 1 2) 0 [f_of_Z (-4); f_of_Z 9] false with
            | Ok (d1, Done tt) => match set_feature_data d1 0 [f_of_Z 1; f_of_Z 2] false with
                | Ok (d2, Done y) => tt = y /\ limits_are d2 0 (f_of_Z (-4)) (f_of_Z 9) | _ => False end
            | _ => False end) as H by (vm_compute; auto).
    apply ok_pair. destruct set_feature_data as [[d1 [[]|]]| | |]; try contradiction. split; [reflexivity|apply ok_pair, H].
  - assert (match set_feature_data (data_empty f32ops (mk_dcfg 16 []) 1 2) 0 [f_of_Z 0; f_of_Z 9] true with
            | Ok (d1, Done tt) => match set_feature_data d1 0 [f_of_Z 1; f_of_Z 2] false with
                | Ok (d2, Done y) => tt = y /\ feat_card d2 0 = Ok 10 /\ feat_type_of d2 0 = Ok LoCardCat | _ => False end
            | _ => False end) as H by (vm_compute; auto).
    apply ok_pair. destruct set_feature_data as [[d1 [[]|]]| | |]; try contradiction. split; [reflexivity|apply ok_pair, H].
Qed.
Print Assumptions C36_replace_refuted.

(** An invalid category is reported, and the column is left half written: the values up to and including the invalid
    one are new, the others old. *)
Theorem C36_error : forall (d : data f32ops) f pre v post (old : list f32) lim card ft, get_feature d f = Ok old -> feat_limits d f = Ok lim ->
  feat_card d f = Ok card -> feat_type_of d f = Ok ft -> length (pre ++ v :: post) = d_nexamples d -> length old = d_nexamples d ->
  Forall valid_category pre -> ~ valid_category v ->
  exists d', set_feature_data d f (pre ++ v :: post) true = Ok (d', Err) /\
    get_feature d' f = Ok (pre ++ [v] ++ skipn (length pre + 1) old) /\ feat_type_of d' f = Ok ft.
Proof.
  intros d f pre v post old lim card ft E1 E2 E3 E4 H1 H2 Hv Hn. unfold set_feature_data.
  unfold get_feature, feat_limits, feat_card, feat_type_of in *. change (num f32ops) with f32 in *. rewrite H1, Nat.eqb_refl. cbn [rassert rbind]. rewrite E1, E2, E3. cbn [rbind].
  change (num f32ops) with f32 in *. rewrite H2, Nat.eqb_refl. cbn [rassert rbind].
  destruct (set_loop_err pre v post 0 old lim card) as (l' & c' & E); [lia|assumption..|].
  change (num f32ops) with f32 in *. rewrite E, E4. cbn [rbind firstn app plus].
  assert (forall A (l : list A) x y, idx l f = Ok x -> idx (upd l f y) f = Ok y) as Hupd.
  { intros A l x y H. apply idx_ok in H. apply idx_ok. rewrite nth_error_upd, Nat.eqb_refl.
    assert (f < length l) by (apply nth_error_Some; congruence). replace (f <? length l) with true by lia. reflexivity. }
  eexists. split; [reflexivity|]. cbn [d_features d_limits d_cards d_ftypes]. split; [eapply Hupd, E1|eapply Hupd, E4].
Qed.
Print Assumptions C36_error.
