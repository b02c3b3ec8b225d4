From Coq Require Import Reals Lra.
From Flocq Require Import Core BinarySingleNaN.
From Verif Require Import Base BaseProofs F32 F32Proofs Num DataModel DataSpec DataProofs.

Lemma upd_map_seq A (f : nat -> A) n i x : upd (map f (seq 0 n)) i x = map (fun k => if k =? i then x else f k) (seq 0 n).
Proof.
  apply nth_error_ext. intros k. rewrite nth_error_upd, !nth_error_map, map_length, seq_length, nth_error_seq.
  destruct (i =? k) eqn:E; destruct (k <? n) eqn:E2; cbn [option_map andb].
  - apply Nat.eqb_eq in E. subst. rewrite E2, Nat.eqb_refl. reflexivity.
  - apply Nat.eqb_eq in E. subst. rewrite E2. reflexivity.
  - rewrite Nat.eqb_sym, E. reflexivity.
  - reflexivity.
Qed.
Lemma idx_map_seq A (f : nat -> A) n i : i < n -> idx (map f (seq 0 n)) i = Ok (f i).
Proof. intros H. apply idx_ok. rewrite nth_error_map, nth_error_seq. replace (i <? n) with true by lia. reflexivity. Qed.
Lemma set_idx_map_seq A (f : nat -> A) n i x : i < n -> set_idx (map f (seq 0 n)) i x = Ok (map (fun k => if k =? i then x else f k) (seq 0 n)).
Proof. intros H. rewrite set_idx_lt by (rewrite map_length, seq_length; exact H). rewrite upd_map_seq. reflexivity. Qed.

Definition val_of (it : csv_item) (k : nat) : f32 :=
  match it with CsvRecord fields => match nth_error fields k with Some (Some v) => v | _ => f_zero end | CsvErr => f_zero end.
Definition okb (cat : nat -> bool) (it : csv_item) (k : nat) : bool :=
  match it with
  | CsvErr => false
  | CsvRecord fields =>
    match nth_error fields k with
    | Some (Some v) => if cat k then match @check_categorical_value f32ops v with Done _ => true | Err => false end else true
    | _ => false
    end
  end.

Definition st_of (L : nat) (fts : nat -> feat_type) (vss : nat -> list f32) : csv_state :=
  mk_csv (map vss (seq 0 L)) (map (fun k => lfold (f_inf, f_ninf) (vss k)) (seq 0 L)) (map fts (seq 0 L))
         (map (fun k => if is_locard (fts k) then cfold 0 (vss k) else 0) (seq 0 L)).

Lemma st_of_ext L fts v1 v2 : (forall k, k < L -> v1 k = v2 k) -> st_of L fts v1 = st_of L fts v2.
Proof.
  intros H. unfold st_of. f_equal; apply map_ext_in; intros k Hk; apply in_seq in Hk; rewrite ?H by lia; reflexivity.
Qed.

Section L.
Variables (L : nat) (fts : nat -> feat_type).
Definition cat (k : nat) := is_locard (fts k).

Lemma csv_value_spec fields i vss : i < L ->
  csv_value (st_of L fts vss) fields i =
  (if okb cat (CsvRecord fields) i
   then Ok (Done (st_of L fts (fun k => if k =? i then vss i ++ [val_of (CsvRecord fields) i] else vss k)))
   else Ok Err).
Proof.
  intros Hi. unfold csv_value, okb, val_of, cat. cbn [st_of cs_features cs_limits cs_ftypes cs_cards].
  destruct (nth_error fields i) as [[v|]|]; try reflexivity.
  rewrite (idx_map_seq _ vss) by exact Hi. cbn [rbind]. rewrite (set_idx_map_seq _ vss) by exact Hi. cbn [rbind].
  rewrite (idx_map_seq _ (fun k => lfold (f_inf, f_ninf) (vss k))) by exact Hi. cbn [rbind].
  rewrite (set_idx_map_seq _ (fun k => lfold (f_inf, f_ninf) (vss k))) by exact Hi. cbn [rbind].
  rewrite (idx_map_seq _ fts) by exact Hi. cbn [rbind].
  assert (map (fun k => if k =? i then @extend_limits f32ops (lfold (f_inf, f_ninf) (vss i)) v else lfold (f_inf, f_ninf) (vss k)) (seq 0 L) =
          map (fun k => lfold (f_inf, f_ninf) (if k =? i then vss i ++ [v] else vss k)) (seq 0 L)) as E1.
  { apply map_ext. intros k. destruct (k =? i); [|reflexivity]. unfold lfold. rewrite fold_left_app. reflexivity. }
  destruct (is_locard (fts i)) eqn:El.
  - destruct (@check_categorical_value f32ops v) as [[]|] eqn:Ec; [|reflexivity].
    rewrite (idx_map_seq _ (fun k => if is_locard (fts k) then cfold 0 (vss k) else 0)) by exact Hi. cbn [rbind].
    rewrite (set_idx_map_seq _ (fun k => if is_locard (fts k) then cfold 0 (vss k) else 0)) by exact Hi. cbn [rbind].
    do 2 f_equal. unfold st_of. f_equal; [exact E1|]. apply map_ext. intros k. destruct (k =? i) eqn:Ek; [|reflexivity].
    apply Nat.eqb_eq in Ek. subst k. rewrite El. unfold cfold. rewrite fold_left_app. reflexivity.
  - do 2 f_equal. unfold st_of. f_equal; [exact E1|]. apply map_ext. intros k. destruct (k =? i) eqn:Ek; [|reflexivity].
    apply Nat.eqb_eq in Ek. subst k. rewrite El. reflexivity.
Qed.

Lemma csv_record_spec fields n : forall a vss, a + n <= L ->
  csv_record fields (seq a n) (st_of L fts vss) =
  (if forallb (okb cat (CsvRecord fields)) (seq a n)
   then Ok (Done (st_of L fts (fun k => if (a <=? k) && (k <? a + n) then vss k ++ [val_of (CsvRecord fields) k] else vss k)))
   else Ok Err).
Proof.
  induction n as [|n IH]; intros a vss H.
  - cbn [seq csv_record forallb]. do 2 f_equal. apply st_of_ext. intros k _. replace ((a <=? k) && (k <? a + 0)) with false by lia. reflexivity.
  - cbn [seq csv_record forallb]. rewrite csv_value_spec by lia.
    destruct (okb cat (CsvRecord fields) a) eqn:E; cbn [rbind andb]; [|reflexivity].
    rewrite IH by lia. destruct (forallb (okb cat (CsvRecord fields)) (seq (S a) n)); [|reflexivity].
    do 2 f_equal. apply st_of_ext. intros k _.
    destruct (k =? a) eqn:Ek.
    + apply Nat.eqb_eq in Ek. subst k. replace ((S a <=? a) && (a <? S a + n)) with false by lia.
      replace ((a <=? a) && (a <? a + S n)) with true by lia. reflexivity.
    + replace ((S a <=? k) && (k <? S a + n)) with ((a <=? k) && (k <? a + S n)) by lia. reflexivity.
Qed.

Lemma csv_records_spec items : forall vss,
  csv_records L items (st_of L fts vss) =
  (if forallb (fun it => forallb (okb cat it) (seq 0 L) && match it with CsvErr => false | _ => true end) items
   then Ok (Done (st_of L fts (fun k => vss k ++ map (fun it => val_of it k) items)))
   else Ok Err).
Proof.
  induction items as [|it t IH]; intros vss.
  - cbn. do 2 f_equal. apply st_of_ext. intros k _. rewrite app_nil_r. reflexivity.
  - cbn [csv_records forallb]. destruct it as [|fields]; [rewrite andb_false_r; reflexivity|]. rewrite andb_true_r.
    rewrite csv_record_spec by lia. destruct (forallb (okb cat (CsvRecord fields)) (seq 0 L)) eqn:E; cbn [rbind andb]; [|reflexivity].
    rewrite IH. match goal with |- context [forallb ?f t] => destruct (forallb f t) end; [|reflexivity].
    do 2 f_equal. apply st_of_ext. intros k Hk. replace ((0 <=? k) && (k <? 0 + L)) with true by lia.
    rewrite <- app_assoc. reflexivity.
Qed.
End L.

Lemma ftypes_start L cats : forall fts,
  fold_left (fun ft c => if c <? L then upd ft c LoCardCat else ft) cats (map fts (seq 0 L)) =
  map (fun k => if existsb (Nat.eqb k) cats then LoCardCat else fts k) (seq 0 L).
Proof.
  induction cats as [|c t IH]; intros fts; [reflexivity|]. cbn [fold_left].
  assert ((if c <? L then upd (map fts (seq 0 L)) c LoCardCat else map fts (seq 0 L)) =
          map (fun k => if k =? c then LoCardCat else fts k) (seq 0 L)) as ->.
  { destruct (c <? L) eqn:E; [apply upd_map_seq|]. apply map_ext_in. intros k Hk. apply in_seq in Hk.
    replace (k =? c) with false by lia. reflexivity. }
  rewrite IH. apply map_ext. intros k. cbn [existsb]. destruct (k =? c); cbn [orb]; destruct (existsb _ t); reflexivity.
Qed.
Lemma repeat_map_seq A (x : A) n : repeat x n = map (fun _ => x) (seq 0 n).
Proof. induction n as [|n IH]; [reflexivity|]. rewrite seq_S, map_app, <- IH. cbn. apply (repeat_cons n x). Qed.

Definition fts_of (cfg : data_config) (k : nat) : feat_type := if existsb (Nat.eqb k) (dc_categorical cfg) then LoCardCat else Numerical.
Lemma csv_start_spec cfg L : csv_start cfg L = st_of L (fts_of cfg) (fun _ => []).
Proof.
  unfold csv_start, st_of. rewrite !repeat_map_seq, ftypes_start. f_equal.
  apply map_ext. intros k. destruct (is_locard _); reflexivity.
Qed.

Definition all_ok (cfg : data_config) (items : list csv_item) : bool :=
  forallb (fun it => forallb (okb (cat (fts_of cfg)) it) (seq 0 (columns_of items)) && match it with CsvErr => false | _ => true end) items.

Definition csv_data (cfg : data_config) (items : list csv_item) : data f32ops :=
  let L := columns_of items in
  let st := st_of L (fts_of cfg) (fun k => map (fun it => val_of it k) items) in
  @mk_data f32ops (dc_max_nbins cfg) (L - 1) (length items) (cs_features st) (cs_limits st) (csv_hicard cfg st) (cs_cards st).

Lemma from_csv_spec cfg items : from_csv cfg items =
  if all_ok cfg items then (if 0 <? columns_of items then Ok (Done (csv_data cfg items)) else Panic) else Ok Err.
Proof.
  unfold from_csv. fold (columns_of items). rewrite csv_start_spec, csv_records_spec. unfold all_ok.
  match goal with |- context [forallb ?f items] => destruct (forallb f items) end; [|reflexivity].
  cbn [rbind app]. destruct (0 <? columns_of items); reflexivity.
Qed.

Lemma cat_fts cfg k : cat (fts_of cfg) k = true <-> In k (dc_categorical cfg).
Proof.
  unfold cat, fts_of. destruct (existsb (Nat.eqb k) (dc_categorical cfg)) eqn:E; cbn [is_locard].
  - apply existsb_exists in E as (x & Hx & Ex). apply Nat.eqb_eq in Ex. subst. tauto.
  - split; [discriminate|]. intros H. assert (existsb (Nat.eqb k) (dc_categorical cfg) = true) by (apply existsb_exists; exists k; rewrite Nat.eqb_refl; auto). congruence.
Qed.

Lemma okb_spec cfg it k : okb (cat (fts_of cfg)) it k = true <->
  exists fields, it = CsvRecord fields /\ nth_error fields k = Some (Some (val_of it k)) /\ (In k (dc_categorical cfg) -> valid_category (val_of it k)).
Proof.
  pose proof (cat_fts cfg k) as HC. destruct it as [|fields]; cbn [okb val_of].
  - split; [discriminate|intros (f & E & _); discriminate].
  - destruct (nth_error fields k) as [[v|]|] eqn:E.
    + destruct (cat (fts_of cfg) k).
      * pose proof (check_cat_ok v) as HV. destruct (@check_categorical_value f32ops v) as [[]|] eqn:Ec; split.
        -- intros _. exists fields. repeat split; auto. intros _. apply HV. reflexivity.
        -- reflexivity.
        -- discriminate.
        -- intros (f & Ef & _ & H). specialize (H (proj1 HC eq_refl)). apply HV in H. discriminate.
      * split; [|reflexivity]. intros _. exists fields. repeat split; auto. intros H. apply HC in H. discriminate.
    + split; [discriminate|]. intros (f & Ef & H & _). injection Ef as <-. congruence.
    + split; [discriminate|]. intros (f & Ef & H & _). injection Ef as <-. congruence.
Qed.

Lemma column_val items k vs : column items k vs -> vs = map (fun it => val_of it k) items.
Proof.
  induction 1 as [|it v t vs (f & -> & E) _ IH]; [reflexivity|]. cbn [map]. f_equal; [|exact IH]. cbn [val_of]. rewrite E. reflexivity.
Qed.

Lemma all_ok_spec cfg items : 0 < columns_of items -> (all_ok cfg items = true <-> acceptable (dc_categorical cfg) items).
Proof.
  intros HL. unfold all_ok, acceptable. rewrite forallb_forall. split.
  - intros H. split; [exact HL|]. intros j Hj. exists (map (fun it => val_of it j) items).
    assert (forall it, In it items -> exists fields, it = CsvRecord fields /\ nth_error fields j = Some (Some (val_of it j)) /\ (In j (dc_categorical cfg) -> valid_category (val_of it j))) as H'.
    { intros it Hit. specialize (H it Hit). apply andb_true_iff in H as (H & _). rewrite forallb_forall in H. apply okb_spec, H, in_seq. lia. }
    clear H. split.
    + clear HL Hj. unfold column. induction items as [|it t IH]; [constructor|]. cbn [map]. constructor.
      * destruct (H' it (or_introl eq_refl)) as (f & -> & E & _). exists f. auto.
      * apply IH. intros x Hx. apply H'. right. exact Hx.
    + intros Hc. apply Forall_forall. intros v Hv. apply in_map_iff in Hv as (it & <- & Hit).
      destruct (H' it Hit) as (_ & _ & _ & V). exact (V Hc).
  - intros (_ & H) it Hit. apply andb_true_iff. split.
    + apply forallb_forall. intros k Hk. apply in_seq in Hk. destruct (H k) as (vs & Hcol & Hv); [lia|]. apply okb_spec.
      pose proof (column_val _ _ _ Hcol) as Evs. 
      assert (exists fields, it = CsvRecord fields /\ nth_error fields k = Some (Some (val_of it k))) as (f & Ef & Ev).
      { clear -Hcol Hit. induction Hcol as [|it' v t vs (f & -> & E) _ IH]; [destruct Hit|]. destruct Hit as [<-|Hit]; [|apply IH, Hit].
        exists f. cbn [val_of]. rewrite E. auto. }
      exists f. repeat split; [exact Ef|exact Ev|]. intros Hc. specialize (Hv Hc). rewrite Forall_forall in Hv. apply Hv. rewrite Evs.
      apply (in_map (fun it => val_of it k)), Hit.
    + destruct (H 0) as (vs & Hcol & _); [lia|]. clear -Hcol Hit.
      induction Hcol as [|it' v t vs (f & -> & E) _ IH]; [destruct Hit|]. destruct Hit as [<-|Hit]; [reflexivity|apply IH, Hit].
Qed.

(** set_feature_data *)
Lemma set_loop_num vs : forall i (feat : list f32) lim card, i + length vs = length feat ->
  @set_feature_loop f32ops false i vs feat lim card = (firstn i feat ++ vs, lfold lim vs, card, Done tt).
Proof.
  induction vs as [|v t IH]; intros i feat lim card H; cbn [set_feature_loop].
  - cbn in H. rewrite Nat.add_0_r in H. rewrite app_nil_r, H, firstn_all. reflexivity.
  - cbn [length] in H. change (num f32ops) with f32 in *. rewrite IH by (rewrite upd_length; lia). unfold lfold. cbn [fold_left]. do 3 f_equal.
    apply nth_error_ext. intros k.
    assert (firstn (S i) (upd feat i v) = firstn i feat ++ [v]) as ->; [|rewrite <- app_assoc; reflexivity].
    apply nth_error_ext. intros j. rewrite nth_error_firstn, nth_error_upd.
    destruct (Nat.lt_trichotomy j i) as [Hj|[->|Hj]].
    + rewrite nth_error_app1 by (rewrite firstn_length; lia). rewrite nth_error_firstn. replace (i =? j) with false by lia.
      replace (j <? S i) with true by lia. replace (j <? i) with true by lia. reflexivity.
    + rewrite nth_error_app2 by (rewrite firstn_length; lia). rewrite firstn_length. replace (i - Nat.min i (length feat)) with 0 by lia.
      rewrite Nat.eqb_refl. replace (i <? S i) with true by lia. replace (i <? length feat) with true by lia. reflexivity.
    + rewrite (proj2 (nth_error_None (firstn i feat ++ [v]) j)) by (rewrite app_length, firstn_length; cbn; lia).
      replace (j <? S i) with false by lia. reflexivity.
Qed.
Lemma set_loop_cat vs : forall i (feat : list f32) lim card, i + length vs = length feat -> Forall valid_category vs ->
  @set_feature_loop f32ops true i vs feat lim card = (firstn i feat ++ vs, lfold lim vs, cfold card vs, Done tt).
Proof.
  induction vs as [|v t IH]; intros i feat lim card H Hv; cbn [set_feature_loop].
  - cbn in H. rewrite Nat.add_0_r in H. rewrite app_nil_r, H, firstn_all. reflexivity.
  - cbn [length] in H. inversion Hv as [|? ? Hv1 Hv2]; subst. apply check_cat_ok in Hv1. rewrite Hv1.
    change (num f32ops) with f32 in *. rewrite IH by (try assumption; rewrite upd_length; lia).
    pose proof (set_loop_num (v :: t) i feat lim 0 H) as E. cbn [set_feature_loop] in E. change (num f32ops) with f32 in *.
    rewrite set_loop_num in E by (rewrite upd_length; change (num f32ops) with f32; cbn [length] in *; lia). pose proof (f_equal (fun p => fst (fst (fst p))) E) as E1. cbn [fst] in E1. rewrite E1. reflexivity.
Qed.
(** An invalid category: the values up to and including the first invalid one are written, the rest is kept. *)
Lemma set_loop_err pre : forall v post i (feat : list f32) lim card, i + length (pre ++ v :: post) = length feat -> Forall valid_category pre -> ~ valid_category v ->
  exists lim' card', @set_feature_loop f32ops true i (pre ++ v :: post) feat lim card = (firstn i feat ++ pre ++ [v] ++ skipn (i + length pre + 1) feat, lim', card', Err).
Proof.
  induction pre as [|x t IH]; intros v post i feat lim card H Hv Hn.
  - cbn [app set_feature_loop length] in *. apply check_cat_err in Hn. rewrite Hn. do 2 eexists. do 3 f_equal.
    apply nth_error_ext. intros j. rewrite nth_error_upd. change (num f32ops) with f32 in *.
    destruct (Nat.lt_trichotomy j i) as [Hj|[->|Hj]].
    + rewrite nth_error_app1 by (rewrite firstn_length; lia). rewrite nth_error_firstn. replace (i =? j) with false by lia. replace (j <? i) with true by lia. reflexivity.
    + rewrite nth_error_app2 by (rewrite firstn_length; lia). rewrite firstn_length. replace (i - Nat.min i (length feat)) with 0 by lia.
      rewrite Nat.eqb_refl. replace (i <? length feat) with true by lia. reflexivity.
    + rewrite nth_error_app2 by (rewrite firstn_length; lia). rewrite firstn_length. replace (j - Nat.min i (length feat)) with (S (j - i - 1)) by lia.
      cbn [nth_error]. rewrite nth_error_skipn. replace (i =? j) with false by lia. cbn [andb]. f_equal. lia.
  - cbn [app set_feature_loop length] in *. inversion Hv as [|? ? Hv1 Hv2]; subst. apply check_cat_ok in Hv1. rewrite Hv1.
    change (num f32ops) with f32 in *.
    destruct (IH v post (S i) (upd feat i x) (@extend_limits f32ops lim x) (Nat.max card (1 + @into_cat f32ops x))) as (l' & c' & E); [rewrite upd_length; lia|assumption..|].
    change (num f32ops) with f32 in *. rewrite E. exists l', c'. do 3 f_equal.
    apply nth_error_ext. intros j.
    assert (firstn (S i) (upd feat i x) = firstn i feat ++ [x]) as ->.
    { apply nth_error_ext. intros k. rewrite nth_error_firstn, nth_error_upd.
      destruct (Nat.lt_trichotomy k i) as [Hj|[->|Hj]].
      - rewrite nth_error_app1 by (rewrite firstn_length; lia). rewrite nth_error_firstn. replace (i =? k) with false by lia.
        replace (k <? S i) with true by lia. replace (k <? i) with true by lia. reflexivity.
      - rewrite nth_error_app2 by (rewrite firstn_length; lia). rewrite firstn_length. replace (i - Nat.min i (length feat)) with 0 by lia.
        rewrite Nat.eqb_refl. replace (i <? S i) with true by lia. rewrite app_length in H. cbn in H. replace (i <? length feat) with true by lia. reflexivity.
      - rewrite (proj2 (nth_error_None (firstn i feat ++ [x]) k)) by (rewrite app_length, firstn_length; cbn; lia).
        replace (k <? S i) with false by lia. reflexivity. }
    assert (skipn (S i + length t + 1) (upd feat i x) = skipn (i + S (length t) + 1) feat) as ->; [|rewrite <- !app_assoc; reflexivity].
    apply nth_error_ext. intros k. rewrite !nth_error_skipn, nth_error_upd. replace (i =? S i + length t + 1 + k) with false by lia. cbn [andb]. f_equal. lia.
Qed.
