(** Property C24: training and prediction route alike. *)
From Coq Require Import Reals Lra Sorting.Sorted.
From Flocq Require Import Core BinarySingleNaN.
From Verif Require Import Base BaseProofs BitModel BitSpec Num F32 F32Proofs DataModel DataSpec BinnerModel Config TreeModel
  DatasetModel DatasetSpec DatasetProofs3 DatasetProofs4 DatasetProofs5 DatasetProofs6 DatasetProps.
Local Close Scope R_scope.

(** The criterion of a split on bin [b] of feature [f], learner.rs:322-335. *)
Definition split_on {O} (s : dataset O) (f b : nat) (c : split_crit O) : Prop :=
  sc_feature c = f /\ get_split_value s f b = Ok (sc_value c) /\
  exists ft, feat_type_of (in_data (ds_inner s)) f = Ok ft /\
    sc_type c = match ft with LoCardCat => LoCardCatEq | HiCardCat => HiCardCatLt | Numerical => NumLt end.

(** The mask [x] of bin [b] (the examples going left in training) agrees with prediction through the criterion [c] on every example. *)
Definition routes_alike {O} (s : dataset O) (t : tree O) (c : split_crit O) (x : blocks) (ex : list nat) : Prop :=
  forall i j col v, nth_error ex i = Some j -> get_feature (in_data (ds_inner s)) (sc_feature c) = Ok col -> nth_error col j = Some v ->
  goes_left t c v = Ok (Some (bbit x i)).

Lemma f_eq_key x y : is_nan x = false -> is_nan y = false -> f_eq x y = true <-> key x = key y.
Proof.
  intros Nx Ny. unfold f_eq. destruct (is_finite x) eqn:Fx, (is_finite y) eqn:Fy.
  - rewrite Beqb_correct by assumption. rewrite !key_finite by assumption. destruct (Req_bool_spec (B2R x) (B2R y)); split; intros; try reflexivity; try assumption; try discriminate; contradiction.
  - pose proof (key_finite_strict x Fx) as Hs. destruct y as [|[|]| |]; try discriminate; cbn [key]; (split; [|lra]); destruct x as [[|]| | |[|] ? ? ?]; discriminate.
  - pose proof (key_finite_strict y Fy) as Hs. destruct x as [|[|]| |]; try discriminate; cbn [key]; (split; [|lra]); destruct y as [[|]| | |[|] ? ? ?]; discriminate.
  - pose proof M_pos as HM. destruct x as [|[|]| |]; try discriminate; destruct y as [|[|]| |]; try discriminate; cbn [key]; split; intros H; try reflexivity; try discriminate; lra.
Qed.

Lemma into_cat_inf : Z.of_nat (into_cat (O := f32ops) f_inf) = 4294967295%Z.
Proof. unfold into_cat. rewrite Z2Nat.id; [reflexivity|discriminate]. Qed.
Lemma locard_eq (v : f32) b : valid_category v -> (Z.of_nat b < 2 ^ 24)%Z -> f_eq v (f_of_Z (Z.of_nat b)) = (into_cat (O := f32ops) v =? b).
Proof.
  intros Hv Hb. destruct (f_of_Z_exact (Z.of_nat b)) as (Fb & Bb); [lia|].
  assert (is_nan (f_of_Z (Z.of_nat b)) = false) as Nb by (destruct (f_of_Z (Z.of_nat b)); try discriminate; reflexivity).
  assert (is_nan v = false) as Nv by (destruct Hv as [->|[Fv _]]; [reflexivity|destruct v; try discriminate; reflexivity]).
  apply eq_true_iff_eq. rewrite (f_eq_key _ _ Nv Nb), Nat.eqb_eq, (key_finite _ Fb), Bb. destruct Hv as [->|(Fv & z & Hz & Ez)].
  - change (key f_inf) with M. split; intros H.
    + exfalso. assert (IZR (Z.of_nat b) < M)%R; [|lra]. apply Rlt_trans with (IZR (2 ^ 24)); [apply IZR_lt; exact Hb|]. unfold M. change (IZR (2 ^ 24)) with (bpow radix2 24). apply bpow_lt. reflexivity.
    + exfalso. apply (f_equal Z.of_nat) in H. rewrite into_cat_inf in H. rewrite <- H in Hb. discriminate Hb.
  - rewrite (key_finite _ Fv), Ez, (into_cat_exact z v Fv Ez). split; intros H; [apply eq_IZR in H; lia|]. f_equal. lia.
Qed.

(** Categorical features, f32: every example whose category is valid goes the same way in training and in prediction, for every split
    on every bin of the data set's current masks (C47).  [t] is a tree made for this data set (it has its super-category tables). *)
Theorem C24_categorical : forall dbg (cfg : config f32ops) d s (t : tree f32ops) fs f ex nb b x c, reachable dbg cfg d s ->
  0 < d_nexamples d -> 0 < c_sample_freq cfg -> 0 < ds_update_count s ->
  active_features s = Ok fs -> In f fs -> mask_examples d s = Ok ex -> t_supercats t = get_supercats s ->
  (feat_type_of d f = Ok LoCardCat \/ feat_type_of d f = Ok HiCardCat) ->
  (forall col v, get_feature d f = Ok col -> In v col -> valid_category v) -> (Z.of_nat nb <= 2 ^ 24)%Z ->
  get_nbins s f = Ok nb -> b < nb -> ds_get_bitvec s f b = Ok x -> split_on s f b c -> routes_alike s t c x ex.
Proof.
  intros dbg cfg d s t fs f ex nb b x c HR Hn Hf Hc Ha Hin Hex Hsup Hty Hval Hnb Enb Hb Ex (Cf & Cv & ft & Cft & Ct) i j col v Ej Ecol Ev.
  destruct (C47_masks _ _ _ _ _ _ _ _ HR Hn Hf Hc Ha Hin Hex) as (nb' & Enb' & _ & _ & _ & Hm). rewrite Enb in Enb'. injection Enb' as <-.
  destruct (Hm b Hb) as (x' & Ex' & Hx). rewrite Ex in Ex'. injection Ex' as <-. specialize (Hx i). rewrite Ej in Hx. destruct Hx as (col' & v' & ft' & E1 & E2 & E3 & E4).
  pose proof (dv_data _ _ _ _ (ds_inv _ _ _ _ (reachable_ok _ _ _ _ _ HR))) as Hd. rewrite Hd in *. rewrite Cf in Ecol. rewrite Ecol in E1. injection E1 as <-.
  rewrite Ev in E2. injection E2 as <-. rewrite Cft in E3. injection E3 as <-. pose proof (Hval col v Ecol (nth_error_In _ _ Ev)) as Hvc.
  unfold get_split_value in Cv. rewrite Hd, Cft in Cv. unfold goes_left. destruct Hty as [Hty|Hty]; rewrite Hty in Cft; injection Cft as <-; rewrite Ct.
  - rewrite E4. do 2 f_equal. cbn [rbind] in Cv. assert (sc_value c = nofnat f32ops b) as -> by congruence. apply locard_eq; [exact Hvc|lia].
  - destruct E4 as (table & k & T1 & T2 & ->). assert (sc_value c = nofnat f32ops b) as -> by (cbn [rbind] in Cv; congruence). rewrite into_cat_of_nat by lia. rewrite Cf, Hsup.
    assert (f < length (get_supercats s)) as Hl by (apply nth_error_Some; congruence). replace (f <? length (get_supercats s)) with true by lia. cbn [rassert rbind].
    rewrite (proj2 (idx_ok _ _ _ _) T1). cbn [rbind]. assert (into_cat v < length table) as Hl2 by (apply nth_error_Some; congruence).
    replace (into_cat v <? length table) with true by lia. rewrite (proj2 (idx_ok _ _ _ _) T2). reflexivity.
Qed.
Print Assumptions C24_categorical.


(** The same in exact arithmetic (used with C24_numerical for data with features of both kinds). *)
Definition category_R (v : R) : Prop := exists z, (0 <= z <= 4294967295)%Z /\ v = IZR z.
Lemma into_cat_R z : (0 <= z <= 4294967295)%Z -> into_cat (O := Rops) (IZR z) = Z.to_nat z.
Proof. intros Hz. unfold into_cat. cbn [Rops ntoZ]. rewrite Ztrunc_IZR. lia. Qed.
Lemma locard_eq_R v b : category_R v -> neq Rops v (nofnat Rops b) = (into_cat (O := Rops) v =? b).
Proof.
  intros (z & Hz & ->). rewrite into_cat_R by exact Hz. unfold nofnat. cbn [Rops neq nofZ]. apply eq_true_iff_eq. rewrite Nat.eqb_eq.
  destruct (Req_bool_spec (IZR z) (IZR (Z.of_nat b))) as [H|H]; split; intros H'; try reflexivity; try discriminate; [apply eq_IZR in H; lia|]. exfalso. apply H. f_equal. lia.
Qed.
Theorem C24_categorical_exact : forall dbg (cfg : config Rops) d s (t : tree Rops) fs f ex nb b x c, reachable dbg cfg d s ->
  0 < d_nexamples d -> 0 < c_sample_freq cfg -> 0 < ds_update_count s ->
  active_features s = Ok fs -> In f fs -> mask_examples d s = Ok ex -> t_supercats t = get_supercats s ->
  (feat_type_of d f = Ok LoCardCat \/ feat_type_of d f = Ok HiCardCat) ->
  (forall col v, get_feature d f = Ok col -> In v col -> category_R v) -> (Z.of_nat nb <= 2 ^ 32)%Z ->
  get_nbins s f = Ok nb -> b < nb -> ds_get_bitvec s f b = Ok x -> split_on s f b c -> routes_alike s t c x ex.
Proof.
  intros dbg cfg d s t fs f ex nb b x c HR Hn Hf Hc Ha Hin Hex Hsup Hty Hval Hnb Enb Hb Ex (Cf & Cv & ft & Cft & Ct) i j col v Ej Ecol Ev.
  destruct (C47_masks _ _ _ _ _ _ _ _ HR Hn Hf Hc Ha Hin Hex) as (nb' & Enb' & _ & _ & _ & Hm). rewrite Enb in Enb'. injection Enb' as <-.
  destruct (Hm b Hb) as (x' & Ex' & Hx). rewrite Ex in Ex'. injection Ex' as <-. specialize (Hx i). rewrite Ej in Hx. destruct Hx as (col' & v' & ft' & E1 & E2 & E3 & E4).
  pose proof (dv_data _ _ _ _ (ds_inv _ _ _ _ (reachable_ok _ _ _ _ _ HR))) as Hd. rewrite Hd in *. rewrite Cf in Ecol. rewrite Ecol in E1. injection E1 as <-.
  rewrite Ev in E2. injection E2 as <-. rewrite Cft in E3. injection E3 as <-. pose proof (Hval col v Ecol (nth_error_In _ _ Ev)) as Hvc.
  unfold get_split_value in Cv. rewrite Hd, Cft in Cv. unfold goes_left. destruct Hty as [Hty|Hty]; rewrite Hty in Cft; injection Cft as <-; rewrite Ct.
  - rewrite E4. do 2 f_equal. cbn [rbind] in Cv. assert (sc_value c = nofnat Rops b) as -> by congruence. apply locard_eq_R, Hvc.
  - destruct E4 as (table & k & T1 & T2 & ->). assert (sc_value c = nofnat Rops b) as -> by (cbn [rbind] in Cv; congruence).
    assert (into_cat (nofnat Rops b) = b) as -> by (unfold nofnat; cbn [Rops nofZ]; rewrite into_cat_R by lia; lia). rewrite Cf, Hsup.
    assert (f < length (get_supercats s)) as Hl by (apply nth_error_Some; congruence). replace (f <? length (get_supercats s)) with true by lia. cbn [rassert rbind].
    rewrite (proj2 (idx_ok _ _ _ _) T1). cbn [rbind]. assert (into_cat v < length table) as Hl2 by (apply nth_error_Some; congruence).
    replace (into_cat v <? length table) with true by lia. rewrite (proj2 (idx_ok _ _ _ _) T2). reflexivity.
Qed.
Print Assumptions C24_categorical_exact.

(* ---- numerical features ---- *)

Lemma leading_below_le (rp : nat -> R) (x : R) : (forall a b, a <= b -> (rp a <= rp b)%R) -> forall qs b q, StronglySorted lt qs -> nth_error qs b = Some q ->
  (leading_below (nlt Rops) (map rp qs) x <=? b) = negb (Rlt_bool (rp q) x).
Proof.
  intros Hm. induction qs as [|q0 t IH]; intros b q HS E; [destruct b; discriminate|]. cbn [map leading_below]. change (nlt Rops) with Rlt_bool in *. inversion HS as [|? ? HS' Hq0]; subst.
  destruct b as [|b]; cbn [nth_error] in E.
  - injection E as <-. destruct (Rlt_bool (rp q0) x); reflexivity.
  - destruct (Rlt_bool_spec (rp q0) x) as [H|H]; [cbn [Nat.leb]; apply IH; assumption|]. cbn [Nat.leb]. rewrite Rlt_bool_false; [reflexivity|].
    rewrite Forall_forall in Hq0. specialize (Hq0 q (nth_error_In _ _ E)). eapply Rle_trans; [exact H|]. apply Hm. lia.
Qed.

Lemma binner_new_R (lo hi : R) (bn : binner Rops nat) : @binner_new Rops nat (repeat 0 QUANTILE_EST_NBINS) lo hi = Ok bn ->
  (lo < hi)%R /\ bn_min bn = lo /\ bn_delta bn = ((hi - lo) / 512)%R /\ length (bn_bins bn) = 512.
Proof.
  intros E. pose proof (binner_new_bins _ _ _ _ _ _ E) as Eb. unfold binner_new in E. apply rbind_ok in E as (? & _ & E). apply rbind_ok in E as (? & _ & E).
  apply rbind_ok in E as (? & Elt & E). apply rbind_ok in E as (? & _ & E). assert (forall A (x y : A), Ok x = Ok y -> x = y) as Hoi by (clear; intros A x y Hxy; congruence).
  apply Hoi in E. apply rassert_ok in Elt. cbn [Rops nlt] in Elt. destruct (Rlt_bool_spec lo hi) as [Hlt|]; [|discriminate]. split; [exact Hlt|].
  rewrite Eb, repeat_length. rewrite <- E. cbn [bn_min bn_delta]. rewrite repeat_length. repeat split.
Qed.

Lemma bin_le_R (bn : binner Rops nat) (lo hi v : R) q : (lo < hi)%R -> bn_min bn = lo -> bn_delta bn = ((hi - lo) / 512)%R -> length (bn_bins bn) = 512 -> q + 1 < 511 ->
  Rlt_bool v (bin_representative bn (q + 1)) = (get_bin bn v <=? q).
Proof.
  intros Hlt E1 E2 E3 Hq. unfold bin_representative, get_bin, nofnat. cbn [Rops num nadd nmul nofZ ndiv nsub ntoZ nfloor]. rewrite E1, E2, E3, Nat.min_l by lia.
  set (dl := ((hi - lo) / 512)%R). assert (0 < dl)%R as Hd by (unfold dl; lra). rewrite Ztrunc_IZR. set (z := Zfloor ((v - lo) / dl)).
  assert (v < lo + IZR (Z.of_nat (q + 1)) * dl <-> (z < Z.of_nat (q + 1))%Z)%R as Hiff.
  { assert (v < lo + IZR (Z.of_nat (q + 1)) * dl <-> (v - lo) / dl < IZR (Z.of_nat (q + 1)))%R as Ha.
    { split; intros H.
      - apply Rmult_lt_reg_r with dl; [exact Hd|]. unfold Rdiv. rewrite Rmult_assoc, Rinv_l by lra. lra.
      - apply Rmult_lt_compat_r with (r := dl) in H; [|exact Hd]. unfold Rdiv in H. rewrite Rmult_assoc, Rinv_l in H by lra. lra. }
    rewrite Ha. unfold z. split; intros H.
    - apply lt_IZR. eapply Rle_lt_trans; [apply Zfloor_lb|exact H].
    - eapply Rlt_le_trans; [apply Zfloor_ub|]. rewrite <- plus_IZR. apply IZR_le. lia. }
  apply eq_true_iff_eq. rewrite Nat.leb_le. split.
  - intros H. destruct (Rlt_bool_spec v (lo + IZR (Z.of_nat (q + 1)) * dl)) as [H'|]; [|discriminate]. apply Hiff in H'. unfold ISIZE_MIN, ISIZE_MAX in *. lia.
  - intros H. apply Rlt_bool_true, Hiff. unfold ISIZE_MIN, ISIZE_MAX in *. lia.
Qed.

(** Numerical features, in exact arithmetic: if the split leaves at least one example on the right, every example goes the same way in training and in prediction. *)
Theorem C24_numerical : forall dbg (cfg : config Rops) d s (t : tree Rops) fs f ex nb b x c, reachable dbg cfg d s ->
  0 < d_nexamples d -> 0 < c_sample_freq cfg -> 0 < ds_update_count s ->
  active_features s = Ok fs -> In f fs -> mask_examples d s = Ok ex ->
  feat_type_of d f = Ok Numerical ->
  get_nbins s f = Ok nb -> b < nb -> ds_get_bitvec s f b = Ok x -> split_on s f b c ->
  (exists i j, nth_error ex i = Some j /\ bbit x i = false) -> routes_alike s t c x ex.
Proof.
  intros dbg cfg d s t fs f ex nb b x c HR Hn Hf Hc Ha Hin Hex Hty Enb Hb Ex (Cf & Cv & ft & Cft & Ct) (i0 & j0 & Ej0 & Hb0) i j col v Ej Ecol Ev.
  destruct (C47_masks _ _ _ _ _ _ _ _ HR Hn Hf Hc Ha Hin Hex) as (nb' & Enb' & _ & _ & _ & Hm). rewrite Enb in Enb'. injection Enb' as <-.
  destruct (Hm b Hb) as (x' & Ex' & Hx). rewrite Ex in Ex'. injection Ex' as <-.
  pose proof (dv_data _ _ _ _ (ds_inv _ _ _ _ (reachable_ok _ _ _ _ _ HR))) as Hd. rewrite Hd in *. rewrite Hty in Cft. injection Cft as <-.
  destruct (active_feature_full _ _ _ _ _ _ _ _ HR Hn Hf Hc Ha Hin Hex) as [(_ & _ & _ & Hnum) _]. destruct (Hnum Hty) as (cands & Ecands & (lo & hi & bn & qs & Elim & Ebn & -> & Sqs & Fqs) & _).
  destruct (binner_new_R lo hi bn Ebn) as (Hlt & B1 & B2 & B3).
  unfold get_split_value in Cv. rewrite Hd, Hty in Cv. cbn [rbind] in Cv. rewrite (proj2 (idx_ok _ _ _ _) Ecands) in Cv. cbn [rbind] in Cv. apply idx_ok in Cv. rewrite nth_error_map in Cv.
  destruct (nth_error qs b) as [q|] eqn:Eq; [|discriminate]. cbn [option_map] in Cv. injection Cv as Cv.
  assert (forall k jj vv, nth_error ex k = Some jj -> get_feature d f = Ok col -> nth_error col jj = Some vv ->
    bbit x k = negb (Rlt_bool (bin_representative bn (q + 1)) (bin_representative bn (get_bin bn vv + 1)))) as Hbit.
  { intros k jj vv E1 E2 E3. specialize (Hx k). rewrite E1 in Hx. destruct Hx as (col' & v' & ft' & F1 & F2 & F3 & F4). rewrite Hd in *. rewrite E2 in F1. injection F1 as <-.
    rewrite E3 in F2. injection F2 as <-. rewrite Hty in F3. injection F3 as <-. destruct F4 as (cands' & lo' & hi' & bn' & G1 & G2 & G3 & ->).
    rewrite Ecands in G1. injection G1 as <-. rewrite Elim in G2. injection G2 as <- <-. rewrite Ebn in G3. injection G3 as <-.
    apply (leading_below_le (fun q => bin_representative bn (q + 1))); [|exact Sqs|exact Eq]. intros a b' Hab. unfold bin_representative, nofnat. cbn [Rops num nadd nmul nofZ]. rewrite B2, B3.
    apply Rplus_le_compat_l, Rmult_le_compat_r; [lra|]. apply IZR_le. lia. }
  rewrite Cf in Ecol.
  assert (forall p, bin_representative bn (p + 1) = (lo + IZR (Z.of_nat (Nat.min (p + 1) 511)) * ((hi - lo) / 512))%R) as Hrep.
  { intros p. unfold bin_representative, nofnat. cbn [Rops num nadd nmul nofZ]. rewrite B1, B2, B3. reflexivity. }
  assert (0 < (hi - lo) / 512)%R as Hdl by lra.
  assert (forall p r, Rlt_bool (bin_representative bn (p + 1)) (bin_representative bn (r + 1)) = (Nat.min (p + 1) 511 <? Nat.min (r + 1) 511)) as Hcmp.
  { intros p r. rewrite !Hrep. apply eq_true_iff_eq. rewrite Nat.ltb_lt. split.
    - intros H. destruct (Rlt_bool_spec (lo + IZR (Z.of_nat (Nat.min (p + 1) 511)) * ((hi - lo) / 512)) (lo + IZR (Z.of_nat (Nat.min (r + 1) 511)) * ((hi - lo) / 512))) as [H'|]; [|discriminate].
      apply Rplus_lt_reg_l, Rmult_lt_reg_r in H'; [|exact Hdl]. apply lt_IZR in H'. lia.
    - intros H. apply Rlt_bool_true, Rplus_lt_compat_l, Rmult_lt_compat_r; [exact Hdl|]. apply IZR_lt. lia. }
  assert (q + 1 < 511) as Hq.
  { specialize (Hx i0). rewrite Ej0 in Hx. destruct Hx as (col' & v' & _ & F1 & F2 & _). rewrite Hd in F1. rewrite Ecol in F1. injection F1 as <-.
    rewrite (Hbit i0 j0 v' Ej0 Ecol F2), Hcmp in Hb0. apply negb_false_iff, Nat.ltb_lt in Hb0. lia. }
  rewrite (Hbit i j v Ej Ecol Ev), Hcmp. unfold goes_left. rewrite Ct. do 2 f_equal.
  transitivity (get_bin bn v <=? q); [rewrite <- Cv; exact (bin_le_R bn lo hi v q Hlt B1 B2 B3 Hq)|].
  assert (get_bin bn v < 512) by (rewrite <- B3; apply BinnerProofs.get_bin_valid; intros E0; rewrite E0 in B3; discriminate).
  apply eq_true_iff_eq. rewrite Nat.leb_le, negb_true_iff, Nat.ltb_ge. lia.
Qed.
Print Assumptions C24_numerical.

(** A state that meets the hypotheses of C24_categorical: low-cardinality feature 0, high-cardinality feature 2; masks are not trivial. *)
Example C24_ex : exists s, reachable true (ex_cfg f_half) ex_data s /\ (0 < ds_update_count s /\ active_features s = Ok [0; 1; 2; 3] /\
   mask_examples ex_data s = Ok [2; 3] /\ feat_type_of ex_data 0 = Ok LoCardCat /\ feat_type_of ex_data 2 = Ok HiCardCat /\
   get_nbins s 0 = Ok 3 /\ bits_of (ds_get_bitvec s 0 1) = [false; true; false; false; false]).
Proof. apply (reach_ex true f_half 1). vm_compute. repeat split; lia. Qed.

(* ---- the cases the exact theorem leaves out ---- *)

(** One numerical feature and the target, loaded from a csv file, one data set update with all gradients 1. *)
Definition rt_cfg : config f32ops :=
  @mk_config f32ops String.EmptyString String.EmptyString String.EmptyString [] 1%N true 44%N [] 1 (fz 1) (fz 0) 1%N (fz 0) (fz 1) 1 4 2 (fz 1) (fz 1) 1%N (fz 1) (fz 1) 1.
Definition rt_items (vs : list f32) : list csv_item := map (fun v => CsvRecord [Some v; Some (fz 0)]) vs.
Definition rt_updates (n : nat) : list (list (num f32ops) * (num f32ops * num f32ops)) := [(repeat (fz 1) n, (fz 0, fz 1))].
Lemma rt_run vs i v : nth_error vs i = Some v ->
  match (let* r := from_csv (mk_dcfg 1 []) (rt_items vs) in
         match r with
         | Err => Panic
         | Done d =>
           let* s0 := dataset_new rt_cfg d ex_rng in
           let* s := ds_run false rt_cfg (rt_updates (length vs)) s0 in
           let* nb := get_nbins s 0 in
           let* cut := get_split_value s 0 0 in
           let* x := ds_get_bitvec s 0 0 in
           Ok (d_nfeatures d =? 1, nb =? 1, negb (example_sampling_enabled s), bbit x i, f_lt v cut,
               match feat_type_of (in_data (ds_inner s)) 0 with Ok Numerical => true | _ => false end,
               match get_feature (in_data (ds_inner s)) 0 with Ok col => length col =? length vs | _ => false end)
         end)
  with Ok b => b = (true, true, true, true, false, true, true) | _ => False end ->
  exists d s c x, from_csv (mk_dcfg 1 []) (rt_items vs) = Ok (Done d) /\ reachable false rt_cfg d s /\ get_nbins s 0 = Ok 1 /\
    ds_get_bitvec s 0 0 = Ok x /\ split_on s 0 0 c /\ example_sampling_enabled s = false /\
    bbit x i = true /\ (forall t, goes_left t c v = Ok (Some false)).
Proof.
  intros Hv. destruct (from_csv (mk_dcfg 1 []) (rt_items vs)) as [[d|]| | |] eqn:Ed; cbn [rbind]; try intros [].
  destruct (dataset_new rt_cfg d ex_rng) as [s0| | |] eqn:E0; cbn [rbind]; try intros [].
  destruct (ds_run false rt_cfg (rt_updates (length vs)) s0) as [s| | |] eqn:E1; cbn [rbind]; try intros [].
  destruct (get_nbins s 0) as [nb| | |] eqn:E2; cbn [rbind]; try intros [].
  destruct (get_split_value s 0 0) as [cut| | |] eqn:E3; cbn [rbind]; try intros [].
  destruct (ds_get_bitvec s 0 0) as [x| | |] eqn:E4; cbn [rbind]; [|intros []..].
  destruct (feat_type_of (in_data (ds_inner s)) 0) as [[| |]| | |] eqn:E5; try discriminate.
  intros H. injection H as _ H1 H2 H3 H4 _. apply Nat.eqb_eq in H1. apply negb_true_iff in H2. subst nb.
  exists d, s, (@mk_crit f32ops NumLt 0 cut), x. split; [reflexivity|]. split; [exists ex_rng, (rt_updates (length vs)), s0; auto|].
  split; [exact E2|]. split; [exact E4|]. split; [split; [reflexivity|split; [exact E3|exists Numerical; split; [exact E5|reflexivity]]]|].
  split; [exact H2|]. split; [exact H3|]. intros t. unfold goes_left. cbn [sc_type sc_value]. do 2 f_equal. exact H4.
Qed.

(** In a csv file the text "NaN" is a number.  Such an example goes left in training and right in prediction. *)
Theorem C24_nan_refuted : let vs := [fz 1; f_nan; fz 2; fz 3] in
  exists d s c x, from_csv (mk_dcfg 1 []) (rt_items vs) = Ok (Done d) /\ reachable false rt_cfg d s /\ get_nbins s 0 = Ok 1 /\
    ds_get_bitvec s 0 0 = Ok x /\ split_on s 0 0 c /\ example_sampling_enabled s = false /\
    bbit x 1 = true /\ (forall t, goes_left t c f_nan = Ok (Some false)).
Proof. apply rt_run; vm_compute; reflexivity. Qed.
Print Assumptions C24_nan_refuted.

(** f32 rounding: a finite value that lies on a bin boundary up to rounding goes left in training and right in prediction. *)
Definition rt_lo : f32 := fz 1.
Definition rt_hi : f32 := f_div (fz 107) (fz 10).
Definition rt_v : f32 := f_add rt_lo (f_mul (fz 3) (f_div (f_sub rt_hi rt_lo) (fz 512))).
Theorem C24_rounding_refuted : let vs := [rt_lo; rt_v; rt_v; rt_hi] in
  is_finite rt_v = true /\
  exists d s c x, from_csv (mk_dcfg 1 []) (rt_items vs) = Ok (Done d) /\ reachable false rt_cfg d s /\ get_nbins s 0 = Ok 1 /\
    ds_get_bitvec s 0 0 = Ok x /\ split_on s 0 0 c /\ example_sampling_enabled s = false /\
    bbit x 1 = true /\ (forall t, goes_left t c rt_v = Ok (Some false)).
Proof. split; [vm_compute; reflexivity|]. apply rt_run; [reflexivity|]. vm_compute. reflexivity. Qed.
Print Assumptions C24_rounding_refuted.
