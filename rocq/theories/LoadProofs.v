(** Loaded data is data training accepts. *)
From Coq Require Import Reals Psatz.
From Flocq Require Import Core BinarySingleNaN.
From Verif Require Import Base BaseProofs F32 F32Proofs ScaledProofs Num DataModel DataSpec DataProofs DataProofs2 DataProps Config DatasetModel DatasetSpec DatasetProofs6 RouteProps BoostSpec TotalSpec TotalProofs2 TotalProps DebugSpec LoadSpec.
Local Close Scope R_scope.

Lemma Ok_inj {A} (a b : A) : Ok a = Ok b -> a = b. Proof. congruence. Qed.

Lemma valid_whole (v : f32) : valid_category v -> @whole f32ops v.
Proof.
  intros H. apply check_cat_ok in H. unfold check_categorical_value in H. unfold whole. cbn [f32ops neq nround nlt nle nofZ num] in *.
  destruct (f_eq (f_round v) v) eqn:E; [|discriminate]. cbn [negb orb] in H. destruct (f_lt v (f_of_Z 0)) eqn:L; [discriminate|]. split; [|reflexivity].
  assert (is_nan v = false) as Nv. { destruct v; try reflexivity. discriminate E. } destruct (f_of_Z_exact 0) as [F0 B0]; [cbn; lia|].
  apply f_le_key; [apply fin_nan, F0|exact Nv|]. apply Rnot_lt_le. intros Hc. rewrite (proj2 (f_lt_key v (f_of_Z 0) Nv (fin_nan _ F0)) Hc) in L. discriminate.
Qed.

Section Load.
Variable cfg : config f32ops.
Variable items : list csv_item.
Variable d : data f32ops.
Hypothesis HF : sound_file cfg items.
Hypothesis HL : from_csv (load_config cfg) items = Ok (Done d).

Lemma shape : d_max_nbins d = c_max_nbins cfg /\ d_nexamples d = length items /\ d_nfeatures d + 1 = columns_of items /\ length (d_features d) = columns_of items /\ length (d_limits d) = columns_of items /\
  length (d_ftypes d) = columns_of items /\ length (d_cards d) = columns_of items /\ (forall col, In col (d_features d) -> length col = length items).
Proof.
  pose proof HL as E. rewrite from_csv_spec in E. destruct (all_ok _ items); [|discriminate]. destruct (0 <? columns_of items) eqn:Ec; [|discriminate]. apply Nat.ltb_lt in Ec. injection E as <-.
  unfold csv_data. cbn [d_max_nbins d_nexamples d_nfeatures d_features d_limits d_ftypes d_cards load_config dc_max_nbins]. split; [reflexivity|]. split; [reflexivity|]. split; [lia|].
  unfold csv_hicard, st_of. cbn [cs_features cs_limits cs_ftypes cs_cards]. rewrite ?map_length, ?combine_length, ?map_length, ?seq_length, Nat.min_id. repeat (split; [reflexivity|]).
  intros col Hc. apply in_map_iff in Hc as (k & <- & _). apply map_length.
Qed.
Lemma items_pos : 0 < length items.
Proof. destruct HF as ((H & _) & _). destruct items; [cbn in H; lia|cbn; lia]. Qed.
Lemma csv_whole : whole_categories d.
Proof.
  intros f ft col card v [Hf _] Eft Hft Ecol Ecard Hv. destruct (C35_columns _ _ _ HL) as (_ & Hc & Hcol). destruct (Hcol f ltac:(lia)) as (vs & lo & hi & card' & ft' & Hcv & E1 & _ & _ & E2 & E3 & Hcat & Hnum).
  change (num f32ops) with f32 in *. rewrite E1 in Ecol. apply Ok_inj in Ecol. subst col. rewrite E2 in Ecard. injection Ecard as <-. rewrite E3 in Eft. injection Eft as <-.
  destruct (in_dec Nat.eq_dec f (c_categorical_features cfg)) as [Hin|Hout]; [|destruct (Hnum Hout) as [_ H]; congruence].
  assert (valid_category v) as Hval.
  { destruct HF as ((_ & Hacc) & _). destruct (Hacc f ltac:(lia)) as (vs' & Hc' & Hall). rewrite (column_val _ _ _ Hcv) in Hv. rewrite <- (column_val _ _ _ Hc') in Hv. specialize (Hall Hin). rewrite Forall_forall in Hall. apply Hall, Hv. }
  split; [apply valid_whole, Hval|]. destruct (Hcat Hin) as [[_ HC] _]. eapply HC; [exact Hv|apply into_cat_spec, Hval].
Qed.
Lemma csv_trainable : trainable cfg d.
Proof.
  pose proof shape as (S1 & S2 & S3 & S4 & S5 & S6 & S7 & S8). pose proof items_pos as Hpos. pose proof HF as (_ & Hfin & Hn & Hc & Hb & Fe & Be & Hs & Ff & Bf).
  assert (Hfr : forall n (fr : f32), (Z.of_nat n <= 2 ^ 24)%Z -> is_finite fr = true -> (0 <= B2R fr <= 1)%R -> scaled_count (O := f32ops) n fr <= n) by (intros n fr A B C; apply scaled_bounds; assumption).
  split; [split; [lia|split; [lia|]]; intros col Hcol; rewrite S2; apply S8, Hcol|]. split; [lia|]. split; [lia|]. split; [lia|]. split; [lia|]. split; [|split; [|split; [|split]]].
  - intros f col card v Hu Eft Ecol Ecard Hv. eapply csv_whole; try eassumption. discriminate.
  - intros f l [Hf (_ & lo & hi & El & Hne)] Eft E. rewrite El in E. apply Ok_inj in E. subst l. destruct (C35_columns _ _ _ HL) as (_ & _ & Hcol).
    destruct (Hcol f ltac:(lia)) as (vs & lo' & hi' & card' & ft' & Hcv & E1 & El' & Hlim & E2 & E3 & Hcat & Hnum). rewrite El in El'. apply Ok_inj in El'.
    pose proof (f_equal fst El') as Elo. pose proof (f_equal snd El') as Ehi. cbn [fst snd] in Elo, Ehi. clear El'. subst lo' hi'.
    assert (~ In f (c_categorical_features cfg)) as Hout. { intros Hin. destruct (Hcat Hin) as (_ & H1 & H2). rewrite E3 in Eft. injection Eft as ->. destruct (le_lt_dec card' (dc_max_nbins (load_config cfg))) as [H|H]; [apply H2 in H|apply H1 in H]; discriminate. }
    assert (forall v, In v vs -> is_finite v = true) as Hv by (intros v Hv; eapply (Hfin f); [lia|exact Hout|exact Hcv|exact Hv]).
    destruct Hlim as [[(L1 & L2 & L3) (U1 & U2 & U3)]|[Hnan _]].
    + unfold proper_limits. cbn [fst snd nisfin nlt f32ops]. split; [apply Hv, L1|]. split; [apply Hv, U1|]. specialize (L3 hi U1 U2). apply f_le_key in L3; [|apply fin_nan, Hv, L1|apply fin_nan, Hv, U1].
      apply f_lt_key; [apply fin_nan, Hv, L1|apply fin_nan, Hv, U1|]. destruct L3 as [L3|L3]; [exact L3|exfalso]. apply f_eq_key in L3; [|apply fin_nan, Hv, L1|apply fin_nan, Hv, U1].
      change (f_eq lo hi = false) in Hne. rewrite L3 in Hne. discriminate.
    + exfalso. assert (vs <> []) as Hvs. { intros ->. pose proof (column_val _ _ _ Hcv) as Ev. destruct items; [cbn in Hpos; lia|discriminate]. }
      destruct vs as [|v vs]; [congruence|]. pose proof (Hv v (or_introl eq_refl)) as F. pose proof (Hnan v (or_introl eq_refl)) as N. destruct v; discriminate.
  - rewrite S2. split; [exact Hs|apply Hfr; assumption].
  - rewrite S2. intros Hlt. apply C49_fractions; try assumption.
    + apply f_le_key; [reflexivity|apply fin_nan, Fe|]. rewrite (key_finite _ Fe). change (key f_zero) with 0%R. apply Be.
    + destruct (f_of_Z_exact 1) as [F1 B1]; [cbn; lia|]. apply f_le_key; [apply fin_nan, Fe|apply fin_nan, F1|]. unfold f_one. rewrite (key_finite _ Fe), (key_finite _ F1), B1. apply Be.
  - intros n Hnf. apply Hfr; [lia|assumption|assumption].
Qed.
End Load.
