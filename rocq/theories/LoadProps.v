(** From a file to predictions (C49). *)
From Coq Require Import Permutation Reals.
From Flocq Require Import Core BinarySingleNaN.
From Verif Require Import Base BaseProofs F32 F32Proofs Num DataModel DataSpec DataProofs2 DataProps Config TreeModel DatasetModel DatasetSpec LearnerModel ObjectiveModel MetricModel BoostModel BoostSpec TotalSpec TotalProps DebugSpec PredSpec
  LoadSpec LoadProofs PredProps.
Local Close Scope R_scope.

(** A sound table is loaded, and what is loaded is data training accepts; its categorical columns hold whole numbers below their cardinality; its target is the last column. *)
Theorem C49_loaded : forall (cfg : config f32ops) items, sound_file cfg items ->
  exists d target, from_csv (load_config cfg) items = Ok (Done d) /\ trainable cfg d /\ whole_categories d /\ d_nexamples d = length items /\ d_nfeatures d + 1 = columns_of items /\
    get_target d = Ok target /\ column items (columns_of items - 1) target.
Proof.
  intros cfg items HF. pose proof HF as (HA & _). destruct (proj1 (C35_load (load_config cfg) items (proj1 HA)) HA) as (d & E). exists d.
  destruct (C35_columns _ _ _ E) as (H1 & H2 & Hcol). destruct (Hcol (d_nfeatures d) (le_n _)) as (vs & lo & hi & card & ft & Hcv & Ev & _). exists vs.
  split; [exact E|]. split; [eapply csv_trainable; eassumption|]. split; [eapply csv_whole; eassumption|]. split; [exact H1|]. split; [exact H2|]. split; [exact Ev|].
  replace (columns_of items - 1) with (d_nfeatures d) by lia. exact Hcv.
Qed.
Print Assumptions C49_loaded.

(** Binary classification from a sound table with the classes 0 and 1 in its last column, in f32: loading, training and predicting succeed; there are as many trees as requested and as many predictions as rows. *)
Theorem C49_from_file : forall fexp fln dbg (cfg : config f32ops) items classes sched metrics g, ordinary fexp fln -> sound_file cfg items ->
  column items (columns_of items - 1) classes -> (forall t, In t classes -> t = f_of_Z 0 \/ t = f_of_Z 1) -> In (f_of_Z 0) classes -> In (f_of_Z 1) classes ->
  any_order sched -> (Z.of_nat (c_max_nbins cfg + 1) <= 2 ^ 24)%Z -> (Z.of_nat (c_niterations cfg) < 2 ^ 24)%Z -> f_le (f_abs (c_learning_rate cfg)) f_one = true ->
  is_finite (c_binary_gradient_bound cfg : f32) = true -> f_lt f_zero (c_binary_gradient_bound cfg) = true ->
  (exists j vs, S j < columns_of items /\ column items j vs /\ (In j (c_categorical_features cfg) -> ~ cardinality vs 1)) ->
  (c_discr_nbits cfg = 1 \/ c_discr_nbits cfg = 2 \/ c_discr_nbits cfg = 4 \/ c_discr_nbits cfg = 8) -> 0 < c_max_tree_depth cfg -> (1 <= c_min_examples_leaf cfg)%N ->
  (dbg = true -> c_max_nbins cfg + 1 <= 2 * scaled_count (length items) (c_example_fraction cfg)) ->
  exists d m ps, from_csv (load_config cfg) items = Ok (Done d) /\ boost_train (f32math fexp fln) dbg cfg d sched Binary metrics g = Ok m /\ length (at_trees m) = c_niterations cfg /\
    additive_predict m d = Ok ps /\ length ps = length items.
Proof.
  intros fexp fln dbg cfg items classes sched metrics g Hord HF Hcl H01 H0 H1 HO Hnb Hit Hlr Fb Pb (j & vs & Hj & Hvs & Hcard) Hw Hd Hm Hdbg.
  destruct (C49_loaded cfg items HF) as (d & target & E & HT & HW & Hn & Hc & Etgt & Htgt). assert (target = classes) as -> by (rewrite (column_val _ _ _ Hcl), (column_val _ _ _ Htgt); reflexivity).
  pose proof HF as (_ & _ & Hlen & _).
  destruct (C49_training_f32 fexp fln dbg cfg d sched Binary metrics g classes Hord HT Etgt) as (m & Em & Lm); try assumption.
  - cbn [accepts_f32]. assert (forall z, (z = 0 \/ z = 1)%Z -> f_eq (f_of_Z z) (f_of_Z z) = true) as Hz by (intros z [-> | ->]; vm_compute; reflexivity).
    split; [intros t Ht; destruct (H01 t Ht) as [-> | ->]; [left|right]; apply Hz; auto|]. split; [exists (f_of_Z 0); auto|]. split; [exists (f_of_Z 1); auto|]. split; [exact Hit|]. right. auto.
  - rewrite Hn. exact Hlen.
  - destruct (C35_columns _ _ _ E) as (_ & _ & Hcol). destruct (Hcol j ltac:(lia)) as (vs' & lo & hi & card & ft & Hcv & _ & _ & _ & Ec & Eft & Hcat & Hnum). exists j.
    assert (vs' = vs) as -> by (rewrite (column_val _ _ _ Hvs), (column_val _ _ _ Hcv); reflexivity).
    destruct (shape cfg items d E) as (S1 & _). pose proof HF as (_ & _ & _ & _ & Hb & _). unfold max_nbins. rewrite Eft, Ec. cbn [rbind].
    destruct (in_dec Nat.eq_dec j (c_categorical_features cfg)) as [Hin|Hout].
    + destruct (Hcat Hin) as (HC & _). destruct ft; eexists; (split; [lia|split; [reflexivity|]]); try (rewrite S1; exact Hb).
      destruct (Nat.eqb_spec card 2); [lia|]. destruct (Nat.eqb_spec card 1) as [->|]; [destruct (Hcard Hin HC)|]. destruct HC as [(v & c & _ & _ & ->) _]. lia.
    + destruct (Hnum Hout) as [_ ->]. eexists. split; [lia|]. split; [reflexivity|]. rewrite S1. exact Hb.
  - intros Hx. right. rewrite Hn. apply Hdbg, Hx.
  - exists d, m. destruct (C51_predicts f32ops (f32math fexp fln) dbg cfg d sched Binary metrics g m HO) with (d2 := d) as (ps & Eps & Lps & _); try assumption.
    + destruct HT as ((H & _) & _). exact H.
    + intros t Et. rewrite Etgt in Et. apply Ok_inj in Et. subst t. destruct HT as ((_ & _ & H) & _). apply idx_ok, nth_error_In in Etgt. specialize (H _ Etgt). change (num f32ops) with f32 in *. rewrite H, Hn.
      change (2 ^ 31)%N with (Z.to_N (2 ^ 31)). lia.
    + destruct HT as ((_ & A & B) & _). split; [lia|]. split; [lia|exact B].
    + exists ps. rewrite <- Hn. auto.
Qed.
Print Assumptions C49_from_file.

(* ---- a case that meets the hypotheses: six rows, a categorical column, a numerical one, the class ---- *)
From Verif Require Import ObjectiveSpec MetricProps DatasetProps LearnerProps TrainProps BoostProps.
Definition file_rows : list (Z * Z * Z) := [(0, 5, 0); (0, 7, 1); (1, 2, 1); (1, 9, 0); (2, 4, 1); (2, 6, 1)]%Z.
Definition file_ex : list csv_item := map (fun r => CsvRecord [Some (f_of_Z (fst (fst r))); Some (f_of_Z (snd (fst r))); Some (f_of_Z (snd r))]) file_rows.
Lemma file_column j (p : Z * Z * Z -> Z) : (forall r, In r file_rows -> nth_error [Some (f_of_Z (fst (fst r))); Some (f_of_Z (snd (fst r))); Some (f_of_Z (snd r))] j = Some (Some (f_of_Z (p r)))) ->
  column file_ex j (map (fun r => f_of_Z (p r)) file_rows).
Proof.
  unfold column, file_ex. generalize file_rows. induction l as [|r l IH]; intros H; cbn [map]; constructor; [eexists; split; [reflexivity|apply H; left; reflexivity]|]. apply IH. intros x Hx. apply H. right. exact Hx.
Qed.
Lemma small_int z : (0 <= z <= 9)%Z -> is_finite (f_of_Z z) = true /\ B2R (f_of_Z z) = IZR z.
Proof. intros H. apply f_of_Z_exact. lia. Qed.
Lemma hng_one : is_finite (c_example_fraction (hng_cfg 100) : f32) = true /\ (0 <= B2R (c_example_fraction (hng_cfg 100) : f32) <= 1)%R.
Proof. cbn [hng_cfg c_example_fraction]. destruct (small_int 1) as [F B]; [lia|]. unfold fz. split; [exact F|]. rewrite B. split; apply IZR_le; lia. Qed.
Example C49_from_file_ex : sound_file (hng_cfg 100) file_ex /\ column file_ex (columns_of file_ex - 1) (map (fun r => f_of_Z (snd r)) file_rows) /\
  (forall t, In t (map (fun r => f_of_Z (snd r)) file_rows) -> t = f_of_Z 0 \/ t = f_of_Z 1) /\ In (f_of_Z 0) (map (fun r => f_of_Z (snd r)) file_rows) /\ In (f_of_Z 1) (map (fun r => f_of_Z (snd r)) file_rows) /\
  (exists j vs, S j < columns_of file_ex /\ column file_ex j vs /\ (In j (c_categorical_features (hng_cfg 100)) -> ~ cardinality vs 1)) /\
  c_max_nbins (hng_cfg 100) + 1 <= 2 * scaled_count (length file_ex) (c_example_fraction (hng_cfg 100)).
Proof.
  assert (column file_ex 0 (map (fun r => f_of_Z (fst (fst r))) file_rows)) as C0 by (apply (file_column 0 (fun r => fst (fst r))); reflexivity).
  assert (column file_ex 1 (map (fun r => f_of_Z (snd (fst r))) file_rows)) as C1 by (apply (file_column 1 (fun r => snd (fst r))); reflexivity).
  assert (column file_ex 2 (map (fun r => f_of_Z (snd r)) file_rows)) as C2 by (apply (file_column 2 snd); reflexivity).
  assert (scaled_count (O := f32ops) (length file_ex) (c_example_fraction (hng_cfg 100)) = 6) as Hs by (vm_compute; reflexivity).
  split.
  { split; [split; [cbn; lia|]|].
    - intros [|[|[|j]]] Hj; [..|cbn in Hj; lia]; eexists; (split; [eassumption|]); intros Hin; try (cbn in Hin; lia).
      apply Forall_forall. intros v Hv. apply in_map_iff in Hv as (r & <- & Hr). right. destruct (small_int (fst (fst r))) as [F B]; [cbn in Hr; repeat destruct Hr as [<-|Hr]; try destruct Hr; cbn; lia|].
      split; [exact F|]. exists (fst (fst r)). split; [|exact B]. cbn in Hr; repeat destruct Hr as [<-|Hr]; try destruct Hr; cbn; lia.
    - split; [|split; [cbn; lia|split; [cbn; lia|split; [cbn; lia|]]]].
      + intros [|[|j]] vs v Hj Hout Hcol Hv; [destruct Hout; left; reflexivity| |cbn in Hj; lia]. rewrite (column_val _ _ _ Hcol), <- (column_val _ _ _ C1) in Hv.
        apply in_map_iff in Hv as (r & <- & Hr). apply small_int. cbn in Hr; repeat destruct Hr as [<-|Hr]; try destruct Hr; cbn; lia.
      + destruct hng_one as [F1 B1]. split; [exact F1|]. split; [exact B1|]. split; [rewrite Hs; lia|]. split; [exact F1|exact B1]. }
  split; [exact C2|]. split; [intros t Ht; apply in_map_iff in Ht as (r & <- & Hr); cbn in Hr; repeat destruct Hr as [<-|Hr]; try destruct Hr; cbn [snd]; auto|].
  split; [left; reflexivity|]. split; [right; left; reflexivity|]. split; [|rewrite Hs; cbn; lia].
  exists 1, (map (fun r => f_of_Z (snd (fst r))) file_rows). split; [cbn; lia|]. split; [exact C1|]. intros [H|[]]. discriminate H.
Qed.
