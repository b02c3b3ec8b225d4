From Coq Require Import String Permutation ZArith.
From Flocq Require Import BinarySingleNaN.
From Verif Require Import Base BaseProofs Num F32 DataModel DataSpec DataProofs2 DataProps Config ConfigModel ConfigSpec TreeModel DatasetModel DatasetSpec LearnerModel LearnerProofs8 ObjectiveModel ObjectiveProps MetricModel MetricProps
  BoostModel BoostSpec BoostProofs BoostProps PredSpec PredProofs CapiModel RunModel RunSpec SafeSpec SafeProofs SafeProofs2 SafeProofs3.
Local Open Scope nat_scope. Local Open Scope list_scope.

(* ---- what training leaves alone in the state of the objective ---- *)
Section Frame.
Variable O : numops.
Variable dbg : bool.
Variable cfg : config O.
Variable s : dataset O.
Variable sizes : list nat.
Variable bounds : num O * num O.
Variable sched : nat -> list job -> list job.
Variable St : Type.
Variable leaf_value : list nat -> St -> res (num O * St).
Variable oob : nat -> num O -> St -> res St.
Variable I : St -> Prop.
Hypothesis Hl : forall ex st v st', leaf_value ex st = Ok (v, st') -> I st -> I st'.
Hypothesis Ho : forall i v st st', oob i v st = Ok st' -> I st -> I st'.

Lemma leaf_frame nd t st t' st' : predict_leaf_value s St leaf_value nd t st = Ok (t', st') -> I st -> I st'.
Proof. unfold predict_leaf_value. intros E H. apply rbind_ok in E as (ex & _ & E). apply rbind_ok in E as ([v st1] & E1 & E). apply rbind_ok in E as (t1 & _ & E). injection E as _ <-. eapply Hl; eassumption. Qed.
Lemma child_frame nd sp t st t' st' : predict_child_leaf_values s St leaf_value nd sp t st = Ok (t', st') -> I st -> I st'.
Proof.
  unfold predict_child_leaf_values. intros E H. apply rbind_ok in E as (fm & _ & E). apply rbind_ok in E as (exl & _ & E). apply rbind_ok in E as ([vl st1] & E1 & E).
  apply rbind_ok in E as (exr & _ & E). apply rbind_ok in E as ([vr st2] & E2 & E). apply rbind_ok in E as (t1 & _ & E). apply rbind_ok in E as (t2 & _ & E). injection E as _ <-. eapply Hl; [exact E2|]. eapply Hl; eassumption.
Qed.
Lemma step_frame nd stack t st stack' t' st' : train_step dbg cfg s sizes bounds sched St leaf_value nd stack t st = Ok (stack', t', st') -> I st -> I st'.
Proof.
  unfold train_step. intros E H. apply rbind_ok in E as (sp & _ & E). destruct (is_no_split (sp_crit sp)).
  - apply rbind_ok in E as ([t1 st1] & E1 & E). injection E as _ _ <-. eapply leaf_frame; eassumption.
  - destruct (negb _).
    + apply rbind_ok in E as ([l r] & _ & E). apply rbind_ok in E as (t1 & _ & E). injection E as _ _ <-. exact H.
    + apply rbind_ok in E as ([t1 st1] & E1 & E). apply rbind_ok in E as (t2 & _ & E). injection E as _ _ <-. eapply child_frame; eassumption.
Qed.
Lemma loop_frame fuel : forall stack t st t' st', train_loop dbg cfg s sizes bounds sched St leaf_value fuel stack t st = Ok (t', st') -> I st -> I st'.
Proof.
  induction fuel as [|fuel IH]; intros [|nd stack] t st t' st' E H; cbn [train_loop] in E; try discriminate; try (injection E as _ <-; exact H).
  apply rbind_ok in E as ([[stack1 t1] st1] & E1 & E). eapply IH; [exact E|]. eapply step_frame; eassumption.
Qed.
Lemma train_frame gradients t st st' : train dbg cfg s sizes bounds sched St leaf_value oob gradients st = Ok (t, st') -> I st -> I st'.
Proof.
  unfold train. intros E H. apply rbind_ok in E as (t0 & _ & E). apply rbind_ok in E as (root & _ & E). apply rbind_ok in E as ([t1 st1] & E1 & E). apply rbind_ok in E as (st2 & E2 & E). injection E as _ <-.
  pose proof (loop_frame _ _ _ _ _ _ E1 H) as H1. clear E1. unfold predict_out_of_bag in E2. destruct (example_sampling_enabled s); [|injection E2 as <-; exact H1].
  apply rbind_ok in E2 as (is & _ & E2). revert st1 E2 H1. clear -Ho. induction is as [|i is IH]; intros st1 E2 H1; cbn [foldM] in E2; [injection E2 as <-; exact H1|].
  apply rbind_ok in E2 as (st & E1 & E2). apply rbind_ok in E1 as (p & _ & E1). eapply IH; [exact E2|]. eapply Ho; eassumption.
Qed.
End Frame.

Lemma train_bias O (M : mathops O) dbg (cfg : config O) s sizes bounds sched target grads ob t ob' :
  train dbg cfg s sizes bounds sched (objective O) (obj_leaf_value M target) update_out_of_bag grads ob = Ok (t, ob') -> ob_bias ob' = ob_bias ob.
Proof.
  intros E. eapply (train_frame O dbg cfg s sizes bounds sched (objective O) (obj_leaf_value M target) update_out_of_bag (fun o => ob_bias o = ob_bias ob)); [| |exact E|reflexivity].
  - intros ex st v st' E1 <-. unfold obj_leaf_value in E1. apply rbind_ok in E1 as (r & _ & E1). unfold update_predictions in E1. apply rbind_ok in E1 as (ps & _ & E1). injection E1 as _ <-. reflexivity.
  - intros i v st st' E1 <-. unfold update_out_of_bag in E1. apply rbind_ok in E1 as (p & _ & E1). apply rbind_ok in E1 as (u & _ & E1). apply rbind_ok in E1 as (ps & _ & E1). injection E1 as <-. reflexivity.
Qed.
Lemma update_bias O (M : mathops O) target ob ob' : obj_update M target ob = Ok ob' -> ob_bias ob' = ob_bias ob.
Proof.
  intros Eu. unfold obj_update in Eu. destruct (length (ob_preds ob) =? length target); [|discriminate]. destruct (length (ob_grads ob) =? length target); [|discriminate]. cbn [rassert rbind] in Eu.
  destruct (ob_kind ob).
  - destruct (m_limits M _). injection Eu as <-. reflexivity.
  - injection Eu as <-. reflexivity.
  - apply rbind_ok in Eu as (q & _ & Eu). injection Eu as <-. reflexivity.
  - injection Eu as <-. reflexivity.
  - injection Eu as <-. reflexivity.
Qed.

(* ---- loading ---- *)
Lemma from_csv_cases cfg items : items <> [] -> (forall fields rest, items = CsvRecord fields :: rest -> fields <> []) ->
  (acceptable (dc_categorical cfg) items -> exists d, from_csv cfg items = Ok (Done d)) /\ (~ acceptable (dc_categorical cfg) items -> from_csv cfg items = Ok Err).
Proof.
  intros H1 H2. destruct items as [|[|fields] rest]; [contradiction| |].
  - assert (from_csv cfg (CsvErr :: rest) = Ok Err) as E. { rewrite from_csv_spec. unfold all_ok. cbn [forallb]. rewrite andb_false_r. reflexivity. }
    split; [intros [H _]; cbn in H; lia|intros _; exact E].
  - apply C35_load. cbn [columns_of]. specialize (H2 fields rest eq_refl). destruct fields; [contradiction|cbn; lia].
Qed.
Lemma from_csv_decided cfg items : items <> [] -> (forall fields rest, items = CsvRecord fields :: rest -> fields <> []) -> (exists d, from_csv cfg items = Ok (Done d)) \/ from_csv cfg items = Ok Err.
Proof.
  intros H1 H2. rewrite from_csv_spec. destruct (all_ok cfg items) eqn:E; [|auto]. destruct (Nat.ltb_spec 0 (columns_of items)) as [L|L]; [eauto|]. exfalso.
  destruct items as [|[|fields] rest]; [contradiction| |].
  - unfold all_ok in E. cbn [forallb] in E. rewrite andb_false_r in E. discriminate.
  - specialize (H2 fields rest eq_refl). destruct fields; [contradiction|]. cbn in L. lia.
Qed.
Lemma Forall2_len A B (P : A -> B -> Prop) l l' : Forall2 P l l' -> length l' = length l.
Proof. intros F. induction F; cbn; congruence. Qed.
Lemma Forall2_in_l A B (P : A -> B -> Prop) l l' x : Forall2 P l l' -> In x l -> exists y, In y l' /\ P x y.
Proof. intros F. induction F as [|a b l l' H F IH]; [intros []|]. intros [<-|Hin]; [exists b; cbn; auto|]. destruct (IH Hin) as (y & Hy & Hp). exists y. cbn. auto. Qed.
Lemma from_csv_done cfg items d : from_csv cfg items = Ok (Done d) ->
  acceptable (dc_categorical cfg) items /\ d_nexamples d = length items /\ S (d_nfeatures d) = columns_of items /\ length (d_features d) = columns_of items /\
  forall j col, nth_error (d_features d) j = Some col -> column items j col.
Proof.
  intros E. destruct (C35_columns _ _ _ E) as (A & B & C). assert (0 < columns_of items) as Hc by lia.
  split.
  { apply (all_ok_spec cfg items Hc). rewrite from_csv_spec in E. destruct (all_ok cfg items); [reflexivity|discriminate]. }
  split; [exact A|]. split; [lia|]. assert (length (d_features d) = columns_of items) as L.
  { rewrite from_csv_spec in E. destruct (all_ok cfg items); [|discriminate]. destruct (0 <? columns_of items); [|discriminate]. injection E as <-. unfold csv_data. cbn [d_features]. unfold st_of. cbn [cs_features]. rewrite map_length, seq_length. reflexivity. }
  split; [exact L|]. intros j col Hj. assert (j <= d_nfeatures d) as Hle by (assert (nth_error (d_features d) j <> None) as Hn by congruence; apply nth_error_Some in Hn; lia).
  destruct (C j Hle) as (vs & lo & hi & card & ft & Hcol & Hg & _). unfold get_feature in Hg. apply idx_ok in Hg. pose proof (eq_trans (eq_sym Hj) Hg) as X. injection X as ->. exact Hcol.
Qed.
Lemma from_csv_safe cfg items : safe (from_csv cfg items).
Proof. rewrite from_csv_spec. destruct (all_ok cfg items); [destruct (0 <? columns_of items)|]; split; discriminate. Qed.

(* ---- the bias of a tree ---- *)
Lemma leaf_id_bias O (t : tree O) b d i : predict_leaf_id (set_tree_bias t b) d i = predict_leaf_id t d i.
Proof.
  unfold predict_leaf_id. cbn [set_tree_bias t_crits]. generalize (S (length (t_crits t))), 0. intros fuel. induction fuel as [|fuel IH]; intros n; [reflexivity|]. cbn [leaf_id_loop].
  cbn [set_tree_bias t_crits]. destruct (idx (t_crits t) n) as [c| | |]; cbn [rbind]; try reflexivity. destruct (get_feature d (sc_feature c)) as [feat| | |]; cbn [rbind]; try reflexivity. destruct (idx feat i) as [v| | |]; cbn [rbind]; try reflexivity.
  change (goes_left (set_tree_bias t b) c v) with (goes_left t c v). destruct (goes_left t c v) as [[[|]|]| | |]; cbn [rbind]; try reflexivity; apply IH.
Qed.
Lemma forall2_nth A B (R : A -> B -> Prop) : forall l l', length l = length l' -> (forall i x y, nth_error l i = Some x -> nth_error l' i = Some y -> R x y) -> Forall2 R l l'.
Proof.
  induction l as [|a l IH]; intros [|b l'] L H; try discriminate; [constructor|]. constructor; [apply (H 0); reflexivity|]. apply IH; [cbn in L; lia|]. intros i x y Hx Hy. apply (H (S i)); assumption.
Qed.

Lemma f_add_comm (x y : f32) : f_add x y = f_add y x.
Proof.
  destruct x as [s|s| |s m e h], y as [s'|s'| |s' m' e' h']; try reflexivity.
  - unfold f_add, Bplus. destruct s, s'; reflexivity.
  - unfold f_add, Bplus. destruct s, s'; reflexivity.
  - unfold f_add, Bplus. cbv zeta. rewrite (Z.min_comm e e'). f_equal. apply Z.add_comm.
Qed.
