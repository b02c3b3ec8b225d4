(** Training with the L2 objective on a constant target (generic in the arithmetic). *)
From Coq Require Import Permutation.
From Verif Require Import Base BaseProofs SliceModel Num DataModel Config TreeModel TreeProofs TreeProofs2 DatasetModel DatasetSpec LearnerModel ObjectiveModel MetricModel BoostModel BoostSpec BoostProofs TotalSpec TotalProofs TotalProofs3.

Section Const.
Variable O : numops.
Variable M : mathops O.
Variable dbg : bool.
Variable cfg : config O.
Variable d : data O.
Variable sched : nat -> nat -> list job -> list job.
Hypothesis laws : num_laws O (c_max_nbins cfg) (d_nexamples d).
Hypothesis HT : trainable cfg d.
Hypothesis Hsched : any_order sched.
Hypothesis Hcount : (N.of_nat (scaled_count (d_nexamples d) (c_example_fraction cfg)) <= 2 ^ 31)%N.
Hypothesis Hbins : exists f nb, f < d_nfeatures d /\ max_nbins d f = Ok nb /\ 0 < nb.
Hypothesis Hwidth : valid_width (c_discr_nbits cfg) = true.
Hypothesis Hdepth : 0 < c_max_tree_depth cfg.
Hypothesis Hmin : (1 <= c_min_examples_leaf cfg)%N.
Hypothesis Hno : no_hicard d.
Variable target : list (num O).
Hypothesis Htarget : get_target d = Ok target.
(** [P]: like the constant; [Z]: like zero. *)
Variables (P Z : num O -> Prop).
Hypothesis Hsub : forall t p, In t target -> P p -> Z (nsub O t p).
Hypothesis Hneg : forall z, Z z -> neq O (nneg O z) (nneg O z) = true.
Hypothesis Hzero : Z (nofZ O 0).
Hypothesis Hadd : forall a b, Z a -> Z b -> Z (nadd O a b).
Hypothesis Hdiv : forall a n, Z a -> 0 < n -> Z (ndiv O a (nofnat O n)).
Hypothesis Hlr : forall a, Z a -> Z (nmul O (c_learning_rate cfg) a).
Hypothesis Hone : forall a, Z a -> Z (nmul O (nofZ O 1) a).
Hypothesis Hmove : forall p z, P p -> Z z -> P (nadd O p z).
Hypothesis HfinP : forall p, P p -> nisfin O p = true.
Hypothesis HfinZ : forall z, Z z -> nisfin O z = true.
Hypothesis Hbias : P (ndiv O (nsum target) (nofnat O (length target))).

Definition const_inv (ob : objective O) : Prop :=
  ob_kind ob = L2 /\ ob_lr ob = c_learning_rate cfg /\ length (ob_preds ob) = d_nexamples d /\ length (ob_grads ob) = d_nexamples d /\ Forall P (ob_preds ob).

Lemma target_len : length target = d_nexamples d.
Proof using HT Htarget. clear - HT Htarget. apply idx_ok in Htarget. destruct HT as ((_ & _ & H) & _). apply H. eapply nth_error_In, Htarget. Qed.

Lemma const_upd ob : const_inv ob -> exists ob', obj_update M target ob = Ok ob' /\ usable_gradients dbg cfg d (ob_grads ob') (obj_bounds ob') /\ const_inv ob'.
Proof.
  intros (K & Lr & Lp & Lg & HP). unfold obj_update. rewrite Lp, Lg, target_len, Nat.eqb_refl. cbn [rassert rbind]. rewrite K. destruct (m_limits M (residuals target (ob_preds ob))) as [mn mx].
  assert (length (pair_gradients M L2 (zero O) target (ob_preds ob)) = d_nexamples d) as HL. { unfold pair_gradients. rewrite map_length, combine_length, Lp, target_len. lia. }
  eexists. split; [reflexivity|]. cbn [ob_grads]. split.
  - split; [exact HL|]. split; [|left; exact Hno]. intros g Hg. unfold pair_gradients in Hg. apply in_map_iff in Hg as ((t & p) & <- & Hg). cbn [fst snd gradient].
    apply Hneg, Hsub; [eapply in_combine_l, Hg|]. apply in_combine_r in Hg. rewrite Forall_forall in HP. apply HP, Hg.
  - repeat split; cbn [ob_kind ob_lr ob_preds ob_grads]; auto.
Qed.
Lemma idx_ex A (l : list A) i : i < length l -> exists x, idx l i = Ok x /\ In x l.
Proof. clear. intros H. destruct (nth_error l i) as [x|] eqn:E; [|apply nth_error_None in E; lia]. exists x. split; [apply idx_ok, E|eapply nth_error_In, E]. Qed.
Lemma upd_forall A (Q : A -> Prop) (l : list A) i x : Forall Q l -> Q x -> Forall Q (upd l i x).
Proof. clear. intros HF Hx. revert i. induction HF as [|y t Hy HFt IH]; intros [|i]; cbn [upd]; constructor; auto. Qed.
Lemma const_preds z ex : Z z -> forall ps, Forall P ps -> (forall j, In j ex -> j < length ps) -> exists ps', foldM (update_pred z) ex ps = Ok ps' /\ length ps' = length ps /\ Forall P ps'.
Proof.
  intros Hz. induction ex as [|j t IH]; intros ps HP H; cbn [foldM]; [eauto|]. unfold update_pred at 1. destruct (idx_ex _ ps j (H j (or_introl eq_refl))) as (p & E & Hin). rewrite E. cbn [rbind].
  assert (P (nadd O p z)) as Hp by (apply Hmove; [rewrite Forall_forall in HP; apply HP, Hin|exact Hz]). rewrite set_idx_lt by (apply H; left; reflexivity). cbn [rbind]. rewrite (HfinP _ Hp). cbn [rassert rbind].
  destruct (IH (upd ps j (nadd O p z))) as (ps' & E' & L' & HF').
  - apply upd_forall; assumption.
  - intros k Hk. rewrite upd_length. apply H. right. exact Hk.
  - exists ps'. split; [exact E'|]. rewrite L', upd_length. auto.
Qed.
Lemma const_leaf ex ob : const_inv ob -> ex <> [] -> (forall j, In j ex -> j < d_nexamples d) -> exists v ob', obj_leaf_value M target ex ob = Ok (v, ob') /\ nisfin O v = true /\ Z v /\ const_inv ob'.
Proof.
  intros (K & Lr & Lp & Lg & HP) Hne Hex. unfold obj_leaf_value, raw_leaf_value. rewrite K.
  assert (forall l s, Z s -> (forall j, In j l -> j < d_nexamples d) -> exists s', foldM (fun s i => let* e := residual target (ob_preds ob) i in Ok (nadd O s e)) l s = Ok s' /\ Z s') as Hsum.
  { induction l as [|j t IH]; intros s Hs H; cbn [foldM]; [eauto|]. unfold residual at 1. destruct (idx_ex _ target j) as (a & Ea & Ha); [rewrite target_len; apply H; left; reflexivity|].
    destruct (idx_ex _ (ob_preds ob) j) as (p & Ep & Hp); [rewrite Lp; apply H; left; reflexivity|]. rewrite Ea, Ep. cbn [rbind]. apply IH; [|intros k Hk; apply H; right; exact Hk].
    apply Hadd; [exact Hs|]. apply Hsub; [exact Ha|]. rewrite Forall_forall in HP. apply HP, Hp. }
  destruct (Hsum ex (zero O) Hzero Hex) as (s & Es & Hs). rewrite Es. cbn [rbind].
  assert (Z (ndiv O s (nofnat O (length ex)))) as Hv. { apply Hdiv; [exact Hs|]. destruct ex; [destruct (Hne eq_refl)|cbn; lia]. }
  unfold update_predictions. rewrite Lr. destruct (const_preds _ ex (Hlr _ Hv) (ob_preds ob) HP) as (ps & Eps & Lps & HF); [intros j Hj; rewrite Lp; apply Hex, Hj|]. rewrite Eps. cbn [rbind].
  eexists _, _. split; [reflexivity|]. split; [apply HfinZ, Hlr, Hv|]. split; [apply Hlr, Hv|]. repeat split; cbn [ob_kind ob_lr ob_preds ob_grads]; auto. lia.
Qed.
Lemma const_oob i v ob : const_inv ob -> i < d_nexamples d -> Z v -> exists ob', update_out_of_bag i (nmul O (nofZ O 1) (nadd O v (nofZ O 0))) ob = Ok ob' /\ const_inv ob'.
Proof.
  intros (K & Lr & Lp & Lg & HP) Hi Hv. unfold update_out_of_bag. destruct (idx_ex _ (ob_preds ob) i) as (p & Ep & Hin); [lia|]. rewrite Ep. cbn [rbind]. rewrite Forall_forall in HP.
  rewrite (HfinP _ (HP _ Hin)). cbn [rassert rbind]. rewrite set_idx_lt by lia. cbn [rbind]. eexists. split; [reflexivity|]. repeat split; cbn [ob_kind ob_lr ob_preds ob_grads]; auto.
  - rewrite upd_length. exact Lp.
  - apply upd_forall; [apply Forall_forall, HP|]. apply Hmove; [apply HP, Hin|]. apply Hone, Hadd; [exact Hv|exact Hzero].
Qed.
Lemma const_train metrics g : exists m ps, boost_train M dbg cfg d sched L2 metrics g = Ok m /\ length (at_trees m) = c_niterations cfg /\ additive_predict m d = Ok ps /\ length ps = d_nexamples d /\ Forall P ps.
Proof.
  assert (exists ob0, obj_initialize M dbg cfg target (objective_new O L2) = Ok ob0 /\ const_inv ob0 /\ P (ob_bias ob0)) as (ob0 & E0 & I0 & B0).
  { unfold obj_initialize. cbn [ob_kind objective_new]. eexists. split; [reflexivity|]. cbn [ob_bias initialize_base]. split; [|exact Hbias].
    unfold const_inv. cbn [ob_kind ob_lr ob_preds ob_grads initialize_base objective_new]. rewrite !repeat_length, target_len. repeat split. apply Forall_forall. intros x Hx. apply repeat_spec in Hx. subst x. rewrite <- target_len. exact Hbias. }
  destruct (run_total O M dbg cfg d sched laws HT Hsched Hcount Hbins Hwidth Hdepth Hmin target Htarget const_inv const_inv Z const_upd const_leaf const_oob (fun _ H => H) L2 metrics g (c_niterations cfg) ob0 E0 I0) as (b & Eb & _ & Hl & Hb & HF).
  exists (bs_ensemble b). unfold boost_train. rewrite Eb. cbn [rbind].
  assert (forall ts ps, Forall (from_values O d Z) ts -> Forall P ps -> length ps = d_nexamples d -> exists ps', foldM (fun buf t => predict_and t d (fun p acc => nadd O acc p) buf) ts ps = Ok ps' /\ length ps' = d_nexamples d /\ Forall P ps') as Hpred.
  { clear - Hmove Hone Hadd Hzero. induction ts as [|t ts IH]; intros ps Hts HP Hlen; cbn [foldM]; [eauto|]. inversion Hts as [|? ? Ht Hts']; subst.
    destruct (predict_and_ok O t d (fun p acc => nadd O acc p) ps Hlen) as (ps1 & E1 & L1 & H1). { intros i Hi. destruct (Ht i Hi) as (v & _ & E). eauto. }
    rewrite E1. cbn [rbind]. apply IH; [exact Hts'| |lia]. apply Forall_forall. intros x Hx. apply In_nth_error in Hx as [i Hi]. assert (i < d_nexamples d) as Hlt by (rewrite <- Hlen, <- L1; apply nth_error_Some; congruence).
    destruct (Ht i Hlt) as (v & Hv & Ev). destruct (nth_error ps i) as [p|] eqn:Ep; [|apply nth_error_None in Ep; lia]. rewrite (H1 i _ p Ev Ep) in Hi. injection Hi as <-.
    apply Hmove; [|apply Hone, Hadd; assumption]. rewrite Forall_forall in HP. eapply HP, nth_error_In, Ep. }
  destruct (Hpred (at_trees (bs_ensemble b)) (map (fun _ => at_bias (bs_ensemble b)) (repeat (nofZ O 0) (d_nexamples d))) HF) as (ps & Eps & Lps & HPs).
  - apply Forall_forall. intros x Hx. apply in_map_iff in Hx as (_ & <- & _). rewrite Hb. exact B0.
  - rewrite map_length. apply repeat_length.
  - exists ps. auto.
Qed.
End Const.
