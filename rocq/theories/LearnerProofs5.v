From Coq Require Import Permutation Sorting.Sorted Reals Lra.
From Verif Require Import Base BaseProofs BitModel BitSpec BitProofs BitProofs2 SimdModel SliceModel SliceSpec SliceProofs SliceProofs2 SliceProps
  CountSumProofs IterModel IterSpec IterProofs Num ScaledModel DataModel Config TreeModel DatasetModel DatasetSpec DatasetProofs DatasetProofs2 DatasetProofs3 DatasetProofs4 DatasetProofs5
  RouteProps LearnerModel LearnerSpec LearnerProofs LearnerProofs2 LearnerProofs3 LearnerProofs4.
Local Close Scope R_scope.

Lemma foldM_inv A T (f : T -> A -> res T) (P : T -> Prop) l : (forall st x st', In x l -> P st -> f st x = Ok st' -> P st') ->
  forall st st', P st -> foldM f l st = Ok st' -> P st'.
Proof.
  induction l as [|x l IH]; intros H st st' H0 E; cbn [foldM] in E; [injection E as <-; exact H0|]. apply rbind_ok in E as (st1 & E1 & E).
  eapply IH; [|eapply H; [left; reflexivity|exact H0|exact E1]|exact E]. intros st2 x2 st3 Hin. apply H. right. exact Hin.
Qed.

(** The chosen split is a candidate with enough examples on either side, whatever the order of the numbers is. *)
Lemma best_split_weak O dbg (cfg : config O) s nd sp : (forall f b l, candidate s f b -> bin_of nd f b = Some l -> (snd l <= nd_count nd)%N) -> find_best_split dbg cfg s nd = Ok sp ->
  sp = split_none O \/ (exists l, admissible cfg s nd (sc_feature (sp_crit sp)) (sp_id sp) l /\ split_on s (sc_feature (sp_crit sp)) (sp_id sp) (sp_crit sp)).
Proof.
  intros Hle E. unfold find_best_split in E. apply rbind_ok in E as (fs & Efs & E). apply rbind_ok in E as (st & E & E'). injection E' as <-.
  set (Q := fun st : num O * split O => snd st = split_none O \/ (exists l, admissible cfg s nd (sc_feature (sp_crit (snd st))) (sp_id (snd st)) l /\ split_on s (sc_feature (sp_crit (snd st))) (sp_id (snd st)) (sp_crit (snd st)))).
  change (Q st). revert E. apply (foldM_inv _ _ _ Q); [|left; reflexivity].
  intros st1 f st2 Hf H E. apply rbind_ok in E as (hist & Eh & E). apply idx_ok in Eh. apply rbind_ok in E as (nb & Enb & E). revert H E. apply (foldM_inv _ _ _ Q).
  intros st3 b st4 Hb H E. apply in_seq in Hb. unfold split_step in E. apply rbind_ok in E as (l & El & E). apply idx_ok in El.
  assert (candidate s f b) as Hc by (exists fs, nb; repeat split; try assumption; lia). assert (bin_of nd f b = Some l) as Ebin by (unfold bin_of; rewrite Eh; exact El).
  pose proof (Hle f b l Hc Ebin). rewrite u32_sub_ok in E by assumption. cbn [rbind] in E. destruct (_ || _) eqn:Em in E; [injection E as <-; exact H|].
  destruct (nlt O _ _) in E; [|injection E as <-; exact H]. apply rbind_ok in E as (c & Ec & E). injection E as <-. right. cbn [snd sp_crit sp_id]. apply make_crit_ok in Ec. pose proof Ec as (Hfc & _). rewrite Hfc.
  exists l. split; [|exact Ec]. apply orb_false_iff in Em as [E1 E2]. apply N.ltb_ge in E1, E2. split; [exact Hc|]. split; [exact Ebin|]. lia.
Qed.

Section Grown.
Variable O : numops.
Variable dbg0 dbg : bool.
Variable cfg : config O.
Variable d : data O.
Variable s : dataset O.
Variable sizes : list nat.
Variable bounds : num O * num O.
Variable sched : nat -> list job -> list job.
Variable gradients : list (num O).
Notation n := (nactive_examples s).
Hypothesis HR : reachable dbg0 cfg d s.
Hypothesis Hsizes : hist_sizes d = Ok sizes.
Hypothesis Hsched : forall k js, Permutation js (sched k js).
Hypothesis Hsmall : (N.of_nat n <= 2 ^ 31)%N.

Lemma root_pre root : get_root_n2s cfg s sizes bounds sched gradients = Ok root -> lds s sizes /\ valid_width (c_discr_nbits cfg) = true.
Proof.
  unfold get_root_n2s. intros H. apply rbind_ok in H as (? & E & H). apply rassert_ok in E. split; [|exact E].
  do 5 (apply rbind_ok in H as (? & _ & H)). apply rbind_ok in H as ((? & ?) & _ & H). apply rbind_ok in H as (? & _ & H). unfold build_histograms in H. apply rbind_ok in H as (? & _ & H). apply rbind_ok in H as (js & Ej & _).
  unfold jobs in Ej. apply rbind_ok in Ej as (fs & Efs & _). eapply lds_reachable; eassumption.
Qed.

(** A node of a tree being grown: what [grown] implies. *)
Definition gvals (rows : list nat) : nat -> N := gradient_at cfg bounds gradients rows.

Lemma grown_pre nd : grown dbg cfg s sizes bounds sched gradients nd ->
  lds s sizes /\ valid_width (c_discr_nbits cfg) = true /\ 0 < list_sum sizes /\ exists rows, example_rows s = Ok rows /\ (forall j, In j rows -> j < length gradients).
Proof.
  induction 1 as [root E| |]; try assumption. destruct (root_pre root E) as [HL Hw]. split; [exact HL|]. split; [exact Hw|].
  destruct (root_ok O cfg s sizes bounds HL Hw Hsmall sched gradients root Hsched E) as (rows & Er & _ & Hs & Hl & _). split; [exact Hs|]. exists rows. auto.
Qed.

Lemma grown_ok nd rows : grown dbg cfg s sizes bounds sched gradients nd -> example_rows s = Ok rows -> full_ok O cfg s sizes (gvals rows) nd.
Proof.
  intros HG Hrows. pose proof (grown_pre nd HG) as (HL & Hw & Hs & _).
  induction HG as [root E|p sp l r HG IH Esp Ens E|p sp l r HG IH Esp Ens E].
  - destruct (root_ok O cfg s sizes bounds HL Hw Hsmall sched gradients root Hsched E) as (rows' & Er & Hn & _ & _ & R1 & R2 & R3 & R4 & R5 & _). rewrite Hrows in Er. injection Er as <-.
    constructor; [exact R1|exact R2|]. rewrite R5, R3, seq_length. reflexivity.
  - destruct (best_split_weak O dbg cfg s p sp (fun f b v => full_bin_le O cfg s sizes (gvals rows) HL p f b v IH) Esp) as [->|(v & (Hc & _) & _)]; [discriminate Ens|].
    destruct (lds_fm _ _ HL _ _ Hc) as (fm & Em & _). destruct (left_right_gen O dbg cfg s sizes bounds sched (gvals rows) HL Hw Hsmall Hsched Hs p sp fm IH Hc Em) as [_ H]. apply (H l r E).
  - destruct (best_split_weak O dbg cfg s p sp (fun f b v => full_bin_le O cfg s sizes (gvals rows) HL p f b v IH) Esp) as [->|(v & (Hc & _) & _)]; [discriminate Ens|].
    destruct (lds_fm _ _ HL _ _ Hc) as (fm & Em & _). destruct (left_right_gen O dbg cfg s sizes bounds sched (gvals rows) HL Hw Hsmall Hsched Hs p sp fm IH Hc Em) as [_ H]. apply (H l r E).
Qed.
End Grown.
