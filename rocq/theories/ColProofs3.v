(** Tables with the columns in another order: growing a tree. *)
From Coq Require Import Permutation.
From Verif Require Import Base BaseProofs BitModel Num DataModel BinnerModel Config TreeModel DatasetModel DatasetSpec LearnerModel LearnerSpec RouteProps LearnerProofs3 LearnerProofs4 LearnerProofs5 LearnerProps RowProofs2 AlikeProofs ColSpec ColProofs ColProofs2.

(** The chosen bin is the first best one of its feature. *)
Section First.
Variable O : numops.
Variable dbg : bool.
Variable cfg : config O.
Variable s : dataset O.
Hypothesis Hirr : forall a, nlt O a a = false.
Hypothesis Htrans : forall a b c, nlt O a b = true -> nlt O b c = true -> nlt O a c = true.
Definition first_ok (nd : node O) (st : num O * split O) : Prop :=
  snd st = split_none O \/ exists f b x l, bin_of nd f b = Some l /\ sp_id (snd st) = b /\ split_on s f b (sp_crit (snd st)) /\ nlt O x (gain cfg nd l) = true /\
    forall b' l', b' < b -> admissible cfg s nd f b' l' -> nlt O x (gain cfg nd l') = false.
Lemma step_first nd f hist b st st' (seen : nat -> nat -> Prop) : nth_error (nd_hists nd) f = Some hist -> (forall l, nth_error hist b = Some l -> (snd l <= nd_count nd)%N) -> (forall b', b' < b -> seen f b') ->
  best_ok O cfg s nd seen st -> first_ok nd st -> split_step dbg cfg s nd f hist st b = Ok st' -> first_ok nd st'.
Proof.
  intros Hh Hle Hseen [H1 _] HF E. unfold split_step in E. apply rbind_ok in E as (l & El & E). apply idx_ok in El. specialize (Hle l El). rewrite u32_sub_ok in E by exact Hle. cbn [rbind] in E. destruct (_ || _); [apply Ok_eq in E; subst st'; exact HF|].
  cbv zeta in E. change (nsub O (nsub O _ _) _) with (gain cfg nd l) in E. destruct (nlt O (fst st) (gain cfg nd l)) eqn:Eg; [|apply Ok_eq in E; subst st'; exact HF]. apply rbind_ok in E as (c & Ec & E). apply Ok_eq in E. subst st'.
  right. exists f, b, (fst st), l. cbn [snd sp_id sp_crit]. split; [unfold bin_of; rewrite Hh; exact El|]. split; [reflexivity|]. split; [apply make_crit_ok, Ec|]. split; [exact Eg|]. intros b' l' Hb Ha. apply (H1 f b' l' (Hseen b' Hb) Ha).
Qed.
Lemma feature_first nd f hist : nth_error (nd_hists nd) f = Some hist -> (forall b l, candidate s f b -> nth_error hist b = Some l -> (snd l <= nd_count nd)%N) ->
  forall m a st st' (seen : nat -> nat -> Prop), (forall b, a <= b < a + m -> candidate s f b) -> (forall b, b < a -> seen f b) -> best_ok O cfg s nd seen st -> first_ok nd st -> foldM (split_step dbg cfg s nd f hist) (seq a m) st = Ok st' -> first_ok nd st'.
Proof.
  intros Hh Hle. induction m as [|m IH]; intros a st st' seen Hc Hs HB HF E; cbn [seq foldM] in E; [apply Ok_eq in E; subst; exact HF|]. apply rbind_ok in E as (st1 & E1 & E).
  assert (forall l, nth_error hist a = Some l -> (snd l <= nd_count nd)%N) as Hla by (intros l; apply Hle; apply Hc; lia).
  pose proof (step_first _ _ _ _ _ _ _ Hh Hla Hs HB HF E1) as HF1. pose proof (step_best O dbg cfg s Hirr Htrans nd f hist a st st1 seen Hh (Hc a ltac:(lia)) Hla HB E1) as HB1.
  eapply IH; [| |exact HB1|exact HF1|exact E]; [intros b Hb; apply Hc; lia|]. intros b Hb. destruct (Nat.eq_dec b a) as [->|]; [right; auto|left; apply Hs; lia].
Qed.
Lemma features_first nd fs0 : (forall f b l, candidate s f b -> bin_of nd f b = Some l -> (snd l <= nd_count nd)%N) -> active_features s = Ok fs0 ->
  forall fs st st' (seen : nat -> nat -> Prop), (forall f, In f fs -> In f fs0) -> best_ok O cfg s nd seen st -> first_ok nd st ->
  foldM (fun st f => let* hist := idx (nd_hists nd) f in let* nb := get_nbins s f in foldM (split_step dbg cfg s nd f hist) (seq 0 nb) st) fs st = Ok st' -> first_ok nd st'.
Proof.
  intros Hle Ha. induction fs as [|f fs IH]; intros st st' seen Hsub HB HF E; [cbn [foldM] in E; apply Ok_eq in E; subst; exact HF|].
  pose proof E as E0. cbn [foldM] in E. apply rbind_ok in E as (st1 & E1 & E). 
  assert (foldM (fun st f => let* hist := idx (nd_hists nd) f in let* nb := get_nbins s f in foldM (split_step dbg cfg s nd f hist) (seq 0 nb) st) [f] st = Ok st1) as E1' by (cbn [foldM]; rewrite E1; reflexivity).
  eapply (features_best O dbg cfg s Hirr Htrans nd fs0 Hle Ha) in E1'; [|intros g [<-|[]]; apply Hsub; left; reflexivity|exact HB].
  eapply IH; [intros g Hg; apply Hsub; right; exact Hg|exact E1'| |exact E].
  apply rbind_ok in E1 as (hist & Eh & E1). apply idx_ok in Eh. apply rbind_ok in E1 as (nb & Enb & E1).
  eapply feature_first; [exact Eh| | | |exact HB|exact HF|exact E1].
  - intros b l Hc El. apply (Hle f b l Hc). unfold bin_of. rewrite Eh. exact El.
  - intros b Hb. exists fs0, nb. split; [exact Ha|]. split; [apply Hsub; left; reflexivity|]. split; [exact Enb|lia].
  - intros b Hb. lia.
Qed.
Lemma best_first nd sp : (forall f b l, candidate s f b -> bin_of nd f b = Some l -> (snd l <= nd_count nd)%N) -> find_best_split dbg cfg s nd = Ok sp ->
  if is_no_split (sp_crit sp) then sp = split_none O /\ forall f b l, admissible cfg s nd f b l -> nlt O (c_min_gain cfg) (gain cfg nd l) = false
  else exists f l, admissible cfg s nd f (sp_id sp) l /\ split_on s f (sp_id sp) (sp_crit sp) /\ nlt O (c_min_gain cfg) (gain cfg nd l) = true /\
       (forall f' b' l', admissible cfg s nd f' b' l' -> nlt O (gain cfg nd l) (gain cfg nd l') = false) /\
       exists x, nlt O x (gain cfg nd l) = true /\ forall b' l', b' < sp_id sp -> admissible cfg s nd f b' l' -> nlt O x (gain cfg nd l') = false.
Proof.
  intros Hle E. pose proof (best_split_ok O dbg cfg s Hirr Htrans nd sp Hle E) as H. destruct (is_no_split (sp_crit sp)) eqn:En; [exact H|]. destruct H as (f & l & Ha & Hso & Hm & Hmax). exists f, l. do 4 (split; [assumption|]).
  unfold find_best_split in E. apply rbind_ok in E as (fs & Efs & E). apply rbind_ok in E as (st & E & E'). apply Ok_eq in E'. subst sp.
  eapply features_first with (seen := fun _ _ => False) in E; [|exact Hle|exact Efs|auto|split; [intros ? ? ? []|left; split; reflexivity]|left; reflexivity].
  destruct E as [E|(f' & b & x & l' & Eb & Ei & Es & Ex & Hf)]; [rewrite E in En; discriminate|]. assert (f' = f) as -> by (destruct Es as (<- & _), Hso as (<- & _); reflexivity). subst b. assert (l' = l) as -> by (destruct Ha as (_ & Hb & _); congruence).
  exists x. split; [exact Ex|exact Hf].
Qed.
End First.
