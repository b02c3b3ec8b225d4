From Coq Require Import Permutation Sorting.Sorted.
From Verif Require Import Base BaseProofs BitModel BitSpec BitProofs BitProofs2 SimdModel SliceModel SliceSpec SliceProofs SliceProofs2 SliceProps
  CountSumProofs IterModel IterSpec IterProofs Num ScaledModel DataModel Config TreeModel DatasetModel DatasetSpec DatasetProofs DatasetProofs2 DatasetProofs3 DatasetProofs4 DatasetProofs5
  RouteProps LearnerModel LearnerSpec LearnerProofs LearnerProofs2 LearnerProofs3.

Lemma In_firstn_in A (x : A) k : forall l, In x (firstn k l) -> In x l.
Proof. induction k as [|k IH]; intros [|y l]; cbn [firstn In]; try tauto. intros [H|H]; auto. Qed.

(* ---- the data set meets the learner's needs ---- *)
Lemma mapM_nth A B (f : A -> res B) l r i x : mapM f l = Ok r -> nth_error l i = Some x -> exists y, nth_error r i = Some y /\ f x = Ok y.
Proof.
  intros E. apply mapM_ok in E. revert i. induction E as [|a b l r Hab _ IH]; intros [|i] Hi; cbn [nth_error] in *; try discriminate.
  - injection Hi as <-. eauto.
  - apply IH, Hi.
Qed.

Lemma lds_reachable O dbg (cfg : config O) d s fs sizes : reachable dbg cfg d s -> active_features s = Ok fs -> hist_sizes d = Ok sizes -> lds s sizes.
Proof.
  intros HR Ha Hs. pose proof (reachable_ok _ _ _ _ _ HR) as HD. pose proof (ds_inv _ _ _ _ HD) as HI.
  assert (forall f, In f fs -> In f (in_useful (ds_inner s))) as Hu.
  { intros f Hf. unfold active_features, in_active_features in Ha. apply subslice_first in Ha as [_ ->]. eapply In_firstn_in; exact Hf. }
  assert (NoDup fs) as Hnd.
  { unfold active_features, in_active_features in Ha. apply subslice_first in Ha as [_ ->]. pose proof (dv_nodup _ _ _ _ HI) as HN.
    rewrite <- (firstn_skipn (in_nactive_features (ds_inner s)) (in_useful (ds_inner s))) in HN. clear -HN. induction (firstn (in_nactive_features (ds_inner s)) (in_useful (ds_inner s))) as [|x l IH]; [constructor|].
    inversion HN; subst. constructor; [|apply IH; assumption]. intros Hc. apply H1, in_or_app. left. exact Hc. }
  assert (forall f, In f fs -> exists nb bvs, nth_error (in_used_nbins (ds_inner s)) f = Some nb /\ nth_error (in_bitvecs (ds_inner s)) f = Some bvs /\ nb <= length bvs /\
     bvs_wf (blocks_required_for (nactive_examples s)) bvs /\ nth_error sizes f = Some (length bvs)) as Hf.
  { intros f Hf. apply Hu in Hf. pose proof (useful_lt _ _ _ _ _ HI Hf) as Hlt.
    destruct (nth_error (in_used_nbins (ds_inner s)) f) as [nb|] eqn:E1; [|apply nth_error_None in E1; rewrite (dv_lused _ _ _ _ HI) in E1; lia].
    destruct (nth_error (in_bitvecs (ds_inner s)) f) as [bvs|] eqn:E2; [|apply nth_error_None in E2; rewrite (dv_lbv _ _ _ _ HI) in E2; lia].
    exists nb, bvs. split; [reflexivity|]. split; [reflexivity|]. split; [eapply (dv_used _ _ _ _ HI); eassumption|].
    destruct (dv_bvs _ _ _ _ HI f bvs Hf E2) as [W Em]. split. { unfold nactive_examples. rewrite (dv_nact _ _ _ _ HI). exact W. }
    unfold hist_sizes in Hs. destruct (mapM_nth _ _ _ _ _ f f Hs) as (y & Ey & Ey'); [rewrite nth_error_seq; replace (f <? d_nfeatures d) with true by lia; reflexivity|].
    rewrite Em in Ey'. injection Ey' as <-. exact Ey. }
  constructor.
  - exists fs. split; [exact Ha|]. split; [exact Hnd|]. intros f Hin. destruct (Hf f Hin) as (nb & bvs & E1 & E2 & Hle & _ & Es). exists nb, (length bvs). split; [apply idx_ok, E1|]. auto.
  - intros f b (fs' & nb & Ha' & Hin & Enb & Hb). rewrite Ha in Ha'. injection Ha' as <-. destruct (Hf f Hin) as (nb' & bvs & E1 & E2 & Hle & W & _).
    apply idx_ok in Enb. rewrite E1 in Enb. injection Enb as <-. destruct (nth_error bvs b) as [fm|] eqn:E3; [|apply nth_error_None in E3; lia].
    exists fm. split; [unfold ds_get_bitvec; rewrite (proj2 (idx_ok _ _ _ _) E2); cbn [rbind]; apply idx_ok, E3|]. unfold bvs_wf in W. rewrite Forall_forall in W. apply W, (nth_error_In _ _ E3).
Qed.

(* ---- splitting counts ---- *)
Lemma filter_filter A (p q : A -> bool) l : filter p (filter q l) = filter (fun x => q x && p x) l.
Proof. induction l as [|x l IH]; [reflexivity|]. cbn [filter]. destruct (q x); cbn [filter andb]; rewrite IH; reflexivity. Qed.
Lemma filter_counts A (p q : A -> bool) l : length (filter p l) = length (filter p (filter q l)) + length (filter p (filter (fun x => negb (q x)) l)).
Proof. induction l as [|x l IH]; [reflexivity|]. cbn [filter]. destruct (p x) eqn:Ep, (q x) eqn:Eq; cbn [filter negb length]; rewrite ?Ep; cbn [length]; lia. Qed.
Lemma filter_halves A (q : A -> bool) l : length l = length (filter q l) + length (filter (fun x => negb (q x)) l).
Proof. induction l as [|x l IH]; [reflexivity|]. cbn [filter]. destruct (q x); cbn [negb length]; lia. Qed.
Lemma filter_sums (p q : nat -> bool) g l : sumN (map g (filter p l)) = (sumN (map g (filter p (filter q l))) + sumN (map g (filter p (filter (fun x => negb (q x)) l))))%N.
Proof. induction l as [|x l IH]; [reflexivity|]. cbn [filter]. destruct (p x) eqn:Ep, (q x) eqn:Eq; cbn [filter negb]; rewrite ?Ep; cbn [map sumN]; rewrite ?IH; lia. Qed.
Lemma half_sums (q : nat -> bool) g l : sumN (map g l) = (sumN (map g (filter q l)) + sumN (map g (filter (fun x => negb (q x)) l)))%N.
Proof. induction l as [|x l IH]; [reflexivity|]. cbn [filter]. destruct (q x) eqn:Eq; cbn [negb map sumN]; rewrite ?IH; lia. Qed.

(* ---- subtraction of histograms ---- *)
Lemma u32_sub_ok dbg a b : (b <= a)%N -> u32_sub dbg a b = Ok (a - b)%N.
Proof. intros H. unfold u32_sub. replace (b <=? a)%N with true by (symmetry; apply N.leb_le; exact H). reflexivity. Qed.

Lemma row_subtract O dbg (p : list (histval O)) : forall l : list (histval O), length l = length p ->
  (forall b (x y : histval O), nth_error p b = Some x -> nth_error l b = Some y -> (snd y <= snd x)%N) ->
  exists r, mapM (fun x => hv_sub O dbg (fst x) (snd x)) (combine p l) = Ok r /\ length r = length p /\
    forall b (x y : histval O), nth_error p b = Some x -> nth_error l b = Some y -> nth_error r b = Some (nsub O (fst x) (fst y), (snd x - snd y)%N).
Proof.
  induction p as [|x p IH]; intros [|y l] HL Hle; try discriminate.
  - exists []. split; [reflexivity|]. split; [reflexivity|]. intros [|b]; discriminate.
  - cbn [combine mapM fst snd]. unfold hv_sub at 1. rewrite u32_sub_ok by (apply (Hle 0); reflexivity). cbn [rbind]. injection HL as HL.
    destruct (IH l HL) as (r & E & Lr & Hr); [intros b; apply (Hle (S b))|]. rewrite E. cbn [rbind]. eexists. split; [reflexivity|]. split; [cbn [length]; lia|].
    intros [|b] x' y' E1 E2; cbn [nth_error] in *; [injection E1 as <-; injection E2 as <-; reflexivity|]. apply Hr; assumption.
Qed.
Lemma hists_subtract_ok O dbg (p : list (list (histval O))) : forall l : list (list (histval O)), map (@length (histval O)) l = map (@length (histval O)) p ->
  (forall f b (x y : histval O), get2 p f b = Some x -> get2 l f b = Some y -> (snd y <= snd x)%N) ->
  exists r, hists_subtract dbg p l = Ok r /\ map (@length (histval O)) r = map (@length (histval O)) p /\
    forall f b (x y : histval O), get2 p f b = Some x -> get2 l f b = Some y -> get2 r f b = Some (nsub O (fst x) (fst y), (snd x - snd y)%N).
Proof.
  induction p as [|hp p IH]; intros [|hl l] HL Hle; try discriminate.
  - exists []. split; [reflexivity|]. split; [reflexivity|]. intros [|f] b x y H; discriminate.
  - cbn [map] in HL. injection HL as HL1 HL. unfold hists_subtract. cbn [combine mapM fst snd].
    destruct (row_subtract O dbg hp hl HL1) as (r0 & E0 & L0 & H0); [intros b; apply (Hle 0 b)|]. match goal with |- context[mapM ?g (combine hp hl)] => replace (mapM g (combine hp hl)) with (Ok r0) by (symmetry; exact E0) end. cbn [rbind].
    destruct (IH l HL) as (r & E & Lr & Hr); [intros f; apply (Hle (S f))|]. unfold hists_subtract in E. match goal with |- context[mapM ?g (combine p l)] => replace (mapM g (combine p l)) with (Ok r) by (symmetry; exact E) end. cbn [rbind].
    eexists. split; [reflexivity|]. split; [cbn [map]; congruence|]. intros [|f] b x y E1 E2; [apply (H0 b); assumption|]. apply (Hr f b); assumption.
Qed.

(* ---- the best split ---- *)
Section Best.
Variable O : numops.
Variable dbg : bool.
Variable cfg : config O.
Variable s : dataset O.
Hypothesis Hirr : forall a, nlt O a a = false.
Hypothesis Htrans : forall a b c, nlt O a b = true -> nlt O b c = true -> nlt O a c = true.

(** [st] is the result of looking at the bins [seen], in this order. *)
Definition best_ok (nd : node O) (seen : nat -> nat -> Prop) (st : num O * split O) : Prop :=
  (forall f b l, seen f b -> admissible cfg s nd f b l -> nlt O (fst st) (gain cfg nd l) = false) /\
  ((fst st = c_min_gain cfg /\ snd st = split_none O) \/
   (exists f b l, seen f b /\ admissible cfg s nd f b l /\ fst st = gain cfg nd l /\ nlt O (c_min_gain cfg) (gain cfg nd l) = true /\
      sp_id (snd st) = b /\ split_on s f b (sp_crit (snd st)))).

Lemma make_crit_ok f b c : make_crit s f b = Ok c -> split_on s f b c.
Proof.
  unfold make_crit. intros H. apply rbind_ok in H as (v & Ev & H). apply rbind_ok in H as (ft & Eft & H). injection H as <-.
  split; [reflexivity|]. split; [exact Ev|]. exists ft. split; [exact Eft|]. reflexivity.
Qed.
Lemma split_on_no_split f b c : split_on s f b c -> is_no_split c = false.
Proof. intros (_ & _ & ft & _ & Ht). unfold is_no_split. rewrite Ht. destruct ft; reflexivity. Qed.

Lemma step_best nd f hist b st st' (seen : nat -> nat -> Prop) : nth_error (nd_hists nd) f = Some hist -> candidate s f b ->
  (forall l, nth_error hist b = Some l -> (snd l <= nd_count nd)%N) ->
  best_ok nd seen st -> split_step dbg cfg s nd f hist st b = Ok st' -> best_ok nd (fun f' b' => seen f' b' \/ (f' = f /\ b' = b)) st'.
Proof.
  intros Hh Hc Hle [H1 H2] E. unfold split_step in E. apply rbind_ok in E as (l & El & E). apply idx_ok in El. specialize (Hle l El).
  rewrite u32_sub_ok in E by exact Hle. cbn [rbind] in E.
  assert (bin_of nd f b = Some l) as Hbin by (unfold bin_of; rewrite Hh; exact El).
  assert (Hadm : admissible cfg s nd f b l <-> ((snd l <? c_min_examples_leaf cfg) || (nd_count nd - snd l <? c_min_examples_leaf cfg))%N = false).
  { unfold admissible. rewrite orb_false_iff, !N.ltb_ge. split; [intros (_ & _ & A & B); split; lia|]. intros [A B]. split; [exact Hc|]. split; [exact Hbin|]. lia. }
  assert (Hold : best_ok nd (fun f' b' => seen f' b' \/ (f' = f /\ b' = b)) st <-> (admissible cfg s nd f b l -> nlt O (fst st) (gain cfg nd l) = false)).
  { split.
    - intros [A _] Ha. apply (A f b l); [right; auto|exact Ha].
    - intros Hn. split; [|destruct H2 as [H2|(f' & b' & l' & S1 & S2)]; [left; exact H2|right; exists f', b', l'; split; [left; exact S1|exact S2]]].
      intros f' b' l' [Hs|[-> ->]] Ha; [apply (H1 f' b'); assumption|]. assert (l' = l) as -> by (destruct Ha as (_ & Hb' & _); congruence). apply Hn, Ha. }
  destruct ((_ <? _) || _)%N eqn:Em in E.
  - injection E as <-. apply Hold. rewrite Hadm, Em. discriminate.
  - cbv zeta in E. change (nsub O (nsub O _ _) _) with (gain cfg nd l) in E. destruct (nlt O (fst st) (gain cfg nd l)) eqn:El'.
    + apply rbind_ok in E as (c & Ec & E). injection E as <-. pose proof (proj2 Hadm Em) as Ha. split; cbn [fst snd].
      * intros f' b' l' [Hs|[-> ->]] Ha'.
        -- destruct (nlt O (gain cfg nd l) (gain cfg nd l')) eqn:E'; [|reflexivity]. rewrite <- (H1 f' b' l' Hs Ha'). symmetry. eapply Htrans; eassumption.
        -- assert (l' = l) as -> by (destruct Ha' as (_ & Hb' & _); congruence). apply Hirr.
      * right. exists f, b, l. split; [right; auto|]. split; [exact Ha|]. split; [reflexivity|]. split; [|split; [reflexivity|apply make_crit_ok, Ec]].
        destruct H2 as [[H2 _]|(f' & b' & l' & _ & _ & G & G' & _)]; [rewrite <- H2; exact El'|]. eapply Htrans; [exact G'|]. rewrite <- G. exact El'.
    + injection E as <-. apply Hold. intros _. reflexivity.
Qed.

Lemma feature_best nd f hist : nth_error (nd_hists nd) f = Some hist -> (forall b l, candidate s f b -> nth_error hist b = Some l -> (snd l <= nd_count nd)%N) ->
  forall m a st st' seen, (forall b, a <= b < a + m -> candidate s f b) -> best_ok nd seen st -> foldM (split_step dbg cfg s nd f hist) (seq a m) st = Ok st' ->
  best_ok nd (fun f' b' => seen f' b' \/ (f' = f /\ a <= b' < a + m)) st'.
Proof.
  intros Hh Hle. induction m as [|m IH]; intros a st st' seen Hc H E; cbn [seq foldM] in E.
  - injection E as <-. destruct H as [H1 H2]. split; [intros f' b' l [Hs|[_ ?]]; [apply H1, Hs|lia]|]. destruct H2 as [H2|(f' & b' & l & S1 & S2)]; [left; exact H2|]. right. exists f', b', l. split; [left; exact S1|exact S2].
  - apply rbind_ok in E as (st1 & E1 & E). eapply step_best in E1; [|exact Hh|apply Hc; lia|intros l; apply Hle; apply Hc; lia|exact H].
    eapply IH in E; [|intros b Hb; apply Hc; lia|exact E1]. cbv beta in E. destruct E as [H1 H2]. split.
    + intros f' b' l Hs. apply H1. destruct Hs as [Hs|[-> Hb]]; [left; left; exact Hs|]. destruct (Nat.eq_dec b' a) as [->|]; [left; right; auto|right; split; [reflexivity|lia]].
    + destruct H2 as [H2|(f' & b' & l & S1 & S2)]; [left; exact H2|]. right. exists f', b', l. split; [|exact S2]. destruct S1 as [[S1|[-> ->]]|[-> S1]]; [left; exact S1|right; split; [reflexivity|lia]|right; split; [reflexivity|lia]].
Qed.

Lemma features_best nd fs0 : (forall f b l, candidate s f b -> bin_of nd f b = Some l -> (snd l <= nd_count nd)%N) -> active_features s = Ok fs0 ->
  forall fs st st' seen, (forall f, In f fs -> In f fs0) -> best_ok nd seen st ->
  foldM (fun st f => let* hist := idx (nd_hists nd) f in let* nb := get_nbins s f in foldM (split_step dbg cfg s nd f hist) (seq 0 nb) st) fs st = Ok st' ->
  best_ok nd (fun f b => seen f b \/ (In f fs /\ candidate s f b)) st'.
Proof.
  intros Hle Ha. induction fs as [|f fs IH]; intros st st' seen Hsub H E; cbn [foldM] in E.
  - injection E as <-. destruct H as [H1 H2]. split; [intros f' b' l [Hs|[[] _]]; apply H1, Hs|]. destruct H2 as [H2|(f' & b' & l & S1 & S2)]; [left; exact H2|]. right. exists f', b', l. split; [left; exact S1|exact S2].
  - apply rbind_ok in E as (st1 & E1 & E). apply rbind_ok in E1 as (hist & Eh & E1). apply idx_ok in Eh. apply rbind_ok in E1 as (nb & Enb & E1).
    assert (Hcand : forall b, candidate s f b <-> b < nb).
    { intros b. split; [intros (fs' & nb' & _ & _ & E' & Hb); congruence|]. intros Hb. exists fs0, nb. split; [exact Ha|]. split; [apply Hsub; left; reflexivity|]. auto. }
    eapply feature_best in E1; [|exact Eh|intros b l Hc El; apply (Hle f b l Hc); unfold bin_of; rewrite Eh; exact El|intros b Hb; apply Hcand; lia|exact H].
    eapply IH in E; [|intros f' Hf'; apply Hsub; right; exact Hf'|exact E1]. cbv beta in E. destruct E as [H1 H2]. split.
    + intros f' b' l Hs. apply H1. destruct Hs as [Hs|[[<-|Hf] Hc]]; [left; left; exact Hs| |right; auto]. left. right. split; [reflexivity|]. apply Hcand in Hc. lia.
    + destruct H2 as [H2|(f' & b' & l & S1 & S2)]; [left; exact H2|]. right. exists f', b', l. split; [|exact S2]. destruct S1 as [[S1|[-> S1]]|[Hf Hc]]; [left; exact S1|right; split; [left; reflexivity|apply Hcand; lia]|right; split; [right; exact Hf|exact Hc]].
Qed.

Lemma best_split_ok nd sp : (forall f b l, candidate s f b -> bin_of nd f b = Some l -> (snd l <= nd_count nd)%N) -> find_best_split dbg cfg s nd = Ok sp ->
  if is_no_split (sp_crit sp) then sp = split_none O /\ forall f b l, admissible cfg s nd f b l -> nlt O (c_min_gain cfg) (gain cfg nd l) = false
  else exists f l, admissible cfg s nd f (sp_id sp) l /\ split_on s f (sp_id sp) (sp_crit sp) /\ nlt O (c_min_gain cfg) (gain cfg nd l) = true /\
       forall f' b' l', admissible cfg s nd f' b' l' -> nlt O (gain cfg nd l) (gain cfg nd l') = false.
Proof.
  intros Hle E. unfold find_best_split in E. apply rbind_ok in E as (fs & Efs & E). apply rbind_ok in E as (st & E & E'). injection E' as <-.
  eapply features_best with (seen := fun _ _ => False) in E; [|exact Hle|exact Efs|auto|split; [intros f b l []|left; split; reflexivity]]. cbv beta in E.
  assert (Hall : forall f b l, admissible cfg s nd f b l -> False \/ In f fs /\ candidate s f b).
  { intros f b l (Hc & _). right. split; [|exact Hc]. destruct Hc as (fs' & _ & E' & Hin & _). rewrite Efs in E'. injection E' as <-. exact Hin. }
  destruct E as [H1 [[G1 G2]|(f & b & l & S1 & Ha & Hg & Hm & Hid & Hc)]].
  - rewrite G2. cbn [split_none sp_crit is_no_split no_split sc_type is_no_split_type]. split; [reflexivity|]. intros f b l Ha. rewrite <- G1. apply (H1 f b l); [eapply Hall; exact Ha|exact Ha].
  - rewrite (split_on_no_split f b _ Hc). subst b. exists f, l. split; [exact Ha|]. split; [exact Hc|]. split; [exact Hm|]. intros f' b' l' Ha'. rewrite <- Hg. apply (H1 f' b' l'); [eapply Hall; exact Ha'|exact Ha'].
Qed.

(** It does not fail if the histograms have all the bins, the counts do not exceed the node's, and the split values exist. *)
Lemma best_split_total nd fs : active_features s = Ok fs -> (forall f, In f fs -> exists nb, get_nbins s f = Ok nb) ->
  (forall f b, candidate s f b -> exists l c, bin_of nd f b = Some l /\ (snd l <= nd_count nd)%N /\ make_crit s f b = Ok c) ->
  (forall f, In f fs -> nth_error (nd_hists nd) f <> None) -> exists sp, find_best_split dbg cfg s nd = Ok sp.
Proof.
  intros Efs Hnb Hc Hh. unfold find_best_split. rewrite Efs. cbn [rbind].
  match goal with |- exists sp, (let* st := foldM ?F fs ?st0 in _) = Ok sp => assert (forall l st, (forall f, In f l -> In f fs) -> exists st', foldM F l st = Ok st') as Hf end.
  { induction l as [|f l IH]; intros st Hsub; cbn [foldM]; [eexists; reflexivity|]. assert (In f fs) as Hf by (apply Hsub; left; reflexivity).
    destruct (nth_error (nd_hists nd) f) as [hist|] eqn:Eh; [|exfalso; apply (Hh f Hf), Eh]. rewrite (proj2 (idx_ok _ _ _ _) Eh). cbn [rbind]. destruct (Hnb f Hf) as [nb Enb]. rewrite Enb. cbn [rbind].
    assert (forall bs st, (forall b, In b bs -> b < nb) -> exists st', foldM (split_step dbg cfg s nd f hist) bs st = Ok st') as Hb.
    { induction bs as [|b bs IHb]; intros st0 Hlt; cbn [foldM]; [eexists; reflexivity|]. destruct (Hc f b) as (l0 & c & El & Hle & Ec).
      { exists fs, nb. split; [exact Efs|]. split; [exact Hf|]. split; [exact Enb|]. apply Hlt. left. reflexivity. }
      unfold bin_of in El. rewrite Eh in El. unfold split_step at 1. rewrite (proj2 (idx_ok _ _ _ _) El). cbn [rbind]. rewrite u32_sub_ok by exact Hle. cbn [rbind].
      assert (forall b0, In b0 bs -> b0 < nb) as Hlt' by (intros b0 Hb0; apply Hlt; right; exact Hb0).
      destruct (_ || _); [apply IHb, Hlt'|]. destruct (nlt O (fst st0) _); [rewrite Ec; cbn [rbind]; apply IHb, Hlt'|apply IHb, Hlt']. }
    destruct (Hb (seq 0 nb) st) as [st' ->]; [intros b Hin; apply in_seq in Hin; lia|]. cbn [rbind]. apply IH. intros f' Hf'. apply Hsub. right. exact Hf'. }
  destruct (Hf fs (c_min_gain cfg, split_none O) (fun _ H => H)) as [st' ->]. eexists. reflexivity.
Qed.
End Best.

(* ---- the children of a node ---- *)
Section Children.
Variable O : numops.
Variable dbg : bool.
Variable cfg : config O.
Variable s : dataset O.
Variable sizes : list nat.
Variable bounds : num O * num O.
Variable sched : nat -> list job -> list job.
Variable gv : nat -> N.
Notation n := (nactive_examples s).
Notation node_ok := (node_ok O cfg n gv).
Notation hists_ok := (hists_ok O s sizes).
Hypothesis Hlds : lds s sizes.
Hypothesis Hw : valid_width (c_discr_nbits cfg) = true.
Hypothesis Hsmall : (N.of_nat n <= 2 ^ 31)%N.
Hypothesis Hsched : forall k js, Permutation js (sched k js).
Hypothesis Hsum : 0 < list_sum sizes.

Record full_ok (nd : node O) : Prop := {
  fo_node : node_ok nd;
  fo_hists : hists_ok nd;
  fo_count : nd_count nd = N.of_nat (length (members n nd))
}.

Lemma full_bin_le nd f b v : full_ok nd -> candidate s f b -> bin_of nd f b = Some v -> (snd v <= nd_count nd)%N.
Proof using Hlds.
  clear Hw Hsmall Hsched Hsum sched bounds dbg.
  intros [_ H C] Hc Hb. destruct (lds_fm _ _ Hlds f b Hc) as (fm & Em & _). rewrite (ho_count _ _ _ _ H f b fm v Hc Em Hb), C. pose proof (filter_length_le _ (bbit fm) (members n nd)). lia.
Qed.

Lemma bin_shape (nd nd' : node O) f b v : map (@length _) (nd_hists nd) = sizes -> map (@length _) (nd_hists nd') = sizes -> bin_of nd f b = Some v -> exists v', bin_of nd' f b = Some v'.
Proof.
  unfold bin_of. intros E1 E2 H. rewrite <- E1 in E2. apply (f_equal (fun l => nth_error l f)) in E2. rewrite !nth_error_map in E2.
  destruct (nth_error (nd_hists nd) f) as [h|]; [|discriminate]. destruct (nth_error (nd_hists nd') f) as [h'|]; [|discriminate]. cbn [option_map] in E2. injection E2 as E2.
  destruct (nth_error h' b) as [v'|] eqn:E'; [eauto|]. apply nth_error_None in E'. assert (b < length h) by (apply nth_error_Some; congruence). lia.
Qed.

Lemma left_right_gen p sp fm : full_ok p -> candidate s (sc_feature (sp_crit sp)) (sp_id sp) -> ds_get_bitvec s (sc_feature (sp_crit sp)) (sp_id sp) = Ok fm ->
  (filter (bbit fm) (members n p) <> [] -> filter (fun x => negb (bbit fm x)) (members n p) <> [] -> exists l r, get_left_right_n2s dbg cfg s sizes bounds sched p sp = Ok (l, r)) /\
  forall l r, get_left_right_n2s dbg cfg s sizes bounds sched p sp = Ok (l, r) ->
  full_ok l /\ full_ok r /\ members n l = filter (bbit fm) (members n p) /\ members n r = filter (fun x => negb (bbit fm x)) (members n p) /\
  nd_id l = left_child (nd_id p) /\ nd_id r = right_child (nd_id p) /\
  (exists v, bin_of p (sc_feature (sp_crit sp)) (sp_id sp) = Some v /\ nd_grad l = fst v /\ nd_grad r = nsub O (nd_grad p) (fst v)) /\
  (forall f b fm', candidate s f b -> ds_get_bitvec s f b = Ok fm' -> bin_of l f b = Some (bin_summary cfg bounds gv (filter (bbit fm') (members n l)))) /\
  (forall f b vp vl, bin_of p f b = Some vp -> bin_of l f b = Some vl -> bin_of r f b = Some (nsub O (fst vp) (fst vl), (snd vp - snd vl)%N)).
Proof.
  intros HP Hc Em. pose proof HP as [PN PH PC]. destruct (lds_fm _ _ Hlds _ _ Hc) as (fm' & Em' & Hfm). rewrite Em in Em'. injection Em' as <-.
  destruct (bin_exists O s sizes Hlds p _ _ (ho_shape _ _ _ _ PH) Hc) as (v & Ev). pose proof (full_bin_le p _ _ v HP Hc Ev) as Hle.
  pose proof (ho_count _ _ _ _ PH _ _ fm v Hc Em Ev) as Hcv.
  pose proof Ev as Ev0. unfold bin_of in Ev0. destruct (nth_error (nd_hists p) (sc_feature (sp_crit sp))) as [hist|] eqn:Eh; [|discriminate].
  pose proof (filter_halves _ (bbit fm) (members n p)) as Hhalf.
  unfold get_left_right_n2s. rewrite (proj2 (idx_ok _ _ _ _) Eh). cbn [rbind]. rewrite (proj2 (idx_ok _ _ _ _) Ev0). cbn [rbind]. rewrite u32_sub_ok by exact Hle. cbn [rbind].
  destruct (split_examples_ok O dbg cfg n gv Hw s sizes p (left_child (nd_id p)) sp (fun m => m) (fun b => b) (snd v) (fst v) fm PN bitwise_id Em Hfm Hsum) as [LT LC].
  destruct (split_examples_ok O dbg cfg n gv Hw s sizes p (right_child (nd_id p)) sp (wnot 4) negb (nd_count p - snd v)%N (nsub O (nd_grad p) (fst v)) fm PN (bitwise_not O cfg gv) Em Hfm Hsum) as [RT RC].
  assert (HB : forall left0, split_examples dbg cfg s sizes p (left_child (nd_id p)) sp (fun m => m) (snd v) (fst v) = Ok left0 -> exists l, build_histograms cfg s bounds sched left0 = Ok l /\
    full_ok l /\ members n l = filter (bbit fm) (members n p) /\ nd_id l = left_child (nd_id p) /\ nd_grad l = fst v /\
    (forall f b fm', candidate s f b -> ds_get_bitvec s f b = Ok fm' -> bin_of l f b = Some (bin_summary cfg bounds gv (filter (bbit fm') (members n l))))).
  { intros left0 E0. destruct (LC left0 E0) as (L1 & L2 & L3 & L4 & L5 & L6).
    destruct (build_ok O cfg s sizes bounds gv Hlds Hw Hsmall sched left0 (Hsched _) L1 L6) as (l & El & B1 & B2 & B3 & B4 & B5 & B6 & B7 & B8 & B9).
    exists l. split; [exact El|]. split. { constructor; [exact B6|exact B8|]. rewrite B2, L4, B7, L2, Hcv. reflexivity. }
    split; [rewrite B7, L2; reflexivity|]. split; [congruence|]. split; [congruence|]. rewrite B7. exact B9. }
  assert (HD : forall l right0, full_ok l -> members n l = filter (bbit fm) (members n p) -> split_examples dbg cfg s sizes p (right_child (nd_id p)) sp (wnot 4) (nd_count p - snd v)%N (nsub O (nd_grad p) (fst v)) = Ok right0 ->
    exists r, derive_histograms dbg p l right0 = Ok r /\ full_ok r /\ members n r = filter (fun x => negb (bbit fm x)) (members n p) /\ nd_id r = right_child (nd_id p) /\ nd_grad r = nsub O (nd_grad p) (fst v) /\
    (forall f b vp vl, bin_of p f b = Some vp -> bin_of l f b = Some vl -> bin_of r f b = Some (nsub O (fst vp) (fst vl), (snd vp - snd vl)%N))).
  { intros l right0 [LN LH LCt] Ml E0. destruct (RC right0 E0) as (R1 & R2 & R3 & R4 & R5 & R6).
    destruct (hists_subtract_ok O dbg (nd_hists p) (nd_hists l)) as (h & Eh' & Lh & Hh).
    { rewrite (ho_shape _ _ _ _ LH). symmetry. apply (ho_shape _ _ _ _ PH). }
    { intros f b x y Ex Ey. destruct (candidate_dec O s sizes Hlds f b) as [Hc'|Hc'].
      - destruct (lds_fm _ _ Hlds f b Hc') as (fm' & Em' & _). rewrite (ho_count _ _ _ _ PH f b fm' x Hc' Em' Ex), (ho_count _ _ _ _ LH f b fm' y Hc' Em' Ey), Ml.
        pose proof (filter_counts _ (bbit fm') (bbit fm) (members n p)). lia.
      - rewrite (ho_zero _ _ _ _ LH f b y Hc' Ey). lia. }
    unfold derive_histograms. rewrite Eh'. cbn [rbind]. eexists. split; [reflexivity|].
    assert (members n (mk_node (nd_id right0) (nd_count right0) (nd_grad right0) (nd_compr right0) h (nd_idx right0) (nd_mask right0) (nd_grads right0)) = filter (fun x => negb (bbit fm x)) (members n p)) as Mr by exact R2.
    cbn [nd_id nd_grad]. split; [|split; [exact Mr|split; [exact R3|split; [exact R5|exact Hh]]]]. constructor.
    - apply (node_ok_same O cfg s gv right0); try reflexivity. exact R1.
    - assert (Hex : forall f b v', get2 h f b = Some v' -> exists vp vl, bin_of p f b = Some vp /\ bin_of l f b = Some vl /\ v' = (nsub O (fst vp) (fst vl), (snd vp - snd vl)%N)).
      { intros f b v' E'. destruct (bin_shape (mk_node 0 0%N (nofZ O 0) false h [] [] []) p f b v') as (vp & Evp); [cbn [nd_hists]; rewrite Lh; apply (ho_shape _ _ _ _ PH)|apply (ho_shape _ _ _ _ PH)|exact E'|].
        destruct (bin_shape p l f b vp (ho_shape _ _ _ _ PH) (ho_shape _ _ _ _ LH) Evp) as (vl & Evl). exists vp, vl. split; [exact Evp|]. split; [exact Evl|]. specialize (Hh f b vp vl Evp Evl). congruence. }
      constructor.
      + cbn [nd_hists]. rewrite Lh. apply (ho_shape _ _ _ _ PH).
      + intros f b fm' v' Hc' Em' E'. rewrite Mr. destruct (Hex f b v' E') as (vp & vl & Evp & Evl & ->). cbn [snd].
        rewrite (ho_count _ _ _ _ PH f b fm' vp Hc' Em' Evp), (ho_count _ _ _ _ LH f b fm' vl Hc' Em' Evl), Ml.
        pose proof (filter_counts _ (bbit fm') (bbit fm) (members n p)). lia.
      + intros f b v' Hc' E'. destruct (Hex f b v' E') as (vp & vl & Evp & Evl & ->). cbn [snd].
        rewrite (ho_zero _ _ _ _ PH f b vp Hc' Evp), (ho_zero _ _ _ _ LH f b vl Hc' Evl). reflexivity.
    - rewrite Mr. cbn [nd_count]. rewrite R4, Hcv, PC. lia. }
  split.
  - intros HL HR. destruct (LT HL) as (left0 & E0). rewrite E0. cbn [rbind]. destruct (HB left0 E0) as (l & El & Fl & Ml & _). rewrite El. cbn [rbind].
    destruct (RT HR) as (right0 & E1). rewrite E1. cbn [rbind]. destruct (HD l right0 Fl Ml E1) as (r & Er & _). rewrite Er. cbn [rbind]. eauto.
  - intros l r E. apply rbind_ok in E as (left0 & E0 & E). apply rbind_ok in E as (l' & El & E). apply rbind_ok in E as (right0 & E1 & E). apply rbind_ok in E as (r' & Er & E). injection E as <- <-.
    destruct (HB left0 E0) as (l & El' & Fl & Ml & Il & Gl & Bl). rewrite El in El'. injection El' as <-. destruct (HD l' right0 Fl Ml E1) as (r & Er' & Fr & Mr & Ir & Gr & Br). rewrite Er in Er'. injection Er' as <-.
    split; [exact Fl|]. split; [exact Fr|]. split; [exact Ml|]. split; [exact Mr|]. split; [exact Il|]. split; [exact Ir|]. split; [exists v; auto|]. split; [exact Bl|exact Br].
Qed.
End Children.
