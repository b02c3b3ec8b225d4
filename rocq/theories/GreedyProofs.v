From Coq Require Import Permutation.
From Verif Require Import Base BaseProofs BitModel BitSpec BitProofs BitProofs2 SimdModel SliceModel SliceSpec SliceProofs SliceProofs2 SliceProps
  CountSumProofs IterModel IterSpec IterProofs Num ScaledModel DataModel Config TreeModel TreeSpec TreeProofs TreeProofs2 DatasetModel DatasetSpec DatasetProofs DatasetProofs2 DatasetProofs3 DatasetProofs4 DatasetProofs5
  GainSpec RouteProps LearnerModel LearnerSpec TrainSpec LearnerProofs LearnerProofs2 LearnerProofs3 LearnerProofs4 LearnerProofs5 LearnerProofs6 LearnerProofs7 LearnerProofs8 GreedySpec.

(** Growing in progress: as [greedy], with holes (nodes still on the stack). *)
Inductive gh {O} (s : dataset O) (t : tree O) (stops : list nat -> Prop) (picks : list nat -> nat -> nat -> blocks -> Prop) (leaf : nat -> list nat -> Prop) (hole : nat -> nat -> list nat -> Prop) : nat -> nat -> list nat -> Prop :=
| gh_hole r m l : hole r m l -> gh s t stops picks leaf hole r m l
| gh_leaf r m l : ~ inner_crit t m -> r = 0 \/ stops l -> leaf m l -> gh s t stops picks leaf hole r m l
| gh_split r m l c b fm : nth_error (t_crits t) m = Some c -> sc_type c <> NoSplit ->
    candidate s (sc_feature c) b -> ds_get_bitvec s (sc_feature c) b = Ok fm -> split_on s (sc_feature c) b c -> picks l (sc_feature c) b fm ->
    gh s t stops picks leaf hole r (2 * m + 1) (filter (bbit fm) l) -> gh s t stops picks leaf hole r (2 * m + 2) (filter (fun k => negb (bbit fm k)) l) ->
    gh s t stops picks leaf hole (S r) m l.

Lemma gh_step O (s : dataset O) t t' stops picks (leaf leaf' : nat -> list nat -> Prop) (hole hole' : nat -> nat -> list nat -> Prop) :
  (forall m c, nth_error (t_crits t) m = Some c -> sc_type c <> NoSplit -> nth_error (t_crits t') m = Some c) ->
  (forall m l, ~ inner_crit t m -> leaf m l -> ~ inner_crit t' m /\ leaf' m l) ->
  (forall r m l, hole r m l -> gh s t' stops picks leaf' hole' r m l) ->
  forall r m l, gh s t stops picks leaf hole r m l -> gh s t' stops picks leaf' hole' r m l.
Proof.
  intros H1 H2 H3 r m l. induction 1 as [r m l H|r m l Hi Hs Hl|r m l c b fm Hc Hn Hcd Hb Hso Hp _ IHl _ IHr]; [apply H3, H| |].
  - destruct (H2 m l Hi Hl). apply gh_leaf; assumption.
  - eapply gh_split; eauto.
Qed.

Lemma gh_done O (s : dataset O) t (stops stops' : list nat -> Prop) (picks picks' : list nat -> nat -> nat -> blocks -> Prop) (leaf leaf' : nat -> list nat -> Prop) :
  (forall l, stops l -> stops' l) -> (forall l f b fm, picks l f b fm -> picks' l f b fm) -> (forall m l, leaf m l -> leaf' m l) ->
  forall r m l, gh s t stops picks leaf (fun _ _ _ => False) r m l -> greedy s t stops' picks' leaf' r m l.
Proof.
  intros H1 H2 H3 r m l. induction 1 as [r m l H|r m l Hi Hs Hl|r m l c b fm Hc Hn Hcd Hb Hso Hp _ IHl _ IHr]; [destruct H| |].
  - apply greedy_leaf; [exact Hi|destruct Hs; auto|auto].
  - eapply greedy_split; eauto.
Qed.

Section Greedy.
Variable O : numops.
Variable dbg0 dbg : bool.
Variable cfg : config O.
Variable d : data O.
Variable s : dataset O.
Variable sizes : list nat.
Variable bounds : num O * num O.
Variable sched : nat -> list job -> list job.
Variable gradients : list (num O).
Variable St : Type.
Variable leaf_value : list nat -> St -> res (num O * St).
Variable oob : nat -> num O -> St -> res St.
Notation n := (nactive_examples s).
Notation D := (c_max_tree_depth cfg).
Hypothesis HR : reachable dbg0 cfg d s.
Hypothesis Hsizes : hist_sizes d = Ok sizes.
Hypothesis Hsched : forall k js, Permutation js (sched k js).
Hypothesis Hsmall : (N.of_nat n <= 2 ^ 31)%N.
Notation loop_ok := (loop_ok O dbg cfg s sizes bounds sched gradients).
Notation grown := (grown dbg cfg s sizes bounds sched gradients).

(** A node with these members found no split; or found this one. *)
Definition stopped (l : list nat) : Prop := exists nd sp, grown nd /\ members n nd = l /\ find_best_split dbg cfg s nd = Ok sp /\ is_no_split (sp_crit sp) = true.
Definition picked (l : list nat) (f b : nat) (fm : blocks) : Prop :=
  exists nd sp, grown nd /\ members n nd = l /\ find_best_split dbg cfg s nd = Ok sp /\ is_no_split (sp_crit sp) = false /\
    f = sc_feature (sp_crit sp) /\ b = sp_id sp /\ ds_get_bitvec s f b = Ok fm.
Definition in_groups (gs : list (group O)) (m : nat) (l : list nat) : Prop := exists v, In (m, l, v) gs.
Definition waiting (stack : list (node O)) (r m : nat) (l : list nat) : Prop :=
  exists nd, In nd stack /\ nd_id nd = m /\ members n nd = l /\ 1 <= r <= D /\ at_depth (D - r) m.
Definition growing gs stack t := gh s t stopped picked (in_groups gs) (waiting stack).

Lemma deeper r m : 1 <= r <= D -> at_depth (D - r) m -> (2 ^ D - 1 <= 2 * m + 1 <-> r = 1) /\ (1 <= r - 1 -> 1 <= r - 1 <= D /\ at_depth (D - (r - 1)) (2 * m + 1) /\ at_depth (D - (r - 1)) (2 * m + 2)).
Proof.
  unfold at_depth. intros Hr Hm. replace (D - (r - 1)) with (D - r + 1) by lia. rewrite !Nat.pow_add_r in *. cbn [Nat.pow] in *. rewrite !Nat.mul_1_r in *.
  assert (2 ^ (D - r) <> 0) by (apply Nat.pow_nonzero; lia). split; [|lia].
  assert (2 ^ D = 2 ^ (D - r) * 2 ^ r) as E by (rewrite <- Nat.pow_add_r; f_equal; lia). destruct r as [|[|r]]; [lia|rewrite Nat.pow_1_r in E; lia|].
  cbn [Nat.pow] in E. assert (2 ^ r <> 0) by (apply Nat.pow_nonzero; lia). nia.
Qed.

Lemma growing_step rows W gs nd rest t stack' t' new : example_rows s = Ok rows -> loop_ok W gs (nd :: rest) t -> step_desc O dbg cfg s nd rest t stack' t' new ->
  forall r m l, growing gs (nd :: rest) t r m l -> growing (gs ++ new) stack' t' r m l.
Proof.
  intros Hrows H (sp & Esp & HS).
  assert (grown nd) as HG by (apply (lo_grown _ _ _ _ _ _ _ _ _ _ _ _ H); left; reflexivity).
  assert (leaf_node t (nd_id nd)) as Hleaf by (apply (lo_leaf _ _ _ _ _ _ _ _ _ _ _ _ H); left; reflexivity).
  assert (Hold : forall m l, in_groups gs m l -> m <> nd_id nd).
  { intros m l (v & Hin) ->. pose proof (lo_ids _ _ _ _ _ _ _ _ _ _ _ _ H) as Hnd. cbn [map app] in Hnd. inversion Hnd as [|? ? Hni _]; subst. apply Hni, in_or_app. right. apply (in_map g_leaf _ _ Hin). }
  assert (Hgs : forall m l, in_groups gs m l -> in_groups (gs ++ new) m l) by (intros m l (v & Hin); exists v; apply in_or_app; auto).
  destruct (is_no_split (sp_crit sp)) eqn:Ens.
  - destruct HS as (-> & Ec & v & ->). apply gh_step.
    + intros m c. rewrite Ec. auto.
    + intros m l Hi Hl. split; [|apply Hgs, Hl]. unfold inner_crit in *. rewrite Ec. exact Hi.
    + intros r m l (nd' & [<-|Hin] & Hm & Hl & Hr & Hd).
      * apply gh_leaf; [|right; exists nd, sp; auto|exists v; apply in_or_app; right; left; rewrite Hm, Hl; reflexivity].
        rewrite <- Hm. intros Hi. apply (proj2 Hleaf). unfold inner_crit in *. rewrite <- Ec. exact Hi.
      * apply gh_hole. exists nd'. auto.
  - destruct HS as (fm & Hc & Em & Hso & Ec & Hlt & HS).
    assert (Hcrit : forall m, m <> nd_id nd -> nth_error (t_crits t') m = nth_error (t_crits t) m).
    { intros m Hm. rewrite Ec, nth_error_upd. replace (nd_id nd =? m) with false by lia. reflexivity. }
    assert (Hty : sc_type (sp_crit sp) <> NoSplit) by (intros E0; unfold is_no_split in Ens; rewrite E0 in Ens; discriminate).
    apply gh_step.
    + intros m c Em' Hn'. rewrite Hcrit; [exact Em'|]. intros ->. apply (proj2 Hleaf). exists c. auto.
    + intros m l Hi Hl. split; [|apply Hgs, Hl]. intros (c & E1 & E2). apply Hi. exists c. rewrite <- Hcrit by (eapply Hold, Hl). auto.
    + intros r m l (nd' & [<-|Hin] & Hm & Hl & Hr & Hd).
      * destruct (deeper r m Hr Hd) as [Hmax Hnext]. destruct r as [|r]; [lia|]. replace (S r - 1) with r in Hnext by lia.
        assert (Em0 : is_max_leaf_node t (left_child (nd_id nd)) = (2 ^ D - 1 <=? 2 * m + 1)).
        { unfold is_max_leaf_node, max_ninternal, left_child. rewrite (ti_depth _ _ _ (lo_tinv _ _ _ _ _ _ _ _ _ _ _ _ H)), Hm. f_equal; lia. }
        rewrite Em0 in HS.
        apply (gh_split _ _ _ _ _ _ r m l (sp_crit sp) (sp_id sp) fm); try assumption.
        -- rewrite Ec, nth_error_upd, Hm, Nat.eqb_refl. rewrite Hm in Hlt. replace (m <? length (t_crits t)) with true by lia. reflexivity.
        -- exists nd, sp. auto 10.
        -- destruct HS as [(Hf & -> & a & b & -> & Ia & Ib & Ma & Mb)|(Hf & -> & va & vb & ->)].
           ++ apply gh_hole. exists a. split; [left; reflexivity|]. rewrite Ia, Ma, Hm, Hl. destruct Hnext as (? & ? & ?); [lia|auto].
           ++ assert (r = 0) as -> by lia. apply gh_leaf; [|auto|exists va; apply in_or_app; right; left; rewrite Hm, Hl; reflexivity].
              intros (c & E1 & E2). assert (2 * m + 1 <> nd_id nd) as Hne by lia. rewrite (Hcrit _ Hne) in E1. pose proof (ti_max _ _ _ (lo_tinv _ _ _ _ _ _ _ _ _ _ _ _ H) _ _ E1 E2). lia.
        -- destruct HS as [(Hf & -> & a & b & -> & Ia & Ib & Ma & Mb)|(Hf & -> & va & vb & ->)].
           ++ apply gh_hole. exists b. split; [right; left; reflexivity|]. rewrite Ib, Mb, Hm, Hl. destruct Hnext as (? & ? & ?); [lia|auto].
           ++ assert (r = 0) as -> by lia. apply gh_leaf; [|auto|exists vb; apply in_or_app; right; right; left; rewrite Hm, Hl; reflexivity].
              intros (c & E1 & E2). assert (2 * m + 2 <> nd_id nd) as Hne by lia. rewrite (Hcrit _ Hne) in E1. pose proof (ti_max _ _ _ (lo_tinv _ _ _ _ _ _ _ _ _ _ _ _ H) _ _ E1 E2). lia.
      * apply gh_hole. exists nd'. split; [|auto]. destruct HS as [(_ & _ & a & b & -> & _)|(_ & -> & _)]; [right; right|]; exact Hin.
Qed.

Lemma growing_run rows : example_rows s = Ok rows -> forall fuel W gs stack t st t' st', loop_ok W gs stack t ->
  (forall r m l, growing gs stack t r m l -> True) ->
  train_loop dbg cfg s sizes bounds sched St leaf_value fuel stack t st = Ok (t', st') ->
  exists W' new, loop_ok W' (gs ++ new) [] t' /\ leaf_calls leaf_value (map (to_rows O rows) new) st st' /\
    forall r m l, growing gs stack t r m l -> growing (gs ++ new) [] t' r m l.
Proof.
  intros Hrows. induction fuel as [|fuel IH]; intros W gs stack t st t' st' H _ E.
  - destruct stack as [|nd rest]; [|discriminate]. injection E as <- <-. exists W, []. rewrite app_nil_r. split; [exact H|split; [reflexivity|auto]].
  - destruct stack as [|nd rest]; [injection E as <- <-; exists W, []; rewrite app_nil_r; split; [exact H|split; [reflexivity|auto]]|].
    cbn [train_loop] in E. apply rbind_ok in E as ([[stack' t1] st1] & E1 & E). cbn [fst snd] in E.
    destruct (step_ok O dbg0 dbg cfg d s sizes bounds sched gradients St leaf_value rows HR Hsizes Hsched Hsmall Hrows W gs nd rest t st stack' t1 st1 H E1) as (W1 & new & H' & C & HD).
    destruct (IH W1 (gs ++ new) stack' t1 st1 t' st' H' (fun _ _ _ _ => I) E) as (W2 & new' & H'' & C' & Hg). exists W2, (new ++ new'). rewrite app_assoc, map_app. split; [exact H''|].
    split; [eapply leaf_calls_app; eassumption|]. intros r m l Hgr. apply Hg. eapply growing_step; eassumption.
Qed.

Lemma train_greedy t st st' (stops : list nat -> Prop) (picks : list nat -> nat -> nat -> blocks -> Prop) :
  (forall l, stopped l -> stops l) -> (forall l f b fm, picked l f b fm -> picks l f b fm) ->
  train dbg cfg s sizes bounds sched St leaf_value oob gradients st = Ok (t, st') ->
  exists rows gs st1, example_rows s = Ok rows /\ leaf_calls leaf_value (map (to_rows O rows) gs) st st1 /\ predict_out_of_bag s St oob t st1 = Ok st' /\
    greedy s t stops picks (fun m l => exists v, In (m, l, v) gs /\ node_value t m = Ok v) D 0 (seq 0 n) /\
    (forall m, leaf_node t m <-> In m (map g_leaf gs)) /\ NoDup (map g_leaf gs) /\ Permutation (concat (map g_examples gs)) (seq 0 n) /\ (forall g, In g gs -> g_examples g <> []).
Proof.
  intros Hst Hpk E. unfold train in E. apply rbind_ok in E as (t0 & Et & E). apply rbind_ok in E as (root & Er & E). apply rbind_ok in E as ((t1 & st1) & El & E). apply rbind_ok in E as (st2 & Eo & E). injection E as <- <-.
  destruct (root_pre _ _ _ _ _ _ _ _ _ HR Hsizes root Er) as [HL Hw].
  destruct (root_ok O cfg s sizes bounds HL Hw Hsmall sched gradients root Hsched Er) as (rows & Erows & _).
  destruct (loop_start O dbg0 dbg cfg d s sizes bounds sched gradients St leaf_value oob HR Hsizes Hsched Hsmall t0 root Et Er) as (H0 & Hid & Mr & _).
  destruct (growing_run rows Erows _ _ [] [root] t0 st t1 st1 H0 (fun _ _ _ _ => I) El) as (W & gs & H & C & Hg). exists rows, gs, st1. split; [exact Erows|]. split; [exact C|]. split; [exact Eo|]. cbn [app] in H, Hg.
  split; [|split; [apply (lo_leaf _ _ _ _ _ _ _ _ _ _ _ _ H)|split; [exact (lo_ids _ _ _ _ _ _ _ _ _ _ _ _ H)|split; [|intros g Hin; apply (lo_val _ _ _ _ _ _ _ _ _ _ _ _ H g Hin)]]]].
  2:{ pose proof (lo_perm _ _ _ _ _ _ _ _ _ _ _ _ H) as HP. cbn [map concat app] in HP. exact HP. }
  apply (gh_done O s t1 stopped stops picked picks (in_groups gs)); [exact Hst|exact Hpk| |].
  - intros m l (v & Hin). exists v. split; [exact Hin|]. apply (lo_val _ _ _ _ _ _ _ _ _ _ _ _ H _ Hin).
  - destruct (tree_new_leaves O D _ t0 Et) as (_ & _ & HD & _).
    assert (growing gs [] t1 D 0 (seq 0 n)) as HG.
    { apply Hg. apply gh_hole. exists root. split; [left; reflexivity|]. split; [exact Hid|]. split; [exact Mr|]. split; [lia|]. replace (D - D) with 0 by lia. unfold at_depth. cbn. lia. }
    revert HG. apply gh_step; [auto|auto|]. intros r m l (nd & [] & _).
Qed.
End Greedy.

Lemma greedy_mono O (s : dataset O) t (stops stops' : list nat -> Prop) (picks picks' : list nat -> nat -> nat -> blocks -> Prop) (leaf leaf' : nat -> list nat -> Prop) :
  (forall l, stops l -> stops' l) -> (forall l f b fm, picks l f b fm -> picks' l f b fm) -> (forall m l, leaf m l -> leaf' m l) ->
  forall r m l, greedy s t stops picks leaf r m l -> greedy s t stops' picks' leaf' r m l.
Proof.
  intros H1 H2 H3 r m l. induction 1 as [r m l Hi Hs Hl|r m l c b fm Hc Hn Hcd Hb Hso Hp _ IHl _ IHr].
  - apply greedy_leaf; [exact Hi|destruct Hs; auto|auto].
  - eapply greedy_split; eauto.
Qed.
Lemma greedy_leaves O (s : dataset O) t (stops : list nat -> Prop) (picks : list nat -> nat -> nat -> blocks -> Prop) (leaf leaf' : nat -> list nat -> Prop) :
  (forall m l, leaf m l -> leaf' m l) -> forall r m l, greedy s t stops picks leaf r m l -> greedy s t stops picks leaf' r m l.
Proof. intros H. apply greedy_mono; auto. Qed.
