(** Property C57: the trained tree is the greedy tree. *)
From Coq Require Import Reals Lra Permutation.
From Verif Require Import Base BaseProofs BitModel BitSpec BitProofs BitProofs2 SimdModel SliceModel SliceSpec SliceProofs SliceProofs2 SliceProps
  CountSumProofs IterModel IterSpec IterProofs Num F32 F32Proofs ScaledModel DataModel DataSpec Config TreeModel TreeSpec TreeProofs TreeProofs2 TreeProps DatasetModel DatasetSpec DatasetProofs DatasetProofs2 DatasetProofs3 DatasetProofs4 DatasetProofs5
  DatasetProps RouteProps LearnerModel LearnerSpec TrainSpec LearnerProofs LearnerProofs2 LearnerProofs3 LearnerProofs4 LearnerProofs5 LearnerProofs6 LearnerProofs7 LearnerProofs8 LearnerProofs9 LearnerProofs10 GainSpec LearnerProps
  TrainProps TotalProps GreedySpec GreedyProofs.
Local Close Scope R_scope.

Lemma to_rows_groups O rows (gs : list (group O)) : map g_leaf (map (to_rows O rows) gs) = map g_leaf gs.
Proof. rewrite map_map. apply map_ext. reflexivity. Qed.

(** Both sides of a chosen split have the required number of examples (counts are exact in all arithmetics). *)
Lemma picked_sides O dbg0 dbg (cfg : config O) d s sizes bounds sched gradients nd f b v fm : setting dbg0 cfg d s sizes sched ->
  grown dbg cfg s sizes bounds sched gradients nd -> admissible cfg s nd f b v -> ds_get_bitvec s f b = Ok fm ->
  both_sides (N.to_nat (c_min_examples_leaf cfg)) fm (members (nactive_examples s) nd).
Proof.
  intros HS HG (Hc & Ebin & Hmin1 & Hmin2) Em. pose proof (C18_counts _ _ _ _ _ _ _ _ _ _ _ _ _ _ _ HS HG Hc Em Ebin) as Hcv.
  pose proof HS as (HR & Hsz & Hsch & Hsm). destruct (grown_pre _ dbg0 dbg _ _ _ _ _ _ _ HR Hsz Hsch Hsm nd HG) as (HL & Hw & Hs & rows & Hrows & _).
  pose proof (fo_count _ _ _ _ _ _ (grown_ok _ dbg0 dbg _ _ _ _ _ _ _ HR Hsz Hsch Hsm nd rows HG Hrows)) as Hcnt.
  pose proof (filter_halves _ (bbit fm) (members (nactive_examples s) nd)) as Hh.
  change (fun k => bbit fm k) with (bbit fm) in Hcv. unfold both_sides. lia.
Qed.

(** As computed, whatever the rounding: the tree is grown greedily from all active examples, to at most [max_tree_depth] levels.
    A node that is not split although a level is left has no bin, of an active feature, with at least [min_examples_leaf] examples on both sides and a computed gain above [min_gain].
    A node that is split is split on such a bin, with no other such bin having a larger computed gain.
    Each leaf holds the value the objective gave for exactly the examples that arrive there. *)
Definition no_good_bin (cfg : config f32ops) s (nd : node f32ops) : Prop := forall f b v, admissible cfg s nd f b v -> nlt f32ops (c_min_gain cfg) (gain cfg nd v) = false.
Definition best_bin (cfg : config f32ops) s (nd : node f32ops) (f b : nat) : Prop :=
  exists v, admissible cfg s nd f b v /\ nlt f32ops (c_min_gain cfg) (gain cfg nd v) = true /\ forall f' b' v', admissible cfg s nd f' b' v' -> nlt f32ops (gain cfg nd v) (gain cfg nd v') = false.
Theorem C57_tree : forall dbg0 dbg (cfg : config f32ops) d s sizes bounds sched gradients St leaf_value oob t (st st' : St), setting dbg0 cfg d s sizes sched ->
  train dbg cfg s sizes bounds sched St leaf_value oob gradients st = Ok (t, st') ->
  exists rows (gs : list (group f32ops)) st1, example_rows s = Ok rows /\ leaf_calls leaf_value gs st st1 /\ predict_out_of_bag s St oob t st1 = Ok st' /\
    NoDup (map g_leaf gs) /\ (forall m, leaf_node t m <-> In m (map g_leaf gs)) /\
    let n := nactive_examples s in
    greedy s t
      (fun l => exists nd, grown dbg cfg s sizes bounds sched gradients nd /\ members n nd = l /\ no_good_bin cfg s nd)
      (fun l f b fm => both_sides (N.to_nat (c_min_examples_leaf cfg)) fm l /\ exists nd, grown dbg cfg s sizes bounds sched gradients nd /\ members n nd = l /\ best_bin cfg s nd f b)
      (fun m l => exists v, In (m, map (fun k => nth k rows 0) l, v) gs /\ node_value t m = Ok v)
      (c_max_tree_depth cfg) 0 (seq 0 n).
Proof.
  intros dbg0 dbg cfg d s sizes bounds sched gradients St leaf_value oob t st st' HS E. pose proof HS as (HR & Hsz & Hsch & Hsm).
  edestruct (train_greedy f32ops dbg0 dbg cfg d s sizes bounds sched gradients St leaf_value oob HR Hsz Hsch Hsm t st st'
    (fun l => exists nd, grown dbg cfg s sizes bounds sched gradients nd /\ members (nactive_examples s) nd = l /\ no_good_bin cfg s nd)
    (fun l f b fm => both_sides (N.to_nat (c_min_examples_leaf cfg)) fm l /\ exists nd, grown dbg cfg s sizes bounds sched gradients nd /\ members (nactive_examples s) nd = l /\ best_bin cfg s nd f b))
    as (rows & gs & st1 & Hrows & C & Eo & HG & Hl & Hnd & _); [| |exact E|].
  - intros l (nd & sp & HG & Hm & Esp & Ens). exists nd. split; [exact HG|]. split; [exact Hm|]. pose proof (C20_best _ _ _ _ _ _ _ _ _ _ _ HS HG Esp) as HB. unfold best_split in HB. rewrite Ens in HB. exact HB.
  - intros l f b fm (nd & sp & HG & Hm & Esp & Ens & -> & -> & Em). pose proof (C20_best _ _ _ _ _ _ _ _ _ _ _ HS HG Esp) as HB. unfold best_split in HB. rewrite Ens in HB.
    destruct HB as (f' & v & Ha & Hso & Hg & Hbest). destruct Hso as (Hf & _). subst f'.
    split; [rewrite <- Hm; eapply picked_sides; eassumption|]. exists nd. split; [exact HG|]. split; [exact Hm|]. exists v. auto.
  - exists rows, (map (to_rows f32ops rows) gs), st1. split; [exact Hrows|]. split; [exact C|]. split; [exact Eo|]. rewrite to_rows_groups. split; [exact Hnd|]. split; [exact Hl|]. cbv zeta.
    revert HG. apply greedy_leaves. intros m l (v & Hin & Hv). exists v. split; [|exact Hv]. apply (in_map (to_rows f32ops rows) _ _ Hin).
Qed.
Print Assumptions C57_tree.

(** In exact arithmetic with [min_examples_leaf] 1: the gains are those of the specification, for the discretised gradients of the examples. *)
Theorem C57_exact : forall dbg0 dbg (cfg : config Rops) d s sizes (lo hi : R) sched gradients St leaf_value oob t (st st' : St), setting dbg0 cfg d s sizes sched ->
  c_min_examples_leaf cfg = 1%N -> (lo < hi)%R ->
  train dbg cfg s sizes (lo, hi) sched St leaf_value oob gradients st = Ok (t, st') ->
  exists rows (gs : list (group Rops)) st1, example_rows s = Ok rows /\ leaf_calls leaf_value gs st st1 /\ predict_out_of_bag s St oob t st1 = Ok st' /\
    NoDup (map g_leaf gs) /\ (forall m, leaf_node t m <-> In m (map g_leaf gs)) /\
    let n := nactive_examples s in
    let G := fun fm l => split_gain (c_discr_nbits cfg) lo hi (gradient_at cfg (lo, hi) gradients rows) (c_reg_lambda cfg) (bbit fm) l in
    greedy s t
      (fun l => forall f b fm, divides s l f b fm -> (G fm l <= c_min_gain cfg)%R)
      (fun l f b fm => divides s l f b fm /\ (c_min_gain cfg < G fm l)%R /\ forall f' b' fm', divides s l f' b' fm' -> (G fm' l <= G fm l)%R)
      (fun m l => exists v, In (m, map (fun k => nth k rows 0) l, v) gs /\ node_value t m = Ok v)
      (c_max_tree_depth cfg) 0 (seq 0 n).
Proof.
  intros dbg0 dbg cfg d s sizes lo hi sched gradients St leaf_value oob t st st' HS Hmin Hlt E. pose proof HS as (HR & Hsz & Hsch & Hsm).
  destruct (train_greedy Rops dbg0 dbg cfg d s sizes (lo, hi) sched gradients St leaf_value oob HR Hsz Hsch Hsm t st st' _ _ (fun l H => H) (fun l f b fm H => H) E)
    as (rows & gs & st1 & Hrows & C & Eo & HG & Hl & Hnd & _).
  exists rows, (map (to_rows Rops rows) gs), st1. split; [exact Hrows|]. split; [exact C|]. split; [exact Eo|]. rewrite to_rows_groups. split; [exact Hnd|]. split; [exact Hl|]. cbv zeta.
  revert HG. apply greedy_mono.
  - intros l (nd & sp & HG & Hm & Esp & Ens). pose proof (C20_exact dbg0 dbg cfg d s sizes lo hi sched gradients nd sp rows HS Hmin Hlt HG Esp Hrows) as HB. cbv zeta in HB. rewrite Ens, Hm in HB. exact HB.
  - intros l f b fm (nd & sp & HG & Hm & Esp & Ens & -> & -> & Em). pose proof (C20_exact dbg0 dbg cfg d s sizes lo hi sched gradients nd sp rows HS Hmin Hlt HG Esp Hrows) as HB. cbv zeta in HB. rewrite Ens, Hm in HB.
    destruct HB as (f' & fm' & Hd & (Hf & _) & Hg & Hbest). subst f'. assert (fm' = fm) as -> by (destruct Hd as (_ & Ed & _); congruence). auto.
  - intros m l (v & Hin & Hv). exists v. split; [|exact Hv]. apply (in_map (to_rows Rops rows) _ _ Hin).
Qed.
Print Assumptions C57_exact.

(** A concrete case: six examples over the reals (the objective answers 1). *)
Example C57_exact_ex : exists s sizes t, setting true exr_cfg exr_data s sizes rev_sched /\ c_min_examples_leaf exr_cfg = 1%N /\ nactive_examples s = 6 /\
  train true exr_cfg s sizes (-2, 2)%R rev_sched unit (fun _ _ => Ok (1%R, tt)) (fun _ _ _ => Ok tt) exr_grad tt = Ok (t, tt).
Proof.
  destruct C20_exact_ex as (s & sizes & rows & root & sp & t & HS & _ & Erows & Hl & _ & _ & Et). exists s, sizes, t. split; [exact HS|]. split; [reflexivity|]. split; [|exact Et].
  rewrite <- (LearnerProofs3.rows_length Rops s rows Erows). exact Hl.
Qed.
(** In binary32: the root is split, the left part holds rows 0 to 2, the right part rows 3 to 5. *)
Example C57_tree_ex : exists s sizes, setting false ref_cfg ref_data s sizes rev_sched /\
  (match train false ref_cfg s sizes (fz (-2), fz 2) rev_sched _ rec_leaf rec_oob ref_grad [] with
   | Ok (t, calls) => ninternal t = 1 /\ calls = [[0; 1; 2]; [3; 4; 5]]
   | _ => False
   end).
Proof. apply (train_ex false ref_cfg ref_data [(ref_grad, (fz (-2), fz 2))]). vm_compute. repeat split; lia. Qed.
