From Coq Require Import Permutation Sorting.Sorted Reals Lra.
From Flocq Require Import Core.
From Verif Require Import Base BaseProofs BitModel BitSpec BitProofs BitProofs2 SimdModel SliceModel SliceSpec SliceProofs SliceProofs2 SliceProps
  CountSumProofs IterModel IterSpec IterProofs Num ScaledModel ScaledProofs DataModel Config TreeModel DatasetModel DatasetSpec DatasetProofs DatasetProofs2 DatasetProofs3 DatasetProofs4 DatasetProofs5
  RouteProps LearnerModel LearnerSpec LearnerProofs LearnerProofs2 LearnerProofs3 LearnerProofs4 LearnerProofs5.
Local Close Scope R_scope.

(* ---- exact arithmetic ---- *)
Lemma linproj_R w (a c lo hi : R) : linproj Rops w a c (lo, hi) = (a / IZR (Z.of_nat (2 ^ w) - 1) * (hi - lo) + c * lo)%R.
Proof. reflexivity. Qed.
Lemma linproj_sub w (a a' c c' : N) (lo hi : R) : (a' <= a)%N -> (c' <= c)%N ->
  (linproj Rops w (nofN Rops a) (nofN Rops c) (lo, hi) - linproj Rops w (nofN Rops a') (nofN Rops c') (lo, hi) = linproj Rops w (nofN Rops (a - a')) (nofN Rops (c - c')) (lo, hi))%R.
Proof.
  intros Ha Hc. unfold nofN. cbn [Rops nofZ]. rewrite !linproj_R, !N2Z.inj_sub by assumption. rewrite !minus_IZR. unfold Rdiv. ring.
Qed.
Lemma linproj_0 w (lo hi : R) : linproj Rops w (nofN Rops 0) (nofN Rops 0) (lo, hi) = 0%R.
Proof. unfold nofN. cbn [Rops nofZ]. rewrite linproj_R. cbn [Z.of_N]. change (num Rops) with R. unfold Rdiv. ring. Qed.

Lemma summary_R (cfg : config Rops) (lo hi : R) gv l : (c_min_examples_leaf cfg <= 1)%N ->
  bin_summary cfg (lo, hi) gv l = (linproj Rops (c_discr_nbits cfg) (nofN Rops (sumN (map gv l))) (nofN Rops (N.of_nat (length l))) (lo, hi), N.of_nat (length l)).
Proof.
  intros Hm. unfold bin_summary. f_equal. destruct (N.of_nat (length l) <? c_min_examples_leaf cfg)%N eqn:E; [|reflexivity]. apply N.ltb_lt in E.
  destruct l as [|x l]; [|cbn [length] in E; lia]. cbn [length map sumN]. symmetry. apply linproj_0.
Qed.

Lemma disc_range (cfg : config Rops) (lo hi g : R) : valid_width (c_discr_nbits cfg) = true -> (lo < hi)%R ->
  disc Rops cfg (lo, hi) g = stored_gradient cfg (lo, hi) g.
Proof.
  intros Hw Hlt. unfold disc, stored_gradient. symmetry. apply N.mod_small. set (w := c_discr_nbits cfg) in *.
  assert (1 <= w <= 8) as Hw' by (apply valid_width_cases in Hw; lia). destruct (disc_R w g lo hi Hw' Hlt) as [E [H0 H1]].
  assert (0 <= discretise Rops w g (lo, hi) <= Z.of_nat (2 ^ w) - 1)%Z as [A B].
  { change (num Rops) with R in *. rewrite E. split.
    - apply (Z.le_trans _ (ZnearestA (IZR 0))); [rewrite ZnearestA_IZR; lia|]. apply (@Zrnd_le _ valid_rnd_NA). exact H0.
    - apply (Z.le_trans _ (ZnearestA (IZR (Z.of_nat (2 ^ w) - 1)))); [|rewrite ZnearestA_IZR; lia]. apply (@Zrnd_le _ valid_rnd_NA). exact H1. }
  assert (Z.of_N (2 ^ N.of_nat w) = Z.of_nat (2 ^ w)) as E2 by (rewrite N2Z.inj_pow, nat_N_Z, Nat2Z.inj_pow; reflexivity).
  change (num Rops) with R in *. lia.
Qed.

Section ExactGrown.
Variable dbg0 dbg : bool.
Variable cfg : config Rops.
Variable d : data Rops.
Variable s : dataset Rops.
Variable sizes : list nat.
Variables lo hi : R.
Variable sched : nat -> list job -> list job.
Variable gradients : list R.
Notation n := (nactive_examples s).
Notation bounds := (lo, hi).
Hypothesis HR : reachable dbg0 cfg d s.
Hypothesis Hsizes : hist_sizes d = Ok sizes.
Hypothesis Hsched : forall k js, Permutation js (sched k js).
Hypothesis Hsmall : (N.of_nat n <= 2 ^ 31)%N.
Hypothesis Hmin : (c_min_examples_leaf cfg <= 1)%N.
Hypothesis Hlt : (lo < hi)%R.

Definition exact_ok (gv : nat -> N) (nd : node Rops) : Prop :=
  (forall f b fm, candidate s f b -> ds_get_bitvec s f b = Ok fm -> bin_of nd f b = Some (bin_summary cfg bounds gv (filter (bbit fm) (members n nd)))) /\
  nd_grad nd = linproj Rops (c_discr_nbits cfg) (nofN Rops (sumN (map gv (members n nd)))) (nofN Rops (N.of_nat (length (members n nd)))) bounds.

Lemma grown_exact nd rows : grown dbg cfg s sizes bounds sched gradients nd -> example_rows s = Ok rows ->
  exact_ok (gvals Rops cfg bounds gradients rows) nd.
Proof.
  intros HG Hrows. pose proof (grown_pre _ dbg0 dbg _ _ _ _ _ _ _ HR Hsizes Hsched Hsmall nd HG) as (HL & Hw & Hs & _). set (gv := gvals Rops cfg bounds gradients rows).
  assert (forall p sp l r, grown dbg cfg s sizes bounds sched gradients p -> exact_ok gv p -> find_best_split dbg cfg s p = Ok sp -> is_no_split (sp_crit sp) = false ->
    get_left_right_n2s dbg cfg s sizes bounds sched p sp = Ok (l, r) -> exact_ok gv l /\ exact_ok gv r) as Hstep.
  { intros p sp l r HGp [Pb Pg] Esp Ens E. pose proof (grown_ok _ dbg0 dbg _ _ _ _ _ _ _ HR Hsizes Hsched Hsmall p rows HGp Hrows) as HP. fold gv in HP.
    destruct (best_split_weak Rops dbg cfg s p sp (fun f b v => full_bin_le Rops cfg s sizes gv HL p f b v HP) Esp) as [->|(v & (Hc & _) & _)]; [discriminate Ens|].
    destruct (lds_fm _ _ HL _ _ Hc) as (fm & Em & _). destruct (left_right_gen Rops dbg cfg s sizes bounds sched gv HL Hw Hsmall Hsched Hs p sp fm HP Hc Em) as [_ H].
    destruct (H l r E) as (Fl & Fr & Ml & Mr & _ & _ & (v' & Ev & Gl & Gr) & Bl & Br). rewrite (Pb _ _ fm Hc Em) in Ev. injection Ev as <-.
    rewrite summary_R in Gl, Gr by exact Hmin. cbn [fst] in Gl, Gr.
    pose proof (half_sums (bbit fm) gv (members n p)) as Hh1. pose proof (filter_halves _ (bbit fm) (members n p)) as Hh2. split; split.
    - exact Bl.
    - rewrite Gl, Ml. reflexivity.
    - intros f b fm' Hc' Em'. pose proof (Bl f b fm' Hc' Em') as Bl'. rewrite (Br f b _ _ (Pb f b fm' Hc' Em') Bl'). rewrite !summary_R by exact Hmin. cbn [fst snd]. rewrite Mr, Ml. f_equal.
      pose proof (filter_counts _ (bbit fm') (bbit fm) (members n p)) as Hc1. pose proof (filter_sums (bbit fm') (bbit fm) gv (members n p)) as Hc2.
      change (nsub Rops) with Rminus. rewrite linproj_sub by (unfold gv in *; lia). f_equal; [f_equal; f_equal; unfold gv in *; lia|lia].
    - rewrite Gr, Mr, Pg. change (nsub Rops) with Rminus. rewrite linproj_sub by (unfold gv in *; lia). f_equal; f_equal; unfold gv in *; lia. }
  induction HG as [root E|p sp l r HG IH Esp Ens E|p sp l r HG IH Esp Ens E].
  - destruct (root_ok Rops cfg s sizes bounds HL Hw Hsmall sched gradients root Hsched E) as (rows' & Er & Hn & _ & Hlen & R1 & R2 & R3 & R4 & R5 & R6 & R7). rewrite Hrows in Er. injection Er as <-.
    split; [exact R6|]. rewrite R7, R3, seq_length. f_equal; [f_equal|].
    + pose proof (rows_length Rops s rows Hrows) as Lr. rewrite <- Lr. f_equal. apply nth_error_ext. intros k. rewrite !nth_error_map, nth_error_seq. unfold gv, gvals, gradient_at.
      destruct (Nat.ltb_spec k (length rows)) as [Hk|Hk].
      * destruct (nth_error rows k) as [j|] eqn:Ej; [|apply nth_error_None in Ej; lia]. cbn [option_map Nat.add]. rewrite Ej.
        assert (j < length gradients) as Hj by (apply Hlen, (nth_error_In _ _ Ej)).
        destruct (nth_error gradients j) as [g|] eqn:Eg; [|apply nth_error_None in Eg; lia]. assert (@nth_error (num Rops) gradients j = Some g) as Eg2 by exact Eg. rewrite Eg2. f_equal. apply disc_range; assumption.
      * rewrite (proj2 (nth_error_None rows k)) by exact Hk. reflexivity.
    + unfold nofnat, nofN. rewrite nat_N_Z. reflexivity.
  - exact (proj1 (Hstep p sp l r HG (IH) Esp Ens E)).
  - exact (proj2 (Hstep p sp l r HG (IH) Esp Ens E)).
Qed.
End ExactGrown.
