(** Properties C15-C20, C26, C43: growing a tree. *)
From Coq Require Import Reals Lra Permutation Sorting.Sorted.
From Verif Require Import Base BaseProofs BitModel BitSpec BitProofs BitProofs2 SimdModel SliceModel SliceSpec SliceProofs SliceProofs2 SliceProps
  CountSumProofs IterModel IterSpec IterProofs Num F32 F32Proofs ScaledModel DataModel Config TreeModel TreeSpec TreeProofs TreeProofs2 TreeProps DatasetModel DatasetSpec DatasetProofs DatasetProofs2 DatasetProofs3 DatasetProofs4 DatasetProofs5
  DatasetProps RouteProps LearnerModel LearnerSpec TrainSpec LearnerProofs LearnerProofs2 LearnerProofs3 LearnerProofs4 LearnerProofs5 LearnerProofs6 LearnerProofs7 LearnerProofs8 LearnerProofs9 LearnerProofs10 GainSpec.
Local Close Scope R_scope.

(* ---- C15 ---- *)

(** The examples of the left child are those of the parent whose bit in the mask of the split is set, those of the right child the
    others; nothing is lost or duplicated; the stored counts are the numbers of examples. *)
Theorem C15_partition : forall O dbg0 dbg (cfg : config O) d s sizes bounds sched gradients p sp l r, setting dbg0 cfg d s sizes sched ->
  grown dbg cfg s sizes bounds sched gradients p -> find_best_split dbg cfg s p = Ok sp -> is_no_split (sp_crit sp) = false ->
  get_left_right_n2s dbg cfg s sizes bounds sched p sp = Ok (l, r) ->
  let n := nactive_examples s in
  exists fm, ds_get_bitvec s (sc_feature (sp_crit sp)) (sp_id sp) = Ok fm /\ split_on s (sc_feature (sp_crit sp)) (sp_id sp) (sp_crit sp) /\
  members n l = filter (fun k => bbit fm k) (members n p) /\ members n r = filter (fun k => negb (bbit fm k)) (members n p) /\
  Permutation (members n p) (members n l ++ members n r) /\ NoDup (members n p) /\
  nd_count p = N.of_nat (length (members n p)) /\ nd_count l = N.of_nat (length (members n l)) /\ nd_count r = N.of_nat (length (members n r)) /\
  nd_count p = (nd_count l + nd_count r)%N.
Proof.
  intros O dbg0 dbg cfg d s sizes bounds sched gradients p sp l r (HR & Hsz & Hsch & Hsm) HG Esp Ens E n.
  destruct (grown_pre _ dbg0 dbg _ _ _ _ _ _ _ HR Hsz Hsch Hsm p HG) as (HL & Hw & Hs & rows & Hrows & _).
  pose proof (grown_ok _ dbg0 dbg _ _ _ _ _ _ _ HR Hsz Hsch Hsm p rows HG Hrows) as HF.
  destruct (best_split_weak O dbg cfg s p sp (fun f b v => full_bin_le O cfg s sizes _ HL p f b v HF) Esp) as [->|(v & (Hc & Ebin & _ & _) & Hso)]; [discriminate Ens|].
  destruct (lds_fm _ _ HL _ _ Hc) as (fm & Em & Hfm). exists fm. split; [exact Em|]. split; [exact Hso|].
  destruct (left_right_gen O dbg cfg s sizes bounds sched _ HL Hw Hsm Hsch Hs p sp fm HF Hc Em) as [_ Hlr]. destruct (Hlr l r E) as (Fl & Fr & Ml & Mr & _).
  split; [exact Ml|]. split; [exact Mr|]. unfold n. split; [rewrite Ml, Mr; apply filter_partition|]. split; [unfold members, positions; apply NoDup_filter, seq_NoDup|].
  split; [apply HF|]. split; [apply Fl|]. split; [apply Fr|]. rewrite (fo_count _ _ _ _ _ _ HF), (fo_count _ _ _ _ _ _ Fl), (fo_count _ _ _ _ _ _ Fr), Ml, Mr.
  pose proof (filter_halves _ (bbit fm) (members (nactive_examples s) p)). lia.
Qed.
Print Assumptions C15_partition.

(** Splitting does not fail if every leaf must keep at least one example. *)
Theorem C15_total : forall O dbg0 dbg (cfg : config O) d s sizes bounds sched gradients p sp, setting dbg0 cfg d s sizes sched -> (1 <= c_min_examples_leaf cfg)%N ->
  grown dbg cfg s sizes bounds sched gradients p -> find_best_split dbg cfg s p = Ok sp -> is_no_split (sp_crit sp) = false ->
  exists l r, get_left_right_n2s dbg cfg s sizes bounds sched p sp = Ok (l, r) /\ members (nactive_examples s) l <> [] /\ members (nactive_examples s) r <> [].
Proof.
  intros O dbg0 dbg cfg d s sizes bounds sched gradients p sp HS Hmin HG Esp Ens. pose proof HS as (HR & Hsz & Hsch & Hsm).
  destruct (grown_pre _ dbg0 dbg _ _ _ _ _ _ _ HR Hsz Hsch Hsm p HG) as (HL & Hw & Hs & rows & Hrows & _).
  pose proof (grown_ok _ dbg0 dbg _ _ _ _ _ _ _ HR Hsz Hsch Hsm p rows HG Hrows) as HF. pose proof HF as [FN FH FC].
  destruct (best_split_weak O dbg cfg s p sp (fun f b v => full_bin_le O cfg s sizes _ HL p f b v HF) Esp) as [->|(v & (Hc & Ebin & H1 & H2) & Hso)]; [discriminate Ens|].
  destruct (lds_fm _ _ HL _ _ Hc) as (fm & Em & Hfm). pose proof (ho_count _ _ _ _ FH _ _ fm v Hc Em Ebin) as Hcv. pose proof (filter_halves _ (bbit fm) (members (nactive_examples s) p)) as Hh.
  assert (filter (bbit fm) (members (nactive_examples s) p) <> []) as Hnl by (intros E0; rewrite E0 in Hcv; cbn [length] in Hcv; lia).
  assert (filter (fun x => negb (bbit fm x)) (members (nactive_examples s) p) <> []) as Hnr by (intros E0; rewrite E0 in Hh; cbn [length] in Hh; lia).
  destruct (left_right_gen O dbg cfg s sizes bounds sched _ HL Hw Hsm Hsch Hs p sp fm HF Hc Em) as [Ht Hlr]. destruct (Ht Hnl Hnr) as (l & r & E). exists l, r. split; [exact E|].
  destruct (Hlr l r E) as (_ & _ & -> & -> & _). auto.
Qed.
Print Assumptions C15_total.

(* ---- C16 ---- *)

(** Whether a node was compressed or not (and however often): it stores, for each of its examples, the discretised gradient of the
    example's row, and nothing else. *)
Theorem C16_gradients : forall O dbg0 dbg (cfg : config O) d s sizes bounds sched gradients nd rows, setting dbg0 cfg d s sizes sched ->
  grown dbg cfg s sizes bounds sched gradients nd -> example_rows s = Ok rows ->
  forall k, (In k (members (nactive_examples s) nd) <-> exists v, stores cfg nd k v) /\
    forall v, stores cfg nd k v -> exists j g, nth_error rows k = Some j /\ nth_error gradients j = Some g /\ v = stored_gradient cfg bounds g.
Proof.
  intros O dbg0 dbg cfg d s sizes bounds sched gradients nd rows (HR & Hsz & Hsch & Hsm) HG Hrows k.
  destruct (grown_pre _ dbg0 dbg _ _ _ _ _ _ _ HR Hsz Hsch Hsm nd HG) as (HL & Hw & Hs & rows' & Hrows' & Hlt). rewrite Hrows in Hrows'. injection Hrows' as <-.
  pose proof (grown_ok _ dbg0 dbg _ _ _ _ _ _ _ HR Hsz Hsch Hsm nd rows HG Hrows) as [FN _ _]. pose proof (rows_length O s rows Hrows) as Lr.
  destruct (width_sb (c_discr_nbits cfg) Hw) as (Hw1 & _).
  assert (Hget : forall p, p < 256 * length (nd_idx nd) -> get_value (c_discr_nbits cfg) (nd_grads nd) p = Ok (slice_val (c_discr_nbits cfg) (sbsize (c_discr_nbits cfg)) (nd_grads nd) p)).
  { intros p Hp. apply get_value_ok; [exact Hw|apply FN|]. rewrite (no_lg _ _ _ _ _ FN), <- Nat.mul_assoc, Hw1. lia. }
  split.
  - unfold members. rewrite positions_in, in_compr_spec. split.
    + intros [_ (p & Hp & Hb & Hk)]. eexists. exists p. split; [lia|]. split; [exact Hb|]. split; [symmetry; exact Hk|]. apply Hget. lia.
    + intros (v & p & Hp & Hb & Hk & _). subst k. change (32 * N.to_nat (u32_at (nd_idx nd) (p / 32)) + p mod 32) with (expand_pos (ixw (nd_idx nd)) p).
      split; [apply (no_lt _ _ _ _ _ FN); [lia|exact Hb]|]. exists p. split; [lia|]. auto.
  - intros v (p & Hp & Hb & Hk & Hv). rewrite Hget in Hv by exact Hp. injection Hv as <-. rewrite (no_val _ _ _ _ _ FN) by (try exact Hb; lia).
    pose proof (no_lt _ _ _ _ _ FN p ltac:(lia) Hb) as Hkn. change (expand_pos (ixw (nd_idx nd)) p) with (32 * N.to_nat (u32_at (nd_idx nd) (p / 32)) + p mod 32) in *. rewrite <- Hk in *.
    unfold gvals, gradient_at. destruct (nth_error rows k) as [j|] eqn:Ej; [|apply nth_error_None in Ej; lia]. pose proof (Hlt j (nth_error_In _ _ Ej)) as Hj.
    destruct (nth_error gradients j) as [g|] eqn:Eg; [|apply nth_error_None in Eg; lia]. exists j, g. auto.
Qed.
Print Assumptions C16_gradients.

(** The threshold decides whether the children are compressed; it changes neither their examples nor the counts, gradient sums and histogram bins
    the learner goes on with, nor whether splitting succeeds. *)
Theorem C16_children : forall O dbg0 dbg (cfg : config O) x d s sizes bounds sched gradients p sp l r, setting dbg0 cfg d s sizes sched -> (1 <= c_min_examples_leaf cfg)%N ->
  grown dbg cfg s sizes bounds sched gradients p -> find_best_split dbg cfg s p = Ok sp -> is_no_split (sp_crit sp) = false ->
  get_left_right_n2s dbg cfg s sizes bounds sched p sp = Ok (l, r) ->
  exists l' r', get_left_right_n2s dbg (with_threshold cfg x) s sizes bounds sched p sp = Ok (l', r') /\
  forall nd nd', (nd, nd') = (l, l') \/ (nd, nd') = (r, r') ->
    members (nactive_examples s) nd' = members (nactive_examples s) nd /\ nd_id nd' = nd_id nd /\ nd_count nd' = nd_count nd /\ nd_grad nd' = nd_grad nd /\
    forall f b, candidate s f b -> bin_of nd' f b = bin_of nd f b.
Proof.
  intros O dbg0 dbg cfg x d s sizes bounds sched gradients p sp l r (HR & Hsz & Hsch & Hsm) Hmin HG Esp Ens E.
  destruct (grown_pre _ dbg0 dbg _ _ _ _ _ _ _ HR Hsz Hsch Hsm p HG) as (HL & Hw & Hs & rows & Hrows & _).
  pose proof (grown_ok _ dbg0 dbg _ _ _ _ _ _ _ HR Hsz Hsch Hsm p rows HG Hrows) as HF.
  destruct (best_split_weak O dbg cfg s p sp (fun f b v => full_bin_le O cfg s sizes _ HL p f b v HF) Esp) as [->|(v & (Hc & Ebin & H1 & H2) & Hso)]; [discriminate Ens|].
  destruct (sim_left_right O dbg dbg cfg x s sizes bounds sched sched Hsch Hsch Hsm Hmin (gvals O cfg bounds gradients rows) p p sp l r HL Hw Hs) as (l' & r' & E' & Sl & Sr); [constructor; auto|exact Hc|eauto|exact E|].
  exists l', r'. split; [exact E'|]. intros nd nd' [Hx|Hx]; injection Hx as -> ->; [destruct Sl|destruct Sr]; auto.
Qed.
Print Assumptions C16_children.

(** The trained tree, and everything the objective sees, does not depend on the threshold. *)
Theorem C16_tree : forall O dbg0 dbg (cfg : config O) x d s sizes bounds sched St leaf_value oob gradients (st : St) r, setting dbg0 cfg d s sizes sched -> (1 <= c_min_examples_leaf cfg)%N ->
  (train dbg cfg s sizes bounds sched St leaf_value oob gradients st = Ok r <-> train dbg (with_threshold cfg x) s sizes bounds sched St leaf_value oob gradients st = Ok r).
Proof.
  intros O dbg0 dbg cfg x d s sizes bounds sched St leaf_value oob gradients st r (HR & Hsz & Hsch & Hsm) Hmin. split.
  - apply (sim_train O dbg0 dbg dbg cfg x d s sizes bounds sched sched gradients St leaf_value oob HR Hsz Hsch Hsch Hsm Hmin).
  - pose proof (sim_train O dbg0 dbg dbg (with_threshold cfg x) (c_compression_threshold cfg) d s sizes bounds sched sched gradients St leaf_value oob HR Hsz Hsch Hsch Hsm Hmin st r) as H.
    replace (with_threshold (with_threshold cfg x) (c_compression_threshold cfg)) with cfg in H; [exact H|]. destruct cfg. reflexivity.
Qed.
Print Assumptions C16_tree.

(* ---- C17 ---- *)

(** Any two orders of the jobs, for any node: one succeeds iff the other does, with the same histograms. *)
Theorem C17_order : forall O (cfg : config O) s bounds sched sched' nd r, (forall k js, Permutation js (sched k js)) -> (forall k js, Permutation js (sched' k js)) ->
  (build_histograms cfg s bounds sched nd = Ok r <-> build_histograms cfg s bounds sched' nd = Ok r).
Proof. intros O cfg s bounds sched sched' nd r H1 H2. split; apply build_perm; assumption. Qed.
Print Assumptions C17_order.

(** Jobs run by threads that compute their values at any time and write them, one at a time, at any later time: the histograms are those of the
    sequential order. *)
Definition job_value {O} (cfg : config O) (s : dataset O) (bounds : num O * num O) (nd : node O) (j : job) : res (histval O) :=
  let* fm := ds_get_bitvec s (fst j) (snd j) in get_grad_sum cfg bounds nd fm.
Definition write_bin {O} (h : list (list (histval O))) (j : job) (v : histval O) : res (list (list (histval O))) :=
  let* hist := idx h (fst j) in let* hist' := set_idx hist (snd j) v in set_idx h (fst j) hist'.
Lemma pool_perm O (cfg : config O) s bounds nd : forall todo computed h h', pool_run (job_value cfg s bounds nd) write_bin todo computed h h' -> 
  (forall j v, In (j, v) computed -> job_value cfg s bounds nd j = Ok v) ->
  exists js, Permutation (map fst computed ++ todo) js /\ foldM (run_job cfg s bounds nd) js h = Ok h'.
Proof.
  intros todo computed h h' H. induction H as [h|l1 j l2 computed v h h' E H IH|todo c1 j v c2 h h1 h' E H IH]; intros Hv.
  - exists []. split; [constructor|reflexivity].
  - destruct IH as (js & HP & HF); [intros j' v' [Hx|Hx]; [congruence|apply Hv, Hx]|]. exists js. split; [|exact HF]. rewrite <- HP. cbn [map fst app]. rewrite app_assoc. etransitivity; [symmetry; apply Permutation_middle|]. rewrite app_assoc. reflexivity.
  - destruct IH as (js & HP & HF); [intros j' v' Hx; apply Hv; apply in_app_or in Hx as [Hx|Hx]; apply in_or_app; [left|right; right]; exact Hx|].
    exists (j :: js). split.
    + rewrite <- HP, !map_app. cbn [map fst]. rewrite <- !app_assoc. cbn [app]. symmetry. apply Permutation_middle.
    + cbn [foldM]. assert (run_job cfg s bounds nd h j = Ok h1) as ->; [|exact HF]. unfold run_job. assert (job_value cfg s bounds nd j = Ok v) as Ej by (apply Hv, in_or_app; right; left; reflexivity).
      unfold job_value in Ej. apply rbind_ok in Ej as (fm & -> & Eg). cbn [rbind]. rewrite Eg. cbn [rbind]. exact E.
Qed.
Theorem C17_threads : forall O (cfg : config O) s bounds nd js h, jobs s = Ok js -> valid_width (c_discr_nbits cfg) = true ->
  pool_run (job_value cfg s bounds nd) write_bin js [] (nd_hists nd) h ->
  exists r, build_histograms cfg s bounds (fun _ l => l) nd = Ok r /\ nd_hists r = h.
Proof.
  intros O cfg s bounds nd js h Ej Hw H. destruct (pool_perm O cfg s bounds nd js [] _ _ H) as (js' & HP & HF); [intros j v []|]. cbn [map app] in HP.
  unfold build_histograms, width. rewrite Hw. cbn [rassert rbind]. rewrite Ej. cbn [rbind].
  assert (foldM (run_job cfg s bounds nd) js (nd_hists nd) = Ok h) as ->; [|cbn [rbind]; eexists; split; reflexivity].
  eapply foldM_perm; [|symmetry; exact HP|exact HF]. intros h0 a b h1 h2 E1 E2. eapply run_job_comm; eassumption.
Qed.
Print Assumptions C17_threads.

(** The tree and the calls on the objective do not depend on the schedule (nor on the build mode). *)
Theorem C17_tree : forall O dbg0 dbg dbg' (cfg : config O) d s sizes bounds sched sched' St leaf_value oob gradients (st : St) r, setting dbg0 cfg d s sizes sched -> setting dbg0 cfg d s sizes sched' ->
  (1 <= c_min_examples_leaf cfg)%N ->
  (train dbg cfg s sizes bounds sched St leaf_value oob gradients st = Ok r <-> train dbg' cfg s sizes bounds sched' St leaf_value oob gradients st = Ok r).
Proof.
  intros O dbg0 dbg dbg' cfg d s sizes bounds sched sched' St leaf_value oob gradients st r (HR & Hsz & Hsch & Hsm) (_ & _ & Hsch' & _) Hmin.
  assert (with_threshold cfg (c_compression_threshold cfg) = cfg) as Ec by (destruct cfg; reflexivity). split; intros H.
  - pose proof (sim_train O dbg0 dbg dbg' cfg (c_compression_threshold cfg) d s sizes bounds sched sched' gradients St leaf_value oob HR Hsz Hsch Hsch' Hsm Hmin st r H) as H'. rewrite Ec in H'. exact H'.
  - pose proof (sim_train O dbg0 dbg' dbg cfg (c_compression_threshold cfg) d s sizes bounds sched' sched gradients St leaf_value oob HR Hsz Hsch' Hsch Hsm Hmin st r H) as H'. rewrite Ec in H'. exact H'.
Qed.
Print Assumptions C17_tree.

(* ---- C18 ---- *)

(** The histograms built for the root, and for the left child of every split: the bin of (feature, value) tells the number of examples of the node in the
    bin's mask and the projected sum of their discretised gradients. *)
Theorem C18_root : forall O dbg0 (cfg : config O) d s sizes bounds sched gradients nd rows f b fm, setting dbg0 cfg d s sizes sched ->
  get_root_n2s cfg s sizes bounds sched gradients = Ok nd -> example_rows s = Ok rows -> candidate s f b -> ds_get_bitvec s f b = Ok fm ->
  members (nactive_examples s) nd = seq 0 (nactive_examples s) /\
  bin_of nd f b = Some (bin_summary cfg bounds (gradient_at cfg bounds gradients rows) (filter (fun k => bbit fm k) (members (nactive_examples s) nd))).
Proof.
  intros O dbg0 cfg d s sizes bounds sched gradients nd rows f b fm (HR & Hsz & Hsch & Hsm) Er Hrows Hc Em.
  destruct (root_pre _ _ _ _ _ _ _ _ _ HR Hsz nd Er) as [HL Hw].
  destruct (root_ok O cfg s sizes bounds HL Hw Hsm sched gradients nd Hsch Er) as (rows' & Erows & _ & _ & _ & _ & _ & R3 & _ & _ & R6 & _). rewrite Hrows in Erows. injection Erows as <-. auto.
Qed.
Theorem C18_left : forall O dbg0 dbg (cfg : config O) d s sizes bounds sched gradients p sp l r rows f b fm, setting dbg0 cfg d s sizes sched ->
  grown dbg cfg s sizes bounds sched gradients p -> find_best_split dbg cfg s p = Ok sp -> is_no_split (sp_crit sp) = false ->
  get_left_right_n2s dbg cfg s sizes bounds sched p sp = Ok (l, r) ->
  example_rows s = Ok rows -> candidate s f b -> ds_get_bitvec s f b = Ok fm ->
  bin_of l f b = Some (bin_summary cfg bounds (gradient_at cfg bounds gradients rows) (filter (fun k => bbit fm k) (members (nactive_examples s) l))).
Proof.
  intros O dbg0 dbg cfg d s sizes bounds sched gradients p sp l r rows f b fm (HR & Hsz & Hsch & Hsm) HG Esp Ens E Hrows Hc Em.
  destruct (grown_pre _ dbg0 dbg _ _ _ _ _ _ _ HR Hsz Hsch Hsm p HG) as (HL & Hw & Hs & _).
  pose proof (grown_ok _ dbg0 dbg _ _ _ _ _ _ _ HR Hsz Hsch Hsm p rows HG Hrows) as HF.
  destruct (best_split_weak O dbg cfg s p sp (fun f b v => full_bin_le O cfg s sizes _ HL p f b v HF) Esp) as [->|(v & (Hc' & Ebin & _ & _) & Hso)]; [discriminate Ens|].
  destruct (lds_fm _ _ HL _ _ Hc') as (fm' & Em' & Hfm). destruct (left_right_gen O dbg cfg s sizes bounds sched _ HL Hw Hsm Hsch Hs p sp fm' HF Hc' Em') as [_ Hlr].
  destruct (Hlr l r E) as (_ & _ & _ & _ & _ & _ & _ & B & _). apply B; assumption.
Qed.
Print Assumptions C18_root. Print Assumptions C18_left.

(** The count of a bin is exact at every node, built or derived. *)
Theorem C18_counts : forall O dbg0 dbg (cfg : config O) d s sizes bounds sched gradients nd f b fm v, setting dbg0 cfg d s sizes sched ->
  grown dbg cfg s sizes bounds sched gradients nd -> candidate s f b -> ds_get_bitvec s f b = Ok fm -> bin_of nd f b = Some v ->
  snd v = N.of_nat (length (filter (fun k => bbit fm k) (members (nactive_examples s) nd))).
Proof.
  intros O dbg0 dbg cfg d s sizes bounds sched gradients nd f b fm v (HR & Hsz & Hsch & Hsm) HG Hc Em Ev.
  destruct (grown_pre _ dbg0 dbg _ _ _ _ _ _ _ HR Hsz Hsch Hsm nd HG) as (HL & Hw & Hs & rows & Hrows & _).
  pose proof (grown_ok _ dbg0 dbg _ _ _ _ _ _ _ HR Hsz Hsch Hsm nd rows HG Hrows) as [_ FH _]. eapply (ho_count _ _ _ _ FH); eassumption.
Qed.
Print Assumptions C18_counts.

(* ---- C19 ---- *)

(** In exact arithmetic, if no bin is cut off ([min_examples_leaf] at most 1): at every node, also at right children, whose histograms are derived
    as parent minus left, the bins are those that would be built directly; the gradient sum of the node is that of its examples. *)
Theorem C19_exact : forall dbg0 dbg (cfg : config Rops) d s sizes (lo hi : R) sched gradients nd rows, setting dbg0 cfg d s sizes sched -> (c_min_examples_leaf cfg <= 1)%N -> (lo < hi)%R ->
  grown dbg cfg s sizes (lo, hi) sched gradients nd -> example_rows s = Ok rows ->
  let gv := gradient_at cfg (lo, hi) gradients rows in
  (forall f b fm, candidate s f b -> ds_get_bitvec s f b = Ok fm ->
    bin_of nd f b = Some (bin_summary cfg (lo, hi) gv (filter (fun k => bbit fm k) (members (nactive_examples s) nd)))) /\
  nd_grad nd = (IZR (Z.of_N (sumN (map gv (members (nactive_examples s) nd)))) / IZR (Z.of_nat (2 ^ c_discr_nbits cfg) - 1) * (hi - lo) + IZR (Z.of_nat (length (members (nactive_examples s) nd))) * lo)%R.
Proof.
  intros dbg0 dbg cfg d s sizes lo hi sched gradients nd rows (HR & Hsz & Hsch & Hsm) Hmin Hlt HG Hrows gv.
  destruct (grown_exact dbg0 dbg cfg d s sizes lo hi sched gradients HR Hsz Hsch Hsm Hmin Hlt nd rows HG Hrows) as [H1 H2]. split; [exact H1|].
  rewrite H2. unfold nofN. cbn [Rops nofZ]. rewrite linproj_R, nat_N_Z. reflexivity.
Qed.
Print Assumptions C19_exact.

(* ---- C20 ---- *)

Lemma f_lt_irr : forall a : f32, nlt f32ops a a = false.
Proof. intros a. destruct (nlt f32ops a a) eqn:E; [|reflexivity]. cbn [nlt f32ops] in E. destruct (f_lt_nan_l _ _ E) as [N1 _]. apply (f_lt_key a a N1 N1) in E. lra. Qed.
Lemma f_lt_trans : forall a b c : f32, nlt f32ops a b = true -> nlt f32ops b c = true -> nlt f32ops a c = true.
Proof.
  cbn [nlt f32ops]. intros a b c H1 H2. destruct (f_lt_nan_l _ _ H1) as [N1 N2]. destruct (f_lt_nan_l _ _ H2) as [_ N3].
  apply (f_lt_key _ _ N1 N2) in H1. apply (f_lt_key _ _ N2 N3) in H2. apply (f_lt_key _ _ N1 N3). lra.
Qed.
Lemma R_lt_irr : forall a : R, nlt Rops a a = false.
Proof. intros a. cbn [nlt Rops]. apply Core.Raux.Rlt_bool_false. lra. Qed.
Lemma R_lt_trans : forall a b c : R, nlt Rops a b = true -> nlt Rops b c = true -> nlt Rops a c = true.
Proof.
  cbn [nlt Rops]. intros a b c H1 H2. destruct (Core.Raux.Rlt_bool_spec a b) as [H1'|]; [|discriminate]. destruct (Core.Raux.Rlt_bool_spec b c) as [H2'|]; [|discriminate].
  apply Core.Raux.Rlt_bool_true. lra.
Qed.

(** The split chosen at a node, for the numbers in the node's histograms.  [nlt] is false if a NaN is involved: a split whose gain is NaN is never chosen. *)
Definition best_split {O} (cfg : config O) (s : dataset O) (nd : node O) (sp : split O) : Prop :=
  if is_no_split (sp_crit sp) then forall f b l, admissible cfg s nd f b l -> nlt O (c_min_gain cfg) (gain cfg nd l) = false
  else exists f l, admissible cfg s nd f (sp_id sp) l /\ split_on s f (sp_id sp) (sp_crit sp) /\ nlt O (c_min_gain cfg) (gain cfg nd l) = true /\
       forall f' b' l', admissible cfg s nd f' b' l' -> nlt O (gain cfg nd l) (gain cfg nd l') = false.
Lemma best_split_gen O : (forall a, nlt O a a = false) -> (forall a b c, nlt O a b = true -> nlt O b c = true -> nlt O a c = true) ->
  forall dbg0 dbg (cfg : config O) d s sizes bounds sched gradients nd sp, setting dbg0 cfg d s sizes sched ->
  grown dbg cfg s sizes bounds sched gradients nd -> find_best_split dbg cfg s nd = Ok sp -> best_split cfg s nd sp.
Proof.
  intros Hirr Htrans dbg0 dbg cfg d s sizes bounds sched gradients nd sp (HR & Hsz & Hsch & Hsm) HG E.
  destruct (grown_pre _ dbg0 dbg _ _ _ _ _ _ _ HR Hsz Hsch Hsm nd HG) as (HL & Hw & Hs & rows & Hrows & _).
  pose proof (grown_ok _ dbg0 dbg _ _ _ _ _ _ _ HR Hsz Hsch Hsm nd rows HG Hrows) as HF.
  pose proof (best_split_ok O dbg cfg s Hirr Htrans nd sp (fun f b v => full_bin_le O cfg s sizes _ HL nd f b v HF) E) as H. unfold best_split.
  destruct (is_no_split (sp_crit sp)); [apply H|exact H].
Qed.
Theorem C20_best : forall dbg0 dbg (cfg : config f32ops) d s sizes bounds sched gradients nd sp, setting dbg0 cfg d s sizes sched ->
  grown dbg cfg s sizes bounds sched gradients nd -> find_best_split dbg cfg s nd = Ok sp -> best_split cfg s nd sp.
Proof. exact (best_split_gen f32ops f_lt_irr f_lt_trans). Qed.
Print Assumptions C20_best.

(** Choosing a split does not fail (whatever the numbers). *)
Theorem C20_total : forall O dbg0 dbg (cfg : config O) d s sizes bounds sched gradients nd, setting dbg0 cfg d s sizes sched -> 0 < d_nexamples d ->
  grown dbg cfg s sizes bounds sched gradients nd -> exists sp, find_best_split dbg cfg s nd = Ok sp.
Proof.
  intros O dbg0 dbg cfg d s sizes bounds sched gradients nd (HR & Hsz & Hsch & Hsm) Hn HG.
  destruct (grown_pre _ dbg0 dbg _ _ _ _ _ _ _ HR Hsz Hsch Hsm nd HG) as (HL & Hw & Hs & rows & Hrows & _).
  pose proof (grown_ok _ dbg0 dbg _ _ _ _ _ _ _ HR Hsz Hsch Hsm nd rows HG Hrows) as HF.
  destruct (lds_fs _ _ HL) as (fs & Efs & _ & Hfs). pose proof HF as [_ FH _]. apply (best_split_total O dbg cfg s nd fs Efs).
  - intros f Hf. destruct (Hfs f Hf) as (nb & _ & E & _). eauto.
  - intros f b Hc. destruct (bin_exists O s sizes HL nd f b (ho_shape _ _ _ _ FH) Hc) as (l & El). exists l. destruct (split_value_total _ _ _ _ _ f b HR Hn Hc) as (v & Ev).
    unfold make_crit. rewrite Ev. cbn [rbind]. unfold get_split_value in Ev. apply rbind_ok in Ev as (ft & Eft & _). rewrite Eft. cbn [rbind]. eexists. split; [exact El|]. split; [|reflexivity].
    eapply full_bin_le; eassumption.
  - intros f Hf. destruct (Hfs f Hf) as (nb & sz & _ & E & _). intros Hc. rewrite <- (ho_shape _ _ _ _ FH), nth_error_map, Hc in E. discriminate.
Qed.
Print Assumptions C20_total.

Lemma gradient_sum_eq w lo hi gv l : 0 < w -> gradient_sum w lo hi gv l = (IZR (Z.of_N (sumN (map gv l))) / IZR (Z.of_nat (2 ^ w) - 1) * (hi - lo) + IZR (Z.of_nat (length l)) * lo)%R.
Proof.
  intros Hw. unfold gradient_sum. assert (IZR (Z.of_nat (2 ^ w) - 1) = (2 ^ w - 1)%R) as ->.
  { rewrite minus_IZR, <- INR_IZR_INZ, pow_INR. reflexivity. }
  assert (2 ^ w - 1 <> 0)%R as Hne by (pose proof (pow_lt 2 (w - 1) ltac:(lra)); pose proof (Rlt_pow_R1 2 w ltac:(lra) Hw); lra).
  induction l as [|k t IH]; [cbn; field; exact Hne|]. cbn [map Rsum fold_right sumN length]. change (fold_right Rplus 0%R (map (fun k => dequantised w lo hi (gv k)) t)) with (Rsum (map (fun k => dequantised w lo hi (gv k)) t)).
  rewrite IH. unfold dequantised. rewrite ?N2Z.inj_add, ?plus_IZR, Nat2Z.inj_succ, <- Z.add_1_r, plus_IZR. field. exact Hne.
Qed.

(** In exact arithmetic, and if no bin is cut off: among all divisions of the node's examples by a bin of an active feature with an example on
    either side, the one chosen has the largest gain, and that gain is above [min_gain]; if none is chosen, no gain is above [min_gain]. *)
Definition divides {O} (s : dataset O) (l : list nat) (f b : nat) (fm : blocks) : Prop :=
  candidate s f b /\ ds_get_bitvec s f b = Ok fm /\ (exists k, In k l /\ bbit fm k = true) /\ (exists k, In k l /\ bbit fm k = false).
Theorem C20_exact : forall dbg0 dbg (cfg : config Rops) d s sizes (lo hi : R) sched gradients nd sp rows, setting dbg0 cfg d s sizes sched -> c_min_examples_leaf cfg = 1%N -> (lo < hi)%R ->
  grown dbg cfg s sizes (lo, hi) sched gradients nd -> find_best_split dbg cfg s nd = Ok sp -> example_rows s = Ok rows ->
  let l := members (nactive_examples s) nd in
  let G := fun fm => split_gain (c_discr_nbits cfg) lo hi (gradient_at cfg (lo, hi) gradients rows) (c_reg_lambda cfg) (bbit fm) l in
  if is_no_split (sp_crit sp) then forall f b fm, divides s l f b fm -> (G fm <= c_min_gain cfg)%R
  else exists f fm, divides s l f (sp_id sp) fm /\ split_on s f (sp_id sp) (sp_crit sp) /\ (c_min_gain cfg < G fm)%R /\
       forall f' b' fm', divides s l f' b' fm' -> (G fm' <= G fm)%R.
Proof.
  intros dbg0 dbg cfg d s sizes lo hi sched gradients nd sp rows HS Hmin Hlt HG E Hrows l G.
  pose proof (best_split_gen Rops R_lt_irr R_lt_trans dbg0 dbg cfg d s sizes (lo, hi) sched gradients nd sp HS HG E) as HB. unfold best_split in HB.
  destruct (C19_exact dbg0 dbg cfg d s sizes lo hi sched gradients nd rows HS ltac:(lia) Hlt HG Hrows) as [Hbin Hgr]. pose proof HS as (HR & Hsz & Hsch & Hsm).
  destruct (grown_pre _ dbg0 dbg _ _ _ _ _ _ _ HR Hsz Hsch Hsm nd HG) as (HL & Hw & Hs & _).
  pose proof (grown_ok _ dbg0 dbg _ _ _ _ _ _ _ HR Hsz Hsch Hsm nd rows HG Hrows) as HF. pose proof (fo_count _ _ _ _ _ _ HF) as Hcnt. fold l in Hcnt.
  assert (0 < c_discr_nbits cfg) as Hw0 by (unfold valid_width in Hw; destruct (c_discr_nbits cfg); [discriminate Hw|lia]).
  set (gv := gradient_at cfg (lo, hi) gradients rows) in *. fold l in Hbin, Hgr.
  assert (Hgain : forall f b fm v, candidate s f b -> ds_get_bitvec s f b = Ok fm -> bin_of nd f b = Some v ->
    snd v = N.of_nat (length (filter (bbit fm) l)) /\ gain cfg nd v = G fm).
  { intros f b fm v Hc Em Ev. rewrite (Hbin f b fm Hc Em) in Ev. injection Ev as <-. unfold bin_summary. cbn [fst snd]. split; [reflexivity|]. unfold gain, G, split_gain, score. cbn [fst snd].
    set (L := filter (bbit fm) l). change (filter (fun k => bbit fm k) l) with L. set (Rt := filter (fun k => negb (bbit fm k)) l).
    assert (length l = length L + length Rt) as Hlen by apply filter_halves. rewrite Hcnt.
    assert (Hg0 : (if (N.of_nat (length L) <? c_min_examples_leaf cfg)%N then 0%R
      else linproj Rops (c_discr_nbits cfg) (nofN Rops (sumN (map gv L))) (nofN Rops (N.of_nat (length L))) (lo, hi)) = gradient_sum (c_discr_nbits cfg) lo hi gv L).
    { rewrite gradient_sum_eq by exact Hw0. destruct (N.ltb_spec (N.of_nat (length L)) (c_min_examples_leaf cfg)) as [H0|_].
      - assert (L = []) as -> by (destruct L; [reflexivity|cbn [length] in H0; lia]). cbn. unfold Rdiv. ring.
      - unfold nofN. cbn [Rops nofZ]. rewrite linproj_R, nat_N_Z. reflexivity. }
    match goal with |- context[if ?c then ?a else ?b] => replace (if c then a else b) with (gradient_sum (c_discr_nbits cfg) lo hi gv L) by (symmetry; exact Hg0) end. clear Hg0.
    assert (nd_grad nd = gradient_sum (c_discr_nbits cfg) lo hi gv l) as -> by (rewrite gradient_sum_eq by exact Hw0; exact Hgr).
    assert (gradient_sum (c_discr_nbits cfg) lo hi gv l = (gradient_sum (c_discr_nbits cfg) lo hi gv L + gradient_sum (c_discr_nbits cfg) lo hi gv Rt)%R) as Hsum.
    { rewrite !gradient_sum_eq by exact Hw0. rewrite (half_sums (bbit fm) gv l), Hlen. fold L Rt. rewrite N2Z.inj_add, Nat2Z.inj_add, !plus_IZR. unfold Rdiv. ring. }
    unfold node_loss, nofN. cbn [Rops num nmul nneg ndiv nofZ nadd nsub]. rewrite Hsum. rewrite !INR_IZR_INZ, Hlen, !nat_N_Z. replace (Z.of_N (N.of_nat (length L + length Rt) - N.of_nat (length L))) with (Z.of_nat (length Rt)) by lia.
    replace (gradient_sum (c_discr_nbits cfg) lo hi gv L + gradient_sum (c_discr_nbits cfg) lo hi gv Rt - gradient_sum (c_discr_nbits cfg) lo hi gv L)%R with (gradient_sum (c_discr_nbits cfg) lo hi gv Rt) by ring.
    unfold Rdiv. ring. }
  assert (Hadm : forall f b fm, divides s l f b fm <-> exists v, admissible cfg s nd f b v /\ ds_get_bitvec s f b = Ok fm).
  { intros f b fm. split.
    - intros (Hc & Em & (k & Hk & Hb) & (k' & Hk' & Hb')). destruct (bin_exists Rops s sizes HL nd f b (ho_shape _ _ _ _ (fo_hists _ _ _ _ _ _ HF)) Hc) as (v & Ev). exists v. split; [|exact Em].
      split; [exact Hc|]. split; [exact Ev|]. destruct (Hgain f b fm v Hc Em Ev) as [Hv _]. pose proof (filter_halves _ (bbit fm) l) as Hh. rewrite Hmin, Hv, Hcnt.
      assert (In k (filter (bbit fm) l)) as H1 by (apply filter_In; auto). assert (In k' (filter (fun x => negb (bbit fm x)) l)) as H2 by (apply filter_In; rewrite Hb'; auto).
      destruct (filter (bbit fm) l); [destruct H1|]. destruct (filter (fun x => negb (bbit fm x)) l); [destruct H2|]. cbn [length] in *. lia.
    - intros (v & (Hc & Ev & H1 & H2) & Em). destruct (Hgain f b fm v Hc Em Ev) as [Hv _]. pose proof (filter_halves _ (bbit fm) l) as Hh. rewrite Hmin, Hv in H1, H2. rewrite Hcnt in H2.
      split; [exact Hc|]. split; [exact Em|]. split.
      + destruct (filter (bbit fm) l) as [|k t] eqn:Ef; [cbn [length] in *; lia|]. exists k. apply filter_In. rewrite Ef. left. reflexivity.
      + destruct (filter (fun x => negb (bbit fm x)) l) as [|k t] eqn:Ef; [cbn [length] in *; lia|]. exists k. assert (In k (filter (fun x => negb (bbit fm x)) l)) as Hk by (rewrite Ef; left; reflexivity).
        apply filter_In in Hk as [Hk Hb]. split; [exact Hk|]. destruct (bbit fm k); [discriminate|reflexivity]. }
  cbn [nlt Rops] in HB. destruct (is_no_split (sp_crit sp)).
  - intros f b fm Hd. destruct (proj1 (Hadm f b fm) Hd) as (v & Ha & Em). pose proof Ha as (Hc & Ev & _). destruct (Hgain f b fm v Hc Em Ev) as [_ <-]. specialize (HB f b v Ha).
    destruct (Core.Raux.Rlt_bool_spec (c_min_gain cfg) (gain cfg nd v)); [discriminate|assumption].
  - destruct HB as (f & v & Ha & Hso & Hg & Hmax). pose proof Ha as (Hc & Ev & _). destruct (lds_fm _ _ HL _ _ Hc) as (fm & Em & _). exists f, fm. destruct (Hgain f _ fm v Hc Em Ev) as [_ Egain].
    split; [apply Hadm; exists v; auto|]. split; [exact Hso|]. rewrite <- Egain. split.
    + destruct (Core.Raux.Rlt_bool_spec (c_min_gain cfg) (gain cfg nd v)); [assumption|discriminate].
    + intros f' b' fm' Hd. destruct (proj1 (Hadm f' b' fm') Hd) as (v' & Ha' & Em'). pose proof Ha' as (Hc' & Ev' & _). destruct (Hgain f' b' fm' v' Hc' Em' Ev') as [_ <-]. specialize (Hmax f' b' v' Ha').
      destruct (Core.Raux.Rlt_bool_spec (gain cfg nd v) (gain cfg nd v')); [discriminate|assumption].
Qed.
Print Assumptions C20_exact.

(* ---- examples ---- *)

(** A data set, its root, the split chosen there and the children, all computed by the model; the jobs of a node run in reverse order. *)
Definition rev_sched : nat -> list job -> list job := fun _ js => rev js.
Lemma rev_sched_perm : forall k js, Permutation js (rev_sched k js).
Proof. intros k js. apply Permutation_rev. Qed.
Definition grow_split (dbg : bool) (cfg : config f32ops) (d : data f32ops) (us : list (list (num f32ops) * (num f32ops * num f32ops))) bounds gradients :=
  let* s0 := dataset_new cfg d ex_rng in
  let* s := ds_run dbg cfg us s0 in
  let* sizes := hist_sizes d in
  let* root := get_root_n2s cfg s sizes bounds rev_sched gradients in
  let* sp := find_best_split dbg cfg s root in
  let* lr := get_left_right_n2s dbg cfg s sizes bounds rev_sched root sp in
  Ok (s, sizes, root, sp, lr).
Lemma grow_ex dbg cfg d us bounds gradients (P : dataset f32ops -> node f32ops -> split f32ops -> node f32ops -> node f32ops -> Prop) :
  match grow_split dbg cfg d us bounds gradients with
  | Ok (s, sizes, root, sp, (l, r)) => is_no_split (sp_crit sp) = false /\ (N.of_nat (nactive_examples s) <=? 2 ^ 31)%N = true /\ P s root sp l r
  | _ => False
  end ->
  exists s sizes root sp l r, setting dbg cfg d s sizes rev_sched /\ grown dbg cfg s sizes bounds rev_sched gradients root /\
    find_best_split dbg cfg s root = Ok sp /\ is_no_split (sp_crit sp) = false /\ get_left_right_n2s dbg cfg s sizes bounds rev_sched root sp = Ok (l, r) /\ P s root sp l r.
Proof.
  unfold grow_split. destruct (dataset_new cfg d ex_rng) as [s0| | |] eqn:E0; cbn [rbind]; try intros [].
  destruct (ds_run dbg cfg us s0) as [s| | |] eqn:E1; cbn [rbind]; try intros []. destruct (hist_sizes d) as [sizes| | |] eqn:E2; cbn [rbind]; try intros [].
  destruct (get_root_n2s cfg s sizes bounds rev_sched gradients) as [root| | |] eqn:E3; cbn [rbind]; try intros [].
  destruct (find_best_split dbg cfg s root) as [sp| | |] eqn:E4; cbn [rbind]; try intros [].
  destruct (get_left_right_n2s dbg cfg s sizes bounds rev_sched root sp) as [[l r]| | |] eqn:E5; cbn [rbind]; try intros [].
  destruct H0 as [H1 HP]. exists s, sizes, root, sp, l, r. split; [|split; [apply grown_root, E3|auto]].
  split; [exists ex_rng, us, s0; auto|]. split; [exact E2|]. split; [exact rev_sched_perm|]. apply N.leb_le, H1.
Qed.
(** The hypotheses of C15-C18 and C20: the root is split. *)
Example grow_ex1 : exists s sizes root sp l r, setting true (ex_cfg (fz 1)) ex_data s sizes rev_sched /\ grown true (ex_cfg (fz 1)) s sizes (fz (-2), fz 2) rev_sched ex_grad root /\
    find_best_split true (ex_cfg (fz 1)) s root = Ok sp /\ is_no_split (sp_crit sp) = false /\ get_left_right_n2s true (ex_cfg (fz 1)) s sizes (fz (-2), fz 2) rev_sched root sp = Ok (l, r) /\
    (members 4 root = [0; 1; 2; 3] /\ members 4 l = [1; 3] /\ members 4 r = [0; 2] /\ nd_count l = 2%N /\ example_rows s = Ok [0; 1; 2; 3] /\ candidate s 0 1).
Proof. apply (grow_ex true (ex_cfg (fz 1)) ex_data (ex_updates 1)). vm_compute. repeat split. exists [0; 1; 2; 3], 3. repeat split; auto. Qed.
(** With compression: 320 examples, of which the first 32 have category 0 of the first feature. *)
Definition big_cfg : config f32ops :=
  @mk_config f32ops String.EmptyString String.EmptyString String.EmptyString [] 1%N true 44%N [0; 1] 1 (fz 1) (fz 0) 1%N (fz 0) (fz 1) 4 4 2 f_half (fz 1) 1%N (fz 1) (fz 1) 1.
Definition big_cols : list (list (num f32ops)) :=
  [map (fun i => fz (if i <? 32 then 0 else 1)) (seq 0 320); map (fun i => fz (Z.of_nat (i mod 3))) (seq 0 320); map (fun i => fz 0) (seq 0 320)].
Definition big_data : data f32ops := @mk_data f32ops 4 2 320 big_cols [(fz 0, fz 1); (fz 0, fz 2); (fz 0, fz 0)] [LoCardCat; LoCardCat; Numerical] [2; 3; 0].
Definition big_grad : list (num f32ops) := map (fun i => if i <? 32 then fz (-2) else fz 2) (seq 0 320).
Example grow_ex2 : exists s sizes root sp l r, setting false big_cfg big_data s sizes rev_sched /\ grown false big_cfg s sizes (fz (-2), fz 2) rev_sched big_grad root /\
    find_best_split false big_cfg s root = Ok sp /\ is_no_split (sp_crit sp) = false /\ get_left_right_n2s false big_cfg s sizes (fz (-2), fz 2) rev_sched root sp = Ok (l, r) /\
    (members 320 l = seq 0 32 /\ members 320 r = seq 32 288 /\ nd_compr l = true /\ nd_compr r = false /\ nd_count r = 288%N /\ candidate s 1 2).
Proof.
  apply (grow_ex false big_cfg big_data [(big_grad, (fz (-2), fz 2))]). vm_compute. repeat split. exists [0; 1], 3. repeat split; auto.
Qed.

(** C19 fails if [min_examples_leaf] is 2 or more: a bin of the left child with fewer examples is stored with gradient sum 0, so that subtracting it
    leaves the left child's gradients in the right child's bin.  Six examples, gradients -2 -2 -2 2 2 2, split by the first feature into the first and the last three;
    category 0 of the second feature has the examples 0, 3 and 4: in the right child the sum of their gradients is 2+2, but the derived bin says 2. *)
Definition ref_cfg : config f32ops :=
  @mk_config f32ops String.EmptyString String.EmptyString String.EmptyString [] 1%N true 44%N [0; 1] 1 (fz 1) (fz 0) 2%N (fz 0) (fz 1) 4 2 2 (fz 1) (fz 1) 1%N (fz 1) (fz 1) 1.
Definition ref_data : data f32ops :=
  @mk_data f32ops 4 2 6 [[fz 0; fz 0; fz 0; fz 1; fz 1; fz 1]; [fz 0; fz 1; fz 2; fz 0; fz 0; fz 1]; [fz 0; fz 0; fz 0; fz 0; fz 0; fz 0]]
    [(fz 0, fz 1); (fz 0, fz 2); (fz 0, fz 0)] [LoCardCat; LoCardCat; Numerical] [2; 3; 0].
Definition ref_grad : list (num f32ops) := [fz (-2); fz (-2); fz (-2); fz 2; fz 2; fz 2].
Theorem C19_min_examples_refuted : exists s sizes root sp l r, setting true ref_cfg ref_data s sizes rev_sched /\ grown true ref_cfg s sizes (fz (-2), fz 2) rev_sched ref_grad root /\
    find_best_split true ref_cfg s root = Ok sp /\ is_no_split (sp_crit sp) = false /\ get_left_right_n2s true ref_cfg s sizes (fz (-2), fz 2) rev_sched root sp = Ok (l, r) /\
    (members 6 l = [0; 1; 2] /\ members 6 r = [3; 4; 5] /\ candidate s 1 0 /\
     match ds_get_bitvec s 1 0, bin_of r 1 0 with
     | Ok fm, Some v =>
       let direct := bin_summary ref_cfg (fz (-2), fz 2) (gradient_at ref_cfg (fz (-2), fz 2) ref_grad [0; 1; 2; 3; 4; 5]) (filter (bbit fm) (members 6 r)) in
       filter (bbit fm) (members 6 r) = [3; 4] /\ snd v = 2%N /\ snd direct = 2%N /\ f_eq (fst direct) (fz 4) = true /\ f_eq (fst v) (fz 2) = true
     | _, _ => False
     end).
Proof.
  apply (grow_ex true ref_cfg ref_data [(ref_grad, (fz (-2), fz 2))]). vm_compute. repeat split. exists [0; 1], 3. repeat split; auto.
Qed.
Print Assumptions C19_min_examples_refuted.
