(** What a successful iteration tells about the table and the configuration. *)
From Coq Require Import Permutation.
From Verif Require Import Base BaseProofs BitModel SliceModel Num DataModel Config TreeModel DatasetModel DatasetSpec DatasetProofs3 DatasetProofs4 DatasetProofs5 LearnerModel LearnerSpec LearnerProofs4 LearnerProofs5 ObjectiveModel ObjectiveProofs MetricModel BoostModel BoostProofs SafeProofs3 GapProofs3 FreqSpec.

Section Need.
Variable O : numops.
Variable M : mathops O.
Variable dbg : bool.
Variable cfg : config O.
Variable d : data O.
Variable sched : nat -> nat -> list job -> list job.

Lemma put_reads bounds gradients n : forall st st', foldM (put_gradient cfg bounds gradients) (map (fun i => (i, i)) (seq 0 n)) st = Ok st' -> n <= length gradients.
Proof.
  induction n as [|n IH]; intros st st' E; [lia|]. rewrite seq_S, map_app, foldM_app in E. apply rbind_ok in E as (st1 & _ & E). cbn [map foldM] in E. apply rbind_ok in E as (st2 & E & _). destruct st1 as [sl x].
  unfold put_gradient in E. cbn [fst snd] in E. apply rbind_ok in E as (v & Ev & _). apply idx_ok in Ev. assert (0 + n < length gradients); [apply nth_error_Some; congruence|lia].
Qed.

Lemma list_sum_pos l : 0 < list_sum l -> exists i x, nth_error l i = Some x /\ 0 < x.
Proof. induction l as [|a l IH]; cbn; intros H; [lia|]. destruct a as [|a]; [destruct (IH H) as (i & x & E & Hx); exists (S i), x; auto|exists 0, (S a); cbn; split; [reflexivity|lia]]. Qed.

Lemma train_needs kind metrics g k b : boost_run M dbg cfg d sched kind metrics g (S k) = Ok b -> needed cfg d.
Proof.
  intros E. unfold boost_run in E. apply rbind_ok in E as (b0 & E0 & E). apply rbind_ok in E as (sizes & Hsz & E). cbn [seq foldM] in E. apply rbind_ok in E as (b1 & E & _).
  unfold boost_start in E0. apply rbind_ok in E0 as (s0 & Es0 & E0). apply rbind_ok in E0 as (t0 & _ & E0). apply rbind_ok in E0 as (ob0 & _ & E0). injection E0 as <-. unfold train_one_iter in E. cbn [bs_dataset bs_objective bs_iter] in E.
  apply rbind_ok in E as (target & Et & E). cbv zeta in E. apply rbind_ok in E as (ob & Eob & E). apply rbind_ok in E as (s & Es & E). apply rbind_ok in E as ([t ob'] & Etr & _).
  assert (reachable dbg cfg d s) as HR. { exists g, [(ob_grads ob, obj_bounds ob)], s0. split; [exact Es0|]. unfold ds_run. cbn [foldM fst snd]. rewrite Es. reflexivity. }
  pose proof (reachable_ok _ _ _ _ _ HR) as HI. pose proof (ds_inv _ _ _ _ HI) as HD.
  unfold train in Etr. apply rbind_ok in Etr as (tr & Etn & Etr). apply rbind_ok in Etr as (root & Er & _).
  unfold tree_new in Etn. apply rbind_ok in Etn as (u & Edep & _). apply rassert_ok in Edep. apply Nat.ltb_lt in Edep.
  unfold get_root_n2s in Er. apply rbind_ok in Er as (u1 & Ew & Er). apply rassert_ok in Ew. cbv zeta in Er. apply rbind_ok in Er as (g0 & _ & Er). apply rbind_ok in Er as (mask & Em & Er). apply rbind_ok in Er as (ix & _ & Er).
  apply rbind_ok in Er as (u2 & E32 & Er). apply rassert_ok in E32. apply N.ltb_lt in E32. apply rbind_ok in Er as (ex & Eex & Er). apply rbind_ok in Er as ([gr sum] & Eput & Er). apply rbind_ok in Er as (h & Eh & Er).
  assert (nactive_examples s = scaled_count (d_nexamples d) (c_example_fraction cfg)) as En by (unfold nactive_examples; apply (dv_nact _ _ _ _ HD)).
  assert (0 < nactive_examples s) as Hpos by (destruct (Nat.eq_dec (nactive_examples s) 0) as [Ez|]; [rewrite Ez in Em; discriminate Em|lia]).
  split; [|split; [exact Edep|split; [|split]]].
  - unfold width, valid_width in Ew. cbn. rewrite !orb_true_iff, !Nat.eqb_eq in Ew. intuition.
  - exists target. split; [exact Et|]. cbv zeta. rewrite <- En. split; [exact Hpos|]. split; [exact E32|]. pose proof (ds_buf _ _ _ _ HI) as Hb. unfold active_examples_list, example_sampling_enabled in Eex.
    destruct (nlt O (c_example_fraction cfg) (nofZ O 1)); cbn [andb].
    + apply Permutation_length in Hb. rewrite seq_length in Hb. destruct (Nat.ltb_spec 0 (d_nexamples d)) as [Hz|Hz].
      * destruct (Nat.eqb_spec (length (ds_index_buffer s)) 0) as [Hz'|Hz']; [lia|]. cbn [negb] in Eex. apply rbind_ok in Eex as (a & Ea & _). unfold active_examples in Ea. apply subslice_first in Ea. lia.
      * destruct (Nat.eqb_spec (length (ds_index_buffer s)) 0) as [Hz'|Hz']; [|lia]. cbn [negb] in Eex. injection Eex as <-. apply put_reads in Eput. rewrite (update_length _ _ _ _ _ Eob) in Eput. exact Eput.
    + rewrite Hb in Eex. cbn [length Nat.eqb negb] in Eex. injection Eex as <-. apply put_reads in Eput. rewrite (update_length _ _ _ _ _ Eob) in Eput. exact Eput.
  - exists (in_useful (ds_inner s)). split; [apply (dv_nodup _ _ _ _ HD)|]. split; [apply (dv_useful _ _ _ _ HD)|]. rewrite <- (dv_nfeat _ _ _ _ HD).
    unfold build_histograms in Er. apply rbind_ok in Er as (u3 & _ & Er). apply rbind_ok in Er as (js & Ej & _). unfold jobs in Ej. apply rbind_ok in Ej as (fs & Ef & _). unfold active_features, in_active_features in Ef. apply subslice_first in Ef. lia.
  - unfold alloc_hists in Eh. apply rbind_ok in Eh as (u4 & Eh & _). apply rassert_ok, Nat.ltb_lt, list_sum_pos in Eh. destruct Eh as (i & x & Ei & Hx).
    unfold hist_sizes in Hsz. assert (i < length sizes) as Hi by (apply nth_error_Some; congruence). pose proof Hsz as Hsz'. apply mapM_ok in Hsz'. assert (length sizes = d_nfeatures d) as Hl by (apply F2_length in Hsz'; rewrite seq_length in Hsz'; congruence).
    exists i, x. split; [lia|]. split; [|exact Hx]. destruct (mapM_nth _ _ _ _ _ i i Hsz) as (y & Ey & Hy); [rewrite nth_error_nth' with (d := 0); [rewrite seq_nth by lia; reflexivity|rewrite seq_length; lia]|]. congruence.
Qed.
End Need.
