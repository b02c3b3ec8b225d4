(** Tables with copies of columns: growing a tree. *)
From Coq Require Import Permutation Sorted.
From Verif Require Import Base BaseProofs BitModel Num DataModel BinnerModel Config TreeModel DatasetModel DatasetSpec LearnerModel LearnerSpec RouteProps LearnerProofs3 LearnerProofs4 RowProofs2 AlikeProofs ColSpec ColProofs ColProofs2 ColProofs4 WideSpec WideProofs WideProofs2 WideProofs3 DupSpec DupProofs.

Lemma row_ext A (a b : list (list A)) f g : option_map (@length A) (nth_error a f) = option_map (@length A) (nth_error b g) -> (forall k, get2 a f k = get2 b g k) -> nth_error a f = nth_error b g.
Proof.
  unfold get2. destruct (nth_error a f) as [x|], (nth_error b g) as [y|]; cbn; try discriminate; [|reflexivity]. intros _ H. f_equal. apply nth_error_ext, H.
Qed.
Lemma row_length A (a b : list (list A)) f : map (@length A) a = map (@length A) b -> option_map (@length A) (nth_error a f) = option_map (@length A) (nth_error b f).
Proof. intros H. rewrite <- !nth_error_map, H. reflexivity. Qed.
Lemma get2_none A (a : list (list A)) f k : get2 a f k <> None <-> exists n, option_map (@length A) (nth_error a f) = Some n /\ k < n.
Proof. unfold get2. destruct (nth_error a f) as [x|]; cbn; [|split; [contradiction|intros (n & X & _); discriminate]]. rewrite nth_error_Some. split; [eauto|intros (n & X & H); injection X as <-; exact H]. Qed.

Section Learn.
Variable O : numops.
Variable dbg : bool.
Variable cfg : config O.
Variables p q : nat -> nat.
Variables d d' : data O.
Hypothesis HD : duplicated p q d d'.
Hypothesis Hirr : forall x, nlt O x x = false.
Hypothesis Htrans : forall x y z, nlt O x y = true -> nlt O y z = true -> nlt O x z = true.
Notation nf := (d_nfeatures d).
Notation nf' := (d_nfeatures d').
Let HW : wider p d d' := proj1 HD.
Let Hm : forall f g, f < g -> p f < p g := proj1 HW.
Let Hr : forall f, f < nf -> p f < nf' := proj1 (proj2 HW).
Let Hq : forall f, f < nf -> q (p f) = f := q_p O p q d d' HD.
Notation ql := (ql O q d d').

Lemma ql_p A (l l' : list A) f : ql l l' -> f < nf -> nth_error l' (p f) = nth_error l f.
Proof. intros [H _] Hf. rewrite H by (apply Hr, Hf). rewrite Hq by exact Hf. reflexivity. Qed.
Lemma ql_pidx A (l l' : list A) f : ql l l' -> f < nf -> idx l' (p f) = idx l f.
Proof. intros H Hf. unfold idx. rewrite (ql_p _ _ _ _ H Hf). reflexivity. Qed.
Lemma ql_combine A B (a a' : list A) (b b' : list B) : ql a a' -> ql b b' -> ql (combine a b) (combine a' b').
Proof.
  intros [Ha La] [Hb Lb]. split; [intros g Hg; rewrite !nth_combine, Ha, Hb by exact Hg; reflexivity|].
  destruct La as [[-> ->]|[L1 L2]]; [left; auto|]. destruct Lb as [[-> ->]|[M1 M2]]; [left; rewrite !combine_nil; auto|]. right. rewrite !combine_length. lia.
Qed.
Lemma ql_mapM A B (F : A -> res B) l l' r : ql l l' -> mapM F l = Ok r -> exists r', mapM F l' = Ok r' /\ ql r r'.
Proof.
  intros [H HL] E. pose proof (DatasetProofs3.mapM_length _ _ _ _ _ E) as L.
  assert (forall g x, nth_error l' g = Some x -> g < nf') as Hl by (intros g x Ex; assert (g < length l') by (apply nth_error_Some; congruence); destruct HL as [[_ ->]|[_ HL]]; cbn in *; lia).
  destruct (mapM_each _ _ F l') as (r' & E'). { intros x Hx. apply In_nth_error in Hx as (g & Eg). pose proof Eg as Eg2. rewrite H in Eg2 by (eapply Hl, Eg). destruct (mapM_nth _ _ _ _ _ _ _ E Eg2) as (y & _ & Ey). eauto. }
  exists r'. split; [exact E'|]. pose proof (DatasetProofs3.mapM_length _ _ _ _ _ E') as L'. split.
  - intros g Hg. destruct (nth_error l' g) as [x|] eqn:Ex.
    + pose proof Ex as Ex2. rewrite H in Ex2 by exact Hg. destruct (mapM_nth _ _ _ _ _ _ _ E Ex2) as (y & -> & Ey). destruct (mapM_nth _ _ _ _ _ _ _ E' Ex) as (y' & -> & Ey'). congruence.
    + pose proof Ex as Ex2. rewrite H in Ex2 by exact Hg. apply nth_error_None in Ex, Ex2. rewrite <- L' in Ex. rewrite <- L in Ex2. apply nth_error_None in Ex, Ex2. congruence.
  - destruct HL as [[-> ->]|HL]; [left; destruct r, r'; try discriminate; auto|right; lia].
Qed.
Lemma qsizes_sim sizes : hist_sizes d = Ok sizes -> exists sizes', hist_sizes d' = Ok sizes' /\ ql sizes sizes'.
Proof.
  unfold hist_sizes. intros E. pose proof (DatasetProofs3.mapM_length _ _ _ _ _ E) as L. rewrite seq_length in L.
  assert (forall g, g < nf' -> exists y, max_nbins d' g = Ok y /\ nth_error sizes (q g) = Some y) as HG.
  { intros g Hg. rewrite (q_max O p q d d' HD g Hg). destruct (mapM_nth _ _ _ _ _ _ _ E (nth_seq0 nf (q g) (q_lt O p q d d' HD g Hg))) as (y & Hy & Ey). eauto. }
  destruct (mapM_each _ _ (max_nbins d') (seq 0 nf')) as (sizes' & E'). { intros g Hg. apply in_seq in Hg. destruct (HG g ltac:(lia)) as (y & Ey & _). eauto. }
  exists sizes'. split; [exact E'|]. pose proof (DatasetProofs3.mapM_length _ _ _ _ _ E') as L'. rewrite seq_length in L'. split; [|right; auto]. intros g Hg. destruct (HG g Hg) as (y & Ey & ->).
  destruct (mapM_nth _ _ _ _ _ _ _ E' (nth_seq0 _ g Hg)) as (y' & -> & Ey'). congruence.
Qed.

Variables s s' : dataset O.
Hypothesis Hds : qds O q d d' s s'.
Variables sizes sizes' : list nat.
Hypothesis Hsz : ql sizes sizes'.
Variable bounds : num O * num O.
Variables sched sched' : nat -> list job -> list job.
Hypothesis Hsched : forall k js, Permutation js (sched k js).
Hypothesis Hsched' : forall k js, Permutation js (sched' k js).
Let Hin : qin O q d d' (ds_inner s) (ds_inner s') := qd_in _ _ _ _ _ _ Hds.

Lemma qact : active_features s = Ok (in_useful (ds_inner s)) /\ active_features s' = Ok (in_useful (ds_inner s')).
Proof.
  unfold active_features, in_active_features, subslice, sub. rewrite (qi_all _ _ _ _ _ _ Hin), (qi_all' _ _ _ _ _ _ Hin). cbn [Nat.leb andb]. rewrite !Nat.leb_refl, !Nat.sub_0_r. cbn [skipn]. rewrite !firstn_all. auto.
Qed.
Lemma qnbins g : g < nf' -> get_nbins s' g = get_nbins s (q g).
Proof. intros Hg. unfold get_nbins. apply (ql_idx O q d d'); [apply Hin|exact Hg]. Qed.
Lemma qbitvec g b : g < nf' -> ds_get_bitvec s' g b = ds_get_bitvec s (q g) b.
Proof. intros Hg. unfold ds_get_bitvec. rewrite (ql_idx O q d d' _ _ _ g (qi_bv _ _ _ _ _ _ Hin) Hg). reflexivity. Qed.
Lemma qvalue g b : g < nf' -> get_split_value s' g b = get_split_value s (q g) b.
Proof. intros Hg. unfold get_split_value. rewrite (qi_data _ _ _ _ _ _ Hin), (qi_data' _ _ _ _ _ _ Hin), (q_type O p q d d' HD g Hg), (ql_idx O q d d' _ _ _ g (qi_sp _ _ _ _ _ _ Hin) Hg). reflexivity. Qed.
Lemma qpbitvec f b : f < nf -> ds_get_bitvec s' (p f) b = ds_get_bitvec s f b.
Proof. intros Hf. rewrite qbitvec by (apply Hr, Hf). rewrite Hq by exact Hf. reflexivity. Qed.
Lemma qnact : nactive_examples s' = nactive_examples s. Proof. apply Hin. Qed.
Lemma qcandidate g b : candidate s' g b -> g < nf' /\ candidate s (q g) b.
Proof.
  intros (fs & nb & E1 & H1 & E2 & Hb). rewrite (proj2 qact) in E1. apply Ok_eq in E1. subst fs. apply (qi_useful _ _ _ _ _ _ Hin) in H1 as [Hg H1]. split; [exact Hg|]. exists (in_useful (ds_inner s)), nb. rewrite <- qnbins by exact Hg. split; [apply qact|auto].
Qed.
Lemma qcandidate2 g b : g < nf' -> candidate s (q g) b -> candidate s' g b.
Proof.
  intros Hg (fs & nb & E1 & H1 & E2 & Hb). rewrite (proj1 qact) in E1. apply Ok_eq in E1. subst fs. exists (in_useful (ds_inner s')), nb. rewrite qnbins by exact Hg. split; [apply qact|]. split; [apply (qi_useful _ _ _ _ _ _ Hin); auto|auto].
Qed.
Lemma qjobs js : jobs s = Ok js -> exists js', jobs s' = Ok js'.
Proof.
  unfold jobs. rewrite (proj1 qact), (proj2 qact). cbn [rbind]. intros E. apply rbind_ok in E as (jss & E & _).
  destruct (mapM_each _ _ (fun f => let* nb := get_nbins s' f in Ok (map (pair f) (seq 0 nb))) (in_useful (ds_inner s'))) as (jss' & E').
  { intros g Hg. apply (qi_useful _ _ _ _ _ _ Hin) in Hg as [Hg Hu]. rewrite qnbins by exact Hg. apply In_nth_error in Hu as (k & Hk). destruct (mapM_nth _ _ _ _ _ _ _ E Hk) as (y & _ & Ey). apply rbind_ok in Ey as (nb & -> & _). cbn [rbind]. eauto. }
  rewrite E'. cbn [rbind]. eauto.
Qed.
Record qnode (nd nd' : node O) : Prop := {
  qn_id : nd_id nd' = nd_id nd; qn_count : nd_count nd' = nd_count nd; qn_grad : nd_grad nd' = nd_grad nd; qn_compr : nd_compr nd' = nd_compr nd; qn_hists : ql (nd_hists nd) (nd_hists nd');
  qn_idx : nd_idx nd' = nd_idx nd; qn_mask : nd_mask nd' = nd_mask nd; qn_grads : nd_grads nd' = nd_grads nd }.
Lemma qgrad_sum nd nd' fm : qnode nd nd' -> get_grad_sum cfg bounds nd' fm = get_grad_sum cfg bounds nd fm.
Proof. intros []. unfold get_grad_sum. rewrite qn_compr0, qn_mask0, qn_idx0, qn_grads0. reflexivity. Qed.
Lemma qrun_jobs nd nd' js js' h h' r : qnode nd nd' -> jobs s = Ok js -> jobs s' = Ok js' -> ql h h' -> foldM (run_job cfg s bounds nd) js h = Ok r -> exists r', foldM (run_job cfg s' bounds nd') js' h' = Ok r' /\ ql r r'.
Proof.
  intros HN Ej Ej' H E. pose proof (jobs_spec O s js Ej) as HJ. pose proof (jobs_spec O s' js' Ej') as HJ'. destruct (run_jobs_ok _ _ _ _ _ _ _ _ E) as (S1 & S2 & S3).
  assert (forall g, g < nf' -> nth_error h' g = nth_error h (q g)) as Hh by apply H.
  destruct (run_jobs_total O cfg s' bounds nd' js' h') as (r' & E').
  { intros g b Hj. apply HJ', qcandidate in Hj as [Hg Hc]. destruct (S2 _ _ (proj2 (HJ _ _) Hc)) as (fm & v & E1 & E2 & E3). split; [exists fm, v; rewrite qbitvec, (qgrad_sum nd nd') by assumption; auto|].
    assert (get2 h (q g) b <> None) as X by (apply get2_none; rewrite <- (row_length _ _ _ _ S1); apply get2_none; congruence). unfold get2 in *. rewrite Hh by exact Hg. exact X. }
  exists r'. split; [exact E'|]. destruct (run_jobs_ok _ _ _ _ _ _ _ _ E') as (T1 & T2 & T3). split.
  - intros g Hg. apply row_ext; [rewrite (row_length _ _ _ _ T1), (row_length _ _ _ _ S1), Hh by exact Hg; reflexivity|]. intros b.
    destruct (in_dec (fun x y : nat * nat => ltac:(decide equality; apply Nat.eq_dec)) (g, b) js') as [Hj|Hj].
    + destruct (T2 _ _ Hj) as (fm' & v' & F1 & F2 & ->). apply HJ', qcandidate in Hj as [_ Hc]. destruct (S2 _ _ (proj2 (HJ _ _) Hc)) as (fm & v & E1 & E2 & ->). rewrite qbitvec in F1 by exact Hg. rewrite E1 in F1. apply Ok_eq in F1. subst fm'. rewrite (qgrad_sum nd nd' _ HN), E2 in F2. apply Ok_eq in F2. congruence.
    + rewrite (T3 _ _ Hj), S3. { unfold get2. rewrite Hh by exact Hg. reflexivity. } intros Hc. apply Hj, HJ', qcandidate2; [exact Hg|]. apply HJ, Hc.
  - apply (f_equal (@length nat)) in S1, T1. rewrite !map_length in *. destruct (proj2 H) as [[-> ->]|[L1 L2]]; [left; destruct r, r'; try discriminate; auto|right; lia].
Qed.
Lemma qbuild nd nd' r : qnode nd nd' -> build_histograms cfg s bounds sched nd = Ok r -> exists r', build_histograms cfg s' bounds sched' nd' = Ok r' /\ qnode r r'.
Proof.
  intros HN E. unfold build_histograms in *. apply rbind_ok in E as (u & -> & E). cbn [rbind]. apply rbind_ok in E as (js & Ej & E). destruct (qjobs js Ej) as (js' & Ej'). rewrite Ej'. cbn [rbind]. apply rbind_ok in E as (h & Eh & E). apply Ok_eq in E. subst r.
  assert (foldM (run_job cfg s bounds nd) js (nd_hists nd) = Ok h) as E1 by (eapply foldM_perm; [intros; eapply run_job_comm; eassumption|apply Permutation_sym, Hsched|exact Eh]).
  destruct (qrun_jobs nd nd' js js' _ _ _ HN Ej Ej' (qn_hists _ _ HN) E1) as (h' & E2 & Hh).
  assert (foldM (run_job cfg s' bounds nd') (sched' (nd_id nd') js') (nd_hists nd') = Ok h') as -> by (eapply foldM_perm; [intros; eapply run_job_comm; eassumption|apply Hsched'|exact E2]).
  cbn [rbind]. eexists. split; [reflexivity|]. destruct HN. constructor; cbn; assumption.
Qed.
Lemma qalloc h : alloc_hists O sizes = Ok h -> exists h', alloc_hists O sizes' = Ok h' /\ ql h h'.
Proof.
  unfold alloc_hists. intros E. apply rbind_ok in E as (u & Ea & E). apply Ok_eq in E. subst h. unfold rassert in Ea. destruct (Nat.ltb_spec 0 (list_sum sizes)) as [Hs|]; [|discriminate].
  assert (0 < list_sum sizes') as Hs'.
  { apply (sum_pos O p d d' HW sched sched' Hsched Hsched') in Hs as (k & x & E & Hx). apply (sum_pos O p d d' HW sched sched' Hsched Hsched'). exists (p k), x. split; [|exact Hx]. rewrite (ql_p _ _ _ k Hsz); [exact E|]. assert (k < length sizes) by (apply nth_error_Some; congruence). destruct (proj2 Hsz) as [[Hn _]|[L _]]; [rewrite Hn in E; destruct k; discriminate|lia]. }
  apply Nat.ltb_lt in Hs'. rewrite Hs'. cbn [rassert rbind]. eexists. split; [reflexivity|]. apply (ql_map O q d d'), Hsz.
Qed.
Lemma qex_sampling : example_sampling_enabled s' = example_sampling_enabled s.
Proof. unfold example_sampling_enabled. rewrite (qd_buf _ _ _ _ _ _ Hds). reflexivity. Qed.
Lemma qactive_ex : active_examples s' = active_examples s.
Proof. unfold active_examples. rewrite qnact, (qd_buf _ _ _ _ _ _ Hds). reflexivity. Qed.
Lemma qroot gradients nd : get_root_n2s cfg s sizes bounds sched gradients = Ok nd -> exists nd', get_root_n2s cfg s' sizes' bounds sched' gradients = Ok nd' /\ qnode nd nd'.
Proof.
  unfold get_root_n2s. rewrite qnact. assert (active_examples_list s' = active_examples_list s) as -> by (unfold active_examples_list; rewrite qex_sampling, qactive_ex, qnact; reflexivity).
  intros E. apply rbind_ok in E as (u & -> & E). cbn [rbind]. apply rbind_ok in E as (g0 & -> & E). cbn [rbind]. apply rbind_ok in E as (mask & -> & E). cbn [rbind]. apply rbind_ok in E as (ix & -> & E). cbn [rbind]. apply rbind_ok in E as (u2 & -> & E). cbn [rbind].
  apply rbind_ok in E as (ex & -> & E). cbn [rbind]. apply rbind_ok in E as ((gr & sum) & -> & E). cbn [rbind]. apply rbind_ok in E as (h & Eh & E). destruct (qalloc h Eh) as (h' & -> & Hh). cbn [rbind]. eapply qbuild; [|exact E]. constructor; cbn; try reflexivity. exact Hh.
Qed.
Lemma qcompress pa pa' nd nd' n r : qnode pa pa' -> qnode nd nd' -> compress_examples dbg cfg pa nd n = Ok r -> exists r', compress_examples dbg cfg pa' nd' n = Ok r' /\ qnode r r'.
Proof.
  intros HP HN E. unfold compress_examples in *. assert (forall l st, foldM (compress_step dbg cfg pa') l st = foldM (compress_step dbg cfg pa) l st) as EF.
  { induction l as [|j l IH]; intros st; [reflexivity|]. cbn [foldM]. assert (compress_step dbg cfg pa' st j = compress_step dbg cfg pa st j) as -> by (unfold compress_step; rewrite (qn_idx _ _ HP), (qn_grads _ _ HP); reflexivity). destruct (compress_step dbg cfg pa st j); cbn [rbind]; try reflexivity. apply IH. }
  rewrite (qn_idx _ _ HP), (qn_mask _ _ HN). apply rbind_ok in E as (u & -> & E). cbn [rbind]. apply rbind_ok in E as (ix0 & -> & E). cbn [rbind]. apply rbind_ok in E as (g0 & -> & E). cbn [rbind]. rewrite EF. apply rbind_ok in E as ((((k & mask) & ix) & gr) & -> & E). cbn [rbind].
  apply rbind_ok in E as (u2 & -> & E). cbn [rbind]. apply rbind_ok in E as (m2 & -> & E). cbn [rbind]. apply Ok_eq in E. subst r. eexists. split; [reflexivity|]. destruct HN. constructor; cbn; try assumption; reflexivity.
Qed.

(** The split of the second run. *)
Notation wsplit := (rsplit O p d).
Lemma qsplit_examples pa pa' k sp sp' f n g r : qnode pa pa' -> wsplit sp sp' -> is_no_split (sp_crit sp) = false -> split_examples dbg cfg s sizes pa k sp f n g = Ok r -> exists r', split_examples dbg cfg s' sizes' pa' k sp' f n g = Ok r' /\ qnode r r'.
Proof.
  intros HP HS Hn E. destruct (rsplit_feature O p d _ _ HS Hn) as (EF & HF & _). unfold split_examples in *. rewrite EF, (proj1 HS), qpbitvec by exact HF. rewrite (qn_idx _ _ HP). apply rbind_ok in E as (fm & -> & E). cbn [rbind].
  apply rbind_ok in E as (h & Eh & E). destruct (qalloc h Eh) as (h' & -> & Hh). cbn [rbind]. apply rbind_ok in E as (m0 & -> & E). cbn [rbind].
  assert (forall l st, foldM (split_block pa' fm f) l st = foldM (split_block pa fm f) l st) as ->.
  { induction l as [|j l IH]; intros st; [reflexivity|]. cbn [foldM]. assert (split_block pa' fm f st j = split_block pa fm f st j) as -> by (unfold split_block; rewrite (qn_idx _ _ HP), (qn_mask _ _ HP); reflexivity). destruct (split_block pa fm f st j); cbn [rbind]; try reflexivity. apply IH. }
  apply rbind_ok in E as ((mask & z) & -> & E). cbn [rbind]. rewrite (qn_compr _ _ HP), (qn_grads _ _ HP). destruct (_ && _).
  - apply rbind_ok in E as (u & -> & E). cbn [rbind]. eapply qcompress; [exact HP| |exact E]. constructor; cbn; try reflexivity. exact Hh.
  - apply Ok_eq in E. subst r. eexists. split; [reflexivity|]. constructor; cbn; try reflexivity. exact Hh.
Qed.
Lemma qsubtract (a a' b b' h : list (list (histval O))) : ql a a' -> ql b b' -> hists_subtract dbg a b = Ok h -> exists h', hists_subtract dbg a' b' = Ok h' /\ ql h h'.
Proof. intros Ha Hb. unfold hists_subtract. apply ql_mapM, ql_combine; assumption. Qed.
Lemma qchildren pa pa' sp sp' l r : qnode pa pa' -> wsplit sp sp' -> is_no_split (sp_crit sp) = false -> get_left_right_n2s dbg cfg s sizes bounds sched pa sp = Ok (l, r) ->
  exists l' r', get_left_right_n2s dbg cfg s' sizes' bounds sched' pa' sp' = Ok (l', r') /\ qnode l l' /\ qnode r r'.
Proof.
  intros HP HS Hn E. destruct (rsplit_feature O p d _ _ HS Hn) as (EF & HF & _). unfold get_left_right_n2s in *. rewrite EF, (proj1 HS), (ql_pidx _ _ _ _ (qn_hists _ _ HP) HF), (qn_grad _ _ HP), (qn_count _ _ HP), (qn_id _ _ HP).
  apply rbind_ok in E as (hist & -> & E). cbn [rbind]. apply rbind_ok in E as (lv & -> & E). cbn [rbind]. apply rbind_ok in E as (rc & -> & E). cbn [rbind]. apply rbind_ok in E as (l0 & El & E). destruct (qsplit_examples _ _ _ _ _ _ _ _ _ HP HS Hn El) as (l0' & -> & Hl). cbn [rbind].
  apply rbind_ok in E as (l1 & El1 & E). destruct (qbuild _ _ _ Hl El1) as (l1' & -> & Hl1). cbn [rbind]. apply rbind_ok in E as (r0 & Er & E). destruct (qsplit_examples _ _ _ _ _ _ _ _ _ HP HS Hn Er) as (r0' & -> & Hr0). cbn [rbind].
  apply rbind_ok in E as (r1 & Er1 & E). apply Ok_eq in E. injection E as <- <-. unfold derive_histograms in *. apply rbind_ok in Er1 as (h & Eh & Er1). apply Ok_eq in Er1. subst r1.
  destruct (qsubtract _ _ _ _ _ (qn_hists _ _ HP) (qn_hists _ _ Hl1) Eh) as (h' & Eh' & Hh). rewrite Eh'. cbn [rbind]. eexists. eexists. split; [reflexivity|]. split; [exact Hl1|]. destruct Hr0. constructor; cbn; assumption.
Qed.

(** Choosing the split: a copy never beats its original. *)
Definition wst (st st' : num O * split O) : Prop := fst st' = fst st /\ wsplit (snd st) (snd st').
Definition no_gain (nd : node O) (hist : list (histval O)) (x : num O) (b : nat) : Prop := exists l rc, idx hist b = Ok l /\ u32_sub dbg (nd_count nd) (snd l) = Ok rc /\
  ((snd l <? c_min_examples_leaf cfg)%N || (rc <? c_min_examples_leaf cfg)%N = true \/
   nlt O x (nsub O (nsub O (get_loss cfg (nd_grad nd) (nd_count nd)) (get_loss cfg (fst l) (snd l))) (get_loss cfg (nsub O (nd_grad nd) (fst l)) rc)) = false).
Definition more (x y : num O) : Prop := y = x \/ nlt O x y = true.
Lemma more_trans x y z : more x y -> more y z -> more x z.
Proof. intros [->|H] [->|H']; unfold more; eauto. Qed.
Lemma no_gain_more nd hist x y b : more x y -> no_gain nd hist x b -> no_gain nd hist y b.
Proof.
  intros [->|H] (l & rc & E1 & E2 & E3); exists l, rc; [auto|]. split; [exact E1|]. split; [exact E2|]. destruct E3 as [E3|E3]; [left; exact E3|right]. apply Bool.not_true_iff_false. intros X. rewrite (Htrans _ _ _ H X) in E3. discriminate.
Qed.
Lemma step_more nd f hist st b r : split_step dbg cfg s nd f hist st b = Ok r -> more (fst st) (fst r) /\ no_gain nd hist (fst r) b.
Proof.
  unfold split_step. intros E. apply rbind_ok in E as (l & El & E). apply rbind_ok in E as (rc & Erc & E). destruct (_ || _) eqn:Es; [apply Ok_eq in E; subst r; split; [left; reflexivity|]; exists l, rc; auto|]. cbv zeta in E.
  match type of E with (if nlt O _ ?g then _ else _) = _ => destruct (nlt O (fst st) g) eqn:Eg end; [|apply Ok_eq in E; subst r; split; [left; reflexivity|]; exists l, rc; auto].
  apply rbind_ok in E as (c & _ & E). apply Ok_eq in E. subst r. cbn [fst]. split; [right; exact Eg|]. exists l, rc. auto.
Qed.
Lemma steps_more nd f hist l : forall st r, foldM (split_step dbg cfg s nd f hist) l st = Ok r -> more (fst st) (fst r) /\ forall b, In b l -> no_gain nd hist (fst r) b.
Proof.
  induction l as [|b l IH]; intros st r E; cbn [foldM] in E; [apply Ok_eq in E; subst; split; [left; reflexivity|intros ? []]|]. apply rbind_ok in E as (st1 & E1 & E). destruct (step_more _ _ _ _ _ _ E1) as (M1 & N1). destruct (IH _ _ E) as (M2 & N2).
  split; [eapply more_trans; eassumption|]. intros b' [<-|Hb]; [eapply no_gain_more; eassumption|apply N2, Hb].
Qed.
Lemma step_skip nd nd' g hist st b : qnode nd nd' -> no_gain nd hist (fst st) b -> split_step dbg cfg s' nd' g hist st b = Ok st.
Proof.
  intros HN (l & rc & E1 & E2 & E3). unfold split_step. rewrite E1. cbn [rbind]. rewrite (qn_count _ _ HN), E2, (qn_grad _ _ HN). cbn [rbind]. destruct (_ || _); [reflexivity|]. destruct E3 as [E3|E3]; [discriminate|]. cbv zeta. rewrite E3. reflexivity.
Qed.
Lemma steps_skip nd nd' g hist st l : qnode nd nd' -> (forall b, In b l -> no_gain nd hist (fst st) b) -> foldM (split_step dbg cfg s' nd' g hist) l st = Ok st.
Proof. intros HN. induction l as [|b l IH]; intros H; [reflexivity|]. cbn [foldM]. rewrite (step_skip nd nd' g hist st b HN) by (apply H; left; reflexivity). cbn [rbind]. apply IH. intros; apply H; right; assumption. Qed.
Lemma qstep nd nd' f hist b st st' r : qnode nd nd' -> f < nf -> wst st st' -> split_step dbg cfg s nd f hist st b = Ok r -> exists r', split_step dbg cfg s' nd' (p f) hist st' b = Ok r' /\ wst r r'.
Proof.
  intros HN Hf [H1 H2] E. unfold split_step in *. rewrite (qn_grad _ _ HN), (qn_count _ _ HN). apply rbind_ok in E as (l & -> & E). cbn [rbind]. apply rbind_ok in E as (rc & -> & E). cbn [rbind]. destruct (_ || _); [apply Ok_eq in E; subst r; eexists; split; [reflexivity|split; assumption]|].
  cbv zeta in *. rewrite H1. destruct (nlt O (fst st) _); [|apply Ok_eq in E; subst r; eexists; split; [reflexivity|split; assumption]]. apply rbind_ok in E as (c & Ec & E). apply Ok_eq in E. subst r. unfold make_crit in *. rewrite qvalue by (apply Hr, Hf). rewrite Hq by exact Hf.
  apply rbind_ok in Ec as (v & -> & Ec). cbn [rbind]. rewrite (qi_data' _ _ _ _ _ _ Hin), (q_type O p q d d' HD (p f) (Hr f Hf)), (Hq f Hf). rewrite (qi_data _ _ _ _ _ _ Hin) in Ec. apply rbind_ok in Ec as (ft & -> & Ec). cbn [rbind]. apply Ok_eq in Ec. subst c. eexists. split; [reflexivity|].
  split; [reflexivity|]. cbn [snd]. split; [reflexivity|]. cbn [sp_crit]. unfold renamed_crit, is_no_split. cbn [sc_type sc_feature sc_value]. destruct ft; (split; [reflexivity|split; [discriminate|intros _; exact Hf]]).
Qed.
Notation orig := (orig p q).
Lemma useful_orig : filter orig (in_useful (ds_inner s')) = map p (in_useful (ds_inner s)).
Proof.
  apply (sorted_ext p Hm); [apply ss_filter, Hin|apply (ss_map p Hm), Hin|]. intros g. rewrite filter_In, in_map_iff. unfold DupProofs.orig. rewrite Nat.eqb_eq. split.
  - intros [Hg Ho]. apply (qi_useful _ _ _ _ _ _ Hin) in Hg as [_ Hg]. exists (q g). auto.
  - intros (f & <- & Hf). pose proof (qi_lt _ _ _ _ _ _ Hin f Hf) as Hl. rewrite (Hq f Hl). split; [|reflexivity]. apply (qi_useful _ _ _ _ _ _ Hin). rewrite (Hq f Hl). split; [apply Hr, Hl|exact Hf].
Qed.
Definition settled (nd : node O) (x : num O) (f : nat) : Prop := exists hist nb, idx (nd_hists nd) f = Ok hist /\ get_nbins s f = Ok nb /\ forall b, b < nb -> no_gain nd hist x b.
Definition feature_step (s : dataset O) (nd : node O) (st : num O * split O) (f : nat) : res (num O * split O) := let* hist := idx (nd_hists nd) f in let* nb := get_nbins s f in foldM (split_step dbg cfg s nd f hist) (seq 0 nb) st.
Lemma feature_more nd st f r : feature_step s nd st f = Ok r -> more (fst st) (fst r) /\ settled nd (fst r) f.
Proof.
  unfold feature_step. intros E. apply rbind_ok in E as (hist & Eh & E). apply rbind_ok in E as (nb & En & E). destruct (steps_more _ _ _ _ _ _ E) as [H1 H2]. split; [exact H1|]. exists hist, nb. split; [exact Eh|]. split; [exact En|]. intros b Hb. apply H2, in_seq. lia.
Qed.
Lemma feature_skip nd nd' st g : qnode nd nd' -> g < nf' -> settled nd (fst st) (q g) -> feature_step s' nd' st g = Ok st.
Proof.
  intros HN Hg (hist & nb & Eh & En & H). unfold feature_step. rewrite (ql_idx O q d d' _ _ _ g (qn_hists _ _ HN) Hg), Eh. cbn [rbind]. rewrite qnbins, En by exact Hg. cbn [rbind]. apply (steps_skip nd nd' _ _ _ _ HN). intros b Hb. apply in_seq in Hb. apply H. lia.
Qed.
Lemma settled_more nd x y f : more x y -> settled nd x f -> settled nd y f.
Proof. intros HM (hist & nb & Eh & En & H). exists hist, nb. split; [exact Eh|]. split; [exact En|]. intros b Hb. eapply no_gain_more; [exact HM|apply H, Hb]. Qed.
Lemma feature_same nd nd' f a a' r : qnode nd nd' -> f < nf -> wst a a' -> feature_step s nd a f = Ok r -> exists r', feature_step s' nd' a' (p f) = Ok r' /\ wst r r'.
Proof.
  intros HN Hf H E. unfold feature_step in *. rewrite (ql_pidx _ _ _ _ (qn_hists _ _ HN) Hf), (qnbins (p f) (Hr f Hf)), (Hq f Hf). apply rbind_ok in E as (hist & -> & E). cbn [rbind]. apply rbind_ok in E as (nb & -> & E). cbn [rbind].
  revert a a' H E. generalize (seq 0 nb). induction l as [|b l IHl]; intros a a' H E; cbn [foldM] in *; [apply Ok_eq in E; subst; eauto|]. apply rbind_ok in E as (a2 & E2 & E). destruct (qstep _ _ _ _ _ _ _ _ HN Hf H E2) as (a2' & -> & H2). cbn [rbind]. eapply IHl; eassumption.
Qed.
Lemma best_fold nd nd' : qnode nd nd' -> forall l', StronglySorted lt l' -> forall l a a' r, filter orig l' = map p l -> (forall g, In g l' -> g < nf') -> (forall f, In f l -> f < nf) -> wst a a' ->
  (forall g, In g l' -> settled nd (fst a) (q g) \/ In (q g) l) -> foldM (feature_step s nd) l a = Ok r -> exists r', foldM (feature_step s' nd') l' a' = Ok r' /\ wst r r'.
Proof.
  intros HN. induction 1 as [|g l' Hs IH HF]; intros l a a' r El Hg' Hl H HS E.
  - destruct l; [|discriminate]. cbn in *. apply Ok_eq in E. subst. eauto.
  - cbn [filter] in El. cbn [foldM]. assert (g < nf') as Hg by (apply Hg'; left; reflexivity). destruct (orig g) eqn:Eo; unfold DupProofs.orig in Eo; [apply Nat.eqb_eq in Eo|apply Nat.eqb_neq in Eo].
    + destruct l as [|f l]; [discriminate|]. injection El as Ef El. assert (f < nf) as Hf by (apply Hl; left; reflexivity). cbn [foldM] in E. apply rbind_ok in E as (a1 & E1 & E). destruct (feature_same _ _ _ _ _ _ HN Hf H E1) as (a1' & E1' & H1). rewrite Ef, E1'. cbn [rbind].
      destruct (feature_more _ _ _ _ E1) as (M & St). eapply IH; [exact El|intros; apply Hg'; right; assumption|intros; apply Hl; right; assumption|exact H1| |exact E].
      intros g2 Hg2. destruct (HS g2 (or_intror Hg2)) as [X|[X|X]]; [left; eapply settled_more; eassumption|left; rewrite <- X; exact St|right; exact X].
    + destruct (HS g (or_introl eq_refl)) as [X|X].
      * rewrite <- (proj1 H) in X. rewrite (feature_skip nd nd' a' g HN Hg X). cbn [rbind]. eapply IH; [exact El|intros; apply Hg'; right; assumption|exact Hl|exact H| |exact E]. intros; apply HS; right; assumption.
      * exfalso. pose proof (p_q O p q d d' HD g Hg). assert (In (p (q g)) (filter orig l')) as Y by (rewrite El; apply in_map, X). apply filter_In in Y as [Y _]. rewrite Forall_forall in HF. apply HF in Y. lia.
Qed.
Lemma qbest nd nd' sp : qnode nd nd' -> find_best_split dbg cfg s nd = Ok sp -> exists sp', find_best_split dbg cfg s' nd' = Ok sp' /\ wsplit sp sp'.
Proof.
  intros HN E. unfold find_best_split in *. rewrite (proj1 qact) in E. rewrite (proj2 qact). cbn [rbind] in *. apply rbind_ok in E as (st & E & E0). apply Ok_eq in E0. subst sp.
  assert (wst (c_min_gain cfg, split_none O) (c_min_gain cfg, split_none O)) as H0 by (split; [reflexivity|]; split; [reflexivity|]; split; [reflexivity|]; split; [reflexivity|discriminate]).
  destruct (best_fold nd nd' HN _ (qi_sorted' _ _ _ _ _ _ Hin) _ _ _ st useful_orig ltac:(intros g Hg; apply (qi_useful _ _ _ _ _ _ Hin), Hg) (qi_lt _ _ _ _ _ _ Hin) H0 ltac:(intros g Hg; right; apply (qi_useful _ _ _ _ _ _ Hin), Hg) E) as (st' & E' & H).
  change (exists sp', (let* st0 := foldM (feature_step s' nd') (in_useful (ds_inner s')) (c_min_gain cfg, split_none O) in Ok (snd st0)) = Ok sp' /\ wsplit (snd st) sp'). rewrite E'. cbn [rbind]. eexists. split; [reflexivity|]. apply H.
Qed.
End Learn.
