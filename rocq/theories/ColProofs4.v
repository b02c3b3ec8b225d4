(** Tables with the columns in another order: growing a tree (continued). *)
From Coq Require Import Permutation.
From Verif Require Import Base BaseProofs BitModel Num DataModel BinnerModel Config TreeModel DatasetModel DatasetSpec LearnerModel LearnerSpec RouteProps LearnerProofs3 LearnerProofs4 LearnerProofs5 LearnerProps RowProofs2 AlikeProofs ColSpec ColProofs ColProofs2 ColProofs3.

Lemma perm_concat A (X Y : list (list A)) : Permutation X Y -> Permutation (concat X) (concat Y).
Proof. induction 1; cbn [concat]; [apply perm_nil|apply Permutation_app_head; assumption|rewrite !List.app_assoc; apply Permutation_app_tail, Permutation_app_comm|etransitivity; eassumption]. Qed.
Section RL.
Variable p : nat -> nat.
Variable nf : nat.
Hypothesis Hp : forall f, f < nf -> p f < nf.
Hypothesis Hinj : forall f g, f < nf -> g < nf -> p f = p g -> f = g.
Notation rl := (rl p nf).
Lemma map_nth_seq A (l : list A) x : map (fun k => nth k l x) (seq 0 (length l)) = l.
Proof.
  apply nth_error_ext. intros k. rewrite nth_error_map. destruct (Nat.ltb_spec k (length l)) as [H|H].
  - rewrite (nth_error_nth' (seq 0 (length l)) 0) by (rewrite seq_length; exact H). rewrite seq_nth by exact H. cbn [option_map]. symmetry. apply nth_error_nth', H.
  - rewrite (proj2 (nth_error_None (seq 0 (length l)) k)) by (rewrite seq_length; exact H). symmetry. apply nth_error_None, H.
Qed.
Lemma rl_perm A (l l' : list A) : rl l l' -> Permutation l l'.
Proof.
  intros [[-> ->]|(H1 & H2 & H)]; [constructor|]. destruct l as [|x l0]; [destruct l'; [constructor|cbn in *; lia]|]. set (l := x :: l0) in *.
  rewrite <- (map_nth_seq _ l x), <- (map_nth_seq _ l' x), H1, H2. transitivity (map (fun k => nth k l' x) (map p (seq 0 nf))); [|apply Permutation_map, p_seq; assumption]. rewrite map_map.
  erewrite map_ext_in; [reflexivity|]. intros f Hf. apply in_seq in Hf. cbv beta. assert (f < nf) as Hf' by lia. specialize (H f Hf'). rewrite (nth_error_nth' l' x) in H by (rewrite H2; apply Hp, Hf'). rewrite (nth_error_nth' l x) in H by (rewrite H1; exact Hf'). injection H as ->. reflexivity.
Qed.
Lemma rl_sum (l l' : list nat) : rl l l' -> list_sum l' = list_sum l.
Proof. intros H. apply rl_perm in H. induction H; unfold list_sum in *; cbn [fold_right] in *; try lia; congruence. Qed.
Lemma rl_mapM A B (F : A -> res B) l l' r : rl l l' -> mapM F l = Ok r -> exists r', mapM F l' = Ok r' /\ rl r r'.
Proof.
  intros H E. destruct (mapM_perm _ _ F _ _ (rl_perm _ _ _ H) _ E) as (r' & E' & _). exists r'. split; [exact E'|]. pose proof (DatasetProofs3.mapM_length _ _ _ _ _ E) as L. pose proof (DatasetProofs3.mapM_length _ _ _ _ _ E') as L'.
  destruct H as [[-> ->]|(H1 & H2 & H)]; [left; cbn in *; apply Ok_eq in E, E'; auto|]. right. split; [lia|]. split; [lia|]. intros f Hf.
  destruct (nth_error l f) as [x|] eqn:Ex; [|apply nth_error_None in Ex; lia]. specialize (H f Hf). rewrite Ex in H. destruct (mapM_nth _ _ _ _ _ _ _ E Ex) as (y & -> & Ey). destruct (mapM_nth _ _ _ _ _ _ _ E' H) as (y' & -> & Ey'). congruence.
Qed.
Lemma nth_error_combine A B (l : list A) : forall (m : list B) k, nth_error (combine l m) k = match nth_error l k, nth_error m k with Some x, Some y => Some (x, y) | _, _ => None end.
Proof. induction l as [|x l IH]; intros [|y m] [|k]; cbn; try reflexivity; [destruct (nth_error l k); reflexivity|apply IH]. Qed.
Lemma rl_combine A B (l l' : list A) (m m' : list B) : rl l l' -> rl m m' -> rl (combine l m) (combine l' m').
Proof.
  intros Hl Hm. destruct (Nat.eq_dec (length (combine l m)) nf) as [E|E].
  - right. split; [exact E|]. split; [rewrite combine_length, (rl_length _ _ _ _ _ Hl), (rl_length _ _ _ _ _ Hm), <- combine_length; exact E|]. intros f Hf. rewrite !nth_error_combine, (rl_nth _ _ _ _ _ _ Hl Hf), (rl_nth _ _ _ _ _ _ Hm Hf). reflexivity.
  - left. rewrite combine_length in E. destruct Hl as [[-> ->]|(H1 & H2 & _)]; [auto|]. destruct Hm as [[-> ->]|(H3 & H4 & _)]; [|lia]. rewrite !combine_nil. auto.
Qed.
End RL.

Section Learn.
Variable O : numops.
Variable dbg : bool.
Variable cfg : config O.
Variable p : nat -> nat.
Variables d d' : data O.
Hypothesis HR : reordered_columns p d d'.
Notation nf := (d_nfeatures d).
Let Hp : forall f, f < nf -> p f < nf := proj1 HR.
Let Hinj : forall f g, f < nf -> g < nf -> p f = p g -> f = g := proj1 (proj2 HR).
Notation rl := (rl p nf).

Lemma sizes_sim sizes : hist_sizes d = Ok sizes -> exists sizes', hist_sizes d' = Ok sizes' /\ rl sizes sizes'.
Proof.
  unfold hist_sizes. rewrite (same_nf O p d d' HR). intros E. pose proof (DatasetProofs3.mapM_length _ _ _ _ _ E) as L. rewrite seq_length in L.
  assert (exists sizes', mapM (max_nbins d') (seq 0 nf) = Ok sizes') as (sizes' & E').
  { destruct (mapM_perm _ _ (max_nbins d') _ _ (p_seq p nf Hp Hinj) sizes) as (r & Er & _); [|eauto]. rewrite mapM_map. rewrite <- E. apply mapM_ext_in. intros f Hf. apply in_seq in Hf. apply (same_max O p d d' HR). lia. }
  exists sizes'. split; [exact E'|]. right. pose proof (DatasetProofs3.mapM_length _ _ _ _ _ E') as L'. rewrite seq_length in L'. split; [exact L|]. split; [exact L'|]. intros f Hf.
  assert (forall k, k < nf -> nth_error (seq 0 nf) k = Some k) as Hseq by (intros k Hk; rewrite (nth_error_nth' _ 0) by (rewrite seq_length; exact Hk); rewrite seq_nth by exact Hk; reflexivity).
  destruct (mapM_nth _ _ _ _ _ _ _ E (Hseq f Hf)) as (y & -> & Ey). destruct (mapM_nth _ _ _ _ _ _ _ E' (Hseq (p f) (Hp f Hf))) as (y' & -> & Ey'). rewrite (same_max O p d d' HR f Hf) in Ey'. congruence.
Qed.

Variables s s' : dataset O.
Hypothesis Hds : rds O p d d' s s'.
Variables sizes sizes' : list nat.
Hypothesis Hsz : rl sizes sizes'.
Variable bounds : num O * num O.
Variables sched sched' : nat -> list job -> list job.
Hypothesis Hsched : forall k js, Permutation js (sched k js).
Hypothesis Hsched' : forall k js, Permutation js (sched' k js).
Let Hin : rin O p d d' (ds_inner s) (ds_inner s') := rd_in _ _ _ _ _ _ Hds.
Notation useful := (in_useful (ds_inner s)).
Notation useful' := (in_useful (ds_inner s')).

Lemma subslice_all A (l : list A) : subslice l 0 (length l) = Ok l.
Proof. unfold subslice. cbn [Nat.leb]. rewrite Nat.leb_refl. cbn [andb]. unfold sub. rewrite Nat.sub_0_r. cbn [skipn]. rewrite firstn_all. reflexivity. Qed.
Lemma act : active_features s = Ok useful.
Proof. unfold active_features, in_active_features. rewrite (ri_all _ _ _ _ _ _ Hin). apply subslice_all. Qed.
Lemma act' : active_features s' = Ok useful'.
Proof. unfold active_features, in_active_features. rewrite (ri_nf _ _ _ _ _ _ Hin), (ri_all _ _ _ _ _ _ Hin), <- (rin_length _ _ _ _ _ _ Hin). apply subslice_all. Qed.
Lemma nbins_same f : f < nf -> get_nbins s' (p f) = get_nbins s f.
Proof. intros Hf. unfold get_nbins. apply (rl_idx p nf); [apply Hin|exact Hf]. Qed.
Lemma bitvec_same f b : f < nf -> ds_get_bitvec s' (p f) b = ds_get_bitvec s f b.
Proof. intros Hf. unfold ds_get_bitvec. rewrite (rl_idx p nf _ _ _ f (ri_bv _ _ _ _ _ _ Hin) Hf). reflexivity. Qed.
Lemma value_same f b : f < nf -> get_split_value s' (p f) b = get_split_value s f b.
Proof. intros Hf. unfold get_split_value. rewrite (ri_data _ _ _ _ _ _ Hin), (ri_data' _ _ _ _ _ _ Hin), (same_type O p d d' HR f Hf), (rl_idx p nf _ _ _ f (ri_sp _ _ _ _ _ _ Hin) Hf). reflexivity. Qed.
Lemma nact_same : nactive_examples s' = nactive_examples s. Proof. apply Hin. Qed.
Lemma useful_of g : In g useful' -> exists f, f < nf /\ g = p f /\ In f useful.
Proof. intros H. apply (Permutation_in _ (Permutation_sym (ri_useful _ _ _ _ _ _ Hin))) in H. apply in_map_iff in H as (f & <- & Hf). exists f. split; [apply (ri_lt _ _ _ _ _ _ Hin), Hf|]. auto. Qed.
Lemma useful_to f : In f useful -> In (p f) useful'.
Proof. intros H. apply (Permutation_in _ (ri_useful _ _ _ _ _ _ Hin)), in_map, H. Qed.
Lemma cand_lt f b : candidate s f b -> f < nf.
Proof. intros (fs & nb & E & H & _). rewrite act in E. apply Ok_eq in E. subst fs. apply (ri_lt _ _ _ _ _ _ Hin), H. Qed.
Lemma cand_to f b : candidate s f b -> candidate s' (p f) b.
Proof. intros HC. pose proof (cand_lt f b HC) as Hf. destruct HC as (fs & nb & E & H & En & Hb). rewrite act in E. apply Ok_eq in E. subst fs. exists useful', nb. split; [apply act'|]. split; [apply useful_to, H|]. rewrite nbins_same by exact Hf. auto. Qed.
Lemma cand_of g b : candidate s' g b -> exists f, f < nf /\ g = p f /\ candidate s f b.
Proof.
  intros (fs & nb & E & H & En & Hb). rewrite act' in E. apply Ok_eq in E. subst fs. destruct (useful_of g H) as (f & Hf & -> & Hu). exists f. split; [exact Hf|]. split; [reflexivity|]. rewrite nbins_same in En by exact Hf. exists useful, nb. split; [apply act|]. auto.
Qed.

Definition ren (j : job) : job := (p (fst j), snd j).
Lemma jobs_sim js : jobs s = Ok js -> exists js', jobs s' = Ok js' /\ Permutation (map ren js) js' /\ forall j, In j js -> fst j < nf.
Proof.
  intros E. pose proof (jobs_spec O s js E) as HJ. unfold jobs in *. rewrite act in E. rewrite act'. cbn [rbind] in *. apply rbind_ok in E as (jss & E & E0). apply Ok_eq in E0. subst js.
  assert (mapM (fun f => let* nb := get_nbins s' f in Ok (map (pair f) (seq 0 nb))) (map p useful) = Ok (map (map ren) jss)) as E1.
  { rewrite mapM_map. revert E. pose proof (ri_lt _ _ _ _ _ _ Hin) as HL. revert HL. generalize useful as l. clear HJ. induction l as [|f l IH] in jss |- *; intros HL E; cbn [mapM] in *; [apply Ok_eq in E; subst; reflexivity|].
    apply rbind_ok in E as (y & Ey & E). apply rbind_ok in E as (ys & Eys & E). apply Ok_eq in E. subst jss. rewrite (nbins_same f) by (apply HL; left; reflexivity). apply rbind_ok in Ey as (nb & -> & Ey). apply Ok_eq in Ey. subst y. cbn [rbind].
    rewrite (IH ys) by (try exact Eys; intros; apply HL; right; assumption). cbn [rbind map]. rewrite map_map. reflexivity. }
  destruct (mapM_perm _ _ _ _ _ (ri_useful _ _ _ _ _ _ Hin) _ E1) as (jss' & -> & HP). cbn [rbind]. exists (concat jss'). split; [reflexivity|]. split.
  - rewrite concat_map. apply perm_concat. exact HP.
  - intros [f b] Hj. apply HJ in Hj. apply cand_lt in Hj. exact Hj.
Qed.

Record rnode (nd nd' : node O) : Prop := {
  rn_id : nd_id nd' = nd_id nd; rn_count : nd_count nd' = nd_count nd; rn_grad : nd_grad nd' = nd_grad nd; rn_compr : nd_compr nd' = nd_compr nd; rn_hists : rl (nd_hists nd) (nd_hists nd');
  rn_idx : nd_idx nd' = nd_idx nd; rn_mask : nd_mask nd' = nd_mask nd; rn_grads : nd_grads nd' = nd_grads nd }.
Lemma grad_sum_same nd nd' fm : rnode nd nd' -> get_grad_sum cfg bounds nd' fm = get_grad_sum cfg bounds nd fm.
Proof. intros []. unfold get_grad_sum. rewrite rn_compr0, rn_mask0, rn_idx0, rn_grads0. reflexivity. Qed.
Lemma run_jobs_sim nd nd' js : rnode nd nd' -> (forall j, In j js -> fst j < nf) -> forall h h' r, rl h h' -> foldM (run_job cfg s bounds nd) js h = Ok r -> exists r', foldM (run_job cfg s' bounds nd') (map ren js) h' = Ok r' /\ rl r r'.
Proof.
  intros HN. induction js as [|j js IH]; intros HJ h h' r H E; cbn [foldM map] in *; [apply Ok_eq in E; subst; eauto|]. apply rbind_ok in E as (h1 & E1 & E). assert (fst j < nf) as Hj by (apply HJ; left; reflexivity).
  unfold run_job in E1. apply rbind_ok in E1 as (fm & Ef & E1). apply rbind_ok in E1 as (v & Ev & E1). apply rbind_ok in E1 as (hist & Eh & E1). apply rbind_ok in E1 as (hist' & Eh' & E1). destruct (rl_set p nf Hp Hinj _ _ _ _ _ _ H Hj E1) as (h1' & E1' & H1).
  assert (run_job cfg s' bounds nd' h' (ren j) = Ok h1') as ->.
  { unfold run_job, ren. cbn [fst snd]. rewrite bitvec_same, Ef by exact Hj. cbn [rbind]. rewrite (grad_sum_same _ _ _ HN), Ev. cbn [rbind]. rewrite (rl_idx p nf _ _ _ _ H Hj), Eh. cbn [rbind]. rewrite Eh'. cbn [rbind]. exact E1'. }
  cbn [rbind]. eapply IH; [intros; apply HJ; right; assumption|exact H1|exact E].
Qed.
Lemma build_sim nd nd' r : rnode nd nd' -> build_histograms cfg s bounds sched nd = Ok r -> exists r', build_histograms cfg s' bounds sched' nd' = Ok r' /\ rnode r r'.
Proof.
  intros HN E. unfold build_histograms in *. apply rbind_ok in E as (u & -> & E). cbn [rbind]. apply rbind_ok in E as (js & Ej & E). destruct (jobs_sim js Ej) as (js' & -> & HP & HJ). cbn [rbind]. apply rbind_ok in E as (h & Eh & E). apply Ok_eq in E. subst r.
  assert (foldM (run_job cfg s bounds nd) js (nd_hists nd) = Ok h) as E1 by (eapply foldM_perm; [intros; eapply run_job_comm; eassumption|apply Permutation_sym, Hsched|exact Eh]).
  destruct (run_jobs_sim nd nd' js HN HJ _ _ _ (rn_hists _ _ HN) E1) as (h' & E2 & Hh).
  assert (foldM (run_job cfg s' bounds nd') (sched' (nd_id nd') js') (nd_hists nd') = Ok h') as -> by (eapply foldM_perm; [intros; eapply run_job_comm; eassumption|etransitivity; [exact HP|apply Hsched']|exact E2]).
  cbn [rbind]. eexists. split; [reflexivity|]. destruct HN. constructor; cbn; assumption.
Qed.
Lemma alloc_sim h : alloc_hists O sizes = Ok h -> exists h', alloc_hists O sizes' = Ok h' /\ rl h h'.
Proof.
  unfold alloc_hists. rewrite (rl_sum p nf Hp Hinj _ _ Hsz). intros E. apply rbind_ok in E as (u & -> & E). apply Ok_eq in E. subst h. cbn [rbind]. eexists. split; [reflexivity|]. apply rl_map, Hsz.
Qed.
Lemma ex_sampling_same : example_sampling_enabled s' = example_sampling_enabled s.
Proof. unfold example_sampling_enabled. rewrite (rd_buf _ _ _ _ _ _ Hds). reflexivity. Qed.
Lemma active_ex_same : active_examples s' = active_examples s.
Proof. unfold active_examples. rewrite nact_same, (rd_buf _ _ _ _ _ _ Hds). reflexivity. Qed.
Lemma root_sim gradients nd : get_root_n2s cfg s sizes bounds sched gradients = Ok nd -> exists nd', get_root_n2s cfg s' sizes' bounds sched' gradients = Ok nd' /\ rnode nd nd'.
Proof.
  unfold get_root_n2s. rewrite nact_same. assert (active_examples_list s' = active_examples_list s) as -> by (unfold active_examples_list; rewrite ex_sampling_same, active_ex_same, nact_same; reflexivity).
  intros E. apply rbind_ok in E as (u & -> & E). cbn [rbind]. apply rbind_ok in E as (g0 & -> & E). cbn [rbind]. apply rbind_ok in E as (mask & -> & E). cbn [rbind]. apply rbind_ok in E as (ix & -> & E). cbn [rbind]. apply rbind_ok in E as (u2 & -> & E). cbn [rbind].
  apply rbind_ok in E as (ex & -> & E). cbn [rbind]. apply rbind_ok in E as ((gr & sum) & -> & E). cbn [rbind]. apply rbind_ok in E as (h & Eh & E). destruct (alloc_sim h Eh) as (h' & -> & Hh). cbn [rbind]. eapply build_sim; [|exact E]. constructor; cbn; try reflexivity. exact Hh.
Qed.
Lemma compress_sim pa pa' nd nd' n r : rnode pa pa' -> rnode nd nd' -> compress_examples dbg cfg pa nd n = Ok r -> exists r', compress_examples dbg cfg pa' nd' n = Ok r' /\ rnode r r'.
Proof.
  intros HP HN E. unfold compress_examples in *. assert (forall l st, foldM (compress_step dbg cfg pa') l st = foldM (compress_step dbg cfg pa) l st) as EF.
  { induction l as [|j l IH]; intros st; [reflexivity|]. cbn [foldM]. assert (compress_step dbg cfg pa' st j = compress_step dbg cfg pa st j) as -> by (unfold compress_step; rewrite (rn_idx _ _ HP), (rn_grads _ _ HP); reflexivity). destruct (compress_step dbg cfg pa st j); cbn [rbind]; try reflexivity. apply IH. }
  rewrite (rn_idx _ _ HP), (rn_mask _ _ HN). apply rbind_ok in E as (u & -> & E). cbn [rbind]. apply rbind_ok in E as (ix0 & -> & E). cbn [rbind]. apply rbind_ok in E as (g0 & -> & E). cbn [rbind]. rewrite EF. apply rbind_ok in E as ((((k & mask) & ix) & gr) & -> & E). cbn [rbind].
  apply rbind_ok in E as (u2 & -> & E). cbn [rbind]. apply rbind_ok in E as (m2 & -> & E). cbn [rbind]. apply Ok_eq in E. subst r. eexists. split; [reflexivity|]. destruct HN. constructor; cbn; try assumption; reflexivity.
Qed.

(** The split of the second run. *)
Definition rsplit (sp sp' : split O) : Prop := sp_id sp' = sp_id sp /\ sp_crit sp' = renamed_crit p (sp_crit sp) /\ (is_no_split (sp_crit sp) = true -> sp_crit sp = no_split O) /\ (is_no_split (sp_crit sp) = false -> sc_feature (sp_crit sp) < nf).
Lemma rsplit_feature sp sp' : rsplit sp sp' -> is_no_split (sp_crit sp) = false -> sc_feature (sp_crit sp') = p (sc_feature (sp_crit sp)) /\ sc_feature (sp_crit sp) < nf /\ is_no_split (sp_crit sp') = false.
Proof. intros (_ & E & _ & H) Hn. rewrite E. unfold renamed_crit. rewrite Hn. cbn [sc_feature]. split; [reflexivity|]. split; [apply H, Hn|exact Hn]. Qed.
Lemma split_examples_sim pa pa' k sp sp' f n g r : rnode pa pa' -> rsplit sp sp' -> is_no_split (sp_crit sp) = false -> split_examples dbg cfg s sizes pa k sp f n g = Ok r -> exists r', split_examples dbg cfg s' sizes' pa' k sp' f n g = Ok r' /\ rnode r r'.
Proof.
  intros HP HS Hn E. destruct (rsplit_feature _ _ HS Hn) as (EF & HF & _). unfold split_examples in *. rewrite EF, (proj1 HS), bitvec_same by exact HF. rewrite (rn_idx _ _ HP). apply rbind_ok in E as (fm & -> & E). cbn [rbind].
  apply rbind_ok in E as (h & Eh & E). destruct (alloc_sim h Eh) as (h' & -> & Hh). cbn [rbind]. apply rbind_ok in E as (m0 & -> & E). cbn [rbind].
  assert (forall l st, foldM (split_block pa' fm f) l st = foldM (split_block pa fm f) l st) as ->.
  { induction l as [|j l IH]; intros st; [reflexivity|]. cbn [foldM]. assert (split_block pa' fm f st j = split_block pa fm f st j) as -> by (unfold split_block; rewrite (rn_idx _ _ HP), (rn_mask _ _ HP); reflexivity). destruct (split_block pa fm f st j); cbn [rbind]; try reflexivity. apply IH. }
  apply rbind_ok in E as ((mask & z) & -> & E). cbn [rbind]. rewrite (rn_compr _ _ HP), (rn_grads _ _ HP). destruct (_ && _).
  - apply rbind_ok in E as (u & -> & E). cbn [rbind]. eapply compress_sim; [exact HP| |exact E]. constructor; cbn; try reflexivity. exact Hh.
  - apply Ok_eq in E. subst r. eexists. split; [reflexivity|]. constructor; cbn; try reflexivity. exact Hh.
Qed.
Lemma children_sim pa pa' sp sp' l r : rnode pa pa' -> rsplit sp sp' -> is_no_split (sp_crit sp) = false -> get_left_right_n2s dbg cfg s sizes bounds sched pa sp = Ok (l, r) ->
  exists l' r', get_left_right_n2s dbg cfg s' sizes' bounds sched' pa' sp' = Ok (l', r') /\ rnode l l' /\ rnode r r'.
Proof.
  intros HP HS Hn E. destruct (rsplit_feature _ _ HS Hn) as (EF & HF & _). unfold get_left_right_n2s in *. rewrite EF, (proj1 HS), (rl_idx p nf _ _ _ _ (rn_hists _ _ HP) HF), (rn_grad _ _ HP), (rn_count _ _ HP), (rn_id _ _ HP).
  apply rbind_ok in E as (hist & -> & E). cbn [rbind]. apply rbind_ok in E as (lv & -> & E). cbn [rbind]. apply rbind_ok in E as (rc & -> & E). cbn [rbind]. apply rbind_ok in E as (l0 & El & E). destruct (split_examples_sim _ _ _ _ _ _ _ _ _ HP HS Hn El) as (l0' & -> & Hl). cbn [rbind].
  apply rbind_ok in E as (l1 & El1 & E). destruct (build_sim _ _ _ Hl El1) as (l1' & -> & Hl1). cbn [rbind]. apply rbind_ok in E as (r0 & Er & E). destruct (split_examples_sim _ _ _ _ _ _ _ _ _ HP HS Hn Er) as (r0' & -> & Hr). cbn [rbind].
  apply rbind_ok in E as (r1 & Er1 & E). apply Ok_eq in E. injection E as <- <-. unfold derive_histograms in *. apply rbind_ok in Er1 as (h & Eh & Er1). apply Ok_eq in Er1. subst r1.
  destruct (rl_mapM p nf Hp Hinj _ _ _ _ _ _ (rl_combine p nf Hp Hinj _ _ _ _ _ _ (rn_hists _ _ HP) (rn_hists _ _ Hl1)) Eh) as (h' & Eh' & Hh). unfold hists_subtract. rewrite Eh'. cbn [rbind]. eexists. eexists. split; [reflexivity|]. split; [exact Hl1|]. destruct Hr. constructor; cbn; assumption.
Qed.

(** Choosing the split. *)
Hypothesis Hirr : forall a, nlt O a a = false.
Hypothesis Htrans : forall a b c, nlt O a b = true -> nlt O b c = true -> nlt O a c = true.
Hypothesis Hco : forall m a b c, nlt O a b = true -> nlt O m c = true -> nlt O a c = true \/ nlt O c b = true.
Lemma bin_same nd nd' f b : rnode nd nd' -> f < nf -> bin_of nd' (p f) b = bin_of nd f b.
Proof. intros H Hf. unfold bin_of. rewrite (rl_nth p nf _ _ _ _ (rn_hists _ _ H) Hf). reflexivity. Qed.
Lemma gain_same nd nd' l : rnode nd nd' -> gain cfg nd' l = gain cfg nd l.
Proof. intros H. unfold gain. rewrite (rn_grad _ _ H), (rn_count _ _ H). reflexivity. Qed.
Lemma adm_to nd nd' f b l : rnode nd nd' -> admissible cfg s nd f b l -> admissible cfg s' nd' (p f) b l.
Proof. intros H (Hc & Hb & H1 & H2). pose proof (cand_lt _ _ Hc) as Hf. split; [apply cand_to, Hc|]. rewrite (bin_same _ _ _ _ H Hf), (rn_count _ _ H). auto. Qed.
Lemma adm_of nd nd' g b l : rnode nd nd' -> admissible cfg s' nd' g b l -> exists f, f < nf /\ g = p f /\ admissible cfg s nd f b l.
Proof. intros H (Hc & Hb & H1 & H2). destruct (cand_of _ _ Hc) as (f & Hf & -> & Hc'). exists f. split; [exact Hf|]. split; [reflexivity|]. split; [exact Hc'|]. rewrite (bin_same _ _ _ _ H Hf) in Hb. rewrite (rn_count _ _ H) in H2. auto. Qed.
Lemma best_sim nd nd' sp sp' : rnode nd nd' -> (forall f b l, candidate s f b -> bin_of nd f b = Some l -> (snd l <= nd_count nd)%N) -> no_ties_at cfg s nd -> find_best_split dbg cfg s nd = Ok sp -> find_best_split dbg cfg s' nd' = Ok sp' -> rsplit sp sp'.
Proof.
  intros HN Hle HT E E'. assert (forall f b l, candidate s' f b -> bin_of nd' f b = Some l -> (snd l <= nd_count nd')%N) as Hle'.
  { intros g b l Hc Hb. destruct (cand_of _ _ Hc) as (f & Hf & -> & Hc'). rewrite (bin_same _ _ _ _ HN Hf) in Hb. rewrite (rn_count _ _ HN). eapply Hle; eassumption. }
  apply (best_first O dbg cfg s Hirr Htrans nd sp Hle) in E. apply (best_first O dbg cfg s' Hirr Htrans nd' sp' Hle') in E'.
  destruct (is_no_split (sp_crit sp)) eqn:En, (is_no_split (sp_crit sp')) eqn:En'.
  - destruct E as [-> _], E' as [-> _]. split; [reflexivity|]. split; [reflexivity|]. split; [reflexivity|discriminate].
  - exfalso. destruct E as [_ E], E' as (g & l & Ha & _ & Hm & _). destruct (adm_of _ _ _ _ _ HN Ha) as (f & _ & _ & Ha'). rewrite (gain_same _ _ _ HN) in Hm. rewrite (E _ _ _ Ha') in Hm. discriminate.
  - exfalso. destruct E' as [_ E'], E as (f & l & Ha & _ & Hm & _). apply (adm_to _ _ _ _ _ HN) in Ha. specialize (E' _ _ _ Ha). rewrite (gain_same _ _ _ HN) in E'. congruence.
  - destruct E as (f & l & Ha & Hso & Hm & Hmax & x & Hx & Hfirst), E' as (g & l' & Ha' & Hso' & Hm' & Hmax' & x' & Hx' & Hfirst'). destruct (adm_of _ _ _ _ _ HN Ha') as (f' & Hf' & -> & Ha1).
    rewrite (gain_same _ _ _ HN) in Hm', Hx'. 
    assert (f' = f) as ->.
    { destruct (Nat.eq_dec f' f) as [|Hne]; [assumption|exfalso]. destruct (HT f (sp_id sp) l f' (sp_id sp') l' (fun X => Hne (eq_sym X)) Ha Ha1 Hm Hm') as [H|H]; [rewrite (Hmax _ _ _ Ha1) in H; discriminate|].
      pose proof (Hmax' _ _ _ (adm_to _ _ _ _ _ HN Ha)) as H'. rewrite !(gain_same _ _ _ HN) in H'. congruence. }
    assert (sp_id sp' = sp_id sp) as Eid.
    { destruct (lt_eq_lt_dec (sp_id sp') (sp_id sp)) as [[H|H]|H]; [exfalso|exact H|exfalso].
      - pose proof (Hfirst _ _ H Ha1) as H1. destruct (Hco _ _ _ _ Hx Hm') as [H2|H2]; [congruence|]. pose proof (Hmax' _ _ _ (adm_to _ _ _ _ _ HN Ha)) as H'. rewrite !(gain_same _ _ _ HN) in H'. congruence.
      - pose proof (Hfirst' _ _ H (adm_to _ _ _ _ _ HN Ha)) as H1. rewrite (gain_same _ _ _ HN) in H1. destruct (Hco _ _ _ _ Hx' Hm) as [H2|H2]; [congruence|]. rewrite (Hmax _ _ _ Ha1) in H2. discriminate. }
    split; [exact Eid|]. destruct Hso as (F1 & F2 & ft & F3 & F4), Hso' as (G1 & G2 & gt & G3 & G4). rewrite Eid, value_same, F2 in G2 by exact Hf'. apply Ok_eq in G2. rewrite (ri_data' _ _ _ _ _ _ Hin), (same_type O p d d' HR f Hf') in G3. rewrite (ri_data _ _ _ _ _ _ Hin), G3 in F3. apply Ok_eq in F3. subst gt.
    split; [|split; [congruence|intros _; rewrite F1; exact Hf']]. unfold renamed_crit. rewrite En, F1, F4. destruct (sp_crit sp') as [a b c], (sp_crit sp) as [a2 b2 c2]. cbn [sc_type sc_feature sc_value] in *. congruence.
Qed.
End Learn.
