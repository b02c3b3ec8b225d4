(** Tables with extra constant columns: growing a tree. *)
From Coq Require Import Permutation.
From Verif Require Import Base BaseProofs BitModel Num DataModel BinnerModel Config TreeModel DatasetModel DatasetSpec LearnerModel LearnerSpec RouteProps LearnerProofs3 LearnerProofs4 RowProofs2 AlikeProofs ColSpec ColProofs ColProofs2 ColProofs4 WideSpec WideProofs WideProofs2.

Lemma mapM_each A B (F : A -> res B) l : (forall x, In x l -> exists y, F x = Ok y) -> exists r, mapM F l = Ok r.
Proof.
  induction l as [|x l IH]; intros H; [exists []; reflexivity|]. destruct (H x (or_introl eq_refl)) as (y & Ey). destruct IH as (r & Er); [intros z Hz; apply H; right; exact Hz|]. exists (y :: r). cbn [mapM]. rewrite Ey. cbn [rbind]. rewrite Er. reflexivity.
Qed.
Lemma nth_combine A B (l : list A) : forall (m : list B) k, nth_error (combine l m) k = match nth_error l k, nth_error m k with Some x, Some y => Some (x, y) | _, _ => None end.
Proof. induction l as [|x l IH]; intros [|y m] [|k]; cbn; try reflexivity; [destruct (nth_error l k); reflexivity|apply IH]. Qed.

Section Learn.
Variable O : numops.
Variable dbg : bool.
Variable cfg : config O.
Variable p : nat -> nat.
Variables d d' : data O.
Hypothesis HW : wider p d d'.
Hypothesis HX : extra_constant p d d'.
Hypothesis HC : same_columns p d d'.
Notation nf := (d_nfeatures d).
Notation nf' := (d_nfeatures d').
Let Hm : forall f g, f < g -> p f < p g := proj1 HW.
Let Hr : forall f, f < nf -> p f < nf' := proj1 (proj2 HW).
Notation wl := (wl p nf nf').

Lemma nth_seq0 n k : k < n -> nth_error (seq 0 n) k = Some k.
Proof. intros Hk. rewrite (nth_error_nth' _ 0) by (rewrite seq_length; exact Hk). rewrite seq_nth by exact Hk. reflexivity. Qed.
Lemma wsizes_sim sizes : hist_sizes d = Ok sizes -> exists sizes', hist_sizes d' = Ok sizes' /\ wl sizes sizes'.
Proof.
  unfold hist_sizes. intros E. pose proof (DatasetProofs3.mapM_length _ _ _ _ _ E) as L. rewrite seq_length in L.
  destruct (mapM_each _ _ (max_nbins d') (seq 0 nf')) as (sizes' & E').
  { intros g Hg. apply in_seq in Hg. destruct (img p nf g) eqn:Ei.
    - apply (img_spec p Hm) in Ei as (f & Hf & <-). rewrite (w_max O p d d' HC f Hf). destruct (mapM_nth _ _ _ _ _ _ _ E (nth_seq0 nf f Hf)) as (y & _ & Ey). exists y. exact Ey.
    - apply HX; [lia|]. intros f Hf E0. assert (img p nf g = true) by (apply (img_spec p Hm); eauto). congruence. }
  exists sizes'. split; [exact E'|]. right. pose proof (DatasetProofs3.mapM_length _ _ _ _ _ E') as L'. rewrite seq_length in L'. split; [exact L|]. split; [exact L'|]. intros f Hf.
  destruct (mapM_nth _ _ _ _ _ _ _ E (nth_seq0 _ f Hf)) as (y & -> & Ey). destruct (mapM_nth _ _ _ _ _ _ _ E' (nth_seq0 _ (p f) (Hr f Hf))) as (y' & -> & Ey'). rewrite (w_max O p d d' HC f Hf) in Ey'. congruence.
Qed.

Variables s s' : dataset O.
Hypothesis Hds : wds O p d d' s s'.
Variables sizes sizes' : list nat.
Hypothesis Hsz : wl sizes sizes'.
Variable bounds : num O * num O.
Variables sched sched' : nat -> list job -> list job.
Hypothesis Hsched : forall k js, Permutation js (sched k js).
Hypothesis Hsched' : forall k js, Permutation js (sched' k js).
Let Hin : win O p d d' (ds_inner s) (ds_inner s') := wd_in _ _ _ _ _ _ Hds.

Lemma wact fs : active_features s = Ok fs -> active_features s' = Ok (map p fs) /\ forall f, In f fs -> f < nf.
Proof.
  unfold active_features, in_active_features, subslice, sub. rewrite (wi_nf _ _ _ _ _ _ Hin), (wi_useful _ _ _ _ _ _ Hin), map_length. destruct (_ && _); [|discriminate]. intros E. apply Ok_eq in E. subst fs. cbn [skipn]. rewrite firstn_map. split; [reflexivity|].
  intros f Hf. apply (wi_lt _ _ _ _ _ _ Hin). rewrite <- (firstn_skipn (in_nactive_features (ds_inner s) - 0) (in_useful (ds_inner s))). apply in_or_app. left. exact Hf.
Qed.
Lemma wnbins f : f < nf -> get_nbins s' (p f) = get_nbins s f.
Proof. intros Hf. unfold get_nbins. apply (wl_idx p nf nf'); [apply Hin|exact Hf]. Qed.
Lemma wbitvec f b : f < nf -> ds_get_bitvec s' (p f) b = ds_get_bitvec s f b.
Proof. intros Hf. unfold ds_get_bitvec. rewrite (wl_idx p nf nf' _ _ _ f (wi_bv _ _ _ _ _ _ Hin) Hf). reflexivity. Qed.
Lemma wvalue f b : f < nf -> get_split_value s' (p f) b = get_split_value s f b.
Proof. intros Hf. unfold get_split_value. rewrite (wi_data _ _ _ _ _ _ Hin), (wi_data' _ _ _ _ _ _ Hin), (w_type O p d d' HC f Hf), (wl_idx p nf nf' _ _ _ f (wi_sp _ _ _ _ _ _ Hin) Hf). reflexivity. Qed.
Lemma wnact : nactive_examples s' = nactive_examples s. Proof. apply Hin. Qed.
Notation ren := (ren p).
Lemma wjobs js : jobs s = Ok js -> jobs s' = Ok (map ren js) /\ forall j, In j js -> fst j < nf.
Proof.
  intros E. pose proof (jobs_spec O s js E) as HJ. unfold jobs in *. apply rbind_ok in E as (fs & Ea & E). destruct (wact fs Ea) as (Ea' & HL). rewrite Ea'. cbn [rbind]. apply rbind_ok in E as (jss & E & E0). apply Ok_eq in E0. subst js. split.
  - assert (mapM (fun f => let* nb := get_nbins s' f in Ok (map (pair f) (seq 0 nb))) (map p fs) = Ok (map (map ren) jss)) as ->; [|cbn [rbind]; rewrite concat_map; reflexivity].
    rewrite mapM_map. clear HJ Ea Ea'. revert jss HL E. induction fs as [|f l IH]; intros jss HL E; cbn [mapM] in *; [apply Ok_eq in E; subst; reflexivity|].
    apply rbind_ok in E as (y & Ey & E). apply rbind_ok in E as (ys & Eys & E). apply Ok_eq in E. subst jss. rewrite (wnbins f) by (apply HL; left; reflexivity). apply rbind_ok in Ey as (nb & -> & Ey). apply Ok_eq in Ey. subst y. cbn [rbind].
    rewrite (IH ys) by (try exact Eys; intros; apply HL; right; assumption). cbn [rbind map]. rewrite map_map. reflexivity.
  - intros [f b] Hj. apply HJ in Hj as (fs0 & nb & E1 & H1 & _). rewrite Ea in E1. apply Ok_eq in E1. subst fs0. apply HL, H1.
Qed.

(** Histograms: those of the extra features stay empty. *)
Definition empty_bins (h : list (list (histval O))) : Prop := forall g x, img p nf g = false -> nth_error h g = Some x -> Forall (fun v : histval O => snd v = 0%N) x.
Definition whl (h h' : list (list (histval O))) : Prop := wl h h' /\ empty_bins h'.
Record wnode (nd nd' : node O) : Prop := {
  wn_id : nd_id nd' = nd_id nd; wn_count : nd_count nd' = nd_count nd; wn_grad : nd_grad nd' = nd_grad nd; wn_compr : nd_compr nd' = nd_compr nd; wn_hists : whl (nd_hists nd) (nd_hists nd');
  wn_idx : nd_idx nd' = nd_idx nd; wn_mask : nd_mask nd' = nd_mask nd; wn_grads : nd_grads nd' = nd_grads nd }.
Lemma wgrad_sum nd nd' fm : wnode nd nd' -> get_grad_sum cfg bounds nd' fm = get_grad_sum cfg bounds nd fm.
Proof. intros []. unfold get_grad_sum. rewrite wn_compr0, wn_mask0, wn_idx0, wn_grads0. reflexivity. Qed.
Lemma whl_set h h' f x r : whl h h' -> f < nf -> set_idx h f x = Ok r -> exists r', set_idx h' (p f) x = Ok r' /\ whl r r'.
Proof.
  intros [H HE] Hf E. destruct (wl_set p Hm nf nf' Hr _ _ _ _ _ _ H Hf E) as (r' & E' & H'). exists r'. split; [exact E'|]. split; [exact H'|]. apply set_idx_ok in E' as [_ ->]. intros g y Hg Ey. rewrite nth_error_upd in Ey.
  destruct (Nat.eqb_spec (p f) g) as [<-|Hne]; [assert (img p nf (p f) = true) by (apply (img_spec p Hm); eauto); congruence|]. cbn [andb] in Ey. eapply HE; eassumption.
Qed.
Lemma wrun_jobs nd nd' js : wnode nd nd' -> (forall j, In j js -> fst j < nf) -> forall h h' r, whl h h' -> foldM (run_job cfg s bounds nd) js h = Ok r -> exists r', foldM (run_job cfg s' bounds nd') (map ren js) h' = Ok r' /\ whl r r'.
Proof.
  intros HN. induction js as [|j js IH]; intros HJ h h' r H E; cbn [foldM map] in *; [apply Ok_eq in E; subst; eauto|]. apply rbind_ok in E as (h1 & E1 & E). assert (fst j < nf) as Hj by (apply HJ; left; reflexivity).
  unfold run_job in E1. apply rbind_ok in E1 as (fm & Ef & E1). apply rbind_ok in E1 as (v & Ev & E1). apply rbind_ok in E1 as (hist & Eh & E1). apply rbind_ok in E1 as (hist' & Eh' & E1). destruct (whl_set _ _ _ _ _ H Hj E1) as (h1' & E1' & H1).
  assert (run_job cfg s' bounds nd' h' (ren j) = Ok h1') as ->.
  { unfold run_job, ColProofs4.ren. cbn [fst snd]. rewrite wbitvec, Ef by exact Hj. cbn [rbind]. rewrite (wgrad_sum _ _ _ HN), Ev. cbn [rbind]. rewrite (wl_idx p nf nf' _ _ _ _ (proj1 H) Hj), Eh. cbn [rbind]. rewrite Eh'. cbn [rbind]. exact E1'. }
  cbn [rbind]. eapply IH; [intros; apply HJ; right; assumption|exact H1|exact E].
Qed.
Lemma wbuild nd nd' r : wnode nd nd' -> build_histograms cfg s bounds sched nd = Ok r -> exists r', build_histograms cfg s' bounds sched' nd' = Ok r' /\ wnode r r'.
Proof.
  intros HN E. unfold build_histograms in *. apply rbind_ok in E as (u & -> & E). cbn [rbind]. apply rbind_ok in E as (js & Ej & E). destruct (wjobs js Ej) as (-> & HJ). cbn [rbind]. apply rbind_ok in E as (h & Eh & E). apply Ok_eq in E. subst r.
  assert (foldM (run_job cfg s bounds nd) js (nd_hists nd) = Ok h) as E1 by (eapply foldM_perm; [intros; eapply run_job_comm; eassumption|apply Permutation_sym, Hsched|exact Eh]).
  destruct (wrun_jobs nd nd' js HN HJ _ _ _ (wn_hists _ _ HN) E1) as (h' & E2 & Hh).
  assert (foldM (run_job cfg s' bounds nd') (sched' (nd_id nd') (map ren js)) (nd_hists nd') = Ok h') as -> by (eapply foldM_perm; [intros; eapply run_job_comm; eassumption|apply Hsched'|exact E2]).
  cbn [rbind]. eexists. split; [reflexivity|]. destruct HN. constructor; cbn; assumption.
Qed.
Lemma sum_pos (l : list nat) : 0 < list_sum l <-> exists k x, nth_error l k = Some x /\ 0 < x.
Proof.
  split.
  - induction l as [|a l IH]; unfold list_sum in *; cbn [fold_right] in *; [lia|]. intros H. destruct a as [|a]; [destruct IH as (k & x & E & Hx); [lia|exists (S k), x; auto]|exists 0, (S a); split; [reflexivity|lia]].
  - intros (k & x & E & Hx). revert k E. induction l as [|a l IH]; intros [|k] E; cbn in E; try discriminate; unfold list_sum in *; cbn [fold_right]; [injection E as ->; lia|]. specialize (IH k E). lia.
Qed.
Lemma walloc h : alloc_hists O sizes = Ok h -> exists h', alloc_hists O sizes' = Ok h' /\ whl h h'.
Proof.
  unfold alloc_hists. intros E. apply rbind_ok in E as (u & Ea & E). apply Ok_eq in E. subst h. unfold rassert in Ea. destruct (Nat.ltb_spec 0 (list_sum sizes)) as [Hs|]; [|discriminate].
  assert (0 < list_sum sizes') as Hs'. { apply sum_pos in Hs as (k & x & E & Hx). apply sum_pos. destruct Hsz as [[Hn _]|(L & _ & H)]; [rewrite Hn in E; destruct k; discriminate|]. assert (k < nf) as Hk by (rewrite <- L; apply nth_error_Some; congruence). exists (p k), x. rewrite H by exact Hk. auto. }
  apply Nat.ltb_lt in Hs'. rewrite Hs'. cbn [rassert rbind]. eexists. split; [reflexivity|]. split; [apply wl_map, Hsz|]. intros g x _ Eg. rewrite nth_error_map in Eg. destruct (nth_error sizes' g) as [n|]; [|discriminate]. injection Eg as <-. apply Forall_forall. intros v Hv. apply repeat_spec in Hv. subst v. reflexivity.
Qed.
Lemma wex_sampling : example_sampling_enabled s' = example_sampling_enabled s.
Proof. unfold example_sampling_enabled. rewrite (wd_buf _ _ _ _ _ _ Hds). reflexivity. Qed.
Lemma wactive_ex : active_examples s' = active_examples s.
Proof. unfold active_examples. rewrite wnact, (wd_buf _ _ _ _ _ _ Hds). reflexivity. Qed.
Lemma wroot gradients nd : get_root_n2s cfg s sizes bounds sched gradients = Ok nd -> exists nd', get_root_n2s cfg s' sizes' bounds sched' gradients = Ok nd' /\ wnode nd nd'.
Proof.
  unfold get_root_n2s. rewrite wnact. assert (active_examples_list s' = active_examples_list s) as -> by (unfold active_examples_list; rewrite wex_sampling, wactive_ex, wnact; reflexivity).
  intros E. apply rbind_ok in E as (u & -> & E). cbn [rbind]. apply rbind_ok in E as (g0 & -> & E). cbn [rbind]. apply rbind_ok in E as (mask & -> & E). cbn [rbind]. apply rbind_ok in E as (ix & -> & E). cbn [rbind]. apply rbind_ok in E as (u2 & -> & E). cbn [rbind].
  apply rbind_ok in E as (ex & -> & E). cbn [rbind]. apply rbind_ok in E as ((gr & sum) & -> & E). cbn [rbind]. apply rbind_ok in E as (h & Eh & E). destruct (walloc h Eh) as (h' & -> & Hh). cbn [rbind]. eapply wbuild; [|exact E]. constructor; cbn; try reflexivity. exact Hh.
Qed.
Lemma wcompress pa pa' nd nd' n r : wnode pa pa' -> wnode nd nd' -> compress_examples dbg cfg pa nd n = Ok r -> exists r', compress_examples dbg cfg pa' nd' n = Ok r' /\ wnode r r'.
Proof.
  intros HP HN E. unfold compress_examples in *. assert (forall l st, foldM (compress_step dbg cfg pa') l st = foldM (compress_step dbg cfg pa) l st) as EF.
  { induction l as [|j l IH]; intros st; [reflexivity|]. cbn [foldM]. assert (compress_step dbg cfg pa' st j = compress_step dbg cfg pa st j) as -> by (unfold compress_step; rewrite (wn_idx _ _ HP), (wn_grads _ _ HP); reflexivity). destruct (compress_step dbg cfg pa st j); cbn [rbind]; try reflexivity. apply IH. }
  rewrite (wn_idx _ _ HP), (wn_mask _ _ HN). apply rbind_ok in E as (u & -> & E). cbn [rbind]. apply rbind_ok in E as (ix0 & -> & E). cbn [rbind]. apply rbind_ok in E as (g0 & -> & E). cbn [rbind]. rewrite EF. apply rbind_ok in E as ((((k & mask) & ix) & gr) & -> & E). cbn [rbind].
  apply rbind_ok in E as (u2 & -> & E). cbn [rbind]. apply rbind_ok in E as (m2 & -> & E). cbn [rbind]. apply Ok_eq in E. subst r. eexists. split; [reflexivity|]. destruct HN. constructor; cbn; try assumption; reflexivity.
Qed.

(** The split of the second run. *)
Notation wsplit := (rsplit O p d).
Lemma wsplit_examples pa pa' k sp sp' f n g r : wnode pa pa' -> wsplit sp sp' -> is_no_split (sp_crit sp) = false -> split_examples dbg cfg s sizes pa k sp f n g = Ok r -> exists r', split_examples dbg cfg s' sizes' pa' k sp' f n g = Ok r' /\ wnode r r'.
Proof.
  intros HP HS Hn E. destruct (rsplit_feature O p d _ _ HS Hn) as (EF & HF & _). unfold split_examples in *. rewrite EF, (proj1 HS), wbitvec by exact HF. rewrite (wn_idx _ _ HP). apply rbind_ok in E as (fm & -> & E). cbn [rbind].
  apply rbind_ok in E as (h & Eh & E). destruct (walloc h Eh) as (h' & -> & Hh). cbn [rbind]. apply rbind_ok in E as (m0 & -> & E). cbn [rbind].
  assert (forall l st, foldM (split_block pa' fm f) l st = foldM (split_block pa fm f) l st) as ->.
  { induction l as [|j l IH]; intros st; [reflexivity|]. cbn [foldM]. assert (split_block pa' fm f st j = split_block pa fm f st j) as -> by (unfold split_block; rewrite (wn_idx _ _ HP), (wn_mask _ _ HP); reflexivity). destruct (split_block pa fm f st j); cbn [rbind]; try reflexivity. apply IH. }
  apply rbind_ok in E as ((mask & z) & -> & E). cbn [rbind]. rewrite (wn_compr _ _ HP), (wn_grads _ _ HP). destruct (_ && _).
  - apply rbind_ok in E as (u & -> & E). cbn [rbind]. eapply wcompress; [exact HP| |exact E]. constructor; cbn; try reflexivity. exact Hh.
  - apply Ok_eq in E. subst r. eexists. split; [reflexivity|]. constructor; cbn; try reflexivity. exact Hh.
Qed.
Lemma zero_sub (a b : list (histval O)) : Forall (fun v => snd v = 0%N) a -> Forall (fun v => snd v = 0%N) b -> exists r, mapM (fun x : histval O * histval O => hv_sub O dbg (fst x) (snd x)) (combine a b) = Ok r /\ Forall (fun v : histval O => snd v = 0%N) r.
Proof.
  intros Ha. revert b. induction Ha as [|x a Hx _ IH]; intros b Hb; [exists []; split; [reflexivity|constructor]|]. destruct Hb as [|y b Hy Hb]; [exists []; split; [reflexivity|constructor]|]. destruct (IH b Hb) as (r & Er & HF).
  cbn [combine mapM fst snd]. unfold hv_sub at 1. rewrite Hx, Hy. cbn [u32_sub]. change (u32_sub dbg 0 0) with (Ok 0%N : res N). cbn [rbind]. rewrite Er. cbn [rbind]. eexists. split; [reflexivity|]. constructor; [reflexivity|exact HF].
Qed.
Lemma wsubtract a a' b b' h : whl a a' -> whl b b' -> hists_subtract dbg a b = Ok h -> exists h', hists_subtract dbg a' b' = Ok h' /\ whl h h'.
Proof.
  intros [Ha Za] [Hb Zb] E. unfold hists_subtract in *. set (F := fun pl : list (histval O) * list (histval O) => mapM (fun x : histval O * histval O => hv_sub O dbg (fst x) (snd x)) (combine (fst pl) (snd pl))) in *.
  pose proof (DatasetProofs3.mapM_length _ _ _ _ _ E) as L.
  assert (forall f x y, f < nf -> nth_error a' (p f) = Some x -> nth_error b' (p f) = Some y -> nth_error (combine a b) f = Some (x, y)) as Hcomb by (intros f x y Hf Ex Ey; rewrite nth_combine, <- (wl_nth _ _ _ _ _ _ _ Ha Hf), <- (wl_nth _ _ _ _ _ _ _ Hb Hf), Ex, Ey; reflexivity).
  assert (forall g z, nth_error (combine a' b') g = Some z -> exists r, F z = Ok r /\ (img p nf g = false -> Forall (fun v : histval O => snd v = 0%N) r) /\ (forall f, f < nf -> g = p f -> nth_error h f = Some r)) as Hall.
  { intros g z Ez. rewrite nth_combine in Ez. destruct (nth_error a' g) as [x|] eqn:Ex; [|discriminate]. destruct (nth_error b' g) as [y|] eqn:Ey; [|discriminate]. injection Ez as <-. destruct (img p nf g) eqn:Ei.
    - apply (img_spec p Hm) in Ei as (f & Hf & <-). destruct (mapM_nth _ _ _ _ _ _ _ E (Hcomb f x y Hf Ex Ey)) as (r & Er & EF). exists r. split; [exact EF|]. split; [discriminate|]. intros f2 Hf2 E2. apply (p_inj p Hm) in E2. subst f2. exact Er.
    - destruct (zero_sub x y (Za _ _ Ei Ex) (Zb _ _ Ei Ey)) as (r & Er & HF). exists r. split; [exact Er|]. split; [auto|]. intros f Hf ->. assert (img p nf (p f) = true) by (apply (img_spec p Hm); eauto). congruence. }
  destruct (mapM_each _ _ F (combine a' b')) as (h' & E'). { intros z Hz. apply In_nth_error in Hz as (g & Eg). destruct (Hall g z Eg) as (r & Er & _). eauto. }
  exists h'. split; [exact E'|]. pose proof (DatasetProofs3.mapM_length _ _ _ _ _ E') as L'. split.
  - destruct Ha as [[-> ->]|(A1 & A2 & A3)]; [left; cbn in *; apply Ok_eq in E, E'; auto|]. destruct Hb as [[-> ->]|(B1 & B2 & B3)]; [left; rewrite combine_nil in *; cbn in *; apply Ok_eq in E, E'; auto|].
    rewrite combine_length in L, L'. right. split; [lia|]. split; [lia|]. intros f Hf. pose proof (Hr f Hf) as Hf'. destruct (nth_error (combine a' b') (p f)) as [z|] eqn:Ez; [|apply nth_error_None in Ez; rewrite combine_length in Ez; lia].
    destruct (Hall _ _ Ez) as (r & Er & _ & Hh). destruct (mapM_nth _ _ _ _ _ _ _ E' Ez) as (r' & -> & Er'). rewrite (Hh f Hf eq_refl). congruence.
  - intros g x Hg Ex. assert (g < length (combine a' b')) as Hl by (rewrite <- L'; apply nth_error_Some; congruence). apply nth_error_Some in Hl. destruct (nth_error (combine a' b') g) as [z|] eqn:Ez; [|contradiction].
    destruct (Hall _ _ Ez) as (r & Er & HF & _). destruct (mapM_nth _ _ _ _ _ _ _ E' Ez) as (r' & Er1 & Er2). assert (r' = r) by congruence. assert (r' = x) by congruence. subst. apply HF, Hg.
Qed.
Lemma wchildren pa pa' sp sp' l r : wnode pa pa' -> wsplit sp sp' -> is_no_split (sp_crit sp) = false -> get_left_right_n2s dbg cfg s sizes bounds sched pa sp = Ok (l, r) ->
  exists l' r', get_left_right_n2s dbg cfg s' sizes' bounds sched' pa' sp' = Ok (l', r') /\ wnode l l' /\ wnode r r'.
Proof.
  intros HP HS Hn E. destruct (rsplit_feature O p d _ _ HS Hn) as (EF & HF & _). unfold get_left_right_n2s in *. rewrite EF, (proj1 HS), (wl_idx p nf nf' _ _ _ _ (proj1 (wn_hists _ _ HP)) HF), (wn_grad _ _ HP), (wn_count _ _ HP), (wn_id _ _ HP).
  apply rbind_ok in E as (hist & -> & E). cbn [rbind]. apply rbind_ok in E as (lv & -> & E). cbn [rbind]. apply rbind_ok in E as (rc & -> & E). cbn [rbind]. apply rbind_ok in E as (l0 & El & E). destruct (wsplit_examples _ _ _ _ _ _ _ _ _ HP HS Hn El) as (l0' & -> & Hl). cbn [rbind].
  apply rbind_ok in E as (l1 & El1 & E). destruct (wbuild _ _ _ Hl El1) as (l1' & -> & Hl1). cbn [rbind]. apply rbind_ok in E as (r0 & Er & E). destruct (wsplit_examples _ _ _ _ _ _ _ _ _ HP HS Hn Er) as (r0' & -> & Hr0). cbn [rbind].
  apply rbind_ok in E as (r1 & Er1 & E). apply Ok_eq in E. injection E as <- <-. unfold derive_histograms in *. apply rbind_ok in Er1 as (h & Eh & Er1). apply Ok_eq in Er1. subst r1.
  destruct (wsubtract _ _ _ _ _ (wn_hists _ _ HP) (wn_hists _ _ Hl1) Eh) as (h' & Eh' & Hh). rewrite Eh'. cbn [rbind]. eexists. eexists. split; [reflexivity|]. split; [exact Hl1|]. destruct Hr0. constructor; cbn; assumption.
Qed.

(** Choosing the split: the same search. *)
Definition wst (st st' : num O * split O) : Prop := fst st' = fst st /\ wsplit (snd st) (snd st').
Lemma wstep nd nd' f hist b st st' r : wnode nd nd' -> f < nf -> wst st st' -> split_step dbg cfg s nd f hist st b = Ok r -> exists r', split_step dbg cfg s' nd' (p f) hist st' b = Ok r' /\ wst r r'.
Proof.
  intros HN Hf [H1 H2] E. unfold split_step in *. rewrite (wn_grad _ _ HN), (wn_count _ _ HN). apply rbind_ok in E as (l & -> & E). cbn [rbind]. apply rbind_ok in E as (rc & -> & E). cbn [rbind]. destruct (_ || _); [apply Ok_eq in E; subst r; eexists; split; [reflexivity|split; assumption]|].
  cbv zeta in *. rewrite H1. destruct (nlt O (fst st) _); [|apply Ok_eq in E; subst r; eexists; split; [reflexivity|split; assumption]]. apply rbind_ok in E as (c & Ec & E). apply Ok_eq in E. subst r. unfold make_crit in *. rewrite wvalue by exact Hf.
  apply rbind_ok in Ec as (v & -> & Ec). cbn [rbind]. rewrite (wi_data' _ _ _ _ _ _ Hin), (w_type O p d d' HC f Hf). rewrite (wi_data _ _ _ _ _ _ Hin) in Ec. apply rbind_ok in Ec as (ft & -> & Ec). cbn [rbind]. apply Ok_eq in Ec. subst c. eexists. split; [reflexivity|].
  split; [reflexivity|]. cbn [snd]. split; [reflexivity|]. cbn [sp_crit]. unfold renamed_crit, is_no_split. cbn [sc_type sc_feature sc_value]. destruct ft; (split; [reflexivity|split; [discriminate|intros _; exact Hf]]).
Qed.
Lemma wbest nd nd' sp : wnode nd nd' -> find_best_split dbg cfg s nd = Ok sp -> exists sp', find_best_split dbg cfg s' nd' = Ok sp' /\ wsplit sp sp'.
Proof.
  intros HN E. unfold find_best_split in *. apply rbind_ok in E as (fs & Ea & E). destruct (wact fs Ea) as (-> & HL). cbn [rbind]. apply rbind_ok in E as (st & E & E0). apply Ok_eq in E0. subst sp.
  assert (wst (c_min_gain cfg, split_none O) (c_min_gain cfg, split_none O)) as H0 by (split; [reflexivity|]; split; [reflexivity|]; split; [reflexivity|]; split; [reflexivity|discriminate]).
  set (F := fun st f => let* hist := idx (nd_hists nd) f in let* nb := get_nbins s f in foldM (split_step dbg cfg s nd f hist) (seq 0 nb) st) in E.
  set (F' := fun st f => let* hist := idx (nd_hists nd') f in let* nb := get_nbins s' f in foldM (split_step dbg cfg s' nd' f hist) (seq 0 nb) st).
  assert (forall a a' st, wst a a' -> foldM F fs a = Ok st -> exists st', foldM F' (map p fs) a' = Ok st' /\ wst st st') as HF.
  { clear E Ea st H0. induction fs as [|f fs IH]; intros a a' st H0 E; cbn [foldM map] in *; [apply Ok_eq in E; subst; eauto|].
    assert (f < nf) as Hf by (apply HL; left; reflexivity). apply rbind_ok in E as (a1 & E1 & E). unfold F in E1. unfold F' at 1. rewrite (wl_idx p nf nf' _ _ _ _ (proj1 (wn_hists _ _ HN)) Hf), (wnbins f Hf). apply rbind_ok in E1 as (hist & -> & E1). cbn [rbind]. apply rbind_ok in E1 as (nb & -> & E1). cbn [rbind].
    assert (exists a1', foldM (split_step dbg cfg s' nd' (p f) hist) (seq 0 nb) a' = Ok a1' /\ wst a1 a1') as (a1' & -> & H1).
    { clear E IH. revert a a' H0 E1. generalize (seq 0 nb). induction l as [|b l IHl]; intros a a' H0 E1; cbn [foldM] in *; [apply Ok_eq in E1; subst; eauto|]. apply rbind_ok in E1 as (a2 & E2 & E1). destruct (wstep _ _ _ _ _ _ _ _ HN Hf H0 E2) as (a2' & -> & H2). cbn [rbind]. eapply IHl; eassumption. }
    cbn [rbind]. eapply IH; [intros; apply HL; right; assumption|exact H1|exact E]. }
  destruct (HF _ _ _ H0 E) as (st' & E' & H). change (exists sp', (let* st0 := foldM F' (map p fs) (c_min_gain cfg, split_none O) in Ok (snd st0)) = Ok sp' /\ wsplit (snd st) sp'). rewrite E'. cbn [rbind]. eexists. split; [reflexivity|]. apply H.
Qed.
End Learn.
