(** Low-cardinality columns with unused codes: growing a tree. *)
From Coq Require Import Permutation Sorted.
From Verif Require Import Base BaseProofs BitModel SimdModel Num DataModel BinnerModel Config TreeModel DatasetModel DatasetSpec LearnerModel LearnerSpec RouteProps LearnerProofs3 LearnerProofs4 RowProofs2 AlikeProofs ColSpec ColProofs ColProofs2 ColProofs4 WideProofs WideProofs3 DupProofs DupProofs2 GapSpec GapProofs.

(** Counting with an empty set. *)
Lemma le_decode_zeros k : le_decode (repeat 0%N k) = 0%N.
Proof. induction k as [|k IH]; cbn [repeat le_decode]; [reflexivity|]. rewrite IH. reflexivity. Qed.
Lemma sub_zeros n i j : sub (repeat 0%N n) i j = repeat 0%N (Nat.min (j - i) (n - i)).
Proof.
  unfold sub. assert (forall k n0, skipn k (repeat 0%N n0) = repeat 0%N (n0 - k)) as Hs by (induction k as [|k IH]; intros [|n0]; cbn; auto). rewrite Hs. generalize (n - i). generalize (j - i). induction n0 as [|a IH]; intros [|b]; cbn; try reflexivity. rewrite IH. reflexivity.
Qed.
Lemma bytes_zeros L : bytes_of (repeat bb_zeros L) = repeat 0%N (L * 32).
Proof. unfold bytes_of. induction L as [|L IH]; [reflexivity|]. cbn [repeat concat Nat.mul]. rewrite IH, repeat_app. reflexivity. Qed.
Lemma bytes_okv L y : okv L y -> length (bytes_of y) = L * 32.
Proof. intros [<- H]. unfold bytes_of. induction H as [|b y Hb _ IH]; [reflexivity|]. cbn [concat length Nat.mul]. rewrite app_length, Hb, IH. reflexivity. Qed.
Lemma rd_zero k i L y x : okv L y -> rd_uc k (bytes_of y) i = Ok x -> rd_uc k (bytes_of (repeat bb_zeros L)) i = Ok 0%N.
Proof.
  intros Hy E. unfold rd_uc in *. rewrite (bytes_okv _ _ (okv_zeros L)). rewrite (bytes_okv _ _ Hy) in E. destruct (i <? L * 32 / k); [|discriminate]. f_equal. unfold word. rewrite bytes_zeros, sub_zeros. apply le_decode_zeros.
Qed.
Lemma of_lanes_zeros w k : of_lanes w (repeat 0%N k) = 0%N.
Proof. induction k as [|k IH]; cbn [repeat of_lanes]; [reflexivity|]. rewrite IH. rewrite ?N.shiftl_0_l, ?N.land_0_l, ?N.mul_0_r. reflexivity. Qed.
Lemma mapM_zero A (ld ld' : A -> res N) l : (forall i x, ld i = Ok x -> ld' i = Ok 0%N) -> forall r, mapM ld l = Ok r -> mapM ld' l = Ok (repeat 0%N (length l)).
Proof.
  intros H. induction l as [|a l IH]; intros r E; cbn [mapM length repeat] in *; [reflexivity|]. apply rbind_ok in E as (x & Ex & E). apply rbind_ok in E as (y & Ey & _). rewrite (H _ _ Ex). cbn [rbind]. rewrite (IH _ Ey). reflexivity.
Qed.
Lemma gather_zero k ix L y x : okv L y -> gather k (bytes_of y) ix = Ok x -> gather k (bytes_of (repeat bb_zeros L)) ix = Ok 0%N.
Proof.
  intros Hy E. unfold gather in *. apply rbind_ok in E as (ls & E & _). assert (forall i z, gather1 (bytes_of y) (lane 32 ix i) = Ok z -> gather1 (bytes_of (repeat bb_zeros L)) (lane 32 ix i) = Ok 0%N) as H1 by (intros i z Ez; unfold gather1 in *; destruct (_ <? _)%N; [eapply rd_zero; eassumption|discriminate Ez]).
  rewrite (mapM_zero _ (fun i => gather1 (bytes_of y) (lane 32 ix i)) (fun i => gather1 (bytes_of (repeat bb_zeros L)) (lane 32 ix i)) _ H1 _ E). cbn [rbind]. rewrite of_lanes_zeros. reflexivity.
Qed.
Lemma hs_zero (ld ld' : nat -> res N) n c : (forall i x, ld i = Ok x -> ld' i = Ok 0%N) -> harley_seal 64 4 add_epi64 reduce64_1 ld n = Ok c -> harley_seal 64 4 add_epi64 reduce64_1 ld' n = Ok 0%N.
Proof.
  intros H E. unfold harley_seal in *. apply rbind_ok in E as (s & Es & E). apply rbind_ok in E as (t & Et & _).
  assert (hs_aux (vcount 64 4) add_epi64 ld' n = Ok hs_init) as ->.
  { unfold hs_aux in *. revert Es. generalize hs_init at 1. generalize (seq 0 ((n - n mod 16) / 16)). induction l as [|k l IH]; intros h Es; cbn [foldM] in *; [reflexivity|]. apply rbind_ok in Es as (h1 & E1 & Es). apply rbind_ok in E1 as (rs & Er & _). rewrite (mapM_zero _ _ ld' _ H _ Er). cbn [rbind]. rewrite seq_length.
    assert (hs_step (vcount 64 4) add_epi64 (fun j => nth j (repeat 0%N 16) 0%N) hs_init = hs_init) as -> by (vm_compute; reflexivity). eapply IH, Es. }
  cbn [rbind].
  match goal with |- context [foldM _ _ ?t0] => assert (t0 = 0%N) as -> by (vm_compute; reflexivity) end.
  match goal with |- (let* total := foldM ?F ?l 0%N in _) = _ => assert (foldM F l 0%N = Ok 0%N) as -> end; [|vm_compute; reflexivity].
  revert Et. match goal with |- foldM _ _ ?t0 = _ -> _ => generalize t0 end. generalize (seq (n - n mod 16) (n mod 16)). induction l as [|k l IH]; intros t0 Et; cbn [foldM] in *; [reflexivity|]. apply rbind_ok in Et as (t1 & E1 & Et). apply rbind_ok in E1 as (x & Ex & _). rewrite (H _ _ Ex). cbn [rbind].
  assert (vadd 64 4 0 (vcount 64 4 0) = 0%N) as -> by (vm_compute; reflexivity). eapply IH, Et.
Qed.
Lemma count_zero L a y c : okv L y -> bitvec_count_and_uc a y = Ok c -> bitvec_count_and_uc a (repeat bb_zeros L) = Ok 0%N.
Proof.
  intros Hy E. unfold bitvec_count_and_uc, harvey_seal_64 in *. rewrite repeat_length. destruct Hy as [HL Hy]. rewrite HL in E. eapply hs_zero; [|exact E]. intros i x Ex. unfold load_and in *. apply rbind_ok in Ex as (u & -> & Ex). apply rbind_ok in Ex as (v & Ev & _). cbn [rbind].
  unfold ld256 in *. rewrite (rd_zero _ _ L y _ (conj HL Hy) Ev). cbn [rbind]. rewrite N.land_0_r. reflexivity.
Qed.
Lemma count_zero_c L a ix y c : okv L y -> bitvec_count_and_c a ix y = Ok c -> bitvec_count_and_c a ix (repeat bb_zeros L) = Ok 0%N.
Proof.
  intros Hy E. unfold bitvec_count_and_c, harvey_seal_64 in *. eapply hs_zero; [|exact E]. intros i x Ex. unfold load_and_c in *. apply rbind_ok in Ex as (u & -> & Ex). apply rbind_ok in Ex as (v & -> & Ex). apply rbind_ok in Ex as (w & Ew & _). cbn [rbind].
  rewrite (gather_zero _ _ L y _ Hy Ew). cbn [rbind]. rewrite N.land_0_r. reflexivity.
Qed.
Lemma grad_sum_zero O (cfg : config O) bounds (nd : node O) L y v : (0 < c_min_examples_leaf cfg)%N -> okv L y -> get_grad_sum cfg bounds nd y = Ok v -> get_grad_sum cfg bounds nd (repeat bb_zeros L) = Ok (nofZ O 0, 0%N).
Proof.
  intros Hmin Hy E. unfold get_grad_sum in *. apply rbind_ok in E as (c & Ec & _).
  assert ((if nd_compr nd then bitvec_count_and_c (nd_mask nd) (nd_idx nd) (repeat bb_zeros L) else count_ones_and (nd_mask nd) (repeat bb_zeros L)) = Ok 0%N) as ->.
  { destruct (nd_compr nd); [eapply count_zero_c; eassumption|]. unfold count_ones_and in *. eapply count_zero; eassumption. }
  cbn [rbind]. change (0 mod 4294967296)%N with 0%N. apply N.ltb_lt in Hmin. cbv zeta. rewrite Hmin. reflexivity.
Qed.
Lemma list_sum_pos (l : list nat) : 0 < list_sum l <-> exists k x, nth_error l k = Some x /\ 0 < x.
Proof.
  split.
  - induction l as [|a l IH]; unfold list_sum in *; cbn [fold_right] in *; [lia|]. intros H. destruct a as [|a]; [destruct IH as (k & x & E & Hx); [lia|exists (S k), x; auto]|exists 0, (S a); split; [reflexivity|lia]].
  - intros (k & x & E & Hx). revert k E. induction l as [|a l IH]; intros [|k] E; cbn in E; try discriminate; unfold list_sum in *; cbn [fold_right]; [injection E as ->; lia|]. specialize (IH k E). lia.
Qed.

Section Learn.
Variable O : numops.
Variable dbg : bool.
Variable cfg : config O.
Variable m : nat -> nat -> nat.
Variables d d' : data O.
Hypothesis HD : renumbered m d d'.
Hypothesis Hcodes : forall f n' c, feat_type_of d' f = Ok LoCardCat -> feat_card d' f = Ok n' -> c < n' -> into_cat (nofnat O c) = c.
Hypothesis Hmin : (0 < c_min_examples_leaf cfg)%N.
Notation nf := (d_nfeatures d).
Variable sel : nat -> bool.
Hypothesis Hsel : forall f, f < nf -> if sel f then same_column m d d' f else exists n n', renumbered_column m d d' f n n'.
Notation plain := (plain O d sel).
Notation gapped := (gapped O m d d' sel).
Notation per := (per O m d d' sel).
Let Gcases := g_cases O m d d' sel Hsel.
Let Gsame := plain_same O m d d' Hcodes sel Hsel.
Let Gmax := g_max O m d d' HD Hcodes sel Hsel.
Let Gthree := g_three O m d d' Hcodes sel Hsel.
Let Ginj := g_inj O m d d' Hcodes sel Hsel.
Let Gin := g_in O m d d' sel.
Let Gtype := g_type O m d d' HD.
Let Gmaxs := g_max_same O m d d' HD.

Notation zero_count := (fun x : histval O => snd x = 0%N).
Definition gsizes (l l' : list nat) : Prop := forall f, per f (fun n n' x x' => x = n /\ x' = n') (nth_error l f) (nth_error l' f).
Definition ghists (h h' : list (list (histval O))) : Prop := forall f, per f (fun n n' => grow zero_count (m f) n n') (nth_error h f) (nth_error h' f).
Lemma m_plain f b : f < nf -> plain f -> m f b = b.
Proof. intros Hf Hp. apply (Gsame f Hf Hp). Qed.
Lemma gsizes_sim sizes : hist_sizes d = Ok sizes -> exists sizes', hist_sizes d' = Ok sizes' /\ gsizes sizes sizes'.
Proof.
  unfold hist_sizes. intros E. pose proof (DatasetProofs3.mapM_length _ _ _ _ _ E) as L. rewrite seq_length in L. rewrite (g_nf O m d d' HD).
  assert (forall f, f < nf -> exists y, max_nbins d f = Ok y /\ nth_error sizes f = Some y) as H1. { intros f Hf. destruct (mapM_nth _ _ _ _ _ _ _ E (nth_seq0 nf f Hf)) as (y & Hy & Ey). eauto. }
  destruct (mapM_each _ _ (max_nbins d') (seq 0 nf)) as (sizes' & E').
  { intros f Hf. apply in_seq in Hf. assert (f < nf) as Hf' by lia. destruct (Gcases f) as [Hp|(n & n' & Hg)]; [|destruct (Gmax _ _ _ Hg) as [_ ->]; eauto]. rewrite (Gmaxs f Hf' (Gsame f Hf' Hp)). destruct (H1 f Hf') as (y & -> & _). eauto. }
  exists sizes'. split; [exact E'|]. pose proof (DatasetProofs3.mapM_length _ _ _ _ _ E') as L'. rewrite seq_length in L'. intros f. destruct (Nat.lt_ge_cases f nf) as [Hf|Hf].
  - destruct (H1 f Hf) as (y & Ey & ->). destruct (mapM_nth _ _ _ _ _ _ _ E' (nth_seq0 nf f Hf)) as (y' & -> & Ey'). split.
    + intros Hp. rewrite (Gmaxs f Hf (Gsame f Hf Hp)), Ey in Ey'. apply Ok_eq in Ey'. congruence.
    + intros n n' Hg. destruct (Gmax _ _ _ Hg) as [E1 E2]. rewrite E1 in Ey. rewrite E2 in Ey'. apply Ok_eq in Ey, Ey'. cbn. auto.
  - assert (nth_error sizes f = None) as -> by (apply nth_error_None; lia). assert (nth_error sizes' f = None) as -> by (apply nth_error_None; lia). split; [reflexivity|]. intros n n' _. exact I.
Qed.

Variables s s' : dataset O.
Hypothesis Hds : gds O m d d' sel s s'.
Variables sizes sizes' : list nat.
Hypothesis Hsizes : hist_sizes d = Ok sizes.
Hypothesis Hsz : gsizes sizes sizes'.
Variable bounds : num O * num O.
Variables sched sched' : nat -> list job -> list job.
Hypothesis Hsched : forall k js, Permutation js (sched k js).
Hypothesis Hsched' : forall k js, Permutation js (sched' k js).
Let Hin : ginner O m d d' sel (ds_inner s) (ds_inner s') := gd_in _ _ _ _ _ _ _ Hds.

Lemma size_at f : f < nf -> exists x, max_nbins d f = Ok x /\ nth_error sizes f = Some x.
Proof. intros Hf. destruct (mapM_nth _ _ _ _ _ _ _ Hsizes (nth_seq0 nf f Hf)) as (y & Hy & Ey). eauto. Qed.
Lemma gact : active_features s' = active_features s.
Proof. unfold active_features, in_active_features. rewrite (gi_useful _ _ _ _ _ _ _ Hin), (gi_nf _ _ _ _ _ _ _ Hin). reflexivity. Qed.
Lemma act_in fs f : active_features s = Ok fs -> In f fs -> f < nf.
Proof.
  unfold active_features, in_active_features, subslice. intros E Hf. destruct (_ && _); [|discriminate]. apply Ok_eq in E. subst fs. apply (gi_lt _ _ _ _ _ _ _ Hin). unfold sub in Hf.
  assert (forall A (l : list A) k x, In x (firstn k l) -> In x l) as HF by (induction l as [|a l IH]; intros [|k] x Hx; cbn in *; intuition eauto). assert (forall A (l : list A) k x, In x (skipn k l) -> In x l) as HS by (induction l as [|a l IH]; intros [|k] x Hx; cbn in *; intuition eauto). eapply HS, HF, Hf.
Qed.
Lemma gnb f : per f gap_used (nth_error (in_used_nbins (ds_inner s)) f) (nth_error (in_used_nbins (ds_inner s')) f).
Proof. exact (proj2 (proj2 (proj2 (gi_cell _ _ _ _ _ _ _ Hin f)))). Qed.
Lemma gbv f : per f (gap_bvs m f) (nth_error (in_bitvecs (ds_inner s)) f) (nth_error (in_bitvecs (ds_inner s')) f).
Proof. exact (proj1 (proj2 (proj2 (gi_cell _ _ _ _ _ _ _ Hin f)))). Qed.
Lemma gnbins_plain f : plain f -> get_nbins s' f = get_nbins s f.
Proof. intros Hp. unfold get_nbins, idx. rewrite (proj1 (gnb f) Hp). reflexivity. Qed.
Lemma gnbins f n n' u : gapped f n n' -> get_nbins s f = Ok u -> exists u', get_nbins s' f = Ok u' /\ gap_used n n' u u'.
Proof.
  intros Hg E. pose proof (proj2 (gnb f) n n' Hg) as H. unfold get_nbins in *. apply idx_ok in E. rewrite E in H. unfold idx. destruct (nth_error (in_used_nbins (ds_inner s')) f) as [u'|]; [eauto|destruct H].
Qed.
Lemma gnbins_back f n n' u' : gapped f n n' -> get_nbins s' f = Ok u' -> exists u, get_nbins s f = Ok u /\ gap_used n n' u u'.
Proof.
  intros Hg E. pose proof (proj2 (gnb f) n n' Hg) as H. unfold get_nbins in *. apply idx_ok in E. rewrite E in H. unfold idx. destruct (nth_error (in_used_nbins (ds_inner s)) f) as [u|]; [eauto|destruct H].
Qed.
Lemma gbitvec f b fm : f < nf -> ds_get_bitvec s f b = Ok fm -> ds_get_bitvec s' f (m f b) = Ok fm.
Proof.
  intros Hf E. unfold ds_get_bitvec in *. destruct (Gcases f) as [Hp|(n & n' & Hg)].
  - unfold idx at 1. rewrite (proj1 (gbv f) Hp), (m_plain f b Hf Hp). exact E.
  - pose proof (proj2 (gbv f) n n' Hg) as H. apply rbind_ok in E as (r & Er & E). apply idx_ok in Er. rewrite Er in H. destruct (nth_error (in_bitvecs (ds_inner s')) f) as [r'|] eqn:Er'; [|destruct H]. unfold idx at 1. rewrite Er'. cbn [rbind].
    destruct H as [[-> ->]|(L & _ & HG)]; [unfold idx in E; destruct b; discriminate|]. eapply grow_idx; eassumption.
Qed.
Lemma gbitvec_extra f n n' b fm b' : gapped f n n' -> ds_get_bitvec s f b = Ok fm -> b' < n' -> (forall b, b < n -> b' <> m f b) -> exists L, okv L fm /\ ds_get_bitvec s' f b' = Ok (repeat bb_zeros L).
Proof.
  intros Hg E Hb' Hx. unfold ds_get_bitvec in *. pose proof (proj2 (gbv f) n n' Hg) as H. apply rbind_ok in E as (r & Er & E). apply idx_ok in Er. rewrite Er in H. destruct (nth_error (in_bitvecs (ds_inner s')) f) as [r'|] eqn:Er'; [|destruct H]. unfold idx at 1. rewrite Er'. cbn [rbind].
  destruct H as [[-> ->]|(L & HL & HG)]; [unfold idx in E; destruct b; discriminate|]. exists L. split; [apply HL; left; apply idx_ok in E; eapply nth_error_In, E|]. destruct HG as (_ & L2 & _ & HZ).
  destruct (nth_error r' b') as [x|] eqn:Ex; [|apply nth_error_None in Ex; lia]. rewrite (HZ _ _ Hx Ex) in Ex. apply idx_ok. exact Ex.
Qed.
Lemma gnact : nactive_examples s' = nactive_examples s. Proof. apply Hin. Qed.
Lemma cand_lt f b : candidate s f b -> f < nf.
Proof. intros (fs & nb & E & H & _). eapply act_in; eassumption. Qed.
Lemma cand_to f b : candidate s f b -> candidate s' f (m f b).
Proof.
  intros Hc. pose proof (cand_lt _ _ Hc) as Hf. destruct Hc as (fs & nb & E & H & En & Hb). destruct (Gcases f) as [Hp|(n & n' & Hg)].
  - exists fs, nb. rewrite gact, gnbins_plain, m_plain by assumption. auto.
  - destruct (gnbins _ _ _ _ Hg En) as (u' & Eu & [[-> _]|[-> ->]]); [lia|]. exists fs, n'. rewrite gact. split; [exact E|]. split; [exact H|]. split; [exact Eu|]. eapply Gin; eassumption.
Qed.
Lemma cand_from f b' : candidate s' f b' -> f < nf /\ ((exists b, candidate s f b /\ b' = m f b) \/ (exists n n', gapped f n n' /\ b' < n' /\ (forall b, b < n -> b' <> m f b) /\ candidate s f 0)).
Proof.
  intros (fs & nb & E & H & En & Hb). rewrite gact in E. pose proof (act_in _ _ E H) as Hf. split; [exact Hf|]. destruct (Gcases f) as [Hp|(n & n' & Hg)].
  - left. exists b'. rewrite m_plain by assumption. split; [|reflexivity]. exists fs, nb. rewrite <- gnbins_plain by exact Hp. auto.
  - destruct (gnbins_back _ _ _ _ Hg En) as (u & Eu & [[_ ->]|[-> ->]]); [lia|]. destruct (Gthree _ _ _ Hg) as [H3 _].
    destruct (existsb (fun b => b' =? m f b) (seq 0 n)) eqn:Ex.
    + apply existsb_exists in Ex as (b & Hb2 & Eb). apply in_seq in Hb2. apply Nat.eqb_eq in Eb. left. exists b. split; [|exact Eb]. exists fs, n. repeat split; try assumption. lia.
    + right. exists n, n'. split; [exact Hg|]. split; [exact Hb|]. split; [|exists fs, n; repeat split; try assumption; lia]. intros b Hb2 Eb. apply Bool.not_true_iff_false in Ex. apply Ex, existsb_exists. exists b. split; [apply in_seq; lia|apply Nat.eqb_eq, Eb].
Qed.
Lemma gjobs js : jobs s = Ok js -> exists js', jobs s' = Ok js'.
Proof.
  unfold jobs. rewrite gact. intros E. apply rbind_ok in E as (fs & Efs & E). rewrite Efs. cbn [rbind]. apply rbind_ok in E as (jss & E & _).
  destruct (mapM_each _ _ (fun f => let* nb := get_nbins s' f in Ok (map (pair f) (seq 0 nb))) fs) as (jss' & E').
  { intros g Hg. apply In_nth_error in Hg as (k & Hk). destruct (mapM_nth _ _ _ _ _ _ _ E Hk) as (y & _ & Ey). apply rbind_ok in Ey as (nb & En & _). destruct (Gcases g) as [Hp|(n & n' & Hg)]; [rewrite gnbins_plain, En by exact Hp; cbn [rbind]; eauto|]. destruct (gnbins _ _ _ _ Hg En) as (u' & -> & _). cbn [rbind]. eauto. }
  rewrite E'. cbn [rbind]. eauto.
Qed.
Record gnode (nd nd' : node O) : Prop := {
  gn_id : nd_id nd' = nd_id nd; gn_count : nd_count nd' = nd_count nd; gn_grad : nd_grad nd' = nd_grad nd; gn_compr : nd_compr nd' = nd_compr nd; gn_hists : ghists (nd_hists nd) (nd_hists nd');
  gn_idx : nd_idx nd' = nd_idx nd; gn_mask : nd_mask nd' = nd_mask nd; gn_grads : nd_grads nd' = nd_grads nd; gn_sizes : map (@length _) (nd_hists nd) = sizes }.
Lemma ggrad_sum nd nd' fm : gnode nd nd' -> get_grad_sum cfg bounds nd' fm = get_grad_sum cfg bounds nd fm.
Proof. intros []. unfold get_grad_sum. rewrite gn_compr0, gn_mask0, gn_idx0, gn_grads0. reflexivity. Qed.
Lemma ghist_at h h' f hist b x : ghists h h' -> f < nf -> idx h f = Ok hist -> idx hist b = Ok x -> exists hist', idx h' f = Ok hist' /\ idx hist' (m f b) = Ok x.
Proof.
  intros H Hf Eh Eb. specialize (H f). apply idx_ok in Eh. rewrite Eh in H. destruct (Gcases f) as [Hp|(n & n' & Hg)].
  - exists hist. split; [apply idx_ok, (proj1 H Hp)|]. rewrite m_plain by assumption. exact Eb.
  - pose proof (proj2 H n n' Hg) as HG. destruct (nth_error h' f) as [hist'|] eqn:Eh'; [|destruct HG]. exists hist'. split; [apply idx_ok, Eh'|]. eapply grow_idx; eassumption.
Qed.
Lemma get2_image h h' f b : ghists h h' -> f < nf -> get2 h f b <> None -> get2 h' f (m f b) = get2 h f b.
Proof.
  intros H Hf Hn. unfold get2 in *. destruct (nth_error h f) as [hist|] eqn:Eh; [|contradiction]. destruct (nth_error hist b) as [x|] eqn:Eb; [|contradiction].
  destruct (ghist_at h h' f hist b x H Hf ltac:(apply idx_ok; exact Eh) ltac:(apply idx_ok; exact Eb)) as (hist' & E1 & E2). apply idx_ok in E1, E2. rewrite E1. exact E2.
Qed.
Lemma grun_jobs nd nd' js js' h h' r : gnode nd nd' -> jobs s = Ok js -> jobs s' = Ok js' -> ghists h h' -> foldM (run_job cfg s bounds nd) js h = Ok r -> exists r', foldM (run_job cfg s' bounds nd') js' h' = Ok r' /\ ghists r r' /\ map (@length _) r = map (@length _) h.
Proof.
  intros HN Ej Ej' H E. pose proof (jobs_spec O s js Ej) as HJ. pose proof (jobs_spec O s' js' Ej') as HJ'. destruct (run_jobs_ok _ _ _ _ _ _ _ _ E) as (S1 & S2 & S3).
  assert (forall f b, candidate s f b -> exists fm v, ds_get_bitvec s f b = Ok fm /\ get_grad_sum cfg bounds nd fm = Ok v /\ get2 r f b = Some v /\ get2 h f b <> None) as HC.
  { intros f b Hc. destruct (S2 f b (proj2 (HJ f b) Hc)) as (fm & v & E1 & E2 & E3). exists fm, v. do 3 (split; [assumption|]). apply get2_none. rewrite <- (row_length _ _ _ _ S1). apply get2_none. congruence. }
  assert (forall f n n' b', gapped f n n' -> b' < n' -> (forall b, b < n -> b' <> m f b) -> candidate s f 0 -> exists L, ds_get_bitvec s' f b' = Ok (repeat bb_zeros L) /\ get_grad_sum cfg bounds nd' (repeat bb_zeros L) = Ok (nofZ O 0, 0%N)) as HZ.
  { intros f n n' b' Hg Hb' Hx Hc. destruct (HC f 0 Hc) as (fm & v & E1 & E2 & _). destruct (gbitvec_extra _ _ _ _ _ _ Hg E1 Hb' Hx) as (L & HL & EL). exists L. split; [exact EL|]. rewrite (ggrad_sum nd nd') by exact HN. eapply grad_sum_zero; eassumption. }
  destruct (run_jobs_total O cfg s' bounds nd' js' h') as (r' & E').
  { intros f b' Hj. apply HJ', cand_from in Hj as [Hf [(b & Hc & ->)|(n & n' & Hg & Hb' & Hx & Hc)]].
    - destruct (HC f b Hc) as (fm & v & E1 & E2 & E3 & E4). split; [exists fm, v; rewrite (ggrad_sum nd nd') by exact HN; split; [apply gbitvec; assumption|exact E2]|]. rewrite (get2_image h) by assumption. exact E4.
    - destruct (HZ _ _ _ _ Hg Hb' Hx Hc) as (L & E1 & E2). split; [eauto|]. destruct (HC f 0 Hc) as (fm & v & _ & _ & _ & E4). unfold get2 in *. pose proof (proj2 (H f) n n' Hg) as HG. destruct (nth_error h f) as [hist|]; [|contradiction]. destruct (nth_error h' f) as [hist'|]; [|destruct HG].
      destruct HG as (_ & L2 & _). apply nth_error_Some. lia. }
  exists r'. split; [exact E'|]. split; [|exact S1]. destruct (run_jobs_ok _ _ _ _ _ _ _ _ E') as (T1 & T2 & T3).
  assert (forall f b, f < nf -> ~ In (f, m f b) js' -> ~ In (f, b) js) as HNot by (intros f b _ Hn Hj; apply Hn, HJ', cand_to, HJ, Hj).
  assert (forall f b, f < nf -> get2 r f b <> None -> get2 r' f (m f b) = get2 r f b) as HI.
  { intros f b Hf Hn. assert (get2 h f b <> None) as Hn2 by (apply get2_none; rewrite <- (row_length _ _ _ _ S1); apply get2_none; exact Hn).
    destruct (in_dec (fun x y : nat * nat => ltac:(decide equality; apply Nat.eq_dec)) (f, b) js) as [Hj|Hj].
    - apply HJ in Hj. destruct (HC f b Hj) as (fm & v & E1 & E2 & -> & _). destruct (T2 f (m f b) (proj2 (HJ' _ _) (cand_to _ _ Hj))) as (fm' & v' & F1 & F2 & ->). rewrite (gbitvec f b fm Hf E1) in F1. apply Ok_eq in F1. subst fm'. rewrite (ggrad_sum nd nd' _ HN), E2 in F2. apply Ok_eq in F2. congruence.
    - rewrite S3 by exact Hj. rewrite T3; [apply get2_image; assumption|]. intros Hj'. apply HJ', cand_from in Hj' as [_ [(b2 & Hc & Eb)|(n & n' & Hg & Hb' & Hx & Hc)]].
      + assert (b = b2) as <-. { destruct (Gcases f) as [Hp|(n & n' & Hg)]; [rewrite !m_plain in Eb by assumption; exact Eb|eapply Ginj; eassumption]. } apply Hj, HJ, Hc.
      + apply (Hx b); [|reflexivity]. unfold get2 in Hn2. pose proof (proj2 (H f) n n' Hg) as HG. destruct (nth_error h f) as [hist|]; [|contradiction]. destruct (nth_error h' f) as [hist'|]; [|destruct HG]. destruct HG as (<- & _). apply nth_error_Some, Hn2. }
  pose proof (fun f => row_length _ _ _ f T1) as LT. pose proof (fun f => row_length _ _ _ f S1) as LS. intros f. split.
  - intros Hp. destruct (Nat.lt_ge_cases f nf) as [Hf|Hf].
    + apply row_ext; [rewrite (row_length _ _ _ _ T1), (row_length _ _ _ _ S1), (proj1 (H f) Hp); reflexivity|]. intros b. destruct (get2 r f b) as [x|] eqn:Ex.
      * rewrite <- Ex. rewrite <- (m_plain f b Hf Hp) at 1. apply HI; [exact Hf|congruence].
      * destruct (get2 r' f b) as [y|] eqn:Ey; [|reflexivity]. exfalso. assert (get2 r' f b <> None) as X by congruence. apply get2_none in X as (k & X & Hk). rewrite (row_length _ _ _ _ T1), (proj1 (H f) Hp), <- (row_length _ _ _ _ S1) in X. assert (get2 r f b <> None) as Y by (apply get2_none; eauto). congruence.
    + apply row_ext; [rewrite (row_length _ _ _ _ T1), (row_length _ _ _ _ S1), (proj1 (H f) Hp); reflexivity|]. intros b. rewrite S3, T3; [unfold get2; rewrite (proj1 (H f) Hp); reflexivity| |]; intros Hj; [apply HJ', cand_from in Hj as [X _]|apply HJ, cand_lt in Hj]; lia.
  - intros n n' Hg. pose proof (proj2 (H f) n n' Hg) as HG. assert (f < nf) as Hf by apply Hg. specialize (LT f). specialize (LS f). unfold GapProofs.both in *.
    destruct (nth_error h f) as [hist|] eqn:Eh, (nth_error h' f) as [hist'|] eqn:Eh'; try contradiction; cbn [option_map] in *.
    + destruct (nth_error r f) as [row|] eqn:Er; [|discriminate]. destruct (nth_error r' f) as [row'|] eqn:Er'; [|discriminate]. cbn [option_map] in *. injection LT as LT. injection LS as LS. destruct HG as (G1 & G2 & G3 & G4).
      split; [congruence|]. split; [congruence|]. split.
      * intros b Hb. specialize (HI f b Hf). unfold get2 in HI. rewrite Er, Er' in HI. apply HI. apply nth_error_Some. lia.
      * intros b' x Hx Ex. destruct (in_dec (fun x y : nat * nat => ltac:(decide equality; apply Nat.eq_dec)) (f, b') js') as [Hj|Hj].
        { destruct (T2 _ _ Hj) as (fm' & v' & F1 & F2 & F3). unfold get2 in F3. rewrite Er', Ex in F3. injection F3 as <-. apply HJ', cand_from in Hj as [_ [(b2 & Hc & Eb)|(n0 & n0' & Hg0 & Hb' & Hx0 & Hc)]].
          - exfalso. apply (Hx b2); [|exact Eb]. destruct (HC f b2 Hc) as (_ & _ & _ & _ & _ & X). unfold get2 in X. rewrite Eh in X. rewrite <- G1. apply nth_error_Some, X.
          - destruct (HZ _ _ _ _ Hg0 Hb' Hx0 Hc) as (L & E1 & E2). rewrite E1 in F1. apply Ok_eq in F1. subst fm'. rewrite E2 in F2. apply Ok_eq in F2. subst x. reflexivity. }
        { specialize (T3 _ _ Hj). unfold get2 in T3. rewrite Er', Eh', Ex in T3. symmetry in T3. eapply G4; eassumption. }
    + destruct (nth_error r f); [discriminate|]. destruct (nth_error r' f); [discriminate|]. exact I.
Qed.
Lemma gbuild nd nd' r : gnode nd nd' -> build_histograms cfg s bounds sched nd = Ok r -> exists r', build_histograms cfg s' bounds sched' nd' = Ok r' /\ gnode r r'.
Proof.
  intros HN E. unfold build_histograms in *. apply rbind_ok in E as (u & -> & E). cbn [rbind]. apply rbind_ok in E as (js & Ej & E). destruct (gjobs js Ej) as (js' & Ej'). rewrite Ej'. cbn [rbind]. apply rbind_ok in E as (h & Eh & E). apply Ok_eq in E. subst r.
  assert (foldM (run_job cfg s bounds nd) js (nd_hists nd) = Ok h) as E1 by (eapply foldM_perm; [intros; eapply run_job_comm; eassumption|apply Permutation_sym, Hsched|exact Eh]).
  destruct (grun_jobs nd nd' js js' _ _ _ HN Ej Ej' (gn_hists _ _ HN) E1) as (h' & E2 & Hh & HL).
  assert (foldM (run_job cfg s' bounds nd') (sched' (nd_id nd') js') (nd_hists nd') = Ok h') as -> by (eapply foldM_perm; [intros; eapply run_job_comm; eassumption|apply Hsched'|exact E2]).
  cbn [rbind]. eexists. split; [reflexivity|]. destruct HN. constructor; cbn; try assumption. congruence.
Qed.
Lemma galloc h : alloc_hists O sizes = Ok h -> exists h', alloc_hists O sizes' = Ok h' /\ ghists h h' /\ map (@length _) h = sizes.
Proof.
  unfold alloc_hists. intros E. apply rbind_ok in E as (u & Ea & E). apply Ok_eq in E. subst h. unfold rassert in Ea. destruct (Nat.ltb_spec 0 (list_sum sizes)) as [Hs|]; [|discriminate].
  assert (0 < list_sum sizes') as Hs'.
  { apply list_sum_pos in Hs as (k & x & E & Hx). apply list_sum_pos. exists k. destruct (Gcases k) as [Hp|(n & n' & Hg)]; [exists x; rewrite (proj1 (Hsz k) Hp); auto|]. pose proof (proj2 (Hsz k) n n' Hg) as H. rewrite E in H. destruct (nth_error sizes' k) as [x'|]; [|destruct H]. destruct H as [-> ->]. exists n'. split; [reflexivity|]. destruct (Gthree _ _ _ Hg). lia. }
  apply Nat.ltb_lt in Hs'. rewrite Hs'. cbn [rassert rbind]. eexists. split; [reflexivity|]. split.
  - intros f. rewrite !nth_error_map. split; [intros Hp; rewrite (proj1 (Hsz f) Hp); reflexivity|]. intros n n' Hg. pose proof (proj2 (Hsz f) n n' Hg) as H. destruct (nth_error sizes f), (nth_error sizes' f); try contradiction; [|exact I]. destruct H as [-> ->]. cbn [option_map GapProofs.both]. apply grow_repeat; [intros b Hb; eapply Gin; eassumption|reflexivity].
  - rewrite map_map. rewrite <- (map_id sizes) at 2. apply map_ext. intros k. apply repeat_length.
Qed.
Lemma gex_sampling : example_sampling_enabled s' = example_sampling_enabled s.
Proof. unfold example_sampling_enabled. rewrite (gd_buf _ _ _ _ _ _ _ Hds). reflexivity. Qed.
Lemma gactive_ex : active_examples s' = active_examples s.
Proof. unfold active_examples. rewrite gnact, (gd_buf _ _ _ _ _ _ _ Hds). reflexivity. Qed.
Lemma groot gradients nd : get_root_n2s cfg s sizes bounds sched gradients = Ok nd -> exists nd', get_root_n2s cfg s' sizes' bounds sched' gradients = Ok nd' /\ gnode nd nd'.
Proof.
  unfold get_root_n2s. rewrite gnact. assert (active_examples_list s' = active_examples_list s) as -> by (unfold active_examples_list; rewrite gex_sampling, gactive_ex, gnact; reflexivity).
  intros E. apply rbind_ok in E as (u & -> & E). cbn [rbind]. apply rbind_ok in E as (g0 & -> & E). cbn [rbind]. apply rbind_ok in E as (mask & -> & E). cbn [rbind]. apply rbind_ok in E as (ix & -> & E). cbn [rbind]. apply rbind_ok in E as (u2 & -> & E). cbn [rbind].
  apply rbind_ok in E as (ex & -> & E). cbn [rbind]. apply rbind_ok in E as ((gr & sum) & -> & E). cbn [rbind]. apply rbind_ok in E as (h & Eh & E). destruct (galloc h Eh) as (h' & -> & Hh & HL). cbn [rbind]. eapply gbuild; [|exact E]. constructor; cbn; try reflexivity; assumption.
Qed.
Lemma gcompress pa pa' nd nd' n r : gnode pa pa' -> gnode nd nd' -> compress_examples dbg cfg pa nd n = Ok r -> exists r', compress_examples dbg cfg pa' nd' n = Ok r' /\ gnode r r'.
Proof.
  intros HP HN E. unfold compress_examples in *. assert (forall l st, foldM (compress_step dbg cfg pa') l st = foldM (compress_step dbg cfg pa) l st) as EF.
  { induction l as [|j l IH]; intros st; [reflexivity|]. cbn [foldM]. assert (compress_step dbg cfg pa' st j = compress_step dbg cfg pa st j) as -> by (unfold compress_step; rewrite (gn_idx _ _ HP), (gn_grads _ _ HP); reflexivity). destruct (compress_step dbg cfg pa st j); cbn [rbind]; try reflexivity. apply IH. }
  rewrite (gn_idx _ _ HP), (gn_mask _ _ HN). apply rbind_ok in E as (u & -> & E). cbn [rbind]. apply rbind_ok in E as (ix0 & -> & E). cbn [rbind]. apply rbind_ok in E as (g0 & -> & E). cbn [rbind]. rewrite EF. apply rbind_ok in E as ((((k & mask) & ix) & gr) & -> & E). cbn [rbind].
  apply rbind_ok in E as (u2 & -> & E). cbn [rbind]. apply rbind_ok in E as (m2 & -> & E). cbn [rbind]. apply Ok_eq in E. subst r. eexists. split; [reflexivity|]. destruct HN. constructor; cbn; try assumption; reflexivity.
Qed.

(** The split of the second run. *)
Definition gcrit (c c' : split_crit O) : Prop := renumbered_crit m d c c' /\ (is_no_split c = true -> c = no_split O) /\
  (is_no_split c = false -> sc_feature c < nf /\ match sc_type c with LoCardCatEq => feat_type_of d (sc_feature c) = Ok LoCardCat | _ => feat_type_of d (sc_feature c) <> Ok LoCardCat end).
Definition gsplit (sp sp' : split O) : Prop := gcrit (sp_crit sp) (sp_crit sp') /\ (is_no_split (sp_crit sp) = false -> sp_id sp' = m (sc_feature (sp_crit sp)) (sp_id sp)).
Lemma gcrit_feature c c' : gcrit c c' -> sc_feature c' = sc_feature c /\ is_no_split c' = is_no_split c.
Proof. intros ((H1 & H2 & _) & _). split; [exact H2|]. unfold is_no_split. rewrite H1. reflexivity. Qed.
Lemma gsplit_examples pa pa' k sp sp' f n g r : gnode pa pa' -> gsplit sp sp' -> is_no_split (sp_crit sp) = false -> split_examples dbg cfg s sizes pa k sp f n g = Ok r -> exists r', split_examples dbg cfg s' sizes' pa' k sp' f n g = Ok r' /\ gnode r r'.
Proof.
  intros HP [HS HI] Hn E. destruct (gcrit_feature _ _ HS) as (EF & _). destruct HS as (_ & _ & HF). destruct (HF Hn) as (Hf & _). unfold split_examples in *. rewrite EF, (HI Hn). rewrite (gn_idx _ _ HP). apply rbind_ok in E as (fm & Efm & E). rewrite (gbitvec _ _ _ Hf Efm). cbn [rbind].
  apply rbind_ok in E as (h & Eh & E). destruct (galloc h Eh) as (h' & -> & Hh & HL). cbn [rbind]. apply rbind_ok in E as (m0 & -> & E). cbn [rbind].
  assert (forall l st, foldM (split_block pa' fm f) l st = foldM (split_block pa fm f) l st) as ->.
  { induction l as [|j l IH]; intros st; [reflexivity|]. cbn [foldM]. assert (split_block pa' fm f st j = split_block pa fm f st j) as -> by (unfold split_block; rewrite (gn_idx _ _ HP), (gn_mask _ _ HP); reflexivity). destruct (split_block pa fm f st j); cbn [rbind]; try reflexivity. apply IH. }
  apply rbind_ok in E as ((mask & z) & -> & E). cbn [rbind]. rewrite (gn_compr _ _ HP), (gn_grads _ _ HP). destruct (_ && _).
  - apply rbind_ok in E as (u & -> & E). cbn [rbind]. eapply gcompress; [exact HP| |exact E]. constructor; cbn; try reflexivity; assumption.
  - apply Ok_eq in E. subst r. eexists. split; [reflexivity|]. constructor; cbn; try reflexivity; assumption.
Qed.
Lemma gsub_row f n n' a a' b b' r : gapped f n n' -> grow zero_count (m f) n n' a a' -> grow zero_count (m f) n n' b b' -> mapM (fun x => hv_sub O dbg (fst x) (snd x)) (combine a b) = Ok r ->
  exists r', mapM (fun x => hv_sub O dbg (fst x) (snd x)) (combine a' b') = Ok r' /\ grow zero_count (m f) n n' r r'.
Proof.
  intros Hg (A1 & A2 & A3 & A4) (B1 & B2 & B3 & B4) E. pose proof (DatasetProofs3.mapM_length _ _ _ _ _ E) as L. rewrite combine_length, A1, B1, Nat.min_id in L.
  assert (forall b', (exists b, b < n /\ b' = m f b) \/ (forall b, b < n -> b' <> m f b)) as Hdec.
  { intros x. destruct (existsb (fun b => x =? m f b) (seq 0 n)) eqn:Ex; [left; apply existsb_exists in Ex as (c & Hc & Ec); apply in_seq in Hc; apply Nat.eqb_eq in Ec; exists c; split; [lia|exact Ec]|right]. intros c Hc Ec. apply Bool.not_true_iff_false in Ex. apply Ex, existsb_exists. exists c. split; [apply in_seq; lia|apply Nat.eqb_eq, Ec]. }
  assert (forall k p, nth_error (combine a' b') k = Some p -> exists y, hv_sub O dbg (fst p) (snd p) = Ok y /\ ((exists c, c < n /\ k = m f c /\ nth_error r c = Some y) \/ snd y = 0%N)) as HP.
  { intros k p Ep. destruct (Hdec k) as [(c & Hc & ->)|Hx].
    - rewrite nth_combine, A3, B3, <- nth_combine in Ep by exact Hc. destruct (mapM_nth _ _ _ _ _ _ _ E Ep) as (y & Hy & Ey). exists y. split; [exact Ey|]. left. eauto.
    - rewrite nth_combine in Ep. destruct (nth_error a' k) as [x|] eqn:Ex; [|discriminate]. destruct (nth_error b' k) as [y|] eqn:Ey; [|discriminate]. injection Ep as <-. cbn [fst snd]. pose proof (A4 _ _ Hx Ex) as Zx. pose proof (B4 _ _ Hx Ey) as Zy. cbn beta in Zx, Zy. unfold hv_sub, u32_sub. rewrite Zx, Zy. cbn [N.leb N.compare rbind]. eexists. split; [reflexivity|]. right. reflexivity. }
  destruct (mapM_each _ _ (fun x => hv_sub O dbg (fst x) (snd x)) (combine a' b')) as (r' & E'). { intros p Hp. apply In_nth_error in Hp as (k & Hk). destruct (HP k p Hk) as (y & Ey & _). eauto. }
  exists r'. split; [exact E'|]. pose proof (DatasetProofs3.mapM_length _ _ _ _ _ E') as L'. rewrite combine_length, A2, B2, Nat.min_id in L'.
  assert (forall k, k < n' -> exists p, nth_error (combine a' b') k = Some p) as HS. { intros k Hk. destruct (nth_error (combine a' b') k) as [p|] eqn:Ep; [eauto|]. apply nth_error_None in Ep. rewrite combine_length, A2, B2, Nat.min_id in Ep. lia. }
  split; [exact L|]. split; [exact L'|]. split.
  - intros c Hc. destruct (HS (m f c) ltac:(eapply Gin; eassumption)) as (p & Ep). destruct (mapM_nth _ _ _ _ _ _ _ E' Ep) as (y & -> & Ey). rewrite nth_combine, A3, B3, <- nth_combine in Ep by exact Hc. destruct (mapM_nth _ _ _ _ _ _ _ E Ep) as (y2 & -> & Ey2). congruence.
  - intros k x Hx Ex. destruct (HS k) as (p & Ep); [rewrite <- L'; apply nth_error_Some; congruence|]. destruct (mapM_nth _ _ _ _ _ _ _ E' Ep) as (y & Ey' & Ey). rewrite Ex in Ey'. injection Ey' as <-. destruct (HP k p Ep) as (y & Ey2 & [(c & Hc & Ek & _)|Hz]); [exfalso; exact (Hx c Hc Ek)|]. rewrite Ey in Ey2. apply Ok_eq in Ey2. subst y. exact Hz.
Qed.
Lemma gsubtract (a a' b b' h : list (list (histval O))) : ghists a a' -> ghists b b' -> hists_subtract dbg a b = Ok h -> exists h', hists_subtract dbg a' b' = Ok h' /\ ghists h h'.
Proof.
  intros Ha Hb E. unfold hists_subtract in *. set (F := fun pl : list (histval O) * list (histval O) => mapM (fun x => hv_sub O dbg (fst x) (snd x)) (combine (fst pl) (snd pl))) in *. pose proof (DatasetProofs3.mapM_length _ _ _ _ _ E) as L.
  assert (forall f, per f (fun n n' p p' => grow zero_count (m f) n n' (fst p) (fst p') /\ grow zero_count (m f) n n' (snd p) (snd p')) (nth_error (combine a b) f) (nth_error (combine a' b') f)) as HC.
  { intros f. rewrite !nth_combine. destruct (Ha f) as [P1 Q1], (Hb f) as [P2 Q2]. split; [intros Hp; rewrite (P1 Hp), (P2 Hp); reflexivity|]. intros n n' Hg. specialize (Q1 _ _ Hg). specialize (Q2 _ _ Hg). unfold GapProofs.both in *. destruct (nth_error a f), (nth_error a' f); try contradiction; [|exact I]. destruct (nth_error b f), (nth_error b' f); try contradiction; [|exact I]. split; assumption. }
  assert (forall f p', nth_error (combine a' b') f = Some p' -> exists y', F p' = Ok y') as HT.
  { intros f p' Ep'. destruct (Gcases f) as [Hp|(n & n' & Hg)].
    - rewrite (proj1 (HC f) Hp) in Ep'. destruct (mapM_nth _ _ _ _ _ _ _ E Ep') as (y & _ & Ey). eauto.
    - pose proof (proj2 (HC f) n n' Hg) as HG. rewrite Ep' in HG. destruct (nth_error (combine a b) f) as [p|] eqn:Ep; [|destruct HG]. destruct HG as [G1 G2]. destruct (mapM_nth _ _ _ _ _ _ _ E Ep) as (y & _ & Ey). destruct (gsub_row _ _ _ _ _ _ _ _ Hg G1 G2 Ey) as (y' & Ey' & _). eauto. }
  destruct (mapM_each _ _ F (combine a' b')) as (h' & E'). { intros p Hp. apply In_nth_error in Hp as (k & Hk). eapply HT, Hk. }
  exists h'. split; [exact E'|]. pose proof (DatasetProofs3.mapM_length _ _ _ _ _ E') as L'.
  assert (forall A B (G : A -> res B) l r k, mapM G l = Ok r -> nth_error l k = None -> nth_error r k = None) as HN by (intros A B G l r k Er Hk; apply nth_error_None; rewrite (DatasetProofs3.mapM_length _ _ _ _ _ Er); apply nth_error_None, Hk).
  intros f. split.
  - intros Hp. pose proof (proj1 (HC f) Hp) as HE. destruct (nth_error (combine a b) f) as [p|] eqn:Ep.
    + destruct (mapM_nth _ _ _ _ _ _ _ E Ep) as (y & -> & Ey). destruct (mapM_nth _ _ _ _ _ _ _ E' HE) as (y' & -> & Ey'). congruence.
    + rewrite (HN _ _ _ _ _ _ E Ep), (HN _ _ _ _ _ _ E' HE). reflexivity.
  - intros n n' Hg. pose proof (proj2 (HC f) n n' Hg) as HG. unfold GapProofs.both in *. destruct (nth_error (combine a b) f) as [p|] eqn:Ep, (nth_error (combine a' b') f) as [p'|] eqn:Ep'; try contradiction.
    + destruct HG as [G1 G2]. destruct (mapM_nth _ _ _ _ _ _ _ E Ep) as (y & -> & Ey). destruct (mapM_nth _ _ _ _ _ _ _ E' Ep') as (y' & -> & Ey'). destruct (gsub_row _ _ _ _ _ _ _ _ Hg G1 G2 Ey) as (z & Ez & Hz). unfold F in Ey'. rewrite Ez in Ey'. apply Ok_eq in Ey'. subst z. exact Hz.
    + rewrite (HN _ _ _ _ _ _ E Ep), (HN _ _ _ _ _ _ E' Ep'). exact I.
Qed.
Lemma sub_lengths (a b h : list (list (histval O))) : map (@length _) a = map (@length _) b -> hists_subtract dbg a b = Ok h -> map (@length _) h = map (@length _) a.
Proof.
  unfold hists_subtract. revert b h. induction a as [|x a IH]; intros [|y b] h HL E; cbn [map combine mapM] in *; try discriminate; [apply Ok_eq in E; subst h; reflexivity|]. apply rbind_ok in E as (r & Er & E). apply rbind_ok in E as (h1 & E1 & E). apply Ok_eq in E. subst h. injection HL as H1 H2. cbn [map]. f_equal; [|eapply IH; eassumption].
  apply DatasetProofs3.mapM_length in Er. cbn [fst snd] in Er. rewrite combine_length, <- H1, Nat.min_id in Er. exact Er.
Qed.
Lemma gchildren pa pa' sp sp' l r : gnode pa pa' -> gsplit sp sp' -> is_no_split (sp_crit sp) = false -> get_left_right_n2s dbg cfg s sizes bounds sched pa sp = Ok (l, r) ->
  exists l' r', get_left_right_n2s dbg cfg s' sizes' bounds sched' pa' sp' = Ok (l', r') /\ gnode l l' /\ gnode r r'.
Proof.
  intros HP HS Hn E. pose proof HS as [HS0 HI]. destruct (gcrit_feature _ _ HS0) as (EF & _). destruct HS0 as (_ & _ & HF). destruct (HF Hn) as (Hf & _). unfold get_left_right_n2s in *. rewrite EF, (HI Hn), (gn_grad _ _ HP), (gn_count _ _ HP), (gn_id _ _ HP).
  apply rbind_ok in E as (hist & Eh & E). apply rbind_ok in E as (lv & Elv & E). destruct (ghist_at _ _ _ _ _ _ (gn_hists _ _ HP) Hf Eh Elv) as (hist' & -> & E2). cbn [rbind]. rewrite E2. cbn [rbind]. clear E2 hist'. apply rbind_ok in E as (rc & -> & E). cbn [rbind]. apply rbind_ok in E as (l0 & El & E). destruct (gsplit_examples _ _ _ _ _ _ _ _ _ HP HS Hn El) as (l0' & -> & Hl). cbn [rbind].
  apply rbind_ok in E as (l1 & El1 & E). destruct (gbuild _ _ _ Hl El1) as (l1' & -> & Hl1). cbn [rbind]. apply rbind_ok in E as (r0 & Er & E). destruct (gsplit_examples _ _ _ _ _ _ _ _ _ HP HS Hn Er) as (r0' & -> & Hr0). cbn [rbind].
  apply rbind_ok in E as (r1 & Er1 & E). apply Ok_eq in E. injection E as <- <-. unfold derive_histograms in *. apply rbind_ok in Er1 as (h & Ehs & Er1). apply Ok_eq in Er1. subst r1.
  destruct (gsubtract _ _ _ _ _ (gn_hists _ _ HP) (gn_hists _ _ Hl1) Ehs) as (h' & Eh' & Hh). rewrite Eh'. cbn [rbind]. eexists. eexists. split; [reflexivity|]. split; [exact Hl1|]. assert (map (@length _) h = sizes) as HLs by (rewrite (sub_lengths _ _ _ ltac:(rewrite (gn_sizes _ _ HP), (gn_sizes _ _ Hl1); reflexivity) Ehs); apply HP). destruct Hr0. constructor; cbn; assumption.
Qed.

(** Choosing the split: an unused code never wins. *)
Definition gst (st st' : num O * split O) : Prop := fst st' = fst st /\ gsplit (snd st) (snd st').
Lemma gvalue f b : f < nf -> feat_type_of d f <> Ok LoCardCat -> get_split_value s' f b = get_split_value s f b.
Proof. intros Hf Hne. unfold get_split_value. rewrite (gi_data _ _ _ _ _ _ _ Hin), (gi_data' _ _ _ _ _ _ _ Hin), (Gtype f Hf), (gi_sp _ _ _ _ _ _ _ Hin). reflexivity. Qed.
Lemma gmake f b c : f < nf -> (feat_type_of d f = Ok LoCardCat -> exists n, feat_card d f = Ok n /\ b < n) -> make_crit s f b = Ok c -> exists c', make_crit s' f (m f b) = Ok c' /\ gcrit c c' /\ is_no_split c = false /\ sc_feature c = f.
Proof.
  intros Hf HB E. unfold make_crit in *. apply rbind_ok in E as (v & Ev & E). rewrite (gi_data _ _ _ _ _ _ _ Hin) in E. rewrite (gi_data' _ _ _ _ _ _ _ Hin), (Gtype f Hf). apply rbind_ok in E as (ft & Et & E). apply Ok_eq in E. subst c.
  destruct ft.
  - unfold get_split_value in *. rewrite (gi_data _ _ _ _ _ _ _ Hin), Et in Ev. rewrite (gi_data' _ _ _ _ _ _ _ Hin), (Gtype f Hf), Et. cbn [rbind] in *. apply Ok_eq in Ev. subst v. destruct (HB Et) as (n & En & Hb). eexists. split; [reflexivity|]. split; [|split; reflexivity]. split; [|split; [discriminate|intros _; cbn [sc_feature sc_type]; split; assumption]].
    split; [reflexivity|]. split; [reflexivity|]. cbn [sc_type sc_feature sc_value]. exists n, b. repeat split; assumption.
  - assert (plain f) as Hp by (destruct (Gcases f) as [Hp|(n & n' & Hg)]; [exact Hp|]; destruct Hg as (_ & Ht & _); congruence). rewrite (m_plain f b Hf Hp), gvalue, Ev, Et by (congruence || assumption). cbn [rbind]. eexists. split; [reflexivity|]. split; [|split; reflexivity]. split; [|split; [discriminate|intros _; cbn [sc_feature sc_type]; split; [assumption|congruence]]]. repeat split; reflexivity.
  - assert (plain f) as Hp by (destruct (Gcases f) as [Hp|(n & n' & Hg)]; [exact Hp|]; destruct Hg as (_ & Ht & _); congruence). rewrite (m_plain f b Hf Hp), gvalue, Ev, Et by (congruence || assumption). cbn [rbind]. eexists. split; [reflexivity|]. split; [|split; reflexivity]. split; [|split; [discriminate|intros _; cbn [sc_feature sc_type]; split; [assumption|congruence]]]. repeat split; reflexivity.
Qed.
Lemma gstep nd nd' f hist hist' b st st' r : gnode nd nd' -> f < nf -> nth_error (nd_hists nd) f = Some hist -> (forall b x, idx hist b = Ok x -> idx hist' (m f b) = Ok x) -> gst st st' ->
  split_step dbg cfg s nd f hist st b = Ok r -> exists r', split_step dbg cfg s' nd' f hist' st' (m f b) = Ok r' /\ gst r r'.
Proof.
  intros HN Hf Hh HX [H1 H2] E. unfold split_step in *. rewrite (gn_grad _ _ HN), (gn_count _ _ HN). apply rbind_ok in E as (l & El & E). rewrite (HX _ _ El). cbn [rbind]. apply rbind_ok in E as (rc & -> & E). cbn [rbind]. destruct (_ || _); [apply Ok_eq in E; subst r; eexists; split; [reflexivity|split; assumption]|].
  cbv zeta in *. rewrite H1. destruct (nlt O (fst st) _); [|apply Ok_eq in E; subst r; eexists; split; [reflexivity|split; assumption]]. apply rbind_ok in E as (c & Ec & E). apply Ok_eq in E. subst r.
  destruct (gmake f b c Hf) as (c' & -> & Hc & Hn & Ef); [|exact Ec|].
  { intros Ht. destruct (size_at f Hf) as (x & Ex & Sx). assert (x = length hist) as -> by (pose proof (f_equal (fun l => nth_error l f) (gn_sizes _ _ HN)) as X; cbn beta in X; rewrite nth_error_map, Hh, Sx in X; cbn in X; congruence).
    unfold max_nbins in Ex. rewrite Ht in Ex. cbn [rbind] in Ex. apply rbind_ok in Ex as (n & En & Ex). apply Ok_eq in Ex. exists n. split; [exact En|]. assert (b < length hist) as Hb by (apply idx_ok in El; apply nth_error_Some; congruence). rewrite <- Ex in Hb. destruct (Nat.eqb_spec n 2); [lia|]. destruct (Nat.eqb_spec n 1); lia. }
  cbn [rbind]. eexists. split; [reflexivity|]. split; [reflexivity|]. cbn [snd]. split; [exact Hc|]. cbn [sp_crit sp_id]. intros _. rewrite Ef. reflexivity.
Qed.
Lemma gstep_skip nd' f (hist' : list (histval O)) b' (x : histval O) (st : num O * split O) : idx hist' b' = Ok x -> snd x = 0%N -> split_step dbg cfg s' nd' f hist' st b' = Ok st.
Proof.
  intros Ex Hz. unfold split_step. rewrite Ex. cbn [rbind]. rewrite Hz. unfold u32_sub. replace (0 <=? nd_count nd')%N with true by (symmetry; apply N.leb_le; lia). cbn [rbind]. apply N.ltb_lt in Hmin. rewrite Hmin. reflexivity.
Qed.
Lemma gfeature nd nd' f st st' r : gnode nd nd' -> f < nf -> gst st st' -> feature_step O dbg cfg s nd st f = Ok r -> exists r', feature_step O dbg cfg s' nd' st' f = Ok r' /\ gst r r'.
Proof.
  intros HN Hf H E. unfold feature_step in *. apply rbind_ok in E as (hist & Eh & E). apply rbind_ok in E as (nb & En & E). pose proof (gn_hists _ _ HN f) as HH. apply idx_ok in Eh. rewrite Eh in HH. destruct (Gcases f) as [Hp|(n & n' & Hg)].
  - unfold idx at 1. rewrite (proj1 HH Hp). cbn [rbind]. rewrite (gnbins_plain f Hp), En. cbn [rbind]. assert (forall b x, idx hist b = Ok x -> idx hist (m f b) = Ok x) as HX by (intros b x; rewrite m_plain by assumption; auto).
    revert st st' H E. generalize (seq 0 nb). induction l as [|b l IHl]; intros a a' H E; cbn [foldM] in *; [apply Ok_eq in E; subst; eauto|]. apply rbind_ok in E as (a2 & E2 & E). destruct (gstep _ _ _ _ _ _ _ _ _ HN Hf Eh HX H E2) as (a2' & E2' & H2). rewrite m_plain in E2' by assumption. rewrite E2'. cbn [rbind]. eapply IHl; eassumption.
  - pose proof (proj2 HH n n' Hg) as HG. destruct (nth_error (nd_hists nd') f) as [hist'|] eqn:Eh'; [|destruct HG]. unfold idx at 1. rewrite Eh'. cbn [rbind]. destruct (gnbins _ _ _ _ Hg En) as (u' & -> & Hu). cbn [rbind]. cbn [GapProofs.both] in HG.
    destruct Hu as [[-> ->]|[-> ->]]; [cbn [seq foldM] in *; apply Ok_eq in E; subst; eauto|].
    assert (forall b x, idx hist b = Ok x -> idx hist' (m f b) = Ok x) as HX by (intros b x; eapply grow_idx, HG).
    assert (filter (fun b' => existsb (fun b => b' =? m f b) (seq 0 n)) (seq 0 n') = map (m f) (seq 0 n)) as HF.
    { pose proof Hg as (_ & _ & _ & _ & _ & Hm & Hlt & _). apply (sorted_ext (m f) Hm); [apply ss_filter, (ss_seq (m f) Hm)|apply (ss_map (m f) Hm), (ss_seq (m f) Hm)|]. intros x. rewrite filter_In, in_map_iff, existsb_exists. split.
      - intros (_ & b & Hb & Eb). apply Nat.eqb_eq in Eb. eauto.
      - intros (b & Eb & Hb). split; [apply in_seq in Hb; apply in_seq; rewrite <- Eb; specialize (Hlt b ltac:(lia)); lia|]. exists b. split; [exact Hb|apply Nat.eqb_eq; congruence]. }
    assert (forall b', In b' (seq 0 n') -> existsb (fun b => b' =? m f b) (seq 0 n) = false -> exists x, idx hist' b' = Ok x /\ snd x = 0%N) as HZ.
    { intros b' Hb' Hx. apply in_seq in Hb'. destruct HG as (_ & L2 & _ & G4). destruct (nth_error hist' b') as [x|] eqn:Ex; [|apply nth_error_None in Ex; lia]. exists x. split; [apply idx_ok; exact Ex|]. eapply G4; [|exact Ex]. intros b Hb Eb. apply Bool.not_true_iff_false in Hx. apply Hx, existsb_exists. exists b. split; [apply in_seq; lia|apply Nat.eqb_eq, Eb]. }
    clear HG En. revert st st' H E. revert HF HZ. generalize (seq 0 n) at 2 4 as l. generalize (seq 0 n') as l'. induction l' as [|b' l' IH]; intros l HF HZ a a' H E.
    + destruct l; [|discriminate]. cbn [foldM] in *. apply Ok_eq in E. subst. eauto.
    + cbn [filter] in HF. cbn [foldM]. destruct (existsb (fun b => b' =? m f b) (seq 0 n)) eqn:Ex.
      * destruct l as [|b l]; [discriminate|]. injection HF as Eb HF. cbn [foldM] in E. apply rbind_ok in E as (a2 & E2 & E). destruct (gstep _ _ _ _ _ _ _ _ _ HN Hf Eh HX H E2) as (a2' & E2' & H2). rewrite Eb, E2'. cbn [rbind]. eapply IH; [exact HF|intros; apply HZ; [right; assumption|assumption]|exact H2|exact E].
      * destruct (HZ b' (or_introl eq_refl) Ex) as (x & E1 & E2). rewrite (gstep_skip nd' f hist' b' x a' E1 E2). cbn [rbind]. eapply IH; [exact HF|intros; apply HZ; [right; assumption|assumption]|exact H|exact E].
Qed.
Lemma gbest nd nd' sp : gnode nd nd' -> find_best_split dbg cfg s nd = Ok sp -> exists sp', find_best_split dbg cfg s' nd' = Ok sp' /\ gsplit sp sp'.
Proof.
  intros HN E. unfold find_best_split in *. rewrite gact. apply rbind_ok in E as (fs & Efs & E). rewrite Efs. cbn [rbind]. apply rbind_ok in E as (st & E & E0). apply Ok_eq in E0. subst sp.
  assert (gst (c_min_gain cfg, split_none O) (c_min_gain cfg, split_none O)) as H0 by (split; [reflexivity|]; split; [|discriminate]; split; [repeat split; reflexivity|]; split; [reflexivity|discriminate]).
  change (foldM (feature_step O dbg cfg s nd) fs (c_min_gain cfg, split_none O) = Ok st) in E. change (exists sp', (let* st0 := foldM (feature_step O dbg cfg s' nd') fs (c_min_gain cfg, split_none O) in Ok (snd st0)) = Ok sp' /\ gsplit (snd st) sp').
  assert (forall l a a' st, (forall f, In f l -> f < nf) -> gst a a' -> foldM (feature_step O dbg cfg s nd) l a = Ok st -> exists st', foldM (feature_step O dbg cfg s' nd') l a' = Ok st' /\ gst st st') as HF.
  { induction l as [|f l IH]; intros a a' st0 Hl H Ef; cbn [foldM] in *; [apply Ok_eq in Ef; subst; eauto|]. apply rbind_ok in Ef as (a1 & E1 & Ef). destruct (gfeature _ _ _ _ _ _ HN (Hl f (or_introl eq_refl)) H E1) as (a1' & -> & H1). cbn [rbind]. eapply IH; [intros; apply Hl; right; assumption|exact H1|exact Ef]. }
  destruct (HF fs _ _ st ltac:(intros f Hf; eapply act_in; eassumption) H0 E) as (st' & -> & H). cbn [rbind]. eexists. split; [reflexivity|apply H].
Qed.
End Learn.
