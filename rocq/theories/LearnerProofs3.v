From Coq Require Import Permutation Sorting.Sorted.
From Verif Require Import Base BaseProofs BitModel BitSpec BitProofs BitProofs2 SimdModel SliceModel SliceSpec SliceProofs SliceProofs2 SliceProps
  CountSumProofs IterModel IterSpec IterProofs Num ScaledModel DataModel Config TreeModel DatasetModel DatasetSpec DatasetProofs LearnerModel LearnerSpec LearnerProofs LearnerProofs2.

(* ---- folds whose steps commute ---- *)
Lemma foldM_perm A T (f : T -> A -> res T) : (forall s a b s1 s2, f s a = Ok s1 -> f s1 b = Ok s2 -> exists s1', f s b = Ok s1' /\ f s1' a = Ok s2) ->
  forall l l', Permutation l l' -> forall s r, foldM f l s = Ok r -> foldM f l' s = Ok r.
Proof.
  intros Hc l l' HP. induction HP as [|x l l' _ IH|x y l|l l' l'' _ IH1 _ IH2]; intros s r H.
  - exact H.
  - cbn [foldM] in *. apply rbind_ok in H as (s1 & E1 & H). rewrite E1. cbn [rbind]. apply IH, H.
  - cbn [foldM] in *. apply rbind_ok in H as (s1 & E1 & H). apply rbind_ok in H as (s2 & E2 & H). destruct (Hc _ _ _ _ _ E1 E2) as (s1' & E1' & E2').
    rewrite E1'. cbn [rbind]. rewrite E2'. exact H.
  - apply IH2, IH1, H.
Qed.

Lemma upd_upd_same A (l : list A) i x y : upd (upd l i x) i y = upd l i y.
Proof. revert i. induction l as [|h t IH]; intros [|i]; cbn [upd]; try reflexivity. rewrite IH. reflexivity. Qed.
Lemma upd_comm A (l : list A) i j x y : i <> j -> upd (upd l i x) j y = upd (upd l j y) i x.
Proof.
  intros H. apply nth_error_ext. intros k. rewrite !nth_error_upd, !upd_length.
  destruct (Nat.eqb_spec i k), (Nat.eqb_spec j k); cbn [andb]; subst; try reflexivity. contradiction.
Qed.

Section Hists.
Variable O : numops.
Variable cfg : config O.
Variable s : dataset O.
Variable bounds : num O * num O.

Lemma run_job_ok (nd : node O) h j h' : run_job cfg s bounds nd h j = Ok h' <->
  exists fm v hist, ds_get_bitvec s (fst j) (snd j) = Ok fm /\ get_grad_sum cfg bounds nd fm = Ok v /\ nth_error h (fst j) = Some hist /\
    snd j < length hist /\ h' = upd h (fst j) (upd hist (snd j) v).
Proof.
  unfold run_job. split.
  - intros H. apply rbind_ok in H as (fm & E1 & H). apply rbind_ok in H as (v & E2 & H). apply rbind_ok in H as (hist & E3 & H). apply rbind_ok in H as (hist' & E4 & H).
    apply idx_ok in E3. apply set_idx_ok in E4 as [Hl ->]. apply set_idx_ok in H as [_ ->]. exists fm, v, hist. auto.
  - intros (fm & v & hist & -> & E2 & E3 & Hl & ->). cbn [rbind]. rewrite E2. cbn [rbind]. rewrite (proj2 (idx_ok _ _ _ _) E3). cbn [rbind].
    rewrite set_idx_lt by exact Hl. cbn [rbind]. apply set_idx_lt. apply nth_error_Some. congruence.
Qed.
Lemma run_job_comm (nd : node O) h a b h1 h2 : run_job cfg s bounds nd h a = Ok h1 -> run_job cfg s bounds nd h1 b = Ok h2 ->
  exists h1', run_job cfg s bounds nd h b = Ok h1' /\ run_job cfg s bounds nd h1' a = Ok h2.
Proof.
  intros Ha Hb. apply run_job_ok in Ha as (fa & va & ha & A1 & A2 & A3 & A4 & ->). apply run_job_ok in Hb as (fb & vb & hb & B1 & B2 & B3 & B4 & ->).
  assert (fst a < length h) as Hla by (apply nth_error_Some; congruence).
  destruct a as [f1 b1], b as [f2 b2]; cbn [fst snd] in *. rewrite nth_error_upd in B3. destruct (Nat.eqb_spec f1 f2) as [<-|Hf].
  - replace (f1 <? length h) with true in B3 by lia. cbn [andb] in B3. injection B3 as <-. rewrite upd_length in B4.
    exists (upd h f1 (upd ha b2 vb)). split; [apply run_job_ok; exists fb, vb, ha; auto|]. apply run_job_ok. exists fa, va, (upd ha b2 vb). cbn [fst snd]. split; [exact A1|]. split; [exact A2|].
    split; [rewrite nth_error_upd, Nat.eqb_refl; replace (f1 <? length h) with true by lia; reflexivity|]. split; [rewrite upd_length; exact A4|]. rewrite !upd_upd_same. f_equal.
    destruct (Nat.eq_dec b1 b2) as [<-|Hb]; [|apply upd_comm; exact Hb]. rewrite A1 in B1. injection B1 as <-. rewrite A2 in B2. injection B2 as <-. reflexivity.
  - cbn [andb] in B3. exists (upd h f2 (upd hb b2 vb)). split; [apply run_job_ok; exists fb, vb, hb; auto|]. apply run_job_ok. exists fa, va, ha. cbn [fst snd]. split; [exact A1|]. split; [exact A2|].
    split; [rewrite nth_error_upd; replace (f2 =? f1) with false by (symmetry; apply Nat.eqb_neq; congruence); exact A3|]. split; [exact A4|]. apply upd_comm; exact Hf.
Qed.

Definition get2 {A} (h : list (list A)) (f b : nat) : option A := match nth_error h f with Some l => nth_error l b | None => None end.
Lemma get2_upd A (h : list (list A)) f hist b v f' b' : nth_error h f = Some hist -> b < length hist ->
  get2 (upd h f (upd hist b v)) f' b' = if (f =? f') && (b =? b') then Some v else get2 h f' b'.
Proof.
  intros E Hb. unfold get2. rewrite nth_error_upd. assert (f < length h) as Hf by (apply nth_error_Some; congruence). replace (f <? length h) with true by lia. rewrite andb_true_r.
  destruct (Nat.eqb_spec f f') as [<-|Hne]; cbn [andb]; [|reflexivity]. rewrite nth_error_upd, E. replace (b <? length hist) with true by lia. rewrite andb_true_r. reflexivity.
Qed.
Lemma map_length_upd A (h : list (list A)) f hist x : nth_error h f = Some hist -> length x = length hist -> map (@length A) (upd h f x) = map (@length A) h.
Proof.
  intros E Hx. apply nth_error_ext. intros k. rewrite !nth_error_map, nth_error_upd. destruct (Nat.eqb_spec f k) as [<-|]; [|reflexivity].
  destruct (f <? length h); [|reflexivity]. cbn [andb option_map]. rewrite E, Hx. reflexivity.
Qed.

Lemma run_jobs_ok (nd : node O) js : forall h h', foldM (run_job cfg s bounds nd) js h = Ok h' ->
  map (@length _) h' = map (@length _) h /\
  (forall f b, In (f, b) js -> exists fm v, ds_get_bitvec s f b = Ok fm /\ get_grad_sum cfg bounds nd fm = Ok v /\ get2 h' f b = Some v) /\
  (forall f b, ~ In (f, b) js -> get2 h' f b = get2 h f b).
Proof.
  induction js as [|j js IH]; intros h h' H; cbn [foldM] in H.
  - injection H as <-. split; [reflexivity|]. split; [intros f b []|reflexivity].
  - apply rbind_ok in H as (h1 & E & H). pose proof E as E0. apply run_job_ok in E as (fm & v & hist & E1 & E2 & E3 & E4 & ->). destruct (IH _ _ H) as (HL & Hin & Hout).
    split; [rewrite HL; apply (map_length_upd _ _ _ hist); [exact E3|apply upd_length]|]. split.
    + intros f b [->|Hj]; [|apply Hin, Hj]. destruct (in_dec (fun x y : nat * nat => ltac:(decide equality; apply Nat.eq_dec)) (f, b) js) as [Hj|Hj]; [apply Hin, Hj|].
      exists fm, v. cbn [fst snd] in *. split; [exact E1|]. split; [exact E2|]. rewrite Hout by exact Hj. rewrite (get2_upd _ _ _ hist) by assumption. rewrite !Nat.eqb_refl. reflexivity.
    + intros f b Hj. rewrite Hout by (intros Hc; apply Hj; right; exact Hc). rewrite (get2_upd _ _ _ hist) by assumption. destruct j as [f0 b0]. cbn [fst snd] in *.
      destruct (Nat.eqb_spec f0 f), (Nat.eqb_spec b0 b); cbn [andb]; try reflexivity. subst. exfalso. apply Hj. left. reflexivity.
Qed.
Lemma run_jobs_total (nd : node O) js : forall h, (forall f b, In (f, b) js -> (exists fm v, ds_get_bitvec s f b = Ok fm /\ get_grad_sum cfg bounds nd fm = Ok v) /\ get2 h f b <> None) ->
  exists h', foldM (run_job cfg s bounds nd) js h = Ok h'.
Proof.
  induction js as [|[f b] js IH]; intros h H; cbn [foldM]; [eexists; reflexivity|].
  destruct (H f b) as [(fm & v & E1 & E2) Hg]; [left; reflexivity|]. unfold get2 in Hg. destruct (nth_error h f) as [hist|] eqn:E3; [|contradiction].
  assert (b < length hist) as Hb by (apply nth_error_Some; exact Hg).
  assert (run_job cfg s bounds nd h (f, b) = Ok (upd h f (upd hist b v))) as -> by (apply run_job_ok; exists fm, v, hist; auto). cbn [rbind].
  apply IH. intros f' b' Hj. destruct (H f' b') as [Hv Hg']; [right; exact Hj|]. split; [exact Hv|]. rewrite (get2_upd _ _ _ hist) by assumption. destruct ((f =? f') && (b =? b')); [discriminate|exact Hg'].
Qed.

Lemma jobs_spec js : jobs s = Ok js -> forall f b, In (f, b) js <-> candidate s f b.
Proof.
  unfold jobs. intros H f b. apply rbind_ok in H as (fs & Efs & H). apply rbind_ok in H as (jss & E & H). injection H as <-. apply mapM_ok in E. unfold candidate.
  split.
  - intros Hin. apply in_concat in Hin as (l & Hl & Hin). assert (exists f0, In f0 fs /\ (let* nb := get_nbins s f0 in Ok (map (pair f0) (seq 0 nb))) = Ok l) as (f0 & Hf0 & E0).
    { clear -E Hl. induction E as [|x y l1 l2 Hxy _ IH]; [destruct Hl|]. destruct Hl as [->|Hl]; [exists x; split; [left; reflexivity|exact Hxy]|]. destruct (IH Hl) as (z & Hz & Ez). exists z. split; [right; exact Hz|exact Ez]. }
    apply rbind_ok in E0 as (nb & Enb & E0). injection E0 as <-. apply in_map_iff in Hin as (b0 & Eb & Hb). injection Eb as -> ->. apply in_seq in Hb. exists fs, nb. repeat split; try assumption. lia.
  - intros (fs' & nb & Efs' & Hf & Enb & Hb). rewrite Efs in Efs'. injection Efs' as <-.
    assert (exists l, In l jss /\ (let* nb := get_nbins s f in Ok (map (pair f) (seq 0 nb))) = Ok l) as (l & Hl & E0).
    { clear -E Hf. induction E as [|x y l1 l2 Hxy _ IH]; [destruct Hf|]. destruct Hf as [->|Hf]; [exists y; split; [left; reflexivity|exact Hxy]|]. destruct (IH Hf) as (z & Hz & Ez). exists z. split; [right; exact Hz|exact Ez]. }
    rewrite Enb in E0. injection E0 as <-. apply in_concat. exists (map (pair f) (seq 0 nb)). split; [exact Hl|]. apply in_map, in_seq. lia.
Qed.
End Hists.

(** What the learner needs of the data set: masks of the right size for all bins in use. *)
Record lds {O} (s : dataset O) (sizes : list nat) : Prop := {
  lds_fs : exists fs, active_features s = Ok fs /\ NoDup fs /\
    forall f, In f fs -> exists nb sz, get_nbins s f = Ok nb /\ nth_error sizes f = Some sz /\ nb <= sz;
  lds_fm : forall f b, candidate s f b -> exists fm, ds_get_bitvec s f b = Ok fm /\ fmask_ok (nactive_examples s) fm
}.

Section Grow.
Variable O : numops.
Variable dbg : bool.
Variable cfg : config O.
Variable s : dataset O.
Variable sizes : list nat.
Variable bounds : num O * num O.
Variable gv : nat -> N.
Notation n := (nactive_examples s).
Notation node_ok := (node_ok O cfg n gv).
Hypothesis Hlds : lds s sizes.
Hypothesis Hw : valid_width (c_discr_nbits cfg) = true.
Hypothesis Hsmall : (N.of_nat n <= 2 ^ 31)%N.

Lemma jobs_ok : exists js, jobs s = Ok js.
Proof.
  destruct (lds_fs _ _ Hlds) as (fs & E & _ & H). unfold jobs. rewrite E. cbn [rbind].
  assert (exists js, mapM (fun f => let* nb := get_nbins s f in Ok (map (pair f) (seq 0 nb))) fs = Ok js) as [js ->]; [|eexists; reflexivity].
  clear E. induction fs as [|f fs IH]; [eexists; reflexivity|]. cbn [mapM]. destruct (H f) as (nb & sz & -> & _); [left; reflexivity|]. cbn [rbind].
  destruct IH as [js ->]; [intros f' Hf'; apply H; right; exact Hf'|]. eexists. reflexivity.
Qed.
Lemma candidate_dec f b : candidate s f b \/ ~ candidate s f b.
Proof.
  destruct jobs_ok as [js E]. pose proof (jobs_spec _ s js E f b) as Hj. destruct (in_dec (fun x y : nat * nat => ltac:(decide equality; apply Nat.eq_dec)) (f, b) js) as [H|H]; rewrite Hj in H; auto.
Qed.

(** Histograms: shape and counts. *)
Record hists_ok (nd : node O) : Prop := {
  ho_shape : map (@length _) (nd_hists nd) = sizes;
  ho_count : forall f b fm v, candidate s f b -> ds_get_bitvec s f b = Ok fm -> bin_of nd f b = Some v ->
    snd v = N.of_nat (length (filter (bbit fm) (members n nd)));
  ho_zero : forall f b v, ~ candidate s f b -> bin_of nd f b = Some v -> snd v = 0%N
}.

Lemma bin_exists (nd : node O) f b : map (@length _) (nd_hists nd) = sizes -> candidate s f b -> exists v, bin_of nd f b = Some v.
Proof using Hlds.
  clear Hsmall Hw gv.
  intros Hs (fs & nb & Efs & Hf & Enb & Hb). destruct (lds_fs _ _ Hlds) as (fs' & E & _ & H). rewrite Efs in E. injection E as <-. destruct (H f Hf) as (nb' & sz & E' & Esz & Hle).
  rewrite Enb in E'. injection E' as <-. rewrite <- Hs, nth_error_map in Esz. unfold bin_of. destruct (nth_error (nd_hists nd) f) as [h|]; [|discriminate]. cbn [option_map] in Esz. injection Esz as <-.
  destruct (nth_error h b) as [v|] eqn:E'; [eexists; reflexivity|]. apply nth_error_None in E'. lia.
Qed.

Lemma same_members (nd nd' : node O) : nd_idx nd' = nd_idx nd -> nd_mask nd' = nd_mask nd -> members n nd' = members n nd.
Proof. intros E1 E2. unfold members. rewrite E1, E2. reflexivity. Qed.
Lemma node_ok_same (nd nd' : node O) : nd_idx nd' = nd_idx nd -> nd_mask nd' = nd_mask nd -> nd_grads nd' = nd_grads nd -> nd_compr nd' = nd_compr nd -> node_ok nd -> node_ok nd'.
Proof. intros E1 E2 E3 E4 H. constructor; rewrite ?E1, ?E2, ?E3, ?E4; apply H. Qed.

(** A freshly built histogram. *)
Lemma build_ok sched nd : (forall js, Permutation js (sched (nd_id nd) js)) -> node_ok nd -> nd_hists nd = map (repeat (hv_default O)) sizes ->
  exists nd', build_histograms cfg s bounds sched nd = Ok nd' /\
    nd_id nd' = nd_id nd /\ nd_count nd' = nd_count nd /\ nd_grad nd' = nd_grad nd /\ nd_idx nd' = nd_idx nd /\ nd_mask nd' = nd_mask nd /\ node_ok nd' /\ members n nd' = members n nd /\
    hists_ok nd' /\
    forall f b fm, candidate s f b -> ds_get_bitvec s f b = Ok fm -> bin_of nd' f b = Some (bin_summary cfg bounds gv (filter (bbit fm) (members n nd))).
Proof.
  intros HS H Hh. unfold build_histograms, width. rewrite Hw. cbn [rassert rbind]. destruct jobs_ok as [js Ejs]. rewrite Ejs. cbn [rbind].
  assert (Hin : forall f b, In (f, b) (sched (nd_id nd) js) <-> candidate s f b).
  { intros f b. rewrite <- (jobs_spec _ s js Ejs). split; apply Permutation_in; [symmetry|]; apply HS. }
  assert (Hval : forall f b, candidate s f b -> exists fm v, ds_get_bitvec s f b = Ok fm /\ get_grad_sum cfg bounds nd fm = Ok v /\ v = bin_summary cfg bounds gv (filter (bbit fm) (members n nd))).
  { intros f b Hc. destruct (lds_fm _ _ Hlds f b Hc) as (fm & E & Hfm). exists fm. eexists. split; [exact E|]. split; [apply (get_grad_sum_ok O cfg n gv); assumption|reflexivity]. }
  assert (map (@length _) (nd_hists nd) = sizes) as Hshape.
  { rewrite Hh, map_map. erewrite map_ext; [apply map_id|]. intros k. apply repeat_length. }
  destruct (run_jobs_total O cfg s bounds nd (sched (nd_id nd) js) (nd_hists nd)) as (h' & Eh).
  { intros f b Hj. apply Hin in Hj. destruct (Hval f b Hj) as (fm & v & E1 & E2 & _). split; [exists fm, v; auto|]. destruct (bin_exists nd f b Hshape Hj) as (v' & E'). unfold get2. unfold bin_of in E'. rewrite E'. discriminate. }
  rewrite Eh. cbn [rbind]. destruct (run_jobs_ok _ _ _ _ _ _ _ _ Eh) as (HL & Hi & Ho).
  eexists. split; [reflexivity|]. cbn [nd_id nd_count nd_grad nd_idx nd_mask]. do 5 (split; [reflexivity|]). split; [eapply node_ok_same; [| | | |exact H]; reflexivity|]. split; [reflexivity|].
  assert (Hbin : forall f b fm, candidate s f b -> ds_get_bitvec s f b = Ok fm -> get2 h' f b = Some (bin_summary cfg bounds gv (filter (bbit fm) (members n nd)))).
  { intros f b fm Hc E. destruct (Hi f b (proj2 (Hin f b) Hc)) as (fm' & v & E1 & E2 & E3). rewrite E in E1. injection E1 as <-. destruct (Hval f b Hc) as (fm'' & v' & F1 & F2 & F3).
    rewrite E in F1. injection F1 as <-. rewrite E3. f_equal. congruence. }
  split; [|exact Hbin]. constructor; cbn [nd_hists].
  - rewrite HL. exact Hshape.
  - intros f b fm v Hc E Hb. unfold bin_of in Hb. cbn [nd_hists] in Hb. fold (get2 h' f b) in Hb. rewrite (Hbin f b fm Hc E) in Hb. injection Hb as <-. reflexivity.
  - intros f b v Hc Hb. unfold bin_of in Hb. cbn [nd_hists] in Hb. fold (get2 h' f b) in Hb. rewrite Ho in Hb by (rewrite Hin; exact Hc). unfold get2 in Hb. rewrite Hh, nth_error_map in Hb.
    destruct (nth_error sizes f) as [sz|]; [|discriminate]. cbn [option_map] in Hb. apply nth_error_In, repeat_spec in Hb. subst. reflexivity.
Qed.

(* ---- the root ---- *)
End Grow.

Lemma iota_u32 nb ix : from_iter 4 (nb * 8) (map N.of_nat (seq 0 (nb * 8))) = Ok ix -> 0 < nb -> (N.of_nat (nb * 8) < 2 ^ 32)%N ->
  wf_blocks ix /\ length ix = nb /\ forall j, j < nb * 8 -> ixw ix j = j.
Proof.
  intros H Hp Hb. unfold from_iter in H. apply rbind_ok in H as (z & _ & H). injection H as <-.
  assert (blocks_required_for (nb * 8 * 4 * 8) = nb) as Enb.
  { destruct (blocks_required_ok (nb * 8 * 4 * 8)) as [H1 H2]. pose proof (H2 nb ltac:(lia)). pose proof (blocks_required_lt (nb * 8 * 4 * 8) ltac:(lia)). lia. }
  rewrite Enb. destruct (fill_from_iter_ok 4 nb ltac:(lia) q4 (map N.of_nat (seq 0 (nb * 8)))) as (W & L & B).
  split; [exact W|]. split; [exact L|]. intros j Hj. unfold ixw.
  assert (u32_at (fill_from_iter 4 nb (map N.of_nat (seq 0 (nb * 8)))) j = N.of_nat j) as ->; [|lia].
  unfold u32_at. erewrite sumf_ext; [rewrite (sumf_testbit_mod 32 (N.of_nat j)); apply N.mod_small; change (2 ^ N.of_nat 32)%N with (2 ^ 32)%N; lia|].
  intros t Ht. cbn beta. rewrite B. replace (32 * j + t <? nb * 256) with true by lia. change (4 * 8) with 32. replace ((32 * j + t) / 32) with j by lia. replace ((32 * j + t) mod 32) with t by lia.
  do 3 f_equal. rewrite (nth_indep _ 0%N (N.of_nat 0)) by (rewrite map_length, seq_length; exact Hj). rewrite map_nth, seq_nth by exact Hj. reflexivity.
Qed.

Section Put.
Variable O : numops.
Variable cfg : config O.
Variable bounds : num O * num O.
Hypothesis Hw : valid_width (c_discr_nbits cfg) = true.
Definition disc (v : num O) : N := Z.to_N (discretise O (c_discr_nbits cfg) v bounds).
Lemma put_all gradients rows : forall a slice sum slice' sum', wf_blocks slice -> a + length rows <= length slice * sbsize (c_discr_nbits cfg) ->
  foldM (put_gradient cfg bounds gradients) (combine (seq a (length rows)) rows) (slice, sum) = Ok (slice', sum') ->
  wf_blocks slice' /\ length slice' = length slice /\
  (forall k j, nth_error rows k = Some j -> exists g, nth_error gradients j = Some g /\ slice_val (c_discr_nbits cfg) (sbsize (c_discr_nbits cfg)) slice' (a + k) = stored_gradient cfg bounds g) /\
  (forall p, p < length slice * sbsize (c_discr_nbits cfg) -> p < a \/ a + length rows <= p -> slice_val (c_discr_nbits cfg) (sbsize (c_discr_nbits cfg)) slice' p = slice_val (c_discr_nbits cfg) (sbsize (c_discr_nbits cfg)) slice p) /\
  sum' = (sum + sumN (map (fun j => match nth_error gradients j with Some g => disc g | None => 0%N end) rows))%N.
Proof.
  set (w := c_discr_nbits cfg) in *. induction rows as [|j rows IH]; intros a slice sum slice' sum' W L H; cbn [length seq combine foldM] in H.
  - injection H as <- <-. split; [exact W|]. split; [reflexivity|]. split; [intros [|k] j; discriminate|]. split; [reflexivity|]. cbn [map sumN]. lia.
  - apply rbind_ok in H as ((sl1 & sum1) & E & H). unfold put_gradient in E. cbn [fst snd] in E. apply rbind_ok in E as (g & Eg & E). apply idx_ok in Eg. apply rbind_ok in E as ((sl & x) & E & E').
    injection E' as <- <-. unfold set_scaled_value in E. apply rbind_ok in E as (sl2 & E & E'). injection E' as <- <-. unfold width in E. cbn [length] in L.
    destruct (get_set_value w slice a (disc g) Hw W) as (v' & Ev & Wv & Lv & Gv & Fv); [lia|]. change (discretise O (width cfg) g bounds) with (discretise O w g bounds) in *. unfold disc in Ev. fold w in E, Ev. rewrite Ev in E. injection E as <-.
    destruct (IH (S a) v' (sum + Z.to_N (discretise O w g bounds))%N slice' sum' Wv) as (W' & L' & A1 & A2 & A3); [lia|exact H|]. split; [exact W'|]. split; [lia|]. split; [|split].
    + intros [|k] j0 Ej; cbn [nth_error] in Ej.
      * injection Ej as <-. exists g. split; [exact Eg|]. rewrite A2 by (unfold blocks in *; rewrite ?Lv; lia). rewrite get_value_ok in Gv by (try assumption; unfold blocks in *; rewrite ?Lv; lia). injection Gv as Gv. rewrite Nat.add_0_r. exact Gv.
      * rewrite <- plus_n_Sm. apply A1, Ej.
    + intros p Hp Hr. cbn [length] in Hr. rewrite A2 by (unfold blocks in *; rewrite ?Lv; lia). assert (get_value w v' p = get_value w slice p) as Hg by (apply Fv; lia). rewrite !get_value_ok in Hg by (try assumption; unfold blocks in *; rewrite ?Lv; lia). congruence.
    + rewrite A3. cbn [map sumN]. rewrite Eg. unfold disc. fold w. lia.
Qed.

Lemma put_total gradients rows : forall a slice sum, wf_blocks slice -> a + length rows <= length slice * sbsize (c_discr_nbits cfg) -> (forall j, In j rows -> j < length gradients) ->
  exists r, foldM (put_gradient cfg bounds gradients) (combine (seq a (length rows)) rows) (slice, sum) = Ok r.
Proof.
  set (w := c_discr_nbits cfg) in *. induction rows as [|j rows IH]; intros a slice sum W L Hj; cbn [length seq combine foldM]; [eauto|]. cbn [length] in L.
  unfold put_gradient at 1. cbn [fst snd]. destruct (nth_error gradients j) as [g|] eqn:Eg; [|apply nth_error_None in Eg; specialize (Hj j (or_introl eq_refl)); lia].
  rewrite (proj2 (idx_ok _ _ _ _) Eg). cbn [rbind]. unfold set_scaled_value, width. fold w.
  destruct (get_set_value w slice a (Z.to_N (discretise O w g bounds)) Hw W) as (v' & Ev & Wv & Lv & _); [lia|]. rewrite Ev. cbn [rbind].
  apply IH; [exact Wv|unfold blocks in *; rewrite Lv; lia|]. intros j' Hj'. apply Hj. right. exact Hj'.
Qed.
End Put.

Section Rows.
Variable O : numops.
Variable s : dataset O.
Notation n := (nactive_examples s).
Lemma rows_length rows : example_rows s = Ok rows -> length rows = n.
Proof.
  unfold example_rows. destruct (example_sampling_enabled s).
  - unfold active_examples. intros H. apply subslice_ok in H as (H1 & H2 & ->). rewrite sub_length by lia. lia.
  - intros H. injection H as <-. apply seq_length.
Qed.
Lemma examples_list rows : example_rows s = Ok rows -> active_examples_list s = Ok (combine (seq 0 (length rows)) rows).
Proof.
  unfold example_rows, active_examples_list. destruct (example_sampling_enabled s).
  - intros ->. reflexivity.
  - intros H. injection H as <-. rewrite seq_length. f_equal. generalize (nactive_examples s) as m. intros m. generalize 0 as a. induction m as [|m IH]; intros a; [reflexivity|]. cbn [seq map combine]. rewrite IH. reflexivity.
Qed.
Lemma examples_rows ex : active_examples_list s = Ok ex -> exists rows, example_rows s = Ok rows.
Proof.
  unfold example_rows, active_examples_list. destruct (example_sampling_enabled s); [|intros _; eexists; reflexivity]. intros H. apply rbind_ok in H as (a & -> & _). eexists; reflexivity.
Qed.

End Rows.
Lemma slice_val_zero w0 S0 k p : slice_val w0 S0 (repeat bb_zeros k) p = 0%N.
Proof.
  unfold slice_val. apply sumf_zero. intros l _. assert (wf_block bb_zeros) as Wz by (split; [reflexivity|]; apply Forall_forall; intros x Hx; apply repeat_spec in Hx; subst; reflexivity).
  rewrite bbit_repeat by exact Wz. destruct (_ <? _); [|cbn [b2n]; lia]. unfold bitAt, bb_zeros. rewrite nth_repeat, N.bits_0. cbn [b2n]. lia.
Qed.

Lemma filter_all_true A (l : list A) : filter (fun _ => true) l = l.
Proof. induction l as [|x l IH]; [reflexivity|]. cbn [filter]. rewrite IH. reflexivity. Qed.

Section Root.
Variable O : numops.
Variable dbg : bool.
Variable cfg : config O.
Variable s : dataset O.
Variable sizes : list nat.
Variable bounds : num O * num O.
Notation n := (nactive_examples s).
Hypothesis Hlds : lds s sizes.
Hypothesis Hw : valid_width (c_discr_nbits cfg) = true.
Hypothesis Hsmall : (N.of_nat n <= 2 ^ 31)%N.

(** The node built at the root before its histograms are filled in. *)
Lemma root_node gradients rows mask ix grads sum h gr : example_rows s = Ok rows -> 0 < n -> one_bits n = Ok mask ->
  from_iter 4 (block_len 4 mask) (map N.of_nat (seq 0 (block_len 4 mask))) = Ok ix ->
  foldM (put_gradient cfg bounds gradients) (combine (seq 0 (length rows)) rows) (repeat bb_zeros (blocks_required_for n * c_discr_nbits cfg), 0%N) = Ok (grads, sum) ->
  (forall j, In j rows -> j < length gradients) /\ node_ok O cfg n (gradient_at cfg bounds gradients rows) (mk_node 0 (N.of_nat n) gr false h ix mask grads) /\ members n (mk_node 0 (N.of_nat n) gr false h ix mask grads) = seq 0 n /\ sum = sumN (map (fun j => match nth_error gradients j with Some g => disc O cfg bounds g | None => 0%N end) rows).
Proof.
  intros Erows Hn Em Eix Eg. pose proof (rows_length O s rows Erows) as Lr.
  pose proof (N0_bound O cfg n (fun _ => 0%N) Hsmall) as HN0. destruct (blocks_required_ok n) as [Hbr _]. pose proof (blocks_required_pos n Hn) as HN0p.
  destruct (one_bits_ok n Hn) as (m' & Em' & Wm & Lm & Bm). rewrite Em in Em'. injection Em' as <-.
  rewrite blen4, Lm in Eix. apply iota_u32 in Eix as (Wix & Lix & Hix); [|exact HN0p|change (2 ^ 32)%N with 4294967296%N; lia].
  destruct (width_sb (c_discr_nbits cfg) Hw) as (Hw1 & Hw2 & Hw3 & Hw4). assert (0 < c_discr_nbits cfg) as Hwp by (destruct (c_discr_nbits cfg); lia).
  assert (wf_block bb_zeros) as Wz by (split; [reflexivity|]; apply Forall_forall; intros y Hy; apply repeat_spec in Hy; rewrite Hy; reflexivity).
  apply (put_all O cfg bounds Hw) in Eg as (Wg & Lg & G1 & G2 & G3); [|apply wf_repeat, Wz|rewrite repeat_length, <- Nat.mul_assoc, Hw1; lia]. rewrite repeat_length in Lg, G2.
  split. { intros j Hj. apply In_nth_error in Hj as (k & Ek). destruct (G1 k j Ek) as (g & Eg & _). apply nth_error_Some. congruence. }
  set (gv := gradient_at cfg bounds gradients rows). set (nd0 := mk_node _ _ _ _ _ _ _ _).
  assert (node_ok O cfg n gv nd0) as H0.
  { constructor; unfold nd0; cbn [nd_idx nd_mask nd_grads nd_compr]; try assumption; try lia.
    - rewrite Lix. intros j Hj. rewrite Hix by exact Hj. exact Hj.
    - intros i j Hij Hj _. rewrite Lix in Hj. pose proof (Hix i ltac:(lia)). pose proof (Hix j Hj). unfold ixw in *. lia.
    - intros _. split; [exact Lix|]. exact Hix.
    - rewrite Lix. intros p Hp Hb. rewrite Bm in Hb. unfold expand_pos. rewrite Hix by lia. lia.
    - rewrite Lix. intros p Hp Hb. rewrite Bm in Hb. apply Nat.ltb_lt in Hb. unfold expand_pos. rewrite Hix by lia. replace (32 * (p / 32) + p mod 32) with p by lia.
      unfold gv, gradient_at. destruct (nth_error rows p) as [j|] eqn:Ej; [|apply nth_error_None in Ej; lia]. destruct (G1 p j Ej) as (g & -> & Hg). exact Hg. }
  split; [exact H0|]. split; [|rewrite G3; reflexivity].
  unfold members. rewrite <- (compr_members n) by apply H0. unfold nd0. cbn [nd_idx nd_mask]. unfold positions_compr. rewrite Lix.
  rewrite (filter_ext_in (bbit mask) (fun p => p <? n)) by (intros p _; apply Bm). rewrite (filter_seq_split O cfg (fun _ => 0%N) (fun p => p <? n) n) by exact Hbr.
  rewrite (filter_none _ (fun p => p <? n) (seq n _)) by (intros y Hy; apply in_seq in Hy; lia). rewrite app_nil_r.
  rewrite (filter_ext_in (fun p => p <? n) (fun _ => true)) by (intros y Hy; apply in_seq in Hy; apply Nat.ltb_lt; lia). rewrite filter_all_true.
  erewrite map_ext_in; [apply map_id|]. intros p Hp. apply in_seq in Hp. unfold expand_pos. rewrite Hix by lia. lia.
Qed.

Lemma root_ok sched gradients root : (forall k js, Permutation js (sched k js)) -> get_root_n2s cfg s sizes bounds sched gradients = Ok root ->
  exists rows, example_rows s = Ok rows /\ 0 < n /\ 0 < list_sum sizes /\ (forall j, In j rows -> j < length gradients) /\
  let gv := gradient_at cfg bounds gradients rows in
  node_ok O cfg n gv root /\ hists_ok O s sizes root /\ members n root = seq 0 n /\ nd_id root = 0 /\ nd_count root = N.of_nat n /\
  (forall f b fm, candidate s f b -> ds_get_bitvec s f b = Ok fm -> bin_of root f b = Some (bin_summary cfg bounds gv (filter (bbit fm) (members n root)))) /\
  nd_grad root = linproj O (c_discr_nbits cfg) (nofN O (sumN (map (fun j => match nth_error gradients j with Some g => disc O cfg bounds g | None => 0%N end) rows))) (nofnat O n) bounds.
Proof.
  intros HS H. unfold get_root_n2s, width in H. rewrite Hw in H. cbn [rassert rbind] in H.
  apply rbind_ok in H as (g0 & Eg0 & H). apply rbind_ok in H as (mask & Em & H). apply rbind_ok in H as (ix & Eix & H). apply rbind_ok in H as (? & _ & H).
  apply rbind_ok in H as (ex & Eex & H). apply rbind_ok in H as ((grads & sum) & Eg & H). apply rbind_ok in H as (h & Eh & H).
  destruct (examples_rows O s ex Eex) as (rows & Erows). exists rows. split; [exact Erows|].
  rewrite (examples_list O s rows Erows) in Eex. injection Eex as <-.
  assert (0 < n) as Hn. { destruct (Nat.eq_dec n 0) as [E0|]; [|lia]. rewrite E0 in Em. discriminate Em. } split; [exact Hn|].
  unfold alloc_hists in Eh. apply rbind_ok in Eh as (? & Esz & Eh). apply rassert_ok, Nat.ltb_lt in Esz. injection Eh as <-. split; [exact Esz|].
  assert (0 < c_discr_nbits cfg) as Hwp by (destruct (c_discr_nbits cfg); [discriminate Hw|lia]). pose proof (blocks_required_pos n Hn) as HN0p. rewrite zero_blocks_ok in Eg0 by nia. injection Eg0 as <-.
  destruct (root_node gradients rows mask ix grads sum (map (repeat (hv_default O)) sizes) (linproj O (c_discr_nbits cfg) (nofN O sum) (nofnat O n) bounds) Erows Hn Em Eix Eg) as (Hlt & H0 & Hmem & Hsum).
  split; [exact Hlt|]. cbv zeta. set (gv := gradient_at cfg bounds gradients rows) in *. set (nd0 := mk_node _ _ _ _ _ _ _ _) in *. fold nd0 in H.
  destruct (build_ok O cfg s sizes bounds gv Hlds Hw Hsmall sched nd0 (HS _) H0 eq_refl) as (r & Er & R1 & R2 & R3 & R4 & R5 & R6 & R7 & R8 & R9). rewrite Er in H. injection H as <-.
  split; [exact R6|]. split; [exact R8|]. split; [rewrite R7; exact Hmem|]. split; [exact R1|]. split; [exact R2|]. split; [rewrite R7; exact R9|]. rewrite R3. unfold nd0. cbn [nd_grad]. rewrite Hsum. reflexivity.
Qed.

(** It exists. *)
Lemma root_total sched gradients rows : (forall k js, Permutation js (sched k js)) -> example_rows s = Ok rows -> 0 < n -> 0 < list_sum sizes ->
  (forall j, In j rows -> j < length gradients) -> exists root, get_root_n2s cfg s sizes bounds sched gradients = Ok root.
Proof.
  intros HS Erows Hn Hsz Hj. unfold get_root_n2s, width. rewrite Hw. cbn [rassert rbind]. pose proof (rows_length O s rows Erows) as Lr.
  pose proof (N0_bound O cfg n (fun _ => 0%N) Hsmall) as HN0. destruct (blocks_required_ok n) as [Hbr _]. pose proof (blocks_required_pos n Hn) as HN0p.
  destruct (width_sb (c_discr_nbits cfg) Hw) as (Hw1 & Hw2 & Hw3 & Hw4). assert (0 < c_discr_nbits cfg) as Hwp by (destruct (c_discr_nbits cfg); lia).
  assert (wf_block bb_zeros) as Wz by (split; [reflexivity|]; apply Forall_forall; intros y Hy; apply repeat_spec in Hy; rewrite Hy; reflexivity).
  rewrite zero_blocks_ok by nia. cbn [rbind]. destruct (one_bits_ok n Hn) as (mask & Em & Wm & Lm & Bm). rewrite Em. cbn [rbind].
  assert (exists ix, from_iter 4 (block_len 4 mask) (map N.of_nat (seq 0 (block_len 4 mask))) = Ok ix) as (ix & Eix).
  { unfold from_iter. rewrite blen4, Lm. destruct (blocks_required_ok (blocks_required_for n * 8 * 4 * 8)) as [Hq _]. rewrite zero_blocks_ok by lia. cbn [rbind]. eauto. }
  rewrite Eix. cbn [rbind]. replace (N.of_nat n <? 4294967295)%N with true by (symmetry; apply N.ltb_lt; change (2 ^ 31)%N with 2147483648%N in Hsmall; lia). cbn [rassert rbind].
  rewrite (examples_list O s rows Erows). cbn [rbind].
  match goal with |- context[foldM ?f ?l ?s0] => assert (exists r, foldM f l s0 = Ok r) as ((grads & sum) & Eg) end.
  { apply (put_total O cfg bounds Hw); [apply wf_repeat, Wz|rewrite repeat_length, <- Nat.mul_assoc, Hw1; lia|exact Hj]. }
  rewrite Eg. cbn [rbind]. unfold alloc_hists. replace (0 <? list_sum sizes) with true by (symmetry; apply Nat.ltb_lt, Hsz). cbn [rassert rbind].
  destruct (root_node gradients rows mask ix grads sum (map (repeat (hv_default O)) sizes) (linproj O (c_discr_nbits cfg) (nofN O sum) (nofnat O n) bounds) Erows Hn Em Eix Eg) as (Hlt & H0 & Hmem & Hsum).
  destruct (build_ok O cfg s sizes bounds (gradient_at cfg bounds gradients rows) Hlds Hw Hsmall sched _ (HS _) H0 eq_refl) as (r & Er & _). eauto.
Qed.
End Root.
