(** The functions of the learner on stores and on separate arrays have the same outcome. *)
From Coq Require Import Sorting.Permutation.
From Verif Require Import Base BaseProofs BitModel BitProofs BitProofs2 SliceModel IterModel StoreModel StoreProofs StoreProofs2 StoreProofs3 Num ScaledModel DataModel Config TreeModel DatasetModel LearnerModel NodeStoreModel NodeStoreProofs1 NodeStoreProofs2.

Lemma to_blocks_length n : forall m, length (to_blocks n m) = n.
Proof. induction n as [|n IH]; intros m; cbn; [reflexivity|]. rewrite IH. reflexivity. Qed.
Lemma bs_set_length k bs i v bs' : bs_set k bs i v = Ok bs' -> length bs' = length bs.
Proof. unfold bs_set. intros H. apply rbind_ok in H as (m & _ & H). injection H as <-. apply to_blocks_length. Qed.
Lemma set_value_length w vec i v vec' : set_value w vec i v = Ok vec' -> length vec' = length vec.
Proof. unfold set_value. destruct (get_bit_indices w i) as [[sb a] b]. intros H. apply rbind_ok in H as (m & _ & H). injection H as <-. apply to_blocks_length. Qed.
Lemma copy_block_length w dst other a b dst' : copy_block_from w dst other a b = Ok dst' -> length dst' = length dst.
Proof. unfold copy_block_from. destruct (get_indices w a), (get_indices w b). intros H. apply rbind_ok in H as (m & _ & H). injection H as <-. apply to_blocks_length. Qed.
Lemma mask_tail_length n bs bs' : mask_tail n bs = Ok bs' -> length bs' = length bs.
Proof.
  unfold mask_tail. rewrite <- (rev_length bs). destruct (rev bs) as [|last fr] eqn:E.
  - intros H. injection H as <-. rewrite <- (rev_length bs), E. reflexivity.
  - intros H. apply rbind_ok in H as (l & _ & H). injection H as <-. rewrite app_length, rev_length. cbn. lia.
Qed.
Lemma fill_length k n : forall it, length (fill_from_iter k n it) = n.
Proof. induction n as [|n IH]; intros it; cbn; [reflexivity|]. destruct (bb_from_iter k it) as [[a b] c]. cbn. rewrite IH. reflexivity. Qed.
Lemma foldM_inv {A S} (P : S -> Prop) (f : S -> A -> res S) (l : list A) : (forall s a s', In a l -> P s -> f s a = Ok s' -> P s') -> forall s s', P s -> foldM f l s = Ok s' -> P s'.
Proof.
  induction l as [|a l IH]; intros H s s' Hs E; cbn in E; [injection E as <-; exact Hs|]. apply rbind_ok in E as (s1 & E1 & E). eapply IH; [|eapply H; [left; reflexivity|exact Hs|exact E1]|exact E].
  intros ? ? ? Hin. apply H. right. exact Hin.
Qed.
(** Folds of two functions that agree. *)
Lemma foldM_ext {A S} (f g : S -> A -> res S) l : (forall s a, In a l -> f s a = g s a) -> forall s, foldM f l s = foldM g l s.
Proof.
  induction l as [|a l IH]; intros H s; cbn; [reflexivity|]. rewrite H by (left; reflexivity). destruct (g s a); try reflexivity. cbn. apply IH. intros. apply H. right. assumption.
Qed.

Section Sim.
Variable O : numops.
Variable dbg : bool.
Variable cfg : config O.
Variable s : dataset O.
Variable sizes : list nat.
Variable bounds : num O * num O.
Variable sched : nat -> list job -> list job.
Variables B peak : nat.
Hypothesis bins_fit : (N.of_nat (peak * (list_sum sizes + 2)) <= U32_MAX)%N.
Notation w := (c_discr_nbits cfg).
Notation pairs := (list (snode O * node O)).
Implicit Types (sn : snode O) (nd : node O) (c : ctx O) (ps : pairs).

Record rel sn nd : Prop := {
  r_id : sn_id sn = nd_id nd;
  r_count : sn_count sn = nd_count nd;
  r_grad : sn_grad sn = nd_grad nd;
  r_compr : sn_compr sn = nd_compr nd;
  r_sizes : map (@length (histval O)) (nd_hists nd) = sizes;
  r_idx : length (nd_idx nd) <= B;
  r_grads : exists q, length (nd_grads nd) = q * w /\ q <= B
}.
Record holds c ps (km kg : nat) : Prop := {
  h_layout : hs_layout (cx_hist c) = 0 :: layout_from 0 sizes;
  h_hist : uniform (list_sum sizes) peak (hs_store (cx_hist c)) (map (fun p => (sn_hists (fst p), concat (nd_hists (snd p)))) ps);
  h_mask : owns (cx_mask c) (map (fun p => (sn_mask (fst p), nd_mask (snd p))) ps);
  h_maskf : fits B km (cx_mask c);
  h_idx : exists Hi, owns (cx_idx c) Hi /\ fits B kg (cx_idx c) /\ forall p, In p ps -> In (sn_idx (fst p), nd_idx (snd p)) Hi;
  h_grad : exists Hg, owns (cx_grad c) Hg /\ fits (B * w) kg (cx_grad c) /\ forall p, In p ps -> In (sn_grads (fst p), nd_grads (snd p)) Hg;
  h_rel : forall p, In p ps -> rel (fst p) (snd p)
}.
Lemma holds_perm c ps ps' km kg : Permutation ps ps' -> holds c ps km kg -> holds c ps' km kg.
Proof.
  intros P [A1 A2 A3 A4 (Hi & A5 & A6 & A7) (Hg & A8 & A9 & A10) A11]. assert (forall p, In p ps' -> In p ps) as Hin by (intros p Hp; eapply Permutation_in; [symmetry; exact P|exact Hp]).
  constructor; try assumption.
  - eapply uniform_perm; [apply Permutation_map, P|exact A2].
  - eapply owns_perm; [apply Permutation_map, P|exact A3].
  - exists Hi. auto.
  - exists Hg. auto.
  - auto.
Qed.
Lemma holds_less c ps km kg km' kg' : km' <= km -> kg' <= kg -> holds c ps km kg -> holds c ps km' kg'.
Proof.
  intros L1 L2 [A1 A2 A3 A4 (Hi & A5 & A6 & A7) (Hg & A8 & A9 & A10) A11]. constructor; try assumption.
  - eapply fits_less; eassumption.
  - exists Hi. split; [assumption|]. split; [eapply fits_less; eassumption|assumption].
  - exists Hg. split; [assumption|]. split; [eapply fits_less; eassumption|assumption].
Qed.
Lemma get_mask c ps km kg sn nd : holds c ps km kg -> In (sn, nd) ps -> get_bitvec (cx_mask c) (sn_mask sn) = Ok (nd_mask nd).
Proof. intros H Hin. eapply owns_get; [exact (h_mask _ _ _ _ H)|]. apply (in_map (fun p => (sn_mask (fst p), nd_mask (snd p)))) in Hin. exact Hin. Qed.
Lemma get_idx c ps km kg sn nd : holds c ps km kg -> In (sn, nd) ps -> get_bitvec (cx_idx c) (sn_idx sn) = Ok (nd_idx nd).
Proof. intros H Hin. destruct (h_idx _ _ _ _ H) as (Hi & A & _ & C). eapply owns_get; [exact A|]. exact (C _ Hin). Qed.
Lemma get_grads c ps km kg sn nd : holds c ps km kg -> In (sn, nd) ps -> get_bitslice dbg cfg (cx_grad c) (sn_grads sn) = Ok (nd_grads nd).
Proof.
  intros H Hin. destruct (h_grad _ _ _ _ H) as (Hg & A & _ & C). pose proof (C _ Hin) as G. cbn [fst snd] in G. unfold get_bitslice. destruct (owns_len _ _ _ _ A G) as (L & L1 & _). rewrite <- L.
  destruct (r_grads _ _ (h_rel _ _ _ _ H _ Hin)) as (q & Eq & _). cbn [snd] in Eq. rewrite Eq.
  assert (q * w mod w = 0) as Em. { destruct w as [|w0] eqn:Ew; [rewrite Nat.mul_0_r; reflexivity|]. apply Nat.mod_mul. lia. }
  rewrite Em, Nat.eqb_refl, Bool.orb_true_r. cbn [rassert rbind]. eapply owns_get; eassumption.
Qed.
Lemma get_hists c ps km kg sn nd f : holds c ps km kg -> In (sn, nd) ps -> get_hist (cx_hist c) (sn_hists sn) f = idx (nd_hists nd) f.
Proof.
  intros H Hin. pose proof (h_layout _ _ _ _ H) as L. pose proof (U_owns _ _ _ _ (h_hist _ _ _ _ H)) as A. destruct (cx_hist c) as [st ly] eqn:Ec. cbn [hs_layout hs_store] in *. subst ly.
  apply (get_hist_sim sizes st _ _ _ _ A); [|exact (r_sizes _ _ (h_rel _ _ _ _ H _ Hin))]. apply (in_map (fun p => (sn_hists (fst p), concat (nd_hists (snd p))))) in Hin. exact Hin.
Qed.

(** What the loops use of a node. *)
Lemma grad_sum_ext nd nd' fm : nd_compr nd = nd_compr nd' -> nd_mask nd = nd_mask nd' -> (nd_compr nd' = true -> nd_idx nd = nd_idx nd') -> nd_grads nd = nd_grads nd' ->
  get_grad_sum cfg bounds nd fm = get_grad_sum cfg bounds nd' fm.
Proof. intros E1 E2 E3 E4. unfold get_grad_sum. rewrite E1, E2, E4. destruct (nd_compr nd'); [rewrite E3 by reflexivity|]; reflexivity. Qed.
Lemma read_ok c ps km kg sn nd : holds c ps km kg -> In (sn, nd) ps -> exists ix, read_idx c sn = Ok ix /\ (nd_compr nd = true -> ix = nd_idx nd).
Proof.
  intros H Hin. pose proof (h_rel _ _ _ _ H _ Hin) as HR. cbn [fst snd] in HR. unfold read_idx. rewrite (r_compr _ _ HR). destruct (nd_compr nd).
  - rewrite (get_idx _ _ _ _ _ _ H Hin). eauto.
  - exists []. split; [reflexivity|discriminate].
Qed.

(** Building the histograms of the first node. *)
Definition set_hists nd h : node O := mk_node (nd_id nd) (nd_count nd) (nd_grad nd) (nd_compr nd) h (nd_idx nd) (nd_mask nd) (nd_grads nd).
Lemma build_sim c ps km kg sn nd : holds c ((sn, nd) :: ps) km kg ->
  sim (fun c' nd' => holds c' ((sn, nd') :: ps) km kg) (s_build_histograms dbg cfg s bounds sched c sn) (build_histograms cfg s bounds sched nd).
Proof.
  intros H. pose proof (or_introl eq_refl : In (sn, nd) ((sn, nd) :: ps)) as Hin. pose proof (h_rel _ _ _ _ H _ Hin) as HR. cbn [fst snd] in HR.
  unfold s_build_histograms, build_histograms. unfold width. apply sim_same. intros _ _. apply sim_same. intros js _. rewrite (r_id _ _ HR).
  destruct (read_ok _ _ _ _ _ _ H Hin) as (ix & Eix & Hix).
  eapply sim_bind with (Q := fun h hs => hs_layout h = 0 :: layout_from 0 sizes /\
    uniform (list_sum sizes) peak (hs_store h) ((sn_hists sn, concat hs) :: map (fun p => (sn_hists (fst p), concat (nd_hists (snd p)))) ps) /\ map (@length (histval O)) hs = sizes).
  - apply sim_foldM.
    + intros h hs [f b] _ (L & U & Sz). unfold s_run_job, run_job. cbn [fst snd]. apply sim_same. intros fm _. rewrite (get_mask _ _ _ _ _ _ H Hin). cbn [rbind]. rewrite (get_grads _ _ _ _ _ _ H Hin). cbn [rbind]. rewrite Eix. cbn [rbind].
      rewrite (grad_sum_ext (with_contents sn ix (nd_mask nd) (nd_grads nd)) nd fm); [|exact (r_compr _ _ HR)|reflexivity|exact Hix|reflexivity]. apply sim_same. intros v _.
      destruct h as [st ly]. cbn [hs_layout hs_store] in *. subst ly. apply put_hist_sim; assumption.
    + split; [exact (h_layout _ _ _ _ H)|]. split; [exact (h_hist _ _ _ _ H)|exact (r_sizes _ _ HR)].
  - intros h hs _ _ (L & U & Sz). cbn [sim]. destruct H as [A1 A2 A3 A4 (Hi & A5 & A6 & A7) (Hg & A8 & A9 & A10) A11].
    constructor; cbn [cx_hist cx_mask cx_idx cx_grad map fst snd nd_mask nd_hists]; try assumption.
    + exists Hi. split; [assumption|]. split; [assumption|]. intros p [<-|Hp]; [exact (A7 _ (or_introl eq_refl))|apply A7; right; exact Hp].
    + exists Hg. split; [assumption|]. split; [assumption|]. intros p [<-|Hp]; [exact (A10 _ (or_introl eq_refl))|apply A10; right; exact Hp].
    + intros p [<-|Hp]; [|apply A11; right; exact Hp]. cbn [fst snd]. destruct HR. constructor; cbn; assumption.
Qed.

(** Choosing the split. *)
Lemma split_step_ext nd nd' f hist st b : nd_count nd = nd_count nd' -> nd_grad nd = nd_grad nd' -> split_step dbg cfg s nd f hist st b = split_step dbg cfg s nd' f hist st b.
Proof. intros E1 E2. unfold split_step. rewrite E1, E2. reflexivity. Qed.
Lemma find_same c ps km kg sn nd : holds c ps km kg -> In (sn, nd) ps -> s_find_best_split dbg cfg s c sn = find_best_split dbg cfg s nd.
Proof.
  intros H Hin. pose proof (h_rel _ _ _ _ H _ Hin) as HR. cbn [fst snd] in HR. unfold s_find_best_split, find_best_split. destruct (active_features s) as [fs| | |]; try reflexivity. cbn [rbind]. f_equal.
  apply foldM_ext. intros st f _. rewrite (get_hists _ _ _ _ _ _ f H Hin). destruct (idx (nd_hists nd) f); try reflexivity. cbn [rbind]. destruct (get_nbins s f); try reflexivity. cbn [rbind].
  apply foldM_ext. intros st' b _. apply split_step_ext; [exact (r_count _ _ HR)|exact (r_grad _ _ HR)].
Qed.

(** Allocations. *)
Lemma snode_new_sim c H id : hs_layout (cx_hist c) = 0 :: layout_from 0 sizes -> uniform (list_sum sizes) peak (hs_store (cx_hist c)) H -> length H < peak ->
  sim (fun r h => map (@length (histval O)) h = sizes /\ cx_idx (snd r) = cx_idx c /\ cx_mask (snd r) = cx_mask c /\ cx_grad (snd r) = cx_grad c /\ hs_layout (cx_hist (snd r)) = 0 :: layout_from 0 sizes /\
      uniform (list_sum sizes) peak (hs_store (cx_hist (snd r))) ((sn_hists (fst r), concat h) :: H))
    (snode_new id c) (alloc_hists O sizes).
Proof.
  intros HL HU Hp. unfold snode_new, StoreModel.alloc_hists, alloc_hists. rewrite HL, hist_last. cbn [rbind].
  destruct (Nat.ltb_spec 0 (list_sum sizes)) as [Hpos|Hz]; cbn [rassert rbind].
  - destruct (uniform_alloc _ _ _ _ (hv_default O) HU Hpos) as (st & r & E & U); [exact Hp|exact bins_fit|]. rewrite E. cbn [rbind sim fst snd cx_idx cx_mask cx_grad cx_hist hs_layout hs_store sn_hists].
    assert (concat (map (repeat (hv_default O)) sizes) = repeat (hv_default O) (list_sum sizes)) as Ec.
    { clear. induction sizes as [|n t IH]; [reflexivity|]. cbn [map concat]. rewrite IH, list_sum_cons, repeat_app. reflexivity. }
    rewrite Ec. split; [rewrite map_map; rewrite <- (map_id sizes) at 2; apply map_ext; intros n; apply repeat_length|]. auto.
  - unfold alloc_slice. destruct (Nat.ltb_spec 0 (list_sum sizes)); [lia|]. cbn. exact I.
Qed.
Lemma zero_blocks_sim (st : bstore) H n Bn k : owns st H -> fits Bn (S k) st -> n <= Bn ->
  sim (fun r b => b = repeat bb_zeros n /\ 0 < n /\ owns (fst r) ((snd r, repeat bb_zeros n) :: H) /\ fits Bn k (fst r)) (alloc_zero_blocks st n) (zero_blocks n).
Proof.
  intros HO HF Hn. unfold alloc_zero_blocks, zero_blocks. assert ((N.of_nat n <? U32_MAX)%N = true) as -> by (unfold fits in HF; lia). cbn [rassert rbind].
  destruct (Nat.ltb_spec 0 n); cbn [rassert rbind].
  - destruct (owns_alloc Bn k st H n bb_zeros HO HF) as (st' & r & E & O' & F'); [lia|]. rewrite E. cbn. auto.
  - unfold alloc_slice. destruct (Nat.ltb_spec 0 n); [lia|]. exact I.
Qed.
Lemma one_bits_sim (st : bstore) H n Bn k : owns st H -> fits Bn (S k) st -> blocks_required_for n <= Bn ->
  sim (fun r b => length b = blocks_required_for n /\ owns (fst r) ((snd r, b) :: H) /\ fits Bn k (fst r)) (alloc_one_bits st n) (one_bits n).
Proof.
  intros HO HF Hn. unfold alloc_one_bits, alloc_one_blocks, one_bits, one_blocks. set (m := blocks_required_for n) in *. assert ((N.of_nat m <? U32_MAX)%N = true) as -> by (unfold fits in HF; lia). cbn [rassert rbind].
  destruct (Nat.ltb_spec 0 m); cbn [rassert rbind].
  - destruct (owns_alloc Bn k st H m bb_ones HO HF) as (st' & r & E & O' & F'); [lia|]. rewrite E. cbn [rbind]. rewrite (owns_get _ _ _ _ O' (or_introl eq_refl)). cbn [rbind].
    replace (mask_tail n (repeat bb_ones m)) with (rbind (mask_tail n (repeat bb_ones m)) (fun b => Ok b)) at 2 by (destruct (mask_tail _ _); reflexivity).
    apply sim_same. intros b Eb. apply mask_tail_length in Eb. destruct (owns_put _ _ _ _ b O' Eb) as (s2 & E2 & O2 & L2 & _). rewrite E2. cbn [rbind sim fst snd]. rewrite repeat_length in Eb. split; [exact Eb|]. split; [exact O2|]. eapply fits_len; eassumption.
  - unfold alloc_slice. destruct (Nat.ltb_spec 0 m); [lia|]. exact I.
Qed.
Lemma from_iter_sim (st : bstore) H n it Bn k : owns st H -> fits Bn (S k) st -> blocks_required_for (n * 4 * 8) <= Bn ->
  sim (fun r b => length b = blocks_required_for (n * 4 * 8) /\ owns (fst r) ((snd r, b) :: H) /\ fits Bn k (fst r)) (alloc_from_iter 4 st n it) (from_iter 4 n it).
Proof.
  intros HO HF Hn. unfold alloc_from_iter, from_iter. eapply sim_bind; [apply (zero_blocks_sim st H _ Bn k HO HF Hn)|]. intros [st' r] b _ _ (_ & Hpos & O' & F'). cbn [fst snd] in *.
  destruct (owns_put _ _ _ _ (fill_from_iter 4 (blocks_required_for (n * 4 * 8)) it) O') as (s2 & E2 & O2 & L2 & _); [rewrite fill_length, repeat_length; reflexivity|]. rewrite E2. cbn [rbind sim fst snd].
  split; [apply fill_length|]. split; [exact O2|]. eapply fits_len; eassumption.
Qed.

Lemma block_len_blocks (b : blocks) : blocks_required_for (block_len 4 b * 4 * 8) = length b.
Proof.
  unfold blocks_required_for, block_len, BB_NBITS. change (BITBLOCK_BYTES / 4) with 8. replace (length b * 8 * 4 * 8) with (length b * 256) by lia.
  rewrite Nat.mod_mul by lia. cbn [Nat.eqb]. rewrite Nat.div_mul by lia. lia.
Qed.
Lemma get_fresh (g : bstore) r q rest : owns g ((r, repeat bb_zeros (q * w)) :: rest) -> get_bitslice dbg cfg g r = Ok (repeat bb_zeros (q * w)).
Proof.
  intros HO. destruct (owns_len _ _ _ _ HO (or_introl eq_refl)) as (L & _). unfold get_bitslice. rewrite <- L, repeat_length.
  assert (q * w mod w = 0) as Em. { destruct w as [|w0] eqn:Ew; [rewrite Nat.mul_0_r; reflexivity|]. apply Nat.mod_mul. lia. }
  rewrite Em, Nat.eqb_refl, Bool.orb_true_r. cbn [rassert rbind]. exact (owns_get _ _ _ _ HO (or_introl eq_refl)).
Qed.
Lemma root_sim c km kg gradients : holds c [] (S km) (S kg) -> blocks_required_for (nactive_examples s) <= B -> 0 < peak ->
  sim (fun r nd => holds (snd r) [(fst r, nd)] km kg) (s_get_root_n2s dbg cfg s bounds sched c gradients) (get_root_n2s cfg s sizes bounds sched gradients).
Proof.
  intros H HB Hp. unfold s_get_root_n2s, get_root_n2s, width. apply sim_same. intros _ _. destruct H as [A1 A2 A3 A4 (Hi & A5 & A6 & _) (Hg & A8 & A9 & _) _].
  eapply sim_bind; [apply (zero_blocks_sim _ Hg _ (B * w) kg A8 A9); nia|]. intros [gs gr] g0 _ _ (-> & Hpos & Og & Fg). cbn [fst snd] in *.
  eapply sim_bind; [apply (one_bits_sim _ _ _ B km A3 A4 HB)|]. intros [ms mr] mask _ _ (Lm & Om & Fm). cbn [fst snd map] in *.
  eapply sim_left; [exact (owns_get _ _ _ _ Om (or_introl eq_refl))|].
  eapply sim_bind; [apply (from_iter_sim _ Hi _ _ B kg A5 A6); rewrite block_len_blocks; lia|]. intros [is ir] ix _ _ (Li & Oi & Fi). cbn [fst snd] in *. rewrite block_len_blocks in Li.
  apply sim_same. intros _ _. eapply sim_left; [exact (get_fresh _ _ _ _ Og)|]. apply sim_same. intros ex _. apply sim_same. intros [grads sum] Ef.
  assert (length grads = blocks_required_for (nactive_examples s) * w) as Lg.
  { apply (foldM_inv (fun st => length (fst st) = blocks_required_for (nactive_examples s) * w)) in Ef; [exact Ef| |cbn [fst]; apply repeat_length].
    intros [g1 n1] [i j] [g2 n2] _ HL E. unfold put_gradient, set_scaled_value in E. cbn [fst snd] in *. apply rbind_ok in E as (v & _ & E). apply rbind_ok in E as ([g3 x] & E & E'). apply rbind_ok in E as (g4 & E & E''). injection E'' as -> <-. injection E' as <- <-. rewrite (set_value_length _ _ _ _ _ E). exact HL. }
  destruct (owns_put _ _ _ _ grads Og) as (gs' & Eg & Og' & Lg' & _); [rewrite repeat_length; exact Lg|]. eapply sim_left; [exact Eg|].
  eapply sim_bind; [apply (snode_new_sim (mk_ctx (cx_hist c) is ms gs') [] 0 A1 A2 Hp)|]. intros [sn0 c1] h _ _ (Sz & E1 & E2 & E3 & L1 & U1). cbn [fst snd cx_idx cx_mask cx_grad] in *.
  match goal with |- sim _ (let* c2 := s_build_histograms _ _ _ _ _ _ ?sn in _) (build_histograms _ _ _ _ ?nd) =>
    assert (holds c1 [(sn, nd)] km kg) as HH; [|pose proof (build_sim c1 [] km kg sn nd HH) as Hb] end.
  - constructor; cbn [map fst snd sn_hists sn_mask sn_idx sn_grads nd_hists nd_mask nd_idx nd_grads]; try assumption; rewrite ?E1, ?E2, ?E3; try assumption.
    + eexists. split; [exact Oi|]. split; [exact Fi|]. intros p [<-|[]]. left. reflexivity.
    + eexists. split; [exact Og'|]. split; [eapply fits_len; [exact Lg'|exact Fg]|]. intros p [<-|[]]. left. reflexivity.
    + intros p [<-|[]]. cbn [fst snd]. constructor; cbn; try reflexivity; try assumption; [lia|]. exists (blocks_required_for (nactive_examples s)). auto.
  - replace (build_histograms cfg s bounds sched _) with (let* nd := build_histograms cfg s bounds sched (mk_node 0 (N.of_nat (nactive_examples s)) (linproj O w (nofN O sum) (nofnat O (nactive_examples s)) bounds) false h ix mask grads) in Ok nd) by (destruct (build_histograms _ _ _ _ _); reflexivity).
    eapply sim_bind; [exact Hb|]. intros c2 nd' _ _ HH'. cbn [sim fst snd]. exact HH'.
Qed.

(** Splitting. *)
Lemma required_le n L : n <= L * 8 -> blocks_required_for (n * 32) <= L.
Proof.
  intros H. unfold blocks_required_for, BB_NBITS. pose proof (Nat.div_mod (n * 32) 256 ltac:(lia)) as E. pose proof (Nat.mod_upper_bound (n * 32) 256 ltac:(lia)).
  destruct (Nat.eqb_spec ((n * 32) mod 256) 0); lia.
Qed.
Lemma compress_sim c ps km kg parent ndp child ndc n : holds c ((child, ndc) :: ps) km (S kg) -> In (parent, ndp) ps ->
  length (nd_mask ndc) = length (nd_idx ndp) -> n <= block_len 4 (nd_idx ndp) ->
  sim (fun r nd => holds (snd r) ((fst r, nd) :: ps) km kg /\ nd_id nd = nd_id ndc) (s_compress_examples dbg cfg c parent child n) (compress_examples dbg cfg ndp ndc n).
Proof.
  intros H Hin Lm Hn. pose proof (h_rel _ _ _ _ H _ (or_intror Hin)) as HP. cbn [fst snd] in HP. pose proof (h_rel _ _ _ _ H _ (or_introl eq_refl)) as HC. cbn [fst snd] in HC.
  pose proof (get_mask _ _ _ _ _ _ H (or_introl eq_refl)) as Gm.
  destruct H as [A1 A2 A3 A4 (Hi & A5 & A6 & A7) (Hg & A8 & A9 & A10) A11]. pose proof (A7 _ (or_intror Hin)) as Ii. pose proof (A10 _ (or_intror Hin)) as Ig. cbn [fst snd] in Ii, Ig.
  assert (blocks_required_for (n * 32) <= length (nd_idx ndp)) as HL. { apply required_le. unfold block_len in Hn. change (BITBLOCK_BYTES / 4) with 8 in Hn. lia. }
  pose proof (r_idx _ _ HP) as HB. unfold s_compress_examples, compress_examples, width. apply sim_same. intros _ _.
  eapply sim_bind; [apply (zero_blocks_sim _ Hi _ B kg A5 A6); lia|]. intros [is ir] ix0 _ _ (-> & Hpos & Oi & Fi). cbn [fst snd] in *.
  eapply sim_bind; [apply (zero_blocks_sim _ Hg _ (B * w) kg A8 A9); nia|]. intros [gs gr] g0 _ _ (-> & Hgpos & Og & Fg). cbn [fst snd] in *.
  eapply sim_left; [exact (owns_two dbg _ _ _ _ _ _ Oi (or_intror Ii) (or_introl eq_refl) (owns_new_ne _ _ _ _ _ _ Oi Ii))|].
  eapply sim_left; [exact (owns_get _ _ _ _ Oi (or_intror Ii))|]. eapply sim_left; [exact (owns_get _ _ _ _ Oi (or_introl eq_refl))|].
  eapply sim_left; [exact Gm|].
  eapply sim_left; [exact (owns_two dbg _ _ _ _ _ _ Og (or_intror Ig) (or_introl eq_refl) (owns_new_ne _ _ _ _ _ _ Og Ig))|].
  eapply sim_left; [exact (owns_get _ _ _ _ Og (or_intror Ig))|]. eapply sim_left; [exact (owns_get _ _ _ _ Og (or_introl eq_refl))|].
  change (compress_step dbg cfg (with_contents parent (nd_idx ndp) [] (nd_grads ndp))) with (compress_step dbg cfg ndp).
  apply sim_same. intros [[[k mask] ix] grads] Ef.
  assert (length mask = length (nd_mask ndc) /\ length ix = blocks_required_for (n * 32) /\ length grads = blocks_required_for (n * 32) * w) as (Lm' & Li & Lg).
  { apply (foldM_inv (fun st => length (snd (fst (fst st))) = length (nd_mask ndc) /\ length (snd (fst st)) = blocks_required_for (n * 32) /\ length (snd st) = blocks_required_for (n * 32) * w)) in Ef; [exact Ef| |cbn [fst snd]; rewrite !repeat_length; auto].
    intros [[[k1 m1] i1] g1] j st' _ (P1 & P2 & P3) E. cbn [fst snd] in *. unfold compress_step in E. apply rbind_ok in E as (u & _ & E). apply rbind_ok in E as (i & _ & E). apply rbind_ok in E as (m & _ & E).
    destruct (m =? 0)%N; [injection E as <-; cbn [fst snd]; auto|]. apply rbind_ok in E as (m2 & Em & E). apply rbind_ok in E as (i2 & Ei & E). apply rbind_ok in E as (g2 & Eg & E). injection E as <-. cbn [fst snd].
    rewrite (bs_set_length _ _ _ _ _ Em), (bs_set_length _ _ _ _ _ Ei), (copy_block_length _ _ _ _ _ _ Eg). auto. }
  apply sim_same. intros _ _. apply sim_same. intros mask' Em.
  assert (length mask' = length (nd_mask ndc)) as Lm''.
  { rewrite <- Lm'. apply (foldM_inv (fun m => length m = length mask)) in Em; [exact Em| |reflexivity]. intros a b a' _ Ha E. rewrite (bs_set_length _ _ _ _ _ E). exact Ha. }
  cbn [map fst snd] in A3. destruct (owns_put _ _ _ _ mask' A3 Lm'') as (ms' & E1 & O1 & L1 & _). eapply sim_left; [exact E1|].
  destruct (owns_put _ _ _ _ ix Oi) as (is' & E2 & O2 & L2 & _); [rewrite repeat_length; exact Li|]. eapply sim_left; [exact E2|].
  destruct (owns_put _ _ _ _ grads Og) as (gs' & E3 & O3 & L3 & _); [rewrite repeat_length; exact Lg|]. eapply sim_left; [exact E3|].
  cbn [sim fst snd]. split; [|reflexivity]. destruct (owns_len _ _ _ _ O2 (or_introl eq_refl)) as (Lr & _). rewrite <- Lr.
  constructor; cbn [map fst snd cx_hist cx_mask cx_idx cx_grad sn_hists sn_mask sn_idx sn_grads nd_hists nd_mask nd_idx nd_grads]; try assumption.
  - apply owns_shrink; [exact O1|]. rewrite Li, Lm'', Lm. lia.
  - eapply fits_len; eassumption.
  - eexists. split; [exact O2|]. split; [eapply fits_len; eassumption|]. intros p [<-|Hp]; [left; reflexivity|right; apply A7; right; exact Hp].
  - eexists. split; [exact O3|]. split; [eapply fits_len; eassumption|]. intros p [<-|Hp]; [left; reflexivity|right; apply A10; right; exact Hp].
  - intros p [<-|Hp]; [|apply A11; right; exact Hp]. cbn [fst snd]. destruct HC. constructor; cbn [sn_id sn_count sn_grad sn_compr nd_id nd_count nd_grad nd_compr nd_hists nd_idx nd_grads]; try assumption; try reflexivity; [lia|].
    exists (blocks_required_for (n * 32)). split; [exact Lg|lia].
Qed.
Lemma split_sim c ps km kg parent ndp cid sp f count grad : holds c ps (S km) (S kg) -> In (parent, ndp) ps -> length ps < peak ->
  sim (fun r nd => holds (snd r) ((fst r, nd) :: ps) km kg /\ nd_id nd = cid) (s_split_examples dbg cfg s c parent cid sp f count grad) (split_examples dbg cfg s sizes ndp cid sp f count grad).
Proof.
  intros H Hin Hp. pose proof (h_rel _ _ _ _ H _ Hin) as HP. cbn [fst snd] in HP. pose proof (get_idx _ _ _ _ _ _ H Hin) as Gi.
  unfold s_split_examples, split_examples. apply sim_same. intros fm _. eapply sim_left; [exact Gi|].
  pose proof (in_map (fun p => (sn_mask (fst p), nd_mask (snd p))) _ _ Hin) as Im. cbn [fst snd] in Im.
  destruct H as [A1 A2 A3 A4 (Hi & A5 & A6 & A7) (Hg & A8 & A9 & A10) A11].
  eapply sim_bind; [apply (snode_new_sim c _ cid A1 A2); rewrite map_length; exact Hp|]. intros [sn0 c1] h _ _ (Sz & E1 & E2 & E3 & L1 & U1). cbn [fst snd] in *.
  rewrite E2. eapply sim_bind; [apply (zero_blocks_sim _ _ _ B km A3 A4); exact (r_idx _ _ HP)|]. intros [ms mr] m0 _ _ (-> & Hpos & Om & Fm). cbn [fst snd] in *.
  eapply sim_left; [exact (owns_two dbg _ _ _ _ _ _ Om (or_intror Im) (or_introl eq_refl) (owns_new_ne _ _ _ _ _ _ Om Im))|].
  eapply sim_left; [exact (owns_get _ _ _ _ Om (or_intror Im))|]. eapply sim_left; [exact (owns_get _ _ _ _ Om (or_introl eq_refl))|].
  change (split_block (with_contents parent (nd_idx ndp) (nd_mask ndp) []) fm f) with (split_block ndp fm f).
  apply sim_same. intros [mask zc] Ef.
  assert (length mask = length (nd_idx ndp)) as Lm.
  { apply (foldM_inv (fun st => length (fst st) = length (nd_idx ndp))) in Ef; [exact Ef| |cbn [fst]; apply repeat_length].
    intros [m1 z1] j st' _ P1 E. unfold split_block in E. apply rbind_ok in E as (i & _ & E). apply rbind_ok in E as (pm & _ & E). apply rbind_ok in E as (v & _ & E). apply rbind_ok in E as (m2 & Em & E). injection E as <-. cbn [fst snd] in *.
    rewrite (bs_set_length _ _ _ _ _ Em). exact P1. }
  destruct (owns_put _ _ _ _ mask Om) as (ms' & E4 & O4 & L4 & _); [rewrite repeat_length; exact Lm|]. eapply sim_left; [exact E4|].
  match goal with |- sim _ (if ?b then _ else Ok (?ch, ?c2)) (if ?b then _ else Ok ?nd) => assert (holds c2 ((ch, nd) :: ps) km (S kg)) as HH end.
  { constructor; cbn [map fst snd cx_hist cx_mask cx_idx cx_grad sn_hists sn_mask sn_idx sn_grads nd_hists nd_mask nd_idx nd_grads]; rewrite ?E1, ?E3; try assumption.
    - eapply fits_len; eassumption.
    - exists Hi. split; [exact A5|]. split; [exact A6|]. intros p [<-|Hp']; [exact (A7 _ Hin)|exact (A7 _ Hp')].
    - exists Hg. split; [exact A8|]. split; [exact A9|]. intros p [<-|Hp']; [exact (A10 _ Hin)|exact (A10 _ Hp')].
    - intros p [<-|Hp']; [|exact (A11 _ Hp')]. cbn [fst snd]. destruct HP. constructor; cbn; try assumption; reflexivity. }
  destruct (_ && _).
  - apply sim_same. intros _ _. eapply sim_impl; [|apply (compress_sim _ _ _ _ _ _ _ _ _ HH Hin); [exact Lm|lia]]. intros r nd _ _ [G1 G2]. auto.
  - cbn [sim fst snd]. split; [|reflexivity]. eapply holds_less; [| |exact HH]; lia.
Qed.

(** The histograms of the right child. *)
Lemma owns_stored T (st : store T) H r cont i : owns st H -> In (r, cont) H -> i < snd r - fst r -> nth_error (st_buf st) (fst r + i) = option_map Some (nth_error cont i).
Proof.
  intros HO Hin Hi. destruct (owns_len _ _ _ _ HO Hin) as (L & _). destruct HO as [I _]. pose proof (I_cont _ _ _ I) as F. apply cont_forall in F. rewrite Forall_forall in F. destruct (F _ Hin) as [_ F2]. cbn [fst snd] in F2. apply F2. lia.
Qed.
Lemma derive_sim c ps km kg pn ndp ln ndl rn ndr : holds c ((rn, ndr) :: ps) km kg -> In (pn, ndp) ps -> In (ln, ndl) ps ->
  sim (fun c' nd => holds c' ((rn, nd) :: ps) km kg /\ nd_id nd = nd_id ndr) (s_derive_histograms dbg c pn ln rn) (derive_histograms dbg ndp ndl ndr).
Proof.
  intros H Hp Hl. pose proof (h_rel _ _ _ _ H _ (or_intror Hp)) as RP. pose proof (h_rel _ _ _ _ H _ (or_intror Hl)) as RL. pose proof (h_rel _ _ _ _ H _ (or_introl eq_refl)) as RR. cbn [fst snd] in RP, RL, RR.
  destruct H as [A1 A2 A3 A4 (Hi & A5 & A6 & A7) (Hg & A8 & A9 & A10) A11]. cbn [map fst snd] in A2.
  set (g := fun p : snode O * node O => (sn_hists (fst p), concat (nd_hists (snd p)))) in *.
  pose proof (in_map g _ _ Hp) as Ip. pose proof (in_map g _ _ Hl) as Il. unfold g in Ip at 1. unfold g in Il at 1. cbn [fst snd] in Ip, Il.
  pose proof (U_owns _ _ _ _ A2) as HO. destruct (owns_len _ _ _ _ HO (or_intror Ip)) as (Lp & Lp1 & _). destruct (owns_len _ _ _ _ HO (or_intror Il)) as (Ll & Ll1 & _). destruct (owns_len _ _ _ _ HO (or_introl eq_refl)) as (Lr & Lr1 & Lr2).
  pose proof (owns_new_ne _ _ _ _ _ _ HO Ip) as Np. pose proof (owns_new_ne _ _ _ _ _ _ HO Il) as Nl.
  assert (forall nd sn, rel sn nd -> length (concat (nd_hists nd)) = list_sum sizes) as LC by (intros nd sn R; rewrite length_concat, (r_sizes _ _ R); reflexivity).
  pose proof (LC _ _ RP) as LCp. pose proof (LC _ _ RL) as LCl. pose proof (LC _ _ RR) as LCr.
  pose proof (held_disjoint _ _ _ _ _ (proj1 HO) (or_introl eq_refl) (or_intror (in_map fst _ _ Ip)) (fun e => Np (eq_sym e))) as Dp.
  pose proof (held_disjoint _ _ _ _ _ (proj1 HO) (or_introl eq_refl) (or_intror (in_map fst _ _ Il)) (fun e => Nl (eq_sym e))) as Dl. cbn [fst snd] in Dp, Dl.
  unfold s_derive_histograms, derive_histograms. destruct (sn_hists pn) as [plo phi] eqn:Ep. cbn [fst snd] in *. rewrite A1, hist_last. cbn [rbind].
  assert ((phi - plo =? list_sum sizes) = true) as -> by lia. rewrite Bool.orb_true_r. cbn [rassert rbind].
  eapply sim_bind with (Q := fun buf h => length buf = length (st_buf (hs_store (cx_hist c))) /\ (forall q, ~ (fst (sn_hists rn) <= q < snd (sn_hists rn)) -> nth_error buf q = nth_error (st_buf (hs_store (cx_hist c))) q) /\
     (forall i, i < list_sum sizes -> nth_error buf (fst (sn_hists rn) + i) = option_map Some (nth_error (concat h) i)) /\ map (@length (histval O)) h = sizes).
  - pose proof (s_sub_loop O dbg (concat (nd_hists ndp)) (concat (nd_hists ndl)) plo (fst (sn_hists ln)) (fst (sn_hists rn)) ltac:(lia) (phi - plo) 0 (st_buf (hs_store (cx_hist c)))) as SL.
    cbn [skipn] in SL.
    pose proof (flat_subtract O dbg (nd_hists ndp) (nd_hists ndl)) as FS. rewrite (r_sizes _ _ RP), (r_sizes _ _ RL) in FS. specialize (FS eq_refl).
    assert (forall x y z (Q : list (option (histval O)) -> list (list (histval O)) -> Prop) (P1 : list (option (histval O)) -> list (histval O) -> Prop) (P2 : list (histval O) -> list (list (histval O)) -> Prop),
      sim P1 x y -> sim P2 y z -> (forall a b e, P1 a b -> P2 b e -> Q a e) -> sim Q x z) as ST.
    { intros x y z Q P1 P2 S1 S2 K. destruct x, y, z; cbn in *; try tauto. eapply K; eassumption. }
    eapply ST; [apply SL|exact FS|].
    + lia.
    + intros i Hi'. apply (owns_stored _ _ _ (plo, phi) _ i HO (or_intror Ip)). cbn [fst snd]. lia.
    + intros i Hi'. apply (owns_stored _ _ _ (sn_hists ln) _ i HO (or_intror Il)). lia.
    + intros i j H1 H2. lia.
    + lia.
    + intros buf vs h (V1 & V2 & V3 & V4) (V5 & V6). cbn beta. rewrite Nat.add_0_r in V3, V4. split; [exact V2|]. split; [intros q Hq; apply V3; lia|]. rewrite V5. split; [intros i Hi'; apply V4; lia|exact V6].
  - intros buf h _ _ (V1 & V2 & V3 & V4). cbn [sim]. split; [|reflexivity].
    assert (length (concat h) = list_sum sizes) as Lh by (rewrite length_concat, V4; reflexivity).
    constructor; cbn [map fst snd cx_hist cx_mask cx_idx cx_grad hs_layout hs_store sn_hists sn_mask sn_idx sn_grads nd_hists nd_mask nd_idx nd_grads]; try assumption.
    + reflexivity.
    + destruct A2 as [[I Al] B2 C2 D2 E2]. constructor; cbn [st_ends st_free st_len]; try assumption. split; [|exact Al].
      apply (inv_rewrite _ _ _ 0 (sn_hists rn) buf (concat h) I eq_refl V1); [lia| |exact V2]. intros i Hi'. rewrite Lh in Hi'. apply V3, Hi'.
    + exists Hi. split; [exact A5|]. split; [exact A6|]. intros p [<-|Hp']; [exact (A7 _ (or_introl eq_refl))|exact (A7 _ (or_intror Hp'))].
    + exists Hg. split; [exact A8|]. split; [exact A9|]. intros p [<-|Hp']; [exact (A10 _ (or_introl eq_refl))|exact (A10 _ (or_intror Hp'))].
    + intros p [<-|Hp']; [|exact (A11 _ (or_intror Hp'))]. cbn [fst snd]. destruct RR. constructor; cbn; assumption.
Qed.
Lemma left_right_sim c ps km kg pn ndp sp : holds c ((pn, ndp) :: ps) (S (S km)) (S (S kg)) -> S (S (length ps)) < peak ->
  sim (fun r lr => holds (snd r) ((fst (fst r), fst lr) :: (snd (fst r), snd lr) :: (pn, ndp) :: ps) km kg /\ nd_id (fst lr) = left_child (nd_id ndp) /\ nd_id (snd lr) = right_child (nd_id ndp))
    (s_get_left_right_n2s dbg cfg s bounds sched c pn sp) (get_left_right_n2s dbg cfg s sizes bounds sched ndp sp).
Proof.
  intros H Hp. pose proof (h_rel _ _ _ _ H _ (or_introl eq_refl)) as RP. cbn [fst snd] in RP. unfold s_get_left_right_n2s, get_left_right_n2s.
  rewrite (get_hists _ _ _ _ _ _ _ H (or_introl eq_refl)). apply sim_same. intros hist _. apply sim_same. intros l _. rewrite (r_count _ _ RP), (r_grad _ _ RP), (r_id _ _ RP). apply sim_same. intros rc _.
  eapply sim_bind; [apply (split_sim _ _ _ _ _ _ _ sp (fun m => m) (snd l) (fst l) H (or_introl eq_refl)); cbn [length]; lia|]. intros [ln c1] nl0 _ _ [H1 I1]. cbn [fst snd] in *.
  eapply sim_bind; [apply (build_sim _ _ _ _ _ _ H1)|]. intros c2 nl _ Eb H2.
  assert (nd_id nl = left_child (nd_id ndp)) as I2.
  { unfold build_histograms in Eb. apply rbind_ok in Eb as (u & _ & Eb). apply rbind_ok in Eb as (js & _ & Eb). apply rbind_ok in Eb as (hh & _ & Eb). injection Eb as <-. exact I1. }
  eapply sim_bind; [apply (split_sim _ _ _ _ _ _ _ sp (wnot 4) rc (nsub O (nd_grad ndp) (fst l)) H2 (or_intror (or_introl eq_refl))); cbn [length]; lia|]. intros [rn c3] nr0 _ _ [H3 I3]. cbn [fst snd] in *.
  eapply sim_bind; [apply (derive_sim _ _ _ _ _ _ _ _ _ _ H3 (or_intror (or_introl eq_refl)) (or_introl eq_refl))|]. intros c4 nr _ _ [H4 I4]. cbn [sim fst snd].
  split; [|split; congruence]. eapply holds_perm; [|exact H4]. apply perm_swap.
Qed.

(** Leaf values. *)
Variable St : Type.
Variable leaf_value : list nat -> St -> res (num O * St).
Lemma view_ok c ps km kg sn nd : holds c ps km kg -> In (sn, nd) ps ->
  exists v, s_examples_view c sn = Ok v /\ (forall t st, predict_leaf_value s St leaf_value v t st = predict_leaf_value s St leaf_value nd t st) /\
    (forall sp t st, predict_child_leaf_values s St leaf_value v sp t st = predict_child_leaf_values s St leaf_value nd sp t st).
Proof.
  intros H Hin. pose proof (h_rel _ _ _ _ H _ Hin) as HR. cbn [fst snd] in HR. unfold s_examples_view. rewrite (get_mask _ _ _ _ _ _ H Hin). cbn [rbind].
  destruct (read_ok _ _ _ _ _ _ H Hin) as (ix & Eix & Hix). rewrite Eix. cbn [rbind]. eexists. split; [reflexivity|]. split.
  - intros t st. unfold predict_leaf_value, node_examples. cbn [with_contents nd_id nd_compr nd_mask nd_idx]. rewrite (r_id _ _ HR), (r_compr _ _ HR). destruct (nd_compr nd); [rewrite Hix by reflexivity|]; reflexivity.
  - intros sp t st. unfold predict_child_leaf_values, left_examples, right_examples. cbn [with_contents nd_id nd_compr nd_mask nd_idx]. rewrite (r_id _ _ HR), (r_compr _ _ HR). destruct (nd_compr nd); [rewrite Hix by reflexivity|]; reflexivity.
Qed.
Lemma release_ok c ps km kg sn nd : holds c ((sn, nd) :: ps) km kg -> exists c', s_release dbg c sn = Ok c' /\ holds c' ps km kg.
Proof.
  intros [A1 A2 A3 A4 (Hi & A5 & A6 & A7) (Hg & A8 & A9 & A10) A11]. cbn [map fst snd] in A2, A3. unfold s_release, free_hists, free_blocks.
  destruct (uniform_free _ _ dbg _ _ _ _ A2) as (h' & E1 & U1). rewrite E1. cbn [rbind]. destruct (owns_free dbg _ _ _ _ A3) as (m' & E2 & O2 & L2 & _). rewrite E2. cbn [rbind].
  eexists. split; [reflexivity|]. constructor; cbn [cx_hist cx_mask cx_idx cx_grad hs_layout hs_store]; try assumption.
  - eapply fits_len; eassumption.
  - exists Hi. split; [exact A5|]. split; [exact A6|]. intros p Hp. apply A7. right. exact Hp.
  - exists Hg. split; [exact A8|]. split; [exact A9|]. intros p Hp. apply A10. right. exact Hp.
  - intros p Hp. apply A11. right. exact Hp.
Qed.

(** The loop.  A node with [i] nodes below it on the stack is at depth [i] at least. *)
Fixpoint deep (stack : list (node O)) : Prop :=
  match stack with [] => True | nd :: rest => 2 ^ length rest <= nd_id nd + 1 /\ deep rest end.
(** The number of nodes that can be made below a node. *)
Definition weight (D : nat) nd : nat := 2 ^ (D - Nat.log2 (nd_id nd + 1)) - 2.
Definition weights (D : nat) (stack : list (node O)) : nat := list_sum (map (weight D) stack).
Lemma weight_split D nd nl nr : nd_id nl = left_child (nd_id nd) -> nd_id nr = right_child (nd_id nd) -> left_child (nd_id nd) < 2 ^ D - 1 -> weight D nd = S (S (weight D nl + weight D nr)).
Proof.
  intros El Er Hlt. unfold weight. rewrite El, Er. unfold left_child, right_child in *.
  replace (2 * nd_id nd + 1 + 1) with (2 * (nd_id nd + 1)) by lia. replace (2 * nd_id nd + 2 + 1) with (2 * (nd_id nd + 1) + 1) by lia. rewrite Nat.log2_double by lia. rewrite Nat.log2_succ_double by lia.
  set (d := Nat.log2 (nd_id nd + 1)). assert (2 ^ d <= nd_id nd + 1) as Hd by (apply Nat.log2_spec; lia). assert (2 ^ S d < 2 ^ D) as Hpw by (cbn [Nat.pow]; lia). apply Nat.pow_lt_mono_r_iff in Hpw; [|lia].
  assert (exists e, D - d = S (S e) /\ D - S d = S e) as (e & -> & ->) by (exists (D - S d - 1); lia). cbn [Nat.pow]. pose proof (Nat.pow_nonzero 2 e ltac:(lia)). lia.
Qed.
Lemma depth_split (t : tree O) k crit t' : split_node t k crit = Ok t' -> t_max_depth t' = t_max_depth t.
Proof. unfold split_node. intros E. repeat (apply rbind_ok in E as (? & _ & E)). injection E as <-. reflexivity. Qed.
Lemma depth_set (t : tree O) k (v : num O) t' : set_node_value t k v = Ok t' -> t_max_depth t' = t_max_depth t.
Proof. unfold set_node_value. intros E. repeat (apply rbind_ok in E as (? & _ & E)). injection E as <-. reflexivity. Qed.
Lemma step_sim c ps km kg sn nd t st : holds c ((sn, nd) :: ps) (weights (t_max_depth t) (nd :: map snd ps) + km) (weights (t_max_depth t) (nd :: map snd ps) + kg) -> peak = t_max_depth t + 1 -> deep (nd :: map snd ps) ->
  sim (fun r r' => let '(stack, t1, st1, c1) := r in let '(stack', t2, st2) := r' in
      t1 = t2 /\ st1 = st2 /\ t_max_depth t1 = t_max_depth t /\ deep stack' /\ exists ps', stack = map fst ps' /\ stack' = map snd ps' /\ holds c1 ps' (weights (t_max_depth t) stack' + km) (weights (t_max_depth t) stack' + kg))
    (s_train_step dbg cfg s bounds sched St leaf_value c sn (map fst ps) t st) (train_step dbg cfg s sizes bounds sched St leaf_value nd (map snd ps) t st).
Proof.
  intros H Hpk Hd. pose proof (h_rel _ _ _ _ H _ (or_introl eq_refl)) as HR. cbn [fst snd] in HR. unfold s_train_step, train_step.
  rewrite (find_same _ _ _ _ _ _ H (or_introl eq_refl)). apply sim_same. intros sp Esp. destruct (view_ok _ _ _ _ _ _ H (or_introl eq_refl)) as (v & Ev & V1 & V2). rewrite Ev, (r_id _ _ HR). cbn [rbind].
  destruct (is_no_split (sp_crit sp)); [|destruct (is_max_leaf_node t (left_child (nd_id nd))) eqn:Em; cbn [negb]].
  - rewrite V1. destruct (predict_leaf_value s St leaf_value nd t st) as [[t' st']| | |] eqn:Ep; try exact I. cbn [rbind].
    destruct (release_ok _ _ _ _ _ _ H) as (c' & Ec & H'). rewrite Ec. cbn [rbind sim fst snd]. split; [reflexivity|]. split; [reflexivity|].
    split; [|split; [exact (proj2 Hd)|exists ps; split; [reflexivity|]; split; [reflexivity|eapply holds_less; [| |exact H']; unfold weights; cbn [map]; rewrite list_sum_cons; lia]]].
    unfold predict_leaf_value in Ep. apply rbind_ok in Ep as (ex & _ & Ep). apply rbind_ok in Ep as ([v0 st0] & _ & Ep). apply rbind_ok in Ep as (t0 & Et & Ep). injection Ep as <- <-. exact (depth_set _ _ _ _ Et).
  - rewrite V2. destruct (predict_child_leaf_values s St leaf_value nd sp t st) as [[t1 st']| | |] eqn:Ep; try exact I. cbn [rbind].
    destruct (split_node t1 (nd_id nd) (sp_crit sp)) as [t'| | |] eqn:Es; try exact I. cbn [rbind].
    destruct (release_ok _ _ _ _ _ _ H) as (c' & Ec & H'). rewrite Ec. cbn [rbind sim fst snd]. split; [reflexivity|]. split; [reflexivity|].
    split; [|split; [exact (proj2 Hd)|exists ps; split; [reflexivity|]; split; [reflexivity|eapply holds_less; [| |exact H']; unfold weights; cbn [map]; rewrite list_sum_cons; lia]]].
    rewrite (depth_split _ _ _ _ Es). unfold predict_child_leaf_values in Ep. apply rbind_ok in Ep as (fm & _ & Ep). apply rbind_ok in Ep as (exl & _ & Ep). apply rbind_ok in Ep as ([vl s1] & _ & Ep). apply rbind_ok in Ep as (exr & _ & Ep). apply rbind_ok in Ep as ([vr s2] & _ & Ep).
    apply rbind_ok in Ep as (ta & Ea & Ep). apply rbind_ok in Ep as (tb & Eb & Ep). injection Ep as <- <-. rewrite (depth_set _ _ _ _ Eb). exact (depth_set _ _ _ _ Ea).
  - assert (S (S (length ps)) < peak) as Hlt.
    { destruct Hd as [Hd _]. rewrite map_length in Hd. unfold is_max_leaf_node, max_ninternal, left_child in Em. apply Nat.leb_gt in Em. rewrite Hpk.
      assert (2 ^ S (length ps) < 2 ^ t_max_depth t) as Hpw by (cbn [Nat.pow]; lia). apply Nat.pow_lt_mono_r_iff in Hpw; lia. }
    assert (forall k nl nr, nd_id nl = left_child (nd_id nd) -> nd_id nr = right_child (nd_id nd) -> weights (t_max_depth t) (nd :: map snd ps) + k = S (S (weights (t_max_depth t) (nl :: nr :: map snd ps) + k))) as HW.
    { intros k nl nr El Er. unfold weights. cbn [map]. rewrite !list_sum_cons, (weight_split _ nd nl nr El Er); [lia|]. unfold is_max_leaf_node, max_ninternal in Em. lia. }
    set (dl := mk_node (left_child (nd_id nd)) 0%N (nd_grad nd) false [] [] [] []). set (dr := mk_node (right_child (nd_id nd)) 0%N (nd_grad nd) false [] [] [] []).
    rewrite (HW km dl dr eq_refl eq_refl), (HW kg dl dr eq_refl eq_refl) in H.
    pose proof (left_right_sim _ _ _ _ _ _ sp H Hlt) as LR.
    destruct (s_get_left_right_n2s dbg cfg s bounds sched c sn sp) as [[lr c']| | |], (get_left_right_n2s dbg cfg s sizes bounds sched nd sp) as [[nl nr]| | |]; try destruct LR; try exact I. cbn [rbind]. cbn [fst snd] in *.
    destruct (split_node t (nd_id nd) (sp_crit sp)) as [t'| | |] eqn:Es; try exact I. cbn [rbind].
    destruct lr as [ln rn]. cbn [fst snd] in *. destruct H1 as [Il Ir].
    assert (Permutation ((ln, nl) :: (rn, nr) :: (sn, nd) :: ps) ((sn, nd) :: (ln, nl) :: (rn, nr) :: ps)) as PP.
    { change ((sn, nd) :: (ln, nl) :: (rn, nr) :: ps) with ((sn, nd) :: [(ln, nl); (rn, nr)] ++ ps). apply Permutation_sym, (Permutation_middle [(ln, nl); (rn, nr)] ps (sn, nd)). }
    destruct (release_ok _ _ _ _ _ _ (holds_perm _ _ _ _ _ PP H0)) as (c2 & Ec & H'). rewrite Ec. cbn [rbind sim fst snd]. split; [reflexivity|]. split; [reflexivity|].
    split; [exact (depth_split _ _ _ _ Es)|]. split.
    + cbn [deep length map]. destruct Hd as [Hd Hr]. rewrite map_length in *. rewrite Il, Ir. unfold left_child, right_child. cbn [Nat.pow]. split; [lia|]. split; [lia|exact Hr].
    + exists ((ln, nl) :: (rn, nr) :: ps). split; [reflexivity|]. split; [reflexivity|]. replace (weights (t_max_depth t) (nl :: nr :: map snd ps)) with (weights (t_max_depth t) (dl :: dr :: map snd ps)); [exact H'|].
      unfold weights, weight. cbn [map]. rewrite Il, Ir. reflexivity.
Qed.
Lemma loop_sim fuel : forall c ps t st km kg, holds c ps (weights (t_max_depth t) (map snd ps) + km) (weights (t_max_depth t) (map snd ps) + kg) -> peak = t_max_depth t + 1 -> deep (map snd ps) ->
  sim (fun r r' => fst r = r' /\ holds (snd r) [] km kg) (s_train_loop dbg cfg s bounds sched St leaf_value fuel c (map fst ps) t st) (train_loop dbg cfg s sizes bounds sched St leaf_value fuel (map snd ps) t st).
Proof.
  induction fuel as [|fuel IH]; intros c [|[sn nd] ps] t st km kg H Hpk Hd; cbn [map s_train_loop train_loop fst snd].
  - cbn [sim]. split; [reflexivity|exact H].
  - exact I.
  - cbn [sim fst snd]. split; [reflexivity|exact H].
  - eapply sim_bind; [apply (step_sim _ _ km kg _ _ t st H Hpk Hd)|]. intros [[[stack t1] st1] c1] [[stack' t2] st2] _ _ (E1 & E2 & E3 & E4 & ps' & E5 & E6 & H'). cbn [fst snd]. subst t2 st2 stack stack'.
    apply IH; [rewrite E3; exact H'|congruence|exact E4].
Qed.
End Sim.
