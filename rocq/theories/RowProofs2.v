(** The updates of a data set whose rows are in another order. *)
From Coq Require Import Permutation.
From Verif Require Import Base BaseProofs BitModel BitSpec BitProofs SimdModel Num DataModel BinnerModel Config DatasetModel DatasetSpec DatasetProofs DatasetProofs2 DatasetProofs3 DatasetProofs4 DatasetProofs5
  DatasetProps LearnerModel LearnerSpec LearnerProofs3 RowSpec RowProofs.

(* ---- folds over permuted lists ---- *)
Lemma foldM_permP A T (P : A -> Prop) (f : T -> A -> res T) : (forall s a b s1 s2, P a -> P b -> f s a = Ok s1 -> f s1 b = Ok s2 -> exists s1', f s b = Ok s1' /\ f s1' a = Ok s2) ->
  forall l l', Permutation l l' -> Forall P l -> forall s r, foldM f l s = Ok r -> foldM f l' s = Ok r.
Proof.
  intros Hc l l' HP. induction HP as [|x l l' _ IH|x y l|l l' l'' HP1 IH1 _ IH2]; intros HF s r H.
  - exact H.
  - inversion HF; subst. cbn [foldM] in *. apply rbind_ok in H as (s1 & E1 & H). rewrite E1. cbn [rbind]. apply IH; assumption.
  - inversion HF as [|? ? Hy HF1]; subst. inversion HF1 as [|? ? Hx HF2]; subst. cbn [foldM] in *. apply rbind_ok in H as (s1 & E1 & H). apply rbind_ok in H as (s2 & E2 & H). destruct (Hc _ _ _ _ _ Hy Hx E1 E2) as (s1' & E1' & E2').
    rewrite E1'. cbn [rbind]. rewrite E2'. exact H.
  - apply IH2; [rewrite <- HP1; exact HF|]. apply IH1; assumption.
Qed.
Lemma fold_left_permP A T (P : A -> Prop) (f : T -> A -> T) : (forall s a b, P a -> P b -> f (f s a) b = f (f s b) a) ->
  forall l l', Permutation l l' -> Forall P l -> forall s, fold_left f l s = fold_left f l' s.
Proof.
  intros Hc l l' HP. induction HP as [|x l l' _ IH|x y l|l l' l'' HP1 IH1 _ IH2]; intros HF s.
  - reflexivity.
  - inversion HF; subst. cbn [fold_left]. apply IH; assumption.
  - inversion HF as [|? ? Hy HF1]; subst. inversion HF1 as [|? ? Hx HF2]; subst. cbn [fold_left]. rewrite Hc by assumption. reflexivity.
  - rewrite IH1 by exact HF. apply IH2. rewrite <- HP1. exact HF.
Qed.
Lemma mapM_perm A B (f : A -> res B) xs ys : Permutation xs ys -> forall l, mapM f xs = Ok l -> exists l', mapM f ys = Ok l' /\ Permutation l l'.
Proof.
  induction 1 as [|x xs ys _ IH|x y xs|xs ys zs _ IH1 _ IH2]; intros l E.
  - exists []. injection E as <-. auto.
  - cbn [mapM] in *. apply rbind_ok in E as (b & Eb & E). apply rbind_ok in E as (bs & Ebs & E). injection E as <-. destruct (IH _ Ebs) as (l' & E' & HP). rewrite Eb, E'. cbn [rbind]. eauto.
  - cbn [mapM] in *. apply rbind_ok in E as (b & Eb & E). apply rbind_ok in E as (bs & Ebs & E). apply rbind_ok in Ebs as (c & Ec & Ebs). apply rbind_ok in Ebs as (cs & Ecs & Ebs). injection Ebs as <-. injection E as <-.
    rewrite Ec, Eb, Ecs. cbn [rbind]. eexists. split; [reflexivity|]. constructor.
  - destruct (IH1 _ E) as (l1 & E1 & P1). destruct (IH2 _ E1) as (l2 & E2 & P2). exists l2. split; [exact E2|]. etransitivity; eassumption.
Qed.
Lemma mapM_map A B C (g : A -> B) (f : B -> res C) xs : mapM f (map g xs) = mapM (fun x => f (g x)) xs.
Proof. induction xs as [|x xs IH]; [reflexivity|]. cbn [map mapM]. rewrite IH. reflexivity. Qed.
Lemma mapM_ext_in A B (f g : A -> res B) xs : (forall x, In x xs -> f x = g x) -> mapM f xs = mapM g xs.
Proof. induction xs as [|x xs IH]; intros H; [reflexivity|]. cbn [mapM]. rewrite (H x (or_introl eq_refl)), IH by (intros y Hy; apply H; right; exact Hy). reflexivity. Qed.
(** Reading the same values in another order. *)
Lemma mapM_reorder A (p : nat -> nat) (f f' : nat -> res A) ex ex' l : (forall k, In k ex' -> f' k = f (p k)) -> Permutation (map p ex') ex -> mapM f ex = Ok l ->
  exists l', mapM f' ex' = Ok l' /\ Permutation l l'.
Proof.
  intros H HP E. destruct (mapM_perm _ _ f _ _ (Permutation_sym HP) _ E) as (l' & E' & HP'). rewrite mapM_map in E'. rewrite <- (mapM_ext_in _ _ f' _ ex' H) in E'. eauto.
Qed.
Lemma foldM_map A B T (g : A -> B) (f : T -> B -> res T) xs : forall s, foldM f (map g xs) s = foldM (fun s x => f s (g x)) xs s.
Proof. induction xs as [|x xs IH]; intros s; [reflexivity|]. cbn [map foldM]. destruct (f s (g x)); [apply IH|reflexivity..]. Qed.
Lemma foldM_ext_in A T (f g : T -> A -> res T) xs : (forall s x, In x xs -> f s x = g s x) -> forall s, foldM f xs s = foldM g xs s.
Proof. intros H s. revert s H. induction xs as [|x xs IH]; intros s H; [reflexivity|]. cbn [foldM]. rewrite (H s x (or_introl eq_refl)). destruct (g s x); try reflexivity. cbn [rbind]. apply IH. intros s0 y Hy. apply H. right. exact Hy. Qed.
Lemma foldM_reorder T (p : nat -> nat) (P : nat -> Prop) (f f' : T -> nat -> res T) ex ex' : (forall s a b s1 s2, P a -> P b -> f s a = Ok s1 -> f s1 b = Ok s2 -> exists s1', f s b = Ok s1' /\ f s1' a = Ok s2) ->
  (forall s k, In k ex' -> f' s k = f s (p k)) -> Permutation (map p ex') ex -> Forall P ex -> forall s r, foldM f ex s = Ok r -> foldM f' ex' s = Ok r.
Proof.
  intros Hc H HP HF s r E. rewrite (foldM_ext_in _ _ f' (fun s k => f s (p k)) ex' H), <- foldM_map. eapply (foldM_permP _ _ P f Hc); [symmetry; exact HP|exact HF|exact E].
Qed.
Lemma foldM_rel A S S' (R : S -> S' -> Prop) (f : S -> A -> res S) (f' : S' -> A -> res S') l : (forall s s' x t t', In x l -> R s s' -> f s x = Ok t -> f' s' x = Ok t' -> R t t') ->
  forall s s' t t', R s s' -> foldM f l s = Ok t -> foldM f' l s' = Ok t' -> R t t'.
Proof.
  induction l as [|x l IH]; intros H s s' t t' HR E E'; cbn [foldM] in *; [injection E as <-; injection E' as <-; exact HR|].
  apply rbind_ok in E as (s1 & E1 & E). apply rbind_ok in E' as (s1' & E1' & E'). eapply IH; [| |exact E|exact E']; [intros s0 s0' y t0 t0' Hy; apply H; right; exact Hy|]. eapply (H s s' x); [left; reflexivity|..]; eassumption.
Qed.

(* ---- insertions into a binner commute ---- *)
Lemma insert_fold O B (b : binner O B) items : binner_insert_all b items = foldM (fun b it => binner_insert b (fst it) (snd it)) items b.
Proof. revert b. induction items as [|[v c] t IH]; intros b; [reflexivity|]. cbn [binner_insert_all foldM fst snd]. destruct (binner_insert b v c); try reflexivity. cbn [rbind]. apply IH. Qed.
Lemma insert_perm O B X (value : X -> num O) (comb : X -> B -> B) (P : X -> Prop) (b : binner O B) items items' b1 : (forall x y z, P x -> P y -> comb x (comb y z) = comb y (comb x z)) -> Permutation items items' -> Forall P items ->
  binner_insert_all b (map (fun x => (value x, comb x)) items) = Ok b1 -> binner_insert_all b (map (fun x => (value x, comb x)) items') = Ok b1.
Proof.
  intros Hc HP HF. rewrite !insert_fold, !foldM_map. cbn [fst snd]. apply foldM_permP with (P := P); [|exact HP|exact HF]. clear - Hc. intros s x y s1 s2 Px Py E1 E2. unfold binner_insert in *.
  apply rbind_ok in E1 as (bx & Ebx & E1). apply rbind_ok in E1 as (bins1 & Eb1 & E1). injection E1 as <-. apply idx_ok in Ebx. apply set_idx_ok in Eb1 as [L1 ->].
  apply rbind_ok in E2 as (by_ & Eby & E2). apply rbind_ok in E2 as (bins2 & Eb2 & E2). injection E2 as <-. cbn [bn_bins bn_min bn_delta] in *. apply idx_ok in Eby. apply set_idx_ok in Eb2 as [L2 ->].
  assert (forall (l : list B) v, length l = length (bn_bins s) -> get_bin (mk_binner l (bn_min s) (bn_delta s)) v = get_bin s v) as Hg by (intros l v Hl; unfold get_bin; cbn [bn_bins bn_min bn_delta]; rewrite Hl; reflexivity).
  assert (get_bin (mk_binner (upd (bn_bins s) (get_bin s (value x)) (comb x bx)) (bn_min s) (bn_delta s)) (value y) = get_bin s (value y)) as Ey by (apply Hg, upd_length). rewrite Ey in *. rewrite upd_length in L2.
  assert (exists by0, nth_error (bn_bins s) (get_bin s (value y)) = Some by0) as [by0 Eby0] by (destruct (nth_error (bn_bins s) (get_bin s (value y))) eqn:E; [eauto|apply nth_error_None in E; lia]).
  rewrite (proj2 (idx_ok _ _ _ _) Eby0). cbn [rbind]. rewrite (proj2 (set_idx_ok _ _ _ _ _) (conj L2 eq_refl)). cbn [rbind]. eexists. split; [reflexivity|].
  cbn [bn_bins bn_min bn_delta]. assert (get_bin (mk_binner (upd (bn_bins s) (get_bin s (value y)) (comb y by0)) (bn_min s) (bn_delta s)) (value x) = get_bin s (value x)) as Ex by (apply Hg, upd_length). rewrite Ex.
  rewrite nth_error_upd in Eby. destruct (Nat.eqb_spec (get_bin s (value x)) (get_bin s (value y))) as [Heq|Hne].
  - rewrite <- Heq in *. replace (get_bin s (value x) <? length (bn_bins s)) with true in Eby by lia. cbn [andb] in Eby. injection Eby as <-. assert (by0 = bx) as -> by congruence.
    unfold idx. rewrite nth_error_upd, Nat.eqb_refl. replace (get_bin s (value x) <? length (bn_bins s)) with true by lia. cbn [andb rbind]. unfold set_idx. rewrite upd_length. replace (get_bin s (value x) <? length (bn_bins s)) with true by lia. cbn [rbind].
    rewrite !upd_upd_same, Hc by assumption. reflexivity.
  - cbn [andb] in Eby. assert (by_ = by0) as -> by congruence. unfold idx. rewrite nth_error_upd. destruct (Nat.eqb_spec (get_bin s (value y)) (get_bin s (value x))); [congruence|]. cbn [andb]. rewrite Ebx. cbn [rbind]. unfold set_idx. rewrite upd_length. replace (get_bin s (value x) <? length (bn_bins s)) with true by lia. cbn [rbind].
    rewrite upd_comm by congruence. reflexivity.
Qed.
Lemma u32_inc_comm a b x : u32_inc a (u32_inc b x) = u32_inc b (u32_inc a x).
Proof. unfold u32_inc. rewrite !N.add_mod_idemp_l by discriminate. f_equal. lia. Qed.
Lemma quantile_perm O nbins q limits vs vs' r : Permutation vs vs' -> quantile O nbins q limits vs = Ok r -> quantile O nbins q limits vs' = Ok r.
Proof.
  intros HP E. unfold quantile in *. apply rbind_ok in E as (b0 & E0 & E). rewrite E0. cbn [rbind]. apply rbind_ok in E as (b & Eb & E).
  rewrite (insert_perm O N (num O) (fun v => v) (fun _ => u32_inc 1) (fun _ => True) b0 vs vs' b); try assumption; [|intros; reflexivity|apply Forall_forall; auto].
  cbn [rbind]. rewrite <- (Permutation_length HP). exact E.
Qed.

Section Upd.
Variable O : numops.
Variable dbg dbg' : bool.
Variable cfg : config O.
Variables d d' : data O.
Variable order : list nat.
Hypothesis Hre : reordered order d d'.
(** The class of the weights and of the gradients: their additions commute. *)
Variables Gw Gg : num O -> Prop.
Hypothesis Hw : forall x a b, Gw a -> Gw b -> nadd O (nadd O x a) b = nadd O (nadd O x b) a.
Hypothesis Hg : forall x a b, Gg a -> Gg b -> nadd O (nadd O x a) b = nadd O (nadd O x b) a.
Notation n := (d_nexamples d).
Definition row (k : nat) : nat := nth k order 0.

Lemma order_row : map row (seq 0 n) = order.
Proof.
  destruct Hre as (HP & _). assert (length order = n) as Hl by (rewrite (Permutation_length HP), seq_length; reflexivity). unfold row. rewrite <- Hl. apply nth_error_ext. intros k. rewrite nth_error_map, nth_error_seq.
  destruct (Nat.ltb_spec k (length order)) as [H|H]; cbn [option_map]; [symmetry; apply nth_error_nth', H|symmetry; apply nth_error_None, H].
Qed.
Lemma row_perm : Permutation (map row (seq 0 n)) (seq 0 n).
Proof. rewrite order_row. apply Hre. Qed.
Lemma row_lt k : k < n -> row k < n.
Proof. intros H. assert (In (row k) (seq 0 n)) as Hi by (eapply Permutation_in; [exact row_perm|]; apply in_map, in_seq; lia). apply in_seq in Hi. lia. Qed.
Lemma row_inj k k' : k < n -> k' < n -> row k = row k' -> k = k'.
Proof.
  intros H H' E. assert (NoDup order) as Hnd by (eapply Permutation_NoDup; [symmetry; apply Hre|apply seq_NoDup]). assert (length order = n) as Hl by (rewrite <- order_row, map_length, seq_length; reflexivity).
  eapply NoDup_nth; [exact Hnd|lia|lia|exact E].
Qed.
(** [l'] is [l] in the other order. *)
Definition rows_of {A} (l l' : list A) : Prop := length l = n /\ length l' = n /\ forall k, k < n -> nth_error l' k = nth_error l (row k).
Lemma in_order_rows A (l l' : list A) : in_order order l l' -> length l' = n /\ (forall k, k < n -> nth_error l' k = nth_error l (row k)).
Proof.
  unfold in_order. intros H. assert (length l' = n) as Hl by (apply (f_equal (@length _)) in H; rewrite !map_length in H; rewrite H, <- order_row, map_length, seq_length; reflexivity). split; [exact Hl|].
  intros k Hk. apply (f_equal (fun l => nth_error l k)) in H. rewrite !nth_error_map in H. assert (nth_error order k = Some (row k)) as Ek by (rewrite <- order_row, nth_error_map, nth_error_seq; replace (k <? n) with true by lia; reflexivity).
  rewrite Ek in H. cbn [option_map] in H. destruct (nth_error l' k); [|discriminate]. injection H as <-. reflexivity.
Qed.
Lemma idx_rows A (l l' : list A) k : k < n -> nth_error l' k = nth_error l (row k) -> idx l' k = idx l (row k).
Proof. intros _ H. unfold idx. rewrite H. reflexivity. Qed.

Lemma re_max_nbins f : max_nbins d' f = max_nbins d f.
Proof. destruct Hre as (_ & E1 & _ & _ & _ & E2 & E3 & _). unfold max_nbins, feat_type_of, feat_card. rewrite E1, E2, E3. reflexivity. Qed.
Lemma re_limits f : feat_limits d' f = feat_limits d f.
Proof. destruct Hre as (_ & _ & _ & _ & E & _). unfold feat_limits. rewrite E. reflexivity. Qed.
Lemma re_type f : feat_type_of d' f = feat_type_of d f.
Proof. destruct Hre as (_ & _ & _ & _ & _ & E & _). unfold feat_type_of. rewrite E. reflexivity. Qed.
Lemma re_card f : feat_card d' f = feat_card d f.
Proof. destruct Hre as (_ & _ & _ & _ & _ & _ & E & _). unfold feat_card. rewrite E. reflexivity. Qed.
Lemma re_feature f col col' : get_feature d f = Ok col -> get_feature d' f = Ok col' -> length col' = n /\ forall k, k < n -> nth_error col' k = nth_error col (row k).
Proof.
  destruct Hre as (_ & _ & _ & _ & _ & _ & _ & HF). unfold get_feature. intros E E'. apply idx_ok in E, E'. apply in_order_rows. revert f E E'. induction HF as [|c c' l l' Hc _ IH]; intros [|f] E E'; try discriminate; cbn [nth_error] in *; [congruence|eapply IH; eassumption].
Qed.
Lemma re_n : d_nexamples d' = n. Proof. apply Hre. Qed.
Lemma re_nf : d_nfeatures d' = d_nfeatures d. Proof. apply Hre. Qed.

(** The gradients an update gets. *)
Record grads_ok (grad grad' : list (num O)) : Prop := {
  go_rows : rows_of grad grad';
  go_w : forall g, In g grad -> Gw (nadd O (nabs O g) (EPSILON O));
  go_g : (forall f, feat_type_of d f <> Ok HiCardCat) \/ forall g, In g grad -> Gg g
}.

(* ---- categories ---- *)
Definition hstep (grad feat : list (num O)) (stats : list (num O * N)) (j : nat) : res (list (num O * N)) :=
  let* category := cat_at feat j in let* e := idx stats category in let* g := idx grad j in set_idx stats category (nadd O (fst e) g, u32_inc 1 (snd e)).
Lemma hicard_fold feat grad m : forall i stats, hicard_stats feat grad (seq i m) i stats = foldM (hstep grad feat) (seq i m) stats.
Proof.
  induction m as [|m IH]; intros i stats; [reflexivity|]. cbn [seq hicard_stats foldM]. unfold hstep at 1. destruct (cat_at feat i); try reflexivity. cbn [rbind]. destruct (idx stats a); try reflexivity. cbn [rbind]. destruct (idx grad i); try reflexivity. cbn [rbind].
  destruct (set_idx stats a (nadd O (fst a0) a1, u32_inc 1 (snd a0))); try reflexivity. cbn [rbind]. apply IH.
Qed.
Lemma hstep_comm grad feat : forall s a b s1 s2, (exists g, nth_error grad a = Some g /\ Gg g) -> (exists g, nth_error grad b = Some g /\ Gg g) -> hstep grad feat s a = Ok s1 -> hstep grad feat s1 b = Ok s2 ->
  exists s1', hstep grad feat s b = Ok s1' /\ hstep grad feat s1' a = Ok s2.
Proof.
  intros s a b s1 s2 (ga & Ega & Ga) (gb & Egb & Gb) E1 E2. unfold hstep in *. unfold idx in E1 at 2, E2 at 2. unfold idx at 2 4. rewrite Ega in *. rewrite Egb in *.
  apply rbind_ok in E1 as (ca & Eca & E1). apply rbind_ok in E1 as (ea & Eea & E1). cbn [rbind] in E1. apply rbind_ok in E2 as (cb & Ecb & E2). apply rbind_ok in E2 as (eb & Eeb & E2). cbn [rbind] in E2.
  rewrite Eca, Ecb. cbn [rbind]. apply set_idx_ok in E1 as [L1 ->], E2 as [L2 ->]. rewrite upd_length in L2. apply idx_ok in Eea, Eeb. rewrite nth_error_upd in Eeb.
  assert (exists eb0, nth_error s cb = Some eb0) as [eb0 Eb0] by (destruct (nth_error s cb) eqn:E; [eauto|apply nth_error_None in E; lia]).
  rewrite (proj2 (idx_ok _ _ _ _) Eb0). cbn [rbind]. rewrite (proj2 (set_idx_ok _ _ _ _ _) (conj L2 eq_refl)). eexists. split; [reflexivity|].
  destruct (Nat.eqb_spec ca cb) as [->|Hne].
  - replace (cb <? length s) with true in Eeb by lia. cbn [andb] in Eeb. injection Eeb as <-. assert (eb0 = ea) as -> by congruence. unfold idx. rewrite nth_error_upd, Nat.eqb_refl. replace (cb <? length s) with true by lia. cbn [andb rbind fst snd].
    unfold set_idx. rewrite upd_length. replace (cb <? length s) with true by lia. rewrite !upd_upd_same. rewrite Hg by assumption. reflexivity.
  - cbn [andb] in Eeb. assert (eb = eb0) as -> by congruence. unfold idx. rewrite nth_error_upd. destruct (Nat.eqb_spec cb ca); [congruence|]. cbn [andb]. rewrite Eea. cbn [rbind]. unfold set_idx. rewrite upd_length. replace (ca <? length s) with true by lia. rewrite upd_comm by congruence. reflexivity.
Qed.
Lemma groups_eq feat feat' grad grad' card nact bounds r : (forall k, k < n -> nth_error feat' k = nth_error feat (row k)) -> rows_of grad grad' -> (forall g, In g grad -> Gg g) ->
  hicard_groups dbg cfg feat grad card nact bounds (seq 0 n) = Ok r -> forall r', hicard_groups dbg' cfg feat' grad' card nact bounds (seq 0 n) = Ok r' -> r' = r.
Proof.
  intros Hf (Lg & _ & Hgr) HG E r' E'. unfold hicard_groups in *. apply rbind_ok in E as (st0 & Es & E). apply rbind_ok in E' as (st0' & Es' & E'). rewrite hicard_fold in Es, Es'.
  assert (st0' = st0) as ->.
  { assert (Ok st0' = Ok st0) as H; [|injection H as ->; reflexivity]. rewrite <- Es'. eapply (foldM_reorder _ row (fun j => exists g, nth_error grad j = Some g /\ Gg g)); [apply hstep_comm| |exact row_perm| |exact Es].
    - intros s k Hk. apply in_seq in Hk. unfold hstep, cat_at, idx. rewrite Hf, Hgr by lia. reflexivity.
    - apply Forall_forall. intros j Hj. apply in_seq in Hj. destruct (nth_error grad j) as [g|] eqn:Eg; [|apply nth_error_None in Eg; lia]. exists g. split; [reflexivity|]. apply HG. eapply nth_error_In, Eg. }
  apply rbind_ok in E as (b0 & E0 & E). rewrite E0 in E'. cbn [rbind] in E'. apply rbind_ok in E as (b & Eb & E). rewrite Eb in E'. cbn [rbind] in E'. apply rbind_ok in E as (ranks & Er & E). apply rbind_ok in E' as (ranks' & Er' & E').
  assert (ranks' = ranks) as ->.
  { clear - Er Er'. revert ranks ranks' Er Er'. generalize (seq 1 (c_max_nbins cfg)). induction l as [|i l IH]; intros ranks ranks' Er Er'; cbn [mapM] in *; [congruence|].
    apply rbind_ok in Er as (x & Ex & Er). apply rbind_ok in Er as (xs & Exs & Er). injection Er as <-. apply rbind_ok in Er' as (x' & Ex' & Er'). apply rbind_ok in Er' as (xs' & Exs' & Er'). injection Er' as <-.
    f_equal; [|eapply IH; eassumption]. unfold hicard_rank, u32_pred in *. destruct (N.eqb _ 0); [|congruence]. destruct dbg, dbg'; congruence. }
  congruence.
Qed.
Lemma cands_eq feat feat' grad grad' limits r : (forall k, k < n -> nth_error feat' k = nth_error feat (row k)) -> rows_of grad grad' -> (forall g, In g grad -> Gw (nadd O (nabs O g) (EPSILON O))) ->
  num_candidates cfg feat grad limits (seq 0 n) = Ok r -> num_candidates cfg feat' grad' limits (seq 0 n) = Ok r.
Proof.
  intros Hf (Lg & _ & Hgr) HG E. unfold num_candidates in *. apply rbind_ok in E as (b0 & E0 & E). rewrite E0. cbn [rbind]. apply rbind_ok in E as (items & Ei & E).
  unfold num_items in Ei. destruct (mapM_reorder _ row (fun j => let* v := idx feat j in let* g := idx grad j in Ok (v, nadd O (nabs O g) (EPSILON O))) (fun j => let* v := idx feat' j in let* g := idx grad' j in Ok (v, nadd O (nabs O g) (EPSILON O))) (seq 0 n) (seq 0 n) items) with (2 := row_perm) (3 := Ei) as (items' & Ei' & HP).
  { intros k Hk. apply in_seq in Hk. unfold idx. rewrite Hf, Hgr by lia. reflexivity. }
  assert (Forall (fun it => Gw (snd it)) items) as HF.
  { clear - Ei HG. revert items Ei. generalize (seq 0 n). induction l as [|j l IH]; intros items Ei; cbn [mapM] in Ei; [injection Ei as <-; constructor|].
    apply rbind_ok in Ei as (x & Ex & Ei). apply rbind_ok in Ei as (xs & Exs & Ei). injection Ei as <-. constructor; [|apply IH, Exs]. apply rbind_ok in Ex as (v & _ & Ex). apply rbind_ok in Ex as (g & Eg & Ex). injection Ex as <-. cbn [snd]. apply HG. apply idx_ok in Eg. eapply nth_error_In, Eg. }
  unfold num_items at 1. rewrite Ei'. cbn [rbind]. apply rbind_ok in E as (b & Eb & E).
  rewrite (insert_perm O _ _ fst (fun it x => nadd O x (snd it)) (fun it => Gw (snd it)) b0 items items' b (fun x y z Hx Hy => eq_sym (Hw z (snd x) (snd y) Hx Hy)) HP HF Eb). cbn [rbind].
  rewrite <- (fold_left_permP _ _ (fun it => Gw (snd it)) (fun a it => nadd O a (snd it)) (fun s a b Ha Hb => Hw s (snd a) (snd b) Ha Hb) items items' HP HF). exact E.
Qed.

(* ---- states ---- *)
Record irel (i i' : inner O) : Prop := {
  ir_d : in_data i = d;
  ir_d' : in_data i' = d';
  ir_rng : in_rng i' = in_rng i;
  ir_useful : in_useful i' = in_useful i;
  ir_nf : in_nactive_features i' = in_nactive_features i;
  ir_ne : in_nactive_examples i' = in_nactive_examples i;
  ir_sup : in_supercats i' = in_supercats i;
  ir_cand : in_split_candidates i' = in_split_candidates i;
  ir_used : in_used_nbins i' = in_used_nbins i;
  ir_nl : in_has_non_locard i' = in_has_non_locard i
}.

Lemma locard_rel i i' f i1 i1' : irel i i' -> update_locard_cat i f (seq 0 n) = Ok i1 -> update_locard_cat i' f (seq 0 n) = Ok i1' -> irel i1 i1'.
Proof.
  intros [H1 H2 H3 H4 H5 H6 H7 H8 H9 H10] E E'. unfold update_locard_cat in *. rewrite H1, H2 in *.
  repeat (let x := fresh "x" in let Ex := fresh "E" in apply rbind_ok in E as (x & Ex & E)). repeat (let x := fresh "y" in let Ex := fresh "E'" in apply rbind_ok in E' as (x & Ex & E')).
  injection E as <-. injection E' as <-. rewrite re_max_nbins in *. rewrite H9 in *. constructor; cbn [in_data in_rng in_useful in_nactive_features in_nactive_examples in_supercats in_split_candidates in_used_nbins in_has_non_locard]; try assumption; try reflexivity; congruence.
Qed.
Lemma hicard_rel i i' f grad grad' bounds i1 i1' : irel i i' -> grads_ok grad grad' -> feat_type_of d f = Ok HiCardCat -> update_hicard_cat dbg cfg i f (seq 0 n) grad bounds = Ok i1 -> update_hicard_cat dbg' cfg i' f (seq 0 n) grad' bounds = Ok i1' -> irel i1 i1'.
Proof.
  intros [H1 H2 H3 H4 H5 H6 H7 H8 H9 H10] [G1 G2 G3] Ht E E'. destruct G3 as [G3|G3]; [exfalso; exact (G3 f Ht)|]. unfold update_hicard_cat in *. rewrite H1, H2 in *.
  apply rbind_ok in E as (feat & Ef & E). apply rbind_ok in E' as (feat' & Ef' & E'). apply rbind_ok in E as (card & Ec & E). apply rbind_ok in E' as (card' & Ec' & E'). rewrite re_card, Ec in Ec'. injection Ec' as <-.
  apply rbind_ok in E as ((sw & sc) & Eg & E). apply rbind_ok in E' as ((sw' & sc') & Eg' & E'). rewrite H6 in Eg'. destruct (re_feature f feat feat' Ef Ef') as [_ Hrows].
  pose proof (groups_eq feat feat' grad grad' card _ bounds (sw, sc) Hrows G1 G3 Eg (sw', sc') Eg') as Heq. injection Heq as -> ->.
  repeat (let x := fresh "x" in let Ex := fresh "E" in apply rbind_ok in E as (x & Ex & E)). repeat (let x := fresh "y" in let Ex := fresh "E'" in apply rbind_ok in E' as (x & Ex & E')).
  injection E as <-. injection E' as <-. rewrite H9, H7 in *. constructor; cbn [in_data in_rng in_useful in_nactive_features in_nactive_examples in_supercats in_split_candidates in_used_nbins in_has_non_locard]; try assumption; try reflexivity; congruence.
Qed.
Lemma num_rel i i' f grad grad' i1 i1' : irel i i' -> grads_ok grad grad' -> update_num cfg i f (seq 0 n) grad = Ok i1 -> update_num cfg i' f (seq 0 n) grad' = Ok i1' -> irel i1 i1'.
Proof.
  intros [H1 H2 H3 H4 H5 H6 H7 H8 H9 H10] [G1 G2 G3] E E'. unfold update_num in *. rewrite H1, H2 in *.
  apply rbind_ok in E as (feat & Ef & E). apply rbind_ok in E' as (feat' & Ef' & E'). apply rbind_ok in E as (lim & El & E). apply rbind_ok in E' as (lim' & El' & E'). rewrite re_limits, El in El'. injection El' as <-.
  apply rbind_ok in E as ((cands & b) & Eg & E). apply rbind_ok in E' as ((cands' & b') & Eg' & E'). destruct (re_feature f feat feat' Ef Ef') as [_ Hrows].
  rewrite (cands_eq feat feat' grad grad' lim (cands, b) Hrows G1 G2 Eg) in Eg'. injection Eg' as <- <-.
  repeat (let x := fresh "x" in let Ex := fresh "E" in apply rbind_ok in E as (x & Ex & E)). repeat (let x := fresh "y" in let Ex := fresh "E'" in apply rbind_ok in E' as (x & Ex & E')).
  injection E as <-. injection E' as <-. rewrite H9, H8 in *. constructor; cbn [in_data in_rng in_useful in_nactive_features in_nactive_examples in_supercats in_split_candidates in_used_nbins in_has_non_locard]; try assumption; try reflexivity; congruence.
Qed.
Lemma feature_rel grad grad' bounds i i' u i1 i1' : grads_ok grad grad' -> irel i i' -> update_feature dbg cfg false (seq 0 n) grad bounds i u = Ok i1 -> update_feature dbg' cfg false (seq 0 n) grad' bounds i' u = Ok i1' -> irel i1 i1'.
Proof.
  intros HG HI E E'. unfold update_feature in *. rewrite (ir_useful _ _ HI), (ir_d _ _ HI), (ir_d' _ _ HI) in *. apply rbind_ok in E as (f & Ef & E). rewrite Ef in E'. cbn [rbind] in E'. apply rbind_ok in E as (ft & Eft & E). rewrite re_type, Eft in E'. cbn [rbind] in E'.
  destruct ft; [injection E as <-; injection E' as <-; exact HI|eapply hicard_rel; eassumption|eapply num_rel; eassumption].
Qed.

Record drel (s s' : dataset O) : Prop := { dr_i : irel (ds_inner s) (ds_inner s'); dr_b : ds_index_buffer s = []; dr_b' : ds_index_buffer s' = []; dr_c : ds_update_count s' = ds_update_count s }.

Lemma useful_rel nact l : forall st st' r r', fst (fst st') = fst (fst st) -> snd st' = snd st -> foldM (useful_step d nact) l st = Ok r -> foldM (useful_step d' nact) l st' = Ok r' -> fst (fst r') = fst (fst r) /\ snd r' = snd r.
Proof.
  intros st st' r r' H1 H2 E E'. refine (foldM_rel _ _ _ (fun a b => fst (fst b) = fst (fst a) /\ snd b = snd a) _ _ l _ st st' r r' (conj H1 H2) E E'). clear - Hre. intros [[u b] nl] [[u' b'] nl'] f t t' _ [Hu Hl] E E'. cbn [fst snd] in *. subst u' nl'. unfold useful_step in *.
  rewrite re_max_nbins, re_limits, re_type in E'. apply rbind_ok in E as (nb & Enb & E). rewrite Enb in E'. cbn [rbind] in E'. destruct (nb =? 0); [injection E as <-; injection E' as <-; auto|]. apply rbind_ok in E as (lim & Elm & E). rewrite Elm in E'. cbn [rbind] in E'. destruct (neq O (fst lim) (snd lim)); [injection E as <-; injection E' as <-; auto|].
  apply rbind_ok in E as (ft & Eft & E). rewrite Eft in E'. cbn [rbind] in E'. apply rbind_ok in E as (x1 & _ & E). apply rbind_ok in E as (x2 & _ & E). injection E as <-. apply rbind_ok in E' as (x1' & _ & E'). apply rbind_ok in E' as (x2' & _ & E'). injection E' as <-. auto.
Qed.
Lemma new_rel g s s' : nlt O (c_example_fraction cfg) (nofZ O 1) = false -> dataset_new cfg d g = Ok s -> dataset_new cfg d' g = Ok s' -> drel s s'.
Proof.
  intros Hfr E E'. unfold dataset_new in *. rewrite Hfr, re_n in *. apply rbind_ok in E as (i & Ei & E). apply rbind_ok in E' as (i' & Ei' & E').
  assert (irel i i') as HI.
  { clear E E'. unfold inner_new in *. rewrite re_n, re_nf in *. apply rbind_ok in Ei as ([[u b] nl] & Eu & Ei). apply rbind_ok in Ei' as ([[u' b'] nl'] & Eu' & Ei'). injection Ei as <-. injection Ei' as <-.
    destruct (useful_rel _ _ _ _ _ _ eq_refl eq_refl Eu Eu') as [H1 H2]. cbn [fst snd] in *. subst u' nl'. constructor; reflexivity. }
  apply rbind_ok in E as (i1 & E1 & E). apply rbind_ok in E' as (i1' & E1' & E'). injection E as <-. injection E' as <-. rewrite (ir_useful _ _ HI) in E1'.
  constructor; try reflexivity. cbn [ds_inner]. refine (foldM_rel _ _ _ irel _ _ _ _ i i' i1 i1' HI E1 E1'). clear - Hre. intros j j' f t t' _ HI E E'. rewrite re_type in E'. apply rbind_ok in E as (ft & Eft & E). rewrite Eft in E'. cbn [rbind] in E'. destruct (is_locard ft); [eapply locard_rel; eassumption|congruence].
Qed.
Lemma update_rel s s' grad grad' bounds s1 s1' : grads_ok grad grad' -> drel s s' -> dataset_update dbg cfg s grad bounds = Ok s1 -> dataset_update dbg' cfg s' grad' bounds = Ok s1' -> drel s1 s1'.
Proof.
  intros HG [HI B1 B2 HC] E E'. unfold dataset_update in *. rewrite HC, B1, B2 in *. assert (irel (initialize_supercats (ds_inner s)) (initialize_supercats (ds_inner s'))) as HI0.
  { destruct HI as [H1 H2 H3 H4 H5 H6 H7 H8 H9 H10]. unfold initialize_supercats. rewrite H1, H2, re_nf, H7. constructor; cbn [in_data in_rng in_useful in_nactive_features in_nactive_examples in_supercats in_split_candidates in_used_nbins in_has_non_locard]; try assumption; reflexivity. }
  destruct (skip_update (c_sample_freq cfg) (ds_update_count s + 1)); [injection E as <-; injection E' as <-; constructor; try reflexivity; exact HI0|].
  apply rbind_ok in E as (i1 & E1 & E). apply rbind_ok in E' as (i1' & E1' & E').
  assert (irel i1 i1') as HI1.
  { clear E E'. unfold sample_features, in_feature_sampling_enabled in *. destruct HI0 as [H1 H2 H3 H4 H5 H6 H7 H8 H9 H10]. rewrite H5, H4, H3 in E1'. destruct (in_nactive_features (initialize_supercats (ds_inner s)) <? length (in_useful (initialize_supercats (ds_inner s)))).
    - apply rbind_ok in E1 as ((u & g) & Eu & E1). rewrite Eu in E1'. cbn [rbind] in E1'. injection E1 as <-. injection E1' as <-. constructor; cbn [in_data in_rng in_useful in_nactive_features in_nactive_examples in_supercats in_split_candidates in_used_nbins in_has_non_locard]; try assumption; reflexivity.
    - injection E1 as <-. injection E1' as <-. constructor; assumption. }
  unfold example_sampling_enabled in *. cbn [ds_index_buffer length Nat.eqb negb] in *. rewrite (ir_nl _ _ HI1), (ir_d _ _ HI1), (ir_d' _ _ HI1), (ir_nf _ _ HI1), re_n in *. destruct (in_has_non_locard i1).
  - apply rbind_ok in E as (i2 & E2 & E). apply rbind_ok in E' as (i2' & E2' & E'). injection E as <-. injection E' as <-. constructor; try reflexivity. cbn [ds_inner].
    refine (foldM_rel _ _ _ irel _ _ _ _ i1 i1' i2 i2' HI1 E2 E2'). intros i i' u t t' _ H3 H4 H5. eapply feature_rel; eassumption.
  - injection E as <-. injection E' as <-. constructor; try reflexivity. exact HI1.
Qed.

(* ---- what the learner sees ---- *)
Lemma crit_rel s s' f b : drel s s' -> make_crit s' f b = make_crit s f b.
Proof. intros [[H1 H2 H3 H4 H5 H6 H7 H8 H9 H10] _ _ _]. unfold make_crit, get_split_value. rewrite H1, H2, H8, re_type. reflexivity. Qed.
Lemma mask_rel dbg0 dbg0' s s' f b fm fm' : drel s s' -> reachable dbg0 cfg d s -> reachable dbg0' cfg d' s' -> 0 < n -> 0 < c_sample_freq cfg -> 0 < ds_update_count s ->
  candidate s f b -> ds_get_bitvec s f b = Ok fm -> ds_get_bitvec s' f b = Ok fm' -> forall k, k < n -> bbit fm' k = bbit fm (row k).
Proof.
  intros HD HR HR' Hn Hf Hc (fs & nb & Efs & Hin & Enb & Hb) Em Em' k Hk. destruct HD as [HI B1 B2 HC]. pose proof HI as [H1 H2 H3 H4 H5 H6 H7 H8 H9 H10].
  assert (mask_examples d s = Ok (seq 0 n)) as Hex by (unfold mask_examples, example_sampling_enabled; rewrite B1; reflexivity).
  assert (mask_examples d' s' = Ok (seq 0 n)) as Hex' by (unfold mask_examples, example_sampling_enabled; rewrite B2, re_n; reflexivity).
  assert (active_features s' = Ok fs) as Efs' by (unfold active_features, in_active_features in *; rewrite H4, H5; exact Efs).
  destruct (C47_masks O dbg0 cfg d s fs f (seq 0 n) HR Hn Hf Hc Efs Hin Hex) as (nb1 & Enb1 & _ & _ & _ & Hbits). rewrite Enb in Enb1. injection Enb1 as <-.
  destruct (C47_masks O dbg0' cfg d' s' fs f (seq 0 n) HR') as (nb1 & Enb1 & _ & _ & _ & Hbits'); [rewrite re_n; exact Hn|exact Hf|rewrite HC; exact Hc|exact Efs'|exact Hin|exact Hex'|]. unfold get_nbins in *. rewrite H9, Enb in Enb1. injection Enb1 as <-.
  destruct (Hbits b Hb) as (x & Ex & Hx). rewrite Em in Ex. injection Ex as <-. destruct (Hbits' b Hb) as (x & Ex & Hx'). rewrite Em' in Ex. injection Ex as <-.
  specialize (Hx' k). specialize (Hx (row k)). rewrite nth_error_seq in Hx, Hx'. pose proof (row_lt k Hk). replace (k <? n) with true in Hx' by lia. replace (row k <? n) with true in Hx by lia.
  unfold in_bin in Hx, Hx'. rewrite H1 in Hx. rewrite H2, re_type in Hx'. destruct Hx as (col & v & ft & Ec & Ev & Et & Hx). destruct Hx' as (col' & v' & ft' & Ec' & Ev' & Et' & Hx'). rewrite Et in Et'. injection Et' as <-.
  destruct (re_feature f col col' Ec Ec') as [_ Hrows]. rewrite (Hrows k Hk), Ev in Ev'. injection Ev' as <-. destruct ft.
  - congruence.
  - destruct Hx as (tb & c & T1 & T2 & ->). destruct Hx' as (tb' & c' & T1' & T2' & ->). unfold get_supercats in *. rewrite H7 in T1'. assert (tb' = tb) as -> by congruence. assert (c' = c) as -> by congruence. reflexivity.
  - destruct Hx as (cs & lo & hi & bn & T1 & T2 & T3 & ->). destruct Hx' as (cs' & lo' & hi' & bn' & T1' & T2' & T3' & ->). rewrite H8 in T1'. rewrite re_limits, T2 in T2'. injection T2' as <- <-. assert (cs' = cs) as -> by congruence. assert (bn' = bn) as -> by congruence. reflexivity.
Qed.
End Upd.
