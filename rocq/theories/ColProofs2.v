(** Tables with the columns in another order: the data set (continued). *)
From Coq Require Import Permutation.
From Verif Require Import Base BaseProofs BitModel Num DataModel BinnerModel Config TreeModel DatasetModel DatasetSpec LearnerModel LearnerSpec LearnerProofs3 AlikeProofs ColSpec ColProofs.

Section Rename.
Variable p : nat -> nat.
Variable nf : nat.
Hypothesis Hp : forall f, f < nf -> p f < nf.
Hypothesis Hinj : forall f g, f < nf -> g < nf -> p f = p g -> f = g.
Lemma p_nodup l : NoDup l -> (forall f, In f l -> f < nf) -> NoDup (map p l).
Proof.
  induction l as [|x l IH]; intros HN HL; cbn [map]; [constructor|]. inversion HN; subst. constructor; [|apply IH; [assumption|intros; apply HL; right; assumption]].
  rewrite in_map_iff. intros (y & E & Hy). apply Hinj in E; [subst; contradiction|apply HL; right; exact Hy|apply HL; left; reflexivity].
Qed.
Lemma p_seq : Permutation (map p (seq 0 nf)) (seq 0 nf).
Proof.
  apply NoDup_Permutation_bis.
  - apply p_nodup; [apply seq_NoDup|intros f Hf; apply in_seq in Hf; lia].
  - rewrite map_length, !seq_length. lia.
  - intros x Hx. apply in_map_iff in Hx as (f & <- & Hf). apply in_seq in Hf. apply in_seq. specialize (Hp f). lia.
Qed.
Lemma p_onto g : g < nf -> exists f, f < nf /\ p f = g.
Proof. intros H. assert (In g (map p (seq 0 nf))) as H0 by (eapply Permutation_in; [symmetry; apply p_seq|apply in_seq; lia]). apply in_map_iff in H0 as (f & E & Hf). apply in_seq in Hf. exists f. split; [lia|exact E]. Qed.

(** Two lists with one item per feature, the second in the new order. *)
Definition rl {A} (l l' : list A) : Prop := (l = [] /\ l' = []) \/ (length l = nf /\ length l' = nf /\ forall f, f < nf -> nth_error l' (p f) = nth_error l f).
Lemma rl_nth A (l l' : list A) f : rl l l' -> f < nf -> nth_error l' (p f) = nth_error l f.
Proof. intros [[-> ->]|(_ & _ & H)] Hf; [|apply H, Hf]. destruct (p f), f; reflexivity. Qed.
Lemma rl_length A (l l' : list A) : rl l l' -> length l' = length l.
Proof. intros [[-> ->]|(-> & -> & _)]; reflexivity. Qed.
Lemma put_length A (l : list A) f o : length (put l f o) = length l.
Proof. destruct o; [apply upd_length|reflexivity]. Qed.
Lemma put_nil A f (o : option A) : put [] f o = [].
Proof. destruct o; [destruct f|]; reflexivity. Qed.
Lemma put_same A (l : list A) f o : f < length l -> nth_error (put l f o) f = match o with Some x => Some x | None => nth_error l f end.
Proof. intros H. destruct o; [|reflexivity]. cbn [put]. rewrite nth_error_upd, Nat.eqb_refl. replace (f <? length l) with true by (symmetry; apply Nat.ltb_lt; lia). reflexivity. Qed.
Lemma rl_put A (l l' : list A) f o : rl l l' -> f < nf -> rl (put l f o) (put l' (p f) o).
Proof.
  intros [[-> ->]|(H1 & H2 & H)] Hf; [left; rewrite !put_nil; auto|]. right. rewrite !put_length. split; [exact H1|split; [exact H2|]]. intros g Hg. destruct (Nat.eq_dec f g) as [->|Hne].
  - rewrite !put_same by (rewrite ?H1, ?H2; auto). rewrite H by exact Hg. reflexivity.
  - rewrite !put_other; [apply H, Hg|exact Hne|intros X; apply Hne, Hinj; assumption].
Qed.
Lemma rl_upd A (l l' : list A) f x : rl l l' -> f < nf -> rl (upd l f x) (upd l' (p f) x).
Proof. apply (rl_put A l l' f (Some x)). Qed.
Lemma rl_repeat A (x : A) : rl (repeat x nf) (repeat x nf).
Proof. right. rewrite !repeat_length. split; [reflexivity|split; [reflexivity|]]. intros f Hf. rewrite !(nth_error_repeat x) by auto. reflexivity. Qed.
Lemma rl_idx A (l l' : list A) f : rl l l' -> f < nf -> idx l' (p f) = idx l f.
Proof. intros H Hf. unfold idx. rewrite (rl_nth _ _ _ _ H Hf). reflexivity. Qed.
Lemma rl_set A (l l' : list A) f x r : rl l l' -> f < nf -> set_idx l f x = Ok r -> exists r', set_idx l' (p f) x = Ok r' /\ rl r r'.
Proof.
  intros H Hf E. apply set_idx_ok in E as [Hl ->]. exists (upd l' (p f) x). split; [|apply rl_upd; assumption]. apply set_idx_ok. split; [|reflexivity]. rewrite (rl_length _ _ _ H). destruct H as [[-> _]|(H1 & _)]; [cbn in Hl; lia|rewrite H1; apply Hp, Hf].
Qed.
Lemma rl_map A B (h : A -> B) l l' : rl l l' -> rl (map h l) (map h l').
Proof. intros [[-> ->]|(H1 & H2 & H)]; [left; auto|]. right. rewrite !map_length. split; [exact H1|split; [exact H2|]]. intros f Hf. rewrite !nth_error_map, H by exact Hf. reflexivity. Qed.
End Rename.

Section Dataset.
Variable O : numops.
Variable dbg : bool.
Variable cfg : config O.
Variable p : nat -> nat.
Variables d d' : data O.
Hypothesis HR : reordered_columns p d d'.
Notation nf := (d_nfeatures d).
Hypothesis HA : forall n, n <= nf -> scaled_count n (c_feature_fraction cfg) = n.
Let Hp : forall f, f < nf -> p f < nf := proj1 HR.
Let Hinj : forall f g, f < nf -> g < nf -> p f = p g -> f = g := proj1 (proj2 HR).
Notation rl := (rl p nf).

Lemma same_nf : d_nfeatures d' = nf. Proof. apply HR. Qed.
Lemma same_ne : d_nexamples d' = d_nexamples d. Proof. apply HR. Qed.
Lemma same_feature f : f < nf -> get_feature d' (p f) = get_feature d f. Proof. intros H. apply HR, H. Qed.
Lemma same_limits f : f < nf -> feat_limits d' (p f) = feat_limits d f. Proof. intros H. apply HR, H. Qed.
Lemma same_type f : f < nf -> feat_type_of d' (p f) = feat_type_of d f. Proof. intros H. apply HR, H. Qed.
Lemma same_card f : f < nf -> feat_card d' (p f) = feat_card d f. Proof. intros H. apply HR, H. Qed.
Lemma same_max f : f < nf -> max_nbins d' (p f) = max_nbins d f.
Proof. intros H. unfold max_nbins. rewrite same_type, same_card by exact H. replace (d_max_nbins d') with (d_max_nbins d) by (symmetry; apply HR). reflexivity. Qed.

Record rin (i i' : inner O) : Prop := {
  ri_rng : in_rng i' = in_rng i; ri_data : in_data i = d; ri_data' : in_data i' = d'; ri_nf : in_nactive_features i' = in_nactive_features i; ri_ne : in_nactive_examples i' = in_nactive_examples i;
  ri_all : in_nactive_features i = length (in_useful i); ri_nl : in_has_non_locard i' = in_has_non_locard i;
  ri_useful : Permutation (map p (in_useful i)) (in_useful i'); ri_nodup : NoDup (in_useful i); ri_lt : forall f, In f (in_useful i) -> f < nf;
  ri_bv : rl (in_bitvecs i) (in_bitvecs i'); ri_sc : rl (in_supercats i) (in_supercats i'); ri_sp : rl (in_split_candidates i) (in_split_candidates i'); ri_nb : rl (in_used_nbins i) (in_used_nbins i') }.
Lemma rin_length i i' : rin i i' -> length (in_useful i') = length (in_useful i).
Proof. intros H. rewrite <- (Permutation_length (ri_useful _ _ H)), map_length. reflexivity. Qed.
Lemma rin_cell i i' f : rin i i' -> f < nf -> get_cell i' (p f) = get_cell i f.
Proof. intros H Hf. unfold get_cell. rewrite (rl_nth _ _ _ _ _ _ (ri_bv _ _ H) Hf), (rl_nth _ _ _ _ _ _ (ri_sc _ _ H) Hf), (rl_nth _ _ _ _ _ _ (ri_sp _ _ H) Hf), (rl_nth _ _ _ _ _ _ (ri_nb _ _ H) Hf). reflexivity. Qed.
Lemma rin_set i i' f c : rin i i' -> f < nf -> rin (set_cell i f c) (set_cell i' (p f) c).
Proof. intros [] Hf. constructor; cbn; try assumption; apply rl_put; assumption. Qed.

(** The update of one feature. *)
Definition feat_cell (D : data O) (nact : nat) (locard : bool) (ex : list nat) (grad : list (num O)) (bounds : num O * num O) (f : nat) (c : cell O) : res (cell O) :=
  let* ft := feat_type_of D f in
  match ft with
  | LoCardCat => if locard then locard_cell D f ex c else Ok c
  | HiCardCat => hicard_cell dbg cfg D nact f ex grad bounds c
  | Numerical => num_cell cfg D f ex grad c
  end.
Lemma feat_cell_same nact locard ex grad bounds f c : f < nf -> feat_cell d' nact locard ex grad bounds (p f) c = feat_cell d nact locard ex grad bounds f c.
Proof.
  intros H. unfold feat_cell. rewrite same_type by exact H. destruct (feat_type_of d f) as [[| |]| | |]; cbn [rbind]; try reflexivity.
  - unfold locard_cell. rewrite same_feature, same_max by exact H. reflexivity.
  - unfold hicard_cell. rewrite same_feature, same_card by exact H. reflexivity.
  - unfold num_cell. rewrite same_feature, same_limits by exact H. reflexivity.
Qed.
Lemma update_is locard ex grad bounds l2 : forall l1 i, in_useful i = l1 ++ l2 ->
  foldM (update_feature dbg cfg locard ex grad bounds) (seq (length l1) (length l2)) i = foldM (cell_step (feat_cell (in_data i) (in_nactive_examples i) locard ex grad bounds)) l2 i.
Proof.
  induction l2 as [|f l2 IH]; intros l1 i E; [reflexivity|]. cbn [length seq foldM].
  assert (update_feature dbg cfg locard ex grad bounds i (length l1) = cell_step (feat_cell (in_data i) (in_nactive_examples i) locard ex grad bounds) i f) as EU.
  { unfold update_feature, cell_step, feat_cell. assert (idx (in_useful i) (length l1) = Ok f) as -> by (apply idx_ok; rewrite E, nth_error_app2 by lia; rewrite Nat.sub_diag; reflexivity). cbn [rbind].
    destruct (feat_type_of (in_data i) f) as [[| |]| | |]; cbn [rbind]; try reflexivity.
    - destruct locard; [apply locard_is|]. unfold rmap. cbn [rbind]. rewrite cell_id. reflexivity.
    - apply hicard_is.
    - apply num_is. }
  rewrite EU. destruct (cell_step _ i f) as [i1| | |] eqn:E1; cbn [rbind]; try reflexivity.
  assert (in_useful i1 = in_useful i /\ in_data i1 = in_data i /\ in_nactive_examples i1 = in_nactive_examples i) as (K1 & K2 & K3) by (unfold cell_step, rmap in E1; apply rbind_ok in E1 as (c & _ & E1); apply Ok_eq in E1; subst i1; auto).
  specialize (IH (l1 ++ [f]) i1). rewrite <- List.app_assoc in IH. cbn [app] in IH. rewrite List.app_length in IH. cbn [length] in IH. replace (length l1 + 1) with (S (length l1)) in IH by lia. rewrite IH by congruence. rewrite K2, K3. reflexivity.
Qed.
Lemma cells_sim (F F' : nat -> cell O -> res (cell O)) l : (forall f c, f < nf -> F' (p f) c = F f c) -> (forall f, In f l -> f < nf) -> forall i i' r, rin i i' -> foldM (cell_step F) l i = Ok r -> exists r', foldM (cell_step F') (map p l) i' = Ok r' /\ rin r r'.
Proof.
  intros HF. induction l as [|f l IH]; intros HL i i' r H E; cbn [foldM map] in *; [apply Ok_eq in E; subst; eauto|]. apply rbind_ok in E as (i1 & E1 & E). unfold cell_step, rmap in E1. apply rbind_ok in E1 as (c & Ec & E1). apply Ok_eq in E1. subst i1.
  assert (f < nf) as Hf by (apply HL; left; reflexivity). assert (cell_step F' i' (p f) = Ok (set_cell i' (p f) c)) as -> by (unfold cell_step, rmap; rewrite HF, (rin_cell _ _ _ H Hf), Ec by exact Hf; reflexivity). cbn [rbind].
  eapply IH; [intros; apply HL; right; assumption| |exact E]. apply rin_set; assumption.
Qed.
Lemma cells_sim_all (F F' : nat -> cell O -> res (cell O)) i i' r : (forall f c, f < nf -> F' (p f) c = F f c) -> rin i i' -> foldM (cell_step F) (in_useful i) i = Ok r -> exists r', foldM (cell_step F') (in_useful i') i' = Ok r' /\ rin r r'.
Proof.
  intros HF H E. destruct (cells_sim F F' _ HF (ri_lt _ _ H) _ _ _ H E) as (r' & E' & H'). exists r'. split; [|exact H']. eapply cell_perm; [exact (ri_useful _ _ H)| |exact E']. apply (p_nodup p nf); [exact Hinj|apply H|apply H].
Qed.
Lemma update_all locard ex grad bounds i i' r : rin i i' -> foldM (update_feature dbg cfg locard ex grad bounds) (seq 0 (in_nactive_features i)) i = Ok r ->
  exists r', foldM (update_feature dbg cfg locard ex grad bounds) (seq 0 (in_nactive_features i')) i' = Ok r' /\ rin r r'.
Proof.
  intros H E. rewrite (ri_nf _ _ H). rewrite (ri_all _ _ H) in *. rewrite <- (rin_length _ _ H). pose proof (update_is locard ex grad bounds (in_useful i) [] i eq_refl) as X. cbn [length] in X. rewrite X in E. pose proof (update_is locard ex grad bounds (in_useful i') [] i' eq_refl) as X'. cbn [length] in X'. rewrite X'.
  rewrite (ri_data _ _ H) in E. rewrite (ri_data' _ _ H), (ri_ne _ _ H). eapply cells_sim_all; [|exact H|exact E]. intros f c Hf. apply feat_cell_same, Hf.
Qed.

(** A fresh data set. *)
Lemma useful_sim nact l : (forall f, In f l -> f < nf) -> forall u bv b bv' r, rl bv bv' -> foldM (useful_step d nact) l (u, bv, b) = Ok r ->
  exists bv2', foldM (useful_step d' nact) (map p l) (map p u, bv', b) = Ok (map p (fst (fst r)), bv2', snd r) /\ rl (snd (fst r)) bv2'.
Proof.
  induction l as [|f l IH]; intros HL u bv b bv' r H E; cbn [foldM map] in *; [apply Ok_eq in E; subst; cbn; eauto|]. apply rbind_ok in E as (s1 & E1 & E). assert (f < nf) as Hf by (apply HL; left; reflexivity). assert (forall g, In g l -> g < nf) as HL' by (intros; apply HL; right; assumption).
  unfold useful_step at 1. unfold useful_step in E1 at 1. rewrite same_max, same_limits, same_type by exact Hf. apply rbind_ok in E1 as (nb & -> & E1). cbn [rbind].
  destruct (nb =? 0); [apply Ok_eq in E1; subst s1; cbn [rbind]; eapply IH; eassumption|]. apply rbind_ok in E1 as (lim & -> & E1). cbn [rbind]. destruct (neq O (fst lim) (snd lim)); [apply Ok_eq in E1; subst s1; cbn [rbind]; eapply IH; eassumption|].
  apply rbind_ok in E1 as (ft & -> & E1). cbn [rbind]. apply rbind_ok in E1 as (bvs & -> & E1). cbn [rbind]. apply rbind_ok in E1 as (bv1 & Es & E1). apply Ok_eq in E1. subst s1. destruct (rl_set p nf Hp Hinj _ _ _ _ _ _ H Hf Es) as (bv1' & -> & H1). cbn [rbind].
  replace (map p u ++ [p f]) with (map p (u ++ [f])) by (rewrite map_app; reflexivity). eapply IH; eassumption.
Qed.
Lemma useful_perm nact l l' r s : Permutation l l' -> NoDup l -> foldM (useful_step d' nact) l s = Ok r -> exists u, foldM (useful_step d' nact) l' s = Ok (u, snd (fst r), snd r) /\ Permutation (fst (fst r)) u.
Proof.
  intros HP HN E. set (E0 := fun a b : list nat * list (list blocks) * bool => Permutation (fst (fst a)) (fst (fst b)) /\ snd (fst a) = snd (fst b) /\ snd a = snd b).
  destruct (foldM_permE nat _ E0 (useful_step d' nact)) with (l := l) (l' := l') (s := s) (r := r) as (((u & bv) & b) & Er & HE1 & HE2 & HE3); try assumption.
  - intros x. repeat split; reflexivity.
  - intros a b c (A1 & A2 & A3) (B1 & B2 & B3). repeat split; [etransitivity; eassumption|congruence..].
  - intros ((u & bv) & b) ((u' & bv') & b') f r0 (A1 & A2 & A3) H. cbn [fst snd] in *. subst bv' b'. unfold useful_step in *. apply rbind_ok in H as (nb & -> & H). cbn [rbind]. destruct (nb =? 0); [apply Ok_eq in H; subst r0; eexists; split; [reflexivity|repeat split; exact A1]|].
    apply rbind_ok in H as (lim & -> & H). cbn [rbind]. destruct (neq O (fst lim) (snd lim)); [apply Ok_eq in H; subst r0; eexists; split; [reflexivity|repeat split; exact A1]|].
    apply rbind_ok in H as (ft & -> & H). cbn [rbind]. apply rbind_ok in H as (bvs & -> & H). cbn [rbind]. apply rbind_ok in H as (bv1 & -> & H). cbn [rbind]. apply Ok_eq in H. subst r0. eexists. split; [reflexivity|]. repeat split. cbn [fst]. apply Permutation_app_tail, A1.
  - intros ((u & bv) & b) f g s1 s2 Hfg F1 F2. unfold useful_step in *.
    apply rbind_ok in F1 as (nb & En & F1). rewrite En. cbn [rbind].
    assert (forall (X : list nat * list (list blocks) * bool) (P : Prop), Ok X = Ok X -> P -> P) as _ by auto.
    destruct (nb =? 0) eqn:En0.
    { apply Ok_eq in F1. subst s1. destruct s2 as ((u2 & bv2) & b2). rewrite F2. eexists. eexists. split; [reflexivity|]. split; [reflexivity|repeat split; reflexivity]. }
    apply rbind_ok in F1 as (lim & El & F1). rewrite El. cbn [rbind]. destruct (neq O (fst lim) (snd lim)) eqn:Elim.
    { apply Ok_eq in F1. subst s1. destruct s2 as ((u2 & bv2) & b2). rewrite F2. eexists. eexists. split; [reflexivity|]. split; [reflexivity|repeat split; reflexivity]. }
    apply rbind_ok in F1 as (ft & Et & F1). rewrite Et. cbn [rbind]. apply rbind_ok in F1 as (bvs & Eb & F1). rewrite Eb. cbn [rbind]. apply rbind_ok in F1 as (bv1 & Es & F1). apply Ok_eq in F1. subst s1.
    apply rbind_ok in F2 as (nbg & -> & F2). cbn [rbind]. destruct (nbg =? 0).
    { apply Ok_eq in F2. subst s2. eexists. eexists. split; [reflexivity|]. cbn [rbind]. rewrite Es. cbn [rbind]. split; [reflexivity|repeat split; reflexivity]. }
    apply rbind_ok in F2 as (limg & -> & F2). cbn [rbind]. destruct (neq O (fst limg) (snd limg)).
    { apply Ok_eq in F2. subst s2. eexists. eexists. split; [reflexivity|]. cbn [rbind]. rewrite Es. cbn [rbind]. split; [reflexivity|repeat split; reflexivity]. }
    apply rbind_ok in F2 as (ftg & -> & F2). cbn [rbind]. apply rbind_ok in F2 as (bvsg & -> & F2). cbn [rbind]. apply rbind_ok in F2 as (bv2 & Eg & F2). apply Ok_eq in F2. subst s2.
    apply set_idx_ok in Es as [L1 ->]. apply set_idx_ok in Eg as [L2 ->]. rewrite upd_length in L2.
    assert (set_idx bv g bvsg = Ok (upd bv g bvsg)) as -> by (apply set_idx_ok; auto). cbn [rbind]. eexists. eexists. split; [reflexivity|]. cbn [rbind].
    assert (set_idx (upd bv g bvsg) f bvs = Ok (upd (upd bv g bvsg) f bvs)) as -> by (apply set_idx_ok; rewrite upd_length; auto). cbn [rbind]. split; [reflexivity|]. repeat split; cbn [fst snd].
    + rewrite <- !List.app_assoc. apply Permutation_app_head. cbn [app]. constructor.
    + apply upd_comm, Hfg.
    + destruct b, (is_locard ft), (is_locard ftg); reflexivity.
  - cbn [fst snd] in *. subst bv b. eauto.
Qed.
Lemma useful_facts nact l : forall s r, foldM (useful_step d nact) l s = Ok r -> exists m, fst (fst r) = fst (fst s) ++ m /\ (NoDup l -> NoDup m) /\ incl m l /\ length (snd (fst r)) = length (snd (fst s)).
Proof.
  induction l as [|f l IH]; intros ((u & bv) & b) r E; cbn [foldM] in E; [apply Ok_eq in E; subst; exists []; rewrite app_nil_r; repeat split; [constructor|intros x []]|]. apply rbind_ok in E as (s1 & E1 & E). apply IH in E as (m & Em & HN & HI & HL).
  assert (s1 = (u, bv, b) \/ exists bv1 b1, s1 = (u ++ [f], bv1, b1) /\ length bv1 = length bv) as [->|(bv1 & b1 & -> & H1)].
  { unfold useful_step in E1. apply rbind_ok in E1 as (nb & _ & E1). destruct (nb =? 0); [apply Ok_eq in E1; auto|]. apply rbind_ok in E1 as (lim & _ & E1). destruct (neq _ _ _); [apply Ok_eq in E1; auto|]. apply rbind_ok in E1 as (ft & _ & E1). apply rbind_ok in E1 as (bvs & _ & E1).
    apply rbind_ok in E1 as (bv1 & Es & E1). apply set_idx_ok in Es as [_ ->]. apply Ok_eq in E1. subst s1. right. eexists. eexists. split; [reflexivity|apply upd_length]. }
  - exists m. cbn [fst snd] in *. split; [exact Em|]. split; [intros X; inversion X; auto|]. split; [intros x Hx; right; apply HI, Hx|exact HL].
  - exists (f :: m). cbn [fst snd] in *. rewrite <- List.app_assoc in Em. split; [exact Em|]. split; [intros X; inversion X; subst; constructor; [intros Y; apply HI in Y; contradiction|auto]|]. split; [intros x [<-|Hx]; [left; reflexivity|right; apply HI, Hx]|congruence].
Qed.
Lemma new_sim g i : inner_new cfg d g = Ok i -> exists i', inner_new cfg d' g = Ok i' /\ rin i i'.
Proof.
  unfold inner_new. rewrite same_nf, same_ne. intros E. apply rbind_ok in E as (((u & bv) & b) & E1 & E). apply Ok_eq in E. subst i. set (nact := scaled_count (d_nexamples d) (c_example_fraction cfg)) in *.
  destruct (useful_facts _ _ _ _ E1) as (m & Em & HN & HI & HL). cbn [fst snd app] in *. subst m. specialize (HN (seq_NoDup _ _)). rewrite repeat_length in HL.
  destruct (useful_sim nact (seq 0 nf) ltac:(intros f Hf; apply in_seq in Hf; lia) [] (repeat [] nf) false (repeat [] nf) _ (rl_repeat p nf Hp _ _) E1) as (bv2 & E2 & H2). cbn [map fst snd] in *.
  destruct (useful_perm nact _ (seq 0 nf) _ _ (p_seq p nf Hp Hinj) (p_nodup p nf Hinj (seq 0 nf) (seq_NoDup _ _) ltac:(intros f Hf; apply in_seq in Hf; lia)) E2) as (u' & E3 & HP). cbn [fst snd] in *. rewrite E3. cbn [rbind]. eexists. split; [reflexivity|].
  assert (length u' = length u) as Hlen by (rewrite <- (Permutation_length HP), map_length; reflexivity).
  constructor; cbn; try reflexivity; try assumption.
  - rewrite Hlen. reflexivity.
  - apply HA. pose proof (NoDup_incl_length HN HI). rewrite seq_length in H. exact H.
  - intros f Hf. apply HI, in_seq in Hf. lia.
  - left; auto.
  - apply rl_repeat; assumption.
  - apply rl_repeat; assumption.
Qed.
Record rds (s s' : dataset O) : Prop := { rd_in : rin (ds_inner s) (ds_inner s'); rd_buf : ds_index_buffer s' = ds_index_buffer s; rd_count : ds_update_count s' = ds_update_count s }.
Lemma locard_fold (D : data O) n l : forall i, in_data i = D -> foldM (fun s f => let* ft := feat_type_of D f in if is_locard ft then update_locard_cat s f (seq 0 n) else Ok s) l i =
  foldM (cell_step (fun f c => let* ft := feat_type_of D f in if is_locard ft then locard_cell D f (seq 0 n) c else Ok c)) l i.
Proof.
  induction l as [|f l IH]; intros i E; [reflexivity|]. cbn [foldM]. unfold cell_step at 1. destruct (feat_type_of D f) as [ft| | |]; cbn [rbind]; try reflexivity. unfold rmap. destruct (is_locard ft); cbn [rbind].
  - rewrite locard_is, E. unfold rmap. destruct (locard_cell _ _ _ _); cbn [rbind]; try reflexivity. apply IH. exact E.
  - rewrite cell_id. apply IH, E.
Qed.
Lemma dataset_new_sim g s : dataset_new cfg d g = Ok s -> exists s', dataset_new cfg d' g = Ok s' /\ rds s s'.
Proof.
  unfold dataset_new. rewrite same_ne. intros E. apply rbind_ok in E as (i & Ei & E). destruct (new_sim _ _ Ei) as (i' & -> & H). cbn [rbind]. destruct (nlt O (c_example_fraction cfg) (nofZ O 1)); [apply Ok_eq in E; subst s; eexists; split; [reflexivity|constructor; [exact H|reflexivity..]]|].
  apply rbind_ok in E as (i2 & E2 & E). apply Ok_eq in E. subst s. rewrite locard_fold in E2 by apply H. rewrite locard_fold by apply H.
  destruct (cells_sim_all _ (fun f c => let* ft := feat_type_of d' f in if is_locard ft then locard_cell d' f (seq 0 (d_nexamples d)) c else Ok c) _ _ _ ltac:(intros f c Hf; cbn beta; rewrite same_type by exact Hf; unfold locard_cell; rewrite same_feature, same_max by exact Hf; reflexivity) H E2) as (i2' & -> & H2).
  cbn [rbind]. eexists. split; [reflexivity|]. constructor; [exact H2|reflexivity..].
Qed.
Lemma resize_rl {A} (l l' : list (list A)) : rl l l' -> rl (vec_resize l nf []) (vec_resize l' nf []).
Proof.
  intros [[-> ->]|(H1 & H2 & H)]; unfold vec_resize; [cbn [length Nat.leb]; rewrite Nat.sub_0_r; cbn [app]; apply rl_repeat; assumption|]. rewrite H1, H2, Nat.leb_refl, Nat.sub_diag. cbn [repeat]. rewrite !app_nil_r. right. auto.
Qed.
Lemma dataset_update_sim grad bounds s s' r : rds s s' -> dataset_update dbg cfg s grad bounds = Ok r -> exists r', dataset_update dbg cfg s' grad bounds = Ok r' /\ rds r r'.
Proof.
  intros [H Hb Hc] E. unfold dataset_update in *. rewrite Hb, Hc.
  assert (rin (initialize_supercats (ds_inner s)) (initialize_supercats (ds_inner s'))) as H0.
  { destruct H. constructor; cbn; try assumption. rewrite ri_data0, ri_data'0, same_nf. apply resize_rl. assumption. }
  set (i0 := initialize_supercats (ds_inner s)) in *. set (i0' := initialize_supercats (ds_inner s')) in *. clearbody i0 i0'.
  destruct (skip_update _ _); [apply Ok_eq in E; subst r; eexists; split; [reflexivity|constructor; [exact H0|reflexivity..]]|].
  assert (sample_features i0 = Ok i0) as E0 by (unfold sample_features, in_feature_sampling_enabled; rewrite (ri_all _ _ H0), Nat.ltb_irrefl; reflexivity).
  assert (sample_features i0' = Ok i0') as -> by (unfold sample_features, in_feature_sampling_enabled; rewrite (ri_nf _ _ H0), (ri_all _ _ H0), (rin_length _ _ H0), Nat.ltb_irrefl; reflexivity).
  rewrite E0 in E. cbn [rbind] in *. unfold example_sampling_enabled in *. cbn [ds_index_buffer] in *. destruct (negb (length (ds_index_buffer s) =? 0)).
  - apply rbind_ok in E as (s2 & E2 & E). unfold sample_examples, nactive_examples in *. cbn [ds_inner ds_index_buffer ds_update_count] in *. rewrite (ri_rng _ _ H0), (ri_ne _ _ H0). apply rbind_ok in E2 as ((buf & g) & -> & E2). cbn [rbind]. apply Ok_eq in E2. subst s2.
    unfold active_examples, nactive_examples, nactive_features in *. cbn [ds_inner ds_index_buffer in_nactive_examples] in *. apply rbind_ok in E as (ex & -> & E). cbn [rbind]. apply rbind_ok in E as (i3 & E3 & E). apply Ok_eq in E. subst r.
    match type of E3 with foldM _ _ ?x = _ => match goal with |- context [foldM _ _ ?y] => assert (rin x y) as H1 by (destruct H0; constructor; cbn; auto) end end.
    destruct (update_all _ _ _ _ _ _ _ H1 E3) as (i3' & E3' & H3). cbn [in_nactive_features] in *. rewrite E3'. cbn [rbind]. eexists. split; [reflexivity|]. constructor; [exact H3|reflexivity..].
  - rewrite (ri_nl _ _ H0). destruct (in_has_non_locard i0); [|apply Ok_eq in E; subst r; eexists; split; [reflexivity|constructor; [exact H0|reflexivity..]]].
    apply rbind_ok in E as (i2 & E2 & E). apply Ok_eq in E. subst r. rewrite (ri_data' _ _ H0), same_ne. rewrite (ri_data _ _ H0) in E2. destruct (update_all _ _ _ _ _ _ _ H0 E2) as (i2' & -> & H2). cbn [rbind]. eexists. split; [reflexivity|]. constructor; [exact H2|reflexivity..].
Qed.
End Dataset.
