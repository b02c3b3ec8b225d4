(** Low-cardinality columns with unused codes: the data set. *)
From Coq Require Import Permutation Sorted.
From Verif Require Import Base BaseProofs BitModel Num DataModel BinnerModel Config TreeModel DatasetModel DatasetSpec LearnerProofs AlikeProofs ColSpec ColProofs ColProofs2 WideProofs WideProofs2 DupProofs GapSpec.

Definition okv (L : nat) (y : blocks) : Prop := length y = L /\ Forall (fun b : block => length b = 32) y.
Lemma okv_zeros L : okv L (repeat bb_zeros L).
Proof. split; [apply repeat_length|]. apply Forall_forall. intros b Hb. apply repeat_spec in Hb. subst b. reflexivity. Qed.
Lemma okv_enable L y k y' : okv L y -> bv_enable_bit y k = Ok y' -> okv L y'.
Proof.
  intros [H1 H2] E. unfold bv_enable_bit in E. apply rbind_ok in E as (b & Eb & E). apply rbind_ok in E as (b' & Eb' & E). apply set_idx_ok in E as [_ ->]. split; [rewrite upd_length; exact H1|].
  unfold bb_enable_bit in Eb'. apply rbind_ok in Eb' as (x & _ & Eb'). apply set_idx_ok in Eb' as [_ ->]. apply idx_ok, nth_error_In in Eb. rewrite Forall_forall in *. intros z Hz. apply In_nth_error in Hz as (j & Hj). rewrite nth_error_upd in Hj. destruct (_ && _); [injection Hj as <-; rewrite upd_length; apply H2, Eb|apply H2; eapply nth_error_In, Hj].
Qed.

(** Rows with one item per code. *)
Definition grow {A} (E : A -> Prop) (mf : nat -> nat) (n n' : nat) (r r' : list A) : Prop :=
  length r = n /\ length r' = n' /\ (forall b, b < n -> nth_error r' (mf b) = nth_error r b) /\ forall b' x, (forall b, b < n -> b' <> mf b) -> nth_error r' b' = Some x -> E x.
Lemma grow_map A B (h : A -> B) (E : A -> Prop) (E' : B -> Prop) mf n n' r r' : (forall x, E x -> E' (h x)) -> grow E mf n n' r r' -> grow E' mf n n' (map h r) (map h r').
Proof.
  intros HE (H1 & H2 & H3 & H4). split; [rewrite map_length; exact H1|]. split; [rewrite map_length; exact H2|]. split; [intros b Hb; rewrite !nth_error_map, H3 by exact Hb; reflexivity|].
  intros b' y Hb E1. rewrite nth_error_map in E1. destruct (nth_error r' b') as [x|] eqn:Ex; [|discriminate]. injection E1 as <-. apply HE. eapply H4; eassumption.
Qed.
Lemma grow_repeat A (E : A -> Prop) mf n n' x : (forall b, b < n -> mf b < n') -> E x -> grow E mf n n' (repeat x n) (repeat x n').
Proof.
  intros Hm HE. split; [apply repeat_length|]. split; [apply repeat_length|]. split; [intros b Hb; rewrite !(nth_error_repeat x) by (try apply Hm; exact Hb); reflexivity|]. intros b' y _ Ey. apply nth_error_In, repeat_spec in Ey. subst y. exact HE.
Qed.
Lemma grow_upd A (E : A -> Prop) mf n n' r r' b x : (forall a c, a < n -> c < n -> mf a = mf c -> a = c) -> b < n -> mf b < n' -> grow E mf n n' r r' -> grow E mf n n' (upd r b x) (upd r' (mf b) x).
Proof.
  intros Hinj Hb Hb' (H1 & H2 & H3 & H4). split; [rewrite upd_length; exact H1|]. split; [rewrite upd_length; exact H2|]. split.
  - intros c Hc. rewrite !nth_error_upd, H1, H2. replace (b <? n) with true by (symmetry; apply Nat.ltb_lt; exact Hb). replace (mf b <? n') with true by (symmetry; apply Nat.ltb_lt; exact Hb'). rewrite !Bool.andb_true_r.
    destruct (Nat.eqb_spec b c) as [->|Hne]; [rewrite Nat.eqb_refl; reflexivity|]. destruct (Nat.eqb_spec (mf b) (mf c)) as [He|_]; [exfalso; apply Hne, Hinj; assumption|]. apply H3, Hc.
  - intros b' y Hn Ey. rewrite nth_error_upd in Ey. destruct (Nat.eqb_spec (mf b) b') as [He|_]; [exfalso; apply (Hn b Hb); congruence|]. cbn [andb] in Ey. eapply H4; eassumption.
Qed.
Lemma grow_idx A (E : A -> Prop) mf n n' r r' b x : grow E mf n n' r r' -> idx r b = Ok x -> idx r' (mf b) = Ok x.
Proof. intros (H1 & _ & H3 & _) Ex. apply idx_ok in Ex. apply idx_ok. rewrite H3; [exact Ex|]. rewrite <- H1. apply nth_error_Some. congruence. Qed.

Section Dataset.
Variable O : numops.
Variable dbg : bool.
Variable cfg : config O.
Variable m : nat -> nat -> nat.
Variables d d' : data O.
Hypothesis HD : renumbered m d d'.
Hypothesis Hcodes : forall f n' c, feat_type_of d' f = Ok LoCardCat -> feat_card d' f = Ok n' -> c < n' -> into_cat (nofnat O c) = c.
Notation nf := (d_nfeatures d).
Variable sel : nat -> bool.
Hypothesis Hsel : forall f, f < nf -> if sel f then same_column m d d' f else exists n n', renumbered_column m d d' f n n'.
Definition plain (f : nat) : Prop := nf <= f \/ sel f = true.
Definition gapped (f n n' : nat) : Prop := (f < nf /\ sel f = false) /\ renumbered_column m d d' f n n'.
Lemma plain_same f : f < nf -> plain f -> same_column m d d' f.
Proof. intros Hf [H|H]; [lia|]. specialize (Hsel f Hf). rewrite H in Hsel. exact Hsel. Qed.
Lemma not_both f n n' : plain f -> gapped f n n' -> False.
Proof. intros [H|H] ((H1 & H2) & _); [lia|congruence]. Qed.
Lemma g_cases f : plain f \/ exists n n', gapped f n n'.
Proof.
  destruct (Nat.lt_ge_cases f nf) as [H|H]; [|left; left; exact H]. destruct (sel f) eqn:E; [left; right; exact E|]. pose proof (Hsel f H) as X. rewrite E in X. destruct X as (n & n' & X). right. exists n, n'. split; auto.
Qed.
Lemma g_nf : d_nfeatures d' = nf. Proof. apply HD. Qed.
Lemma g_ne : d_nexamples d' = d_nexamples d. Proof. apply HD. Qed.
Lemma g_type f : f < nf -> feat_type_of d' f = feat_type_of d f. Proof. intros H. apply HD, H. Qed.
Lemma g_inj f n n' a b : gapped f n n' -> m f a = m f b -> a = b.
Proof. intros (_ & _ & _ & _ & _ & Hm & _) E. destruct (lt_eq_lt_dec a b) as [[H|H]|H]; [apply Hm in H; lia|exact H|apply Hm in H; lia]. Qed.
Lemma g_in f n n' b : gapped f n n' -> b < n -> m f b < n'. Proof. intros (_ & _ & _ & _ & _ & _ & Hm & _). apply Hm. Qed.
Lemma g_three f n n' : gapped f n n' -> 3 <= n /\ 3 <= n'.
Proof.
  intros H. pose proof H as (_ & _ & _ & _ & Hn & Hm & _). split; [exact Hn|]. pose proof (g_in f n n' 2 H ltac:(lia)). pose proof (Hm 0 1 ltac:(lia)). pose proof (Hm 1 2 ltac:(lia)). lia.
Qed.
Lemma g_max f n n' : gapped f n n' -> max_nbins d f = Ok n /\ max_nbins d' f = Ok n'.
Proof.
  intros H. destruct (g_three _ _ _ H) as [H1 H2]. destruct H as ((Hf & _) & Ht & Hc & Hc' & _). unfold max_nbins. rewrite (g_type f Hf), Ht. cbn [rbind]. rewrite Hc, Hc'. cbn [rbind]. destruct n as [|[|[|n]]]; [lia..|]; destruct n' as [|[|[|n']]]; [lia..|]; auto.
Qed.
Lemma g_max_same f : f < nf -> same_column m d d' f -> max_nbins d' f = max_nbins d f.
Proof. intros Hf (_ & _ & Hc & _). unfold max_nbins. rewrite (g_type f Hf), Hc. assert (d_max_nbins d' = d_max_nbins d) as -> by apply HD. reflexivity. Qed.

(** The parts of a cell. *)
Definition gap_bvs (f n n' : nat) (r r' : list blocks) : Prop := (r = [] /\ r' = []) \/ exists L, (forall y, In y r \/ In y r' -> okv L y) /\ grow (fun x : blocks => x = repeat bb_zeros L) (m f) n n' r r'.
Definition gap_used (n n' u u' : nat) : Prop := (u = 0 /\ u' = 0) \/ (u = n /\ u' = n').
Definition both {A} (R : A -> A -> Prop) (o o' : option A) : Prop := match o, o' with Some x, Some y => R x y | None, None => True | _, _ => False end.
Definition per {A} (f : nat) (R : nat -> nat -> A -> A -> Prop) (o o' : option A) : Prop := (plain f -> o' = o) /\ forall n n', gapped f n n' -> both (R n n') o o'.
Definition gcell (f : nat) (c c' : cell O) : Prop := ce_sc c' = ce_sc c /\ ce_sp c' = ce_sp c /\ per f (gap_bvs f) (ce_bv c) (ce_bv c') /\ per f gap_used (ce_nb c) (ce_nb c').
Lemma gcell_plain f c c' : plain f -> gcell f c c' -> c' = c.
Proof. intros Hp (H1 & H2 & [H3 _] & [H4 _]). destruct c, c'. cbn in *. rewrite H1, H2, (H3 Hp), (H4 Hp). reflexivity. Qed.
Lemma both_merge A (R : A -> A -> Prop) o o' x x' : both R o o' -> both R x x' -> both R (omerge o x) (omerge o' x').
Proof. unfold both, omerge. destruct o, o', x, x'; try contradiction; auto. Qed.
Lemma per_merge A f (R : nat -> nat -> A -> A -> Prop) o o' x x' : per f R o o' -> per f R x x' -> per f R (omerge o x) (omerge o' x').
Proof. intros [H1 H2] [H3 H4]. split; [intros Hp; rewrite (H1 Hp), (H3 Hp); reflexivity|]. intros n n' Hg. apply both_merge; auto. Qed.
Lemma gcell_merge f c c' x x' : gcell f c c' -> gcell f x x' -> gcell f (cmerge O c x) (cmerge O c' x').
Proof. intros (H1 & H2 & H3 & H4) (G1 & G2 & G3 & G4). unfold gcell, cmerge. cbn. rewrite H1, H2, G1, G2. split; [reflexivity|]. split; [reflexivity|]. split; apply per_merge; assumption. Qed.

(** Filling the bit vectors of a column. *)
Lemma gap_fill f n n' col col' : gapped f n n' -> get_feature d f = Ok col -> get_feature d' f = Ok col' -> forall ex k bvs bvs' r, gap_bvs f n n' bvs bvs' -> fill_loop (cat_at col) ex k bvs = Ok r ->
  exists r', fill_loop (cat_at col') ex k bvs' = Ok r' /\ gap_bvs f n n' r r' /\ length r = length bvs /\ length r' = length bvs'.
Proof.
  intros Hg Ec Ec'. pose proof Hg as ((Hf & _) & Ht & Hn & Hn' & H3 & Hm & Hin & (col0 & col0' & E1 & E2 & HF) & _). rewrite Ec in E1. apply Ok_eq in E1. subst col0. rewrite Ec' in E2. apply Ok_eq in E2. subst col0'.
  assert (forall j c, cat_at col j = Ok c -> c < n /\ cat_at col' j = Ok (m f c)) as Hcat.
  { intros j c E. unfold cat_at in *. apply rbind_ok in E as (v & Ev & E). apply Ok_eq in E. apply idx_ok in Ev. assert (exists v', nth_error col' j = Some v' /\ exists c0, c0 < n /\ v = nofnat O c0 /\ v' = nofnat O (m f c0)) as (v' & Ev' & c0 & Hc0 & -> & ->).
    { clear - HF Ev. revert j Ev. induction HF as [|a a' l l' Ha _ IH]; intros [|j] Ev; cbn in Ev; try discriminate; [injection Ev as ->; eexists; split; [reflexivity|exact Ha]|apply IH in Ev; exact Ev]. }
    assert (feat_type_of d' f = Ok LoCardCat) as Ht' by (rewrite (g_type f Hf); exact Ht). assert (n <= n') as Hle. { clear - Hin Hm H3. assert (forall a, a <= m f a) as X by (induction a as [|a IH]; [lia|pose proof (Hm a (S a) ltac:(lia)); lia]). pose proof (X (n - 1)). pose proof (Hin (n - 1) ltac:(lia)). lia. }
    rewrite (Hcodes f n' c0 Ht' Hn' ltac:(lia)) in E. subst c0. split; [exact Hc0|]. assert (idx col' j = Ok (nofnat O (m f c))) as -> by (apply idx_ok; exact Ev'). cbn [rbind]. f_equal. apply (Hcodes f n' _ Ht' Hn'), Hin, Hc0. }
  induction ex as [|j ex IH]; intros k bvs bvs' r HB E; cbn [fill_loop] in *; [apply Ok_eq in E; subst r; eauto|]. apply rbind_ok in E as (c & Ecat & E). destruct (Hcat j c Ecat) as (Hc & ->). cbn [rbind].
  destruct HB as [[-> ->]|(L & HL & HG)].
  - cbn [length Nat.ltb Nat.leb] in *. exact (IH (S k) [] [] r (or_introl (conj eq_refl eq_refl)) E).
  - pose proof HG as (L1 & L2 & G1 & G2). assert ((c <? length bvs) = true) as X1 by (apply Nat.ltb_lt; rewrite L1; exact Hc). assert ((m f c <? length bvs') = true) as X2 by (apply Nat.ltb_lt; rewrite L2; apply Hin, Hc). rewrite X1 in E. rewrite X2.
    apply rbind_ok in E as (bv & Eb & E). apply rbind_ok in E as (bv1 & Eb1 & E). apply rbind_ok in E as (bvs1 & Es & E). rewrite (grow_idx _ _ _ _ _ _ _ _ _ HG Eb). cbn [rbind]. rewrite Eb1. cbn [rbind]. apply set_idx_ok in Es as [_ ->].
    assert (set_idx bvs' (m f c) bv1 = Ok (upd bvs' (m f c) bv1)) as -> by (apply set_idx_ok; rewrite L2; auto). cbn [rbind]. assert (okv L bv1) as Hb1 by (eapply okv_enable; [|exact Eb1]; apply HL; left; apply idx_ok in Eb; eapply nth_error_In, Eb).
    destruct (IH (S k) (upd bvs c bv1) (upd bvs' (m f c) bv1) r) as (r' & Er' & Hr & Lr & Lr'); [|exact E|].
    + right. exists L. split; [|apply grow_upd; [intros a b _ _; apply (g_inj f n n' a b Hg)|exact Hc|apply Hin, Hc|exact HG]].
      assert (forall (l : list blocks) k0 y, (forall y, In y l -> okv L y) -> In y (upd l k0 bv1) -> okv L y) as HU by (intros l k0 y Hl Hy; apply In_nth_error in Hy as (q & Hq); rewrite nth_error_upd in Hq; destruct (_ && _); [injection Hq as <-; exact Hb1|apply Hl; eapply nth_error_In, Hq]).
      intros y [Hy|Hy]; (eapply HU; [|exact Hy]); intros z Hz; apply HL; auto.
    + rewrite upd_length in *. eauto.
Qed.
Lemma gap_zero f n n' bvs bvs' : gap_bvs f n n' bvs bvs' -> gap_bvs f n n' (zero_bitvecs bvs) (zero_bitvecs bvs').
Proof.
  intros [[-> ->]|(L & HL & HG)]; [left; auto|]. right. exists L. unfold zero_bitvecs. split.
  - intros y [Hy|Hy]; apply in_map_iff in Hy as (z & <- & Hz); (destruct (HL z) as [-> _]; [auto|]; apply okv_zeros).
  - eapply grow_map; [|exact HG]. intros x ->. cbn. rewrite repeat_length. reflexivity.
Qed.
Lemma both_plain A f (R : nat -> nat -> A -> A -> Prop) o : plain f -> per f R o o.
Proof. intros Hp. split; [reflexivity|]. intros n n' Hg. exfalso. eapply not_both; eassumption. Qed.
Lemma gcell_same f c : plain f -> gcell f c c.
Proof. intros Hp. split; [reflexivity|]. split; [reflexivity|]. split; apply both_plain, Hp. Qed.
Lemma per_gapped A f n n' (R : nat -> nat -> A -> A -> Prop) o o' : gapped f n n' -> both (R n n') o o' -> per f R o o'.
Proof.
  intros Hg H. split; [intros Hp; exfalso; eapply not_both; eassumption|]. intros n1 n1' Hg1. destruct Hg as (_ & _ & E1 & E2 & _), Hg1 as (_ & _ & F1 & F2 & _). rewrite E1 in F1. rewrite E2 in F2. apply Ok_eq in F1, F2. subst. exact H.
Qed.
Lemma glocard f ex c c' r : f < nf -> gcell f c c' -> locard_cell d f ex c = Ok r -> exists r', locard_cell d' f ex c' = Ok r' /\ gcell f r r'.
Proof.
  intros Hf Hc E. destruct (g_cases f) as [Hp|(n & n' & Hg)].
  - rewrite (gcell_plain _ _ _ Hp Hc). pose proof (plain_same f Hf Hp) as Hs. assert (locard_cell d' f ex c = locard_cell d f ex c) as -> by (unfold locard_cell; rewrite (proj1 Hs), (g_max_same f Hf Hs); reflexivity). exists r. split; [exact E|apply gcell_same, Hp].
  - pose proof Hg as (_ & _ & _ & _ & _ & _ & _ & (col & col' & Ec & Ec' & _) & _). destruct (g_max _ _ _ Hg) as [En En']. unfold locard_cell in *. rewrite Ec, En in E. rewrite Ec', En'. cbn [rbind] in *. destruct Hc as (H1 & H2 & [_ H3] & [_ H4]). specialize (H3 _ _ Hg). specialize (H4 _ _ Hg).
    apply rbind_ok in E as (u & Eu & E). apply rbind_ok in E as (bvs & Eb & E). apply rbind_ok in E as (bvs1 & Ef & E). apply rbind_ok in E as (bv & Ev & E). apply Ok_eq in E. subst r. unfold both in H3, H4.
    destruct (ce_nb c) as [u0|]; [|discriminate]. destruct (ce_nb c') as [u0'|]; [|contradiction]. cbn [oset] in *. apply Ok_eq in Eu. subst u. cbn [rbind]. destruct (ce_bv c) as [b0|] eqn:Ebc; [|discriminate]. destruct (ce_bv c') as [b0'|] eqn:Ebc'; [|contradiction]. cbn [oget] in *. apply Ok_eq in Eb. subst b0. cbn [rbind].
    destruct (gap_fill f n n' col col' Hg Ec Ec' ex 0 _ _ _ (gap_zero _ _ _ _ _ H3) Ef) as (r' & Er' & Hr & Lr & Lr'). unfold fill_bitvecs. rewrite Er'. cbn [rbind]. unfold bv_cell in *. rewrite Ebc in Ev. rewrite Ebc'. cbn [oget rbind oset] in *. apply Ok_eq in Ev. subst bv.
    eexists. split; [reflexivity|]. unfold zero_bitvecs in Lr, Lr'. rewrite map_length in Lr, Lr'. rewrite Lr, Lr', !skipn_all, !app_nil_r. split; [exact H1|]. split; [exact H2|]. cbn [ce_bv ce_nb]. split; (eapply per_gapped; [exact Hg|]); [exact Hr|right; auto].
Qed.
Lemma gfeat nact locard ex grad bounds f c c' r : f < nf -> gcell f c c' -> feat_cell O dbg cfg d nact locard ex grad bounds f c = Ok r -> exists r', feat_cell O dbg cfg d' nact locard ex grad bounds f c' = Ok r' /\ gcell f r r'.
Proof.
  intros Hf Hc E. unfold feat_cell in *. rewrite (g_type f Hf). destruct (feat_type_of d f) as [ft| | |] eqn:Et; cbn [rbind] in *; try discriminate.
  assert (ft <> LoCardCat -> plain f) as Hpl by (intros Hne; destruct (g_cases f) as [Hp|(n & n' & Hg)]; [exact Hp|]; destruct Hg as (_ & Ht & _); rewrite Ht in Et; apply Ok_eq in Et; congruence).
  destruct ft.
  all: try (specialize (Hpl ltac:(discriminate)); rewrite (gcell_plain _ _ _ Hpl Hc); pose proof (plain_same f Hf Hpl) as (Hs1 & Hs2 & Hs3 & _)).
  - destruct locard; [|apply Ok_eq in E; subst r; eauto]. eapply glocard; eassumption.
  - exists r. split; [|apply gcell_same, Hpl]. rewrite <- E. unfold hicard_cell. rewrite Hs1, Hs3. reflexivity.
  - exists r. split; [|apply gcell_same, Hpl]. rewrite <- E. unfold num_cell. rewrite Hs1, Hs2. reflexivity.
Qed.

Record ginner (i i' : inner O) : Prop := {
  gi_rng : in_rng i' = in_rng i; gi_data : in_data i = d; gi_data' : in_data i' = d'; gi_useful : in_useful i' = in_useful i; gi_nf : in_nactive_features i' = in_nactive_features i; gi_ne : in_nactive_examples i' = in_nactive_examples i;
  gi_nl : in_has_non_locard i' = in_has_non_locard i; gi_lt : forall f, In f (in_useful i) -> f < nf; gi_cell : forall f, gcell f (get_cell i f) (get_cell i' f); gi_sc : in_supercats i' = in_supercats i; gi_sp : in_split_candidates i' = in_split_candidates i }.
Lemma sc_of i i' : (forall f, gcell f (get_cell i f) (get_cell i' f)) -> in_supercats i' = in_supercats i /\ in_split_candidates i' = in_split_candidates i.
Proof. intros H. split; apply nth_error_ext; intros f; [exact (proj1 (H f))|exact (proj1 (proj2 (H f)))]. Qed.
Lemma gcell_step (F F' : nat -> cell O -> res (cell O)) i i' f r : (forall c c' x, gcell f c c' -> F f c = Ok x -> exists x', F' f c' = Ok x' /\ gcell f x x') -> ginner i i' -> cell_step F i f = Ok r -> exists r', cell_step F' i' f = Ok r' /\ ginner r r'.
Proof.
  intros HF H E. unfold cell_step, rmap in *. apply rbind_ok in E as (c & Ec & E). apply Ok_eq in E. subst r. destruct (HF _ _ _ (gi_cell _ _ H f) Ec) as (c' & -> & Hc). cbn [rbind]. eexists. split; [reflexivity|].
  assert (forall g, gcell g (get_cell (set_cell i f c) g) (get_cell (set_cell i' f c') g)) as HC.
  { intros g. destruct (Nat.eq_dec f g) as [<-|Hne]; [rewrite !get_set; apply gcell_merge; [apply H|exact Hc]|]. rewrite !get_other by exact Hne. apply H. }
  destruct (sc_of _ _ HC) as [H1 H2]. destruct H. constructor; try assumption.
Qed.
Lemma gupdates locard ex grad bounds l : forall i i' r, ginner i i' -> foldM (update_feature dbg cfg locard ex grad bounds) l i = Ok r -> exists r', foldM (update_feature dbg cfg locard ex grad bounds) l i' = Ok r' /\ ginner r r'.
Proof.
  induction l as [|k l IH]; intros i i' r H E; cbn [foldM] in *; [apply Ok_eq in E; subst r; eauto|]. apply rbind_ok in E as (i1 & E1 & E). rewrite (update_one O dbg cfg) in *. rewrite (gi_useful _ _ H), (gi_data' _ _ H), (gi_ne _ _ H). rewrite (gi_data _ _ H) in E1. apply rbind_ok in E1 as (f & Ef & E1). rewrite Ef. cbn [rbind].
  assert (f < nf) as Hf by (apply (gi_lt _ _ H); apply idx_ok in Ef; eapply nth_error_In, Ef). destruct (gcell_step (feat_cell O dbg cfg d (in_nactive_examples i) locard ex grad bounds) (feat_cell O dbg cfg d' (in_nactive_examples i) locard ex grad bounds) i i' f i1 ltac:(intros; eapply gfeat; eassumption) H E1) as (i1' & -> & H1). cbn [rbind]. eapply IH; eassumption.
Qed.
Lemma glocards n l : (forall f, In f l -> f < nf) -> forall i i' r, ginner i i' -> foldM (cell_step (fun f c => let* ft := feat_type_of d f in if is_locard ft then locard_cell d f (seq 0 n) c else Ok c)) l i = Ok r ->
  exists r', foldM (cell_step (fun f c => let* ft := feat_type_of d' f in if is_locard ft then locard_cell d' f (seq 0 n) c else Ok c)) l i' = Ok r' /\ ginner r r'.
Proof.
  induction l as [|f l IH]; intros Hl i i' r H E; cbn [foldM] in *; [apply Ok_eq in E; subst r; eauto|]. apply rbind_ok in E as (i1 & E1 & E). assert (f < nf) as Hf by (apply Hl; left; reflexivity).
  edestruct (gcell_step (fun f c => let* ft := feat_type_of d f in if is_locard ft then locard_cell d f (seq 0 n) c else Ok c) (fun f c => let* ft := feat_type_of d' f in if is_locard ft then locard_cell d' f (seq 0 n) c else Ok c) i i' f i1) as (i1' & E1' & H1); [|exact H|exact E1|rewrite E1'; cbn [rbind]; eapply IH; [intros; apply Hl; right; assumption|exact H1|exact E]].
  cbn beta. intros c c' x Hc Ex. rewrite (g_type f Hf). apply rbind_ok in Ex as (ft & -> & Ex). cbn [rbind]. destruct (is_locard ft); [eapply glocard; eassumption|apply Ok_eq in Ex; subst x; eauto].
Qed.

(** A fresh data set. *)
Lemma guseful f : f < nf -> useful_b O d' f = useful_b O d f.
Proof.
  intros Hf. unfold useful_b. destruct (g_cases f) as [Hp|(n & n' & Hg)]; [pose proof (plain_same f Hf Hp) as Hs; rewrite (g_max_same f Hf Hs), (proj1 (proj2 Hs)); reflexivity|].
  destruct (g_max _ _ _ Hg) as [-> ->]. destruct (g_three _ _ _ Hg). replace (n =? 0) with false by (symmetry; apply Nat.eqb_neq; lia). replace (n' =? 0) with false by (symmetry; apply Nat.eqb_neq; lia). destruct Hg as (_ & _ & _ & _ & _ & _ & _ & _ & (lim & lim' & -> & -> & ->)). reflexivity.
Qed.
Lemma mapM_const A B (z : res B) (l : list A) r : mapM (fun _ => z) l = Ok r -> r = [] \/ exists x, z = Ok x /\ r = repeat x (length l).
Proof.
  destruct l as [|a l]; [intros E; apply Ok_eq in E; auto|]. destruct z as [x| | |]; try discriminate. intros H. right. exists x. split; [reflexivity|]. revert r H. generalize (a :: l). clear.
  induction l as [|b l1 IH]; intros r1 E; cbn [mapM] in E; [apply Ok_eq in E; subst; reflexivity|]. cbn [rbind] in E. apply rbind_ok in E as (y & Ey & E). apply Ok_eq in E. subst r1. cbn [length repeat]. f_equal. apply IH, Ey.
Qed.
Lemma gfresh nact f n n' : gapped f n n' -> forall r, fresh O d nact f = Ok r -> exists r', fresh O d' nact f = Ok r' /\ gap_bvs f n n' r r'.
Proof.
  intros Hg r E. unfold fresh in *. destruct (g_max _ _ _ Hg) as [En En']. rewrite En in E. rewrite En'. cbn [rbind] in *. destruct (g_three _ _ _ Hg). destruct (mapM_const _ _ _ _ _ E) as [->|(z & Ez & ->)]; [exfalso; apply DatasetProofs3.mapM_length in E; rewrite seq_length in E; cbn in E; lia|].
  assert (forall l : list nat, mapM (fun _ => zero_bits nact) l = Ok (repeat z (length l))) as X by (induction l as [|a l IH]; cbn [mapM length repeat]; [reflexivity|]; rewrite IH, Ez; reflexivity).
  exists (repeat z n'). split; [rewrite <- (seq_length n' 0) at 2; apply X|]. rewrite !seq_length. unfold zero_bits, zero_blocks in Ez. apply rbind_ok in Ez as (u & _ & Ez). apply Ok_eq in Ez. subst z. right. exists (blocks_required_for nact).
  split; [intros y [Hy|Hy]; apply repeat_spec in Hy; subst y; apply okv_zeros|]. apply grow_repeat; [intros b Hb; apply (g_in f n n' b Hg Hb)|reflexivity].
Qed.
Lemma gnew g i : inner_new cfg d g = Ok i -> exists i', inner_new cfg d' g = Ok i' /\ ginner i i'.
Proof.
  unfold inner_new. rewrite g_ne, g_nf. intros E. apply rbind_ok in E as (((u & bv) & b) & E1 & E). apply Ok_eq in E. subst i. set (nact := scaled_count (d_nexamples d) (c_example_fraction cfg)) in *.
  destruct (useful_ok O d nact _ (seq_NoDup nf 0) _ _ _ _ E1) as (A1 & A2 & A3 & A4 & A5 & A6). cbn [fst snd app orb] in *. rewrite repeat_length in *.
  destruct (useful_run O d' nact (seq 0 nf) [] (repeat [] nf) false) as (((u' & bv') & b') & E1').
  { intros f Hf. pose proof (A1 f Hf) as (B1 & B2). apply in_seq in Hf. assert (f < nf) as Hf' by lia. unfold step_ok. rewrite repeat_length, guseful, (g_type f Hf') by exact Hf'. destruct (g_cases f) as [Hp|(n & n' & Hg)].
    - pose proof (plain_same f Hf' Hp) as Hs. unfold fresh in *. rewrite (g_max_same f Hf' Hs), (proj1 (proj2 Hs)). auto.
    - destruct (g_max _ _ _ Hg) as [En En']. split; [exists n'; split; [exact En'|]; intros _; destruct Hg as (_ & _ & _ & _ & _ & _ & _ & _ & (lim & lim' & _ & -> & _)); eauto|]. intros Hu. destruct (B2 Hu) as (_ & B3 & (bvs & B4)). split; [exact Hf'|]. split; [exact B3|]. destruct (gfresh _ _ _ _ Hg _ B4) as (r' & Er' & _). eauto. }
  rewrite E1'. cbn [rbind]. eexists. split; [reflexivity|].
  destruct (useful_ok O d' nact _ (seq_NoDup nf 0) _ _ _ _ E1') as (_ & A2' & A3' & A4' & A5' & A6'). cbn [fst snd app orb] in *. rewrite repeat_length in *.
  assert (u' = u) as -> by (subst u u'; apply filter_ext_in; intros f Hf; apply in_seq in Hf; apply guseful; lia).
  constructor; cbn; try reflexivity.
  - subst b b'. apply Bool.eq_iff_eq_true. rewrite !existsb_exists. assert (forall f, f < nf -> nl_b O d' f = nl_b O d f) as HN by (intros f Hf; unfold nl_b; rewrite guseful, g_type by exact Hf; reflexivity). split; intros (x & Hx & Hn); exists x; (split; [exact Hx|]); apply in_seq in Hx; rewrite HN in * by lia; exact Hn.
  - subst u. intros f Hf. apply filter_In in Hf as [Hf _]. apply in_seq in Hf. lia.
  - intros f. split; [reflexivity|]. split; [reflexivity|]. unfold get_cell. cbn [ce_bv ce_nb in_bitvecs in_used_nbins]. destruct (Nat.lt_ge_cases f nf) as [Hf|Hf].
    + assert (In f (seq 0 nf)) as Hin by (apply in_seq; lia). split.
      * destruct (useful_b O d f) eqn:Eu.
        { destruct (A5 f Hin Eu) as (x & Ex & ->). destruct (A5' f Hin ltac:(rewrite guseful by exact Hf; exact Eu)) as (x' & Ex' & ->). destruct (g_cases f) as [Hp|(n & n' & Hg)].
          - pose proof (plain_same f Hf Hp) as Hs. unfold fresh in *. rewrite (g_max_same f Hf Hs) in Ex'. rewrite Ex in Ex'. apply Ok_eq in Ex'. subst x'. apply both_plain, Hp.
          - eapply per_gapped; [exact Hg|]. destruct (gfresh _ _ _ _ Hg _ Ex) as (r' & Er' & Hr). rewrite Ex' in Er'. apply Ok_eq in Er'. subst r'. exact Hr. }
        { rewrite A6' by (right; rewrite guseful by exact Hf; exact Eu). rewrite A6 by auto. rewrite !(nth_error_repeat []) by exact Hf. split; [reflexivity|]. intros n n' _. left. auto. }
      * rewrite !(nth_error_repeat 0) by exact Hf. split; [reflexivity|]. intros n n' _. left. auto.
    + assert (nth_error bv f = None) as -> by (apply nth_error_None; lia). assert (nth_error bv' f = None) as -> by (apply nth_error_None; lia). assert (nth_error (repeat 0 nf) f = None) as -> by (apply nth_error_None; rewrite repeat_length; exact Hf).
      split; (split; [reflexivity|]; intros n n' _; exact I).
Qed.
Record gds (s s' : dataset O) : Prop := { gd_in : ginner (ds_inner s) (ds_inner s'); gd_buf : ds_index_buffer s' = ds_index_buffer s; gd_count : ds_update_count s' = ds_update_count s }.
Lemma gdataset_new g s : dataset_new cfg d g = Ok s -> exists s', dataset_new cfg d' g = Ok s' /\ gds s s'.
Proof.
  unfold dataset_new. rewrite g_ne. intros E. apply rbind_ok in E as (i & Ei & E). destruct (gnew _ _ Ei) as (i' & -> & H). cbn [rbind]. destruct (nlt O (c_example_fraction cfg) (nofZ O 1)); [apply Ok_eq in E; subst s; eexists; split; [reflexivity|constructor; [exact H|reflexivity..]]|].
  apply rbind_ok in E as (i2 & E2 & E). apply Ok_eq in E. subst s. rewrite locard_fold in E2 by apply H. rewrite locard_fold by apply H. rewrite (gi_useful _ _ H).
  destruct (glocards (d_nexamples d) _ (gi_lt _ _ H) _ _ _ H E2) as (i2' & -> & H2). cbn [rbind]. eexists. split; [reflexivity|]. constructor; [exact H2|reflexivity..].
Qed.
Lemma ginit i i' : ginner i i' -> ginner (initialize_supercats i) (initialize_supercats i').
Proof.
  intros H. unfold initialize_supercats. rewrite (gi_data' _ _ H), (gi_data _ _ H), g_nf, (gi_sc _ _ H). destruct H. constructor; cbn; try assumption; try reflexivity. intros f. destruct (gi_cell0 f) as (_ & H2 & H3 & H4). split; [reflexivity|]. split; [exact H2|]. split; assumption.
Qed.
Lemma gsample i i' r : ginner i i' -> sample_features i = Ok r -> exists r', sample_features i' = Ok r' /\ ginner r r'.
Proof.
  intros H E. unfold sample_features, in_feature_sampling_enabled in *. rewrite (gi_nf _ _ H), (gi_useful _ _ H), (gi_rng _ _ H). destruct (_ <? _); [|apply Ok_eq in E; subst r; eauto]. apply rbind_ok in E as ((u & g) & Eu & E). rewrite Eu. cbn [rbind]. apply Ok_eq in E. subst r. eexists. split; [reflexivity|].
  assert (forall f, In f u -> In f (in_useful i)) as HU. { intros f Hf. eapply Permutation_in; [apply Permutation_sym; eapply shuffle_perm, Eu|exact Hf]. }
  destruct H. constructor; cbn; try assumption; try reflexivity. intros f Hf. apply gi_lt0, HU, Hf.
Qed.
Lemma gdataset_update grad bounds s s' r : gds s s' -> dataset_update dbg cfg s grad bounds = Ok r -> exists r', dataset_update dbg cfg s' grad bounds = Ok r' /\ gds r r'.
Proof.
  intros [H Hb Hc] E. unfold dataset_update in *. rewrite Hb, Hc. apply ginit in H. rename H into H0.
  set (i0 := initialize_supercats (ds_inner s)) in *. set (i0' := initialize_supercats (ds_inner s')) in *. clearbody i0 i0'.
  destruct (skip_update _ _); [apply Ok_eq in E; subst r; eexists; split; [reflexivity|constructor; [exact H0|reflexivity..]]|].
  apply rbind_ok in E as (i1 & E1 & E). destruct (gsample _ _ _ H0 E1) as (i1' & -> & H1). cbn [rbind]. clear E1 H0 i0 i0'. unfold example_sampling_enabled in *. cbn [ds_index_buffer] in *. destruct (negb (length (ds_index_buffer s) =? 0)).
  - apply rbind_ok in E as (s2 & E2 & E). unfold sample_examples, nactive_examples in *. cbn [ds_inner ds_index_buffer ds_update_count] in *. rewrite (gi_rng _ _ H1), (gi_ne _ _ H1). apply rbind_ok in E2 as ((buf & g) & -> & E2). cbn [rbind]. apply Ok_eq in E2. subst s2.
    unfold active_examples, nactive_examples, nactive_features in *. cbn [ds_inner ds_index_buffer in_nactive_examples] in *. apply rbind_ok in E as (ex & -> & E). cbn [rbind]. apply rbind_ok in E as (i3 & E3 & E). apply Ok_eq in E. subst r. cbn [in_nactive_features] in *.
    match type of E3 with foldM _ _ ?x = _ => match goal with |- context [foldM _ _ ?y] => assert (ginner x y) as H2 by (destruct H1; constructor; cbn; auto) end end.
    destruct (gupdates _ _ _ _ _ _ _ _ H2 E3) as (i3' & E3' & H3). rewrite (gi_nf _ _ H1) in E3' |- *. rewrite E3'. cbn [rbind]. eexists. split; [reflexivity|]. constructor; [exact H3|reflexivity..].
  - rewrite (gi_nl _ _ H1). destruct (in_has_non_locard i1); [|apply Ok_eq in E; subst r; eexists; split; [reflexivity|constructor; [exact H1|reflexivity..]]].
    apply rbind_ok in E as (i2 & E2 & E). apply Ok_eq in E. subst r. rewrite (gi_data' _ _ H1), g_ne, (gi_nf _ _ H1). rewrite (gi_data _ _ H1) in E2. destruct (gupdates _ _ _ _ _ _ _ _ H1 E2) as (i2' & -> & H2). cbn [rbind]. eexists. split; [reflexivity|]. constructor; [exact H2|reflexivity..].
Qed.
End Dataset.
