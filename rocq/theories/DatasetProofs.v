From Coq Require Import Permutation Sorting.Sorted FinFun.
From Verif Require Import Base BaseProofs BitModel BitSpec Num DataModel Config DatasetModel DatasetSpec.

(* ---- shuffle_first_k ---- *)

Lemma swap_ok A (l : list A) i j : i < length l -> j < length l ->
  exists x y, nth_error l i = Some x /\ nth_error l j = Some y /\ swap l i j = Ok (upd (upd l i y) j x).
Proof.
  intros Hi Hj. unfold swap. destruct (nth_error l i) as [x|] eqn:Ex; [|apply nth_error_None in Ex; lia].
  destruct (nth_error l j) as [y|] eqn:Ey; [|apply nth_error_None in Ey; lia].
  rewrite (proj2 (idx_ok _ _ _ _) Ex), (proj2 (idx_ok _ _ _ _) Ey). exists x, y. auto.
Qed.
Lemma swap_nth A (l l' : list A) i j : swap l i j = Ok l' -> length l' = length l /\
  forall n, nth_error l' n = nth_error l (if n =? i then j else if n =? j then i else n).
Proof.
  unfold swap. intros H. apply rbind_ok in H as (x & Ex & H). apply rbind_ok in H as (y & Ey & H). injection H as <-.
  apply idx_ok in Ex, Ey. rewrite !upd_length. split; [reflexivity|]. intros n. rewrite !nth_error_upd, upd_length.
  assert (i < length l /\ j < length l) as [Hi Hj] by (split; apply nth_error_Some; congruence).
  replace (i <? length l) with true by lia. replace (j <? length l) with true by lia.
  destruct (Nat.eqb_spec j n), (Nat.eqb_spec i n), (Nat.eqb_spec n i), (Nat.eqb_spec n j); subst; cbn [andb]; try lia; try congruence.
Qed.
Lemma swap_perm A (l l' : list A) i j : swap l i j = Ok l' -> Permutation l l'.
Proof.
  intros H. apply swap_nth in H as [HL HN]. apply Permutation_nth_error. split; [lia|].
  exists (fun n => if n =? i then j else if n =? j then i else n). split; [|exact HN].
  intros a b. destruct (Nat.eqb_spec a i), (Nat.eqb_spec b i), (Nat.eqb_spec a j), (Nat.eqb_spec b j); lia.
Qed.
Lemma gen_range_ok g lo hi : lo < hi -> exists j g', gen_range g lo hi = Ok (j, g') /\ lo <= j < hi.
Proof.
  intros H. unfold gen_range. replace (lo <? hi) with true by lia. do 2 eexists. split; [reflexivity|].
  assert (g 0 mod (hi - lo) < hi - lo) by (apply Nat.mod_upper_bound; lia). lia.
Qed.
Lemma shuffle_loop_ok m : forall i g buf, i + m <= length buf -> exists buf' g', shuffle_loop (length buf) (seq i m) g buf = Ok (buf', g') /\ Permutation buf buf'.
Proof.
  induction m as [|m IH]; intros i g buf H; cbn [seq shuffle_loop].
  - exists buf, g. auto.
  - destruct (gen_range_ok g i (length buf)) as (j & g' & E & Hj); [lia|]. rewrite E. cbn [rbind].
    destruct (swap_ok _ buf i j) as (x & y & _ & _ & Es); [lia|lia|]. rewrite Es. cbn [rbind].
    pose proof (swap_perm _ _ _ _ _ Es) as HP. set (b' := upd (upd buf i y) j x) in *.
    assert (length b' = length buf) as HL by (unfold b'; rewrite !upd_length; reflexivity).
    destruct (IH (S i) g' b') as (b'' & g'' & E' & HP'); [lia|]. rewrite HL in E'. rewrite E'. exists b'', g''. split; [reflexivity|].
    etransitivity; eassumption.
Qed.

Lemma insert_sorted_perm x l : Permutation (x :: l) (insert_sorted x l).
Proof.
  induction l as [|y t IH]; cbn [insert_sorted]; [reflexivity|]. destruct (x <=? y); [reflexivity|].
  rewrite perm_swap. apply perm_skip, IH.
Qed.
Lemma sort_perm l : Permutation l (sort_unstable l).
Proof. induction l as [|x t IH]; [reflexivity|]. cbn [sort_unstable fold_right]. etransitivity; [apply perm_skip, IH|apply insert_sorted_perm]. Qed.
Lemma insert_sorted_sorted x l : StronglySorted le l -> StronglySorted le (insert_sorted x l).
Proof.
  induction 1 as [|y t Ht IH Hy]; cbn [insert_sorted]; [repeat constructor|]. destruct (Nat.leb_spec x y).
  - constructor; [constructor; assumption|]. constructor; [assumption|]. eapply Forall_impl; [|exact Hy]. cbn. intros; lia.
  - constructor; [assumption|]. eapply Permutation_Forall; [apply insert_sorted_perm|]. constructor; [lia|assumption].
Qed.
Lemma sort_sorted l : StronglySorted le (sort_unstable l).
Proof. induction l as [|x t IH]; [constructor|]. apply insert_sorted_sorted, IH. Qed.
Lemma sorted_nodup_increasing l : StronglySorted le l -> NoDup l -> increasing l.
Proof.
  induction 1 as [|y t Ht IH Hy]; intros HN; [constructor|]. inversion HN as [|? ? Hni Hn]; subst. constructor; [exact (IH Hn)|].
  rewrite Forall_forall in Hy. apply Forall_forall. intros z Hz. specialize (Hy z Hz). assert (y <> z) by congruence. lia.
Qed.
Lemma increasing_nodup l : increasing l -> NoDup l.
Proof. induction 1 as [|y t Ht IH Hy]; constructor; [|exact IH]. intros Hin. rewrite Forall_forall in Hy. specialize (Hy y Hin). lia. Qed.

(** Two increasing lists with the same elements are equal. *)
Lemma increasing_ext l : forall l', increasing l -> increasing l' -> (forall x, In x l <-> In x l') -> l = l'.
Proof.
  induction l as [|x t IH]; intros [|y t'] H H' He.
  - reflexivity.
  - exfalso. apply (proj2 (He y)). left. reflexivity.
  - exfalso. apply (proj1 (He x)). left. reflexivity.
  - inversion H as [|? ? Ht Hx]; inversion H' as [|? ? Ht' Hy]; subst. rewrite Forall_forall in *.
    assert (x = y).
    { destruct (proj1 (He x) (or_introl eq_refl)) as [|Hin]; [auto|]. destruct (proj2 (He y) (or_introl eq_refl)) as [|Hin']; [auto|].
      specialize (Hy x Hin). specialize (Hx y Hin'). lia. }
    subst y. f_equal. apply IH; try assumption. intros z. split; intros Hz.
    + destruct (proj1 (He z) (or_intror Hz)) as [<-|]; [|assumption]. specialize (Hx x Hz). lia.
    + destruct (proj2 (He z) (or_intror Hz)) as [<-|]; [|assumption]. specialize (Hy x Hz). lia.
Qed.

Lemma shuffle_ok g k buf : k <= length buf -> exists buf' g', shuffle_first_k g k buf = Ok (buf', g') /\ Permutation buf buf' /\
  StronglySorted le (firstn k buf').
Proof.
  intros Hk. unfold shuffle_first_k. destruct (shuffle_loop_ok k 0 g buf Hk) as (b & g' & E & HP). rewrite E. cbn [rbind].
  assert (length b = length buf) as HL by (symmetry; apply Permutation_length, HP).
  unfold subslice. replace (0 <=? k) with true by lia. replace (k <=? length b) with true by lia. cbn [andb rbind].
  unfold sub. cbn [skipn]. rewrite Nat.sub_0_r. do 2 eexists. split; [reflexivity|]. split.
  - rewrite HP. rewrite <- (firstn_skipn k b) at 1. apply Permutation_app_tail, sort_perm.
  - assert (length (sort_unstable (firstn k b)) = k) as HLS.
    { rewrite <- (Permutation_length (sort_perm _)), firstn_length. lia. }
    rewrite firstn_app, HLS, Nat.sub_diag, firstn_O, app_nil_r, firstn_all2 by lia. apply sort_sorted.
Qed.
Lemma shuffle_panics g k buf : length buf < k -> shuffle_first_k g k buf = Panic.
Proof.
  intros Hk. unfold shuffle_first_k.
  assert (forall m i g b, length b = length buf -> length buf < i + m -> i <= length buf -> shuffle_loop (length buf) (seq i m) g b = Panic) as L.
  { induction m as [|m IH]; intros i g0 b HL Hm Hi; [lia|]. cbn [seq shuffle_loop]. destruct (Nat.eq_dec i (length buf)) as [->|Hne].
    - unfold gen_range. rewrite Nat.ltb_irrefl. reflexivity.
    - destruct (gen_range_ok g0 i (length buf)) as (j & g' & E & Hj); [lia|]. rewrite E. cbn [rbind].
      destruct (swap_ok _ b i j) as (x & y & _ & _ & Es); [lia|lia|]. rewrite Es. cbn [rbind]. apply IH; rewrite ?upd_length; lia. }
  rewrite L by lia. reflexivity.
Qed.

(** Every duplicate-free selection of the buffer's elements is drawn by some stream. *)
Lemma shuffle_loop_surj m : forall i tgt buf, NoDup buf -> i + m = length tgt -> incl tgt buf -> NoDup tgt ->
  (forall n, n < i -> nth_error buf n = nth_error tgt n) -> forall g0,
  exists g buf', shuffle_loop (length buf) (seq i m) g buf = Ok (buf', g0) /\ length buf' = length buf /\
    forall n, n < i + m -> nth_error buf' n = nth_error tgt n.
Proof.
  induction m as [|m IH]; intros i tgt buf HN HL Hin HNt Hpre g0; cbn [seq shuffle_loop].
  - exists g0, buf. split; [reflexivity|]. split; [reflexivity|]. intros n Hn. apply Hpre. lia.
  - destruct (nth_error tgt i) as [x|] eqn:Ex; [|apply nth_error_None in Ex; lia].
    destruct (In_nth_error buf x (Hin x (nth_error_In _ _ Ex))) as [j Ej].
    assert (j < length buf) as Hj by (apply nth_error_Some; congruence).
    assert (i <= j) as Hij.
    { destruct (Nat.le_gt_cases i j) as [|Hlt]; [assumption|]. exfalso. pose proof (Hpre j Hlt) as E. rewrite Ej in E. symmetry in E.
      assert (j = i); [|lia]. apply (proj1 (NoDup_nth_error tgt) HNt); [apply nth_error_Some; congruence|congruence]. }
    destruct (swap_ok _ buf i j) as (a & b & Ea & Eb & Es); [lia|lia|]. set (b' := upd (upd buf i b) j a) in *.
    pose proof (swap_nth _ _ _ _ _ Es) as [HLb HNb].
    destruct (IH (S i) tgt b') with (g0 := g0) as (g & buf' & E & HL' & HE); try assumption.
    + eapply Permutation_NoDup; [eapply swap_perm, Es|exact HN].
    + lia.
    + intros z Hz. eapply Permutation_in; [eapply swap_perm, Es|apply Hin, Hz].
    + intros n Hn. rewrite HNb. destruct (Nat.eqb_spec n i) as [->|Hne]; [congruence|]. destruct (Nat.eqb_spec n j) as [->|Hne']; [lia|].
      apply Hpre. lia.
    + exists (fun k => match k with 0 => j - i | S k' => g k' end), buf'. unfold gen_range. replace (i <? length buf) with true by lia.
      rewrite Nat.mod_small by lia. replace (i + (j - i)) with j by lia. cbn [rbind]. rewrite Es. cbn [rbind]. rewrite HLb in E.
      change (fun k => g k) with g. split; [exact E|]. split; [lia|]. intros n Hn. apply HE. lia.
Qed.
Lemma firstn_nth A (l l' : list A) k : k <= length l -> length l' = k -> (forall n, n < k -> nth_error l n = nth_error l' n) -> firstn k l = l'.
Proof.
  intros Hk HL H. apply nth_error_ext. intros n. rewrite nth_error_firstn. destruct (Nat.ltb_spec n k) as [Hn|Hn]; [apply H, Hn|].
  symmetry. apply nth_error_None. lia.
Qed.
Lemma shuffle_surj tgt buf : NoDup buf -> increasing tgt -> incl tgt buf -> forall g0,
  exists g buf', shuffle_first_k g (length tgt) buf = Ok (buf', g0) /\ firstn (length tgt) buf' = tgt.
Proof.
  intros HN Hi Hin g0. pose proof (increasing_nodup _ Hi) as HNt.
  assert (length tgt <= length buf) as Hle by (apply NoDup_incl_length; assumption).
  destruct (shuffle_loop_surj (length tgt) 0 tgt buf HN eq_refl Hin HNt) with (g0 := g0) as (g & b & E & HL & HE); [intros; lia|].
  exists g. unfold shuffle_first_k. rewrite E. cbn [rbind]. unfold subslice. cbn [Nat.leb andb].
  replace (length tgt <=? length b) with true by lia. cbn [rbind]. unfold sub. cbn [skipn]. rewrite Nat.sub_0_r.
  rewrite (firstn_nth _ b tgt) by (try lia; exact HE). eexists. split; [reflexivity|].
  assert (sort_unstable tgt = tgt) as ->.
  { apply increasing_ext; [|assumption|].
    - apply sorted_nodup_increasing; [apply sort_sorted|]. eapply Permutation_NoDup; [apply sort_perm|assumption].
    - intros x. split; apply Permutation_in; [symmetry|]; apply sort_perm. }
  rewrite firstn_app, Nat.sub_diag, firstn_O, app_nil_r. apply firstn_all.
Qed.

(* ---- inactive examples ---- *)

Lemma skip_active_ok active : forall index active' index', increasing active -> (forall x, In x active -> index <= x) ->
  skip_active active index = (active', index') ->
  increasing active' /\ index <= index' /\ (forall x, In x active' -> index' < x) /\
  (forall x, In x active <-> index <= x < index' \/ In x active').
Proof.
  induction active as [|i t IH]; intros index a' i' Hs Hge E; cbn [skip_active] in E.
  - injection E as <- <-. split; [constructor|]. split; [lia|]. split; [intros x []|]. intros x. split; [intros []|intros [|[]]; lia].
  - inversion Hs as [|? ? Ht Hi]; subst. rewrite Forall_forall in Hi. destruct (Nat.eqb_spec i index) as [->|Hne].
    + destruct (IH (S index) a' i' Ht) as (A & B & C & D); [intros x Hx; specialize (Hi x Hx); lia|exact E|].
      split; [exact A|]. split; [lia|]. split; [exact C|]. intros x. cbn [In]. rewrite D. split.
      * intros [<-|[H|H]]; [left; lia|left; lia|right; exact H].
      * intros [H|H]; [|auto]. destruct (Nat.eq_dec index x); [left; assumption|right; left; lia].
    + injection E as <- <-. split; [exact Hs|]. split; [lia|]. pose proof (Hge i (or_introl eq_refl)). split.
      * intros x [<-|Hx]; [lia|]. specialize (Hi x Hx). lia.
      * intros x. split; [auto|]. intros [H'|H']; [lia|exact H'].
Qed.
Lemma filter_none A (p : A -> bool) l : (forall x, In x l -> p x = false) -> filter p l = [].
Proof. induction l as [|x t IH]; intros H; [reflexivity|]. cbn. rewrite (H x (or_introl eq_refl)). apply IH. intros y Hy. apply H. right. exact Hy. Qed.
Lemma inactive_drain_ok n : forall fuel active index, increasing active -> (forall x, In x active -> index <= x) -> n - index < fuel ->
  inactive_drain fuel n (active, index) = Ok (filter (fun x => negb (existsb (Nat.eqb x) active)) (seq index (n - index))).
Proof.
  induction fuel as [|fuel IH]; intros active index Hs Hge Hf; [lia|]. cbn [inactive_drain]. unfold inactive_next. cbn [fst snd].
  destruct (skip_active active index) as [a' i'] eqn:E. destruct (skip_active_ok _ _ _ _ Hs Hge E) as (A & B & C & D).
  assert (forall x, existsb (Nat.eqb x) active = true <-> In x active) as Hex.
  { intros x. rewrite existsb_exists. split; [intros (y & Hy & He); apply Nat.eqb_eq in He; subst; exact Hy|intros H; exists x; rewrite Nat.eqb_refl; auto]. }
  destruct (Nat.ltb_spec i' n) as [Hlt|Hge'].
  - rewrite IH; [|exact A|intros x Hx; specialize (C x Hx); lia|lia]. cbn [rbind]. f_equal.
    replace (n - index) with ((i' - index) + S (n - S i')) by lia. rewrite seq_app, filter_app.
    rewrite (filter_none _ _ (seq index (i' - index))). 2:{ intros x Hx. apply in_seq in Hx. rewrite (proj2 (Hex x)); [reflexivity|]. apply D. lia. }
    cbn [app]. replace (index + (i' - index)) with i' by lia. cbn [seq filter].
    replace (existsb (Nat.eqb i') active) with false. 2:{ symmetry. apply not_true_is_false. rewrite Hex, D. intros [|H]; [lia|]. specialize (C i' H). lia. }
    cbn [negb]. f_equal. apply filter_ext_in. intros x Hx. apply in_seq in Hx. f_equal. apply Bool.eq_iff_eq_true. rewrite Hex, D.
    rewrite existsb_exists. split.
    + intros (y & Hy & He). apply Nat.eqb_eq in He. subst. auto.
    + intros [H|H]; [lia|]. exists x. rewrite Nat.eqb_refl. auto.
  - rewrite filter_none; [reflexivity|]. intros x Hx. apply in_seq in Hx. rewrite (proj2 (Hex x)); [reflexivity|]. apply D. lia.
Qed.
