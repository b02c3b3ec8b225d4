(** Tables with the columns in another order: the data set. *)
From Coq Require Import Permutation.
From Verif Require Import Base BaseProofs BitModel Num DataModel BinnerModel Config TreeModel DatasetModel DatasetSpec LearnerModel LearnerSpec LearnerProofs3 AlikeProofs ColSpec.

Lemma Ok_eq {A} (x y : A) : Ok x = Ok y -> x = y. Proof. congruence. Qed.
Lemma foldM_permE A T (E : T -> T -> Prop) (f : T -> A -> res T) : (forall s, E s s) -> (forall a b c, E a b -> E b c -> E a c) ->
  (forall s s' a r, E s s' -> f s a = Ok r -> exists r', f s' a = Ok r' /\ E r r') ->
  (forall s a b s1 s2, a <> b -> f s a = Ok s1 -> f s1 b = Ok s2 -> exists s1' s2', f s b = Ok s1' /\ f s1' a = Ok s2' /\ E s2 s2') ->
  forall l l', Permutation l l' -> NoDup l -> forall s r, foldM f l s = Ok r -> exists r', foldM f l' s = Ok r' /\ E r r'.
Proof.
  intros Hr Ht Hresp Hc.
  assert (Hf : forall l s s' r, E s s' -> foldM f l s = Ok r -> exists r', foldM f l s' = Ok r' /\ E r r').
  { induction l as [|x l IH]; intros s s' r H H0; cbn [foldM] in *; [apply Ok_eq in H0; subst; eauto|]. apply rbind_ok in H0 as (s1 & E1 & H0). destruct (Hresp _ _ _ _ H E1) as (s1' & -> & H1). cbn [rbind]. eapply IH; eassumption. }
  intros l l' HP. induction HP as [|x l l' HP IH|x y l|l l' l'' HP1 IH1 HP2 IH2]; intros HN s r H.
  - eauto.
  - cbn [foldM] in *. apply rbind_ok in H as (s1 & -> & H). cbn [rbind]. inversion HN; subst. apply IH; assumption.
  - cbn [foldM] in *. apply rbind_ok in H as (s1 & E1 & H). apply rbind_ok in H as (s2 & E2 & H). inversion HN as [|? ? Hni _]; subst.
    destruct (Hc s y x s1 s2) as (s1' & s2' & -> & F2 & HE); [intros ->; apply Hni; left; reflexivity|exact E1|exact E2|]. cbn [rbind]. rewrite F2. cbn [rbind]. eapply Hf; eassumption.
  - destruct (IH1 HN s r H) as (r1 & F1 & G1). destruct (IH2 (Permutation_NoDup HP1 HN) s r1 F1) as (r2 & F2 & G2). eauto.
Qed.

Section Cells.
Variable O : numops.
(** What is stored for one feature. *)
Record cell : Type := mk_cell { ce_bv : option (list blocks); ce_sc : option (list nat); ce_sp : option (list (num O)); ce_nb : option nat }.
Definition get_cell (i : inner O) (f : nat) : cell := mk_cell (nth_error (in_bitvecs i) f) (nth_error (in_supercats i) f) (nth_error (in_split_candidates i) f) (nth_error (in_used_nbins i) f).
Definition put {A} (l : list A) (f : nat) (o : option A) : list A := match o with Some x => upd l f x | None => l end.
Definition set_cell (i : inner O) (f : nat) (c : cell) : inner O :=
  mk_inner (in_rng i) (in_data i) (in_useful i) (in_nactive_features i) (in_nactive_examples i) (put (in_bitvecs i) f (ce_bv c)) (put (in_supercats i) f (ce_sc c))
    (put (in_split_candidates i) f (ce_sp c)) (put (in_used_nbins i) f (ce_nb c)) (in_has_non_locard i).
Definition oget {A} (o : option A) : res A := match o with Some x => Ok x | None => Panic end.
Definition oset {A} (o : option A) (x : A) : res (option A) := match o with Some _ => Ok (Some x) | None => Panic end.
Lemma upd_nth A (l : list A) : forall f x, nth_error l f = Some x -> upd l f x = l.
Proof. induction l as [|y l IH]; intros [|f] x H; cbn in *; try discriminate; [congruence|rewrite IH by exact H; reflexivity]. Qed.
Lemma put_id A (l : list A) f : put l f (nth_error l f) = l.
Proof. unfold put. destruct (nth_error l f) eqn:E; [apply upd_nth, E|reflexivity]. Qed.
Lemma set_idx_put A (l : list A) f x : set_idx l f x = rmap (put l f) (oset (nth_error l f) x).
Proof.
  unfold set_idx, oset. destruct (Nat.ltb_spec f (length l)) as [H|H]; [apply nth_error_Some in H; destruct (nth_error l f); [reflexivity|contradiction]|]. apply nth_error_None in H. rewrite H. reflexivity.
Qed.
Lemma idx_oget A (l : list A) f : idx l f = oget (nth_error l f). Proof. reflexivity. Qed.
Lemma cell_id i f : set_cell i f (get_cell i f) = i.
Proof. unfold set_cell, get_cell. cbn [ce_bv ce_sc ce_sp ce_nb]. rewrite !put_id. destruct i. reflexivity. Qed.
Lemma put_other A (l : list A) f g o : f <> g -> nth_error (put l f o) g = nth_error l g.
Proof. intros H. destruct o; [|reflexivity]. cbn [put]. rewrite nth_error_upd. replace (f =? g) with false by (symmetry; apply Nat.eqb_neq; exact H). reflexivity. Qed.
Lemma put_comm A (l : list A) f g o o' : f <> g -> put (put l f o) g o' = put (put l g o') f o.
Proof. intros H. destruct o, o'; try reflexivity. cbn [put]. apply upd_comm, H. Qed.
Lemma get_other i f g c : f <> g -> get_cell (set_cell i f c) g = get_cell i g.
Proof. intros H. unfold get_cell, set_cell. cbn. rewrite !put_other by exact H. reflexivity. Qed.
Lemma set_comm i f g c c' : f <> g -> set_cell (set_cell i f c) g c' = set_cell (set_cell i g c') f c.
Proof. intros H. unfold set_cell. cbn. f_equal; apply put_comm, H. Qed.

(** The three updates as functions of the cell. *)
Definition bv_cell (c : cell) (new : list blocks) : res (option (list blocks)) := let* old := oget (ce_bv c) in oset (ce_bv c) (new ++ skipn (length new) old).
Definition locard_cell (d : data O) (f : nat) (ex : list nat) (c : cell) : res cell :=
  let* feat := get_feature d f in
  let* nb := max_nbins d f in
  let* used := oset (ce_nb c) nb in
  let* bvs := oget (ce_bv c) in
  let* bvs' := fill_bitvecs (zero_bitvecs bvs) ex (cat_at feat) in
  let* bv := bv_cell c bvs' in
  Ok (mk_cell bv (ce_sc c) (ce_sp c) used).
Definition hicard_cell (dbg : bool) (cfg : config O) (d : data O) (nact f : nat) (ex : list nat) (grad : list (num O)) (bounds : num O * num O) (c : cell) : res cell :=
  let* feat := get_feature d f in
  let* card := feat_card d f in
  let* (split_weights, supercats) := hicard_groups dbg cfg feat grad card nact bounds ex in
  let supercard := length split_weights in
  let* all := oget (ce_bv c) in
  let* bvs := subslice all 0 supercard in
  let* bvs1 := fill_bitvecs (zero_bitvecs bvs) ex (fun i => let* c := cat_at feat i in idx supercats c) in
  let* bvs2 := accumulate_bitvecs bvs1 in
  let* bv := bv_cell c bvs2 in
  let* used := oset (ce_nb c) supercard in
  let* scs := oset (ce_sc c) supercats in
  Ok (mk_cell bv scs (ce_sp c) used).
Definition num_cell (cfg : config O) (d : data O) (f : nat) (ex : list nat) (grad : list (num O)) (c : cell) : res cell :=
  let* feat := get_feature d f in
  let* limits := feat_limits d f in
  let* (cands, b) := num_candidates cfg feat grad limits ex in
  let* all := oget (ce_bv c) in
  let* bvs := subslice all 0 (length cands) in
  let* bvs1 := fill_bitvecs (zero_bitvecs bvs) ex (fun i => let* v := idx feat i in idx (bn_bins b) (get_bin b v)) in
  let* bvs2 := accumulate_bitvecs bvs1 in
  let* bv := bv_cell c bvs2 in
  let* used := oset (ce_nb c) (length cands) in
  let* scands := oset (ce_sp c) cands in
  Ok (mk_cell bv (ce_sc c) scands used).

Ltac step x := destruct x; cbn [rbind rmap]; try reflexivity.
Lemma bv_set (i : inner O) f new : set_bitvecs i f new = rmap (put (in_bitvecs i) f) (bv_cell (get_cell i f) new).
Proof. unfold set_bitvecs, bv_cell. cbn [ce_bv get_cell]. rewrite idx_oget. destruct (nth_error (in_bitvecs i) f) eqn:E; cbn [oget rbind rmap]; [|reflexivity]. rewrite set_idx_put, E. reflexivity. Qed.
Ltac go := match goal with |- context [rbind ?x _] => lazymatch x with rbind _ _ => fail | Ok _ => fail | _ => destruct x eqn:? end end; cbn [rbind rmap]; try reflexivity.
Ltac cells i f := change (ce_nb (get_cell i f)) with (nth_error (in_used_nbins i) f) in *; change (ce_sc (get_cell i f)) with (nth_error (in_supercats i) f) in *; change (ce_sp (get_cell i f)) with (nth_error (in_split_candidates i) f) in *; change (ce_bv (get_cell i f)) with (nth_error (in_bitvecs i) f) in *.
Lemma locard_is i f ex : update_locard_cat i f ex = rmap (set_cell i f) (locard_cell (in_data i) f ex (get_cell i f)).
Proof.
  unfold update_locard_cat, locard_cell. destruct (get_feature (in_data i) f) as [feat| | |]; cbn [rbind rmap]; try reflexivity. destruct (max_nbins (in_data i) f) as [nb| | |]; cbn [rbind rmap]; try reflexivity. rewrite set_idx_put. cells i f.
  destruct (oset (nth_error (in_used_nbins i) f) nb) as [used| | |]; cbn [rbind rmap]; try reflexivity.
  rewrite idx_oget.  destruct (oget (nth_error (in_bitvecs i) f)) as [bvs| | |]; cbn [rbind rmap]; try reflexivity. destruct (fill_bitvecs (zero_bitvecs bvs) ex (cat_at feat)) as [bvs'| | |]; cbn [rbind rmap]; try reflexivity. rewrite bv_set.
  destruct (bv_cell (get_cell i f) bvs') as [bv| | |]; cbn [rbind rmap]; try reflexivity.
  unfold rmap, set_cell. cbn [rbind ce_bv ce_sc ce_sp ce_nb]. rewrite !put_id. reflexivity.
Qed.
Lemma hicard_is dbg cfg i f ex grad bounds : update_hicard_cat dbg cfg i f ex grad bounds = rmap (set_cell i f) (hicard_cell dbg cfg (in_data i) (in_nactive_examples i) f ex grad bounds (get_cell i f)).
Proof.
  unfold update_hicard_cat, hicard_cell. destruct (get_feature (in_data i) f) as [feat| | |]; cbn [rbind rmap]; try reflexivity. destruct (feat_card (in_data i) f) as [card| | |]; cbn [rbind rmap]; try reflexivity.
  destruct (hicard_groups _ _ _ _ _ _ _ _) as [[w sc]| | |]; cbn [rbind rmap]; try reflexivity.
  rewrite idx_oget. cells i f. destruct (oget (nth_error (in_bitvecs i) f)) as [all| | |]; cbn [rbind rmap]; try reflexivity. destruct (subslice all 0 (length w)) as [bvs| | |]; cbn [rbind rmap]; try reflexivity.
  destruct (fill_bitvecs _ _ _) as [bv1| | |]; cbn [rbind rmap]; try reflexivity. destruct (accumulate_bitvecs _) as [bv2| | |]; cbn [rbind rmap]; try reflexivity.
  rewrite bv_set. destruct (bv_cell (get_cell i f) bv2) as [bv| | |]; cbn [rbind rmap]; try reflexivity. rewrite set_idx_put.  destruct (oset (nth_error (in_used_nbins i) f) (length w)) as [nb| | |]; cbn [rbind rmap]; try reflexivity.
  rewrite set_idx_put. destruct (oset (nth_error (in_supercats i) f) sc) as [so| | |]; cbn [rbind rmap]; try reflexivity.
  unfold rmap, set_cell. cbn [rbind ce_bv ce_sc ce_sp ce_nb]. rewrite !put_id. reflexivity.
Qed.
Lemma num_is cfg i f ex grad : update_num cfg i f ex grad = rmap (set_cell i f) (num_cell cfg (in_data i) f ex grad (get_cell i f)).
Proof.
  unfold update_num, num_cell. destruct (get_feature (in_data i) f) as [feat| | |]; cbn [rbind rmap]; try reflexivity. destruct (feat_limits (in_data i) f) as [card| | |]; cbn [rbind rmap]; try reflexivity.
  destruct (num_candidates _ _ _ _ _) as [[w sc]| | |]; cbn [rbind rmap]; try reflexivity.
  rewrite idx_oget. cells i f. destruct (oget (nth_error (in_bitvecs i) f)) as [all| | |]; cbn [rbind rmap]; try reflexivity. destruct (subslice all 0 (length w)) as [bvs| | |]; cbn [rbind rmap]; try reflexivity.
  destruct (fill_bitvecs _ _ _) as [bv1| | |]; cbn [rbind rmap]; try reflexivity. destruct (accumulate_bitvecs _) as [bv2| | |]; cbn [rbind rmap]; try reflexivity.
  rewrite bv_set. destruct (bv_cell (get_cell i f) bv2) as [bv| | |]; cbn [rbind rmap]; try reflexivity. rewrite set_idx_put.  destruct (oset (nth_error (in_used_nbins i) f) (length w)) as [nb| | |]; cbn [rbind rmap]; try reflexivity.
  rewrite set_idx_put. destruct (oset (nth_error (in_split_candidates i) f) w) as [so| | |]; cbn [rbind rmap]; try reflexivity.
  unfold rmap, set_cell. cbn [rbind ce_bv ce_sc ce_sp ce_nb]. rewrite !put_id. reflexivity.
Qed.

(** Updating the cells of some features one after the other; the order does not matter. *)
Section Fold.
Variable F : nat -> cell -> res cell.
Definition cell_step (i : inner O) (f : nat) : res (inner O) := rmap (set_cell i f) (F f (get_cell i f)).
Lemma cell_perm l l' i r : Permutation l l' -> NoDup l -> foldM cell_step l i = Ok r -> foldM cell_step l' i = Ok r.
Proof.
  intros HP HN E. destruct (foldM_permE nat (inner O) eq cell_step) with (l := l) (l' := l') (s := i) (r := r) as (r' & Er & ->); try assumption; [reflexivity|congruence|intros s s' a r0 -> H; eauto|].
  intros s a b s1 s2 Hab E1 E2. unfold cell_step, rmap in *. apply rbind_ok in E1 as (c1 & F1 & E1). apply Ok_eq in E1. subst s1. apply rbind_ok in E2 as (c2 & F2 & E2). apply Ok_eq in E2. subst s2. rewrite get_other in F2 by exact Hab.
  exists (set_cell s b c2). exists (set_cell (set_cell s a c1) b c2). rewrite F2. split; [reflexivity|]. rewrite get_other by (intros X; apply Hab; symmetry; exact X). rewrite F1. split; [|reflexivity]. cbn [rbind]. f_equal. apply set_comm. intros X; apply Hab; symmetry; exact X.
Qed.
Lemma cell_keeps l : forall i r, foldM cell_step l i = Ok r -> in_data r = in_data i /\ in_useful r = in_useful i /\ in_nactive_features r = in_nactive_features i /\ in_nactive_examples r = in_nactive_examples i /\ in_rng r = in_rng i /\ in_has_non_locard r = in_has_non_locard i.
Proof.
  induction l as [|f l IH]; intros i r E; cbn [foldM] in E; [apply Ok_eq in E; subst; repeat split|]. apply rbind_ok in E as (i1 & E1 & E). apply IH in E as (-> & -> & -> & -> & -> & ->). unfold cell_step, rmap in E1. apply rbind_ok in E1 as (c & _ & E1). apply Ok_eq in E1. subst i1. repeat split.
Qed.
End Fold.
End Cells.
Arguments get_cell {O}. Arguments set_cell {O}. Arguments cell_step {O}. Arguments locard_cell {O}. Arguments hicard_cell {O}. Arguments num_cell {O}.
Arguments ce_bv {O}. Arguments ce_sc {O}. Arguments ce_sp {O}. Arguments ce_nb {O}. Arguments mk_cell {O}.
