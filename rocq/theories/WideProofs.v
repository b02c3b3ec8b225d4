(** Tables with extra constant columns: the data set. *)
From Coq Require Import Permutation Sorted.
From Verif Require Import Base BaseProofs BitModel Num DataModel BinnerModel Config TreeModel DatasetModel DatasetSpec AlikeProofs ColSpec ColProofs ColProofs2 WideSpec.

Lemma put_same' A (l : list A) f o : f < length l -> nth_error (put l f o) f = match o with Some x => Some x | None => nth_error l f end.
Proof. intros H. destruct o; [|reflexivity]. cbn [put]. rewrite nth_error_upd, Nat.eqb_refl. replace (f <? length l) with true by (symmetry; apply Nat.ltb_lt; exact H). reflexivity. Qed.
Section Monotone.
Variable p : nat -> nat.
Hypothesis Hm : forall f g, f < g -> p f < p g.
Lemma p_inj f g : p f = p g -> f = g.
Proof. intros E. destruct (Nat.lt_trichotomy f g) as [H|[H|H]]; [apply Hm in H; lia|exact H|apply Hm in H; lia]. Qed.
Lemma p_leb f g : (p f <=? p g) = (f <=? g).
Proof. destruct (Nat.leb_spec f g) as [H|H]; [apply Nat.leb_le; destruct (Nat.eq_dec f g) as [->|]; [lia|]; pose proof (Hm f g); lia|apply Nat.leb_gt, Hm, H]. Qed.
Lemma insert_map x l : insert_sorted (p x) (map p l) = map p (insert_sorted x l).
Proof. induction l as [|y l IH]; [reflexivity|]. cbn [map insert_sorted]. rewrite p_leb. destruct (x <=? y); [reflexivity|]. cbn [map]. rewrite IH. reflexivity. Qed.
Lemma sort_map l : sort_unstable (map p l) = map p (sort_unstable l).
Proof. induction l as [|x l IH]; [reflexivity|]. unfold sort_unstable in *. cbn [map fold_right]. rewrite IH. apply insert_map. Qed.
Lemma map_upd' A B (h : A -> B) l : forall k x, map h (upd l k x) = upd (map h l) k (h x).
Proof. induction l as [|y l IH]; intros [|k] x; cbn; try reflexivity. rewrite IH. reflexivity. Qed.
Lemma idx_map A B (h : A -> B) l k : idx (map h l) k = rmap h (idx l k).
Proof. unfold idx. rewrite nth_error_map. destruct (nth_error l k); reflexivity. Qed.
Lemma shuffle_map n is : forall g buf r, shuffle_loop n is g buf = Ok r -> shuffle_loop n is g (map p buf) = Ok (map p (fst r), snd r).
Proof.
  induction is as [|i is IH]; intros g buf r E; cbn [shuffle_loop] in *; [apply Ok_eq in E; subst r; reflexivity|]. apply rbind_ok in E as ((j & g') & -> & E). cbn [rbind] in *. apply rbind_ok in E as (buf' & Eb & E). unfold DatasetModel.swap in *. rewrite !idx_map.
  apply rbind_ok in Eb as (x & -> & Eb). apply rbind_ok in Eb as (y & -> & Eb). apply Ok_eq in Eb. subst buf'. unfold rmap. cbn [rbind]. rewrite <- !map_upd'. apply IH, E.
Qed.
Lemma first_k_map g k buf r : shuffle_first_k g k buf = Ok r -> shuffle_first_k g k (map p buf) = Ok (map p (fst r), snd r).
Proof.
  unfold shuffle_first_k. rewrite map_length. intros E. apply rbind_ok in E as ((b & g') & E1 & E). rewrite (shuffle_map _ _ _ _ _ E1). cbn [rbind fst snd]. apply rbind_ok in E as (first & Ef & E). apply Ok_eq in E. subst r. cbn [fst snd].
  unfold subslice, sub in *. rewrite map_length. destruct (_ && _); [|discriminate]. apply Ok_eq in Ef. subst first. cbn [rbind]. rewrite map_app, <- sort_map. cbn [skipn]. rewrite firstn_map, skipn_map. reflexivity.
Qed.
Lemma sorted_ext : forall l l' : list nat, StronglySorted lt l -> StronglySorted lt l' -> (forall x, In x l <-> In x l') -> l = l'.
Proof.
  induction l as [|x l IH]; intros l' H H' HE.
  - destruct l' as [|y l']; [reflexivity|]. destruct (proj2 (HE y) (or_introl eq_refl)).
  - destruct l' as [|y l']; [destruct (proj1 (HE x) (or_introl eq_refl))|]. inversion H as [|? ? HS HF]; subst. inversion H' as [|? ? HS' HF']; subst. rewrite Forall_forall in HF, HF'.
    assert (x = y) as ->. { destruct (proj1 (HE x) (or_introl eq_refl)) as [E|E]; [congruence|]. destruct (proj2 (HE y) (or_introl eq_refl)) as [E'|E']; [congruence|]. specialize (HF _ E'). specialize (HF' _ E). lia. }
    f_equal. apply IH; try assumption. intros z. split; intros Hz.
    + destruct (proj1 (HE z) (or_intror Hz)) as [<-|]; [specialize (HF _ Hz); lia|assumption].
    + destruct (proj2 (HE z) (or_intror Hz)) as [<-|]; [specialize (HF' _ Hz); lia|assumption].
Qed.
Lemma ss_seq a n : StronglySorted lt (seq a n).
Proof. revert a. induction n as [|n IH]; intros a; cbn [seq]; constructor; [apply IH|]. apply Forall_forall. intros x Hx. apply in_seq in Hx. lia. Qed.
Lemma ss_map l : StronglySorted lt l -> StronglySorted lt (map p l).
Proof. induction 1 as [|x l _ IH HF]; cbn [map]; constructor; [exact IH|]. rewrite Forall_forall in *. intros y Hy. apply in_map_iff in Hy as (z & <- & Hz). apply Hm, HF, Hz. Qed.
Lemma ss_filter (q : nat -> bool) l : StronglySorted lt l -> StronglySorted lt (filter q l).
Proof. induction 1 as [|x l _ IH HF]; cbn [filter]; [constructor|]. destruct (q x); [|exact IH]. constructor; [exact IH|]. rewrite Forall_forall in *. intros y Hy. apply filter_In in Hy as [Hy _]. apply HF, Hy. Qed.
Definition img (n g : nat) : bool := existsb (fun f => p f =? g) (seq 0 n).
Lemma img_spec n g : img n g = true <-> exists f, f < n /\ p f = g.
Proof. unfold img. rewrite existsb_exists. split; [intros (f & Hf & E); apply in_seq in Hf; apply Nat.eqb_eq in E; exists f; lia|intros (f & Hf & E); exists f; split; [apply in_seq; lia|apply Nat.eqb_eq, E]]. Qed.
Lemma img_seq n n' : (forall f, f < n -> p f < n') -> filter (img n) (seq 0 n') = map p (seq 0 n).
Proof.
  intros Hr. apply sorted_ext; [apply ss_filter, ss_seq|apply ss_map, ss_seq|]. intros x. rewrite filter_In, img_spec, in_map_iff, in_seq. split.
  - intros (_ & f & Hf & E). exists f. split; [exact E|apply in_seq; lia].
  - intros (f & <- & Hf). apply in_seq in Hf. pose proof (Hr f). split; [lia|]. exists f. split; [lia|reflexivity].
Qed.

(** Lists with one item per feature. *)
Variables nf nf' : nat.
Hypothesis Hr : forall f, f < nf -> p f < nf'.
Definition wl {A} (l l' : list A) : Prop := (l = [] /\ l' = []) \/ (length l = nf /\ length l' = nf' /\ forall f, f < nf -> nth_error l' (p f) = nth_error l f).
Lemma wl_nth A (l l' : list A) f : wl l l' -> f < nf -> nth_error l' (p f) = nth_error l f.
Proof. intros [[-> ->]|(_ & _ & H)] Hf; [|apply H, Hf]. destruct (p f), f; reflexivity. Qed.
Lemma wl_put A (l l' : list A) f o : wl l l' -> f < nf -> wl (put l f o) (put l' (p f) o).
Proof.
  intros [[-> ->]|(H1 & H2 & H)] Hf; [left; rewrite !put_nil; auto|]. right. rewrite !put_length. split; [exact H1|split; [exact H2|]]. intros g Hg. destruct (Nat.eq_dec f g) as [->|Hne].
  - rewrite !put_same' by (rewrite ?H1, ?H2; auto). rewrite H by exact Hg. reflexivity.
  - rewrite !put_other; [apply H, Hg|exact Hne|intros X; apply Hne, p_inj; assumption].
Qed.
Lemma wl_repeat A (x : A) : wl (repeat x nf) (repeat x nf').
Proof. right. rewrite !repeat_length. split; [reflexivity|split; [reflexivity|]]. intros f Hf. rewrite !(nth_error_repeat x) by auto. reflexivity. Qed.
Lemma wl_idx A (l l' : list A) f : wl l l' -> f < nf -> idx l' (p f) = idx l f.
Proof. intros H Hf. unfold idx. rewrite (wl_nth _ _ _ _ H Hf). reflexivity. Qed.
Lemma wl_set A (l l' : list A) f x r : wl l l' -> f < nf -> set_idx l f x = Ok r -> exists r', set_idx l' (p f) x = Ok r' /\ wl r r'.
Proof.
  intros H Hf E. apply set_idx_ok in E as [Hl ->]. exists (upd l' (p f) x). split; [|apply (wl_put A l l' f (Some x)); assumption]. apply set_idx_ok. split; [|reflexivity]. destruct H as [[-> _]|(H1 & H2 & _)]; [cbn in Hl; lia|rewrite H2; apply Hr, Hf].
Qed.
Lemma wl_map A B (h : A -> B) l l' : wl l l' -> wl (map h l) (map h l').
Proof. intros [[-> ->]|(H1 & H2 & H)]; [left; auto|]. right. rewrite !map_length. split; [exact H1|split; [exact H2|]]. intros f Hf. rewrite !nth_error_map, H by exact Hf. reflexivity. Qed.
Lemma wl_resize A (l l' : list (list A)) : wl l l' -> wl (vec_resize l nf []) (vec_resize l' nf' []).
Proof.
  intros [[-> ->]|(H1 & H2 & H)]; unfold vec_resize; [cbn [length]; rewrite !Nat.sub_0_r|rewrite H1, H2, !Nat.leb_refl, !Nat.sub_diag; cbn [repeat]; rewrite !app_nil_r; right; auto].
  cbn [Nat.leb app]. apply wl_repeat.
Qed.
End Monotone.
