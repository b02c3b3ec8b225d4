(** Lemmas about the base definitions. *)
From Verif Require Import Base.

Lemma rbind_ok A B (m : res A) (f : A -> res B) b :
  rbind m f = Ok b <-> exists a, m = Ok a /\ f a = Ok b.
Proof. split; [destruct m; simpl; intros H; try discriminate; eauto | intros (a & -> & H); exact H]. Qed.

Lemma rassert_ok b u : rassert b = Ok u <-> b = true.
Proof. destruct u, b; simpl; split; congruence. Qed.
Lemma runsafe_ok b u : runsafe b = Ok u <-> b = true.
Proof. destruct u, b; simpl; split; congruence. Qed.

Lemma upd_length A (l : list A) i x : length (upd l i x) = length l.
Proof. revert i; induction l as [|h t IH]; intros [|i]; simpl; auto. Qed.

Lemma nth_error_upd A (l : list A) i j x :
  nth_error (upd l i x) j = if (i =? j) && (i <? length l) then Some x else nth_error l j.
Proof.
  revert i j; induction l as [|h t IH]; intros i j.
  - simpl. rewrite Bool.andb_false_r. destruct i, j; reflexivity.
  - destruct i as [|i], j as [|j]; simpl; try reflexivity. rewrite IH. reflexivity.
Qed.

Lemma nth_upd A (l : list A) i j x d :
  nth j (upd l i x) d = if (i =? j) && (i <? length l) then x else nth j l d.
Proof.
  revert i j; induction l as [|h t IH]; intros i j.
  - simpl. rewrite Bool.andb_false_r. destruct i, j; reflexivity.
  - destruct i as [|i], j as [|j]; simpl; try reflexivity. rewrite IH. reflexivity.
Qed.

Lemma upd_Forall A (P : A -> Prop) l i x : Forall P l -> P x -> Forall P (upd l i x).
Proof.
  intros H Hx; revert i; induction H as [|h t Hh Ht IH]; intros [|i]; simpl; auto.
Qed.

Lemma idx_ok A (l : list A) i a : idx l i = Ok a <-> nth_error l i = Some a.
Proof. unfold idx. destruct (nth_error l i); split; congruence. Qed.
Lemma idx_uc_ok A (l : list A) i a : idx_uc l i = Ok a <-> nth_error l i = Some a.
Proof. unfold idx_uc. destruct (nth_error l i); split; congruence. Qed.

Lemma idx_lt A (l : list A) i d : i < length l -> idx l i = Ok (nth i l d).
Proof. intros H. apply idx_ok. apply nth_error_nth'. exact H. Qed.
Lemma idx_uc_lt A (l : list A) i d : i < length l -> idx_uc l i = Ok (nth i l d).
Proof. intros H. apply idx_uc_ok. apply nth_error_nth'. exact H. Qed.
Lemma idx_ge A (l : list A) i : length l <= i -> idx l i = Panic.
Proof. intros H. unfold idx. apply nth_error_None in H. rewrite H. reflexivity. Qed.

Lemma set_idx_lt A (l : list A) i x : i < length l -> set_idx l i x = Ok (upd l i x).
Proof. intros H. unfold set_idx. destruct (Nat.ltb_spec i (length l)); [reflexivity|lia]. Qed.
Lemma set_idx_uc_lt A (l : list A) i x : i < length l -> set_idx_uc l i x = Ok (upd l i x).
Proof. intros H. unfold set_idx_uc. destruct (Nat.ltb_spec i (length l)); [reflexivity|lia]. Qed.
Lemma set_idx_ok A (l : list A) i x l' :
  set_idx l i x = Ok l' <-> i < length l /\ l' = upd l i x.
Proof. unfold set_idx. destruct (Nat.ltb_spec i (length l)); split; try intros [? ?]; try congruence; try lia.
  intros H'. injection H' as <-. auto. Qed.
Lemma set_idx_uc_ok A (l : list A) i x l' :
  set_idx_uc l i x = Ok l' <-> i < length l /\ l' = upd l i x.
Proof. unfold set_idx_uc. destruct (Nat.ltb_spec i (length l)); split; try intros [? ?]; try congruence; try lia.
  intros H'. injection H' as <-. auto. Qed.

Lemma sub_length A (l : list A) a b : a <= b -> b <= length l -> length (sub l a b) = b - a.
Proof. intros H1 H2. unfold sub. rewrite firstn_length, skipn_length. lia. Qed.

Lemma nth_firstn A (l : list A) n i d : nth i (firstn n l) d = if i <? n then nth i l d else d.
Proof.
  revert n i; induction l as [|h t IH]; intros [|n] [|i]; simpl; try reflexivity.
  - destruct (S i <? S n); reflexivity.
  - rewrite IH. reflexivity.
Qed.
Lemma nth_skipn A (l : list A) n i d : nth i (skipn n l) d = nth (n + i) l d.
Proof.
  revert l; induction n as [|n IH]; intros [|h t]; simpl; try reflexivity.
  - destruct i; reflexivity.
  - apply IH.
Qed.
Lemma nth_sub A (l : list A) a b i d : nth i (sub l a b) d = if i <? b - a then nth (a + i) l d else d.
Proof. unfold sub. rewrite nth_firstn, nth_skipn. reflexivity. Qed.
Lemma nth_error_skipn A (l : list A) n i : nth_error (skipn n l) i = nth_error l (n + i).
Proof. revert l; induction n as [|n IH]; intros [|h t]; simpl; try reflexivity; [destruct i; reflexivity|apply IH]. Qed.
Lemma nth_error_firstn A (l : list A) n i : nth_error (firstn n l) i = if i <? n then nth_error l i else None.
Proof.
  revert n i; induction l as [|h t IH]; intros [|n] [|i]; simpl; try reflexivity.
  - destruct (S i <? S n); reflexivity.
  - rewrite IH. reflexivity.
Qed.
Lemma nth_error_sub A (l : list A) a b i :
  nth_error (sub l a b) i = if i <? b - a then nth_error l (a + i) else None.
Proof. unfold sub. rewrite nth_error_firstn, nth_error_skipn. reflexivity. Qed.

Lemma Forall_sub A (P : A -> Prop) l a b : Forall P l -> Forall P (sub l a b).
Proof.
  intros H. unfold sub. apply Forall_forall. intros x Hx.
  rewrite Forall_forall in H. apply H.
  apply (In_nth_error) in Hx. destruct Hx as [n Hn].
  rewrite nth_error_firstn in Hn. destruct (n <? b - a); [|discriminate].
  rewrite nth_error_skipn in Hn. eapply nth_error_In; eauto.
Qed.

Lemma subslice_ok A (l : list A) a b s :
  subslice l a b = Ok s <-> a <= b /\ b <= length l /\ s = sub l a b.
Proof.
  unfold subslice. destruct (Nat.leb_spec a b), (Nat.leb_spec b (length l)); simpl;
    split; intros H'; try congruence; try lia; try (destruct H' as (?&?&->); reflexivity).
  injection H' as <-; auto.
Qed.

Lemma list_eq_nth A (d : A) (l1 l2 : list A) :
  length l1 = length l2 -> (forall i, i < length l1 -> nth i l1 d = nth i l2 d) -> l1 = l2.
Proof.
  revert l2; induction l1 as [|a l1 IH]; intros [|b l2]; simpl; intros Hl H; try discriminate; auto.
  f_equal. - apply (H 0); lia. - apply IH; [lia|]. intros i Hi. apply (H (S i)); lia.
Qed.

Lemma list_eq_nth_error A (l1 l2 : list A) :
  (forall i, nth_error l1 i = nth_error l2 i) -> l1 = l2.
Proof.
  revert l2; induction l1 as [|a l1 IH]; intros [|b l2] H; auto.
  - specialize (H 0); discriminate.
  - specialize (H 0); discriminate.
  - pose proof (H 0) as H0. injection H0 as <-. f_equal. apply IH. intros i. apply (H (S i)).
Qed.

Lemma mapM_ok A B (f : A -> res B) l ys :
  mapM f l = Ok ys <-> Forall2 (fun x y => f x = Ok y) l ys.
Proof.
  revert ys; induction l as [|x t IH]; intros ys; simpl.
  - split; [intros H; injection H as <-; constructor | inversion 1; reflexivity].
  - rewrite rbind_ok. split.
    + intros (y & Hy & H). apply rbind_ok in H. destruct H as (ys' & Hys & H). injection H as <-.
      constructor; auto. apply IH; exact Hys.
    + inversion 1; subst. eexists; split; eauto. apply rbind_ok. eexists; split; eauto. apply IH; auto.
Qed.

Lemma mapM_total A B (f : A -> res B) (g : A -> B) l :
  (forall x, In x l -> f x = Ok (g x)) -> mapM f l = Ok (map g l).
Proof.
  induction l as [|x t IH]; intros H; simpl; [reflexivity|].
  rewrite (H x (or_introl eq_refl)). simpl. rewrite IH; [reflexivity|].
  intros y Hy. apply H. right; exact Hy.
Qed.

Lemma foldM_app A S (f : S -> A -> res S) l1 l2 s :
  foldM f (l1 ++ l2) s = (let* s' := foldM f l1 s in foldM f l2 s').
Proof. revert s; induction l1 as [|x t IH]; intros s; simpl; [reflexivity|].
  destruct (f s x); simpl; auto. Qed.

Lemma sumN_app l1 l2 : sumN (l1 ++ l2) = (sumN l1 + sumN l2)%N.
Proof. induction l1 as [|x t IH]; simpl; [reflexivity|]. rewrite IH. lia. Qed.

Lemma sumN_map_add A (f g : A -> N) l :
  sumN (map (fun x => (f x + g x)%N) l) = (sumN (map f l) + sumN (map g l))%N.
Proof. induction l as [|x t IH]; simpl; [reflexivity|]. rewrite IH. lia. Qed.

Lemma sumN_map_mul A c (f : A -> N) l :
  sumN (map (fun x => (c * f x)%N) l) = (c * sumN (map f l))%N.
Proof. induction l as [|x t IH]; simpl; [lia|]. rewrite IH. lia. Qed.

Lemma sumN_map_ext A (f g : A -> N) l :
  (forall x, In x l -> f x = g x) -> sumN (map f l) = sumN (map g l).
Proof. intros H. f_equal. apply map_ext_in. exact H. Qed.

Lemma sumN_map_zero A (f : A -> N) l : (forall x, In x l -> f x = 0%N) -> sumN (map f l) = 0%N.
Proof. induction l as [|x t IH]; intros H; simpl; [reflexivity|].
  rewrite IH, (H x); auto; [left; reflexivity| intros; apply H; right; assumption]. Qed.

Lemma sumN_map_le A (f g : A -> N) l :
  (forall x, In x l -> (f x <= g x)%N) -> (sumN (map f l) <= sumN (map g l))%N.
Proof. induction l as [|x t IH]; intros H; simpl; [lia|].
  pose proof (H x (or_introl eq_refl)). assert (sumN (map f t) <= sumN (map g t))%N by (apply IH; intros; apply H; right; assumption). lia. Qed.

Lemma sumN_map_const A (c : N) (l : list A) : sumN (map (fun _ => c) l) = (c * N.of_nat (length l))%N.
Proof. induction l as [|x t IH]; cbn [map sumN length]; [lia|]. rewrite IH. lia. Qed.

Lemma sumN_swap A B (f : A -> B -> N) (la : list A) (lb : list B) :
  sumN (map (fun a => sumN (map (fun b => f a b) lb)) la) =
  sumN (map (fun b => sumN (map (fun a => f a b) la)) lb).
Proof.
  induction la as [|a la IH]; cbn [map sumN].
  - symmetry. apply sumN_map_zero. reflexivity.
  - rewrite IH. rewrite <- sumN_map_add. reflexivity.
Qed.

Lemma sumN_in_le (l : list N) x : In x l -> (x <= sumN l)%N.
Proof. induction l as [|y t IH]; simpl; [tauto|]. intros [->|H]; [lia|specialize (IH H); lia]. Qed.

Lemma seq_S_shift n m : seq (S n) m = map S (seq n m).
Proof. symmetry; apply seq_shift. Qed.

Lemma seq_shift_add a n m : seq (a + n) m = map (fun i => a + i) (seq n m).
Proof. revert n; induction m as [|m IH]; intros n; simpl; [reflexivity|].
  f_equal. replace (S (a + n)) with (a + S n) by lia. apply IH. Qed.

(** Concatenation of equally long pieces. *)
Lemma nth_concat A (d : A) k (bs : list (list A)) i :
  (forall b, In b bs -> length b = k) -> 0 < k ->
  nth i (concat bs) d = nth (i mod k) (nth (i / k) bs []) d.
Proof.
  intros H Hk. revert i; induction bs as [|b bs IH]; intros i.
  - simpl. destruct (i / k), (i mod k), i; reflexivity.
  - simpl concat. assert (length b = k) by (apply H; left; reflexivity).
    destruct (Nat.ltb_spec i k).
    + rewrite app_nth1 by lia. rewrite Nat.div_small, Nat.mod_small by lia. reflexivity.
    + rewrite app_nth2 by lia. rewrite IH by (intros; apply H; right; assumption).
      assert (E1 : i / k = S ((i - k) / k)) by (replace i with ((i - k) + 1 * k) at 1 by lia; rewrite Nat.div_add by lia; lia).
      assert (E2 : i mod k = (i - k) mod k) by (replace i with ((i - k) + 1 * k) at 1 by lia; apply Nat.mod_add; lia).
      rewrite E1, E2, H0. reflexivity.
Qed.

Lemma concat_length_const A k (bs : list (list A)) :
  (forall b, In b bs -> length b = k) -> length (concat bs) = length bs * k.
Proof.
  induction bs as [|b bs IH]; intros H; simpl; [reflexivity|].
  rewrite app_length, IH, (H b); auto; [left; reflexivity| intros; apply H; right; assumption].
Qed.

Lemma nth_error_ext A (l l' : list A) : (forall i, nth_error l i = nth_error l' i) -> l = l'.
Proof.
  revert l'. induction l as [|x l IH]; intros [|y l'] H; [reflexivity|specialize (H 0); discriminate|specialize (H 0); discriminate|].
  pose proof (H 0) as H0. cbn in H0. injection H0 as ->. f_equal. apply IH. intros i. apply (H (S i)).
Qed.
Lemma nth_error_seq n i : nth_error (seq 0 n) i = if i <? n then Some i else None.
Proof.
  destruct (Nat.ltb_spec i n) as [H|H].
  - rewrite (nth_error_nth' _ 0) by (rewrite seq_length; exact H). rewrite seq_nth by exact H. reflexivity.
  - apply nth_error_None. rewrite seq_length. exact H.
Qed.
