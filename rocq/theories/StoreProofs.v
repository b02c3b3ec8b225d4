From Coq Require Import Sorting.Permutation.
From Verif Require Import Base BaseProofs StoreModel StoreSpec.

Section P.
Context {T : Type}.
Implicit Types s : store T.

Lemma grow_cap_ok fuel : forall c n, 0 < c -> n <= c + fuel -> exists c', grow_cap fuel c n = Ok c' /\ c <= c' /\ n <= c'.
Proof.
  induction fuel as [|f IH]; intros c n Hc Hn; cbn [grow_cap]; destruct (Nat.ltb_spec c n); try lia.
  - exists c. repeat split; lia.
  - destruct (IH (c * 2) n) as (c' & E & H1 & H2); [lia|lia|]. exists c'. repeat split; try assumption; lia.
  - exists c. repeat split; lia.
Qed.

Lemma write_cells_ok n : forall from v (buf : list (option T)), from + n <= length buf ->
  exists buf', write_cells n from v buf = Ok buf' /\ length buf' = length buf /\
  forall i, nth_error buf' i = if (from <=? i) && (i <? from + n) then Some (Some v) else nth_error buf i.
Proof.
  induction n as [|n IH]; intros from v buf H; cbn [write_cells].
  - exists buf. repeat split. intros i. destruct (Nat.leb_spec from i), (Nat.ltb_spec i (from + 0)); cbn; try reflexivity; lia.
  - rewrite set_idx_uc_lt by lia. cbn [rbind].
    destruct (IH (S from) v (upd buf from (Some v))) as (b & E & L & N); [rewrite upd_length; lia|].
    exists b. split; [exact E|]. rewrite upd_length in L. split; [exact L|]. intros i. rewrite N, nth_error_upd.
    destruct (Nat.leb_spec (S from) i), (Nat.ltb_spec i (S from + n)), (Nat.leb_spec from i), (Nat.ltb_spec i (from + S n)),
      (Nat.eqb_spec from i), (Nat.ltb_spec from (length buf)); cbn; try reflexivity; lia.
Qed.

Lemma nth_error_repeat_none (c i : nat) : nth_error (repeat (@None T) c) i = if i <? c then Some None else None.
Proof. revert i; induction c as [|c IH]; intros [|i]; cbn; try reflexivity. rewrite IH. reflexivity. Qed.

Lemma resize_ok s n v : 0 < length (st_buf s) -> st_len s <= length (st_buf s) -> st_len s <= n ->
  exists s', resize s n v = Ok s' /\ length (st_buf s) <= length (st_buf s') /\ n <= length (st_buf s') /\ st_len s' = n /\
    st_align s' = st_align s /\ st_free s' = st_free s /\ st_ends s' = st_ends s /\
    (forall i, i < st_len s -> nth_error (st_buf s') i = nth_error (st_buf s) i) /\
    (forall i, st_len s <= i < n -> nth_error (st_buf s') i = Some (Some v)).
Proof.
  intros Hc Hl Hn. unfold resize. set (cap := length (st_buf s)) in *.
  assert (exists buf1, (if cap <? n then
       let* _ := rassert (0 <? cap) in
       let* new_cap := grow_cap n (cap * 2) n in
       let* _ := rassert (cap <? new_cap) in
       Ok (st_buf s ++ repeat None (new_cap - cap))
     else Ok (st_buf s)) = Ok buf1 /\ cap <= length buf1 /\ n <= length buf1 /\
     forall i, i < cap -> nth_error buf1 i = nth_error (st_buf s) i) as (buf1 & E1 & L1 & L2 & N1).
  { destruct (Nat.ltb_spec cap n).
    - destruct (Nat.ltb_spec 0 cap); [|lia]. cbn [rassert rbind].
      destruct (grow_cap_ok n (cap * 2) n) as (c' & E & G1 & G2); [lia|lia|]. rewrite E. cbn [rbind].
      destruct (Nat.ltb_spec cap c'); [|lia]. cbn [rassert rbind].
      eexists; split; [reflexivity|]. rewrite app_length, repeat_length. fold cap. split; [lia|]. split; [lia|].
      intros i Hi. apply nth_error_app1. exact Hi.
    - exists (st_buf s). fold cap. repeat split; lia. }
  rewrite E1. cbn [rbind].
  destruct (write_cells_ok (n - st_len s) (st_len s) v buf1) as (b2 & E2 & L3 & N2); [lia|].
  rewrite E2. cbn [rbind]. eexists; split; [reflexivity|]. cbn [st_buf st_len st_align st_free st_ends].
  rewrite L3. repeat split; try lia.
  - intros i Hi. rewrite N2. destruct (Nat.leb_spec (st_len s) i); [lia|]. cbn. apply N1. lia.
  - intros i Hi. rewrite N2. destruct (Nat.leb_spec (st_len s) i), (Nat.ltb_spec i (st_len s + (n - st_len s))); cbn; try lia. reflexivity.
Qed.

(** Contents of a range: [c] is stored at offset [a]. *)
Definition stored (buf : list (option T)) (a : nat) (c : list T) : Prop :=
  forall i, i < length c -> nth_error buf (a + i) = option_map Some (nth_error c i).

Lemma mapM_rd_map (c : list T) : mapM rd_cell (map Some c) = Ok c.
Proof. induction c as [|x t IH]; cbn; [reflexivity|]. rewrite IH. reflexivity. Qed.

Lemma sub_stored (buf : list (option T)) a c : stored buf a c -> sub buf a (a + length c) = map Some c.
Proof.
  intros H. apply list_eq_nth_error. intros i. rewrite nth_error_sub, nth_error_map.
  destruct (Nat.ltb_spec i (a + length c - a)).
  - apply H. lia.
  - symmetry. replace (nth_error c i) with (@None T); [reflexivity|]. symmetry. apply nth_error_None. lia.
Qed.

Lemma get_slice_stored s r c : fst r <= snd r -> snd r <= length (st_buf s) -> length c = snd r - fst r ->
  stored (st_buf s) (fst r) c -> get_slice s r = Ok c.
Proof.
  intros H1 H2 H3 H. unfold get_slice, subslice.
  destruct (Nat.leb_spec (fst r) (snd r)); [|lia]. destruct (Nat.leb_spec (snd r) (length (st_buf s))); [|lia]. cbn.
  replace (snd r) with (fst r + length c) by lia. rewrite sub_stored by assumption. apply mapM_rd_map.
Qed.

Lemma get_slice_inv s r c : get_slice s r = Ok c ->
  fst r <= snd r /\ snd r <= length (st_buf s) /\ length c = snd r - fst r /\ stored (st_buf s) (fst r) c.
Proof.
  unfold get_slice. intros H. apply rbind_ok in H as (cells & H & M). apply subslice_ok in H as (A & B & ->).
  apply mapM_ok in M. split; [exact A|]. split; [exact B|].
  assert (sub (st_buf s) (fst r) (snd r) = map Some c) as E.
  { clear - M. induction M as [|x y l l' Hx M IH]; [reflexivity|]. destruct x; cbn in *; [|discriminate]. injection Hx as ->. rewrite IH. reflexivity. }
  assert (length c = snd r - fst r) as L.
  { rewrite <- (map_length Some c), <- E. apply sub_length; assumption. }
  split; [exact L|]. intros i Hi. rewrite <- nth_error_map, <- E, nth_error_sub.
  destruct (Nat.ltb_spec i (snd r - fst r)); [reflexivity|lia].
Qed.

Lemma put_slice_ok s r vs : fst r <= snd r -> snd r <= length (st_buf s) -> length vs = snd r - fst r ->
  exists s', put_slice s r vs = Ok s' /\ length (st_buf s') = length (st_buf s) /\ st_len s' = st_len s /\
    st_align s' = st_align s /\ st_free s' = st_free s /\ st_ends s' = st_ends s /\
    stored (st_buf s') (fst r) vs /\
    (forall i, ~ (fst r <= i < snd r) -> nth_error (st_buf s') i = nth_error (st_buf s) i).
Proof.
  intros H1 H2 H3. unfold put_slice, subslice.
  destruct (Nat.leb_spec (fst r) (snd r)); [|lia]. destruct (Nat.leb_spec (snd r) (length (st_buf s))); [|lia]. cbn [andb rbind].
  destruct (Nat.eqb_spec (length vs) (snd r - fst r)); [|lia]. cbn [rassert rbind].
  eexists; split; [reflexivity|]. cbn [st_buf st_len st_align st_free st_ends].
  assert (length (firstn (fst r) (st_buf s)) = fst r) as Lf by (rewrite firstn_length; lia).
  repeat split.
  - rewrite !app_length, map_length, skipn_length, Lf. lia.
  - intros i Hi. rewrite nth_error_app2 by lia. rewrite Lf. replace (fst r + i - fst r) with i by lia.
    rewrite nth_error_app1 by (rewrite map_length; lia). apply nth_error_map.
  - intros i Hi. destruct (Nat.ltb_spec i (fst r)).
    + rewrite nth_error_app1 by lia. rewrite nth_error_firstn. destruct (Nat.ltb_spec i (fst r)); [reflexivity|lia].
    + rewrite nth_error_app2 by lia. rewrite nth_error_app2 by (rewrite map_length; lia). rewrite map_length, Lf, nth_error_skipn.
      f_equal. lia.
Qed.

Lemma find_free_some len free i : find_free len free = Some i -> exists r, nth_error free i = Some r /\ len <= snd r - fst r.
Proof.
  revert i; induction free as [|r t IH]; intros i; cbn [find_free]; [discriminate|].
  destruct (Nat.leb_spec len (snd r - fst r)).
  - intros E; injection E as <-. exists r. split; [reflexivity|assumption].
  - destruct (find_free len t) as [j|]; [|discriminate]. intros E; injection E as <-.
    destruct (IH j eq_refl) as (r' & H1 & H2). exists r'. split; assumption.
Qed.

Lemma swap_remove_perm A (l : list A) i x : nth_error l i = Some x -> Permutation l (x :: swap_remove l i).
Proof.
  intros H. assert (i < length l) as Hi by (apply nth_error_Some; congruence).
  unfold swap_remove. destruct (nth_error l (length l - 1)) as [z|] eqn:Ez; [|apply nth_error_None in Ez; lia].
  assert (exists l0, l = l0 ++ [z]) as (l0 & ->).
  { destruct (exists_last (l := l)) as (l0 & z' & ->); [destruct l; cbn in *; [lia|discriminate]|].
    rewrite app_length in Ez. cbn in Ez. rewrite nth_error_app2 in Ez by lia.
    replace (length l0 + 1 - 1 - length l0) with 0 in Ez by lia. injection Ez as ->. exists l0; reflexivity. }
  rewrite app_length. cbn [length]. replace (length l0 + 1 - 1) with (length l0) by lia.
  destruct (Nat.eq_dec i (length l0)) as [->|Hne].
  - rewrite nth_error_app2, Nat.sub_diag in H by lia. injection H as ->.
    replace (firstn (length l0) (upd (l0 ++ [x]) (length l0) x)) with l0.
    + symmetry. apply Permutation_cons_append.
    + symmetry. apply list_eq_nth_error. intros j. rewrite nth_error_firstn, nth_error_upd.
      destruct (Nat.ltb_spec j (length l0)).
      * destruct (Nat.eqb_spec (length l0) j); [lia|]. cbn. rewrite nth_error_app1 by lia. reflexivity.
      * symmetry. apply nth_error_None. lia.
  - rewrite app_length in Hi. cbn in Hi. assert (i < length l0) by lia.
    rewrite nth_error_app1 in H by lia.
    replace (firstn (length l0) (upd (l0 ++ [z]) i z)) with (upd l0 i z).
    2:{ apply list_eq_nth_error. intros j. rewrite nth_error_firstn, !nth_error_upd, app_length.
      destruct (Nat.ltb_spec j (length l0)), (Nat.eqb_spec i j), (Nat.ltb_spec i (length l0)), (Nat.ltb_spec i (length l0 + length [z]));
       cbn in *; try lia; try reflexivity; try (rewrite nth_error_app1 by lia; reflexivity); try (apply nth_error_None; lia). }
    apply nth_error_split in H as (a & b & -> & <-).
    assert (forall (a b : list A) x z, upd (a ++ x :: b) (length a) z = a ++ z :: b) as U.
    { clear. induction a as [|h t IH]; intros b x z; cbn; [reflexivity|]. rewrite IH. reflexivity. }
    rewrite U. rewrite <- app_assoc. cbn [app].
    etransitivity; [symmetry; apply Permutation_middle|]. apply perm_skip.
    apply Permutation_app_head. symmetry. apply Permutation_cons_append.
Qed.

Lemma ends_get_in ends a e : (forall e1 e2, In (a, e1) ends -> In (a, e2) ends -> e1 = e2) -> In (a, e) ends -> ends_get ends a = Ok e.
Proof.
  induction ends as [|[a' e'] t IH]; intros F H; [destruct H|]. cbn [ends_get].
  destruct (Nat.eqb_spec a' a) as [->|Hne].
  - f_equal. apply F; [left; reflexivity|exact H].
  - destruct H as [H|H]; [injection H as -> ->; congruence|]. apply IH; [|exact H].
    intros e1 e2 H1 H2. apply F; right; assumption.
Qed.
End P.
