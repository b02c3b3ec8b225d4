From Coq Require Import Sorting.Permutation.
From Verif Require Import Base BaseProofs BitModel BitSpec BitProofs BitProofs2 StoreModel StoreSpec StoreProofs StoreProofs2.

Section Put.
Context {T : Type}.
Implicit Types s : store T.

Lemma put_elem_seq s held h k r i v : inv s held h -> nth_error held k = Some r -> i < snd r - fst r ->
  exists s', put_elem s r i v = Ok s' /\ inv s' held (upd h k (upd (nth k h []) i v)).
Proof.
  intros I Hk Hi. destruct (write_inv _ _ _ _ _ i v I Hk) as (E & J). exists (mk_store (upd (st_buf s) (fst r + i) (Some v)) (st_len s) (st_align s) (st_free s) (st_ends s)).
  rewrite E. destruct (Nat.ltb_spec i (snd r - fst r)); [|lia]. split; [reflexivity|apply J; assumption].
Qed.

(** Any change of the buffer confined to one held slice. *)
Lemma inv_rewrite s held h k r buf vs : inv s held h -> nth_error held k = Some r ->
  length buf = length (st_buf s) -> length vs = snd r - fst r -> stored buf (fst r) vs ->
  (forall i, ~ (fst r <= i < snd r) -> nth_error buf i = nth_error (st_buf s) i) ->
  inv (mk_store buf (st_len s) (st_align s) (st_free s) (st_ends s)) held (upd h k vs).
Proof.
  intros I Hk Lb Lv Sv Fr. pose proof (nth_error_In _ _ Hk) as Hin. destruct (I_held _ _ _ I r Hin) as (e & A & B & C & D).
  destruct (I_ends _ _ _ I _ _ A) as (E1 & E2 & E3). pose proof (I_len _ _ _ I) as HL.
  constructor; cbn [st_buf st_len st_align st_free st_ends]; rewrite ?Lb; try apply I.
  - intros j Hj. destruct (Nat.ltb_spec j (fst r)); [rewrite Fr by lia; apply I; lia|].
    destruct (Nat.leb_spec (snd r) j); [rewrite Fr by lia; apply I; lia|].
    specialize (Sv (j - fst r) ltac:(lia)). replace (fst r + (j - fst r)) with j in Sv by lia. rewrite Sv.
    destruct (nth_error vs (j - fst r)) as [x|] eqn:Ex; [eexists; reflexivity|]. apply nth_error_None in Ex. lia.
  - assert (forall k', k' <> k -> forall r' , nth_error held k' = Some r' -> snd r' <= fst r \/ snd r <= fst r') as Hd.
    { intros k' Hne r' Hr'. apply (held_disjoint s held h r' r I); [eapply nth_error_In; exact Hr'|exact Hin|].
      intros ->. apply Hne. apply (proj1 (NoDup_nth_error _) (I_hnd _ _ _ I)).
      - apply nth_error_Some. rewrite (map_nth_error fst _ _ Hr'). discriminate.
      - rewrite (map_nth_error fst _ _ Hr'), (map_nth_error fst _ _ Hk). reflexivity. }
    pose proof (I_cont _ _ _ I) as F. clear I.
    assert (forall n held h, Forall2 (fun r c => length c = snd r - fst r /\ stored (st_buf s) (fst r) c) held h ->
       (forall k', k' + n <> k -> forall r', nth_error held k' = Some r' -> snd r' <= fst r \/ snd r <= fst r') ->
       (forall k', k' + n = k -> nth_error held k' = Some r) ->
       Forall2 (fun r0 c0 => length c0 = snd r0 - fst r0 /\ stored buf (fst r0) c0) held
           (if n <=? k then upd h (k - n) vs else h)) as G.
    { clear - Lv Sv Fr. intros n held h F. revert n; induction F as [|x y l l' Hx F IH]; intros n Hd He.
      - destruct (n <=? k); cbn; constructor.
      - assert (Hd' : forall k', k' + S n <> k -> forall r', nth_error l k' = Some r' -> snd r' <= fst r \/ snd r <= fst r')
          by (intros k' Hne r' Hr'; apply (Hd (S k')); [lia|exact Hr']).
        assert (He' : forall k', k' + S n = k -> nth_error l k' = Some r) by (intros k' E; apply (He (S k')); lia).
        specialize (IH (S n) Hd' He').
        destruct (Nat.leb_spec n k), (Nat.leb_spec (S n) k); try lia.
        + replace (k - n) with (S (k - S n)) by lia. cbn [upd]. constructor; [|exact IH].
          destruct Hx as (L & S). split; [exact L|]. specialize (Hd 0 ltac:(lia) x eq_refl).
          eapply stored_frame; [|exact S]. intros j Hj. apply Fr. lia.
        + replace (k - n) with 0 by lia. cbn [upd]. constructor; [|exact IH].
          specialize (He 0 ltac:(lia)). injection He as ->. split; assumption.
        + constructor; [|exact IH].
          destruct Hx as (L & S). split; [exact L|]. specialize (Hd 0 ltac:(lia) x eq_refl).
          eapply stored_frame; [|exact S]. intros j Hj. apply Fr. lia. }
    specialize (G 0 held h F). cbn [Nat.leb] in G. rewrite Nat.sub_0_r in G. apply G.
    + intros k' Hne. apply Hd. lia.
    + intros k' E. replace k' with k by lia. exact Hk.
Qed.

Lemma put_slice_inv s held h k r vs : inv s held h -> nth_error held k = Some r -> length vs = snd r - fst r ->
  exists s', put_slice s r vs = Ok s' /\ inv s' held (upd h k vs) /\ st_align s' = st_align s.
Proof.
  intros I Hk Hl. destruct (I_held _ _ _ I r (nth_error_In _ _ Hk)) as (e & A & B & C & D).
  destruct (I_ends _ _ _ I _ _ A) as (E1 & E2 & E3). pose proof (I_len _ _ _ I) as HL.
  destruct (put_slice_ok s r vs) as (s' & E & L & N & Al & F & En & S & Fr); [lia|lia|exact Hl|].
  exists s'. split; [exact E|]. split; [|exact Al].
  pose proof (inv_rewrite s held h k r (st_buf s') vs I Hk L Hl S Fr) as J.
  destruct s' as [b l al f en]. cbn in *. subst. exact J.
Qed.

Lemma upd_app_last A (l : list A) x y : upd (l ++ [x]) (length l) y = l ++ [y].
Proof. induction l as [|a t IH]; cbn; [reflexivity|]. rewrite IH. reflexivity. Qed.

(** Allocation followed by overwriting the new slice. *)
Lemma alloc_put_inv s held h len v s1 r vs : 0 < st_align s -> inv s held h -> alloc_slice s len v = Ok (s1, r) -> length vs = len ->
  get_slice s1 r = Ok (repeat v len) /\
  exists s2, put_slice s1 r vs = Ok s2 /\ inv s2 (held ++ [r]) (h ++ [vs]) /\ st_align s2 = st_align s.
Proof.
  intros Hal I E L. destruct (alloc_inv _ _ _ _ _ _ _ Hal I E) as (I1 & A1 & B1 & C1). pose proof (inv_length _ _ _ I) as Hlen.
  assert (nth_error (held ++ [r]) (length held) = Some r) as Hk by (rewrite nth_error_app2, Nat.sub_diag by lia; reflexivity).
  assert (nth_error (h ++ [repeat v len]) (length held) = Some (repeat v len)) as Hk' by (rewrite nth_error_app2, Hlen, Nat.sub_diag by lia; reflexivity).
  split; [exact (held_get _ _ _ _ _ _ I1 Hk Hk')|].
  destruct (put_slice_inv _ _ _ _ _ vs I1 Hk ltac:(lia)) as (s2 & E2 & I2 & A2). exists s2. split; [exact E2|].
  rewrite Hlen, upd_app_last in I2. split; [exact I2|congruence].
Qed.
End Put.

(* - two mutable slices ----------------------------------------------------------------------- *)

Lemma two_slices_ok T dbg (s : store T) r1 r2 :
  fst r1 < snd r1 -> fst r2 < snd r2 ->
  get_two_slices_mut dbg s r1 r2 =
    if (snd r1 <=? length (st_buf s)) && (snd r2 <=? length (st_buf s)) && ((snd r1 <=? fst r2) || (snd r2 <=? fst r1))
    then Ok (r1, r2) else Panic.
Proof.
  intros H1 H2. destruct r1 as [a1 b1], r2 as [a2 b2]. unfold get_two_slices_mut, split_view, subview. cbn [fst snd] in *.
  set (cap := length (st_buf s)).
  destruct (Nat.leb_spec b1 cap), (Nat.leb_spec b2 cap), (Nat.leb_spec b1 a2), (Nat.leb_spec b2 a1), (Nat.eqb_spec a1 a2), (Nat.eqb_spec b1 b2),
    (Nat.ltb_spec a1 a2), (Nat.leb_spec a2 cap), (Nat.leb_spec a1 cap); cbn [andb orb negb rassert rbind]; try lia; try reflexivity;
  destruct dbg; cbn [andb orb negb rassert rbind fst snd]; try reflexivity;
  repeat (match goal with
  | |- context [?x <=? ?y] => destruct (Nat.leb_spec x y); cbn [andb orb negb rassert rbind fst snd]; try lia
  end); try reflexivity; f_equal; f_equal; f_equal; lia.
Qed.

(* - HistStore ---------------------------------------------------------------------------------- *)

Lemma layout_nth sizes : forall acc i, i < length sizes ->
  nth_error (layout_from acc sizes) i = Some (acc + list_sum (firstn (S i) sizes)).
Proof.
  induction sizes as [|n t IH]; intros acc i Hi; cbn [length] in Hi; [lia|]. destruct i as [|i]; cbn [layout_from nth_error].
  - cbn. f_equal. lia.
  - rewrite IH by lia. f_equal. cbn [firstn]. change (list_sum (n :: ?l)) with (n + list_sum l). cbn [list_sum fold_right]. unfold list_sum. cbn [fold_right]. lia.
Qed.
Lemma layout_length acc sizes : length (layout_from acc sizes) = length sizes.
Proof. revert acc; induction sizes as [|n t IH]; intros acc; cbn; congruence. Qed.

Lemma hist_range_ok T (st : store T) sizes f : f < length sizes ->
  get_histogram_range (mk_hist st (0 :: layout_from 0 sizes)) f =
    Ok (list_sum (firstn f sizes), list_sum (firstn (S f) sizes)).
Proof.
  intros Hf. unfold get_histogram_range, idx. cbn [hs_layout]. replace (f + 1) with (S f) by lia. cbn [nth_error].
  rewrite layout_nth by assumption. destruct f as [|f].
  - cbn [rbind nth_error]. reflexivity.
  - cbn [nth_error]. rewrite layout_nth by lia. reflexivity.
Qed.

Lemma list_sum_firstn_S sizes f : f < length sizes -> list_sum (firstn (S f) sizes) = list_sum (firstn f sizes) + nth f sizes 0.
Proof.
  revert f; induction sizes as [|n t IH]; intros f Hf; cbn [length] in Hf; [lia|]. destruct f as [|f]; cbn [firstn nth].
  - cbn. lia.
  - specialize (IH f ltac:(lia)). cbn [firstn] in *. unfold list_sum in *. cbn [fold_right]. lia.
Qed.
Lemma list_sum_firstn_le sizes a b : a <= b -> list_sum (firstn a sizes) <= list_sum (firstn b sizes).
Proof.
  revert a b; induction sizes as [|n t IH]; intros [|a] [|b] H; cbn [firstn]; try (cbn; lia).
  specialize (IH a b ltac:(lia)). unfold list_sum in *. cbn [fold_right]. lia.
Qed.
Lemma list_sum_firstn_all sizes a : list_sum (firstn a sizes) <= list_sum sizes.
Proof. rewrite <- (firstn_all sizes) at 2. destruct (Nat.le_ge_cases a (length sizes)).
  - apply list_sum_firstn_le; assumption.
  - rewrite !firstn_all2 by lia. lia.
Qed.

Lemma hist_last sizes : idx (0 :: layout_from 0 sizes) (length (0 :: layout_from 0 sizes) - 1) = Ok (list_sum sizes).
Proof.
  cbn [length]. rewrite layout_length. replace (S (length sizes) - 1) with (length sizes) by lia. unfold idx.
  destruct sizes as [|n t] eqn:E; [reflexivity|]. rewrite <- E.
  replace (length sizes) with (S (length t)) by (subst; reflexivity). cbn [nth_error].
  rewrite layout_nth by (subst; cbn; lia). rewrite firstn_all2 by (subst; cbn; lia). reflexivity.
Qed.

Lemma subtract_loop_ok T (minus : T -> T -> T) p l : forall n start (buf : list (option T)) plo llo rlo,
  (forall i, start <= i < start + n -> nth_error buf (plo + i) = option_map Some (nth_error p i) /\ i < length p) ->
  (forall i, start <= i < start + n -> nth_error buf (llo + i) = option_map Some (nth_error l i) /\ i < length l) ->
  (forall i j, start <= i < start + n -> start <= j < start + n -> rlo + i <> plo + j /\ rlo + i <> llo + j) ->
  rlo + start + n <= length buf ->
  exists buf', subtract_loop minus (seq start n) plo llo rlo buf = Ok buf' /\ length buf' = length buf /\
    (forall q, ~ (rlo + start <= q < rlo + start + n) -> nth_error buf' q = nth_error buf q) /\
    (forall i, start <= i < start + n -> exists x y, nth_error p i = Some x /\ nth_error l i = Some y /\
                nth_error buf' (rlo + i) = Some (Some (minus x y))).
Proof.
  induction n as [|n IH]; intros start buf plo llo rlo Hp Hl Hd HL; cbn [seq subtract_loop].
  - exists buf. split; [reflexivity|]. split; [reflexivity|]. split; [reflexivity|]. intros; lia.
  - destruct (Hp start ltac:(lia)) as (P1 & P2). destruct (Hl start ltac:(lia)) as (L1 & L2). unfold idx. rewrite P1, L1.
    destruct (nth_error p start) as [x|] eqn:Ex; [|apply nth_error_None in Ex; lia].
    destruct (nth_error l start) as [y|] eqn:Ey; [|apply nth_error_None in Ey; lia]. cbn [option_map rbind rd_cell].
    rewrite set_idx_lt by lia. cbn [rbind].
    destruct (IH (S start) (upd buf (rlo + start) (Some (minus x y))) plo llo rlo) as (b & E & L & F & C).
    + intros i Hi. rewrite nth_error_upd. destruct (Hd start i ltac:(lia) ltac:(lia)). destruct (Nat.eqb_spec (rlo + start) (plo + i)); [lia|]. apply Hp. lia.
    + intros i Hi. rewrite nth_error_upd. destruct (Hd start i ltac:(lia) ltac:(lia)). destruct (Nat.eqb_spec (rlo + start) (llo + i)); [lia|]. apply Hl. lia.
    + intros i j Hi Hj. apply Hd; lia.
    + rewrite upd_length. lia.
    + exists b. split; [exact E|]. rewrite upd_length in L. split; [exact L|]. split.
      * intros q Hq. rewrite F by lia. rewrite nth_error_upd. destruct (Nat.eqb_spec (rlo + start) q); [lia|reflexivity].
      * intros i Hi. destruct (Nat.eq_dec i start) as [->|Hne]; [|apply C; lia].
        exists x, y. split; [exact Ex|]. split; [exact Ey|]. rewrite F by lia. rewrite nth_error_upd, Nat.eqb_refl.
        destruct (Nat.ltb_spec (rlo + start) (length buf)); [reflexivity|lia].
Qed.

Definition map2 {A B C} (f : A -> B -> C) (l : list A) (l' : list B) : list C := map (fun p => f (fst p) (snd p)) (combine l l').

Lemma nth_error_combine A B (l : list A) (l' : list B) i :
  nth_error (combine l l') i = match nth_error l i, nth_error l' i with Some x, Some y => Some (x, y) | _, _ => None end.
Proof.
  revert l' i; induction l as [|x t IH]; intros [|y t'] [|i]; cbn; try reflexivity; try (destruct (nth_error t i); reflexivity). apply IH.
Qed.

Lemma subtract_inv T (minus : T -> T -> T) (h : hist_store T) held cs kp kl kr pr lr rr p l :
  inv (hs_store h) held cs -> nth_error held kp = Some pr -> nth_error held kl = Some lr -> nth_error held kr = Some rr ->
  nth_error cs kp = Some p -> nth_error cs kl = Some l -> kp <> kr -> kl <> kr ->
  length p = snd rr - fst rr -> length l = length p ->
  exists h', hists_subtract minus h pr lr rr = Ok h' /\ hs_layout h' = hs_layout h /\
    inv (hs_store h') held (upd cs kr (map2 minus p l)) /\ st_align (hs_store h') = st_align (hs_store h).
Proof.
  intros I Hp Hl Hr Cp Cl Npr Nlr Lr Ll. set (s := hs_store h) in *.
  destruct (Forall2_nth _ _ _ _ _ _ _ _ (I_cont _ _ _ I) Hp Cp) as (L1 & S1).
  destruct (Forall2_nth _ _ _ _ _ _ _ _ (I_cont _ _ _ I) Hl Cl) as (L2 & S2).
  assert (forall k1 k2 r1 r2, nth_error held k1 = Some r1 -> nth_error held k2 = Some r2 -> k1 <> k2 -> snd r1 <= fst r2 \/ snd r2 <= fst r1) as Hd.
  { intros k1 k2 r1 r2 H1 H2 Hne. apply (held_disjoint s held cs r1 r2 I); [eapply nth_error_In; eassumption|eapply nth_error_In; eassumption|].
    intros ->. apply Hne. apply (proj1 (NoDup_nth_error _) (I_hnd _ _ _ I)).
    - apply nth_error_Some. rewrite (map_nth_error fst _ _ H1). discriminate.
    - rewrite (map_nth_error fst _ _ H1), (map_nth_error fst _ _ H2). reflexivity. }
  pose proof (Hd _ _ _ _ Hp Hr Npr) as D1. pose proof (Hd _ _ _ _ Hl Hr Nlr) as D2.
  destruct (I_held _ _ _ I rr (nth_error_In _ _ Hr)) as (e & A & B & C & D). destruct (I_ends _ _ _ I _ _ A) as (E1 & E2 & E3). pose proof (I_len _ _ _ I) as HL.
  destruct (subtract_loop_ok T minus p l (snd pr - fst pr) 0 (st_buf s) (fst pr) (fst lr) (fst rr)) as (buf & E & Lb & F & Cc).
  - intros i Hi. split; [apply S1; lia|lia].
  - intros i Hi. split; [apply S2; lia|lia].
  - intros i j Hi Hj. lia.
  - fold s in HL. lia.
  - unfold hists_subtract. fold s. rewrite E. cbn [rbind]. eexists. split; [reflexivity|]. cbn [hs_layout hs_store st_align].
    split; [reflexivity|]. split; [|reflexivity]. apply (inv_rewrite s held cs kr rr buf); try assumption.
    + unfold map2. rewrite map_length, combine_length. lia.
    + intros i Hi. unfold map2 in *. rewrite map_length, combine_length in Hi. destruct (Cc i ltac:(lia)) as (x & y & X & Y & Z).
      rewrite Z. rewrite nth_error_map, nth_error_combine, X, Y. reflexivity.
    + intros i Hi. apply F. lia.
Qed.
