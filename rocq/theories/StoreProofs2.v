From Coq Require Import Sorting.Permutation.
From Verif Require Import Base BaseProofs StoreModel StoreSpec StoreProofs.

Section Inv.
Context {T : Type}.
Implicit Types s : store T.

Record inv (s : store T) (held : list range) (h : list (list T)) : Prop := {
  I_cap : 0 < length (st_buf s);
  I_len : st_len s <= length (st_buf s);
  I_init : forall i, i < st_len s -> exists v, nth_error (st_buf s) i = Some (Some v);
  I_ends : forall a e, In (a, e) (st_ends s) -> a < e /\ e <= st_len s /\ a mod st_align s = 0;
  I_dis : forall a e a' e', In (a, e) (st_ends s) -> In (a', e') (st_ends s) -> (a = a' /\ e = e') \/ e <= a' \/ e' <= a;
  I_free : forall r, In r (st_free s) -> In r (st_ends s);
  I_fnd : NoDup (st_free s);
  I_held : forall r, In r held -> exists e, In (fst r, e) (st_ends s) /\ fst r < snd r /\ snd r <= e /\ ~ In (fst r, e) (st_free s);
  I_hnd : NoDup (map fst held);
  I_cont : Forall2 (fun r c => length c = snd r - fst r /\ stored (st_buf s) (fst r) c) held h
}.

Lemma inv_new cap al s : store_new cap al = Ok s -> inv s [] [].
Proof.
  unfold store_new. intros H. apply rbind_ok in H as (u & A & B). apply rassert_ok in A. injection B as <-.
  apply Nat.ltb_lt in A.
  constructor; cbn; try (intros; tauto); try constructor; try (rewrite repeat_length); try lia.
Qed.

Lemma held_disjoint s held h r1 r2 : inv s held h -> In r1 held -> In r2 held -> r1 <> r2 -> snd r1 <= fst r2 \/ snd r2 <= fst r1.
Proof.
  intros I H1 H2 Hne.
  destruct (I_held _ _ _ I _ H1) as (e1 & A1 & B1 & C1 & D1). destruct (I_held _ _ _ I _ H2) as (e2 & A2 & B2 & C2 & D2).
  destruct (I_dis _ _ _ I _ _ _ _ A1 A2) as [(E & _)|[?|?]]; [|lia|lia].
  exfalso. apply Hne. clear - E H1 H2 I. pose proof (I_hnd _ _ _ I) as ND. clear I. induction held as [|x t IH]; [destruct H1|].
  cbn in ND. inversion ND as [|? ? N1 N2]; subst. destruct H1 as [->|H1], H2 as [->|H2]; auto.
  - exfalso. apply N1. rewrite E. apply in_map. exact H2.
  - exfalso. apply N1. rewrite <- E. apply in_map. exact H1.
Qed.

Lemma held_get s held h k r c : inv s held h -> nth_error held k = Some r -> nth_error h k = Some c -> get_slice s r = Ok c.
Proof.
  intros I H1 H2. pose proof (I_cont _ _ _ I) as F.
  destruct (I_held _ _ _ I r (nth_error_In _ _ H1)) as (e & A & B & C & D). destruct (I_ends _ _ _ I _ _ A) as (_ & E & _).
  pose proof (I_len _ _ _ I).
  assert (length c = snd r - fst r /\ stored (st_buf s) (fst r) c) as (L & S).
  { clear - F H1 H2. revert k H1 H2; induction F as [|x y l l' Hx F IH]; intros [|k]; cbn; try discriminate.
    - intros [= <-] [= <-]; exact Hx.
    - apply IH. }
  apply get_slice_stored; try assumption; lia.
Qed.

Lemma Forall2_impl_in A B (P Q : A -> B -> Prop) l l' :
  (forall a b, In a l -> P a b -> Q a b) -> Forall2 P l l' -> Forall2 Q l l'.
Proof.
  intros H F. induction F as [|x y l l' Hx F IH]; constructor.
  - apply H; [left; reflexivity|exact Hx].
  - apply IH. intros a b Ha. apply H. right; exact Ha.
Qed.

Lemma stored_frame (buf buf' : list (option T)) a c :
  (forall i, a <= i < a + length c -> nth_error buf' i = nth_error buf i) -> stored buf a c -> stored buf' a c.
Proof. intros H S i Hi. rewrite H by lia. apply S. exact Hi. Qed.

Lemma stored_repeat (buf : list (option T)) a v n : (forall i, i < n -> nth_error buf (a + i) = Some (Some v)) -> stored buf a (repeat v n).
Proof.
  intros H i Hi. rewrite repeat_length in Hi. rewrite H by assumption.
  rewrite (nth_error_nth' _ v) by (rewrite repeat_length; lia). rewrite nth_repeat. reflexivity.
Qed.

Lemma align_up_ok al l : 0 < al -> let m := l mod al in let o := if m =? 0 then l else l + al - m in
  l <= o /\ o < l + al /\ o mod al = 0.
Proof.
  intros Ha m o. subst o m. pose proof (Nat.mod_upper_bound l al ltac:(lia)). pose proof (Nat.div_mod l al ltac:(lia)) as D.
  destruct (Nat.eqb_spec (l mod al) 0) as [E|E].
  - repeat split; try lia.
  - repeat split; try lia.
    replace (l + al - l mod al) with ((1 + l / al) * al) by nia. apply Nat.mod_mul. lia.
Qed.

Lemma alloc_inv s held h len v s' r : 0 < st_align s -> inv s held h -> alloc_slice s len v = Ok (s', r) ->
  inv s' (held ++ [r]) (h ++ [repeat v len]) /\ st_align s' = st_align s /\ snd r - fst r = len /\
  st_len s' <= st_len s + len + st_align s.
Proof.
  intros Hal I. unfold alloc_slice. intros H. apply rbind_ok in H as (u & A & H). apply rassert_ok in A. apply Nat.ltb_lt in A.
  destruct (find_free len (st_free s)) as [i|] eqn:Ef.
  - apply find_free_some in Ef as (f & Hf & Hlen). unfold idx in H. rewrite Hf in H. cbn [rbind] in H.
    pose proof (I_free _ _ _ I f (nth_error_In _ _ Hf)) as Hfe. destruct f as [a e]. cbn [fst snd] in *.
    destruct (I_ends _ _ _ I _ _ Hfe) as (Hae & Hel & Hmod). pose proof (I_len _ _ _ I).
    set (s1 := mk_store _ _ _ _ _) in H. destruct (put_slice_ok s1 (a, e) (repeat v (e - a))) as (s2 & E2 & L2 & N2 & Al2 & F2 & En2 & S2 & Fr2);
      cbn [fst snd]; try (subst s1; cbn; rewrite ?repeat_length; lia).
    rewrite E2 in H. cbn [rbind] in H. injection H as <- <-. subst s1. cbn [st_buf st_len st_align st_free st_ends fst snd] in *.
    pose proof (swap_remove_perm _ _ _ _ Hf) as P. set (fr := swap_remove (st_free s) i) in *.
    pose proof (I_fnd _ _ _ I) as ND. pose proof (Permutation_NoDup P ND) as ND'. inversion ND' as [|? ? Nin NDfr]; subst.
    assert (forall x, In x fr -> In x (st_free s)) as Sub by (intros x Hx; eapply Permutation_in; [symmetry; exact P|right; exact Hx]).
    assert (forall r', In r' held -> snd r' <= a \/ e <= fst r') as Hd.
    { intros r' Hr'. destruct (I_held _ _ _ I r' Hr') as (e' & A1 & B1 & C1 & D1).
      destruct (I_dis _ _ _ I _ _ _ _ Hfe A1) as [(Ea & Ee)|[?|?]]; [|lia|lia].
      exfalso. apply D1. rewrite <- Ea, <- Ee. apply (nth_error_In _ _ Hf). }
    split; [|split; [congruence|split; [lia|lia]]].
    constructor; rewrite ?L2, ?N2, ?Al2, ?F2, ?En2; try apply I.
    + intros j Hj. destruct (Nat.ltb_spec j a); [rewrite Fr2 by lia; apply I; lia|]. destruct (Nat.leb_spec e j); [rewrite Fr2 by lia; apply I; lia|].
      exists v. specialize (S2 (j - a)). rewrite repeat_length in S2. replace (a + (j - a)) with j in S2 by lia. rewrite S2 by lia.
      rewrite (nth_error_nth' _ v) by (rewrite repeat_length; lia). rewrite nth_repeat. reflexivity.
    + intros x Hx. apply (I_free _ _ _ I). auto.
    + exact NDfr.
    + intros r' Hr'. apply in_app_or in Hr' as [Hr'|[<-|[]]].
      * destruct (I_held _ _ _ I r' Hr') as (e' & A1 & B1 & C1 & D1). exists e'. split; [exact A1|]. split; [exact B1|]. split; [exact C1|].
        intros Hc. apply D1. auto.
      * exists e. cbn [fst snd]. split; [exact Hfe|]. split; [lia|]. split; [lia|]. exact Nin.
    + rewrite map_app. cbn [map]. eapply Permutation_NoDup; [apply Permutation_cons_append|]. constructor; [|apply I].
      cbn [fst]. intros Hc. apply in_map_iff in Hc as (r' & E' & Hr'). specialize (Hd r' Hr').
      destruct (I_held _ _ _ I r' Hr') as (e' & A1 & B1 & C1 & D1). lia.
    + apply Forall2_app.
      * eapply Forall2_impl_in; [|apply I]. intros r' c Hr' (L & S). split; [exact L|]. eapply stored_frame; [|exact S].
        intros j Hj. apply Fr2. specialize (Hd r' Hr'). lia.
      * constructor; [|constructor]. cbn [fst snd]. rewrite repeat_length. split; [lia|].
        apply stored_repeat. intros j Hj. specialize (S2 j). rewrite repeat_length in S2. rewrite S2 by lia.
        rewrite (nth_error_nth' _ v) by (rewrite repeat_length; lia). rewrite nth_repeat. reflexivity.
  - pose proof (align_up_ok (st_align s) (st_len s) Hal) as AU. cbv zeta in AU.
    set (o := if st_len s mod st_align s =? 0 then st_len s else st_len s + st_align s - st_len s mod st_align s) in *.
    destruct AU as (O1 & O2 & O3).
    apply rbind_ok in H as (u2 & A2 & H).
    destruct (resize_ok s (o + len) v (I_cap _ _ _ I) (I_len _ _ _ I) ltac:(lia)) as (s1 & E1 & R1 & R2 & R3 & R4 & R5 & R6 & R7 & R8).
    rewrite E1 in H. cbn [rbind] in H. injection H as <- <-. cbn [st_buf st_len st_align st_free st_ends fst snd].
    split; [|split; [exact R4|split; [lia|lia]]].
    pose proof (I_len _ _ _ I). pose proof (I_cap _ _ _ I).
    constructor; cbn [st_buf st_len st_align st_free st_ends]; rewrite ?R3, ?R4, ?R5, ?R6; try lia.
    + intros j Hj. destruct (Nat.ltb_spec j (st_len s)); [rewrite R7 by lia; apply I; lia|]. exists v. apply R8. lia.
    + intros a e [E|Hin]; [injection E as <- <-; repeat split; lia|]. destruct (I_ends _ _ _ I _ _ Hin) as (?&?&?). repeat split; lia.
    + intros a e a' e' [E|Hin] [E'|Hin']; try (injection E as <- <-); try (injection E' as <- <-).
      * left; split; reflexivity.
      * destruct (I_ends _ _ _ I _ _ Hin') as (?&?&?). lia.
      * destruct (I_ends _ _ _ I _ _ Hin) as (?&?&?). lia.
      * apply (I_dis _ _ _ I); assumption.
    + intros x Hx. right. apply (I_free _ _ _ I). exact Hx.
    + apply I.
    + intros r' Hr'. apply in_app_or in Hr' as [Hr'|[<-|[]]].
      * destruct (I_held _ _ _ I r' Hr') as (e' & A1 & B1 & C1 & D1). exists e'. split; [right; exact A1|]. split; [exact B1|]. split; assumption.
      * exists (o + len). cbn [fst snd]. split; [left; reflexivity|]. split; [lia|]. split; [lia|].
        intros Hc. apply (I_free _ _ _ I) in Hc. destruct (I_ends _ _ _ I _ _ Hc) as (?&?&?). lia.
    + rewrite map_app. cbn [map]. eapply Permutation_NoDup; [apply Permutation_cons_append|]. constructor; [|apply I].
      cbn [fst]. intros Hc. apply in_map_iff in Hc as (r' & E' & Hr').
      destruct (I_held _ _ _ I r' Hr') as (e' & A1 & B1 & C1 & D1). destruct (I_ends _ _ _ I _ _ A1) as (?&?&?). lia.
    + apply Forall2_app.
      * eapply Forall2_impl_in; [|apply I]. intros r' c Hr' (L & S). split; [exact L|]. eapply stored_frame; [|exact S].
        intros j Hj. apply R7. destruct (I_held _ _ _ I r' Hr') as (e' & A1 & B1 & C1 & D1). destruct (I_ends _ _ _ I _ _ A1) as (?&?&?). lia.
      * constructor; [|constructor]. cbn [fst snd]. rewrite repeat_length. split; [lia|].
        apply stored_repeat. intros j Hj. apply R8. lia.
Qed.

Lemma alloc_total s held h len v : 0 < st_align s -> inv s held h -> 0 < len ->
  (N.of_nat (st_len s + len + st_align s) <= U32_MAX)%N -> exists s' r, alloc_slice s len v = Ok (s', r).
Proof.
  intros Hal I Hlen Hmax. unfold alloc_slice. destruct (Nat.ltb_spec 0 len); [|lia]. cbn [rassert rbind].
  destruct (find_free len (st_free s)) as [i|] eqn:Ef.
  - apply find_free_some in Ef as (f & Hf & Hl). unfold idx. rewrite Hf. cbn [rbind].
    pose proof (I_free _ _ _ I f (nth_error_In _ _ Hf)) as Hfe. destruct f as [a e]. cbn [fst snd] in *.
    destruct (I_ends _ _ _ I _ _ Hfe) as (Hae & Hel & Hmod). pose proof (I_len _ _ _ I).
    set (s1 := mk_store _ _ _ _ _). destruct (put_slice_ok s1 (a, e) (repeat v (e - a))) as (s2 & E2 & _);
      cbn [fst snd]; try (subst s1; cbn; rewrite ?repeat_length; lia).
    rewrite E2. cbn [rbind]. eauto.
  - pose proof (align_up_ok (st_align s) (st_len s) Hal) as AU. cbv zeta in AU.
    set (o := if st_len s mod st_align s =? 0 then st_len s else st_len s + st_align s - st_len s mod st_align s) in *.
    destruct AU as (O1 & O2 & O3). destruct (N.ltb_spec (N.of_nat (o + len)) U32_MAX); [|lia]. cbn [rassert rbind].
    destruct (resize_ok s (o + len) v (I_cap _ _ _ I) (I_len _ _ _ I) ltac:(lia)) as (s1 & E1 & _). rewrite E1. cbn [rbind]. eauto.
Qed.

Lemma in_remove_nth A k (l : list A) x : In x (remove_nth k l) -> In x l.
Proof. unfold remove_nth. intros H. rewrite <- (firstn_skipn k l). apply in_or_app. apply in_app_or in H as [H|H]; [left; exact H|].
  right. revert k H; induction l as [|y t IH]; intros k; destruct k; cbn; auto. Qed.
Lemma remove_nth_S A k (a : A) l : remove_nth (S k) (a :: l) = a :: remove_nth k l.
Proof. reflexivity. Qed.
Lemma remove_nth_perm A k (l : list A) x : nth_error l k = Some x -> Permutation l (x :: remove_nth k l).
Proof.
  intros H. apply nth_error_split in H as (a & b & -> & <-). unfold remove_nth.
  rewrite firstn_app, firstn_all, Nat.sub_diag. cbn [firstn]. rewrite app_nil_r.
  rewrite skipn_app. rewrite skipn_all2 by lia. replace (S (length a) - length a) with 1 by lia. cbn.
  symmetry. apply Permutation_middle.
Qed.
Lemma Forall2_remove_nth A B (P : A -> B -> Prop) k l l' : Forall2 P l l' -> Forall2 P (remove_nth k l) (remove_nth k l').
Proof.
  intros F. revert k; induction F as [|x y l l' Hx F IH]; intros [|k]; try constructor; try assumption.
  apply IH.
Qed.

Lemma free_inv dbg s held h k r : inv s held h -> nth_error held k = Some r ->
  exists s', free_slice dbg s r = Ok s' /\ inv s' (remove_nth k held) (remove_nth k h) /\ st_align s' = st_align s /\ st_len s' = st_len s.
Proof.
  intros I Hk. pose proof (nth_error_In _ _ Hk) as Hin. destruct (I_held _ _ _ I r Hin) as (e & A & B & C & D).
  unfold free_slice.
  assert (existsb (fun f => fst f =? fst r) (st_free s) = false) as Ex.
  { apply Bool.not_true_is_false. intros Ht. apply existsb_exists in Ht as (f & Hf & E). apply Nat.eqb_eq in E.
    destruct f as [a' e']. cbn in E. subst a'. pose proof (I_free _ _ _ I _ Hf) as He.
    destruct (I_dis _ _ _ I _ _ _ _ A He) as [(_ & ->)|[?|?]]; [auto|..];
    destruct (I_ends _ _ _ I _ _ A), (I_ends _ _ _ I _ _ He); lia. }
  rewrite Ex. rewrite Bool.orb_true_r. cbn [rassert rbind].
  rewrite (ends_get_in _ _ e).
  2:{ intros e1 e2 H1 H2. destruct (I_dis _ _ _ I _ _ _ _ H1 H2) as [(_ & ->)|[?|?]]; [reflexivity|..];
      destruct (I_ends _ _ _ I _ _ H1), (I_ends _ _ _ I _ _ H2); lia. }
  2:{ exact A. }
  cbn [rbind]. eexists; split; [reflexivity|]. cbn [st_align st_len]. split; [|split; reflexivity].
  constructor; cbn [st_buf st_len st_align st_free st_ends]; try apply I.
  - intros x Hx. apply in_app_or in Hx as [Hx|[<-|[]]]; [apply (I_free _ _ _ I); exact Hx|exact A].
  - eapply Permutation_NoDup; [apply Permutation_cons_append|]. constructor; [exact D|apply I].
  - intros r' Hr'. destruct (I_held _ _ _ I r' (in_remove_nth _ _ _ _ Hr')) as (e' & A1 & B1 & C1 & D1). exists e'.
    split; [exact A1|]. split; [exact B1|]. split; [exact C1|]. intros Hc. apply in_app_or in Hc as [Hc|[E|[]]]; [auto|].
    injection E as E1 E2. pose proof (remove_nth_perm _ _ _ _ Hk) as P. apply (Permutation_map fst) in P.
    pose proof (Permutation_NoDup P (I_hnd _ _ _ I)) as ND. cbn [map] in ND. inversion ND as [|? ? N1 N2]; subst.
    apply N1. rewrite E1. apply in_map. exact Hr'.
  - pose proof (remove_nth_perm _ _ _ _ Hk) as P. apply (Permutation_map fst) in P.
    pose proof (Permutation_NoDup P (I_hnd _ _ _ I)) as ND. cbn [map] in ND. inversion ND; assumption.
  - apply Forall2_remove_nth. apply I.
Qed.

Lemma Forall2_nth A B (P : A -> B -> Prop) l l' k x y : Forall2 P l l' -> nth_error l k = Some x -> nth_error l' k = Some y -> P x y.
Proof. intros F. revert k; induction F as [|a b l l' Hx F IH]; intros [|k]; cbn; try discriminate; [intros [= <-] [= <-]; exact Hx|apply IH]. Qed.
Lemma Forall2_nth_l A B (P : A -> B -> Prop) l l' k x : Forall2 P l l' -> nth_error l k = Some x -> exists y, nth_error l' k = Some y /\ P x y.
Proof. intros F. revert k; induction F as [|a b l l' Hx F IH]; intros [|k]; cbn; try discriminate; [intros [= <-]; eauto|apply IH]. Qed.

Lemma write_inv s held h k r i v : inv s held h -> nth_error held k = Some r ->
  put_elem s r i v = (if i <? snd r - fst r then
     Ok (mk_store (upd (st_buf s) (fst r + i) (Some v)) (st_len s) (st_align s) (st_free s) (st_ends s)) else Panic) /\
  (i < snd r - fst r ->
   inv (mk_store (upd (st_buf s) (fst r + i) (Some v)) (st_len s) (st_align s) (st_free s) (st_ends s)) held
       (upd h k (upd (nth k h []) i v))).
Proof.
  intros I Hk. pose proof (nth_error_In _ _ Hk) as Hin. destruct (I_held _ _ _ I r Hin) as (e & A & B & C & D).
  destruct (I_ends _ _ _ I _ _ A) as (E1 & E2 & E3). pose proof (I_len _ _ _ I) as HL.
  split.
  { unfold put_elem, subslice. destruct (Nat.leb_spec (fst r) (snd r)); [|lia]. destruct (Nat.leb_spec (snd r) (length (st_buf s))); [|lia].
    cbn [andb rbind]. rewrite sub_length by lia. destruct (i <? snd r - fst r); reflexivity. }
  intros Hi. constructor; cbn [st_buf st_len st_align st_free st_ends]; rewrite ?upd_length; try apply I.
  - intros j Hj. rewrite nth_error_upd. destruct ((fst r + i =? j) && (fst r + i <? length (st_buf s))); [eauto|apply I; exact Hj].
  - assert (forall k', k' <> k -> forall r' , nth_error held k' = Some r' -> snd r' <= fst r \/ snd r <= fst r') as Hd.
    { intros k' Hne r' Hr'. apply (held_disjoint s held h r' r I); [eapply nth_error_In; exact Hr'|exact Hin|].
      intros ->. apply Hne. apply (proj1 (NoDup_nth_error _) (I_hnd _ _ _ I)).
      - apply nth_error_Some. rewrite (map_nth_error fst _ _ Hr'). discriminate.
      - rewrite (map_nth_error fst _ _ Hr'), (map_nth_error fst _ _ Hk). reflexivity. }
    destruct (Forall2_nth_l _ _ _ _ _ _ _ (I_cont _ _ _ I) Hk) as (c & Hc & Lc & Sc).
    rewrite (nth_error_nth _ _ _ Hc).
    pose proof (I_cont _ _ _ I) as F. clear I.
    assert (forall n held h, Forall2 (fun r c => length c = snd r - fst r /\ stored (st_buf s) (fst r) c) held h ->
       (forall k', k' + n <> k -> forall r', nth_error held k' = Some r' -> snd r' <= fst r \/ snd r <= fst r') ->
       (forall k', k' + n = k -> nth_error held k' = Some r) ->
       Forall2 (fun r0 c0 => length c0 = snd r0 - fst r0 /\ stored (upd (st_buf s) (fst r + i) (Some v)) (fst r0) c0) held
           (if n <=? k then upd h (k - n) (upd c i v) else h)) as G.
    { clear - Hi Lc Sc HL E2 C. intros n held h F. revert n; induction F as [|x y l l' Hx F IH]; intros n Hd He.
      - destruct (n <=? k); cbn; constructor.
      - assert (Hd' : forall k', k' + S n <> k -> forall r', nth_error l k' = Some r' -> snd r' <= fst r \/ snd r <= fst r')
          by (intros k' Hne r' Hr'; apply (Hd (S k')); [lia|exact Hr']).
        assert (He' : forall k', k' + S n = k -> nth_error l k' = Some r) by (intros k' E; apply (He (S k')); lia).
        specialize (IH (S n) Hd' He').
        destruct (Nat.leb_spec n k), (Nat.leb_spec (S n) k); try lia.
        + replace (k - n) with (S (k - S n)) by lia. cbn [upd]. constructor; [|exact IH].
          destruct Hx as (L & S). split; [exact L|]. specialize (Hd 0 ltac:(lia) x eq_refl).
          eapply stored_frame; [|exact S]. intros j Hj. rewrite nth_error_upd. destruct (Nat.eqb_spec (fst r + i) j); [lia|reflexivity].
        + replace (k - n) with 0 by lia. cbn [upd]. constructor; [|exact IH].
          specialize (He 0 ltac:(lia)). injection He as ->. rewrite upd_length. split; [exact Lc|].
          intros j Hj. rewrite upd_length in Hj. rewrite !nth_error_upd.
          destruct (Nat.eqb_spec (fst r + i) (fst r + j)), (Nat.eqb_spec i j), (Nat.ltb_spec (fst r + i) (length (st_buf s))), (Nat.ltb_spec i (length c));
            cbn; try lia; try reflexivity; apply Sc; exact Hj.
        + constructor; [|exact IH].
          destruct Hx as (L & S). split; [exact L|]. specialize (Hd 0 ltac:(lia) x eq_refl).
          eapply stored_frame; [|exact S]. intros j Hj. rewrite nth_error_upd. destruct (Nat.eqb_spec (fst r + i) j); [lia|reflexivity]. }
    specialize (G 0 held h F). cbn [Nat.leb] in G. rewrite Nat.sub_0_r in G. apply G.
    + intros k' Hne. apply Hd. lia.
    + intros k' E. replace k' with k by lia. exact Hk.
Qed.

Lemma reset_inv s held h : inv s held h -> inv (store_reset s) [] [].
Proof.
  intros I. constructor; cbn; try (intros; tauto); try constructor; try lia; try apply I.
Qed.

Lemma heap_write_none (h : list (list T)) k i v : length h <= k -> upd h k (upd (nth k h []) i v) = h.
Proof.
  intros H. apply list_eq_nth_error. intros j. rewrite nth_error_upd. destruct (Nat.ltb_spec k (length h)); [lia|].
  rewrite Bool.andb_false_r. reflexivity.
Qed.
Lemma remove_nth_none A k (l : list A) : length l <= k -> remove_nth k l = l.
Proof. intros H. unfold remove_nth. rewrite firstn_all2, skipn_all2, app_nil_r by lia. reflexivity. Qed.

Lemma inv_length s held h : inv s held h -> length held = length h.
Proof. intros I. pose proof (I_cont _ _ _ I) as F. clear I. induction F; cbn; congruence. Qed.

Lemma exec_inv dbg s held h o s' held' : 0 < st_align s -> inv s held h -> exec dbg (s, held) o = Ok (s', held') ->
  inv s' held' (heap_step h o) /\ st_align s' = st_align s.
Proof.
  intros Hal I E. destruct o as [len v|k|k i v|]; cbn [exec heap_step] in *.
  - apply rbind_ok in E as ([s1 r] & E & E'). injection E' as <- <-.
    destruct (alloc_inv _ _ _ _ _ _ _ Hal I E) as (I' & A & _). split; assumption.
  - change (firstn k h ++ skipn (S k) h) with (remove_nth k h).
    destruct (nth_error held k) as [r|] eqn:Hk.
    + destruct (free_inv dbg _ _ _ _ _ I Hk) as (s1 & E1 & I' & A & _). rewrite E1 in E. cbn [rbind] in E. injection E as <- <-. split; assumption.
    + apply nth_error_None in Hk. injection E as <- <-. rewrite remove_nth_none by (rewrite <- (inv_length _ _ _ I); lia). split; [exact I|reflexivity].
  - destruct (nth_error held k) as [r|] eqn:Hk.
    + destruct (write_inv _ _ _ _ _ i v I Hk) as (E1 & I'). rewrite E1 in E. destruct (Nat.ltb_spec i (snd r - fst r)); [|discriminate].
      cbn [rbind] in E. injection E as <- <-. split; [apply I'; assumption|reflexivity].
    + apply nth_error_None in Hk. injection E as <- <-. rewrite heap_write_none by (rewrite <- (inv_length _ _ _ I); lia). split; [exact I|reflexivity].
  - injection E as <- <-. split; [eapply reset_inv; exact I|reflexivity].
Qed.

Lemma run_inv dbg ops : forall s held h s' held', 0 < st_align s -> inv s held h -> run_ops dbg ops (s, held) = Ok (s', held') ->
  inv s' held' (heap_run ops h) /\ st_align s' = st_align s.
Proof.
  unfold run_ops, heap_run. induction ops as [|o t IH]; intros s held h s' held' Hal I E; cbn [foldM fold_left] in *.
  - injection E as <- <-. split; [exact I|reflexivity].
  - apply rbind_ok in E as ([s1 held1] & E1 & E). destruct (exec_inv _ _ _ _ _ _ _ Hal I E1) as (I1 & A1).
    assert (0 < st_align s1) as Hal1 by lia.
    destruct (IH _ _ _ _ _ Hal1 I1 E) as (I2 & A2). split; [exact I2|congruence].
Qed.

Lemma run_total dbg ops : forall s held h, 0 < st_align s -> inv s held h -> careful h ops ->
  (N.of_nat (st_len s + space (st_align s) ops) <= U32_MAX)%N ->
  exists s' held', run_ops dbg ops (s, held) = Ok (s', held').
Proof.
  unfold run_ops. induction ops as [|o t IH]; intros s held h Hal I Hc Hm; cbn [foldM].
  - eauto.
  - cbn [careful] in Hc. destruct Hc as (Hc & Ht).
    assert (exists s1 held1, exec dbg (s, held) o = Ok (s1, held1) /\ inv s1 held1 (heap_step h o) /\ st_align s1 = st_align s /\
       st_len s1 + space (st_align s) t <= st_len s + space (st_align s) (o :: t)) as (s1 & held1 & E1 & I1 & A1 & L1).
    { destruct o as [len v|k|k i v|]; cbn [exec heap_step careful_step space] in *.
      - destruct (alloc_total s held h len v Hal I Hc) as (s1 & r & E); [lia|]. rewrite E. cbn [rbind].
        destruct (alloc_inv _ _ _ _ _ _ _ Hal I E) as (I' & A & _ & L). do 2 eexists. split; [reflexivity|]. split; [assumption|]; split; [assumption|lia].
      - change (firstn k h ++ skipn (S k) h) with (remove_nth k h) in *. destruct (nth_error held k) as [r|] eqn:Hk.
        + destruct (free_inv dbg _ _ _ _ _ I Hk) as (s1 & E1 & I' & A & L). rewrite E1. cbn [rbind]. do 2 eexists. split; [reflexivity|]. split; [assumption|]; split; [assumption || reflexivity|lia].
        + apply nth_error_None in Hk. rewrite remove_nth_none by (rewrite <- (inv_length _ _ _ I); lia).
          do 2 eexists. split; [reflexivity|]. split; [assumption|]; split; [assumption || reflexivity|lia].
      - destruct (nth_error held k) as [r|] eqn:Hk.
        + destruct (write_inv _ _ _ _ _ i v I Hk) as (E1 & I'). rewrite E1.
          destruct (Forall2_nth_l _ _ _ _ _ _ _ (I_cont _ _ _ I) Hk) as (c & Hcc & Lc & Sc). rewrite (nth_error_nth _ _ _ Hcc) in Hc.
          assert (k < length h) by (apply nth_error_Some; congruence).
          destruct (Nat.ltb_spec i (snd r - fst r)); [|lia]. cbn [rbind]. do 2 eexists. split; [reflexivity|].
          split; [apply I'; lia|]. split; [reflexivity|]. cbn [st_len]. lia.
        + apply nth_error_None in Hk. rewrite heap_write_none by (rewrite <- (inv_length _ _ _ I); lia).
          do 2 eexists. split; [reflexivity|]. split; [assumption|]; split; [assumption || reflexivity|lia].
      - do 2 eexists. split; [reflexivity|]. split; [eapply reset_inv; exact I|]. split; [reflexivity|]. cbn. lia. }
    rewrite E1. cbn [rbind]. apply (IH s1 held1 (heap_step h o)); try assumption; [lia|]. rewrite A1. lia.
Qed.
End Inv.
