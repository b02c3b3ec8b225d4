(** Slices of a store held by the nodes: a list of (range, contents). *)
From Coq Require Import Sorting.Permutation.
From Verif Require Import Base BaseProofs BitModel StoreModel StoreProofs StoreProofs2 StoreProofs3.

(** Two runs have the same outcome: both succeed with related results or both fail in the same way. *)
Definition sim {A B} (R : A -> B -> Prop) (x : res A) (y : res B) : Prop :=
  match x, y with
  | Ok a, Ok b => R a b
  | Panic, Panic | UB, UB | OutOfFuel, OutOfFuel => True
  | _, _ => False
  end.
Lemma sim_bind {A B A' B'} (Q : A -> B -> Prop) (R : A' -> B' -> Prop) x y f g :
  sim Q x y -> (forall a b, x = Ok a -> y = Ok b -> Q a b -> sim R (f a) (g b)) -> sim R (rbind x f) (rbind y g).
Proof. destruct x, y; cbn; intros H K; try exact H; try destruct H. apply K; auto. Qed.
Lemma sim_same {A A' B'} (R : A' -> B' -> Prop) (x : res A) f g :
  (forall a, x = Ok a -> sim R (f a) (g a)) -> sim R (rbind x f) (rbind x g).
Proof. intros K. apply (sim_bind eq); [destruct x; cbn; auto|]. intros a b Ea _ <-. apply K, Ea. Qed.
Lemma sim_left {A A' B'} (R : A' -> B' -> Prop) (x : res A) a f y : x = Ok a -> sim R (f a) y -> sim R (rbind x f) y.
Proof. intros ->. auto. Qed.
Lemma sim_impl {A B} (Q R : A -> B -> Prop) x y : (forall a b, x = Ok a -> y = Ok b -> Q a b -> R a b) -> sim Q x y -> sim R x y.
Proof. destruct x, y; cbn; auto. Qed.
Lemma sim_ok {A B} (R : A -> B -> Prop) x y b : sim R x y -> y = Ok b -> exists a, x = Ok a /\ R a b.
Proof. intros H ->. destruct x; cbn in H; try destruct H. eauto. Qed.
Lemma sim_ok_l {A B} (R : A -> B -> Prop) x y a : sim R x y -> x = Ok a -> exists b, y = Ok b /\ R a b.
Proof. intros H ->. destruct y; cbn in H; try destruct H. eauto. Qed.
Lemma sim_foldM {A S T} (R : S -> T -> Prop) (f : S -> A -> res S) (g : T -> A -> res T) (l : list A) :
  (forall s t a, In a l -> R s t -> sim R (f s a) (g t a)) -> forall s t, R s t -> sim R (foldM f l s) (foldM g l t).
Proof.
  induction l as [|a l IH]; intros H s t HR; cbn [foldM]; [exact HR|].
  apply (sim_bind R); [apply H; [left; reflexivity|exact HR]|]. intros s' t' _ _ HR'. apply IH; [|exact HR']. intros. apply H; [right|]; assumption.
Qed.

Section Owns.
Context {T : Type}.
Implicit Types s : store T.

Definition owns s (H : list (range * list T)) : Prop :=
  inv s (map fst H) (map snd H) /\ (st_align s = 2 /\ length (st_ends s) = length H + length (st_free s)).
(** [k] more slices of at most [B] cells fit. *)
Definition fits (B k : nat) s : Prop := (N.of_nat (st_len s + k * (B + 2)) <= U32_MAX)%N.

Lemma cont_forall (P : range -> list T -> Prop) H : Forall2 P (map fst H) (map snd H) <-> Forall (fun p => P (fst p) (snd p)) H.
Proof.
  induction H as [|[r c] H IH]; cbn; [split; constructor|]. split; intros F; inversion F; subst; constructor; try assumption; apply IH; assumption.
Qed.
Lemma owns_perm s H H' : Permutation H H' -> owns s H -> owns s H'.
Proof.
  intros P [[I1 I2 I3 I4 I5 I6 I7 I8 I9 I10] Al]. split; [|rewrite <- (Permutation_length P); exact Al].
  assert (Permutation (map fst H) (map fst H')) as Pf by (apply Permutation_map, P).
  constructor; try assumption.
  - intros r Hr. apply I8. eapply Permutation_in; [symmetry; exact Pf|exact Hr].
  - eapply Permutation_NoDup; [|exact I9]. apply Permutation_map, Pf.
  - apply cont_forall. apply cont_forall in I10. eapply Permutation_Forall; [exact P|exact I10].
Qed.
Lemma owns_get s H r c : owns s H -> In (r, c) H -> get_slice s r = Ok c.
Proof.
  intros [I _] Hin. apply In_nth_error in Hin as (k & Hk). apply (held_get _ _ _ k r c I).
  - apply (map_nth_error fst) in Hk. exact Hk.
  - apply (map_nth_error snd) in Hk. exact Hk.
Qed.
Lemma owns_len s H r c : owns s H -> In (r, c) H -> length c = snd r - fst r /\ fst r < snd r /\ snd r <= length (st_buf s).
Proof.
  intros [I _] Hin. assert (In r (map fst H)) as Hr by (apply (in_map fst) in Hin; exact Hin).
  destruct (I_held _ _ _ I r Hr) as (e & A & B & C & D). destruct (I_ends _ _ _ I _ _ A) as (_ & E & _). pose proof (I_len _ _ _ I).
  split; [|lia]. pose proof (I_cont _ _ _ I) as F. apply cont_forall in F. rewrite Forall_forall in F. apply (F _ Hin).
Qed.
Lemma owns_reset s H : owns s H -> owns (store_reset s) [].
Proof. intros [I [Al _]]. split; [exact (reset_inv _ _ _ I)|]. split; [exact Al|reflexivity]. Qed.
Lemma owns_new cap s : store_new cap 2 = Ok s -> owns s [].
Proof. intros E. split; [exact (inv_new _ _ _ E)|]. unfold store_new in E. apply rbind_ok in E as (u & _ & X). injection X as <-. split; reflexivity. Qed.

Lemma swap_remove_length A (l : list A) i x : nth_error l i = Some x -> S (length (swap_remove l i)) = length l.
Proof. intros H. rewrite (Permutation_length (swap_remove_perm A l i x H)). reflexivity. Qed.
Lemma alloc_count s len v s' r : alloc_slice s len v = Ok (s', r) -> length (st_ends s') + length (st_free s) = S (length (st_ends s) + length (st_free s')).
Proof.
  unfold alloc_slice. intros E. apply rbind_ok in E as (u & _ & E). destruct (find_free len (st_free s)) as [i|] eqn:Ef.
  - apply rbind_ok in E as (q & Eq & E). apply idx_ok in Eq. apply swap_remove_length in Eq. apply rbind_ok in E as (s2 & E2 & E). injection E as <- <-. unfold put_slice in E2. repeat (apply rbind_ok in E2 as (? & _ & E2)). injection E2 as <-. cbn [st_ends st_free]. lia.
  - apply rbind_ok in E as (u2 & _ & E). apply rbind_ok in E as (s1 & Es & E). injection E as <- <-. unfold resize in Es. apply rbind_ok in Es as (b1 & _ & Es). apply rbind_ok in Es as (b2 & _ & Es). injection Es as <-. cbn [st_ends st_free length]. lia.
Qed.
Lemma alloc_owns s H len v s' r : owns s H -> alloc_slice s len v = Ok (s', r) -> owns s' ((r, repeat v len) :: H).
Proof.
  intros [I [Al Ct]] Ea. assert (0 < st_align s) as Hal by lia. destruct (alloc_inv _ _ _ _ _ _ _ Hal I Ea) as (I' & Al' & _). apply alloc_count in Ea.
  apply (owns_perm s' (H ++ [(r, repeat v len)])); [symmetry; apply Permutation_cons_append|]. split; [rewrite !map_app; exact I'|]. split; [congruence|]. rewrite app_length. cbn [length]. lia.
Qed.
Lemma owns_alloc B k s H len v : owns s H -> fits B (S k) s -> 0 < len <= B ->
  exists s' r, alloc_slice s len v = Ok (s', r) /\ owns s' ((r, repeat v len) :: H) /\ fits B k s'.
Proof.
  intros HO Hf Hl. pose proof HO as [I [Al Ct]]. unfold fits in *. assert (0 < st_align s) as Hal by lia. destruct (alloc_total s _ _ len v ltac:(lia) I ltac:(lia)) as (s' & r & E); [rewrite Al; lia|].
  destruct (alloc_inv _ _ _ _ _ _ _ Hal I E) as (I' & Al' & Lr & Le). exists s', r. split; [exact E|]. split; [exact (alloc_owns _ _ _ _ _ _ HO E)|lia].
Qed.
Lemma owns_put s H r c vs : owns s ((r, c) :: H) -> length vs = length c ->
  exists s', put_slice s r vs = Ok s' /\ owns s' ((r, vs) :: H) /\ st_len s' = st_len s /\ st_free s' = st_free s /\ st_ends s' = st_ends s.
Proof.
  intros HO Hl. destruct (owns_len _ _ r c HO (or_introl eq_refl)) as (L & L1 & L2). destruct HO as [I [Al Ct]].
  destruct (put_slice_ok s r vs) as (s' & E & _ & N & _ & F & En & _); [lia|lia|lia|].
  destruct (put_slice_inv s _ _ 0 r vs I eq_refl ltac:(lia)) as (s2 & E2 & I2 & A2). rewrite E in E2. injection E2 as <-.
  exists s'. split; [exact E|]. split; [|auto]. split; [exact I2|]. split; [congruence|]. rewrite F, En. exact Ct.
Qed.
Lemma owns_free dbg s H r c : owns s ((r, c) :: H) ->
  exists s', free_slice dbg s r = Ok s' /\ owns s' H /\ st_len s' = st_len s /\ length (st_free s') = S (length (st_free s)) /\ st_ends s' = st_ends s.
Proof.
  intros [I [Al Ct]]. destruct (free_inv dbg s _ _ 0 r I eq_refl) as (s' & E & I' & A' & L'). exists s'. split; [exact E|].
  assert (length (st_free s') = S (length (st_free s)) /\ st_ends s' = st_ends s) as [F En]. { unfold free_slice in E. apply rbind_ok in E as (u & _ & E). apply rbind_ok in E as (e & _ & E). injection E as <-. cbn. rewrite app_length. cbn. split; [lia|reflexivity]. }
  split; [split; [exact I'|]; split; [congruence|rewrite F, En; cbn [length] in Ct; lia]|auto].
Qed.
Lemma owns_shrink s H r c n : owns s ((r, c) :: H) -> 0 < n <= length c -> owns s (((fst r, fst r + n), firstn n c) :: H).
Proof.
  intros HO Hn. destruct (owns_len _ _ r c HO (or_introl eq_refl)) as (L & L1 & L2). destruct HO as [[I1 I2 I3 I4 I5 I6 I7 I8 I9 I10] Al]. split; [|exact Al].
  constructor; try assumption.
  - intros r' [<-|Hr']; cbn [fst snd].
    + destruct (I8 r (or_introl eq_refl)) as (e & A & B & C & D). exists e. repeat split; try assumption; lia.
    + apply I8. right. exact Hr'.
  - cbn [map fst snd] in *. inversion I10 as [|? ? ? ? [F1 F2] F3]; subst. constructor; [|exact F3]. cbn [fst snd]. rewrite firstn_length. split; [lia|].
    intros i Hi. rewrite firstn_length in Hi. rewrite F2 by lia. rewrite nth_error_firstn. destruct (Nat.ltb_spec i n); [reflexivity|lia].
Qed.
Lemma owns_two dbg s H r1 c1 r2 c2 : owns s H -> In (r1, c1) H -> In (r2, c2) H -> r1 <> r2 -> get_two_slices_mut dbg s r1 r2 = Ok (r1, r2).
Proof.
  intros HO H1 H2 Hne. destruct (owns_len _ _ _ _ HO H1) as (_ & A1 & A2). destruct (owns_len _ _ _ _ HO H2) as (_ & B1 & B2). rewrite two_slices_ok by assumption.
  destruct HO as [I _]. pose proof (held_disjoint s _ _ r1 r2 I (in_map fst _ _ H1) (in_map fst _ _ H2) Hne) as D.
  destruct (Nat.leb_spec (snd r1) (length (st_buf s))); [|lia]. destruct (Nat.leb_spec (snd r2) (length (st_buf s))); [|lia].
  destruct (Nat.leb_spec (snd r1) (fst r2)), (Nat.leb_spec (snd r2) (fst r1)); try reflexivity. lia.
Qed.
(** A slice newly put in front is different from the others. *)
Lemma owns_new_ne s H r c r' c' : owns s ((r, c) :: H) -> In (r', c') H -> r' <> r.
Proof. intros [I _] Hin ->. pose proof (I_hnd _ _ _ I) as ND. cbn in ND. inversion ND as [|? ? N1 _]; subst. apply N1, in_map. apply (in_map fst) in Hin. exact Hin. Qed.
Lemma fits_len B k s s' : st_len s' = st_len s -> fits B k s -> fits B k s'. Proof. unfold fits. intros ->. auto. Qed.
Lemma fits_less B k k' s : k' <= k -> fits B k s -> fits B k' s. Proof. unfold fits. intros. nia. Qed.

(** All slices ever made have [n] cells and there are at most [peak] of them. *)
Record uniform (n peak : nat) s (H : list (range * list T)) : Prop := {
  U_owns : owns s H;
  U_size : forall a e, In (a, e) (st_ends s) -> e - a = n;
  U_count : length (st_ends s) = length H + length (st_free s);
  U_peak : length (st_ends s) <= peak;
  U_len : st_len s <= length (st_ends s) * (n + 2)
}.
Lemma uniform_perm n peak s H H' : Permutation H H' -> uniform n peak s H -> uniform n peak s H'.
Proof. intros P [A B C D E]. constructor; try assumption; [eapply owns_perm; eassumption|]. rewrite <- (Permutation_length P). exact C. Qed.
Lemma uniform_reset n peak s H : owns s H -> uniform n peak (store_reset s) [].
Proof. intros HO. constructor; cbn; try lia; try tauto. exact (owns_reset _ _ HO). Qed.
Lemma find_free_none len free : find_free len free = None -> forall r, In r free -> snd r - fst r < len.
Proof.
  induction free as [|f t IH]; cbn [find_free]; [intros _ r []|]. destruct (Nat.leb_spec len (snd f - fst f)); [discriminate|].
  destruct (find_free len t); [discriminate|]. intros _ r [<-|Hr]; [assumption|apply IH; auto].
Qed.
Lemma uniform_alloc n peak s H v : uniform n peak s H -> 0 < n -> length H < peak -> (N.of_nat (peak * (n + 2)) <= U32_MAX)%N ->
  exists s' r, alloc_slice s n v = Ok (s', r) /\ uniform n peak s' ((r, repeat v n) :: H).
Proof.
  intros [A B C D E] Hn Hp HS. assert (fits n 1 s \/ st_free s <> []) as HF.
  { destruct (st_free s) eqn:Es; [left|right; discriminate]. cbn in C. unfold fits. nia. }
  pose proof A as [I [Al Ct]]. assert (0 < st_align s) as Hal by lia. unfold alloc_slice. destruct (Nat.ltb_spec 0 n); [|lia]. cbn [rassert rbind].
  assert (forall s' r, alloc_slice s n v = Ok (s', r) -> owns s' ((r, repeat v n) :: H)) as HO.
  { intros s' r Ea. exact (alloc_owns _ _ _ _ _ _ A Ea). }
  unfold alloc_slice in HO. destruct (Nat.ltb_spec 0 n); [|lia]. cbn [rassert rbind] in HO.
  destruct (find_free n (st_free s)) as [i|] eqn:Ef.
  - destruct (find_free_some _ _ _ Ef) as (f & Hf & Hlen). unfold idx in *. rewrite Hf in *. cbn [rbind] in *.
    pose proof (I_free _ _ _ I f (nth_error_In _ _ Hf)) as Hfe. destruct f as [a e]. cbn [fst snd] in *. destruct (I_ends _ _ _ I _ _ Hfe) as (Hae & Hel & _). pose proof (I_len _ _ _ I).
    set (s1 := mk_store _ _ _ _ _) in *. destruct (put_slice_ok s1 (a, e) (repeat v (e - a))) as (s2 & E2 & L2 & N2 & Al2 & F2 & En2 & S2 & Fr2);
      cbn [fst snd]; try (subst s1; cbn; rewrite ?repeat_length; lia). rewrite E2 in *. cbn [rbind] in *.
    exists s2, (a, a + n). split; [reflexivity|]. subst s1. cbn [st_len st_free st_ends] in *. constructor.
    + apply HO. reflexivity.
    + rewrite En2. exact B.
    + rewrite En2, F2. cbn [length]. pose proof (swap_remove_length _ _ _ _ Hf). lia.
    + rewrite En2. exact D.
    + rewrite N2, En2. exact E.
  - assert (st_free s = []) as Hnil. { destruct (st_free s) as [|[a e] t] eqn:Es; [reflexivity|]. exfalso. pose proof (find_free_none _ _ Ef (a, e) (or_introl eq_refl)) as Hlt. cbn in Hlt. rewrite (B a e) in Hlt; [lia|]. apply (I_free _ _ _ I). rewrite Es. left. reflexivity. }
    destruct HF as [HF|HF]; [|contradiction]. rewrite Hnil in C. cbn [length] in C. unfold fits in HF.
    destruct (alloc_total s _ _ n v ltac:(lia) I Hn) as (s' & r & Ea); [rewrite Al; lia|].
    pose proof (alloc_inv _ _ _ _ _ _ _ Hal I Ea) as (_ & _ & _ & Hle).
    unfold alloc_slice in Ea. destruct (Nat.ltb_spec 0 n); [|lia]. cbn [rassert rbind] in Ea. rewrite Ef in Ea. rewrite Ea.
    exists s', r. split; [reflexivity|]. pose proof (HO _ _ Ea) as HO'. apply rbind_ok in Ea as (u & Ha & Ea). apply rbind_ok in Ea as (s1 & Es & Ea). injection Ea as <- <-. clear Ha u HO. cbn [st_len] in Hle.
    assert (st_free s1 = st_free s /\ st_ends s1 = st_ends s) as [Hf He].
    { unfold resize in Es. apply rbind_ok in Es as (b1 & _ & Es). apply rbind_ok in Es as (b2 & _ & Es). injection Es as <-. split; reflexivity. }
    constructor; cbn [st_ends st_free st_len].
    + exact HO'.
    + rewrite He. intros a e [Heq|Hin]; [injection Heq as <- <-; lia|exact (B a e Hin)].
    + rewrite Hf, He, Hnil. cbn [length]. lia.
    + rewrite He. cbn [length]. lia.
    + rewrite He. cbn [length]. lia.
Qed.
Lemma uniform_free n peak dbg s H r c : uniform n peak s ((r, c) :: H) -> exists s', free_slice dbg s r = Ok s' /\ uniform n peak s' H.
Proof.
  intros [A B C D E]. destruct (owns_free dbg _ _ _ _ A) as (s' & Es & O' & L & F & En). exists s'. split; [exact Es|]. constructor; try assumption; rewrite ?En, ?L, ?F; try assumption. cbn [length] in C. lia.
Qed.
End Owns.
