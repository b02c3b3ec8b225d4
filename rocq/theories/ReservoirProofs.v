From Coq Require Import Permutation Factorial.
From Verif Require Import Base BaseProofs Num DataModel Config DatasetModel DatasetSpec DatasetProofs SampleSpec SampleProofs ReservoirModel ReservoirSpec.

Lemma exactly_map A B (f : A -> B) c (P : A -> Prop) : (forall x y, P x -> P y -> f x = f y -> x = y) -> exactly c P -> exactly c (fun y => exists x, P x /\ y = f x).
Proof.
  intros Hf (l & A1 & A2 & A3). exists (map f l). split; [|split; [|rewrite map_length; exact A3]].
  - assert (forall x, In x l -> P x) as H by (intros x; apply A2). clear A2 A3. induction A1 as [|x l Hx A1 IH]; cbn; constructor; [|apply IH; intros y Hy; apply H; right; exact Hy].
    rewrite in_map_iff. intros (y & E & Hy). apply Hx. replace x with y; [exact Hy|]. apply Hf; [apply H; right; exact Hy|apply H; left; reflexivity|exact E].
  - intros y. rewrite in_map_iff. split; [intros (x & <- & Hx); exists x; split; [apply A2, Hx|reflexivity]|intros (x & Hx & ->); exists x; split; [reflexivity|apply A2, Hx]].
Qed.
Lemma exactly_union A B (Os : list A) c (Q : A -> B -> Prop) (P : B -> Prop) :
  NoDup Os -> (forall a, In a Os -> exactly c (Q a)) -> (forall a a' x, Q a x -> Q a' x -> a = a') -> (forall x, P x <-> exists a, In a Os /\ Q a x) -> exactly (length Os * c) P.
Proof.
  intros HN Hc HD HP. apply (exactly_ext _ _ (fun x => exists a, In a Os /\ Q a x)); [intros x; symmetry; apply HP|]. clear P HP.
  induction HN as [|a Os Ha HN IH]; [apply exactly_zero; intros x (a & [] & _)|]. destruct IH as (l & A1 & A2 & A3); [intros b Hb; apply Hc; right; exact Hb|].
  destruct (Hc a) as (l' & B1 & B2 & B3); [left; reflexivity|]. exists (l' ++ l). split; [|split].
  - apply nodup_app; [exact B1|exact A1|]. intros x Hx Hx'. apply B2 in Hx. apply A2 in Hx' as (b & Hb & Hq). rewrite (HD _ _ _ Hx Hq) in Ha. exact (Ha Hb).
  - intros x. rewrite in_app_iff, A2, B2. split; [intros [H|(b & Hb & Hq)]; [exists a; split; [left; reflexivity|exact H]|exists b; split; [right; exact Hb|exact Hq]]|].
    intros (b & [<-|Hb] & Hq); [left; exact Hq|right; exists b; auto].
  - rewrite app_length, A3, B3. cbn. lia.
Qed.

(** The reservoir without the generator. *)
Fixpoint rsteps (k i : nat) (ds b : list nat) : list nat :=
  match ds with [] => b | r :: ds' => rsteps k (S i) ds' (if r <? k then upd b r i else b) end.
Lemma rsteps_snoc k ds r : forall i b, rsteps k i (ds ++ [r]) b = let b' := rsteps k i ds b in if r <? k then upd b' r (i + length ds) else b'.
Proof. induction ds as [|x ds IH]; intros i b; cbn [app rsteps length]; [rewrite Nat.add_0_r; reflexivity|]. rewrite IH. cbn zeta. rewrite <- plus_n_Sm. reflexivity. Qed.
Lemma rdraws_snoc k m ds r : reservoir_draws k (S m) (ds ++ [r]) <-> reservoir_draws k m ds /\ r <= k + m.
Proof.
  unfold reservoir_draws. rewrite app_length. cbn [length]. split.
  - intros [HL H]. assert (length ds = m) as HL' by lia. split; [split; [exact HL'|]|].
    + intros i o E. apply H. rewrite nth_error_app1; [exact E|]. apply nth_error_Some. congruence.
    + specialize (H m r). rewrite nth_error_app2, HL', Nat.sub_diag in H by lia. specialize (H eq_refl). lia.
  - intros [[HL H] Hr]. split; [lia|]. intros i o E. destruct (Nat.lt_ge_cases i (length ds)) as [Hi|Hi]; [rewrite nth_error_app1 in E by exact Hi; apply H, E|].
    rewrite nth_error_app2 in E by exact Hi. destruct (i - length ds) as [|[|j]] eqn:Ej; [|discriminate E..]. cbn in E. injection E as <-. lia.
Qed.
Lemma rsnoc_inv k m ds : reservoir_draws k (S m) ds -> exists ds' r, ds = ds' ++ [r].
Proof. intros [HL _]. destruct (exists_last (l := ds)) as (ds' & r & ->); [intros ->; discriminate HL|]. eauto. Qed.
Lemma upd_perm A (l : list A) : forall r x y, nth_error l r = Some x -> exists rest, Permutation l (x :: rest) /\ Permutation (upd l r y) (y :: rest).
Proof.
  induction l as [|a l IH]; intros [|r] x y E; try discriminate; cbn in E; [injection E as ->; exists l; split; reflexivity|].
  destruct (IH r x y E) as (rest & H1 & H2). exists (a :: rest). cbn [upd]. split; [rewrite H1; apply perm_swap|rewrite H2; apply perm_swap].
Qed.
Lemma rsteps_inv k ds : forall m, reservoir_draws k m ds -> let b := rsteps k k ds (seq 0 k) in length b = k /\ NoDup b /\ forall x, In x b -> x < k + m.
Proof.
  induction ds as [|r ds IH] using rev_ind; intros m Hd b; subst b.
  - destruct Hd as [<- _]. cbn [rsteps length]. split; [apply seq_length|]. split; [apply seq_NoDup|]. intros x Hx. apply in_seq in Hx. lia.
  - destruct m as [|m]; [destruct Hd as [HL _]; rewrite app_length in HL; cbn in HL; lia|]. apply rdraws_snoc in Hd as [Hd Hr]. specialize (IH m Hd). cbn zeta in IH. destruct IH as (H1 & H2 & H3). pose proof (proj1 Hd) as HL.
    rewrite rsteps_snoc, HL. cbn zeta. destruct (Nat.ltb_spec r k) as [Hk|Hk]; [|split; [exact H1|]; split; [exact H2|]; intros x Hx; specialize (H3 x Hx); lia].
    rewrite upd_length. split; [exact H1|]. destruct (nth_error (rsteps k k ds (seq 0 k)) r) as [x|] eqn:Ex; [|apply nth_error_None in Ex; lia]. destruct (upd_perm _ _ _ _ (k + m) Ex) as (rest & P1 & P2).
    pose proof (Permutation_NoDup P1 H2) as HN. inversion HN as [|? ? Hn HN']; subst. split.
    + eapply Permutation_NoDup; [symmetry; exact P2|]. constructor; [|exact HN']. intros Hi. assert (k + length ds < k + length ds) by (apply H3; eapply Permutation_in; [symmetry; exact P1|right; exact Hi]). lia.
    + intros y Hy. eapply Permutation_in in Hy; [|exact P2]. destruct Hy as [<-|Hy]; [lia|]. assert (y < k + length ds) by (apply H3; eapply Permutation_in; [symmetry; exact P1|right; exact Hy]). lia.
Qed.
(** The place of an element. *)
Fixpoint place (x : nat) (l : list nat) : nat := match l with [] => 0 | y :: l' => if y =? x then 0 else S (place x l') end.
Lemma place_in x l : In x l -> nth_error l (place x l) = Some x.
Proof. induction l as [|y l IH]; cbn; [intros []|]. intros [->|H]; [rewrite Nat.eqb_refl; reflexivity|]. destruct (Nat.eqb_spec y x) as [->|_]; [reflexivity|apply IH, H]. Qed.
Lemma place_nth l r x : NoDup l -> nth_error l r = Some x -> r = place x l.
Proof.
  intros HN. revert r. induction HN as [|y l Hy HN IH]; intros [|r] E; try discriminate; cbn in *; [injection E as ->; rewrite Nat.eqb_refl; reflexivity|].
  destruct (Nat.eqb_spec y x) as [->|_]; [exfalso; apply Hy; eapply nth_error_In, E|f_equal; apply IH, E].
Qed.

Lemma rcount k m : forall T, NoDup T -> length T = k -> (forall x, In x T -> x < k + m) -> exactly (fact m) (fun ds => reservoir_draws k m ds /\ Permutation (rsteps k k ds (seq 0 k)) T).
Proof.
  induction m as [|m IH]; intros T HN HL HT.
  - apply (exactly_one _ _ []). intros ds. split; [intros [[H _] _]; destruct ds; [reflexivity|discriminate]|]. intros ->. split; [split; [reflexivity|intros [|i] o E; discriminate]|]. cbn [rsteps].
    symmetry. apply NoDup_Permutation_bis; [exact HN|rewrite seq_length; lia|]. intros x Hx. apply in_seq. specialize (HT x Hx). lia.
  - set (N := k + m). destruct (in_dec Nat.eq_dec N T) as [Hin|Hout].
    + destruct (in_split _ _ Hin) as (T1 & T2 & ET). set (T' := T1 ++ T2). assert (Permutation T (N :: T')) as HPT by (rewrite ET; symmetry; apply Permutation_middle).
      pose proof (Permutation_NoDup HPT HN) as HN2. inversion HN2 as [|? ? HNT HN']; subst x l. pose proof (Permutation_length HPT) as HL'. cbn [length] in HL'.
      assert (forall x, In x T' -> x < N) as HT'. { intros x Hx. assert (x < k + S m) by (apply HT; eapply Permutation_in; [symmetry; exact HPT|right; exact Hx]). assert (x <> N) by (intros ->; exact (HNT Hx)). unfold N in *. lia. }
      set (Os := filter (fun x => if in_dec Nat.eq_dec x T' then false else true) (seq 0 N)).
      assert (NoDup Os) as HO by apply NoDup_filter, seq_NoDup. assert (forall x, In x Os <-> x < N /\ ~ In x T') as HOs by (intros x; unfold Os; rewrite filter_In, in_seq; destruct (in_dec Nat.eq_dec x T'); intuition (try lia; try discriminate)).
      assert (length Os = S m) as HOl.
      { assert (Permutation (seq 0 N) (T' ++ Os)) as HP.
        { apply NoDup_Permutation; [apply seq_NoDup|apply nodup_app; [exact HN'|exact HO|intros x Hx Hx'; apply HOs in Hx'; tauto]|]. intros x. rewrite in_seq, in_app_iff, HOs. split; [intros Hx; destruct (in_dec Nat.eq_dec x T'); [left; assumption|right; split; [lia|assumption]]|intros [Hx|[Hx _]]; [specialize (HT' x Hx); lia|lia]]. }
        apply Permutation_length in HP. rewrite app_length, seq_length in HP. unfold N in HP. lia. }
      replace (fact (S m)) with (length Os * fact m) by (rewrite HOl; reflexivity).
      apply (exactly_union _ _ Os (fact m) (fun x ds' => exists ds, (reservoir_draws k m ds /\ Permutation (rsteps k k ds (seq 0 k)) (x :: T')) /\ ds' = ds ++ [place x (rsteps k k ds (seq 0 k))])); [exact HO| | |].
      * intros x Hx. apply HOs in Hx as [Hx Hn]. apply (exactly_map _ _ (fun ds => ds ++ [place x (rsteps k k ds (seq 0 k))])); [intros a b _ _ E; apply app_inj_tail in E; apply E|].
        apply IH; [constructor; assumption|cbn [length]; lia|]. intros y [<-|Hy]; [exact Hx|apply HT', Hy].
      * intros a a' x (ds & [Hd Hp] & ->) (ds2 & [Hd2 Hp2] & E). apply app_inj_tail in E as [<- Hpl]. assert (nth_error (rsteps k k ds (seq 0 k)) (place a (rsteps k k ds (seq 0 k))) = Some a) as P1 by (apply place_in; eapply Permutation_in; [symmetry; exact Hp|left; reflexivity]).
        assert (nth_error (rsteps k k ds (seq 0 k)) (place a' (rsteps k k ds (seq 0 k))) = Some a') as P2 by (apply place_in; eapply Permutation_in; [symmetry; exact Hp2|left; reflexivity]). congruence.
      * intros ds'. split.
        -- intros [Hd Hp]. destruct (rsnoc_inv _ _ _ Hd) as (ds & r & ->). apply rdraws_snoc in Hd as [Hd Hr]. pose proof (rsteps_inv k ds m Hd) as I. cbn zeta in I. destruct I as (I1 & I2 & I3). rewrite rsteps_snoc, (proj1 Hd) in Hp. cbn zeta in Hp. fold N in Hp, I3.
           destruct (Nat.ltb_spec r k) as [Hk|Hk]; [|exfalso; assert (N < N) by (apply I3; eapply Permutation_in; [symmetry; exact Hp|exact Hin]); lia].
           destruct (nth_error (rsteps k k ds (seq 0 k)) r) as [x|] eqn:Ex; [|apply nth_error_None in Ex; lia]. destruct (upd_perm _ _ _ _ N Ex) as (rest & P1 & P2).
           assert (Permutation rest T') as PR by (apply Permutation_cons_inv with N; rewrite <- P2, Hp; exact HPT). rewrite PR in P1. pose proof (Permutation_NoDup P1 I2) as HN3. apply NoDup_cons_iff in HN3 as [Hxn _].
           exists x. split; [apply HOs; split; [apply I3; eapply nth_error_In, Ex|exact Hxn]|]. exists ds. split; [split; [exact Hd|exact P1]|]. rewrite (place_nth _ _ _ I2 Ex) at 1. reflexivity.
        -- intros (x & Hx & ds & [Hd Hp] & ->). apply HOs in Hx as [Hx Hn]. pose proof (rsteps_inv k ds m Hd) as I. cbn zeta in I. destruct I as (I1 & I2 & I3).
           assert (nth_error (rsteps k k ds (seq 0 k)) (place x (rsteps k k ds (seq 0 k))) = Some x) as Ex by (apply place_in; eapply Permutation_in; [symmetry; exact Hp|left; reflexivity]).
           assert (place x (rsteps k k ds (seq 0 k)) < k) as Hk by (eapply Nat.lt_le_trans; [apply nth_error_Some; rewrite Ex; discriminate|rewrite I1; apply le_n]).
           split; [apply rdraws_snoc; split; [exact Hd|lia]|]. rewrite rsteps_snoc, (proj1 Hd). cbn zeta. destruct (Nat.ltb_spec (place x (rsteps k k ds (seq 0 k))) k); [|lia]. fold N.
           destruct (upd_perm _ _ _ _ N Ex) as (rest & P1 & P2). rewrite P2, HPT. constructor. apply Permutation_cons_inv with x. rewrite <- P1. exact Hp.
    + assert (forall x, In x T -> x < k + m) as HT2 by (intros x Hx; specialize (HT x Hx); assert (x <> k + m) by (intros ->; exact (Hout Hx)); lia).
      replace (fact (S m)) with (length (seq k (S m)) * fact m) by (rewrite seq_length; reflexivity).
      apply (exactly_pairs nat (list nat) (list nat) (fun r ds => ds ++ [r])); [intros a b a' b' E; apply app_inj_tail in E; tauto|apply seq_NoDup| |].
      * intros r Hr. apply in_seq in Hr. eapply exactly_ext; [|apply (IH T HN HL HT2)]. intros ds. rewrite rdraws_snoc, rsteps_snoc. cbn zeta. destruct (Nat.ltb_spec r k); [lia|]. intuition lia.
      * intros ds' [Hd Hp]. destruct (rsnoc_inv _ _ _ Hd) as (ds & r & ->). exists r, ds. split; [reflexivity|]. apply rdraws_snoc in Hd as [Hd Hr]. apply in_seq. rewrite rsteps_snoc in Hp. cbn zeta in Hp. destruct (Nat.ltb_spec r k) as [Hk|Hk]; [|lia]. exfalso. apply Hout.
        rewrite (proj1 Hd) in Hp. eapply Permutation_in; [exact Hp|]. pose proof (rsteps_inv k ds m Hd) as I. cbn zeta in I. destruct I as (I1 & _). apply (nth_error_In _ r). rewrite nth_error_upd, Nat.eqb_refl, I1. destruct (Nat.ltb_spec r k); [reflexivity|lia].
Qed.
Lemma rdraws_count k m : exactly (falling (k + m) m) (reservoir_draws k m).
Proof.
  induction m as [|m IH].
  - apply (exactly_one _ _ []). intros ds. split; [intros [H _]; destruct ds; [reflexivity|discriminate]|]. intros ->. split; [reflexivity|intros [|i] o E; discriminate].
  - cbn [falling]. replace (k + S m - 1) with (k + m) by lia. replace ((k + S m) * falling (k + m) m) with (length (seq 0 (k + S m)) * falling (k + m) m) by (rewrite seq_length; reflexivity).
    apply (exactly_pairs nat (list nat) (list nat) (fun r ds => ds ++ [r])); [intros a b a' b' E; apply app_inj_tail in E; tauto|apply seq_NoDup| |].
    + intros r Hr. apply in_seq in Hr. eapply exactly_ext; [|exact IH]. intros ds. rewrite rdraws_snoc. intuition lia.
    + intros ds' Hd. destruct (rsnoc_inv _ _ _ Hd) as (ds & r & ->). exists r, ds. split; [reflexivity|]. apply rdraws_snoc in Hd as [_ Hr]. apply in_seq. lia.
Qed.

(** The program's loop. *)
Lemma rdraws_cons i ds r : (forall j o, nth_error (r :: ds) j = Some o -> o < i + j + 1) -> r < i + 1 /\ forall j o, nth_error ds j = Some o -> o < S i + j + 1.
Proof. intros H. split; [specialize (H 0 r eq_refl); lia|]. intros j o E. specialize (H (S j) o E). lia. Qed.
Lemma rloop k rest ds : forall i b, k <= i -> length b = k -> (forall j o, nth_error ds j = Some o -> o < i + j + 1) -> reservoir_loop k (seq i (length ds)) (stream ds rest) b = Ok (rsteps k i ds b, rest).
Proof.
  induction ds as [|r ds IH]; intros i b Hi Hb Hd; [reflexivity|]. apply rdraws_cons in Hd as [Hr Hd]. cbn [length seq reservoir_loop rsteps]. destruct (Nat.ltb_spec i k); [lia|].
  unfold gen_range. destruct (Nat.ltb_spec 0 (i + 1)); [|lia]. cbn [stream]. rewrite Nat.sub_0_r, Nat.mod_small by exact Hr. cbn [rbind Nat.add].
  destruct (Nat.ltb_spec r k) as [Hk|Hk].
  - assert (set_idx b r i = Ok (upd b r i)) as -> by (apply set_idx_ok; split; [lia|reflexivity]). cbn [rbind]. change (fun k0 => stream ds rest k0) with (stream ds rest). apply IH; [lia|rewrite upd_length; exact Hb|exact Hd].
  - cbn [rbind]. change (fun k0 => stream ds rest k0) with (stream ds rest). apply IH; [lia|exact Hb|exact Hd].
Qed.
Lemma rloop_app k is1 is2 g b : reservoir_loop k (is1 ++ is2) g b = let* (b', g') := reservoir_loop k is1 g b in reservoir_loop k is2 g' b'.
Proof.
  revert g b. induction is1 as [|i is1 IH]; intros g b; [reflexivity|]. cbn [app reservoir_loop]. destruct (i <? k).
  - destruct (set_idx b i i); cbn [rbind]; try reflexivity. apply IH.
  - destruct (gen_range g 0 (i + 1)) as [[r g']| | |]; cbn [rbind]; try reflexivity. destruct (if r <? k then set_idx b r i else Ok b); cbn [rbind]; try reflexivity. apply IH.
Qed.
Lemma rfill k g : forall m i b, length b = k -> i + m <= k -> firstn i b = seq 0 i -> exists b', reservoir_loop k (seq i m) g b = Ok (b', g) /\ length b' = k /\ firstn (i + m) b' = seq 0 (i + m).
Proof.
  induction m as [|m IH]; intros i b Hb Hi Hf; [rewrite Nat.add_0_r; exists b; auto|]. cbn [seq reservoir_loop]. destruct (Nat.ltb_spec i k); [|lia].
  assert (set_idx b i i = Ok (upd b i i)) as -> by (apply set_idx_ok; split; [lia|reflexivity]). cbn [rbind]. destruct (IH (S i) (upd b i i)) as (b' & E & L & F); [rewrite upd_length; exact Hb|lia| |replace (S i + m) with (i + S m) in F by lia; exists b'; auto].
  apply nth_error_ext. intros j. destruct (Nat.lt_ge_cases j (S i)) as [Hj|Hj].
  - rewrite nth_error_firstn, nth_error_upd. replace (j <? S i) with true by (symmetry; apply Nat.ltb_lt; exact Hj). replace (nth_error (seq 0 (S i)) j) with (Some j) by (symmetry; rewrite (nth_error_nth' _ 0) by (rewrite seq_length; exact Hj); rewrite seq_nth by exact Hj; reflexivity).
    destruct (Nat.eqb_spec i j) as [->|Hne]; [destruct (Nat.ltb_spec j (length b)); [reflexivity|lia]|].
    assert (nth_error (firstn i b) j = Some j) as X by (rewrite Hf, (nth_error_nth' _ 0) by (rewrite seq_length; lia); rewrite seq_nth by lia; reflexivity). rewrite nth_error_firstn in X. destruct (j <? i) eqn:Ej; [exact X|discriminate X].
  - transitivity (@None nat); [apply nth_error_None; rewrite firstn_length; lia|symmetry; apply nth_error_None; rewrite seq_length; exact Hj].
Qed.
Lemma reservoir_stream dbg ds rest n buf : reservoir_draws (length buf) (n - length buf) ds -> length buf <= n -> (dbg = true -> length buf < n) ->
  reservoir_sample dbg (stream ds rest) n buf = Ok (sort_unstable (rsteps (length buf) (length buf) ds (seq 0 (length buf))), rest).
Proof.
  intros Hd Hn Hdbg. unfold reservoir_sample. set (k := length buf) in *. assert ((if dbg then rassert (k <? n) else Ok tt) = Ok tt) as ->.
  { destruct dbg; [|reflexivity]. specialize (Hdbg eq_refl). unfold rassert. destruct (Nat.ltb_spec k n); [reflexivity|lia]. }
  cbn [rbind]. replace n with (k + (n - k)) at 1 by lia. rewrite seq_app, rloop_app. cbn [Nat.add]. destruct (rfill k (stream ds rest) k 0 buf eq_refl (le_n k) eq_refl) as (b & E & L & F). rewrite E. cbn [rbind].
  cbn [Nat.add] in F. rewrite firstn_all2 in F by lia. subst b. destruct Hd as [HL Hd]. rewrite <- HL. rewrite rloop; [reflexivity|lia|exact L|exact Hd].
Qed.

(** Whatever the generator, some draws in range. *)
Lemma rloop_any k m : forall i g b, k <= i -> length b = k -> exists ds g', length ds = m /\ (forall j o, nth_error ds j = Some o -> o < i + j + 1) /\ reservoir_loop k (seq i m) g b = Ok (rsteps k i ds b, g').
Proof.
  induction m as [|m IH]; intros i g b Hi Hb; [exists [], g; split; [reflexivity|]; split; [intros [|j] o E; discriminate|reflexivity]|]. cbn [seq reservoir_loop]. destruct (Nat.ltb_spec i k); [lia|]. unfold gen_range. destruct (Nat.ltb_spec 0 (i + 1)); [|lia]. cbn [rbind Nat.add]. rewrite Nat.sub_0_r.
  set (r := g 0 mod (i + 1)). assert (r < i + 1) as Hr by (apply Nat.mod_upper_bound; lia).
  assert ((if r <? k then set_idx b r i else Ok b) = Ok (if r <? k then upd b r i else b)) as ->.
  { destruct (Nat.ltb_spec r k); [|reflexivity]. apply set_idx_ok. split; [lia|reflexivity]. }
  cbn [rbind]. destruct (IH (S i) (fun k0 => g (S k0)) (if r <? k then upd b r i else b)) as (ds & g' & H1 & H2 & H3); [lia|destruct (r <? k); rewrite ?upd_length; exact Hb|].
  exists (r :: ds), g'. split; [cbn; lia|]. split; [|exact H3]. intros [|j] o E; cbn in E; [injection E as <-; lia|]. specialize (H2 j o E). lia.
Qed.
Lemma reservoir_any dbg g n buf : length buf <= n -> (dbg = true -> length buf < n) ->
  exists ds g', reservoir_draws (length buf) (n - length buf) ds /\ reservoir_sample dbg g n buf = Ok (sort_unstable (rsteps (length buf) (length buf) ds (seq 0 (length buf))), g').
Proof.
  intros Hn Hdbg. unfold reservoir_sample. set (k := length buf) in *. assert ((if dbg then rassert (k <? n) else Ok tt) = Ok tt) as ->.
  { destruct dbg; [|reflexivity]. specialize (Hdbg eq_refl). unfold rassert. destruct (Nat.ltb_spec k n); [reflexivity|lia]. }
  cbn [rbind]. assert (seq 0 n = seq 0 k ++ seq k (n - k)) as -> by (replace n with (k + (n - k)) at 1 by lia; apply seq_app). rewrite rloop_app. destruct (rfill k g k 0 buf eq_refl (le_n k) eq_refl) as (b & E & L & F). rewrite E. cbn [rbind].
  cbn [Nat.add] in F. rewrite firstn_all2 in F by lia. subst b. destruct (rloop_any k (n - k) k g (seq 0 k) (le_n k) L) as (ds & g' & H1 & H2 & H3). exists ds, g'. split; [split; [exact H1|exact H2]|]. rewrite H3. reflexivity.
Qed.
Lemma insert_swap x y l : insert_sorted x (insert_sorted y l) = insert_sorted y (insert_sorted x l).
Proof.
  induction l as [|z l IH]; cbn [insert_sorted].
  - destruct (Nat.leb_spec x y), (Nat.leb_spec y x); try reflexivity; [replace y with x by lia; reflexivity|lia].
  - destruct (Nat.leb_spec y z) as [Hy|Hy], (Nat.leb_spec x z) as [Hx|Hx]; cbn [insert_sorted].
    + destruct (Nat.leb_spec x y), (Nat.leb_spec y x); try lia.
      * replace y with x by lia. reflexivity.
      * destruct (Nat.leb_spec y z); [reflexivity|lia].
      * destruct (Nat.leb_spec x z); [reflexivity|lia].
    + destruct (Nat.leb_spec x y); [lia|]. cbn [insert_sorted]. destruct (Nat.leb_spec x z); [lia|]. destruct (Nat.leb_spec y z); [reflexivity|lia].
    + destruct (Nat.leb_spec y x); [lia|]. cbn [insert_sorted]. destruct (Nat.leb_spec x z); [|lia]. destruct (Nat.leb_spec y z); [lia|reflexivity].
    + destruct (Nat.leb_spec x z); [lia|]. destruct (Nat.leb_spec y z); [lia|]. rewrite IH. reflexivity.
Qed.
Lemma sort_permutation l l' : Permutation l l' -> sort_unstable l = sort_unstable l'.
Proof.
  induction 1 as [|x l l' _ IH|x y l|l l2 l' _ IH1 _ IH2]; [reflexivity| | |congruence].
  - cbn [sort_unstable fold_right]. unfold sort_unstable in IH. rewrite IH. reflexivity.
  - cbn [sort_unstable fold_right]. apply insert_swap.
Qed.

(** Sampling with replacement. *)
Lemma replacement_stream n ds rest buf : independent_draws n (length buf) ds -> sample_replacement (stream ds rest) n buf = Ok (sort_unstable ds, rest).
Proof.
  intros [HL H]. unfold sample_replacement. rewrite <- HL. clear HL. assert (replacement_loop n (length ds) (stream ds rest) = Ok (ds, rest)) as ->; [|reflexivity].
  induction ds as [|o ds IH]; [reflexivity|]. cbn [length replacement_loop]. unfold gen_range. pose proof (H o (or_introl eq_refl)). destruct (Nat.ltb_spec 0 n); [|lia]. cbn [stream]. rewrite Nat.sub_0_r, Nat.mod_small by assumption. cbn [rbind Nat.add].
  change (fun k => stream ds rest k) with (stream ds rest). rewrite IH by (intros x Hx; apply H; right; exact Hx). reflexivity.
Qed.
Lemma independent_count n k : exactly (n ^ k) (independent_draws n k).
Proof.
  induction k as [|k IH].
  - apply (exactly_one _ _ []). intros ds. split; [intros [H _]; destruct ds; [reflexivity|discriminate]|]. intros ->. split; [reflexivity|intros o []].
  - cbn [Nat.pow]. replace (n * n ^ k) with (length (seq 0 n) * n ^ k) by (rewrite seq_length; reflexivity). apply (exactly_pairs nat (list nat) (list nat) cons); [intros a b a' b' E; injection E as -> ->; auto|apply seq_NoDup| |].
    + intros o Ho. apply in_seq in Ho. eapply exactly_ext; [|exact IH]. intros ds. unfold independent_draws. cbn [length In]. split; [intros [H1 H2]; split; [lia|intros x [<-|Hx]; [lia|auto]]|intros [H1 H2]; split; [lia|intros x Hx; apply H2; auto]].
    + intros ds [H1 H2]. destruct ds as [|o ds]; [discriminate|]. exists o, ds. split; [reflexivity|]. apply in_seq. specialize (H2 o (or_introl eq_refl)). lia.
Qed.
