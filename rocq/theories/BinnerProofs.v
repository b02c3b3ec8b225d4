From Coq Require Import Sorting.Sorted Sorting.Permutation Reals Lra.
From Flocq Require Import Core BinarySingleNaN Relative.
From Verif Require Import Base BaseProofs F32 F32Proofs Num BinnerModel BinnerSpec ScaledProofs.

Lemma skipn_S_tail {A} n (l : list A) x t : skipn n l = x :: t -> skipn (S n) l = t.
Proof. revert l. induction n as [|n IH]; intros [|y l] H; cbn in *; try discriminate; [congruence|]. apply IH in H. exact H. Qed.

(* --- rank iteration (generic) --- *)
Section Rank.
Variables (B R : Type) (rzero : R) (rle : R -> R -> bool) (radd : R -> R -> R) (w : B -> R).
Notation cum := (cumulative rzero radd w).

Lemma cum_S bins k x : nth_error bins k = Some x -> cum bins (S k) = radd (cum bins k) (w x).
Proof.
  unfold cumulative. intros H. apply nth_error_split in H as (l1 & l2 & -> & <-).
  rewrite firstn_app, firstn_all2 by lia. replace (S (length l1) - length l1) with 1 by lia. cbn [firstn].
  rewrite firstn_app, firstn_all2 by lia. rewrite Nat.sub_diag. cbn [firstn]. rewrite app_nil_r, map_app, fold_left_app. reflexivity.
Qed.

(** State reached after visiting the first [k] bins. *)
Definition at_bin (bins : list B) (st : rank_iter R) : Prop :=
  ri_idx st <= length bins /\ ri_accum st = cum bins (ri_idx st).

Lemma rank_loop_ok bins rank : forall rest st st' rest', at_bin bins st -> rest = skipn (ri_idx st) bins ->
  rank_loop rle radd w rest rank st = (st', rest') ->
  at_bin bins st' /\ ri_idx st <= ri_idx st' /\
  (forall j, ri_idx st <= j < ri_idx st' -> rle (cum bins j) rank = true) /\
  (ri_idx st' < length bins -> rle (cum bins (ri_idx st')) rank = false).
Proof.
  induction rest as [|x rest IH]; intros st st' rest' (Hle & Ha) Hr E; cbn [rank_loop] in E.
  - injection E as <- <-. assert (length bins <= ri_idx st) by (apply (f_equal (@length B)) in Hr; rewrite skipn_length in Hr; cbn in Hr; lia).
    split; [split; assumption|]. split; [lia|]. split; intros; lia.
  - assert (nth_error bins (ri_idx st) = Some x) as Hx.
    { rewrite <- (firstn_skipn (ri_idx st) bins), <- Hr. rewrite nth_error_app2; rewrite firstn_length_le by exact Hle; [|lia]. rewrite Nat.sub_diag. reflexivity. }
    assert (ri_idx st < length bins) as Hlt by (apply nth_error_Some; congruence).
    destruct (rle (ri_accum st) rank) eqn:El.
    + apply IH in E; cbn [ri_idx ri_accum] in *.
      * destruct E as (A & Bq & C & D). split; [exact A|]. split; [lia|]. split; [|exact D].
        intros j Hj. destruct (Nat.eq_dec j (ri_idx st)) as [->|]; [rewrite <- Ha; exact El|]. apply C. lia.
      * split; cbn [ri_accum ri_idx]; [lia|]. rewrite (cum_S _ _ _ Hx), <- Ha. reflexivity.
      * rewrite (skipn_S_tail (ri_idx st) bins x rest) ; [reflexivity|]. symmetry. exact Hr.
    + injection E as <- <-. split; [split; assumption|]. split; [lia|]. split; [intros; lia|]. intros _. rewrite <- Ha. exact El.
Qed.

(** The state after some answered queries: everything before the current bin is at or below [r]. *)
Definition ri_inv (bins : list B) (r : R) (st : rank_iter R) : Prop :=
  at_bin bins st /\ forall j, j < ri_idx st -> rle (cum bins j) r = true.

Lemma rank_next_ok bins rank st : bins <> [] -> ri_inv bins rank st -> rle rzero rank = true ->
  exists i st', rank_next rle radd w bins rank st = Ok (i, st') /\ ri_inv bins rank st' /\ bin_of_rank rzero rle radd w bins rank i.
Proof.
  intros Hne (Hat & Hall) H0. unfold rank_next. destruct (rank_loop rle radd w (skipn (ri_idx st) bins) rank st) as (st' & rest') eqn:E.
  pose proof (rank_loop_ok bins rank _ _ _ _ Hat eq_refl E) as (A & Hm & Hi & Hs).
  assert (0 < length bins) as Hl by (destruct bins; [congruence|cbn; lia]).
  destruct (ri_idx st') as [|i] eqn:Ei.
  - exfalso. specialize (Hs Hl). unfold cumulative in Hs. cbn in Hs. congruence.
  - exists i, st'. split; [reflexivity|].
    assert (forall j, j < S i -> rle (cum bins j) rank = true) as Hj.
    { intros j Hj. destruct (Nat.lt_ge_cases j (ri_idx st)); [apply Hall; assumption|apply Hi; lia]. }
    assert (ri_idx st' <= length bins) as Hb by apply A.
    split; [split; [exact A|rewrite Ei; exact Hj]|]. split; [lia|]. split; [intros j Hj'; apply Hj; lia|].
    intros Hlt. replace (i + 1) with (S i) by lia. apply Hs. lia.
Qed.

Lemma at_zero bins r : ri_inv bins r (mk_ri rzero rzero 0).
Proof. split; [split; [cbn; lia|reflexivity]|]. cbn. lia. Qed.

Lemma bin_with_rank_ok {O} (b : binner O B) rank : bn_bins b <> [] -> rle rzero rank = true ->
  exists i, bin_with_rank rzero rle radd w b rank = Ok i /\ bin_of_rank rzero rle radd w (bn_bins b) rank i.
Proof.
  intros Hne H0. unfold bin_with_rank. destruct (rank_next_ok (bn_bins b) rank _ Hne (at_zero _ _) H0) as (i & st' & E & _ & Hb).
  rewrite E. cbn [rbind]. eauto.
Qed.

Lemma bin_of_rank_unique bins r i j : bin_of_rank rzero rle radd w bins r i -> bin_of_rank rzero rle radd w bins r j -> i = j.
Proof.
  intros (Hi & Ai & Bi) (Hj & Aj & Bj). destruct (Nat.lt_trichotomy i j) as [H|[H|H]]; [|exact H|].
  - specialize (Aj (i + 1)). rewrite Bi in Aj by lia. discriminate Aj. lia.
  - specialize (Ai (j + 1)). rewrite Bj in Ai by lia. discriminate Ai. lia.
Qed.

Lemma ranks_of_ok bins : bins <> [] -> (forall x y z, rle x y = true -> rle y z = true -> rle x z = true) ->
  forall ranks st r0, ri_inv bins r0 st -> rle rzero r0 = true -> Sorted (fun a b => rle a b = true) (r0 :: ranks) ->
  exists is, ranks_of rle radd w bins ranks st = Ok is /\ Forall2 (bin_of_rank rzero rle radd w bins) ranks is.
Proof.
  intros Hne Htr. induction ranks as [|r ranks IH]; intros st r0 Hst H0 Hs; cbn [ranks_of].
  - eexists. split; [reflexivity|constructor].
  - inversion Hs as [|? ? Hs' Hh]; subst. inversion Hh; subst.
    assert (ri_inv bins r st) as Hst' by (split; [apply Hst|]; intros j Hj; apply Htr with r0; [apply Hst; exact Hj|assumption]).
    assert (rle rzero r = true) as H0' by (apply Htr with r0; assumption).
    destruct (rank_next_ok bins r st Hne Hst' H0') as (i & st' & E & Hi' & Hb). rewrite E. cbn [rbind].
    destruct (IH st' r Hi' H0' Hs') as (is & E2 & F). rewrite E2. cbn [rbind]. eauto.
Qed.
End Rank.

(* --- insertion --- *)
Section Insert.
Variables (O : numops) (B : Type).
Implicit Types b : binner O B.

Lemma get_bin_valid b v : bn_bins b <> [] -> get_bin b v < length (bn_bins b).
Proof. intros H. unfold get_bin. assert (length (bn_bins b) <> 0) by (destruct (bn_bins b); [congruence|cbn; lia]). lia. Qed.

Lemma get_bin_same b b' v : bn_min b = bn_min b' -> bn_delta b = bn_delta b' -> length (bn_bins b) = length (bn_bins b') ->
  get_bin b v = get_bin b' v.
Proof. intros H1 H2 H3. unfold get_bin. rewrite H1, H2, H3. reflexivity. Qed.

(** What insertion does to bin [i]: apply, in order, the updates of the items that fall into it. *)
Definition updates (b : binner O B) (items : list (num O * (B -> B))) (i : nat) : list (B -> B) :=
  map snd (filter (fun it => get_bin b (fst it) =? i) items).

Lemma insert_all_ok : forall items b, bn_bins b <> [] ->
  exists b', binner_insert_all b items = Ok b' /\ bn_min b' = bn_min b /\ bn_delta b' = bn_delta b /\
    length (bn_bins b') = length (bn_bins b) /\
    forall i x, nth_error (bn_bins b) i = Some x ->
      nth_error (bn_bins b') i = Some (fold_left (fun y c => c y) (updates b items i) x).
Proof.
  induction items as [|(v, c) items IH]; intros b Hne; cbn [binner_insert_all].
  - exists b. repeat split; auto.
  - pose proof (get_bin_valid b v Hne) as Hv. unfold binner_insert.
    destruct (nth_error (bn_bins b) (get_bin b v)) as [x0|] eqn:Ex; [|apply nth_error_None in Ex; lia].
    rewrite (proj2 (idx_ok _ _ _ _) Ex). cbn [rbind].
    rewrite set_idx_lt by exact Hv. cbn [rbind].
    set (b1 := mk_binner (upd (bn_bins b) (get_bin b v) (c x0)) (bn_min b) (bn_delta b)).
    destruct (IH b1) as (b' & E & E1 & E2 & E3 & E4).
    { subst b1. cbn. intros Hc. apply (f_equal (@length B)) in Hc. rewrite upd_length in Hc. cbn in Hc. lia. }
    exists b'. split; [exact E|]. split; [exact E1|]. split; [exact E2|]. split; [rewrite E3; subst b1; cbn; apply upd_length|].
    intros i x Hx. assert (forall u, get_bin b1 u = get_bin b u) as Hg by (intros u; apply get_bin_same; cbn; [reflexivity..|apply upd_length]).
    assert (updates b1 items i = updates b items i) as Hu by (unfold updates; f_equal; apply filter_ext; intros (u, d); cbn; rewrite Hg; reflexivity).
    unfold updates at 1. cbn [filter fst]. destruct (Nat.eqb_spec (get_bin b v) i) as [Heq|Hneq].
    + subst i. rewrite Ex in Hx. injection Hx as ->. rewrite (E4 (get_bin b v) (c x)).
      * rewrite Hu. reflexivity.
      * subst b1. cbn [bn_bins]. rewrite nth_error_upd, Nat.eqb_refl, (proj2 (Nat.ltb_lt _ _) Hv). reflexivity.
    + rewrite (E4 i x); [rewrite Hu; reflexivity|]. subst b1. cbn [bn_bins]. rewrite nth_error_upd.
      destruct (Nat.eqb_spec (get_bin b v) i); [congruence|exact Hx].
Qed.
End Insert.

(* --- counters --- *)
Lemma fold_inc (l : list N) x : (x < 2 ^ 32)%N ->
  fold_left (fun y (c : N -> N) => c y) (map u32_inc l) x = ((x + sumN l) mod 2 ^ 32)%N.
Proof.
  revert x. induction l as [|k l IH]; intros x Hx; cbn [map fold_left sumN].
  - rewrite N.add_0_r, N.mod_small by exact Hx. reflexivity.
  - rewrite IH by (apply N.mod_lt; discriminate). unfold u32_inc. rewrite N.add_mod_idemp_l by discriminate. f_equal. lia.
Qed.

Definition count_in {A} (f : A -> nat) (l : list A) (i : nat) : N := N.of_nat (length (filter (fun v => f v =? i) l)).

Lemma counts_ok {O} (b : binner O N) (items : list (num O * N)) : bn_bins b <> [] -> Forall (fun x => x = 0%N) (bn_bins b) ->
  (sumN (map snd items) < 2 ^ 32)%N ->
  exists b', binner_insert_all b (map (fun it => (fst it, u32_inc (snd it))) items) = Ok b' /\ bn_min b' = bn_min b /\ bn_delta b' = bn_delta b /\
    length (bn_bins b') = length (bn_bins b) /\
    forall i, i < length (bn_bins b) ->
      nth_error (bn_bins b') i = Some (sumN (map snd (filter (fun it => get_bin b (fst it) =? i) items))).
Proof.
  intros Hne Hz Hs. destruct (insert_all_ok O N (map (fun it => (fst it, u32_inc (snd it))) items) b Hne) as (b' & E & E1 & E2 & E3 & E4).
  exists b'. split; [exact E|]. split; [exact E1|]. split; [exact E2|]. split; [exact E3|]. intros i Hi.
  destruct (nth_error (bn_bins b) i) as [x|] eqn:Ex; [|apply nth_error_None in Ex; lia].
  rewrite (E4 i x Ex). f_equal. assert (x = 0%N) as -> by (apply nth_error_In in Ex; rewrite Forall_forall in Hz; auto).
  assert (forall l, sumN (map snd (filter (fun it : num O * N => Nat.eqb (get_bin b (fst it)) i) l)) <= sumN (map snd l))%N as Hle.
  { induction l as [|(v, k) l IH]; cbn [filter map fst]; [reflexivity|]. destruct (get_bin b v =? i); cbn [map sumN snd]; lia. }
  specialize (Hle items).
  replace (updates O N b (map (fun it => (fst it, u32_inc (snd it))) items) i)
    with (map u32_inc (map snd (filter (fun it : num O * N => get_bin b (fst it) =? i) items))).
  - rewrite fold_inc by reflexivity. rewrite N.add_0_l, N.mod_small by lia. reflexivity.
  - unfold updates. clear. induction items as [|(v, k) l IH]; cbn [filter map fst]; [reflexivity|].
    destruct (get_bin b v =? i); cbn [map snd]; [f_equal|]; exact IH.
Qed.

Lemma cum_counts {A} (f : A -> nat) (vals : list A) (bins : list N) : (forall i, i < length bins -> nth_error bins i = Some (count_in f vals i)) ->
  forall k, k <= length bins -> cumulative 0%N N.add (fun x => x) bins k = N.of_nat (length (filter (fun v => f v <? k) vals)).
Proof.
  intros H. induction k as [|k IH]; intros Hk.
  - assert (filter (fun v => f v <? 0) vals = []) as -> by (clear; induction vals as [|v l IH]; cbn in *; [reflexivity|exact IH]). reflexivity.
  - rewrite (cum_S N N 0%N N.leb N.add (fun x => x) bins k _ (H k Hk)), IH by lia. unfold count_in. rewrite <- Nat2N.inj_add. f_equal. clear.
    induction vals as [|v l IH]; cbn [filter length]; [reflexivity|].
    destruct (Nat.ltb_spec (f v) k), (Nat.ltb_spec (f v) (S k)), (Nat.eqb_spec (f v) k); cbn [length]; lia.
Qed.

(* --- the r-th smallest value --- *)
Lemma sorted_filter_nth {A} (f : A -> nat) (s : list A) d : StronglySorted (fun x y => f x <= f y) s ->
  forall r k, r < length s -> (r < length (filter (fun v => f v <? k) s) <-> f (nth r s d) < k).
Proof.
  induction 1 as [|x s Hs IH Hx]; intros r k Hr; cbn [length] in Hr; [lia|].
  cbn [filter]. destruct (Nat.ltb_spec (f x) k) as [Hlt|Hge].
  - destruct r as [|r]; cbn [length nth].
    + split; intros; [exact Hlt|lia].
    + rewrite <- (IH r k) by lia. lia.
  - assert (filter (fun v => f v <? k) s = []) as E.
    { clear - Hx Hge. induction s as [|y s IH]; cbn [filter]; [reflexivity|]. inversion Hx; subst.
      destruct (Nat.ltb_spec (f y) k); [lia|]. auto. }
    rewrite E. cbn [length]. split; [lia|]. intros H. exfalso.
    destruct r as [|r]; cbn [nth] in H; [lia|]. rewrite Forall_forall in Hx.
    specialize (Hx (nth r s d)). assert (In (nth r s d) s) by (apply nth_In; lia). specialize (Hx H0). lia.
Qed.

Lemma filter_perm_length {A} (p : A -> bool) l l' : Permutation l l' -> length (filter p l) = length (filter p l').
Proof.
  induction 1 as [|x l l' H IH|x y l|l1 l2 l3 H1 IH1 H2 IH2]; cbn [filter].
  - reflexivity.
  - destruct (p x); cbn [length]; lia.
  - destruct (p x), (p y); cbn [length]; lia.
  - lia.
Qed.

Lemma rank_is_rth {A} (f : A -> nat) (vals s : list A) (bins : list N) (d : A) i r :
  (forall j, j < length bins -> nth_error bins j = Some (count_in f vals j)) ->
  (forall v, In v vals -> f v < length bins) ->
  Permutation vals s -> StronglySorted (fun x y => f x <= f y) s -> r < length vals ->
  bin_of_rank 0%N N.leb N.add (fun x => x) bins (N.of_nat r) i -> f (nth r s d) = i.
Proof.
  intros Hc Hf Hp Hs Hr (Hi & Ha & Hb). pose proof (Permutation_length Hp) as Hl.
  assert (r < length s) as Hr' by lia.
  assert (~ f (nth r s d) < i) as H1.
  { rewrite <- sorted_filter_nth by assumption. specialize (Ha i (le_n _)).
    rewrite (cum_counts f vals) in Ha by (try assumption; lia). rewrite <- (filter_perm_length _ _ _ Hp). apply N.leb_le in Ha. lia. }
  assert (f (nth r s d) < i + 1) as H2; [|lia].
  destruct (Nat.lt_ge_cases (i + 1) (length bins)) as [Hlt|Hge].
  - rewrite <- sorted_filter_nth by assumption. specialize (Hb Hlt).
    rewrite (cum_counts f vals) in Hb by (try assumption; lia). rewrite <- (filter_perm_length _ _ _ Hp). apply N.leb_gt in Hb. lia.
  - assert (In (nth r s d) vals) as Hin by (apply Permutation_in with s; [apply Permutation_sym, Hp|apply nth_In, Hr']).
    apply Hf in Hin. lia.
Qed.

(* --- get_bin in f32 --- *)
Local Open Scope R_scope.

Lemma to_int_floor_mono lo hi x y : (lo <= hi)%Z -> is_nan x = false -> is_nan y = false -> key x <= key y ->
  (f_to_int lo hi (f_floor x) <= f_to_int lo hi (f_floor y))%Z.
Proof.
  intros Hlh Nx Ny H. pose proof M_pos as HM.
  assert (forall z, is_nan z = false -> lo <= f_to_int lo hi (f_floor z) <= hi)%Z as Hr.
  { intros z Nz. destruct (is_finite z) eqn:Fz; [rewrite f_to_int_floor by exact Fz; lia|].
    destruct z as [|[|]| |]; try discriminate; cbn; lia. }
  destruct (is_finite x) eqn:Fx, (is_finite y) eqn:Fy.
  - rewrite !f_to_int_floor by assumption. rewrite !key_finite in H by assumption. apply Zfloor_le in H. lia.
  - pose proof (key_finite_strict x Fx). specialize (Hr x Nx). destruct y as [|[|]| |]; try discriminate; cbn [key] in H; [lra|]. cbn. lia.
  - pose proof (key_finite_strict y Fy). specialize (Hr y Ny). destruct x as [|[|]| |]; try discriminate; cbn [key] in H; [|lra]. cbn. lia.
  - destruct x as [|[|]| |], y as [|[|]| |]; try discriminate; cbn [key] in H; cbn; try lia; lra.
Qed.

Lemma of_nat_pos n : (1 <= n)%nat -> (Z.of_nat n <= 2 ^ 24)%Z -> is_finite (f_of_Z (Z.of_nat n)) = true /\ B2R' (f_of_Z (Z.of_nat n)) = IZR (Z.of_nat n) /\ 1 <= IZR (Z.of_nat n).
Proof. intros H1 H2. destruct (f_of_Z_exact (Z.of_nat n)) as (A & B); [lia|]. split; [exact A|]. split; [exact B|]. apply IZR_le. lia. Qed.

(** The bin width: a positive number, +0 (underflow) or +infinity (overflow of [hi - lo]). *)
Lemma delta_cases lo hi n : is_finite lo = true -> is_finite hi = true -> key lo < key hi -> (1 <= n)%nat -> (Z.of_nat n <= 2 ^ 24)%Z ->
  let d := f_div (f_sub hi lo) (f_of_Z (Z.of_nat n)) in
  (is_finite d = true /\ 0 < B2R' d) \/ d = B754_zero false \/ d = B754_infinity false.
Proof.
  intros Fl Fh Hlt H1 H2 d. destruct (of_nat_pos n H1 H2) as (Fn & Bn & Pn).
  destruct (width_ok lo hi Fl Fh) as (Nw & _ & Hw); [lra|]. specialize (Hw Hlt).
  destruct (is_finite (f_sub hi lo)) eqn:Fw.
  - rewrite key_finite in Hw by exact Fw.
    destruct (div_repr (f_sub hi lo) (f_of_Z (Z.of_nat n)) Fw Fn) as (Nd & Kd); [intros Hc; lra|]. fold d in Nd, Kd.
    assert (0 <= rnd (B2R' (f_sub hi lo) / B2R' (f_of_Z (Z.of_nat n)))) as H0.
    { rewrite <- rnd_0. apply rnd_mono. rewrite Bn. apply Rmult_le_pos; [lra|]. apply Rlt_le, Rinv_0_lt_compat. lra. }
    assert (0 <= key d) as Kd0.
    { rewrite Kd. pose proof M_pos. unfold clampM. eapply Rle_trans; [|apply Rmax_r]. apply Rmin_glb; lra. }
    assert (Bsign d = false) as Sd.
    { generalize (Bdiv_correct 24 128 _ _ mode_NE (f_sub hi lo) (f_of_Z (Z.of_nat n))). fold (f_div (f_sub hi lo) (f_of_Z (Z.of_nat n))). fold d.
      assert (Bsign (f_sub hi lo) = false) as S1.
      { destruct (Bsign (f_sub hi lo)) eqn:Es; [|reflexivity]. apply sign_B2R in Es; [lra|exact Fw|intros Hc; lra]. }
      assert (Bsign (f_of_Z (Z.of_nat n)) = false) as S2.
      { destruct (Bsign (f_of_Z (Z.of_nat n))) eqn:Es; [|reflexivity]. apply sign_B2R in Es; [lra|exact Fn|intros Hc; lra]. }
      rewrite S1, S2. cbn [xorb]. intros G. assert (B2R' (f_of_Z (Z.of_nat n)) <> 0) as Hnz by (intros Hc; lra). specialize (G Hnz).
      destruct (Rlt_bool _ _).
      - apply G. exact Nd.
      - apply overflow_key in G. rewrite G. reflexivity. }
    destruct d as [s|s| |s m e He] eqn:Ed; cbn in Sd; try discriminate; subst s.
    + right; left; reflexivity.
    + right; right; reflexivity.
    + left. split; [reflexivity|]. rewrite key_finite in Kd0 by reflexivity. cbn. apply F2R_gt_0. reflexivity.
  - right; right. subst d. destruct (f_sub hi lo) as [|s| |]; try discriminate. cbn [key] in Hw. pose proof M_pos.
    destruct s; [cbn in Hw; lra|].
    assert (Bsign (f_of_Z (Z.of_nat n)) = false) as S2.
    { destruct (Bsign (f_of_Z (Z.of_nat n))) eqn:Es; [|reflexivity]. apply sign_B2R in Es; [lra|exact Fn|intros Hc; lra]. }
    destruct (f_of_Z (Z.of_nat n)) as [s| | |s m e He]; try discriminate; cbn in S2; subst s; reflexivity.
Qed.

Definition fbinz (lo d v : f32) : Z := Z.max (f_to_int ISIZE_MIN ISIZE_MAX (f_floor (f_div (f_sub v lo) d))) 0.

Lemma fbinz_nan lo d v : is_nan v = true -> fbinz lo d v = 0%Z.
Proof. destruct v; try discriminate. intros _. reflexivity. Qed.

Lemma fbinz_mono lo d v v' : is_finite lo = true ->
  (is_finite d = true /\ 0 < B2R' d) \/ d = B754_zero false \/ d = B754_infinity false ->
  vkey v <= vkey v' -> (fbinz lo d v <= fbinz lo d v')%Z.
Proof.
  intros Fl Hd H. pose proof M_pos as HM. destruct (is_nan v) eqn:Nv; [rewrite fbinz_nan by exact Nv; unfold fbinz; lia|].
  destruct (is_nan v') eqn:Nv'.
  { unfold vkey in H. rewrite Nv, Nv' in H. pose proof (key_bound v). rewrite (fbinz_nan lo d v') by exact Nv'.
    assert (v = B754_infinity true) as ->.
    { destruct (is_finite v) eqn:Fv; [pose proof (key_finite_strict v Fv); lra|]. destruct v as [|[|]| |]; try discriminate; [reflexivity|cbn [key] in H; lra]. }
    unfold fbinz. destruct Hd as [(Fd & Pd)|[->| ->]].
    - assert (f_sub (B754_infinity true) lo = B754_infinity true) as -> by (destruct lo; try discriminate; reflexivity).
      rewrite div_inf by auto. cbn. lia.
    - destruct lo; try discriminate; cbn; lia.
    - destruct lo; try discriminate; cbn; lia. }
  unfold vkey in H. rewrite Nv, Nv' in H. destruct (sub_key_mono v v' lo Nv Nv' Fl H) as (A & B & C). unfold fbinz.
  destruct Hd as [(Fd & Pd)|[->| ->]].
  - destruct (div_key_mono _ _ d A B Fd Pd C) as (A' & B' & C'). apply Z.max_le_compat_r. apply to_int_floor_mono; auto. unfold ISIZE_MIN, ISIZE_MAX. lia.
  - set (a := f_sub v lo) in *. set (a' := f_sub v' lo) in *. clearbody a a'. 
    assert (forall a, is_nan a = false -> 0 < key a -> f_div a (B754_zero false) = B754_infinity false) as P.
    { intros z Nz Kz. destruct z as [s|[|]| |[|] m e He]; try discriminate; cbn [key] in Kz; try (cbn in Kz; lra); try reflexivity.
      exfalso. assert (F2R (Float radix2 (Z.neg m) e) < 0) by (apply F2R_lt_0; reflexivity). cbn in Kz. lra. }
    assert (forall a, is_nan a = false -> key a <= 0 -> Z.max (f_to_int ISIZE_MIN ISIZE_MAX (f_floor (f_div a (B754_zero false)))) 0 = 0%Z) as Q.
    { intros z Nz Kz. destruct z as [s|[|]| |[|] m e He]; try discriminate; cbn [key] in Kz; try reflexivity.
      - lra.
      - exfalso. assert (0 < F2R (Float radix2 (Z.pos m) e)) by (apply F2R_gt_0; reflexivity). cbn in Kz. lra. }
    destruct (Rlt_or_le 0 (key a)) as [Ha|Ha].
    + rewrite (P a A Ha), (P a' B) by lra. lia.
    + rewrite (Q a A Ha). lia.
  - assert (forall a, is_nan a = false -> f_to_int ISIZE_MIN ISIZE_MAX (f_floor (f_div a (B754_infinity false))) = 0%Z) as Q.
    { intros z Nz. destruct z as [s|[|]| |[|] m e He]; try discriminate; reflexivity. }
    rewrite !Q by assumption. lia.
Qed.

Lemma fbinz_low lo d v : is_finite lo = true ->
  (is_finite d = true /\ 0 < B2R' d) \/ d = B754_zero false \/ d = B754_infinity false ->
  vkey v <= key lo -> fbinz lo d v = 0%Z.
Proof.
  intros Fl Hd H. assert (fbinz lo d v <= fbinz lo d lo)%Z as Hm.
  { apply fbinz_mono; auto. unfold vkey at 2. rewrite (fin_nan _ Fl). exact H. }
  assert (fbinz lo d lo = 0%Z) as E; [|unfold fbinz in *; lia].
  unfold fbinz. destruct (sub_repr lo lo Fl Fl) as (Na & Ka). rewrite Rminus_diag_eq, rnd_0, clampM_id in Ka by (try reflexivity; pose proof M_pos; lra).
  assert (forall z : f32, is_nan z = false -> key z = 0 -> exists s, z = B754_zero s) as Hz.
  { intros z Nz Kz. pose proof M_pos. destruct z as [s|[|]| |s m e He]; cbn [key] in *; try lra; [eexists; reflexivity|discriminate|].
    exfalso. cbn in Kz. apply eq_0_F2R in Kz. destruct s; discriminate. }
  destruct (Hz _ Na Ka) as (s & ->). destruct Hd as [(Fd & Pd)|[->| ->]]; try reflexivity.
  destruct d as [sd| | |sd m e He]; try discriminate; [cbn in Pd; lra|reflexivity].
Qed.

Lemma rnd_relative x : bpow radix2 (-126) <= Rabs x -> exists e, Rabs e <= / 16777216 /\ rnd x = x * (1 + e).
Proof.
  intros H. destruct (relative_error_N_FLT_ex radix2 (-149) 24 (eq_refl) (fun z => negb (Z.even z)) x) as (e & He & E).
  - cbn. exact H.
  - exists e. split; [|exact E]. eapply Rle_trans; [exact He|]. cbn. lra.
Qed.

Lemma fbinz_high lo hi n : is_finite lo = true -> is_finite hi = true -> key lo < key hi -> (1 <= n)%nat -> (Z.of_nat n <= 2 ^ 24)%Z ->
  is_finite (f_sub hi lo) = true -> IZR (Z.of_nat n) * bpow radix2 (-126) <= B2R' (f_sub hi lo) ->
  (Z.of_nat n - 1 <= fbinz lo (f_div (f_sub hi lo) (f_of_Z (Z.of_nat n))) hi)%Z.
Proof.
  intros Fl Fh Hlt H1 H2 Fw Hn. destruct (of_nat_pos n H1 H2) as (Fn & Bn & Pn). pose proof M_pos as HM.
  assert (0 < bpow radix2 (-126)) as Hb by apply bpow_gt_0.
  set (w := f_sub hi lo) in *. set (nf := f_of_Z (Z.of_nat n)) in *. set (N := IZR (Z.of_nat n)) in *.
  assert (0 < B2R' w) as Pw by (apply Rlt_le_trans with (N * bpow radix2 (-126)); [apply Rmult_lt_0_compat; lra|exact Hn]).
  assert (bpow radix2 (-126) <= B2R' w / B2R' nf) as Hq.
  { rewrite Bn. apply Rmult_le_reg_r with N; [lra|]. unfold Rdiv. rewrite Rmult_assoc, Rinv_l by lra. lra. }
  destruct (rnd_relative (B2R' w / B2R' nf)) as (e & He & E); [rewrite Rabs_pos_eq; lra|].
  assert (B2R' nf <> 0) as Nn by (intros Hc; lra).
  destruct (div_repr w nf Fw Fn Nn) as (Nd & Kd). set (d := f_div w nf) in *.
  assert (Rabs e <= / 16777216 -> -1/16777216 <= e <= 1/16777216) as He' by (intros Hx; apply Rabs_le_inv in Hx; lra). apply He' in He.
  assert (0 < rnd (B2R' w / B2R' nf)) as Pd by (rewrite E; apply Rmult_lt_0_compat; lra).
  assert (rnd (B2R' w / B2R' nf) <= B2R' w) as Ud.
  { rewrite <- (rnd_generic (B2R' w)) at 2 by apply generic_f32. apply rnd_mono. rewrite Bn. apply Rmult_le_reg_r with N; [lra|].
    unfold Rdiv. rewrite Rmult_assoc, Rinv_l by lra. rewrite Rmult_1_r. rewrite <- (Rmult_1_r (B2R' w)) at 1. apply Rmult_le_compat_l; lra. }
  pose proof (key_finite_strict w Fw) as Bw. rewrite key_finite in Bw by exact Fw.
  rewrite clampM_id in Kd by lra.
  assert (is_finite d = true) as Fd by (apply finite_of_key; [exact Nd|rewrite Kd; lra]). rewrite key_finite in Kd by exact Fd.
  assert (B2R' d <> 0) as Nz by (intros Hc; lra).
  destruct (div_repr w d Fw Fd Nz) as (Nx & Kx). unfold fbinz. fold w.
  assert (IZR (Z.of_nat n - 1) <= rnd (B2R' w / B2R' d)) as Hx.
  { rewrite <- (rnd_int (Z.of_nat n - 1)) by lia. apply rnd_mono. rewrite Kd, E, minus_IZR. fold N. rewrite Bn.
    apply Rmult_le_reg_r with (B2R' w / N * (1 + e)).
    - apply Rmult_lt_0_compat; [|lra]. apply Rmult_lt_0_compat; [lra|apply Rinv_0_lt_compat; lra].
    - unfold Rdiv at 2. rewrite Rmult_assoc, Rinv_l.
      2:{ apply Rgt_not_eq, Rmult_gt_0_compat; [|lra]. apply Rmult_gt_0_compat; [lra|apply Rinv_0_lt_compat; lra]. }
      rewrite Rmult_1_r. replace ((N - 1) * (B2R' w / N * (1 + e))) with (B2R' w * ((N - 1) * (1 + e) / N)) by (unfold Rdiv; ring).
      rewrite <- (Rmult_1_r (B2R' w)) at 2. apply Rmult_le_compat_l; [lra|].
      apply Rmult_le_reg_r with N; [lra|]. unfold Rdiv. rewrite Rmult_assoc, Rinv_l by lra. rewrite Rmult_1_r, Rmult_1_l.
      assert (N <= 16777216) by (apply (IZR_le _ (2 ^ 24)); exact H2).
      assert ((N - 1) * e <= (N - 1) * (1 / 16777216)) by (apply Rmult_le_compat_l; lra). lra. }
  destruct (is_finite (f_div w d)) eqn:Fx.
  - rewrite f_to_int_floor by exact Fx. rewrite key_finite in Kx by exact Fx.
    assert (IZR (Z.of_nat n - 1) <= B2R' (f_div w d)) as Hy.
    { rewrite Kx. assert (IZR (Z.of_nat n - 1) <= M). { pose proof M_big. apply Rle_trans with (IZR (2 ^ 24)); [apply IZR_le; lia|]. change (IZR (2^24)) with 16777216. lra. }
      unfold clampM. eapply Rle_trans; [|apply Rmax_r]. apply Rmin_glb; assumption. }
    apply Zfloor_le in Hy. rewrite Zfloor_IZR in Hy. unfold ISIZE_MIN, ISIZE_MAX. lia.
  - assert (0 < key (f_div w d)) as Kp.
    { rewrite Kx. assert (0 <= IZR (Z.of_nat n - 1)) by (apply IZR_le; lia).
      assert (0 < rnd (B2R' w / B2R' d)); [|unfold clampM; eapply Rlt_le_trans; [|apply Rmax_r]; apply Rmin_glb_lt; lra].
      apply Rlt_le_trans with 1; [lra|]. rewrite <- (rnd_int 1) by (cbn; lia). apply rnd_mono. rewrite Kd. apply Rmult_le_reg_r with (rnd (B2R' w / B2R' nf)); [lra|].
      unfold Rdiv at 2. rewrite Rmult_assoc, Rinv_l by lra. lra. }
    destruct (f_div w d) as [|[|]| |]; try discriminate; cbn [key] in Kp; [lra|]. cbn. unfold ISIZE_MAX. lia.
Qed.
