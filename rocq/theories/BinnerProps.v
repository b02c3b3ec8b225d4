(** Properties C32, C33, C34: binning, rank queries, approximate quantiles. *)
From Coq Require Import Sorting.Sorted Sorting.Permutation Reals Lra.
From Flocq Require Import Core BinarySingleNaN.
From Verif Require Import Base BaseProofs F32 F32Proofs Num BinnerModel BinnerSpec ScaledProofs BinnerProofs.

(* ---- C32 ---- *)

(** A binner is created exactly for finite limits [lo < hi] and at least one bin. *)
Theorem C32_new : forall B (bins : list B) (lo hi : f32),
  (exists b, @binner_new f32ops B bins lo hi = Ok b) <->
  (f_is_finite lo = true /\ f_is_finite hi = true /\ f_lt lo hi = true /\ bins <> []).
Proof.
  intros B bins lo hi. unfold binner_new. cbn [f32ops nisfin nlt]. split.
  - intros (b & E). destruct (f_is_finite lo); [|discriminate]. destruct (f_is_finite hi); [|discriminate].
    destruct (f_lt lo hi); [|discriminate]. destruct bins; [discriminate|]. repeat split; congruence.
  - intros (-> & -> & -> & H). destruct bins as [|x t]; [congruence|]. eexists. reflexivity.
Qed.
Print Assumptions C32_new.

(** Facts about a binner made by [binner_new] and then filled by any insertions. *)
Definition binner_of (B : Type) (b : binner f32ops B) (n : nat) (lo hi : f32) : Prop :=
  exists bins0 b0 items, length bins0 = n /\ @binner_new f32ops B bins0 lo hi = Ok b0 /\ binner_insert_all b0 items = Ok b.

Lemma binner_of_ok B b n lo hi : binner_of B b n lo hi ->
  bn_min b = lo /\ bn_delta b = f_div (f_sub hi lo) (f_of_Z (Z.of_nat n)) /\ length (bn_bins b) = n /\ bn_bins b <> [] /\ 1 <= n /\
  is_finite lo = true /\ is_finite hi = true /\ (key lo < key hi)%R.
Proof.
  intros (bins0 & b0 & items & Hl & E & Ei).
  pose proof (proj1 (C32_new B bins0 lo hi) (ex_intro _ b0 E)) as (A & B' & C & D).
  unfold binner_new in E. cbn [f32ops nisfin nlt] in E. rewrite A, B', C in E. destruct bins0 as [|x t]; [congruence|].
  set (bs := x :: t) in *. assert (length bs =? 0 = false) as El by reflexivity. rewrite El in E. cbn [rassert rbind negb] in E. injection E as <-.
  match type of Ei with binner_insert_all ?bb _ = _ => set (b0 := bb) in * end.
  destruct (insert_all_ok f32ops B items b0) as (b' & E & E1 & E2 & E3 & _); [discriminate|].
  assert (b = b') by congruence. subst b'. subst b0. cbn [bn_min bn_delta bn_bins] in *. rewrite E1, E2, E3, Hl.
  split; [reflexivity|]. split; [subst n; reflexivity|]. split; [reflexivity|].
  split; [intros Hc; rewrite Hc in E3; discriminate|]. split; [cbn in Hl; lia|]. split; [exact A|]. split; [exact B'|].
  apply f_lt_key in C; [exact C|apply fin_nan, A|apply fin_nan, B'].
Qed.

Lemma get_bin_fbinz B (b : binner f32ops B) v : get_bin b v = Nat.min (Z.to_nat (fbinz (bn_min b) (bn_delta b) v)) (length (bn_bins b) - 1).
Proof. change (get_bin b v) with (Z.to_nat (Z.min (fbinz (bn_min b) (bn_delta b) v) (Z.of_nat (length (bn_bins b) - 1)))). unfold fbinz. lia. Qed.

(** Every value, NaN included, goes to an existing bin. *)
Theorem C32_total : forall B b n lo hi v, binner_of B b n lo hi -> get_bin b v < n.
Proof. intros B b n lo hi v H. apply binner_of_ok in H as (_ & _ & <- & Hne & _). apply get_bin_valid, Hne. Qed.
Print Assumptions C32_total.

(** Smaller values never go to later bins (any f32 values, infinities included; up to 2^24 bins). *)
Theorem C32_monotone : forall B b n lo hi v v', binner_of B b n lo hi -> (Z.of_nat n <= 2 ^ 24)%Z ->
  f_le v v' = true -> get_bin b v <= get_bin b v'.
Proof.
  intros B b n lo hi v v' H Hn Hv. apply binner_of_ok in H as (E1 & E2 & E3 & _ & H1 & Fl & Fh & Hlt).
  rewrite !get_bin_fbinz, E1, E2. apply Nat.min_le_compat_r, Z2Nat.inj_le; [unfold fbinz; lia..|].
  apply fbinz_mono; [exact Fl|apply delta_cases; assumption|].
  destruct (f_le_nan_l v v' Hv) as (N1 & N2). unfold vkey. rewrite N1, N2. apply f_le_key; assumption.
Qed.
Print Assumptions C32_monotone.

(** Values at or below the lower limit, and NaN, go to the first bin. *)
Theorem C32_low_values : forall B b n lo hi v, binner_of B b n lo hi -> (Z.of_nat n <= 2 ^ 24)%Z ->
  f_le v lo = true \/ v = f_nan -> get_bin b v = 0.
Proof.
  intros B b n lo hi v H Hn Hv. apply binner_of_ok in H as (E1 & E2 & E3 & _ & H1 & Fl & Fh & Hlt).
  rewrite get_bin_fbinz, E1, E2, fbinz_low; [reflexivity|exact Fl|apply delta_cases; assumption|].
  destruct Hv as [Hv|Hv].
  - destruct (f_le_nan_l v lo Hv) as (N1 & N2). unfold vkey. rewrite N1. apply f_le_key; assumption.
  - subst v. change (vkey f_nan) with (- M)%R. pose proof (key_bound lo). lra.
Qed.
Print Assumptions C32_low_values.

(** Values at or above the upper limit go to the last bin, provided the width [hi - lo] neither overflows nor is so small
    that a bin is narrower than the smallest normal number. *)
Theorem C32_high_values : forall B b n lo hi v, binner_of B b n lo hi -> (Z.of_nat n <= 2 ^ 24)%Z ->
  f_is_finite (f_sub hi lo) = true -> (IZR (Z.of_nat n) * bpow radix2 (-126) <= B2R (f_sub hi lo))%R ->
  f_le hi v = true -> get_bin b v = n - 1.
Proof.
  intros B b n lo hi v H Hn Fw Hw Hv. apply binner_of_ok in H as (E1 & E2 & E3 & _ & H1 & Fl & Fh & Hlt).
  pose proof (fbinz_high lo hi n Fl Fh Hlt H1 Hn Fw Hw) as A.
  assert (fbinz lo (f_div (f_sub hi lo) (f_of_Z (Z.of_nat n))) hi <= fbinz lo (f_div (f_sub hi lo) (f_of_Z (Z.of_nat n))) v)%Z as C.
  { apply fbinz_mono; [exact Fl|apply delta_cases; assumption|].
    destruct (f_le_nan_l hi v Hv) as (N1 & N2). unfold vkey. rewrite N1, N2. apply f_le_key; assumption. }
  rewrite get_bin_fbinz, E1, E2, E3. lia.
Qed.
Print Assumptions C32_high_values.

(** Without that proviso the claim fails: for limits whose difference overflows every value goes to the first bin. *)
Definition f_maxval : f32 := f_of_Z (2 ^ 128 - 2 ^ 104).
Theorem C32_overflowing_limits_refuted :
  exists b, binner_of N b 4 (f_neg f_maxval) f_maxval /\ get_bin b f_maxval = 0 /\ f_is_finite f_maxval = true.
Proof.
  destruct (proj2 (C32_new N (repeat 0%N 4) (f_neg f_maxval) f_maxval)) as (b & E).
  { split; [vm_compute; reflexivity|]. split; [vm_compute; reflexivity|]. split; [vm_compute; reflexivity|discriminate]. }
  assert (binner_of N b 4 (f_neg f_maxval) f_maxval) as H by (exists (repeat 0%N 4), b, []; split; [reflexivity|]; split; [exact E|reflexivity]).
  exists b. split; [exact H|]. split; [|vm_compute; reflexivity]. apply binner_of_ok in H as (E1 & E2 & E3 & _).
  rewrite get_bin_fbinz, E1, E2, E3. vm_compute. reflexivity.
Qed.
Print Assumptions C32_overflowing_limits_refuted.

(** Inserting items [(value, amount)] into zeroed counters: counter [i] is the total amount of the items that fall into
    bin [i] (totals below 2^32, beyond which the u32 counters overflow). *)
Theorem C32_counters : forall n lo hi b0 (items : list (f32 * N)),
  @binner_new f32ops N (repeat 0%N n) lo hi = Ok b0 -> (sumN (map snd items) < 2 ^ 32)%N ->
  exists b, binner_insert_all b0 (map (fun it => (fst it, u32_inc (snd it))) items) = Ok b /\ length (bn_bins b) = n /\
    forall i, i < n -> nth_error (bn_bins b) i = Some (sumN (map snd (filter (fun it => get_bin b (fst it) =? i) items))).
Proof.
  intros n lo hi b0 items E Hs.
  assert (binner_of N b0 n lo hi) as Hof by (exists (repeat 0%N n), b0, []; split; [apply repeat_length|]; split; [exact E|reflexivity]).
  apply binner_of_ok in Hof as (E1 & E2 & E3 & Hne & H1 & Fl & Fh & Hlt).
  assert (bn_bins b0 = repeat 0%N n) as Hb.
  { unfold binner_new in E. destruct (nisfin f32ops lo); [|discriminate]. destruct (nisfin f32ops hi); [|discriminate]. destruct (nlt f32ops lo hi); [|discriminate].
    destruct (negb _); [|discriminate]. cbn in E. injection E as <-. reflexivity. }
  destruct (@counts_ok f32ops b0 items Hne) as (b & A & B & C & D & F); [rewrite Hb; apply Forall_forall; intros x Hx; apply repeat_spec in Hx; exact Hx|exact Hs|].
  exists b. split; [exact A|]. split; [lia|]. intros i Hi. rewrite F by lia. f_equal. f_equal. f_equal. apply filter_ext. intros it.
  rewrite (get_bin_same f32ops N b b0); [reflexivity|congruence..].
Qed.
Print Assumptions C32_counters.

(** The counters add up to the total inserted. *)
Theorem C32_counters_total : forall n lo hi b0 b (items : list (f32 * N)),
  @binner_new f32ops N (repeat 0%N n) lo hi = Ok b0 -> (sumN (map snd items) < 2 ^ 32)%N ->
  binner_insert_all b0 (map (fun it => (fst it, u32_inc (snd it))) items) = Ok b -> sumN (bn_bins b) = sumN (map snd items).
Proof.
  intros n lo hi b0 b items E Hs Ei. destruct (C32_counters n lo hi b0 items E Hs) as (b' & E' & L & H). assert (b' = b) by congruence. subst b'.
  assert (Forall (fun it : f32 * N => get_bin b (fst it) < n) items) as Hf.
  { apply Forall_forall. intros it _. rewrite <- L. apply get_bin_valid. intros Hc. rewrite Hc in L. cbn in L. subst n.
    unfold binner_new in E. cbn [repeat length Nat.eqb negb] in E. destruct (nisfin f32ops lo), (nisfin f32ops hi), (nlt f32ops lo hi); discriminate E. }
  assert (bn_bins b = map (fun i => sumN (map snd (filter (fun it => get_bin b (fst it) =? i) items))) (seq 0 n)) as Eb.
  { apply nth_error_ext. intros i. destruct (Nat.lt_ge_cases i n) as [Hi|Hi].
    - rewrite H by exact Hi. symmetry. erewrite map_nth_error; [reflexivity|]. rewrite nth_error_seq. replace (i <? n) with true; [reflexivity|]. symmetry. apply Nat.ltb_lt, Hi.
    - rewrite (proj2 (nth_error_None _ _)) by lia. symmetry. apply nth_error_None. rewrite map_length, seq_length. exact Hi. }
  rewrite Eb. clear - Hf. set (g := fun it : f32 * N => get_bin b (fst it)) in *. change (Forall (fun it => g it < n) items) in Hf.
  change (sumN (map (fun i => sumN (map snd (filter (fun it => g it =? i) items))) (seq 0 n)) = sumN (map snd items)). clearbody g.
  induction Hf as [|it items Hi Hf IH].
  - cbn [filter map sumN]. induction (seq 0 n) as [|x t IH]; [reflexivity|]. cbn [map sumN]. rewrite IH. reflexivity.
  - cbn [map sumN]. rewrite <- IH. clear IH.
    assert (forall l, NoDup l -> sumN (map (fun i => sumN (map snd (filter (fun it => g it =? i) (it :: items)))) l) =
      ((if existsb (Nat.eqb (g it)) l then snd it else 0) + sumN (map (fun i => sumN (map snd (filter (fun it => Nat.eqb (g it) i) items))) l))%N) as G.
    { induction 1 as [|x l Hx Hnd IHl]; [reflexivity|]. cbn [map sumN existsb]. rewrite IHl. cbn [filter].
      destruct (Nat.eqb_spec (g it) x) as [Heq|Hneq]; cbn [orb map sumN].
      - subst x. destruct (existsb (Nat.eqb (g it)) l) eqn:Ee; [|lia]. exfalso. apply existsb_exists in Ee as (y & Hy & Ey). apply Nat.eqb_eq in Ey. subst y. contradiction.
      - lia. }
    rewrite G by apply seq_NoDup.
    replace (existsb (Nat.eqb (g it)) (seq 0 n)) with true; [reflexivity|]. symmetry. apply existsb_exists. exists (g it). split; [apply in_seq; lia|apply Nat.eqb_refl].
Qed.
Print Assumptions C32_counters_total.

Example C32_instance : let lo := f_of_Z (-3) in let hi := f_of_Z 5 in
  match (let* b0 := @binner_new f32ops N (repeat 0%N 4) lo hi in
         binner_insert_all b0 (map (fun it => (fst it, u32_inc (snd it))) [(f_of_Z (-2), 2%N); (f_of_Z 1, 5%N)])) : res (binner f32ops N) with
  | Ok b => map (get_bin b) [f_of_Z (-9); f_of_Z (-2); f_of_Z 0; f_of_Z 3; f_of_Z 5; f_inf; f_nan] = [0; 0; 1; 3; 3; 3; 0] /\
            bn_bins b = [2; 0; 5; 0]%N
  | _ => False
  end.
Proof. vm_compute. split; reflexivity. Qed.

(* ---- C33 ---- *)

(** One query, for any weight type (u32 counts, f32 gradient weights): the first bin at which the cumulative weight exceeds
    the rank, the last bin if none does. *)
Theorem C33_bin_with_rank : forall O B R rzero rle radd weight (b : binner O B) (rank : R), bn_bins b <> [] -> rle rzero rank = true ->
  exists i, bin_with_rank rzero rle radd weight b rank = Ok i /\ bin_of_rank rzero rle radd weight (bn_bins b) rank i.
Proof. intros. apply bin_with_rank_ok; assumption. Qed.
Print Assumptions C33_bin_with_rank.

(** That bin is unique. *)
Theorem C33_unique : forall B R rzero rle radd weight (bins : list B) (r : R) i j,
  bin_of_rank rzero rle radd weight bins r i -> bin_of_rank rzero rle radd weight bins r j -> i = j.
Proof. intros. eapply bin_of_rank_unique; eassumption. Qed.
Print Assumptions C33_unique.

(** A pass over ascending ranks answers each of them as an independent query would. *)
Theorem C33_one_pass : forall O B R rzero rle radd weight (b : binner O B) (ranks : list R), bn_bins b <> [] ->
  (forall x y z, rle x y = true -> rle y z = true -> rle x z = true) -> rle rzero rzero = true ->
  Sorted (fun x y => rle x y = true) (rzero :: ranks) ->
  rank_iter_all rzero rle radd weight b ranks = mapM (bin_with_rank rzero rle radd weight b) ranks /\
  exists is, rank_iter_all rzero rle radd weight b ranks = Ok is /\ Forall2 (bin_of_rank rzero rle radd weight (bn_bins b)) ranks is.
Proof.
  intros O B R rzero rle radd weight b ranks Hne Htr Hrefl Hs.
  destruct (ranks_of_ok B R rzero rle radd weight (bn_bins b) Hne Htr ranks (mk_ri rzero rzero 0) rzero) as (is & E & F); auto.
  { apply at_zero. }
  assert (Forall (fun r => rle rzero r = true) ranks) as Hall.
  { apply Sorted_extends in Hs; [|intros x y z; apply Htr]. exact Hs. }
  split; [|exists is; split; assumption]. unfold rank_iter_all. rewrite E. clear - F Hne Hall. symmetry.
  revert is F. induction ranks as [|r ranks IH]; intros is F; inversion F; subst; [reflexivity|]. cbn [mapM]. inversion Hall; subst.
  destruct (bin_with_rank_ok B R rzero rle radd weight b r Hne) as (i & Ei & Hi); [assumption|]. rewrite Ei. cbn [rbind].
  rewrite (IH H4 l') by assumption. cbn [rbind]. f_equal. f_equal. eapply bin_of_rank_unique; eassumption.
Qed.
Print Assumptions C33_one_pass.

Lemma f_le_trans x y z : f_le x y = true -> f_le y z = true -> f_le x z = true.
Proof.
  intros H1 H2. destruct (f_le_nan_l x y H1) as (Nx & Ny). destruct (f_le_nan_l y z H2) as (_ & Nz).
  apply f_le_key in H1, H2; try assumption. apply f_le_key; try assumption. lra.
Qed.
(** The two uses in the code: u32 counts (hi-cardinality categories, quantiles) and f32 weights (numerical features). *)
Theorem C33_one_pass_u32 : forall O (b : binner O N) (ranks : list N), bn_bins b <> [] -> Sorted (fun x y => (x <=? y)%N = true) ranks ->
  exists is, rank_iter_all 0%N N.leb N.add (fun x => x) b ranks = Ok is /\
    Forall2 (bin_of_rank 0%N N.leb N.add (fun x => x) (bn_bins b)) ranks is.
Proof.
  intros O b ranks Hne Hs. apply C33_one_pass; auto.
  - intros x y z H1 H2. apply N.leb_le in H1, H2. apply N.leb_le. lia.
  - constructor; [exact Hs|]. destruct ranks; constructor. apply N.leb_le. lia.
Qed.
Print Assumptions C33_one_pass_u32.
Theorem C33_one_pass_f32 : forall O (b : binner O f32) (ranks : list f32), bn_bins b <> [] ->
  Sorted (fun x y => f_le x y = true) (f_zero :: ranks) ->
  exists is, rank_iter_all f_zero f_le f_add (fun x => x) b ranks = Ok is /\
    Forall2 (bin_of_rank f_zero f_le f_add (fun x => x) (bn_bins b)) ranks is.
Proof. intros O b ranks Hne Hs. apply C33_one_pass; auto. exact f_le_trans. Qed.
Print Assumptions C33_one_pass_f32.

Example C33_instance : let b := @mk_binner f32ops N [3; 0; 4; 1]%N f_zero f_one in
  bn_bins b <> [] /\ Sorted (fun x y => (x <=? y)%N = true) [0; 2; 3; 6; 7; 9]%N /\
  rank_iter_all 0%N N.leb N.add (fun x => x) b [0; 2; 3; 6; 7; 9]%N = Ok [0; 0; 2; 2; 3; 3].
Proof. cbv zeta. split; [discriminate|]. split; [repeat constructor|vm_compute; reflexivity]. Qed.

(* ---- C34 ---- *)

(** The value reported for [q] is the upper edge of the bin that contains the [r]-th smallest value (counting from 0,
    [r = floor(count * q)]) - the lower edge in case of the last bin. *)
Theorem C34_quantile : forall nbins q lo hi (values s : list f32) r, 1 <= nbins -> (Z.of_nat nbins <= 2 ^ 24)%Z ->
  f_is_finite lo = true -> f_is_finite hi = true -> f_lt lo hi = true ->
  sorted_version f_le values s -> (N.of_nat (length values) < 2 ^ 32)%N ->
  f_to_u32 (f_floor (f_mul (f_of_nat (length values)) q)) = Z.of_nat r -> r < length values ->
  exists b i, binner_of N b nbins lo hi /\ quantile f32ops nbins q (lo, hi) values = Ok (bin_representative b (i + 1)) /\
    get_bin b (nth r s f_nan) = i.
Proof.
  intros nbins q lo hi values s r H1 Hn Fl Fh Hlt (Hp & Hs) Hc Hr Hlen.
  destruct (proj2 (C32_new N (repeat 0%N nbins) lo hi)) as (b0 & E0).
  { repeat split; try assumption. destruct nbins; [lia|discriminate]. }
  destruct (C32_counters nbins lo hi b0 (map (fun v => (v, 1%N)) values) E0) as (b & Ei & L & Hcnt).
  { rewrite map_map. cbn [snd]. replace (sumN (map (fun _ : f32 => 1%N) values)) with (N.of_nat (length values)); [exact Hc|].
    clear. induction values as [|v l IH]; [reflexivity|]. cbn [map sumN length]. rewrite <- IH. lia. }
  rewrite map_map in Ei. cbn [fst snd] in Ei.
  assert (binner_of N b nbins lo hi) as Hof.
  { exists (repeat 0%N nbins), b0, (map (fun v => (v, u32_inc 1)) values). split; [apply repeat_length|]. split; assumption. }
  pose proof (binner_of_ok _ _ _ _ _ Hof) as (_ & _ & _ & Hne & _).
  destruct (bin_with_rank_ok N N 0%N N.leb N.add (fun x => x) b (N.of_nat r) Hne) as (i & Eb & Hb); [apply N.leb_le; lia|].
  exists b, i. split; [exact Hof|]. split.
  - unfold quantile. cbn [fst snd]. rewrite E0. cbn [rbind]. rewrite (Ei : binner_insert_all b0 (map (fun v : num f32ops => (v, u32_inc 1)) values) = Ok b). cbn [rbind].
    change (ntoZ f32ops 0 4294967295 (nfloor f32ops (nmul f32ops (nofnat f32ops (length values)) q))) with (f_to_u32 (f_floor (f_mul (f_of_nat (length values)) q))).
    rewrite Hr. replace (Z.to_N (Z.of_nat r)) with (N.of_nat r) by lia. rewrite Eb. reflexivity.
  - apply (rank_is_rth (get_bin b) values s (bn_bins b) f_nan i r); auto.
    + intros j Hj. rewrite L in Hj. rewrite (Hcnt j Hj). unfold count_in. f_equal. clear.
      induction values as [|v l IH]; [reflexivity|]. cbn [map filter fst]. destruct (get_bin b v =? j); cbn [map sumN snd length]; rewrite IH; lia.
    + intros v _. apply get_bin_valid, Hne.
    + clear - Hs Hof Hn. induction Hs as [|x s Hs IH Hx]; constructor; [exact IH|].
      apply Forall_forall. intros y Hy. rewrite Forall_forall in Hx. apply (C32_monotone N b nbins lo hi); auto.
Qed.
Print Assumptions C34_quantile.

Lemma floor_bin (n i : nat) (x : R) : (Z.of_nat n <= 2 ^ 62)%Z -> (0 <= x <= INR n)%R ->
  i = Z.to_nat (Z.min (Z.max (Z.max ISIZE_MIN (Z.min ISIZE_MAX (Ztrunc (IZR (Zfloor x))))) 0) (Z.of_nat (n - 1))) -> 1 <= n ->
  (INR i <= x <= INR i + 1)%R.
Proof.
  intros Hn Hx -> H1. rewrite Ztrunc_IZR. pose proof (Zfloor_lb x) as Lb. pose proof (Zfloor_ub x) as Ub.
  rewrite INR_IZR_INZ in Hx. assert (0 <= Zfloor x)%Z as H0 by (apply Zfloor_lub; lra).
  assert (Zfloor x <= Z.of_nat n)%Z as Hle by (rewrite <- (Zfloor_IZR (Z.of_nat n)); apply Zfloor_le; lra).
  assert (Z.max ISIZE_MIN (Z.min ISIZE_MAX (Zfloor x)) = Zfloor x) as E by (unfold ISIZE_MIN, ISIZE_MAX; lia). rewrite E, Z.max_l by lia.
  rewrite INR_IZR_INZ. destruct (Z.eq_dec (Zfloor x) (Z.of_nat n)) as [Heq|Hne].
  - rewrite Heq. replace (Z.of_nat (Z.to_nat (Z.min (Z.of_nat n) (Z.of_nat (n - 1))))) with (Z.of_nat n - 1)%Z by lia. rewrite minus_IZR. rewrite Heq in Lb. lra.
  - replace (Z.of_nat (Z.to_nat (Z.min (Zfloor x) (Z.of_nat (n - 1))))) with (Zfloor x) by lia. lra.
Qed.

(** Exact arithmetic: the reported value is within one bin width of every value of its bin, hence (by [C34_quantile]'s
    argument) of the true quantile. *)
Theorem C34_within_one_bin : forall (nbins : nat) (bins : list N) (lo hi v : R), length bins = nbins -> 1 <= nbins -> (Z.of_nat nbins <= 2 ^ 62)%Z ->
  (lo < hi)%R -> (lo <= v <= hi)%R ->
  exists b, @binner_new Rops N bins lo hi = Ok b /\
    (Rabs (bin_representative b (get_bin b v + 1) - v) <= (hi - lo) / INR nbins)%R.
Proof.
  intros nbins bins lo hi v Hl H1 Hn Hlt Hv. unfold binner_new. cbn [Rops nisfin nlt rassert rbind].
  rewrite Rlt_bool_true by exact Hlt. replace (length bins =? 0) with false by (symmetry; apply Nat.eqb_neq; lia). cbn [rassert rbind negb].
  eexists. split; [reflexivity|]. set (b := mk_binner _ _ _). set (d := ((hi - lo) / INR nbins)%R).
  assert (1 <= INR nbins)%R as Hnr by (rewrite INR_IZR_INZ; apply IZR_le; lia).
  assert (0 < d)%R as Hd by (apply Rmult_lt_0_compat; [lra|apply Rinv_0_lt_compat; lra]).
  assert (bn_delta b = d) as Ed by (subst b; cbn; unfold nofnat; cbn; rewrite Hl, <- INR_IZR_INZ; reflexivity).
  assert (length (bn_bins b) = nbins) as El by exact Hl.
  assert (INR (get_bin b v) <= (v - lo) / d <= INR (get_bin b v) + 1)%R as Hb.
  { apply (floor_bin nbins); [exact Hn| |unfold get_bin; cbn [Rops ndiv nsub nfloor ntoZ]; rewrite Ed, El; reflexivity|exact H1].
    split.
    - apply Rmult_le_pos; [lra|apply Rlt_le, Rinv_0_lt_compat, Hd].
    - apply Rmult_le_reg_r with d; [exact Hd|]. unfold Rdiv at 1. rewrite Rmult_assoc, Rinv_l by lra. unfold d. field_simplify; lra. }
  assert (get_bin b v < nbins) as Hlt' by (rewrite <- El; apply get_bin_valid; intros Hc; rewrite Hc in El; cbn in El; lia).
  unfold bin_representative. cbn [Rops nadd nmul]. unfold nofnat. cbn [Rops nofZ]. rewrite Ed, El, <- INR_IZR_INZ. change (bn_min b) with lo.
  assert (v = lo + (v - lo) / d * d)%R as Ev by (field; lra). set (x := ((v - lo) / d)%R) in *.
  replace (lo + INR (Nat.min (get_bin b v + 1) (nbins - 1)) * d - v)%R with ((INR (Nat.min (get_bin b v + 1) (nbins - 1)) - x) * d)%R by lra.
  rewrite Rabs_mult, (Rabs_pos_eq d) by lra. rewrite <- (Rmult_1_l d) at 2. apply Rmult_le_compat_r; [lra|].
  apply Rabs_le. destruct (Nat.le_gt_cases (get_bin b v + 1) (nbins - 1)) as [Hle|Hgt].
  - rewrite Nat.min_l by exact Hle. rewrite plus_INR. cbn [INR]. lra.
  - rewrite Nat.min_r by lia. replace (nbins - 1) with (get_bin b v) by lia. lra.
Qed.
Print Assumptions C34_within_one_bin.

Example C34_instance : let vals := map f_of_Z [7; 1; 9; 3; 5]%Z in
  sorted_version f_le vals (map f_of_Z [1; 3; 5; 7; 9]%Z) /\
  f_to_u32 (f_floor (f_mul (f_of_nat (length vals)) (f_div f_one (f_of_Z 2)))) = 2%Z /\
  match quantile f32ops 4 (f_div f_one (f_of_Z 2)) (f_of_Z 1, f_of_Z 9) vals with Ok x => f_eq x (f_of_Z 7) = true | _ => False end.
Proof.
  cbv zeta. split; [split|split; vm_compute; reflexivity].
  - cbn [map]. apply Permutation_trans with (map f_of_Z [1; 7; 9; 3; 5]%Z); [apply perm_swap|]. apply perm_skip.
    apply Permutation_trans with (map f_of_Z [7; 3; 9; 5]%Z); [apply perm_skip, perm_swap|].
    apply Permutation_trans with (map f_of_Z [3; 7; 9; 5]%Z); [apply perm_swap|]. apply perm_skip.
    apply Permutation_trans with (map f_of_Z [7; 5; 9]%Z); [apply perm_skip, perm_swap|]. apply perm_swap.
  - cbn [map]. repeat constructor.
Qed.
