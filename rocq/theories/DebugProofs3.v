(** The split candidates of numerical features in f32: the ranks stay below the total of the bins. *)
From Coq Require Import Reals Psatz.
From Flocq Require Import Core BinarySingleNaN.
From Verif Require Import Base BaseProofs F32 F32Proofs Num ScaledProofs Config DataModel BinnerModel BinnerSpec BinnerProofs DatasetModel DatasetProofs3 DatasetProofs6 TotalProofs TotalProofs2
  DebugModel DebugSpec DebugProofs DebugProofs2 SumErrProofs.
Local Open Scope R_scope.

Lemma eps_exact : is_finite (EPSILON f32ops : f32) = true /\ B2R' (EPSILON f32ops : f32) = bpow radix2 (-23).
Proof.
  unfold EPSILON. cbn [ndiv nofZ f32ops]. destruct (f_of_Z_exact 1) as [F1 B1]; [cbn; lia|]. destruct (f_of_Z_exact 8388608) as [F2 B2]; [cbn; lia|].
  assert (IZR 1 / IZR 8388608 = bpow radix2 (-23)) as E by (cbn; lra).
  assert (rnd (bpow radix2 (-23)) = bpow radix2 (-23)) as G by (apply rnd_generic, generic_format_bpow; cbn; lia).
  destruct (rnd_finite (f_div (f_of_Z 1) (f_of_Z 8388608)) (bpow radix2 (-23))) as [F B].
  - rewrite <- E, <- B1, <- B2. apply div_repr; [exact F1|exact F2|rewrite B2; lra].
  - rewrite G, Rabs_pos_eq by (apply bpow_ge_0). apply bpow_lt. lia.
  - split; [exact F|]. rewrite B. exact G.
Qed.
Lemma weight_ok (g : f32) : is_finite g = true -> Rabs (B2R g) <= bpow radix2 100 ->
  let w := f_add (f_abs g) (EPSILON f32ops : f32) in is_finite w = true /\ bpow radix2 (-23) <= B2R' w <= bpow radix2 101.
Proof.
  intros F H. destruct eps_exact as [Fe Be]. assert (is_finite (f_abs g) = true /\ B2R' (f_abs g) = Rabs (B2R' g)) as [Fa Ba].
  { split; [unfold f_abs; rewrite is_finite_Babs; exact F|unfold f_abs; apply B2R_Babs]. }
  pose proof (bpow_gt_0 radix2 (-23)) as P. pose proof (Rabs_pos (B2R' g)) as Pg.
  assert (bpow radix2 (-23) <= B2R' (f_abs g) + B2R' (EPSILON f32ops : f32) <= bpow radix2 101) as Hs.
  { rewrite Ba, Be. split; [lra|]. change 101%Z with (1 + 100)%Z. rewrite bpow_plus. assert (bpow radix2 (-23) <= bpow radix2 100) by (apply bpow_le; lia). cbn [bpow radix2 Z.pow_pos] in *. cbn in *. lra. }
  assert (bpow radix2 (-23) <= rnd (B2R' (f_abs g) + B2R' (EPSILON f32ops : f32)) <= bpow radix2 101) as Hr.
  { split; [rewrite <- (rnd_generic (bpow radix2 (-23))) at 1 by (apply generic_format_bpow; cbn; lia)|rewrite <- (rnd_generic (bpow radix2 101)) by (apply generic_format_bpow; cbn; lia)]; apply rnd_mono, Hs. }
  destruct (rnd_finite _ _ (add_repr _ _ Fa Fe)) as [Fw Bw].
  { rewrite Rabs_pos_eq by lra. eapply Rle_lt_trans; [apply Hr|]. apply bpow_lt. lia. }
  cbv zeta. split; [exact Fw|]. rewrite Bw. exact Hr.
Qed.

Lemma Forall2_upd A B (P : A -> B -> Prop) l l' i x y : Forall2 P l l' -> P x y -> Forall2 P (upd l i x) (upd l' i y).
Proof. intros H Hp. revert i. induction H as [|a b l l' Hab Hl IH]; intros [|i]; cbn; constructor; auto. Qed.
Lemma Forall2_len A B (P : A -> B -> Prop) l l' : Forall2 P l l' -> length l = length l'.
Proof. induction 1; cbn; congruence. Qed.
Lemma Forall2_nth A B (P : A -> B -> Prop) l l' i x y : Forall2 P l l' -> nth_error l i = Some x -> nth_error l' i = Some y -> P x y.
Proof. intros H. revert i. induction H as [|a c l l' Hac _ IH]; intros [|i] Ex Er; cbn in *; try discriminate; [congruence|eapply IH; eassumption]. Qed.
Lemma Forall2_impl A B (P Q : A -> B -> Prop) l l' : (forall a b, P a b -> Q a b) -> Forall2 P l l' -> Forall2 Q l l'.
Proof. intros H. induction 1; constructor; auto. Qed.
Lemma total_upd (l : list R) i x y : nth_error l i = Some x -> total (upd l i y) = total l + (y - x).
Proof. revert i. induction l as [|z l IH]; intros [|i] H; cbn in H; try discriminate; cbn; [injection H as ->; ring|]. unfold total in IH. rewrite (IH i H). ring. Qed.
Lemma elem_le_total l i x : Forall (fun r => 0 <= r) l -> nth_error l i = Some x -> 0 <= x <= total l.
Proof. intros H. revert i. induction H as [|y l Hy Hl IH]; intros [|i] E; cbn in E; try discriminate; pose proof (total_nn l Hl); cbn; unfold total in *; [injection E as ->; lra|]. apply IH in E. lra. Qed.
Lemma near_list_nn k ws rs : Forall2 (near k) ws rs -> Forall (fun r => 0 <= r) rs.
Proof. induction 1 as [|? ? ? ? (_ & H & _) _ IH]; constructor; assumption. Qed.

(** The weight of an item, as a real number. *)
Definition wR (it : f32 * f32) : R := B2R' (snd it).
Lemma insert_near (items : list (f32 * f32)) : forall k (b b' : binner f32ops f32) E, Forall2 (near k) (bn_bins b) E -> Forall (fun it => is_finite (snd it) = true /\ 0 <= B2R' (snd it)) items ->
  hi (k + length items) * (total E + total (map wR items)) <= bpow radix2 127 ->
  binner_insert_all b (map (fun it => (fst it, fun x => nadd f32ops x (snd it))) items) = Ok b' ->
  exists E', Forall2 (near (k + length items)) (bn_bins b') E' /\ total E' = total E + total (map wR items).
Proof.
  induction items as [|(v, w) t IH]; intros k b b' E HE HF Hb H; cbn [map binner_insert_all fst snd length total fold_right] in *.
  - injection H as <-. exists E. rewrite Nat.add_0_r. split; [exact HE|ring].
  - inversion HF as [|? ? [Fw Pw] HF']; subst. cbn [snd] in *. apply rbind_ok in H as (b1 & E1 & H). unfold binner_insert in E1. apply rbind_ok in E1 as (x & Ex & E1). apply rbind_ok in E1 as (bins & Eb & E1). injection E1 as <-.
    apply set_idx_ok in Eb as [Hlt ->]. apply idx_ok in Ex. set (i := get_bin b v) in *.
    assert (0 <= total (map wR t)) as Ht. { apply total_nn. clear - HF'. induction HF' as [|? ? [_ ?] _ IH]; constructor; assumption. }
    destruct (nth_error E i) as [r|] eqn:Er.
    2:{ apply nth_error_None in Er. rewrite <- (Forall2_len _ _ _ _ _ HE) in Er. exfalso. apply (Nat.lt_irrefl i). eapply Nat.lt_le_trans; [exact Hlt|exact Er]. }
    assert (near k x r) as Hx. { eapply Forall2_nth; eassumption. }
    pose proof (elem_le_total E i r (near_list_nn _ _ _ HE) Er) as Hr. pose proof (hi_mono k (k + S (length t)) ltac:(lia)) as Hm. pose proof (hi_ge1 k) as H1.
    change (wR (v, w)) with (B2R' w) in *. destruct (IH (S k) (mk_binner (upd (bn_bins b) i (f_add x w)) (bn_min b) (bn_delta b)) b' (upd E i (r + B2R' w))) as (E' & HE' & HT').
    + cbn [bn_bins]. apply Forall2_upd; [eapply Forall2_impl; [|exact HE]; intros ? ? Hn; eapply near_weaken; [|exact Hn]; lia|].
      apply near_add; [exact Hx|eapply near_weaken; [|apply near_exact; [exact Fw|exact Pw]]; lia|]. eapply Rle_trans; [|exact Hb]. apply Rle_trans with (hi (k + S (length t)) * (r + B2R' w)); [apply Rmult_le_compat_r; lra|].
      apply Rmult_le_compat_l; [pose proof (hi_ge1 (k + S (length t))); lra|]. unfold total in Ht. lra.
    + exact HF'.
    + rewrite (total_upd _ _ _ _ Er). replace (S k + length t)%nat with (k + S (length t))%nat by lia. eapply Rle_trans; [|exact Hb]. apply Rmult_le_compat_l; [pose proof (hi_ge1 (k + S (length t))); lra|unfold total in *; lra].
    + exact H.
    + exists E'. replace (k + S (length t))%nat with (S k + length t)%nat by lia. split; [exact HE'|]. rewrite HT', (total_upd _ _ _ _ Er). unfold total. ring.
Qed.

Lemma inside_f32 (bins : list f32) L (rk : f32) : length bins = L -> is_finite rk = true -> 0 <= B2R' rk -> (forall k, (k <= L)%nat -> is_finite (cumulative (f_of_Z 0) f_add (fun x => x) bins k) = true) ->
  B2R' rk <= B2R' (cumulative (f_of_Z 0) f_add (fun x => x) bins L) -> rank_inside f32 f32 (f_of_Z 0) f_le f_add (fun x => x) bins rk.
Proof.
  intros HL Frk Prk Hc Hle. destruct (f_of_Z_exact 0) as [F0 B0]; [cbn; lia|].
  split; [apply f_le_key; [apply fin_nan, F0|apply fin_nan, Frk|]; rewrite (key_finite _ F0), (key_finite _ Frk), B0; exact Prk|]. split.
  - rewrite HL. pose proof (Hc L (le_n L)) as Fc. apply f_le_key; [apply fin_nan, Frk|apply fin_nan, Fc|]. rewrite (key_finite _ Fc), (key_finite _ Frk). exact Hle.
  - intros k Hk Hf. rewrite HL in Hk. pose proof (Hc k Hk) as Fc. set (c := cumulative _ _ _ bins k) in *. apply f_le_key; [apply fin_nan, Frk|apply fin_nan, Fc|].
    destruct (Rle_lt_dec (key c) (key rk)) as [H|Hlt]; [|exact (Rlt_le _ _ Hlt)]. apply (f_le_key c rk (fin_nan _ Fc) (fin_nan _ Frk)) in H. rewrite H in Hf. discriminate Hf.
Qed.

Lemma num_same_f32 (cfg : config f32ops) col grad lim ex r : (0 < length ex)%nat -> few_enough (length ex) (c_max_nbins cfg) -> ordinary_gradients grad ->
  num_candidates cfg col grad lim ex = Ok r -> num_candidates_dbg f32ops cfg col grad lim ex = Ok r.
Proof.
  intros Hex Hfew Hg H. unfold num_candidates in H. unfold num_candidates_dbg.
  apply rbind_ok in H as (b0 & Eb0 & H). rewrite Eb0. cbn [rbind]. apply rbind_ok in H as (items & Ei & H). rewrite Ei. cbn [rbind].
  apply rbind_ok in H as (b & Eb & H). rewrite Eb. cbn [rbind]. cbv zeta in *. apply rbind_ok in H as (qs & Eq & H).
  unfold rank_iter_all in Eq. unfold rank_iter_all_dbg. rewrite (ranks_of_same _ _ _ _ _ _ (bn_bins b) _ _ qs (at_start _ _ _ (nle f32ops) _ _ _)); [cbn [rbind]; exact H| |exact Eq].
  intros x Hx. apply in_map_iff in Hx as (i & <- & Hi). apply in_seq in Hi. clear Eq H.
  set (m := c_max_nbins cfg) in *. set (n := length ex) in *. unfold few_enough in Hfew.
  assert (length items = n) as Hlen by (unfold num_items in Ei; apply mapM_length in Ei; exact Ei).
  assert (Forall (fun it : f32 * f32 => is_finite (snd it) = true /\ bpow radix2 (-23) <= B2R' (snd it) <= bpow radix2 101) items) as HW.
  { unfold num_items in Ei. apply mapM_ok in Ei. clear - Ei Hg. induction Ei as [|j it l l' E _ IH]; constructor; [|exact IH].
    apply rbind_ok in E as (v & _ & E). apply rbind_ok in E as (g & Eg & E). apply idx_ok, nth_error_In in Eg. destruct (Hg g Eg) as [Fg Bg].
    apply (f_equal (fun r => match r with Ok p => p | _ => (g, g) end)) in E. rewrite <- E. cbn [snd]. exact (weight_ok g Fg Bg). }
  pose proof (bpow_gt_0 radix2 (-23)) as Peps.
  assert (Forall (fun it : f32 * f32 => is_finite (snd it) = true /\ 0 <= B2R' (snd it)) items) as HW0.
  { eapply Forall_impl; [|exact HW]. intros it [F [L _]]. split; [exact F|lra]. }
  set (S := total (map wR items)).
  assert (IZR (Z.of_nat n) * bpow radix2 (-23) <= S <= IZR (Z.of_nat n) * bpow radix2 101) as HS.
  { unfold S. rewrite <- Hlen. clear - HW. induction HW as [|it t (_ & A & B) _ IH]; cbn [map total fold_right length]; [cbn; lra|]. rewrite Nat2Z.inj_succ, succ_IZR. unfold total in IH. change (wR it) with (B2R' (snd it)). lra. }
  assert (1 <= IZR (Z.of_nat n)) as Hn1 by (apply (IZR_le 1); lia). assert (IZR (Z.of_nat n) <= 8388608) as Hn2 by (apply IZR_le; nia).
  assert (bpow radix2 (-23) <= S) as HS1 by nra.
  assert (S <= bpow radix2 124) as HS2. { change 124%Z with (23 + 101)%Z. rewrite bpow_plus. pose proof (bpow_gt_0 radix2 101). change (bpow radix2 23) with 8388608. nra. }
  assert (IZR (Z.of_nat (2 * n + 514)) * u <= / IZR (Z.of_nat (m + 1))) as HK.
  { pose proof (nat_pos m) as Hm. apply Rmult_le_reg_r with (IZR (Z.of_nat (m + 1))); [exact Hm|]. rewrite Rinv_l by lra.
    assert (IZR (Z.of_nat (2 * n + 514)) * IZR (Z.of_nat (m + 1)) <= 16777216) by (rewrite <- mult_IZR; apply IZR_le; lia). nra. }
  pose proof (nat_pos m) as Hm. assert (/ IZR (Z.of_nat (m + 1)) <= / 2) as Hm2. { apply Rinv_le; [lra|]. apply (IZR_le 2). lia. }
  assert (forall k, (k <= n + 512)%nat -> hi k <= 2) as Hhi.
  { intros k Hk. apply hi_two. apply Rle_trans with (IZR (Z.of_nat (2 * n + 514)) * u); [|lra]. apply Rmult_le_compat_r; [lra|]. apply IZR_le. lia. }
  assert (forall k r, (k <= n + 512)%nat -> 0 <= r <= S -> hi k * r <= bpow radix2 127) as Hov.
  { intros k r0 Hk [Hr0 Hr1]. pose proof (Hhi k Hk). pose proof (hi_ge1 k). apply Rle_trans with (2 * bpow radix2 124); [nra|]. change 2 with (bpow radix2 1). rewrite <- bpow_plus. apply bpow_le. lia. }
  destruct (f_of_Z_exact 0) as [F0 B0]; [cbn; lia|]. assert (near 0 (f_of_Z 0) 0) as N0. { rewrite <- B0. apply near_exact; [exact F0|rewrite B0; lra]. }
  (* the sum of the weights *)
  assert (near n (fold_left (fun a (it : f32 * f32) => f_add a (snd it)) items (f_of_Z 0)) S) as Hws.
  { assert (Forall2 (near 0) (map snd items) (map wR items)) as HF2. { clear - HW0. induction HW0 as [|it t [F P] _ IH]; cbn [map]; constructor; [apply near_exact; assumption|exact IH]. }
    pose proof (near_sum 0 _ _ HF2 0 (f_of_Z 0) 0 (le_n 0) N0) as HN. rewrite map_length in HN. cbn [Nat.add] in HN. rewrite Rplus_0_l in HN. fold S in HN.
    replace (fold_left (fun a (it : f32 * f32) => f_add a (snd it)) items (f_of_Z 0)) with (fold_left f_add (map snd items) (f_of_Z 0)).
    - rewrite <- Hlen. apply HN. apply Hov; [lia|lra].
    - generalize (f_of_Z 0). clear. induction items as [|it t IH]; intros a; cbn; [reflexivity|apply IH]. }
  (* the bins *)
  assert (exists E, Forall2 (near n) (bn_bins b) E /\ total E = S) as (E & HE & HT).
  { assert (bn_bins b0 = repeat (f_of_Z 0) QUANTILE_EST_NBINS) as B0' by (unfold binner_new in Eb0; repeat (apply rbind_ok in Eb0 as (? & _ & Eb0)); apply (f_equal (fun r => match r with Ok p => p | _ => b end)) in Eb0; rewrite <- Eb0; reflexivity).
    assert (forall k, Forall2 (near 0) (repeat (f_of_Z 0) k) (repeat 0 k)) as HR by (induction k; cbn; constructor; assumption).
    assert (forall k, total (repeat 0 k) = 0) as HR0 by (induction k; cbn; [reflexivity|unfold total in *; lra]).
    destruct (insert_near items 0 b0 b (repeat 0 QUANTILE_EST_NBINS)) as (E & HE & HT); [exact (eq_ind_r (fun l => Forall2 (near 0) l (repeat 0 QUANTILE_EST_NBINS)) (HR _) B0')|exact HW0| |exact Eb|].
    - rewrite HR0, Rplus_0_l. cbn [Nat.add]. fold S. apply Hov; [eapply Nat.le_trans; [apply Nat.eq_le_incl; exact Hlen|lia]|lra].
    - rewrite HR0, Rplus_0_l in HT. fold S in HT. cbn [Nat.add] in HE. exists E. split; [exact (eq_ind _ (fun k => Forall2 (near k) (bn_bins b) E) HE _ Hlen)|exact HT]. }
  assert (length (bn_bins b) = 512%nat) as HL.
  { assert (length (bn_bins b0) = 512%nat) as L0.
    { unfold binner_new in Eb0. repeat (apply rbind_ok in Eb0 as (? & _ & Eb0)). apply (f_equal (fun r => match r with Ok p => length (bn_bins p) | _ => 0%nat end)) in Eb0. exact (eq_trans (eq_sym Eb0) (repeat_length (nofZ f32ops 0) 512)). }
    destruct (insert_all_ok f32ops f32 (map (fun it : f32 * f32 => (fst it, fun x => f_add x (snd it))) items) b0) as (b' & Eb' & _ & _ & HL & _).
    - intros E0. pose proof (eq_trans (eq_sym (f_equal (@length f32) E0)) L0) as C. cbn in C. lia.
    - assert (b' = b) as -> by (exact (f_equal (fun r => match r with Ok p => p | _ => b end) (eq_trans (eq_sym Eb') Eb))). exact (eq_trans HL L0). }
  assert (forall k, (k <= 512)%nat -> near (n + k) (cumulative (f_of_Z 0) f_add (fun x => x) (bn_bins b) k) (total (firstn k E))) as Hcum.
  { intros k Hk. unfold cumulative. rewrite map_id. assert (Forall2 (near n) (firstn k (bn_bins b)) (firstn k E)) as HEk.
    { clear - HE. revert k. induction HE as [|? ? ? ? ? _ IH]; intros [|k]; cbn; constructor; auto. }
    assert (length (firstn k (bn_bins b)) = k) as Hlk by (apply firstn_length_le; rewrite HL; exact Hk).
    pose proof (near_sum n _ _ HEk n (f_of_Z 0) 0 (le_n n) (near_weaken 0 n _ _ ltac:(lia) N0)) as HN. rewrite Rplus_0_l in HN.
    assert (forall z, length (firstn k (bn_bins b)) = z -> hi (n + z) * total (firstn k E) <= bpow radix2 127 -> near (n + z) (fold_left f_add (firstn k (bn_bins b)) (f_of_Z 0)) (total (firstn k E))) as HN' by (intros z <-; exact HN).
    apply (HN' k Hlk). apply Hov; [lia|].
    pose proof (near_list_nn _ _ _ HE) as HP. rewrite <- HT. clear - HP. revert k. induction HP as [|y l Hy Hl IH]; intros [|k]; cbn; try lra; [pose proof (total_nn _ Hl); unfold total in *; lra|]. specialize (IH k). unfold total in IH. lra. }
  (* the rank *)
  destruct (f_of_Z_exact (Z.of_nat (m + 1))) as [Fm Bm]; [lia|]. destruct (f_of_Z_exact (Z.of_nat i)) as [Fi Bi]; [lia|].
  assert (1 <= IZR (Z.of_nat i)) as Hi1 by (apply (IZR_le 1); lia).
  assert (IZR (Z.of_nat (m + 1)) <= 16777216) as HmB by (apply IZR_le; lia). assert (2 <= IZR (Z.of_nat (m + 1))) as HmA by (apply (IZR_le 2); lia).
  assert (forall k, (k <= n + 512)%nat -> / 2 <= lo k) as Hlo.
  { intros k Hk. pose proof (lo_bernoulli k) as HB. assert (IZR (Z.of_nat k) * u <= IZR (Z.of_nat (2 * n + 514)) * u); [|lra]. apply Rmult_le_compat_r; [lra|]. apply IZR_le. lia. }
  set (D := IZR (Z.of_nat (m + 1))) in *. set (I := IZR (Z.of_nat i)) in *. set (q := S / D) in *.
  assert (bpow radix2 (-48) <= q <= S) as Hq.
  { unfold q. split; [|apply Rmult_le_reg_r with D; [lra|]; unfold Rdiv; rewrite Rmult_assoc, Rinv_l by lra; nra].
    apply Rmult_le_reg_r with D; [lra|]. unfold Rdiv. rewrite Rmult_assoc, Rinv_l by lra. change (-48)%Z with (-23 + (-25))%Z. rewrite bpow_plus. change (bpow radix2 (-25)) with (/ 33554432). nra. }
  assert (near (Datatypes.S n) (f_div (fold_left (fun a (it : f32 * f32) => f_add a (snd it)) items (f_of_Z 0)) (f_of_Z (Z.of_nat (m + 1)))) q) as Hstep.
  { apply near_div; [exact Hws|exact Fm|exact Bm|fold D; lra| |].
    - pose proof (Hlo n ltac:(lia)) as Hl. fold D. replace (lo n * S / D) with (lo n * q) by (unfold q; field; lra).
      apply Rle_trans with (bpow radix2 (-49)); [apply bpow_le; lia|]. change (-49)%Z with (-1 + (-48))%Z. rewrite bpow_plus. change (bpow radix2 (-1)) with (/ 2). pose proof (bpow_gt_0 radix2 (-48)). nra.
    - fold D. replace (hi n * S / D) with (hi n * q) by (unfold q; field; lra). apply Hov; [lia|]. pose proof (bpow_gt_0 radix2 (-48)). lra. }
  assert (I * q <= S * (1 - / D)) as HIq. { unfold q, I, D. rewrite <- frac_lt1. apply frac_le; [lia|lra]. }
  assert (I * q <= S) as HIS. { pose proof (Rinv_0_lt_compat D ltac:(lra)). nra. }
  assert (near (Datatypes.S (Datatypes.S n)) (f_mul (f_of_Z (Z.of_nat i)) (f_div (fold_left (fun a (it : f32 * f32) => f_add a (snd it)) items (f_of_Z 0)) (f_of_Z (Z.of_nat (m + 1))))) (I * q)) as Hrk.
  { pose proof (bpow_gt_0 radix2 (-48)). apply near_mul; [exact Hstep|exact Fi|exact Bi|fold I; lra| |].
    - fold I. pose proof (Hlo (Datatypes.S n) ltac:(lia)) as Hl. apply Rle_trans with (bpow radix2 (-49)); [apply bpow_le; lia|]. change (-49)%Z with (-1 + (-48))%Z. rewrite bpow_plus. change (bpow radix2 (-1)) with (/ 2). rewrite <- (Rmult_1_l (/ 2 * _)). apply Rmult_le_compat; [lra|lra|exact Hi1|]. apply Rmult_le_compat; lra.
    - fold I. replace (I * (hi (Datatypes.S n) * q)) with (hi (Datatypes.S n) * (I * q)) by ring. apply Hov; [lia|]. split; [nra|exact HIS]. }
  set (rk := f_mul _ _) in Hrk. change (rank_inside f32 f32 (f_of_Z 0) f_le f_add (fun x => x) (bn_bins b) rk).
  pose proof (near_nn _ _ _ Hrk) as Prk. destruct Hrk as (Frk & _ & _ & Urk).
  apply (inside_f32 (bn_bins b) 512 rk HL Frk Prk); [intros k Hk; destruct (Hcum k Hk) as (Fc & _); exact Fc|].
  - destruct (Hcum 512%nat (le_n _)) as (Fc & _ & Lc & _).
    assert (length E = 512%nat) as HLE by (exact (eq_trans (eq_sym (Forall2_len _ _ _ _ _ HE)) HL)).
    rewrite firstn_all2 in Lc by lia. rewrite HT in Lc. eapply Rle_trans; [exact Urk|]. eapply Rle_trans; [|exact Lc].
    apply Rle_trans with (hi (Datatypes.S (Datatypes.S n)) * (S * (1 - / D))); [apply Rmult_le_compat_l; [pose proof (hi_ge1 (Datatypes.S (Datatypes.S n))); lra|exact HIq]|].
    set (h := hi (Datatypes.S (Datatypes.S n))). set (l := lo (n + 512)). assert (h * (1 - / D) <= l); [|nra].
    pose proof (lo_bernoulli (2 * n + 514)) as HB. replace (2 * n + 514)%nat with (n + 512 + Datatypes.S (Datatypes.S n))%nat in HB at 2 by lia. rewrite lo_add in HB. fold l in HB.
    pose proof (lo_hi (Datatypes.S (Datatypes.S n))) as HH. fold h in HH. pose proof (lo_pos (n + 512)) as Pl. fold l in Pl. pose proof (hi_ge1 (Datatypes.S (Datatypes.S n))) as Ph. fold h in Ph.
    set (l2 := lo (Datatypes.S (Datatypes.S n))) in *. assert (1 - / D <= l * l2) as HX by lra. apply Rle_trans with (h * (l * l2)); [apply Rmult_le_compat_l; lra|]. replace (h * (l * l2)) with (l * (l2 * h)) by ring. nra.
Qed.
