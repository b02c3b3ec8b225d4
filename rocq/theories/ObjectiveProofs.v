(** Proofs about the objectives in exact arithmetic. *)
From Coq Require Import Reals Lra Psatz Sorting.Sorted Sorting.Permutation.
From Flocq Require Import Core BinarySingleNaN.
From Verif Require Import Base BaseProofs F32 Num BinnerModel BinnerSpec BinnerProofs BinnerProps Config ObjectiveModel MetricSpec MetricProps ObjectiveSpec.
Local Open Scope R_scope.

(* ---- derivatives ---- *)
(** A function within [c u^2] of its linear approximation is differentiable. *)
Lemma quadratic_derivable f x l c : 0 <= c -> (forall u, Rabs (f (x + u) - f x - l * u) <= c * u ^ 2) -> derivable_pt_lim f x l.
Proof.
  intros Hc H eps He. assert (0 < eps / (c + 1)) as Hd by (apply Rmult_lt_0_compat; [exact He|apply Rinv_0_lt_compat; lra]).
  exists (mkposreal _ Hd). intros h Hh Hlt. cbn [pos] in Hlt. specialize (H h).
  replace ((f (x + h) - f x) / h - l) with ((f (x + h) - f x - l * h) / h) by (field; exact Hh).
  unfold Rdiv. rewrite Rabs_mult, Rabs_inv. assert (0 < Rabs h) as Hp by (apply Rabs_pos_lt, Hh).
  apply Rmult_lt_reg_r with (Rabs h); [exact Hp|]. rewrite Rmult_assoc, Rinv_l, Rmult_1_r by lra.
  apply Rle_lt_trans with (c * h ^ 2); [exact H|]. rewrite <- (pow2_abs h).
  assert (Rabs h * (c + 1) < eps) as Hx.
  { apply Rmult_lt_reg_r with (/ (c + 1)); [apply Rinv_0_lt_compat; lra|]. rewrite Rmult_assoc, Rinv_r by lra. unfold Rdiv in Hlt. lra. }
  nra.
Qed.
Lemma L2_derivable t p : derivable_pt_lim (fun p => (t - p) ^ 2 / 2) p (- (t - p)).
Proof.
  apply (quadratic_derivable _ _ _ (1 / 2)); [lra|]. intros u.
  replace ((t - (p + u)) ^ 2 / 2 - (t - p) ^ 2 / 2 - - (t - p) * u) with (1 / 2 * u ^ 2) by field.
  rewrite Rabs_pos_eq; [lra|]. pose proof (pow2_ge_0 u). lra.
Qed.

(** The derivative of Huber's loss: the error, clamped. *)
Definition psi (delta e : R) : R := Rmax (- delta) (Rmin delta e).
Lemma psi_cases d e : 0 <= d -> (Rabs e <= d /\ psi d e = e) \/ (d < e /\ psi d e = d) \/ (e < - d /\ psi d e = - d).
Proof.
  intros Hd. unfold psi. destruct (Rlt_dec d e) as [H|H].
  - right. left. split; [exact H|]. rewrite Rmin_left, Rmax_right by lra. reflexivity.
  - rewrite Rmin_right by lra. destruct (Rlt_dec e (- d)) as [H'|H'].
    + right. right. split; [exact H'|]. apply Rmax_left. lra.
    + left. split; [apply Rabs_le; lra|]. apply Rmax_right. lra.
Qed.
Lemma huber_psi d e : 0 <= d -> huber d e = psi d e * e - psi d e ^ 2 / 2.
Proof.
  intros Hd. unfold huber. destruct (psi_cases d e Hd) as [(A & ->)|[(A & ->)|(A & ->)]].
  - destruct (Rle_dec (Rabs e) d); [field|contradiction].
  - rewrite Rabs_pos_eq by lra. destruct (Rle_dec e d); [lra|field].
  - rewrite Rabs_left by lra. destruct (Rle_dec (- e) d); [lra|field].
Qed.
Lemma huber_bounds d x u : 0 <= d -> 0 <= huber d (x + u) - huber d x - psi d x * u <= u ^ 2 / 2.
Proof.
  intros Hd. rewrite !huber_psi by exact Hd.
  destruct (psi_cases d x Hd) as [(A & ->)|[(A & ->)|(A & ->)]], (psi_cases d (x + u) Hd) as [(B & ->)|[(B & ->)|(B & ->)]];
    try (apply Rabs_le_inv in A); try (apply Rabs_le_inv in B); split; nra.
Qed.
Lemma huber_derivable d t p : 0 <= d -> derivable_pt_lim (fun p => huber d (t - p)) p (- psi d (t - p)).
Proof.
  intros Hd. apply (quadratic_derivable _ _ _ (1 / 2)); [lra|]. intros u.
  replace (t - (p + u)) with (t - p + - u) by ring. pose proof (huber_bounds d (t - p) (- u) Hd) as H.
  apply Rabs_le. nra.
Qed.

Lemma affine_derivable a b p : derivable_pt_lim (fun x => a + b * x) p b.
Proof. apply (quadratic_derivable _ _ _ 0); [lra|]. intros u. replace (a + b * (p + u) - (a + b * p) - b * u) with 0 by ring. rewrite Rabs_R0. lra. Qed.
Lemma L1_derivable t p : t <> p -> derivable_pt_lim (fun p => Rabs (t - p)) p (- R_signum (t - p)).
Proof.
  intros H. unfold R_signum. destruct (Rlt_bool_spec (t - p) 0) as [Hl|Hl].
  - apply (derivable_pt_lim_locally_ext (fun x => - t + 1 * x) _ p t (p + 1)); [lra| |].
    + intros z Hz. rewrite Rabs_left by lra. ring.
    + replace (- -1) with 1 by ring. apply affine_derivable.
  - assert (p < t) by (destruct (Rtotal_order p t) as [?|[?|?]]; [assumption|congruence|lra]).
    apply (derivable_pt_lim_locally_ext (fun x => t + (- 1) * x) _ p (p - 1) t); [lra| |].
    + intros z Hz. rewrite Rabs_pos_eq by lra. ring.
    + apply affine_derivable.
Qed.
Lemma Hinge_derivable y p : y * p <> 1 -> y <> 0 -> derivable_pt_lim (fun p => Rmax 0 (1 - y * p)) p (if Rlt_dec (y * p) 1 then - y else 0).
Proof.
  intros H Hy. set (r := Rabs (1 - y * p) / Rabs y).
  assert (0 < Rabs y) as Hay by (apply Rabs_pos_lt, Hy).
  assert (0 < r) as Hr by (apply Rmult_lt_0_compat; [apply Rabs_pos_lt; lra|apply Rinv_0_lt_compat, Hay]).
  assert (forall z, p - r < z < p + r -> Rabs (y * z - y * p) < Rabs (1 - y * p)) as Hz.
  { intros z Hz. replace (y * z - y * p) with (y * (z - p)) by ring. rewrite Rabs_mult.
    replace (Rabs (1 - y * p)) with (Rabs y * r) by (unfold r; field; lra). apply Rmult_lt_compat_l; [exact Hay|]. apply Rabs_lt. lra. }
  destruct (Rlt_dec (y * p) 1) as [Hlt|Hge].
  - apply (derivable_pt_lim_locally_ext (fun x => 1 + (- y) * x) _ p (p - r) (p + r)); [lra| |apply affine_derivable].
    intros z Hzr. specialize (Hz z Hzr). rewrite (Rabs_pos_eq (1 - y * p)) in Hz by lra. apply Rabs_lt_inv in Hz. rewrite Rmax_right by lra. ring.
  - apply (derivable_pt_lim_locally_ext (fun x => 0 + 0 * x) _ p (p - r) (p + r)); [lra| |apply affine_derivable].
    intros z Hzr. specialize (Hz z Hzr). rewrite (Rabs_left (1 - y * p)) in Hz by lra. apply Rabs_lt_inv in Hz. rewrite Rmax_left by lra. ring.
Qed.

(** Logistic loss. *)
Lemma exp_lin_derivable a p : derivable_pt_lim (fun x => exp (a * x)) p (a * exp (a * p)).
Proof.
  replace (a * exp (a * p)) with (exp (a * p) * a) by ring.
  apply (derivable_pt_lim_comp (fun x => a * x) exp); [|apply derivable_pt_lim_exp].
  apply (derivable_pt_lim_ext (fun x => 0 + a * x)); [intros; ring|]. apply affine_derivable.
Qed.
Lemma Binary_derivable y p : derivable_pt_lim (fun p => ln (1 + exp (- 2 * y * p))) p (- (2 * y) / (1 + exp (2 * y * p))).
Proof.
  pose proof (exp_pos (- 2 * y * p)) as E1. pose proof (exp_pos (2 * y * p)) as E2.
  replace (- (2 * y) / (1 + exp (2 * y * p))) with (/ (1 + exp (- 2 * y * p)) * (- 2 * y * exp (- 2 * y * p))).
  - apply (derivable_pt_lim_comp (fun x => 1 + exp (- 2 * y * x)) ln).
    + replace (- 2 * y * exp (- 2 * y * p)) with (0 + - 2 * y * exp (- 2 * y * p)) by ring.
      apply (derivable_pt_lim_plus (fun _ => 1)); [apply derivable_pt_lim_const|apply exp_lin_derivable].
    + apply derivable_pt_lim_ln. lra.
  - replace (2 * y * p) with (- (- 2 * y * p)) by ring. rewrite exp_Ropp. field. lra.
Qed.
Lemma Binary_derivable2 y p : y ^ 2 = 1 -> let g := - (2 * y) / (1 + exp (2 * y * p)) in
  derivable_pt_lim (fun p => - (2 * y) / (1 + exp (2 * y * p))) p (Rabs g * (2 - Rabs g)).
Proof.
  intros Hy g. pose proof (exp_pos (2 * y * p)) as E.
  assert (Rabs g = 2 / (1 + exp (2 * y * p))) as ->.
  { unfold g, Rdiv. rewrite Rabs_mult, Rabs_inv, (Rabs_pos_eq (1 + exp _)) by lra. f_equal. rewrite Rabs_Ropp.
    assert ((y - 1) * (y + 1) = 0) as H by nra. apply Rmult_integral in H as [H|H].
    - replace y with 1 by lra. rewrite Rabs_pos_eq; lra.
    - replace y with (-1) by lra. rewrite Rabs_left; lra. }
  replace (2 / (1 + exp (2 * y * p)) * (2 - 2 / (1 + exp (2 * y * p)))) with
    ((0 * (1 + exp (2 * y * p)) - (2 * y * exp (2 * y * p)) * (- (2 * y))) / (1 + exp (2 * y * p))²).
  - apply (derivable_pt_lim_div (fun _ => - (2 * y)) (fun x => 1 + exp (2 * y * x))); [apply derivable_pt_lim_const| |lra].
    replace (2 * y * exp (2 * y * p)) with (0 + 2 * y * exp (2 * y * p)) by ring.
    apply (derivable_pt_lim_plus (fun _ => 1)); [apply derivable_pt_lim_const|apply exp_lin_derivable].
  - unfold Rsqr. replace (2 * y * exp (2 * y * p) * - (2 * y)) with (- 4 * y ^ 2 * exp (2 * y * p)) by ring. rewrite Hy. field. lra.
Qed.
Lemma Rsum_derivable {A} (f f' : A -> R -> R) (l : list A) x : (forall a, In a l -> derivable_pt_lim (f a) x (f' a x)) ->
  derivable_pt_lim (fun v => Rsum (map (fun a => f a v) l)) x (Rsum (map (fun a => f' a x) l)).
Proof.
  intros H. induction l as [|a l IH]; cbn [map Rsum]; [apply derivable_pt_lim_const|].
  apply (derivable_pt_lim_plus (f a) (fun v => Rsum (map (fun a => f a v) l))); [apply H; left; reflexivity|apply IH; intros b Hb; apply H; right; exact Hb].
Qed.
Lemma shift_derivable f p l : derivable_pt_lim f p l -> derivable_pt_lim (fun v => f (p + v)) 0 l.
Proof.
  intros H eps He. destruct (H eps He) as (d & Hd). exists d. intros h H1 H2. specialize (Hd h H1 H2).
  rewrite Rplus_0_l, Rplus_0_r. exact Hd.
Qed.
(** A function with increasing derivative attains its minimum where the derivative is zero. *)
Lemma convex_min f f' p : (forall x, derivable_pt_lim f x (f' x)) -> (forall x y, x <= y -> f' x <= f' y) -> f' p = 0 -> forall w, f p <= f w.
Proof.
  intros Hd Hm H0 w. destruct (Rtotal_order p w) as [H|[H|H]]; [|subst; lra|].
  - destruct (MVT_cor2 f f' p w H) as (c & E & Hc); [intros; apply Hd|]. pose proof (Hm p c ltac:(lra)). nra.
  - destruct (MVT_cor2 f f' w p H) as (c & E & Hc); [intros; apply Hd|]. pose proof (Hm c p ltac:(lra)). nra.
Qed.
Lemma Binary_deriv_mono y x x' : x <= x' -> - (2 * y) / (1 + exp (2 * y * x)) <= - (2 * y) / (1 + exp (2 * y * x')).
Proof.
  intros H. pose proof (exp_pos (2 * y * x)) as E1. pose proof (exp_pos (2 * y * x')) as E2.
  assert (forall a b, a <= b -> exp a <= exp b) as Hexp by (intros a b [Hlt| ->]; [apply Rlt_le, exp_increasing, Hlt|lra]).
  apply Rmult_le_reg_r with ((1 + exp (2 * y * x)) * (1 + exp (2 * y * x'))); [nra|].
  replace (- (2 * y) / (1 + exp (2 * y * x)) * ((1 + exp (2 * y * x)) * (1 + exp (2 * y * x')))) with (- (2 * y) * (1 + exp (2 * y * x'))) by (field; lra).
  replace (- (2 * y) / (1 + exp (2 * y * x')) * ((1 + exp (2 * y * x)) * (1 + exp (2 * y * x')))) with (- (2 * y) * (1 + exp (2 * y * x))) by (field; lra).
  destruct (Rle_lt_dec 0 y) as [Hy|Hy].
  - pose proof (Hexp (2 * y * x) (2 * y * x')). assert (2 * y * x <= 2 * y * x') by nra. nra.
  - pose proof (Hexp (2 * y * x') (2 * y * x)). assert (2 * y * x' <= 2 * y * x) by nra. nra.
Qed.

(* ---- sums ---- *)
Lemma Rsum_app l l' : Rsum (l ++ l') = Rsum l + Rsum l'.
Proof. induction l as [|x l IH]; cbn [app Rsum]; [lra|]. rewrite IH. lra. Qed.
Lemma Rsum_le {A} (f g : A -> R) l : (forall a, In a l -> f a <= g a) -> Rsum (map f l) <= Rsum (map g l).
Proof.
  induction l as [|a l IH]; intros H; cbn [map Rsum]; [lra|]. pose proof (H a (or_introl eq_refl)).
  assert (Rsum (map f l) <= Rsum (map g l)) by (apply IH; intros b Hb; apply H; right; exact Hb). lra.
Qed.
Lemma Rsum_ext {A} (f g : A -> R) l : (forall a, In a l -> f a = g a) -> Rsum (map f l) = Rsum (map g l).
Proof. intros H. f_equal. apply map_ext_in, H. Qed.
Lemma Rsum_lin {A} (f : A -> R) a b l : Rsum (map (fun x => a * f x + b) l) = a * Rsum (map f l) + INR (length l) * b.
Proof. induction l as [|x l IH]; cbn [map Rsum length]; [cbn; ring|]. rewrite IH, S_INR. ring. Qed.
Lemma Rsum_plus {A} (f g : A -> R) l : Rsum (map (fun x => f x + g x) l) = Rsum (map f l) + Rsum (map g l).
Proof. induction l as [|x l IH]; cbn [map Rsum]; [ring|]. rewrite IH. ring. Qed.
Lemma fold_Rsum {A} (f : A -> R) l s : fold_left (fun s x => s + f x) l s = s + Rsum (map f l).
Proof. revert s. induction l as [|x l IH]; intros s; cbn [fold_left map Rsum]; [lra|]. rewrite IH. lra. Qed.

(** Least squares: the mean is the minimiser. *)
Lemma mean_minimises (rs : list R) : rs <> [] -> minimises (fun v => Rsum (map (fun r => (r - v) ^ 2 / 2) rs)) (Rsum rs / INR (length rs)).
Proof.
  intros Hne w. set (m := Rsum rs / INR (length rs)).
  assert (0 < INR (length rs)) as Hn by (apply lt_0_INR; destruct rs; [congruence|cbn; lia]).
  assert (forall v, Rsum (map (fun r => (r - v) ^ 2 / 2) rs) = Rsum (map (fun r => r ^ 2 / 2) rs) + (- v * Rsum rs + INR (length rs) * (v ^ 2 / 2))) as E.
  { intros v. rewrite <- (map_id rs) at 3. rewrite <- (Rsum_lin (fun r => r)), <- Rsum_plus. apply Rsum_ext. intros r _. field. }
  rewrite !E. assert (Rsum rs = INR (length rs) * m) as -> by (unfold m; field; lra).
  pose proof (pow2_ge_0 (m - w)). nra.
Qed.

(* ---- quantiles in exact arithmetic ---- *)
Lemma get_bin_mono_R (b : binner Rops N) (v v' : R) : 0 < (bn_delta b : R) -> v <= v' -> (get_bin b v <= get_bin b v')%nat.
Proof.
  intros Hd H. unfold get_bin. cbn [Rops ndiv nsub nfloor ntoZ]. rewrite !Ztrunc_IZR.
  assert (Zfloor ((v - bn_min b) / bn_delta b) <= Zfloor ((v' - bn_min b) / bn_delta b))%Z as A.
  { apply Zfloor_le. apply Rmult_le_compat_r; [apply Rlt_le, Rinv_0_lt_compat, Hd|]. apply Rplus_le_compat_r, H. }
  cbn [Rops num] in *. lia.
Qed.
Lemma quantile_R nbins (q lo hi : R) (values s : list R) r : (1 <= nbins)%nat -> (Z.of_nat nbins <= 2 ^ 62)%Z -> lo < hi ->
  Forall (fun v => lo <= v <= hi) values -> sorted_version Rle_bool values s -> (N.of_nat (length values) < 2 ^ 32)%N ->
  Zfloor (INR (length values) * q) = Z.of_nat r -> (r < length values)%nat ->
  exists v, quantile Rops nbins q (lo, hi) values = Ok v /\ Rabs (v - nth r s 0) <= (hi - lo) / INR nbins.
Proof.
  intros H1 Hn Hlt Hin (Hp & Hs) Hc Hr Hlen.
  assert (forall v, lo <= v <= hi -> exists b, @binner_new Rops N (repeat 0%N nbins) lo hi = Ok b /\ Rabs (bin_representative b (get_bin b v + 1) - v) <= (hi - lo) / INR nbins) as W.
  { intros v Hv. apply (C34_within_one_bin nbins); auto. apply repeat_length. }
  assert (In (nth r s 0) values) as Hnth.
  { apply (Permutation_in _ (Permutation_sym Hp)), nth_In. rewrite <- (Permutation_length Hp). exact Hlen. }
  assert (lo <= nth r s 0 <= hi) as Hbnd by (rewrite Forall_forall in Hin; apply Hin, Hnth).
  destruct (W _ Hbnd) as (b0 & E0 & Hw). clear W.
  assert (bn_bins b0 = repeat 0%N nbins /\ bn_delta b0 = (hi - lo) / INR nbins) as (Hb0 & Hd0).
  { unfold binner_new in E0. cbn [Rops nisfin nlt rassert rbind] in E0. rewrite Rlt_bool_true in E0 by exact Hlt. cbn [rassert rbind] in E0.
    destruct (negb _); [|discriminate]. cbn [rassert rbind] in E0. injection E0 as <-. cbn [bn_bins bn_delta]. split; [reflexivity|].
    rewrite repeat_length. unfold nofnat. cbn [Rops nofZ]. rewrite <- INR_IZR_INZ. reflexivity. }
  assert (0 < INR nbins) as Hnr by (apply lt_0_INR; lia).
  assert (0 < (bn_delta b0 : R)) as Hd by (rewrite Hd0; apply Rmult_lt_0_compat; [lra|apply Rinv_0_lt_compat, Hnr]).
  assert (bn_bins b0 <> []) as Hne by (rewrite Hb0; destruct nbins; [lia|discriminate]).
  destruct (@counts_ok Rops b0 (map (fun v => (v, 1%N)) values) Hne) as (b & Ei & Em & Ed & L & Hcnt).
  { rewrite Hb0. apply Forall_forall. intros x Hx. apply repeat_spec in Hx. exact Hx. }
  { rewrite map_map. cbn [snd]. assert (sumN (map (fun _ : R => 1%N) values) = N.of_nat (length values)) as X; [|rewrite <- X in Hc; exact Hc].
    clear. induction values as [|v l IH]; [reflexivity|]. cbn [map sumN length]. rewrite IH. lia. }
  rewrite map_map in Ei. cbn [fst snd] in Ei.
  assert (bn_bins b <> []) as Hne' by (intros Hx; rewrite Hx in L; destruct (bn_bins b0); [congruence|discriminate]).
  assert (forall v, get_bin b v = get_bin b0 v) as Hgb by (intros v; apply get_bin_same; assumption).
  destruct (bin_with_rank_ok N N 0%N N.leb N.add (fun x => x) b (N.of_nat r) Hne') as (i & Eb & Hb); [apply N.leb_le; lia|].
  assert (get_bin b (nth r s 0) = i) as Hi.
  { apply (rank_is_rth (get_bin b) values s (bn_bins b) 0 i r); auto.
    - intros j Hj. rewrite L in Hj. rewrite (Hcnt j Hj). unfold count_in. f_equal.
      transitivity (sumN (map snd (filter (fun it : R * N => get_bin b (fst it) =? j) (map (fun v => (v, 1%N)) values)))%nat).
      { f_equal. f_equal. apply filter_ext. intros it. rewrite Hgb. reflexivity. }
      clear. induction values as [|v l IH]; [reflexivity|]. cbn [map filter fst]. destruct (Nat.eqb (get_bin b v) j); cbn [map sumN snd length]; rewrite IH; lia.
    - intros v _. apply get_bin_valid, Hne'.
    - assert (0 < (bn_delta b : R)) as Hdb by (rewrite Ed; exact Hd).
      clear - Hs Hdb. induction Hs as [|x s Hs IH Hx]; constructor; [exact IH|].
      apply Forall_forall. intros y Hy. rewrite Forall_forall in Hx. specialize (Hx y Hy). apply get_bin_mono_R; [exact Hdb|].
      destruct (Rle_bool_spec x y); [assumption|discriminate]. }
  exists (bin_representative b0 (get_bin b0 (nth r s 0) + 1)). split; [|exact Hw].
  unfold quantile. cbn [fst snd]. rewrite E0. cbn [rbind]. rewrite (Ei : binner_insert_all b0 (map (fun v : num Rops => (v, u32_inc 1)) values) = Ok b). cbn [rbind].
  assert (Z.to_N (ntoZ Rops 0 4294967295 (nfloor Rops (nmul Rops (nofnat Rops (length values)) q))) = N.of_nat r) as X.
  { unfold nofnat. cbn [Rops nofZ nmul nfloor ntoZ]. rewrite <- INR_IZR_INZ, Ztrunc_IZR. match goal with |- context[Zfloor ?x] => replace (Zfloor x) with (Z.of_nat r) by (symmetry; exact Hr) end. clear - Hc Hlen. lia. }
  cbn [Rops num] in X |- *. rewrite X. rewrite (Eb : bin_with_rank 0%N N.leb N.add (fun x : N => x) b (N.of_nat r) = Ok i).
  cbn [rbind]. f_equal. unfold bin_representative. rewrite Em, Ed, L, <- Hi, Hgb. reflexivity.
Qed.

Lemma sorted_exists (l : list R) : exists s, sorted_version Rle_bool l s.
Proof.
  induction l as [|x l (s & Hp & Hs)]; [exists []; split; constructor|].
  assert (exists s', Permutation (x :: s) s' /\ StronglySorted (fun a b => Rle_bool a b = true) s') as (s' & Hp' & Hs').
  { clear Hp. induction Hs as [|y s Hs IH Hy]; [exists [x]; split; [reflexivity|repeat constructor]|].
    destruct (Rle_bool x y) eqn:E.
    - exists (x :: y :: s). split; [reflexivity|]. constructor; [constructor; assumption|]. constructor; [exact E|].
      rewrite Forall_forall in Hy |- *. intros z Hz. specialize (Hy z Hz).
      destruct (Rle_bool_spec x y); [|discriminate]. destruct (Rle_bool_spec y z); [|discriminate]. apply Rle_bool_true. lra.
    - destruct IH as (s' & Hp' & Hs'). exists (y :: s'). split.
      + apply Permutation_trans with (y :: x :: s); [apply perm_swap|apply perm_skip, Hp'].
      + constructor; [exact Hs'|]. apply Forall_forall. intros z Hz. apply (Permutation_in _ (Permutation_sym Hp')) in Hz as [<-|Hz].
        * destruct (Rle_bool_spec x y); [discriminate|]. apply Rle_bool_true. lra.
        * rewrite Forall_forall in Hy. apply Hy, Hz. }
  exists s'. split; [|exact Hs']. apply Permutation_trans with (x :: s); [apply perm_skip, Hp|exact Hp'].
Qed.

(** The middle element of a sorted list minimises the sum of absolute deviations. *)
Lemma Rsum_const_ge (s : list R) (f : R -> R) c : (forall x, In x s -> c <= f x) -> INR (length s) * c <= Rsum (map f s).
Proof.
  induction s as [|x s IH]; intros H; cbn [length map Rsum]; [cbn; lra|]. rewrite S_INR.
  pose proof (H x (or_introl eq_refl)). assert (INR (length s) * c <= Rsum (map f s)) by (apply IH; intros y Hy; apply H; right; exact Hy). lra.
Qed.
Lemma SSorted_nth (s : list R) : StronglySorted (fun a b => Rle_bool a b = true) s -> forall i j, (i <= j < length s)%nat -> nth i s 0 <= nth j s 0.
Proof.
  induction 1 as [|x s Hs IH Hx]; intros i j H; cbn [length] in H; [lia|]. destruct i as [|i], j as [|j]; cbn [nth]; try lra; try lia.
  - rewrite Forall_forall in Hx. assert (In (nth j s 0) s) as Hj by (apply nth_In; lia). specialize (Hx _ Hj). destruct (Rle_bool_spec x (nth j s 0)); [assumption|discriminate].
  - apply IH. lia.
Qed.
Lemma median_minimises (l s : list R) r : sorted_version Rle_bool l s -> l <> [] -> r = (length l / 2)%nat ->
  minimises (fun v => Rsum (map (fun x => Rabs (x - v)) l)) (nth r s 0).
Proof.
  intros (Hp & Hs) Hne -> w.
  assert (forall f, Rsum (map f l) = Rsum (map f s)) as HP by (intros f; apply MetricProps.Rsum_perm, Permutation_map, Hp).
  rewrite !HP. pose proof (Permutation_length Hp) as Hl.
  assert (0 < length s)%nat as H0 by (rewrite <- Hl; destruct l; [congruence|cbn; lia]).
  set (n := length s) in *. set (r := (n / 2)%nat). replace (nth (length l / 2) s 0) with (nth r s 0) by (unfold r, n; rewrite Hl; reflexivity).
  pose proof (Nat.div_mod n 2 ltac:(lia)) as Hdm. pose proof (Nat.mod_upper_bound n 2 ltac:(lia)) as Hm. fold r in Hdm.
  set (m := nth r s 0). 
  enough (0 <= Rsum (map (fun x => Rabs (x - w) + - Rabs (x - m)) s)) as Hq.
  { rewrite (Rsum_plus (fun x => Rabs (x - w)) (fun x => - Rabs (x - m))) in Hq.
    assert (forall m l, Rsum (map (fun x => - Rabs (x - m)) l) = - Rsum (map (fun x => Rabs (x - m)) l)) as X.
    { clear. intros m. induction l as [|x s IH]; cbn [map Rsum]; [lra|]. rewrite IH. lra. }
    rewrite X in Hq. lra. }
  destruct (Rle_lt_dec m w) as [Hw|Hw].
  - rewrite <- (firstn_skipn (S r) s), map_app, Rsum_app.
    assert (length (firstn (S r) s) = S r) as L1 by (rewrite firstn_length; fold n; lia).
    assert (length (skipn (S r) s) = n - S r)%nat as L2 by (rewrite skipn_length; reflexivity).
    assert (INR (S r) * (w - m) <= Rsum (map (fun x => Rabs (x - w) + - Rabs (x - m)) (firstn (S r) s))) as A.
    { rewrite <- L1 at 1. apply Rsum_const_ge. intros x Hx. apply (In_nth _ _ 0) in Hx as (j & Hj & <-). rewrite L1 in Hj.
      assert (nth j (firstn (S r) s) 0 = nth j s 0) as -> by (rewrite <- (firstn_skipn (S r) s) at 2; rewrite app_nth1 by lia; reflexivity).
      pose proof (SSorted_nth s Hs j r ltac:(fold n; lia)) as B. fold m in B. rewrite !Rabs_left1 by lra. lra. }
    assert (INR (n - S r) * - (w - m) <= Rsum (map (fun x => Rabs (x - w) + - Rabs (x - m)) (skipn (S r) s))) as B.
    { rewrite <- L2 at 1. apply Rsum_const_ge. intros x _. pose proof (Rabs_triang (x - w) (w - m)) as T. replace (x - w + (w - m)) with (x - m) in T by ring. rewrite (Rabs_pos_eq (w - m)) in T by lra. lra. }
    assert (INR (n - S r) <= INR (S r)) as C by (apply le_INR; lia). nra.
  - rewrite <- (firstn_skipn r s), map_app, Rsum_app.
    assert (length (firstn r s) = r) as L1 by (rewrite firstn_length; fold n; lia).
    assert (length (skipn r s) = n - r)%nat as L2 by (rewrite skipn_length; reflexivity).
    assert (INR r * - (m - w) <= Rsum (map (fun x => Rabs (x - w) + - Rabs (x - m)) (firstn r s))) as A.
    { rewrite <- L1 at 1. apply Rsum_const_ge. intros x _. pose proof (Rabs_triang (x - w) (w - m)) as T. replace (x - w + (w - m)) with (x - m) in T by ring. rewrite (Rabs_left (w - m)) in T by lra. lra. }
    assert (INR (n - r) * (m - w) <= Rsum (map (fun x => Rabs (x - w) + - Rabs (x - m)) (skipn r s))) as B.
    { rewrite <- L2 at 1. apply Rsum_const_ge. intros x Hx. apply (In_nth _ _ 0) in Hx as (j & Hj & <-). rewrite L2 in Hj.
      assert (nth j (skipn r s) 0 = nth (r + j) s 0) as -> by (rewrite <- (firstn_skipn r s) at 2; rewrite app_nth2 by lia; f_equal; lia).
      pose proof (SSorted_nth s Hs r (r + j) ltac:(fold n; lia)) as B. fold m in B. rewrite !Rabs_pos_eq by lra. lra. }
    assert (INR r <= INR (n - r)) as C by (apply le_INR; lia). nra.
Qed.
