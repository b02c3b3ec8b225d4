From Coq Require Import Reals Lra Psatz Sorting.Sorted.
From Flocq Require Import Core BinarySingleNaN.
From Verif Require Import Base BaseProofs Num F32 F32Proofs DataModel BinnerModel BinnerSpec BinnerProofs BinnerProps Config
  DatasetModel DatasetSpec QuantSpec DatasetProofs3 ScaledProofs TotalProofs TotalProofs2.
Local Open Scope nat_scope.

(** Bins without repetition. *)
Lemma dedup_in x bins : forall last, In x bins -> last = Some x \/ In x (dedup_bins last bins).
Proof.
  induction bins as [|b t IH]; intros last []; cbn [dedup_bins].
  - subst b. destruct last as [l|]; [|right; left; reflexivity]. destruct (Nat.eqb_spec x l) as [->|]; [left; reflexivity|right; left; reflexivity].
  - destruct last as [l|].
    + destruct (Nat.eqb_spec b l) as [->|]; [apply IH; assumption|]. right. destruct (IH (Some b) H) as [E|E]; [left; congruence|right; exact E].
    + right. destruct (IH (Some b) H) as [E|E]; [left; congruence|right; exact E].
Qed.

Section Edges.
Variables (O : numops) (W : Type) (zero : W) (le : W -> W -> bool) (plus : W -> W -> W).
Hypothesis le_trans : forall x y z, le x y = true -> le y z = true -> le x z = true.
Hypothesis le_zero : le zero zero = true.

Lemma edges_ok (b : binner O W) ranks qs : bn_bins b <> [] -> Sorted (fun x y => le x y = true) (zero :: ranks) ->
  rank_iter_all zero le plus (fun x => x) b ranks = Ok qs ->
  quantile_edges zero le plus b ranks (map (fun q => bin_representative b (q + 1)) (dedup_bins None qs)).
Proof.
  intros Hne Hs E. destruct (C33_one_pass O W W zero le plus (fun x => x) b ranks Hne le_trans le_zero Hs) as (_ & is & E' & HF).
  rewrite E in E'. injection E' as <-. unfold rank_iter_all in E. apply ranks_of_mono in E as [SQ FQ]; [|cbn [ri_idx]; lia].
  destruct (dedup_sorted qs None SQ) as (A & _ & C); [apply Forall_forall; intros; exact I|].
  exists (dedup_bins None qs). split; [exact A|]. split; [reflexivity|]. intros q. split.
  - intros Hq. apply C in Hq. apply In_nth_error in Hq as [n En]. clear - HF En. revert n En. induction HF as [|r i ranks qs H HF IH]; intros [|n] En; cbn in En; try discriminate.
    + injection En as ->. exists r. split; [left; reflexivity|exact H].
    + destruct (IH n En) as (r' & Hr & Hb). exists r'. split; [right; exact Hr|exact Hb].
  - intros (r & Hr & Hb). assert (In q qs) as Hq.
    { clear - HF Hr Hb. induction HF as [|r' i ranks qs H HF IH]; [destruct Hr|]. destruct Hr as [->|Hr]; [left; eapply bin_of_rank_unique; eassumption|right; apply IH, Hr]. }
    destruct (dedup_in q qs None Hq) as [Hc|Hc]; [discriminate|exact Hc].
Qed.
End Edges.

(** Filling a fresh binner. *)
Lemma binner_new_eq O W (bins : list W) (lo hi : num O) b : binner_new bins lo hi = Ok b -> b = mk_binner bins lo (ndiv O (nsub O hi lo) (nofnat O (length bins))).
Proof. unfold binner_new. intros H. do 4 (apply rbind_ok in H as (? & _ & H)). injection H as <-. reflexivity. Qed.

Lemma fold_comp A W (plus : W -> W -> W) (w : A -> W) l : forall x, fold_left (fun y c => c y) (map (fun a => fun y => plus y (w a)) l) x = fold_left plus (map w l) x.
Proof. induction l as [|a t IH]; intros x; [reflexivity|]. cbn [map fold_left]. apply IH. Qed.

Lemma filled O W (zero : W) plus n (lo hi : num O) b0 b (items : list (num O * W)) : 0 < n -> binner_new (repeat zero n) lo hi = Ok b0 ->
  binner_insert_all b0 (map (fun it => (fst it, fun x => plus x (snd it))) items) = Ok b ->
  equal_bins b n lo hi /\ holds zero plus b items.
Proof.
  intros Hn E0 E. apply binner_new_eq in E0.
  destruct (insert_all_ok O W (map (fun it => (fst it, fun x => plus x (snd it))) items) b0) as (b' & E' & M1 & M2 & M3 & M4).
  { rewrite E0. cbn [bn_bins]. destruct n; [lia|discriminate]. }
  assert (b' = b) by congruence. subst b'. assert (length (bn_bins b0) = n) as L0 by (rewrite E0; apply repeat_length). split.
  - split; [congruence|]. rewrite M1, M2, E0. cbn [bn_min bn_delta]. rewrite repeat_length. auto.
  - intros i Hi. rewrite (M4 i zero).
    + f_equal. unfold updates. rewrite <- fold_comp. f_equal. clear - M1 M2 M3. induction items as [|it t IH]; [reflexivity|]. cbn [map filter fst].
      rewrite (get_bin_same O W b b0 (fst it)) by congruence. destruct (_ =? i); cbn [map snd]; rewrite IH; reflexivity.
    + rewrite E0. cbn [bn_bins]. assert (i < n) as Hlt by lia. clear - Hlt. revert i Hlt. induction n as [|n IH]; intros [|i] Hlt; try lia; [reflexivity|]. cbn. apply IH. lia.
Qed.
Lemma filled_ne O W (b : binner O W) n lo hi : 0 < n -> equal_bins b n lo hi -> bn_bins b <> [].
Proof. intros Hn (L & _) E. rewrite E in L. cbn in L. lia. Qed.

(** The leading splits below a weight. *)
Lemma leading_group O (splits : list (num O)) w : in_group splits w (leading_below (nlt O) splits w).
Proof.
  induction splits as [|s t IH]; cbn [leading_below]; [split; [lia|split; [intros; lia|intros x E; discriminate]]|].
  destruct (nlt O s w) eqn:E.
  - destruct IH as (A & B & C). split; [cbn; lia|]. split; [|exact C]. intros [|b] x Hb Ex; [cbn in Ex; congruence|]. apply (B b); [lia|exact Ex].
  - split; [lia|]. split; [intros; lia|]. intros x Ex. cbn in Ex. congruence.
Qed.

Section F.
Local Open Scope R_scope.
Definition nn_or_nan (x : f32) : Prop := is_nan x = true \/ is_nan x = false /\ 0 <= key x.
Lemma nan_add_l (x y : f32) : is_nan x = true -> is_nan (f_add x y) = true. Proof. destruct x; try discriminate. destruct y; reflexivity. Qed.
Lemma nan_add_r (x y : f32) : is_nan y = true -> is_nan (f_add x y) = true. Proof. destruct y; try discriminate. destruct x; reflexivity. Qed.
Lemma nan_div_l (x y : f32) : is_nan x = true -> is_nan (f_div x y) = true. Proof. destruct x; try discriminate. destruct y; reflexivity. Qed.
Lemma nan_mul_r (x y : f32) : is_nan y = true -> is_nan (f_mul x y) = true. Proof. destruct y; try discriminate. destruct x; reflexivity. Qed.
Lemma nn_add x y : nn_or_nan x -> nn_or_nan y -> nn_or_nan (f_add x y).
Proof.
  intros [Hx|[Nx Kx]] [Hy|[Ny Ky]]; [left; apply nan_add_l, Hx|left; apply nan_add_l, Hx|left; apply nan_add_r, Hy|]. right. apply f_add_nn; assumption.
Qed.
Lemma nn_weight g : nn_or_nan (f_add (f_abs g) (EPSILON f32ops : f32)).
Proof.
  apply nn_add; [|right; apply eps_ok]. destruct (is_nan g) eqn:E; [left; destruct g; try discriminate; reflexivity|right; apply f_abs_nn, E].
Qed.
Lemma nn_zero : nn_or_nan (f_of_Z 0). Proof. right. apply f_nn. reflexivity. Qed.
Lemma nn_sum (ws : list f32) : Forall nn_or_nan ws -> forall a, nn_or_nan a -> nn_or_nan (fold_left f_add ws a).
Proof. induction 1 as [|w ws Hw H IH]; intros a Ha; [exact Ha|]. cbn [fold_left]. apply IH, nn_add; assumption. Qed.

Lemma mult_mono (step : f32) (i j : nat) : is_nan step = false -> 0 <= key step -> (1 <= i <= j)%nat -> (Z.of_nat j <= 2 ^ 24)%Z ->
  f_le (f_mul (f_of_Z (Z.of_nat i)) step) (f_mul (f_of_Z (Z.of_nat j)) step) = true /\ f_le f_zero (f_mul (f_of_Z (Z.of_nat i)) step) = true.
Proof.
  intros Ns Ks Hi Hj. destruct (f_of_Z_exact (Z.of_nat i)) as [Fi Bi]; [lia|]. destruct (f_of_Z_exact (Z.of_nat j)) as [Fj Bj]; [lia|].
  assert (0 < IZR (Z.of_nat i)) as Pi by (apply (IZR_lt 0); lia). assert (IZR (Z.of_nat i) <= IZR (Z.of_nat j)) as Hij by (apply IZR_le; lia).
  destruct (f_mul_nn step _ Ns Ks Fi) as [N1 K1]; [rewrite Bi; exact Pi|]. destruct (f_mul_nn step _ Ns Ks Fj) as [N2 K2]; [rewrite Bj; lra|].
  split; [|apply f_nn; auto]. apply f_le_key; [exact N1|exact N2|]. destruct (inf_cases step Ns Ks) as [Fs|Es].
  - destruct (mul_repr _ _ Fi Fs) as [_ E1]. destruct (mul_repr _ _ Fj Fs) as [_ E2]. rewrite E1, E2. apply clampM_mono, rnd_mono. rewrite Bi, Bj.
    rewrite (key_finite _ Fs) in Ks. apply Rmult_le_compat_r; assumption.
  - subst step. assert (forall z : f32, is_finite z = true -> 0 < B2R' z -> f_mul z f_inf = f_inf) as Hinf.
    { intros z Fz Bz. destruct z as [s|s| |[] m e He]; try discriminate; [cbn in Bz; lra| |reflexivity].
      exfalso. assert (B2R' (B754_finite true m e He) < 0) as Hneg by (unfold B2R', B2R; apply F2R_lt_0; reflexivity). lra. }
    rewrite !Hinf; try assumption; [lra|rewrite Bj; lra|rewrite Bi; lra].
Qed.
End F.

Lemma seq_sorted A (le : A -> A -> Prop) (g : nat -> A) m : forall a, (forall i, a <= i -> S i < a + m -> le (g i) (g (S i))) -> Sorted le (map g (seq a m)).
Proof.
  induction m as [|m IH]; intros a H; [constructor|]. cbn [seq map]. constructor.
  - apply IH. intros i Hi Hl. apply H; lia.
  - destruct m; constructor. apply H; lia.
Qed.

Lemma multiples_sorted (step : f32) m : is_nan step = false -> (0 <= key step)%R -> (Z.of_nat m <= 2 ^ 24)%Z ->
  Sorted (fun x y => f_le x y = true) (f_zero :: map (fun i => f_mul (f_of_Z (Z.of_nat i)) step) (seq 1 m)).
Proof.
  intros Ns Ks Hm. constructor.
  - apply seq_sorted. intros i Hi Hl. apply mult_mono; try assumption; lia.
  - destruct m; constructor. apply (mult_mono step 1 1); try assumption; lia.
Qed.

(** Ranks of the hi-cardinality features. *)
Lemma round_mono (x y : f32) : f_le x y = true -> f_le f_zero x = true -> (f_to_int 0 4294967295 (f_round x) <= f_to_int 0 4294967295 (f_round y))%Z.
Proof.
  intros H H0. apply f_nn in H0 as [Nx Kx]. pose proof (f_le_nan_l _ _ H) as [_ Ny]. apply f_le_key in H; [|assumption..].
  destruct (inf_cases x Nx Kx) as [Fx|Ex]; destruct (inf_cases y Ny ltac:(lra)) as [Fy|Ey].
  - rewrite !f_to_int_round by assumption. rewrite !key_finite in H by assumption. assert (ZnearestA (B2R' x) <= ZnearestA (B2R' y))%Z by (apply Zrnd_le; [apply valid_rnd_NA|exact H]). lia.
  - rewrite f_to_int_round by assumption. subst y. cbn. lia.
  - subst x. exfalso. pose proof (key_finite_strict y Fy). cbn [f_inf key] in H. lra.
  - subst. lia.
Qed.
