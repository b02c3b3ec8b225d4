(** Euclidean norms of indexed families of reals. *)
From Coq Require Import Reals Psatz List Permutation.
From Verif Require Import Base MetricSpec MetricProps ObjectiveProofs.
Local Open Scope R_scope.

Definition hyp (x y : R) : R := sqrt (x * x + y * y).
Lemma hyp_nn x y : 0 <= hyp x y. Proof. apply sqrt_pos. Qed.
Lemma hyp_sq x y : hyp x y * hyp x y = x * x + y * y.
Proof. unfold hyp. apply sqrt_sqrt. nra. Qed.
Lemma le_of_sq a b : 0 <= b -> a * a <= b * b -> a <= b.
Proof. intros Hb H. destruct (Rle_lt_dec a b) as [L|L]; [exact L|]. nra. Qed.
Lemma hyp_cs a b c d : a * c + b * d <= hyp a b * hyp c d.
Proof.
  apply le_of_sq; [apply Rmult_le_pos; apply hyp_nn|]. replace (hyp a b * hyp c d * (hyp a b * hyp c d)) with (hyp a b * hyp a b * (hyp c d * hyp c d)) by ring. rewrite !hyp_sq.
  pose proof (Rle_0_sqr (a * d - b * c)) as H. unfold Rsqr in H. nra.
Qed.
Lemma hyp_tri a b c d : hyp (a + c) (b + d) <= hyp a b + hyp c d.
Proof.
  apply le_of_sq; [pose proof (hyp_nn a b); pose proof (hyp_nn c d); lra|]. rewrite hyp_sq. pose proof (hyp_cs a b c d). pose proof (hyp_sq a b). pose proof (hyp_sq c d). nra.
Qed.
Lemma hyp_mono a b c d : 0 <= a <= c -> 0 <= b <= d -> hyp a b <= hyp c d.
Proof. intros Ha Hb. unfold hyp. apply sqrt_le_1_alt. nra. Qed.
Lemma hyp_scale k a b : 0 <= k -> hyp (k * a) (k * b) = k * hyp a b.
Proof.
  intros Hk. unfold hyp. replace (k * a * (k * a) + k * b * (k * b)) with (k * k * (a * a + b * b)) by ring. rewrite sqrt_mult_alt by nra. rewrite sqrt_square by exact Hk. reflexivity.
Qed.

(** The norm of [f] over the indices [l]. *)
Definition ssq {A} (f : A -> R) (l : list A) : R := Rsum (map (fun i => f i * f i) l).
Definition nrm {A} (f : A -> R) (l : list A) : R := sqrt (ssq f l).
Lemma ssq_nn {A} (f : A -> R) l : 0 <= ssq f l.
Proof. unfold ssq. induction l as [|i l IH]; cbn [map Rsum]; [lra|]. nra. Qed.
Lemma nrm_nn {A} (f : A -> R) l : 0 <= nrm f l. Proof. apply sqrt_pos. Qed.
Lemma nrm_sq {A} (f : A -> R) l : nrm f l * nrm f l = ssq f l. Proof. apply sqrt_sqrt, ssq_nn. Qed.
Lemma nrm_nil {A} (f : A -> R) : nrm f [] = 0. Proof. apply sqrt_0. Qed.
Lemma ssq_app {A} (f : A -> R) l l' : ssq f (l ++ l') = ssq f l + ssq f l'.
Proof. unfold ssq. rewrite map_app. apply Rsum_app. Qed.
Lemma nrm_app {A} (f : A -> R) l l' : nrm f (l ++ l') = hyp (nrm f l) (nrm f l').
Proof. unfold nrm, hyp. rewrite ssq_app, !sqrt_sqrt by apply ssq_nn. reflexivity. Qed.
Lemma nrm_cons {A} (f : A -> R) i l : nrm f (i :: l) = hyp (f i) (nrm f l).
Proof. unfold nrm, hyp, ssq. cbn [map Rsum]. rewrite sqrt_sqrt by apply ssq_nn. reflexivity. Qed.
Lemma nrm_perm {A} (f : A -> R) l l' : Permutation l l' -> nrm f l = nrm f l'.
Proof. intros H. unfold nrm, ssq. f_equal. apply Rsum_perm, Permutation_map, H. Qed.
Lemma nrm_ext {A} (f g : A -> R) l : (forall i, In i l -> f i = g i) -> nrm f l = nrm g l.
Proof. intros H. unfold nrm, ssq. f_equal. apply Rsum_ext. intros i Hi. rewrite (H i Hi). reflexivity. Qed.
Lemma nrm_le {A} (f g : A -> R) l : (forall i, In i l -> Rabs (f i) <= g i) -> nrm f l <= nrm g l.
Proof.
  intros H. unfold nrm, ssq. apply sqrt_le_1_alt, Rsum_le. intros i Hi. specialize (H i Hi). pose proof (Rabs_pos (f i)).
  replace (f i * f i) with (Rabs (f i) * Rabs (f i)); [nra|]. unfold Rabs. destruct (Rcase_abs _); ring.
Qed.
Lemma nrm_abs {A} (f : A -> R) l : nrm (fun i => Rabs (f i)) l = nrm f l.
Proof. unfold nrm, ssq. f_equal. apply Rsum_ext. intros i _. unfold Rabs. destruct (Rcase_abs _); ring. Qed.
Lemma nrm_tri {A} (f g : A -> R) l : nrm (fun i => f i + g i) l <= nrm f l + nrm g l.
Proof.
  induction l as [|i l IH]; [rewrite !nrm_nil; lra|]. rewrite !nrm_cons. eapply Rle_trans; [|apply hyp_tri].
  unfold hyp. apply sqrt_le_1_alt. pose proof (nrm_nn (fun i => f i + g i) l). nra.
Qed.
Lemma nrm_scale {A} k (f : A -> R) l : 0 <= k -> nrm (fun i => k * f i) l = k * nrm f l.
Proof. intros Hk. induction l as [|i l IH]; [rewrite !nrm_nil; ring|]. rewrite !nrm_cons, IH. apply hyp_scale, Hk. Qed.
Lemma nrm_const {A} c (l : list A) : 0 <= c -> nrm (fun _ => c) l = c * sqrt (INR (length l)).
Proof.
  intros Hc. unfold nrm, ssq. replace (Rsum (map (fun _ : A => c * c) l)) with (c * c * INR (length l)).
  - rewrite sqrt_mult_alt by nra. rewrite sqrt_square by exact Hc. reflexivity.
  - induction l as [|i l IH]; [cbn; ring|]. cbn [map Rsum]. change (length (i :: l)) with (S (length l)). rewrite S_INR, <- IH. ring.
Qed.
Lemma nrm_in {A} (f : A -> R) l i : In i l -> Rabs (f i) <= nrm f l.
Proof.
  induction l as [|j l IH]; [intros []|]. rewrite nrm_cons. intros [->|H].
  - apply le_of_sq; [apply hyp_nn|]. rewrite hyp_sq. pose proof (nrm_nn f l). unfold Rabs. destruct (Rcase_abs _); nra.
  - eapply Rle_trans; [exact (IH H)|]. apply le_of_sq; [apply hyp_nn|]. rewrite hyp_sq. nra.
Qed.
(** The sum of the absolute values. *)
Lemma abs_sum {A} (f : A -> R) l : Rsum (map (fun i => Rabs (f i)) l) <= sqrt (INR (length l)) * nrm f l.
Proof.
  induction l as [|i l IH]; [cbn [map Rsum]; rewrite nrm_nil; lra|]. cbn [map Rsum]. rewrite nrm_cons. change (length (i :: l)) with (S (length l)). rewrite S_INR.
  assert (sqrt (INR (length l) + 1) = hyp 1 (sqrt (INR (length l)))) as ->. { unfold hyp. rewrite sqrt_sqrt by apply pos_INR. f_equal. ring. }
  pose proof (hyp_cs 1 (sqrt (INR (length l))) (Rabs (f i)) (nrm f l)) as H. replace (hyp (Rabs (f i)) (nrm f l)) with (hyp (f i) (nrm f l)) in H; [lra|].
  unfold hyp. f_equal. unfold Rabs. destruct (Rcase_abs _); ring.
Qed.
Lemma nrm_incl {A} (f : A -> R) l l' : nrm f l <= nrm f (l ++ l').
Proof. rewrite nrm_app. apply le_of_sq; [apply hyp_nn|]. rewrite hyp_sq. nra. Qed.
