(** Rounding errors of one leaf of the squared error in f32. *)
From Coq Require Import Reals Psatz.
From Flocq Require Import Core BinarySingleNaN.
From Verif Require Import Base BaseProofs F32 F32Proofs Num ScaledProofs SumErrProofs ErrProofs MetricSpec ObjectiveModel ObjectiveSpec ObjectiveProofs ObjectiveProps BoostProofs BoostProps TotalProofs6 NormProofs FitSpec FitProps.
Local Open Scope R_scope.

(* ---- a finite result has finite operands and is rounded once ---- *)
Lemma fin_repr (z : f32) r : repr z r -> is_finite z = true -> B2R' z = rnd r.
Proof.
  intros [_ K] F. pose proof (key_finite_strict z F) as H. rewrite (key_finite z F) in *. rewrite K in H |- *. unfold clampM in *.
  unfold Rmax, Rmin in *. destruct (Rle_dec M (rnd r)); destruct (Rle_dec (- M) _); lra.
Qed.
Lemma fin_add x y : is_finite (f_add x y) = true -> is_finite x = true /\ is_finite y = true.
Proof. destruct x as [s|s| |s m e He], y as [s'|s'| |s' m' e' He']; cbn; try discriminate; auto; destruct s, s'; discriminate. Qed.
Lemma fin_sub x y : is_finite (f_sub x y) = true -> is_finite x = true /\ is_finite y = true.
Proof. destruct x as [s|s| |s m e He], y as [s'|s'| |s' m' e' He']; cbn; try discriminate; auto; destruct s, s'; discriminate. Qed.
Lemma fin_mul x y : is_finite (f_mul x y) = true -> is_finite x = true /\ is_finite y = true.
Proof. destruct x as [s|s| |s m e He], y as [s'|s'| |s' m' e' He']; cbn; try discriminate; auto. Qed.
Lemma fin_div x y : is_finite (f_div x y) = true -> is_finite y = true -> is_finite x = true.
Proof. destruct x as [s|s| |s m e He], y as [s'|s'| |s' m' e' He']; cbn; try discriminate; auto. Qed.
Lemma B2R_add x y : is_finite (f_add x y) = true -> exists e, Rabs e <= u /\ B2R' (f_add x y) = (B2R' x + B2R' y) * (1 + e).
Proof. intros F. destruct (fin_add x y F) as [Fx Fy]. destruct (rnd_plus x y) as (e & He & E). exists e. split; [exact He|]. rewrite (fin_repr _ _ (add_repr x y Fx Fy) F). exact E. Qed.
Lemma B2R_sub x y : is_finite (f_sub x y) = true -> exists e, Rabs e <= u /\ B2R' (f_sub x y) = (B2R' x - B2R' y) * (1 + e).
Proof. intros F. destruct (fin_sub x y F) as [Fx Fy]. destruct (rnd_minus x y) as (e & He & E). exists e. split; [exact He|]. rewrite (fin_repr _ _ (sub_repr x y Fx Fy) F). exact E. Qed.

(* ---- [x] differs from [r] by the relative error of [k] operations, relative to [t] ---- *)
Definition rel (k : nat) (x r t : R) : Prop := Rabs (x - r) <= (hi k - 1) * t /\ Rabs r <= t.
Lemma rel_nn k x r t : rel k x r t -> 0 <= t. Proof. intros [_ H]. eapply Rle_trans; [apply Rabs_pos|exact H]. Qed.
Lemma rel_size k x r t : rel k x r t -> Rabs x <= hi k * t.
Proof. intros [H1 H2]. replace x with (r + (x - r)) by ring. eapply Rle_trans; [apply Rabs_triang|]. lra. Qed.
Lemma rel_weaken j k x r t : (j <= k)%nat -> rel j x r t -> rel k x r t.
Proof. intros H HR. pose proof (rel_nn _ _ _ _ HR). destruct HR as [H1 H2]. split; [|exact H2]. pose proof (hi_mono j k H). nra. Qed.
Lemma rel_exact x t : Rabs x <= t -> rel 0 x x t.
Proof. intros H. split; [|exact H]. rewrite Rminus_diag_eq, Rabs_R0 by reflexivity. unfold hi. cbn. lra. Qed.
Lemma rel_round k x r t e : rel k x r t -> Rabs e <= u -> rel (S k) (x * (1 + e)) r t.
Proof.
  intros HR He. pose proof (rel_size _ _ _ _ HR) as Hs. destruct HR as [H1 H2]. split; [|exact H2]. replace (x * (1 + e) - r) with (x - r + x * e) by ring. eapply Rle_trans; [apply Rabs_triang|]. rewrite Rabs_mult, hi_S.
  assert (Rabs x * Rabs e <= hi k * t * u) by (apply Rmult_le_compat; auto using Rabs_pos). nra.
Qed.
Lemma rel_plus k x r t y s w : rel k x r t -> rel k y s w -> rel k (x + y) (r + s) (t + w).
Proof.
  intros [H1 H2] [H3 H4]. split.
  - replace (x + y - (r + s)) with (x - r + (y - s)) by ring. eapply Rle_trans; [apply Rabs_triang|]. lra.
  - eapply Rle_trans; [apply Rabs_triang|]. lra.
Qed.

(** The residuals of a leaf and their sum. *)
Section Leaf.
Variable target ps : list f32.
Definition rt (i : nat) : R := nth i (map B2R' target) 0.
Definition rp (i : nat) : R := nth i (map B2R' ps) 0.
Definition rres (i : nat) : R := rt i - rp i.
Lemma nth_B2R (l : list f32) i x : nth_error l i = Some x -> nth i (map B2R' l) 0 = B2R' x.
Proof. intros H. apply nth_error_nth. apply map_nth_error, H. Qed.
Lemma residual_rel i (e : f32) : residual (O := f32ops) target ps i = Ok e -> is_finite e = true ->
  rel 1 (B2R' e) (rres i) (Rabs (rres i)) /\ exists t p, nth_error target i = Some t /\ nth_error ps i = Some p /\ is_finite t = true /\ is_finite p = true.
Proof.
  unfold residual. intros E F. apply rbind_ok in E as (t & Et & E). apply rbind_ok in E as (p & Ep & E). apply idx_ok in Et, Ep. assert (f_sub t p = e) as E' by exact (Ok_inj _ _ E). subst e.
  destruct (fin_sub t p F) as [Ft Fp]. destruct (B2R_sub t p F) as (e & He & B). split; [|exists t, p; auto].
  rewrite B. unfold rres, rt, rp. rewrite (nth_B2R _ _ _ Et), (nth_B2R _ _ _ Ep). apply rel_round; [|exact He]. apply rel_exact. lra.
Qed.
Lemma sum_rel ex : forall k (a s : f32) r t, (1 <= k)%nat -> rel k (B2R' a) r t ->
  foldM (fun s i => let* e := residual (O := f32ops) target ps i in Ok (f_add s e)) ex a = Ok s -> is_finite s = true ->
  is_finite a = true /\ rel (k + length ex) (B2R' s) (r + Rsum (map rres ex)) (t + Rsum (map (fun i => Rabs (rres i)) ex)) /\
  (forall i, In i ex -> exists t p, nth_error target i = Some t /\ nth_error ps i = Some p /\ is_finite t = true /\ is_finite p = true).
Proof.
  induction ex as [|i ex IH]; intros k a s r t Hk HR E F; cbn [foldM map Rsum length] in *.
  - assert (a = s) as -> by exact (Ok_inj _ _ E). rewrite Nat.add_0_r, !Rplus_0_r. split; [exact F|]. split; [exact HR|]. intros i [].
  - apply rbind_ok in E as (a1 & E1 & E). apply rbind_ok in E1 as (e & Ee & E1). assert (f_add a e = a1) as E2 by exact (Ok_inj _ _ E1). clear E1.
    replace (k + S (length ex))%nat with (S k + length ex)%nat by lia.
    replace (r + (rres i + Rsum (map rres ex))) with (r + rres i + Rsum (map rres ex)) by ring.
    replace (t + (Rabs (rres i) + Rsum (map (fun i => Rabs (rres i)) ex))) with (t + Rabs (rres i) + Rsum (map (fun i => Rabs (rres i)) ex)) by ring.
    assert (forall (x s0 : f32) l, foldM (fun s i => let* e := residual (O := f32ops) target ps i in Ok (f_add s e)) l x = Ok s0 -> is_finite s0 = true -> is_finite x = true) as HF.
    { clear. intros x s0 l. revert x. induction l as [|j l IHl]; intros x E F; cbn [foldM] in E; [assert (x = s0) as -> by exact (Ok_inj _ _ E); exact F|].
      apply rbind_ok in E as (x1 & E1 & E). apply rbind_ok in E1 as (e & _ & E1). assert (f_add x e = x1) as E2 by exact (Ok_inj _ _ E1). pose proof (IHl _ E F) as F1. rewrite <- E2 in F1. apply fin_add in F1. apply F1. }
    pose proof (HF _ _ _ E F) as F1. rewrite <- E2 in F1. destruct (fin_add _ _ F1) as [Fa Fe]. destruct (residual_rel i e Ee Fe) as (Hres & Hfin).
    destruct (IH (S k) a1 s (r + rres i) (t + Rabs (rres i))) as (_ & H2 & H3); [lia| |exact E|exact F|].
    + rewrite <- E2. destruct (B2R_add a e F1) as (e0 & He0 & B0). rewrite B0. apply rel_round; [|exact He0]. apply rel_plus; [exact HR|]. eapply rel_weaken; [exact Hk|exact Hres].
    + split; [exact Fa|]. split; [exact H2|]. intros j [<-|Hj]; [exact Hfin|exact (H3 j Hj)].
Qed.
End Leaf.

(** Rounding once, below the smallest normal number included. *)
Lemma rel_rnd k x r t c : rel k x r t -> 0 <= c -> Rabs (rnd (c * x) - c * r) <= (hi (S k) - 1) * (c * t) + tiny.
Proof.
  intros HR Hc. pose proof (rel_size _ _ _ _ HR) as Hs. destruct HR as [H1 H2]. replace (rnd (c * x) - c * r) with (rnd (c * x) - c * x + c * (x - r)) by ring. eapply Rle_trans; [apply Rabs_triang|].
  pose proof (rnd_err (c * x)) as H. rewrite (Rabs_mult c (x - r)). rewrite Rabs_mult in H. rewrite (Rabs_pos_eq c Hc) in *. rewrite hi_S.
  assert (c * Rabs (x - r) <= c * ((hi k - 1) * t)) by (apply Rmult_le_compat_l; assumption). assert (u * (c * Rabs x) <= u * (c * (hi k * t))) by (apply Rmult_le_compat_l; [lra|]; apply Rmult_le_compat_l; assumption). lra.
Qed.

(** One leaf: the norm of the new residuals. *)
Lemma leaf_err fexp fln (target : list f32) ex (ob ob' : objective f32ops) (v : f32) : ob_kind ob = L2 -> is_finite (ob_lr ob : f32) = true -> 0 <= B2R' (ob_lr ob) <= 1 -> NoDup ex -> ex <> [] -> (Z.of_nat (length ex) <= 2 ^ 24)%Z ->
  obj_leaf_value (f32math fexp fln) target ex ob = Ok (v, ob') ->
  nrm (rres target (ob_preds ob')) ex <= hi (length ex + 4) * nrm (rres target (ob_preds ob)) ex + u * nrm (rt target) ex + bpow radix2 (-148) * sqrt (INR (length ex)) /\
  is_finite v = true /\ (forall i, In i ex -> exists t p p', nth_error target i = Some t /\ nth_error (ob_preds ob) i = Some p /\ nth_error (ob_preds ob') i = Some p' /\ is_finite t = true /\ is_finite p = true /\ is_finite p' = true).
Proof.
  intros Ek Fl Hl Hnd Hne Hlen E. destruct (C40_apply _ _ _ _ _ _ _ Hnd E) as (raw & Eraw & Hv & HL & Hp).
  set (s := length ex) in *. assert (0 < s)%nat as Hs by (subst s; destruct ex; [congruence|cbn; lia]).
  (* every new prediction is finite *)
  assert (forall i, In i ex -> exists p, nth_error (ob_preds ob) i = Some p /\ is_finite (f_add p v : f32) = true) as Hfin.
  { clear - E Hnd Hv. unfold obj_leaf_value in E. apply rbind_ok in E as (raw' & _ & E). unfold update_predictions in E. apply rbind_ok in E as (preds & Ef & E). apply Ok_inj in E. assert (nmul f32ops (ob_lr ob) raw' = v) as Ev by exact (f_equal fst E). rewrite Ev in Ef. clear - Ef Hnd.
    revert preds Ef Hnd. generalize (ob_preds ob). induction ex as [|i ex IH]; intros ps preds Ef Hnd j Hj; [destruct Hj|]. cbn [foldM] in Ef. apply rbind_ok in Ef as (ps1 & E1 & Ef). apply NoDup_cons_iff in Hnd as [Hi Hnd].
    unfold update_pred in E1. apply rbind_ok in E1 as (p & Ep & E1). apply rbind_ok in E1 as (ps2 & E2 & E1). apply rbind_ok in E1 as ([] & E3 & E1). apply Ok_inj in E1. subst ps2. apply idx_ok in Ep. apply set_idx_ok in E2. destruct E2 as [_ E2].
    destruct Hj as [->|Hj].
    - exists p. split; [exact Ep|]. change (rassert (is_finite (f_add p v)) = Ok tt) in E3. destruct (is_finite (f_add p v)); [reflexivity|discriminate].
    - destruct (IH ps1 preds Ef Hnd j Hj) as (q & Eq & Fq). exists q. split; [|exact Fq]. subst ps1. rewrite nth_error_upd in Eq. destruct (Nat.eqb_spec i j) as [->|N]; [contradiction|]. exact Eq. }
  assert (exists i0, In i0 ex) as (i0 & Hi0) by (destruct ex as [|i0 ?]; [congruence|exists i0; left; reflexivity]).
  assert (is_finite v = true) as Fv. { destruct (Hfin i0 Hi0) as (p & _ & F). apply fin_add in F. apply F. }
  unfold raw_leaf_value in Eraw. rewrite Ek in Eraw. apply rbind_ok in Eraw as (sm & Es & Eraw). assert (f_div sm (nofnat f32ops s) = raw) as Er by exact (Ok_inj _ _ Eraw). clear Eraw.
  change (v = f_mul (ob_lr ob) raw) in Hv. assert (is_finite raw = true) as Fr by (rewrite Hv in Fv; apply (fin_mul _ _ Fv)).
  destruct (nofnat_f s Hlen) as [Fn Bn]. rewrite <- INR_IZR_INZ in Bn. assert (0 < INR s) as HsR by (apply lt_0_INR; exact Hs).
  assert (is_finite sm = true) as Fs by (rewrite <- Er in Fr; exact (fin_div _ _ Fr Fn)).
  destruct (f_of_Z_exact 0) as [F0 B0]; [cbn; lia|].
  destruct (sum_rel target (ob_preds ob) ex 1 (f_of_Z 0) sm 0 0 ltac:(lia)) as (_ & Hsum & Hin); [rewrite B0; split; rewrite ?Rminus_0_r, ?Rabs_R0; lra|exact Es|exact Fs|].
  fold s in Hsum. rewrite !Rplus_0_l in Hsum. set (S1 := Rsum (map (rres target (ob_preds ob)) ex)) in *. set (T1 := Rsum (map (fun i => Rabs (rres target (ob_preds ob) i)) ex)) in *.
  assert (B2R' raw = rnd (/ INR s * B2R' sm)) as Braw. { rewrite <- Er in Fr |- *. rewrite (fin_repr _ _ (div_repr _ _ Fs Fn ltac:(rewrite Bn; lra)) Fr). rewrite Bn. f_equal. unfold Rdiv. ring. }
  assert (0 < / INR s) as HiR by (apply Rinv_0_lt_compat; exact HsR).
  pose proof (rel_rnd _ _ _ _ (/ INR s) Hsum ltac:(lra)) as Hraw. rewrite <- Braw in Hraw. replace (S (1 + s)) with (s + 2)%nat in Hraw by lia.
  set (mean := / INR s * S1) in *. set (tm := / INR s * T1) in *.
  assert (0 <= T1) as HT by exact (rel_nn _ _ _ _ Hsum). assert (0 <= tm) as Htm by (apply Rmult_le_pos; lra).
  assert (Rabs mean <= tm) as Hmt. { unfold mean, tm. rewrite Rabs_mult, (Rabs_pos_eq (/ INR s)) by lra. apply Rmult_le_compat_l; [lra|apply Hsum]. }
  assert (B2R' v = rnd (B2R' (ob_lr ob) * B2R' raw)) as Bv by (rewrite Hv in Fv |- *; exact (fin_repr _ _ (mul_repr _ _ Fl Fr) Fv)).
  pose proof tiny_pos as Hty. pose proof (hi_ge1 (s + 2)) as Hh2. set (h2 := hi (s + 2)) in *. set (lr := B2R' (ob_lr ob)) in *.
  assert (Rabs (B2R' v - lr * mean) <= (h2 * (1 + u) - 1) * tm + 3 * tiny) as Hd.
  { rewrite Bv. pose proof (rnd_err (lr * B2R' raw)) as H. replace (rnd (lr * B2R' raw) - lr * mean) with (rnd (lr * B2R' raw) - lr * B2R' raw + lr * (B2R' raw - mean)) by ring. eapply Rle_trans; [apply Rabs_triang|].
    rewrite Rabs_mult in H. rewrite (Rabs_mult lr (B2R' raw - mean)). rewrite (Rabs_pos_eq lr) in * by lra.
    assert (Rabs (B2R' raw) <= h2 * tm + tiny) as Hsz. { replace (B2R' raw) with (mean + (B2R' raw - mean)) by ring. eapply Rle_trans; [apply Rabs_triang|]. lra. }
    pose proof (Rabs_pos (B2R' raw)). pose proof (Rabs_pos (B2R' raw - mean)).
    assert (lr * Rabs (B2R' raw) <= Rabs (B2R' raw)) by nra. assert (lr * Rabs (B2R' raw - mean) <= Rabs (B2R' raw - mean)) by nra. nra. }
  set (r0 := rres target (ob_preds ob)) in *. set (w := B2R' v) in *.
  (* the ideal step *)
  assert (nrm (fun i => r0 i - lr * mean) ex <= nrm r0 ex) as Hideal.
  { unfold nrm, ssq. apply sqrt_le_1_alt. pose proof (mean_step (map r0 ex) lr ltac:(lra)) as HM. rewrite map_length, !map_map in HM. fold s in HM. specialize (HM ltac:(destruct ex; [destruct Hi0|discriminate])). fold S1 in HM.
    replace (S1 / INR s) with mean in HM by (unfold mean, Rdiv; ring).
    replace (map (fun i => (r0 i - lr * mean) * (r0 i - lr * mean)) ex) with (map (fun x => (r0 x - lr * mean) ^ 2) ex) by (apply map_ext; intros; ring). replace (map (fun i => r0 i * r0 i) ex) with (map (fun x => (r0 x) ^ 2) ex) by (apply map_ext; intros; ring). exact HM. }
  assert (sqrt (INR s) * tm <= nrm r0 ex) as HTn.
  { pose proof (abs_sum r0 ex) as HA. fold T1 s in HA. unfold tm. pose proof (sqrt_lt_R0 _ HsR) as Hq. pose proof (sqrt_sqrt (INR s) ltac:(lra)) as Hqq.
    replace (sqrt (INR s) * (/ INR s * T1)) with (/ sqrt (INR s) * T1) by (assert (/ INR s = / sqrt (INR s) * / sqrt (INR s)) as -> by (rewrite <- Rinv_mult, Hqq; reflexivity); field; lra).
    apply Rmult_le_reg_l with (sqrt (INR s)); [exact Hq|]. rewrite <- Rmult_assoc, Rinv_r by lra. lra. }
  set (N0 := nrm r0 ex) in *. set (q := sqrt (INR s)) in *. assert (0 <= q) as Hq0 by apply sqrt_pos. pose proof (nrm_nn r0 ex) as HN0. fold N0 in HN0.
  assert (nrm (fun i => r0 i - w) ex <= h2 * (1 + u) * N0 + 3 * tiny * q) as Hstep.
  { set (d := (h2 * (1 + u) - 1) * tm + 3 * tiny) in *. assert (0 <= d) as Hd0 by (eapply Rle_trans; [apply Rabs_pos|exact Hd]).
    eapply Rle_trans; [apply (nrm_le _ (fun i => Rabs (r0 i - lr * mean) + d))|].
    - intros i _. replace (r0 i - w) with (r0 i - lr * mean + - (w - lr * mean)) by ring. eapply Rle_trans; [apply Rabs_triang|]. rewrite Rabs_Ropp. lra.
    - eapply Rle_trans; [apply nrm_tri|]. rewrite nrm_abs, (nrm_const d ex Hd0). fold s q. assert (d * q <= (h2 * (1 + u) - 1) * N0 + 3 * tiny * q); [|lra].
      unfold d. rewrite Rmult_plus_distr_r, Rmult_assoc, (Rmult_comm tm q). assert ((h2 * (1 + u) - 1) * (q * tm) <= (h2 * (1 + u) - 1) * N0); [|lra]. apply Rmult_le_compat_l; [nra|exact HTn]. }
  split; [|split; [exact Fv|]].
  - assert (forall i, In i ex -> Rabs (rres target (ob_preds ob') i) <= (1 + u) * Rabs (r0 i - w) + u * Rabs (rt target i)) as Hnew.
    { intros i Hi. destruct (Hfin i Hi) as (p & Ep & Fp). destruct (Hp i p Ep) as (Hp1 & _). specialize (Hp1 Hi). change (nadd f32ops p v) with (f_add p v) in Hp1.
      unfold r0, rres, rp. rewrite (nth_B2R _ _ _ Ep), (nth_B2R _ _ _ Hp1). destruct (B2R_add p v Fp) as (e & He & Be). rewrite Be. fold w. set (t := rt target i).
      replace (t - (B2R' p + w) * (1 + e)) with ((t - B2R' p - w) * (1 + e) + - (t * e)) by ring. eapply Rle_trans; [apply Rabs_triang|]. rewrite Rabs_Ropp, !Rabs_mult.
      assert (Rabs (1 + e) <= 1 + u) as H1e. { eapply Rle_trans; [apply Rabs_triang|]. rewrite Rabs_R1. lra. }
      apply Rplus_le_compat; [rewrite Rmult_comm; apply Rmult_le_compat_r; [apply Rabs_pos|exact H1e]|rewrite Rmult_comm; apply Rmult_le_compat_r; [apply Rabs_pos|exact He]]. }
    eapply Rle_trans; [apply (nrm_le _ _ _ Hnew)|]. eapply Rle_trans; [apply nrm_tri|]. rewrite !nrm_scale by lra. rewrite !nrm_abs. fold s q.
    assert (4 * tiny = bpow radix2 (-148)) as <-. { unfold tiny. change (-148)%Z with (2 + -150)%Z. rewrite bpow_plus. reflexivity. }
    replace (s + 4)%nat with (S (S (s + 2))) by lia. rewrite !hi_S. fold h2. pose proof (nrm_nn (rt target) ex). assert (0 <= tiny * q) by (apply Rmult_le_pos; lra). nra.
  - intros i Hi. destruct (Hin i Hi) as (t & p & Et & Ep & Ft & Fp). destruct (Hfin i Hi) as (p1 & Ep1 & Fp1). assert (Some p1 = Some p) as Epp by exact (eq_trans (eq_sym Ep1) Ep). assert (p1 = p) as -> by congruence. destruct (Hp i p Ep) as (Hp1 & _). exists t, p, (f_add p v). split; [exact Et|]. split; [exact Ep|]. split; [exact (Hp1 Hi)|]. auto.
Qed.
