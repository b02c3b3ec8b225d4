(** Property C40: gradients, their bounds, and leaf values of the objectives. *)
From Coq Require Import String Reals Lra Psatz.
From Flocq Require Import Core BinarySingleNaN.
From Verif Require Import Base BaseProofs F32 F32Proofs Num BinnerModel BinnerSpec BinnerProps ScaledModel Config ObjectiveModel MetricSpec MetricProps ObjectiveSpec ObjectiveProofs.
Local Open Scope R_scope.

(* ---- gradients ---- *)
Definition class_target (t : R) : Prop := t = 0 \/ t = 1.

(** Where the loss has a derivative with respect to the prediction, the gradient of the objectives other than Huber is that derivative. *)
Theorem C40_gradient : forall k delta t p, k <> Huber ->
  (k = L1 -> t <> p) -> (k = Hinge -> class_target t /\ label t * p <> 1) ->
  derivable_pt_lim (loss k delta t) p (gradient Rmath k delta t p).
Proof.
  intros k delta t p Hk H1 Hh. destruct k; cbn [loss gradient]; unfold half, two, one, zero; cbn [Rops Rmath nofZ nsub nneg nmul ndiv nadd nlt m_signum m_exp].
  - apply L2_derivable.
  - apply L1_derivable, H1. reflexivity.
  - congruence.
  - apply Binary_derivable.
  - destruct (Hh eq_refl) as (Hc & Hp). unfold label in *.
    assert ((if Rlt_dec ((2 * t - 1) * p) 1 then - (2 * t - 1) else 0) =
      (if Rlt_bool t (1 / 2) then (if Rlt_bool (- (1)) p then 1 else 0) else (if Rlt_bool p 1 then - (1) else 0))) as E.
    { destruct Hc as [-> | ->].
      - rewrite Rlt_bool_true by lra. destruct (Rlt_dec ((2 * 0 - 1) * p) 1), (Rlt_bool_spec (- (1)) p); lra.
      - rewrite Rlt_bool_false by lra. destruct (Rlt_dec ((2 * 1 - 1) * p) 1), (Rlt_bool_spec p 1); lra. }
    pose proof (Hinge_derivable (2 * t - 1) p Hp) as H. rewrite E in H. apply H. destruct Hc as [-> | ->]; intros X; lra.
Qed.
Print Assumptions C40_gradient.
Example C40_gradient_ex : (1 : R) <> 2 /\ class_target 1 /\ label 1 * (1 / 2) <> 1 /\ gradient Rmath L2 0 1 3 = 2.
Proof. unfold class_target, label. cbn [gradient]. cbn [Rops nneg nsub]. split; [|split; [right; reflexivity|split; [|change (- (1 - 3) = 2); lra]]]; intros E; lra. Qed.

Lemma huber_gradient_R delta t p : 0 <= delta -> gradient Rmath Huber delta t p = psi delta (t - p).
Proof.
  intros Hd. cbn [gradient]. cbn [Rops Rmath nsub nle nabs nmul m_signum]. unfold R_signum.
  destruct (psi_cases delta (t - p) Hd) as [(A & ->)|[(A & ->)|(A & ->)]].
  - rewrite Rle_bool_true by exact A. reflexivity.
  - rewrite Rle_bool_false by (rewrite Rabs_pos_eq; lra). rewrite Rlt_bool_false by lra. cbn [Rops num] in *. lra.
  - rewrite Rle_bool_false by (rewrite Rabs_left; lra). rewrite Rlt_bool_true by lra. cbn [Rops num] in *. lra.
Qed.
(** The gradient of Huber is minus the derivative. *)
Theorem C40_huber_gradient : forall delta t p, 0 <= delta -> derivable_pt_lim (loss Huber delta t) p (- gradient Rmath Huber delta t p).
Proof. intros delta t p Hd. rewrite huber_gradient_R by exact Hd. apply huber_derivable, Hd. Qed.
Print Assumptions C40_huber_gradient.
(** So for Huber the convention of the other objectives does not hold: *)
Theorem C40_huber_gradient_refuted : exists delta t p, 0 < delta /\ ~ derivable_pt_lim (loss Huber delta t) p (gradient Rmath Huber delta t p).
Proof.
  exists 1, 1, 0. split; [lra|]. intros H.
  pose proof (uniqueness_limite _ _ _ _ H (C40_huber_gradient 1 1 0 ltac:(lra))) as E. rewrite huber_gradient_R in E by lra.
  unfold psi in E. rewrite Rmin_left, Rmax_right in E by lra. lra.
Qed.
Print Assumptions C40_huber_gradient_refuted.

(** What an update of the objective does, in any arithmetic: one gradient per example from its target and prediction; the predictions stay. *)
Theorem C40_update : forall O (M : mathops O) targets ob ob', obj_update M targets ob = Ok ob' ->
  length (ob_preds ob) = length targets /\ ob_preds ob' = ob_preds ob /\ ob_kind ob' = ob_kind ob /\ length (ob_grads ob') = length targets /\
  forall i t p, nth_error targets i = Some t -> nth_error (ob_preds ob) i = Some p -> nth_error (ob_grads ob') i = Some (gradient M (ob_kind ob) (ob_delta ob') t p).
Proof.
  intros O M targets ob ob' E. unfold obj_update in E.
  destruct (length (ob_preds ob) =? length targets)%nat eqn:E1; [|discriminate]. apply Nat.eqb_eq in E1. cbn [rassert rbind] in E.
  destruct (length (ob_grads ob) =? length targets)%nat; [|discriminate]. cbn [rassert rbind] in E. split; [exact E1|].
  assert (forall k d i t p, nth_error targets i = Some t -> nth_error (ob_preds ob) i = Some p ->
    nth_error (pair_gradients M k d targets (ob_preds ob)) i = Some (gradient M k d t p)) as A.
  { intros k d i t p Ht Hp. unfold pair_gradients. rewrite (map_nth_error _ _ _ (d := (t, p))); [reflexivity|].
    revert Ht Hp. generalize (ob_preds ob), i. clear. induction targets as [|a l IH]; intros [|b l'] [|i] Ht Hp; try discriminate; cbn in *; [congruence|]. apply IH; assumption. }
  assert (forall k d, length (pair_gradients M k d targets (ob_preds ob)) = length targets) as Hl.
  { intros k d. unfold pair_gradients. rewrite map_length, combine_length. lia. }
  destruct (ob_kind ob) eqn:Ek.
  - destruct (m_limits M _) as (mn, mx). injection E as <-. cbn. split; [reflexivity|]. split; [reflexivity|]. split; [apply Hl|]. intros i t p Ht Hp. rewrite (A _ _ _ _ _ Ht Hp). reflexivity.
  - injection E as <-. cbn. split; [reflexivity|]. split; [reflexivity|]. split; [apply Hl|]. intros i t p Ht Hp. rewrite (A _ _ _ _ _ Ht Hp). reflexivity.
  - apply rbind_ok in E as (q & _ & E). injection E as <-. cbn. split; [reflexivity|]. split; [reflexivity|]. split; [apply Hl|]. intros i t p Ht Hp. rewrite (A _ _ _ _ _ Ht Hp). reflexivity.
  - injection E as <-. cbn. split; [reflexivity|]. split; [reflexivity|]. split; [apply Hl|]. intros i t p Ht Hp. rewrite (A _ _ _ _ _ Ht Hp). reflexivity.
  - injection E as <-. cbn. split; [reflexivity|]. split; [reflexivity|]. split; [apply Hl|]. intros i t p Ht Hp. rewrite (A _ _ _ _ _ Ht Hp). reflexivity.
Qed.
Print Assumptions C40_update.

(* ---- bounds, in f32 ---- *)
Definition within (b : f32 * f32) (g : f32) : Prop := f_le (fst b) g = true /\ f_le g (snd b) = true.
Definition bounded_kind (k : obj_kind) : bool := match k with L1 | Huber | Hinge => true | _ => false end.

Lemma f_neg_key x : is_nan x = false -> is_nan (f_neg x) = false /\ key (f_neg x) = - key x.
Proof.
  intros H. destruct x as [s|[|]| |s m e He]; try discriminate; (split; [reflexivity|]).
  - cbn. lra.
  - cbn. lra.
  - reflexivity.
  - exact (B2R_Bopp 24 128 (B754_finite s m e He)).
Qed.
Lemma f_abs_key x : is_nan x = false -> is_nan (f_abs x) = false /\ key (f_abs x) = Rabs (key x).
Proof.
  intros H. pose proof M_pos. destruct x as [s|[|]| |s m e He]; try discriminate; cbn [f_abs Babs key is_nan]; (split; [reflexivity|]).
  - cbn. rewrite Rabs_R0. reflexivity.
  - rewrite Rabs_left; lra.
  - rewrite Rabs_pos_eq; lra.
  - pose proof (B2R_Babs 24 128 (B754_finite s m e He)) as E. exact E.
Qed.
Lemma mul_signum d err : is_nan d = false -> is_nan err = false -> is_nan (f_mul d (f_signum err)) = false /\ (key (f_mul d (f_signum err)) = key d \/ key (f_mul d (f_signum err)) = - key d).
Proof.
  intros Nd Ne. unfold f_signum, f_is_nan. rewrite Ne. pose proof M_pos as HM.
  destruct (f_one_val) as (F1 & E1). assert (is_finite (f_neg f_one) = true /\ B2R (f_neg f_one) = -1) as (F2 & E2).
  { split; [vm_compute; reflexivity|]. unfold f_neg. rewrite B2R_Bopp, E1. reflexivity. }
  destruct (is_finite d) eqn:Fd.
  - pose proof (key_finite_strict d Fd) as Hk. pose proof (key_finite d Fd) as Hkd.
    destruct (Bsign err).
    + destruct (mul_repr d (f_neg f_one) Fd F2) as (A & B). split; [exact A|]. right. rewrite B, E2. replace (B2R d * -1) with (- B2R d) by ring.
      rewrite rnd_generic by (apply generic_format_opp, generic_f32). rewrite clampM_id by lra. lra.
    + destruct (mul_repr d f_one Fd F1) as (A & B). split; [exact A|]. left. rewrite B, E1, Rmult_1_r.
      rewrite rnd_generic by apply generic_f32. rewrite clampM_id by lra. lra.
  - destruct (Bsign err), d as [|[|]| |]; try discriminate; (split; [vm_compute; reflexivity|]).
    + right. replace (f_mul (B754_infinity true) (f_neg f_one)) with (f_inf : f32) by (apply B2SF_inj; vm_compute; reflexivity). cbn. lra.
    + right. replace (f_mul (B754_infinity false) (f_neg f_one)) with (f_ninf : f32) by (apply B2SF_inj; vm_compute; reflexivity). cbn. lra.
    + left. replace (f_mul (B754_infinity true) f_one) with (f_ninf : f32) by (apply B2SF_inj; vm_compute; reflexivity). reflexivity.
    + left. replace (f_mul (B754_infinity false) f_one) with (f_inf : f32) by (apply B2SF_inj; vm_compute; reflexivity). reflexivity.
Qed.

(** The gradients of L1, Huber and Hinge lie within the bounds used to discretise them (residuals and Huber's threshold not NaN). *)
Theorem C40_bounds : forall fexp fln (targets : list f32) ob ob', bounded_kind (ob_kind ob) = true ->
  obj_update (f32math fexp fln) targets ob = Ok ob' ->
  Forall (fun tp => f_is_nan (f_sub (fst tp) (snd tp)) = false) (combine targets (ob_preds ob)) -> f_is_nan (ob_delta ob') = false ->
  Forall (within (obj_bounds ob')) (ob_grads ob').
Proof.
  intros fexp fln targets ob ob' Hk E Hn Hd. pose proof E as E'. apply C40_update in E' as (Hl & Hp & Hk' & Hlg & Hg). change (num f32ops) with f32 in *.
  apply Forall_forall. intros g Hing. apply In_nth_error in Hing as (i & Hi).
  assert (i < @length f32 (ob_grads ob'))%nat as Hlt by (apply nth_error_Some; intros Hc; discriminate (eq_trans (eq_sym Hi) Hc)).
  rewrite (Hlg : @length f32 (ob_grads ob') = @length f32 targets) in Hlt.
  destruct (nth_error targets i) as [t|] eqn:Et; [|apply nth_error_None in Et; lia].
  rewrite <- (Hl : @length f32 (ob_preds ob) = @length f32 targets) in Hlt.
  destruct (@nth_error f32 (ob_preds ob) i) as [p|] eqn:Ep; [|apply nth_error_None in Ep; lia].
  assert (gradient (f32math fexp fln) (ob_kind ob) (ob_delta ob') t p = g) as <- by (pose proof (eq_trans (eq_sym (Hg i t p Et Ep)) Hi) as X; injection X as X; exact X).
  assert (In (t, p) (combine targets (ob_preds ob))) as Hin.
  { clear - Et Ep. revert Et Ep. generalize (ob_preds ob) i. induction targets as [|a l IH]; intros [|b l'] [|j] Ht Hp; try discriminate; cbn in *; [left; congruence|right; apply (IH l' j); assumption]. }
  rewrite Forall_forall in Hn. specialize (Hn _ Hin). cbn [fst snd] in Hn.
  destruct (ob_kind ob) eqn:Ek; try discriminate; unfold within, obj_bounds; rewrite Hk'; cbn [fst snd gradient]; unfold half, two, one, zero; cbn [f32ops f32math nofZ nsub nneg nmul ndiv nadd nlt nle nabs m_signum m_exp].
  - unfold f_signum, f_is_nan in *. rewrite Hn. destruct (Bsign _); vm_compute; split; reflexivity.
  - assert (exists q, ob_delta ob' = f_abs q) as (q & Eq).
    { unfold obj_update in E. rewrite Ek in E. destruct (_ =? _)%nat; [|discriminate]. cbn [rassert rbind] in E. destruct (_ =? _)%nat; [|discriminate]. cbn [rassert rbind] in E.
      apply rbind_ok in E as (q & _ & E). exists q. apply (f_equal (fun r : res (objective f32ops) => match r with Ok o => (ob_delta o : f32) | _ => f_zero end)) in E. cbn [ob_delta] in E. symmetry. exact E. }
    assert (is_nan q = false) as Nq by (rewrite Eq in Hd; destruct q; try discriminate; reflexivity).
    destruct (f_abs_key q Nq) as (Na & Ka). rewrite <- Eq in Na, Ka. set (d := ob_delta ob') in *. clearbody d.
    assert (0 <= key d) as Hd0 by (rewrite Ka; apply Rabs_pos).
    destruct (f_neg_key d Na) as (Nn & Kn). destruct (f_abs_key _ Hn) as (Nae & Kae).
    destruct (f_le (f_abs (f_sub t p)) d) eqn:Ele.
    + apply (f_le_key _ _ Nae Na) in Ele. rewrite Kae in Ele. apply Rabs_le_inv in Ele. split; apply f_le_key; try assumption; lra.
    + destruct (mul_signum d (f_sub t p) Na Hn) as (Nm & Km). split; apply f_le_key; try assumption; lra.
  - destruct (f_lt t _); destruct (f_lt _ _); vm_compute; split; reflexivity.
Qed.
Print Assumptions C40_bounds.

Definition ex_ob (k : obj_kind) (p d : f32) : objective f32ops := @mk_obj f32ops k f_one f_zero [p; p; p] [f_zero; f_zero; f_zero] (f_zero, f_zero) (f_div f_one (f_of_Z 2)) d f_one.
Example C40_bounds_ex : match obj_update (f32math (fun x => x) (fun x => x)) [f_of_Z 0; f_of_Z 0; f_of_Z 3] (ex_ob Huber f_one f_zero) with
  | Ok ob' => f_is_nan (ob_delta ob') = false /\ map f_is_nan (ob_grads ob') = [false; false; false] | _ => False end.
Proof. vm_compute. split; reflexivity. Qed.

(** The bounds of L2 are the smaller of the two extreme residuals, so larger residuals fall outside: *)
Theorem C40_bounds_l2_refuted : forall fexp fln,
  match obj_update (f32math fexp fln) [f_of_Z 0; f_of_Z 0; f_of_Z 3] (ex_ob L2 f_one f_zero) with
  | Ok ob' => exists g, In g (ob_grads ob') /\ f_lt g (fst (obj_bounds ob')) = true | _ => False end.
Proof.
  intros fexp fln. cbn [obj_update]. change (match obj_update (f32math fexp fln) [f_of_Z 0; f_of_Z 0; f_of_Z 3] (ex_ob L2 f_one f_zero) with
  | Ok ob' => exists g, In g (ob_grads ob') /\ f_lt g (fst (obj_bounds ob')) = true | _ => False end).
  enough (match obj_update (f32math fexp fln) [f_of_Z 0; f_of_Z 0; f_of_Z 3] (ex_ob L2 f_one f_zero) with
    | Ok ob' => existsb (fun g => f_lt g (fst (obj_bounds ob'))) (ob_grads ob') = true | _ => False end) as H.
  { destruct (obj_update _ _ _) as [ob'| | |]; try contradiction. apply existsb_exists in H as (g & A & B). exists g. split; assumption. }
  vm_compute. reflexivity.
Qed.
Print Assumptions C40_bounds_l2_refuted.

(** Gradients of the logistic loss lie strictly between -2 and 2 (exact arithmetic); the default bound is 1.25. *)
Theorem C40_bounds_binary : forall t p, class_target t -> -2 < gradient Rmath Binary 0 t p < 2.
Proof.
  intros t p Ht. cbn [gradient]. unfold two, one. cbn [Rops Rmath nofZ nsub nneg nmul ndiv nadd m_exp].
  assert (forall y, y = 1 \/ y = -1 -> -2 < - (2 * y) / (1 + exp (2 * y * p)) < 2) as A.
  { intros y Hy. set (x := exp (2 * y * p)). assert (0 < x) as Hx by apply exp_pos.
    assert (0 < / (1 + x) < 1) as Hi. { split; [apply Rinv_0_lt_compat; lra|]. rewrite <- Rinv_1. apply Rinv_lt_contravar; lra. }
    unfold Rdiv. destruct Hy as [-> | ->]; nra. }
  apply A. destruct Ht as [-> | ->]; [right|left]; cbn [Rops num]; ring.
Qed.
Print Assumptions C40_bounds_binary.
Theorem C40_bounds_binary_refuted : exists p, 5 / 4 < gradient Rmath Binary 0 0 p.
Proof.
  exists 1. change (5 / 4 < - (2 * (2 * 0 - 1)) / (1 + exp (2 * (2 * 0 - 1) * 1))).
  replace (2 * (2 * 0 - 1) * 1) with (- (2)) by ring. rewrite exp_Ropp. pose proof (exp_ineq1 2 ltac:(lra)) as H.
  assert (/ exp 2 < / 3) as Hi by (apply Rinv_lt_contravar; lra).
  replace (- (2 * (2 * 0 - 1)) / (1 + / exp 2)) with (2 * / (1 + / exp 2)) by (unfold Rdiv; ring).
  assert (0 < / exp 2) by (apply Rinv_0_lt_compat; lra).
  assert (/ (4 / 3) < / (1 + / exp 2)) by (apply Rinv_lt_contravar; nra). lra.
Qed.
Print Assumptions C40_bounds_binary_refuted.

(** The gradients of Hinge survive discretisation with 2 bits between the objective's bounds unchanged (f32). *)
Theorem C40_hinge_lossless : forall fexp fln (targets : list f32) ob ob', ob_kind ob = Hinge -> obj_update (f32math fexp fln) targets ob = Ok ob' ->
  Forall (fun g => f_eq (linproj f32ops 2 (f_of_Z (discretise f32ops 2 g (obj_bounds ob'))) f_one (obj_bounds ob')) g = true) (ob_grads ob').
Proof.
  intros fexp fln targets ob ob' Ek E. apply C40_update in E as (Hl & Hp & Hk' & Hlg & Hg). change (num f32ops) with f32 in *.
  apply Forall_forall. intros g Hing. apply In_nth_error in Hing as (i & Hi).
  assert (i < @length f32 (ob_grads ob'))%nat as Hlt by (apply nth_error_Some; intros Hc; discriminate (eq_trans (eq_sym Hi) Hc)).
  rewrite (Hlg : @length f32 (ob_grads ob') = @length f32 targets) in Hlt.
  destruct (nth_error targets i) as [t|] eqn:Et; [|apply nth_error_None in Et; lia].
  rewrite <- (Hl : @length f32 (ob_preds ob) = @length f32 targets) in Hlt.
  destruct (@nth_error f32 (ob_preds ob) i) as [p|] eqn:Ep; [|apply nth_error_None in Ep; lia].
  assert (gradient (f32math fexp fln) (ob_kind ob) (ob_delta ob') t p = g) as <- by (pose proof (eq_trans (eq_sym (Hg i t p Et Ep)) Hi) as X; injection X as X; exact X).
  unfold obj_bounds. rewrite Hk', Ek. cbn [gradient]. unfold half, two, one, zero. cbn [f32ops nlt nofZ ndiv nneg].
  destruct (f_lt t _); destruct (f_lt _ _); vm_compute; reflexivity.
Qed.
Print Assumptions C40_hinge_lossless.

(* ---- leaf values, in exact arithmetic ---- *)
(** The residual of example [i]. *)
Definition resid (targets preds : list R) (i : nat) : R := nth i targets 0 - nth i preds 0.
(** All the examples have a target and a prediction. *)
Definition in_range (targets preds : list R) (examples : list nat) : Prop :=
  Forall (fun i => i < length targets /\ i < length preds)%nat examples.

Lemma residual_R (targets preds : list R) i : (i < length targets)%nat -> (i < length preds)%nat -> @residual Rops targets preds i = Ok (resid targets preds i).
Proof.
  intros H1 H2. unfold residual. rewrite (proj2 (idx_ok (num Rops) targets i (nth i targets 0)) (nth_error_nth' targets _ H1)). cbn [rbind].
  rewrite (proj2 (idx_ok (num Rops) preds i (nth i preds 0)) (nth_error_nth' preds _ H2)). reflexivity.
Qed.
Lemma mapM_residual (targets preds : list R) examples : in_range targets preds examples ->
  mapM (@residual Rops targets preds) examples = Ok (map (resid targets preds) examples).
Proof.
  intros H. induction H as [|i l (H1 & H2) H IH]; [reflexivity|]. cbn [mapM map]. rewrite residual_R by assumption. cbn [rbind]. rewrite IH. reflexivity.
Qed.
Lemma sum_residual (targets preds : list R) examples (s : R) : in_range targets preds examples ->
  foldM (fun s i => let* e := @residual Rops targets preds i in Ok (nadd Rops s e)) examples s = Ok (s + Rsum (map (resid targets preds) examples)).
Proof.
  intros H. revert s. induction H as [|i l (H1 & H2) H IH]; intros s; cbn [foldM map Rsum]; [f_equal; lra|].
  rewrite residual_R by assumption. cbn [rbind]. etransitivity; [apply IH|]. f_equal. cbn [Rops nadd]. lra.
Qed.

Lemma total_loss_resid k delta targets preds examples v (h : R -> R) : (forall t p, loss k delta t (p + v) = h (t - p - v)) ->
  total_loss k delta targets preds examples v = Rsum (map (fun r => h (r - v)) (map (resid targets preds) examples)).
Proof. intros H. unfold total_loss. rewrite map_map. apply Rsum_ext. intros i _. rewrite H. reflexivity. Qed.

(** L2: the leaf value is the best constant for the examples of the leaf. *)
Theorem C40_l2_leaf : forall (targets : list R) examples (ob : objective Rops), ob_kind ob = L2 ->
  in_range targets (ob_preds ob) examples -> examples <> [] ->
  exists v, raw_leaf_value Rmath targets examples ob = Ok v /\ minimises (total_loss L2 0 targets (ob_preds ob) examples) v.
Proof.
  intros targets examples ob Ek Hr Hne. eexists. split.
  - unfold raw_leaf_value. rewrite Ek. pose proof (sum_residual targets (ob_preds ob) examples 0 Hr) as E.
    change (zero Rops) with (0 : num Rops). match goal with |- rbind ?m _ = _ => replace m with (Ok (0 + Rsum (map (resid targets (ob_preds ob)) examples)) : res (num Rops)) by (symmetry; exact E) end.
    cbn [rbind]. reflexivity.
  - assert (forall v, total_loss L2 0 targets (ob_preds ob) examples v = Rsum (map (fun r => (r - v) ^ 2 / 2) (map (resid targets (ob_preds ob)) examples))) as E.
    { intros v. apply (total_loss_resid L2 0 targets (ob_preds ob) examples v (fun e => e ^ 2 / 2)). intros t p. cbn [loss]. replace (t - (p + v)) with (t - p - v) by ring. reflexivity. }
    intros w. rewrite !E. unfold nofnat. cbn [Rops ndiv nofZ]. rewrite Rplus_0_l, <- INR_IZR_INZ.
    rewrite <- (map_length (resid targets (ob_preds ob)) examples). apply mean_minimises. destruct examples; [congruence|discriminate].
Qed.
Print Assumptions C40_l2_leaf.

(** L1: the leaf value is within one bin (1/1024 of the range of the residuals) of a median of the residuals of the leaf, which is
    a best constant; so the loss is at most that much per example above the least possible. *)
Theorem C40_l1_leaf : forall (targets : list R) examples (ob : objective Rops) (lo hi : R), ob_kind ob = L1 ->
  in_range targets (ob_preds ob) examples -> examples <> [] -> (N.of_nat (length examples) < 2 ^ 32)%N ->
  ob_bounds ob = (lo, hi) -> lo < hi -> Forall (fun i => lo <= resid targets (ob_preds ob) i <= hi) examples ->
  exists v m, raw_leaf_value Rmath targets examples ob = Ok v /\ minimises (total_loss L1 0 targets (ob_preds ob) examples) m /\
    Rabs (v - m) <= (hi - lo) / 1024 /\
    (forall w, total_loss L1 0 targets (ob_preds ob) examples v <= total_loss L1 0 targets (ob_preds ob) examples w + INR (length examples) * ((hi - lo) / 1024)).
Proof.
  intros targets examples ob lo hi Ek Hr Hne Hc Hb Hlt Hf. set (rs := map (resid targets (ob_preds ob)) examples).
  destruct (sorted_exists rs) as (s & Hs).
  assert (length rs = length examples) as Hl by apply map_length.
  assert (0 < length examples)%nat as H0 by (destruct examples; [congruence|cbn; lia]).
  destruct (quantile_R 1024 (1 / 2) lo hi rs s (length rs / 2)) as (v & Ev & Hv).
  - lia.
  - cbn. lia.
  - exact Hlt.
  - unfold rs. apply Forall_map. exact Hf.
  - exact Hs.
  - rewrite Hl. exact Hc.
  - rewrite Hl. rewrite INR_IZR_INZ. pose proof (Nat.div_mod (length examples) 2 ltac:(lia)) as D. pose proof (Nat.mod_upper_bound (length examples) 2 ltac:(lia)) as U.
    apply Zfloor_imp. rewrite plus_IZR. set (q := (length examples / 2)%nat) in *. set (m := (length examples mod 2)%nat) in *.
    assert (Z.of_nat (length examples) = 2 * Z.of_nat q + Z.of_nat m)%Z as -> by lia. rewrite plus_IZR, mult_IZR.
    assert (0 <= IZR (Z.of_nat m)) by (apply IZR_le; lia). assert (IZR (Z.of_nat m) <= 1) by (apply (IZR_le _ 1); lia). lra.
  - rewrite Hl. apply Nat.div_lt; lia.
  - exists v, (nth (length rs / 2) s 0).
    assert (forall v, total_loss L1 0 targets (ob_preds ob) examples v = Rsum (map (fun r => Rabs (r - v)) rs)) as E.
    { intros u. apply (total_loss_resid L1 0 targets (ob_preds ob) examples u Rabs). intros t p. cbn [loss]. replace (t - (p + u)) with (t - p - u) by ring. reflexivity. }
    assert (minimises (total_loss L1 0 targets (ob_preds ob) examples) (nth (length rs / 2) s 0)) as Hm.
    { intros w. rewrite !E. apply median_minimises; [exact Hs| |reflexivity]. unfold rs. destruct examples; [congruence|discriminate]. }
    replace (INR 1024) with 1024 in Hv by (rewrite INR_IZR_INZ; reflexivity).
    split; [|split; [exact Hm|split; [exact Hv|]]].
    + unfold raw_leaf_value. rewrite Ek. pose proof (mapM_residual targets (ob_preds ob) examples Hr) as Em.
      match goal with |- rbind ?m _ = _ => replace m with (Ok rs : res (list (num Rops))) by (symmetry; exact Em) end. cbn [rbind]. rewrite Hb. exact Ev.
    + intros w. apply Rle_trans with (total_loss L1 0 targets (ob_preds ob) examples (nth (length rs / 2) s 0) + INR (length examples) * ((hi - lo) / 1024)); [|apply Rplus_le_compat_r, Hm].
      rewrite !E, <- Hl. set (mm := nth (length rs / 2) s 0) in *. clearbody mm.
      replace (INR (length rs) * ((hi - lo) / 1024)) with (Rsum (map (fun _ : R => (hi - lo) / 1024) rs)).
      * rewrite <- Rsum_plus. apply Rsum_le. intros r _. pose proof (Rabs_triang (r - mm) (mm - v)) as T. replace (r - mm + (mm - v)) with (r - v) in T by ring.
        rewrite (Rabs_minus_sym mm v) in T. lra.
      * clear. induction rs as [|x l IH]; cbn [map Rsum length]; [cbn; ring|]. rewrite IH, S_INR. ring.
Qed.
Print Assumptions C40_l1_leaf.

(** The range kept by L1 and Huber after an update covers all residuals (so the hypotheses above hold for every leaf of the next tree). *)
Lemma R_limits_range (l : list R) x : In x l -> fst (R_limits l) <= x <= snd (R_limits l).
Proof.
  destruct l as [|a l]; [intros []|]. cbn [R_limits fst snd].
  assert (forall l a, fold_left Rmin l a <= a /\ forall x, In x l -> fold_left Rmin l a <= x) as A.
  { clear. induction l as [|b l IH]; intros a; cbn [fold_left]; [split; [lra|intros x []]|]. destruct (IH (Rmin a b)) as (H1 & H2).
    pose proof (Rmin_l a b). pose proof (Rmin_r a b). split; [lra|]. intros x [<-|Hx]; [lra|apply H2, Hx]. }
  assert (forall l a, a <= fold_left Rmax l a /\ forall x, In x l -> x <= fold_left Rmax l a) as B.
  { clear. induction l as [|b l IH]; intros a; cbn [fold_left]; [split; [lra|intros x []]|]. destruct (IH (Rmax a b)) as (H1 & H2).
    pose proof (Rmax_l a b). pose proof (Rmax_r a b). split; [lra|]. intros x [<-|Hx]; [lra|apply H2, Hx]. }
  destruct (A l a) as (A1 & A2), (B l a) as (B1 & B2). intros [<-|Hx]; [split; assumption|split; [apply A2|apply B2]; exact Hx].
Qed.
Theorem C40_limits : forall (targets : list R) (ob ob' : objective Rops), ob_kind ob = L1 \/ ob_kind ob = Huber ->
  obj_update Rmath targets ob = Ok ob' ->
  forall i, (i < length targets)%nat -> fst (ob_bounds ob') <= resid targets (ob_preds ob') i <= snd (ob_bounds ob').
Proof.
  intros targets ob ob' Hk E i Hi. pose proof (C40_update _ _ _ _ _ E) as (Hl & Hp & _). rewrite Hp.
  assert (ob_bounds ob' = R_limits (@residuals Rops targets (ob_preds ob))) as ->.
  { unfold obj_update in E. destruct (_ =? _)%nat; [|discriminate]. cbn [rassert rbind] in E. destruct (_ =? _)%nat; [|discriminate]. cbn [rassert rbind] in E.
    destruct Hk as [Hk|Hk]; rewrite Hk in E; [injection E as <-; reflexivity|]. apply rbind_ok in E as (q & _ & E). injection E as <-. reflexivity. }
  assert (@length R (ob_preds ob) = @length R targets) as Hl' by exact Hl.
  apply R_limits_range.
  unfold residuals, resid. apply in_map_iff. exists (nth i targets 0, nth i (ob_preds ob : list R) 0). split; [reflexivity|].
  pose proof (combine_nth targets (ob_preds ob : list R) i 0 0 (eq_sym Hl')) as Ec. rewrite <- Ec. apply nth_In. rewrite combine_length.
  apply (Nat.lt_le_trans _ _ _ Hi), Nat.min_glb; [apply le_n|apply Nat.eq_le_incl; symmetry; exact Hl'].
Qed.
Print Assumptions C40_limits.

(** Huber: the step from the (approximate) median does not increase the loss. *)
Theorem C40_huber_leaf : forall (targets : list R) examples (ob : objective Rops) v, ob_kind ob = Huber -> 0 <= ob_delta ob ->
  in_range targets (ob_preds ob) examples -> examples <> [] ->
  raw_leaf_value Rmath targets examples ob = Ok v ->
  exists m, median (ob_bounds ob) (map (resid targets (ob_preds ob)) examples) = Ok m /\
    total_loss Huber (ob_delta ob) targets (ob_preds ob) examples v <= total_loss Huber (ob_delta ob) targets (ob_preds ob) examples m.
Proof.
  intros targets examples ob v Ek Hd Hr Hne E. unfold raw_leaf_value in E. rewrite Ek in E.
  pose proof (mapM_residual targets (ob_preds ob) examples Hr) as Em. set (rs := map (resid targets (ob_preds ob)) examples) in *.
  apply rbind_ok in E as (rs' & E1 & E). assert (rs' = rs) as -> by (pose proof (eq_trans (eq_sym E1) Em) as X; injection X as X; exact X). clear E1 Em.
  apply rbind_ok in E as (m & E1 & E). exists m. split; [exact E1|].
  assert (forall v, total_loss Huber (ob_delta ob) targets (ob_preds ob) examples v = Rsum (map (fun r => huber (ob_delta ob) (r - v)) rs)) as El.
  { intros u. apply (total_loss_resid Huber (ob_delta ob) targets (ob_preds ob) examples u (huber (ob_delta ob))). intros t p. cbn [loss]. replace (t - (p + u)) with (t - p - u) by ring. reflexivity. }
  rewrite !El. set (d := ob_delta ob : R) in *.
  assert (v = m + Rsum (map (fun r => psi d (r - m)) rs) / INR (length rs)) as ->.
  { assert (m + fold_left (fun s e => s + R_signum (e - m) * Rmin d (Rabs (e - m))) rs 0 / IZR (Z.of_nat (length examples)) = v) as <- by (injection E as E; exact E).
    rewrite <- INR_IZR_INZ. unfold rs at 3. rewrite map_length.
    pose proof (fold_Rsum (fun e => R_signum (e - m) * Rmin d (Rabs (e - m))) rs 0) as X. cbn beta in X. rewrite X, Rplus_0_l. f_equal. f_equal. apply Rsum_ext. intros r _.
    unfold R_signum. destruct (psi_cases d (r - m) Hd) as [(A & ->)|[(A & ->)|(A & ->)]].
    - destruct (Rlt_bool_spec (r - m) 0); [rewrite Rabs_left in * by lra|rewrite Rabs_pos_eq in * by lra]; rewrite Rmin_right by lra; lra.
    - rewrite Rlt_bool_false, Rabs_pos_eq, Rmin_left by lra. lra.
    - rewrite Rlt_bool_true, Rabs_left, Rmin_left by lra. lra. }
  assert (0 < INR (length rs)) as Hn by (apply lt_0_INR; unfold rs; destruct examples; [congruence|cbn; lia]).
  set (S := Rsum (map (fun r => psi d (r - m)) rs)). set (u := S / INR (length rs)).
  apply Rle_trans with (Rsum (map (fun r => huber d (r - m) + (- u * psi d (r - m) + u ^ 2 / 2)) rs)).
  - apply Rsum_le. intros r _. pose proof (huber_bounds d (r - m) (- u) Hd) as B. replace (r - m + - u) with (r - (m + u)) in B by ring. lra.
  - rewrite (Rsum_plus (fun r => huber d (r - m)) (fun r => - u * psi d (r - m) + u ^ 2 / 2)).
    rewrite (Rsum_lin (fun r => psi d (r - m))). fold S. assert (S = INR (length rs) * u) as HS by (unfold u; field; lra).
    set (n := INR (length rs)) in *. clearbody n. rewrite HS. pose proof (pow2_ge_0 u). nra.
Qed.
Print Assumptions C40_huber_leaf.

(** Binary: the leaf value is one Newton step, minus the first derivative of the loss over its second derivative (plus 2^-23). *)
Theorem C40_binary_leaf : forall (targets : list R) examples (ob : objective Rops) v, ob_kind ob = Binary ->
  Forall (fun i => class_target (nth i targets 0)) examples ->
  (forall i, In i examples -> nth_error (ob_grads ob) i = Some (gradient Rmath Binary 0 (nth i targets 0) (nth i (ob_preds ob) 0))) ->
  raw_leaf_value Rmath targets examples ob = Ok v ->
  exists G H, derivable_pt_lim (total_loss Binary 0 targets (ob_preds ob) examples) 0 G /\
    derivable_pt_lim (fun u => Rsum (map (fun i => gradient Rmath Binary 0 (nth i targets 0) (nth i (ob_preds ob) 0 + u)) examples)) 0 H /\
    v = - G / (H + / 8388608).
Proof.
  intros targets examples ob v Ek Hc Hg E.
  set (g := fun i => gradient Rmath Binary 0 (nth i targets 0) (nth i (ob_preds ob) 0) : R).
  exists (Rsum (map g examples)), (Rsum (map (fun i => Rabs (g i) * (2 - Rabs (g i))) examples)). split; [|split].
  - unfold total_loss. apply (Rsum_derivable (fun i u => loss Binary 0 (nth i targets 0) (nth i (ob_preds ob) 0 + u)) (fun i _ => g i)).
    intros i _. apply (shift_derivable (loss Binary 0 (nth i targets 0))). apply C40_gradient; [discriminate|discriminate|discriminate].
  - apply (Rsum_derivable (fun i u => gradient Rmath Binary 0 (nth i targets 0) (nth i (ob_preds ob) 0 + u)) (fun i _ => Rabs (g i) * (2 - Rabs (g i)))).
    intros i Hi. apply (shift_derivable (fun u => gradient Rmath Binary 0 (nth i targets 0) u)).
    apply (Binary_derivable2 (2 * nth i targets 0 - 1) (nth i (ob_preds ob) 0)).
    rewrite Forall_forall in Hc. destruct (Hc i Hi) as [-> | ->]; ring.
  - unfold raw_leaf_value in E. rewrite Ek in E. apply rbind_ok in E as (nd & E1 & E).
    assert (nd = (0 + - Rsum (map g examples), / 8388608 + Rsum (map (fun i => Rabs (g i) * (2 - Rabs (g i))) examples))) as ->.
    { assert (epsilon Rops = / 8388608) as Ee by (change (1 / 8388608 = / 8388608); lra).
      rewrite Ee in E1. change (zero Rops) with (0 : R) in E1. clear E Hc. revert E1. generalize 0, (/ 8388608).
      induction examples as [|i l IH]; intros a b E1; cbn [foldM map Rsum] in *.
      - injection E1 as <-. f_equal; lra.
      - unfold idx in E1 at 1. rewrite (Hg i (or_introl eq_refl)) in E1. cbn [rbind] in E1. apply IH in E1; [|intros j Hj; apply Hg; right; exact Hj].
        rewrite E1. unfold two. cbn [Rops fst snd nadd nneg nmul nsub nabs nofZ]. rewrite Rabs_Ropp. fold (g i). f_equal; lra. }
    cbn [fst snd Rops ndiv] in E. injection E as <-. f_equal; lra.
Qed.
Print Assumptions C40_binary_leaf.

(** The value returned for a leaf is the raw value times the learning rate; it is added to the predictions of the examples of the
    leaf and to no others (any arithmetic). *)
Lemma update_pred_fold O (value : num O) : forall examples preds preds', NoDup examples -> foldM (update_pred value) examples preds = Ok preds' ->
  length preds' = length preds /\
  forall i p, nth_error preds i = Some p -> nth_error preds' i = Some (if existsb (Nat.eqb i) examples then nadd O p value else p).
Proof.
  induction examples as [|e l IH]; intros preds preds' Hnd E; cbn [foldM existsb] in *.
  - injection E as <-. split; [reflexivity|]. intros i p Hp. exact Hp.
  - inversion Hnd as [|? ? Hni Hnd']; subst. apply rbind_ok in E as (preds1 & E1 & E). unfold update_pred in E1.
    apply rbind_ok in E1 as (p0 & Ei & E1). apply idx_ok in Ei. apply rbind_ok in E1 as (preds2 & Es & E1). apply rbind_ok in E1 as ([] & _ & E1).
    injection E1 as <-. apply set_idx_ok in Es as (Hlt & ->). destruct (IH _ _ Hnd' E) as (Hl & Hi). rewrite upd_length in Hl.
    split; [exact Hl|]. intros i p Hp. destruct (Nat.eqb_spec i e) as [->|Hne]; cbn [orb].
    + assert (p0 = p) as -> by congruence. rewrite (Hi e (nadd O p value)).
      * replace (existsb (Nat.eqb e) l) with false; [reflexivity|]. symmetry. apply Bool.not_true_is_false. intros Hc.
        apply existsb_exists in Hc as (x & Hx & Ex). apply Nat.eqb_eq in Ex. subst x. contradiction.
      * rewrite nth_error_upd, Nat.eqb_refl, (proj2 (Nat.ltb_lt _ _) Hlt). reflexivity.
    + apply Hi. rewrite nth_error_upd. destruct (Nat.eqb_spec e i); [congruence|exact Hp].
Qed.
Theorem C40_apply : forall O (M : mathops O) targets examples ob v ob', NoDup examples -> obj_leaf_value M targets examples ob = Ok (v, ob') ->
  exists raw, raw_leaf_value M targets examples ob = Ok raw /\ v = nmul O (ob_lr ob) raw /\ length (ob_preds ob') = length (ob_preds ob) /\
    (forall i p, nth_error (ob_preds ob) i = Some p ->
       (In i examples -> nth_error (ob_preds ob') i = Some (nadd O p v)) /\ (~ In i examples -> nth_error (ob_preds ob') i = Some p)).
Proof.
  intros O M targets examples ob v ob' Hnd E. unfold obj_leaf_value in E. apply rbind_ok in E as (raw & Er & E). exists raw. split; [exact Er|].
  unfold update_predictions in E. apply rbind_ok in E as (preds & Ef & E). injection E as <- <-. split; [reflexivity|].
  destruct (update_pred_fold _ _ _ _ _ Hnd Ef) as (Hl & Hi). cbn [ob_preds]. split; [exact Hl|]. intros i p Hp. specialize (Hi i p Hp). split; intros H.
  - replace (existsb (Nat.eqb i) examples) with true in Hi; [exact Hi|]. symmetry. apply existsb_exists. exists i. split; [exact H|apply Nat.eqb_refl].
  - replace (existsb (Nat.eqb i) examples) with false in Hi; [exact Hi|]. symmetry. apply Bool.not_true_is_false. intros Hc. apply existsb_exists in Hc as (x & Hx & Ex). apply Nat.eqb_eq in Ex. subst x. contradiction.
Qed.
Print Assumptions C40_apply.

(** Hinge: the leaf value is no minimiser; it can even increase the loss. *)
Definition hinge_ex : objective Rops := @mk_obj Rops Hinge 1 0 [-2; -2] [-1; 0] (0, 0) 0 0 0.
Theorem C40_hinge_leaf_refuted : exists v, raw_leaf_value Rmath [1; 0] [0; 1]%nat hinge_ex = Ok v /\
  total_loss Hinge 0 [1; 0] (ob_preds hinge_ex) [0; 1]%nat 0 < total_loss Hinge 0 [1; 0] (ob_preds hinge_ex) [0; 1]%nat v.
Proof.
  exists 8. split.
  - unfold raw_leaf_value, hinge_ex, half, two, one, zero, nofnat.
    cbn [ob_kind ob_preds foldM idx nth_error rbind Rops nlt nofZ ndiv nmul nadd nsub nmax length].
    rewrite (Rlt_bool_false 1 (1 / 2)) by lra. cbn [rbind]. rewrite (Rlt_bool_true 0 (1 / 2)) by lra. cbn [rbind]. f_equal.
    rewrite (Rmax_left (2 - -2)), (Rmax_right (2 + -2)) by lra. cbn [Z.of_nat Pos.of_succ_nat Pos.succ]. lra.
  - unfold total_loss, loss, label. cbn [map Rsum nth ob_preds hinge_ex].
    rewrite (Rmax_right 0 (1 - (2 * 1 - 1) * (-2 + 0))), (Rmax_left 0 (1 - (2 * 0 - 1) * (-2 + 0))) by lra.
    rewrite (Rmax_left 0 (1 - (2 * 1 - 1) * (-2 + 8))), (Rmax_right 0 (1 - (2 * 0 - 1) * (-2 + 8))) by lra. lra.
Qed.
Print Assumptions C40_hinge_leaf_refuted.

(** Concrete leaves meeting the hypotheses of the leaf theorems. *)
Definition leaf_ex (k : obj_kind) : objective Rops := @mk_obj Rops k 1 0 [0; 0; 0] [0; 0; 0] (-1, 4) 0 1 0.
Example C40_leaf_ex : in_range [-1; 2; 4] (ob_preds (leaf_ex L1)) [0; 2]%nat /\
  Forall (fun i => -1 <= resid [-1; 2; 4] (ob_preds (leaf_ex L1)) i <= 4) [0; 2]%nat /\ Forall (fun i => class_target (nth i [1; 0; 1] 0)) [0; 1]%nat.
Proof.
  split; [repeat constructor|]. split.
  - constructor; [unfold resid; cbn; lra|]. constructor; [unfold resid; cbn; lra|]. constructor.
  - constructor; [right; reflexivity|]. constructor; [left; reflexivity|]. constructor.
Qed.

(* ---- the initial prediction ---- *)
(** All predictions start at the bias, in any arithmetic. *)
Theorem C40_initialize : forall O (M : mathops O) dbg cfg targets k ob, obj_initialize M dbg cfg targets (objective_new O k) = Ok ob ->
  ob_kind ob = k /\ ob_preds ob = repeat (ob_bias ob) (length targets) /\ ob_lr ob = c_learning_rate cfg /\ length (ob_grads ob) = length targets.
Proof.
  intros O M dbg cfg targets k ob E. unfold obj_initialize in E. destruct k; cbn [ob_kind objective_new] in E.
  - injection E as <-. cbn. rewrite repeat_length. repeat split.
  - apply rbind_ok in E as (b & _ & E). injection E as <-. cbn. rewrite repeat_length. repeat split.
  - apply rbind_ok in E as (b & _ & E). apply rbind_ok in E as (u & _ & E). injection E as <-. cbn. rewrite repeat_length. repeat split.
  - apply rbind_ok in E as (b & _ & E). injection E as <-. cbn. rewrite repeat_length. repeat split.
  - apply rbind_ok in E as (b & _ & E). apply rbind_ok in E as (u & _ & E). injection E as <-. cbn. rewrite repeat_length. repeat split.
Qed.
Print Assumptions C40_initialize.

Definition constant_loss (k : obj_kind) (targets : list R) (b : R) : R := Rsum (map (fun t => loss k 0 t b) targets).

(** L2 starts at the best constant. *)
Theorem C40_l2_bias : forall dbg cfg (targets : list R) ob, targets <> [] ->
  obj_initialize Rmath dbg cfg targets (objective_new Rops L2) = Ok ob -> minimises (constant_loss L2 targets) (ob_bias ob).
Proof.
  intros dbg cfg targets ob Hne E. cbn [obj_initialize objective_new ob_kind] in E. injection E as <-. cbn [initialize_base ob_bias].
  match goal with |- minimises _ ?b => assert (b = Rsum targets / INR (length targets)) as -> end.
  - pose proof (fold_Rsum (fun x => x) targets 0) as X. cbn beta in X. rewrite map_id, Rplus_0_l in X. rewrite <- X, INR_IZR_INZ. reflexivity.
  - exact (mean_minimises targets Hne).
Qed.
Print Assumptions C40_l2_bias.

(** Binary starts at the best constant, if both classes occur. *)
Lemma binary_counts (targets : list R) : Forall class_target targets ->
  exists npos, length targets = (@count_neg Rops targets + npos)%nat /\
  forall p, Rsum (map (fun t => gradient Rmath Binary 0 t p) targets) =
    INR (@count_neg Rops targets) * (2 / (1 + exp (- 2 * p))) + INR npos * (- 2 / (1 + exp (2 * p))).
Proof.
  intros H. induction H as [|t l Ht H (npos & IH1 & IH2)].
  - exists 0%nat. split; [reflexivity|]. intros p. cbn. ring.
  - assert (forall p, gradient Rmath Binary 0 t p = - (2 * (2 * t - 1)) / (1 + exp (2 * (2 * t - 1) * p))) as Eg by reflexivity.
    unfold count_neg in *. cbn [filter map Rsum length]. unfold half, one, two in *. cbn [Rops nlt ndiv nofZ] in *.
    destruct Ht as [-> | ->].
    + rewrite (Rlt_bool_true 0 (1 / 2)) by lra. exists npos. cbn [length]. split; [rewrite IH1; lia|]. intros p. rewrite IH2, Eg, S_INR.
      replace (2 * (2 * 0 - 1) * p) with (- 2 * p) by ring. replace (- (2 * (2 * 0 - 1))) with 2 by ring. ring.
    + rewrite (Rlt_bool_false 1 (1 / 2)) by lra. exists (S npos). split; [rewrite IH1; lia|]. intros p. rewrite IH2, Eg, S_INR.
      replace (2 * (2 * 1 - 1) * p) with (2 * p) by ring. replace (- (2 * (2 * 1 - 1))) with (- 2) by ring. ring.
Qed.
Theorem C40_binary_bias : forall dbg cfg (targets : list R) ob, Forall class_target targets -> In 0 targets -> In 1 targets ->
  obj_initialize Rmath dbg cfg targets (objective_new Rops Binary) = Ok ob -> minimises (constant_loss Binary targets) (ob_bias ob).
Proof.
  intros dbg cfg targets ob Hc H0 H1 E. cbn [obj_initialize objective_new ob_kind] in E.
  apply rbind_ok in E as (u & _ & E).
  apply (f_equal (fun r : res (objective Rops) => match r with Ok o => (ob_bias o : R) | _ => 0 end)) in E. cbn [ob_bias initialize_base] in E. rewrite <- E. clear E u.
  destruct (binary_counts targets Hc) as (npos & Hl & Hs).
  assert (forall x l, In x l -> Rlt_bool x (1 / 2) = true -> (0 < @count_neg Rops l)%nat) as Hneg.
  { intros x l Hx Hb. unfold count_neg. assert (In x (filter (fun x => nlt Rops x (half Rops)) l)) as Hf by (apply filter_In; split; [exact Hx|exact Hb]).
    destruct (filter (fun x => nlt Rops x (half Rops)) l); [destruct Hf|cbn; lia]. }
  assert (0 < @count_neg Rops targets)%nat as Hn0 by (apply (Hneg 0); [exact H0|apply Rlt_bool_true; lra]).
  assert (0 < npos)%nat as Hp0.
  { assert (@count_neg Rops targets < length targets)%nat as X; [|lia]. clear - H1. unfold count_neg. unfold half, one, two. cbn [Rops nlt ndiv nofZ].
    induction targets as [|a l IH]; [destruct H1|]. cbn [filter length]. pose proof (MetricProps.filter_le (fun x => Rlt_bool x (1 / 2)) l) as F. change (num Rops) with R in *.
    destruct H1 as [-> |H1]; [rewrite (Rlt_bool_false 1) by lra; lia|]. specialize (IH H1). destruct (Rlt_bool a (1 / 2)); cbn [length]; lia. }
  set (nn := INR (@count_neg Rops targets)). set (np := INR npos).
  assert (0 < nn) as Hnn by (apply lt_0_INR; lia). assert (0 < np) as Hnp by (apply lt_0_INR; lia).
  match goal with |- minimises _ ?b => assert (b = / 2 * ln (np / nn)) as -> end.
  { unfold half, one, two, nofnat. cbn [Rops Rmath m_ln ndiv nmul nadd nsub nneg nofZ]. rewrite <- !INR_IZR_INZ.
    assert (INR (@length R targets) = nn + np) as El by (rewrite Hl, plus_INR; reflexivity). cbn [Rops num] in *. rewrite El. fold nn.
    replace ((1 + (- (1) * nn + 1 * (nn + np - nn)) / (nn + np)) / (1 - (- (1) * nn + 1 * (nn + np - nn)) / (nn + np))) with (np / nn) by (field; lra). lra. }
  assert (forall p, derivable_pt_lim (constant_loss Binary targets) p (Rsum (map (fun t => gradient Rmath Binary 0 t p) targets))) as Hder.
  { intros p. unfold constant_loss. apply (Rsum_derivable (fun t b => loss Binary 0 t b) (fun t b => gradient Rmath Binary 0 t b)). intros t _. apply C40_gradient; discriminate. }
  unfold minimises. apply (convex_min (constant_loss Binary targets) (fun p => Rsum (map (fun t => gradient Rmath Binary 0 t p) targets)) _ Hder).
  - intros x y Hxy. apply Rsum_le. intros t _. apply (Binary_deriv_mono (2 * t - 1) x y Hxy).
  - rewrite Hs. fold nn np. replace (2 * (/ 2 * ln (np / nn))) with (ln (np / nn)) by field. replace (- 2 * (/ 2 * ln (np / nn))) with (- ln (np / nn)) by field.
    rewrite exp_Ropp, exp_ln by (apply Rmult_lt_0_compat; [exact Hnp|apply Rinv_0_lt_compat, Hnn]). field. lra.
Qed.
Print Assumptions C40_binary_bias.

(** L1 and Huber start within one bin (1/1024 of the range of the targets) of a median of the targets, the best constant for L1. *)
Theorem C40_l1_bias : forall dbg cfg (targets : list R) k ob, k = L1 \/ k = Huber -> (N.of_nat (length targets) < 2 ^ 32)%N -> targets <> [] ->
  obj_initialize Rmath dbg cfg targets (objective_new Rops k) = Ok ob ->
  exists m, minimises (constant_loss L1 targets) m /\ Rabs (ob_bias ob - m) <= (snd (R_limits targets) - fst (R_limits targets)) / 1024.
Proof.
  intros dbg cfg targets k ob Hk Hc Hne E.
  assert (quantile Rops 1024 (1 / 2) (R_limits targets) targets = Ok (ob_bias ob)) as Eq.
  { destruct Hk as [-> | ->]; cbn [obj_initialize objective_new ob_kind] in E.
    - apply rbind_ok in E as (b & Eb & E). assert (b = ob_bias ob) as <- by (apply (f_equal (fun r : res (objective Rops) => match r with Ok o => (ob_bias o : R) | _ => 0 end)) in E; exact E). exact Eb.
    - apply rbind_ok in E as (b & Eb & E). apply rbind_ok in E as (u & _ & E).
      assert (b = ob_bias ob) as <- by (apply (f_equal (fun r : res (objective Rops) => match r with Ok o => (ob_bias o : R) | _ => 0 end)) in E; exact E). exact Eb. }
  assert (0 < length targets)%nat as H0 by (destruct targets; [congruence|cbn; lia]).
  destruct (sorted_exists targets) as (s & Hs). exists (nth (length targets / 2) s 0). split.
  { intros w. exact (median_minimises targets s _ Hs Hne eq_refl w). }
  destruct (R_limits targets) as (lo, hi) eqn:El. cbn [fst snd].
  assert (lo < hi) as Hlt.
  { unfold quantile, binner_new in Eq. cbn [Rops nisfin nlt rassert rbind fst snd] in Eq. destruct (Rlt_bool_spec lo hi); [assumption|discriminate]. }
  destruct (quantile_R 1024 (1 / 2) lo hi targets s (length targets / 2)) as (v & Ev & Hv).
  - lia.
  - cbn. lia.
  - exact Hlt.
  - apply Forall_forall. intros x Hx. pose proof (R_limits_range targets x Hx) as A. rewrite El in A. exact A.
  - exact Hs.
  - exact Hc.
  - pose proof (Nat.div_mod (length targets) 2 ltac:(lia)) as D. pose proof (Nat.mod_upper_bound (length targets) 2 ltac:(lia)) as U.
    rewrite INR_IZR_INZ. apply Zfloor_imp. rewrite plus_IZR. set (q := (length targets / 2)%nat) in *. set (m := (length targets mod 2)%nat) in *.
    assert (Z.of_nat (length targets) = 2 * Z.of_nat q + Z.of_nat m)%Z as -> by lia. rewrite plus_IZR, mult_IZR.
    assert (0 <= IZR (Z.of_nat m)) by (apply IZR_le; lia). assert (IZR (Z.of_nat m) <= 1) by (apply (IZR_le _ 1); lia). lra.
  - apply Nat.div_lt; lia.
  - assert (v = ob_bias ob) as <- by (pose proof (eq_trans (eq_sym Ev) Eq) as X; injection X as X; exact X).
    replace (INR 1024) with 1024 in Hv by (rewrite INR_IZR_INZ; reflexivity). exact Hv.
Qed.
Print Assumptions C40_l1_bias.

(** The start of Hinge is not the best constant. *)
Definition hinge_cfg : config Rops := @mk_config Rops EmptyString EmptyString EmptyString [] 1%N true 44%N [] 1%nat 1 0 1%N 0 1 4%nat 2%nat 2%nat 1 1 1%N 1 1 1%nat.
Theorem C40_hinge_bias_refuted : exists dbg cfg targets ob, obj_initialize Rmath dbg cfg targets (objective_new Rops Hinge) = Ok ob /\
  Forall class_target targets /\ ~ minimises (constant_loss Hinge targets) (ob_bias ob).
Proof.
  exists true, hinge_cfg, [1; 1; 0]. eexists. split; [|split].
  - cbn [obj_initialize objective_new ob_kind]. unfold is_01. cbn [forallb]. unfold zero, one. cbn [Rops neq nofZ c_discr_nbits hinge_cfg].
    rewrite !(Req_bool_true 1 1), (Req_bool_true 0 0) by reflexivity. rewrite !orb_true_r. reflexivity.
  - constructor; [right; reflexivity|]. constructor; [right; reflexivity|]. constructor; [left; reflexivity|]. constructor.
  - cbn [ob_bias initialize_base]. match goal with |- ~ minimises _ ?b => assert (b = 1 / 3) as -> end.
    + unfold count_neg, half, two, one, nofnat. cbn [Rops filter nlt ndiv nofZ]. rewrite (Rlt_bool_false 1) by lra. rewrite (Rlt_bool_true 0) by lra.
      cbn [length Rops Z.of_nat Pos.of_succ_nat Pos.succ nofZ nadd nmul nneg nsub]. lra.
    + intros H. specialize (H 1). unfold constant_loss, loss, label in H. cbn [map Rsum] in H.
      rewrite (Rmax_right 0 (1 - (2 * 1 - 1) * (1 / 3))), (Rmax_right 0 (1 - (2 * 0 - 1) * (1 / 3))), (Rmax_left 0 (1 - (2 * 1 - 1) * 1)), (Rmax_right 0 (1 - (2 * 0 - 1) * 1)) in H by lra. lra.
Qed.
Print Assumptions C40_hinge_bias_refuted.
Example C40_bias_ex : Forall class_target [1; 1; 0] /\ In 0 [1; 1; 0] /\ In 1 [1; 1; 0].
Proof. split; [|cbn; tauto]. constructor; [right; reflexivity|]. constructor; [right; reflexivity|]. constructor; [left; reflexivity|]. constructor. Qed.

(* ---- names ---- *)
Definition objective_name (k : obj_kind) : string := match k with L2 => "l2" | L1 => "l1" | Huber => "huber" | Binary => "binary" | Hinge => "hinge" end%string.
Theorem C40_names : forall name k, objective_from_name name = Some k <-> lowercase name = objective_name k.
Proof.
  intros name k. unfold objective_from_name. set (n := lowercase name). clearbody n.
  repeat match goal with |- context[String.eqb n ?s] => destruct (String.eqb_spec n s); [subst n; split; [intros E; injection E as <-; reflexivity|destruct k; cbn; intros H; try discriminate H; reflexivity]|] end.
  split; [discriminate|]. destruct k; cbn; congruence.
Qed.
Print Assumptions C40_names.
