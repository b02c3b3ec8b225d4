(** Property C39, as computed: the squared metrics are never negative, and the root is the rounded root. *)
From Coq Require Import Reals Lra.
From Flocq Require Import Core BinarySingleNaN.
From Verif Require Import Base F32 Num F32Proofs ObjectiveModel MetricModel TreeProps.
Local Open Scope nat_scope.

(** NaN, or without a minus sign. *)
Definition unsigned (x : f32) : Prop := is_nan x = true \/ Bsign x = false.

Lemma overflow_unsigned (z : f32) : B2SF z = binary_overflow 24 128 mode_NE false -> unsigned z.
Proof. unfold binary_overflow. cbn [overflow_to_inf]. destruct z as [s|s| |s m e H]; cbn; intros E; try discriminate; injection E; intros; subst; right; reflexivity. Qed.
Lemma mul_self_unsigned (x : f32) : unsigned (f_mul x x).
Proof.
  unfold f_mul. destruct (is_nan (Bmult mode_NE x x)) eqn:N; [left; exact N|]. pose proof (Bmult_correct 24 128 _ _ mode_NE x x) as H. rewrite xorb_nilpotent in H.
  destruct (Rlt_bool _ _); [right; apply H; exact N|exact (overflow_unsigned _ H)].
Qed.
Lemma unsigned_R (x : f32) : Bsign x = false -> (0 <= B2R x)%R.
Proof. destruct x as [s|s| |s m e H]; cbn; intros E; try lra. subst s. apply F2R_ge_0. cbn. lia. Qed.
Lemma add_unsigned (x y : f32) : unsigned x -> unsigned y -> unsigned (f_add x y).
Proof.
  intros [Nx|Sx] [Ny|Sy]; try (left; destruct x, y; try discriminate; reflexivity). unfold f_add. destruct (is_nan (Bplus mode_NE x y)) eqn:N; [left; exact N|].
  destruct (is_finite x) eqn:Fx; [destruct (is_finite y) eqn:Fy|].
  - pose proof (Bplus_correct 24 128 _ _ mode_NE x y Fx Fy) as H. destruct (Rlt_bool _ _).
    + right. destruct H as (_ & _ & ->). rewrite Sx, Sy. pose proof (unsigned_R x Sx). pose proof (unsigned_R y Sy). destruct (Rcompare_spec (B2R x + B2R y) 0); [lra|reflexivity|reflexivity].
    + destruct H as (H & _). rewrite Sx in H. exact (overflow_unsigned _ H).
  - right. destruct x as [s|s| |s m e Hx], y as [s'|s'| |s' m' e' Hy]; try discriminate Fx; try discriminate Fy; try discriminate N; cbn in *; subst; reflexivity.
  - right. destruct x as [s|s| |s m e Hx], y as [s'|s'| |s' m' e' Hy]; try discriminate Fx; try discriminate N; cbn in *; subst; try reflexivity; try discriminate.
Qed.
Lemma div_unsigned (x y : f32) : unsigned x -> unsigned y -> unsigned (f_div x y).
Proof.
  intros [Nx|Sx] [Ny|Sy]; try (left; destruct x, y; try discriminate; reflexivity). unfold f_div. destruct (is_nan (Bdiv mode_NE x y)) eqn:N; [left; exact N|].
  destruct y as [s'|s'| |s' m' e' Hy].
  1-3: right; destruct x as [s|s| |s m e Hx]; try discriminate N; cbn in *; subst; reflexivity.
  pose proof (Bdiv_correct 24 128 _ _ mode_NE x (B754_finite s' m' e' Hy)) as H. assert (B2R (B754_finite s' m' e' Hy) <> 0%R) as Hnz by (cbn; intros X; apply eq_0_F2R in X; destruct s'; discriminate X).
  specialize (H Hnz). rewrite Sx, Sy in H. destruct (Rlt_bool _ _); [right; apply H; exact N|exact (overflow_unsigned _ H)].
Qed.
Lemma count_unsigned n : unsigned (f_of_nat n).
Proof.
  unfold f_of_nat, f_of_Z. pose proof (binary_normalize_correct 24 128 f32_prec f32_emax mode_NE (Z.of_nat n) 0 false) as H. cbv zeta in H.
  assert (0 <= F2R (Float radix2 (Z.of_nat n) 0))%R as Hp by (apply F2R_ge_0; cbn; lia).
  destruct (Rlt_bool _ _).
  - right. destruct H as (_ & _ & ->). destruct (Rcompare_spec (F2R (Float radix2 (Z.of_nat n) 0)) 0); [lra|reflexivity|reflexivity].
  - rewrite Rlt_bool_false in H by exact Hp. exact (overflow_unsigned _ H).
Qed.
Lemma mean_unsigned M (ts ps : list f32) : unsigned (@metric_mean f32ops M ML2 ts ps).
Proof.
  unfold metric_mean. match goal with |- unsigned (let '(_, _) := fold_left ?f ?l ?a in _) => assert (unsigned (fst (fold_left f l a))) as H; [|destruct (fold_left f l a) as [loss count]; apply div_unsigned; [exact H|apply count_unsigned]] end.
  assert (unsigned (fst (zero f32ops, 0))) as H0 by (right; reflexivity). revert H0. generalize (zero f32ops, 0). match goal with |- forall a, _ -> unsigned (fst (fold_left _ ?l a)) => generalize l end. intros l. induction l as [|[t p] l IH]; intros a H; cbn [fold_left]; [exact H|]. apply IH. cbn [fst snd metric_one].
  apply add_unsigned; [exact H|apply mul_self_unsigned].
Qed.
Lemma unsigned_not_below (x : f32) : unsigned x -> f_lt x f_zero = false.
Proof. intros [N|S]; destruct x as [[]|[]| |[]]; try discriminate; reflexivity. Qed.

(** The squared error and its root, of all targets and predictions, are not below zero (they may be infinite or NaN). *)
Theorem C39_f32_not_negative : forall fexp fln (ts ps : list f32), f_lt (metric_eval (f32math fexp fln) ML2 ts ps) f_zero = false /\ f_lt (metric_eval (f32math fexp fln) MRmse ts ps) f_zero = false.
Proof.
  intros fexp fln ts ps. split; [apply unsigned_not_below, mean_unsigned|]. apply unsigned_not_below. cbn [metric_eval f32math m_sqrt]. unfold f_sqrt. pose proof (mean_unsigned (f32math fexp fln) ts ps) as H.
  revert H. generalize (@metric_mean f32ops (f32math fexp fln) ML2 ts ps). change (num f32ops) with f32. intros x H. destruct (is_nan (Bsqrt mode_NE x)) eqn:N; [left; exact N|right]. destruct (Bsqrt_correct 24 128 _ _ mode_NE x) as (_ & _ & HS).
  rewrite (HS N). destruct H as [Nx|Sx]; [|exact Sx]. exfalso. destruct x; try discriminate Nx. discriminate N.
Qed.
Print Assumptions C39_f32_not_negative.

(** The root metric is the real square root of the computed squared error, rounded to the nearest 32-bit number. *)
Theorem C39_f32_rmse : forall fexp fln (ts ps : list f32),
  B2R (metric_eval (f32math fexp fln) MRmse ts ps : f32) = Generic_fmt.round radix2 (SpecFloat.fexp 24 128) ZnearestE (sqrt (B2R (metric_eval (f32math fexp fln) ML2 ts ps : f32))).
Proof. intros fexp fln ts ps. apply (Bsqrt_correct 24 128 _ _ mode_NE). Qed.
Print Assumptions C39_f32_rmse.

(** Errors 1, 2 and 2: the squared error is 3. *)
Example C39_f32_ex : let ts := [fz 1; fz 2; fz 3] in let ps := [fz 0; fz 4; fz 5] in
  f_eq (metric_eval (f32math (fun x => x) (fun x => x)) ML2 ts ps) (fz 3) = true /\ f_lt (fz 1) (metric_eval (f32math (fun x => x) (fun x => x)) MRmse ts ps) = true /\
  f_lt (metric_eval (f32math (fun x => x) (fun x => x)) MRmse ts ps) (fz 2) = true.
Proof. vm_compute. repeat split. Qed.
