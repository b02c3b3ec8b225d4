From Coq Require Import Reals Lra.
From Flocq Require Import Core BinarySingleNaN.
From Verif Require Import Base BaseProofs F32 F32Proofs Num DataModel DataSpec.

Lemma check_cat_ok (v : f32) : @check_categorical_value f32ops v = Done tt <-> valid_category v.
Proof.
  unfold check_categorical_value. cbn [f32ops neq nround nlt nofZ num]. unfold valid_category.
  destruct (is_finite v) eqn:F.
  - destruct (round_key v F) as (A & B). unfold f_eq. rewrite Beqb_correct by assumption. rewrite B.
    unfold f_lt. rewrite Bltb_correct by (try assumption; reflexivity).
    replace (B2R (f_of_Z 0)) with 0%R by reflexivity.
    destruct (Req_bool_spec (IZR (ZnearestA (B2R v))) (B2R v)) as [E|E]; cbn [negb orb].
    + destruct (Rlt_bool_spec (B2R v) 0) as [H|H]; split.
      * discriminate.
      * intros [->|(_ & z & Hz & E')]; [discriminate F|]. rewrite E' in H. apply lt_IZR in H. lia.
      * intros _. right. split; [reflexivity|]. exists (ZnearestA (B2R v)). split; [|symmetry; exact E].
        rewrite <- E in H. apply le_IZR in H. exact H.
      * reflexivity.
    + split; [discriminate|]. intros [->|(_ & z & _ & E')]; [discriminate F|]. exfalso. apply E. rewrite E'.
      f_equal. unfold ZnearestA. apply Znearest_imp. rewrite Rminus_diag_eq by reflexivity. rewrite Rabs_R0. lra.
  - destruct v as [|[|]| |]; try discriminate; cbn; split; intros H; try discriminate; try reflexivity.
    + destruct H as [H|(H & _)]; discriminate.
    + left. reflexivity.
    + destruct H as [H|(H & _)]; discriminate.
Qed.
Lemma check_cat_err (v : f32) : @check_categorical_value f32ops v = Err <-> ~ valid_category v.
Proof.
  rewrite <- check_cat_ok. destruct (@check_categorical_value f32ops v) as [[]|]; split; congruence.
Qed.

Lemma into_cat_spec (v : f32) : valid_category v -> category_number v (@into_cat f32ops v).
Proof.
  intros [->|(F & z & Hz & E)]; [left; split; reflexivity|]. right. split; [exact F|]. exists z. split; [exact Hz|]. split; [exact E|].
  unfold into_cat. cbn [f32ops ntoZ num]. f_equal. pose proof (trunc_IZR v z E) as T.
  destruct v as [|s| |]; try discriminate; cbn [f_to_int]; rewrite T; lia.
Qed.
Lemma category_number_fun (v : f32) c c' : category_number v c -> category_number v c' -> c = c'.
Proof.
  intros [(-> & ->)|(F & z & _ & E & ->)] [(E2 & ->)|(F2 & z' & _ & E' & ->)]; try reflexivity.
  - discriminate F2.
  - subst v. discriminate F.
  - rewrite E in E'. apply eq_IZR in E'. subst. reflexivity.
Qed.

(** min/max folds *)
Lemma f_min_nan x y : f_is_nan (f_min x y) = f_is_nan x && f_is_nan y.
Proof. unfold f_min, f_is_nan. destruct (is_nan x) eqn:E; [reflexivity|]. destruct (is_nan y) eqn:E2; [exact E|]. destruct (f_le x y); assumption. Qed.
Lemma f_max_nan x y : f_is_nan (f_max x y) = f_is_nan x && f_is_nan y.
Proof. unfold f_max, f_is_nan. destruct (is_nan x) eqn:E; [reflexivity|]. destruct (is_nan y) eqn:E2; [exact E|]. destruct (f_le y x); assumption. Qed.
Lemma f_min_le_l x y : f_is_nan x = false -> f_le (f_min x y) x = true.
Proof.
  intros Nx. pose proof (f_min_nan x y) as Hn. rewrite Nx in Hn. cbn in Hn. apply f_le_key; [exact Hn|exact Nx|].
  unfold f_min, f_is_nan in *. rewrite Nx. destruct (is_nan y) eqn:Ny; [lra|]. destruct (f_le x y) eqn:E; [lra|].
  apply Rnot_lt_le. intros H. assert (f_le x y = true) by (apply f_le_key; [assumption..|lra]). congruence.
Qed.
Lemma f_min_le_r x y : f_is_nan y = false -> f_le (f_min x y) y = true.
Proof.
  intros Ny. assert (f_is_nan (f_min x y) = false) as Hn by (rewrite f_min_nan, Ny; apply andb_false_r).
  apply f_le_key; [exact Hn|exact Ny|].
  unfold f_min, f_is_nan in *. destruct (is_nan x) eqn:Nx; [lra|]. rewrite Ny in *. destruct (f_le x y) eqn:E; [|lra].
  apply f_le_key in E; assumption.
Qed.
Lemma f_max_le_l x y : f_is_nan x = false -> f_le x (f_max x y) = true.
Proof.
  intros Nx. pose proof (f_max_nan x y) as Hn. rewrite Nx in Hn. cbn in Hn. apply f_le_key; [exact Nx|exact Hn|].
  unfold f_max, f_is_nan in *. rewrite Nx. destruct (is_nan y) eqn:Ny; [lra|]. destruct (f_le y x) eqn:E; [lra|].
  apply Rnot_lt_le. intros H. assert (f_le y x = true) by (apply f_le_key; [assumption..|lra]). congruence.
Qed.
Lemma f_max_le_r x y : f_is_nan y = false -> f_le y (f_max x y) = true.
Proof.
  intros Ny. assert (f_is_nan (f_max x y) = false) as Hn by (rewrite f_max_nan, Ny; apply andb_false_r).
  apply f_le_key; [exact Ny|exact Hn|].
  unfold f_max, f_is_nan in *. destruct (is_nan x) eqn:Nx; [lra|]. rewrite Ny in *. destruct (f_le y x) eqn:E; [|lra].
  apply f_le_key in E; assumption.
Qed.
Lemma f_le_tr x y z : f_le x y = true -> f_le y z = true -> f_le x z = true.
Proof.
  intros A B. destruct (f_le_nan_l _ _ A) as (N1 & N2). destruct (f_le_nan_l _ _ B) as (_ & N3).
  apply f_le_key in A; [|assumption..]. apply f_le_key in B; [|assumption..]. apply f_le_key; [assumption..|lra].
Qed.
Lemma f_le_refl x : f_is_nan x = false -> f_le x x = true.
Proof. intros N. apply f_le_key; [exact N..|lra]. Qed.
Lemma f_min_in x y : f_min x y = x \/ f_min x y = y.
Proof. unfold f_min. destruct (f_is_nan x); auto. destruct (f_is_nan y); auto. destruct (f_le x y); auto. Qed.
Lemma f_max_in x y : f_max x y = x \/ f_max x y = y.
Proof. unfold f_max. destruct (f_is_nan x); auto. destruct (f_is_nan y); auto. destruct (f_le y x); auto. Qed.
Lemma f_min_nan_r x y : f_is_nan y = true -> f_is_nan x = false -> f_min x y = x.
Proof. intros A B. unfold f_min. rewrite A, B. reflexivity. Qed.
Lemma f_max_nan_r x y : f_is_nan y = true -> f_is_nan x = false -> f_max x y = x.
Proof. intros A B. unfold f_max. rewrite A, B. reflexivity. Qed.

Definition lfold (l : f32 * f32) (vs : list f32) : f32 * f32 := fold_left (@extend_limits f32ops) vs l.

Lemma lfold_fst vs : forall l, fst (lfold l vs) = fold_left f_min vs (fst l).
Proof. induction vs as [|v t IH]; intros l; [reflexivity|]. unfold lfold in *. cbn [fold_left]. rewrite IH. reflexivity. Qed.
Lemma lfold_snd vs : forall l, snd (lfold l vs) = fold_left f_max vs (snd l).
Proof. induction vs as [|v t IH]; intros l; [reflexivity|]. unfold lfold in *. cbn [fold_left]. rewrite IH. reflexivity. Qed.

Lemma minfold vs : forall a, f_is_nan a = false ->
  let m := fold_left f_min vs a in
  f_is_nan m = false /\ (m = a \/ In m vs) /\ f_le m a = true /\ forall v, In v vs -> f_is_nan v = false -> f_le m v = true.
Proof.
  induction vs as [|v t IH]; intros a Na; cbn [fold_left].
  - repeat split; auto using f_le_refl; intros v [].
  - assert (f_is_nan (f_min a v) = false) as Nm by (rewrite f_min_nan, Na; reflexivity).
    destruct (IH _ Nm) as (A & B & C & D). split; [exact A|]. split.
    + destruct B as [B|B]; [|right; right; exact B]. rewrite B. destruct (f_min_in a v) as [E|E]; rewrite E; auto. right; left; reflexivity.
    + split; [exact (f_le_tr _ _ _ C (f_min_le_l a v Na))|]. intros w [->|Hw] Nw; [|exact (D w Hw Nw)].
      exact (f_le_tr _ _ _ C (f_min_le_r a w Nw)).
Qed.
Lemma maxfold vs : forall a, f_is_nan a = false ->
  let m := fold_left f_max vs a in
  f_is_nan m = false /\ (m = a \/ In m vs) /\ f_le a m = true /\ forall v, In v vs -> f_is_nan v = false -> f_le v m = true.
Proof.
  induction vs as [|v t IH]; intros a Na; cbn [fold_left].
  - repeat split; auto using f_le_refl; intros v [].
  - assert (f_is_nan (f_max a v) = false) as Nm by (rewrite f_max_nan, Na; reflexivity).
    destruct (IH _ Nm) as (A & B & C & D). split; [exact A|]. split.
    + destruct B as [B|B]; [|right; right; exact B]. rewrite B. destruct (f_max_in a v) as [E|E]; rewrite E; auto. right; left; reflexivity.
    + split; [exact (f_le_tr _ _ _ (f_max_le_l a v Na) C)|]. intros w [->|Hw] Nw; [|exact (D w Hw Nw)].
      exact (f_le_tr _ _ _ (f_max_le_r a w Nw) C).
Qed.

Lemma f_le_inf_eq x : f_le f_inf x = true -> x = f_inf.
Proof. destruct x as [[|]|[|]| |[|] ? ? ?]; cbn; try discriminate; reflexivity. Qed.
Lemma f_le_ninf_eq x : f_le x f_ninf = true -> x = f_ninf.
Proof. destruct x as [[|]|[|]| |[|] ? ? ?]; cbn; try discriminate; reflexivity. Qed.

Lemma lfold_limits vs : limits_of vs (fst (lfold (f_inf, f_ninf) vs)) (snd (lfold (f_inf, f_ninf) vs)).
Proof.
  rewrite lfold_fst, lfold_snd. cbn [fst snd].
  destruct (minfold vs f_inf eq_refl) as (A1 & A2 & A3 & A4). destruct (maxfold vs f_ninf eq_refl) as (B1 & B2 & B3 & B4).
  cbv zeta in *. set (lo := fold_left f_min vs f_inf) in *. set (hi := fold_left f_max vs f_ninf) in *.
  destruct (existsb (fun v => negb (f_is_nan v)) vs) eqn:E.
  - left. apply existsb_exists in E as (w & Hw & Nw). apply negb_true_iff in Nw. split; (split; [|split; assumption]).
    + destruct A2 as [->|A2]; [|exact A2]. pose proof (A4 w Hw Nw) as Hle. apply f_le_inf_eq in Hle. subst w. exact Hw.
    + destruct B2 as [->|B2]; [|exact B2]. pose proof (B4 w Hw Nw) as Hle. apply f_le_ninf_eq in Hle. subst w. exact Hw.
  - right. assert (forall v, In v vs -> f_is_nan v = true) as Hall.
    { intros v Hv. destruct (f_is_nan v) eqn:Nv; [reflexivity|]. exfalso.
      assert (existsb (fun v => negb (f_is_nan v)) vs = true) as C by (apply existsb_exists; exists v; rewrite Nv; auto). congruence. }
    split; [exact Hall|]. split.
    + destruct A2 as [A2|A2]; [exact A2|]. apply Hall in A2. congruence.
    + destruct B2 as [B2|B2]; [exact B2|]. apply Hall in B2. congruence.
Qed.

(** the cards *)
Definition cfold (c : nat) (vs : list f32) : nat := fold_left (fun c v => Nat.max c (1 + @into_cat f32ops v)) vs c.
Lemma cfold_spec vs : forall c, let n := cfold c vs in
  c <= n /\ (n = c \/ exists v, In v vs /\ n = S (@into_cat f32ops v)) /\ forall v, In v vs -> @into_cat f32ops v < n.
Proof.
  induction vs as [|v t IH]; intros c; cbn zeta.
  - cbn. repeat split; auto; intros v [].
  - unfold cfold in *. cbn [fold_left]. destruct (IH (Nat.max c (1 + @into_cat f32ops v))) as (A & B & C). cbn zeta in *.
    remember (fold_left (fun c v => Nat.max c (1 + @into_cat f32ops v)) t (Nat.max c (1 + @into_cat f32ops v))) as n eqn:En.
    split; [|split].
    + eapply Nat.le_trans; [|exact A]. apply Nat.le_max_l.
    + destruct B as [B|(w & Hw & B)]; [|right; exists w; split; [right; exact Hw|exact B]].
      destruct (Nat.max_spec c (1 + @into_cat f32ops v)) as [(_ & E)|(_ & E)]; rewrite E in B.
      * right. exists v. split; [left; reflexivity|exact B].
      * left. exact B.
    + intros w [->|Hw]; [|apply C, Hw]. eapply Nat.lt_le_trans; [|exact A]. eapply Nat.lt_le_trans; [|apply Nat.le_max_r]. cbn. apply Nat.lt_succ_diag_r.
Qed.
Lemma cfold_cardinality vs : vs <> [] -> Forall valid_category vs -> cardinality vs (cfold 0 vs).
Proof.
  intros Hne Hv. rewrite Forall_forall in Hv. destruct (cfold_spec vs 0) as (_ & B & C). cbn zeta in *. split.
  - destruct B as [B|(v & Hw & B)].
    + destruct vs as [|v t]; [congruence|]. pose proof (C v (or_introl eq_refl)) as H. rewrite B in H. exfalso. inversion H.
    + exists v, (@into_cat f32ops v). split; [exact Hw|]. split; [apply into_cat_spec, Hv, Hw|exact B].
  - intros v c Hin Hc. rewrite (category_number_fun v c (@into_cat f32ops v)); [apply C, Hin|exact Hc|apply into_cat_spec, Hv, Hin].
Qed.
