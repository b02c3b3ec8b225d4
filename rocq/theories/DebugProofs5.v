(** Where the model has both build modes: what succeeds in a debug build succeeds in a release build with the same result. *)
From Verif Require Import Base BaseProofs Num DataModel Config TreeModel DatasetModel DatasetSpec LearnerModel ObjectiveModel MetricModel BoostModel.

Definition le {A} (r r' : res A) : Prop := forall a, r = Ok a -> r' = Ok a.
Lemma le_refl A (r : res A) : le r r. Proof. intros a E. exact E. Qed.
Lemma le_bind A B (m m' : res A) (k k' : A -> res B) : le m m' -> (forall x, le (k x) (k' x)) -> le (let* x := m in k x) (let* x := m' in k' x).
Proof. intros Hm Hk b E. apply rbind_ok in E as (a & Ea & E). rewrite (Hm a Ea). cbn [rbind]. apply Hk, E. Qed.
Lemma le_foldM A T (f g : T -> A -> res T) l : (forall st x, le (f st x) (g st x)) -> forall st, le (foldM f l st) (foldM g l st).
Proof. intros H. induction l as [|x t IH]; intros st; cbn [foldM]; [apply le_refl|]. apply le_bind; [apply H|intros st'; apply IH]. Qed.
Lemma le_mapM A B (f g : A -> res B) l : (forall x, le (f x) (g x)) -> le (mapM f l) (mapM g l).
Proof. intros H. induction l as [|x t IH]; cbn [mapM]; [apply le_refl|]. apply le_bind; [apply H|intros y]. apply le_bind; [exact IH|intros ys; apply le_refl]. Qed.
Lemma le_if A (b : bool) (x x' y y' : res A) : le x x' -> le y y' -> le (if b then x else y) (if b then x' else y').
Proof. destruct b; auto. Qed.
Lemma le_assert b b' : (b = true -> b' = true) -> le (rassert b) (rassert b').
Proof. intros H a E. destruct b; [rewrite (H eq_refl); exact E|discriminate]. Qed.
Ltac lestep := match goal with
  | |- le ?x ?x => apply le_refl
  | |- le (foldM _ _ _) (foldM _ _ _) => apply le_foldM; intros
  | |- le (mapM _ _) (mapM _ _) => apply le_mapM; intros
  | |- le (rbind _ _) (rbind _ _) => apply le_bind; [|intros]
  | |- le (if _ then _ else _) (if _ then _ else _) => apply le_if
  | |- le (rassert _) (rassert _) => apply le_assert; intros _; reflexivity
  | |- le (let '(_, _) := ?x in _) _ => destruct x
  end.

Section Mono.
Variable O : numops.
Variable cfg : config O.

Lemma hicard_rank_le (x : num O) i : le (hicard_rank true x i) (hicard_rank false x i).
Proof. unfold hicard_rank, u32_pred. destruct (_ =? 0)%N; [discriminate|apply le_refl]. Qed.
Lemma hicard_groups_le feat grad card na bounds ex : le (hicard_groups true cfg feat grad card na bounds ex) (hicard_groups false cfg feat grad card na bounds ex).
Proof. unfold hicard_groups. repeat (cbv zeta; lestep). apply hicard_rank_le. Qed.
Lemma update_feature_le lc ex grad bounds s u : le (update_feature true cfg lc ex grad bounds s u) (update_feature false cfg lc ex grad bounds s u).
Proof. unfold update_feature. repeat lestep. destruct x0; repeat lestep. unfold update_hicard_cat. repeat lestep. apply hicard_groups_le. Qed.
Lemma dataset_update_le s grad bounds : le (dataset_update true cfg s grad bounds) (dataset_update false cfg s grad bounds).
Proof. unfold dataset_update. repeat (cbv zeta; lestep); apply update_feature_le. Qed.
Lemma u32_sub_le a b : le (u32_sub true a b) (u32_sub false a b).
Proof. unfold u32_sub. destruct (b <=? a)%N; [apply le_refl|discriminate]. Qed.
Lemma hv_sub_le p l : le (hv_sub O true p l) (hv_sub O false p l).
Proof. unfold hv_sub. apply le_bind; [apply u32_sub_le|intros; apply le_refl]. Qed.

Section Train.
Variable s : dataset O.
Variable sizes : list nat.
Variable bounds : num O * num O.
Variable sched : nat -> list job -> list job.
Lemma find_best_split_le nd : le (find_best_split true cfg s nd) (find_best_split false cfg s nd).
Proof. unfold find_best_split. repeat lestep. unfold split_step. repeat (cbv zeta; lestep). apply u32_sub_le. Qed.
Lemma compress_le p nd n : le (compress_examples true cfg p nd n) (compress_examples false cfg p nd n).
Proof.
  unfold compress_examples. repeat (cbv zeta; lestep).
  unfold compress_step. destruct st as [[[k mask] ix] grads]. repeat lestep.
Qed.
Lemma split_examples_le p id sp f c g : le (split_examples true cfg s sizes p id sp f c g) (split_examples false cfg s sizes p id sp f c g).
Proof. unfold split_examples. repeat (cbv zeta; lestep). apply compress_le. Qed.
Lemma left_right_le p sp : le (get_left_right_n2s true cfg s sizes bounds sched p sp) (get_left_right_n2s false cfg s sizes bounds sched p sp).
Proof. unfold get_left_right_n2s. repeat (cbv zeta; lestep); try apply u32_sub_le; try apply split_examples_le. unfold derive_histograms, hists_subtract. repeat lestep. apply hv_sub_le. Qed.

Variable St : Type.
Variable leaf_value : list nat -> St -> res (num O * St).
Variable oob : nat -> num O -> St -> res St.
Lemma train_step_le nd stack t st : le (train_step true cfg s sizes bounds sched St leaf_value nd stack t st) (train_step false cfg s sizes bounds sched St leaf_value nd stack t st).
Proof. unfold train_step. repeat (cbv zeta; lestep); [apply find_best_split_le|]. apply left_right_le. Qed.
Lemma train_loop_le fuel : forall stack t st, le (train_loop true cfg s sizes bounds sched St leaf_value fuel stack t st) (train_loop false cfg s sizes bounds sched St leaf_value fuel stack t st).
Proof. induction fuel as [|fuel IH]; intros [|nd rest] t st; cbn [train_loop]; try apply le_refl. apply le_bind; [apply train_step_le|]. intros [r st']. apply IH. Qed.
Lemma train_le gradients st : le (train true cfg s sizes bounds sched St leaf_value oob gradients st) (train false cfg s sizes bounds sched St leaf_value oob gradients st).
Proof. unfold train. repeat lestep. apply train_loop_le. Qed.
End Train.

Variable M : mathops O.
Variable d : data O.
Lemma obj_initialize_le target ob : le (obj_initialize M true cfg target ob) (obj_initialize M false cfg target ob).
Proof. unfold obj_initialize. destruct (ob_kind ob); repeat (cbv zeta; lestep). Qed.
Variable sched : nat -> nat -> list job -> list job.
Lemma boost_run_le kind metrics g k : le (boost_run M true cfg d sched kind metrics g k) (boost_run M false cfg d sched kind metrics g k).
Proof.
  unfold boost_run. repeat lestep.
  - unfold boost_start. repeat lestep. apply obj_initialize_le.
  - unfold train_one_iter. repeat (cbv zeta; lestep); [apply dataset_update_le|apply train_le].
Qed.
Lemma ds_run_le us s : le (ds_run true cfg us s) (ds_run false cfg us s).
Proof. unfold ds_run. repeat lestep. apply dataset_update_le. Qed.
End Mono.
