(** The Python wrapper (C52). *)
From Coq Require Import String Lia ZArith Permutation.
From Verif Require Import Base BaseProofs Num F32 DataModel Config ConfigModel ConfigSpec ConfigProps TreeModel LearnerModel DatasetModel ObjectiveModel MetricModel BoostModel BoostSpec DatasetProps LearnerProps BoostProps
  CapiModel CapiSpec CapiProps SafeSpec SafeProofs SafeProps PredSpec PredProps PyModel PySpec PyProofs.
Local Open Scope nat_scope.
Local Open Scope list_scope.

Section Py.
Variable O : numops.
Variable M : mathops O.
Variable parse_num : string -> option (num O).
Variable dbg : bool.
Variable known_param : string -> bool.
Notation api := (api_call M parse_num dbg).
Notation step := (py_step M parse_num dbg known_param).
Notation run := (py_run M parse_num dbg known_param).
Notation pyinv := (pyinv O M dbg).

Lemma fresh_inv : pyinv fresh no_rows.
Proof.
  exists nothing. split; [split|].
  - intros [|[|p]]; reflexivity.
  - intros [|[|p]] c E; discriminate E.
  - split; [|split; [|reflexivity]]; intros [|o]; discriminate.
Qed.
Lemma run_inv : forall ops st k, pyinv st k -> py_follows step k st ops -> exists st' rs, run st ops = Ok (st', rs) /\ length rs = length ops /\ pyinv st' (fold_left py_after (combine ops rs) k).
Proof.
  induction ops as [|op ops IH]; intros st k HI HF; cbn [py_run]; [exists st, []; auto|]. cbn [py_follows] in HF. destruct HF as [A HF]. destruct (py_step_ok O M parse_num dbg known_param st k op HI A) as (st' & r & E & HI'). rewrite E. cbn [rbind].
  destruct (IH st' (py_after k (op, r)) HI' (HF _ _ E)) as (st2 & rs & E2 & L & HI2). rewrite E2. cbn [rbind]. exists st2, (r :: rs). cbn [length combine fold_left]. auto.
Qed.
Lemma run_cut : forall a st st' rs b, run st (a ++ b) = Ok (st', rs) -> exists st1 rs1 rs2, run st a = Ok (st1, rs1) /\ run st1 b = Ok (st', rs2) /\ rs = rs1 ++ rs2.
Proof.
  induction a as [|op a IH]; intros st st' rs b E; cbn [app py_run] in *; [exists st, [], rs; auto|]. apply rbind_ok in E as ([st1 r] & E1 & E). apply rbind_ok in E as ([st2 rs2] & E2 & E). apply Ok_inj in E. injection E as <- <-.
  destruct (IH _ _ _ _ E2) as (st3 & rs1 & rs3 & F1 & F2 & F3). exists st3, (r :: rs1), rs3. rewrite E1. cbn [rbind]. rewrite F1. cbn [rbind]. subst rs2. auto.
Qed.
Lemma run_paste : forall a st st1 rs1 b st' rs2, run st a = Ok (st1, rs1) -> run st1 b = Ok (st', rs2) -> run st (a ++ b) = Ok (st', rs1 ++ rs2).
Proof.
  induction a as [|op a IH]; intros st st1 rs1 b st' rs2 E1 E2; cbn [app py_run] in *; [apply Ok_inj in E1; injection E1 as <- <-; exact E2|]. apply rbind_ok in E1 as ([s r] & F1 & E1). apply rbind_ok in E1 as ([s2 rs] & F2 & E1). apply Ok_inj in E1. injection E1 as <- <-.
  rewrite F1. cbn [rbind]. rewrite (IH _ _ _ _ _ _ F2 E2). reflexivity.
Qed.
Lemma follows_cut : forall a st st1 rs1 b k, py_follows step k st (a ++ b) -> run st a = Ok (st1, rs1) -> py_follows step k st a /\ py_follows step (fold_left py_after (combine a rs1) k) st1 b.
Proof.
  induction a as [|op a IH]; intros st st1 rs1 b k HF E; cbn [app py_run py_follows] in *; [apply Ok_inj in E; injection E as <- <-; auto|]. apply rbind_ok in E as ([s r] & F1 & E). apply rbind_ok in E as ([s2 rs] & F2 & E). apply Ok_inj in E. injection E as <- <-.
  destruct HF as [A HF]. destruct (IH _ _ _ _ _ (HF _ _ F1) F2) as (G1 & G2). split; [split; [exact A|]|exact G2]. intros st' r' E'. rewrite F1 in E'. apply Ok_inj in E'. injection E' as <- <-. exact G1.
Qed.

(** A Python program whose matrices have rows and whose separate columns are long enough runs to its end: whatever else it does (objects used after they are freed or freed twice, matrices of the wrong type
    or width, invalid settings, invalid categories, training that fails, predictions before training), no operation is undefined behaviour. *)
Theorem C52_safe : forall ops, py_follows step no_rows fresh ops -> exists st rs, run fresh ops = Ok (st, rs) /\ length rs = length ops.
Proof. intros ops HF. destruct (run_inv ops fresh no_rows fresh_inv HF) as (st & rs & E & L & _). eauto. Qed.

(* ---- what a step keeps ---- *)
Definition kept (h h' : heap O) (p : nat) : Prop := forall c, context_at h p = Some c -> exists c', context_at h' p = Some c' /\ cx_nfeatures c' = cx_nfeatures c /\ cx_model c' = cx_model c.
Lemma kept_refl h p : kept h h p. Proof. intros c E. eauto. Qed.
Lemma kept_trans h h1 h2 p : kept h h1 p -> kept h1 h2 p -> kept h h2 p.
Proof. intros H1 H2 c E. destruct (H1 c E) as (c1 & E1 & A1 & B1). destruct (H2 c1 E1) as (c2 & E2 & A2 & B2). exists c2. split; [exact E2|]. split; congruence. Qed.
Lemma kept_call h c h' r p : api h c = Ok (h', r) -> c <> Dealloc p -> (forall g s, c <> Train p g s) -> kept h h' p.
Proof. intros E N1 N2 x Hx. destruct (keep_step O M parse_num dbg _ _ _ _ _ _ E Hx N1) as (x' & A & B & C). exists x'. split; [exact A|]. split; [exact B|apply C, N2]. Qed.
Lemma set_feature_keeps st ob f a cat st' r : py_set_feature M parse_num dbg st ob f a cat = Ok (st', r) -> py_objs st' = py_objs st /\ forall p, kept (py_heap st) (py_heap st') p.
Proof.
  unfold py_set_feature, asserted. destruct (_ && _); intros E; [|apply Ok_inj in E; injection E as <- <-; split; [reflexivity|intros; apply kept_refl]]. apply rbind_ok in E as ([h' r'] & E1 & E). apply Ok_inj in E. injection E as <- <-. cbn [py_objs py_heap]. split; [reflexivity|]. intros p. eapply kept_call; [exact E1|discriminate|discriminate].
Qed.
Lemma set_loop_keeps (x : matrix O) cats ob : forall fs st st', foldM (fun st f => let* col := idx (x_cols x) f in
                                let* (st', _) := py_set_feature M parse_num dbg st ob (Z.of_nat f) (mk_array (x_numt x) col) (existsb (Nat.eqb f) cats) in Ok st') fs st = Ok st' ->
  py_objs st' = py_objs st /\ forall p, kept (py_heap st) (py_heap st') p.
Proof.
  induction fs as [|f fs IH]; intros st st' E; cbn [foldM] in E; [apply Ok_inj in E; subst st'; split; [reflexivity|intros; apply kept_refl]|]. apply rbind_ok in E as (st1 & E1 & E). apply rbind_ok in E1 as (col & _ & E1). apply rbind_ok in E1 as ([st2 r] & E1 & E2). apply Ok_inj in E2. subst st2.
  apply set_feature_keeps in E1 as (A1 & A2). apply IH in E as (B1 & B2). split; [congruence|]. intros p. eapply kept_trans; [apply A2|apply B2].
Qed.
Lemma step_keeps st op st' r q ob : step st op = Ok (st', r) -> nth_error (py_objs st) q = Some ob ->
  (forall o' ob', nth_error (py_objs st) o' = Some ob' -> po_ptr ob <> 0 -> po_ptr ob = po_ptr ob' -> q = o') ->
  exists ob', nth_error (py_objs st') q = Some ob' /\ po_nfeatures ob' = po_nfeatures ob /\ (po_ptr ob' = po_ptr ob \/ po_ptr ob' = 0) /\ (~ retrains q op -> po_ptr ob' = po_ptr ob /\ kept (py_heap st) (py_heap st') (po_ptr ob)).
Proof.
  intros E Hq HD.
  assert (forall s h', py_objs s = py_objs st -> h' = py_heap s -> (~ retrains q op -> kept (py_heap st) h' (po_ptr ob)) -> exists ob', nth_error (py_objs s) q = Some ob' /\ po_nfeatures ob' = po_nfeatures ob /\ (po_ptr ob' = po_ptr ob \/ po_ptr ob' = 0) /\ (~ retrains q op -> po_ptr ob' = po_ptr ob /\ kept (py_heap st) (py_heap s) (po_ptr ob))) as K1.
  { intros s h' Hs -> Hk. exists ob. rewrite Hs. split; [exact Hq|]. split; [reflexivity|]. split; [auto|]. intros N. split; [reflexivity|apply Hk, N]. }
  assert (forall s h', s = mk_py h' (py_objs st) -> (~ retrains q op -> kept (py_heap st) h' (po_ptr ob)) -> exists ob', nth_error (py_objs s) q = Some ob' /\ po_nfeatures ob' = po_nfeatures ob /\ (po_ptr ob' = po_ptr ob \/ po_ptr ob' = 0) /\ (~ retrains q op -> po_ptr ob' = po_ptr ob /\ kept (py_heap st) (py_heap s) (po_ptr ob))) as K2.
  { intros s h' -> Hk. apply (K1 _ h'); [reflexivity|reflexivity|exact Hk]. }
  assert (exists ob', nth_error (py_objs st) q = Some ob' /\ po_nfeatures ob' = po_nfeatures ob /\ (po_ptr ob' = po_ptr ob \/ po_ptr ob' = 0) /\ (~ retrains q op -> po_ptr ob' = po_ptr ob /\ kept (py_heap st) (py_heap st) (po_ptr ob))) as K0 by (exists ob; split; [exact Hq|split; [reflexivity|split; [auto|intros _; split; [reflexivity|apply kept_refl]]]]).
  assert (forall s o2 ob2, nth_error (py_objs st) o2 = Some ob2 -> po_ptr ob2 <> 0 -> (o2 = q -> retrains q op) -> py_dealloc M parse_num dbg st o2 ob2 = Ok (s, r) -> exists ob', nth_error (py_objs s) q = Some ob' /\ po_nfeatures ob' = po_nfeatures ob /\ (po_ptr ob' = po_ptr ob \/ po_ptr ob' = 0) /\ (~ retrains q op -> po_ptr ob' = po_ptr ob /\ kept (py_heap st) (py_heap s) (po_ptr ob))) as K3.
  { intros s o2 ob2 Ho Hp Hr Es. unfold py_dealloc in Es. apply rbind_ok in Es as ([h' r'] & E1 & Es). apply Ok_inj in Es. injection Es as <- <-. unfold set_obj. cbn [py_objs py_heap]. rewrite nth_error_upd. destruct (Nat.eqb_spec o2 q) as [->|N]; cbn [andb].
    - rewrite (proj2 (Nat.ltb_lt _ _)) by (apply nth_error_Some; congruence). rewrite Hq in Ho. injection Ho as <-. eexists. split; [reflexivity|]. cbn [po_nfeatures po_ptr]. split; [reflexivity|]. split; [auto|]. intros Nr. destruct Nr. auto.
    - exists ob. split; [exact Hq|]. split; [reflexivity|]. split; [auto|]. intros _. split; [reflexivity|]. destruct (Nat.eq_dec (po_ptr ob) 0) as [Z0|Z0]; [rewrite Z0; intros c Hc; discriminate Hc|]. eapply kept_call; [exact E1| |discriminate]. intros Ed. injection Ed as Ed. apply N. symmetry. eapply HD; eauto. }
  destruct op as [nf ne|o|o|o f a cat|o x cats|o a|o name value|o g sched|o]; cbn [py_step] in E.
  - unfold asserted in E. destruct (_ && _); [|apply Ok_inj in E; injection E as <- <-; exact K0]. apply rbind_ok in E as ([h' r'] & E1 & E). apply Ok_inj in E. injection E as <- <-. cbn [py_objs py_heap]. exists ob. split; [rewrite nth_error_app1; [exact Hq|apply nth_error_Some; congruence]|]. split; [reflexivity|]. split; [auto|]. intros _. split; [reflexivity|]. eapply kept_call; [exact E1|discriminate|discriminate].
  - unfold checked in E. destruct (nth_error (py_objs st) o) as [ob2|] eqn:Ho; [|apply Ok_inj in E; injection E as <- <-; exact K0]. destruct (Nat.eqb_spec (po_ptr ob2) 0); [apply Ok_inj in E; injection E as <- <-; exact K0|]. eapply K3; [exact Ho|assumption|intros ->; reflexivity|exact E].
  - destruct (nth_error (py_objs st) o) as [ob2|] eqn:Ho; [|apply Ok_inj in E; injection E as <- <-; exact K0]. destruct (Nat.eqb_spec (po_ptr ob2) 0); [apply Ok_inj in E; injection E as <- <-; exact K0|]. eapply K3; [exact Ho|assumption|intros ->; reflexivity|exact E].
  - unfold checked in E. destruct (nth_error (py_objs st) o) as [ob2|] eqn:Ho; [|apply Ok_inj in E; injection E as <- <-; exact K0]. destruct (Nat.eqb_spec (po_ptr ob2) 0); [apply Ok_inj in E; injection E as <- <-; exact K0|]. apply set_feature_keeps in E as (A & B). eapply K1; [exact A|reflexivity|auto].
  - unfold checked in E. destruct (nth_error (py_objs st) o) as [ob2|] eqn:Ho; [|apply Ok_inj in E; injection E as <- <-; exact K0]. destruct (Nat.eqb_spec (po_ptr ob2) 0) as [|Np]; [apply Ok_inj in E; injection E as <- <-; exact K0|]. unfold py_set_data, asserted in E. destruct (_ && _); [|apply Ok_inj in E; injection E as <- <-; exact K0].
    apply rbind_ok in E as ([h1 r1] & E1 & E). apply rbind_ok in E as (st2 & E2 & E). apply Ok_inj in E. injection E as <- <-. apply set_loop_keeps in E2 as (A & B). unfold set_obj in A, B. cbn [py_objs py_heap] in A, B. rewrite A, nth_error_upd.
    assert (kept (py_heap st) (py_heap st2) (po_ptr ob)) as HK by (eapply kept_trans; [eapply kept_call; [exact E1|discriminate|discriminate]|apply B]).
    destruct (Nat.eqb_spec o q) as [->|N]; cbn [andb]; [|exists ob; auto 8]. rewrite (proj2 (Nat.ltb_lt _ _)) by (apply nth_error_Some; congruence). rewrite Hq in Ho. injection Ho as <-. eexists. split; [reflexivity|]. cbn [po_nfeatures po_ptr]. auto.
  - unfold checked in E. destruct (nth_error (py_objs st) o) as [ob2|] eqn:Ho; [|apply Ok_inj in E; injection E as <- <-; exact K0]. destruct (Nat.eqb_spec (po_ptr ob2) 0); [apply Ok_inj in E; injection E as <- <-; exact K0|]. apply set_feature_keeps in E as (A & B). eapply K1; [exact A|reflexivity|auto].
  - unfold checked in E. destruct (nth_error (py_objs st) o) as [ob2|] eqn:Ho; [|apply Ok_inj in E; injection E as <- <-; exact K0]. destruct (Nat.eqb_spec (po_ptr ob2) 0); [apply Ok_inj in E; injection E as <- <-; exact K0|]. unfold asserted in E. destruct (known_param name); [|apply Ok_inj in E; injection E as <- <-; exact K0].
    apply rbind_ok in E as ([h1 r1] & E1 & E). apply Ok_inj in E. injection E as <- <-. eapply K2; [reflexivity|]. intros _. eapply kept_call; [exact E1|discriminate|discriminate].
  - unfold checked in E. destruct (nth_error (py_objs st) o) as [ob2|] eqn:Ho; [|apply Ok_inj in E; injection E as <- <-; exact K0]. destruct (Nat.eqb_spec (po_ptr ob2) 0) as [|Np]; [apply Ok_inj in E; injection E as <- <-; exact K0|].
    apply rbind_ok in E as ([h1 r1] & E1 & E). apply Ok_inj in E. injection E as <- <-. eapply K2; [reflexivity|]. intros Nr. destruct (Nat.eq_dec (po_ptr ob) 0) as [Z0|Z0]; [rewrite Z0; intros c Hc; discriminate Hc|]. eapply kept_call; [exact E1|discriminate|].
    intros g' s' Ed. injection Ed as Ed _ _. apply Nr. cbn [retrains]. symmetry. eapply HD; eauto.
  - unfold checked in E. destruct (nth_error (py_objs st) o) as [ob2|] eqn:Ho; [|apply Ok_inj in E; injection E as <- <-; exact K0]. destruct (Nat.eqb_spec (po_ptr ob2) 0); [apply Ok_inj in E; injection E as <- <-; exact K0|]. unfold asserted in E. destruct (0 <? po_nexamples ob2)%Z; [|apply Ok_inj in E; injection E as <- <-; exact K0].
    apply rbind_ok in E as ([h1 r1] & E1 & E). apply Ok_inj in E. injection E as <- <-. eapply K2; [reflexivity|]. intros _. eapply kept_call; [exact E1|discriminate|discriminate].
Qed.

(** Every use of an object after it is freed raises an exception, and a second [del] does nothing: the library is not called. *)
Theorem C52_freed : forall st st1 o ops st2 rs op, step st (PyDealloc o) = Ok (st1, Nothing) -> run st1 ops = Ok (st2, rs) -> on op = Some o ->
  step st2 op = Ok (st2, match op with PyDel _ => Nothing | _ => Raised end).
Proof.
  intros st st1 o ops st2 rs op E1 E2 Hon.
  assert (exists ob, nth_error (py_objs st1) o = Some ob /\ po_ptr ob = 0) as H1.
  { cbn [py_step] in E1. unfold checked in E1. destruct (nth_error (py_objs st) o) as [ob|] eqn:Ho; [|apply Ok_inj in E1; discriminate E1]. destruct (po_ptr ob =? 0); [apply Ok_inj in E1; discriminate E1|]. unfold py_dealloc in E1. apply rbind_ok in E1 as ([h r] & _ & E1). apply Ok_inj in E1. injection E1 as <-.
    unfold set_obj. cbn [py_objs]. rewrite nth_error_upd, Nat.eqb_refl. rewrite (proj2 (Nat.ltb_lt _ _)) by (apply nth_error_Some; congruence). eexists. split; reflexivity. }
  assert (exists ob, nth_error (py_objs st2) o = Some ob /\ po_ptr ob = 0) as (ob & Ho & Hp).
  { clear E1 Hon. revert st1 rs E2 H1. induction ops as [|x ops IH]; intros st1 rs E2 H1; cbn [py_run] in E2; [apply Ok_inj in E2; injection E2 as <- <-; exact H1|]. apply rbind_ok in E2 as ([s r] & E1 & E2). apply rbind_ok in E2 as ([s2 rs2] & E2 & E3). apply Ok_inj in E3. injection E3 as <- <-.
    apply (IH _ _ E2). destruct H1 as (ob & Ho & Hp). destruct (step_keeps _ _ _ _ _ _ E1 Ho) as (ob' & A1 & _ & [A2|A2] & _); [intros; contradiction|exists ob'; split; congruence|exists ob'; auto]. }
  assert (forall K, checked st2 o K = Ok (st2, @Raised O)) as HK by (intros K; unfold checked; rewrite Ho, Hp; reflexivity).
  destruct op; cbn [on] in Hon; try discriminate Hon; injection Hon as ->; cbn [py_step]; try apply HK. rewrite Ho, Hp. reflexivity.
Qed.

(* ---- predicting ---- *)
Definition row_data (row : list (num O)) : data O := mk_data 0 (length row) 1 (map (fun v => [v]) row ++ [[nofZ O 0]]) [] [] [].
Definition row_prediction (m : option (additive_tree O)) (row : list (num O)) : num O :=
  match m with
  | None => nofZ O 0
  | Some m => match additive_predict m (row_data row) with Ok (p :: _) => p | _ => nofZ O 0 end
  end.
Lemma nth_ext_error {A} : forall (a b : list A), (forall i, nth_error a i = nth_error b i) -> a = b.
Proof.
  induction a as [|x a IH]; intros [|y b] H; [reflexivity|specialize (H 0); discriminate H|specialize (H 0); discriminate H|]. pose proof (H 0) as H0. cbn in H0. injection H0 as <-. f_equal. apply IH. intros i. exact (H (S i)).
Qed.
Lemma predict_columns nf m (x : matrix O) d : trained_by O M dbg nf m -> length (x_cols x) = nf -> rectangular x -> columns_of x d -> additive_predict m d = Ok (map (row_prediction (Some m)) (rows_of x)).
Proof.
  intros (cfg & dt & sched & kind & ms & g & T1 & T2 & T3 & T4 & T5) Hw Hx (C1 & C2 & C3 & rest & C4). rewrite Forall_forall in C2.
  assert (has_columns (d_nfeatures dt) d) as HC by (split; [exact C3|]; split; [rewrite C4, app_length; lia|exact C2]).
  destruct (C51_predicts O M dbg cfg dt sched kind ms g m T1 T2 T3 T5 d HC) as (ps & E & L & _). rewrite E. f_equal. apply nth_ext_error. intros i. destruct (Nat.lt_ge_cases i (d_nexamples d)) as [Li|Li].
  2:{ rewrite (proj2 (nth_error_None ps i)) by lia. symmetry. apply nth_error_None. unfold rows_of. rewrite !map_length, seq_length. lia. }
  set (row := map (fun col => nth i col (nofZ O 0)) (x_cols x)).
  assert (has_columns (d_nfeatures dt) (row_data row)) as HR.
  { split; [|split]; cbn [row_data d_features d_nexamples]; [rewrite app_length; cbn [length]; lia|rewrite app_length, map_length; subst row; rewrite map_length; lia|]. intros col Hc. apply in_app_or in Hc as [Hc|[<-|[]]]; [|reflexivity]. apply in_map_iff in Hc as (v & <- & _). reflexivity. }
  destruct (C51_predicts O M dbg cfg dt sched kind ms g m T1 T2 T3 T5 (row_data row) HR) as (pr & Er & Lr & _).
  destruct (C51_row_only O M dbg cfg dt sched kind ms g m T1 T2 T3 T5 d (row_data row) ps pr i 0 HC HR E Er Li) as (Q & _); [cbn; lia| |].
  { intros f Hf. unfold value_at. cbn [row_data d_features]. rewrite C4. assert (f < length (x_cols x)) as Lf by lia. rewrite nth_error_app1 by exact Lf. rewrite nth_error_app1 by (subst row; rewrite !map_length; exact Lf). subst row. rewrite map_map, nth_error_map.
    destruct (nth_error (x_cols x) f) as [col|] eqn:Ec; [|reflexivity]. cbn [option_map nth_error]. apply nth_error_nth'. unfold rectangular in Hx. rewrite Forall_forall in Hx. rewrite (Hx col) by (eapply nth_error_In, Ec). lia. }
  rewrite Q. unfold rows_of. rewrite map_map, nth_error_map. replace (nth_error (seq 0 (x_rows x)) i) with (Some i).
  2:{ symmetry. rewrite (nth_error_nth' _ 0) by (rewrite seq_length; lia). rewrite seq_nth by lia. reflexivity. }
  cbn [option_map]. fold row. unfold row_prediction. rewrite Er. cbn [row_data d_nexamples] in Lr. destruct pr as [|p pr]; [discriminate Lr|reflexivity].
Qed.
Lemma predict_state st k o ob c x : pyinv st k -> nth_error (py_objs st) o = Some ob -> po_ptr ob <> 0 -> matrix_for (po_nfeatures ob) x -> context_at (py_heap st) (po_ptr ob) = Some c ->
  exists st3, run st (sk_predict o x) = Ok (st3, [Nothing; Array (Some (map (row_prediction (cx_model c)) (rows_of x)))]).
Proof.
  intros HI Ho Hp (X1 & X2 & X3 & X4 & X5 & X6) Hc. destruct (set_data_exact O M parse_num dbg known_param st k o ob x [] HI Ho Hp X6 X1 X2 X3 X4 X5) as (h' & c0 & c' & d & E & A1 & A2 & (A3 & A4 & A5) & A6 & A7 & A8 & A9 & A10 & A11); [intros f col []|].
  rewrite Hc in A1. injection A1 as <-. unfold sk_predict. cbn [py_run]. rewrite E. cbn [rbind]. cbn [py_step]. unfold checked. cbn [py_objs]. rewrite nth_error_upd, Nat.eqb_refl. rewrite (proj2 (Nat.ltb_lt _ _)) by (apply nth_error_Some; congruence). cbn [andb po_ptr po_nexamples]. rewrite (proj2 (Nat.eqb_neq _ _) Hp).
  unfold asserted. rewrite (proj2 (Z.ltb_lt _ _)) by lia. cbn [py_heap]. rewrite Nat2Z.id. cbn [api_call]. unfold bb_predict, bb_predict_args. rewrite (proj2 (deref_ok _ _ _ _) A2). cbn [rbind]. rewrite A7. cbn [expect rbind]. rewrite A5.
  assert (length (rows_of x) = x_rows x) as LR by (unfold rows_of; rewrite map_length, seq_length; reflexivity).
  destruct (cx_model c) as [m|] eqn:Em; cbn [expect rbind].
  - unfold raw_parts. rewrite A9, repeat_length, Nat.leb_refl. cbn [rbind]. rewrite predict_buf_any by (rewrite firstn_length, repeat_length, A9; lia).
    destruct HI as (l & (_ & HC) & _). destruct (HC _ _ Hc) as (_ & HM). destruct A8 as (D1 & D2 & D3 & D4 & D5 & D6 & D7 & D8).
    rewrite (predict_columns (cx_nfeatures c) m x d (HM _ Em)); [|lia|exact X6|].
    + cbn [rbind]. eexists. rewrite A9. rewrite skipn_all2 by (rewrite repeat_length; lia). rewrite app_nil_r. reflexivity.
    + split; [exact A9|]. split; [exact D8|]. split; [lia|]. exists (skipn (length (x_cols x)) (d_features d)). apply nth_ext_error. intros j. destruct (Nat.lt_ge_cases j (length (x_cols x))) as [L|L].
      * rewrite nth_error_app1 by exact L. destruct (A11 j ltac:(lia)) as (Q & _). destruct (Q L) as (Q1 & _). exact Q1.
      * rewrite nth_error_app2 by exact L. rewrite nth_error_skipn. f_equal. lia.
  - cbn [rbind]. eexists. replace (map (row_prediction None) (rows_of x)) with (repeat (nofZ O 0) (x_rows x)); [reflexivity|]. rewrite <- LR. clear. induction (rows_of x) as [|r t IH]; [reflexivity|]. cbn [length repeat map]. f_equal. exact IH.
Qed.
Lemma run_keeps : forall ops st k o ob, pyinv st k -> py_follows step k st ops -> nth_error (py_objs st) o = Some ob -> Forall (fun op => ~ retrains o op) ops -> forall st' rs, run st ops = Ok (st', rs) ->
  exists ob', nth_error (py_objs st') o = Some ob' /\ po_nfeatures ob' = po_nfeatures ob /\ po_ptr ob' = po_ptr ob /\ kept (py_heap st) (py_heap st') (po_ptr ob).
Proof.
  induction ops as [|op ops IH]; intros st k o ob HI HF Ho Hn st' rs E; cbn [py_run] in E; [apply Ok_inj in E; injection E as <- <-; exists ob; split; [exact Ho|split; [reflexivity|split; [reflexivity|apply kept_refl]]]|].
  apply rbind_ok in E as ([s r] & E1 & E). apply rbind_ok in E as ([s2 rs2] & E2 & E). apply Ok_inj in E. injection E as <- <-. cbn [py_follows] in HF. destruct HF as [A HF]. inversion_clear Hn as [|? ? Hn1 Hn2].
  destruct (py_step_ok O M parse_num dbg known_param st k op HI A) as (s' & r' & E1' & HI'). rewrite E1 in E1'. apply Ok_inj in E1'. injection E1' as <- <-.
  destruct (step_keeps _ _ _ _ _ _ E1 Ho) as (ob1 & B1 & B2 & _ & B3); [destruct HI as (l & _ & (_ & HD & _)); intros; eapply HD; eauto|]. destruct (B3 Hn1) as (B4 & B5).
  destruct (IH _ _ _ _ HI' (HF _ _ E1) B1 Hn2 _ _ E2) as (ob2 & C1 & C2 & C3 & C4). exists ob2. split; [exact C1|]. split; [congruence|]. split; [congruence|]. eapply kept_trans; [exact B5|]. rewrite B4 in C4. exact C4.
Qed.

(** Predictions are a function of the rows, one by one.  At any point of a program, each object has a prediction function [F]; until the object is trained again or freed, whatever the program does in between
    with this object (other matrices and predictions, failed calls) or with others, [predict] of any matrix of the right type and width returns [F] of each of its rows, in order. *)
Theorem C52_predict : forall ops st rs o nf, py_follows step no_rows fresh ops -> run fresh ops = Ok (st, rs) -> usable_object st o nf ->
  exists F, forall more st2 rs2 x, py_follows step no_rows fresh (ops ++ more) -> Forall (fun op => ~ retrains o op) more -> run st more = Ok (st2, rs2) -> matrix_for nf x ->
    exists st3, run st2 (sk_predict o x) = Ok (st3, [Nothing; Array (Some (map F (rows_of x)))]).
Proof.
  intros ops st rs o nf HF E (ob & Ho & Hp & <-). destruct (run_inv ops fresh no_rows fresh_inv HF) as (st' & rs' & E' & _ & HI). rewrite E in E'. apply Ok_inj in E'. injection E' as <- <-.
  pose proof HI as (l & (_ & _) & (P1 & _ & _)). destruct (P1 o ob Ho) as (_ & A2). destruct (A2 Hp) as (_ & _ & c & B3 & _). exists (row_prediction (cx_model c)). intros more st2 rs2 x HF2 Hn E2 Hx.
  destruct (follows_cut _ _ _ _ _ _ HF2 E) as (_ & HF3). destruct (run_keeps _ _ _ _ _ HI HF3 Ho Hn _ _ E2) as (ob2 & C1 & C2 & C3 & C4). destruct (C4 _ B3) as (c2 & D1 & D2 & D3).
  destruct (run_inv more _ _ HI HF3) as (s & r & E3 & _ & HI2). rewrite E2 in E3. apply Ok_inj in E3. injection E3 as <- <-. rewrite <- D3. rewrite <- C3 in D1. eapply predict_state; [exact HI2|exact C1|congruence|rewrite C2; exact Hx|exact D1].
Qed.

(* ---- fitting ---- *)
Lemma config_loop : forall params c0 cfg, configured parse_num c0 params cfg -> Forall (fun p => known_param (fst p) = true) params -> forall st k o ob c, pyinv st k -> nth_error (py_objs st) o = Some ob -> po_ptr ob <> 0 -> context_at (py_heap st) (po_ptr ob) = Some c -> cx_config c = c0 ->
  cx_data c = None -> exists h' c', run st (map (fun p => PySetConfig o (fst p) (snd p)) params) = Ok (mk_py h' (py_objs st), repeat Nothing (length params)) /\ context_at h' (po_ptr ob) = Some c' /\ cx_config c' = cfg /\ cx_data c' = None /\ cx_nfeatures c' = cx_nfeatures c /\ cx_model c' = cx_model c /\
    pyinv (mk_py h' (py_objs st)) k.
Proof.
  induction 1 as [c0|c0 name text t c1 c2 U1 U2 Ep HC IH]; intros Hk st k o ob c HI Ho Hp Hc E0 Hd.
  - cbn [map py_run length repeat]. exists (py_heap st), c. destruct st. auto 12.
  - inversion_clear Hk as [|? ? Hk1 Hk2]. cbn [map py_run fst snd length repeat]. cbn [fst] in Hk1.
    assert (step st (PySetConfig o name text) = Ok (mk_py (store (py_heap st) (po_ptr ob) (Some (mk_context c1 (cx_nfeatures c) (cx_data c) (cx_model c)))) (py_objs st), Nothing)) as ES.
    { cbn [py_step]. unfold checked. rewrite Ho, (proj2 (Nat.eqb_neq _ _) Hp). unfold asserted. rewrite Hk1. cbn [api_call]. unfold bb_set_config_field. rewrite (proj2 (deref_ok _ _ _ _) Hc). cbn [rbind]. rewrite Hd. cbn [rassert rbind]. rewrite U1, U2. cbn [rassert rbind]. rewrite E0, Ep. reflexivity. }
    destruct (py_step_ok O M parse_num dbg known_param st k (PySetConfig o name text) HI I) as (s' & r' & E' & HI'). rewrite ES in E'. apply Ok_inj in E'. injection E' as <- <-. rewrite ES. cbn [rbind].
    destruct (IH Hk2 _ k o ob (mk_context c1 (cx_nfeatures c) (cx_data c) (cx_model c)) HI') as (h' & c' & A1 & A2 & A3 & A4 & A5 & A6 & A7).
    + exact Ho.
    + exact Hp.
    + cbn [py_heap]. rewrite context_store by (eapply context_live, Hc). rewrite Nat.eqb_refl. reflexivity.
    + reflexivity.
    + exact Hd.
    + cbn [py_objs] in *. rewrite A1. cbn [rbind]. exists h', c'. auto 12.
Qed.

(** What [fit] does: with settings that are all valid and valid categories, the training gets the columns of the matrix and the targets, with the kinds asked for; if it succeeds, every later [predict] of the
    object (until it is trained again or freed) gives the predictions of the trained model, else it gives zeros.  The outcome of [fit] itself is the same in both cases. *)
Theorem C52_fit : forall ops st rs x y params cats g sched cfg, let o := length (py_objs st) in let fit := sk_fit o x y params cats g sched in
  run fresh ops = Ok (st, rs) -> py_follows step no_rows fresh (ops ++ fit) ->
  matrix_for (length (x_cols x)) x -> x_cols x <> [] -> length y = x_rows x ->
  (forall f col, In f cats -> nth_error (x_cols x) f = Some col -> Forall (fun v => check_categorical_value v = Done tt) col) ->
  Forall (fun p => known_param (fst p) = true) params -> configured parse_num (config_new O) params cfg ->
  exists d st1, run st fit = Ok (st1, Object o :: repeat Nothing (length params + 3)) /\ table x y cats d /\ d_max_nbins d = c_max_nbins cfg /\ usable_object st1 o (length (x_cols x)) /\
    forall more st2 rs2 x2, py_follows step no_rows fresh ((ops ++ fit) ++ more) -> Forall (fun op => ~ retrains o op) more -> run st1 more = Ok (st2, rs2) -> matrix_for (length (x_cols x)) x2 ->
      exists st3 ps, run st2 (sk_predict o x2) = Ok (st3, [Nothing; Array (Some ps)]) /\
        match objective_from_name (c_objective cfg), metrics_from_names (c_metrics cfg) with
        | Some kind, Some metrics =>
          match boost_train M dbg cfg d sched kind metrics g with
          | Ok m => forall d2, columns_of x2 d2 -> additive_predict m d2 = Ok ps
          | _ => ps = repeat (nofZ O 0) (x_rows x2)
          end
        | _, _ => ps = repeat (nofZ O 0) (x_rows x2)
        end.
Proof.
  intros ops st rs x y params cats g sched cfg o fit E0 HF Hx Hne Ly Hcat Hknown Hconf.
  destruct (follows_cut _ _ _ _ _ _ HF E0) as (HFa & HFb). destruct (run_inv ops fresh no_rows fresh_inv HFa) as (st' & rs' & E' & _ & HI). rewrite E0 in E'. apply Ok_inj in E'. injection E' as <- <-.
  set (k := fold_left py_after (combine ops rs) no_rows) in *. pose proof Hx as (X1 & _ & X3 & X4 & X5 & X6). assert (0 < length (x_cols x)) as Hw by (destruct (x_cols x); [contradiction|cbn; lia]).
  (* __init__ *)
  set (p := S (length (py_heap st))). set (ob := mk_pyobj (length (x_cols x)) (-1) p). set (c := mk_context (config_new O) (length (x_cols x)) (@None (data O)) (@None (additive_tree O))).
  set (stA := mk_py (py_heap st ++ [Some c]) (py_objs st ++ [ob])).
  assert (step st (PyNew (Z.of_nat (length (x_cols x))) (Z.of_nat (x_rows x))) = Ok (stA, Object o)) as EA.
  { cbn [py_step]. unfold asserted. rewrite !(proj2 (Z.ltb_lt _ _)) by lia. cbn [andb]. rewrite to_cint_small by lia. cbn [api_call]. unfold bb_alloc. rewrite (proj2 (Z.ltb_lt _ _)) by lia. cbn [rassert rbind catch_unwind]. rewrite Nat2Z.id. reflexivity. }
  destruct (py_step_ok O M parse_num dbg known_param st k (PyNew (Z.of_nat (length (x_cols x))) (Z.of_nat (x_rows x))) HI I) as (s1 & r1 & E1 & HIA). rewrite EA in E1. apply Ok_inj in E1. injection E1 as <- <-. cbn [py_after] in HIA.
  assert (nth_error (py_objs stA) o = Some ob) as HoA by (subst stA o; cbn [py_objs]; rewrite nth_error_app2, Nat.sub_diag by lia; reflexivity).
  assert (context_at (py_heap stA) p = Some c) as HcA by (subst stA p; cbn [py_heap]; rewrite context_app, Nat.eqb_refl; reflexivity).
  (* set_config *)
  destruct (config_loop params _ cfg Hconf Hknown stA k o ob c HIA HoA) as (hB & cB & B1 & B2 & B3 & B4 & B5 & B6 & HIB); [subst ob p; cbn; lia|exact HcA|reflexivity|reflexivity|]. cbn [ob po_ptr] in B2.
  (* set_data *)
  destruct (set_data_exact O M parse_num dbg known_param _ k o ob x cats HIB HoA) as (hC & cB' & cC & dC & C1 & C2 & C3 & (C4 & C5 & C6) & C7 & C8 & C9 & C10 & C11 & C12); [subst ob p; cbn; lia|exact X6|exact X1|reflexivity|exact X3|exact X4|exact X5|exact Hcat|].
  cbn [py_heap ob po_ptr] in C2. rewrite B2 in C2. injection C2 as <-. set (ob' := mk_pyobj (po_nfeatures ob) (Z.of_nat (x_rows x)) (po_ptr ob)) in *. cbn [py_objs] in C1.
  assert (pyinv (mk_py hC (upd (py_objs stA) o ob')) (fun q => if q =? o then x_rows x else k q)) as HIC.
  { destruct (py_step_ok O M parse_num dbg known_param _ k (PySetData o x cats) HIB (conj X4 X6)) as (s1 & r1 & E1 & HI1). rewrite C1 in E1. apply Ok_inj in E1. injection E1 as <- <-. exact HI1. }
  assert (nth_error (upd (py_objs stA) o ob') o = Some ob') as HoC.
  { rewrite nth_error_upd, Nat.eqb_refl. rewrite (proj2 (Nat.ltb_lt _ _)) by (apply nth_error_Some; congruence). reflexivity. }
  (* set_target *)
  destruct (call_exact O M parse_num dbg hC (po_ptr ob) cC dC (Z.of_nat (length (x_cols x))) y 0 C3 C8) as (dD & ft & D1 & D2 & D3 & D4 & _ & D6 & D7 & D8).
  { rewrite C5. exact C9. } { rewrite C5. cbn [ob po_nfeatures] in C7. lia. } { lia. } { intros N; contradiction. }
  rewrite Nat2Z.id, C10, <- Ly, firstn_all in D2. rewrite Nat2Z.id in D4, D6. specialize (D6 eq_refl).
  set (cD := mk_context (cx_config cC) (cx_nfeatures cC) (Some dD) (cx_model cC)) in *. set (hD := store hC (po_ptr ob) (Some cD)) in *.
  assert (step (mk_py hC (upd (py_objs stA) o ob')) (PySetTarget o (mk_array true y)) = Ok (mk_py hD (upd (py_objs stA) o ob'), Nothing)) as ED.
  { cbn [py_step]. unfold checked. cbn [py_objs]. rewrite HoC. replace (po_ptr ob' =? 0) with false by reflexivity. unfold py_set_feature, asserted. cbn [a_numt a_values ob' po_nfeatures po_ptr ob py_heap py_objs]. rewrite (proj2 (Z.leb_le 0 _)) by lia. rewrite Z.leb_refl. cbn [andb]. rewrite to_cint_small by lia. cbn [ob po_ptr] in D1. rewrite D1. reflexivity. }
  assert (pyinv (mk_py hD (upd (py_objs stA) o ob')) (fun q => if q =? o then x_rows x else k q)) as HID.
  { destruct (py_step_ok O M parse_num dbg known_param _ _ (PySetTarget o (mk_array true y)) HIC) as (s1 & r1 & E1 & HI1); [cbn [py_allowed a_values]; rewrite Nat.eqb_refl; lia|]. rewrite ED in E1. apply Ok_inj in E1. injection E1 as <- <-. exact HI1. }
  assert (context_at hD p = Some cD) as HcD by (subst hD; cbn [ob po_ptr]; rewrite context_store by (eapply context_live; exact C3); rewrite Nat.eqb_refl; reflexivity).
  (* train *)
  assert (forall i n js, Permutation js (sched i n js)) as Hs.
  { assert (run st (PyNew (Z.of_nat (length (x_cols x))) (Z.of_nat (x_rows x)) :: map (fun p => PySetConfig o (fst p) (snd p)) params ++ [PySetData o x cats; PySetTarget o (mk_array true y)]) = Ok (mk_py hD (upd (py_objs stA) o ob'), Object o :: repeat Nothing (length params) ++ [Nothing; Nothing])) as ER.
    { cbn [py_run]. rewrite EA. cbn [rbind]. erewrite run_paste; [|exact B1|]; [reflexivity|]. cbn [py_run]. cbn [py_objs] in *. rewrite C1. cbn [rbind]. rewrite ED. reflexivity. }
    destruct (follows_cut (PyNew (Z.of_nat (length (x_cols x))) (Z.of_nat (x_rows x)) :: map (fun p => PySetConfig o (fst p) (snd p)) params ++ [PySetData o x cats; PySetTarget o (mk_array true y)]) st (mk_py hD (upd (py_objs stA) o ob')) (Object o :: repeat Nothing (length params) ++ [Nothing; Nothing]) [PyTrain o g sched] k) as (_ & HFt).
    - subst fit. unfold sk_fit in HFb. cbn [app]. rewrite <- List.app_assoc. exact HFb.
    - exact ER.
    - cbn [py_follows] in HFt. destruct HFt as [A _]. exact A. }
  destruct (py_step_ok O M parse_num dbg known_param _ _ (PyTrain o g sched) HID Hs) as (s1 & r1 & E1 & HIE). cbn [py_after] in HIE.
  assert (exists hE cE, s1 = mk_py hE (upd (py_objs stA) o ob') /\ r1 = Nothing /\ context_at hE p = Some cE /\ cx_nfeatures cE = length (x_cols x) /\
    cx_model cE = match objective_from_name (c_objective cfg), metrics_from_names (c_metrics cfg) with Some kind, Some metrics => match boost_train M dbg cfg dD sched kind metrics g with Ok m => Some m | _ => None end | _, _ => None end) as (hE & cE & -> & -> & F3 & F4 & F5).
  { cbn [py_step] in E1. unfold checked in E1. cbn [py_objs] in E1. rewrite HoC in E1. replace (po_ptr ob' =? 0) with false in E1 by reflexivity. apply rbind_ok in E1 as ([hE rE] & E1 & E2). apply Ok_inj in E2. injection E2 as <- <-. exists hE.
    cbn [py_heap ob' ob po_ptr py_objs] in *. assert (cx_nfeatures cD = length (x_cols x)) as NF by (subst cD; cbn [cx_nfeatures]; rewrite C5; exact C7). assert (cx_model cD = None) as MN by (subst cD; cbn [cx_model]; rewrite C6, B6; reflexivity).
    assert (cx_config cD = cfg) as CF by (subst cD; cbn [cx_config]; congruence).
    cbn [api_call] in E1. unfold bb_train in E1. fold p in E1. rewrite (proj2 (deref_ok _ _ _ _) HcD) in E1. cbn [rbind] in E1. replace (cx_data cD) with (Some dD) in E1 by reflexivity. cbn [expect rbind] in E1. rewrite CF in E1.
    destruct (objective_from_name (c_objective cfg)) as [kind|]; cbn [expect rbind catch_unwind] in E1; [|apply Ok_inj in E1; injection E1 as <- <-; exists cD; auto 6].
    destruct (metrics_from_names (c_metrics cfg)) as [ms|]; cbn [expect rbind catch_unwind] in E1; [|apply Ok_inj in E1; injection E1 as <- <-; exists cD; auto 6].
    destruct (boost_train M dbg cfg dD sched kind ms g) as [m| | |]; cbn [rbind catch_unwind] in E1; try discriminate E1; apply Ok_inj in E1; injection E1 as <- <-; [|exists cD; auto 6].
    eexists. split; [reflexivity|]. split; [reflexivity|]. rewrite context_store by (eapply context_live; exact HcD). rewrite Nat.eqb_refl. split; [reflexivity|]. split; [exact NF|reflexivity]. }
  exists dD, (mk_py hE (upd (py_objs stA) o ob')). split; [|split; [|split; [|split]]].
  - subst fit. unfold sk_fit. cbn [py_run]. rewrite EA. cbn [rbind]. erewrite run_paste; [|exact B1|].
    + cbn [rbind]. rewrite repeat_app. reflexivity.
    + cbn [py_run]. rewrite C1. cbn [rbind]. rewrite ED. cbn [rbind]. rewrite E1. reflexivity.
  - assert (cx_nfeatures cC = length (x_cols x)) as NF by (rewrite C5; exact C7). rewrite NF in D8. pose proof D8 as (G1 & G2 & G3 & G4 & G5 & G6 & G7 & G8). destruct C9 as (_ & _ & _ & K4 & _ & K6 & _ & _). rewrite <- C5, NF in K4, K6.
    split; [exact G1|]. split; [congruence|]. split.
    + rewrite D2. apply nth_ext_error. intros j. rewrite nth_error_upd, K4. destruct (Nat.lt_trichotomy j (length (x_cols x))) as [L|[L|L]].
      * rewrite (proj2 (Nat.eqb_neq (length (x_cols x)) j)) by lia. cbn [andb]. rewrite nth_error_app1 by exact L. destruct (C12 j ltac:(lia)) as (Q & _). apply (Q L).
      * subst j. rewrite Nat.eqb_refl, (proj2 (Nat.ltb_lt _ _)) by lia. cbn [andb]. rewrite nth_error_app2, Nat.sub_diag by lia. reflexivity.
      * rewrite (proj2 (Nat.eqb_neq (length (x_cols x)) j)) by lia. cbn [andb]. rewrite (proj2 (nth_error_None (x_cols x ++ [y]) j)) by (rewrite app_length; cbn [length]; lia). apply nth_error_None. lia.
    + intros f Hf. rewrite D4, nth_error_upd, K6. destruct (C12 f Hf) as (Q1 & Q2). destruct (Nat.eqb_spec (length (x_cols x)) f) as [<-|N].
      * rewrite (proj2 (Nat.ltb_lt _ _)) by lia. cbn [andb]. exists ft. split; [reflexivity|]. specialize (Q2 (le_n _)). rewrite Q2 in D6. injection D6 as <-. split; [intros _ (_ & L); lia|reflexivity].
      * cbn [andb]. destruct (Q1 ltac:(lia)) as (_ & ft' & Q3 & Q4). exists ft'. split; [exact Q3|]. rewrite Q4. split; [intros H1 (H2 & _); auto|]. intros H1 H2. apply H1. split; [exact H2|lia].
  - rewrite D3, C11. congruence.
  - exists ob'. split; [exact HoC|]. split; [discriminate|reflexivity].
  - intros more st2 rs2 x2 HF2 Hn E2 Hx2.
    assert (run st fit = Ok (mk_py hE (upd (py_objs stA) o ob'), Object o :: repeat Nothing (length params + 3))) as EFit.
    { subst fit. unfold sk_fit. cbn [py_run]. rewrite EA. cbn [rbind]. erewrite run_paste; [|exact B1|].
      + cbn [rbind]. rewrite repeat_app. reflexivity.
      + cbn [py_run]. rewrite C1. cbn [rbind]. rewrite ED. cbn [rbind]. rewrite E1. reflexivity. }
    destruct (follows_cut (ops ++ fit) fresh _ _ more no_rows HF2 (run_paste _ _ _ _ _ _ _ E0 EFit)) as (HFx & HF3). destruct (run_inv (ops ++ fit) fresh no_rows fresh_inv HFx) as (sx & rx & Ex & _ & HIx). rewrite (run_paste _ _ _ _ _ _ _ E0 EFit) in Ex. apply Ok_inj in Ex. injection Ex as <- <-.
    destruct (run_keeps _ _ _ o ob' HIx HF3 HoC Hn _ _ E2) as (ob2 & G1 & G2 & G3 & G4). destruct (G4 cE F3) as (c2 & J1 & J2 & J3).
    destruct (run_inv more _ _ HIx HF3) as (s & r & E3 & _ & HI2). change (run (mk_py hE (upd (py_objs stA) o ob')) more = Ok (s, r)) in E3. rewrite E2 in E3. apply Ok_inj in E3. injection E3 as <- <-.
    destruct (predict_state st2 _ o ob2 c2 x2 HI2 G1) as (st3 & EP); [rewrite G3; discriminate|rewrite G2; exact Hx2|rewrite G3; exact J1|]. exists st3. eexists. split; [exact EP|]. rewrite J3, F5.
    assert (map (row_prediction None) (rows_of x2) = repeat (nofZ O 0) (x_rows x2)) as EZ.
    { replace (x_rows x2) with (length (rows_of x2)) by (unfold rows_of; rewrite map_length, seq_length; reflexivity). clear. induction (rows_of x2) as [|r t IH]; [reflexivity|]. cbn [length repeat map]. f_equal. exact IH. }
    destruct (objective_from_name (c_objective cfg)) as [kind|]; [|exact EZ]. destruct (metrics_from_names (c_metrics cfg)) as [ms|]; [|exact EZ]. destruct (boost_train M dbg cfg dD sched kind ms g) as [m| | |]; try exact EZ.
    intros d2 Hd2. destruct HI2 as (l2 & (_ & HC2) & _). destruct (HC2 _ _ J1) as (_ & HM). rewrite J3, F5 in HM. destruct Hx2 as (_ & Y2 & _ & _ & _ & Y6). apply (predict_columns (cx_nfeatures c2) m x2 d2 (HM m eq_refl)); [|exact Y6|exact Hd2]. rewrite J2, F4. exact Y2.
Qed.

(** * What does not hold *)
(** A matrix without rows, given to an object that has data, is not noticed: the values of its columns are read past their end. *)
Theorem C52_empty_refuted : forall ops st rs o nf x1 cats1 st1 cats2 x, py_follows step no_rows fresh ops -> run fresh ops = Ok (st, rs) -> usable_object st o nf -> 0 < nf -> matrix_for nf x1 ->
  (forall f col, In f cats1 -> nth_error (x_cols x1) f = Some col -> Forall (fun v => check_categorical_value v = Done tt) col) -> step st (PySetData o x1 cats1) = Ok (st1, Nothing) ->
  x_numt x = true -> length (x_cols x) = nf -> x_rows x = 0 -> rectangular x -> step st1 (PySetData o x cats2) = UB.
Proof.
  intros ops st rs o nf x1 cats1 st1 cats2 x HF E (ob & Ho & Hp & <-) Hnf (X1 & X2 & X3 & X4 & X5 & X6) Hcat ES Y1 Y2 Y3 Y4.
  destruct (run_inv ops fresh no_rows fresh_inv HF) as (st' & rs' & E' & _ & HI). rewrite E in E'. apply Ok_inj in E'. injection E' as <- <-.
  destruct (set_data_exact O M parse_num dbg known_param st _ o ob x1 cats1 HI Ho Hp X6 X1 X2 X3 X4 X5 Hcat) as (h' & c & c' & d & E1 & A1 & A2 & (A3 & A4 & A5) & A6 & A7 & A8 & A9 & A10 & A11). rewrite ES in E1. apply Ok_inj in E1. injection E1 as ->.
  cbn [py_step]. unfold checked. cbn [py_objs]. rewrite nth_error_upd, Nat.eqb_refl. rewrite (proj2 (Nat.ltb_lt _ _)) by (apply nth_error_Some; congruence). cbn [andb po_ptr]. rewrite (proj2 (Nat.eqb_neq _ _) Hp). unfold py_set_data, asserted. cbn [po_nfeatures po_ptr py_heap]. rewrite Y1, Y2, Nat.eqb_refl. cbn [andb]. rewrite Y3.
  replace (to_cint (Z.of_nat 0)) with 0%Z by reflexivity. cbn [api_call]. unfold bb_refresh_data. cbn [rassert Z.ltb Z.compare rbind catch_unwind].
  destruct (po_nfeatures ob) as [|nf'] eqn:Enf; [lia|]. cbn [seq foldM]. destruct (x_cols x) as [|col cols] eqn:Ec; [discriminate Y2|]. unfold idx. cbn [nth_error rbind].
  assert (length col = 0) as Lc by (unfold rectangular in Y4; rewrite Ec in Y4; inversion Y4; congruence).
  unfold py_set_feature, asserted. cbn [a_numt a_values po_nfeatures po_ptr]. rewrite (proj2 (Z.leb_le 0 _)) by lia. rewrite (proj2 (Z.leb_le _ (Z.of_nat (S nf')))) by lia. cbn [andb]. unfold set_obj. cbn [py_heap].
  destruct (C50_short_refuted O M parse_num dbg h' (po_ptr ob) c' d A2 A7) as (Q & _). rewrite Q; [reflexivity| |].
  - replace (to_cint (Z.of_nat 0)) with 0%Z by reflexivity. lia.
  - lia.
Qed.
(** So is a column with fewer values than there are rows, such as a short target. *)
Theorem C52_short_refuted : forall ops st rs o nf x1 cats1 st1 y, py_follows step no_rows fresh ops -> run fresh ops = Ok (st, rs) -> usable_object st o nf -> matrix_for nf x1 ->
  (forall f col, In f cats1 -> nth_error (x_cols x1) f = Some col -> Forall (fun v => check_categorical_value v = Done tt) col) -> step st (PySetData o x1 cats1) = Ok (st1, Nothing) ->
  length y < x_rows x1 -> step st1 (PySetTarget o (mk_array true y)) = UB.
Proof.
  intros ops st rs o nf x1 cats1 st1 y HF E (ob & Ho & Hp & <-) (X1 & X2 & X3 & X4 & X5 & X6) Hcat ES Ly.
  destruct (run_inv ops fresh no_rows fresh_inv HF) as (st' & rs' & E' & _ & HI). rewrite E in E'. apply Ok_inj in E'. injection E' as <- <-.
  destruct (set_data_exact O M parse_num dbg known_param st _ o ob x1 cats1 HI Ho Hp X6 X1 X2 X3 X4 X5 Hcat) as (h' & c & c' & d & E1 & A1 & A2 & (A3 & A4 & A5) & A6 & A7 & A8 & A9 & A10 & A11). rewrite ES in E1. apply Ok_inj in E1. injection E1 as ->.
  cbn [py_step]. unfold checked. cbn [py_objs]. rewrite nth_error_upd, Nat.eqb_refl. rewrite (proj2 (Nat.ltb_lt _ _)) by (apply nth_error_Some; congruence). cbn [andb po_ptr]. rewrite (proj2 (Nat.eqb_neq _ _) Hp). unfold py_set_feature, asserted. cbn [a_numt a_values po_nfeatures po_ptr py_heap].
  rewrite (proj2 (Z.leb_le 0 _)) by lia. rewrite Z.leb_refl. cbn [andb]. destruct (C50_short_refuted O M parse_num dbg h' (po_ptr ob) c' d A2 A7) as (Q & _). rewrite Q; [reflexivity| |lia]. rewrite to_cint_small by lia. rewrite A4. lia.
Qed.
(** The estimator's [fit] converts its matrix to the element type of the library, its [predict] does not: a matrix of another type (float64, the usual one) is fitted, and raises when it is predicted. *)
Theorem C52_dtype_refuted : forall st o nf x, usable_object st o nf -> x_numt x = false -> step st (PySetData o x []) = Ok (st, Raised).
Proof. intros st o nf x (ob & Ho & Hp & _) Hx. cbn [py_step]. unfold checked. rewrite Ho, (proj2 (Nat.eqb_neq _ _) Hp). unfold py_set_data, asserted. rewrite Hx. reflexivity. Qed.
(** Copies share the context.  When both an object and its copy are collected the context is freed twice, in either order; and when the object is given a matrix with more rows,
    the predictions of the copy are written past the end of its array. *)
Lemma set_feature_objs h objs objs' ob f a c st1 r : py_set_feature M parse_num dbg (mk_py h objs) ob f a c = Ok (st1, r) ->
  py_objs st1 = objs /\ py_set_feature M parse_num dbg (mk_py h objs') ob f a c = Ok (mk_py (py_heap st1) objs', r).
Proof.
  unfold py_set_feature, asserted. destruct (a_numt a && _ && _); [|intros E; apply Ok_inj in E; injection E as <- <-; auto]. cbn [py_heap py_objs]. intros E. apply rbind_ok in E as ([h1 r1] & E1 & E). apply Ok_inj in E. injection E as <- <-. rewrite E1. auto.
Qed.
Lemma set_columns_objs x ob cats : forall fs h objs objs' st1,
  foldM (fun st f => let* col := idx (x_cols x) f in let* (st', _) := py_set_feature M parse_num dbg st ob (Z.of_nat f) (mk_array (x_numt x) col) (existsb (Nat.eqb f) cats) in Ok st') fs (mk_py h objs) = Ok st1 ->
  py_objs st1 = objs /\ foldM (fun st f => let* col := idx (x_cols x) f in let* (st', _) := py_set_feature M parse_num dbg st ob (Z.of_nat f) (mk_array (x_numt x) col) (existsb (Nat.eqb f) cats) in Ok st') fs (mk_py h objs') = Ok (mk_py (py_heap st1) objs').
Proof.
  induction fs as [|f fs IH]; intros h objs objs' st1 E; cbn [foldM] in *; [apply Ok_inj in E; subst st1; auto|]. apply rbind_ok in E as (s1 & E1 & E). apply rbind_ok in E1 as (col & Ec & E1). apply rbind_ok in E1 as ([s2 r] & E1 & E2). apply Ok_inj in E2. subst s2.
  destruct (set_feature_objs _ _ objs' _ _ _ _ _ _ E1) as (Eo & E1'). destruct s1 as [h1 o1]. cbn [py_objs py_heap] in *. subst o1. rewrite Ec. cbn [rbind]. rewrite E1'. cbn [rbind]. apply IH. exact E.
Qed.
Lemma set_data_objs h objs objs' o ob x cats h1 : nth_error objs o = Some ob -> po_ptr ob <> 0 -> nth_error objs' o = Some ob -> step (mk_py h objs) (PySetData o x cats) = Ok (mk_py h1 (upd objs o (mk_pyobj (po_nfeatures ob) (Z.of_nat (x_rows x)) (po_ptr ob))), Nothing) ->
  step (mk_py h objs') (PySetData o x cats) = Ok (mk_py h1 (upd objs' o (mk_pyobj (po_nfeatures ob) (Z.of_nat (x_rows x)) (po_ptr ob))), Nothing).
Proof.
  intros Ho Hp Ho'. cbn [py_step]. unfold checked. cbn [py_objs]. rewrite Ho, Ho'. rewrite (proj2 (Nat.eqb_neq _ _) Hp). unfold py_set_data, asserted. destruct (x_numt x && _); [|intros E; apply Ok_inj in E; discriminate].
  cbn [py_heap]. unfold set_obj. cbn [py_objs]. intros E. apply rbind_ok in E as ([h2 r] & E1 & E). rewrite E1. cbn [rbind]. apply rbind_ok in E as (s1 & E2 & E).
  destruct (set_columns_objs _ _ _ _ _ _ (upd objs' o (mk_pyobj (po_nfeatures ob) (Z.of_nat (x_rows x)) (po_ptr ob))) _ E2) as (_ & E3). rewrite E3. apply Ok_inj in E. injection E as ->. reflexivity.
Qed.
Lemma del_step h objs o ob : nth_error objs o = Some ob -> po_ptr ob <> 0 -> context_at h (po_ptr ob) <> None ->
  exists st1, step (mk_py h objs) (PyDel o) = Ok (st1, Nothing) /\ context_at (py_heap st1) (po_ptr ob) = None /\ py_objs st1 = upd objs o (mk_pyobj (po_nfeatures ob) (po_nexamples ob) 0) /\ length (py_heap st1) = length h.
Proof.
  intros Ho Hp Hc. destruct (context_at h (po_ptr ob)) as [c|] eqn:Ec; [|congruence]. cbn [py_step py_objs]. rewrite Ho, (proj2 (Nat.eqb_neq _ _) Hp). unfold py_dealloc. cbn [py_heap api_call]. unfold bb_dealloc. rewrite (proj2 (deref_ok _ _ _ _) Ec). cbn [rbind].
  eexists. split; [reflexivity|]. unfold set_obj. cbn [py_heap py_objs]. pose proof (context_live _ _ _ _ Ec) as Lp. split; [|split; [reflexivity|unfold store; apply upd_length]].
  unfold context_at, store. destruct (po_ptr ob) as [|p]; [contradiction|]. replace (S p - 1) with p by lia. rewrite nth_error_upd, Nat.eqb_refl. rewrite (proj2 (Nat.ltb_lt p (length h))) by lia. reflexivity.
Qed.
Theorem C52_copy_refuted : forall ops st rs o nf, py_follows step no_rows fresh ops -> run fresh ops = Ok (st, rs) -> usable_object st o nf ->
  let c := length (py_objs st) in exists st', py_copy st o = (st', Object c) /\ usable_object st' o nf /\ usable_object st' c nf /\
  (exists st1, step st' (PyDel o) = Ok (st1, Nothing) /\ step st1 (PyDel c) = UB) /\ (exists st1, step st' (PyDel c) = Ok (st1, Nothing) /\ step st1 (PyDel o) = UB) /\
  forall ob cx x, nth_error (py_objs st) o = Some ob -> context_at (py_heap st) (po_ptr ob) = Some cx -> cx_model cx <> None -> matrix_for nf x -> (0 < po_nexamples ob < Z.of_nat (x_rows x))%Z ->
    exists st1, step st' (PySetData o x []) = Ok (st1, Nothing) /\ step st1 (PyPredict c) = UB.
Proof.
  intros ops st rs o nf HF E (ob & Ho & Hp & <-) c. destruct (run_inv ops fresh no_rows fresh_inv HF) as (st' & rs' & E' & _ & HI). rewrite E in E'. apply Ok_inj in E'. injection E' as <- <-.
  pose proof HI as (l & (_ & _) & (P1 & _ & _)). destruct (P1 o ob Ho) as (_ & A2). destruct (A2 Hp) as (_ & _ & cx0 & B3 & _). destruct st as [h objs]. cbn [py_heap py_objs] in *.
  assert (o < length objs) as Hlo by (apply nth_error_Some; congruence).
  exists (mk_py h (objs ++ [ob])). unfold py_copy. cbn [py_heap py_objs]. rewrite Ho, (proj2 (Nat.eqb_neq _ _) Hp). split; [reflexivity|].
  assert (nth_error (objs ++ [ob]) o = Some ob) as Ho' by (rewrite nth_error_app1; assumption). assert (nth_error (objs ++ [ob]) c = Some ob) as Hc' by (subst c; rewrite nth_error_app2, Nat.sub_diag by lia; reflexivity).
  split; [exists ob; auto|]. split; [exists ob; auto|].
  assert (forall a b, a <> b -> nth_error (objs ++ [ob]) a = Some ob -> nth_error (objs ++ [ob]) b = Some ob -> exists st1, step (mk_py h (objs ++ [ob])) (PyDel a) = Ok (st1, Nothing) /\ step st1 (PyDel b) = UB) as HD.
  { intros a b Hab Ha Hb. destruct (del_step h (objs ++ [ob]) a ob Ha Hp ltac:(congruence)) as (st1 & E1 & E2 & E3 & E4). exists st1. split; [exact E1|]. cbn [py_step]. rewrite E3, nth_error_upd. replace (a =? b) with false by (symmetry; apply Nat.eqb_neq, Hab). cbn [andb]. rewrite Hb, (proj2 (Nat.eqb_neq _ _) Hp).
    unfold py_dealloc. rewrite (C38_freed_refuted O M parse_num dbg (py_heap st1) (po_ptr ob)); [reflexivity| |exact E2|reflexivity|discriminate]. pose proof (context_live _ _ _ _ B3). lia. }
  split; [apply HD; [lia|assumption|assumption]|]. split; [apply HD; [lia|assumption|assumption]|].
  intros ob' cx x Hob Hcx Hm Hx Hr. cbn [py_objs py_heap] in Hob, Hcx. injection Hob as <-. rewrite B3 in Hcx. injection Hcx as <-. destruct Hx as (X1 & X2 & X3 & X4 & X5 & X6).
  destruct (set_data_exact O M parse_num dbg known_param (mk_py h objs) _ o ob x [] HI Ho Hp X6 X1 X2 X3 X4 X5) as (h' & c0 & c' & d & E1 & A1 & A2' & (A3 & A4 & A5) & A6 & A7 & A8 & A9 & A10 & A11); [intros f col []|]. cbn [py_heap py_objs] in *. rewrite B3 in A1. injection A1 as <-.
  pose proof (set_data_objs h objs (objs ++ [ob]) o ob x [] h' Ho Hp Ho' E1) as E2. eexists. split; [exact E2|]. cbn [py_step]. unfold checked. cbn [py_objs py_heap]. rewrite nth_error_upd. replace (o =? c) with false by (symmetry; apply Nat.eqb_neq; lia). cbn [andb]. rewrite Hc', (proj2 (Nat.eqb_neq _ _) Hp).
  unfold asserted. rewrite (proj2 (Z.ltb_lt _ _)) by lia. destruct (C50_short_refuted O M parse_num dbg h' (po_ptr ob) c' d A2' A7) as (_ & Q). rewrite Q; [reflexivity|congruence|rewrite repeat_length; lia].
Qed.
End Py.

(** * Examples *)
(* a check of the rules, except for the schedules *)
Definition rectangularb {O} (x : matrix O) : bool := forallb (fun col => length col =? x_rows x) (x_cols x).
Definition py_allowedb {O} (k : given) (op : pyop O) : bool :=
  match op with
  | PySetFeature o _ a _ | PySetTarget o a => k o <=? length (a_values a)
  | PySetData _ x _ => (0 <? x_rows x) && rectangularb x
  | _ => true
  end.
Fixpoint py_followsb {O} (step : pystate O -> pyop O -> res (pystate O * outcome O)) (k : given) (st : pystate O) (ops : list (pyop O)) : bool :=
  match ops with
  | [] => true
  | op :: t => py_allowedb k op && match step st op with Ok (st', r) => py_followsb step (py_after k (op, r)) st' t | _ => true end
  end.
Lemma rectangularb_ok {O} (x : matrix O) : rectangularb x = true -> rectangular x.
Proof. unfold rectangularb, rectangular. intros H. apply Forall_forall. intros c Hc. rewrite forallb_forall in H. apply Nat.eqb_eq, H, Hc. Qed.
Lemma py_followsb_ok {O} step : forall ops k (st : pystate O), Forall (fun op => match op with PyTrain _ _ s => forall i n js, Permutation js (s i n js) | _ => True end) ops -> py_followsb step k st ops = true -> py_follows step k st ops.
Proof.
  induction ops as [|op ops IH]; intros k st Hs H; [exact I|]. cbn [py_followsb py_follows] in *. apply andb_prop in H as [H1 H2]. inversion_clear Hs as [|? ? Hc Hs']. split.
  - destruct op; cbn [py_allowed py_allowedb] in *; try exact I; try (apply Nat.leb_le; exact H1); [|exact Hc]. apply andb_prop in H1 as [H1 H3]. split; [apply Nat.ltb_lt, H1|apply rectangularb_ok, H3].
  - intros st' r E. rewrite E in H2. apply IH; assumption.
Qed.
Local Open Scope string_scope.
Definition py_known (name : string) : bool := match lookup kinds name with Some _ => true | None => false end.
Definition fit_x : matrix f32ops := @mk_matrix f32ops true 4 [[fz 0; fz 1; fz 2; fz 1]; [fz 1; fz 1; fz 0; fz 0]].
Definition fit_y : list f32 := [fz 1; fz 2; fz 3; fz 2].
Definition fit_params : list (string * string) := [("niterations", "3"); ("max_tree_depth", "2"); ("random_seed", "7")].
Definition new_x : matrix f32ops := @mk_matrix f32ops true 3 [[fz 2; fz 0; fz 1]; [fz 0; fz 1; fz 1]].
Definition fit_prog : list (pyop f32ops) := sk_fit 0 fit_x fit_y fit_params [0; 1]%nat ex_rng bst_sched.
Local Open Scope nat_scope.
Local Open Scope list_scope.
(* predictions, a second object, a float64 matrix, an invalid category, an object that is freed twice *)
Definition more_prog : list (pyop f32ops) :=
  sk_predict 0 fit_x ++ [PyNew 0 1; PyNew 1 1; PyTrain 1 ex_rng bst_sched; PySetData 0 (@mk_matrix f32ops false 1 [[fz 1]; [fz 1]]) []; PySetData 0 (@mk_matrix f32ops true 1 [[fz (-1)]; [fz 1]]) [0]; PyPredict 1; PyDealloc 1; PyDealloc 1; PyDel 1; PyPredict 1].
Definition kind_of (r : outcome f32ops) : nat := match r with Raised => 0 | Nothing => 1 | Object _ => 2 | Array _ => 3 end.
Definition values_of (r : outcome f32ops) : list f32 := match r with Array (Some l) => l | _ => [] end.
Notation ex_step := (py_step bst_math some_num false py_known).
Notation ex_run := (py_run bst_math some_num false py_known).
Lemma ex_py_follows : py_follows ex_step no_rows fresh (fit_prog ++ more_prog).
Proof.
  apply py_followsb_ok; [|vm_compute; reflexivity]. unfold fit_prog, more_prog, sk_fit, sk_predict, fit_params. cbn [map app]. repeat (apply Forall_cons; [first [exact I|exact (fun _ => rev_sched_perm)]|]). constructor.
Qed.
(** The program of a user: it runs to its end; the predictions for the new matrix are those of the rows of the old one, by their values. *)
Example C52_ex : py_follows ex_step no_rows fresh (fit_prog ++ more_prog) /\ Forall (fun op => ~ retrains 0 op) more_prog /\ matrix_for 2 fit_x /\ matrix_for 2 new_x /\
  match ex_run fresh (fit_prog ++ more_prog ++ sk_predict 0 new_x) with
  | Ok (st, rs) => map kind_of rs = [2; 1; 1; 1; 1; 1; 1; 1; 3; 0; 2; 1; 0; 1; 0; 1; 0; 1; 0; 1; 3] /\ length (py_objs st) = 2 /\ num_eqb (values_of (nth 8 rs Nothing)) [fz 1; fz 2; fz 3; fz 2] = true /\ num_eqb (values_of (nth 20 rs Nothing)) [fz 3; fz 1; fz 2] = true
  | _ => False
  end.
Proof.
  split; [exact ex_py_follows|]. split; [|split; [|split]].
  - unfold more_prog, sk_predict. cbn [app]. repeat (apply Forall_cons; [cbn; discriminate || (intros []) || auto|]). constructor.
  - unfold matrix_for. cbn [fit_x x_numt x_cols x_rows length]. split; [reflexivity|]. split; [reflexivity|]. split; [lia|]. split; [lia|]. split; [lia|]. apply rectangularb_ok. vm_compute. reflexivity.
  - unfold matrix_for. cbn [new_x x_numt x_cols x_rows length]. split; [reflexivity|]. split; [reflexivity|]. split; [lia|]. split; [lia|]. split; [lia|]. apply rectangularb_ok. vm_compute. reflexivity.
  - vm_compute. repeat split.
Qed.
(** The hypotheses of C52_fit hold for its [fit]: the settings are valid, and so are the categories. *)
Fixpoint config_all {O} (parse_num : string -> option (num O)) (c : config O) (params : list (string * string)) : option (config O) :=
  match params with
  | [] => Some c
  | (name, text) :: t => if utf8_valid name && utf8_valid text then match parse_record parse_num c name text with Done c' => config_all parse_num c' t | Err => None end else None
  end.
Lemma config_all_ok {O} (parse_num : string -> option (num O)) : forall params c cfg, config_all parse_num c params = Some cfg -> configured parse_num c params cfg.
Proof.
  induction params as [|[name text] t IH]; intros c cfg E; cbn [config_all] in E; [injection E as <-; constructor|]. destruct (utf8_valid name && utf8_valid text) eqn:U; [|discriminate]. apply andb_prop in U as [U1 U2]. destruct (parse_record parse_num c name text) as [c'|] eqn:P; [|discriminate]. econstructor; eauto.
Qed.
Example C52_ex_fit : (exists cfg, configured some_num (config_new f32ops) fit_params cfg) /\ Forall (fun p => py_known (fst p) = true) fit_params /\ x_cols fit_x <> [] /\ length fit_y = x_rows fit_x /\
  forall f col, In f [0; 1] -> nth_error (x_cols fit_x) f = Some col -> Forall (fun v => @check_categorical_value f32ops v = Done tt) col.
Proof.
  split; [|split; [|split; [|split]]].
  - destruct (config_all some_num (config_new f32ops) fit_params) as [cfg|] eqn:E; [exists cfg; apply config_all_ok, E|]. assert (match config_all some_num (config_new f32ops) fit_params with Some _ => true | None => false end = true) as K by (vm_compute; reflexivity). rewrite E in K. discriminate.
  - repeat constructor.
  - discriminate.
  - reflexivity.
  - intros f col [<-|[<-|[]]] E; cbn [fit_x x_cols nth_error] in E; injection E as <-; repeat (apply Forall_cons; [vm_compute; reflexivity|]); constructor.
Qed.

(** The hypotheses of C52_copy_refuted: after [fit], object 0 has a model and 4 rows; a matrix with 5 rows. *)
Example C52_copy_ex : py_follows ex_step no_rows fresh fit_prog /\ matrix_for 2 (@mk_matrix f32ops true 5 [repeat (fz 1) 5; repeat (fz 2) 5]) /\
  match ex_run fresh fit_prog with
  | Ok (st, _) => match nth_error (py_objs st) 0 with
      | Some ob => po_ptr ob = 1 /\ po_nfeatures ob = 2 /\ po_nexamples ob = 4%Z /\ match context_at (py_heap st) (po_ptr ob) with Some cx => match cx_model cx with Some _ => true | None => false end | None => false end = true
      | None => False
      end
  | _ => False
  end.
Proof.
  split; [|split].
  - apply py_followsb_ok; [|vm_compute; reflexivity]. unfold fit_prog, sk_fit, fit_params. cbn [map app]. repeat (apply Forall_cons; [first [exact I|exact (fun _ => rev_sched_perm)]|]). constructor.
  - unfold matrix_for. cbn [x_numt x_cols x_rows length]. split; [reflexivity|]. split; [reflexivity|]. split; [lia|]. split; [lia|]. split; [lia|]. apply rectangularb_ok. vm_compute. reflexivity.
  - vm_compute. repeat split.
Qed.

Print Assumptions C52_safe. Print Assumptions C52_freed. Print Assumptions C52_predict. Print Assumptions C52_fit. Print Assumptions C52_empty_refuted. Print Assumptions C52_short_refuted. Print Assumptions C52_dtype_refuted. Print Assumptions C52_copy_refuted.
