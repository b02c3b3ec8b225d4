(** The C API (C38). *)
From Coq Require Import String Lia ZArith.
From Verif Require Import Base BaseProofs Num F32 DataModel Config ConfigModel ConfigSpec ConfigProofs ConfigProps TreeModel LearnerModel DatasetModel ObjectiveModel MetricModel BoostModel DatasetProps BoostProps
  CapiModel CapiSpec.

Section Capi.
Variable O : numops.
Variable M : mathops O.
Variable parse_num : string -> option (num O).
Variable dbg : bool.
Notation api := (api_call M parse_num dbg).
Notation run := (api_run M parse_num dbg).

Lemma deref_ok : forall (h : heap O) p c, deref h p = Ok c <-> context_at h p = Some c.
Proof.
  intros h [|i] c; cbn; [split; discriminate|]. destruct (nth_error h i) as [[x|]|]; split; intros E; try discriminate; congruence.
Qed.
Lemma context_store : forall (h : heap O) p c q, 0 < p <= length h -> context_at (store h p c) q = if q =? p then c else context_at h q.
Proof.
  intros h p c [|j] L; cbn [context_at]; [destruct p; [lia | reflexivity]|]. unfold store. destruct p as [|i]; [lia|]. cbn [Nat.sub]. rewrite Nat.sub_0_r.
  rewrite nth_error_upd. cbn [Nat.eqb]. rewrite (Nat.eqb_sym j i). destruct (i =? j) eqn:E; [|reflexivity]. apply Nat.eqb_eq in E; subst j.
  rewrite (proj2 (Nat.ltb_lt _ _)) by lia. reflexivity.
Qed.
Lemma context_live : forall (h : heap O) p c, context_at h p = Some c -> 0 < p <= length h.
Proof. intros h [|i] c; cbn; [discriminate|]. destruct (nth_error h i) eqn:E; [|discriminate]. intros _. assert (i < length h) by (apply nth_error_Some; congruence). lia. Qed.
Lemma context_app : forall (h : heap O) x q, context_at (h ++ [x]) q = if q =? S (length h) then x else context_at h q.
Proof.
  intros h x [|j]; cbn [context_at]; [reflexivity|]. cbn [Nat.eqb]. destruct (j =? length h) eqn:E.
  - apply Nat.eqb_eq in E; subst j. rewrite nth_error_app2, Nat.sub_diag by lia. reflexivity.
  - apply Nat.eqb_neq in E. destruct (Nat.lt_ge_cases j (length h)) as [L|L]; [rewrite nth_error_app1 by exact L; reflexivity|].
    rewrite nth_error_app2 by exact L. rewrite (proj2 (nth_error_None h j)) by lia. destruct (j - length h) as [|k] eqn:K; [lia|]. destruct k; reflexivity.
Qed.

Lemma catch_ok : forall (h h' : heap O) e r m, catch_unwind h e m = Ok (h', r) -> (m = Panic /\ h' = h /\ r = e) \/ m = Ok (h', r).
Proof. intros h h' e r [x| | |] E; cbn in E; try discriminate; [right; exact E | left; injection E; auto]. Qed.

(** How each call that replies changes the contexts. *)
Lemma store_ok : forall (h : heap O) p x, 0 < p <= length h -> forall q, q <> p -> context_at (store h p x) q = context_at h q.
Proof. intros h p x L q N. rewrite context_store by exact L. rewrite (proj2 (Nat.eqb_neq q p) N). reflexivity. Qed.
Lemma store_at : forall (h : heap O) p x, 0 < p <= length h -> context_at (store h p x) p = x.
Proof. intros h p x L. rewrite context_store, Nat.eqb_refl by exact L. reflexivity. Qed.

Inductive effect (h : heap O) : call O -> heap O -> reply O -> Prop :=
  | eff_nbytes : effect h Numt_nbytes h (Code 4)
  | eff_alloc_fail : forall n, (n <= 0)%Z -> effect h (Alloc n) h (Pointer 0)
  | eff_alloc : forall n, (0 < n)%Z -> effect h (Alloc n) (h ++ [Some (mk_context (config_new O) (Z.to_nat n) None None)]) (Pointer (S (length h)))
  | eff_fail : forall c p, about c = Some p -> (forall o, c <> Predict p o) -> effect h c h (Code (-1))
  | eff_dealloc : forall p c, context_at h p = Some c -> effect h (Dealloc p) (store h p None) (Code 0)
  | eff_refresh : forall p c n, context_at h p = Some c -> (0 < n)%Z ->
      effect h (Refresh_data p n) (store h p (Some (mk_context (cx_config c) (cx_nfeatures c) (Some (data_empty O (dcfg (cx_config c)) (cx_nfeatures c) (Z.to_nat n))) (cx_model c)))) (Code 0)
  | eff_feature : forall p c f col cat d d' r, context_at h p = Some c -> (0 <= f <= Z.of_nat (cx_nfeatures c))%Z -> cx_data c = Some d -> d_nexamples d <= length col ->
      set_feature_data d (Z.to_nat f) (firstn (d_nexamples d) col) (negb (cat =? 0)%Z) = Ok (d', r) ->
      effect h (Set_feature_data p f col cat) (store h p (Some (mk_context (cx_config c) (cx_nfeatures c) (Some d') (cx_model c)))) (Code (match r with Done _ => 0 | Err => -1 end))
  | eff_config : forall p c name text cfg, context_at h p = Some c -> cx_data c = None -> utf8_valid name = true -> utf8_valid text = true -> parse_record parse_num (cx_config c) name text = Done cfg ->
      effect h (Set_config_field p name text) (store h p (Some (mk_context cfg (cx_nfeatures c) (cx_data c) (cx_model c)))) (Code 0)
  | eff_train : forall p c d g sched kind metrics m, context_at h p = Some c -> cx_data c = Some d -> objective_from_name (c_objective (cx_config c)) = Some kind ->
      metrics_from_names (c_metrics (cx_config c)) = Some metrics -> boost_train M dbg (cx_config c) d sched kind metrics g = Ok m ->
      effect h (Train p g sched) (store h p (Some (mk_context (cx_config c) (cx_nfeatures c) (cx_data c) (Some m)))) (Code 0)
  | eff_predict_fail : forall p out, (forall c, context_at h p = Some c -> cx_data c = None \/ cx_model c = None) -> effect h (Predict p out) h (Filled (-1) (Some out))
  | eff_predict_panic : forall p out c d m, context_at h p = Some c -> cx_data c = Some d -> cx_model c = Some m -> d_nexamples d <= length out ->
      additive_predict_buf m d (firstn (d_nexamples d) out) = Panic -> effect h (Predict p out) h (Filled (-1) None)
  | eff_predict : forall p out c d m ps, context_at h p = Some c -> cx_data c = Some d -> cx_model c = Some m -> d_nexamples d <= length out ->
      additive_predict_buf m d (firstn (d_nexamples d) out) = Ok ps -> effect h (Predict p out) h (Filled 0 (Some (ps ++ skipn (d_nexamples d) out))).

Lemma expect_ok : forall A (o : option A) a, expect o = Ok a <-> o = Some a.
Proof. intros A [x|] a; cbn; split; intros E; try discriminate; congruence. Qed.
Lemma raw_ok : forall (l : list (num O)) n x, raw_parts l n = Ok x <-> n <= length l /\ x = firstn n l.
Proof.
  intros l n x. unfold raw_parts. destruct (n <=? length l) eqn:E; [apply Nat.leb_le in E | apply Nat.leb_gt in E]; split.
  - intros H; injection H as <-; auto.
  - intros (_ & ->); reflexivity.
  - discriminate.
  - intros (L & _); lia.
Qed.
Lemma api_effect : forall h c h' r, api h c = Ok (h', r) -> effect h c h' r.
Proof.
  intros h c h' r E. destruct c as [|n|p|p n|p f col cat|p name text|p g sched|p out]; cbn [api_call] in E.
  - injection E as <- <-. constructor.
  - apply catch_ok in E. destruct E as [(E & -> & ->)|E]; unfold bb_alloc in E.
    + constructor. destruct (0 <? n)%Z eqn:L; [discriminate | apply Z.ltb_ge in L; exact L].
    + destruct (0 <? n)%Z eqn:L; [|discriminate]. cbn in E. apply Z.ltb_lt in L. injection E as <- <-. constructor; exact L.
  - apply catch_ok in E. destruct E as [(E & -> & ->)|E]; [econstructor; [reflexivity | discriminate]|]. unfold bb_dealloc in E.
    apply rbind_ok in E. destruct E as (c & D & E). apply deref_ok in D. injection E as <- <-. econstructor; exact D.
  - apply catch_ok in E. destruct E as [(E & -> & ->)|E]; [econstructor; [reflexivity | discriminate]|]. unfold bb_refresh_data in E.
    apply rbind_ok in E. destruct E as (u & L & E). apply rassert_ok in L. apply Z.ltb_lt in L. apply rbind_ok in E. destruct E as (c & D & E). apply deref_ok in D.
    cbv zeta in E. injection E as <- <-. constructor; assumption.
  - apply catch_ok in E. destruct E as [(E & -> & ->)|E]; [econstructor; [reflexivity | discriminate]|]. unfold bb_set_feature_data in E.
    apply rbind_ok in E. destruct E as (c & D & E). apply deref_ok in D. apply rbind_ok in E. destruct E as (u & L & E). apply rassert_ok in L.
    apply andb_prop in L. destruct L as (L1 & L2). apply Z.leb_le in L1, L2. apply rbind_ok in E. destruct E as (d & Ed & E). apply expect_ok in Ed.
    apply rbind_ok in E. destruct E as (col' & Ec & E). apply raw_ok in Ec. destruct Ec as (Lc & ->). apply rbind_ok in E. destruct E as ((d' & res) & Es & E).
    apply Ok_inj in E. injection E as <- <-. eapply eff_feature; try eassumption. lia.
  - apply catch_ok in E. destruct E as [(E & -> & ->)|E]; [econstructor; [reflexivity | discriminate]|]. unfold bb_set_config_field in E.
    apply rbind_ok in E. destruct E as (c & D & E). apply deref_ok in D. apply rbind_ok in E. destruct E as (u & L & E). apply rassert_ok in L.
    apply rbind_ok in E. destruct E as (u2 & L2 & E). apply rassert_ok in L2. apply rbind_ok in E. destruct E as (u3 & L3 & E). apply rassert_ok in L3.
    destruct (parse_record parse_num (cx_config c) name text) as [cfg|] eqn:P; [|discriminate]. apply Ok_inj in E. injection E as <- <-.
    apply eff_config; try assumption. destruct (cx_data c); [discriminate | reflexivity].
  - apply catch_ok in E. destruct E as [(E & -> & ->)|E]; [econstructor; [reflexivity | discriminate]|]. unfold bb_train in E.
    apply rbind_ok in E. destruct E as (c & D & E). apply deref_ok in D. apply rbind_ok in E. destruct E as (d & Ed & E). apply expect_ok in Ed.
    apply rbind_ok in E. destruct E as (kind & Ek & E). apply expect_ok in Ek. apply rbind_ok in E. destruct E as (ms & Em & E). apply expect_ok in Em.
    apply rbind_ok in E. destruct E as (m & Eb & E). apply Ok_inj in E. injection E as <- <-. eapply eff_train; eassumption.
  - unfold bb_predict in E. destruct (bb_predict_args h p out) as [((d & m) & out')| | |] eqn:A; try discriminate.
    + unfold bb_predict_args in A. apply rbind_ok in A. destruct A as (c & D & A). apply deref_ok in D. apply rbind_ok in A. destruct A as (d0 & Ed & A). apply expect_ok in Ed.
      apply rbind_ok in A. destruct A as (m0 & Em & A). apply expect_ok in Em. apply rbind_ok in A. destruct A as (o & Eo & A). apply raw_ok in Eo. destruct Eo as (Lo & ->).
      apply Ok_inj in A. injection A as <- <- <-. destruct (additive_predict_buf m0 d0 (firstn (d_nexamples d0) out)) as [ps| | |] eqn:B; try discriminate; injection E as <- <-; econstructor; eassumption.
    + injection E as <- <-. constructor. intros c D. unfold bb_predict_args in A. rewrite (proj2 (deref_ok _ _ _) D) in A. cbn [rbind] in A.
      destruct (cx_data c) as [d|]; [|auto]. destruct (cx_model c) as [m|]; [|auto]. exfalso. cbn in A. unfold raw_parts in A. destruct (_ <=? _); discriminate.
Qed.

(** Every call that returns replies with one of these: the number of bytes; null or a new address; 0 or -1.  A panic never reaches the caller. *)
Theorem C38_replies : forall h c, api h c <> Panic /\ forall h' r, api h c = Ok (h', r) ->
  match c with
  | Numt_nbytes => r = Code 4
  | Alloc n => ((0 < n)%Z /\ r = Pointer (S (length h)) /\ context_at h (S (length h)) = None) \/ ((n <= 0)%Z /\ r = Pointer 0)
  | Predict _ _ => (exists out, r = Filled 0 (Some out)) \/ exists o, r = Filled (-1) o
  | _ => r = Code 0 \/ r = Code (-1)
  end.
Proof.
  intros h c. split.
  - destruct c; cbn [api_call]; unfold catch_unwind; try (intros E; match type of E with match ?m with _ => _ end = _ => destruct m; discriminate end); [discriminate|].
    unfold bb_predict. destruct (bb_predict_args h p result_out) as [((d & m) & o)| | |]; try discriminate. destruct (additive_predict_buf m d o); discriminate.
  - intros h' r E. apply api_effect in E. destruct E; eauto.
    + left. repeat split; [exact H|]. cbn. rewrite (proj2 (nth_error_None h (length h))) by lia. reflexivity.
    + destruct c; try discriminate; auto. exfalso. cbn in H. injection H as ->. eapply H0; reflexivity.
    + destruct r; auto.
Qed.

(** A call is about one context and leaves the others as they are. *)
Theorem C38_separate : forall h c h' r, api h c = Ok (h', r) -> forall q, about c <> Some q -> context_at h q <> None -> context_at h' q = context_at h q.
Proof.
  intros h c h' r E q A N. apply api_effect in E.
  destruct E; cbn [about] in A; try reflexivity; try (apply store_ok; [eapply context_live; eassumption | congruence]).
  rewrite context_app. destruct (q =? S (length h)) eqn:Q; [|reflexivity]. apply Nat.eqb_eq in Q; subst q. exfalso. apply N. cbn. rewrite (proj2 (nth_error_None h (length h))) by lia. reflexivity.
Qed.

(** A call that reports a failure has no effect at all, except that setting the data of a feature may leave that feature's column partly overwritten. *)
Theorem C38_failed : forall h c h' r, api h c = Ok (h', r) -> failed r ->
  match c with
  | Set_feature_data p f _ _ => h' = h \/
      exists cx d d', context_at h p = Some cx /\ cx_data cx = Some d /\ context_at h' p = Some (mk_context (cx_config cx) (cx_nfeatures cx) (Some d') (cx_model cx)) /\ same_but_column (Z.to_nat f) d d' /\
        forall q, q <> p -> context_at h' q = context_at h q
  | _ => h' = h
  end.
Proof.
  intros h c h' r E F. apply api_effect in E. assert (D : forall o, r <> Code 0 /\ r <> Filled 0 o).
  { destruct F as [->|[->|(o' & ->)]]; intros o; split; discriminate. }
  destruct E; try reflexivity; try (destruct (D None); congruence).
  - exfalso. destruct F as [F|[F|(o & F)]]; discriminate.
  - destruct c; auto.
  - right. exists c, d, d'. split; [assumption|]. split; [assumption|]. pose proof (context_live _ _ _ H) as L. split; [apply store_at; exact L|]. split; [|intros q N; apply store_ok; assumption].
    clear - H3. unfold set_feature_data in H3.
    repeat match type of H3 with rbind _ _ = _ => apply rbind_ok in H3; let x := fresh "x" in let E := fresh "E" in destruct H3 as (x & E & H3) end.
    destruct (set_feature_loop _ 0 _ x0 x1 x2) as [[[feat lim] card] res] eqn:S. apply rbind_ok in H3. destruct H3 as (ft & E5 & H3). apply Ok_inj in H3. injection H3 as <- <-.
    unfold same_but_column. cbn [d_nfeatures d_nexamples d_max_nbins d_features d_limits d_ftypes d_cards]. repeat split; intros; try (rewrite nth_error_upd, (proj2 (Nat.eqb_neq _ _)) by (apply not_eq_sym; assumption); reflexivity).
Qed.

(** * Histories *)
Lemma run_app : forall cs h h2 rs, run h cs = Ok (h2, rs) -> length rs = length cs.
Proof.
  induction cs as [|c cs IH]; intros h h2 rs E; cbn in E; [injection E as _ <-; reflexivity|].
  apply rbind_ok in E. destruct E as ((h1 & r) & E1 & E). apply rbind_ok in E. destruct E as ((h3 & rs') & E2 & E). injection E as _ <-. cbn. f_equal. eapply IH; exact E2.
Qed.
Lemma run_ind : forall (P : heap O -> list (call O * reply O) -> Prop) h0, P h0 [] ->
  (forall h es c h' r, P h es -> api h c = Ok (h', r) -> P h' (es ++ [(c, r)])) -> forall cs h rs, run h0 cs = Ok (h, rs) -> P h (combine cs rs).
Proof.
  intros P h0 P0 PS. assert (K : forall cs h es h' rs, P h es -> run h cs = Ok (h', rs) -> P h' (es ++ combine cs rs)).
  { induction cs as [|c cs IH]; intros h es h' rs H E; cbn in E; [injection E as <- <-; cbn; rewrite app_nil_r; exact H|].
    apply rbind_ok in E. destruct E as ((h1 & r) & E1 & E). apply rbind_ok in E. destruct E as ((h3 & rs') & E2 & E). injection E as <- <-.
    cbn [combine]. change ((c, r) :: combine cs rs') with ([(c, r)] ++ combine cs rs'). rewrite List.app_assoc. eapply IH; [|exact E2]. eapply PS; eassumption. }
  intros cs h rs E. apply (K cs h0 [] h rs P0 E).
Qed.

(** Predicting without data or without a model is refused and leaves the buffer alone. *)
Theorem C38_unready : forall h p cx out, context_at h p = Some cx -> cx_data cx = None \/ cx_model cx = None -> api h (Predict p out) = Ok (h, Filled (-1) (Some out)).
Proof.
  intros h p cx out A N. cbn [api_call]. unfold bb_predict, bb_predict_args. rewrite (proj2 (deref_ok _ _ _) A). cbn [rbind].
  destruct N as [N|N]; rewrite N; [reflexivity|]. destruct (cx_data cx); reflexivity.
Qed.
(** In every program: as long as no training of the context succeeded, predicting is refused. *)
Theorem C38_untrained : forall cs h rs p cx out, run [] cs = Ok (h, rs) -> context_at h p = Some cx -> (forall e, In e (combine cs rs) -> ~ trains p e) ->
  api h (Predict p out) = Ok (h, Filled (-1) (Some out)).
Proof.
  intros cs h rs p cx out E A N. eapply C38_unready; [exact A|]. right. revert cx A N. revert cs h rs E.
  refine (run_ind (fun h es => forall cx, context_at h p = Some cx -> (forall e, In e es -> ~ trains p e) -> cx_model cx = None) [] _ _).
  - intros cx A. destruct p as [|[|]]; discriminate.
  - intros h es c h' r IH E cx A N. assert (N1 : forall e, In e es -> ~ trains p e) by (intros e I; apply N, in_or_app; auto).
    assert (N2 : ~ trains p (c, r)) by (apply N, in_or_app; right; left; reflexivity).
    assert (Same : forall q x, 0 < q <= length h -> (q = p -> match x with Some y => cx_model y = None | None => True end) -> context_at (store h q x) p = Some cx -> cx_model cx = None).
    { intros q x L X B. rewrite context_store in B by exact L. destruct (p =? q) eqn:Q; [apply Nat.eqb_eq in Q; rewrite B in X; auto | apply IH; assumption]. }
    apply api_effect in E. destruct E; try (apply IH; assumption).
    + rewrite context_app in A. destruct (p =? S (length h)); [injection A as <-; reflexivity | apply IH; assumption].
    + eapply Same; [eapply context_live; eassumption | |exact A]. intros _; exact I.
    + eapply Same; [eapply context_live; eassumption | |exact A]. intros ->. cbn. apply IH; assumption.
    + eapply Same; [eapply context_live; eassumption | |exact A]. intros ->. cbn. apply IH; assumption.
    + eapply Same; [eapply context_live; eassumption | |exact A]. intros ->. cbn. apply IH; assumption.
    + eapply Same; [eapply context_live; eassumption | |exact A]. intros ->. exfalso. apply N2. cbn. auto.
Qed.
Lemma predict_buf_any : forall (m : additive_tree O) d out, length out = d_nexamples d -> additive_predict_buf m d out = additive_predict m d.
Proof.
  intros m d out L. unfold additive_predict, additive_predict_buf. f_equal. rewrite <- L. clear L. induction out; cbn; [reflexivity | rewrite IHout; reflexivity].
Qed.
(** In every program: after a successful training, until the context is freed or successfully trained again, the model is the one that was trained on the configuration and the data of that moment,
    whatever else is called, and predicting evaluates it on the data of the context. *)
Theorem C38_trained : forall h p g sched h1 cs h2 rs, api h (Train p g sched) = Ok (h1, Code 0) -> run h1 cs = Ok (h2, rs) ->
  (forall e, In e (combine cs rs) -> ~ trains p e /\ ~ frees p e) ->
  exists cx d kind metrics m cx2, context_at h p = Some cx /\ cx_data cx = Some d /\ objective_from_name (c_objective (cx_config cx)) = Some kind /\ metrics_from_names (c_metrics (cx_config cx)) = Some metrics /\
    boost_train M dbg (cx_config cx) d sched kind metrics g = Ok m /\ context_at h2 p = Some cx2 /\ cx_model cx2 = Some m /\
    forall d2 out, cx_data cx2 = Some d2 -> d_nexamples d2 <= length out ->
      api h2 (Predict p out) = match additive_predict m d2 with
                               | Ok ps => Ok (h2, Filled 0 (Some (ps ++ skipn (d_nexamples d2) out)))
                               | Panic => Ok (h2, Filled (-1) None)
                               | UB => UB
                               | OutOfFuel => OutOfFuel
                               end.
Proof.
  intros h p g sched h1 cs h2 rs E R N. apply api_effect in E. inversion E as [| | | | | | | |? c d ? ? kind metrics m A D K Me B| | |]; subst.
  assert (X : exists cx2, context_at h2 p = Some cx2 /\ cx_model cx2 = Some m).
  { revert cs h2 rs R N. refine (run_ind (fun h2 es => (forall e, In e es -> ~ trains p e /\ ~ frees p e) -> exists cx2, context_at h2 p = Some cx2 /\ cx_model cx2 = Some m) _ _ _).
    - intros _. eexists. split; [apply store_at; eapply context_live; exact A | reflexivity].
    - intros h' es c' h'' r IH E' N. destruct IH as (cx2 & A2 & M2); [intros e I; apply N, in_or_app; auto|].
      destruct (N (c', r)) as (N1 & N2); [apply in_or_app; right; left; reflexivity|].
      assert (Same : forall q x, 0 < q <= length h' -> (q = p -> exists y, x = Some y /\ cx_model y = Some m) -> exists cx2, context_at (store h' q x) p = Some cx2 /\ cx_model cx2 = Some m).
      { intros q x L Y. rewrite context_store by exact L. destruct (p =? q) eqn:Q; [apply Nat.eqb_eq in Q; apply Y; auto | eauto]. }
      apply api_effect in E'. destruct E'; eauto.
      + rewrite context_app. destruct (p =? S (length h')) eqn:Q; [|eauto]. exfalso. apply Nat.eqb_eq in Q. pose proof (context_live _ _ _ A2). lia.
      + apply Same; [eapply context_live; eassumption|]. intros ->. exfalso. apply N2. cbn. auto.
      + apply Same; [eapply context_live; eassumption|]. intros ->. eexists. split; [reflexivity|]. cbn. congruence.
      + apply Same; [eapply context_live; eassumption|]. intros ->. eexists. split; [reflexivity|]. cbn. congruence.
      + apply Same; [eapply context_live; eassumption|]. intros ->. eexists. split; [reflexivity|]. cbn. congruence.
      + apply Same; [eapply context_live; eassumption|]. intros ->. exfalso. apply N1. cbn. auto. }
  destruct X as (cx2 & A2 & M2). exists c, d, kind, metrics, m, cx2. repeat (split; [assumption|]).
  intros d2 out D2 L. cbn [api_call]. unfold bb_predict, bb_predict_args. rewrite (proj2 (deref_ok _ _ _) A2). cbn [rbind]. rewrite D2, M2. cbn [expect rbind].
  rewrite (proj2 (raw_ok out (d_nexamples d2) _) (conj L eq_refl)). cbn [rbind]. rewrite predict_buf_any by (rewrite firstn_length; lia). destruct (additive_predict m d2); reflexivity.
Qed.
(** In every program: once data was loaded, the configuration of the context can no longer be set; every attempt is refused. *)
Theorem C38_frozen : forall cs h rs p cx e name text, run [] cs = Ok (h, rs) -> In e (combine cs rs) -> loads p e -> context_at h p = Some cx ->
  api h (Set_config_field p name text) = Ok (h, Code (-1)).
Proof.
  intros cs h rs p cx e name text R I L A. assert (X : p <= length h /\ forall cx, context_at h p = Some cx -> cx_data cx <> None).
  { clear cx A. revert cs h rs R e I L. refine (run_ind (fun h es => forall e, In e es -> loads p e -> p <= length h /\ forall cx, context_at h p = Some cx -> cx_data cx <> None) [] _ _); [intros ? []|].
    intros h es c h' r IH E e I L. apply in_app_or in I. destruct I as [I|[<-|[]]].
    - destruct (IH e I L) as (Lp & IHd). assert (Len : forall q x, length (store h q x) = length h) by (intros; apply upd_length).
      assert (Same : forall q x, 0 < q <= length h -> (q = p -> forall y, x = Some y -> cx_data y <> None) -> p <= length (store h q x) /\ forall cx, context_at (store h q x) p = Some cx -> cx_data cx <> None).
      { intros q x K Y. rewrite Len. split; [exact Lp|]. intros cx B. rewrite context_store in B by exact K. destruct (p =? q) eqn:Q; [apply Nat.eqb_eq in Q; eapply Y; [symmetry; exact Q | exact B] | auto]. }
      apply api_effect in E. destruct E; auto.
      + split; [rewrite List.app_length; lia|]. intros cx A. rewrite context_app in A. destruct (p =? S (length h)) eqn:Q; [apply Nat.eqb_eq in Q; lia | auto].
      + apply Same; [eapply context_live; eassumption | discriminate].
      + apply Same; [eapply context_live; eassumption | intros _ y [= <-]; discriminate].
      + apply Same; [eapply context_live; eassumption | intros _ y [= <-]; discriminate].
      + apply Same; [eapply context_live; eassumption | intros -> y [= <-]; cbn]. exfalso. exact (IHd _ H H0).
      + apply Same; [eapply context_live; eassumption | intros _ y [= <-]; cbn; congruence].
    - apply api_effect in E. destruct E; try contradiction; cbn in L; destruct c; try contradiction; try discriminate; try (destruct L; discriminate).
      destruct L as (<- & _). pose proof (context_live _ _ _ H) as K. split; [unfold store; rewrite upd_length; lia|]. intros cx A. rewrite store_at in A by exact K. injection A as <-. discriminate. }
  destruct X as (_ & X). specialize (X _ A). cbn [api_call]. unfold bb_set_config_field. rewrite (proj2 (deref_ok _ _ _) A). cbn [rbind]. destruct (cx_data cx); [reflexivity | contradiction].
Qed.

Lemma last_of_app : forall name (a b : list (string * value O)) i, last_of name (a ++ b) i = last_of name b (last_of name a i).
Proof. intros name; induction a as [|[n v] a IH]; intros b i; cbn; [reflexivity | apply IH]. Qed.
(** In every program: the configuration of a context has, for every field, the value of the last successful setting of that field, or the default. *)
Theorem C38_config : forall cs h rs p cx, run [] cs = Ok (h, rs) -> context_at h p = Some cx ->
  exists recs, Forall2 (fun s r => fst r = fst s /\ exists k, lookup kinds (fst s) = Some k /\ reads (real O parse_num) k (snd s) (snd r)) (settings p (combine cs rs)) recs /\
    forall name, field (cx_config cx) name = last_of name recs (lookup (defaults O) name).
Proof.
  intros cs h rs p cx R A.
  set (Q := fun (es : list (call O * reply O)) (c : config O) => exists recs,
     Forall2 (fun s r => fst r = fst s /\ exists k, lookup kinds (fst s) = Some k /\ reads (real O parse_num) k (snd s) (snd r)) (settings p es) recs /\
       forall name, field c name = last_of name recs (lookup (defaults O) name)).
  enough (X : (length h < p -> settings p (combine cs rs) = []) /\ forall cx, context_at h p = Some cx -> Q (combine cs rs) (cx_config cx)) by (apply X; exact A). clear cx A.
  revert cs h rs R. refine (run_ind (fun h es => (length h < p -> settings p es = []) /\ forall cx, context_at h p = Some cx -> Q es (cx_config cx)) [] _ _).
  - split; [reflexivity|]. intros cx A. destruct p as [|[|]]; discriminate.
  - intros h es c h' r (IL & IQ) E. assert (Ap : settings p (es ++ [(c, r)]) = settings p es ++ setting_of p (c, r)) by (unfold settings; rewrite flat_map_app; cbn; rewrite app_nil_r; reflexivity).
    assert (Same : setting_of p (c, r) = [] -> forall x, Q es x -> Q (es ++ [(c, r)]) x).
    { intros Z x. unfold Q. rewrite Ap, Z, app_nil_r. auto. }
    assert (Keep : setting_of p (c, r) = [] -> (length h < p -> settings p (es ++ [(c, r)]) = []) /\ forall cx, context_at h p = Some cx -> Q (es ++ [(c, r)]) (cx_config cx)).
    { intros Z. split; [intros L; rewrite Ap, Z, IL by exact L; reflexivity | intros cx A; apply Same; auto]. }
    assert (Len : forall q x, length (store h q x) = length h) by (intros; apply upd_length).
    assert (Put : forall q x, 0 < q <= length h -> setting_of p (c, r) = [] -> (q = p -> forall y, x = Some y -> exists z, context_at h p = Some z /\ cx_config y = cx_config z) ->
      (length (store h q x) < p -> settings p (es ++ [(c, r)]) = []) /\ forall cx, context_at (store h q x) p = Some cx -> Q (es ++ [(c, r)]) (cx_config cx)).
    { intros q x K Z Y. rewrite Len. split; [apply Keep; exact Z|]. intros cx A. rewrite context_store in A by exact K. destruct (p =? q) eqn:T; [|apply Keep; assumption].
      apply Nat.eqb_eq in T. destruct (Y (eq_sym T) _ A) as (z & Az & ->). apply Keep; assumption. }
    assert (EE := E). apply api_effect in E. destruct E; try (apply Keep; reflexivity).
    + destruct (Keep eq_refl) as (K1 & K2). split.
      * rewrite List.app_length. cbn. intros L. apply K1. lia.
      * intros cx A. rewrite context_app in A. destruct (p =? S (length h)) eqn:T; [|auto]. apply Nat.eqb_eq in T. injection A as <-.
        apply Same; [reflexivity|]. unfold Q. rewrite IL by lia. exists []. split; [constructor | reflexivity].
    + apply Keep. destruct c; try reflexivity. cbn. rewrite andb_false_r. reflexivity.
    + apply Put; [eapply context_live; eassumption | reflexivity | discriminate].
    + apply Put; [eapply context_live; eassumption | reflexivity|]. intros -> y [= <-]. eauto.
    + apply Put; [eapply context_live; eassumption | reflexivity|]. intros -> y [= <-]. eauto.
    + destruct (p0 =? p) eqn:T.
      * apply Nat.eqb_eq in T; subst p0. pose proof (context_live _ _ _ H) as Lp. rewrite Len. split; [intros L; lia|]. intros cx A. rewrite store_at in A by exact Lp. injection A as <-. cbn [cx_config].
        destruct (IQ _ H) as (recs & F & G). pose proof (C37_record O parse_num (cx_config c) name text) as Rec. rewrite H3 in Rec. destruct Rec as (k & v & Kk & Rv & Fv & Fo).
        exists (recs ++ [(name, v)]). rewrite Ap. cbn [setting_of]. rewrite Nat.eqb_refl. cbn [andb Z.eqb]. split.
        -- apply Forall2_app; [exact F|]. constructor; [|constructor]. cbn [fst snd]. split; [reflexivity|]. eauto.
        -- intros n. rewrite last_of_app. cbn [last_of]. destruct (String.eqb name n) eqn:S; [apply String.eqb_eq in S; subst n; exact Fv | apply String.eqb_neq in S; rewrite Fo by congruence; apply G].
      * apply Put; [eapply context_live; eassumption | cbn; rewrite T; reflexivity|]. intros ->. rewrite Nat.eqb_refl in T. discriminate.
    + apply Put; [eapply context_live; eassumption | reflexivity|]. intros -> y [= <-]. eauto.
Qed.

(** * What does not hold *)
(** Errors in the use of addresses are not reported: every call on a freed context is undefined behaviour. *)
Theorem C38_freed_refuted : forall h p c, 0 < p <= length h -> context_at h p = None -> about c = Some p -> (forall n, c = Refresh_data p n -> (0 < n)%Z) -> api h c = UB.
Proof.
  intros h p c L N A Rn. assert (D : deref h p = UB).
  { destruct p as [|i]; [lia|]. cbn in N |- *. destruct (nth_error h i) as [[x|]|] eqn:E; [discriminate | reflexivity | reflexivity]. }
  destruct c; cbn in A; try discriminate; injection A as ->; cbn [api_call].
  - unfold bb_dealloc. rewrite D. reflexivity.
  - unfold bb_refresh_data. rewrite (proj2 (Z.ltb_lt _ _) (Rn _ eq_refl)). cbn [rassert rbind]. rewrite D. reflexivity.
  - unfold bb_set_feature_data. rewrite D. reflexivity.
  - unfold bb_set_config_field. rewrite D. reflexivity.
  - unfold bb_train. rewrite D. reflexivity.
  - unfold bb_predict, bb_predict_args. rewrite D. reflexivity.
Qed.
(** The Python wrapper does not report errors: with a context that was never trained successfully (so also after a training that failed), predicting returns zeros. *)
Theorem C38_python_refuted : forall cs h rs p cx n, run [] cs = Ok (h, rs) -> context_at h p = Some cx -> (forall e, In e (combine cs rs) -> ~ trains p e) ->
  py_predict M parse_num dbg h p n = Ok (h, Some (repeat (nofZ O 0) n)) /\
  forall g sched, api h (Train p g sched) = Ok (h, Code (-1)) -> py_train M parse_num dbg h p g sched = Ok h.
Proof.
  intros cs h rs p cx n R A N. split.
  - unfold py_predict. rewrite (C38_untrained _ _ _ _ _ (repeat (nofZ O 0) n) R A N). reflexivity.
  - intros g sched E. unfold py_train. rewrite E. reflexivity.
Qed.
End Capi.

(** * Examples *)
Open Scope string_scope.
(** A program: settings, some refused; data; training; refused settings; predicting; failures; a second context; deallocation. *)
Definition api_prog : list (call f32ops) :=
  [Alloc 0; Alloc 2; Set_config_field 1 "niterations" "2"; Set_config_field 1 "niterations" "-1"; Set_config_field 1 "max_nbin" "3"; Set_config_field 1 "niterations" "3"; Set_config_field 1 "max_tree_depth" "2";
   Train 1 ex_rng bst_sched; Predict 1 [fz 7]; Refresh_data 1 4; Set_config_field 1 "niterations" "5";
   Set_feature_data 1 0 [fz 0; fz 1; fz 2; fz 1] 1; Set_feature_data 1 1 [fz 1; fz 1; fz 0; fz 0] 1; Set_feature_data 1 2 [fz 1; fz 2; fz 3; fz 2] 0; Set_feature_data 1 3 [fz 1; fz 2; fz 3; fz 2] 0;
   Set_feature_data 1 1 [fz 1; fz (-1); fz 0; fz 0] 1; Set_feature_data 1 1 [fz 1; fz 1; fz 0; fz 0] 1;
   Predict 1 [fz 7; fz 7; fz 7; fz 7]; Train 1 ex_rng bst_sched; Predict 1 [fz 7; fz 7; fz 7; fz 7; fz 7]; Alloc 1; Train 2 ex_rng bst_sched; Predict 1 [fz 7; fz 7; fz 7; fz 7]; Dealloc 2; Dealloc 0].
Definition code_of (r : reply f32ops) : Z := match r with Pointer p => Z.of_nat p | Code z => z | Filled z _ => z end.
Definition filled (r : reply f32ops) : list f32 := match r with Filled _ (Some l) => l | _ => [] end.
Example C38_ex : match api_run bst_math some_num false [] api_prog with
  | Ok (h, rs) => map code_of rs = [0; 1; 0; -1; -1; 0; 0; -1; -1; 0; -1; 0; 0; 0; -1; -1; 0; -1; 0; 0; 2; -1; 0; 0; -1]%Z /\ length h = 2 /\
      match context_at h 1 with Some cx => match cx_model cx with Some _ => True | None => False end | None => False end /\ match context_at h 2 with Some _ => False | None => True end /\
      num_eqb (filled (nth 19 rs (Code 0))) [fz 1; fz 2; fz 3; fz 2; fz 7] = true /\ num_eqb (filled (nth 22 rs (Code 0))) [fz 1; fz 2; fz 3; fz 2] = true /\ length (filled (nth 17 rs (Code 0))) = 4 /\
      settings 1 (combine api_prog rs) = [("niterations", "2"); ("niterations", "3"); ("max_tree_depth", "2")]
  | _ => False
  end.
Proof. vm_compute. repeat split; try discriminate; auto. Qed.

Print Assumptions C38_replies. Print Assumptions C38_separate. Print Assumptions C38_failed. Print Assumptions C38_unready. Print Assumptions C38_untrained. Print Assumptions C38_trained.
Print Assumptions C38_frozen. Print Assumptions C38_config. Print Assumptions C38_freed_refuted. Print Assumptions C38_python_refuted.
