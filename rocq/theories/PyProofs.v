(** Proofs about the Python wrapper. *)
From Coq Require Import String Lia ZArith Permutation.
From Verif Require Import Base BaseProofs Num DataModel Config ConfigModel TreeModel LearnerModel DatasetModel ObjectiveModel MetricModel BoostModel BoostSpec BoostProps
  CapiModel CapiSpec CapiProps SafeSpec SafeProofs SafeProps PredSpec PredProps PyModel PySpec.
Local Open Scope nat_scope.
Local Open Scope list_scope.

Section Py.
Variable O : numops.
Variable M : mathops O.
Variable parse_num : string -> option (num O).
Variable dbg : bool.
Variable known_param : string -> bool.
Notation api := (api_call M parse_num dbg).
Notation step := (py_step M parse_num dbg known_param).
Notation run := (py_run M parse_num dbg known_param).

(* ---- contexts ---- *)
Definition trained_by (nf : nat) (m : additive_tree O) : Prop :=
  exists cfg d sched kind metrics g, any_order sched /\ 0 < d_nexamples d /\ (forall target, get_target d = Ok target -> (N.of_nat (length target) <= 2 ^ 31)%N) /\ d_nfeatures d = nf /\
    boost_train M dbg cfg d sched kind metrics g = Ok m.
Definition data_ok (nf : nat) (d : data O) : Prop :=
  d_nfeatures d = nf /\ 0 < d_nexamples d /\ (Z.of_nat (d_nexamples d) < 2 ^ 31)%Z /\ length (d_features d) = S nf /\ length (d_limits d) = S nf /\ length (d_ftypes d) = S nf /\ length (d_cards d) = S nf /\
  Forall (fun col => length col = d_nexamples d) (d_features d).
Definition ctx_ok (c : context O) : Prop :=
  (forall d, cx_data c = Some d -> data_ok (cx_nfeatures c) d) /\ (forall m, cx_model c = Some m -> trained_by (cx_nfeatures c) m).
Definition ctxs_ok (h : heap O) : Prop := forall p c, context_at h p = Some c -> ctx_ok c.

Lemma data_ok_set nf d f vs cat d' r : data_ok nf d -> set_feature_data d f vs cat = Ok (d', r) -> data_ok nf d'.
Proof.
  intros (H1 & H2 & H3 & H4 & H5 & H6 & H7 & H8) E. pose proof (fits_set O d f vs cat d' r (d_nexamples d) (conj eq_refl (conj H3 H8)) E) as (F1 & _ & F3).
  unfold set_feature_data in E. apply rbind_ok in E as (? & _ & E). apply rbind_ok in E as (feat & Ef & E). apply rbind_ok in E as (lim & _ & E). apply rbind_ok in E as (card & _ & E). apply rbind_ok in E as (? & _ & E).
  destruct (set_feature_loop _ _ _ _ _ _) as [[[feat' lim'] card'] r0]. apply rbind_ok in E as (ft & _ & E). apply Ok_inj in E. injection E as <- <-. unfold data_ok.
  cbn [d_nfeatures d_nexamples d_features d_limits d_ftypes d_cards] in *. rewrite !upd_length. repeat split; try assumption.
Qed.
Lemma data_ok_empty cfg nf n : 0 < n -> (Z.of_nat n < 2 ^ 31)%Z -> data_ok nf (data_empty O cfg nf n).
Proof.
  intros H1 H2. unfold data_ok, data_empty. cbn [d_nfeatures d_nexamples d_features d_limits d_ftypes d_cards]. rewrite !repeat_length. repeat split; try lia. apply Forall_forall. intros c Hc. apply repeat_spec in Hc. subst c. apply repeat_length.
Qed.
Lemma ctxs_store h p x : ctxs_ok h -> 0 < p <= length h -> (forall c, x = Some c -> ctx_ok c) -> ctxs_ok (store h p x).
Proof. intros H L Hx q c. rewrite context_store by exact L. destruct (q =? p); [apply Hx|apply H]. Qed.
Lemma ctxs_step h l c h' r : ctxs_ok h -> allowed l c -> api h c = Ok (h', r) -> ctxs_ok h'.
Proof.
  intros H A E. apply api_effect in E. destruct E; try exact H.
  - intros q x. rewrite context_app. destruct (q =? S (length h)); [|apply H]. intros E. injection E as <-. split; discriminate.
  - apply ctxs_store; [exact H|eapply context_live; eassumption|discriminate].
  - pose proof (H _ _ H0) as [_ HM]. apply ctxs_store; [exact H|eapply context_live; eassumption|]. intros x E. injection E as <-. split; [|exact HM]. cbn [cx_data cx_nfeatures]. intros d E. injection E as <-.
    destruct A as [_ A]. apply data_ok_empty; lia.
  - pose proof (H _ _ H0) as [HD HM]. apply ctxs_store; [exact H|eapply context_live; eassumption|]. intros x E. injection E as <-. split; [|exact HM]. cbn [cx_data cx_nfeatures]. intros d2 E. injection E as <-.
    eapply data_ok_set; [apply HD; eassumption|eassumption].
  - pose proof (H _ _ H0) as [HD HM]. apply ctxs_store; [exact H|eapply context_live; eassumption|]. intros x E. injection E as <-. split; [exact HD|exact HM].
  - pose proof (H _ _ H0) as [HD HM]. apply ctxs_store; [exact H|eapply context_live; eassumption|]. intros x E. injection E as <-. split; [exact HD|]. cbn [cx_model cx_nfeatures]. intros m' E. injection E as <-.
    destruct A as [_ A]. pose proof (HD _ H1) as (D1 & D2 & D3 & _ & _ & _ & _ & D8). exists (cx_config c), d, sched, kind, metrics, g. split; [exact A|]. split; [exact D2|]. split; [|split; [exact D1|assumption]].
    intros target Et. unfold get_target, get_feature in Et. apply idx_ok in Et. rewrite Forall_forall in D8. rewrite (D8 target) by (eapply nth_error_In, Et). lia.
Qed.
(* a call keeps the number of features of a context it does not free, and its model unless it trains it *)
Lemma keep_step h c h' r q x : api h c = Ok (h', r) -> context_at h q = Some x -> c <> Dealloc q ->
  exists x', context_at h' q = Some x' /\ cx_nfeatures x' = cx_nfeatures x /\ ((forall g s, c <> Train q g s) -> cx_model x' = cx_model x).
Proof.
  intros E Hq Hc. apply api_effect in E. assert (forall p y, 0 < p <= length h -> (p = q -> cx_nfeatures y = cx_nfeatures x /\ ((forall g s, c <> Train q g s) -> cx_model y = cx_model x)) ->
    exists x', context_at (store h p (Some y)) q = Some x' /\ cx_nfeatures x' = cx_nfeatures x /\ ((forall g s, c <> Train q g s) -> cx_model x' = cx_model x)) as K.
  { intros p y L Hy. rewrite context_store by exact L. destruct (Nat.eqb_spec q p) as [->|N]; [exists y; split; [reflexivity|apply Hy; reflexivity]|exists x; auto]. }
  destruct E; try (exists x; auto; fail).
  - rewrite context_app. destruct (Nat.eqb_spec q (S (length h))) as [->|N]; [|exists x; auto]. apply context_live in Hq. lia.
  - rewrite context_store by (eapply context_live; eassumption). destruct (Nat.eqb_spec q p) as [->|N]; [contradiction|exists x; auto].
  - apply K; [eapply context_live; eassumption|]. intros ->. rewrite Hq in H. injection H as <-. auto.
  - apply K; [eapply context_live; eassumption|]. intros ->. rewrite Hq in H. injection H as <-. auto.
  - apply K; [eapply context_live; eassumption|]. intros ->. rewrite Hq in H. injection H as <-. auto.
  - apply K; [eapply context_live; eassumption|]. intros ->. rewrite Hq in H. injection H as <-. split; [reflexivity|]. intros N. exfalso. eapply N. reflexivity.
Qed.

(* ---- objects ---- *)
Definition heap_ok (h : heap O) (l : ledger) : Prop := inv O h l /\ ctxs_ok h.
Definition obj_ok (h : heap O) (l : ledger) (ob : pyobj) (n : nat) : Prop :=
  (po_nexamples ob = (-1)%Z /\ n = 0 \/ po_nexamples ob = Z.of_nat n /\ 0 < n) /\
  (po_ptr ob <> 0 -> ad_live (l (po_ptr ob)) = true /\ ad_rows (l (po_ptr ob)) <= n /\ exists cx, context_at h (po_ptr ob) = Some cx /\ Z.of_nat (cx_nfeatures cx) = to_cint (Z.of_nat (po_nfeatures ob))).
Definition objs_ok (h : heap O) (l : ledger) (objs : list pyobj) (k : given) : Prop :=
  (forall o ob, nth_error objs o = Some ob -> obj_ok h l ob (k o)) /\
  (forall o o' ob ob', nth_error objs o = Some ob -> nth_error objs o' = Some ob' -> po_ptr ob <> 0 -> po_ptr ob = po_ptr ob' -> o = o') /\
  forall o, length objs <= o -> k o = 0.
Definition pyinv (st : pystate O) (k : given) : Prop := exists l, heap_ok (py_heap st) l /\ objs_ok (py_heap st) l (py_objs st) k.

(* a call that frees nothing and loads nothing *)
Definition calm (c : call O) : Prop := match c with Set_feature_data _ _ _ _ | Set_config_field _ _ _ | Train _ _ _ | Predict _ _ => True | _ => False end.
Lemma calm_step h l objs k c : heap_ok h l -> objs_ok h l objs k -> calm c -> allowed l c -> exists h' r, api h c = Ok (h', r) /\ heap_ok h' l /\ objs_ok h' l objs k.
Proof.
  intros (HI & HC) (HO & HD & HN) Hc A. destruct (step_returns O M parse_num dbg h l c HI A) as (h' & r & E). exists h', r. split; [exact E|].
  assert (after l (c, r) = l) as Ea by (destruct c; try destruct Hc; reflexivity). split; [split|].
  - rewrite <- Ea. eapply inv_step; eassumption.
  - eapply ctxs_step; eassumption.
  - split; [|split; [exact HD|exact HN]]. intros o ob Ho. destruct (HO o ob Ho) as (H1 & H2). split; [exact H1|]. intros Hp. destruct (H2 Hp) as (B1 & B2 & cx & B3 & B4). split; [exact B1|]. split; [exact B2|].
    destruct (keep_step _ _ _ _ _ _ E B3) as (cx' & C1 & C2 & _); [intros ->; destruct Hc|]. exists cx'. split; [exact C1|]. rewrite C2. exact B4.
Qed.
Lemma usable_obj h l objs k o ob : objs_ok h l objs k -> nth_error objs o = Some ob -> po_ptr ob <> 0 -> usable l (po_ptr ob) /\ ad_rows (l (po_ptr ob)) <= k o.
Proof. intros (HO & _) Ho Hp. destruct (HO o ob Ho) as (_ & H2). destruct (H2 Hp) as (B1 & B2 & _). split; [right; exact B1|exact B2]. Qed.

Lemma set_feature_ok h l objs k o p ob f a cat : heap_ok h l -> objs_ok h l objs k -> nth_error objs o = Some ob -> po_ptr ob <> 0 -> p = po_ptr ob -> k o <= length (a_values a) ->
  exists h' r, @py_set_feature O M parse_num dbg (mk_py h objs) ob f a cat = Ok (mk_py h' objs, r) /\ heap_ok h' l /\ objs_ok h' l objs k.
Proof.
  intros HH HO Ho Hp -> Ha. unfold py_set_feature, asserted. destruct (_ && _); [|eauto 6]. destruct (usable_obj _ _ _ _ _ _ HO Ho Hp) as (U & R).
  destruct (calm_step h l objs k (Set_feature_data (po_ptr ob) (to_cint f) (a_values a) (if cat then 1%Z else 0%Z)) HH HO I) as (h' & r & E & HH' & HO'); [split; [exact U|lia]|].
  cbn [py_heap py_objs]. rewrite E. cbn [rbind]. eauto 6.
Qed.

Lemma objs_upd h h' l l' objs k o ob ob' n : objs_ok h l objs k -> nth_error objs o = Some ob -> po_ptr ob <> 0 -> po_ptr ob' = po_ptr ob \/ po_ptr ob' = 0 -> obj_ok h' l' ob' n ->
  (forall q, q <> po_ptr ob -> l' q = l q) -> (forall q cx, q <> po_ptr ob -> context_at h q = Some cx -> exists cx', context_at h' q = Some cx' /\ cx_nfeatures cx' = cx_nfeatures cx) ->
  objs_ok h' l' (upd objs o ob') (fun q => if q =? o then n else k q).
Proof.
  intros (HO & HD & HN) Ho Hp Hp' Hob Hl Hh. assert (o < length objs) as L by (apply nth_error_Some; congruence). split; [|split].
  - intros q ob2 Hq. rewrite nth_error_upd in Hq. rewrite Nat.eqb_sym. destruct (Nat.eqb_spec o q) as [->|N].
    + rewrite (proj2 (Nat.ltb_lt _ _) L) in Hq. injection Hq as <-. exact Hob.
    + cbn [andb] in Hq. destruct (HO q ob2 Hq) as (A1 & A2). split; [exact A1|]. intros Hq2. destruct (A2 Hq2) as (B1 & B2 & cx & B3 & B4).
      assert (po_ptr ob2 <> po_ptr ob) as Np by (intros En; apply N; eapply HD; eauto). rewrite (Hl _ Np). split; [exact B1|]. split; [exact B2|]. destruct (Hh _ _ Np B3) as (cx' & C1 & C2). exists cx'. split; [exact C1|]. rewrite C2. exact B4.
  - intros q q' b b' Hq Hq' Hb Hbb. rewrite nth_error_upd in Hq, Hq'. destruct (Nat.eqb_spec o q) as [<-|N], (Nat.eqb_spec o q') as [<-|N'].
    + reflexivity.
    + rewrite (proj2 (Nat.ltb_lt _ _) L) in Hq. cbn [andb] in Hq, Hq'. injection Hq as <-. destruct Hp' as [Hp'|Hp']; [|congruence]. apply (HD o q' ob b' Ho Hq' Hp). congruence.
    + rewrite (proj2 (Nat.ltb_lt _ _) L) in Hq'. cbn [andb] in Hq, Hq'. injection Hq' as <-. destruct Hp' as [Hp'|Hp']; [|congruence]. apply (HD q o b ob Hq Ho Hb). congruence.
    + cbn [andb] in Hq, Hq'. eapply HD; eassumption.
  - intros q Hq. rewrite upd_length in Hq. destruct (Nat.eqb_spec q o) as [->|N]; [lia|apply HN; exact Hq].
Qed.

Lemma to_cint_small z : (0 <= z < 2 ^ 31)%Z -> to_cint z = z.
Proof. intros H. unfold to_cint. rewrite Z.mod_small by lia. rewrite (proj2 (Z.ltb_lt _ _)) by lia. reflexivity. Qed.
Lemma to_cint_lt z : (to_cint z < 2 ^ 31)%Z.
Proof. unfold to_cint. pose proof (Z.mod_pos_bound z (2 ^ 32)). cbv zeta. destruct (Z.ltb_spec (z mod 2 ^ 32) (2 ^ 31)); lia. Qed.
Lemma to_cint_le z : (0 <= z)%Z -> (to_cint z <= z)%Z.
Proof.
  intros H. destruct (Z.lt_ge_cases z (2 ^ 31)) as [L|L]; [rewrite to_cint_small by lia; lia|]. pose proof (to_cint_lt z). lia.
Qed.

(* the loop of [set_data] *)
Lemma set_loop_ok (x : matrix O) cats o ob l objs k : rectangular x -> nth_error objs o = Some ob -> po_ptr ob <> 0 -> k o = x_rows x -> forall fs h, heap_ok h l -> objs_ok h l objs k -> Forall (fun f => f < length (x_cols x)) fs ->
  exists h', foldM (fun st f => let* col := idx (x_cols x) f in
                                let* (st', _) := py_set_feature M parse_num dbg st ob (Z.of_nat f) (mk_array (x_numt x) col) (existsb (Nat.eqb f) cats) in Ok st') fs (mk_py h objs) = Ok (mk_py h' objs) /\
    heap_ok h' l /\ objs_ok h' l objs k.
Proof.
  intros Hx Ho Hp Hk. induction fs as [|f fs IH]; intros h HH HO Hf; [cbn [foldM]; eauto|]. inversion_clear Hf as [|? ? Hf1 Hf2]. cbn [foldM].
  destruct (nth_error (x_cols x) f) as [col|] eqn:Ec; [|apply nth_error_None in Ec; lia]. rewrite (proj2 (idx_ok _ _ _ _) Ec). cbn [rbind].
  assert (length col = x_rows x) as Lc by (unfold rectangular in Hx; rewrite Forall_forall in Hx; apply Hx; eapply nth_error_In, Ec).
  destruct (set_feature_ok h l objs k o (po_ptr ob) ob (Z.of_nat f) (mk_array (x_numt x) col) (existsb (Nat.eqb f) cats) HH HO Ho Hp eq_refl) as (h' & r & E & HH' & HO'); [cbn [a_values]; lia|].
  rewrite E. cbn [rbind]. apply IH; assumption.
Qed.

Lemma refresh_after l p z h n h' r : api h (Refresh_data p n) = Ok (h', r) -> z = n -> (after l (Refresh_data p n, r) = l /\ h' = h) \/ ((0 < n)%Z /\ after l (Refresh_data p n, r) = note l p (mk_address true (Z.to_nat n))).
Proof.
  intros E _. apply api_effect in E. inversion E; subst; [left|right]; split; try reflexivity. assumption.
Qed.

Theorem py_step_ok st k op : pyinv st k -> py_allowed k op -> exists st' r, step st op = Ok (st', r) /\ pyinv st' (py_after k (op, r)).
Proof.
  intros (l & HH & HO) A. assert (forall s, pyinv s k -> forall o' K, (forall ob, nth_error (py_objs s) o' = Some ob -> po_ptr ob <> 0 -> exists st' r, K ob = Ok (st', r) /\ pyinv st' (py_after k (op, r))) ->
    (py_after k (op, Raised) = k) -> exists st' r, checked s o' K = Ok (st', r) /\ pyinv st' (py_after k (op, r))) as CH.
  { intros s Hs o' K HK Hr. unfold checked. destruct (nth_error (py_objs s) o') as [ob|] eqn:Eo; [|exists s, Raised; rewrite Hr; auto]. destruct (Nat.eqb_spec (po_ptr ob) 0) as [|N]; [exists s, Raised; rewrite Hr; auto|]. apply HK; auto. }
  assert (pyinv st k) as HI by (exists l; split; assumption). destruct st as [h objs]. cbn [py_heap py_objs] in *.
  assert (forall o ob, nth_error objs o = Some ob -> po_ptr ob <> 0 -> exists st' r, py_dealloc M parse_num dbg (mk_py h objs) o ob = Ok (st', r) /\ pyinv st' k) as DE.
  { intros o ob Ho Hp. destruct (usable_obj _ _ _ _ _ _ HO Ho Hp) as (U & _). unfold py_dealloc. cbn [py_heap]. destruct (step_returns O M parse_num dbg h l (Dealloc (po_ptr ob)) (proj1 HH) U) as (h' & r & E). rewrite E. cbn [rbind].
    eexists _, _. split; [reflexivity|]. exists (after l (Dealloc (po_ptr ob), r)). unfold set_obj. cbn [py_heap py_objs]. split.
    - split; [eapply (inv_step O M parse_num dbg h l (Dealloc (po_ptr ob))); [apply HH|exact U|exact E]|eapply (ctxs_step h l (Dealloc (po_ptr ob))); [apply HH|exact U|exact E]].
    - assert (objs_ok h' (after l (Dealloc (po_ptr ob), r)) (upd objs o (mk_pyobj (po_nfeatures ob) (po_nexamples ob) 0)) (fun q => if q =? o then k o else k q)) as HO'.
      { eapply objs_upd; [exact HO|exact Ho|exact Hp|right; reflexivity| | |].
        - split; [|intros N; destruct (N eq_refl)]. cbn [po_nexamples]. apply HO. exact Ho.
        - intros q N. destruct r; try reflexivity. cbn [after]. destruct (c =? 0)%Z; [|reflexivity]. unfold note. rewrite (proj2 (Nat.eqb_neq _ _) N). reflexivity.
        - intros q cx N Hq. destruct (keep_step _ _ _ _ _ _ E Hq) as (cx' & C1 & C2 & _); [congruence|]. eauto. }
      destruct HO' as (P1 & P2 & P3). split; [|split; [exact P2|]].
      + intros q b Hq. specialize (P1 q b Hq). cbv beta in P1. destruct (Nat.eqb_spec q o) as [Eqo|]; [rewrite Eqo; exact P1|exact P1].
      + intros q Hq. specialize (P3 q Hq). cbv beta in P3. destruct (Nat.eqb_spec q o) as [Eqo|]; [rewrite Eqo; exact P3|exact P3]. }
  destruct op as [nf ne|o|o|o f a cat|o x cats|o a|o name value|o g sched|o]; cbn [py_step py_allowed] in *.
  - unfold asserted. destruct ((0 <? nf)%Z && (0 <? ne)%Z) eqn:B; [|exists (mk_py h objs), Raised; auto]. apply andb_prop in B as [B _]. apply Z.ltb_lt in B. cbn [py_heap py_objs].
    destruct (step_returns O M parse_num dbg h l (Alloc (to_cint nf)) (proj1 HH) I) as (h' & r & E). rewrite E. cbn [rbind]. eexists _, _. split; [reflexivity|]. cbn [py_after]. pose proof (inv_step O M parse_num dbg _ _ (Alloc (to_cint nf)) _ _ (proj1 HH) I E) as HI'.
    pose proof (ctxs_step _ l (Alloc (to_cint nf)) _ _ (proj2 HH) I E) as HC'. exists (after l (Alloc (to_cint nf), r)). cbn [py_heap py_objs]. split; [split; assumption|]. destruct HO as (P1 & P2 & P3).
    assert (forall q cx, context_at h q = Some cx -> context_at h' q = Some cx /\ after l (Alloc (to_cint nf), r) q = l q) as KP.
    { intros q cx Hq. apply api_effect in E. inversion E; subst; try (match goal with H : about _ = _ |- _ => discriminate H end); [auto|]. rewrite context_app. pose proof Hq as Hq0. apply context_live in Hq. cbn [after]. unfold note. destruct (Nat.eqb_spec q (S (length h))); [lia|]. split; [|reflexivity].
      exact Hq0. }
    split; [|split].
    + intros o ob Ho. destruct (Nat.lt_ge_cases o (length objs)) as [L|L].
      * rewrite nth_error_app1 in Ho by exact L. destruct (P1 o ob Ho) as (A1 & A2). split; [exact A1|]. intros Hp. destruct (A2 Hp) as (B1 & B2 & cx & B3 & B4). destruct (KP _ _ B3) as (K1 & K2). rewrite K2. split; [exact B1|]. split; [exact B2|]. exists cx. auto.
      * rewrite nth_error_app2 in Ho by exact L. destruct (o - length objs) as [|j] eqn:Ej; [|destruct j; discriminate Ho]. cbn in Ho. injection Ho as <-. split; [left; split; [reflexivity|apply P3, L]|]. cbn [po_ptr po_nfeatures]. intros Hp.
        apply api_effect in E. inversion E; subst; try (match goal with H : about _ = _ |- _ => discriminate H end); [contradiction|]. cbn [after]. unfold note. rewrite Nat.eqb_refl. cbn [ad_live ad_rows]. split; [reflexivity|]. split; [lia|].
        rewrite context_app, Nat.eqb_refl. eexists. split; [reflexivity|]. cbn [cx_nfeatures]. rewrite !Z2Nat.id by lia. reflexivity.
    + assert (forall o ob, nth_error (objs ++ [mk_pyobj (Z.to_nat nf) (-1) (match r with Pointer p => p | _ => 0 end)]) o = Some ob -> (o < length objs /\ nth_error objs o = Some ob) \/ (o = length objs /\ po_ptr ob = match r with Pointer p => p | _ => 0 end)) as KA.
      { intros o ob Ho. destruct (Nat.lt_ge_cases o (length objs)) as [L|L]; [rewrite nth_error_app1 in Ho by exact L; auto|]. rewrite nth_error_app2 in Ho by exact L. right. destruct (o - length objs) as [|j] eqn:Ej; [|destruct j; discriminate Ho]. cbn in Ho. injection Ho as <-. split; [lia|reflexivity]. }
      assert (forall o ob, nth_error objs o = Some ob -> po_ptr ob <> 0 -> po_ptr ob <> match r with Pointer p => p | _ => 0 end) as KB.
      { intros o ob Ho Hp Eq. destruct (P1 o ob Ho) as (_ & A2). destruct (A2 Hp) as (_ & _ & cx & B3 & _). apply context_live in B3. apply api_effect in E. inversion E; subst; try (match goal with H : about _ = _ |- _ => discriminate H end); [congruence|]. lia. }
      intros o o' ob ob' Ho Ho' Hp Hpp. destruct (KA _ _ Ho) as [(L1 & N1)|(E1 & Q1)], (KA _ _ Ho') as [(L2 & N2)|(E2 & Q2)].
      * eapply P2; eassumption.
      * exfalso. apply (KB _ _ N1 Hp). congruence.
      * exfalso. apply (KB _ _ N2); congruence.
      * congruence.
    + intros o Ho. apply P3. rewrite app_length in Ho. lia.
  - apply CH; [exact HI| |reflexivity]. intros ob Ho Hp. cbn [py_objs] in Ho. destruct (DE o ob Ho Hp) as (st' & r & E & I'). eauto.
  - cbn [py_objs]. destruct (nth_error objs o) as [ob|] eqn:Ho; [|eauto]. destruct (Nat.eqb_spec (po_ptr ob) 0) as [|Hp]; [eauto|]. destruct (DE o ob Ho Hp) as (st' & r & E & I'). eauto.
  - apply CH; [exact HI| |reflexivity]. intros ob Ho Hp. cbn [py_objs] in Ho. destruct (set_feature_ok h l objs k o _ ob f a cat HH HO Ho Hp eq_refl A) as (h' & r & E & HH' & HO'). eexists _, _. split; [exact E|]. exists l. split; assumption.
  - apply CH; [exact HI| |reflexivity]. intros ob Ho Hp. cbn [py_objs] in Ho. unfold py_set_data, asserted. destruct (_ && _) eqn:B; [|exists (mk_py h objs), Raised; auto]. apply andb_prop in B as [_ B]. apply Nat.eqb_eq in B. cbn [py_heap].
    destruct A as [Ax Ar]. destruct (usable_obj _ _ _ _ _ _ HO Ho Hp) as (U & R). pose proof (to_cint_lt (Z.of_nat (x_rows x))) as TL.
    destruct (step_returns O M parse_num dbg h l (Refresh_data (po_ptr ob) (to_cint (Z.of_nat (x_rows x)))) (proj1 HH)) as (h' & r & E); [split; assumption|]. rewrite E. cbn [rbind].
    set (l' := after l (Refresh_data (po_ptr ob) (to_cint (Z.of_nat (x_rows x))), r)).
    assert (heap_ok h' l') as HH'.
    { split; [eapply (inv_step O M parse_num dbg); [apply HH|split; [exact U|exact TL]|exact E]|eapply ctxs_step; [apply HH| |exact E]; split; [exact U|exact TL]]. }
    pose proof HO as (P1 & _ & _). destruct (P1 o ob Ho) as (A1 & A2). destruct (A2 Hp) as (B1 & B2 & cx & B3 & B4).
    assert (objs_ok h' l' (upd objs o (mk_pyobj (po_nfeatures ob) (Z.of_nat (x_rows x)) (po_ptr ob))) (fun q => if q =? o then x_rows x else k q)) as HO'.
    { eapply objs_upd; [exact HO|exact Ho|exact Hp|left; reflexivity| | |].
      - split; [right; split; [reflexivity|exact Ax]|]. cbn [po_ptr po_nfeatures]. intros _. destruct (keep_step _ _ _ _ _ _ E B3) as (cx' & C1 & C2 & _); [discriminate|].
        assert (ad_live (l' (po_ptr ob)) = true /\ ad_rows (l' (po_ptr ob)) <= x_rows x) as (Q1 & Q2).
        { subst l'. pose proof (to_cint_le (Z.of_nat (x_rows x))) as TE. pose proof E as E0. apply api_effect in E. inversion E; subst.
          - cbn [after Z.eqb]. split; [exact B1|]. destruct (Z.lt_ge_cases (Z.of_nat (x_rows x)) (2 ^ 31)) as [L|L].
            + exfalso. rewrite to_cint_small in E0 by lia. cbn [api_call] in E0. unfold bb_refresh_data in E0. rewrite (proj2 (Z.ltb_lt _ _)) in E0 by lia. cbn [rassert rbind] in E0. rewrite (proj2 (deref_ok O _ (po_ptr ob) cx) B3) in E0. cbn [rbind catch_unwind] in E0. apply Ok_inj in E0. discriminate E0.
            + pose proof (proj1 HH (po_ptr ob)) as HA. rewrite B3 in HA. destruct HA as [_ HA]. destruct (cx_data cx) as [d|]; [destruct HA as (_ & HA & _); lia|lia].
          - cbn [after Z.eqb]. unfold note. rewrite Nat.eqb_refl. cbn [ad_live ad_rows]. split; [reflexivity|]. lia. }
        split; [exact Q1|]. split; [exact Q2|]. exists cx'. split; [exact C1|]. rewrite C2. exact B4.
      - intros q N. subst l'. destruct r; try reflexivity. cbn [after]. destruct (c =? 0)%Z; [|reflexivity]. unfold note. rewrite (proj2 (Nat.eqb_neq _ _) N). reflexivity.
      - intros q cx2 N Hq. destruct (keep_step _ _ _ _ _ _ E Hq) as (cx' & C1 & C2 & _); [discriminate|]. eauto. }
    unfold set_obj. cbn [py_objs]. assert (o < length objs) as L by (apply nth_error_Some; congruence).
    destruct (set_loop_ok x cats o (mk_pyobj (po_nfeatures ob) (Z.of_nat (x_rows x)) (po_ptr ob)) l' (upd objs o (mk_pyobj (po_nfeatures ob) (Z.of_nat (x_rows x)) (po_ptr ob))) (fun q => if q =? o then x_rows x else k q) Ar) with (fs := seq 0 (po_nfeatures ob)) (h := h') as (h2 & E2 & HH2 & HO2).
    + rewrite nth_error_upd, Nat.eqb_refl, (proj2 (Nat.ltb_lt _ _) L). reflexivity.
    + exact Hp.
    + rewrite Nat.eqb_refl. reflexivity.
    + exact HH'.
    + exact HO'.
    + apply Forall_forall. intros f Hf. apply in_seq in Hf. lia.
    + rewrite E2. cbn [rbind]. eexists _, _. split; [reflexivity|]. cbn [py_after]. exists l'. split; assumption.
  - apply CH; [exact HI| |reflexivity]. intros ob Ho Hp. cbn [py_objs] in Ho. destruct (set_feature_ok h l objs k o _ ob (Z.of_nat (po_nfeatures ob)) a false HH HO Ho Hp eq_refl A) as (h' & r & E & HH' & HO'). eexists _, _. split; [exact E|]. exists l. split; assumption.
  - apply CH; [exact HI| |reflexivity]. intros ob Ho Hp. cbn [py_objs] in Ho. unfold asserted. destruct (known_param name); [|exists (mk_py h objs), Raised; auto]. destruct (usable_obj _ _ _ _ _ _ HO Ho Hp) as (U & R).
    destruct (calm_step h l objs k (Set_config_field (po_ptr ob) name value) HH HO I U) as (h' & r & E & HH' & HO'). cbn [py_heap]. rewrite E. cbn [rbind]. eexists _, _. split; [reflexivity|]. exists l. split; assumption.
  - apply CH; [exact HI| |reflexivity]. intros ob Ho Hp. cbn [py_objs] in Ho. destruct (usable_obj _ _ _ _ _ _ HO Ho Hp) as (U & R).
    destruct (calm_step h l objs k (Train (po_ptr ob) g sched) HH HO I (conj U A)) as (h' & r & E & HH' & HO'). cbn [py_heap]. rewrite E. cbn [rbind]. eexists _, _. split; [reflexivity|]. exists l. split; assumption.
  - apply CH; [exact HI| |reflexivity]. intros ob Ho Hp. cbn [py_objs] in Ho. unfold asserted. destruct (Z.ltb_spec 0 (po_nexamples ob)); [|exists (mk_py h objs), Raised; auto]. destruct (usable_obj _ _ _ _ _ _ HO Ho Hp) as (U & R).
    destruct (calm_step h l objs k (Predict (po_ptr ob) (repeat (nofZ O 0) (Z.to_nat (po_nexamples ob)))) HH HO I) as (h' & r & E & HH' & HO').
    { split; [exact U|]. rewrite repeat_length. destruct HO as (P1 & _ & _). destruct (P1 o ob Ho) as ([(A1 & A2)|(A1 & A2)] & _); lia. }
    cbn [py_heap]. rewrite E. cbn [rbind]. eexists _, _. split; [reflexivity|]. exists l. split; assumption.
Qed.

(* ---- loading a matrix ---- *)
Lemma loop_exact cat : forall vs i (feat : list (num O)) lim card, i + length vs = length feat -> (cat = true -> Forall (fun v => check_categorical_value v = Done tt) vs) ->
  exists lim' card', set_feature_loop cat i vs feat lim card = (firstn i feat ++ vs, lim', card', Done tt).
Proof.
  induction vs as [|v t IH]; intros i feat lim card H Hc; cbn [set_feature_loop].
  - cbn [length] in H. rewrite Nat.add_0_r in H. rewrite app_nil_r, H, firstn_all. eauto.
  - assert (firstn (S i) (upd feat i v) ++ t = firstn i feat ++ v :: t) as Ef.
    { assert (firstn (S i) (upd feat i v) = firstn i feat ++ [v]) as ->; [|rewrite <- List.app_assoc; reflexivity]. cbn [length] in H. assert (i < length feat) as L by lia. clear -L. revert feat L. induction i as [|i IH]; intros [|x feat] L; cbn [length] in L; try lia; [reflexivity|].
      cbn [upd firstn app]. f_equal. apply IH. lia. }
    destruct cat.
    + assert (Forall (fun v => check_categorical_value v = Done tt) (v :: t)) as Hv by (apply Hc; reflexivity). inversion_clear Hv as [|? ? Hv1 Hv2]. rewrite Hv1.
      destruct (IH (S i) (upd feat i v) (extend_limits lim v) (Nat.max card (1 + into_cat v))) as (lim' & card' & E); [rewrite upd_length; cbn [length] in H; lia|intros _; exact Hv2|]. rewrite E, Ef. eauto.
    + destruct (IH (S i) (upd feat i v) (extend_limits lim v) card) as (lim' & card' & E); [rewrite upd_length; cbn [length] in H; lia|discriminate|]. rewrite E, Ef. eauto.
Qed.
Lemma set_exact nf d f vs cat : data_ok nf d -> f <= nf -> length vs = d_nexamples d -> (cat = true -> Forall (fun v => check_categorical_value v = Done tt) vs) ->
  exists d' ft, set_feature_data d f vs cat = Ok (d', Done tt) /\ d_features d' = upd (d_features d) f vs /\ d_max_nbins d' = d_max_nbins d /\
    d_ftypes d' = upd (d_ftypes d) f ft /\ (cat = true -> ft <> Numerical) /\ (cat = false -> nth_error (d_ftypes d) f = Some ft) /\ d_nexamples d' = d_nexamples d /\ data_ok nf d'.
Proof.
  intros HD Hf Lv Hc. pose proof HD as (D1 & D2 & D3 & D4 & D5 & D6 & D7 & D8). destruct (nth_error (d_features d) f) as [feat|] eqn:E1; [|apply nth_error_None in E1; lia]. destruct (nth_error (d_limits d) f) as [lim|] eqn:E2; [|apply nth_error_None in E2; lia].
  destruct (nth_error (d_cards d) f) as [card|] eqn:E3; [|apply nth_error_None in E3; lia]. destruct (nth_error (d_ftypes d) f) as [ft|] eqn:E4; [|apply nth_error_None in E4; lia].
  assert (length feat = d_nexamples d) as Lf by (rewrite Forall_forall in D8; apply D8; eapply nth_error_In, E1).
  destruct (loop_exact cat vs 0 feat lim card) as (lim' & card' & EL); [lia|exact Hc|].
  assert (set_feature_data d f vs cat = Ok (mk_data (d_max_nbins d) (d_nfeatures d) (d_nexamples d) (upd (d_features d) f vs) (upd (d_limits d) f lim') (upd (d_ftypes d) f (if cat then if d_max_nbins d <? card' then HiCardCat else LoCardCat else ft)) (upd (d_cards d) f card'), Done tt)) as ES.
  { unfold set_feature_data. rewrite Lv, Nat.eqb_refl. cbn [rassert rbind]. rewrite (proj2 (idx_ok _ _ _ _) E1). cbn [rbind]. rewrite (proj2 (idx_ok _ _ _ _) E2). cbn [rbind]. rewrite (proj2 (idx_ok _ _ _ _) E3). cbn [rbind].
    rewrite Lf, Nat.eqb_refl. cbn [rassert rbind]. rewrite EL. rewrite (proj2 (idx_ok _ _ _ _) E4). cbn [rbind firstn app]. reflexivity. }
  eexists _, _. split; [exact ES|]. cbn [d_features d_max_nbins d_ftypes d_nexamples]. split; [reflexivity|]. split; [reflexivity|]. split; [reflexivity|]. split; [intros ->; destruct (_ <? _); discriminate|]. split; [intros ->; reflexivity|]. split; [reflexivity|].
  eapply data_ok_set; [exact HD|exact ES].
Qed.
Lemma call_exact h p c d f col cat : context_at h p = Some c -> cx_data c = Some d -> data_ok (cx_nfeatures c) d -> (0 <= f <= Z.of_nat (cx_nfeatures c))%Z -> d_nexamples d <= length col ->
  (cat <> 0%Z -> Forall (fun v => check_categorical_value v = Done tt) col) ->
  exists d' ft, api h (Set_feature_data p f col cat) = Ok (store h p (Some (mk_context (cx_config c) (cx_nfeatures c) (Some d') (cx_model c))), Code 0) /\
    d_features d' = upd (d_features d) (Z.to_nat f) (firstn (d_nexamples d) col) /\ d_max_nbins d' = d_max_nbins d /\ d_ftypes d' = upd (d_ftypes d) (Z.to_nat f) ft /\ (cat <> 0%Z -> ft <> Numerical) /\
    (cat = 0%Z -> nth_error (d_ftypes d) (Z.to_nat f) = Some ft) /\ d_nexamples d' = d_nexamples d /\ data_ok (cx_nfeatures c) d'.
Proof.
  intros Hc Hd HD Hf Hl Hcat. destruct (set_exact (cx_nfeatures c) d (Z.to_nat f) (firstn (d_nexamples d) col) (negb (cat =? 0)%Z) HD) as (d' & ft & E & A1 & A2 & A3 & A4 & A5 & A6 & A7); [lia|rewrite firstn_length; lia| |].
  { intros B. assert (cat <> 0%Z) as N by (intros ->; discriminate B). specialize (Hcat N). rewrite Forall_forall in *. intros v Hv. apply Hcat. rewrite <- (firstn_skipn (d_nexamples d) col). apply in_or_app. left. exact Hv. }
  exists d', ft. split.
  - cbn [api_call]. unfold bb_set_feature_data. rewrite (proj2 (deref_ok _ _ _ _) Hc). cbn [rbind]. replace (_ && _) with true by (symmetry; apply andb_true_intro; split; apply Z.leb_le; lia). cbn [rassert rbind]. rewrite Hd. cbn [expect rbind].
    unfold raw_parts. rewrite (proj2 (Nat.leb_le _ _) Hl). cbn [rbind]. rewrite E. cbn [rbind catch_unwind]. reflexivity.
  - split; [exact A1|]. split; [exact A2|]. split; [exact A3|]. split; [intros N; apply A4; destruct (Z.eqb_spec cat 0); [contradiction|reflexivity]|]. split; [intros ->; apply A5; reflexivity|]. split; assumption.
Qed.

Definition same_ctx (c c' : context O) : Prop := cx_config c' = cx_config c /\ cx_nfeatures c' = cx_nfeatures c /\ cx_model c' = cx_model c.
(* the first columns are loaded, the others are as new *)
Definition loaded (x : matrix O) (cats : list nat) (n : nat) (d : data O) : Prop :=
  forall j, j <= length (x_cols x) ->
    (j < n -> nth_error (d_features d) j = nth_error (x_cols x) j /\ exists ft, nth_error (d_ftypes d) j = Some ft /\ (ft = Numerical <-> ~ In j cats)) /\ (n <= j -> nth_error (d_ftypes d) j = Some Numerical).
Lemma load_loop (x : matrix O) cats objs ob c : rectangular x -> x_numt x = true -> length (x_cols x) = po_nfeatures ob -> (Z.of_nat (po_nfeatures ob) < 2 ^ 31)%Z ->
  (forall f col, In f cats -> nth_error (x_cols x) f = Some col -> Forall (fun v => check_categorical_value v = Done tt) col) ->
  forall len a h c1 d, a + len = po_nfeatures ob -> context_at h (po_ptr ob) = Some c1 -> same_ctx c c1 -> cx_nfeatures c = po_nfeatures ob -> cx_data c1 = Some d -> data_ok (cx_nfeatures c) d -> d_nexamples d = x_rows x -> loaded x cats a d ->
  exists h' c' d', foldM (fun st f => let* col := idx (x_cols x) f in
                                let* (st', _) := py_set_feature M parse_num dbg st ob (Z.of_nat f) (mk_array (x_numt x) col) (existsb (Nat.eqb f) cats) in Ok st') (seq a len) (mk_py h objs) = Ok (mk_py h' objs) /\
    context_at h' (po_ptr ob) = Some c' /\ same_ctx c c' /\ cx_data c' = Some d' /\ data_ok (cx_nfeatures c) d' /\ d_nexamples d' = x_rows x /\ d_max_nbins d' = d_max_nbins d /\ loaded x cats (a + len) d' /\ (forall q, q <> po_ptr ob -> context_at h' q = context_at h q).
Proof.
  intros Hx Ht Hw Hb Hcat. induction len as [|len IH]; intros a h c1 d Hl Hc1 Hs Hn Hd HD Hr HL.
  { cbn [seq foldM]. exists h, c1, d. rewrite Nat.add_0_r. auto 12. }
  cbn [seq foldM]. destruct (nth_error (x_cols x) a) as [col|] eqn:Ec; [|apply nth_error_None in Ec; lia]. rewrite (proj2 (idx_ok _ _ _ _) Ec). cbn [rbind].
  assert (length col = x_rows x) as Lc by (unfold rectangular in Hx; rewrite Forall_forall in Hx; apply Hx; eapply nth_error_In, Ec).
  pose proof Hs as (S1 & S2 & S3).
  destruct (call_exact h (po_ptr ob) c1 d (Z.of_nat a) col (if existsb (Nat.eqb a) cats then 1%Z else 0%Z) Hc1 Hd) as (d' & ft & E & A1 & A2 & A3 & A4 & A5 & A6 & A7).
  { rewrite S2. exact HD. } { rewrite S2, Hn. lia. } { lia. }
  { intros N. apply (Hcat a); [|exact Ec]. destruct (existsb (Nat.eqb a) cats) eqn:Ex; [|contradiction]. apply existsb_exists in Ex as (y & Hy & Ey). apply Nat.eqb_eq in Ey. subst y. exact Hy. }
  assert (py_set_feature M parse_num dbg (mk_py h objs) ob (Z.of_nat a) (mk_array (x_numt x) col) (existsb (Nat.eqb a) cats) = Ok (mk_py (store h (po_ptr ob) (Some (mk_context (cx_config c1) (cx_nfeatures c1) (Some d') (cx_model c1)))) objs, Nothing)) as EP.
  { unfold py_set_feature, asserted. cbn [a_numt a_values py_heap py_objs]. rewrite Ht. replace (true && _ && _) with true by (symmetry; apply andb_true_intro; split; [apply andb_true_intro; split; [reflexivity|apply Z.leb_le; lia]|apply Z.leb_le; lia]).
    rewrite to_cint_small by lia. rewrite E. reflexivity. }
  rewrite EP. cbn [rbind]. clear EP. pose proof (context_live _ _ _ _ Hc1) as Lp. rewrite Nat2Z.id in *. pose proof HD as (D1 & D2 & D3 & D4 & D5 & D6 & D7 & D8).
  specialize (IH (S a) (store h (po_ptr ob) (Some (mk_context (cx_config c1) (cx_nfeatures c1) (Some d') (cx_model c1)))) (mk_context (cx_config c1) (cx_nfeatures c1) (Some d') (cx_model c1)) d').
  destruct IH as (h' & c' & d2 & B1 & B2 & B3 & B4 & B5 & B6 & B7 & B8 & B9).
  - lia.
  - rewrite context_store by exact Lp. rewrite Nat.eqb_refl. reflexivity.
  - split; [exact S1|]. split; [exact S2|exact S3].
  - exact Hn.
  - reflexivity.
  - rewrite S2 in A7. exact A7.
  - congruence.
  - intros j Hj. rewrite A1, A3, !nth_error_upd. destruct (HL j Hj) as (L1 & L2). rewrite D4, D6, Hn. destruct (Nat.eqb_spec a j) as [<-|N].
    + rewrite (proj2 (Nat.ltb_lt a (S (po_nfeatures ob)))) by lia. cbn [andb]. split; [|lia]. intros _. rewrite Hr, <- Lc, firstn_all. split; [symmetry; exact Ec|]. exists ft. split; [reflexivity|].
      destruct (existsb (Nat.eqb a) cats) eqn:Ex.
      * specialize (A4 ltac:(discriminate)). split; [intros ->; contradiction|]. intros Nc. destruct Nc. apply existsb_exists in Ex as (y & Hy & Ey). apply Nat.eqb_eq in Ey. subst y. exact Hy.
      * specialize (A5 eq_refl). rewrite (L2 (le_n _)) in A5. injection A5 as <-. split; [|reflexivity]. intros _ Hin. assert (existsb (Nat.eqb a) cats = true) as K by (apply existsb_exists; exists a; split; [exact Hin|apply Nat.eqb_refl]). congruence.
    + cbn [andb]. split; [intros L; apply L1; lia|intros L; apply L2; lia].
  - exists h', c', d2. rewrite B1. split; [reflexivity|]. split; [exact B2|]. split; [exact B3|]. split; [exact B4|]. split; [exact B5|]. split; [exact B6|]. split; [congruence|]. split; [replace (a + S len) with (S a + len) by lia; exact B8|].
    intros q Hq. rewrite (B9 q Hq). rewrite context_store by exact Lp. rewrite (proj2 (Nat.eqb_neq _ _) Hq). reflexivity.
Qed.

Lemma set_data_exact st k o ob x cats : pyinv st k -> nth_error (py_objs st) o = Some ob -> po_ptr ob <> 0 -> rectangular x -> x_numt x = true -> length (x_cols x) = po_nfeatures ob -> (Z.of_nat (po_nfeatures ob) < 2 ^ 31)%Z ->
  0 < x_rows x -> (Z.of_nat (x_rows x) < 2 ^ 31)%Z -> (forall f col, In f cats -> nth_error (x_cols x) f = Some col -> Forall (fun v => check_categorical_value v = Done tt) col) ->
  exists h' c c' d, step st (PySetData o x cats) = Ok (mk_py h' (upd (py_objs st) o (mk_pyobj (po_nfeatures ob) (Z.of_nat (x_rows x)) (po_ptr ob))), Nothing) /\
    context_at (py_heap st) (po_ptr ob) = Some c /\ context_at h' (po_ptr ob) = Some c' /\ same_ctx c c' /\ cx_nfeatures c = po_nfeatures ob /\ cx_data c' = Some d /\ data_ok (cx_nfeatures c) d /\ d_nexamples d = x_rows x /\ d_max_nbins d = c_max_nbins (cx_config c) /\
    loaded x cats (length (x_cols x)) d.
Proof.
  intros (l & HH & HO) Ho Hp Hx Ht Hw Hb Hr1 Hr2 Hcat. destruct HO as (P1 & _ & _). destruct (P1 o ob Ho) as (_ & A2). destruct (A2 Hp) as (B1 & B2 & c & B3 & B4). rewrite to_cint_small in B4 by lia. apply Nat2Z.inj in B4.
  pose proof (context_live _ _ _ _ B3) as Lp. destruct st as [h objs]. cbn [py_heap py_objs] in *.
  set (ob' := mk_pyobj (po_nfeatures ob) (Z.of_nat (x_rows x)) (po_ptr ob)). set (d0 := data_empty O (dcfg (cx_config c)) (cx_nfeatures c) (x_rows x)).
  set (c0 := mk_context (cx_config c) (cx_nfeatures c) (Some d0) (cx_model c)).
  destruct (load_loop x cats (upd objs o ob') ob' c Hx Ht Hw Hb Hcat (po_nfeatures ob) 0 (store h (po_ptr ob) (Some c0)) c0 d0) as (h' & c' & d & E1 & E2 & E3 & E4 & E5 & E6 & E7 & E8 & E9).
  - reflexivity.
  - subst c0. cbn [po_ptr ob']. rewrite context_store by exact Lp. rewrite Nat.eqb_refl. reflexivity.
  - split; [reflexivity|]. split; reflexivity.
  - exact B4.
  - reflexivity.
  - apply data_ok_empty; assumption.
  - reflexivity.
  - intros j Hj. split; [lia|]. intros _. subst d0. unfold data_empty. cbn [d_ftypes]. rewrite nth_error_repeat by lia. reflexivity.
  - exists h', c, c', d. split; [|cbn [ob' po_ptr] in E2; rewrite Hw; auto 12].
    cbn [py_step]. unfold checked. cbn [py_objs]. rewrite Ho. rewrite (proj2 (Nat.eqb_neq _ _) Hp). unfold py_set_data, asserted. rewrite Ht, Hw, Nat.eqb_refl. cbn [andb py_heap]. rewrite to_cint_small by lia.
    cbn [api_call]. unfold bb_refresh_data. rewrite (proj2 (Z.ltb_lt _ _)) by lia. cbn [rassert rbind]. rewrite (proj2 (deref_ok _ _ _ _) B3). cbn [rbind catch_unwind]. rewrite Nat2Z.id. unfold set_obj. cbn [py_objs].
    transitivity (let* st'' := Ok (mk_py h' (upd objs o ob')) in Ok (st'', @Nothing O)); [|reflexivity]. rewrite Ht in E1. rewrite <- E1. reflexivity.
Qed.
End Py.
