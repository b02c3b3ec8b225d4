(** Memory safety of the library behind the C API (C50). *)
From Coq Require Import String Lia ZArith Permutation.
From Verif Require Import Base BaseProofs Num F32 DataModel Config ConfigModel ConfigProps TreeModel LearnerModel DatasetModel ObjectiveModel MetricModel BoostModel DatasetProps LearnerProps BoostProps
  CapiModel CapiSpec CapiProps SafeSpec SafeProofs SafeProofs2 SafeProofs3.
Local Open Scope nat_scope.

Section Safe.
Variable O : numops.
Variable M : mathops O.
Variable parse_num : string -> option (num O).
Variable dbg : bool.
Notation api := (api_call M parse_num dbg).
Notation run := (api_run M parse_num dbg).

(** Training is safe for every configuration and all data with at most 2^31 target values (it may panic: it has no undefined behaviour and terminates). *)
Theorem C50_train : forall cfg d sched kind metrics g, (forall iter node jobs, Permutation jobs (sched iter node jobs)) ->
  (forall target, get_target d = Ok target -> (N.of_nat (length target) <= 2 ^ 31)%N) -> safe (boost_train M dbg cfg d sched kind metrics g).
Proof. intros cfg d sched kind metrics g Hs Ht. apply boost_safe; assumption. Qed.
(** Predicting is safe for every model (trained or not), all data and every buffer. *)
Theorem C50_predict : forall (m : additive_tree O) d out, safe (additive_predict_buf m d out).
Proof. intros. apply safe_additive_predict. Qed.

(* ---- the ledger of the program and the contexts of the library agree ---- *)
Definition fits (d : data O) (n : nat) : Prop := d_nexamples d = n /\ (Z.of_nat n < 2 ^ 31)%Z /\ Forall (fun col => length col = n) (d_features d).
Definition agrees (a : address) (c : option (context O)) : Prop :=
  match c with
  | None => ad_live a = false
  | Some c => ad_live a = true /\ match cx_data c with None => ad_rows a = 0 | Some d => fits d (ad_rows a) end
  end.
Definition inv (h : heap O) (l : ledger) : Prop := forall p, agrees (l p) (context_at h p).

Lemma loop_length cat : forall vs i feat lim card feat' lim' card' r, @set_feature_loop O cat i vs feat lim card = (feat', lim', card', r) -> length feat' = length feat.
Proof.
  induction vs as [|v vs IH]; intros i feat lim card feat' lim' card' r E; cbn [set_feature_loop] in E; [injection E as <- _ _ _; reflexivity|].
  destruct cat; [destruct (check_categorical_value v)|]; try (injection E as <- _ _ _; apply upd_length); apply IH in E; rewrite E; apply upd_length.
Qed.
Lemma forall_upd A (P : A -> Prop) l i x : Forall P l -> P x -> Forall P (upd l i x).
Proof.
  intros H Hx. apply Forall_forall. intros y Hy. apply In_nth_error in Hy as (j & Ej). rewrite nth_error_upd in Ej. destruct (_ && _); [injection Ej as <-; exact Hx|].
  rewrite Forall_forall in H. apply H. eapply nth_error_In, Ej.
Qed.
Lemma fits_set d f vs cat d' r n : fits d n -> set_feature_data d f vs cat = Ok (d', r) -> fits d' n.
Proof.
  intros (H1 & H2 & H3) E. unfold set_feature_data in E.
  apply rbind_ok in E as (? & _ & E). apply rbind_ok in E as (feat & Ef & E). apply rbind_ok in E as (lim & _ & E). apply rbind_ok in E as (card & _ & E). apply rbind_ok in E as (? & El & E).
  destruct (set_feature_loop _ _ _ _ _ _) as [[[feat' lim'] card'] r0] eqn:S. apply rbind_ok in E as (ft & _ & E). apply Ok_inj in E. injection E as <- <-.
  split; [exact H1|]. split; [exact H2|]. cbn [d_features]. apply forall_upd; [exact H3|]. rewrite (loop_length _ _ _ _ _ _ _ _ _ _ S). apply idx_ok in Ef. rewrite Forall_forall in H3. apply H3. eapply nth_error_In, Ef.
Qed.
Lemma fits_empty cfg k n : (Z.of_nat n < 2 ^ 31)%Z -> fits (data_empty O cfg k n) n.
Proof. intros H. split; [reflexivity|]. split; [exact H|]. apply Forall_forall. intros c Hc. apply repeat_spec in Hc. subst c. apply repeat_length. Qed.

Lemma inv_note h l p a x : inv h l -> 0 < p <= length h -> agrees a x -> inv (store h p x) (note l p a).
Proof. intros H L A q. rewrite context_store by exact L. unfold note. destruct (q =? p); [exact A|apply H]. Qed.
Lemma inv_keep h l p x : inv h l -> 0 < p <= length h -> agrees (l p) x -> inv (store h p x) l.
Proof. intros H L A q. rewrite context_store by exact L. destruct (q =? p) eqn:Q; [apply Nat.eqb_eq in Q; subst q; exact A|apply H]. Qed.
Lemma inv_step h l c h' r : inv h l -> allowed l c -> api h c = Ok (h', r) -> inv h' (after l (c, r)).
Proof.
  intros H A E. apply api_effect in E. destruct E; try exact H.
  - cbn [after]. intros q. rewrite context_app. unfold note. destruct (q =? S (length h)); [split; reflexivity|apply H].
  - destruct c; exact H.
  - cbn [after Z.eqb]. apply inv_note; [exact H|eapply context_live; eassumption|reflexivity].
  - cbn [after Z.eqb]. apply inv_note; [exact H|eapply context_live; eassumption|]. cbn [agrees cx_data ad_rows ad_live]. split; [reflexivity|]. apply fits_empty. destruct A as [_ A]. lia.
  - assert (inv (store h p (Some (mk_context (cx_config c) (cx_nfeatures c) (Some d') (cx_model c)))) l) as HI.
    { apply inv_keep; [exact H|eapply context_live; eassumption|]. specialize (H p). rewrite H0 in H. destruct H as [HL HD]. split; [exact HL|]. rewrite H2 in HD. cbn [cx_data]. eapply fits_set; eassumption. }
    destruct r; exact HI.
  - cbn [after]. apply inv_keep; [exact H|eapply context_live; eassumption|]. specialize (H p). rewrite H0 in H. exact H.
  - cbn [after]. apply inv_keep; [exact H|eapply context_live; eassumption|]. specialize (H p). rewrite H0 in H. exact H.
Qed.

Lemma deref_usable h l p : inv h l -> usable l p -> deref h p = Panic \/ exists c, deref h p = Ok c /\ context_at h p = Some c.
Proof.
  intros H [->|HL]; [left; reflexivity|]. right. specialize (H p). destruct (context_at h p) as [c|] eqn:E; [|cbn in H; congruence]. exists c. split; [apply deref_ok, E|reflexivity].
Qed.
Lemma catch_safe (h : heap O) e m : safe m -> exists h' r, catch_unwind h e m = Ok (h', r).
Proof. intros HS. destruct (safe_cases _ _ HS) as [([h' r] & ->)| ->]; cbn [catch_unwind]; eauto. Qed.
Lemma safe_expect A (o : option A) : safe (expect o). Proof. destruct o; [apply safe_Ok|apply safe_Panic]. Qed.
Lemma step_returns h l c : inv h l -> allowed l c -> exists h' r, api h c = Ok (h', r).
Proof.
  intros H A. destruct c as [|n|p|p n|p f col cat|p name text|p g sched|p out]; cbn [api_call allowed] in *.
  - eauto.
  - apply catch_safe. unfold bb_alloc. sf.
  - apply catch_safe. unfold bb_dealloc. destruct (deref_usable _ _ _ H A) as [->|(c & -> & _)]; [apply safe_Panic|apply safe_Ok].
  - destruct A as [A _]. apply catch_safe. unfold bb_refresh_data. apply safe_bind; [apply safe_rassert|intros _ _]. destruct (deref_usable _ _ _ H A) as [->|(c & -> & _)]; [apply safe_Panic|apply safe_Ok].
  - destruct A as [A B]. apply catch_safe. unfold bb_set_feature_data. destruct (deref_usable _ _ _ H A) as [->|(c & -> & E)]; [apply safe_Panic|]. cbn [rbind].
    apply safe_bind; [apply safe_rassert|intros _ _]. specialize (H p). rewrite E in H. destruct H as [_ HD]. destruct (cx_data c) as [d|]; [|apply safe_Panic]. cbn [expect rbind].
    destruct HD as (HD & _). rewrite <- HD in B. unfold raw_parts. rewrite (proj2 (Nat.leb_le _ _) B). cbn [rbind]. apply safe_bind; [apply safe_set_feature_data|]. intros [d' r] _. apply safe_Ok.
  - apply catch_safe. unfold bb_set_config_field. destruct (deref_usable _ _ _ H A) as [->|(c & -> & E)]; [apply safe_Panic|]. cbn [rbind]. sf.
  - destruct A as [A B]. apply catch_safe. unfold bb_train. destruct (deref_usable _ _ _ H A) as [->|(c & -> & E)]; [apply safe_Panic|]. cbn [rbind].
    specialize (H p). rewrite E in H. destruct H as [_ HD]. destruct (cx_data c) as [d|]; [|apply safe_Panic]. cbn [expect rbind].
    apply safe_bind; [apply safe_expect|intros kind _]. apply safe_bind; [apply safe_expect|intros ms _]. apply safe_bind; [|intros; apply safe_Ok]. apply C50_train; [exact B|].
    intros target Et. unfold get_target, get_feature in Et. apply idx_ok in Et. destruct HD as (_ & HD & HF). rewrite Forall_forall in HF. rewrite (HF target) by (eapply nth_error_In, Et). lia.
  - destruct A as [A B]. unfold bb_predict, bb_predict_args. destruct (deref_usable _ _ _ H A) as [->|(c & -> & E)]; [cbn [rbind]; eauto|]. cbn [rbind].
    specialize (H p). rewrite E in H. destruct H as [_ HD]. destruct (cx_data c) as [d|]; [|cbn; eauto]. cbn [expect rbind]. destruct (cx_model c) as [m|]; [|cbn; eauto]. cbn [expect rbind].
    destruct HD as (HD & _). rewrite <- HD in B. unfold raw_parts. rewrite (proj2 (Nat.leb_le _ _) B). cbn [rbind]. destruct (safe_cases _ _ (C50_predict m d (firstn (d_nexamples d) out))) as [(ps & ->)| ->]; eauto.
Qed.

(** A program that follows the rules (null or live addresses, buffers with at least as many values as rows, fewer than 2^31 rows) runs to its end: every call returns, whatever else the arguments, the
    settings, the data and the failures of earlier calls are.  The rules are stated on what the program itself has seen, so they are its obligations and not the library's. *)
Theorem C50_program : forall cs, follows api nothing [] cs -> exists h rs, run [] cs = Ok (h, rs) /\ length rs = length cs.
Proof.
  assert (forall cs h l, inv h l -> follows api l h cs -> exists h' rs, run h cs = Ok (h', rs) /\ length rs = length cs) as K.
  { induction cs as [|c cs IH]; intros h l HI HF; cbn [api_run]; [eauto|]. cbn [follows] in HF. destruct HF as [A HF]. destruct (step_returns h l c HI A) as (h' & r & E). rewrite E. cbn [rbind].
    destruct (IH h' (after l (c, r))) as (h2 & rs & E2 & L2); [eapply inv_step; eassumption|apply HF, E|]. rewrite E2. cbn [rbind]. exists h2, (r :: rs). cbn. auto. }
  intros cs HF. apply (K cs [] nothing); [|exact HF]. intros [|[|p]]; reflexivity.
Qed.
(** The same for the next call after such a program; the state of the library is exactly as the program knows it: the live addresses have contexts, the others have none. *)
Theorem C50_call : forall cs h rs, follows api nothing [] cs -> run [] cs = Ok (h, rs) -> let l := known (combine cs rs) in
  (forall p, ad_live (l p) = true <-> context_at h p <> None) /\
  (forall p cx d, context_at h p = Some cx -> cx_data cx = Some d -> d_nexamples d = ad_rows (l p)) /\
  forall c, allowed l c -> exists h' r, api h c = Ok (h', r).
Proof.
  intros cs h rs HF E. cbv zeta. assert (inv h (known (combine cs rs))) as HI.
  { assert (forall cs h l h' rs, inv h l -> follows api l h cs -> run h cs = Ok (h', rs) -> inv h' (fold_left after (combine cs rs) l)) as K.
    { clear. induction cs as [|c cs IH]; intros h l h' rs HI HF E; cbn [api_run] in E; [injection E as <- <-; exact HI|]. cbn [follows] in HF. destruct HF as [A HF].
      apply rbind_ok in E as ([h1 r] & E1 & E). apply rbind_ok in E as ([h2 rs'] & E2 & E). injection E as <- <-. cbn [combine fold_left]. eapply IH; [|apply HF, E1|exact E2]. eapply inv_step; eassumption. }
    eapply K; [|exact HF|exact E]. intros [|[|p]]; reflexivity. }
  split; [|split].
  - intros p. specialize (HI p). destruct (context_at h p) as [c|]; cbn in HI; [destruct HI as [-> _]|rewrite HI]; split; try discriminate; congruence.
  - intros p cx d Hc Hd. specialize (HI p). rewrite Hc in HI. destruct HI as [_ HI]. rewrite Hd in HI. apply HI.
  - intros c A. eapply step_returns; eassumption.
Qed.

(** * What does not hold *)
(** A buffer with fewer values than rows is not noticed: it is read or written past its end. *)
Theorem C50_short_refuted : forall h p cx d, context_at h p = Some cx -> cx_data cx = Some d ->
  (forall f col cat, (0 <= f <= Z.of_nat (cx_nfeatures cx))%Z -> length col < d_nexamples d -> api h (Set_feature_data p f col cat) = UB) /\
  forall out, cx_model cx <> None -> length out < d_nexamples d -> api h (Predict p out) = UB.
Proof.
  intros h p cx d Hc Hd. apply deref_ok in Hc. split.
  - intros f col cat Hf L. cbn [api_call]. unfold bb_set_feature_data. rewrite Hc. cbn [rbind]. replace (_ && _) with true by (symmetry; apply andb_true_intro; split; apply Z.leb_le; lia). cbn [rassert rbind].
    rewrite Hd. cbn [expect rbind]. unfold raw_parts. rewrite (proj2 (Nat.leb_gt _ _) L). reflexivity.
  - intros out Hm L. cbn [api_call]. unfold bb_predict, bb_predict_args. rewrite Hc. cbn [rbind]. rewrite Hd. cbn [expect rbind]. destruct (cx_model cx); [|contradiction]. cbn [expect rbind].
    unfold raw_parts. rewrite (proj2 (Nat.leb_gt _ _) L). reflexivity.
Qed.
End Safe.

(** * Examples *)
(* a check of the rules, except for the schedules *)
Definition usableb (l : ledger) (p : nat) : bool := (p =? 0) || ad_live (l p).
Definition allowedb {O} (l : ledger) (c : call O) : bool :=
  match c with
  | Numt_nbytes | Alloc _ => true
  | Dealloc p | Set_config_field p _ _ | Train p _ _ => usableb l p
  | Refresh_data p n => usableb l p && (n <? 2 ^ 31)%Z
  | Set_feature_data p _ b _ | Predict p b => usableb l p && (ad_rows (l p) <=? length b)
  end.
Fixpoint followsb {O} (call1 : heap O -> call O -> res (heap O * reply O)) (l : ledger) (h : heap O) (cs : list (call O)) : bool :=
  match cs with
  | [] => true
  | c :: t => allowedb l c && match call1 h c with Ok (h', r) => followsb call1 (after l (c, r)) h' t | _ => true end
  end.
Lemma usableb_ok l p : usableb l p = true -> usable l p.
Proof. unfold usableb, usable. intros H. apply orb_prop in H as [H|H]; [left; apply Nat.eqb_eq, H|right; exact H]. Qed.
Lemma followsb_ok {O} call1 : forall cs l (h : heap O), Forall (fun c => match c with Train _ _ s => forall i n js, Permutation js (s i n js) | _ => True end) cs -> followsb call1 l h cs = true -> follows call1 l h cs.
Proof.
  induction cs as [|c cs IH]; intros l h Hs H; [exact I|]. cbn [followsb follows] in *. apply andb_prop in H as [H1 H2]. inversion_clear Hs as [|? ? Hc Hs']. split.
  - destruct c; cbn in *; try exact I; try (apply usableb_ok; exact H1).
    + apply andb_prop in H1 as [H1 H3]. split; [apply usableb_ok, H1|apply Z.ltb_lt, H3].
    + apply andb_prop in H1 as [H1 H3]. split; [apply usableb_ok, H1|apply Nat.leb_le, H3].
    + split; [apply usableb_ok, H1|]. exact Hc.
    + apply andb_prop in H1 as [H1 H3]. split; [apply usableb_ok, H1|apply Nat.leb_le, H3].
  - intros h' r E. rewrite E in H2. apply IH; [exact Hs'|exact H2].
Qed.
(** The program of C38_ex (failing calls, two contexts, training, predicting before and after) follows the rules, so it runs to its end. *)
Lemma ex_follows : followsb (api_call bst_math some_num false) nothing [] api_prog = true. Proof. vm_compute. reflexivity. Qed.
Example C50_ex : follows (api_call bst_math some_num false) nothing [] api_prog.
Proof.
  apply followsb_ok; [|exact ex_follows]. unfold api_prog. repeat (apply Forall_cons; [first [exact I|exact (fun _ => rev_sched_perm)]|]). constructor.
Qed.
Definition is_ub {A} (m : res A) : bool := match m with UB => true | _ => false end.
Lemma is_ub_ok {A} (m : res A) : is_ub m = true -> m = UB. Proof. destruct m; discriminate || reflexivity. Qed.
(** The rules are needed: a program that frees a context twice, and one with a buffer that is too short. *)
Example C50_ex_double_free : let cs := [Alloc 2; Dealloc 1; Dealloc 1] in ~ follows (api_call bst_math some_num false) nothing [] cs /\ api_run bst_math some_num false [] cs = UB.
Proof.
  intros cs. assert (api_run bst_math some_num false [] cs = UB) as E by (apply is_ub_ok; vm_compute; reflexivity). split; [|exact E]. intros HF. apply C50_program in HF as (h & rs & HF & _). rewrite E in HF. discriminate.
Qed.
Example C50_ex_short : let cs := [Alloc 1; Refresh_data 1 3; Set_feature_data 1 0 [fz 0; fz 1] 1] in ~ follows (api_call bst_math some_num false) nothing [] cs /\ api_run bst_math some_num false [] cs = UB.
Proof.
  intros cs. assert (api_run bst_math some_num false [] cs = UB) as E by (apply is_ub_ok; vm_compute; reflexivity). split; [|exact E]. intros HF. apply C50_program in HF as (h & rs & HF & _). rewrite E in HF. discriminate.
Qed.

Print Assumptions C50_train. Print Assumptions C50_predict. Print Assumptions C50_program. Print Assumptions C50_call. Print Assumptions C50_short_refuted.
