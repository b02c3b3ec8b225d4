(** f32 training of the squared error and of binary classification keeps all numbers finite. *)
From Coq Require Import Reals Psatz.
From Flocq Require Import Core BinarySingleNaN.
From Verif Require Import Base BaseProofs F32 F32Proofs Num ScaledProofs Config DataModel DatasetModel ObjectiveModel BoostSpec TotalSpec TotalProofs2 TotalProofs5.
Local Close Scope R_scope. Local Open Scope nat_scope.

Lemma idx_ex A (l : list A) i : i < length l -> exists x, idx l i = Ok x /\ nth_error l i = Some x.
Proof. intros H. destruct (nth_error l i) as [x|] eqn:E; [|apply nth_error_None in E; lia]. exists x. split; [apply idx_ok, E|reflexivity]. Qed.
Lemma nofnat_f n : (Z.of_nat n <= 2 ^ 24)%Z -> is_finite (nofnat f32ops n : f32) = true /\ B2R' (nofnat f32ops n : f32) = IZR (Z.of_nat n).
Proof. intros H. unfold nofnat. cbn [nofZ f32ops]. apply f_of_Z_exact. lia. Qed.

(* ---- predictions that grow by at most [Rb k] in iteration [k] ---- *)
Section Bounded.
Variable fexp_ fln_ : f32 -> f32.
Notation math := (f32math fexp_ fln_).
Variable target : list f32.
Variable n : nat.
Hypothesis Hn : length target = n.
Hypothesis Hpos : 0 < n.
Hypothesis Hbig : (Z.of_nat n <= 2 ^ 24)%Z.
Variable kind : obj_kind.
Variable lr gb : f32.
Hypothesis Hlr : bnd lr 1.
Variable K : nat.
Variables Pb Rb : nat -> R.
Hypothesis HP : forall k, k <= K -> okb (Pb k).
Hypothesis HR : forall k, k < K -> okb (Rb k).
Hypothesis Hstep : forall k, k < K -> (Pb k + Rb k <= Pb (S k))%R.

Definition binv (ob : objective f32ops) : Prop :=
  ob_kind ob = kind /\ ob_lr ob = lr /\ ob_bound ob = gb /\ length (ob_preds ob) = n /\ length (ob_grads ob) = n.
Definition preds_in (k : nat) (done : list nat) (ps : list f32) : Prop := forall i p, nth_error ps i = Some p -> bnd p (Pb (S k)) /\ (~ In i done -> bnd p (Pb k)).
Definition grads_in (ob : objective f32ops) : Prop := kind = Binary -> forall g : f32, In g (ob_grads ob) -> bnd g 2.
Definition before (k : nat) (ob : objective f32ops) : Prop := binv ob /\ forall p : f32, In p (ob_preds ob) -> bnd p (Pb k).
Definition within (k : nat) (done : list nat) (ob : objective f32ops) : Prop := binv ob /\ grads_in ob /\ preds_in k done (ob_preds ob).

Lemma Pb_mono k : k < K -> (Pb k <= Pb (S k))%R.
Proof. intros Hk. pose proof (Hstep k Hk). destruct (HR k Hk) as [_ [H0 _]]. lra. Qed.
Lemma within_before k done ob : within k done ob -> before (S k) ob.
Proof. intros (H1 & _ & H2). split; [exact H1|]. intros p Hp. apply In_nth_error in Hp as [i Hi]. apply (H2 i p Hi). Qed.
Lemma before_within k ob : k < K -> before k ob -> preds_in k [] (ob_preds ob).
Proof. intros Hk (_ & H2) i p Hi. pose proof (H2 p (nth_error_In _ _ Hi)) as Hb. split; [eapply bnd_le; [exact Hb|apply Pb_mono, Hk]|auto]. Qed.

Lemma upd_in k done ps i (x : f32) : k < K -> preds_in k done ps -> bnd x (Pb (S k)) -> preds_in k (i :: done) (upd ps i x).
Proof.
  intros Hk HPs Hx j p Hj. rewrite nth_error_upd in Hj. destruct (Nat.eqb_spec i j) as [E|E].
  - subst j. destruct (Nat.ltb_spec i (length ps)) as [L|L]; cbn [andb] in Hj.
    + assert (x = p) as <- by congruence. split; [exact Hx|]. intros Hc. destruct Hc. left. reflexivity.
    + apply nth_error_None in L. congruence.
  - cbn [andb] in Hj. destruct (HPs j p Hj) as [A B]. split; [exact A|]. intros Hc. apply B. intros Hd. apply Hc. right. exact Hd.
Qed.
Lemma fold_preds k (v : f32) ex : k < K -> bnd v (Rb k) -> forall done ps, preds_in k done ps -> NoDup (ex ++ done) -> (forall j, In j ex -> j < length ps) ->
  exists ps', foldM (update_pred (O := f32ops) v) ex ps = Ok ps' /\ length ps' = length ps /\ preds_in k (ex ++ done) ps'.
Proof.
  intros Hk Hv. induction ex as [|j t IH]; intros done ps HPs HN Hex; cbn [foldM]; [eauto|]. cbn [app] in HN. apply NoDup_cons_iff in HN as [Hj HN].
  destruct (idx_ex _ ps j (Hex j (or_introl eq_refl))) as (p & E & En). unfold update_pred at 1. change (num f32ops) with f32 in *. rewrite E. cbn [rbind].
  assert (~ In j done) as Hjd by (intros Hc; apply Hj, in_or_app; right; exact Hc). destruct (HPs j p En) as [_ Hp]. specialize (Hp Hjd).
  assert (bnd (f_add p v) (Pb (S k))) as Hb by (eapply bnd_add; [exact Hp|exact Hv|apply Hstep, Hk|apply HP; lia]).
  rewrite set_idx_lt by (apply Hex; left; reflexivity). cbn [rbind]. change (nisfin f32ops (nadd f32ops p v)) with (f_is_finite (f_add p v)). rewrite (proj1 Hb : f_is_finite (f_add p v) = true). cbn [rassert rbind].
  destruct (IH (j :: done) (upd ps j (f_add p v))) as (ps' & E' & L' & Q').
  - apply upd_in; assumption.
  - apply (Permutation.Permutation_NoDup (Permutation.Permutation_middle _ _ _)). constructor; assumption.
  - intros i Hi. rewrite upd_length. apply Hex. right. exact Hi.
  - exists ps'. split; [exact E'|]. split; [rewrite L'; apply upd_length|]. intros i q Hi. destruct (Q' i q Hi) as [A B]. split; [exact A|]. intros Hc. apply B. intros Hd. apply Hc. apply in_app_or in Hd as [Hd|[<-|Hd]].
    + right. apply in_or_app. auto.
    + left. reflexivity.
    + right. apply in_or_app. auto.
Qed.

(** The value of a leaf before the learning rate, for examples not handled before. *)
Hypothesis Hraw : forall k ex done ob, k < K -> within k done ob -> ex <> [] -> length ex <= n -> (forall j, In j ex -> j < n /\ ~ In j done) -> exists v : f32, raw_leaf_value math target ex ob = Ok v /\ bnd v (Rb k).

Lemma leaf_bounded k ex done ob : k < K -> within k done ob -> ex <> [] -> NoDup (ex ++ done) -> (forall j, In j ex -> j < n) ->
  exists v ob', obj_leaf_value math target ex ob = Ok (v, ob') /\ nisfin f32ops v = true /\ bnd v (Rb k) /\ within k (ex ++ done) ob'.
Proof.
  intros Hk HW Hne HN Hex. assert (NoDup ex) as HNe by (clear - HN; induction ex as [|a l IH]; [constructor|]; cbn in HN; apply NoDup_cons_iff in HN as [Ha HN]; constructor; [intros Hc; apply Ha, in_or_app; auto|auto]).
  assert (length ex <= n) as Hl. { rewrite <- (seq_length n 0). apply NoDup_incl_length; [exact HNe|]. intros j Hj. apply in_seq. specialize (Hex j Hj). lia. }
  assert (forall j, In j ex -> ~ In j done) as Hd.
  { intros j Hj Hc. clear - HN Hj Hc. induction ex as [|a l IH]; [destruct Hj|]. cbn in HN. apply NoDup_cons_iff in HN as [Ha HN]. destruct Hj as [->|Hj]; [apply Ha, in_or_app; auto|auto]. }
  destruct (Hraw k ex done ob Hk HW Hne Hl) as (v & Ev & Hv); [intros j Hj; split; auto|]. destruct HW as ((W1 & W2 & W3 & W4 & W5) & W6 & W7).
  assert (bnd (f_mul lr v) (Rb k)) as Hm. { eapply bnd_mul; [exact Hlr|exact Hv| |apply HR, Hk]. lra. }
  unfold obj_leaf_value. rewrite Ev. cbn [rbind]. unfold update_predictions. rewrite W2. change (nmul f32ops lr v) with (f_mul lr v).
  destruct (fold_preds k (f_mul lr v) ex Hk Hm done (ob_preds ob) W7 HN) as (ps & Eps & Lps & Qps); [intros j Hj; specialize (Hex j Hj); change (num f32ops) with f32 in *; lia|].
  change (num f32ops) with f32 in *. rewrite Eps. cbn [rbind]. eexists _, _. split; [reflexivity|]. split; [exact (proj1 Hm)|]. split; [exact Hm|].
  split; [|split].
  - unfold binv. cbn [ob_kind ob_lr ob_bound ob_preds ob_grads]. change (num f32ops) with f32 in *. rewrite Lps. auto 6.
  - exact W6.
  - exact Qps.
Qed.
Lemma oob_bounded k i v done ob : k < K -> within k done ob -> i < n -> ~ In i done -> bnd v (Rb k) ->
  exists ob', update_out_of_bag i (nmul f32ops (nofZ f32ops 1) (nadd f32ops v (nofZ f32ops 0))) ob = Ok ob' /\ within k (i :: done) ob'.
Proof.
  intros Hk ((W1 & W2 & W3 & W4 & W5) & W6 & W7) Hi Hd Hv. pose proof (bnd_ofZ 1 ltac:(cbn; lia)) as B1. pose proof (bnd_ofZ 0 ltac:(cbn; lia)) as B0. cbn [Z.abs] in B1, B0.
  assert (bnd (f_mul (f_of_Z 1) (f_add v (f_of_Z 0))) (Rb k)) as Hm.
  { eapply bnd_mul; [exact B1|eapply (bnd_add v _ _ 0); [exact Hv|exact B0| |apply HR, Hk]| |apply HR, Hk]; lra. }
  unfold update_out_of_bag. destruct (idx_ex _ (ob_preds ob) i) as (p & E & En); [lia|]. destruct (W7 i p En) as [_ Hp]. specialize (Hp Hd). change (num f32ops) with f32 in *. rewrite E. cbn [rbind].
  change (nisfin f32ops p) with (f_is_finite p). rewrite (proj1 Hp : f_is_finite p = true). cbn [rassert rbind]. rewrite set_idx_lt by (change (num f32ops) with f32; lia). cbn [rbind]. eexists. split; [reflexivity|].
  split; [|split].
  - unfold binv. cbn [ob_kind ob_lr ob_bound ob_preds ob_grads]. change (num f32ops) with f32. rewrite upd_length. auto 6.
  - exact W6.
  - cbn [ob_preds]. apply upd_in; [exact Hk|exact W7|]. eapply bnd_add; [exact Hp|exact Hm|apply Hstep, Hk|apply HP; lia].
Qed.
End Bounded.

Lemma sum_bnd (r : R) (f : nat -> res f32) (m : nat) : (forall z, (0 <= z <= Z.of_nat m)%Z -> okb (IZR z * r)) -> forall ex j (s : f32), j + length ex <= m -> bnd s (IZR (Z.of_nat j) * r) ->
  (forall i, In i ex -> exists e, f i = Ok e /\ bnd e r) -> exists s', foldM (fun s i => let* e := f i in Ok (f_add s e)) ex s = Ok s' /\ bnd s' (IZR (Z.of_nat (j + length ex)) * r).
Proof.
  intros Hok. induction ex as [|i t IH]; intros j s Hm Hs Hf; cbn [foldM]; [exists s; rewrite Nat.add_0_r; auto|].
  destruct (Hf i (or_introl eq_refl)) as (e & E & He). rewrite E. cbn [rbind length] in *. replace (j + S (length t)) with (S j + length t) by lia. apply IH; [lia| |intros i' Hi; apply Hf; right; exact Hi].
  eapply bnd_add; [exact Hs|exact He| |apply Hok; lia]. replace (Z.of_nat (S j)) with (Z.of_nat j + 1)%Z by lia. rewrite plus_IZR. lra.
Qed.

(* ---- squared error ---- *)
Section Squared.
Variable fexp_ fln_ : f32 -> f32.
Notation math := (f32math fexp_ fln_).
Variable target : list f32.
Variable n : nat.
Hypothesis Hn : length target = n.
Hypothesis Hpos : 0 < n.
Variables (a : Z) (m : nat).
Hypothesis Ha : (0 <= a)%Z.
Hypothesis Hm : m <= 24.
Hypothesis Hnm : (Z.of_nat n <= 2 ^ Z.of_nat m)%Z.
Hypothesis Htgt : forall t, In t target -> bnd t (bpow radix2 a).
Variable K : nat.
Hypothesis HK : (a + Z.of_nat m + Z.of_nat K <= 127)%Z.
Variable lr gb : f32.

Lemma n_big : (Z.of_nat n <= 2 ^ 24)%Z.
Proof. pose proof (Z.pow_le_mono_r 2 (Z.of_nat m) 24). lia. Qed.
Lemma sums_ok e : (0 <= e)%Z -> (e + Z.of_nat m <= 127)%Z -> forall z, (0 <= z <= Z.of_nat n)%Z -> okb (IZR z * bpow radix2 e).
Proof. intros H0 H1 z Hz. pose proof n_big. apply (okb_scaled z e (Z.of_nat m)); lia. Qed.
Lemma mean_bnd (s : f32) e q : (0 <= e)%Z -> (e + Z.of_nat m <= 127)%Z -> 0 < q <= n -> bnd s (IZR (Z.of_nat q) * bpow radix2 e) -> bnd (f_div s (nofnat f32ops q)) (bpow radix2 e).
Proof.
  intros H0 H1 Hq Hs. pose proof n_big. destruct (nofnat_f q) as [Fq Bq]; [lia|]. eapply bnd_div; [exact Hs|exact Fq| |rewrite Bq; apply Rle_refl|rewrite Rmult_comm; apply Rle_refl|apply okb_bpow; lia]. apply (IZR_lt 0). lia.
Qed.
Lemma raw_squared k ex done ob : k < K -> within n L2 lr gb (pred_bound a) k done ob -> ex <> [] -> length ex <= n -> (forall j, In j ex -> j < n /\ ~ In j done) ->
  exists v : f32, raw_leaf_value math target ex ob = Ok v /\ bnd v (res_bound a k).
Proof.
  intros Hk ((W1 & W2 & W3 & W4 & W5) & W6 & W7) Hne Hl Hex. unfold raw_leaf_value. rewrite W1.
  destruct (sum_bnd (bpow radix2 (a + Z.of_nat k + 1)) (residual (O := f32ops) target (ob_preds ob)) n (sums_ok (a + Z.of_nat k + 1) ltac:(lia) ltac:(lia)) ex 0 (zero f32ops)) as (s & E & Hs).
  - cbn. lia.
  - pose proof (bnd_ofZ 0 ltac:(cbn; lia)) as H0. cbn [Z.abs Z.of_nat] in *. rewrite Rmult_0_l. exact H0.
  - intros i Hi. destruct (Hex i Hi) as [Hin Hd]. unfold residual. destruct (idx_ex f32 target i) as (t & Et & Nt); [change (num f32ops) with f32 in *; lia|]. destruct (idx_ex _ (ob_preds ob) i) as (p & Ep & Np); [change (num f32ops) with f32 in *; lia|]. change (num f32ops) with f32 in *. rewrite Et. cbn [rbind]. rewrite Ep. cbn [rbind].
    eexists. split; [reflexivity|]. apply (resid_bnd a Ha k); [lia|apply Htgt; eapply nth_error_In, Nt|]. apply (proj2 (W7 i p Np)). exact Hd.
  - change (nadd f32ops) with f_add. change (num f32ops) with f32 in *. rewrite E. cbn [rbind]. eexists. split; [reflexivity|]. cbn [Nat.add] in Hs. apply (mean_bnd s _ (length ex)); [lia|lia| |exact Hs]. destruct ex; [contradiction|cbn in *; lia].
Qed.
Lemma init_squared dbg (cfg : config f32ops) : c_learning_rate cfg = lr -> exists ob, obj_initialize math dbg cfg target (objective_new f32ops L2) = Ok ob /\
  before n L2 lr (ndiv f32ops (nofZ f32ops 5) (nofZ f32ops 4)) (pred_bound a) 0 ob.
Proof.
  intros El. unfold obj_initialize. cbn [ob_kind objective_new]. eexists. split; [reflexivity|]. unfold before, binv. cbn [ob_kind ob_lr ob_bound ob_preds ob_grads initialize_base objective_new]. rewrite !repeat_length. change (num f32ops) with f32 in *. split; [auto|].
  intros p Hp. apply repeat_spec in Hp. subst p. rewrite pred_0. rewrite Hn.
  destruct (sum_bnd (bpow radix2 a) (fun i => idx target i) n (sums_ok a ltac:(lia) ltac:(lia)) (seq 0 n) 0 (zero f32ops)) as (s & E & Hs).
  - rewrite seq_length. cbn. lia.
  - pose proof (bnd_ofZ 0 ltac:(cbn; lia)) as H0. cbn [Z.abs Z.of_nat] in *. rewrite Rmult_0_l. exact H0.
  - intros i Hi. apply in_seq in Hi. destruct (idx_ex _ target i) as (t & Et & Nt); [lia|]. exists t. split; [exact Et|]. apply Htgt. eapply nth_error_In, Nt.
  - assert (s = nsum (O := f32ops) target) as ->.
    { clear - E Hn. unfold nsum. change (nadd f32ops) with f_add. change (num f32ops) with f32 in *. subst n. generalize (zero f32ops) E. clear E. intros z. change (num f32ops) with f32 in z. revert z s.
      assert (forall (pre l : list f32) z s, foldM (fun (s : f32) i => let* e := idx (pre ++ l) i in Ok (f_add s e)) (seq (length pre) (length l)) z = Ok s -> s = fold_left f_add l z) as H.
      { intros pre l. revert pre. induction l as [|x l IH]; intros pre z s E; cbn [length seq foldM fold_left] in *; [congruence|].
        assert (idx (pre ++ x :: l) (length pre) = Ok x) as Ex by (apply idx_ok; rewrite nth_error_app2, Nat.sub_diag by lia; reflexivity). rewrite Ex in E. cbn [rbind] in E. apply (IH (pre ++ [x])). rewrite <- app_assoc, app_length. cbn [app length]. rewrite Nat.add_1_r. exact E. }
      intros z s E. exact (H [] target z s E). }
    rewrite seq_length in Hs. cbn [Nat.add] in Hs. apply (mean_bnd _ a n); [lia|lia|lia|exact Hs].
Qed.
Lemma upd_squared dbg (cfg : config f32ops) (d : data f32ops) k ob : d_nexamples d = n -> no_hicard d -> k < K -> before n L2 lr gb (pred_bound a) k ob ->
  exists ob', obj_update math target ob = Ok ob' /\ usable_gradients dbg cfg d (ob_grads ob') (obj_bounds ob') /\ within n L2 lr gb (pred_bound a) k [] ob'.
Proof.
  intros Hd HN Hk HB. pose proof HB as ((W1 & W2 & W3 & W4 & W5) & W6). unfold obj_update. change (num f32ops) with f32 in *. rewrite W4, W5, Hn, Nat.eqb_refl. cbn [rassert rbind]. rewrite W1.
  destruct (m_limits math _) as [mn mx]. eexists. split; [reflexivity|]. cbn [ob_grads].
  assert (length (pair_gradients (O := f32ops) math L2 (zero f32ops) target (ob_preds ob)) = n) as HL by (unfold pair_gradients; rewrite map_length, combine_length; change (num f32ops) with f32 in *; lia).
  split; [|split; [|split]].
  - split; [change (num f32ops) with f32 in *; rewrite HL; symmetry; exact Hd|]. split; [|left; exact HN]. intros g Hg. unfold pair_gradients in Hg. apply in_map_iff in Hg as ([t p] & <- & Htp). cbn [fst snd gradient].
    pose proof (in_combine_l _ _ _ _ Htp) as Ht. pose proof (in_combine_r _ _ _ _ Htp) as Hp.
    assert (bnd (f_neg (f_sub t p)) (res_bound a k)) as Hb. { apply bnd_neg. apply (resid_bnd a Ha k); [lia|apply Htgt, Ht|apply W6, Hp]. }
    exact (bnd_eq _ (proj1 Hb)).
  - unfold binv. cbn [ob_kind ob_lr ob_bound ob_preds ob_grads]. auto 6.
  - intros E. discriminate.
  - cbn [ob_preds]. apply (before_within n L2 lr gb K (pred_bound a) (res_bound a)); try assumption.
    + intros k' Hk'. apply res_ok; lia.
    + intros k' _. apply pred_step.
Qed.
End Squared.
