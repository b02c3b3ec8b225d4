From Coq Require Import Permutation Sorting.Sorted.
From Verif Require Import Base BaseProofs BitModel BitSpec BitProofs BitProofs2 SimdModel SliceModel SliceSpec SliceProofs SliceProofs2 SliceProps
  CountSumProofs IterModel IterSpec IterProofs Num ScaledModel DataModel Config TreeModel TreeSpec TreeProofs TreeProofs2 DatasetModel DatasetSpec DatasetProofs DatasetProofs2 DatasetProofs3 DatasetProofs4 DatasetProofs5
  RouteProps LearnerModel LearnerSpec TrainSpec LearnerProofs LearnerProofs2 LearnerProofs3 LearnerProofs4 LearnerProofs5 LearnerProofs7.

(* ---- ids of the children ---- *)
Lemma compress_id O dbg (cfg : config O) p nd k r : compress_examples dbg cfg p nd k = Ok r -> nd_id r = nd_id nd.
Proof.
  unfold compress_examples. intros H. apply rbind_ok in H as (? & _ & H). apply rbind_ok in H as (? & _ & H). apply rbind_ok in H as (? & _ & H).
  apply rbind_ok in H as ([[[? ?] ?] ?] & _ & H). apply rbind_ok in H as (? & _ & H). apply rbind_ok in H as (? & _ & H). injection H as <-. reflexivity.
Qed.
Lemma split_examples_id O dbg (cfg : config O) s sizes p cid sp f count grad r : split_examples dbg cfg s sizes p cid sp f count grad = Ok r -> nd_id r = cid.
Proof.
  unfold split_examples. intros H. apply rbind_ok in H as (? & _ & H). apply rbind_ok in H as (? & _ & H). apply rbind_ok in H as (? & _ & H).
  apply rbind_ok in H as ([? ?] & _ & H). destruct (_ && _); [|injection H as <-; reflexivity]. apply rbind_ok in H as (? & _ & H). apply compress_id in H. exact H.
Qed.
Lemma build_id O (cfg : config O) s bounds sched nd r : build_histograms cfg s bounds sched nd = Ok r -> nd_id r = nd_id nd.
Proof. unfold build_histograms. intros H. apply rbind_ok in H as (? & _ & H). apply rbind_ok in H as (? & _ & H). apply rbind_ok in H as (? & _ & H). injection H as <-. reflexivity. Qed.
Lemma left_right_id O dbg (cfg : config O) s sizes bounds sched p sp l r : get_left_right_n2s dbg cfg s sizes bounds sched p sp = Ok (l, r) ->
  nd_id l = left_child (nd_id p) /\ nd_id r = right_child (nd_id p).
Proof.
  unfold get_left_right_n2s. intros H. apply rbind_ok in H as (? & _ & H). apply rbind_ok in H as (? & _ & H). apply rbind_ok in H as (? & _ & H).
  apply rbind_ok in H as (l0 & E0 & H). apply rbind_ok in H as (l1 & E1 & H). apply rbind_ok in H as (r0 & E2 & H). apply rbind_ok in H as (r1 & E3 & H). injection H as <- <-.
  apply split_examples_id in E0, E2. apply build_id in E1. unfold derive_histograms in E3. apply rbind_ok in E3 as (? & _ & E3). injection E3 as <-. cbn [nd_id]. split; congruence.
Qed.

(* ---- the loop ends ---- *)
Definition depth_of (m : nat) : nat := Nat.log2 (m + 1).
Lemma depth_left m : depth_of (left_child m) = S (depth_of m).
Proof. unfold depth_of, left_child. replace (2 * m + 1 + 1) with (2 * (m + 1)) by lia. apply Nat.log2_double. lia. Qed.
Lemma depth_right m : depth_of (right_child m) = S (depth_of m).
Proof. unfold depth_of, right_child. replace (2 * m + 2 + 1) with (2 * (m + 1) + 1) by lia. apply Nat.log2_succ_double. lia. Qed.
Lemma depth_small D m : m < 2 ^ D - 1 -> depth_of m < D.
Proof. unfold depth_of. intros H. apply Nat.log2_lt_pow2; lia. Qed.
Definition weight (D : nat) (stack : list nat) : nat := list_sum (map (fun m => 2 ^ (D + 1 - depth_of m) - 1) stack).

Section Ends.
Variable O : numops.
Variable dbg : bool.
Variable cfg : config O.
Variable s : dataset O.
Variable sizes : list nat.
Variable bounds : num O * num O.
Variable sched : nat -> list job -> list job.
Variable St : Type.
Variable leaf_value : list nat -> St -> res (num O * St).
Notation D := (c_max_tree_depth cfg).

Definition ids_ok (stack : list (node O)) (t : tree O) : Prop := t_max_depth t = D /\ forall nd, In nd stack -> nd_id nd < 2 ^ D - 1.

Lemma step_weight nd rest t st stack' t' st' : ids_ok (nd :: rest) t -> train_step dbg cfg s sizes bounds sched St leaf_value nd rest t st = Ok (stack', t', st') ->
  ids_ok stack' t' /\ weight D (map nd_id stack') < weight D (map nd_id (nd :: rest)).
Proof.
  intros [Hd Hi] E. assert (nd_id nd < 2 ^ D - 1) as Hn by (apply Hi; left; reflexivity). pose proof (depth_small D _ Hn) as Hdep.
  assert (2 ^ (D - depth_of (nd_id nd)) <> 0) as Hpz by (apply Nat.pow_nonzero; lia).
  assert (2 ^ (D + 1 - depth_of (nd_id nd)) = 2 * 2 ^ (D - depth_of (nd_id nd))) as Hp by (replace (D + 1 - depth_of (nd_id nd)) with (S (D - depth_of (nd_id nd))) by lia; reflexivity).
  assert (forall t0 t1, t_max_depth t0 = D -> split_node t0 (nd_id nd) (sp_crit (split_none O)) = Ok t1 -> True) as _ by auto.
  unfold train_step in E. apply rbind_ok in E as (sp & Esp & E). destruct (is_no_split (sp_crit sp)).
  - apply rbind_ok in E as ((t1 & st1) & E & E'). injection E' as <- <- <-. unfold predict_leaf_value in E. apply rbind_ok in E as (? & _ & E). apply rbind_ok in E as ((? & ?) & _ & E).
    apply rbind_ok in E as (t2 & Et & E). injection E as <- <-. apply set_node_value_ok in Et as (_ & _ & ->). split; [split; [exact Hd|intros nd' H'; apply Hi; right; exact H']|].
    cbn [map]. unfold weight. cbn [map list_sum fold_right]. rewrite Hp. fold (list_sum (map (fun m => 2 ^ (D + 1 - depth_of m) - 1) (map nd_id rest))). lia.
  - destruct (negb (is_max_leaf_node t (left_child (nd_id nd)))) eqn:Emax.
    + apply rbind_ok in E as ((l & r) & Elr & E). apply rbind_ok in E as (t'' & Es & E). injection E as <- <- <-. apply left_right_id in Elr as [Il Ir].
      apply split_node_ok in Es as (old & _ & _ & _ & _ & ->). unfold is_max_leaf_node, max_ninternal in Emax. rewrite Hd in Emax. apply negb_true_iff, Nat.leb_gt in Emax.
      assert (right_child (nd_id nd) < 2 ^ D - 1) as Hr.
      { unfold left_child, right_child in *. destruct D as [|D']; [cbn in *; lia|]. cbn [Nat.pow] in *. lia. }
      split; [split; [exact Hd|]|].
      * intros nd' [<-|[<-|H']]; [rewrite Il; exact Emax|rewrite Ir; exact Hr|apply Hi; right; exact H'].
      * cbn [map]. unfold weight. cbn [map list_sum fold_right]. rewrite Il, Ir, depth_left, depth_right. replace (D + 1 - S (depth_of (nd_id nd))) with (D - depth_of (nd_id nd)) by lia. rewrite Hp.
        fold (list_sum (map (fun m => 2 ^ (D + 1 - depth_of m) - 1) (map nd_id rest))). lia.
    + apply rbind_ok in E as ((t1 & st1) & E & E'). apply rbind_ok in E' as (t'' & Es & E'). injection E' as <- <- <-. apply split_node_ok in Es as (old & _ & _ & _ & _ & ->).
      unfold predict_child_leaf_values in E. apply rbind_ok in E as (? & _ & E). apply rbind_ok in E as (? & _ & E). apply rbind_ok in E as ((? & ?) & _ & E). apply rbind_ok in E as (? & _ & E). apply rbind_ok in E as ((? & ?) & _ & E).
      apply rbind_ok in E as (ta & Ea & E). apply rbind_ok in E as (tb & Eb & E). injection E as <- <-. apply set_node_value_ok in Ea as (_ & _ & ->). apply set_node_value_ok in Eb as (_ & _ & ->).
      split; [split; [exact Hd|intros nd' H'; apply Hi; right; exact H']|]. cbn [map]. unfold weight. cbn [map list_sum fold_right]. rewrite Hp. fold (list_sum (map (fun m => 2 ^ (D + 1 - depth_of m) - 1) (map nd_id rest))). lia.
Qed.

Lemma weight_pos nd rest t : ids_ok (nd :: rest) t -> 0 < weight D (map nd_id (nd :: rest)).
Proof.
  intros [_ Hi]. assert (nd_id nd < 2 ^ D - 1) as Hn by (apply Hi; left; reflexivity). pose proof (depth_small D _ Hn) as Hdep. unfold weight. cbn [map list_sum fold_right].
  assert (2 ^ (D - depth_of (nd_id nd)) <> 0) as Hpz by (apply Nat.pow_nonzero; lia).
  assert (2 ^ (D + 1 - depth_of (nd_id nd)) = 2 * 2 ^ (D - depth_of (nd_id nd))) as Hp by (replace (D + 1 - depth_of (nd_id nd)) with (S (D - depth_of (nd_id nd))) by lia; reflexivity). lia.
Qed.

(** More fuel than the weight of the stack changes nothing. *)
Lemma fuel_enough : forall fuel stack t st k, ids_ok stack t -> weight D (map nd_id stack) <= fuel ->
  train_loop dbg cfg s sizes bounds sched St leaf_value (fuel + k) stack t st = train_loop dbg cfg s sizes bounds sched St leaf_value fuel stack t st.
Proof.
  induction fuel as [|fuel IH]; intros stack t st k Hi Hw.
  - destruct stack as [|nd rest]; [destruct k; reflexivity|]. pose proof (weight_pos nd rest t Hi). lia.
  - destruct stack as [|nd rest]; [reflexivity|]. cbn [Nat.add train_loop]. destruct (train_step dbg cfg s sizes bounds sched St leaf_value nd rest t st) as [[[stack' t'] st']| | |] eqn:E; try reflexivity.
    cbn [rbind fst snd]. destruct (step_weight nd rest t st stack' t' st' Hi E) as [Hi' Hw']. apply IH; [exact Hi'|lia].
Qed.

(** The loop does what its steps do: any step that keeps an invariant and cannot fail makes the loop succeed. *)
Lemma loop_total (P : list (node O) -> tree O -> St -> Prop) :
  (forall nd rest t st, P (nd :: rest) t st -> exists stack' t' st', train_step dbg cfg s sizes bounds sched St leaf_value nd rest t st = Ok (stack', t', st') /\ P stack' t' st') ->
  forall fuel stack t st, ids_ok stack t -> P stack t st -> weight D (map nd_id stack) <= fuel -> exists t' st', train_loop dbg cfg s sizes bounds sched St leaf_value fuel stack t st = Ok (t', st').
Proof.
  intros H1. induction fuel as [|fuel IH]; intros stack t st Hi HP Hw.
  - destruct stack as [|nd rest]; [eexists; eexists; reflexivity|]. pose proof (weight_pos nd rest t Hi). lia.
  - destruct stack as [|nd rest]; [eexists; eexists; reflexivity|]. cbn [train_loop]. destruct (H1 nd rest t st HP) as (stack' & t' & st' & E & HP'). rewrite E. cbn [rbind fst snd].
    destruct (step_weight nd rest t st stack' t' st' Hi E) as [Hi' Hw']. apply IH; [exact Hi'|exact HP'|lia].
Qed.
End Ends.

Lemma tree_new_leaves O D sup (t : tree O) : tree_new O D sup = Ok t -> (forall m, leaf_node t m <-> m = 0) /\ t_max_depth t = D /\ 0 < D /\ t_supercats t = sup /\ t_shrinkage t = nofZ O 1 /\ t_bias t = nofZ O 0.
Proof.
  intros E. unfold tree_new in E. apply rbind_ok in E as (u & Hd & E). apply rassert_ok in Hd. injection E as <-. split; [|repeat split; cbn; lia].
  assert (forall x, ~ inner_crit (mk_tree 0 D (repeat (no_split O) (2 ^ (D + 1) - 1)) (repeat (nofZ O 0) (2 ^ (D + 1) - 1)) (nofZ O 1) (nofZ O 0) sup) x) as Hno.
  { intros x (c & Ec & Hc). cbn [t_crits] in Ec. apply nth_error_In, repeat_spec in Ec. subst. apply Hc. reflexivity. }
  intros m. split.
  - intros [[k Hk] _]. destruct Hk as [|k m Hk Hi|k m Hk Hi]; [reflexivity|..]; exfalso; exact (Hno _ Hi).
  - intros ->. split; [exists 0; constructor|apply Hno].
Qed.

Section Train.
Variable O : numops.
Variable dbg0 dbg : bool.
Variable cfg : config O.
Variable d : data O.
Variable s : dataset O.
Variable sizes : list nat.
Variable bounds : num O * num O.
Variable sched : nat -> list job -> list job.
Variable gradients : list (num O).
Variable St : Type.
Variable leaf_value : list nat -> St -> res (num O * St).
Variable oob : nat -> num O -> St -> res St.
Notation n := (nactive_examples s).
Notation D := (c_max_tree_depth cfg).
Hypothesis HR : reachable dbg0 cfg d s.
Hypothesis Hsizes : hist_sizes d = Ok sizes.
Hypothesis Hsched : forall k js, Permutation js (sched k js).
Hypothesis Hsmall : (N.of_nat n <= 2 ^ 31)%N.

Lemma loop_start t root : tree_new O D (get_supercats s) = Ok t -> get_root_n2s cfg s sizes bounds sched gradients = Ok root ->
  loop_ok O dbg cfg s sizes bounds sched gradients (fun _ => []) [] [root] t /\ nd_id root = 0 /\ members n root = seq 0 n /\ 0 < n /\ ids_ok O cfg [root] t /\ weight D (map nd_id [root]) <= 2 ^ (D + 1).
Proof.
  intros Et Er. destruct (root_pre _ _ _ _ _ _ _ _ _ HR Hsizes root Er) as [HL Hw].
  destruct (root_ok O cfg s sizes bounds HL Hw Hsmall sched gradients root Hsched Er) as (rows & Erows & Hn & _ & _ & R1 & R2 & R3 & R4 & R5 & _).
  destruct (tree_new_leaves O D _ t Et) as (HT & Hd & HD & Hsup). split; [|split; [exact R4|split; [exact R3|split; [exact Hn|]]]].
  - constructor.
    + apply (tree_new_inv O D _ t Et).
    + eapply ginv_new; exact Et.
    + intros nd [<-|[]]. apply grown_root, Er.
    + cbn [map app]. constructor; [intros []|constructor].
    + intros m. rewrite HT. cbn [map app In]. rewrite R4. split; [intros ->; left; reflexivity|intros [H|[]]; congruence].
    + cbn [map concat]. rewrite !app_nil_r, R3. reflexivity.
    + intros g [].
    + intros m k [(nd & [<-|[]] & -> & _)|(g & [] & _)]. rewrite R4. constructor.
    + exact Hsup.
    + unfold tree_new in Et. apply rbind_ok in Et as (? & _ & Et). injection Et as <-. cbn [t_crits]. intros m c Ec. apply nth_error_In, repeat_spec in Ec. left. exact Ec.
  - split; [split; [exact Hd|]|].
    + intros nd [<-|[]]. rewrite R4. destruct D as [|D']; [lia|]. assert (2 ^ D' <> 0) by (apply Nat.pow_nonzero; lia). cbn [Nat.pow]. lia.
    + unfold weight. cbn [map list_sum fold_right]. rewrite R4. change (depth_of 0) with 0. rewrite Nat.sub_0_r. lia.
Qed.

Lemma loop_run rows : example_rows s = Ok rows -> forall fuel W gs stack t st t' st', loop_ok O dbg cfg s sizes bounds sched gradients W gs stack t ->
  train_loop dbg cfg s sizes bounds sched St leaf_value fuel stack t st = Ok (t', st') ->
  exists W' new, loop_ok O dbg cfg s sizes bounds sched gradients W' (gs ++ new) [] t' /\ leaf_calls leaf_value (map (to_rows O rows) new) st st'.
Proof.
  intros Hrows. induction fuel as [|fuel IH]; intros W gs stack t st t' st' H E.
  - destruct stack as [|nd rest]; [|discriminate]. injection E as <- <-. exists W, []. rewrite app_nil_r. split; [exact H|reflexivity].
  - destruct stack as [|nd rest]; [injection E as <- <-; exists W, []; rewrite app_nil_r; split; [exact H|reflexivity]|].
    cbn [train_loop] in E. apply rbind_ok in E as ([[stack' t1] st1] & E1 & E). cbn [fst snd] in E.
    destruct (step_ok O dbg0 dbg cfg d s sizes bounds sched gradients St leaf_value rows HR Hsizes Hsched Hsmall Hrows W gs nd rest t st stack' t1 st1 H E1) as (W1 & new & H' & C & _).
    destruct (IH W1 (gs ++ new) stack' t1 st1 t' st' H' E) as (W2 & new' & H'' & C'). exists W2, (new ++ new'). rewrite app_assoc, map_app. split; [exact H''|]. eapply leaf_calls_app; eassumption.
Qed.

Lemma train_ok t st st' : train dbg cfg s sizes bounds sched St leaf_value oob gradients st = Ok (t, st') ->
  exists rows W gs st1, example_rows s = Ok rows /\ loop_ok O dbg cfg s sizes bounds sched gradients W gs [] t /\ leaf_calls leaf_value (map (to_rows O rows) gs) st st1 /\
    predict_out_of_bag s St oob t st1 = Ok st'.
Proof.
  intros E. unfold train in E. apply rbind_ok in E as (t0 & Et & E). apply rbind_ok in E as (root & Er & E). apply rbind_ok in E as ((t1 & st1) & El & E). apply rbind_ok in E as (st2 & Eo & E). injection E as <- <-.
  destruct (root_pre _ _ _ _ _ _ _ _ _ HR Hsizes root Er) as [HL Hw].
  destruct (root_ok O cfg s sizes bounds HL Hw Hsmall sched gradients root Hsched Er) as (rows & Erows & _).
  destruct (loop_start t0 root Et Er) as (H0 & _). destruct (loop_run rows Erows _ _ [] [root] t0 st t1 st1 H0 El) as (W & gs & H & C). exists rows, W, gs, st1. auto.
Qed.

(** Fuel does not matter. *)
Lemma train_fuel t root st k : tree_new O D (get_supercats s) = Ok t -> get_root_n2s cfg s sizes bounds sched gradients = Ok root ->
  train_loop dbg cfg s sizes bounds sched St leaf_value (2 ^ (D + 1) + k) [root] t st = train_loop dbg cfg s sizes bounds sched St leaf_value (2 ^ (D + 1)) [root] t st.
Proof. intros Et Er. destruct (loop_start t root Et Er) as (_ & _ & _ & _ & Hi & Hw). apply fuel_enough; assumption. Qed.

(* ---- no failure ---- *)
Hypothesis Hmin : (1 <= c_min_examples_leaf cfg)%N.
Hypothesis Hsplitval : forall f b, candidate s f b -> exists v, get_split_value s f b = Ok v.
(** The objective answers questions about active examples, if its state has the property [I], which it keeps. *)
Variable I : St -> Prop.
Hypothesis Hleafval : forall rows ex st, example_rows s = Ok rows -> I st -> ex <> [] -> (forall j, In j ex -> In j rows) -> exists v st', leaf_value ex st = Ok (v, st') /\ nisfin O v = true /\ I st'.

Definition nonempty_ok W gs stack t := loop_ok O dbg cfg s sizes bounds sched gradients W gs stack t /\ ids_ok O cfg stack t /\ forall nd, In nd stack -> members n nd <> [].

Lemma to_examples_total rows l : example_rows s = Ok rows -> (forall k, In k l -> k < n) -> l <> [] -> exists ex, to_examples s l = Ok ex /\ ex <> [] /\ forall j, In j ex -> In j rows.
Proof.
  intros Hrows Hl Hne. pose proof (rows_length O s rows Hrows) as Lr. unfold to_examples. unfold example_rows in Hrows. destruct (example_sampling_enabled s).
  - assert (exists ex, mapM (map_index s) l = Ok ex /\ forall j, In j ex -> In j rows) as (ex & E & Hin).
    { clear Hne. induction l as [|k l IH]; [eexists; split; [reflexivity|intros j []]|]. cbn [mapM]. unfold map_index at 1. rewrite Hrows. cbn [rbind].
      destruct (nth_error rows k) as [j|] eqn:Ej; [|apply nth_error_None in Ej; pose proof (Hl k (or_introl eq_refl)); lia]. rewrite (proj2 (idx_ok _ _ _ _) Ej). cbn [rbind].
      destruct IH as (ex & -> & Hin); [intros k' Hk'; apply Hl; right; exact Hk'|]. cbn [rbind]. eexists. split; [reflexivity|]. intros j' [<-|Hj]; [eapply nth_error_In, Ej|apply Hin, Hj]. }
    rewrite E. cbn [rbind]. apply mapM_length in E. destruct l as [|x l]; [contradiction|]. destruct ex as [|y ex]; [discriminate|]. cbn [length Nat.eqb negb rassert rbind]. eexists. split; [reflexivity|split; [discriminate|exact Hin]].
  - cbn [rbind]. destruct l as [|x l]; [contradiction|]. cbn [length Nat.eqb negb rassert rbind]. eexists. split; [reflexivity|]. split; [discriminate|]. injection Hrows as <-. intros j Hj. apply in_seq. specialize (Hl j Hj). lia.
Qed.

Lemma step_total W gs nd rest t st : nonempty_ok W gs (nd :: rest) t -> I st -> exists stack' t' st', train_step dbg cfg s sizes bounds sched St leaf_value nd rest t st = Ok (stack', t', st') /\ I st'.
Proof.
  intros (H & Hids & Hne) HI. destruct H as [H1 H2 H3 H4 H5 H6 H7 H8 H9 H10].
  assert (grown dbg cfg s sizes bounds sched gradients nd) as HG by (apply H3; left; reflexivity).
  destruct (grown_pre _ dbg0 dbg _ _ _ _ _ _ _ HR Hsizes Hsched Hsmall nd HG) as (HL & Hw & Hs & rows & Hrows & _).
  pose proof (grown_ok _ dbg0 dbg _ _ _ _ _ _ _ HR Hsizes Hsched Hsmall nd rows HG Hrows) as HF. pose proof HF as [FN FH FC].
  assert (Hlt : forall k, In k (members n nd) -> k < n) by (intros k; apply members_lt).
  assert (Hned : members n nd <> []) by (apply Hne; left; reflexivity).
  destruct Hids as [Hd Hi]. assert (nd_id nd < 2 ^ D - 1) as Hid by (apply Hi; left; reflexivity).
  assert (2 ^ (D + 1) = 2 * 2 ^ D) as Hpow by (rewrite Nat.add_1_r; reflexivity).
  assert (exists sp, find_best_split dbg cfg s nd = Ok sp) as (sp & Esp).
  { destruct (lds_fs _ _ HL) as (fs & Efs & _ & Hfs). apply (best_split_total O dbg cfg s nd fs Efs).
    - intros f Hf. destruct (Hfs f Hf) as (nb & _ & E & _). eauto.
    - intros f b Hc. destruct (bin_exists O s sizes HL nd f b (ho_shape _ _ _ _ FH) Hc) as (l & El). exists l. destruct (Hsplitval f b Hc) as (v & Ev).
      unfold make_crit. rewrite Ev. cbn [rbind]. unfold get_split_value in Ev. apply rbind_ok in Ev as (ft & Eft & _). rewrite Eft. cbn [rbind]. eexists. split; [exact El|]. split; [|reflexivity].
      eapply full_bin_le; eassumption.
    - intros f Hf. destruct (Hfs f Hf) as (nb & sz & _ & E & _). intros Hc. rewrite <- (ho_shape _ _ _ _ FH), nth_error_map, Hc in E. discriminate. }
  unfold train_step. rewrite Esp. cbn [rbind]. destruct (is_no_split (sp_crit sp)) eqn:Ens.
  - unfold predict_leaf_value, node_examples. rewrite (node_positions O cfg n _ Hsmall nd FN). cbn [rbind].
    destruct (to_examples_total rows _ Hrows Hlt Hned) as (ex & -> & Hex & Hexr). cbn [rbind]. destruct (Hleafval rows ex st Hrows HI Hex Hexr) as (v & st1 & -> & Hfin & HI1). cbn [rbind].
    unfold set_node_value. rewrite Hfin. cbn [rassert rbind]. rewrite set_idx_lt by (rewrite (ti_values _ _ _ H1); lia). cbn [rbind]. eexists. eexists. eexists. split; [reflexivity|assumption].
  - destruct (best_split_weak O dbg cfg s nd sp (fun f b v => full_bin_le O cfg s sizes _ HL nd f b v HF) Esp) as [->|(v & (Hc & Ebin & Hmin1 & Hmin2) & Hso)]; [discriminate Ens|].
    destruct (lds_fm _ _ HL _ _ Hc) as (fm & Em & Hfm).
    assert (leaf_node t (nd_id nd)) as Hleaf by (apply H5; left; reflexivity).
    pose proof (ho_count _ _ _ _ FH _ _ fm v Hc Em Ebin) as Hcv. pose proof (filter_halves _ (bbit fm) (members n nd)) as Hh.
    assert (filter (bbit fm) (members n nd) <> []) as Hnl by (intros E0; rewrite E0 in Hcv; cbn [length] in Hcv; lia).
    assert (filter (fun x => negb (bbit fm x)) (members n nd) <> []) as Hnr by (intros E0; rewrite E0 in Hh; cbn [length] in Hh; lia).
    assert (Hspl : forall t1, t_crits t1 = t_crits t -> t_max_depth t1 = t_max_depth t -> exists t', split_node t1 (nd_id nd) (sp_crit sp) = Ok t').
    { intros t1 Ec Ed. unfold split_node. rewrite Ec. destruct (nth_error (t_crits t) (nd_id nd)) as [old|] eqn:Eo; [|apply nth_error_None in Eo; rewrite (ti_crits _ _ _ H1) in Eo; lia].
      rewrite (proj2 (idx_ok _ _ _ _) Eo). cbn [rbind]. assert (is_no_split old = true) as -> by (destruct (is_no_split old) eqn:E0; [reflexivity|]; exfalso; apply (proj2 Hleaf); exists old; split; [exact Eo|]; intros Hc'; unfold is_no_split in E0; rewrite Hc' in E0; discriminate).
      cbn [rassert rbind]. rewrite Ens. cbn [negb rassert rbind]. unfold is_max_leaf_node, max_ninternal. rewrite Ed, Hd. replace (2 ^ D - 1 <=? nd_id nd) with false by lia. cbn [negb rassert rbind].
      rewrite set_idx_lt by (rewrite (ti_crits _ _ _ H1); lia). cbn [rbind]. eexists. reflexivity. }
    destruct (negb (is_max_leaf_node t (left_child (nd_id nd)))) eqn:Emax.
    + destruct (left_right_gen O dbg cfg s sizes bounds sched _ HL Hw Hsmall Hsched Hs nd sp fm HF Hc Em) as [Hlr _]. destruct (Hlr Hnl Hnr) as (l & r & ->). cbn [rbind].
      destruct (Hspl t eq_refl eq_refl) as (t' & ->). cbn [rbind]. eexists. eexists. eexists. split; [reflexivity|assumption].
    + unfold predict_child_leaf_values. rewrite Em. cbn [rbind]. unfold left_examples, right_examples. rewrite (node_positions_and O cfg n _ Hsmall nd fm FN Hfm), (node_positions_andnot O cfg n _ Hsmall nd fm FN Hfm). cbn [rbind].
      destruct (to_examples_total rows _ Hrows (fun k Hk => Hlt k (proj1 (proj1 (filter_In _ _ _) Hk))) Hnl) as (exl & -> & Hexl & Hexl'). cbn [rbind]. destruct (Hleafval rows exl st Hrows HI Hexl Hexl') as (vl & st1 & -> & Hfl & HI1). cbn [rbind].
      destruct (to_examples_total rows _ Hrows (fun k Hk => Hlt k (proj1 (proj1 (filter_In _ _ _) Hk))) Hnr) as (exr & -> & Hexr & Hexr'). cbn [rbind]. destruct (Hleafval rows exr st1 Hrows HI1 Hexr Hexr') as (vr & st2 & -> & Hfr & HI2). cbn [rbind].
      unfold set_node_value at 1. rewrite Hfl. cbn [rassert rbind]. rewrite set_idx_lt by (rewrite (ti_values _ _ _ H1); unfold left_child; lia). cbn [rbind].
      unfold set_node_value. rewrite Hfr. cbn [rassert rbind t_values]. rewrite set_idx_lt by (rewrite upd_length, (ti_values _ _ _ H1); unfold right_child; lia). cbn [rbind].
      match goal with |- context[split_node ?t1 _ _] => destruct (Hspl t1 eq_refl eq_refl) as (t' & ->) end. cbn [rbind]. eexists. eexists. eexists. split; [reflexivity|assumption].
Qed.

Lemma step_nonempty W gs nd rest t st stack' t' st' : nonempty_ok W gs (nd :: rest) t -> train_step dbg cfg s sizes bounds sched St leaf_value nd rest t st = Ok (stack', t', st') ->
  exists W' gs', nonempty_ok W' gs' stack' t'.
Proof.
  intros (H & Hids & Hne) E. assert (grown dbg cfg s sizes bounds sched gradients nd) as HG by (apply (lo_grown _ _ _ _ _ _ _ _ _ _ _ _ H); left; reflexivity).
  destruct (grown_pre _ dbg0 dbg _ _ _ _ _ _ _ HR Hsizes Hsched Hsmall nd HG) as (HL & Hw & Hs & rows & Hrows & _).
  destruct (step_ok O dbg0 dbg cfg d s sizes bounds sched gradients St leaf_value rows HR Hsizes Hsched Hsmall Hrows W gs nd rest t st stack' t' st' H E) as (W1 & new & H' & _).
  destruct (step_weight O dbg cfg s sizes bounds sched St leaf_value nd rest t st stack' t' st' Hids E) as [Hids' _]. exists W1, (gs ++ new). split; [exact H'|]. split; [exact Hids'|].
  pose proof (grown_ok _ dbg0 dbg _ _ _ _ _ _ _ HR Hsizes Hsched Hsmall nd rows HG Hrows) as HF. pose proof HF as [FN FH FC].
  unfold train_step in E. apply rbind_ok in E as (sp & Esp & E). destruct (is_no_split (sp_crit sp)) eqn:Ens.
  - apply rbind_ok in E as ((? & ?) & _ & E). injection E as <- _ _. intros nd' Hin. apply Hne. right. exact Hin.
  - destruct (negb (is_max_leaf_node t (left_child (nd_id nd)))).
    + apply rbind_ok in E as ((l & r) & Elr & E). apply rbind_ok in E as (? & _ & E). injection E as <- _ _.
      destruct (best_split_weak O dbg cfg s nd sp (fun f b v => full_bin_le O cfg s sizes _ HL nd f b v HF) Esp) as [->|(v & (Hc & Ebin & Hmin1 & Hmin2) & Hso)]; [discriminate Ens|].
      destruct (lds_fm _ _ HL _ _ Hc) as (fm & Em & Hfm). pose proof (ho_count _ _ _ _ FH _ _ fm v Hc Em Ebin) as Hcv. pose proof (filter_halves _ (bbit fm) (members n nd)) as Hh.
      destruct (left_right_gen O dbg cfg s sizes bounds sched _ HL Hw Hsmall Hsched Hs nd sp fm HF Hc Em) as [_ Hlr]. destruct (Hlr l r Elr) as (_ & _ & Ml & Mr & _).
      intros nd' [<-|[<-|Hin]]; [rewrite Ml|rewrite Mr|apply Hne; right; exact Hin].
      * intros E0. rewrite E0 in Hcv. cbn [length] in Hcv. lia.
      * intros E0. rewrite E0 in Hh. cbn [length] in Hh. lia.
    + apply rbind_ok in E as ((? & ?) & _ & E). apply rbind_ok in E as (? & _ & E). injection E as <- _ _. intros nd' Hin. apply Hne. right. exact Hin.
Qed.

Lemma loop_succeeds t root st : I st -> tree_new O D (get_supercats s) = Ok t -> get_root_n2s cfg s sizes bounds sched gradients = Ok root ->
  exists t' st', train_loop dbg cfg s sizes bounds sched St leaf_value (2 ^ (D + 1)) [root] t st = Ok (t', st').
Proof.
  intros HI Et Er. destruct (loop_start t root Et Er) as (H0 & _ & Mr & Hn & Hi & Hw).
  apply (loop_total O dbg cfg s sizes bounds sched St leaf_value (fun stack t st => (exists W gs, nonempty_ok W gs stack t) /\ I st)); [|exact Hi| |exact Hw].
  - intros nd rest t0 st0 ((W & gs & H) & HI0). destruct (step_total W gs nd rest t0 st0 H HI0) as (stack' & t' & st' & E & HI'). exists stack', t', st'. split; [exact E|]. split; [|exact HI']. eapply step_nonempty; eassumption.
  - split; [|exact HI]. exists (fun _ => []), []. split; [exact H0|]. split; [exact Hi|]. intros nd [<-|[]]. rewrite Mr. destruct n; [lia|discriminate].
Qed.
End Train.
