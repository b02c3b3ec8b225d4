From Coq Require Import Permutation Sorting.Sorted.
From Verif Require Import Base BaseProofs BitModel BitSpec BitProofs BitProofs2 SimdModel SliceModel SliceSpec SliceProofs SliceProofs2 SliceProps
  CountSumProofs IterModel IterSpec IterProofs Num ScaledModel DataModel Config TreeModel TreeSpec TreeProofs TreeProofs2 DatasetModel DatasetSpec DatasetProofs DatasetProofs2 DatasetProofs3 DatasetProofs4 DatasetProofs5
  RouteProps LearnerModel LearnerSpec TrainSpec LearnerProofs LearnerProofs2 LearnerProofs3 LearnerProofs4 LearnerProofs5 LearnerProofs7 LearnerProofs8.

Lemma build_perm O (cfg : config O) s bounds sched sched' nd r : (forall k js, Permutation js (sched k js)) -> (forall k js, Permutation js (sched' k js)) ->
  build_histograms cfg s bounds sched nd = Ok r -> build_histograms cfg s bounds sched' nd = Ok r.
Proof.
  intros H1 H2 H. unfold build_histograms in *. apply rbind_ok in H as (u & Ew & H). rewrite Ew. cbn [rbind]. apply rbind_ok in H as (js & Ej & H). rewrite Ej. cbn [rbind].
  apply rbind_ok in H as (h & Eh & H). assert (foldM (run_job cfg s bounds nd) (sched' (nd_id nd) js) (nd_hists nd) = Ok h) as ->; [|exact H].
  eapply foldM_perm; [|transitivity js; [symmetry; apply H1|apply H2]|exact Eh]. intros h0 a b h1 h2 E1 E2. eapply run_job_comm; eassumption.
Qed.
Lemma root_perm O (cfg : config O) s sizes bounds sched sched' g r : (forall k js, Permutation js (sched k js)) -> (forall k js, Permutation js (sched' k js)) ->
  get_root_n2s cfg s sizes bounds sched g = Ok r -> get_root_n2s cfg s sizes bounds sched' g = Ok r.
Proof.
  intros H1 H2 H. unfold get_root_n2s in *. apply rbind_ok in H as (u & Ew & H). rewrite Ew. cbn [rbind]. apply rbind_ok in H as (g0 & Eg0 & H). rewrite Eg0. cbn [rbind]. apply rbind_ok in H as (mask & Em & H). rewrite Em. cbn [rbind].
  apply rbind_ok in H as (ix & Eix & H). rewrite Eix. cbn [rbind]. apply rbind_ok in H as (u' & Eu & H). rewrite Eu. cbn [rbind].
  apply rbind_ok in H as (ex & Eex & H). rewrite Eex. cbn [rbind]. apply rbind_ok in H as ((grads & sum) & Eg & H). rewrite Eg. cbn [rbind]. apply rbind_ok in H as (h & Eh & H). rewrite Eh. cbn [rbind].
  eapply build_perm; [exact H1|exact H2|exact H].
Qed.

Lemma foldM_mono A T (f g : T -> A -> res T) l : (forall st x st', In x l -> f st x = Ok st' -> g st x = Ok st') -> forall st r, foldM f l st = Ok r -> foldM g l st = Ok r.
Proof.
  induction l as [|x l IH]; intros H st r E; [exact E|]. cbn [foldM] in *. apply rbind_ok in E as (st1 & E1 & E). rewrite (H st x st1 (or_introl eq_refl) E1). cbn [rbind].
  apply IH; [|exact E]. intros st0 y st0' Hy. apply H. right. exact Hy.
Qed.

Lemma full_threshold O (cfg : config O) x s sizes gv nd : full_ok O cfg s sizes gv nd <-> full_ok O (with_threshold cfg x) s sizes gv nd.
Proof. split; intros [[H1 H2 H3 H4 H5 H6 H7 H8 H9 H10 H11 H12] F2 F3]; (constructor; [constructor; assumption|assumption|assumption]). Qed.

Section Sim.
Variable O : numops.
Variable dbg0 dbg dbg' : bool.
Variable cfg : config O.
Variable x : num O.
Variable d : data O.
Variable s : dataset O.
Variable sizes : list nat.
Variable bounds : num O * num O.
Variable sched sched' : nat -> list job -> list job.
Variable gradients : list (num O).
Variable St : Type.
Variable leaf_value : list nat -> St -> res (num O * St).
Variable oob : nat -> num O -> St -> res St.
Notation n := (nactive_examples s).
Notation D := (c_max_tree_depth cfg).
Notation cfg' := (with_threshold cfg x).
Hypothesis HR : reachable dbg0 cfg d s.
Hypothesis Hsizes : hist_sizes d = Ok sizes.
Hypothesis Hsched : forall k js, Permutation js (sched k js).
Hypothesis Hsched' : forall k js, Permutation js (sched' k js).
Hypothesis Hsmall : (N.of_nat n <= 2 ^ 31)%N.
Hypothesis Hmin : (1 <= c_min_examples_leaf cfg)%N.

(** Same contents; compression may differ. *)
Record sim (gv : nat -> N) (nd nd' : node O) : Prop := {
  sm_l : full_ok O cfg s sizes gv nd;
  sm_r : full_ok O cfg s sizes gv nd';
  sm_id : nd_id nd' = nd_id nd;
  sm_count : nd_count nd' = nd_count nd;
  sm_grad : nd_grad nd' = nd_grad nd;
  sm_mem : members n nd' = members n nd;
  sm_bin : forall f b, candidate s f b -> bin_of nd' f b = bin_of nd f b
}.

Lemma sim_best gv nd nd' sp : lds s sizes -> sim gv nd nd' -> find_best_split dbg cfg s nd = Ok sp -> find_best_split dbg' cfg' s nd' = Ok sp.
Proof using Type.
  clear HR Hsizes Hsched Hsched' Hsmall Hmin leaf_value oob St sched sched' bounds gradients d dbg0. intros HL S E. unfold find_best_split in *. apply rbind_ok in E as (fs & Efs & E). rewrite Efs. cbn [rbind]. apply rbind_ok in E as (st & Est & E). injection E as <-.
  change (c_min_gain cfg') with (c_min_gain cfg).
  enough (forall F F', (forall st f st', In f fs -> F st f = Ok st' -> F' st f = Ok st') -> foldM F fs (c_min_gain cfg, split_none O) = Ok st ->
     (let* st0 := foldM F' fs (c_min_gain cfg, split_none O) in Ok (snd st0)) = Ok (snd st)) as Hgoal.
  { eapply Hgoal; [|exact Est]. clear Hgoal Est st. cbv beta. intros st f st' Hf Ef. apply rbind_ok in Ef as (hist & Eh & Ef). apply idx_ok in Eh. apply rbind_ok in Ef as (nb & Enb & Ef).
    destruct (lds_fs _ _ HL) as (fs' & Efs' & _ & Hfs). rewrite Efs in Efs'. injection Efs' as <-. destruct (Hfs f Hf) as (nb' & sz & Enb' & Esz & Hsz). rewrite Enb in Enb'. injection Enb' as <-.
    assert (exists hist', nth_error (nd_hists nd') f = Some hist') as [hist' Eh'].
    { destruct (nth_error (nd_hists nd') f) eqn:E0; [eauto|]. pose proof (ho_shape _ _ _ _ (fo_hists _ _ _ _ _ _ (sm_r _ _ _ S))) as Hs. rewrite <- Hs, nth_error_map, E0 in Esz. discriminate. }
    rewrite (proj2 (idx_ok _ _ _ _) Eh'). cbn [rbind]. rewrite Enb. cbn [rbind]. eapply foldM_mono; [|exact Ef]. intros st0 b st0' Hb Eb. apply in_seq in Hb.
    assert (candidate s f b) as Hc by (exists fs, nb; repeat split; try assumption; lia).
    pose proof (sm_bin _ _ _ S f b Hc) as Hbin. unfold bin_of in Hbin. rewrite Eh, Eh' in Hbin. unfold split_step in *. apply rbind_ok in Eb as (l & El & Eb). apply idx_ok in El.
    assert (nth_error hist' b = Some l) as El' by congruence. rewrite (proj2 (idx_ok _ _ _ _) El'). cbn [rbind].
    assert (snd l <= nd_count nd)%N as Hle by (eapply (full_bin_le O cfg s sizes gv HL nd f b l (sm_l _ _ _ S) Hc); unfold bin_of; rewrite Eh; exact El).
    rewrite (sm_count _ _ _ S), (sm_grad _ _ _ S). rewrite u32_sub_ok in * by exact Hle. exact Eb. }
  intros F F' HF E. rewrite (foldM_mono _ _ F F' fs HF _ _ E). reflexivity.
Qed.

Lemma sim_left_right gv p p' sp l r : lds s sizes -> valid_width (c_discr_nbits cfg) = true -> 0 < list_sum sizes -> sim gv p p' ->
  candidate s (sc_feature (sp_crit sp)) (sp_id sp) ->
  (exists v, bin_of p (sc_feature (sp_crit sp)) (sp_id sp) = Some v /\ (c_min_examples_leaf cfg <= snd v)%N /\ (snd v + c_min_examples_leaf cfg <= nd_count p)%N) ->
  get_left_right_n2s dbg cfg s sizes bounds sched p sp = Ok (l, r) ->
  exists l' r', get_left_right_n2s dbg' cfg' s sizes bounds sched' p' sp = Ok (l', r') /\ sim gv l l' /\ sim gv r r'.
Proof using Hsched Hsched' Hsmall Hmin.
  clear HR Hsizes leaf_value oob St. intros HL Hw Hs S Hc (v & Ev & Hv1 & Hv2) E. destruct (lds_fm _ _ HL _ _ Hc) as (fm & Em & Hfm).
  destruct (left_right_gen O dbg cfg s sizes bounds sched gv HL Hw Hsmall Hsched Hs p sp fm (sm_l _ _ _ S) Hc Em) as [_ H1].
  destruct (H1 l r E) as (Fl & Fr & Ml & Mr & Il & Ir & (v0 & Ev0 & Gl & Gr) & Bl & Br). rewrite Ev in Ev0. injection Ev0 as <-.
  destruct (left_right_gen O dbg' cfg' s sizes bounds sched' gv HL Hw Hsmall Hsched' Hs p' sp fm (proj1 (full_threshold O cfg x s sizes gv p') (sm_r _ _ _ S)) Hc Em) as [T2 H2].
  pose proof (sm_l _ _ _ S) as [PN PH PC]. pose proof (ho_count _ _ _ _ PH _ _ fm v Hc Em Ev) as Hcv. pose proof (filter_halves _ (bbit fm) (members n p)) as Hh.
  rewrite (sm_mem _ _ _ S) in *.
  destruct T2 as (l' & r' & E').
  { intros E0. rewrite E0 in Hcv. cbn [length] in Hcv. lia. }
  { intros E0. rewrite E0 in Hh. cbn [length] in Hh. lia. }
  exists l', r'. split; [exact E'|]. destruct (H2 l' r' E') as (Fl'%full_threshold & Fr'%full_threshold & Ml' & Mr' & Il' & Ir' & (v0 & Ev0 & Gl' & Gr') & Bl' & Br'). rewrite (sm_bin _ _ _ S _ _ Hc), Ev in Ev0. injection Ev0 as <-.
  assert (HBl : forall f b, candidate s f b -> bin_of l' f b = bin_of l f b).
  { intros f b Hcf. destruct (lds_fm _ _ HL _ _ Hcf) as (fm' & Em' & _). rewrite (Bl f b fm' Hcf Em'), (Bl' f b fm' Hcf Em'), Ml, Ml'. reflexivity. }
  split; constructor; try assumption.
  - rewrite Il, Il', (sm_id _ _ _ S). reflexivity.
  - rewrite (fo_count _ _ _ _ _ _ Fl), (fo_count _ _ _ _ _ _ Fl'), Ml, Ml'. reflexivity.
  - congruence.
  - congruence.
  - rewrite Ir, Ir', (sm_id _ _ _ S). reflexivity.
  - rewrite (fo_count _ _ _ _ _ _ Fr), (fo_count _ _ _ _ _ _ Fr'), Mr, Mr'. reflexivity.
  - rewrite Gr, Gr', (sm_grad _ _ _ S). reflexivity.
  - congruence.
  - intros f b Hcf. destruct (bin_exists O s sizes HL p f b (ho_shape _ _ _ _ PH) Hcf) as (vp & Evp).
    destruct (bin_exists O s sizes HL l f b (ho_shape _ _ _ _ (fo_hists _ _ _ _ _ _ Fl)) Hcf) as (vl & Evl).
    rewrite (Br f b vp vl Evp Evl). apply Br'; [rewrite (sm_bin _ _ _ S f b Hcf); exact Evp|rewrite (HBl f b Hcf); exact Evl].
Qed.

Lemma sim_step gv nd nd' rest rest' t st stack t1 st1 : lds s sizes -> valid_width (c_discr_nbits cfg) = true -> 0 < list_sum sizes ->
  sim gv nd nd' -> Forall2 (sim gv) rest rest' -> train_step dbg cfg s sizes bounds sched St leaf_value nd rest t st = Ok (stack, t1, st1) ->
  exists stack', train_step dbg' cfg' s sizes bounds sched' St leaf_value nd' rest' t st = Ok (stack', t1, st1) /\ Forall2 (sim gv) stack stack'.
Proof using Hsched Hsched' Hsmall Hmin.
  clear HR Hsizes oob. intros HL Hw Hs S Hrest E. unfold train_step in *. apply rbind_ok in E as (sp & Esp & E). rewrite (sim_best gv nd nd' sp HL S Esp). cbn [rbind].
  destruct (is_no_split (sp_crit sp)) eqn:Ens.
  - apply rbind_ok in E as ((t2 & st2) & E & E'). injection E' as <- <- <-. unfold predict_leaf_value, node_examples in *.
    rewrite (node_positions O cfg n _ Hsmall nd (fo_node _ _ _ _ _ _ (sm_l _ _ _ S))) in E. rewrite (node_positions O cfg n _ Hsmall nd' (fo_node _ _ _ _ _ _ (sm_r _ _ _ S))), (sm_mem _ _ _ S), (sm_id _ _ _ S).
    rewrite E. cbn [rbind]. exists rest'. auto.
  - destruct (best_split_weak O dbg cfg s nd sp (fun f b v => full_bin_le O cfg s sizes gv HL nd f b v (sm_l _ _ _ S)) Esp) as [->|(v & (Hc & Ebin & Hmin1 & Hmin2) & Hso)]; [discriminate Ens|].
    rewrite (sm_id _ _ _ S). destruct (negb (is_max_leaf_node t (left_child (nd_id nd)))) eqn:Emax.
    + apply rbind_ok in E as ((l & r) & Elr & E). apply rbind_ok in E as (t'' & Es & E). injection E as <- <- <-.
      destruct (sim_left_right gv nd nd' sp l r HL Hw Hs S Hc) as (l' & r' & E' & Sl & Sr); [eauto|exact Elr|]. rewrite E'. cbn [rbind]. rewrite Es. cbn [rbind]. exists (l' :: r' :: rest'). auto.
    + apply rbind_ok in E as ((t2 & st2) & E & E'). apply rbind_ok in E' as (t'' & Es & E'). injection E' as <- <- <-. unfold predict_child_leaf_values in *.
      destruct (lds_fm _ _ HL _ _ Hc) as (fm & Em & Hfm). rewrite Em in *. cbn [rbind] in *. unfold left_examples, right_examples in *.
      rewrite (node_positions_and O cfg n _ Hsmall nd fm (fo_node _ _ _ _ _ _ (sm_l _ _ _ S)) Hfm), (node_positions_andnot O cfg n _ Hsmall nd fm (fo_node _ _ _ _ _ _ (sm_l _ _ _ S)) Hfm) in E.
      rewrite (node_positions_and O cfg n _ Hsmall nd' fm (fo_node _ _ _ _ _ _ (sm_r _ _ _ S)) Hfm), (node_positions_andnot O cfg n _ Hsmall nd' fm (fo_node _ _ _ _ _ _ (sm_r _ _ _ S)) Hfm), (sm_mem _ _ _ S), (sm_id _ _ _ S).
      rewrite E. cbn [rbind]. rewrite Es. cbn [rbind]. exists rest'. auto.
Qed.

Lemma sim_loop gv : lds s sizes -> valid_width (c_discr_nbits cfg) = true -> 0 < list_sum sizes -> forall fuel stack stack' t st r, Forall2 (sim gv) stack stack' ->
  train_loop dbg cfg s sizes bounds sched St leaf_value fuel stack t st = Ok r -> train_loop dbg' cfg' s sizes bounds sched' St leaf_value fuel stack' t st = Ok r.
Proof using Hsched Hsched' Hsmall Hmin.
  clear HR Hsizes oob. intros HL Hw Hs. induction fuel as [|fuel IH]; intros stack stack' t st r HF E.
  - destruct HF; [exact E|discriminate].
  - destruct HF as [|nd nd' rest rest' S HF]; [exact E|]. cbn [train_loop] in *. apply rbind_ok in E as ([[stack1 t1] st1] & E1 & E).
    destruct (sim_step gv nd nd' rest rest' t st stack1 t1 st1 HL Hw Hs S HF E1) as (stack2 & -> & HF'). cbn [rbind fst snd] in *. eapply IH; eassumption.
Qed.

Lemma sim_train st r : train dbg cfg s sizes bounds sched St leaf_value oob gradients st = Ok r -> train dbg' cfg' s sizes bounds sched' St leaf_value oob gradients st = Ok r.
Proof.
  unfold train. intros E. apply rbind_ok in E as (t0 & Et & E). apply rbind_ok in E as (root & Er & E). apply rbind_ok in E as ((t1 & st1) & El & E).
  change (c_max_tree_depth cfg') with D. rewrite Et. cbn [rbind]. change (get_root_n2s cfg' s sizes bounds sched' gradients) with (get_root_n2s cfg s sizes bounds sched' gradients).
  rewrite (root_perm O cfg s sizes bounds sched sched' gradients root Hsched Hsched' Er). cbn [rbind].
  assert (grown dbg cfg s sizes bounds sched gradients root) as HG by (apply grown_root, Er).
  destruct (grown_pre _ dbg0 dbg _ _ _ _ _ _ _ HR Hsizes Hsched Hsmall root HG) as (HL & Hw & Hs & rows & Hrows & _).
  pose proof (grown_ok _ dbg0 dbg _ _ _ _ _ _ _ HR Hsizes Hsched Hsmall root rows HG Hrows) as HF.
  rewrite (sim_loop (gvals O cfg bounds gradients rows) HL Hw Hs _ [root] [root] t0 st (t1, st1)); [exact E| |exact El]. constructor; [|constructor]. constructor; auto.
Qed.
End Sim.
