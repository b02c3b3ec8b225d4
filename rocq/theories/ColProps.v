(** C70: the order of the columns does not matter, except for ties. *)
From Coq Require Import Reals Lra Permutation.
From Flocq Require Import Raux.
From Verif Require Import Base BaseProofs BitModel Num F32 F32Proofs DataModel Config TreeModel DatasetModel DatasetSpec LearnerModel LearnerSpec ObjectiveModel MetricModel BoostModel BoostSpec TreeProps DatasetProps LearnerProps BoostProofs BoostProps
  ColSpec ColProofs2 ColProofs5 ColProofs6.
Local Open Scope nat_scope.

Lemma f_lt_co : forall m a b c : f32, nlt f32ops a b = true -> nlt f32ops m c = true -> nlt f32ops a c = true \/ nlt f32ops c b = true.
Proof.
  intros m a b c H H'. cbn [f32ops nlt] in *. destruct (f_lt_nan_l _ _ H) as (Na & Nb). destruct (f_lt_nan_l _ _ H') as (_ & Nc).
  rewrite (f_lt_key a b Na Nb) in H. rewrite (f_lt_key a c Na Nc), (f_lt_key c b Nc Nb). destruct (Rlt_or_le (key a) (key c)); [left; assumption|right; lra].
Qed.
Lemma R_lt_co : forall m a b c : R, nlt Rops a b = true -> nlt Rops m c = true -> nlt Rops a c = true \/ nlt Rops c b = true.
Proof.
  intros m a b c H _. cbn [Rops nlt] in *. destruct (Rlt_bool_spec a b) as [H1|H1]; [|discriminate]. destruct (Rlt_bool_spec a c); [left; reflexivity|]. destruct (Rlt_bool_spec c b); [right; reflexivity|]. lra.
Qed.
Lemma renamed_of O p n (ts ts' : list (tree O)) : Forall2 (rtree O p n) ts ts' -> Forall2 (renamed_tree p n) ts ts'.
Proof. induction 1 as [|t t' ts ts' H _ IH]; constructor; [apply H|exact IH]. Qed.

(** Two trainings, in single precision or exact arithmetic, with the same settings, objective, metrics and random draws, on tables that differ in the order of the columns: if in the first one no two features tie, then the second one
    succeeds too, its state has the same running predictions and the same reported metric values, and its model is the first one's with the features renamed; given rows with the columns in the one and the other order the two models
    predict the same.  For every order of the jobs in both. *)
Theorem C70_run : forall O (M : mathops O) dbg (cfg : config O) p d d' sched sched' kind metrics g k b, O = f32ops \/ O = Rops ->
  reordered_columns p d d' -> all_features cfg d -> any_order sched -> any_order sched' -> 0 < d_nexamples d -> (N.of_nat (scaled_count (d_nexamples d) (c_example_fraction cfg)) <= 2 ^ 31)%N ->
  no_ties M dbg cfg d sched kind metrics g k -> boost_run M dbg cfg d sched kind metrics g k = Ok b ->
  exists b', boost_run M dbg cfg d' sched' kind metrics g k = Ok b' /\ ob_preds (bs_objective b') = ob_preds (bs_objective b) /\ bs_evals b' = bs_evals b /\
    renamed_model p (d_nfeatures d) (bs_ensemble b) (bs_ensemble b') /\
    forall D D', reordered_columns p D D' -> d_nfeatures D = d_nfeatures d -> additive_predict (bs_ensemble b') D' = additive_predict (bs_ensemble b) D.
Proof.
  intros O M dbg cfg p d d' sched sched' kind metrics g k b HO HR HA HS HS' Hn Hc HT E.
  assert (exists b', boost_run M dbg cfg d' sched' kind metrics g k = Ok b' /\ rbst O dbg cfg p d d' b b') as (b' & E' & H).
  { destruct HO as [->| ->]; [exact (run_sim f32ops M dbg cfg p d d' HR HA sched sched' HS HS' Hn Hc f_lt_irr f_lt_trans f_lt_co kind metrics g k b HT E)|exact (run_sim Rops M dbg cfg p d d' HR HA sched sched' HS HS' Hn Hc R_lt_irr R_lt_trans R_lt_co kind metrics g k b HT E)]. }
  exists b'. split; [exact E'|]. split; [rewrite (rb_ob _ _ _ _ _ _ _ _ H); reflexivity|]. split; [apply H|]. split; [split; [apply H|apply renamed_of, H]|].
  intros D D' HD En. destruct H as [_ _ _ _ Hb Ht _ _]. destruct (bs_ensemble b) as [b0 ts], (bs_ensemble b') as [b0' ts']. cbn [at_bias at_trees] in *. subst b0'. apply (additive_sim O p (d_nfeatures d) D D' HD En ts ts' b0 Ht).
Qed.
Print Assumptions C70_run.

(** The same for the model a user gets. *)
Theorem C70_model : forall O (M : mathops O) dbg (cfg : config O) p d d' sched sched' kind metrics g m, O = f32ops \/ O = Rops ->
  reordered_columns p d d' -> all_features cfg d -> any_order sched -> any_order sched' -> 0 < d_nexamples d -> (N.of_nat (scaled_count (d_nexamples d) (c_example_fraction cfg)) <= 2 ^ 31)%N ->
  no_ties M dbg cfg d sched kind metrics g (c_niterations cfg) -> boost_train M dbg cfg d sched kind metrics g = Ok m ->
  exists m', boost_train M dbg cfg d' sched' kind metrics g = Ok m' /\ renamed_model p (d_nfeatures d) m m' /\
    forall D D', reordered_columns p D D' -> d_nfeatures D = d_nfeatures d -> additive_predict m' D' = additive_predict m D.
Proof.
  intros O M dbg cfg p d d' sched sched' kind metrics g m HO HR HA HS HS' Hn Hc HT E. unfold boost_train in E. apply rbind_ok in E as (b & E & Em). apply Ok_inj in Em. subst m.
  destruct (C70_run O M dbg cfg p d d' sched sched' kind metrics g _ b HO HR HA HS HS' Hn Hc HT E) as (b' & E' & _ & _ & HM & HP). exists (bs_ensemble b'). unfold boost_train. rewrite E'. split; [reflexivity|]. split; [exact HM|exact HP].
Qed.
Print Assumptions C70_model.

(** A feature fraction of 1 leaves no feature out, up to 2^24 features in single precision (any number below 2^64 in exact arithmetic). *)
Theorem C70_all_features : (forall (cfg : config f32ops) d, c_feature_fraction cfg = f_one -> (Z.of_nat (d_nfeatures d) <= 2 ^ 24)%Z -> all_features cfg d) /\
  (forall (cfg : config Rops) d, c_feature_fraction cfg = 1%R -> (Z.of_nat (d_nfeatures d) < 2 ^ 64)%Z -> all_features cfg d).
Proof.
  split; intros cfg d Hf Hn n Hle; rewrite Hf.
  - apply (C27_sample_size n f_one); [lia|vm_compute; reflexivity..].
  - apply (scaled_R n 1%R); [lra|lia|]. cbn [Rops nlt nofZ]. destruct (Rlt_bool_spec 1 1); [lra|reflexivity].
Qed.
Print Assumptions C70_all_features.

(** Deciding [no_ties] for a given training. *)
Section Check.
Variable O : numops.
Variable M : mathops O.
Variable dbg : bool.
Variable cfg : config O.
Definition adm_b (nd : node O) (v : histval O) : bool := (c_min_examples_leaf cfg <=? snd v)%N && (snd v + c_min_examples_leaf cfg <=? nd_count nd)%N && nlt O (c_min_gain cfg) (gain cfg nd v).
Definition hist_at (nd : node O) (f : nat) : list (histval O) := match nth_error (nd_hists nd) f with Some h => h | None => [] end.
Definition ties_b (s : dataset O) (nd : node O) : bool :=
  match active_features s with
  | Ok fs => forallb (fun f1 => forallb (fun f2 => (f1 =? f2) || forallb (fun v1 => forallb (fun v2 => negb (adm_b nd v1) || negb (adm_b nd v2) || nlt O (gain cfg nd v1) (gain cfg nd v2) || nlt O (gain cfg nd v2) (gain cfg nd v1)) (hist_at nd f2)) (hist_at nd f1)) fs) fs
  | _ => true
  end.
Lemma ties_b_ok s nd : ties_b s nd = true -> no_ties_at cfg s nd.
Proof.
  intros H f1 b1 v1 f2 b2 v2 Hne ((fs & nb1 & Ea & Hi1 & _) & Hb1 & Ha1 & Ha1') ((fs' & nb2 & Ea' & Hi2 & _) & Hb2 & Ha2 & Ha2') G1 G2. unfold ties_b in H. rewrite Ea in H. rewrite Ea in Ea'. injection Ea' as <-.
  rewrite forallb_forall in H. specialize (H f1 Hi1). rewrite forallb_forall in H. specialize (H f2 Hi2). apply Nat.eqb_neq in Hne. rewrite Hne in H. cbn [orb] in H.
  assert (In v1 (hist_at nd f1)) as V1. { unfold bin_of in Hb1. unfold hist_at. destruct (nth_error (nd_hists nd) f1); [|discriminate]. eapply nth_error_In, Hb1. }
  assert (In v2 (hist_at nd f2)) as V2. { unfold bin_of in Hb2. unfold hist_at. destruct (nth_error (nd_hists nd) f2); [|discriminate]. eapply nth_error_In, Hb2. }
  rewrite forallb_forall in H. specialize (H v1 V1). rewrite forallb_forall in H. specialize (H v2 V2). unfold adm_b in H. apply N.leb_le in Ha1, Ha1', Ha2, Ha2'. rewrite Ha1, Ha1', Ha2, Ha2', G1, G2 in H. cbn [andb negb orb] in H.
  apply Bool.orb_true_iff in H. exact H.
Qed.
Section Node.
Variable s : dataset O.
Variable sizes : list nat.
Variable bounds : num O * num O.
Variable sched : nat -> list job -> list job.
Fixpoint nodes_b (fuel : nat) (nd : node O) : bool :=
  match fuel with
  | 0 => false
  | S fuel => ties_b s nd &&
      match find_best_split dbg cfg s nd with
      | Ok sp => if is_no_split (sp_crit sp) then true else match get_left_right_n2s dbg cfg s sizes bounds sched nd sp with Ok (l, r) => nodes_b fuel l && nodes_b fuel r | _ => true end
      | _ => true
      end
  end.
Lemma nodes_b_ok gradients nd : (forall r, get_root_n2s cfg s sizes bounds sched gradients = Ok r -> nodes_b 20 r = true) -> grown dbg cfg s sizes bounds sched gradients nd -> exists fuel, nodes_b (S fuel) nd = true.
Proof.
  intros HR. induction 1 as [nd E|q sp l r _ IH E Hs El|q sp l r _ IH E Hs El]; [exists 19; apply HR, E| |];
    destruct IH as (fuel & H); cbn [nodes_b] in H; rewrite E, Hs, El in H; apply andb_prop in H as (_ & H); apply andb_prop in H as (Hl & Hr); (destruct fuel as [|fuel]; [discriminate|]); exists fuel; assumption.
Qed.
End Node.
Definition no_ties_b (d : data O) sched kind metrics g n : bool :=
  forallb (fun k => match boost_run M dbg cfg d sched kind metrics g k with
    | Ok b => match get_target d with
      | Ok target => match obj_update M target (bs_objective b) with
        | Ok ob => match dataset_update dbg cfg (bs_dataset b) (ob_grads ob) (obj_bounds ob) with
          | Ok s => match hist_sizes d with
            | Ok sizes => match get_root_n2s cfg s sizes (obj_bounds ob) (sched (S (bs_iter b))) (ob_grads ob) with Ok r => nodes_b s sizes (obj_bounds ob) (sched (S (bs_iter b))) 20 r | _ => true end
            | _ => true end
          | _ => true end
        | _ => true end
      | _ => true end
    | _ => true end) (seq 0 n).
Lemma no_ties_b_ok d sched kind metrics g n : no_ties_b d sched kind metrics g n = true -> no_ties M dbg cfg d sched kind metrics g n.
Proof.
  intros H k b target ob s sizes nd Hk Eb Et Eu Es Esz HG. unfold no_ties_b in H. rewrite forallb_forall in H. specialize (H k ltac:(apply in_seq; lia)). rewrite Eb, Et, Eu, Es, Esz in H. apply ties_b_ok.
  destruct (nodes_b_ok s sizes (obj_bounds ob) (sched (S (bs_iter b))) (ob_grads ob) nd) as (fuel & HF); [intros r Er; rewrite Er in H; exact H|exact HG|]. cbn [nodes_b] in HF. apply andb_prop in HF. apply HF.
Qed.
End Check.

(** Six examples with two features, and the same table with the features exchanged; two trees of depth 2. *)
Definition col_cfg : config f32ops :=
  @mk_config f32ops String.EmptyString String.EmptyString String.EmptyString [] 2%N true 44%N [0; 1] 2 f_half (fz 0) 1%N (fz 0) (fz 1) 4 4 2 f_half (fz 1) 1%N f_one f_one 1.
Definition swap01 (f : nat) : nat := match f with 0 => 1 | 1 => 0 | f => f end.
Definition col_a : list f32 := [fz 0; fz 0; fz 0; fz 1; fz 1; fz 1].
Definition col_b : list f32 := [fz 0; fz 1; fz 2; fz 0; fz 0; fz 1].
Definition col_t : list f32 := [fz 1; fz 2; fz 3; fz 5; fz 8; fz 13].
Definition col_d : data f32ops := @mk_data f32ops 4 2 6 [col_a; col_b; col_t] [(fz 0, fz 1); (fz 0, fz 2); (fz 1, fz 13)] [LoCardCat; LoCardCat; Numerical] [2; 3; 0].
Definition col_d' : data f32ops := @mk_data f32ops 4 2 6 [col_b; col_a; col_t] [(fz 0, fz 2); (fz 0, fz 1); (fz 1, fz 13)] [LoCardCat; LoCardCat; Numerical] [3; 2; 0].
Lemma two_columns (a b t : list f32) la lb lt ka kb kt ca cb ct nb n : length a = n -> length b = n -> length t = n ->
  reordered_columns swap01 (@mk_data f32ops nb 2 n [a; b; t] [la; lb; lt] [ka; kb; kt] [ca; cb; ct]) (@mk_data f32ops nb 2 n [b; a; t] [lb; la; lt] [kb; ka; kt] [cb; ca; ct]).
Proof.
  intros Ha Hb Ht. unfold reordered_columns. cbn [d_nfeatures d_nexamples d_max_nbins d_features]. split; [intros [|[|f]] Hf; cbn [swap01]; lia|]. split; [intros [|[|f]] [|[|h]] Hf Hh; cbn [swap01]; lia|].
  split; [reflexivity|]. split; [reflexivity|]. split; [reflexivity|]. split; [reflexivity|]. split; [reflexivity|]. split; [intros [|[|f]] Hf; [repeat split..|lia]|]. split; [reflexivity|].
  intros col [[<-|[<-|[<-|[]]]]|[<-|[<-|[<-|[]]]]]; assumption.
Qed.
Lemma col_reordered : reordered_columns swap01 col_d col_d'.
Proof. apply two_columns; reflexivity. Qed.
Example C70_ex : reordered_columns swap01 col_d col_d' /\ all_features col_cfg col_d /\ any_order bst_sched /\ 0 < d_nexamples col_d /\ (N.of_nat (scaled_count (d_nexamples col_d) (c_example_fraction col_cfg)) <= 2 ^ 31)%N /\
  no_ties bst_math true col_cfg col_d bst_sched L2 [ML2] ex_rng (c_niterations col_cfg) /\
  match boost_train bst_math true col_cfg col_d bst_sched L2 [ML2] ex_rng, boost_train bst_math true col_cfg col_d' bst_sched L2 [ML2] ex_rng with
  | Ok m, Ok m' => (map (fun t => map sc_feature (firstn 3 (t_crits t))) (at_trees m), map (fun t => map sc_feature (firstn 3 (t_crits t))) (at_trees m')) = ([[0; 1; 1]; [0; 1; 1]], [[1; 0; 0]; [1; 0; 0]])
  | _, _ => False
  end.
Proof.
  split; [exact col_reordered|]. split; [apply C70_all_features; [reflexivity|cbn [col_d d_nfeatures]; lia]|]. split; [intros i k js; apply rev_sched_perm|]. split; [cbn [col_d d_nexamples]; lia|]. split; [vm_compute; intros H; exact (Bool.diff_false_true (f_equal (fun c => match c with Gt => true | _ => false end) H))|].
  split; [apply no_ties_b_ok; vm_compute; reflexivity|vm_compute; reflexivity].
Qed.

(** With a tie the first of the tied columns is used, so the order does matter: two columns that are equal in the training data, exchanged (which leaves the training data as it is); the model always splits on feature 0, so it predicts by the one
    column for rows in the first order and by the other for rows in the second order. *)
Definition tie_d : data f32ops := @mk_data f32ops 4 2 6 [col_a; col_a; col_t] [(fz 0, fz 1); (fz 0, fz 1); (fz 1, fz 13)] [LoCardCat; LoCardCat; Numerical] [2; 2; 0].
Definition tie_new : data f32ops := @mk_data f32ops 4 2 2 [[fz 0; fz 1]; [fz 1; fz 0]; [fz 0; fz 0]] [(fz 0, fz 1); (fz 0, fz 1); (fz 0, fz 0)] [LoCardCat; LoCardCat; Numerical] [2; 2; 0].
Definition tie_new' : data f32ops := @mk_data f32ops 4 2 2 [[fz 1; fz 0]; [fz 0; fz 1]; [fz 0; fz 0]] [(fz 0, fz 1); (fz 0, fz 1); (fz 0, fz 0)] [LoCardCat; LoCardCat; Numerical] [2; 2; 0].
Theorem C70_ties_refuted : exists (cfg : config f32ops) p d d' D D' m m' ps ps', reordered_columns p d d' /\ all_features cfg d /\ reordered_columns p D D' /\ d_nfeatures D = d_nfeatures d /\
  boost_train bst_math true cfg d bst_sched L2 [] ex_rng = Ok m /\ boost_train bst_math true cfg d' bst_sched L2 [] ex_rng = Ok m' /\
  additive_predict m D = Ok ps /\ additive_predict m' D' = Ok ps' /\ map (fun q => f_eq (fst q) (snd q)) (combine ps ps') = [false; false].
Proof.
  assert (match boost_train bst_math true col_cfg tie_d bst_sched L2 [] ex_rng with
          | Ok m => match additive_predict m tie_new, additive_predict m tie_new' with Ok ps, Ok ps' => map (fun q => f_eq (fst q) (snd q)) (combine ps ps') = [false; false] | _, _ => False end
          | _ => False end) as H by (vm_compute; reflexivity).
  exists col_cfg, swap01, tie_d, tie_d, tie_new, tie_new'.
  destruct (boost_train bst_math true col_cfg tie_d bst_sched L2 [] ex_rng) as [m| | |]; try destruct H. exists m, m.
  destruct (additive_predict m tie_new) as [ps| | |]; try destruct H. destruct (additive_predict m tie_new') as [ps'| | |]; try destruct H. exists ps, ps'.
  split; [apply two_columns; reflexivity|]. split; [apply C70_all_features; [reflexivity|cbn [tie_d d_nfeatures]; lia]|]. split; [apply two_columns; reflexivity|]. auto 10.
Qed.
Print Assumptions C70_ties_refuted.
