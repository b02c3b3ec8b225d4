(** Training on tables that agree on the informative columns. *)
From Coq Require Import Permutation.
From Verif Require Import Base BaseProofs BitModel Num DataModel BinnerModel Config TreeModel DatasetModel DatasetSpec DatasetProofs DatasetProofs3 DatasetProofs4 DatasetProofs5
  LearnerModel LearnerSpec LearnerProofs3 LearnerProofs4 ObjectiveModel MetricModel BoostModel BoostSpec AlikeSpec RowProofs4.

Definition rmap {A B} (f : A -> B) (r : res A) : res B := let* x := r in Ok (f x).
Lemma foldM_rmap {A S S'} (h : S -> S') (P : S -> Prop) (f : S -> A -> res S) (g : S' -> A -> res S') (l : list A) :
  (forall s x, P s -> In x l -> g (h s) x = rmap h (f s x)) -> (forall s x s', P s -> In x l -> f s x = Ok s' -> P s') -> forall s, P s -> foldM g l (h s) = rmap h (foldM f l s).
Proof.
  induction l as [|x l IH]; intros H1 H2 s HP; cbn [foldM]; [reflexivity|]. rewrite H1 by (try left; auto). unfold rmap. destruct (f s x) as [s1| | |] eqn:E; cbn [rbind]; try reflexivity.
  apply IH; [intros s0 y HP0 Hy; apply H1; [exact HP0|right; exact Hy]|intros s0 y s' HP0 Hy; apply H2; [exact HP0|right; exact Hy]|eapply H2; [exact HP|left; reflexivity|exact E]].
Qed.
Lemma foldM_ext_in {A S} (f g : S -> A -> res S) (l : list A) : (forall s x, In x l -> g s x = f s x) -> forall s, foldM g l s = foldM f l s.
Proof. induction l as [|x l IH]; intros H s; cbn [foldM]; [reflexivity|]. rewrite H by (left; reflexivity). destruct (f s x); cbn [rbind]; try reflexivity. apply IH. intros; apply H; right; assumption. Qed.

Lemma shuffle_perm g k buf buf' g' : shuffle_first_k g k buf = Ok (buf', g') -> Permutation buf buf'.
Proof.
  intros E. destruct (Nat.le_gt_cases k (length buf)) as [H|H].
  - destruct (shuffle_ok g k buf H) as (b1 & g1 & E1 & P & _). rewrite E1 in E. injection E as <- _. exact P.
  - rewrite (shuffle_panics g k buf H) in E. discriminate.
Qed.

Section Alike.
Variable O : numops.
Variables d d' : data O.
Hypothesis Hal : alike d d'.
Definition swap_inner (s : inner O) : inner O :=
  mk_inner (in_rng s) d' (in_useful s) (in_nactive_features s) (in_nactive_examples s) (in_bitvecs s) (in_supercats s) (in_split_candidates s) (in_used_nbins s) (in_has_non_locard s).
Definition swap (s : dataset O) : dataset O := mk_ds (swap_inner (ds_inner s)) (ds_index_buffer s) (ds_update_count s).
Definition useful (s : inner O) : Prop := forall f, In f (in_useful s) -> useful_feature d f.

Lemma al_nf : d_nfeatures d' = d_nfeatures d. Proof. apply Hal. Qed.
Lemma al_n : d_nexamples d' = d_nexamples d. Proof. apply Hal. Qed.
Lemma al_same f : useful_feature d f -> same_column d d' f.
Proof. intros H. destruct Hal as (_ & _ & _ & _ & _ & _ & K). apply K; [apply H|exact H]. Qed.
Lemma al_nb f : f < d_nfeatures d -> max_nbins d' f = max_nbins d f.
Proof. intros H. destruct Hal as (_ & _ & _ & _ & _ & _ & K). apply K; assumption. Qed.

(* ---- the data set ---- *)
Lemma swap_locard s f ex : in_data s = d -> useful_feature d f -> update_locard_cat (swap_inner s) f ex = rmap swap_inner (update_locard_cat s f ex).
Proof.
  intros Hd Hf. destruct (al_same f Hf) as (E1 & E2 & E3 & E4). unfold update_locard_cat, set_bitvecs. cbn [in_data swap_inner in_used_nbins in_bitvecs in_rng in_useful in_nactive_features in_nactive_examples in_supercats in_split_candidates in_has_non_locard]. rewrite Hd, E1, al_nb by apply Hf.
  destruct (get_feature d f); cbn [rbind rmap]; try reflexivity. destruct (max_nbins d f); cbn [rbind]; try reflexivity. destruct (set_idx (in_used_nbins s) f _); cbn [rbind]; try reflexivity. destruct (idx (in_bitvecs s) f); cbn [rbind]; try reflexivity.
  destruct (fill_bitvecs _ _ _); cbn [rbind]; try reflexivity. destruct (set_idx _ _ _); cbn [rbind]; reflexivity.
Qed.
Lemma swap_hicard dbg cfg s f ex grad bounds : in_data s = d -> useful_feature d f -> update_hicard_cat dbg cfg (swap_inner s) f ex grad bounds = rmap swap_inner (update_hicard_cat dbg cfg s f ex grad bounds).
Proof.
  intros Hd Hf. destruct (al_same f Hf) as (E1 & E2 & E3 & E4). unfold update_hicard_cat, set_bitvecs. cbn [in_data swap_inner in_used_nbins in_bitvecs in_rng in_useful in_nactive_features in_nactive_examples in_supercats in_split_candidates in_has_non_locard]. rewrite Hd, E1, E4.
  destruct (get_feature d f); cbn [rbind rmap]; try reflexivity. destruct (feat_card d f); cbn [rbind]; try reflexivity. destruct (hicard_groups _ _ _ _ _ _ _ _) as [[w sc]| | |]; cbn [rbind]; try reflexivity. destruct (idx (in_bitvecs s) f); cbn [rbind]; try reflexivity.
  destruct (subslice _ _ _); cbn [rbind]; try reflexivity. destruct (fill_bitvecs _ _ _); cbn [rbind]; try reflexivity. destruct (accumulate_bitvecs _); cbn [rbind]; try reflexivity. destruct (set_idx _ _ _); cbn [rbind]; try reflexivity. destruct (set_idx _ _ _); cbn [rbind]; try reflexivity. destruct (set_idx _ _ _); cbn [rbind]; reflexivity.
Qed.
Lemma swap_num cfg s f ex grad : in_data s = d -> useful_feature d f -> update_num cfg (swap_inner s) f ex grad = rmap swap_inner (update_num cfg s f ex grad).
Proof.
  intros Hd Hf. destruct (al_same f Hf) as (E1 & E2 & E3 & E4). unfold update_num, set_bitvecs. cbn [in_data swap_inner in_used_nbins in_bitvecs in_rng in_useful in_nactive_features in_nactive_examples in_supercats in_split_candidates in_has_non_locard]. rewrite Hd, E1, E2.
  destruct (get_feature d f); cbn [rbind rmap]; try reflexivity. destruct (feat_limits d f); cbn [rbind]; try reflexivity. destruct (num_candidates _ _ _ _ _) as [[w sc]| | |]; cbn [rbind]; try reflexivity. destruct (idx (in_bitvecs s) f); cbn [rbind]; try reflexivity.
  destruct (subslice _ _ _); cbn [rbind]; try reflexivity. destruct (fill_bitvecs _ _ _); cbn [rbind]; try reflexivity. destruct (accumulate_bitvecs _); cbn [rbind]; try reflexivity. destruct (set_idx _ _ _); cbn [rbind]; try reflexivity. destruct (set_idx _ _ _); cbn [rbind]; try reflexivity. destruct (set_idx _ _ _); cbn [rbind]; reflexivity.
Qed.
Definition good (s : inner O) : Prop := in_data s = d /\ useful s.
Lemma swap_feature dbg cfg locard ex grad bounds s u : good s -> update_feature dbg cfg locard ex grad bounds (swap_inner s) u = rmap swap_inner (update_feature dbg cfg locard ex grad bounds s u).
Proof.
  intros [Hd Hu]. unfold update_feature. cbn [in_useful in_data swap_inner]. destruct (idx (in_useful s) u) as [f| | |] eqn:Ef; cbn [rbind rmap]; try reflexivity. apply idx_ok in Ef. assert (useful_feature d f) as Hf by (apply Hu; eapply nth_error_In, Ef).
  destruct (al_same f Hf) as (E1 & E2 & E3 & E4). rewrite Hd, E3. destruct (feat_type_of d f) as [[]| | |]; cbn [rbind]; try reflexivity.
  - destruct locard; [|reflexivity]. apply swap_locard; assumption.
  - apply swap_hicard; assumption.
  - apply swap_num; assumption.
Qed.
Lemma keeps_useful dbg cfg locard ex grad bounds (s : inner O) u s1 : update_feature dbg cfg locard ex grad bounds s u = Ok s1 -> in_data s1 = in_data s /\ in_useful s1 = in_useful s.
Proof.
  unfold update_feature. intros E. apply rbind_ok in E as (f & _ & E). apply rbind_ok in E as (ft & _ & E).
  destruct ft.
  - destruct locard; [|injection E as <-; auto]. unfold update_locard_cat in E. repeat (apply rbind_ok in E as (? & _ & E)). injection E as <-. auto.
  - unfold update_hicard_cat in E. apply rbind_ok in E as (? & _ & E). apply rbind_ok in E as (? & _ & E). apply rbind_ok in E as ((? & ?) & _ & E). repeat (apply rbind_ok in E as (? & _ & E)). injection E as <-. auto.
  - unfold update_num in E. apply rbind_ok in E as (? & _ & E). apply rbind_ok in E as (? & _ & E). apply rbind_ok in E as ((? & ?) & _ & E). repeat (apply rbind_ok in E as (? & _ & E)). injection E as <-. auto.
Qed.
Lemma swap_features dbg cfg locard ex grad bounds l s : good s -> foldM (update_feature dbg cfg locard ex grad bounds) l (swap_inner s) = rmap swap_inner (foldM (update_feature dbg cfg locard ex grad bounds) l s).
Proof.
  intros H. apply (foldM_rmap swap_inner good); [intros; apply swap_feature; assumption| |exact H].
  intros s0 x s1 [G1 G2] _ E. apply keeps_useful in E as [E1 E2]. unfold good, useful. rewrite E1, E2. auto.
Qed.
Lemma swap_sample s : sample_examples (swap s) = rmap swap (sample_examples s).
Proof. unfold sample_examples, nactive_examples. cbn [ds_inner in_rng swap swap_inner in_nactive_examples ds_index_buffer]. destruct (shuffle_first_k _ _ _) as [[buf g]| | |]; reflexivity. Qed.
Lemma sample_good s s1 : good (ds_inner s) -> sample_examples s = Ok s1 -> good (ds_inner s1).
Proof. intros [A B] E. unfold sample_examples in E. apply rbind_ok in E as ((buf & g) & _ & E). injection E as <-. split; [exact A|exact B]. Qed.
Lemma swap_update dbg cfg s grad bounds : in_data (ds_inner s) = d -> useful (ds_inner s) -> dataset_update dbg cfg (swap s) grad bounds = rmap swap (dataset_update dbg cfg s grad bounds).
Proof.
  intros Hd Hu. unfold dataset_update. cbn [ds_update_count ds_inner ds_index_buffer swap].
  assert (initialize_supercats (swap_inner (ds_inner s)) = swap_inner (initialize_supercats (ds_inner s))) as ->. { unfold initialize_supercats, swap_inner. cbn. rewrite al_nf, Hd. reflexivity. }
  assert (good (initialize_supercats (ds_inner s))) as G0 by (split; assumption). revert G0. generalize (initialize_supercats (ds_inner s)). intros i0 G0.
  destruct (skip_update _ _); [reflexivity|].
  assert (sample_features (swap_inner i0) = rmap swap_inner (sample_features i0)) as ->.
  { unfold sample_features, in_feature_sampling_enabled. cbn [in_nactive_features in_useful swap_inner in_rng]. destruct (in_nactive_features i0 <? length (in_useful i0)); [|reflexivity]. destruct (shuffle_first_k _ _ _) as [[u g]| | |]; reflexivity. }
  destruct (sample_features i0) as [i1| | |] eqn:E1; cbn [rbind rmap]; try reflexivity.
  assert (good i1) as G1.
  { unfold sample_features in E1. destruct (in_feature_sampling_enabled i0); [|injection E1 as <-; exact G0]. apply rbind_ok in E1 as ((u & g) & Es & E1). injection E1 as <-. destruct G0 as [A B]. split; [exact A|]. cbn [in_useful]. intros f Hf. apply B. apply shuffle_perm in Es. eapply Permutation_in; [apply Permutation_sym; exact Es|exact Hf]. }
  clear E1 G0. change (mk_ds (swap_inner i1) (ds_index_buffer s) (ds_update_count s + 1)) with (swap (mk_ds i1 (ds_index_buffer s) (ds_update_count s + 1))).
  set (s1 := mk_ds i1 (ds_index_buffer s) (ds_update_count s + 1)). change (example_sampling_enabled (swap s1)) with (example_sampling_enabled s1). destruct (example_sampling_enabled s1).
  - rewrite swap_sample. destruct (sample_examples s1) as [s2| | |] eqn:E2; cbn [rbind rmap]; try reflexivity. apply sample_good in E2; [|exact G1]. change (active_examples (swap s2)) with (active_examples s2). destruct (active_examples s2) as [ex| | |]; cbn [rbind]; try reflexivity.
    change (nactive_features (swap s2)) with (nactive_features s2). change (ds_inner (swap s2)) with (swap_inner (ds_inner s2)). rewrite swap_features by exact E2. destruct (foldM _ _ _) as [i3| | |]; reflexivity.
  - cbn [in_has_non_locard swap_inner]. destruct (in_has_non_locard i1); [|reflexivity]. cbn [in_data swap_inner in_nactive_features]. rewrite al_n, (proj1 G1).
    fold (swap_inner i1). rewrite swap_features by exact G1. destruct (foldM _ _ _) as [i3| | |]; reflexivity.
Qed.
End Alike.
