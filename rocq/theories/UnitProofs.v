(** Training on a table whose numerical columns are measured in other units. *)
From Verif Require Import Base BaseProofs BitModel Num ScaledModel DataModel BinnerModel Config TreeModel DatasetModel LearnerModel ObjectiveModel MetricModel BoostModel AlikeProofs.

(** A map that depends on the position. *)
Fixpoint mapi {A B} (f : nat -> A -> B) (k : nat) (l : list A) : list B :=
  match l with [] => [] | x :: t => f k x :: mapi f (S k) t end.
Lemma mapi_length {A B} (f : nat -> A -> B) l : forall k, length (mapi f k l) = length l.
Proof. induction l; intros; cbn; f_equal; auto. Qed.
Lemma nth_mapi {A B} (f : nat -> A -> B) l : forall k i, nth_error (mapi f k l) i = option_map (f (k + i)) (nth_error l i).
Proof. induction l as [|x l IH]; intros k [|i]; cbn; try reflexivity; [rewrite Nat.add_0_r; reflexivity|]. rewrite IH. f_equal. f_equal. lia. Qed.
Lemma idx_mapi {A B} (f : nat -> A -> B) l i : idx (mapi f 0 l) i = rmap (f i) (idx l i).
Proof. unfold idx, rmap. rewrite nth_mapi. cbn [Nat.add]. destruct (nth_error l i); reflexivity. Qed.
Lemma upd_mapi {A B} (f : nat -> A -> B) l x : forall k i, upd (mapi f k l) i (f (k + i) x) = mapi f k (upd l i x).
Proof. induction l as [|y l IH]; intros k [|i]; cbn; try reflexivity; [rewrite Nat.add_0_r; reflexivity|]. f_equal. replace (k + S i) with (S k + i) by lia. apply IH. Qed.
Lemma set_idx_mapi {A B} (f : nat -> A -> B) l i x : set_idx (mapi f 0 l) i (f i x) = rmap (mapi f 0) (set_idx l i x).
Proof. unfold set_idx, rmap. rewrite mapi_length. destruct (i <? length l); [|reflexivity]. cbn [rbind]. f_equal. apply (upd_mapi f l x 0 i). Qed.
Lemma idx_maph {A B} (f : A -> B) l i : idx (map f l) i = rmap f (idx l i).
Proof. unfold idx, rmap. rewrite nth_error_map. destruct (nth_error l i); reflexivity. Qed.

(** What a change of unit has to respect. *)
Record unit_map {O} (h : num O -> num O) : Prop := mk_unit {
  um_lt : forall a b, nlt O (h a) (h b) = nlt O a b;
  um_eq : forall a b, neq O (h a) (h b) = neq O a b;
  um_fin : forall a, nisfin O (h a) = nisfin O a;
  um_bin : forall n lo hi v, n <> 0 -> nlt O lo hi = true -> ndiv O (nsub O (h v) (h lo)) (ndiv O (nsub O (h hi) (h lo)) (nofnat O n)) = ndiv O (nsub O v lo) (ndiv O (nsub O hi lo) (nofnat O n));
  um_rep : forall n k lo hi, n <> 0 -> nlt O lo hi = true -> nadd O (h lo) (nmul O (nofnat O k) (ndiv O (nsub O (h hi) (h lo)) (nofnat O n))) = h (nadd O lo (nmul O (nofnat O k) (ndiv O (nsub O hi lo) (nofnat O n))))
}.

Section Bins.
Variable O : numops.
Variable h : num O -> num O.
Hypothesis Hh : unit_map h.
Definition bin_at {B} (bins : list B) (n : nat) (lo hi : num O) : binner O B := mk_binner bins lo (ndiv O (nsub O hi lo) (nofnat O n)).
Lemma get_bin_h {B} (bins : list B) n lo hi v : n <> 0 -> nlt O lo hi = true -> get_bin (bin_at bins n (h lo) (h hi)) (h v) = get_bin (bin_at bins n lo hi) v.
Proof. intros H1 H2. unfold get_bin, bin_at. cbn [bn_min bn_delta bn_bins]. rewrite (um_bin h Hh) by assumption. reflexivity. Qed.
Lemma rep_h {B} (bins : list B) n lo hi k : n <> 0 -> nlt O lo hi = true -> bin_representative (bin_at bins n (h lo) (h hi)) k = h (bin_representative (bin_at bins n lo hi) k).
Proof. intros H1 H2. unfold bin_representative, bin_at. cbn [bn_min bn_delta bn_bins]. apply (um_rep h Hh); assumption. Qed.
Lemma insert_h {B} n lo hi (items : list (num O * (B -> B))) : n <> 0 -> nlt O lo hi = true -> forall bins,
  binner_insert_all (bin_at bins n (h lo) (h hi)) (map (fun it => (h (fst it), snd it)) items) = rmap (fun b => bin_at (bn_bins b) n (h lo) (h hi)) (binner_insert_all (bin_at bins n lo hi) items) /\
  forall b, binner_insert_all (bin_at bins n lo hi) items = Ok b -> b = bin_at (bn_bins b) n lo hi.
Proof.
  intros H1 H2. induction items as [|[v c] items IH]; intros bins; cbn [map binner_insert_all fst snd]; [split; [reflexivity|intros b E; injection E as <-; reflexivity]|].
  unfold binner_insert. rewrite get_bin_h by assumption. cbn [bn_bins bin_at bn_min bn_delta]. destruct (idx bins _) as [bin| | |]; cbn [rbind]; [|split; [reflexivity|discriminate]..]. destruct (set_idx bins _ _) as [bins'| | |]; cbn [rbind]; [|split; [reflexivity|discriminate]..]. apply IH.
Qed.
Lemma new_h {B} (bins : list B) lo hi : binner_new bins (h lo) (h hi) = rmap (fun b => bin_at (bn_bins b) (length bins) (h lo) (h hi)) (binner_new bins lo hi).
Proof.
  unfold binner_new, rmap. rewrite !(um_fin h Hh), (um_lt h Hh). destruct (rassert (nisfin O lo)); cbn [rbind]; try reflexivity. destruct (rassert (nisfin O hi)); cbn [rbind]; try reflexivity. destruct (rassert (nlt O lo hi)); cbn [rbind]; try reflexivity. destruct (rassert (negb _)); cbn [rbind]; reflexivity.
Qed.
Lemma new_inv {B} (bins : list B) lo hi (b : binner O B) : binner_new bins lo hi = Ok b -> b = bin_at bins (length bins) lo hi /\ nlt O lo hi = true /\ length bins <> 0.
Proof.
  unfold binner_new. intros E. apply rbind_ok in E as (? & _ & E). apply rbind_ok in E as (? & _ & E). apply rbind_ok in E as (? & E1 & E). apply rbind_ok in E as (? & E2 & E). injection E as <-. split; [reflexivity|]. unfold rassert in *. destruct (nlt O lo hi); [|discriminate]. destruct (length bins =? 0) eqn:E0; [discriminate|]. apply Nat.eqb_neq in E0. auto.
Qed.
Lemma below_h cands x : leading_below (nlt O) (map h cands) (h x) = leading_below (nlt O) cands x.
Proof. induction cands as [|c cands IH]; cbn; [reflexivity|]. rewrite (um_lt h Hh), IH. reflexivity. Qed.
Lemma items_h feat grad ex : num_items (map h feat) grad ex = rmap (map (fun it => (h (fst it), snd it))) (num_items feat grad ex).
Proof.
  unfold num_items. induction ex as [|j ex IH]; cbn [mapM]; [reflexivity|]. rewrite IH, idx_maph. clear IH. unfold rmap. destruct (idx feat j); cbn [rbind]; try reflexivity. destruct (idx grad j); cbn [rbind]; try reflexivity. destruct (mapM _ ex); reflexivity.
Qed.
Lemma candidates_h cfg feat grad lo hi ex :
  num_candidates cfg (map h feat) grad (h lo, h hi) ex = rmap (fun r => (map h (fst r), bin_at (bn_bins (snd r)) QUANTILE_EST_NBINS (h lo) (h hi))) (num_candidates cfg feat grad (lo, hi) ex) /\
  forall cands b, num_candidates cfg feat grad (lo, hi) ex = Ok (cands, b) -> b = bin_at (bn_bins b) QUANTILE_EST_NBINS lo hi /\ nlt O lo hi = true.
Proof.
  unfold num_candidates. cbn [fst snd]. rewrite !new_h.
  destruct (binner_new (repeat (nofZ O 0) QUANTILE_EST_NBINS) lo hi) as [b0| | |] eqn:E0; cbn [rmap rbind]; [|split; [reflexivity|discriminate]..]. apply new_inv in E0 as (-> & Hlt & Hne). rewrite repeat_length in *. cbn [bn_bins bin_at].
  rewrite items_h. destruct (num_items feat grad ex) as [items| | |]; cbn [rmap rbind]; [|split; [reflexivity|discriminate]..].
  rewrite map_map. cbn [fst snd]. destruct (insert_h QUANTILE_EST_NBINS lo hi (map (fun it => (fst it, fun x => nadd O x (snd it))) items) Hne Hlt (repeat (nofZ O 0) QUANTILE_EST_NBINS)) as [EI EB]. rewrite map_map in EI. cbn [fst snd] in EI.
  match type of EI with ?l = rmap _ ?r => set (L := l) in *; set (X := r) in * end. clearbody L. subst L. clearbody X.
  destruct X as [b| | |]; cbn [rmap rbind]; [|split; [reflexivity|discriminate]..]. specialize (EB b eq_refl).
  assert (fold_left (fun a it => nadd O a (snd it)) (map (fun it => (h (fst it), snd it)) items) (nofZ O 0) = fold_left (fun a (it : num O * num O) => nadd O a (snd it)) items (nofZ O 0)) as ->.
  { generalize (nofZ O 0). clear. induction items as [|x items IH]; intros z; cbn; auto. }
  unfold rank_iter_all. cbn [bn_bins bin_at]. destruct (ranks_of _ _ _ _ _ _) as [qb| | |]; cbn [rbind]; [|split; [reflexivity|discriminate]..].
  assert (map (fun bin => bin_representative (bin_at (bn_bins b) QUANTILE_EST_NBINS (h lo) (h hi)) (bin + 1)) (dedup_bins None qb) = map h (map (fun bin => bin_representative b (bin + 1)) (dedup_bins None qb))) as EC.
  { rewrite map_map. apply map_ext. intros k. rewrite rep_h by assumption. rewrite <- EB. reflexivity. }
  cbn [bin_at bn_bins] in EC. rewrite EC. rewrite map_length.
  destruct (rassert (length (map _ _) <=? _)); cbn [rbind]; [|split; [reflexivity|discriminate]..]. destruct (rassert (0 <? _)); cbn [rbind]; [|split; [reflexivity|discriminate]..].
  destruct (binner_new (repeat 0 QUANTILE_EST_NBINS) lo hi) as [b2| | |] eqn:E2; cbn [rmap rbind]; [|split; [reflexivity|discriminate]..]. apply new_inv in E2 as (-> & _ & _). rewrite repeat_length. cbn [bn_bins bin_at bn_min bn_delta]. split.
  - f_equal. cbn [fst snd]. f_equal. unfold bin_at. f_equal. apply map_ext. intros k. change (mk_binner (repeat 0 QUANTILE_EST_NBINS) (h lo) (ndiv O (nsub O (h hi) (h lo)) (nofnat O QUANTILE_EST_NBINS))) with (bin_at (repeat 0 QUANTILE_EST_NBINS) QUANTILE_EST_NBINS (h lo) (h hi)). rewrite rep_h by assumption. apply below_h.
  - intros cands b3 E. injection E as _ <-. split; [reflexivity|exact Hlt].
Qed.
End Bins.
