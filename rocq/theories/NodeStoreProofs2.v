(** Histograms of a node in the histogram store. *)
From Coq Require Import Sorting.Permutation.
From Verif Require Import Base BaseProofs BitModel StoreModel StoreProofs StoreProofs2 StoreProofs3 Num LearnerModel NodeStoreModel NodeStoreProofs1.

Lemma upd_app_r A (l l' : list A) i x : upd (l ++ l') (length l + i) x = l ++ upd l' i x.
Proof. induction l as [|a l IH]; cbn; [reflexivity|]. rewrite IH. reflexivity. Qed.
Lemma upd_app_l A (l l' : list A) i x : i < length l -> upd (l ++ l') i x = upd l i x ++ l'.
Proof. revert i; induction l as [|a l IH]; intros [|i] Hi; cbn in *; try lia; [reflexivity|]. rewrite IH by lia. reflexivity. Qed.
Lemma list_sum_cons n l : list_sum (n :: l) = n + list_sum l. Proof. reflexivity. Qed.
Lemma sub_app_r A (l l' : list A) a b : sub (l ++ l') (length l + a) (length l + b) = sub l' a b.
Proof.
  unfold sub. rewrite skipn_app, skipn_all2 by lia. cbn [app]. replace (length l + a - length l) with a by lia. f_equal. lia.
Qed.
Lemma sub_app_l A (l l' : list A) : sub (l ++ l') 0 (length l) = l.
Proof. unfold sub. rewrite Nat.sub_0_r. cbn [skipn]. rewrite firstn_app, Nat.sub_diag, firstn_all. cbn. apply app_nil_r. Qed.
Lemma length_concat A (hs : list (list A)) : length (concat hs) = list_sum (map (@length A) hs).
Proof. induction hs as [|h t IH]; cbn; [reflexivity|]. rewrite app_length, IH. reflexivity. Qed.
Lemma concat_at A (hs : list (list A)) : forall f h, nth_error hs f = Some h ->
  sub (concat hs) (list_sum (firstn f (map (@length A) hs))) (list_sum (firstn (S f) (map (@length A) hs))) = h.
Proof.
  induction hs as [|x t IH]; intros [|f] h E; try discriminate.
  - injection E as ->. cbn [map firstn concat]. rewrite list_sum_cons. cbn [list_sum fold_right]. rewrite Nat.add_0_r. apply sub_app_l.
  - cbn [nth_error] in E. cbn [map concat]. change (firstn (S (S f)) (length x :: map (@length A) t)) with (length x :: firstn (S f) (map (@length A) t)).
    change (firstn (S f) (length x :: map (@length A) t)) with (length x :: firstn f (map (@length A) t)). rewrite !list_sum_cons, sub_app_r. apply IH, E.
Qed.
Lemma concat_upd A (hs : list (list A)) : forall f h i v, nth_error hs f = Some h -> i < length h ->
  concat (upd hs f (upd h i v)) = upd (concat hs) (list_sum (firstn f (map (@length A) hs)) + i) v /\ map (@length A) (upd hs f (upd h i v)) = map (@length A) hs.
Proof.
  induction hs as [|x t IH]; intros [|f] h i v E Hi; try discriminate.
  - injection E as ->. cbn [map firstn concat upd]. cbn [list_sum fold_right]. rewrite upd_app_l by exact Hi. split; [reflexivity|]. rewrite upd_length. reflexivity.
  - cbn [nth_error] in E. destruct (IH f h i v E Hi) as [E1 E2]. cbn [map concat upd]. change (firstn (S f) (length x :: map (@length A) t)) with (length x :: firstn f (map (@length A) t)).
    rewrite list_sum_cons, <- Nat.add_assoc, upd_app_r, E1, E2. split; reflexivity.
Qed.

Section Hist.
Context {T : Type}.
Variable sizes : list nat.
Let layout := 0 :: layout_from 0 sizes.

Lemma range_bad (st : store T) f : length sizes <= f -> get_histogram_range (mk_hist st layout) f = Panic.
Proof.
  intros Hf. unfold get_histogram_range, idx, layout. cbn [hs_layout]. destruct (nth_error (0 :: layout_from 0 sizes) f); [|reflexivity]. cbn [rbind].
  destruct (nth_error (0 :: layout_from 0 sizes) (f + 1)) eqn:E; [|reflexivity]. exfalso. assert (f + 1 < length (0 :: layout_from 0 sizes)) by (apply nth_error_Some; congruence). cbn [length] in H. rewrite layout_length in H. lia.
Qed.
Lemma get_hist_sim (st : store T) H r hs f : owns st H -> In (r, concat hs) H -> map (@length T) hs = sizes ->
  get_hist (mk_hist st layout) r f = idx hs f.
Proof.
  intros HO Hin Hs. unfold get_hist. destruct (Nat.lt_ge_cases f (length sizes)) as [Hf|Hf].
  - unfold layout. rewrite hist_range_ok by exact Hf. cbn [rbind hs_store]. rewrite (owns_get _ _ _ _ HO Hin). cbn [rbind].
    assert (f < length hs) as Hf' by (rewrite <- Hs, map_length in Hf; exact Hf). destruct (nth_error hs f) as [h|] eqn:E; [|apply nth_error_None in E; lia].
    unfold idx. rewrite E. apply subslice_ok. split; [apply list_sum_firstn_le; lia|]. split; [rewrite length_concat, Hs; apply list_sum_firstn_all|].
    symmetry. rewrite <- Hs. apply concat_at, E.
  - rewrite range_bad by exact Hf. cbn [rbind]. unfold idx. rewrite <- Hs, map_length in Hf. replace (nth_error hs f) with (@None (list T)); [reflexivity|]. symmetry. apply nth_error_None. exact Hf.
Qed.
Lemma put_hist_sim n peak (st : store T) H r hs f i v : uniform n peak st ((r, concat hs) :: H) -> map (@length T) hs = sizes ->
  sim (fun h hs' => hs_layout h = layout /\ uniform n peak (hs_store h) ((r, concat hs') :: H) /\ map (@length T) hs' = sizes)
    (put_hist_elem (mk_hist st layout) r f i v) (let* hist := idx hs f in let* hist' := set_idx hist i v in set_idx hs f hist').
Proof.
  intros HU Hs. pose proof (U_owns _ _ _ _ HU) as HO. pose proof (owns_get _ _ _ _ HO (or_introl eq_refl)) as G. destruct (owns_len _ _ _ _ HO (or_introl eq_refl)) as (L & _ & _). unfold put_hist_elem. destruct (Nat.lt_ge_cases f (length sizes)) as [Hf|Hf].
  - unfold layout. rewrite hist_range_ok by exact Hf. cbn [rbind hs_store]. rewrite G. cbn [rbind].
    assert (f < length hs) as Hf' by (rewrite <- Hs, map_length in Hf; exact Hf). destruct (nth_error hs f) as [h|] eqn:E; [|apply nth_error_None in E; lia].
    unfold idx at 1. rewrite E. cbn [rbind].
    assert (subslice (concat hs) (list_sum (firstn f sizes)) (list_sum (firstn (S f) sizes)) = Ok h) as Eh.
    { apply subslice_ok. split; [apply list_sum_firstn_le; lia|]. split; [rewrite length_concat, Hs; apply list_sum_firstn_all|]. symmetry. rewrite <- Hs. apply concat_at, E. }
    rewrite Eh. cbn [rbind]. destruct (Nat.ltb_spec i (length h)) as [Hi|Hi]; cbn [rassert rbind].
    + rewrite set_idx_lt by exact Hi. cbn [rbind]. rewrite set_idx_lt by exact Hf'.
      assert (list_sum (firstn f sizes) + i < snd r - fst r) as Hlt.
      { rewrite <- L, length_concat, Hs. pose proof (list_sum_firstn_S sizes f Hf). pose proof (list_sum_firstn_all sizes (S f)). assert (nth f sizes 0 = length h) as Hn by (rewrite <- Hs; apply nth_error_nth, map_nth_error, E). lia. }
      destruct HU as [[I Al] B C D F]. destruct (put_elem_seq st _ _ 0 r _ v I eq_refl Hlt) as (s' & Es & I'). rewrite Es. cbn [rbind sim hs_layout hs_store]. split; [reflexivity|].
      destruct (concat_upd _ hs f h i v E Hi) as [E1 E2]. rewrite E2, E1, Hs. split; [|reflexivity].
      unfold put_elem in Es. apply rbind_ok in Es as (cells & _ & Es). apply rbind_ok in Es as (u & _ & Es). injection Es as <-.
      constructor; try assumption. split; [exact I'|exact Al].
    + unfold set_idx. destruct (Nat.ltb_spec i (length h)); [lia|]. cbn. exact I.
  - rewrite range_bad by exact Hf. cbn [rbind]. unfold idx. rewrite <- Hs, map_length in Hf. replace (nth_error hs f) with (@None (list T)); [exact I|]. symmetry. apply nth_error_None. exact Hf.
Qed.
End Hist.

Section Subtract.
Variable O : numops.
Variable dbg : bool.
Notation hv := (histval O).
Let minus (x : hv * hv) : res hv := hv_sub O dbg (fst x) (snd x).

Lemma s_sub_loop (p l : list hv) plo llo rlo : length l = length p -> forall n start (buf : list (option hv)), start + n = length p ->
  (forall i, start <= i < start + n -> nth_error buf (plo + i) = option_map Some (nth_error p i)) ->
  (forall i, start <= i < start + n -> nth_error buf (llo + i) = option_map Some (nth_error l i)) ->
  (forall i j, start <= i < start + n -> start <= j < start + n -> rlo + i <> plo + j /\ rlo + i <> llo + j) ->
  rlo + start + n <= length buf ->
  sim (fun buf' vs => length vs = n /\ length buf' = length buf /\ (forall q, ~ (rlo + start <= q < rlo + start + n) -> nth_error buf' q = nth_error buf q) /\
      forall i, i < n -> nth_error buf' (rlo + start + i) = option_map Some (nth_error vs i))
    (s_subtract_loop dbg (seq start n) plo llo rlo buf) (mapM minus (combine (skipn start p) (skipn start l))).
Proof.
  intros Hlen. induction n as [|n IH]; intros start buf Hn Hp Hl Hd HL; cbn [seq s_subtract_loop].
  - rewrite skipn_all2 by lia. cbn. repeat split; auto. intros; lia.
  - destruct (nth_error p start) as [x|] eqn:Ex; [|apply nth_error_None in Ex; lia]. destruct (nth_error l start) as [y|] eqn:Ey; [|apply nth_error_None in Ey; lia].
    assert (forall (q : list hv) z, nth_error q start = Some z -> skipn start q = z :: skipn (S start) q) as Hsk.
    { clear. induction start as [|k IH]; intros [|a q] z E; try discriminate; cbn in *; [injection E as ->; reflexivity|]. apply IH, E. }
    rewrite (Hsk p x Ex), (Hsk l y Ey). cbn [combine mapM]. unfold idx. rewrite (Hp start), (Hl start), Ex, Ey by lia. cbn [option_map rbind rd_cell].
    unfold minus at 1. cbn [fst snd]. apply sim_same. intros v Ev. rewrite set_idx_lt by lia. cbn [rbind].
    specialize (IH (S start) (upd buf (rlo + start) (Some v))).
    replace (s_subtract_loop dbg (seq (S start) n) plo llo rlo (upd buf (rlo + start) (Some v))) with (rbind (s_subtract_loop dbg (seq (S start) n) plo llo rlo (upd buf (rlo + start) (Some v))) (fun b => Ok b)) by (destruct (s_subtract_loop _ _ _ _ _ _); reflexivity).
    eapply sim_bind; [apply IH|].
    + lia.
    + intros i Hi. rewrite nth_error_upd. destruct (Hd start i ltac:(lia) ltac:(lia)). destruct (Nat.eqb_spec (rlo + start) (plo + i)); [lia|]. apply Hp. lia.
    + intros i Hi. rewrite nth_error_upd. destruct (Hd start i ltac:(lia) ltac:(lia)). destruct (Nat.eqb_spec (rlo + start) (llo + i)); [lia|]. apply Hl. lia.
    + intros i j Hi Hj. apply Hd; lia.
    + rewrite upd_length. lia.
    + intros buf' vs _ _ (L1 & L2 & F & C). cbn [sim]. rewrite upd_length in L2. split; [cbn; lia|]. split; [exact L2|]. split.
      * intros q Hq. rewrite F by lia. rewrite nth_error_upd. destruct (Nat.eqb_spec (rlo + start) q); [lia|reflexivity].
      * intros [|i] Hi.
        -- rewrite Nat.add_0_r. rewrite F by lia. rewrite nth_error_upd, Nat.eqb_refl. destruct (Nat.ltb_spec (rlo + start) (length buf)); [reflexivity|lia].
        -- cbn [nth_error]. rewrite <- C by lia. f_equal. lia.
Qed.
Lemma mapM_combine_app (a b c d : list hv) : length a = length b -> mapM minus (combine (a ++ c) (b ++ d)) = let* x := mapM minus (combine a b) in let* y := mapM minus (combine c d) in Ok (x ++ y).
Proof.
  revert b; induction a as [|x a IH]; intros [|y b] H; try discriminate; cbn [app combine mapM].
  - cbn [rbind app]. destruct (mapM minus (combine c d)); reflexivity.
  - destruct (minus (x, y)); try reflexivity. cbn [rbind]. rewrite IH by (cbn in H; lia). destruct (mapM minus (combine a b)); try reflexivity. cbn [rbind]. destruct (mapM minus (combine c d)); reflexivity.
Qed.
Lemma mapM_length' {A B} (f : A -> res B) l l' : mapM f l = Ok l' -> length l' = length l.
Proof. intros E. apply mapM_ok in E. induction E; cbn; congruence. Qed.
Lemma flat_subtract (p l : list (list hv)) : map (@length hv) l = map (@length hv) p ->
  sim (fun vs h => concat h = vs /\ map (@length hv) h = map (@length hv) p) (mapM minus (combine (concat p) (concat l))) (LearnerModel.hists_subtract dbg p l).
Proof.
  revert l; induction p as [|a p IH]; intros [|b l] H; try discriminate; [cbn; auto|]. cbn [map] in H. assert (length b = length a /\ map (@length hv) l = map (@length hv) p) as [H1 H2] by (inversion H; auto).
  cbn [concat]. rewrite mapM_combine_app by lia. unfold LearnerModel.hists_subtract. cbn [combine mapM fst snd]. apply sim_same. intros x Ex.
  eapply sim_bind; [apply (IH l H2)|]. intros vs h _ _ [E1 E2]. cbn [sim concat map]. rewrite E1, E2. split; [reflexivity|]. f_equal. apply mapM_length' in Ex. rewrite Ex, combine_length. lia.
Qed.
End Subtract.
