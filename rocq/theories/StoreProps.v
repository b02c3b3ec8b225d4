(** Properties C13, C14, C45 and the store versions of C02, C04: slice stores. *)
From Verif Require Import Base BaseProofs BitModel BitSpec BitProofs BitProofs2 StoreModel StoreSpec StoreProofs StoreProofs2 StoreProofs3.

(* ---- C13 ---- *)

(** The store refines independent arrays: whatever calls a client made, reading the k-th slice it holds gives the
    contents the k-th independent array would have (so no call changed any other slice, and fresh slices have the
    requested initial contents, also when a freed slice is reused).  [dbg] = with or without debug assertions. *)
Theorem C13_contents : forall T (dbg : bool) cap align (s0 : store T) ops s held,
  0 < align -> store_new cap align = Ok s0 -> run_ops dbg ops (s0, []) = Ok (s, held) ->
  length held = length (heap_run ops []) /\
  forall k r c, nth_error held k = Some r -> nth_error (heap_run ops []) k = Some c -> get_slice s r = Ok c.
Proof.
  intros T dbg cap align s0 ops s held Hal E0 E. pose proof (inv_new _ _ _ E0) as I0.
  assert (st_align s0 = align) as Ea by (unfold store_new in E0; apply rbind_ok in E0 as (u & _ & X); injection X as <-; reflexivity).
  destruct (run_inv dbg ops s0 [] [] s held ltac:(lia) I0 E) as (I & _). split; [exact (inv_length _ _ _ I)|].
  intros k r c. apply held_get. exact I.
Qed.
Print Assumptions C13_contents.

(** Slices held at the same time do not overlap, start aligned, and lie inside the part of the store in use. *)
Theorem C13_placement : forall T (dbg : bool) cap align (s0 : store T) ops s held,
  0 < align -> store_new cap align = Ok s0 -> run_ops dbg ops (s0, []) = Ok (s, held) ->
  (forall r, In r held -> fst r < snd r /\ fst r mod align = 0 /\ snd r <= st_len s /\ st_len s <= length (st_buf s)) /\
  (forall i j ri rj, i <> j -> nth_error held i = Some ri -> nth_error held j = Some rj -> disjoint ri rj).
Proof.
  intros T dbg cap align s0 ops s held Hal E0 E. pose proof (inv_new _ _ _ E0) as I0.
  assert (st_align s0 = align) as Ea by (unfold store_new in E0; apply rbind_ok in E0 as (u & _ & X); injection X as <-; reflexivity).
  destruct (run_inv dbg ops s0 [] [] s held ltac:(lia) I0 E) as (I & A). split.
  - intros r Hr. destruct (I_held _ _ _ I r Hr) as (e & H1 & H2 & H3 & H4). destruct (I_ends _ _ _ I _ _ H1) as (H5 & H6 & H7).
    rewrite A, Ea in H7. pose proof (I_len _ _ _ I). repeat split; try assumption; lia.
  - intros i j ri rj Hne Hi Hj p Hp.
    assert (snd ri <= fst rj \/ snd rj <= fst ri) as [?|?]; [|lia|lia].
    apply (held_disjoint s held _ ri rj I); [eapply nth_error_In; exact Hi|eapply nth_error_In; exact Hj|].
    intros ->. apply Hne. apply (proj1 (NoDup_nth_error _) (I_hnd _ _ _ I)).
    + apply nth_error_Some. rewrite (map_nth_error fst _ _ Hi). discriminate.
    + rewrite (map_nth_error fst _ _ Hi), (map_nth_error fst _ _ Hj). reflexivity.
Qed.
Print Assumptions C13_placement.

(** A client that asks for non-empty slices and writes inside its slices never meets a panic or undefined
    behaviour, as long as the space it asked for since the start fits the 32-bit limit. *)
Theorem C13_no_failure : forall T (dbg : bool) cap align (s0 : store T) ops,
  0 < align -> store_new cap align = Ok s0 -> careful [] ops -> (N.of_nat (space align ops) <= 4294967295)%N ->
  exists s held, run_ops dbg ops (s0, []) = Ok (s, held).
Proof.
  intros T dbg cap align s0 ops Hal E0 Hc Hs. pose proof (inv_new _ _ _ E0) as I0.
  assert (st_align s0 = align /\ st_len s0 = 0) as (Ea & El) by (unfold store_new in E0; apply rbind_ok in E0 as (u & _ & X); injection X as <-; split; reflexivity).
  apply (run_total dbg ops s0 [] []); try assumption; [lia|]. rewrite Ea, El. exact Hs.
Qed.
Print Assumptions C13_no_failure.

(** Non-trivial history: growth beyond the capacity, reuse of a freed longer slice by a shorter one, writes. *)
Definition C13_ops : list (op nat) :=
  [OpAlloc 3 7; OpAlloc 2 8; OpWrite 0 1 5; OpFree 0; OpAlloc 2 9; OpWrite 1 0 4; OpAlloc 3 1].
Example C13_instance :
  careful [] C13_ops /\
  (let* s0 := store_new 4 2 in let* (s, held) := run_ops true C13_ops (s0, []) in
   let* cs := mapM (get_slice s) held in Ok (held, cs, length (st_buf s))) =
  Ok ([(4, 6); (0, 2); (6, 9)], [[8; 8]; [4; 9]; [1; 1; 1]], 16) /\
  heap_run C13_ops [] = [[8; 8]; [4; 9]; [1; 1; 1]].
Proof. split; [cbn; repeat split; lia|]. split; vm_compute; reflexivity. Qed.

(** The client discipline is needed: in a release build freeing a slice twice makes two later allocations
    share memory (a debug build panics). *)
Theorem C13_double_free_overlaps :
  exists (s0 s : store nat) r r1 r2, store_new 4 2 = Ok s0 /\
  (let* (s1, r) := alloc_slice s0 2 0 in let* s2 := free_slice false s1 r in let* s3 := free_slice false s2 r in
   let* (s4, r1) := alloc_slice s3 2 1 in let* (s5, r2) := alloc_slice s4 2 2 in Ok (s5, r, r1, r2)) = Ok (s, r, r1, r2) /\
  ~ disjoint r1 r2 /\
  (let* (s1, r) := alloc_slice s0 2 0 in let* s2 := free_slice true s1 r in free_slice true s2 r) = Panic.
Proof.
  do 5 eexists. split; [reflexivity|]. split; [vm_compute; reflexivity|]. split; [|vm_compute; reflexivity].
  intros H. apply (H 0). cbn. lia.
Qed.
Print Assumptions C13_double_free_overlaps.

(* ---- C45 ---- *)

(** Two mutable slices of one store: for non-empty ranges the call succeeds exactly when both are inside the
    store and they do not overlap, and then the references denote exactly the two ranges asked for. *)
Theorem C45_two_slices : forall T (dbg : bool) (s : store T) r1 r2, fst r1 < snd r1 -> fst r2 < snd r2 ->
  (snd r1 <= length (st_buf s) /\ snd r2 <= length (st_buf s) /\ disjoint r1 r2 -> get_two_slices_mut dbg s r1 r2 = Ok (r1, r2)) /\
  (~ (snd r1 <= length (st_buf s) /\ snd r2 <= length (st_buf s) /\ disjoint r1 r2) -> get_two_slices_mut dbg s r1 r2 = Panic).
Proof.
  intros T dbg s r1 r2 H1 H2. rewrite two_slices_ok by assumption.
  assert (disjoint r1 r2 <-> snd r1 <= fst r2 \/ snd r2 <= fst r1) as Hd.
  { unfold disjoint. split.
    - intros H. destruct (Nat.le_gt_cases (snd r1) (fst r2)); [left; assumption|right].
      destruct (Nat.le_gt_cases (snd r2) (fst r1)); [assumption|]. exfalso. apply (H (Nat.max (fst r1) (fst r2))). lia.
    - intros H p Hp. lia. }
  rewrite Hd. destruct (Nat.leb_spec (snd r1) (length (st_buf s))), (Nat.leb_spec (snd r2) (length (st_buf s))),
    (Nat.leb_spec (snd r1) (fst r2)), (Nat.leb_spec (snd r2) (fst r1)); cbn [andb orb]; split; intros H'; try reflexivity; exfalso; lia.
Qed.
Print Assumptions C45_two_slices.

(** ... so a write through the first reference is seen by reading the first slice and not by reading the second. *)
Theorem C45_no_alias : forall T (dbg : bool) (s : store T) r1 r2 v1 v2 c1 c2 i v s', fst r1 < snd r1 -> fst r2 < snd r2 ->
  get_two_slices_mut dbg s r1 r2 = Ok (v1, v2) -> get_slice s r1 = Ok c1 -> get_slice s r2 = Ok c2 ->
  put_elem s v1 i v = Ok s' ->
  get_slice s' r1 = Ok (upd c1 i v) /\ get_slice s' r2 = Ok c2.
Proof.
  intros T dbg s r1 r2 v1 v2 c1 c2 i v s' H1 H2 E G1 G2 P. rewrite two_slices_ok in E by assumption.
  destruct (Nat.leb_spec (snd r1) (length (st_buf s))); [|discriminate].
  destruct (Nat.leb_spec (snd r2) (length (st_buf s))); [|discriminate].
  destruct ((snd r1 <=? fst r2) || (snd r2 <=? fst r1)) eqn:Ed; [|discriminate]. cbn in E. injection E as <- <-.
  apply Bool.orb_true_iff in Ed. rewrite !Nat.leb_le in Ed.
  unfold put_elem in P. apply rbind_ok in P as (cells & P1 & P). apply rbind_ok in P as (u & P2 & P). apply rassert_ok in P2. injection P as <-.
  apply subslice_ok in P1 as (_ & _ & ->). apply Nat.ltb_lt in P2. rewrite sub_length in P2 by lia.
  apply get_slice_inv in G1 as (A1 & A2 & A3 & A4). apply get_slice_inv in G2 as (B1 & B2 & B3 & B4). split.
  - apply get_slice_stored; cbn [st_buf]; rewrite ?upd_length; try lia. intros j Hj. rewrite upd_length in Hj. rewrite !nth_error_upd.
    destruct (Nat.eqb_spec (fst r1 + i) (fst r1 + j)), (Nat.eqb_spec i j), (Nat.ltb_spec (fst r1 + i) (length (st_buf s))), (Nat.ltb_spec i (length c1));
      cbn; try lia; try reflexivity; apply A4; lia.
  - apply get_slice_stored; cbn [st_buf]; rewrite ?upd_length; try lia. intros j Hj. rewrite nth_error_upd.
    destruct (Nat.eqb_spec (fst r1 + i) (fst r2 + j)); [lia|]. cbn. apply B4. exact Hj.
Qed.
Print Assumptions C45_no_alias.

Example C45_instance :
  (let* s := store_new 8 2 in let* (s, r1) := alloc_slice s 2 5 in let* (s, r2) := alloc_slice s 3 6 in
   let* (v2, v1) := get_two_slices_mut true s r2 r1 in let* s := put_elem s v1 1 9 in
   let* c1 := get_slice s r1 in let* c2 := get_slice s r2 in Ok (c1, c2, get_two_slices_mut false s (0, 3) (2, 4)))
  = Ok ([5; 9], [6; 6; 6], Panic).
Proof. vm_compute. reflexivity. Qed.

(* ---- C14 ---- *)

(** Layout: the histogram of feature [f] has [sizes[f]] bins, starts where the previous one ends, the first
    starts at 0 and the last ends at the length of the allocation.  Lookups depend on nothing else. *)
Theorem C14_layout : forall T (st : store T) sizes f, f < length sizes ->
  exists lo hi, get_histogram_range (mk_hist st (0 :: layout_from 0 sizes)) f = Ok (lo, hi) /\
    hi - lo = nth f sizes 0 /\ lo <= hi /\ hi <= list_sum sizes /\
    (f = 0 -> lo = 0) /\ (S f = length sizes -> hi = list_sum sizes) /\
    (forall g, g < f -> exists lo' hi', get_histogram_range (mk_hist st (0 :: layout_from 0 sizes)) g = Ok (lo', hi') /\ hi' <= lo /\
       (S g = f -> hi' = lo)).
Proof.
  intros T st sizes f Hf. exists (list_sum (firstn f sizes)), (list_sum (firstn (S f) sizes)).
  split; [apply hist_range_ok; exact Hf|]. rewrite list_sum_firstn_S by exact Hf. split; [lia|]. split; [lia|].
  split; [rewrite <- list_sum_firstn_S by exact Hf; apply list_sum_firstn_all|]. split; [intros ->; reflexivity|]. split.
  - intros E. rewrite <- list_sum_firstn_S by exact Hf. rewrite E, firstn_all. reflexivity.
  - intros g Hg. do 2 eexists. split; [apply hist_range_ok; lia|]. split; [apply list_sum_firstn_le; lia|intros <-; reflexivity].
Qed.
Print Assumptions C14_layout.

Lemma sub_upd_other A (l : list A) a b i x : ~ (a <= i < b) -> sub (upd l i x) a b = sub l a b.
Proof.
  intros H. apply list_eq_nth_error. intros j. rewrite !nth_error_sub. destruct (Nat.ltb_spec j (b - a)); [|reflexivity].
  rewrite nth_error_upd. destruct (Nat.eqb_spec i (a + j)); [lia|reflexivity].
Qed.
Lemma sub_upd_in A (l : list A) a b i x : i < b - a -> b <= length l -> sub (upd l (a + i) x) a b = upd (sub l a b) i x.
Proof.
  intros H Hl. apply list_eq_nth_error. intros j. rewrite nth_error_upd, !nth_error_sub, nth_error_upd, sub_length by lia.
  destruct (Nat.ltb_spec j (b - a)), (Nat.eqb_spec (a + i) (a + j)), (Nat.eqb_spec i j), (Nat.ltb_spec (a + i) (length l)), (Nat.ltb_spec i (b - a)); cbn; try reflexivity; lia.
Qed.

(** In any reachable store, writing a bin of one feature's histogram changes that bin only: the histograms of
    the other features of that allocation and all other allocations are unchanged. *)
Theorem C14_write_frame : forall T (dbg : bool) cap align (s0 : store T) ops s held sizes k r f i v h',
  0 < align -> store_new cap align = Ok s0 -> run_ops dbg ops (s0, []) = Ok (s, held) ->
  let h := mk_hist s (0 :: layout_from 0 sizes) in
  nth_error held k = Some r -> snd r - fst r = list_sum sizes -> f < length sizes ->
  put_hist_elem h r f i v = Ok h' ->
  i < nth f sizes 0 /\
  (exists c, get_hist h r f = Ok c /\ get_hist h' r f = Ok (upd c i v)) /\
  (forall g, g < length sizes -> g <> f -> exists c, get_hist h r g = Ok c /\ get_hist h' r g = Ok c /\ length c = nth g sizes 0) /\
  (forall k' r', k' <> k -> nth_error held k' = Some r' -> get_slice (hs_store h') r' = get_slice (hs_store h) r').
Proof.
  intros T dbg cap align s0 ops s held sizes k r f i v h' Hal E0 E h Hk Hr Hf P. pose proof (inv_new _ _ _ E0) as I0.
  assert (st_align s0 = align) as Ea by (unfold store_new in E0; apply rbind_ok in E0 as (u & _ & X); injection X as <-; reflexivity).
  destruct (run_inv dbg ops s0 [] [] s held ltac:(lia) I0 E) as (I & _).
  destruct (Forall2_nth_l _ _ _ _ _ _ _ (I_cont _ _ _ I) Hk) as (c & Hc & Lc & Sc). set (cs := heap_run ops []) in *.
  pose proof (held_get _ _ _ _ _ _ I Hk Hc) as G.
  assert (forall g, g < length sizes -> list_sum (firstn (S g) sizes) <= length c) as Hle
    by (intros g Hg; rewrite Lc, Hr; apply list_sum_firstn_all).
  assert (forall (st : store T) d, get_slice st r = Ok d -> length d = length c -> forall g, g < length sizes ->
    get_hist (mk_hist st (0 :: layout_from 0 sizes)) r g = Ok (sub d (list_sum (firstn g sizes)) (list_sum (firstn (S g) sizes)))) as GH.
  { intros st d Gd Ld g Hg. unfold get_hist. rewrite hist_range_ok by exact Hg. cbn [rbind hs_store]. rewrite Gd. cbn [rbind].
    apply subslice_ok. split; [apply list_sum_firstn_le; lia|]. split; [|reflexivity]. rewrite Ld. apply Hle, Hg. }
  unfold put_hist_elem in P. subst h. rewrite hist_range_ok in P by exact Hf. cbn [rbind hs_store hs_layout] in P. rewrite G in P. cbn [rbind] in P.
  apply rbind_ok in P as (hist & P1 & P). apply subslice_ok in P1 as (Q1 & Q2 & ->).
  apply rbind_ok in P as (u & P2 & P). apply rassert_ok in P2. apply Nat.ltb_lt in P2. rewrite sub_length in P2 by assumption.
  pose proof (list_sum_firstn_S sizes f Hf) as SS.
  apply rbind_ok in P as (s' & P3 & P). injection P as <-.
  set (lo := list_sum (firstn f sizes)) in *.
  destruct (put_elem_seq s held cs k r (lo + i) v I Hk ltac:(lia)) as (s'' & P4 & I'). rewrite P4 in P3. injection P3 as ->.
  assert (Hc' : nth_error (upd cs k (upd (nth k cs []) (lo + i) v)) k = Some (upd c (lo + i) v)).
  { rewrite nth_error_upd, Nat.eqb_refl. assert (k < length cs) by (apply nth_error_Some; congruence).
    destruct (Nat.ltb_spec k (length cs)); [|lia]. cbn. rewrite (nth_error_nth _ _ _ Hc). reflexivity. }
  pose proof (held_get _ _ _ _ _ _ I' Hk Hc') as G'.
  split; [lia|]. split; [|split].
  - rewrite (GH s c G eq_refl f Hf), (GH s' _ G' (upd_length _ _ _ _) f Hf). eexists. split; [reflexivity|].
    f_equal. apply sub_upd_in; [|apply Hle, Hf]. fold lo. lia.
  - intros g Hg Hne. rewrite (GH s c G eq_refl g Hg), (GH s' _ G' (upd_length _ _ _ _) g Hg). eexists. split; [reflexivity|].
    split.
    + f_equal. apply sub_upd_other. destruct (Nat.lt_gt_cases g f) as [Hgf _]. destruct (Hgf Hne) as [Hlt|Hgt].
      * pose proof (list_sum_firstn_le sizes (S g) f Hlt). fold lo in H. lia.
      * pose proof (list_sum_firstn_le sizes (S f) g Hgt). lia.
    + rewrite sub_length; [|apply list_sum_firstn_le; lia|apply Hle, Hg]. rewrite list_sum_firstn_S by exact Hg. lia.
  - intros k' r' Hne Hk'. cbn [hs_store]. destruct (Forall2_nth_l _ _ _ _ _ _ _ (I_cont _ _ _ I) Hk') as (c2 & Hc2 & _).
    rewrite (held_get _ _ _ _ _ _ I Hk' Hc2). apply (held_get _ _ _ k' r' c2 I' Hk'). rewrite nth_error_upd.
    destruct (Nat.eqb_spec k k'); [congruence|]. exact Hc2.
Qed.
Print Assumptions C14_write_frame.

(** Subtraction in any reachable store: the right allocation becomes the bin-wise difference, everything
    else, parent and left included, is unchanged. *)
Theorem C14_subtract : forall T (dbg : bool) cap align (s0 : store T) ops s held sizes minus kp kl kr pr lr rr,
  0 < align -> store_new cap align = Ok s0 -> run_ops dbg ops (s0, []) = Ok (s, held) ->
  let h := mk_hist s (0 :: layout_from 0 sizes) in
  nth_error held kp = Some pr -> nth_error held kl = Some lr -> nth_error held kr = Some rr -> kp <> kr -> kl <> kr ->
  snd pr - fst pr = list_sum sizes -> snd lr - fst lr = list_sum sizes -> snd rr - fst rr = list_sum sizes ->
  exists h' p l, hists_subtract minus h pr lr rr = Ok h' /\ get_slice s pr = Ok p /\ get_slice s lr = Ok l /\
    get_slice (hs_store h') rr = Ok (map (fun q => minus (fst q) (snd q)) (combine p l)) /\
    forall k' r', k' <> kr -> nth_error held k' = Some r' -> get_slice (hs_store h') r' = get_slice s r'.
Proof.
  intros T dbg cap align s0 ops s held sizes minus kp kl kr pr lr rr Hal E0 E h Hp Hl Hr N1 N2 Lp Ll Lr. pose proof (inv_new _ _ _ E0) as I0.
  assert (st_align s0 = align) as Ea by (unfold store_new in E0; apply rbind_ok in E0 as (u & _ & X); injection X as <-; reflexivity).
  destruct (run_inv dbg ops s0 [] [] s held ltac:(lia) I0 E) as (I & _). set (cs := heap_run ops []) in *.
  destruct (Forall2_nth_l _ _ _ _ _ _ _ (I_cont _ _ _ I) Hp) as (p & Cp & Lcp & _).
  destruct (Forall2_nth_l _ _ _ _ _ _ _ (I_cont _ _ _ I) Hl) as (l & Cl & Lcl & _).
  destruct (Forall2_nth_l _ _ _ _ _ _ _ (I_cont _ _ _ I) Hr) as (q & Cq & Lcq & _).
  destruct (subtract_inv T minus h held cs kp kl kr pr lr rr p l) as (h' & E' & _ & I' & _); try assumption; try lia.
  exists h', p, l. split; [exact E'|]. split; [exact (held_get _ _ _ _ _ _ I Hp Cp)|]. split; [exact (held_get _ _ _ _ _ _ I Hl Cl)|]. split.
  - apply (held_get _ _ _ kr rr _ I' Hr). rewrite nth_error_upd, Nat.eqb_refl. assert (kr < length cs) by (apply nth_error_Some; congruence).
    destruct (Nat.ltb_spec kr (length cs)); [reflexivity|lia].
  - intros k' r' Hne Hk'. destruct (Forall2_nth_l _ _ _ _ _ _ _ (I_cont _ _ _ I) Hk') as (c2 & Hc2 & _).
    rewrite (held_get _ _ _ _ _ _ I Hk' Hc2). apply (held_get _ _ _ k' r' c2 I' Hk'). rewrite nth_error_upd.
    destruct (Nat.eqb_spec kr k'); [congruence|]. exact Hc2.
Qed.
Print Assumptions C14_subtract.

(** [alloc_hists] gives a slice with one default bin per configured bin. *)
Theorem C14_alloc : forall T (d : T) (dbg : bool) cap align (s0 : store T) ops s held sizes h' r,
  0 < align -> store_new cap align = Ok s0 -> run_ops dbg ops (s0, []) = Ok (s, held) ->
  alloc_hists d (mk_hist s (0 :: layout_from 0 sizes)) = Ok (h', r) ->
  snd r - fst r = list_sum sizes /\ hs_layout h' = 0 :: layout_from 0 sizes /\
  run_ops dbg (ops ++ [OpAlloc (list_sum sizes) d]) (s0, []) = Ok (hs_store h', held ++ [r]).
Proof.
  intros T d dbg cap align s0 ops s held sizes h' r Hal E0 E A. pose proof (inv_new _ _ _ E0) as I0.
  assert (st_align s0 = align) as Ea by (unfold store_new in E0; apply rbind_ok in E0 as (u & _ & X); injection X as <-; reflexivity).
  destruct (run_inv dbg ops s0 [] [] s held ltac:(lia) I0 E) as (I & Aal).
  unfold alloc_hists in A. cbn [hs_layout hs_store] in A. rewrite hist_last in A. cbn [rbind] in A.
  apply rbind_ok in A as ([s1 r1] & A1 & A). injection A as <- <-.
  assert (0 < st_align s) as Hal' by lia.
  destruct (alloc_inv _ _ _ _ _ _ _ Hal' I A1) as (_ & _ & L & _). split; [exact L|]. split; [reflexivity|].
  unfold run_ops in *. rewrite foldM_app, E. cbn [rbind foldM exec]. rewrite A1. reflexivity.
Qed.
Print Assumptions C14_alloc.

Example C14_instance :
  (let* h := hist_new 16 2 [2; 1; 3] in let* (h, p) := alloc_hists 0 h in let* (h, l) := alloc_hists 0 h in let* (h, r) := alloc_hists 0 h in
   let* h := put_hist_elem h p 2 1 9 in let* h := put_hist_elem h l 2 1 4 in let* h := hists_subtract Nat.sub h p l r in
   let* a := get_hist h r 2 in let* b := get_hist h p 1 in Ok (get_histogram_range h 2, a, b, p, l, r))
  = Ok (Ok (3, 6), [0; 5; 0], [0], (0, 6), (6, 12), (12, 18)).
Proof. vm_compute. reflexivity. Qed.

(* ---- C02, C04, store versions ---- *)

(** In any reachable bit-block store: a slice of [n] ones has exactly the bits below [n] set, up to its last
    block border; the slices held before are unchanged. *)
Theorem C02_store_one_bits : forall (dbg : bool) cap (s0 : bstore) ops s held n s' r,
  bstore_new cap = Ok s0 -> run_ops dbg ops (s0, []) = Ok (s, held) -> alloc_one_bits s n = Ok (s', r) ->
  exists bs, get_bitvec s' r = Ok bs /\ length bs = blocks_required_for n /\
    (forall i, i < length bs * 256 -> bv_get_bit bs i = Ok (i <? n)) /\
    forall r', In r' held -> get_slice s' r' = get_slice s r'.
Proof.
  intros dbg cap s0 ops s held n s' r E0 E A. pose proof (inv_new _ _ _ E0) as I0.
  assert (st_align s0 = 2) as Ea by (unfold bstore_new, store_new in E0; apply rbind_ok in E0 as (u & _ & X); injection X as <-; reflexivity).
  assert (0 < st_align s0) as Hal0 by (rewrite Ea; lia).
  destruct (run_inv dbg ops s0 [] [] s held Hal0 I0 E) as (I & Aal).
  unfold alloc_one_bits in A. apply rbind_ok in A as ([s1 r1] & A1 & A).
  unfold alloc_one_blocks in A1. apply rbind_ok in A1 as (u & _ & A1).
  assert (0 < blocks_required_for n) as Hpos.
  { unfold alloc_slice in A1. apply rbind_ok in A1 as (u' & B & _). apply rassert_ok in B. apply Nat.ltb_lt in B. exact B. }
  destruct (blocks_required_ok n) as (HB1 & HB2).
  destruct (mask_tail_ok n (blocks_required_for n)) as (bs & M & W & L & B); [exact Hpos|exact HB1| |].
  { specialize (HB2 (blocks_required_for n - 1)). destruct (Nat.le_gt_cases n ((blocks_required_for n - 1) * 256)) as [Hc|Hc]; [specialize (HB2 Hc); lia|lia]. }
  assert (0 < st_align s) as Hal by (rewrite Aal, Ea; lia).
  destruct (alloc_put_inv s held _ _ _ s1 r1 bs Hal I A1 L) as (G & s2 & P & I2 & _).
  rewrite G in A. cbn [rbind] in A. rewrite M in A. cbn [rbind] in A. rewrite P in A. cbn [rbind] in A. injection A as <- <-.
  pose proof (inv_length _ _ _ I) as Hlen. exists bs. split; [|split; [exact L|split]].
  - apply (held_get _ _ _ (length held) r1 bs I2).
    + rewrite nth_error_app2, Nat.sub_diag by lia; reflexivity.
    + rewrite nth_error_app2, Hlen, Nat.sub_diag by lia; reflexivity.
  - intros i Hi. rewrite bv_get_bit_ok, B by assumption. reflexivity.
  - intros r' Hr'. apply In_nth_error in Hr' as (k & Hk). destruct (Forall2_nth_l _ _ _ _ _ _ _ (I_cont _ _ _ I) Hk) as (c2 & Hc2 & _).
    rewrite (held_get _ _ _ _ _ _ I Hk Hc2). apply (held_get _ _ _ k r' c2 I2).
    + rewrite nth_error_app1 by (apply nth_error_Some; congruence). exact Hk.
    + rewrite nth_error_app1 by (apply nth_error_Some; congruence). exact Hc2.
Qed.
Print Assumptions C02_store_one_bits.

Example C02_store_instance :
  (let* s := bstore_new 1 in let* (s, r0) := alloc_zero_bits s 10 in let* (s, r) := alloc_one_bits s 300 in
   let* bs := get_bitvec s r in let* a := bv_get_bit bs 299 in let* b := bv_get_bit bs 300 in Ok (r, length bs, a, b)) = Ok ((2, 4), 2, true, false).
Proof. vm_compute. reflexivity. Qed.

(** In any reachable bit-block store: a slice filled from an iterator of booleans holds its items in order and
    zeros after the iterator ends. *)
Theorem C04_store_from_bits_iter : forall (dbg : bool) cap (s0 : bstore) ops s held n it s' r,
  bstore_new cap = Ok s0 -> run_ops dbg ops (s0, []) = Ok (s, held) -> alloc_from_bits_iter s n it = Ok (s', r) ->
  exists bs, get_bitvec s' r = Ok bs /\ length bs = blocks_required_for n /\
    (forall i, i < length bs * 256 -> bv_get_bit bs i = Ok (nth i it false)) /\
    forall r', In r' held -> get_slice s' r' = get_slice s r'.
Proof.
  intros dbg cap s0 ops s held n it s' r E0 E A. pose proof (inv_new _ _ _ E0) as I0.
  assert (st_align s0 = 2) as Ea by (unfold bstore_new, store_new in E0; apply rbind_ok in E0 as (u & _ & X); injection X as <-; reflexivity).
  assert (0 < st_align s0) as Hal0 by (rewrite Ea; lia).
  destruct (run_inv dbg ops s0 [] [] s held Hal0 I0 E) as (I & Aal).
  unfold alloc_from_bits_iter in A. apply rbind_ok in A as ([s1 r1] & A1 & A).
  unfold alloc_zero_blocks in A1. apply rbind_ok in A1 as (u & _ & A1).
  destruct (fill_from_bool_iter_ok (blocks_required_for n) it) as (bs & M & W & L & B).
  assert (0 < st_align s) as Hal by (rewrite Aal, Ea; lia).
  destruct (alloc_put_inv s held _ _ _ s1 r1 bs Hal I A1 L) as (G & s2 & P & I2 & _).
  rewrite M in A. cbn [rbind] in A. rewrite P in A. cbn [rbind] in A. injection A as <- <-.
  pose proof (inv_length _ _ _ I) as Hlen. exists bs. split; [|split; [exact L|split]].
  - apply (held_get _ _ _ (length held) r1 bs I2).
    + rewrite nth_error_app2, Nat.sub_diag by lia; reflexivity.
    + rewrite nth_error_app2, Hlen, Nat.sub_diag by lia; reflexivity.
  - intros i Hi. rewrite bv_get_bit_ok, B by assumption. rewrite L in Hi. destruct (Nat.ltb_spec i (blocks_required_for n * 256)); [reflexivity|lia].
  - intros r' Hr'. apply In_nth_error in Hr' as (k & Hk). destruct (Forall2_nth_l _ _ _ _ _ _ _ (I_cont _ _ _ I) Hk) as (c2 & Hc2 & _).
    rewrite (held_get _ _ _ _ _ _ I Hk Hc2). apply (held_get _ _ _ k r' c2 I2).
    + rewrite nth_error_app1 by (apply nth_error_Some; congruence). exact Hk.
    + rewrite nth_error_app1 by (apply nth_error_Some; congruence). exact Hc2.
Qed.
Print Assumptions C04_store_from_bits_iter.
