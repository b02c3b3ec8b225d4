(** Property C12: iterating over the set bits. *)
From Coq Require Import Sorting.Sorted.
From Verif Require Import Base BaseProofs BitModel BitSpec BitProofs BitProofs2 SliceSpec SliceProofs IterModel IterSpec IterProofs.

(** The u32 index list used by the compressed variants. *)
Definition index_of (idxs : blocks) (j : nat) : nat := N.to_nat (u32_at idxs j).

Theorem C12_index_iter : forall a, wf_blocks a -> 0 < length a ->
  index_list a = Ok (positions (length a * 256) (bbit a)).
Proof. exact index_list_ok. Qed.
Print Assumptions C12_index_iter.

Theorem C12_index_iter_and : forall a m, wf_blocks a -> wf_blocks m -> 0 < length a -> length a = length m ->
  index_list_and a m = Ok (positions (length a * 256) (fun p => bbit a p && bbit m p)).
Proof. exact index_list_and_ok. Qed.
Print Assumptions C12_index_iter_and.

Theorem C12_index_iter_andnot : forall a m, wf_blocks a -> wf_blocks m -> 0 < length a -> length a = length m ->
  index_list_andnot a m = Ok (positions (length a * 256) (fun p => bbit a p && negb (bbit m p))).
Proof. exact index_list_andnot_ok. Qed.
Print Assumptions C12_index_iter_andnot.

Theorem C12_index_iter_compr : forall a idxs, wf_blocks a -> wf_blocks idxs -> 0 < length a -> length a = length idxs ->
  index_list_compr a idxs = Ok (positions_compr (length a * 256) (index_of idxs) (bbit a)).
Proof. exact index_list_compr_ok. Qed.
Print Assumptions C12_index_iter_compr.

Theorem C12_index_iter_and_compr : forall a m idxs, wf_blocks a -> wf_blocks m -> wf_blocks idxs -> 0 < length a ->
  length a = length idxs -> length a <= length m ->
  (forall j, j < length idxs * 8 -> index_of idxs j < length m * 8) ->
  index_list_and_compr a m idxs =
  Ok (positions_compr (length a * 256) (index_of idxs) (fun p => bbit a p && bbit m (expand_pos (index_of idxs) p))).
Proof. exact index_list_and_compr_ok. Qed.
Print Assumptions C12_index_iter_and_compr.

Theorem C12_index_iter_andnot_compr : forall a m idxs, wf_blocks a -> wf_blocks m -> wf_blocks idxs -> 0 < length a ->
  length a = length idxs -> length a <= length m ->
  (forall j, j < length idxs * 8 -> index_of idxs j < length m * 8) ->
  index_list_andnot_compr a m idxs =
  Ok (positions_compr (length a * 256) (index_of idxs) (fun p => bbit a p && negb (bbit m (expand_pos (index_of idxs) p)))).
Proof. exact index_list_andnot_compr_ok. Qed.
Print Assumptions C12_index_iter_andnot_compr.

(** The four visitors call the (stateful, possibly early stopping) visitor on the same lists. *)
Theorem C12_for_each_index : forall S (f : S -> nat -> S * bool) s a, wf_blocks a -> 0 < length a ->
  for_each_index a f s = Ok (visit f s (positions (length a * 256) (bbit a))).
Proof. exact @for_each_index_ok. Qed.
Print Assumptions C12_for_each_index.
Theorem C12_for_each_index_and : forall S (f : S -> nat -> S * bool) s a m, wf_blocks a -> wf_blocks m -> 0 < length a -> length a = length m ->
  for_each_index_and a m f s = Ok (visit f s (positions (length a * 256) (fun p => bbit a p && bbit m p))).
Proof. exact @for_each_index_and_ok. Qed.
Print Assumptions C12_for_each_index_and.
Theorem C12_for_each_index_compr : forall S (f : S -> nat -> S * bool) s a idxs, wf_blocks a -> wf_blocks idxs -> 0 < length a -> length a = length idxs ->
  for_each_index_compr a idxs f s = Ok (visit f s (positions_compr (length a * 256) (index_of idxs) (bbit a))).
Proof. exact @for_each_index_compr_ok. Qed.
Print Assumptions C12_for_each_index_compr.
Theorem C12_for_each_index_and_compr : forall S (f : S -> nat -> S * bool) s a m idxs, wf_blocks a -> wf_blocks m -> wf_blocks idxs ->
  0 < length a -> length a = length idxs -> length a <= length m ->
  (forall j, j < length idxs * 8 -> index_of idxs j < length m * 8) ->
  for_each_index_and_compr a m idxs f s =
  Ok (visit f s (positions_compr (length a * 256) (index_of idxs) (fun p => bbit a p && bbit m (expand_pos (index_of idxs) p)))).
Proof. exact @for_each_index_and_compr_ok. Qed.
Print Assumptions C12_for_each_index_and_compr.

(** Reading of the specification: exactly the set bits, strictly increasing (hence each once). *)
Theorem C12_each_set_bit_once_in_order : forall a l, wf_blocks a -> index_list a = Ok l ->
  StronglySorted lt l /\ forall x, In x l <-> bv_get_bit a x = Ok true.
Proof.
  intros a l Ha E. destruct (Nat.ltb_spec 0 (length a)) as [Hn|Hn].
  - rewrite index_list_ok in E by assumption. injection E as <-. split; [apply positions_sorted|].
    intros x. rewrite positions_in. split.
    + intros [Hx Hb]. rewrite bv_get_bit_ok, Hb by assumption. reflexivity.
    + intros Hb. destruct (Nat.ltb_spec x (length a * 256)) as [Hx|Hx].
      * rewrite bv_get_bit_ok in Hb by assumption. injection Hb as Hb. auto.
      * rewrite bv_get_bit_panic in Hb by assumption. discriminate.
  - destruct a; [|cbn in Hn; lia]. discriminate.
Qed.
Print Assumptions C12_each_set_bit_once_in_order.

(** The empty vector is rejected. *)
Theorem C12_empty_panics : index_list [] = Panic /\ forall S (f : S -> nat -> S * bool) s, for_each_index [] f s = Panic.
Proof. split; reflexivity. Qed.
Print Assumptions C12_empty_panics.

Example C12_instance : index_list [bb_from 4 37; bb_from 4 3] = Ok [0; 2; 5; 256; 257] /\
  index_list_andnot_compr [bb_from 8 (37 + 2 ^ 33)] [bb_from 4 1; bb_from 4 2] [bb_from_slice 4 [8; 0; 1; 1; 1; 1; 1; 1]%N] = Ok [256; 258; 261; 33 - 32].
Proof. split; vm_compute; reflexivity. Qed.
