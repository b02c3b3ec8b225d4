(** C03: histories of a bitset. *)
From Verif Require Import Base BaseProofs BitModel BitSpec BitProofs BitProofs2 BitProps.

(** The calls that change a bitset ([disable_bit] is left out: see [C03_disable_bit_refuted]). *)
Inductive bitset_op : Type := Set_bit (i : nat) (b : bool) | Enable_bit (i : nat).
Definition position (o : bitset_op) : nat := match o with Set_bit i _ => i | Enable_bit i => i end.
Definition bitset_call (bs : blocks) (o : bitset_op) : res blocks := match o with Set_bit i b => bitset_set_bit bs i b | Enable_bit i => bitset_enable_bit bs i end.
(** The set of the positions that are in, as a client sees it: the last call on a position decides, and the start otherwise. *)
Definition set_after (start : nat -> bool) (ops : list bitset_op) (j : nat) : bool :=
  fold_left (fun m o => match o with Set_bit i b => if i =? j then b else m | Enable_bit i => if i =? j then true else m end) ops (start j).

Lemma history_from bs start ops : wf_blocks bs -> (forall j, j < length bs * 256 -> bitset_get_bit bs j = Ok (start j)) -> Forall (fun o => position o < length bs * 256) ops ->
  exists bs', foldM bitset_call ops bs = Ok bs' /\ forall j, j < length bs * 256 -> bitset_get_bit bs' j = Ok (set_after start ops j).
Proof.
  intros W H HF. revert bs start W H HF. induction ops as [|o ops IH]; intros bs start W H HF; [exists bs; split; [reflexivity|exact H]|].
  apply Forall_cons_iff in HF as [Ho HF]. cbn [foldM].
  assert (exists b bs1, bitset_call bs o = Ok bs1 /\ wf_blocks bs1 /\ length bs1 = length bs /\ (forall j, bitset_get_bit bs1 j = if position o =? j then Ok b else bitset_get_bit bs j) /\
    forall j m, (match o with Set_bit i b => if i =? j then b else m | Enable_bit i => if i =? j then true else m end) = if position o =? j then b else m) as (b & bs1 & E & W1 & L1 & G & Hm).
  { destruct o as [i b|i]; cbn [position bitset_call] in *; [exists b|exists true].
    - destruct (C01_array_get_after_set bs i b W Ho) as (bs1 & E & W1 & L1 & G). exists bs1. repeat split; try assumption; intros; reflexivity.
    - destruct (C03_enable_bit bs i W Ho) as (bs1 & E & W1 & L1 & G). exists bs1. repeat split; try assumption; intros; reflexivity. }
  rewrite E. cbn [rbind]. destruct (IH bs1 (fun j => if position o =? j then b else start j) W1) as (bs' & E' & G').
  - intros j Hj. rewrite L1 in Hj. rewrite G, (H j Hj). destruct (position o =? j); reflexivity.
  - rewrite L1. exact HF.
  - exists bs'. split; [exact E'|]. intros j Hj. rewrite <- L1 in Hj. rewrite (G' j Hj). f_equal. unfold set_after. cbn [fold_left]. rewrite Hm. reflexivity.
Qed.

(** A new bitset of [n] bits, empty or full, takes every history of [set_bit] and [enable_bit] on its positions, and then has the bits that the last calls left; a call outside of its blocks panics. *)
Theorem C03_history : forall n ops, 0 < n -> Forall (fun o => position o < n) ops ->
  (exists bs0 bs, bitset_zeros n = Ok bs0 /\ foldM bitset_call ops bs0 = Ok bs /\ forall j, j < n -> bitset_get_bit bs j = Ok (set_after (fun _ => false) ops j)) /\
  (exists bs0 bs, bitset_ones n = Ok bs0 /\ foldM bitset_call ops bs0 = Ok bs /\ forall j, j < n -> bitset_get_bit bs j = Ok (set_after (fun _ => true) ops j)).
Proof.
  intros n ops Hn HF. split.
  - destruct (C02_zero_bits n Hn) as (bs0 & E & W & L & G). destruct (history_from bs0 (fun _ => false) ops W G) as (bs & E' & G').
    + revert HF. apply Forall_impl. intros o Ho. lia.
    + exists bs0, bs. split; [exact E|]. split; [exact E'|]. intros j Hj. apply G'. lia.
  - destruct (C02_one_bits n Hn) as (bs0 & E & W & L & G). destruct (history_from bs0 (fun j => j <? n) ops W G) as (bs & E' & G').
    + revert HF. apply Forall_impl. intros o Ho. lia.
    + exists bs0, bs. split; [exact E|]. split; [exact E'|]. intros j Hj. rewrite (G' j) by lia. unfold set_after. replace (j <? n) with true by (symmetry; apply Nat.ltb_lt; exact Hj). reflexivity.
Qed.
Print Assumptions C03_history.

Theorem C03_out_of_range : forall bs o, length bs * 256 <= position o -> bitset_call bs o = Panic /\ bitset_get_bit bs (position o) = Panic.
Proof.
  intros bs o H. destruct (C01_out_of_range_panics bs (position o) (match o with Set_bit _ b => b | _ => true end) H) as (A & B & C). split; [|exact A]. destruct o; [exact B|exact C].
Qed.
Print Assumptions C03_out_of_range.

Example C03_history_ex : let ops := [Enable_bit 299; Set_bit 3 true; Set_bit 299 false; Enable_bit 0] in Forall (fun o => position o < 300) ops /\
  (let* bs0 := bitset_zeros 300 in let* bs := foldM bitset_call ops bs0 in mapM (bitset_get_bit bs) [0; 1; 3; 299]) = Ok [true; false; true; false].
Proof. split; [repeat constructor; cbn; lia|vm_compute; reflexivity]. Qed.
