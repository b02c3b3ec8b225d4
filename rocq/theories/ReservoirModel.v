(** The two samplers of dataset.rs that nothing calls ([allow(dead_code)]). *)
From Verif Require Import Base Num DataModel Config DatasetModel.

(** dataset.rs:515-519 [sample_replacement]: overwrites every entry of the buffer, then sorts it. *)
Fixpoint replacement_loop (n len : nat) (g : rng) : res (list nat * rng) :=
  match len with
  | 0 => Ok ([], g)
  | S len' =>
    let* (x, g1) := gen_range g 0 n in
    let* (xs, g2) := replacement_loop n len' g1 in
    Ok (x :: xs, g2)
  end.
Definition sample_replacement (g : rng) (n : nat) (buffer : list nat) : res (list nat * rng) :=
  let* (xs, g') := replacement_loop n (length buffer) g in
  Ok (sort_unstable xs, g').

(** dataset.rs:534-541: the loop of [reservoir_sample]. *)
Fixpoint reservoir_loop (k : nat) (is : list nat) (g : rng) (buf : list nat) : res (list nat * rng) :=
  match is with
  | [] => Ok (buf, g)
  | i :: is' =>
    if i <? k then
      let* buf' := set_idx buf i i in
      reservoir_loop k is' g buf'
    else
      let* (r, g') := gen_range g 0 (i + 1) in
      let* buf' := if r <? k then set_idx buf r i else Ok buf in
      reservoir_loop k is' g' buf'
  end.
(** dataset.rs:531-543 [reservoir_sample]; the assertion is checked in debug builds. *)
Definition reservoir_sample (dbg : bool) (g : rng) (n : nat) (buffer : list nat) : res (list nat * rng) :=
  let k := length buffer in
  let* _ := if dbg then rassert (k <? n) else Ok tt in
  let* (buf, g') := reservoir_loop k (seq 0 n) g buffer in
  Ok (sort_unstable buf, g').
