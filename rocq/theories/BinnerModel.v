(** Model of src/binner.rs.  Definitions only.  A binner is its list of bins, smallest value and bin width. *)
From Verif Require Import Base Num.

Definition ISIZE_MIN : Z := (- 9223372036854775808)%Z.
Definition ISIZE_MAX : Z := 9223372036854775807%Z.

Section Binner.
Variable O : numops.
Variable B : Type.   (* BinT *)

Record binner : Type := mk_binner { bn_bins : list B; bn_min : num O; bn_delta : num O }.

(** binner.rs:18-31 [new] *)
Definition binner_new (bins : list B) (lo hi : num O) : res binner :=
  let* _ := rassert (nisfin O lo) in
  let* _ := rassert (nisfin O hi) in
  let* _ := rassert (nlt O lo hi) in
  let* _ := rassert (negb (length bins =? 0)) in
  Ok (mk_binner bins lo (ndiv O (nsub O hi lo) (nofnat O (length bins)))).

(** binner.rs:70-74 [get_bin]: floor as isize, at least 0, at most the last bin. *)
Definition get_bin (b : binner) (value : num O) : nat :=
  let x := ndiv O (nsub O value (bn_min b)) (bn_delta b) in
  let i := ntoZ O ISIZE_MIN ISIZE_MAX (nfloor O x) in
  Z.to_nat (Z.min (Z.max i 0) (Z.of_nat (length (bn_bins b) - 1))).

(** binner.rs:33-38 [insert]; [combiner] already applied to its data argument. *)
Definition binner_insert (b : binner) (value : num O) (combiner : B -> B) : res binner :=
  let i := get_bin b value in
  let* bin := idx (bn_bins b) i in
  let* bins := set_idx (bn_bins b) i (combiner bin) in
  Ok (mk_binner bins (bn_min b) (bn_delta b)).

(** A loop of insertions ([for ... { binner.insert(value, data, combiner) }]), in order. *)
Fixpoint binner_insert_all (b : binner) (items : list (num O * (B -> B))) : res binner :=
  match items with
  | [] => Ok b
  | (v, c) :: t => let* b' := binner_insert b v c in binner_insert_all b' t
  end.

(** binner.rs:66-68 [bin_representative] *)
Definition bin_representative (b : binner) (bin : nat) : num O :=
  nadd O (bn_min b) (nmul O (nofnat O (Nat.min bin (length (bn_bins b) - 1))) (bn_delta b)).

(** binner.rs:81-90: state of the rank iterator.  The rank type R is a type with [<=], [+=] and a zero. *)
Record rank_iter (R : Type) : Type := mk_ri { ri_accum : R; ri_prev : R; ri_idx : nat }.
Arguments mk_ri {R}. Arguments ri_accum {R}. Arguments ri_prev {R}. Arguments ri_idx {R}.

Section Rank.
Variable R : Type.
Variables (rzero : R) (rle : R -> R -> bool) (radd : R -> R -> R).
Variable extractor : B -> R.

(** binner.rs:105-110: the loop [while accum <= rank && bin_index < bins.len()], recursive on the bins not yet
    visited. *)
Fixpoint rank_loop (rest : list B) (rank : R) (st : rank_iter R) : rank_iter R * list B :=
  match rest with
  | [] => (st, [])
  | x :: rest' =>
    if rle (ri_accum st) rank
    then rank_loop rest' rank (mk_ri (radd (ri_accum st) (extractor x)) (ri_accum st) (S (ri_idx st)))
    else (st, rest)
  end.

(** binner.rs:98-117 [next]: [bin_index - 1] underflows (panics) if no bin was visited. *)
Definition rank_next (bins : list B) (rank : R) (st : rank_iter R) : res (nat * rank_iter R) :=
  let '(st', _) := rank_loop (skipn (ri_idx st) bins) rank st in
  match ri_idx st' with
  | 0 => Panic
  | S i => Ok (i, st')
  end.

(** binner.rs:48-63 [rank_iter], consumed to the end of [ranks]. *)
Fixpoint ranks_of (bins : list B) (ranks : list R) (st : rank_iter R) : res (list nat) :=
  match ranks with
  | [] => Ok []
  | r :: t =>
    let* (i, st') := rank_next bins r st in
    let* is := ranks_of bins t st' in
    Ok (i :: is)
  end.
Definition rank_iter_all (b : binner) (ranks : list R) : res (list nat) :=
  ranks_of (bn_bins b) ranks (mk_ri rzero rzero 0).

(** binner.rs:40-46 [bin_with_rank] *)
Definition bin_with_rank (b : binner) (rank : R) : res nat :=
  let* (i, _) := rank_next (bn_bins b) rank (mk_ri rzero rzero 0) in Ok i.
End Rank.
End Binner.
Arguments mk_binner {O B}. Arguments bn_bins {O B}. Arguments bn_min {O B}. Arguments bn_delta {O B}.
Arguments binner_new {O B}. Arguments get_bin {O B}. Arguments binner_insert {O B}. Arguments binner_insert_all {O B}. Arguments bin_representative {O B}.
Arguments mk_ri {R}. Arguments ri_accum {R}. Arguments ri_prev {R}. Arguments ri_idx {R}.
Arguments rank_loop {B R}. Arguments rank_next {B R}. Arguments ranks_of {B R}. Arguments rank_iter_all {O B R}. Arguments bin_with_rank {O B R}.


(** objective.rs:125-143 [quantile!]: u32 counters (wrapping), [nbins] bins, rank = floor(count * q) as u32, result
    [bin_representative(bin + 1)].  [values] are the targets or residuals, in iteration order. *)
Definition u32_inc (k : N) (x : N) : N := ((x + k) mod 2 ^ 32)%N.
Definition quantile (O : numops) (nbins : nat) (q : num O) (limits : num O * num O) (values : list (num O)) : res (num O) :=
  let* b0 := binner_new (repeat 0%N nbins) (fst limits) (snd limits) in
  let* b := binner_insert_all b0 (map (fun v => (v, u32_inc 1)) values) in
  let rank := Z.to_N (ntoZ O 0 4294967295 (nfloor O (nmul O (nofnat O (length values)) q))) in
  let* bin := bin_with_rank 0%N N.leb N.add (fun x => x) b rank in
  Ok (bin_representative b (bin + 1)).
