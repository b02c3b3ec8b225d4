(** Specification of C65: draws of the random number generator and counting. *)
From Verif Require Import Base Num DataModel Config DatasetModel DatasetSpec.

(** [gen_range(i, n)] gives [i + o] with an offset [o < n - i].  The offsets of the [k] draws of one sampling from [n]
    elements: the first is below [n], the second below [n - 1], and so on; the generator is uniform if these are all
    equally likely. *)
Definition offsets (n k : nat) (ds : list nat) : Prop := length ds = k /\ forall i o, nth_error ds i = Some o -> o < n - i.

(** The generator that gives the numbers [ds] and then those of [rest]. *)
Fixpoint stream (ds : list nat) (rest : rng) : rng :=
  match ds with [] => rest | o :: ds' => fun k => match k with 0 => o | S k' => stream ds' rest k' end end.

(** Exactly [c] things have the property [P]. *)
Definition exactly {A} (c : nat) (P : A -> Prop) : Prop := exists l, NoDup l /\ (forall x, In x l <-> P x) /\ length l = c.

(** n (n-1) ... (n-k+1) *)
Fixpoint falling (n k : nat) : nat := match k with 0 => 1 | S k' => n * falling (n - 1) k' end.

(** The draws of one update: those of the features (none if all features are used), then those of the examples (none if all examples are used). *)
Definition update_draws (nf kf n k : nat) (examples_sampled : bool) (d : list nat * list nat) : Prop :=
  (if kf <? nf then offsets nf kf (fst d) else fst d = []) /\ (if examples_sampled then offsets n k (snd d) else snd d = []).
(** The generator that gives the draws of several updates, one after the other, and then the numbers of [rest]. *)
Fixpoint stream_all (dss : list (list nat * list nat)) (rest : rng) : rng :=
  match dss with [] => rest | d :: dss' => stream (fst d) (stream (snd d) (stream_all dss' rest)) end.

(** What an update selected: the active features and the active examples. *)
Definition sample {O} (s : dataset O) : res (list nat * list nat) :=
  let* fs := active_features s in
  let* ex := active_examples_list s in
  Ok (fs, map snd ex).
(** The selections of the updates of a history. *)
Fixpoint samples {O} (dbg : bool) (cfg : config O) (us : list (list (num O) * (num O * num O))) (s : dataset O) : res (list (list nat * list nat)) :=
  match us with
  | [] => Ok []
  | u :: us' =>
    let* s' := dataset_update dbg cfg s (fst u) (snd u) in
    let* x := sample s' in
    let* r := samples dbg cfg us' s' in
    Ok (x :: r)
  end.

(** A selection the fractions ask for: [kf] useful features and [k] examples, in increasing order. *)
Definition selection {O} (d : data O) (kf k : nat) (T : list nat * list nat) : Prop :=
  increasing (fst T) /\ length (fst T) = kf /\ (forall f, In f (fst T) -> useful_feature d f) /\
  increasing (snd T) /\ length (snd T) = k /\ (forall j, In j (snd T) -> j < d_nexamples d).
