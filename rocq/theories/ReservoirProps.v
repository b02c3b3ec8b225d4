(** C74: the two samplers nothing calls draw what they say. *)
From Coq Require Import Permutation Factorial Sorting.Sorted.
From Verif Require Import Base BaseProofs Num DataModel Config DatasetModel DatasetSpec DatasetProofs SampleSpec SampleProofs ReservoirModel ReservoirSpec ReservoirProofs.

(** [reservoir_sample] fills its buffer with that many different numbers below [n], in increasing order, whatever the generator gives and whatever was in the buffer (debug builds: [n] larger than the buffer). *)
Theorem C74_reservoir_result : forall dbg g n buf, length buf <= n -> (dbg = true -> length buf < n) ->
  exists T g', reservoir_sample dbg g n buf = Ok (T, g') /\ increasing T /\ length T = length buf /\ forall x, In x T -> x < n.
Proof.
  intros dbg g n buf Hn Hdbg. destruct (reservoir_any dbg g n buf Hn Hdbg) as (ds & g' & Hd & E). rewrite E. pose proof (rsteps_inv _ _ _ Hd) as I. cbn zeta in I. destruct I as (I1 & I2 & I3).
  eexists. exists g'. split; [reflexivity|]. set (b := rsteps _ _ _ _) in *. clearbody b. pose proof (sort_perm b) as P. split; [|split].
  - apply sorted_nodup_increasing; [apply sort_sorted|]. eapply Permutation_NoDup; [exact P|exact I2].
  - rewrite <- (Permutation_length P). exact I1.
  - intros x Hx. eapply Permutation_in in Hx; [|symmetry; exact P]. specialize (I3 x Hx). lia.
Qed.
Print Assumptions C74_reservoir_result.

(** It is fair: of the equally likely sequences of draws the same number, (n-k)!, gives every selection of k numbers below n. *)
Theorem C74_reservoir : forall dbg n buf T rest, increasing T -> length T = length buf -> (forall x, In x T -> x < n) -> (dbg = true -> length buf < n) ->
  exactly (falling n (n - length buf)) (reservoir_draws (length buf) (n - length buf)) /\
  exactly (fact (n - length buf)) (fun ds => reservoir_draws (length buf) (n - length buf) ds /\ reservoir_sample dbg (stream ds rest) n buf = Ok (T, rest)).
Proof.
  intros dbg n buf T rest HT HL HB Hdbg. pose proof (increasing_nodup _ HT) as HN.
  assert (length buf <= n) as Hle. { rewrite <- HL, <- (seq_length n 0). apply NoDup_incl_length; [exact HN|]. intros x Hx. apply in_seq. specialize (HB x Hx). lia. }
  split; [pose proof (rdraws_count (length buf) (n - length buf)) as X; replace (length buf + (n - length buf)) with n in X by lia; exact X|].
  eapply exactly_ext; [|apply (rcount (length buf) (n - length buf) T HN HL); intros x Hx; specialize (HB x Hx); lia]. intros ds. split.
  - intros [Hd Hp]. split; [exact Hd|]. rewrite reservoir_stream by assumption. do 2 f_equal. apply sort_eq; assumption.
  - intros [Hd E]. split; [exact Hd|]. rewrite reservoir_stream in E by assumption. injection E as E. apply sort_eq in E; assumption.
Qed.
Print Assumptions C74_reservoir.

(** Debug builds refuse a buffer that is not smaller than [n]. *)
Theorem C74_reservoir_debug : forall g n buf, n <= length buf -> reservoir_sample true g n buf = Panic.
Proof. intros g n buf H. unfold reservoir_sample, rassert. destruct (Nat.ltb_spec (length buf) n); [lia|reflexivity]. Qed.

(** [sample_replacement] fills its buffer with the numbers drawn, in order; each is drawn independently below [n]: two sequences of draws give the same sample exactly if they differ in their order only. *)
Theorem C74_replacement : forall n buf rest,
  exactly (n ^ length buf) (independent_draws n (length buf)) /\
  (forall ds, independent_draws n (length buf) ds -> exists T, sample_replacement (stream ds rest) n buf = Ok (T, rest) /\ Permutation ds T /\ StronglySorted le T) /\
  (forall ds ds', independent_draws n (length buf) ds -> independent_draws n (length buf) ds' ->
     sample_replacement (stream ds rest) n buf = sample_replacement (stream ds' rest) n buf <-> Permutation ds ds').
Proof.
  intros n buf rest. split; [apply independent_count|]. split.
  - intros ds Hd. exists (sort_unstable ds). split; [apply replacement_stream, Hd|]. split; [apply sort_perm|apply sort_sorted].
  - intros ds ds' Hd Hd'. rewrite !replacement_stream by assumption. split.
    + intros E. injection E as E. rewrite (sort_perm ds), E. symmetry. apply sort_perm.
    + intros HP. rewrite (sort_permutation _ _ HP). reflexivity.
Qed.
Print Assumptions C74_replacement.
(** With no element to draw from, it panics. *)
Theorem C74_replacement_empty : forall g buf, buf <> [] -> sample_replacement g 0 buf = Panic.
Proof. intros g [|x buf] H; [congruence|reflexivity]. Qed.

(** Two of five: the draws 1, 3, 1 for the elements 2, 3 and 4 give [0; 4]. *)
Example C74_ex : reservoir_draws 2 3 [1; 3; 1] /\ (forall rest, reservoir_sample true (stream [1; 3; 1] rest) 5 [7; 7] = Ok ([0; 4], rest)) /\
  independent_draws 5 3 [4; 0; 4] /\ forall rest, sample_replacement (stream [4; 0; 4] rest) 5 [1; 1; 1] = Ok ([0; 4; 4], rest).
Proof.
  split; [split; [reflexivity|intros [|[|[|[|i]]]] o E; cbn in E; try discriminate; injection E as <-; lia]|]. split; [intros rest; reflexivity|].
  split; [split; [reflexivity|intros o [<-|[<-|[<-|[]]]]; lia]|]. intros rest. reflexivity.
Qed.
