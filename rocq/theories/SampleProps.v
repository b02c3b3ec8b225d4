(** C65: the samples are uniform and independent. *)
From Coq Require Import Permutation Sorting.Sorted Factorial.
From Verif Require Import Base BaseProofs BitModel F32 Num DataModel Config DatasetModel DatasetSpec DatasetProofs DatasetProofs3 DatasetProofs4 DatasetProofs5 SampleSpec SampleProofs SampleProofs2
  TotalSpec TotalProofs TotalProofs2 TotalProps.

(** One sampling: of the equally likely sequences of draws, the same number (k!) gives every selection of k elements, whatever the order the elements are in. *)
Theorem C65_draw : forall buf T rest, NoDup buf -> increasing T -> incl T buf ->
  exactly (falling (length buf) (length T)) (offsets (length buf) (length T)) /\
  exactly (fact (length T)) (fun ds => offsets (length buf) (length T) ds /\
    exists buf', shuffle_first_k (stream ds rest) (length T) buf = Ok (buf', rest) /\ firstn (length T) buf' = T).
Proof.
  intros buf T rest Hb HT Hi. assert (length T <= length buf) as Hle by (apply NoDup_incl_length; [apply increasing_nodup, HT|exact Hi]).
  split; [apply offsets_count, Hle|]. eapply exactly_ext; [|apply (shuf_count (length T) buf T); auto using increasing_nodup]. intros ds. split.
  - intros [Hd HP]. split; [exact Hd|]. eexists. split; [apply shuffle_stream; assumption|]. rewrite firstn_sorted by assumption. apply sort_eq; assumption.
  - intros (Hd & b & E & Ef). split; [exact Hd|]. rewrite shuffle_stream in E by assumption. injection E as <-. rewrite firstn_sorted in Ef by assumption. apply sort_eq in Ef; assumption.
Qed.
Print Assumptions C65_draw.

(** Any history of updates that all sample: every sequence of selections (features and examples, as many as the fractions ask for) comes from the same number of sequences of draws. *)
Theorem C65_history : forall dbg (cfg : config f32ops) (d : data f32ops) us all Ts rest,
  trainable cfg d -> (Z.of_nat (d_nexamples d) <= 2 ^ 24)%Z -> (Z.of_nat (c_max_nbins cfg + 1) <= 2 ^ 24)%Z ->
  (forall u, In u us -> usable_gradients dbg cfg d (fst u) (snd u)) -> c_sample_freq cfg = 1 ->
  NoDup all -> (forall f, In f all <-> useful_feature d f) ->
  forall nf kf n k sampled, nf = length all -> kf = scaled_count nf (c_feature_fraction cfg) -> n = d_nexamples d -> k = scaled_count n (c_example_fraction cfg) ->
  sampled = nlt f32ops (c_example_fraction cfg) (nofZ f32ops 1) ->
  length Ts = length us -> (forall T, In T Ts -> selection d kf k T) ->
  exactly (((if kf <? nf then falling nf kf else 1) * (if sampled then falling n k else 1)) ^ length us)
    (fun dss => length dss = length us /\ Forall (update_draws nf kf n k sampled) dss) /\
  exactly (((if kf <? nf then fact kf else 1) * (if sampled then fact k else 1)) ^ length us)
    (fun dss => (length dss = length us /\ Forall (update_draws nf kf n k sampled) dss) /\
      exists s0, dataset_new cfg d (stream_all dss rest) = Ok s0 /\ samples dbg cfg us s0 = Ok Ts).
Proof.
  intros dbg cfg d us all Ts rest HT Hn Hm Hu Hf Hall Huse nf kf n k sampled -> -> -> -> -> HL HTs.
  pose proof HT as (_ & _ & _ & _ & _ & _ & _ & Hk & Hoff & Hff).
  assert (length all <= d_nfeatures d) as Hnf.
  { rewrite <- (seq_length (d_nfeatures d) 0). apply NoDup_incl_length; [exact Hall|]. intros f Hin. apply Huse in Hin as [Hin _]. apply in_seq. lia. }
  split; [exact (draws_count _ cfg d all Huse (Hff _ Hnf) Hk Hoff Hf (length us))|].
  destruct (dataset_new_total _ cfg d HT rest) as [s E].
  eapply exactly_ext; [|apply (history_count f32ops cfg d dbg all Hall Huse (Hff _ Hnf) Hk Hoff Hf us rest s Ts)].
  - intros dss. split.
    + intros (A & B & C). split; [auto|]. exists (with_rng s (stream_all dss rest)). split; [eapply new_rng, E|exact C].
    + intros ((A & B) & s0 & E0 & C). split; [exact A|]. split; [exact B|]. rewrite (new_rng _ _ _ _ _ _ E) in E0. apply (f_equal (fun r => match r with Ok x => samples dbg cfg us x | _ => Panic end)) in E0. cbn beta iota in E0.
      etransitivity; [exact E0|exact C].
  - eapply new_good, E.
  - exact HL.
  - apply Forall_forall, HTs.
  - intros g. eapply (ds_run_total _ cfg d dbg (laws_f32 _ _ Hm Hn) HT us); [|exact Hu]. eapply dataset_new_ok. eapply new_rng, E.
Qed.
Print Assumptions C65_history.

(* ---- cases that meet the hypotheses ---- *)
From Verif Require Import DatasetProps BoostProps.
From Coq Require String.

(** Half of the four examples and half of the four useful features, sampled for every update: 144 sequences of draws per update, of which 4 give each of the 36 selections. *)
Definition sam_cfg : config f32ops :=
  @mk_config f32ops String.EmptyString String.EmptyString String.EmptyString [] 1%N true 44%N [0; 2; 3; 4] 1 (fz 1) (fz 0) 1%N (fz 0) (fz 1) 3 4 2 (fz 1) (fz 1) 1%N f_half f_half 1.
Example C65_ex : trainable sam_cfg ex_data /\ usable_gradients true sam_cfg ex_data ex_grad (fz (-2), fz 2) /\
  (forall f, In f [0; 1; 2; 3] <-> useful_feature ex_data f) /\ scaled_count (O := f32ops) 4 f_half = 2 /\
  selection ex_data 2 2 ([1; 3], [0; 2]) /\ selection ex_data 2 2 ([0; 2], [2; 3]) /\ falling 4 2 * falling 4 2 = 144 /\ fact 2 * fact 2 = 4.
Proof.
  assert (forall f, In f [0; 1; 2; 3] <-> useful_feature ex_data f) as HU.
  { intros f. split.
    - intros Hf. repeat destruct Hf as [<-|Hf]; try destruct Hf; (split; [cbn; lia|]; split; [eexists; split; [reflexivity|cbn; lia]|eexists _, _; split; [reflexivity|vm_compute; reflexivity]]).
    - intros (Hf & _ & lo & hi & E & Hne). cbn in Hf. do 4 (destruct f as [|f]; [cbn; tauto|]). destruct f as [|f]; [|lia]. exfalso. unfold feat_limits, ex_data in E. cbn [d_limits idx nth_error] in E.
      pose proof (f_equal fst (Ok_inj _ _ E)) as E1. pose proof (f_equal snd (Ok_inj _ _ E)) as E2. cbn [fst snd] in E1, E2. subst lo hi.
      assert (neq f32ops (fz 0) (fz 0) = true) as H by (vm_compute; reflexivity). rewrite H in Hne. exact (Bool.diff_true_false Hne). }
  assert (scaled_count (O := f32ops) 4 f_half = 2) as HS by (vm_compute; reflexivity).
  split.
  { destruct C49_dataset_ex as ((A & B & C & D & E & F & G & H & I & J) & _). split; [exact A|]. split; [exact B|]. split; [exact C|]. split; [exact D|]. split; [exact E|]. split; [exact F|]. split; [exact G|].
    split; [exact H|]. split; [exact I|]. intros n Hn. cbn in Hn. do 6 (destruct n as [|n]; [vm_compute; lia|]). lia. }
  split.
  { destruct C49_dataset_ex as (_ & (A & B & C) & _). split; [exact A|]. split; [exact B|]. exact C. }
  split; [exact HU|]. split; [exact HS|].
  assert (forall a b, a < b -> increasing [a; b]) as HI by (intros a b Hab; repeat constructor; exact Hab).
  assert (forall f, In f [0; 1; 2; 3] -> useful_feature ex_data f) as HU' by (intros f; apply HU).
  split; [|split; [|split; reflexivity]]; (split; [apply HI; lia|]; split; [reflexivity|]; split;
    [intros f Hf; apply HU'; cbn in *; tauto|]; split; [apply HI; lia|]; split; [reflexivity|]; intros j Hj; cbn in *; repeat destruct Hj as [<-|Hj]; try destruct Hj; lia).
Qed.
