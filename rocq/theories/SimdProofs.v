(** Proofs about the SIMD kernels. *)
From Verif Require Import Base BaseProofs BitModel BitSpec BitProofs BitProofs2 SimdModel.

(* --- lanes --- *)

Lemma testbit_lane w v i q : N.testbit (lane w v i) q = (q <? w)%N && N.testbit v (w * N.of_nat i + q).
Proof.
  unfold lane. rewrite N.land_spec, N.shiftr_spec'. rewrite (N.add_comm q).
  destruct (N.ltb_spec q w).
  - rewrite N.ones_spec_low by assumption. rewrite andb_true_r. reflexivity.
  - rewrite N.ones_spec_high by assumption. apply andb_false_r.
Qed.

Lemma lane_eq w v i : lane w v i = ((v / 2 ^ (w * N.of_nat i)) mod 2 ^ w)%N.
Proof. unfold lane. rewrite N.land_ones, N.shiftr_div_pow2. reflexivity. Qed.

Lemma pow2_pos w : (0 < 2 ^ w)%N.
Proof. apply N.neq_0_lt_0, N.pow_nonzero. lia. Qed.

Lemma lane_lt w v i : (lane w v i < 2 ^ w)%N.
Proof. rewrite lane_eq. apply N.mod_lt. pose proof (pow2_pos w); lia. Qed.

Lemma lane_of_lanes w ls i : Forall (fun x => (x < 2 ^ w)%N) ls ->
  lane w (of_lanes w ls) i = nth i ls 0%N.
Proof.
  intros H. revert i; induction H as [|x t Hx Ht IH]; intros i; cbn [of_lanes].
  - destruct i; cbn [nth]; rewrite lane_eq, N.div_0_l by (apply N.pow_nonzero; lia);
      apply N.mod_0_l, N.pow_nonzero; lia.
  - pose proof (pow2_pos w). rewrite lane_eq. destruct i as [|i]; cbn [nth].
    + rewrite N.mul_0_r, N.pow_0_r, N.div_1_r. rewrite N.mul_comm, N.mod_add by lia. apply N.mod_small; assumption.
    + replace (w * N.of_nat (S i))%N with (w + w * N.of_nat i)%N by lia.
      rewrite N.pow_add_r, <- N.div_div by (try (apply N.pow_nonzero); lia).
      assert (Hp : (2 ^ w <> 0)%N) by (apply N.pow_nonzero; lia). rewrite (N.mul_comm (2 ^ w)), N.div_add by exact Hp. rewrite (N.div_small x) by exact Hx. rewrite N.add_0_l.
      rewrite <- lane_eq. apply IH.
Qed.

Lemma nth_map_seq (f : nat -> N) n i : nth i (map f (seq 0 n)) 0%N = if i <? n then f i else 0%N.
Proof.
  destruct (Nat.ltb_spec i n).
  - rewrite (nth_indep _ 0%N (f 0)) by (rewrite map_length, seq_length; assumption).
    rewrite (map_nth f). rewrite seq_nth by assumption. reflexivity.
  - apply nth_overflow. rewrite map_length, seq_length. assumption.
Qed.

Lemma lane_map_lanes w n f i : i < n -> lane w (map_lanes w n f) i = (f i mod 2 ^ w)%N.
Proof.
  intros H. unfold map_lanes. rewrite lane_of_lanes.
  - rewrite nth_map_seq. destruct (Nat.ltb_spec i n); [reflexivity|lia].
  - apply Forall_forall. intros x Hx. apply in_map_iff in Hx. destruct Hx as (j & <- & _).
    apply N.mod_lt. pose proof (pow2_pos w); lia.
Qed.

Lemma lane_vadd w n a b i : i < n -> (lane w a i + lane w b i < 2 ^ w)%N ->
  lane w (vadd w n a b) i = (lane w a i + lane w b i)%N.
Proof. intros H Hlt. unfold vadd. rewrite lane_map_lanes by assumption. apply N.mod_small; assumption. Qed.

Lemma lane_vslli w n a s i : i < n -> (lane w a i * 2 ^ s < 2 ^ w)%N ->
  lane w (vslli w n a s) i = (lane w a i * 2 ^ s)%N.
Proof.
  intros H Hlt. unfold vslli. rewrite lane_map_lanes by assumption. rewrite N.shiftl_mul_pow2.
  apply N.mod_small; assumption.
Qed.

(** Population count of a lane. *)
Definition plane (w : N) (k : nat) (v : N) : N := popcount (lane w v k).

Lemma plane_sum w k v :
  plane w k v = sumf (N.to_nat w) (fun t => b2n (N.testbit v (w * N.of_nat k + N.of_nat t))).
Proof.
  unfold plane. rewrite (popcount_sum (N.to_nat w)) by (rewrite N2Nat.id; apply lane_lt).
  apply sumf_ext. intros t Ht. rewrite testbit_lane. destruct (N.ltb_spec (N.of_nat t) w); [reflexivity|lia].
Qed.

Lemma plane_le w k v : (plane w k v <= w)%N.
Proof.
  rewrite plane_sum. transitivity (sumf (N.to_nat w) (fun _ => 1%N)).
  - apply sumf_le. intros. destruct (N.testbit _ _); cbn; lia.
  - rewrite sumf_const. lia.
Qed.

Lemma plane_0 w k : plane w k 0 = 0%N.
Proof. rewrite plane_sum. apply sumf_zero. intros. rewrite N.bits_0. reflexivity. Qed.

Lemma lt_pow2_self w : (w < 2 ^ w)%N.
Proof. apply N.pow_gt_lin_r. lia. Qed.

Lemma lane_vcount w n v k : k < n -> lane w (vcount w n v) k = plane w k v.
Proof.
  intros H. unfold vcount. rewrite lane_map_lanes by assumption. apply N.mod_small.
  pose proof (plane_le w k v). pose proof (lt_pow2_self w). unfold plane in *. lia.
Qed.

(* --- carry-save adder --- *)

Lemma csa_plane w k l d1 d2 h l' : csa l d1 d2 = (h, l') ->
  (plane w k l + plane w k d1 + plane w k d2 = 2 * plane w k h + plane w k l')%N.
Proof.
  unfold csa. intros E. injection E as <- <-. rewrite !plane_sum.
  rewrite <- sumf_mul, <- !sumf_add. apply sumf_ext. intros t Ht.
  rewrite N.lor_spec, !N.land_spec, !N.lxor_spec.
  destruct (N.testbit l _), (N.testbit d1 _), (N.testbit d2 _); reflexivity.
Qed.

Definition hs_low (w : N) (k : nat) (s : hs) : N :=
  (8 * plane w k (hs_b08 s) + 4 * plane w k (hs_b04 s) + 2 * plane w k (hs_b02 s) + plane w k (hs_b01 s))%N.

Lemma hs_low_le w k s : (hs_low w k s <= 15 * w)%N.
Proof.
  unfold hs_low. pose proof (plane_le w k (hs_b08 s)). pose proof (plane_le w k (hs_b04 s)).
  pose proof (plane_le w k (hs_b02 s)). pose proof (plane_le w k (hs_b01 s)). lia.
Qed.

Ltac csa_split :=
  match goal with
  | |- context [csa ?a ?b ?c] =>
      let h := fresh "h" in let l := fresh "l" in let E := fresh "E" in
      destruct (csa a b c) as [h l] eqn:E
  end.

Lemma hs_step_ok w nl add r s : exists b16,
  hs_total (hs_step (vcount w nl) add r s) = add (hs_total s) (vcount w nl b16) /\
  forall k, (16 * plane w k b16 + hs_low w k (hs_step (vcount w nl) add r s) =
             sumf 16 (fun j => plane w k (r j)) + hs_low w k s)%N.
Proof.
  unfold hs_step. do 15 csa_split. eexists; split; [reflexivity|].
  intros k. unfold hs_low. cbn [hs_b01 hs_b02 hs_b04 hs_b08].
  repeat match goal with H : csa _ _ _ = _ |- _ => apply (csa_plane w k) in H end.
  unfold sumf. cbn [seq map sumN]. lia.
Qed.

(** Behaviour required of the addition used inside the loop. *)
Definition good_add (w : N) (nl : nat) (add : N -> N -> N) : Prop :=
  forall a b, (forall k, k < nl -> (lane w a k + lane w b k < 2 ^ w)%N) ->
              forall k, k < nl -> lane w (add a b) k = (lane w a k + lane w b k)%N.

Lemma good_vadd w nl : good_add w nl (vadd w nl).
Proof. intros a b H k Hk. apply lane_vadd; auto. Qed.

Lemma lane_lane64 v k h : h < 2 -> lane 32 (lane 64 v k) h = lane 32 v (2 * k + h).
Proof.
  intros H. apply N.bits_inj. intros q. rewrite !testbit_lane.
  destruct (N.ltb_spec q 32); [|reflexivity]. cbn [andb].
  destruct (N.ltb_spec (32 * N.of_nat h + q) 64); [|lia]. cbn [andb]. f_equal. lia.
Qed.

Lemma lane64_split v k : lane 64 v k = (lane 32 v (2 * k) + 2 ^ 32 * lane 32 v (2 * k + 1))%N.
Proof.
  rewrite <- (lane_lane64 v k 1) by lia. replace (2 * k) with (2 * k + 0) by lia.
  rewrite <- (lane_lane64 v k 0) by lia.
  rewrite (lane_eq 32 (lane 64 v k) 0), (lane_eq 32 (lane 64 v k) 1).
  change (32 * N.of_nat 0)%N with 0%N. change (32 * N.of_nat 1)%N with 32%N.
  rewrite N.pow_0_r, N.div_1_r. pose proof (lane_lt 64 v k) as H.
  rewrite (N.mod_small (lane 64 v k / 2 ^ 32)).
  - pose proof (N.div_mod (lane 64 v k) (2 ^ 32)). lia.
  - apply N.div_lt_upper_bound; [lia|]. change (2 ^ 32 * 2 ^ 32)%N with (2 ^ 64)%N. assumption.
Qed.

(** [_mm256_add_epi64] acts as a 32-bit lane addition as long as no 32-bit lane overflows. *)
Lemma good_add_epi64_32 : good_add 32 8 add_epi64.
Proof.
  intros a b H k Hk. unfold add_epi64.
  assert (H2 : forall j, j < 4 -> lane 64 (vadd 64 4 a b) j = (lane 64 a j + lane 64 b j)%N).
  { intros j Hj. apply lane_vadd; [assumption|]. rewrite !lane64_split.
    pose proof (H (2 * j)). pose proof (H (2 * j + 1)).
    change (2 ^ 64)%N with (2 ^ 32 * 2 ^ 32)%N. lia. }
  assert (Hk2 : k / 2 < 4) by lia.
  specialize (H2 (k / 2) Hk2). rewrite !lane64_split in H2.
  set (j := k / 2) in *.
  pose proof (H (2 * j)) as Ha. pose proof (H (2 * j + 1)) as Hb.
  pose proof (lane_lt 32 (vadd 64 4 a b) (2 * j)). pose proof (lane_lt 32 (vadd 64 4 a b) (2 * j + 1)).
  assert (Hlo : lane 32 (vadd 64 4 a b) (2 * j) = (lane 32 a (2 * j) + lane 32 b (2 * j))%N) by nia.
  destruct (Nat.eq_dec (k mod 2) 0).
  - replace k with (2 * j) by lia. exact Hlo.
  - replace k with (2 * j + 1) by lia. nia.
Qed.

Lemma hs_aux_ok w nl add load r m :
  good_add w nl add -> (forall i, i < 16 * m -> load i = Ok (r i)) ->
  (N.of_nat (16 * m) * w < 2 ^ w)%N ->
  exists s, foldM (fun s k =>
           let* rs := mapM load (seq (16 * k) 16) in
           Ok (hs_step (vcount w nl) add (fun j => nth j rs 0%N) s)) (seq 0 m) hs_init = Ok s /\
    forall k, k < nl ->
      (16 * lane w (hs_total s) k + hs_low w k s = sumf (16 * m) (fun i => plane w k (r i)))%N.
Proof.
  intros Hadd. induction m as [|m IH]; intros Hload Hb.
  - exists hs_init. split; [reflexivity|]. intros k Hk. unfold hs_low. cbn [hs_init hs_total hs_b01 hs_b02 hs_b04 hs_b08].
    rewrite !plane_0. rewrite lane_eq. rewrite N.div_0_l by (apply N.pow_nonzero; lia).
    rewrite N.mod_0_l by (apply N.pow_nonzero; lia). reflexivity.
  - destruct IH as (s & E & Hs); [intros; apply Hload; lia|nia|].
    rewrite seq_S, foldM_app, E. cbn [rbind foldM Nat.add].
    rewrite (mapM_total _ _ load r) by (intros x Hx; apply in_seq in Hx; apply Hload; lia).
    cbn [rbind]. eexists; split; [reflexivity|]. intros k Hk.
    destruct (hs_step_ok w nl add (fun j => nth j (map r (seq (16 * m) 16)) 0%N) s) as (b16 & Ht & Hl).
    rewrite Ht.
    assert (Hr : forall k', sumf 16 (fun j => plane w k' (nth j (map r (seq (16 * m) 16)) 0%N)) =
                 sumf 16 (fun j => plane w k' (r (16 * m + j)))).
    { intros k'. apply sumf_ext. intros j Hj. f_equal.
      replace (16 * m) with (16 * m + 0) at 1 by lia. rewrite seq_shift_add, map_map, nth_map_seq.
      destruct (Nat.ltb_spec j 16); [reflexivity|lia]. }
    assert (Htot : forall k', k' < nl -> (lane w (hs_total s) k' + plane w k' b16 < 2 ^ w)%N).
    { intros k' Hk'. specialize (Hs k' Hk'). specialize (Hl k'). rewrite Hr in Hl.
      assert (sumf (16 * m) (fun i => plane w k' (r i)) <= w * N.of_nat (16 * m))%N
        by (rewrite <- sumf_const; apply sumf_le; intros; apply plane_le).
      assert (sumf 16 (fun j => plane w k' (r (16 * m + j)%nat)) <= w * N.of_nat 16)%N
        by (rewrite <- sumf_const; apply sumf_le; intros; apply plane_le).
      nia. }
    rewrite Hadd; [| |assumption].
    2:{ intros k' Hk'. rewrite lane_vcount by assumption. apply Htot; assumption. }
    rewrite lane_vcount by assumption. specialize (Hl k). rewrite Hr in Hl. specialize (Hs k Hk).
    replace (16 * S m) with (16 * m + 16) by lia. rewrite sumf_plus. lia.
Qed.

(** The kernel computes, in every lane, the total number of ones of that lane over all loaded registers. *)
Lemma harley_seal_lanes w nl add reduce load r n :
  good_add w nl add -> (forall i, i < n -> load i = Ok (r i)) ->
  (N.of_nat n * w < 2 ^ w)%N ->
  exists total, harley_seal w nl add reduce load n = Ok (reduce total) /\
    forall k, k < nl -> lane w total k = sumf n (fun i => plane w k (r i)).
Proof.
  intros Hadd Hload Hb. unfold harley_seal, hs_aux.
  set (m := (n - n mod 16) / 16). assert (Hm : n - n mod 16 = 16 * m) by (unfold m; lia).
  destruct (hs_aux_ok w nl add load r m Hadd) as (s & -> & Hs); [intros; apply Hload; lia|nia|].
  cbn [rbind].
  set (t0 := vslli w nl (hs_total s) 4).
  set (t1 := vadd w nl t0 (vslli w nl (vcount w nl (hs_b08 s)) 3)).
  set (t2 := vadd w nl t1 (vslli w nl (vcount w nl (hs_b04 s)) 2)).
  set (t3 := vadd w nl t2 (vslli w nl (vcount w nl (hs_b02 s)) 1)).
  set (t4 := vadd w nl t3 (vcount w nl (hs_b01 s))).
  assert (Hsum : forall j k, (sumf j (fun i => plane w k (r i)) <= w * N.of_nat j)%N)
    by (intros j k; rewrite <- sumf_const; apply sumf_le; intros; apply plane_le).
  assert (H4 : forall k, k < nl -> lane w t4 k = sumf (16 * m) (fun i => plane w k (r i))).
  { intros k Hk. specialize (Hs k Hk). unfold hs_low in Hs. specialize (Hsum (16 * m) k).
    assert (Hbm : (w * N.of_nat (16 * m) < 2 ^ w)%N) by nia.
    assert (E0 : lane w t0 k = (lane w (hs_total s) k * 16)%N).
    { unfold t0. change 16%N with (2 ^ 4)%N. apply lane_vslli; [assumption|]. change (2 ^ 4)%N with 16%N. lia. }
    assert (Ec3 : lane w (vslli w nl (vcount w nl (hs_b08 s)) 3) k = (plane w k (hs_b08 s) * 8)%N).
    { change 8%N with (2 ^ 3)%N. rewrite lane_vslli; rewrite ?lane_vcount by assumption; [reflexivity|assumption|].
      change (2 ^ 3)%N with 8%N. lia. }
    assert (Ec2 : lane w (vslli w nl (vcount w nl (hs_b04 s)) 2) k = (plane w k (hs_b04 s) * 4)%N).
    { change 4%N with (2 ^ 2)%N. rewrite lane_vslli; rewrite ?lane_vcount by assumption; [reflexivity|assumption|].
      change (2 ^ 2)%N with 4%N. lia. }
    assert (Ec1 : lane w (vslli w nl (vcount w nl (hs_b02 s)) 1) k = (plane w k (hs_b02 s) * 2)%N).
    { rewrite lane_vslli; rewrite ?lane_vcount by assumption; [reflexivity|assumption|].
      change (2 ^ 1)%N with 2%N. lia. }
    assert (E1 : lane w t1 k = (lane w t0 k + plane w k (hs_b08 s) * 8)%N)
      by (unfold t1; rewrite lane_vadd; rewrite ?Ec3, ?E0; try assumption; lia).
    assert (E2 : lane w t2 k = (lane w t1 k + plane w k (hs_b04 s) * 4)%N)
      by (unfold t2; rewrite lane_vadd; rewrite ?Ec2; try assumption; lia).
    assert (E3 : lane w t3 k = (lane w t2 k + plane w k (hs_b02 s) * 2)%N)
      by (unfold t3; rewrite lane_vadd; rewrite ?Ec1; try assumption; lia).
    unfold t4. rewrite lane_vadd; rewrite ?lane_vcount by assumption; try assumption; lia. }
  clearbody t4. clear t0 t1 t2 t3 Hs.
  rewrite Hm.
  assert (Hrest : forall j t, j <= n mod 16 -> (forall k, k < nl -> lane w t k = sumf (16 * m) (fun i => plane w k (r i))) ->
     exists t', foldM (fun total i => let* r0 := load i in Ok (vadd w nl total (vcount w nl r0))) (seq (16 * m) j) t = Ok t' /\
       forall k, k < nl -> lane w t' k = sumf (16 * m + j) (fun i => plane w k (r i))).
  { induction j as [|j IH]; intros t Hj Ht.
    - exists t. split; [reflexivity|]. rewrite Nat.add_0_r. assumption.
    - destruct (IH t) as (t' & E & Ht'); [lia|assumption|].
      rewrite seq_S, foldM_app, E. cbn [rbind foldM]. rewrite Hload by lia. cbn [rbind].
      eexists; split; [reflexivity|]. intros k Hk. replace (16 * m + S j) with (S (16 * m + j)) by lia.
      rewrite sumf_S. specialize (Ht' k Hk).
      pose proof (Hsum (16 * m + j) k). pose proof (plane_le w k (r (16 * m + j))).
      rewrite lane_vadd; rewrite ?lane_vcount by assumption; [rewrite Ht'; reflexivity|assumption|]. rewrite Ht'. assert (w * N.of_nat (S (16 * m + j)) <= w * N.of_nat n)%N by (apply N.mul_le_mono_l; lia). lia. }
  destruct (Hrest (n mod 16) t4) as (t' & -> & Ht'); [lia|assumption|]. cbn [rbind].
  exists t'. split; [reflexivity|]. replace (16 * m + n mod 16) with n in Ht' by lia. assumption.
Qed.

(* --- weights --- *)

(** Weighted number of ones of a register. *)
Definition wones (wt : nat -> N) (v : N) : N :=
  sumf 256 (fun t => (wt t * b2n (N.testbit v (N.of_nat t)))%N).

Lemma sumf_wmul_le n f c : (forall i, i < n -> (f i <= c)%N) -> (sumf n f <= c * N.of_nat n)%N.
Proof. intros H. rewrite <- sumf_const. apply sumf_le. assumption. Qed.

Lemma wones_le wt v c : (forall t, t < 256 -> (wt t <= c)%N) -> (wones wt v <= c * 256)%N.
Proof.
  intros H. unfold wones. change 256%N with (N.of_nat 256). apply sumf_wmul_le. intros i Hi.
  specialize (H i Hi). destruct (N.testbit v (N.of_nat i)); cbn [b2n]; lia.
Qed.

(** 64-bit lanes: weight [wt] constant on lanes. *)
Lemma wones_64 (wt : nat -> N) w0 w1 w2 w3 v :
  (forall t, t < 256 -> wt t = nth (t / 64) [w0; w1; w2; w3] 0%N) ->
  wones wt v = (w0 * plane 64 0 v + w1 * plane 64 1 v + w2 * plane 64 2 v + w3 * plane 64 3 v)%N.
Proof.
  intros H. unfold wones. change 256 with (4 * 64). rewrite sumf_group.
  rewrite (sumf_ext 4 _ (fun i => (nth i [w0; w1; w2; w3] 0 * plane 64 i v)%N)).
  2:{ intros i Hi. rewrite plane_sum, <- sumf_mul. change (N.to_nat 64) with 64. apply sumf_ext. intros t Ht.
      rewrite H by lia. replace ((i * 64 + t) / 64) with i by lia.
      replace (64 * N.of_nat i + N.of_nat t)%N with (N.of_nat (i * 64 + t)) by lia. reflexivity. }
  unfold sumf. cbn [seq map sumN nth]. lia.
Qed.

Lemma wones_32 (wt : nat -> N) ws v : length ws = 8 ->
  (forall t, t < 256 -> wt t = nth (t / 32) ws 0%N) ->
  wones wt v = sumf 8 (fun i => (nth i ws 0 * plane 32 i v)%N).
Proof.
  intros Hl H. unfold wones. change 256 with (8 * 32). rewrite sumf_group.
  apply sumf_ext. intros i Hi. rewrite plane_sum, <- sumf_mul. change (N.to_nat 32) with 32. apply sumf_ext. intros t Ht.
  rewrite H by lia. replace ((i * 32 + t) / 32) with i by lia.
  replace (32 * N.of_nat i + N.of_nat t)%N with (N.of_nat (i * 32 + t)) by lia. reflexivity.
Qed.

(** The 64-bit kernel with weights 2^0..2^3 at most: [n < 2^52] registers is far beyond any memory. *)
Lemma harvey_seal_64_ok wt w0 w1 w2 w3 load r n :
  (forall t, t < 256 -> wt t = nth (t / 64) [w0; w1; w2; w3] 0%N) ->
  (w0 <= 255)%N -> (w1 <= 255)%N -> (w2 <= 255)%N -> (w3 <= 255)%N ->
  (forall i, i < n -> load i = Ok (r i)) -> (N.of_nat n < 2 ^ 40)%N ->
  harley_seal 64 4 add_epi64 (reduce_64 w0 w1 w2 w3) load n = Ok (sumf n (fun i => wones wt (r i))).
Proof.
  intros Hwt H0 H1 H2 H3 Hload Hn.
  destruct (harley_seal_lanes 64 4 add_epi64 (reduce_64 w0 w1 w2 w3) load r n) as (total & -> & Ht).
  - apply good_vadd.
  - assumption.
  - change (2 ^ 64)%N with (2 ^ 40 * 2 ^ 24)%N. lia.
  - f_equal. unfold reduce_64. rewrite !Ht by lia.
    assert (E : sumf n (fun i => wones wt (r i)) =
                (w0 * sumf n (fun i => plane 64 0 (r i)) + w1 * sumf n (fun i => plane 64 1 (r i)) +
                 w2 * sumf n (fun i => plane 64 2 (r i)) + w3 * sumf n (fun i => plane 64 3 (r i)))%N).
    { rewrite <- !sumf_mul, <- !sumf_add. apply sumf_ext. intros i Hi. apply wones_64. assumption. }
    rewrite <- E. apply N.mod_small.
    assert (sumf n (fun i => wones wt (r i)) <= 255 * 256 * N.of_nat n)%N.
    { apply sumf_wmul_le. intros i Hi. apply wones_le. intros t Ht'. rewrite Hwt by assumption.
      assert (t / 64 < 4) by lia. destruct (t / 64) as [|[|[|[|]]]]; cbn [nth]; try assumption; lia. }
    change (2 ^ 64)%N with (2 ^ 40 * 2 ^ 24)%N. lia.
Qed.

Lemma land_ones32_lane v k : N.land (lane 64 v k) (N.ones 32) = lane 32 v (2 * k).
Proof.
  apply N.bits_inj. intros q. rewrite N.land_spec, !testbit_lane.
  destruct (N.ltb_spec q 32).
  - rewrite N.ones_spec_low by assumption. destruct (N.ltb_spec q 64); [|lia].
    rewrite andb_true_r. cbn [andb]. f_equal. lia.
  - rewrite N.ones_spec_high by assumption. apply andb_false_r.
Qed.
Lemma shiftr32_lane v k : N.shiftr (lane 64 v k) 32 = lane 32 v (2 * k + 1).
Proof.
  apply N.bits_inj. intros q. rewrite N.shiftr_spec', !testbit_lane.
  destruct (N.ltb_spec q 32), (N.ltb_spec (q + 32) 64); try lia; cbn [andb]; try reflexivity. f_equal. lia.
Qed.

(** The 32-bit kernel (width 8): no 32-bit lane overflows below 2^27 registers (2^32 values). *)
Lemma harvey_seal_32_ok wt add load r n : good_add 32 8 add ->
  (forall t, t < 256 -> wt t = nth (t / 32) [1; 2; 4; 8; 16; 32; 64; 128]%N 0%N) ->
  (forall i, i < n -> load i = Ok (r i)) -> (N.of_nat n < 2 ^ 27)%N ->
  harley_seal 32 8 add (reduce_32 1 2 4 8 16 32 64 128) load n = Ok (sumf n (fun i => wones wt (r i))).
Proof.
  intros Hadd Hwt Hload Hn.
  destruct (harley_seal_lanes 32 8 add (reduce_32 1 2 4 8 16 32 64 128) load r n) as (total & -> & Ht).
  - assumption.
  - assumption.
  - change (2 ^ 32)%N with (2 ^ 27 * 2 ^ 5)%N. change (2 ^ 5)%N with 32%N. lia.
  - f_equal. unfold reduce_32. rewrite !land_ones32_lane, !shiftr32_lane. cbn [Nat.mul Nat.add]. rewrite !Ht by lia.
    assert (E : sumf n (fun i => wones wt (r i)) =
                (1 * sumf n (fun i => plane 32 0 (r i)) + 2 * sumf n (fun i => plane 32 1 (r i)) +
                 (4 * sumf n (fun i => plane 32 2 (r i)) + 8 * sumf n (fun i => plane 32 3 (r i))) +
                 (16 * sumf n (fun i => plane 32 4 (r i)) + 32 * sumf n (fun i => plane 32 5 (r i))) +
                 (64 * sumf n (fun i => plane 32 6 (r i)) + 128 * sumf n (fun i => plane 32 7 (r i))))%N).
    { rewrite <- !sumf_mul, <- !sumf_add. apply sumf_ext. intros i Hi.
      rewrite (wones_32 wt [1; 2; 4; 8; 16; 32; 64; 128]%N) by (try assumption; reflexivity).
      unfold sumf. cbn [seq map sumN nth]. lia. }
    rewrite <- E. apply N.mod_small.
    assert (sumf n (fun i => wones wt (r i)) <= 255 * 256 * N.of_nat n)%N.
    { apply sumf_wmul_le. intros i Hi. apply wones_le. intros t Ht'. rewrite Hwt by assumption.
      assert (t / 32 < 8) by lia. remember (t / 32) as q eqn:Eq. clear Eq Ht'.
      do 8 (destruct q as [|q]; [cbn [nth]; lia|]). lia. }
    change (2 ^ 64)%N with (2 ^ 27 * 2 ^ 37)%N. change (2 ^ 27)%N with 134217728%N in *. lia.
Qed.
