(** Property C38: the strings the library accepts for names and values of settings are exactly the texts encoded in UTF-8. *)
From Coq Require Import String Ascii NArith Lia ZArith List Bool.
From Verif Require Import Base CapiModel.
Import ListNotations.
Local Open Scope N_scope.
Ltac Zify.zify_post_hook ::= Z.div_mod_to_equations.

(** Unicode scalar values: the code points without the surrogates. *)
Definition scalar_value (n : N) : Prop := n < 55296 \/ 57344 <= n < 1114112.
(** UTF-8 (RFC 3629). *)
Definition bytes (l : list N) : string := fold_right (fun n s => String (ascii_of_N n) s) EmptyString l.
Definition utf8_encode (n : N) : string :=
  bytes (if n <? 128 then [n]
         else if n <? 2048 then [192 + n / 64; 128 + n mod 64]
         else if n <? 65536 then [224 + n / 4096; 128 + n / 64 mod 64; 128 + n mod 64]
         else [240 + n / 262144; 128 + n / 4096 mod 64; 128 + n / 64 mod 64; 128 + n mod 64]).
Definition utf8_text (cs : list N) : string := fold_right (fun n s => append (utf8_encode n) s) EmptyString cs.

Lemma byte_lt a : N_of_ascii a < 256.
Proof. apply N_ascii_bounded. Qed.
Lemma between_ok lo hi a : between lo hi a = true <-> lo <= N_of_ascii a <= hi.
Proof. unfold between. rewrite andb_true_iff, !N.leb_le. tauto. Qed.
Lemma cont_ok a : cont a = true <-> 128 <= N_of_ascii a <= 191.
Proof. unfold cont. rewrite andb_true_iff, !N.leb_le. tauto. Qed.
Lemma byte_eq n a : n = N_of_ascii a -> ascii_of_N n = a.
Proof. intros ->. apply ascii_N_embedding. Qed.
Lemma between_false lo hi n : n < 256 -> ~ (lo <= n <= hi) -> between lo hi (ascii_of_N n) = false.
Proof. intros Hn H. destruct (between lo hi (ascii_of_N n)) eqn:E; [|reflexivity]. apply between_ok in E. rewrite N_ascii_embedding in E by exact Hn. contradiction. Qed.
Lemma between_true lo hi n : n < 256 -> lo <= n <= hi -> between lo hi (ascii_of_N n) = true.
Proof. intros Hn H. apply between_ok. rewrite N_ascii_embedding by exact Hn. exact H. Qed.
Lemma cont_true n : 128 <= n <= 191 -> cont (ascii_of_N n) = true.
Proof. intros H. apply cont_ok. rewrite N_ascii_embedding by lia. exact H. Qed.

Lemma valid_encode n s : scalar_value n -> utf8_valid (append (utf8_encode n) s) = utf8_valid s.
Proof.
  intros Hs. unfold scalar_value in Hs. unfold utf8_encode. destruct (n <? 128) eqn:E1; [apply N.ltb_lt in E1|apply N.ltb_ge in E1; destruct (n <? 2048) eqn:E2; [apply N.ltb_lt in E2|apply N.ltb_ge in E2; destruct (n <? 65536) eqn:E3; [apply N.ltb_lt in E3|apply N.ltb_ge in E3]]].
  - cbn [bytes fold_right append]. cbn [utf8_valid]. rewrite between_true by lia. reflexivity.
  - cbn [bytes fold_right append]. cbn [utf8_valid]. rewrite between_false by lia. rewrite between_true by lia. rewrite cont_true by lia. reflexivity.
  - cbn [bytes fold_right append]. cbn [utf8_valid]. rewrite (between_false 0 127 (224 + n / 4096)) by lia. rewrite (between_false 194 223 (224 + n / 4096)) by lia. cbn [andb].
    rewrite !cont_true by lia. rewrite !andb_true_r.
    assert (between 224 224 (ascii_of_N (224 + n / 4096)) && between 160 191 (ascii_of_N (128 + n / 64 mod 64)) || between 225 236 (ascii_of_N (224 + n / 4096)) || between 237 237 (ascii_of_N (224 + n / 4096)) && between 128 159 (ascii_of_N (128 + n / 64 mod 64)) || between 238 239 (ascii_of_N (224 + n / 4096)) = true) as ->; [|reflexivity].
    assert (n < 4096 \/ 4096 <= n < 53248 \/ 53248 <= n < 55296 \/ 57344 <= n) as [H|[H|[H|H]]] by lia.
    + rewrite (between_true 224 224) by lia. rewrite (between_true 160 191) by lia. reflexivity.
    + rewrite (between_true 225 236) by lia. rewrite !orb_true_r. reflexivity.
    + rewrite (between_true 237 237) by lia. rewrite (between_true 128 159) by lia. cbn [andb]. rewrite !orb_true_r. reflexivity.
    + rewrite (between_true 238 239) by lia. rewrite !orb_true_r. reflexivity.
  - cbn [bytes fold_right append]. cbn [utf8_valid]. rewrite (between_false 0 127 (240 + n / 262144)) by lia. rewrite (between_false 194 223 (240 + n / 262144)) by lia. rewrite (between_false 224 224 (240 + n / 262144)), (between_false 225 236 (240 + n / 262144)), (between_false 237 237 (240 + n / 262144)), (between_false 238 239 (240 + n / 262144)) by lia. cbn [andb orb].
    rewrite !cont_true by lia. rewrite !andb_true_r.
    assert (between 240 240 (ascii_of_N (240 + n / 262144)) && between 144 191 (ascii_of_N (128 + n / 4096 mod 64)) || between 241 243 (ascii_of_N (240 + n / 262144)) || between 244 244 (ascii_of_N (240 + n / 262144)) && between 128 143 (ascii_of_N (128 + n / 4096 mod 64)) = true) as ->; [|reflexivity].
    assert (n < 262144 \/ 262144 <= n < 1048576 \/ 1048576 <= n) as [H|[H|H]] by lia.
    + rewrite (between_true 240 240) by lia. rewrite (between_true 144 191) by lia. reflexivity.
    + rewrite (between_true 241 243) by lia. rewrite !orb_true_r. reflexivity.
    + rewrite (between_true 244 244) by lia. rewrite (between_true 128 143) by lia. rewrite !orb_true_r. reflexivity.
Qed.
Lemma text_cons n cs s : s = utf8_text cs -> append (utf8_encode n) s = utf8_text (n :: cs).
Proof. intros ->. reflexivity. Qed.

Lemma valid_text : forall k s, (String.length s <= k)%nat -> utf8_valid s = true -> exists cs, Forall scalar_value cs /\ s = utf8_text cs.
Proof.
  induction k as [|k IH]; intros s Hk E; [destruct s; [exists []; auto|cbn in Hk; lia]|].
  destruct s as [|a t]; [exists []; auto|]. cbn [utf8_valid String.length] in *.
  pose proof (byte_lt a). destruct (between 0 127 a) eqn:E1.
  { apply between_ok in E1. destruct (IH t ltac:(lia) E) as (cs & Hcs & ->). exists (N_of_ascii a :: cs). split; [constructor; [unfold scalar_value; lia|exact Hcs]|]. cbn [utf8_text fold_right]. unfold utf8_encode. rewrite (proj2 (N.ltb_lt _ 128)) by lia.
    cbn [bytes fold_right append]. rewrite ascii_N_embedding. reflexivity. }
  destruct t as [|b t2]; [discriminate|]. cbn [String.length] in Hk. destruct (between 194 223 a && cont b) eqn:E2.
  { apply andb_prop in E2 as (E2 & Eb). apply between_ok in E2. apply cont_ok in Eb. destruct (IH t2 ltac:(lia) E) as (cs & Hcs & ->). set (n := (N_of_ascii a - 192) * 64 + (N_of_ascii b - 128)). exists (n :: cs).
    split; [constructor; [unfold scalar_value; lia|exact Hcs]|]. cbn [utf8_text fold_right]. unfold utf8_encode. rewrite (proj2 (N.ltb_ge n 128)), (proj2 (N.ltb_lt n 2048)) by lia. cbn [bytes fold_right append].
    rewrite (byte_eq _ a) by lia. rewrite (byte_eq _ b) by lia. reflexivity. }
  destruct t2 as [|c t3]; [discriminate|]. cbn [String.length] in Hk. destruct ((between 224 224 a && between 160 191 b || between 225 236 a && cont b || between 237 237 a && between 128 159 b || between 238 239 a && cont b) && cont c) eqn:E3.
  { apply andb_prop in E3 as (E3 & Ec). apply cont_ok in Ec. rewrite !orb_true_iff, !andb_true_iff, !between_ok, !cont_ok in E3. destruct (IH t3 ltac:(lia) E) as (cs & Hcs & ->). clear IH E E1 E2. set (n := (N_of_ascii a - 224) * 4096 + (N_of_ascii b - 128) * 64 + (N_of_ascii c - 128)). exists (n :: cs).
    assert (2048 <= n < 65536 /\ scalar_value n /\ 224 + n / 4096 = N_of_ascii a /\ 128 + n / 64 mod 64 = N_of_ascii b /\ 128 + n mod 64 = N_of_ascii c) as (H1 & H2 & H3 & H4 & H5) by (unfold scalar_value; destruct E3 as [[[E3|E3]|E3]|E3]; lia).
    split; [constructor; [exact H2|exact Hcs]|]. cbn [utf8_text fold_right]. unfold utf8_encode. rewrite (proj2 (N.ltb_ge n 128)), (proj2 (N.ltb_ge n 2048)), (proj2 (N.ltb_lt n 65536)) by lia. cbn [bytes fold_right append].
    rewrite (byte_eq _ a H3), (byte_eq _ b H4), (byte_eq _ c H5). reflexivity. }
  destruct t3 as [|e t4]; [discriminate|]. cbn [String.length] in Hk. clear E1 E2 E3. apply andb_prop in E as (E & Et). apply andb_prop in E as (E & Ee). apply andb_prop in E as (E & Ec). apply cont_ok in Ee. apply cont_ok in Ec.
  rewrite !orb_true_iff, !andb_true_iff, !between_ok, !cont_ok in E. destruct (IH t4 ltac:(lia) Et) as (cs & Hcs & ->). clear IH Et. set (n := (N_of_ascii a - 240) * 262144 + (N_of_ascii b - 128) * 4096 + (N_of_ascii c - 128) * 64 + (N_of_ascii e - 128)). exists (n :: cs).
  assert (65536 <= n /\ scalar_value n /\ 240 + n / 262144 = N_of_ascii a /\ 128 + n / 4096 mod 64 = N_of_ascii b /\ 128 + n / 64 mod 64 = N_of_ascii c /\ 128 + n mod 64 = N_of_ascii e) as (H1 & H2 & H3 & H4 & H5 & H6) by (unfold scalar_value; destruct E as [[E|E]|E]; lia).
  split; [constructor; [exact H2|exact Hcs]|]. cbn [utf8_text fold_right]. unfold utf8_encode. rewrite (proj2 (N.ltb_ge n 128)), (proj2 (N.ltb_ge n 2048)), (proj2 (N.ltb_ge n 65536)) by lia. cbn [bytes fold_right append].
  rewrite (byte_eq _ a H3), (byte_eq _ b H4), (byte_eq _ c H5), (byte_eq _ e H6). reflexivity.
Qed.

Theorem C38_utf8 : forall s, utf8_valid s = true <-> exists cs, Forall scalar_value cs /\ s = utf8_text cs.
Proof.
  intros s. split; [apply (valid_text (String.length s)); lia|]. intros (cs & Hcs & ->). induction Hcs as [|n cs Hn _ IH]; [reflexivity|]. cbn [utf8_text fold_right]. rewrite valid_encode by exact Hn. exact IH.
Qed.
Print Assumptions C38_utf8.
(** Text with characters of one, two, three and four bytes; an overlong encoding, a surrogate and a lone continuation byte are refused. *)
Example C38_utf8_ex : Forall scalar_value [97; 233; 8364; 128640] /\ utf8_valid (utf8_text [97; 233; 8364; 128640]) = true /\ String.length (utf8_text [97; 233; 8364; 128640]) = 10%nat /\
  utf8_valid (bytes [192; 128]) = false /\ utf8_valid (bytes [237; 160; 128]) = false /\ utf8_valid (bytes [128]) = false.
Proof. split; [repeat constructor; unfold scalar_value; lia|]. vm_compute. repeat split. Qed.
