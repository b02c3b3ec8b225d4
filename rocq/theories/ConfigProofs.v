(** Proofs about trimming, splitting and numerals. *)
From Coq Require Import String Ascii Lia.
From Verif Require Import Base Num DataModel Config ConfigModel ConfigSpec.
Local Open Scope string_scope.

(** * Strings *)
Lemma app_nil : forall s, s ++ "" = s.
Proof. induction s; cbn; congruence. Qed.
Lemma app_assoc : forall a b c, (a ++ b) ++ c = a ++ (b ++ c).
Proof. induction a; intros; cbn; [reflexivity | rewrite IHa; reflexivity]. Qed.
Lemma app_length : forall a b, String.length (a ++ b) = (String.length a + String.length b)%nat.
Proof. induction a; intros; cbn; [reflexivity | rewrite IHa; reflexivity]. Qed.
Lemma app_inv : forall a b c, a ++ b = a ++ c -> b = c.
Proof. induction a; cbn; intros b c H; [exact H | inversion H; auto]. Qed.
Lemma app_eq : forall a b c d, a ++ b = c ++ d -> (exists x, a = c ++ x /\ d = x ++ b) \/ (exists x, c = a ++ x /\ b = x ++ d).
Proof.
  induction a; intros b c d H; cbn in H.
  - right; exists c; cbn; auto.
  - destruct c; cbn in H.
    + left; exists (String a a0); cbn; split; congruence.
    + inversion H; subst. destruct (IHa _ _ _ H2) as [(x & -> & ->)|(x & -> & ->)]; [left | right]; exists x; auto.
Qed.
Lemma prefix_spec : forall w s, String.prefix w s = true <-> exists r, s = w ++ r.
Proof.
  induction w; intros s; cbn.
  - split; [intros _; exists s; reflexivity | destruct s; reflexivity].
  - destruct s; [split; [discriminate | intros (r & H); discriminate]|].
    cbn [String.prefix]. destruct (ascii_dec a a0) as [->|N].
    + split.
      * intros H. apply IHw in H. destruct H as (r & ->). exists r; reflexivity.
      * intros (r & H). injection H as H. apply IHw. eauto.
    + split; [discriminate | intros (r & H); injection H; intros; congruence].
Qed.
Lemma drop_app : forall w r, drop (String.length w) (w ++ r) = r.
Proof. induction w; cbn; intros; [destruct r; reflexivity | apply IHw]. Qed.
Lemma rev_append_app : forall s acc, rev_append s acc = rev_append s "" ++ acc.
Proof. induction s; intros; cbn; [reflexivity|]. rewrite IHs, (IHs (String a "")), app_assoc; reflexivity. Qed.
Lemma rev_cons : forall a s, rev_string (String a s) = rev_string s ++ String a "".
Proof. intros; unfold rev_string; cbn; apply rev_append_app. Qed.
Lemma rev_app : forall a b, rev_string (a ++ b) = rev_string b ++ rev_string a.
Proof. induction a; intros; [cbn; rewrite app_nil; reflexivity|]. cbn [append]. rewrite !rev_cons, IHa, app_assoc; reflexivity. Qed.
Lemma rev_rev : forall s, rev_string (rev_string s) = s.
Proof. induction s; [reflexivity|]. rewrite rev_cons, rev_app, IHs; reflexivity. Qed.
Lemma rev_length : forall s, String.length (rev_string s) = String.length s.
Proof. induction s; [reflexivity|]. rewrite rev_cons, app_length, IHs; cbn; lia. Qed.

(** * Trimming *)
Inductive chain (table : list string) : string -> Prop :=
  | chain_nil : chain table ""
  | chain_cons : forall w s, In w table -> chain table s -> chain table (w ++ s).
Definition clean (table : list string) (s : string) : Prop := forall w r, In w table -> s <> w ++ r.
Lemma chain_app : forall t a b, chain t a -> chain t b -> chain t (a ++ b).
Proof. induction 1; intros; cbn; [assumption | rewrite app_assoc; constructor; auto]. Qed.
Lemma strip_spec : forall table, ~ In "" table -> forall fuel s,
  exists a, s = a ++ strip table fuel s /\ chain table a /\ ((String.length s <= fuel)%nat -> clean table (strip table fuel s)).
Proof.
  intros table N; induction fuel; intros s; cbn [strip].
  - exists ""; split; [reflexivity | split; [constructor|]]. intros L w r Hw ->. rewrite app_length in L.
    destruct w; [contradiction | cbn in L; lia].
  - destruct (find (fun w => prefix w s) table) as [w|] eqn:F.
    + apply find_some in F. destruct F as (Hw & P). apply prefix_spec in P. destruct P as (r & ->).
      rewrite drop_app. destruct (IHfuel r) as (a & E & Ca & Cl). exists (w ++ a). split; [rewrite app_assoc, <- E; reflexivity|].
      split; [constructor; assumption|]. intros L; apply Cl. rewrite app_length in L. destruct w; [contradiction | cbn in L; lia].
    + exists ""; split; [reflexivity | split; [constructor|]]. intros _ w r Hw ->.
      pose proof (find_none _ _ F w Hw) as H; cbn in H. assert (prefix w (w ++ r) = true) by (apply prefix_spec; eauto). congruence.
Qed.
Lemma ws_table_points : ws_table = map utf8 ws_points.
Proof. vm_compute; reflexivity. Qed.
Lemma white_table : forall w, white w <-> In w ws_table.
Proof. intros; unfold white; rewrite ws_table_points, in_map_iff; split; intros (p & A & B); exists p; intuition congruence. Qed.
Lemma blank_chain : forall s, blank s <-> chain ws_table s.
Proof. split; induction 1; constructor; try apply white_table; assumption. Qed.
Lemma chain_rev : forall t a, chain (map rev_string t) a -> chain t (rev_string a).
Proof.
  induction 1; [constructor|]. apply in_map_iff in H. destruct H as (v & <- & Hv). rewrite rev_app, rev_rev.
  apply chain_app; [assumption|]. rewrite <- (app_nil v); constructor; [assumption | constructor].
Qed.
Lemma chain_rev' : forall t a, chain t a -> chain (map rev_string t) (rev_string a).
Proof.
  induction 1; [constructor|]. rewrite rev_app. apply chain_app; [assumption|].
  rewrite <- (app_nil (rev_string w)); constructor; [apply in_map; assumption | constructor].
Qed.
Lemma clean_rev : forall t s, (forall w r, In w t -> s <> r ++ w) <-> clean (map rev_string t) (rev_string s).
Proof.
  split; intros H w r Hw E.
  - apply in_map_iff in Hw. destruct Hw as (v & <- & Hv). apply (H v (rev_string r) Hv). rewrite <- (rev_rev s), E, rev_app, rev_rev; reflexivity.
  - apply (H (rev_string w) (rev_string r)); [apply in_map; assumption | rewrite E, rev_app; reflexivity].
Qed.
Lemma table_nonempty : ~ In "" ws_table /\ ~ In "" (map rev_string ws_table).
Proof. split; intros H; vm_compute in H; intuition discriminate. Qed.
Lemma trim_trimmed : forall s, trimmed s (trim s).
Proof.
  intros s. destruct table_nonempty as (N1 & N2). unfold trim, trim_end, trim_start. set (t := strip ws_table (String.length s) s).
  destruct (strip_spec ws_table N1 (String.length s) s) as (a & E & Ca & Cl). fold t in E, Cl. specialize (Cl (Nat.le_refl _)).
  destruct (strip_spec (map rev_string ws_table) N2 (String.length t) (rev_string t)) as (b & E2 & Cb & Cl2).
  set (u := strip (map rev_string ws_table) (String.length t) (rev_string t)) in *. rewrite rev_length in Cl2. specialize (Cl2 (Nat.le_refl _)).
  assert (T : t = rev_string u ++ rev_string b) by (rewrite <- (rev_rev t), E2, rev_app; reflexivity).
  exists a, (rev_string b). split; [rewrite <- T; exact E|]. split; [apply blank_chain; assumption|].
  split; [apply blank_chain, chain_rev; assumption|]. split.
  - intros w r Hw X. apply white_table in Hw. apply (Cl w (r ++ rev_string b) Hw). rewrite T, X, app_assoc; reflexivity.
  - intros w r Hw. apply white_table in Hw. revert w r Hw. apply clean_rev. rewrite rev_rev; assumption.
Qed.

(** What remains after trimming is determined. *)
Definition prefix_free (table : list string) : bool := forallb (fun w => forallb (fun v => negb (prefix w v) || String.eqb w v) table) table.
Lemma prefix_free_eq : forall table, prefix_free table = true -> forall w v r q, In w table -> In v table -> w ++ r = v ++ q -> w = v /\ r = q.
Proof.
  intros table P w v r q Hw Hv E. assert (K : forall x y, In x table -> In y table -> forall z, y = x ++ z -> x = y).
  { intros x y Hx Hy z ->. unfold prefix_free in P. rewrite forallb_forall in P. pose proof (P x Hx) as Q. rewrite forallb_forall in Q.
    specialize (Q _ Hy). replace (prefix x (x ++ z)) with true in Q by (symmetry; apply prefix_spec; eauto). apply String.eqb_eq; exact Q. }
  destruct (app_eq _ _ _ _ E) as [(x & A & B)|(x & A & B)].
  - rewrite (K v w Hv Hw x A) in *. split; [reflexivity | exact (app_inv _ _ _ E)].
  - rewrite (K w v Hw Hv x A) in *. split; [reflexivity | exact (app_inv _ _ _ E)].
Qed.
Lemma chain_unique : forall table, prefix_free table = true -> forall a1, chain table a1 -> forall a2 u1 u2, chain table a2 ->
  a1 ++ u1 = a2 ++ u2 -> clean table u1 -> clean table u2 -> a1 = a2 /\ u1 = u2.
Proof.
  intros table P; induction 1; intros a2 u1 u2 C2 E C1' C2'; cbn in E.
  - destruct C2; [auto|]. exfalso. apply (C1' w (s ++ u2) H). rewrite E, app_assoc; reflexivity.
  - destruct C2.
    + exfalso. cbn in E. apply (C2' w (s ++ u1) H). rewrite <- E, app_assoc; reflexivity.
    + rewrite !app_assoc in E. destruct (prefix_free_eq _ P _ _ _ _ H H1 E) as (-> & E2). destruct (IHchain _ _ _ C2 E2 C1' C2') as (-> & ->). auto.
Qed.
Definition lead (a : ascii) : bool := let n := N_of_ascii a in ((n <? 128) || (192 <=? n))%N.
Fixpoint no_lead (s : string) : bool := match s with EmptyString => true | String a t => negb (lead a) && no_lead t end.
Lemma ws_shape : forall w, In w ws_table -> exists a t, w = String a t /\ lead a = true /\ no_lead t = true.
Proof.
  intros w H. assert (forallb (fun w => match w with String a t => lead a && no_lead t | _ => false end) ws_table = true) as F by (vm_compute; reflexivity).
  rewrite forallb_forall in F. specialize (F w H). destruct w as [|a t]; [discriminate|]. apply andb_prop in F. exists a, t; intuition.
Qed.
Lemma no_lead_app : forall a b, no_lead (a ++ b) = no_lead a && no_lead b.
Proof. induction a; intros; cbn; [reflexivity | rewrite IHa, andb_assoc; reflexivity]. Qed.
Lemma clean_end : forall t b, t <> "" -> clean ws_table t -> chain ws_table b -> clean ws_table (t ++ b).
Proof.
  intros t b Ht C Cb w r Hw E. destruct (app_eq _ _ _ _ E) as [(x & A & B)|(x & A & B)]; [exact (C w x Hw A)|].
  destruct (ws_shape w Hw) as (a & s & -> & La & Ls). destruct t as [|a' t]; [contradiction|]. cbn in A. injection A as -> ->.
  rewrite no_lead_app in Ls. apply andb_prop in Ls. destruct Ls as (_ & Lx).
  destruct x as [|y x]; [cbn in B; subst b; apply (C (String a' (t ++ "")) ""); [assumption | rewrite !app_nil; reflexivity]|].
  destruct Cb; [discriminate|]. destruct (ws_shape w H) as (c & v & -> & Lc & _). cbn in B. injection B as <- _.
  cbn in Lx. rewrite Lc in Lx. discriminate.
Qed.
Lemma trimmed_unique : forall s t1 t2, trimmed s t1 -> trimmed s t2 -> t1 = t2.
Proof.
  assert (P1 : prefix_free ws_table = true) by (vm_compute; reflexivity).
  assert (P2 : prefix_free (map rev_string ws_table) = true) by (vm_compute; reflexivity).
  assert (K : forall s t, trimmed s t -> exists a b, s = a ++ t ++ b /\ chain ws_table a /\ chain ws_table b /\ clean ws_table t /\ clean (map rev_string ws_table) (rev_string t)).
  { intros s t (a & b & E & A & B & C & D). exists a, b. split; [exact E|]. split; [apply blank_chain; exact A|]. split; [apply blank_chain; exact B|].
    split; [intros w r Hw; apply C, white_table; exact Hw | apply clean_rev; intros w r Hw; apply D, white_table; exact Hw]. }
  assert (Nil : clean ws_table "").
  { intros w r Hw E. destruct (ws_shape w Hw) as (a & v & -> & _). discriminate. }
  assert (Half : forall a1 b1 a2 t2 b2, chain ws_table a1 -> chain ws_table b1 -> chain ws_table a2 -> chain ws_table b2 -> clean ws_table t2 ->
    a1 ++ b1 = a2 ++ t2 ++ b2 -> t2 = "").
  { intros a1 b1 a2 t2 b2 A1 B1 A2 B2 C E. destruct t2 as [|c t2]; [reflexivity|]. exfalso.
    destruct (chain_unique _ P1 (a1 ++ b1) (chain_app _ _ _ A1 B1) a2 "" (String c t2 ++ b2) A2) as (_ & X); [rewrite app_nil; exact E | exact Nil | |discriminate].
    apply clean_end; [discriminate | assumption | assumption]. }
  intros s t1 t2 H1 H2. destruct (K _ _ H1) as (a1 & b1 & E1 & A1 & B1 & C1 & D1). destruct (K _ _ H2) as (a2 & b2 & E2 & A2 & B2 & C2 & D2).
  rewrite E1 in E2.
  destruct t1 as [|c1 t1]; [symmetry; cbn in E2; eapply Half; [exact A1 | exact B1 | exact A2 | exact B2 | exact C2 | exact E2]|].
  destruct t2 as [|c2 t2]; [symmetry in E2; cbn in E2; eapply Half; [exact A2 | exact B2 | exact A1 | exact B1 | exact C1 | exact E2]|].
  destruct (chain_unique _ P1 a1 A1 a2 _ _ A2 E2) as (-> & E3); [apply clean_end; [discriminate | assumption | assumption]..|].
  apply (f_equal rev_string) in E3. rewrite !rev_app in E3.
  destruct (chain_unique _ P2 _ (chain_rev' _ _ B1) _ _ _ (chain_rev' _ _ B2) E3 D1 D2) as (_ & X).
  rewrite <- (rev_rev (String c1 t1)), X. apply rev_rev.
Qed.
Lemma trimmed_iff : forall s t, trimmed s t <-> trim s = t.
Proof. split; [intros; eapply trimmed_unique; [apply trim_trimmed | assumption] | intros <-; apply trim_trimmed]. Qed.

(** * Splitting *)
Lemma split_nonempty : forall c s, exists p ps, split_on c s = p :: ps.
Proof. induction s; cbn; [eauto|]. destruct (Ascii.eqb a c); [eauto|]. destruct IHs as (p & ps & ->). eauto. Qed.
Lemma split_spec : forall c s, s = String.concat (String c "") (split_on c s) /\ Forall (without c) (split_on c s).
Proof.
  induction s; cbn [split_on]; [split; [reflexivity | repeat constructor]|]. destruct IHs as (E & F).
  destruct (split_nonempty c s) as (p & ps & S). rewrite S in *. destruct (Ascii.eqb a c) eqn:A.
  - apply Ascii.eqb_eq in A; subst a. split; [|constructor; [exact I | assumption]]. cbn [String.concat append]. f_equal. exact E.
  - apply Ascii.eqb_neq in A. assert (F1 : without c p /\ Forall (without c) ps) by (inversion F; auto). destruct F1 as (F1 & F2).
    split; [|constructor; [split|]; assumption].
    destruct ps; cbn [String.concat] in E |- *; cbn [append]; f_equal; exact E.
Qed.
Lemma split_without : forall c a, without c a -> split_on c a = [a].
Proof. induction a; cbn; [reflexivity|]. intros (N & W). rewrite (proj2 (Ascii.eqb_neq _ _) N), (IHa W); reflexivity. Qed.
Lemma split_app : forall c a r, without c a -> split_on c (a ++ String c r) = a :: split_on c r.
Proof. induction a; cbn; intros r; [rewrite Ascii.eqb_refl; reflexivity|]. intros (N & W). rewrite (proj2 (Ascii.eqb_neq _ _) N), (IHa r W); reflexivity. Qed.
Lemma split_concat : forall c parts, parts <> [] -> Forall (without c) parts -> split_on c (String.concat (String c "") parts) = parts.
Proof.
  intros c; induction parts as [|p ps IH]; intros N F; [contradiction|]. inversion F; subst. destruct ps as [|q ps].
  - cbn [String.concat]. apply split_without; assumption.
  - change (String.concat (String c "") (p :: q :: ps)) with (p ++ String c (String.concat (String c "") (q :: ps))).
    rewrite split_app by assumption. f_equal. apply IH; [discriminate | assumption].
Qed.
Lemma separated_iff : forall parts s, separated parts s <-> split_on "," s = parts.
Proof.
  split.
  - intros (N & -> & F). apply split_concat; assumption.
  - intros <-. destruct (split_nonempty "," s) as (p & ps & E). destruct (split_spec "," s) as (A & B). split; [rewrite E; discriminate | auto].
Qed.
Lemma line_parts_iff : forall line name text, line_parts line name text <-> exists a b ps, split_on "=" line = a :: b :: ps /\ trim a = name /\ trim b = text.
Proof.
  split.
  - intros (a & b & rest & -> & Wa & Wb & R & Ta & Tb). apply trimmed_iff in Ta, Tb. cbn [append]. rewrite split_app by assumption.
    destruct R as [->|(r & ->)].
    + rewrite app_nil, split_without by assumption. eauto 6.
    + rewrite split_app by assumption. eauto 6.
  - intros (a & b & ps & S & Ta & Tb). destruct (split_spec "=" line) as (E & F). rewrite S in *.
    assert (Wa : without "=" a) by (inversion F; assumption). assert (Wb : without "=" b) by (inversion F as [|? ? ? G]; inversion G; assumption).
    clear F S. subst name text. exists a, b, (match ps with [] => "" | _ => String "=" (String.concat (String "=" "") ps) end).
    split. { rewrite E. destruct ps; cbn [String.concat]; [rewrite app_nil; reflexivity | reflexivity]. }
    split; [assumption|]. split; [assumption|]. split; [destruct ps; eauto|]. split; apply trim_trimmed.
Qed.

(** * Numerals *)
Lemma digit_spec : forall c d, digit c = Some d <-> (d < 10)%N /\ c = ascii_of_N (48 + d).
Proof.
  unfold digit; intros c d. pose proof (ascii_N_embedding c) as E. split.
  - destruct (_ && _) eqn:B; [|discriminate]. intros [= <-]. apply andb_prop in B. destruct B as (B1 & B2). apply N.leb_le in B1, B2.
    split; [lia|]. replace (48 + (N_of_ascii c - 48))%N with (N_of_ascii c) by lia. symmetry; exact E.
  - intros (L & ->). rewrite N_ascii_embedding by lia.
    replace ((48 <=? 48 + d) && (48 + d <=? 57))%N with true; [f_equal; lia|].
    symmetry; apply andb_true_intro; split; apply N.leb_le; lia.
Qed.
Lemma fold_ge : forall ds v, (v <= fold_left (fun v d => 10 * v + d) ds v)%N.
Proof. induction ds; intros; cbn; [lia|]. specialize (IHds (10 * v + a)%N). lia. Qed.
Lemma parse_digits_spec : forall max s acc n, (acc <= max)%N -> (parse_digits max acc s = Some n <->
  exists ds, digits ds s /\ n = fold_left (fun v d => (10 * v + d)%N) ds acc /\ (n <= max)%N).
Proof.
  intros max; induction s as [|c s IH]; intros acc n L; cbn [parse_digits].
  - split.
    + intros [= <-]. exists []. repeat split; [constructor | cbn; lia].
    + intros (ds & (F & E) & -> & _). destruct ds; [reflexivity | discriminate].
  - split.
    + destruct (digit c) as [d|] eqn:D; [|discriminate]. apply digit_spec in D. destruct D as (Ld & ->).
      destruct (acc * 10 + d <=? max)%N eqn:B; [|discriminate]. apply N.leb_le in B. rewrite IH by exact B.
      intros (ds & (F & E) & X & Y). exists (d :: ds). repeat split; [constructor; assumption | cbn; rewrite E; reflexivity | cbn; rewrite X; f_equal; lia | exact Y].
    + intros (ds & (F & E) & X & Y). destruct ds as [|d ds]; [discriminate|]. cbn in E. injection E as -> ->. inversion F; subst.
      rewrite (proj2 (digit_spec _ d)) by auto.
      assert (B : (acc * 10 + d <= max)%N). { cbn in Y. pose proof (fold_ge ds (10 * acc + d)%N). lia. }
      rewrite (proj2 (N.leb_le _ _) B). rewrite IH by exact B. exists ds. repeat split; [assumption | cbn; f_equal; lia | exact Y].
Qed.
Lemma parse_unsigned_spec : forall max s n, parse_unsigned max s = Some n <-> numeral (max + 1) s n.
Proof.
  intros max s n. unfold parse_unsigned, numeral.
  assert (K : forall t, (match t with EmptyString => None | _ => parse_digits max 0 t end = Some n <->
    exists ds, ds <> [] /\ digits ds t /\ n = decimal ds /\ (n < max + 1)%N)).
  { intros t. destruct t as [|c t].
    - split; [discriminate|]. intros (ds & Nd & (_ & E) & _). destruct ds; [contradiction | discriminate].
    - rewrite parse_digits_spec by lia. split.
      + intros (ds & D & E & L). exists ds. split; [intros ->; destruct D; discriminate|]. split; [exact D | split; [exact E | lia]].
      + intros (ds & _ & D & E & L). exists ds. split; [exact D | split; [exact E | lia]]. }
  assert (Plus : forall ds t, digits ds (String "+" t) -> False).
  { intros ds t (F & E). destruct ds as [|d ds]; [discriminate|]. cbn in E. injection E as E _. inversion F; subst.
    apply (f_equal N_of_ascii) in E. rewrite N_ascii_embedding in E by lia. cbn in E. lia. }
  destruct s as [|c s].
  - refine (iff_trans (K "") _). split; [intros (ds & A & B & C); exists ds, ""; tauto|]. intros (ds & t & A & B & [<-|C] & D); [exists ds; tauto | discriminate].
  - destruct (Ascii.eqb c "+") eqn:E.
    + apply Ascii.eqb_eq in E; subst c. refine (iff_trans (K s) _). split.
      * intros (ds & A & B & C). exists ds, s. tauto.
      * intros (ds & t & A & B & [<-|[= <-]] & D); [exfalso; eapply Plus; exact B | exists ds; tauto].
    + apply Ascii.eqb_neq in E. refine (iff_trans (K (String c s)) _). split.
      * intros (ds & A & B & C). exists ds, (String c s). tauto.
      * intros (ds & t & A & B & [<-|[= -> <-]] & D); [exists ds; tauto | contradiction].
Qed.
Lemma parse_all_spec : forall T (p : string -> option T) l xs, parse_all p l = Some xs <-> Forall2 (fun s x => exists t, trimmed s t /\ p t = Some x) l xs.
Proof.
  intros T p; induction l as [|s l IH]; intros xs; cbn [parse_all].
  - split; [intros [= <-]; constructor | intros H; inversion H; reflexivity].
  - split.
    + destruct (p (trim s)) as [x|] eqn:P; [|discriminate]. destruct (parse_all p l) as [ys|] eqn:A; [|discriminate]. intros [= <-].
      constructor; [exists (trim s); split; [apply trim_trimmed | exact P] | apply IH; reflexivity].
    + intros H; inversion H; subst. destruct H2 as (t & Ht & P). apply trimmed_iff in Ht. rewrite Ht, P. rewrite (proj2 (IH l')); [reflexivity | assumption].
Qed.
Lemma parse_vec_spec : forall T (p : string -> option T) s xs, parse_vec p s = Some xs <->
  (s = "" /\ xs = []) \/ (s <> "" /\ exists parts, separated parts s /\ Forall2 (fun s x => exists t, trimmed s t /\ p t = Some x) parts xs).
Proof.
  intros; unfold parse_vec. destruct (String.eqb s "") eqn:E.
  - apply String.eqb_eq in E; subst. split; [intros [= <-]; auto | intros [(_ & ->)|(N & _)]; [reflexivity | contradiction]].
  - apply String.eqb_neq in E. rewrite parse_all_spec. split.
    + intros F. right; split; [exact E|]. exists (split_on "," s). split; [apply separated_iff; reflexivity | exact F].
    + intros [(A & _)|(_ & parts & A & B)]; [contradiction|]. apply separated_iff in A. rewrite A; exact B.
Qed.

