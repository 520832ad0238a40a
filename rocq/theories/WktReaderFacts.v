From Verif Require Import Base BaseFacts Text GeomSpec GeomFacts VisitorModel VisitorSpec VisitorFacts WktSpec WktReaderModel WktGrammar.
Local Open Scope Z_scope.

(** ** Characters *)

Lemma is_space_blank c : is_space c = true <-> In c [32; 9; 10; 13]%N.
Proof. unfold is_space. cbn [In]. split; lia. Qed.
Lemma ends_word_sep c : ((c =? 0) || is_sep c)%N = true <-> ends_word c.
Proof. unfold is_sep, is_space, ends_word, chr_comma, chr_open, chr_close. cbn [In]. split; lia. Qed.
Lemma space_ends c : is_space c = true -> ends_word c.
Proof. unfold is_space, ends_word. cbn [In]. lia. Qed.

Definition no_space (r : bytes) : Prop := match r with c :: _ => is_space c = false | [] => True end.
Definition word_end (r : bytes) : Prop := match r with c :: _ => ends_word c | [] => True end.
Definition plain (t : bytes) : Prop := Forall (fun c => ~ ends_word c) t.

Lemma span_space l : exists b r, l = b ++ r /\ blank b /\ no_space r.
Proof.
  induction l as [|c l (b & r & -> & Hb & Hr)]; [exists [], []; repeat constructor|].
  destruct (is_space c) eqn:E.
  - exists (c :: b), r. split; [reflexivity|]. split; [|exact Hr]. constructor; [apply is_space_blank; exact E|exact Hb].
  - exists [], (c :: b ++ r). split; [reflexivity|]. split; [constructor|exact E].
Qed.
Lemma span_word l : exists t r, l = t ++ r /\ plain t /\ word_end r.
Proof.
  induction l as [|c l (t & r & -> & Ht & Hr)]; [exists [], []; repeat constructor|].
  destruct ((c =? 0) || is_sep c)%N eqn:E.
  - exists [], (c :: t ++ r). split; [reflexivity|]. split; [constructor|apply ends_word_sep; exact E].
  - exists (c :: t), r. split; [reflexivity|]. split; [|exact Hr]. constructor; [|exact Ht]. intros H. apply ends_word_sep in H. congruence.
Qed.

Lemma blank_app a b : blank (a ++ b) <-> blank a /\ blank b.
Proof. apply Forall_app. Qed.
Lemma blank_no_space b r : blank b -> no_space (b ++ r) -> b = [].
Proof.
  intros Hb H. destruct b as [|c b]; [reflexivity|]. inversion Hb as [|? ? Hc]; subst. cbn in H. apply is_space_blank in Hc. congruence.
Qed.
Lemma blank_word_end b r : blank b -> word_end r -> word_end (b ++ r).
Proof.
  intros Hb H. destruct b as [|c b]; [exact H|]. inversion Hb as [|? ? Hc]; subst. apply is_space_blank in Hc. cbn. apply space_ends; exact Hc.
Qed.
Lemma plain_no_space t r : plain t -> t <> [] -> no_space (t ++ r).
Proof.
  intros H Hn. destruct t as [|c t]; [congruence|]. inversion H as [|? ? Hc]; subst. cbn.
  destruct (is_space c) eqn:E; [|reflexivity]. exfalso. apply Hc, space_ends, E.
Qed.

(** ** Positions *)

Definition good (s : rst) : Prop := r_size s = Z.of_nat (length (r_rest s)).
(** The state after consuming [t], with [r] remaining. *)
Definition past (s : rst) (t r : bytes) : rst := rmove s (rev t ++ r_before s) r (Z.of_nat (length r)).

Lemma past_good s t r : good (past s t r).
Proof. reflexivity. Qed.
Lemma past_past s t r u r' : past (past s t r) u r' = past s (t ++ u) r'.
Proof. unfold past. cbn. rewrite rev_app_distr, <- app_assoc. reflexivity. Qed.
Lemma past_rest s t r : r_rest (past s t r) = r.
Proof. reflexivity. Qed.
Lemma past_before s t r : r_before (past s t r) = rev t ++ r_before s.
Proof. reflexivity. Qed.
Lemma past_nil s : good s -> past s [] (r_rest s) = s.
Proof. intros H. unfold good in H. unfold past, rmove. destruct s; cbn in *. rewrite H. reflexivity. Qed.
Lemma past_nvals s t r : r_nvals (past s t r) = r_nvals s.
Proof. reflexivity. Qed.
Lemma past_cache s t r : r_cache (past s t r) = r_cache s.
Proof. reflexivity. Qed.

(** ** Elementary readers *)

Lemma radvance_ok s t r : good s -> r_rest s = t ++ r -> radvance s (length t) = Ok (past s t r).
Proof.
  intros Hg Hr. unfold radvance, past, good in *. rewrite Hr in *. rewrite app_length. destruct (Nat.leb_spec (length t) (length t + length r)); [|lia].
  rewrite firstn_app, firstn_all, skipn_app, skipn_all, Nat.sub_diag. cbn [firstn skipn app]. rewrite app_nil_r.
  f_equal. f_equal. rewrite Hg, app_length. lia.
Qed.

Lemma skip_space_from_ok s b : forall before r, blank b -> no_space r ->
  skip_space_from s before (b ++ r) (Z.of_nat (length (b ++ r))) = Ok (rmove s (rev b ++ before) r (Z.of_nat (length r))).
Proof.
  induction b as [|c b IH]; intros before r Hb Hr.
  - cbn [app rev]. destruct r as [|c r]; [reflexivity|]. cbn [skip_space_from length].
    destruct (Z.ltb_spec 0 (Z.of_nat (S (length r)))); [|lia]. cbn in Hr. rewrite Hr. reflexivity.
  - inversion Hb as [|? ? Hc Hb']; subst. apply is_space_blank in Hc. cbn [app length skip_space_from].
    destruct (Z.ltb_spec 0 (Z.of_nat (S (length (b ++ r))))); [|lia]. rewrite Hc.
    replace (Z.of_nat (S (length (b ++ r))) - 1) with (Z.of_nat (length (b ++ r))) by lia. rewrite IH by assumption.
    cbn [rev]. rewrite <- app_assoc. reflexivity.
Qed.
Lemma skip_space_ok s b r : good s -> r_rest s = b ++ r -> blank b -> no_space r -> skip_space s = Ok (past s b r).
Proof. intros Hg Hr Hb Hn. unfold skip_space. rewrite Hg, Hr. apply skip_space_from_ok; assumption. Qed.
Lemma skip_space_any s : good s -> exists b r, r_rest s = b ++ r /\ blank b /\ no_space r /\ skip_space s = Ok (past s b r).
Proof.
  intros Hg. destruct (span_space (r_rest s)) as (b & r & E & Hb & Hr). exists b, r. repeat split; try assumption. apply skip_space_ok; assumption.
Qed.

Lemma until_sep_ok t : forall r, plain t -> word_end r -> until_sep (t ++ r) (Z.of_nat (length (t ++ r))) = Ok (length t).
Proof.
  induction t as [|c t IH]; intros r Ht Hr.
  - cbn [app]. destruct r as [|c r]; [reflexivity|]. cbn [until_sep length].
    destruct (Z.ltb_spec 0 (Z.of_nat (S (length r)))); [|lia]. cbn in Hr. apply ends_word_sep in Hr. rewrite Hr. reflexivity.
  - inversion Ht as [|? ? Hc Ht']; subst. cbn [app length until_sep]. destruct (Z.ltb_spec 0 (Z.of_nat (S (length (t ++ r))))); [|lia].
    destruct ((c =? 0) || is_sep c)%N eqn:E; [exfalso; apply Hc, ends_word_sep, E|].
    replace (Z.of_nat (S (length (t ++ r))) - 1) with (Z.of_nat (length (t ++ r))) by lia. rewrite IH by assumption. reflexivity.
Qed.
Lemma until_sep_max t : forall m r, plain t -> word_end r -> (m <= length (t ++ r))%nat ->
  until_sep (t ++ r) (Z.of_nat m) = Ok (Nat.min m (length t)).
Proof.
  induction t as [|c t IH]; intros m r Ht Hr Hm.
  - cbn [app length]. rewrite Nat.min_0_r. destruct r as [|c r]; [cbn in Hm; replace m with O by lia; reflexivity|]. cbn [until_sep].
    destruct (0 <? Z.of_nat m); [|reflexivity]. cbn in Hr. apply ends_word_sep in Hr. rewrite Hr. reflexivity.
  - inversion Ht as [|? ? Hc Ht']; subst. cbn [app length until_sep] in *. destruct (Z.ltb_spec 0 (Z.of_nat m)); [|replace m with O by lia; reflexivity].
    destruct ((c =? 0) || is_sep c)%N eqn:E; [exfalso; apply Hc, ends_word_sep, E|].
    replace (Z.of_nat m - 1) with (Z.of_nat (m - 1)) by lia. rewrite IH by (assumption || lia). cbn [obind]. f_equal. lia.
Qed.

Lemma peek_word_max s t r m : good s -> r_rest s = t ++ r -> plain t -> word_end r -> peek_word s (Z.of_nat m) = Ok (firstn m t).
Proof.
  intros Hg Hr Ht He. unfold peek_word. rewrite Hg, Hr.
  set (k := if Z.of_nat m <? Z.of_nat (length (t ++ r)) then Z.of_nat m else Z.of_nat (length (t ++ r))).
  assert (k = Z.of_nat (Nat.min m (length (t ++ r)))) as -> by (unfold k; destruct (Z.ltb_spec (Z.of_nat m) (Z.of_nat (length (t ++ r)))); lia).
  rewrite until_sep_max by (assumption || lia). cbn [obind]. f_equal. rewrite app_length.
  replace (Nat.min (Nat.min m (length t + length r)) (length t)) with (Nat.min m (length t)) by lia.
  rewrite firstn_app. replace (Nat.min m (length t) - length t)%nat with O by lia. cbn [firstn]. rewrite app_nil_r.
  destruct (Nat.le_ge_cases m (length t)); [rewrite Nat.min_l by lia; reflexivity|].
  rewrite Nat.min_r by lia. rewrite !firstn_all2 by lia. reflexivity.
Qed.
Lemma peek_word_any s m : good s -> exists t r, r_rest s = t ++ r /\ plain t /\ word_end r /\ peek_word s (Z.of_nat m) = Ok (firstn m t).
Proof.
  intros Hg. destruct (span_word (r_rest s)) as (t & r & E & Ht & Hr). exists t, r. repeat split; try assumption. eapply peek_word_max; eassumption.
Qed.
Lemma firstn_short {A} m (t w : list A) : firstn m t = w -> (length w < m)%nat -> t = w.
Proof.
  intros <- H. rewrite firstn_length in H. rewrite firstn_all2 by lia. reflexivity.
Qed.

Lemma peek_ok s : good s -> peek s = Ok (hd 0%N (r_rest s)).
Proof.
  intros Hg. unfold peek. rewrite Hg. destruct (r_rest s) as [|c r]; [reflexivity|]. cbn [length hd].
  destruct (Z.ltb_spec 0 (Z.of_nat (S (length r)))); [reflexivity|lia].
Qed.

Lemma assert_char_ok s c r : good s -> r_rest s = c :: r -> assert_char s c = Ok (past s [c] r).
Proof.
  intros Hg Hr. unfold assert_char. rewrite Hg, Hr. cbn [length]. destruct (Z.ltb_spec 0 (Z.of_nat (S (length r)))); [|lia].
  cbn [obind]. rewrite N.eqb_refl. apply (radvance_ok s [c] r); assumption.
Qed.
Lemma assert_char_any s c : good s ->
  (exists r, r_rest s = c :: r /\ assert_char s c = Ok (past s [c] r)) \/ (hd_error (r_rest s) <> Some c /\ assert_char s c = Err EINVAL).
Proof.
  intros Hg. destruct (r_rest s) as [|x r] eqn:E.
  - right. split; [discriminate|]. unfold assert_char. rewrite Hg, E. reflexivity.
  - destruct (N.eq_dec x c) as [->|Hx].
    + left. exists r. split; [reflexivity|]. apply assert_char_ok; assumption.
    + right. split; [cbn; congruence|]. unfold assert_char. rewrite Hg, E. cbn [length].
      destruct (Z.ltb_spec 0 (Z.of_nat (S (length r)))); [|lia]. cbn [obind]. destruct (N.eqb_spec x c); [contradiction|reflexivity].
Qed.

Lemma assert_space_ok s b r : good s -> r_rest s = b ++ r -> blank b -> b <> [] -> no_space r -> assert_space s = Ok (past s b r).
Proof.
  intros Hg Hr Hb Hn Hs. unfold assert_space. rewrite <- (skip_space_ok s b r Hg Hr Hb Hs). rewrite Hg, Hr.
  destruct b as [|c b]; [congruence|]. inversion Hb as [|? ? Hc]; subst. apply is_space_blank in Hc. cbn [app length].
  destruct (Z.ltb_spec 0 (Z.of_nat (S (length (b ++ r))))); [|lia]. cbn [obind]. rewrite Hc. reflexivity.
Qed.
Lemma assert_space_any s : good s ->
  (exists b r, r_rest s = b ++ r /\ blank b /\ b <> [] /\ no_space r /\ assert_space s = Ok (past s b r)) \/ assert_space s = Err EINVAL.
Proof.
  intros Hg. destruct (span_space (r_rest s)) as (b & r & E & Hb & Hr). destruct b as [|c b].
  - right. unfold assert_space. rewrite Hg, E. cbn [app]. destruct r as [|c r]; [reflexivity|]. cbn [length].
    destruct (Z.ltb_spec 0 (Z.of_nat (S (length r)))); [|lia]. cbn [obind]. cbn in Hr. rewrite Hr. reflexivity.
  - left. exists (c :: b), r. repeat split; try assumption; [discriminate|]. apply assert_space_ok; try assumption. discriminate.
Qed.

Lemma word_is_true w v : word_is w v = true <-> w = v.
Proof. unfold word_is. destruct (list_eq_dec N.eq_dec w v); split; congruence. Qed.

Lemma plain_words t : forallb (fun c => negb ((c =? 0) || is_sep c)%N) t = true -> plain t.
Proof.
  rewrite forallb_forall. intros H. apply Forall_forall. intros c Hc E. specialize (H c Hc). apply ends_word_sep in E. rewrite E in H. discriminate.
Qed.
Lemma plain_empty : plain $"EMPTY".
Proof. apply plain_words. reflexivity. Qed.

Lemma assert_empty_ok s r : good s -> r_rest s = $"EMPTY" ++ r -> word_end r -> assert_empty s = Ok (past s $"EMPTY" r).
Proof.
  intros Hg Hr He. unfold assert_empty. change 6 with (Z.of_nat 6). rewrite (peek_word_max s $"EMPTY" r 6 Hg Hr plain_empty He).
  cbn [obind]. change (firstn 6 $"EMPTY") with $"EMPTY". rewrite (proj2 (word_is_true _ _) eq_refl).
  apply (radvance_ok s $"EMPTY" r); assumption.
Qed.
Lemma assert_empty_any s : good s ->
  (exists r, r_rest s = $"EMPTY" ++ r /\ word_end r /\ assert_empty s = Ok (past s $"EMPTY" r)) \/ assert_empty s = Err EINVAL.
Proof.
  intros Hg. destruct (peek_word_any s 6 Hg) as (t & r & E & Ht & Hr & P). destruct (word_is (firstn 6 t) $"EMPTY") eqn:W.
  - left. apply word_is_true in W. apply firstn_short in W; [|change (length $"EMPTY") with 5%nat; lia]. subst t. exists r. repeat split; try assumption. apply assert_empty_ok; assumption.
  - right. unfold assert_empty. change 6 with (Z.of_nat 6). rewrite P. cbn [obind]. rewrite W. reflexivity.
Qed.

Section Parser.
Variable parse : bytes -> option N.

Lemma read_ordinate_ok s w t r : good s -> r_rest s = t ++ r -> numeral parse w t -> word_end r ->
  read_ordinate parse s = Ok (w, past s t r).
Proof.
  intros Hg Hr [Hp Ht] He. unfold read_ordinate. rewrite Hg, Hr, (until_sep_ok t r Ht He). cbn [obind].
  rewrite (radvance_ok s t r Hg Hr). cbn [obind]. rewrite firstn_app, firstn_all, Nat.sub_diag. cbn [firstn]. rewrite app_nil_r, Hp. reflexivity.
Qed.
Lemma read_ordinate_any s : good s ->
  (exists w t r, r_rest s = t ++ r /\ numeral parse w t /\ word_end r /\ read_ordinate parse s = Ok (w, past s t r)) \/
  read_ordinate parse s = Err EINVAL.
Proof.
  intros Hg. destruct (span_word (r_rest s)) as (t & r & E & Ht & Hr). destruct (parse t) as [w|] eqn:P.
  - left. exists w, t, r. repeat split; try assumption. apply read_ordinate_ok; try assumption. split; assumption.
  - right. unfold read_ordinate. rewrite Hg, E, (until_sep_ok t r Ht Hr). cbn [obind]. rewrite (radvance_ok s t r Hg E). cbn [obind].
    rewrite firstn_app, firstn_all, Nat.sub_diag. cbn [firstn]. rewrite app_nil_r, P. reflexivity.
Qed.

Hypothesis number : number_parser parse.

Lemma numeral_solid w t r : numeral parse w t -> no_space (t ++ r) /\ t <> [] /\ hd 0%N (t ++ r) <> 69%N.
Proof.
  intros [Hp Ht]. assert (t <> []) as Hn by (intros ->; rewrite (proj1 number) in Hp; discriminate).
  split; [apply plain_no_space; assumption|]. split; [exact Hn|]. destruct t as [|c t]; [congruence|]. cbn. intros ->.
  rewrite (proj2 number) in Hp. discriminate.
Qed.
Lemma ordinates_solid c t r : ordinates_text parse c t -> no_space (t ++ r) /\ t <> [] /\ hd 0%N (t ++ r) <> 69%N /\ hd 0%N (t ++ r) <> 40%N.
Proof.
  assert (forall w t r, numeral parse w t -> hd 0%N (t ++ r) <> 40%N) as H40.
  { intros w u r' [Hp Hu]. assert (u <> []) as Hn by (intros ->; rewrite (proj1 number) in Hp; discriminate).
    destruct u as [|x u]; [congruence|]. inversion Hu as [|? ? Hx]; subst. cbn. intros ->. apply Hx. unfold ends_word. cbn. lia. }
  intros H. destruct c as [|w [|w' c]]; [contradiction| |]; cbn [ordinates_text] in H.
  - destruct (numeral_solid w t r H) as (A & B & C). repeat split; try assumption. eapply H40; eassumption.
  - destruct H as (t1 & b & u & Hn & Hb & Hne & Hu & ->). rewrite <- app_assoc.
    destruct (numeral_solid w t1 ((b ++ u) ++ r) Hn) as (A & B & C).
    repeat split; try assumption; [|eapply H40; eassumption]. intros E. apply app_eq_nil in E as [E _]. congruence.
Qed.

(** [k] ordinates, each after whitespace. *)
Fixpoint tail_ordinates (ws : list N) (t : bytes) : Prop :=
  match ws with
  | [] => t = []
  | w :: r => exists b t1 u, blank b /\ b <> [] /\ numeral parse w t1 /\ tail_ordinates r u /\ t = b ++ t1 ++ u
  end.
Lemma tail_ordinates_text w ws t1 t : numeral parse w t1 -> tail_ordinates ws t <-> numeral parse w t1 /\ tail_ordinates ws t.
Proof. tauto. Qed.
Lemma ordinates_split w ws t : ordinates_text parse (w :: ws) t <-> exists t1 u, numeral parse w t1 /\ tail_ordinates ws u /\ t = t1 ++ u.
Proof.
  revert w t; induction ws as [|w' ws IH]; intros w t.
  - cbn. split; [intros H; exists t, []; rewrite app_nil_r; auto|]. intros (t1 & u & H & -> & ->). rewrite app_nil_r. exact H.
  - change (ordinates_text parse (w :: w' :: ws) t) with
      (exists t1 b u, numeral parse w t1 /\ blank b /\ b <> [] /\ ordinates_text parse (w' :: ws) u /\ t = t1 ++ b ++ u).
    split.
    + intros (t1 & b & u & Hn & Hb & Hne & Hu & ->). apply IH in Hu as (t2 & u2 & Hn2 & Ht2 & ->). exists t1, (b ++ t2 ++ u2).
      split; [exact Hn|]. split; [|reflexivity]. cbn. exists b, t2, u2. auto.
    + intros (t1 & u & Hn & (b & t2 & u2 & Hb & Hne & Hn2 & Ht2 & ->) & ->). exists t1, b, (t2 ++ u2).
      repeat (split; [assumption|]). split; [|reflexivity]. apply IH. eauto.
Qed.
Lemma tail_word_end ws t r : tail_ordinates ws t -> word_end r -> word_end (t ++ r).
Proof.
  intros H Hr. destruct ws as [|w ws]; cbn in H; [subst; exact Hr|]. destruct H as (b & t1 & u & Hb & Hne & _ & _ & ->).
  destruct b as [|c b]; [congruence|]. inversion Hb as [|? ? Hc]; subst. cbn. apply space_ends, is_space_blank, Hc.
Qed.

Lemma read_ordinates_ok ws : forall s t r, good s -> r_rest s = t ++ r -> tail_ordinates ws t -> word_end r ->
  read_ordinates parse (length ws) s = Ok (ws, past s t r).
Proof.
  induction ws as [|w ws IH]; intros s t r Hg Hr Ht He; cbn [length read_ordinates].
  - cbn in Ht. subst t. cbn [app] in Hr. rewrite <- Hr, past_nil by exact Hg. reflexivity.
  - destruct Ht as (b & t1 & u & Hb & Hne & Hn & Hu & ->). rewrite <- !app_assoc in Hr.
    rewrite (assert_space_ok s b (t1 ++ u ++ r) Hg Hr Hb Hne) by (apply (numeral_solid w); exact Hn). cbn [obind].
    rewrite (read_ordinate_ok _ w t1 (u ++ r) (past_good _ _ _) (past_rest _ _ _) Hn) by (eapply tail_word_end; eassumption). cbn [obind].
    rewrite past_past. rewrite (IH _ u r (past_good _ _ _) (past_rest _ _ _) Hu He). cbn [obind]. rewrite past_past, <- app_assoc. reflexivity.
Qed.
Lemma read_ordinates_any k : forall s, good s ->
  (exists ws t r, length ws = k /\ r_rest s = t ++ r /\ tail_ordinates ws t /\ (word_end (r_rest s) -> word_end r) /\
     read_ordinates parse k s = Ok (ws, past s t r)) \/
  read_ordinates parse k s = Err EINVAL.
Proof.
  induction k as [|k IH]; intros s Hg; cbn [read_ordinates].
  - left. exists [], [], (r_rest s). rewrite past_nil by exact Hg. cbn. auto.
  - destruct (assert_space_any s Hg) as [(b & r1 & E1 & Hb & Hne & Hs & ->)| ->]; [|right; reflexivity]. cbn [obind].
    destruct (read_ordinate_any (past s b r1) (past_good _ _ _)) as [(w & t1 & r2 & E2 & Hn & He & ->)| ->]; [|right; reflexivity].
    rewrite past_rest in E2. cbn [obind]. rewrite past_past.
    destruct (IH (past s (b ++ t1) r2) (past_good _ _ _)) as [(ws & u & r3 & L & E3 & Hu & Hw & ->)| ->]; [|right; reflexivity].
    rewrite past_rest in E3, Hw. cbn [obind]. rewrite past_past. left. exists (w :: ws), ((b ++ t1) ++ u), r3.
    split; [cbn; lia|]. split; [rewrite E1, E2, E3, <- !app_assoc; reflexivity|]. split; [|split; [auto|reflexivity]].
    cbn. exists b, t1, u. rewrite <- app_assoc. auto.
Qed.
End Parser.
