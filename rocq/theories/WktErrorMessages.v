From Verif Require Import Base BaseFacts Text GeomSpec VisitorModel VisitorSpec VisitorFacts WktSpec WktReaderModel WktGrammar WktReaderFacts WktReaderGeoms WktErrorModel WktErrorSpec WktErrorProofs WktErrorTagged WktErrorVisit WktErrorLink.
Local Open Scope N_scope.

(** ** Decimal numerals *)

Lemma digits_from_ok f : forall n after, n < 2 ^ N.of_nat (S f) -> exists ds, digits_from (S f) n after = ds ++ after /\ decimal_of n ds /\ (length ds <= S f)%nat.
Proof.
  induction f as [|f IH]; intros n after Hn.
  - assert (n < 10) as H by (change (2 ^ N.of_nat 1) with 2 in Hn; lia). cbn [digits_from]. destruct (N.ltb_spec n 10); [|lia]. rewrite N.mod_small by lia.
    exists [48 + n]. split; [reflexivity|]. split; [|cbn; lia]. split; [discriminate|]. split; [constructor; [lia|constructor]|]. split; [cbn [fold_left]; lia|cbn [hd]; intros E; rewrite E; reflexivity].
  - remember (S f) as g eqn:Eg. cbn [digits_from]. destruct (N.ltb_spec n 10) as [H|H].
    + rewrite N.mod_small by lia. exists [48 + n]. split; [reflexivity|]. split; [|cbn; lia]. split; [discriminate|]. split; [constructor; [lia|constructor]|]. split; [cbn [fold_left]; lia|cbn [hd]; intros E; rewrite E; reflexivity].
    + assert (n / 10 < 2 ^ N.of_nat g) as Hq.
      { apply N.div_lt_upper_bound; [lia|]. replace (N.of_nat (S g)) with (N.succ (N.of_nat g)) in Hn by lia. rewrite N.pow_succ_r' in Hn. lia. }
      assert (1 <= n / 10) as Hq1 by (apply N.div_le_lower_bound; lia). assert (n mod 10 < 10) as Hm by (apply N.mod_lt; lia). pose proof (N.div_mod n 10 ltac:(lia)) as Hdm.
      subst g. destruct (IH (n / 10) ((48 + n mod 10) :: after) Hq) as (ds & -> & (D1 & D2 & D3 & D4) & Hl). exists (ds ++ [48 + n mod 10]). split; [rewrite <- app_assoc; reflexivity|].
      split; [|rewrite app_length; cbn [length]; lia]. split; [destruct ds; discriminate|]. split; [apply Forall_app; split; [exact D2|constructor; [lia|constructor]]|]. split.
      * rewrite fold_left_app. cbn [fold_left]. rewrite D3. lia.
      * destruct ds as [|x ds]; [congruence|]. cbn [app hd] in *. intros E. specialize (D4 E). injection D4 as -> ->. cbn [fold_left] in D3. lia.
Qed.
Lemma print_ld_ok n : decimal_of n (print_ld n) /\ (length (print_ld n) <= S (N.to_nat (N.log2 n)))%nat.
Proof.
  unfold print_ld. destruct (digits_from_ok (N.to_nat (N.log2 n)) n []) as (ds & -> & Hd & Hl).
  - replace (N.of_nat (S (N.to_nat (N.log2 n)))) with (N.succ (N.log2 n)) by lia. destruct (N.eq_dec n 0) as [->|H]; [reflexivity|]. apply N.log2_spec. lia.
  - rewrite app_nil_r. auto.
Qed.
Lemma decimal_no_nul n t : decimal_of n t -> ~ In 0 t.
Proof. intros (_ & H & _) Hi. rewrite Forall_forall in H. specialize (H 0 Hi). lia. Qed.

(** ** Messages *)

Lemma error_set_fits text : ~ In 0 text -> (length text < 1024)%nat -> error_set text = (0%Z, snd (error_set text)) /\ is_c_string (snd (error_set text)) text.
Proof.
  intros Hn Hl. unfold error_set. cbn [snd]. destruct (Nat.leb_spec 1024 (length text)); [lia|]. split; [reflexivity|]. split; [exact Hn|].
  rewrite firstn_all2 by lia. destruct (1024 - length text)%nat as [|k] eqn:E; [lia|]. exists (repeat 0 k). reflexivity.
Qed.
Lemma error_set_ok text : ~ In 0 text ->
  length (snd (error_set text)) = 1024%nat /\ is_c_string (snd (error_set text)) (firstn 1023 text) /\ fst (error_set text) = (if (1023 <? length text)%nat then 34 else 0)%Z.
Proof.
  intros Hn. unfold error_set. cbn [fst snd]. rewrite app_length, repeat_length. pose proof (firstn_length 1023 text) as Hf. split; [lia|]. split.
  - split; [intros H; apply Hn; rewrite <- (firstn_skipn 1023 text); apply in_or_app; left; exact H|].
    destruct (1024 - length (firstn 1023 text))%nat as [|k] eqn:E; [lia|]. exists (repeat 0 k). reflexivity.
  - destruct (Nat.leb_spec 1024 (length text)), (Nat.ltb_spec 1023 (length text)); (reflexivity || lia).
Qed.
Lemma expectable_stands parse what t : stands parse what t -> In what expectable.
Proof. unfold expectable. intros H. destruct H; cbn [In]; auto 12. Qed.
Lemma expectable_ok what : In what expectable -> ~ In 0 what /\ (length what <= 20)%nat.
Proof.
  unfold expectable. cbn [In]. intros H. repeat destruct H as [<-|H]; try (split; [intros Z; cbn in Z; repeat destruct Z as [Z|Z]; try discriminate Z; exact Z|vm_compute; lia]). destruct H.
Qed.

Section Parser.
Variable parse : bytes -> option N.
Hypothesis no_word : parse [] = None.
Hypothesis zero : parse $"0" <> None.

Lemma message_string what p : In what expectable -> (Z.of_nat p < 2 ^ 63)%Z -> is_c_string (snd (error_set (expected_at what p))) (expected_at what p).
Proof.
  intros Hw Hp. destruct (expectable_ok what Hw) as [Hn Hl]. destruct (print_ld_ok (N.of_nat p)) as [Hd Hdl]. apply error_set_fits.
  - unfold expected_at. rewrite !in_app_iff. intros [H|[H|[H|H]]]; [cbn in H; repeat destruct H as [H|H]; try discriminate H; exact H|exact (Hn H)|cbn in H; repeat destruct H as [H|H]; try discriminate H; exact H|].
    exact (decimal_no_nul _ _ Hd H).
  - unfold expected_at. rewrite !app_length. change (length $"Expected ") with 9%nat. change (length $" at byte ") with 9%nat.
    assert (N.log2 (N.of_nat p) <= 63) by (change 63 with (N.log2 (2 ^ 63)); apply N.log2_le_mono; change (2 ^ 63) with 9223372036854775808; change (2 ^ 63)%Z with 9223372036854775808%Z in Hp; lia). lia.
Qed.

Lemma message_bad before src u what r : src = u ++ r -> e_visit parse src = Bad what r -> wkt_message parse before src = snd (error_set (expected_at what (length u))).
Proof. intros -> E. unfold wkt_message. rewrite E. rewrite app_length. replace (length u + length r - length r)%nat with (length u) by lia. reflexivity. Qed.
Lemma message_quiet s0 before src : snd (trace (wkt_visit parse s0 src)) = Ok tt -> wkt_message parse before src = before.
Proof. intros H. apply visit_ok in H. destruct H as [q E]. unfold wkt_message. rewrite E. reflexivity. Qed.

Lemma firstn_exact {A} (a b : list A) : firstn (length a) (a ++ b) = a.
Proof. rewrite firstn_app, firstn_all, Nat.sub_diag. cbn [firstn]. apply app_nil_r. Qed.
Theorem message_ok s0 before src : (Z.of_nat (length src) < 2 ^ 63)%Z -> snd (trace (wkt_visit parse s0 src)) = Err EINVAL ->
  exists what p digits, is_c_string (wkt_message parse before src) ($"Expected " ++ what ++ $" at byte " ++ digits) /\ decimal_of (N.of_nat p) digits /\
    (p <= length src)%nat /\ ~ stands parse what (skipn p src) /\
    (exists c, stands parse what c /\ forall s1, snd (trace (wkt_visit parse s1 (firstn p src ++ c))) = Ok tt) /\
    (what <> $"'('" -> forall s1 before' src', firstn p src' = firstn p src -> same_start (skipn p src) (skipn p src') ->
       snd (trace (wkt_visit parse s1 src')) = Err EINVAL /\ wkt_message parse before' src' = wkt_message parse before src).
Proof.
  intros Hlen H. apply visit_bad in H. destruct H as (what & r & E). destruct (visit_errs parse no_word zero src what r E) as (u & Es & Hn & D & c & q & Hc & Eq).
  pose proof (expectable_stands _ _ _ Hc) as He. pose proof (message_bad before src u what r Es E) as M. exists what, (length u), (print_ld (N.of_nat (length u))).
  assert (length u <= length src)%nat as Hu by (rewrite Es, app_length; lia). rewrite M. split; [apply message_string; [exact He|lia]|]. split; [apply print_ld_ok|]. split; [exact Hu|].
  rewrite Es. rewrite skipn_exact, firstn_exact. split; [exact Hn|]. split.
  - exists c. split; [exact Hc|]. intros s1. apply visit_ok. eauto.
  - intros Hw s1 before' src' Hf Hs.
    assert (src' = u ++ skipn (length u) src') as Es' by (rewrite <- Hf at 1; symmetry; apply firstn_skipn). specialize (D Hw _ Hs). rewrite <- Es' in D.
    split; [apply visit_bad; eauto|]. exact (message_bad before' src' u what _ Es' D).
Qed.
End Parser.
