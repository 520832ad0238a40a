(** * Numbers, words and other texts *)
From Verif Require Import Base BaseFacts Text FloatSpec RyuSpec RyuDouble RyuReads WktGrammar FastFloatModel FastFloatSpec FastFloatRound FastFloatDigits FastFloatNumbers FastFloatReads FastFloatWords.
Local Open Scope Z_scope.

Lemma reads_number to_nearest mul t text rest negative m e : to_nearest = true \/ exact_products mul -> Forall (fun c => (c < 256)%N) t -> Z.of_nat (length t) < 2 ^ 27 ->
  longest_number t text rest negative m e ->
  match from_chars to_nearest mul t with
  | Ok (f, r) => r = rest /\ rounded negative m e f /\ (unsigned f = 0 -> m = 0)
  | Err c => c = EINVAL /\ (too_large m e \/ too_small m e)
  | _ => False
  end.
Proof.
  intros Hmode Hb Hlen Hl. destruct (longest_parts t text rest negative m e Hl) as (ints & point & frac & expo & x & Et & -> & -> & Hi & Hf & Hne & Hp & He & H1 & H2 & H3).
  rewrite Et in Hb, Hlen |- *. exact (read_parts to_nearest mul negative ints point frac expo x rest Hmode Hb Hlen Hi Hf Hne Hp He H1 H2 H3).
Qed.

Lemma no_number_none t : Forall (fun c => (c < 256)%N) t -> no_number t -> parse_number_string t = None.
Proof.
  intros Hb Hno. destruct (parts_or_none t Hb) as [(negative & ints & point & frac & expo & x & rest & Et & Hi & Hf & Hne & Hp & He & _)|H]; [exfalso|exact H].
  apply (Hno (minus negative ++ ints ++ point ++ frac ++ expo) rest negative (digits_value (ints ++ frac)) (x - Z.of_nat (length frac))).
  - rewrite Et, <- !app_assoc. reflexivity.
  - apply a_number; try assumption. destruct Hp as [->|(H1 & H2 & _)]; [left; reflexivity|right; split; assumption].
Qed.

Lemma reads_word to_nearest mul t : Forall (fun c => (c < 256)%N) t -> no_number t ->
  match from_chars to_nearest mul t with
  | Ok (f, r) => exists text negative bits, longest_word t text r negative bits /\ f = (bits + if (negative : bool) then 2 ^ 63 else 0)%N
  | Err c => c = EINVAL /\ no_word t
  | _ => False
  end.
Proof.
  intros Hb Hno. unfold from_chars. rewrite (no_number_none t Hb Hno). pose proof (infnan_ok t) as H. destruct t; [|exact H]. exact H.
Qed.

Lemma reads_anything to_nearest mul t : to_nearest = true \/ exact_products mul -> Forall (fun c => (c < 256)%N) t -> Z.of_nat (length t) < 2 ^ 27 ->
  (exists f r, from_chars to_nearest mul t = Ok (f, r) /\ exists text, t = text ++ r /\ text <> []) \/ from_chars to_nearest mul t = Err EINVAL.
Proof.
  intros Hmode Hb Hlen. destruct (parts_or_none t Hb) as [(negative & ints & point & frac & expo & x & rest & Et & Hi & Hf & Hne & Hp & He & H1 & H2 & H3)|H].
  - rewrite Et in Hb, Hlen |- *. pose proof (read_parts to_nearest mul negative ints point frac expo x rest Hmode Hb Hlen Hi Hf Hne Hp He H1 H2 H3) as R.
    destruct (from_chars _ _ _) as [[f r]|c| |]; try destruct R; [|right; congruence]. left. subst r. exists f, rest. split; [reflexivity|].
    exists (minus negative ++ ints ++ point ++ frac ++ expo). rewrite <- !app_assoc. split; [reflexivity|]. intros C. apply app_eq_nil in C as [_ C]. apply app_eq_nil in C as [C1 C].
    apply app_eq_nil in C as [_ C]. apply app_eq_nil in C as [C2 _]. subst. apply Hne. reflexivity.
  - unfold from_chars. rewrite H. pose proof (infnan_ok t) as R.
    destruct t as [|c0 t0]; [right; reflexivity|]. destruct (parse_infnan _) as [[f r]|c| |]; try destruct R; [|right; congruence].
    destruct H0 as (negative & bits & (E & W & _) & _). left. exists f, r. split; [reflexivity|]. exists x. split; [exact E|]. intros ->. apply word_body in W. destruct W as (u & E' & B).
    destruct (body_start u bits B) as (c & q & -> & _). destruct negative; discriminate.
Qed.

(** ** Parsing what has been printed *)

Lemma not_too_large n m e : finite n -> nearest_double n m e -> ~ too_large m e.
Proof.
  unfold finite, nearest_double, too_large. cbv zeta. intros Hf H L. set (x := 2 * m * 2 ^ 1074 * 10 ^ Z.max 0 e) in *. set (p := 10 ^ Z.max 0 (- e)) in *.
  assert (0 < p) as Hp by (apply Z.pow_pos_nonneg; lia). clearbody x p.
  destruct (Z.eq_dec n (2047 * 2 ^ 52 - 1)) as [->|Hn].
  - change (Z.even (2047 * 2 ^ 52 - 1)) with false in H. cbv iota in H. replace (2047 * 2 ^ 52 - 1 + 1) with (2047 * 2 ^ 52) in H by lia. clear - H L. lia.
  - pose proof (magnitude_mono n (2047 * 2 ^ 52 - 1) ltac:(clear - Hf Hn; lia)) as M1. pose proof (magnitude_mono (n + 1) (2047 * 2 ^ 52) ltac:(clear - Hf Hn; lia)) as M2.
    set (a := magnitude n) in *. set (b := magnitude (n + 1)) in *. set (c := magnitude (2047 * 2 ^ 52 - 1)) in *. set (d := magnitude (2047 * 2 ^ 52)) in *. clearbody a b c d.
    assert (x <= (a + b) * p) as U by (destruct (Z.even n); clear - H; lia). clear - M1 M2 U L Hp. nia.
Qed.

Lemma denotes_number t negative m e : denotes t negative m e -> number_text t negative m e.
Proof.
  intros [neg ints frac (H1 & H2 & H3 & _)|neg ints frac nexp expo (H1 & H2 & H3 & _) _ He Hne].
  - replace (- Z.of_nat (length frac)) with (0 - Z.of_nat (length frac)) by lia. replace (fixed_text neg ints frac) with (minus neg ++ ints ++ (match frac with [] => [] | _ => $"." end) ++ frac ++ []).
    + apply a_number; [exact H1|exact H2| |destruct frac; [right; split; reflexivity|left; reflexivity]|constructor].
      intros C. apply app_eq_nil in C as [-> _]. destruct H3 as [C|(c & r & C & _)]; discriminate.
    + unfold fixed_text. rewrite app_nil_r. destruct frac; reflexivity.
  - unfold scientific_text. replace (fixed_text neg ints frac ++ $"e" ++ (if nexp then $"-" else $"+") ++ expo) with
      (minus neg ++ ints ++ (match frac with [] => [] | _ => $"." end) ++ frac ++ ($"e" ++ (if nexp then $"-" else $"+") ++ expo)).
    + apply a_number; [exact H1|exact H2| |destruct frac; [right; split; reflexivity|left; reflexivity]|].
      * intros C. apply app_eq_nil in C as [-> _]. destruct H3 as [C|(c & r & C & _)]; discriminate.
      * destruct nexp; [apply (an_exponent $"e" $"-" expo)|apply (an_exponent $"e" $"+" expo)]; try (left; reflexivity); try (right; right; reflexivity); try (right; left; reflexivity); assumption.
    + unfold fixed_text. rewrite <- !app_assoc. destruct frac; reflexivity.
Qed.

Lemma letter_number t : parse_number_string (69%N :: t) = None.
Proof.
  unfold parse_number_string. cbv zeta. change (69 =? 45)%N with false. cbv iota. cbn [andb]. rewrite scan_stops by (vm_compute; intros [_ H]; apply H; reflexivity).
    change (69 =? 46)%N with false. cbv iota. unfold between. rewrite Nat.sub_diag. reflexivity.
Qed.
Lemma letter_none to_nearest mul t : fast_parse to_nearest mul (69%N :: t) = None.
Proof.
  unfold fast_parse, geoarrow_from_chars, from_chars. rewrite letter_number. reflexivity.
Qed.

Lemma fast_parse_ok to_nearest mul : to_nearest = true \/ exact_products mul -> number_parser (fast_parse to_nearest mul) /\ correctly_rounding (fast_parse to_nearest mul).
Proof.
  intros Hmode. split; [split; [reflexivity|exact (letter_none to_nearest mul)]|]. intros t f m e Hf D Hn Hfin Hz Hlen.
  assert (Forall (fun c => (c < 256)%N) t) as Hb.
  { eapply Forall_impl; [|exact (denotes_chars _ _ _ _ D)]. cbv beta. unfold is_digit. intros c H. lia. }
  assert (longest_number t t [] (is_negative f) m e) as Hl.
  { split; [symmetry; apply app_nil_r|]. split; [apply denotes_number; exact D|]. intros text' rest' ? ? ? E _. rewrite E, app_length. lia. }
  pose proof (reads_number to_nearest mul t t [] _ m e Hmode Hb ltac:(lia) Hl) as R. unfold fast_parse, geoarrow_from_chars.
  destruct (from_chars to_nearest mul t) as [[f' r]|c| |]; [| |destruct R|destruct R].
  - destruct R as (_ & (Hf' & Hs & Hfin' & Hn') & _). cbn [obind]. f_equal. apply same_bits; [exact Hf'|exact Hf|exact Hs|].
    apply (nearest_unique _ _ m e); [apply Hfin'|apply Hfin|exact Hn'|exact Hn].
  - exfalso. destruct R as [_ [R|[R1 R2]]]; [exact (not_too_large _ m e Hfin Hn R)|]. apply R1, Hz. apply (nearest_unique _ 0 m e); [apply Hfin|lia|exact Hn|exact R2].
Qed.

Lemma ieee_mul_exact : exact_products ieee_mul.
Proof.
  intros a b n Ha Hb Hn E. unfold ieee_mul. change (units a) with (magnitude a). change (units b) with (magnitude b).
  assert (0 < 2 ^ 1074 * 2 ^ 1074) as Hp by (pose proof (Z.pow_pos_nonneg 2 1074 ltac:(lia) ltac:(lia)) as P; set (y := 2 ^ 1074) in *; clearbody y; nia).
  assert (0 <= magnitude a * magnitude b) as Hab by (apply Z.mul_nonneg_nonneg; apply magnitude_pos; [apply Ha|apply Hb]).
  pose proof (ieee_round_ok (magnitude a * magnitude b) (2 ^ 1074 * 2 ^ 1074) Hab Hp) as R. rewrite <- E in R |- *.
  apply (pattern_exact _ n (magnitude n * 2 ^ 1074 * 2 ^ 1074) _ Hp Hn); [set (y := 2 ^ 1074); clearbody y; ring|exact R].
Qed.
