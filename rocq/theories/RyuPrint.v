(** * What is printed of a double *)
From Verif Require Import Base BaseFacts Text FloatModel FloatSpec FloatFacts RyuModel RyuTables RyuSpec RyuShortest RyuDecimal RyuDigits RyuFixed.
Local Open Scope Z_scope.

(** ** Writing behind what has been written *)

Lemma cut (rest : cells) k : (k <= length rest)%nat -> exists g r, rest = g ++ r /\ length g = k /\ (length r + k = length rest)%nat.
Proof.
  intros H. exists (firstn k rest), (skipn k rest). split; [symmetry; apply firstn_skipn|].
  rewrite firstn_length, skipn_length. lia.
Qed.
Lemma len_some (t : bytes) : length (map Some t) = length t.
Proof. apply map_length. Qed.

Lemma put_text t x (rest : cells) p : p = Z.of_nat (length t) -> (length x <= length rest)%nat ->
  exists rest', store_all (map Some t ++ rest) p x = Ok (map Some (t ++ x) ++ rest') /\ (length rest' + length x = length rest)%nat.
Proof.
  intros -> H. destruct (cut rest _ H) as (g & r & -> & Hg & Hr). exists r. split; [|exact Hr].
  rewrite store_all_at; [rewrite map_app, <- app_assoc; reflexivity|exact Hg|rewrite len_some; reflexivity].
Qed.
Lemma put_char t c (rest : cells) p : p = Z.of_nat (length t) -> (1 <= length rest)%nat ->
  exists rest', store (map Some t ++ rest) p c = Ok (map Some (t ++ [c]) ++ rest') /\ (length rest' + 1 = length rest)%nat.
Proof.
  intros -> H. destruct rest as [|g r]; cbn [length] in H; [lia|]. exists r. split; [|cbn; lia].
  rewrite store_at; [rewrite map_app, <- app_assoc; reflexivity|rewrite len_some; reflexivity].
Qed.
Lemma put_number t v k (rest : cells) p : p = Z.of_nat (length t) -> has_digits k v -> v < 10 ^ 17 -> (Z.to_nat k <= length rest)%nat ->
  exists rest', to_chars_uint64 (map Some t ++ rest) p v k = Ok (map Some (t ++ digs (Z.to_nat k) v) ++ rest', k) /\
    (length rest' + Z.to_nat k = length rest)%nat.
Proof.
  intros -> Hd Hv H. destruct (cut rest _ H) as (g & r & -> & Hg & Hr). exists r. split; [|exact Hr].
  assert (k = Z.of_nat (length g)) as Ek by (destruct Hd; lia).
  rewrite <- (len_some t). rewrite Ek at 1. rewrite to_chars_uint64_ok; [|rewrite <- Ek; exact Hd|exact Hv].
  rewrite map_app, <- app_assoc, Hg. do 2 f_equal. destruct Hd; lia.
Qed.
Lemma put_zero t k (rest : cells) p : p = Z.of_nat (length t) -> (1 <= length rest)%nat ->
  exists rest', to_chars_uint64 (map Some t ++ rest) p 0 k = Ok (map Some (t ++ $"0") ++ rest', 1) /\ (length rest' + 1 = length rest)%nat.
Proof.
  intros -> H. destruct rest as [|g r]; cbn [length] in H; [lia|]. exists r. split; [|cbn; lia].
  rewrite <- (len_some t), to_chars_zero, map_app, <- app_assoc. reflexivity.
Qed.

Lemma put_ints P ints t (rest : cells) p : integer_text P ints -> p = Z.of_nat (length t) -> (length ints <= length rest)%nat ->
  exists rest', (do (m, n) <- to_chars_uint64 (map Some t ++ rest) p (p_integer P) (p_integer_length P);
                 do m <- store_zeros m (p + n) (p_zeros_after P); Ok (m, p + n + p_zeros_after P)) =
    Ok (map Some (t ++ ints) ++ rest', Z.of_nat (length (t ++ ints))) /\ (length rest' + length ints = length rest)%nat.
Proof.
  intros [(E1 & E2 & ->)|(Hd & Hv & Hz & ->)] Hp H.
  - change (length $"0") with 1%nat in *. destruct (put_zero t (p_integer_length P) rest p Hp H) as (r & E & Hr).
    exists r. rewrite E1, E. cbn [obind]. rewrite E2. unfold store_zeros. cbn [Z.to_nat repeat store_all obind]. split; [|exact Hr].
    replace (p + 1 + 0) with (Z.of_nat (length (t ++ $"0"))); [reflexivity|].
    rewrite app_length. change (length $"0") with 1%nat. lia.
  - rewrite app_length, digs_length in H.
    destruct (put_number t (p_integer P) (p_integer_length P) rest p Hp Hd Hv ltac:(lia)) as (r & E & Hr). rewrite E. cbn [obind].
    destruct (put_text (t ++ digs (Z.to_nat (p_integer_length P)) (p_integer P)) (zeros (p_zeros_after P)) r (p + p_integer_length P)) as (r2 & E2 & Hr2).
    { rewrite app_length, digs_length. destruct Hd. lia. }
    { lia. }
    unfold store_zeros. fold (zeros (p_zeros_after P)). rewrite E2. cbn [obind]. exists r2. rewrite <- !app_assoc. split.
    + match goal with |- Ok (?a, ?b) = Ok (_, ?c) => replace b with c; [reflexivity|] end.
      rewrite !app_length, digs_length. unfold zeros. rewrite repeat_length. destruct Hd. lia.
    + rewrite app_length, digs_length. lia.
Qed.

Lemma put_frac P frac t (rest : cells) p : fraction_text P frac -> p = Z.of_nat (length t) ->
  (length (match frac with [] => [] | _ => $"." ++ frac end) <= length rest)%nat ->
  exists rest', (if negb (p_fraction P =? 0) then
                   do m <- store (map Some t ++ rest) p 46%N;
                   do m <- store_zeros m (p + 1) (p_zeros_before P);
                   do (m, n) <- to_chars_uint64 m (p + 1 + p_zeros_before P) (p_fraction P) (p_fraction_length P);
                   Ok (m, p + 1 + p_zeros_before P + n)
                 else Ok (map Some t ++ rest, p)) =
    Ok (map Some (t ++ match frac with [] => [] | _ => $"." ++ frac end) ++ rest',
        Z.of_nat (length (t ++ match frac with [] => [] | _ => $"." ++ frac end))) /\
    (length rest' + length (match frac with [] => [] | _ => $"." ++ frac end) = length rest)%nat.
Proof.
  intros [(E1 & ->)|(Hd & Hv & Hz & Ef)] Hp H.
  - rewrite E1. cbn [Z.eqb negb]. exists rest. rewrite app_nil_r. rewrite Hp. split; [reflexivity|cbn [length]; lia].
  - assert (1 <= p_fraction P) as Hf by (apply (has_digits_pos _ _ Hd)).
    destruct (Z.eqb_spec (p_fraction P) 0) as [|_]; [lia|]. cbn [negb].
    assert (frac <> []) as Hne.
    { intros E. rewrite E in Ef. apply (f_equal (@length N)) in Ef. rewrite app_length, digs_length in Ef. cbn [length] in Ef. destruct Hd. lia. }
    replace (match frac with [] => [] | _ :: _ => $"." ++ frac end) with ($"." ++ frac) in * by (destruct frac; [congruence|reflexivity]).
    rewrite app_length in H. change (length $".") with 1%nat in H. rewrite Ef, app_length, digs_length in H.
    destruct (put_char t 46%N rest p Hp ltac:(lia)) as (r1 & E1 & H1). rewrite E1. cbn [obind].
    destruct (put_text (t ++ [46%N]) (zeros (p_zeros_before P)) r1 (p + 1)) as (r2 & E2 & H2).
    { rewrite app_length. cbn [length]. lia. }
    { lia. }
    unfold store_zeros. fold (zeros (p_zeros_before P)). rewrite E2. cbn [obind].
    destruct (put_number ((t ++ [46%N]) ++ zeros (p_zeros_before P)) (p_fraction P) (p_fraction_length P) r2 (p + 1 + p_zeros_before P)) as (r3 & E3 & H3).
    { rewrite !app_length. cbn [length]. unfold zeros. rewrite repeat_length. lia. }
    { exact Hd. }
    { exact Hv. }
    { lia. }
    rewrite E3. cbn [obind]. exists r3. rewrite Ef. rewrite <- !app_assoc. change ($".") with [46%N].
    assert (length (zeros (p_zeros_before P)) = Z.to_nat (p_zeros_before P)) as Lz by apply repeat_length.
    split; [|rewrite !app_length, digs_length; cbn [length]; lia].
    replace (p + 1 + p_zeros_before P + p_fraction_length P) with
      (Z.of_nat (length (t ++ [46%N] ++ zeros (p_zeros_before P) ++ digs (Z.to_nat (p_fraction_length P)) (p_fraction P)))); [reflexivity|].
    rewrite !app_length, digs_length, Lz. cbn [length]. destruct Hd. lia.
Qed.

(** ** Fixed notation *)

Lemma to_chars_fixed_ok (m : cells) v sign p P ints frac : fixed_parts v p = Ok P -> integer_text P ints -> fraction_text P frac ->
  let text := fixed_text (sign && (negb (p_integer P =? 0) || negb (p_fraction P =? 0))) ints frac in
  (length text <= length m)%nat ->
  exists rest, to_chars_fixed m v sign p = Ok (map Some text ++ rest, Z.of_nat (length text)) /\ (length rest + length text = length m)%nat.
Proof.
  intros EP HI HF text HL. unfold to_chars_fixed. rewrite EP. cbn [obind].
  set (neg := sign && (negb (p_integer P =? 0) || negb (p_fraction P =? 0))) in *.
  set (tail := match frac with [] => [] | _ => $"." ++ frac end).
  assert (text = (if neg then [45%N] else []) ++ ints ++ tail) as Et by (unfold text, fixed_text, minus; destruct neg; reflexivity).
  assert (exists r, (if neg then store m 0 45%N else Ok m) = Ok (map Some (if neg then [45%N] else []) ++ r) /\
            (length r + (if neg then 1 else 0) = length m)%nat) as (r0 & E0 & H0).
  { destruct neg.
    - destruct (put_char [] 45%N m 0 eq_refl) as (r & E & H); [rewrite Et in HL; cbn [app length] in HL; lia|]. exists r. split; [exact E|lia].
    - exists m. split; [reflexivity|lia]. }
  rewrite E0. cbn [obind]. rewrite Et, !app_length in HL.
  destruct (put_ints P ints (if neg then [45%N] else []) r0 (if neg then 1 else 0) HI) as (r1 & E1 & H1).
  { destruct neg; reflexivity. }
  { destruct neg; cbn [length] in *; lia. }
  set (ix := if neg then 1 else 0) in *.
  destruct (put_frac P frac ((if neg then [45%N] else []) ++ ints) r1 (Z.of_nat (length ((if neg then [45%N] else []) ++ ints))) HF eq_refl) as (r2 & E2 & H2).
  { fold tail. destruct neg; cbn [length] in *; lia. }
  fold tail in E2.
  destruct (to_chars_uint64 (map Some (if neg then [45%N] else []) ++ r0) ix (p_integer P) (p_integer_length P)) as [[m1 n1]| | |]; cbn [obind] in E1 |- *; try discriminate E1.
  destruct (store_zeros m1 (ix + n1) (p_zeros_after P)) as [m2| | |]; cbn [obind] in E1 |- *; try discriminate E1.
  injection E1 as -> E1. rewrite E1. rewrite <- !(app_assoc _ ints tail) in E2. rewrite Et. exists r2. split; [exact E2|].
  rewrite !app_length. fold tail in H2. destruct neg; cbn [length] in *; lia.
Qed.

(** A decimal, rounded to [p] digits after the point. *)
Lemma fixed_ok (m : cells) v sign p : 1 <= d_mantissa v < 10 ^ 17 -> d_mantissa v mod 10 <> 0 -> -1000 < d_exponent v -> 0 <= p ->
  Z.max 19 (Z.max (p + 3) (decimalLength17 (d_mantissa v) + d_exponent v + 1)) <= Z.of_nat (length m) ->
  exists text rest, to_chars_fixed m v sign p = Ok (map Some text ++ rest, Z.of_nat (length text)) /\
    (length rest + length text = length m)%nat /\ rounded_text sign p (d_mantissa v) (d_exponent v) text /\
    Z.of_nat (length text) <= Z.max 19 (Z.max (p + 3) (decimalLength17 (d_mantissa v) + d_exponent v + 1)).
Proof.
  intros Hm H10 He Hp HL. destruct (fixed_parts_ok v p Hm H10 He Hp) as (P & ints & frac & R & EP & HI & HF & Hc & Hf & HR & HV & HN & Ht).
  set (neg := sign && (negb (p_integer P =? 0) || negb (p_fraction P =? 0))).
  assert (neg = sign && negb (R =? 0)) as En.
  { unfold neg. f_equal. destruct (Z.eqb_spec R 0) as [E|E].
    - destruct (Z.eqb_spec (p_integer P) 0) as [|X]; [|exfalso; apply HN; [left; exact X|exact E]].
      destruct (Z.eqb_spec (p_fraction P) 0) as [|X]; [reflexivity|exfalso; apply HN; [right; exact X|exact E]].
    - apply HN in E. destruct (Z.eqb_spec (p_integer P) 0); [|reflexivity]. destruct (Z.eqb_spec (p_fraction P) 0); [lia|reflexivity]. }
  assert (Z.of_nat (length (fixed_text neg ints frac)) <= 1 + Z.of_nat (length (fixed_text false ints frac))) as Hs.
  { unfold fixed_text, minus. rewrite !app_length. destruct neg; [change (length $"-") with 1%nat|]; cbn [length]; lia. }
  destruct (to_chars_fixed_ok m v sign p P ints frac EP HI HF) as (rest & E & Hr).
  { fold neg. lia. }
  fold neg in E, Hr. exists (fixed_text neg ints frac), rest. split; [exact E|]. split; [exact Hr|]. split; [|lia].
  exists ints, frac, R. rewrite En. repeat split; try assumption; apply Hc || apply HR.
Qed.

(** ** The exponent *)

Lemma print_exponent_ok t (rest : cells) p e : p = Z.of_nat (length t) -> (5 <= length rest)%nat -> -1000 < e < 1000 ->
  exists expo rest', print_exponent (map Some t ++ rest) p e =
      Ok (map Some (t ++ $"e" ++ [if e <? 0 then 45%N else 43%N] ++ expo) ++ rest', Z.of_nat (length (t ++ $"e" ++ [if e <? 0 then 45%N else 43%N] ++ expo))) /\
    Forall is_digit expo /\ expo <> [] /\ digits_value expo = Z.abs e /\ (length expo <= 3)%nat.
Proof.
  intros Hp HL He. unfold print_exponent.
  destruct (put_char t 101%N rest p Hp ltac:(lia)) as (r1 & E1 & H1). rewrite E1. cbn [obind].
  destruct (put_char (t ++ [101%N]) (if e <? 0 then 45%N else 43%N) r1 (p + 1)) as (r2 & E2 & H2); [rewrite app_length; cbn [length]; lia|lia|].
  rewrite E2. cbn [obind]. set (s := [if e <? 0 then 45%N else 43%N]) in *.
  replace (if e <? 0 then - e else e) with (Z.abs e) by (destruct (Z.ltb_spec e 0); lia). set (a := Z.abs e). assert (0 <= a < 1000) as Ha by (unfold a; lia).
  assert (forall k, has_digits (Z.of_nat k) a -> digits_value (digs k a) = a) as HV.
  { intros k Hk. rewrite <- (Nat2Z.id k). apply has_digits_value. exact Hk. }
  change $"e" with [101%N].
  destruct (Z.leb_spec 100 a) as [L|L]; [|destruct (Z.leb_spec 10 a) as [L2|L2]].
  - destruct (cut r2 2 ltac:(lia)) as (g & r3 & -> & Hg & H3).
    rewrite (store_digits_at _ g r3 (p + 1 + 1) (2 * (a / 10)) (a / 10)); [|lia|reflexivity|exact Hg|rewrite len_some, !app_length; cbn [length s]; lia].
    cbn [obind]. rewrite app_length in H2.
    replace (map Some ((t ++ [101%N]) ++ s) ++ map Some (digs 2 (a / 10)) ++ r3) with (map Some (((t ++ [101%N]) ++ s) ++ digs 2 (a / 10)) ++ r3)
      by (rewrite (map_app _ (_ ++ s)), <- app_assoc; reflexivity).
    destruct (put_char (((t ++ [101%N]) ++ s) ++ digs 2 (a / 10)) (Z.to_N (48 + a mod 10)) r3 (p + 1 + 1 + 2)) as (r4 & E4 & H4).
    { rewrite !app_length, digs_length. cbn [length s]. lia. }
    { lia. }
    rewrite E4. cbn [obind]. exists (digs 3 a), r4. change (digs 3 a) with (digs 2 (a / 10) ++ [Z.to_N (48 + a mod 10)]).
    split; [|split; [|split; [|split]]].
    + rewrite <- !app_assoc. replace (p + 1 + 1 + 3) with (Z.of_nat (length (t ++ [101%N] ++ s ++ digs 2 (a / 10) ++ [Z.to_N (48 + a mod 10)]))); [reflexivity|].
      rewrite !app_length, digs_length. cbn [length s]. lia.
    + change (digs 2 (a / 10) ++ [Z.to_N (48 + a mod 10)]) with (digs 3 a). apply digs_digits.
    + destruct (digs 2 (a / 10)); discriminate.
    + apply (HV 3%nat). split; cbn; lia.
    + rewrite app_length, digs_length. cbn. lia.
  - destruct (cut r2 2 ltac:(lia)) as (g & r3 & -> & Hg & H3).
    rewrite (store_digits_at _ g r3 (p + 1 + 1) (2 * a) a); [|lia|reflexivity|exact Hg|rewrite len_some, !app_length; cbn [length s]; lia].
    cbn [obind]. exists (digs 2 a), r3. split; [|split; [|split; [|split]]].
    + rewrite (app_assoc (map Some _)), <- map_app. rewrite <- !app_assoc.
      replace (p + 1 + 1 + 2) with (Z.of_nat (length (t ++ [101%N] ++ s ++ digs 2 a))); [reflexivity|].
      rewrite !app_length, digs_length. cbn [length s]. lia.
    + apply digs_digits.
    + intros E. apply (f_equal (@length N)) in E. rewrite digs_length in E. discriminate.
    + apply (HV 2%nat). split; cbn; lia.
    + rewrite digs_length. lia.
  - destruct (put_char ((t ++ [101%N]) ++ s) (Z.to_N (48 + a)) r2 (p + 1 + 1)) as (r4 & E4 & H4).
    { rewrite !app_length. cbn [length s]. lia. }
    { lia. }
    rewrite E4. cbn [obind]. exists [Z.to_N (48 + a)], r4. split; [|split; [|split; [|split]]].
    + rewrite <- !app_assoc. replace (p + 1 + 1 + 1) with (Z.of_nat (length (t ++ [101%N] ++ s ++ [Z.to_N (48 + a)]))); [reflexivity|].
      rewrite !app_length. cbn [length s]. lia.
    + constructor; [|constructor]. split; lia.
    + discriminate.
    + unfold digits_value. cbn [fold_left]. lia.
    + cbn. lia.
Qed.

(** ** Decimals that are the same *)

Definition same_decimal (m e m' e' : Z) : Prop := m * 10 ^ Z.max 0 (e - e') = m' * 10 ^ Z.max 0 (e' - e).

Lemma nearest_same n m e m' e' : same_decimal m e m' e' -> nearest_double n m e -> nearest_double n m' e'.
Proof.
  unfold same_decimal, nearest_double. intros H N. cbv zeta in *.
  set (lo := magnitude (n - 1) + magnitude n) in *. set (hi := magnitude n + magnitude (n + 1)) in *.
  (* x * 10^max(0,-e') * 10^(...) *)
  set (a := 10 ^ Z.max 0 (- e)) in *. set (b := 10 ^ Z.max 0 e) in *. set (a' := 10 ^ Z.max 0 (- e')) in *. set (b' := 10 ^ Z.max 0 e') in *.
  assert (0 < a) as Ha by (apply pow10_pos; lia). assert (0 < a') as Ha' by (apply pow10_pos; lia).
  assert (m * b * a' = m' * b' * a) as X.
  { unfold a, b, a', b' in *. set (u := 10 ^ Z.max 0 (e - e')) in *. set (v := 10 ^ Z.max 0 (e' - e)) in *.
    assert (0 < v) as Hv by (apply pow10_pos; lia).
    apply Z.mul_cancel_r with v; [lia|].
    replace (m' * 10 ^ Z.max 0 e' * 10 ^ Z.max 0 (- e) * v) with (m' * v * (10 ^ Z.max 0 e' * 10 ^ Z.max 0 (- e))) by ring.
    rewrite <- H. unfold u, v.
    replace (m * 10 ^ Z.max 0 e * 10 ^ Z.max 0 (- e') * 10 ^ Z.max 0 (e' - e)) with (m * (10 ^ Z.max 0 e * 10 ^ Z.max 0 (- e') * 10 ^ Z.max 0 (e' - e))) by ring.
    replace (m * 10 ^ Z.max 0 (e - e') * (10 ^ Z.max 0 e' * 10 ^ Z.max 0 (- e))) with (m * (10 ^ Z.max 0 (e - e') * 10 ^ Z.max 0 e' * 10 ^ Z.max 0 (- e))) by ring.
    rewrite <- !Z.pow_add_r by lia. do 2 f_equal. lia. }
  replace (2 * m * 2 ^ 1074 * b) with (m * b * (2 * 2 ^ 1074)) in N by ring.
  replace (2 * m' * 2 ^ 1074 * b') with (m' * b' * (2 * 2 ^ 1074)) by ring.
  set (c := 2 * 2 ^ 1074) in *. clearbody c a a' b b'. clear H.
  assert (forall y, (y * a <= m * b * c <-> y * a' <= m' * b' * c) /\ (m * b * c <= y * a <-> m' * b' * c <= y * a')) as K.
  { intros y. rewrite (Z.mul_le_mono_pos_r (y * a) _ a'), (Z.mul_le_mono_pos_r (y * a') _ a), (Z.mul_le_mono_pos_r (m * b * c) _ a'),
      (Z.mul_le_mono_pos_r (m' * b' * c) _ a) by assumption.
    replace (m * b * c * a') with (m' * b' * c * a) by (transitivity (m * b * a' * c); [rewrite X; ring|ring]).
    replace (y * a' * a) with (y * a * a') by ring. tauto. }
  destruct (K lo) as [K1 K2]. destruct (K hi) as [K3 K4]. destruct (Z.even n); [tauto|].
  rewrite !Z.lt_nge in *. tauto.
Qed.

(** Exact rounding *)
Lemma rounds_exact p m e R : 0 <= e + p -> rounds_at p m e R -> R = m * 10 ^ (e + p).
Proof.
  intros H [H1 _]. replace (Z.max 0 (e + p)) with (e + p) in H1 by lia. replace (Z.max 0 (- (e + p))) with 0 in H1 by lia.
  change (10 ^ 0) with 1 in H1. lia.
Qed.
Lemma exact_same p m e frac v : 0 <= e + p -> Z.of_nat (length frac) <= p -> rounds_at p m e (v * 10 ^ (p - Z.of_nat (length frac))) ->
  same_decimal m e v (- Z.of_nat (length (frac : bytes))).
Proof.
  intros H Hf HR. apply rounds_exact in HR; [|exact H]. unfold same_decimal. set (k := Z.of_nat (length frac)) in *.
  assert (0 <= k) as Hk by (unfold k; lia). clearbody k.
  set (u := 10 ^ (p - Z.max k (- e))). assert (0 < u) as Hu by (apply pow10_pos; lia).
  apply Z.mul_cancel_r with u; [lia|]. unfold u. rewrite <- !Z.mul_assoc, <- !Z.pow_add_r by lia.
  replace (Z.max 0 (e - - k) + (p - Z.max k (- e))) with (e + p) by lia.
  replace (Z.max 0 (- k - e) + (p - Z.max k (- e))) with (p - k) by lia. lia.
Qed.
