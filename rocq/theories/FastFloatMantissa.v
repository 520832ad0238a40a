(** * Numbers with many digits *)
From Verif Require Import Base BaseFacts RyuSpec RyuDigits RyuShortest RyuDouble FastFloatModel FastFloatRound FastFloatCompute FastFloatCompare FastFloatHalfway FastFloatDigits.
Local Open Scope Z_scope.

Lemma len_pow c : 0 < 10 ^ Z.of_nat (@length N c).
Proof. apply Z.pow_pos_nonneg; lia. Qed.

(** ** Digits, a few at a time *)

Lemma step_eight_ok max n : forall p value counter digits, (length p <= n)%nat -> Forall is_digit p -> 0 <= value < 10 ^ counter -> 0 <= counter <= 19 -> digits <= max ->
  exists c p', p = c ++ p' /\
    step_eight max p value counter digits = (p', value * 10 ^ Z.of_nat (length c) + digits_value c, counter + Z.of_nat (length c), digits + Z.of_nat (length c)) /\
    0 <= value * 10 ^ Z.of_nat (length c) + digits_value c < 10 ^ (counter + Z.of_nat (length c)) /\ counter + Z.of_nat (length c) <= 19 /\ digits + Z.of_nat (length c) <= max.
Proof.
  induction n as [|n IH]; intros p value counter digits Hn Hp Hv Hc Hd.
  - destruct p as [|c p]; [|cbn in Hn; lia]. exists [], []. cbn [step_eight length app]. change (10 ^ Z.of_nat 0) with 1. unfold digits_value. cbn [fold_left].
    rewrite !Z.add_0_r, Z.mul_1_r. repeat split; lia.
  - assert (exists c p', p = c ++ p' /\ (p, value, counter, digits) = (p', value * 10 ^ Z.of_nat (length c) + digits_value c, counter + Z.of_nat (length c), digits + Z.of_nat (length c)) /\
      0 <= value * 10 ^ Z.of_nat (length c) + digits_value c < 10 ^ (counter + Z.of_nat (length c)) /\ counter + Z.of_nat (length c) <= 19 /\ digits + Z.of_nat (length c) <= max) as Hstop.
    { exists [], p. cbn [length app]. change (10 ^ Z.of_nat 0) with 1. unfold digits_value. cbn [fold_left]. rewrite !Z.add_0_r, Z.mul_1_r. repeat split; lia. }
    destruct p as [|c0 [|c1 [|c2 [|c3 [|c4 [|c5 [|c6 [|c7 r]]]]]]]]; try exact Hstop.
    cbn [step_eight]. destruct ((8 <=? 19 - counter) && (8 <=? max - digits)) eqn:E; [|exact Hstop]. clear Hstop.
    apply andb_true_iff in E. destruct E as [E1 E2]. apply Z.leb_le in E1, E2.
    assert (Forall is_digit [c0; c1; c2; c3; c4; c5; c6; c7] /\ Forall is_digit r) as [H8 Hr] by (apply Forall_app; exact Hp).
    rewrite eight_unrolled by exact H8. pose proof (digits_bound _ H8) as B. cbn [length] in B. change (10 ^ Z.of_nat 8) with 100000000 in B.
    set (v8 := digits_value [c0; c1; c2; c3; c4; c5; c6; c7]) in *.
    assert (10 ^ (counter + 8) = 10 ^ counter * 100000000) as E8 by (rewrite Z.pow_add_r by lia; reflexivity).
    assert (0 <= value * 100000000 + v8 < 10 ^ (counter + 8)) as V by (clear - E8 Hv B; lia).
    assert (10 ^ (counter + 8) <= 10 ^ 19) as P19 by (apply Z.pow_le_mono_r; lia).
    assert (w64 (w64 (value * 100000000) + v8) = value * 100000000 + v8) as -> by (rewrite w64_add; unfold w64; apply Z.mod_small; clear - V P19; lia).
    destruct (IH r (value * 100000000 + v8) (counter + 8) (digits + 8) ltac:(cbn [length] in Hn; lia) Hr V ltac:(lia) ltac:(lia)) as (c & p' & Ep & Es & Ev & Ec & Ed).
    exists ([c0; c1; c2; c3; c4; c5; c6; c7] ++ c), p'. rewrite Ep. split; [reflexivity|].
    rewrite digits_value_app, app_length. fold v8. change (length [c0; c1; c2; c3; c4; c5; c6; c7]) with 8%nat. rewrite Nat2Z.inj_add. change (Z.of_nat 8) with 8.
    replace (value * 10 ^ (8 + Z.of_nat (length c)) + (v8 * 10 ^ Z.of_nat (length c) + digits_value c))
      with ((value * 100000000 + v8) * 10 ^ Z.of_nat (length c) + digits_value c) by (rewrite Z.pow_add_r by lia; change (10 ^ 8) with 100000000; ring).
    rewrite !Z.add_assoc. rewrite <- Ep. split; [exact Es|]. split; [exact Ev|]. split; assumption.
Qed.

Lemma step_one_ok max p : Forall is_digit p -> forall value counter digits, 0 <= value < 10 ^ counter -> 0 <= counter <= 19 -> digits <= max ->
  exists c p', p = c ++ p' /\
    step_one max p value counter digits = (p', value * 10 ^ Z.of_nat (length c) + digits_value c, counter + Z.of_nat (length c), digits + Z.of_nat (length c)) /\
    0 <= value * 10 ^ Z.of_nat (length c) + digits_value c < 10 ^ (counter + Z.of_nat (length c)) /\ counter + Z.of_nat (length c) <= 19 /\ digits + Z.of_nat (length c) <= max /\
    (p' = [] \/ counter + Z.of_nat (length c) = 19 \/ digits + Z.of_nat (length c) = max).
Proof.
  induction p as [|d p IH]; intros Hp value counter digits Hv Hc Hd.
  - exists [], []. cbn [step_one length app]. change (10 ^ Z.of_nat 0) with 1. unfold digits_value. cbn [fold_left].
    rewrite !Z.add_0_r, Z.mul_1_r. repeat split; try lia. left; reflexivity.
  - cbn [step_one]. destruct ((counter <? 19) && (digits <? max)) eqn:E.
    + apply andb_true_iff in E. destruct E as [E1 E2]. apply Z.ltb_lt in E1, E2. apply Forall_cons_iff in Hp. destruct Hp as [H1 Hr]. pose proof (digit_bound d H1) as B.
      assert (10 ^ (counter + 1) = 10 ^ counter * 10) as E8 by (rewrite Z.pow_add_r by lia; reflexivity).
      assert (0 <= value * 10 + digit d < 10 ^ (counter + 1)) as V by (clear - E8 Hv B; lia).
      assert (10 ^ (counter + 1) <= 10 ^ 19) as P19 by (apply Z.pow_le_mono_r; lia).
      assert (w64 (w64 (value * 10) + digit d) = value * 10 + digit d) as -> by (rewrite w64_add; unfold w64; apply Z.mod_small; clear - V P19; lia).
      destruct (IH Hr (value * 10 + digit d) (counter + 1) (digits + 1) V ltac:(lia) ltac:(lia)) as (c & p' & Ep & Es & Ev & Ec & Ed & Ee).
      exists (d :: c), p'. rewrite Ep. split; [reflexivity|]. rewrite digits_value_cons. cbn [length]. rewrite Nat2Z.inj_succ.
      replace (value * 10 ^ Z.succ (Z.of_nat (length c)) + (digit d * 10 ^ Z.of_nat (length c) + digits_value c))
        with ((value * 10 + digit d) * 10 ^ Z.of_nat (length c) + digits_value c) by (rewrite Z.pow_succ_r by lia; ring).
      replace (counter + Z.succ (Z.of_nat (length c))) with (counter + 1 + Z.of_nat (length c)) by lia.
      replace (digits + Z.succ (Z.of_nat (length c))) with (digits + 1 + Z.of_nat (length c)) by lia. rewrite <- Ep. repeat (split; [assumption|]). exact Ee.
    + exists [], (d :: p). cbn [length app]. change (10 ^ Z.of_nat 0) with 1. unfold digits_value. cbn [fold_left]. rewrite !Z.add_0_r, Z.mul_1_r.
      apply andb_false_iff in E. rewrite !Z.ltb_ge in E. repeat split; lia.
Qed.

Lemma chunk max p digits : Forall is_digit p -> p <> [] -> digits < max -> exists c p', p = c ++ p' /\ c <> [] /\
  (let '(q, value, counter, d) := step_eight max p 0 0 digits in step_one max q value counter d) = (p', digits_value c, Z.of_nat (length c), digits + Z.of_nat (length c)) /\
  digits + Z.of_nat (length c) <= max.
Proof.
  intros Hp Hne Hd.
  destruct (step_eight_ok max (length p) p 0 0 digits ltac:(lia) Hp ltac:(cbn; lia) ltac:(lia) ltac:(lia)) as (c1 & p1 & E1 & S1 & V1 & C1 & D1). rewrite S1.
  assert (Forall is_digit p1) as Hp1 by (rewrite E1 in Hp; apply Forall_app in Hp; apply Hp).
  destruct (step_one_ok max p1 Hp1 _ _ _ V1 ltac:(lia) D1) as (c2 & p2 & E2 & S2 & V2 & C2 & D2 & K). rewrite S2. exists (c1 ++ c2), p2.
  assert (Z.of_nat (length (c1 ++ c2)) = Z.of_nat (length c1) + Z.of_nat (length c2)) as El by (rewrite app_length; lia).
  split; [rewrite E1, E2, app_assoc; reflexivity|]. split.
  { intros E. rewrite E in El. cbn [length] in El. destruct K as [K|[K|K]]; [|lia|lia]. apply app_eq_nil in E. destruct E as [-> ->]. apply Hne. rewrite E1, E2, K. reflexivity. }
  rewrite El, digits_value_app. split; [|lia]. rewrite Z.mul_0_l, !Z.add_0_l, Z.add_assoc. reflexivity.
Qed.

Lemma add_native_ok v power value : 0 <= v * power -> 0 <= value -> v * power + value < 10 ^ 771 -> add_native v power value = Ok (v * power + value).
Proof.
  intros H1 H2 H3. assert (10 ^ 771 < 2 ^ (64 * 62)) as C by (vm_compute; reflexivity).
  unfold add_native, big. destruct (Z.ltb_spec (v * power) (2 ^ (64 * 62))) as [_|H].
  2:{ exfalso. remember (2 ^ (64 * 62)) as a eqn:Ea. remember (10 ^ 771) as b eqn:Eb. clear Ea Eb. lia. }
  cbn [obind]. destruct (Z.ltb_spec (v * power + value) (2 ^ (64 * 62))) as [_|H]; [reflexivity|].
  exfalso. remember (2 ^ (64 * 62)) as a eqn:Ea. remember (10 ^ 771) as b eqn:Eb. clear Ea Eb. lia.
Qed.

Lemma prefix_bound r d c : 0 <= d -> 0 <= r < 10 ^ d -> Forall is_digit c ->
  0 <= r * 10 ^ Z.of_nat (length c) /\ 0 <= digits_value c /\ 0 <= r * 10 ^ Z.of_nat (length c) + digits_value c < 10 ^ (d + Z.of_nat (length c)).
Proof.
  intros Hd Hr Hc. pose proof (digits_bound c Hc) as B. rewrite Z.pow_add_r by lia. pose proof (len_pow c). set (y := 10 ^ Z.of_nat (length c)) in *.
  assert (0 <= r * y) by (apply Z.mul_nonneg_nonneg; lia). assert ((r + 1) * y <= 10 ^ d * y) by (apply Z.mul_le_mono_nonneg_r; lia). lia.
Qed.

Lemma parse_span_ok more fuel : forall p result digits, (length p < fuel)%nat -> Forall is_digit p -> 0 <= digits < 769 -> 0 <= result < 10 ^ digits ->
  (digits + Z.of_nat (length p) < 769 /\ parse_span fuel 769 more result p digits = Ok (result * 10 ^ Z.of_nat (length p) + digits_value p, digits + Z.of_nat (length p), false)) \/
  (exists c p', p = c ++ p' /\ digits + Z.of_nat (length c) = 769 /\ parse_span fuel 769 more result p digits =
     Ok (if is_truncated p' || more then ((result * 10 ^ Z.of_nat (length c) + digits_value c) * 10 + 1, 770, true) else (result * 10 ^ Z.of_nat (length c) + digits_value c, 769, true))).
Proof.
  induction fuel as [|fuel IH]; intros p result digits Hf Hp Hd Hr; [lia|]. cbn [parse_span]. destruct p as [|d p].
  - left. cbn [length]. change (10 ^ Z.of_nat 0) with 1. unfold digits_value. cbn [fold_left]. rewrite !Z.add_0_r, Z.mul_1_r. split; [lia|reflexivity].
  - destruct (chunk 769 (d :: p) digits Hp ltac:(discriminate) ltac:(lia)) as (c & p' & Ep & Hc & Es & Hm). revert Es. set (dp := d :: p) in *.
    destruct (step_eight 769 dp 0 0 digits) as [[[q value] counter] d']. intros Es. rewrite Es. rewrite Ep in Hp. apply Forall_app in Hp. destruct Hp as [Hpc Hp'].
    destruct (prefix_bound result digits c ltac:(lia) Hr Hpc) as (B1 & B2 & B3).
    assert (10 ^ (digits + Z.of_nat (length c)) <= 10 ^ 769) as P by (apply Z.pow_le_mono_r; lia).
    set (r1 := result * 10 ^ Z.of_nat (length c) + digits_value c) in *.
    assert (r1 < 10 ^ 771) as B4 by (apply Z.lt_le_trans with (10 ^ (digits + Z.of_nat (length c))); [apply B3|]; apply Z.le_trans with (10 ^ 769); [exact P|vm_compute; discriminate]).
    rewrite (add_native_ok _ _ _ B1 B2 B4).
    cbn [obind]. fold r1. destruct (Z.eqb_spec (digits + Z.of_nat (length c)) 769) as [E|E].
    + right. exists c, p'. split; [exact Ep|]. split; [exact E|]. destruct (is_truncated p' || more).
      * rewrite add_native_ok.
        -- cbn [obind]. rewrite E. reflexivity.
        -- clear - B3. lia.
        -- lia.
        -- rewrite E in B3. assert (10 ^ 771 = 10 ^ 769 * 100) as -> by (vm_compute; reflexivity). remember (10 ^ 769) as y eqn:Ey. clear Ey. clear - B3. lia.
      * rewrite E. reflexivity.
    + assert (length p' < fuel)%nat as Hl.
      { assert (length dp = length c + length p')%nat as L by (rewrite Ep, app_length; reflexivity). destruct c; [congruence|]. cbn [length] in L. lia. }
      destruct (IH p' r1 (digits + Z.of_nat (length c)) Hl Hp' ltac:(lia) B3) as [[H1 H2]|(c' & p'' & H1 & H2 & H3)].
      * left. rewrite Ep, app_length, Nat2Z.inj_add, digits_value_app. split; [lia|]. rewrite H2, <- (Z.add_assoc digits).
        assert (r1 * 10 ^ Z.of_nat (length p') + digits_value p' =
                result * 10 ^ (Z.of_nat (length c) + Z.of_nat (length p')) + (digits_value c * 10 ^ Z.of_nat (length p') + digits_value p')) as ->.
        { unfold r1. rewrite Z.pow_add_r by lia. ring. }
        reflexivity.
      * right. exists (c ++ c'), p''. rewrite app_length, Nat2Z.inj_add, digits_value_app. split; [rewrite Ep, H1, app_assoc; reflexivity|]. split; [lia|]. rewrite H3.
        assert (r1 * 10 ^ Z.of_nat (length c') + digits_value c' =
                result * 10 ^ (Z.of_nat (length c) + Z.of_nat (length c')) + (digits_value c * 10 ^ Z.of_nat (length c') + digits_value c')) as ->.
        { unfold r1. rewrite Z.pow_add_r by lia. ring. }
        reflexivity.
Qed.

(** ** Zeros *)

Lemma truncated_value p : Forall is_digit p -> is_truncated p = negb (digits_value p =? 0).
Proof.
  induction p as [|c p IH]; intros Hp; [reflexivity|]. apply Forall_cons_iff in Hp. destruct Hp as [Hc Hp]. cbn [is_truncated existsb]. fold (is_truncated p). rewrite IH by exact Hp.
  rewrite digits_value_cons. pose proof (digits_bound p Hp) as B. pose proof (digit_bound c Hc) as D. destruct (N.eqb_spec c 48) as [->|H].
  - change (digit 48) with 0. rewrite Z.mul_0_l, Z.add_0_l. reflexivity.
  - cbn [negb orb]. symmetry. apply negb_true_iff, Z.eqb_neq. assert (1 <= digit c) by (unfold is_digit in Hc; unfold digit; lia).
    set (y := 10 ^ Z.of_nat (length p)) in *. assert (1 * y <= digit c * y) by (apply Z.mul_le_mono_nonneg_r; lia). lia.
Qed.
Definition leads (p : bytes) : Prop := match p with c :: _ => c <> 48%N | [] => True end.
Lemma skip_zeros_ok p : Forall is_digit p -> Forall is_digit (skip_zeros p) /\ digits_value (skip_zeros p) = digits_value p /\ leads (skip_zeros p) /\ (length (skip_zeros p) <= length p)%nat.
Proof.
  induction p as [|c p IH]; intros Hp; [repeat split; constructor|]. cbn [skip_zeros]. destruct (N.eqb_spec c 48) as [->|H].
  - apply Forall_cons_iff in Hp. destruct Hp as [Hc Hp]. destruct (IH Hp) as (A & B & C & D). split; [exact A|]. split; [|split; [exact C|cbn [length]; lia]].
    rewrite digits_value_cons. change (digit 48) with 0. rewrite B. ring.
  - split; [exact Hp|]. split; [reflexivity|]. split; [exact H|lia].
Qed.
Lemma leads_value p : Forall is_digit p -> leads p -> p <> [] -> 10 ^ (Z.of_nat (length p) - 1) <= digits_value p < 10 ^ Z.of_nat (length p).
Proof.
  intros Hp Hl Hne. split; [|apply digits_bound; exact Hp]. destruct p as [|c p]; [congruence|]. apply Forall_cons_iff in Hp. destruct Hp as [Hc Hp].
  rewrite digits_value_cons. cbn [length leads] in *. replace (Z.of_nat (S (length p)) - 1) with (Z.of_nat (length p)) by lia. pose proof (digits_bound p Hp).
  assert (1 <= digit c) by (unfold is_digit in Hc; unfold digit; lia). set (y := 10 ^ Z.of_nat (length p)) in *. assert (1 * y <= digit c * y) by (apply Z.mul_le_mono_nonneg_r; lia). lia.
Qed.
Lemma length_unique m a b : 1 <= a -> 1 <= b -> 10 ^ (a - 1) <= m < 10 ^ a -> 10 ^ (b - 1) <= m < 10 ^ b -> a = b.
Proof.
  intros Ha Hb A B. destruct (Z.lt_trichotomy a b) as [H|[H|H]]; [exfalso|exact H|exfalso].
  - assert (10 ^ a <= 10 ^ (b - 1)) by (apply Z.pow_le_mono_r; lia). lia.
  - assert (10 ^ b <= 10 ^ (a - 1)) by (apply Z.pow_le_mono_r; lia). lia.
Qed.

(** ** All the digits *)

Lemma mantissa_digits n ints frac : pn_integer n = ints -> pn_fraction n = Some frac \/ (pn_fraction n = None /\ frac = []) -> Forall is_digit ints -> Forall is_digit frac ->
  0 < digits_value (ints ++ frac) ->
  exists s, Forall is_digit s /\ leads s /\ digits_value s = digits_value (ints ++ frac) /\
    ((Z.of_nat (length s) < 769 /\ parse_mantissa n 769 = Ok (digits_value s, Z.of_nat (length s))) \/
     exists c s', s = c ++ s' /\ Z.of_nat (length c) = 769 /\ parse_mantissa n 769 = Ok (if is_truncated s' then (digits_value c * 10 + 1, 770) else (digits_value c, 769))).
Proof.
  intros Ei Ef Hi Hf Hm. unfold parse_mantissa. rewrite Ei. destruct (skip_zeros_ok ints Hi) as (Zi & Zv & Zl & _).
  set (i' := skip_zeros ints) in *. clearbody i'. rewrite digits_value_app in *.
  assert ((match pn_fraction n with Some f => is_truncated f | None => false end) = is_truncated frac) as Et by (destruct Ef as [E|[E E']]; rewrite E; [|rewrite E']; reflexivity).
  rewrite Et. destruct (parse_span_ok (is_truncated frac) (S (length i')) i' 0 0 ltac:(lia) Zi ltac:(lia) ltac:(cbn; lia)) as [[H1 H2]|(c & p' & H1 & H2 & H3)].
  - rewrite H2. cbn [obind]. rewrite Z.mul_0_l, !Z.add_0_l in *.
    set (f' := if Z.of_nat (length i') =? 0 then skip_zeros frac else frac).
    assert (Forall is_digit f' /\ digits_value (i' ++ f') = digits_value ints * 10 ^ Z.of_nat (length frac) + digits_value frac /\ leads (i' ++ f')) as (Ff & Fv & Fl).
    { unfold f'. destruct i' as [|c i0].
      - cbn [length app]. change (Z.of_nat 0 =? 0) with true. cbv iota. destruct (skip_zeros_ok frac Hf) as (A & B & C & _).
        assert (digits_value ints = 0) as Z0 by (rewrite <- Zv; reflexivity). rewrite Z0. split; [exact A|]. split; [rewrite B; ring|exact C].
      - assert (Z.of_nat (length (c :: i0)) =? 0 = false) as -> by (apply Z.eqb_neq; cbn [length]; lia). split; [exact Hf|]. split; [rewrite digits_value_app, Zv; reflexivity|exact Zl]. }
    assert (exists f, pn_fraction n = Some f /\ f' = (if Z.of_nat (length i') =? 0 then skip_zeros f else f) \/ pn_fraction n = None /\ f' = []) as (f & Hff).
    { exists frac. destruct Ef as [E|[E E']]; [left|right]; (split; [exact E|]); unfold f'; [reflexivity|]. rewrite E'. destruct (_ =? 0); reflexivity. }
    exists (i' ++ f'). split; [apply Forall_app; split; assumption|]. split; [exact Fl|]. split; [exact Fv|].
    destruct Hff as [[-> Ef']|[-> Ef']].
    + rewrite <- Ef'. destruct (parse_span_ok false (S (length f')) f' (digits_value i') (Z.of_nat (length i')) ltac:(lia) Ff ltac:(lia) (digits_bound i' Zi)) as [[J1 J2]|(c & p' & J1 & J2 & J3)].
      * left. rewrite J2. cbn [obind]. rewrite app_length, Nat2Z.inj_add, digits_value_app. split; [lia|reflexivity].
      * right. exists (i' ++ c), p'. rewrite app_length, Nat2Z.inj_add, digits_value_app, J3. cbn [obind]. rewrite orb_false_r.
        split; [rewrite J1, app_assoc; reflexivity|]. split; [lia|]. destruct (is_truncated p'); reflexivity.
    + rewrite Ef'. rewrite app_nil_r. left. split; [lia|reflexivity].
  - rewrite H3. cbn [obind]. rewrite Z.mul_0_l, Z.add_0_l in *. exists (i' ++ frac). split; [apply Forall_app; split; assumption|]. split.
    { destruct i' as [|x i'']; [|exact Zl]. destruct c; [cbn [length] in H2; lia|discriminate]. }
    split; [rewrite digits_value_app, Zv; reflexivity|]. right. exists c, (p' ++ frac). split; [rewrite H1, app_assoc; reflexivity|]. split; [lia|].
    assert (is_truncated (p' ++ frac) = is_truncated p' || is_truncated frac) as -> by apply existsb_app. destruct (is_truncated p' || is_truncated frac); reflexivity.
Qed.

Lemma parse_mantissa_ok n ints frac l : pn_integer n = ints -> pn_fraction n = Some frac \/ (pn_fraction n = None /\ frac = []) -> Forall is_digit ints -> Forall is_digit frac ->
  let m := digits_value (ints ++ frac) in 1 <= l -> 10 ^ (l - 1) <= m < 10 ^ l ->
  exists b j rho d, m = b * 10 ^ j + rho /\ 0 <= rho < 10 ^ j /\ 0 <= j /\ d = l - j /\ d <= 769 /\ 10 ^ (d - 1) <= b < 10 ^ d /\ (d = 769 \/ j = 0) /\
    parse_mantissa n 769 = Ok (if rho =? 0 then (b, d) else (b * 10 + 1, d + 1)).
Proof.
  intros Ei Ef Hi Hf m Hl Hm.
  assert (0 < m) as Hm0 by (assert (0 < 10 ^ (l - 1)) by (apply Z.pow_pos_nonneg; lia); lia).
  destruct (mantissa_digits n ints frac Ei Ef Hi Hf Hm0) as (s & Hs & Ls & Vs & H). fold m in Vs.
  assert (s <> []) as Hne by (intros E; rewrite E in Vs; cbn in Vs; lia).
  assert (Z.of_nat (length s) = l) as El.
  { apply (length_unique m); [destruct s; [congruence|cbn [length]; lia]|exact Hl|rewrite <- Vs; apply leads_value; assumption|exact Hm]. }
  destruct H as [[H1 H2]|(c & s' & H1 & H2 & H3)].
  - exists m, 0, 0, l. change (10 ^ 0) with 1. change (0 =? 0) with true. cbv iota. rewrite H2, Vs, El. repeat split; try lia.
  - rewrite H1 in Hs. apply Forall_app in Hs. destruct Hs as [Hc Hs']. rewrite H1, app_length, Nat2Z.inj_add in El. rewrite H1, digits_value_app in Vs.
    exists (digits_value c), (Z.of_nat (length s')), (digits_value s'), 769. pose proof (digits_bound s' Hs') as B.
    assert (c <> []) as Hcne by (intros E; rewrite E in H2; cbn in H2; lia).
    assert (leads c) as Lc by (rewrite H1 in Ls; destruct c; [congruence|exact Ls]). pose proof (leads_value c Hc Lc Hcne) as Bc. rewrite H2 in Bc.
    split; [symmetry; exact Vs|]. split; [exact B|]. split; [lia|]. split; [lia|]. split; [lia|]. split; [exact Bc|]. split; [left; reflexivity|].
    rewrite H3, truncated_value by exact Hs'. destruct (digits_value s' =? 0); reflexivity.
Qed.

Lemma scientific_ok n : 10 ^ 18 <= pn_mantissa n < 10 ^ 19 -> scientific_exponent n = Ok (pn_exponent n + 18).
Proof.
  unfold scientific_exponent. generalize (pn_mantissa n) (pn_exponent n). intros w e Hw.
  assert (forall fuel k e' v x, k <= v -> divide_by (S fuel) k e' v x = divide_by fuel k e' (v / k) (x + e')) as Hs.
  { intros fuel k e' v x H. cbn [divide_by]. destruct (Z.leb_spec k v); [reflexivity|lia]. }
  assert (forall fuel k e' v x, v < k -> divide_by (S fuel) k e' v x = Ok (v, x)) as Ht.
  { intros fuel k e' v x H. cbn [divide_by]. destruct (Z.leb_spec k v); [lia|reflexivity]. }
  assert (10 ^ 14 <= w / 10000 < 10 ^ 15) as B1 by (Z.div_mod_to_equations; lia). rewrite Hs by lia. set (w1 := w / 10000) in *. clearbody w1. clear w Hw.
  assert (10 ^ 10 <= w1 / 10000 < 10 ^ 11) as B2 by (Z.div_mod_to_equations; lia). rewrite Hs by lia. set (w2 := w1 / 10000) in *. clearbody w2. clear w1 B1.
  assert (10 ^ 6 <= w2 / 10000 < 10 ^ 7) as B3 by (Z.div_mod_to_equations; lia). rewrite Hs by lia. set (w3 := w2 / 10000) in *. clearbody w3. clear w2 B2.
  assert (10 ^ 2 <= w3 / 10000 < 10 ^ 3) as B4 by (Z.div_mod_to_equations; lia). rewrite Hs by lia. set (w4 := w3 / 10000) in *. clearbody w4. clear w3 B3.
  rewrite Ht by lia. cbn [obind].
  assert (1 <= w4 / 100 < 10) as B5 by (Z.div_mod_to_equations; lia). rewrite Hs by lia. set (w5 := w4 / 100) in *. clearbody w5. clear w4 B4.
  rewrite Ht by lia. cbn [obind]. rewrite Ht by lia. cbn [obind]. f_equal. lia.
Qed.

(** ** The comparison of digits *)

Lemma digit_comp_ok n ints frac e j low am0 am1 : pn_integer n = ints -> pn_fraction n = Some frac \/ (pn_fraction n = None /\ frac = []) -> Forall is_digit ints -> Forall is_digit frac ->
  let m := digits_value (ints ++ frac) in let w := pn_mantissa n in let q := pn_exponent n in
  m = w * 10 ^ j + low -> 0 <= low < 10 ^ j -> 1 <= j -> q = e + j -> 10 ^ 18 <= w < 10 ^ 19 -> -342 <= q <= 308 ->
  compute_float q w = Ok am0 -> compute_float q (w + 1) = Ok am1 -> am0 <> am1 ->
  exists ame am, compute_error q w = Ok ame /\ am_power2 ame < 0 /\ digit_comp n ame = Ok am /\ well am /\ pattern10 (to_float false am) m e.
Proof.
  intros Ei Ef Hi Hf m w q Em Hlow Hj Eq Hw Hq H0 H1 Hne.
  assert (0 < 10 ^ j) as Pj by (apply pow10_pos'; lia).
  assert (10 ^ (19 + j - 1) <= m < 10 ^ (19 + j)) as Hm.
  { replace (19 + j - 1) with (18 + j) by lia. rewrite !Z.pow_add_r by lia. rewrite Em.
    assert (10 ^ 18 * 10 ^ j <= w * 10 ^ j) by (apply Z.mul_le_mono_nonneg_r; lia). assert ((w + 1) * 10 ^ j <= 10 ^ 19 * 10 ^ j) by (apply Z.mul_le_mono_nonneg_r; lia). lia. }
  destruct (parse_mantissa_ok n ints frac (19 + j) Ei Ef Hi Hf ltac:(lia) Hm) as (b & i & rho & d & Eb & Hrho & Hi0 & Ed & Hd & Hb & Hrd & Hpm). fold m in Eb.
  assert (0 < 10 ^ i) as Pi by (apply pow10_pos'; lia).
  assert (20 <= d) as Hd20 by lia.
  assert (0 < 10 ^ (d - 1)) as Pd by (apply pow10_pos'; lia).
  (* The digits compared, and their exponent *)
  set (big := if rho =? 0 then b else b * 10 + 1). set (d' := if rho =? 0 then d else d + 1). set (x := q + 18 + 1 - d').
  assert (parse_mantissa n 769 = Ok (big, d')) as Hpm' by (rewrite Hpm; unfold big, d'; destruct (rho =? 0); reflexivity).
  assert (20 <= d' <= 770 /\ d <= d') as Hd' by (unfold d'; destruct (rho =? 0); lia).
  assert (w * 10 ^ (d' - 19) <= big <= (w + 1) * 10 ^ (d' - 19)) as Hbig.
  { assert (w * 10 ^ (d - 19) <= b < (w + 1) * 10 ^ (d - 19)) as B.
    { assert (10 ^ j = 10 ^ (d - 19) * 10 ^ i) as Ej by (rewrite <- Z.pow_add_r by lia; f_equal; lia). rewrite Ej in Em, Hlow. set (y := 10 ^ (d - 19)) in *.
      assert (0 < y) by (unfold y; apply pow10_pos'; lia). set (z := 10 ^ i) in *. clearbody y z m. clear - Em Eb Hlow Hrho Pi H. split.
      - apply Z.lt_succ_r. apply (Zmult_lt_reg_r _ _ z); [lia|]. unfold Z.succ. replace (w * y * z) with (w * (y * z)) by ring. lia.
      - apply (Zmult_lt_reg_r _ _ z); [lia|]. replace ((w + 1) * y * z) with (w * (y * z) + y * z) by ring. lia. }
    unfold big, d'. destruct (rho =? 0); [lia|]. replace (d + 1 - 19) with (d - 19 + 1) by lia. rewrite (Z.pow_add_r 10 (d - 19) 1) by lia. change (10 ^ 1) with 10.
    set (y := 10 ^ (d - 19)) in *. clearbody y. clear - B. lia. }
  assert (0 < big < 10 ^ 770 /\ big < 10 ^ d') as (Hbig0 & Hbigd).
  { assert (big < 10 ^ d') as A. { unfold big, d'. destruct (rho =? 0); [apply Hb|]. rewrite Z.pow_add_r by lia. change (10 ^ 1) with 10. clear - Hb. lia. }
    split; [|exact A]. split; [unfold big; destruct (rho =? 0); lia|]. apply Z.lt_le_trans with (10 ^ d'); [exact A|]. apply Z.pow_le_mono_r; lia. }
  (* Back to all the digits *)
  assert (forall f, pattern10 f big x -> pattern10 f m e) as Hback.
  { intros f Hfp. unfold big, x, d' in Hfp. destruct (Z.eqb_spec rho 0) as [R|R].
    - rewrite Eb, R, Z.add_0_r. apply pattern10_shift; [lia|]. replace (e + i) with (q + 18 + 1 - d) by lia. exact Hfp.
    - assert (d = 769) as D by (destruct Hrd as [|I0]; [assumption|rewrite I0 in Hrho; change (10 ^ 0) with 1 in Hrho; lia]).
      apply (sticky f m e b i rho); [|exact Eb|lia| |lia|].
      + destruct Hrd; destruct (Z.eq_dec i 0) as [I0|]; try lia; rewrite I0 in Hrho; change (10 ^ 0) with 1 in Hrho; lia.
      + rewrite D in Hb. change (769 - 1) with 768 in Hb. apply Hb.
      + replace (e + i - 1) with (q + 18 + 1 - (d + 1)) by lia. exact Hfp. }
  unfold digit_comp. rewrite scientific_ok by exact Hw. rewrite Hpm'. cbn [obind]. fold q. fold x. 
  destruct (Z.leb_spec 0 x) as [Hx|Hx].
  - destruct (positive_ok big x ltac:(lia) Hx) as (am & Ea & Wa & Pa).
    { apply Z.lt_trans with (10 ^ 327); [|vm_compute; reflexivity]. apply Z.lt_le_trans with (10 ^ d' * 10 ^ x).
      - apply Z.mul_lt_mono_pos_r; [apply pow10_pos'; exact Hx|exact Hbigd].
      - rewrite <- Z.pow_add_r by lia. apply Z.pow_le_mono_r; [reflexivity|]. unfold x. lia. }
    destruct (compute_error_negative q w) as (ame & Ee & Hneg); [exact Hq|lia|]. exists ame, am. repeat (split; [assumption|]). apply Hback. exact Pa.
  - destruct (negative_ok q w x big (d' - 19) Hq Hw ltac:(unfold x in *; lia) ltac:(lia) ltac:(unfold x; lia) Hbig ltac:(apply Hbig0) am0 H0 ltac:(right; exists am1; split; assumption))
      as (ame & am & Ee & Hneg & Ea & Wa & Pa).
    exists ame, am. repeat (split; [assumption|]). apply Hback. exact Pa.
Qed.
