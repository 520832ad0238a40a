(** * The numbers that are read *)
From Verif Require Import Base BaseFacts Text RyuSpec RyuDigits RyuDouble RyuReads RyuShortest FastFloatModel FastFloatSpec FastFloatRound FastFloatCompute FastFloatCompare FastFloatDigits FastFloatMantissa FastFloatNumbers.
Local Open Scope Z_scope.

(** ** Signs *)

Lemma signed_ok (negative : bool) v : 0 <= v < 2 ^ 63 ->
  let f := Z.to_N (v + if negative then 2 ^ 63 else 0) in (f < 2 ^ 64)%N /\ is_negative f = negative /\ unsigned f = v.
Proof.
  intros Hv f. unfold is_negative, unsigned. assert (f = (Z.to_N v + (if negative then 1 else 0) * 2 ^ 63)%N) as E by (unfold f; destruct negative; lia).
  assert (Z.to_N v < 2 ^ 63)%N as Hn by lia. rewrite E. split; [destruct negative; lia|]. split.
  - rewrite N.testbit_eqb. rewrite N.div_add, (N.div_small (Z.to_N v)) by lia. destruct negative; reflexivity.
  - rewrite N.mod_add, N.mod_small by lia. lia.
Qed.

Definition answer (n : parsed) (m e : Z) (a : outcome (N * bytes)) : Prop :=
  match a with
  | Ok (f, r) => r = pn_rest n /\ rounded (pn_negative n) m e f /\ (unsigned f = 0 -> m = 0)
  | Err c => c = EINVAL /\ (too_large m e \/ too_small m e)
  | _ => False
  end.

Lemma answer_signed n m e v : finite v -> pattern10 v m e -> (v = 0 -> m = 0) -> answer n m e (Ok (Z.to_N (v + if pn_negative n then 2 ^ 63 else 0), pn_rest n)).
Proof.
  intros Fv Pv Zv. cbn [answer]. split; [reflexivity|]. destruct (signed_ok (pn_negative n) v) as (A & B & C); [unfold finite in Fv; lia|]. cbv zeta in A, B, C.
  rewrite C. split; [|exact Zv]. unfold rounded. rewrite B, C. split; [exact A|]. split; [reflexivity|]. split; [exact Fv|]. apply nearest_double_is.
  destruct Pv as [[_ N]|[-> _]]; [exact N|]. unfold finite, top in Fv. lia.
Qed.

(** ** The fast path *)

Lemma units_zero : units 0 = 0.
Proof. reflexivity. Qed.
Lemma units_integer w : 0 <= w <= 2 ^ 53 -> units (ieee_of_integer w) = w * 2 ^ 1074 /\ finite (ieee_of_integer w).
Proof.
  intros Hw. destruct (Z.eq_dec w 0) as [->|H].
  - assert (ieee_of_integer 0 = 0) as -> by (vm_compute; reflexivity). split; [reflexivity|]. unfold finite. lia.
  - pose proof (ieee_of_integer_exact w 0 ltac:(lia) ltac:(lia)) as A. change (2 ^ 0) with 1 in A. rewrite Z.mul_1_r in A. exact A.
Qed.
Lemma five_pow k : 0 <= k <= 22 -> 0 < 5 ^ k <= 2 ^ 53.
Proof. intros Hk. split; [apply Z.pow_pos_nonneg; lia|]. apply Z.le_trans with (5 ^ 22); [apply Z.pow_le_mono_r; lia|vm_compute; discriminate]. Qed.
Lemma units_power k : 0 <= k <= 22 -> units (exact_power_of_ten k) = 10 ^ k * 2 ^ 1074 /\ finite (exact_power_of_ten k).
Proof. intros Hk. unfold exact_power_of_ten. rewrite pow10_split by lia. apply ieee_of_integer_exact; [apply five_pow; exact Hk|lia]. Qed.

Lemma small_pattern v w q : 0 <= w <= 2 ^ 53 -> -22 <= q <= 22 -> pattern10 v w q -> finite v /\ (v = 0 -> w = 0).
Proof.
  intros Hw Hq H. unfold pattern10 in H.
  assert (10 ^ Z.max 0 (- q) <= 10 ^ 22) as P1 by (apply Z.pow_le_mono_r; lia). assert (10 ^ Z.max 0 q <= 10 ^ 22) as P2 by (apply Z.pow_le_mono_r; lia).
  assert (1 <= 10 ^ Z.max 0 (- q)) as P3 by (pose proof (pow10_pos' (Z.max 0 (- q))); lia). assert (1 <= 10 ^ Z.max 0 q) as P4 by (pose proof (pow10_pos' (Z.max 0 q)); lia).
  set (p := 10 ^ Z.max 0 (- q)) in *. set (a := 10 ^ Z.max 0 q) in *. clearbody p a. assert (10 ^ 22 * 2 < 2 ^ 1074) as C by (vm_compute; reflexivity).
  destruct H as [[F N]|[-> B]].
  - split; [exact F|]. intros ->. unfold nearest in N. change (Z.even 0) with true in N. cbv iota in N. change (magnitude 0) with 0 in N. change (magnitude (0 + 1)) with 1 in N.
    destruct (Z.eq_dec w 0) as [|Hw0]; [assumption|exfalso]. destruct N as [_ N].
    assert (1 * 2 ^ 1074 * 1 <= w * 2 ^ 1074 * a) as M.
    { apply Z.mul_le_mono_nonneg; [apply Z.mul_nonneg_nonneg; [discriminate|apply Z.pow_nonneg; discriminate]|apply Z.mul_le_mono_nonneg_r; [apply Z.pow_nonneg; discriminate|lia]|discriminate|exact P4]. }
    remember (2 ^ 1074) as y eqn:Ey. clear Ey. set (z := w * y * a) in *. clearbody z. clear - N M C P1. lia.
  - exfalso. unfold beyond in B.
    assert (2 * (2 ^ 53 * 2 ^ 1074 * 10 ^ 22) < magnitude (top - 1) + magnitude top) as D by (vm_compute; reflexivity).
    assert (w * 2 ^ 1074 * a <= 2 ^ 53 * 2 ^ 1074 * 10 ^ 22) as M.
    { apply Z.mul_le_mono_nonneg; [apply Z.mul_nonneg_nonneg; [lia|apply Z.pow_nonneg; discriminate]|apply Z.mul_le_mono_nonneg_r; [apply Z.pow_nonneg; discriminate|lia]|lia|exact P2]. }
    remember (magnitude (top - 1) + magnitude top) as g eqn:Eg. clear Eg. remember (2 ^ 53 * 2 ^ 1074 * 10 ^ 22) as h eqn:Eh.
    assert (0 <= h) as Hh by (rewrite Eh; vm_compute; discriminate). clear Eh.
    set (z := w * 2 ^ 1074 * a) in *. clearbody z. assert (g * 1 <= g * p) by (apply Z.mul_le_mono_nonneg_l; [lia|exact P3]). clear - H B D M. lia.
Qed.

Lemma fast_ok w q : 0 <= w <= 2 ^ 53 -> -22 <= q <= 22 ->
  pattern10 (if q <? 0 then ieee_div (ieee_of_integer w) (exact_power_of_ten (- q)) else ieee_mul (ieee_of_integer w) (exact_power_of_ten q)) w q.
Proof.
  intros Hw Hq. destruct (units_integer w Hw) as [Uw _]. assert (0 < 2 ^ 1074) as P by (vm_compute; reflexivity).
  assert (0 <= w * 2 ^ 1074) as Pw by (apply Z.mul_nonneg_nonneg; [lia|apply Z.lt_le_incl; exact P]). unfold pattern10. destruct (Z.ltb_spec q 0) as [H|H].
  - destruct (units_power (- q) ltac:(lia)) as [Uq _]. unfold ieee_div. rewrite Uw, Uq. assert (0 < 10 ^ (- q)) as Pq by (apply pow10_pos'; lia).
    rewrite (Z.max_l 0 q), (Z.max_r 0 (- q)), Z.pow_0_r by lia. assert (0 < 10 ^ (- q) * 2 ^ 1074) as Pd by (apply Z.mul_pos_pos; assumption).
    apply (pattern_same _ _ _ _ _ Pd Pq) with (2 := ieee_round_ok _ _ Pw Pd). set (y := 2 ^ 1074). ring.
  - destruct (units_power q ltac:(lia)) as [Uq _]. unfold ieee_mul. rewrite Uw, Uq. assert (0 < 10 ^ q) as Pq by (apply pow10_pos'; lia).
    rewrite (Z.max_r 0 q), (Z.max_l 0 (- q)), Z.pow_0_r by lia. assert (0 < 2 ^ 1074 * 2 ^ 1074) as Pd by (apply Z.mul_pos_pos; assumption).
    assert (0 <= w * 2 ^ 1074 * (10 ^ q * 2 ^ 1074)) as Pn by (apply Z.mul_nonneg_nonneg; [exact Pw|]; apply Z.mul_nonneg_nonneg; apply Z.lt_le_incl; assumption).
    apply (pattern_same _ _ _ _ 1 Pd ltac:(reflexivity)) with (2 := ieee_round_ok _ _ Pn Pd). set (y := 2 ^ 1074). ring.
Qed.
Lemma directed_ok mul w q : exact_products mul -> 0 <= q <= 22 -> 0 <= w <= max_mantissa q -> w <= 2 ^ 53 /\ pattern10 (mul (ieee_of_integer w) (exact_power_of_ten q)) w q.
Proof.
  intros Hmul Hq Hw. pose proof (five_pow q Hq) as P5. unfold max_mantissa in Hw. change 0x20000000000000 with (2 ^ 53) in Hw.
  assert (w * 5 ^ q <= 2 ^ 53) as W.
  { apply Z.le_trans with (2 ^ 53 / 5 ^ q * 5 ^ q); [apply Z.mul_le_mono_nonneg_r; lia|]. rewrite Z.mul_comm. apply Z.mul_div_le. lia. }
  assert (w <= 2 ^ 53) as W53 by (assert (w * 1 <= w * 5 ^ q) by (apply Z.mul_le_mono_nonneg_l; lia); lia). split; [exact W53|].
  destruct (units_integer w ltac:(lia)) as [Uw Fw]. destruct (units_power q Hq) as [Uq Fq]. rewrite units_magnitude in Uw, Uq.
  assert (exists n, finite n /\ magnitude n = w * 10 ^ q * 2 ^ 1074) as (n & Fn & Mn).
  { destruct (Z.eq_dec w 0) as [->|Hw0]; [exists 0; split; [unfold finite; lia|reflexivity]|].
    assert (0 < w * 5 ^ q) as Wp by (apply Z.mul_pos_pos; lia).
    destruct (double_of_integer (w * 5 ^ q) q ltac:(lia) ltac:(lia)) as (n & F & _ & M). exists n. split; [exact F|]. rewrite M, pow10_split by lia. set (y := 2 ^ 1074). ring. }
  rewrite (Hmul _ _ n Fw Fq Fn) by (rewrite Uw, Uq, Mn; set (y := 2 ^ 1074); ring).
  unfold pattern10. rewrite (Z.max_r 0 q), (Z.max_l 0 (- q)), Z.pow_0_r by lia. assert (0 < 10 ^ q) as Pq by (apply pow10_pos'; lia).
  assert (0 <= w * 10 ^ q) as Pn by (apply Z.mul_nonneg_nonneg; lia).
  pose proof (ieee_round_ok (w * 10 ^ q) 1 Pn ltac:(lia)) as R.
  rewrite (pattern_exact _ n _ 1 ltac:(lia) Fn ltac:(rewrite Mn, Z.mul_1_r; reflexivity) R) in R.
  replace (w * 2 ^ 1074 * 10 ^ q) with (w * 10 ^ q * 2 ^ 1074) by (set (y := 2 ^ 1074); ring). exact R.
Qed.

(** ** The general path *)

(** The exponent that was read, and the exponent of the number *)
Definition close (q' q : Z) : Prop := q' = q \/ (308 < q' /\ 308 < q) \/ (q' < -342 /\ q < -342).
Lemma compute_close q' q w : close q' q -> 0 < w < 2 ^ 64 -> exists am, compute_float q' w = Ok am /\ well am /\ pattern10 (to_float false am) w q /\
  (-342 <= q' <= 308 \/ am = Adjusted 0 (if 308 <? q' then 0x7FF else 0)).
Proof.
  intros [->|[[H1 H2]|[H1 H2]]] Hw.
  - destruct (compute_float_ok q w Hw) as (am & E & W & P). exists am. repeat (split; [assumption|]).
    destruct (Z_lt_le_dec q (-342)) as [H|H]; [right|destruct (Z_lt_le_dec 308 q) as [H3|H3]; [right|left; lia]]; revert E; unfold compute_float.
    + destruct (Z.ltb_spec q (-342)); [|lia]. rewrite orb_true_r. intros E. injection E as <-. destruct (Z.ltb_spec 308 q); [lia|reflexivity].
    + destruct (Z.eqb_spec w 0); [lia|]. destruct (Z.ltb_spec q (-342)); [lia|]. cbn [orb]. destruct (Z.ltb_spec 308 q); [|lia]. intros E. injection E as <-. reflexivity.
  - exists (Adjusted 0 0x7FF). unfold compute_float. destruct (Z.eqb_spec w 0); [lia|]. destruct (Z.ltb_spec q' (-342)); [lia|]. cbn [orb]. destruct (Z.ltb_spec 308 q'); [|lia].
    split; [reflexivity|]. split; [unfold well; cbn; lia|]. split; [|right; reflexivity]. apply pattern10_large; lia.
  - exists (Adjusted 0 0). unfold compute_float. destruct (Z.ltb_spec q' (-342)); [|lia]. rewrite orb_true_r. split; [reflexivity|]. split; [unfold well; cbn; lia|].
    split; [apply pattern10_small; lia|]. right. destruct (Z.ltb_spec 308 q'); [lia|reflexivity].
Qed.

Lemma same_spec a b : same a b = true <-> a = b.
Proof.
  unfold same. rewrite andb_true_iff, !Z.eqb_eq. destruct a, b; cbn. split; [intros [-> ->]; reflexivity|intros H; injection H as -> ->; split; reflexivity].
Qed.

Definition adjusted_of (n : parsed) : outcome adjusted :=
  do am <- compute_float (pn_exponent n) (pn_mantissa n);
  do am <- (if pn_too_many n && (0 <=? am_power2 am) then
              do am' <- compute_float (pn_exponent n) (w64 (pn_mantissa n + 1));
              if same am am' then Ok am else compute_error (pn_exponent n) (pn_mantissa n)
            else Ok am);
  if am_power2 am <? 0 then digit_comp n am else Ok am.

Lemma pattern10_zero e : pattern10 0 0 e.
Proof.
  left. split; [unfold finite; lia|]. rewrite !Z.mul_0_l. unfold nearest. change (Z.even 0) with true. cbv iota. change (0 - 1) with (-1). rewrite magnitude_minus_one.
  change (magnitude 0) with 0. change (magnitude (0 + 1)) with 1. pose proof (pow10_pos' (Z.max 0 (- e))). lia.
Qed.

Lemma adjusted_ok n ints frac x x' : pn_integer n = ints -> pn_fraction n = Some frac \/ (pn_fraction n = None /\ frac = []) -> Forall is_digit ints -> Forall is_digit frac ->
  Z.of_nat (length (ints ++ frac)) < 2 ^ 27 -> saturated x x' ->
  let m := digits_value (ints ++ frac) in let e := x - Z.of_nat (length frac) in
  ((m < 10 ^ 19 /\ pn_too_many n = false /\ pn_mantissa n = m /\ pn_exponent n = x' - Z.of_nat (length frac)) \/
   (10 ^ 19 <= m /\ pn_too_many n = true /\ exists j low, m = pn_mantissa n * 10 ^ j + low /\ 0 <= low < 10 ^ j /\ 1 <= j <= Z.of_nat (length (ints ++ frac)) /\
        pn_exponent n = x' - Z.of_nat (length frac) + j /\ 10 ^ 18 <= pn_mantissa n < 10 ^ 19)) ->
  exists am, adjusted_of n = Ok am /\ well am /\ pattern10 (to_float false am) m e.
Proof.
  intros Ei Ef Hi Hf Hlen Hsat m e H. unfold adjusted_of.
  assert (0 <= m) as Hm0 by (apply digits_bound; apply Forall_app; split; assumption).
  assert (Z.of_nat (length frac) <= Z.of_nat (length (ints ++ frac))) as Hfl by (rewrite app_length; lia).
  destruct H as [(Hm & -> & -> & ->)|(Hm & -> & j & low & Em & Hlow & Hj & Eq & Hw)].
  - cbn [andb]. destruct (Z.eq_dec m 0) as [E|E].
    + rewrite E. change (compute_float (x' - Z.of_nat (length frac)) 0) with (Ok (Adjusted 0 0)). cbn [obind am_power2]. change (0 <? 0) with false. cbv iota.
      eexists. split; [reflexivity|]. split; [unfold well; cbn; lia|]. apply pattern10_zero.
    + destruct (compute_close (x' - Z.of_nat (length frac)) e m) as (am & -> & W & P & _); [unfold close, e; unfold saturated in Hsat; lia|lia|].
      cbn [obind]. destruct (Z.ltb_spec (am_power2 am) 0) as [C|_]; [destruct W as [W _]; lia|]. exists am. repeat split; assumption || apply W.
  - set (w := pn_mantissa n) in *. set (q := pn_exponent n) in *.
    assert (close q (e + j)) as Hc by (unfold close, e; unfold saturated in Hsat; lia).
    destruct (compute_close q (e + j) w Hc ltac:(lia)) as (am0 & E0 & W0 & P0 & R0). rewrite E0. cbn [obind].
    destruct (Z.leb_spec 0 (am_power2 am0)) as [_|C]; [|destruct W0; lia]. cbn [andb].
    assert (w64 (w + 1) = w + 1) as -> by (unfold w64; apply Z.mod_small; lia).
    destruct (compute_close q (e + j) (w + 1) Hc ltac:(lia)) as (am1 & E1 & W1 & P1 & R1). rewrite E1. cbn [obind].
    destruct (same am0 am1) eqn:Es.
    + apply same_spec in Es. rewrite Es in *. cbn [obind]. destruct (Z.ltb_spec (am_power2 am1) 0) as [C|_]; [destruct W1; lia|]. exists am1. split; [reflexivity|]. split; [exact W1|].
      apply (pattern10_digits _ w (e + j) m e j); [lia|reflexivity|rewrite Em; lia|exact P0|exact P1].
    + assert (am0 <> am1) as Hne by (intros C; apply same_spec in C; congruence).
      assert (-342 <= q <= 308) as Hq by (destruct R0 as [|A0]; [assumption|]; destruct R1 as [|A1]; [assumption|]; congruence).
      assert (q = e + j) as Eqj by (unfold close in Hc; lia).
      destruct (digit_comp_ok n ints frac e j low am0 am1 Ei Ef Hi Hf Em Hlow ltac:(lia) Eqj Hw Hq E0 E1 Hne) as (ame & am & Ee & Hneg & Ed & W & P).
      fold q w in Ee. rewrite Ee. cbn [obind]. destruct (Z.ltb_spec (am_power2 ame) 0); [|lia]. exists am. repeat split; assumption || apply W.
Qed.

(** ** From the parts to the number *)

Lemma from_parts_ok to_nearest mul n ints frac x x' : to_nearest = true \/ exact_products mul ->
  pn_integer n = ints -> pn_fraction n = Some frac \/ (pn_fraction n = None /\ frac = []) -> Forall is_digit ints -> Forall is_digit frac ->
  Z.of_nat (length (ints ++ frac)) < 2 ^ 27 -> saturated x x' ->
  let m := digits_value (ints ++ frac) in let e := x - Z.of_nat (length frac) in
  ((m < 10 ^ 19 /\ pn_too_many n = false /\ pn_mantissa n = m /\ pn_exponent n = x' - Z.of_nat (length frac)) \/
   (10 ^ 19 <= m /\ pn_too_many n = true /\ exists j low, m = pn_mantissa n * 10 ^ j + low /\ 0 <= low < 10 ^ j /\ 1 <= j <= Z.of_nat (length (ints ++ frac)) /\
        pn_exponent n = x' - Z.of_nat (length frac) + j /\ 10 ^ 18 <= pn_mantissa n < 10 ^ 19)) ->
  answer n m e (from_parts to_nearest mul n).
Proof.
  intros Hmode Ei Ef Hi Hf Hlen Hsat m e H. destruct (adjusted_ok n ints frac x x' Ei Ef Hi Hf Hlen Hsat H) as (am & Ea & Wa & Pa). fold m e in Pa.
  assert (0 <= m) as Hm0 by (apply digits_bound; apply Forall_app; split; assumption).
  assert (Z.of_nat (length frac) <= Z.of_nat (length (ints ++ frac))) as Hfl by (rewrite app_length; lia).
  unfold from_parts. cbv zeta.
  set (slow := obind (compute_float (pn_exponent n) (pn_mantissa n)) _).
  assert (answer n m e slow) as Hslow.
  { assert (slow = obind (adjusted_of n) (fun am =>
      if (negb (pn_mantissa n =? 0) && (am_mantissa am =? 0) && (am_power2 am =? 0)) || (am_power2 am =? 0x7FF) then Err EINVAL
      else Ok (Z.to_N (to_float (pn_negative n) am), pn_rest n))) as ->.
    { unfold slow, adjusted_of. destruct (compute_float (pn_exponent n) (pn_mantissa n)) as [a| | |]; cbn [obind]; try reflexivity.
      match goal with |- obind ?c _ = obind (obind ?c _) _ => destruct c; reflexivity end. }
    rewrite Ea. cbn [obind].
    assert (pn_mantissa n = 0 <-> m = 0) as Hz.
    { destruct H as [(_ & _ & -> & _)|(Hm & _ & j & low & _ & _ & _ & _ & Hw)]; [reflexivity|]. lia. }
    destruct (Z.eqb_spec (am_power2 am) 0x7FF) as [T|T].
    - rewrite orb_true_r. cbn [answer]. split; [reflexivity|]. left. apply too_large_is. apply (to_float_top am Wa) in T. destruct Pa as [[F _]|[_ B]]; [|exact B].
      rewrite T in F. unfold finite, top in F. lia.
    - rewrite orb_false_r. destruct (negb (pn_mantissa n =? 0) && (am_mantissa am =? 0) && (am_power2 am =? 0)) eqn:Ez.
      + cbn [answer]. split; [reflexivity|]. right. apply andb_true_iff in Ez. destruct Ez as [Ez Z2]. apply andb_true_iff in Ez. destruct Ez as [Z0 Z1].
        apply negb_true_iff, Z.eqb_neq in Z0. apply Z.eqb_eq in Z1, Z2. pose proof (proj1 (to_float_zero am Wa) (conj Z1 Z2)) as F0. rewrite F0 in Pa.
        split; [intros E; apply Z0, Hz; exact E|]. apply nearest_double_is. destruct Pa as [[_ N]|[C _]]; [exact N|]. unfold top in C. lia.
      + assert (finite (to_float false am)) as F.
        { pose proof (to_float_bounds am Wa) as B. assert (to_float false am <> top) by (intros C; apply T, (to_float_top am Wa); exact C). unfold finite. fold top. lia. }
        assert (to_float (pn_negative n) am = to_float false am + if pn_negative n then 2 ^ 63 else 0) as ->.
        { destruct (pn_negative n); [apply to_float_sign; exact Wa|lia]. }
        apply answer_signed; [exact F|exact Pa|]. intros F0. apply (to_float_zero am Wa) in F0. destruct F0 as [-> ->] in Ez. rewrite andb_true_r in Ez.
        change (0 =? 0) with true in Ez. rewrite andb_true_r in Ez. apply negb_false_iff, Z.eqb_eq in Ez. apply Hz. exact Ez. }
  clearbody slow. clear am Ea Wa Pa.
  destruct ((-22 <=? pn_exponent n) && (pn_exponent n <=? 22) && negb (pn_too_many n)) eqn:Eq; [|exact Hslow].
  apply andb_true_iff in Eq. destruct Eq as [Eq Em]. apply andb_true_iff in Eq. destruct Eq as [Q1 Q2]. apply Z.leb_le in Q1, Q2. apply negb_true_iff in Em.
  destruct H as [(Hm & _ & Ew & Ex)|(_ & C & _)]; [|congruence].
  assert (pn_exponent n = e) as Ee by (unfold e; unfold saturated in Hsat; lia). rewrite Ew, Ee in *.
  destruct to_nearest.
  - destruct (Z.leb_spec m (2 ^ 53)) as [Hw|_]; [|exact Hslow]. pose proof (fast_ok m e ltac:(lia) ltac:(lia)) as P.
    destruct (small_pattern _ m e ltac:(lia) ltac:(lia) P) as [F Z0]. apply answer_signed; assumption.
  - destruct Hmode as [C|Hmul]; [discriminate|]. destruct (Z.leb_spec 0 e) as [H0|_]; [|exact Hslow]. cbn [andb]. destruct (Z.leb_spec m (max_mantissa e)) as [Hw|_]; [|exact Hslow].
    destruct (directed_ok mul m e Hmul ltac:(lia) ltac:(lia)) as [W P]. destruct (small_pattern _ m e ltac:(lia) ltac:(lia) P) as [F Z0]. apply answer_signed; assumption.
Qed.

(** ** Texts *)

Definition bytes256 (t : bytes) : Prop := Forall (fun c => (c < 256)%N) t.

Lemma fraction_ok point frac : point = [46%N] \/ (point = [] /\ frac = []) -> fraction_of point frac = Some frac \/ (fraction_of point frac = None /\ frac = []).
Proof. intros [->|[-> ->]]; [left; reflexivity|right; split; reflexivity]. Qed.

Lemma read_parts to_nearest mul negative ints point frac expo x rest : to_nearest = true \/ exact_products mul ->
  let t := minus negative ++ ints ++ point ++ frac ++ expo ++ rest in
  bytes256 t -> Z.of_nat (length t) < 2 ^ 27 ->
  Forall is_digit ints -> Forall is_digit frac -> ints ++ frac <> [] -> (point = [46%N] \/ (point = [] /\ frac = [] /\ no_point (expo ++ rest))) ->
  exponent_text expo x -> stops (expo ++ rest) -> (expo = [] -> no_more_exponent rest) -> (expo <> [] -> stops rest) ->
  match from_chars to_nearest mul t with
  | Ok (f, r) => r = rest /\ rounded negative (digits_value (ints ++ frac)) (x - Z.of_nat (length frac)) f /\ (unsigned f = 0 -> digits_value (ints ++ frac) = 0)
  | Err c => c = EINVAL /\ (too_large (digits_value (ints ++ frac)) (x - Z.of_nat (length frac)) \/ too_small (digits_value (ints ++ frac)) (x - Z.of_nat (length frac)))
  | _ => False
  end.
Proof.
  intros Hmode t Hb Hlen Hi Hf Hne Hp He Hst H1 H2.
  assert (exists x', parse_exponent (expo ++ rest) = (rest, x') /\ saturated x x') as (x' & Ex & Hsat).
  { destruct expo as [|c q] eqn:Ee.
    - exists 0. cbn [app]. rewrite parse_exponent_none by (apply H1; reflexivity). split; [reflexivity|]. inversion He; [left; reflexivity|].
      exfalso. match goal with L : _ = $"e" \/ _ = $"E" |- _ => destruct L as [-> | ->]; discriminate end.
    - apply parse_exponent_some; [exact He|discriminate|apply H2; discriminate]. }
  assert (bytes256 (expo ++ rest)) as Hbt by (unfold bytes256, t in *; repeat (apply Forall_app in Hb; destruct Hb as [? Hb]); apply Forall_app; split; assumption).
  destruct (parse_parts negative ints point frac (expo ++ rest) rest x' Hi Hf Hbt Hne Hp Hst Ex) as (n & En & Er & Eneg & Ei & Efr & Hn). fold t in En.
  unfold from_chars. rewrite En. assert (t <> []) as Htne by (intros C; rewrite C in En; discriminate). destruct t as [|c0 t0] eqn:Et; [congruence|].
  pose proof (from_parts_ok to_nearest mul n ints frac x x' Hmode Ei ltac:(rewrite Efr; apply fraction_ok; intuition) Hi Hf) as A.
  rewrite <- Er, <- Eneg. apply A; [|exact Hsat|exact Hn]. rewrite <- Et in Hlen. unfold t in Hlen. rewrite !app_length in *. lia.
Qed.
