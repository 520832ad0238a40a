(** * Numbers with many digits *)
From Verif Require Import Base BaseFacts RyuSpec FastFloatModel FastFloatTables FastFloatSpec FastFloatScaled FastFloatRound FastFloatCompute RyuShortest RyuDecimal RyuDouble.
Local Open Scope Z_scope.

(** ** Scales *)

Lemma pattern10_shift n m e j : 0 <= j -> pattern10 n m (e + j) <-> pattern10 n (m * 10 ^ j) e.
Proof.
  intros Hj. unfold pattern10.
  assert (0 < 10 ^ Z.max 0 (- e)) as P1 by (apply pow10_pos'; lia). assert (0 < 10 ^ Z.max 0 (- (e + j))) as P2 by (apply pow10_pos'; lia).
  assert (m * 2 ^ 1074 * 10 ^ Z.max 0 (e + j) * 10 ^ Z.max 0 (- e) = m * 10 ^ j * 2 ^ 1074 * 10 ^ Z.max 0 e * 10 ^ Z.max 0 (- (e + j))) as E.
  { assert (10 ^ Z.max 0 (e + j) * 10 ^ Z.max 0 (- e) = 10 ^ j * 10 ^ Z.max 0 e * 10 ^ Z.max 0 (- (e + j))) as E.
    { rewrite <- !Z.pow_add_r by lia. f_equal. lia. }
    set (c := 2 ^ 1074). transitivity (m * c * (10 ^ Z.max 0 (e + j) * 10 ^ Z.max 0 (- e))); [ring|]. rewrite E. ring. }
  split; apply pattern_same; try assumption. symmetry. exact E.
Qed.
Lemma pattern10_between n m1 m m2 e : m1 <= m <= m2 -> pattern10 n m1 e -> pattern10 n m2 e -> pattern10 n m e.
Proof.
  intros Hm. apply pattern_between.
  assert (0 <= 2 ^ 1074 * 10 ^ Z.max 0 e) as H by (apply Z.mul_nonneg_nonneg; apply Z.pow_nonneg; lia).
  rewrite <- !Z.mul_assoc. split; apply Z.mul_le_mono_nonneg_r; try exact H; lia.
Qed.
(** The digits after the nineteenth do not matter when nineteen digits and the next larger number give the same. *)
Lemma pattern10_digits n w q m e j : 0 <= j -> q = e + j -> w * 10 ^ j <= m <= (w + 1) * 10 ^ j -> pattern10 n w q -> pattern10 n (w + 1) q -> pattern10 n m e.
Proof.
  intros Hj -> Hm H1 H2. apply (pattern10_between n (w * 10 ^ j) m ((w + 1) * 10 ^ j) e Hm); apply pattern10_shift; assumption.
Qed.

(** ** Halfway points have few digits *)

Lemma halves n : 0 <= n < top -> exists k, 0 <= k /\ (2 ^ k | magnitude n + magnitude (n + 1)) /\ 0 < magnitude n + magnitude (n + 1) < 2 ^ (54 + k).
Proof.
  intros Hn. unfold top in Hn.
  assert (exists k r, 0 <= k /\ 0 <= r < 2 ^ 53 /\ (k = 0 \/ 2 ^ 52 <= r) /\ n = k * 2 ^ 52 + r) as (k & r & Hk & Hr & Hkr & En).
  { destruct (Z_lt_le_dec n (2 ^ 53)) as [H|H]; [exists 0, n; lia|].
    exists (n / 2 ^ 52 - 1), (2 ^ 52 + n mod 2 ^ 52). clear Hn. Z.div_mod_to_equations. lia. }
  exists k. split; [exact Hk|]. rewrite En. replace (k * 2 ^ 52 + r + 1) with (k * 2 ^ 52 + (r + 1)) by ring. rewrite !magnitude_at by lia.
  assert (0 < 2 ^ k) by (apply Z.pow_pos_nonneg; lia).
  replace (r * 2 ^ k + (r + 1) * 2 ^ k) with ((2 * r + 1) * 2 ^ k) by ring. split; [exists (2 * r + 1); reflexivity|].
  rewrite Z.pow_add_r by lia. split; [apply Z.mul_pos_pos; lia|]. apply Z.mul_lt_mono_pos_r; lia.
Qed.

Lemma divides_pow2 h a b : 0 <= b -> 0 <= a -> (2 ^ b | h) -> (2 ^ (a + b) | h * 2 ^ a).
Proof. intros Hb Ha [z ->]. exists z. rewrite Z.pow_add_r by lia. ring. Qed.

(** Where the first 769 digits of a number are [b]: no halfway point is strictly between [b] and [b + 1], in units of the last digit. *)
Lemma gap n b s : 0 <= n < top -> s <= 326 - 768 -> 10 ^ 768 <= b ->
  b * 2 ^ 1075 < (magnitude n + magnitude (n + 1)) * 10 ^ (- s) -> (b + 1) * 2 ^ 1075 <= (magnitude n + magnitude (n + 1)) * 10 ^ (- s).
Proof.
  intros Hn Hs Hb Hlt. destruct (halves n Hn) as (k & Hk & Hdiv & Hh). set (h := magnitude n + magnitude (n + 1)) in *. clearbody h. clear Hn.
  assert (2 ^ 1075 | h * 10 ^ (- s)) as [z Hz].
  { rewrite pow10_split by lia. replace (h * (5 ^ (- s) * 2 ^ (- s))) with (5 ^ (- s) * (h * 2 ^ (- s))) by ring. apply Z.divide_mul_r.
    destruct (Z_le_gt_dec 1075 (- s)) as [H|H].
    - replace (- s) with (1075 + (- s - 1075)) by lia. rewrite Z.pow_add_r by lia. exists (h * 2 ^ (- s - 1075)). ring.
    - assert (1075 - (- s) <= k) as Hk'.
      { destruct (Z_le_gt_dec (1075 - - s) k) as [|Hgt]; [assumption|exfalso].
        assert (h * 10 ^ (- s) < 2 ^ (54 + k) * 10 ^ (- s)) as C1 by (apply Z.mul_lt_mono_pos_r; [apply pow10_pos'; lia|lia]).
        assert (10 ^ 768 * 2 ^ 1075 <= b * 2 ^ 1075) as C2 by (apply Z.mul_le_mono_nonneg_r; [apply Z.pow_nonneg; lia|lia]).
        assert (2 ^ (54 + k) * 10 ^ (- s) <= 2 ^ (54 + (1074 + s)) * 10 ^ (- s)) as C3.
        { apply Z.mul_le_mono_nonneg_r; [apply Z.pow_nonneg; lia|]. apply Z.pow_le_mono_r; lia. }
        assert (2 ^ (54 + (1074 + s)) * 10 ^ (- s) = 2 ^ 1128 * 5 ^ (- s)) as C4.
        { rewrite pow10_split by lia. replace (2 ^ 1128) with (2 ^ (54 + (1074 + s)) * 2 ^ (- s)) by (rewrite <- Z.pow_add_r by lia; f_equal; lia). ring. }
        assert (5 ^ (- s) <= 5 ^ 1074) as C5 by (apply Z.pow_le_mono_r; lia).
        assert (2 ^ 1128 * 5 ^ (- s) <= 2 ^ 1128 * 5 ^ 1074) as C6 by (apply Z.mul_le_mono_nonneg_l; [apply Z.pow_nonneg; lia|exact C5]).
        assert (2 ^ 1128 * 5 ^ 1074 < 10 ^ 768 * 2 ^ 1075) as C7 by (vm_compute; reflexivity).
        clear - Hlt C1 C2 C3 C4 C6 C7. rewrite C4 in C3.
        remember (2 ^ 1128 * 5 ^ 1074) as v1 eqn:V1. remember (10 ^ 768 * 2 ^ 1075) as v2 eqn:V2. remember (b * 2 ^ 1075) as v3 eqn:V3. clear V1 V2 V3. lia. }
      replace 1075 with (- s + (1075 - - s)) by lia. apply divides_pow2; [lia|lia|]. apply Z.divide_trans with (2 ^ k); [|exact Hdiv].
      exists (2 ^ (k - (1075 - - s))). rewrite <- Z.pow_add_r by lia. f_equal. lia. }
  rewrite Hz in *. remember (2 ^ 1075) as c eqn:Hc. assert (0 < c) as Hcp by (rewrite Hc; reflexivity). clear Hc.
  assert (b < z) by (apply (Zmult_lt_reg_r _ _ c); [exact Hcp|exact Hlt]). apply Z.mul_le_mono_nonneg_r; lia.
Qed.

(** A digit 1 stands for all digits that follow, if they are not all zeros. *)
Lemma sticky n m e b j rho : 1 <= j -> m = b * 10 ^ j + rho -> 0 < rho < 10 ^ j -> 10 ^ 768 <= b -> e + j <= 326 - 768 ->
  pattern10 n (b * 10 + 1) (e + j - 1) -> pattern10 n m e.
Proof.
  intros Hj Em Hrho Hb He H.
  assert (0 < 10 ^ j) as Pj by (apply pow10_pos'; lia).
  assert (pattern10 n ((b * 10 + 1) * 10 ^ (j - 1)) e) as H' by (apply pattern10_shift; [lia|]; replace (e + (j - 1)) with (e + j - 1) by ring; exact H). clear H.
  set (m' := (b * 10 + 1) * 10 ^ (j - 1)) in *.
  assert (10 ^ j = 10 * 10 ^ (j - 1)) as Ej. { replace j with (1 + (j - 1)) at 1 by lia. rewrite Z.pow_add_r by lia. reflexivity. }
  assert (0 < 10 ^ (j - 1)) as Pj1 by (apply pow10_pos'; lia).
  assert (b * 10 ^ j < m' /\ m' < (b + 1) * 10 ^ j) as Hm'.
  { unfold m'. rewrite Ej. set (y := 10 ^ (j - 1)) in *. clearbody y. split; nia. }
  assert (b * 10 ^ j < m /\ m < (b + 1) * 10 ^ j) as Hm by (rewrite Em; split; lia).
  clearbody m'. clear Em Ej Pj1.
  (* Both numbers lie on the same side of every halfway point *)
  assert (forall z, 0 <= z < top -> let h := (magnitude z + magnitude (z + 1)) * 10 ^ (- e) in
            (h < 2 * m * 2 ^ 1074 /\ h < 2 * m' * 2 ^ 1074) \/ (2 * m * 2 ^ 1074 < h /\ 2 * m' * 2 ^ 1074 < h)) as Hside.
  { intros z Hz h. unfold h. clear h. pose proof (gap z b (e + j) Hz He Hb) as G. set (h := magnitude z + magnitude (z + 1)) in *. clearbody h.
    assert (h * 10 ^ (- e) = h * 10 ^ (- (e + j)) * 10 ^ j) as Eh by (rewrite <- Z.mul_assoc, <- Z.pow_add_r by lia; f_equal; f_equal; lia).
    rewrite Eh. replace (2 * m * 2 ^ 1074) with (m * 2 ^ 1075) by (change (2 ^ 1075) with (2 * 2 ^ 1074); ring).
    replace (2 * m' * 2 ^ 1074) with (m' * 2 ^ 1075) by (change (2 ^ 1075) with (2 * 2 ^ 1074); ring).
    remember (2 ^ 1075) as c eqn:Hc. assert (0 < c) as Hcp by (rewrite Hc; reflexivity). clear Hc Eh.
    set (y := h * 10 ^ (- (e + j))) in *. clearbody y. set (u := 10 ^ j) in *. clearbody u.
    assert (b * u * c < m * c) as M1 by (apply Z.mul_lt_mono_pos_r; lia). assert (b * u * c < m' * c) as M2 by (apply Z.mul_lt_mono_pos_r; lia).
    assert (m * c < (b + 1) * u * c) as M3 by (apply Z.mul_lt_mono_pos_r; lia). assert (m' * c < (b + 1) * u * c) as M4 by (apply Z.mul_lt_mono_pos_r; lia).
    destruct (Z_le_gt_dec y (b * c)) as [L|L].
    - left. assert (y * u <= b * c * u) by (apply Z.mul_le_mono_nonneg_r; lia). lia.
    - right. specialize (G ltac:(lia)). assert ((b + 1) * c * u <= y * u) by (apply Z.mul_le_mono_nonneg_r; lia). lia. }
  assert (Z.max 0 e = 0 /\ Z.max 0 (- e) = - e) as [E0 E1] by lia.
  assert (0 <= b * 10 ^ j) as Hb0 by (apply Z.mul_nonneg_nonneg; [|lia]; clear - Hb; assert (0 <= 10 ^ 768) by (apply Z.pow_nonneg; lia); lia).
  unfold pattern10 in *. rewrite E0, E1, Z.pow_0_r, !Z.mul_1_r in *.
  assert (0 <= m * 2 ^ 1074 /\ 0 <= m' * 2 ^ 1074) as [P0 P0'] by (split; apply Z.mul_nonneg_nonneg; try (apply Z.pow_nonneg; lia); lia).
  destruct H' as [[F N]|[T B]]; [left|right]; (split; [assumption|]).
  - unfold nearest in *. 
    assert (let h := (magnitude (n - 1) + magnitude n) * 10 ^ (- e) in
            (h < 2 * (m * 2 ^ 1074) /\ h < 2 * (m' * 2 ^ 1074)) \/ (2 * (m * 2 ^ 1074) < h /\ 2 * (m' * 2 ^ 1074) < h) \/ n = 0) as S1.
    { destruct (Z.eq_dec n 0) as [|Hn0]; [right; right; assumption|]. unfold finite in F. fold top in F.
      pose proof (Hside (n - 1) ltac:(lia)) as S. replace (n - 1 + 1) with n in S by lia. cbv zeta in *. rewrite !Z.mul_assoc. tauto. }
    pose proof (Hside n ltac:(unfold finite in F; fold top in F; exact F)) as S2. cbv zeta in *. rewrite <- !Z.mul_assoc in S2.
    set (lo := (magnitude (n - 1) + magnitude n) * 10 ^ (- e)) in *. set (hi' := (magnitude n + magnitude (n + 1)) * 10 ^ (- e)) in *.
    assert (n = 0 -> lo = 0) as L0 by (intros ->; reflexivity).
    clearbody lo hi'. set (a := m * 2 ^ 1074) in *. set (a' := m' * 2 ^ 1074) in *. clearbody a a'. clear - S1 S2 N L0 P0 P0'.
    destruct (Z.even n) eqn:Ev.
    + destruct S1 as [S1|[S1|S1]]; [lia|lia|]. specialize (L0 S1). lia.
    + destruct S1 as [S1|[S1|S1]]; [lia|lia|]. subst n. discriminate Ev.
  - unfold beyond in *. pose proof (Hside (top - 1) ltac:(unfold top; lia)) as S. replace (top - 1 + 1) with top in S by lia. cbv zeta in S.
    rewrite <- !Z.mul_assoc in S. set (h := (magnitude (top - 1) + magnitude top) * 10 ^ (- e)) in *. clearbody h.
    set (a := m * 2 ^ 1074) in *. set (a' := m' * 2 ^ 1074) in *. clearbody a a'. clear - S B. lia.
Qed.

(** ** Rounding with a shift *)

Lemma tie_even_normal m p shift cb : 0 <= m < 2 ^ 64 -> 1 <= shift <= 63 ->
  round_nearest_tie_even (Adjusted m p) shift cb =
  Adjusted (m / 2 ^ shift + (if cb (Z.odd (m / 2 ^ shift)) (m mod 2 ^ shift =? 2 ^ (shift - 1)) (2 ^ (shift - 1) <? m mod 2 ^ shift) then 1 else 0)) (p + shift).
Proof.
  intros Hm Hs. unfold round_nearest_tie_even. cbn [am_mantissa am_power2].
  destruct (Z.eqb_spec shift 64); [lia|]. destruct (Z.eqb_spec shift 0); [lia|].
  assert (2 ^ shift - 1 = Z.ones shift) as -> by (rewrite Z.ones_equiv; lia). rewrite Z.land_ones, Z.shiftr_div_pow2 by lia.
  assert (0 <= m / 2 ^ shift < 2 ^ 63) as B.
  { split; [apply Z.div_pos; [lia|apply Z.pow_pos_nonneg; lia]|]. apply Z.div_lt_upper_bound; [apply Z.pow_pos_nonneg; lia|].
    assert (2 ^ 1 <= 2 ^ shift) by (apply Z.pow_le_mono_r; lia). change (2 ^ 1) with 2 in H.
    assert (2 * 2 ^ 63 <= 2 ^ shift * 2 ^ 63) by (apply Z.mul_le_mono_nonneg_r; lia). lia. }
  assert (forall y, 0 <= y -> (Z.land y 1 =? 1) = Z.odd y) as Eo.
  { intros y Hy. rewrite land_1 by exact Hy. rewrite Zodd_mod. unfold Zeq_bool. destruct (Z.eqb_spec (y mod 2) 1) as [->|H]; [reflexivity|].
    destruct (Z.compare_spec (y mod 2) 1); [contradiction|reflexivity|reflexivity]. }
  rewrite Eo by lia. set (y := m / 2 ^ shift) in *. set (tb := m mod 2 ^ shift). clearbody y tb. f_equal. unfold w64. apply Z.mod_small.
  match goal with |- context [if ?b then _ else _] => destruct b end; lia.
Qed.
Lemma tie_even_all m p cb : 0 <= m < 2 ^ 64 ->
  round_nearest_tie_even (Adjusted m p) 64 cb = Adjusted (if cb false (m =? 2 ^ 63) (2 ^ 63 <? m) then 1 else 0) (p + 64).
Proof.
  intros Hm. unfold round_nearest_tie_even. cbn [am_mantissa am_power2]. change (64 =? 64) with true. change (64 =? 0) with false. cbv iota.
  change (2 ^ 64 - 1) with (Z.ones 64). rewrite Z.land_ones, Z.mod_small by lia. change (Z.land 0 1 =? 1) with false. change (2 ^ (64 - 1)) with (2 ^ 63).
  destruct (cb false (m =? 2 ^ 63) (2 ^ 63 <? m)); reflexivity.
Qed.

(** [x] is [t] units [d] and a rest; rounded to units of [2^11 * d] *)
Lemma nearest_sticky x d t rho : 0 < d -> x = t * d + rho -> 0 <= rho < d -> 0 <= t ->
  nearest_even x (d * 2 ^ 11) (t / 2 ^ 11 + (if (2 ^ 10 <? t mod 2 ^ 11) || ((t mod 2 ^ 11 =? 2 ^ 10) && negb (rho =? 0)) || (Z.odd (t / 2 ^ 11) && (t mod 2 ^ 11 =? 2 ^ 10)) then 1 else 0)).
Proof.
  intros Hd Hx Hrho Ht. pose proof (Z.div_mod t (2 ^ 11) ltac:(lia)) as E. pose proof (Z.mod_pos_bound t (2 ^ 11) ltac:(reflexivity)) as B.
  set (r := t / 2 ^ 11) in *. set (c := t mod 2 ^ 11) in *. clearbody r c. subst x. rewrite E. change (2 ^ 11) with 2048 in *. change (2 ^ 10) with 1024.
  unfold nearest_even.
  assert (forall v, v * (d * 2048) - ((2048 * r + c) * d + rho) = (v - r) * d * 2048 - c * d - rho) as Ev by (intros; ring). rewrite Ev.
  destruct (Z.ltb_spec 1024 c) as [C|C]; cbn [orb].
  - replace (r + 1 - r) with 1 by lia. assert (1025 * d <= c * d <= 2047 * d) as Bd by (split; apply Z.mul_le_mono_nonneg_r; lia).
    clear - Bd Hrho Hd. set (y := c * d) in *. clearbody y. split; [lia|intros X; exfalso; lia].
  - destruct (Z.eqb_spec c 1024) as [->|Hc]; cbn [andb].
    + destruct (Z.eqb_spec rho 0) as [->|Hr0]; cbn [negb orb].
      * rewrite andb_true_r. destruct (Z.odd r) eqn:Or.
        -- replace (r + 1 - r) with 1 by lia. split; [lia|]. intros _. rewrite Z.even_add, <- Z.negb_odd, Or. reflexivity.
        -- replace (r + 0 - r) with 0 by lia. split; [lia|]. intros _. rewrite Z.add_0_r, <- Z.negb_odd, Or. reflexivity.
      * replace (r + 1 - r) with 1 by lia. clear - Hrho Hr0 Hd. split; [lia|intros X; exfalso; lia].
    + rewrite andb_false_r. cbn [orb]. replace (r + 0 - r) with 0 by lia. assert (0 * d <= c * d <= 1023 * d) as Bd by (split; apply Z.mul_le_mono_nonneg_r; lia).
      clear - Bd Hrho Hd. set (y := c * d) in *. clearbody y. split; [lia|intros X; exfalso; lia].
Qed.

Lemma hi64_ok v : 0 < v -> exists t rho, hi64 v = (t, negb (rho =? 0)) /\ 2 ^ 63 <= t < 2 ^ 64 /\ 0 <= rho < 2 ^ Z.max 0 (bit_length v - 64) /\
  v * 2 ^ Z.max 0 (64 - bit_length v) = t * 2 ^ Z.max 0 (bit_length v - 64) + rho /\ 1 <= bit_length v.
Proof.
  intros Hv. unfold hi64, bit_length. destruct (Z.eqb_spec v 0); [lia|]. pose proof (Z.log2_spec v Hv) as L. pose proof (Z.log2_nonneg v) as L0.
  set (l := Z.log2 v) in *. clearbody l. destruct (Z.leb_spec (l + 1) 64) as [H|H].
  - exists (v * 2 ^ (64 - (l + 1))), 0. rewrite Z.shiftl_mul_pow2 by lia. split; [reflexivity|]. rewrite (Z.max_l 0 (l + 1 - 64)), (Z.max_r 0 (64 - (l + 1))) by lia.
    rewrite Z.pow_0_r. split; [|lia].
    assert (2 ^ l * 2 ^ (64 - (l + 1)) = 2 ^ 63) as E by (rewrite <- Z.pow_add_r by lia; f_equal; lia).
    assert (0 < 2 ^ (64 - (l + 1))) by (apply Z.pow_pos_nonneg; lia).
    split; [rewrite <- E; apply Z.mul_le_mono_nonneg_r; lia|]. rewrite Z.pow_succ_r in L by lia.
    replace (2 ^ 64) with ((2 * 2 ^ l) * 2 ^ (64 - (l + 1))) by (rewrite <- Z.mul_assoc, E; reflexivity). apply Z.mul_lt_mono_pos_r; lia.
  - exists (v / 2 ^ (l + 1 - 64)), (v mod 2 ^ (l + 1 - 64)). rewrite Z.shiftr_div_pow2 by lia. split; [reflexivity|].
    rewrite (Z.max_r 0 (l + 1 - 64)), (Z.max_l 0 (64 - (l + 1))) by lia. rewrite Z.pow_0_r, Z.mul_1_r.
    assert (0 < 2 ^ (l + 1 - 64)) as P by (apply Z.pow_pos_nonneg; lia).
    assert (2 ^ l = 2 ^ 63 * 2 ^ (l + 1 - 64)) as E by (rewrite <- Z.pow_add_r by lia; f_equal; lia).
    split; [split|].
    + apply div_ge; [exact P|]. rewrite <- E. lia.
    + apply div_below; [exact P|]. rewrite Z.pow_succ_r in L by lia. change (2 ^ 64) with (2 * 2 ^ 63). rewrite <- Z.mul_assoc, <- E. lia.
    + split; [apply Z.mod_pos_bound; exact P|]. split; [|lia]. pose proof (Z.div_mod v (2 ^ (l + 1 - 64)) ltac:(lia)) as D. rewrite D at 1. ring.
Qed.

Lemma round_normal cb m p : p > -11 ->
  round (Adjusted m p) cb =
  (let am := cb (Adjusted m p) 11 in
   let (mantissa, power2) := if 2 ^ 53 <=? am_mantissa am then (2 ^ 52, am_power2 am + 1) else (am_mantissa am, am_power2 am) in
   let mantissa := Z.ldiff mantissa (2 ^ 52) in
   if 0x7FF <=? power2 then Adjusted 0 0x7FF else Adjusted mantissa power2).
Proof.
  intros Hp. unfold round. cbn [am_power2]. destruct (Z.leb_spec 11 (- p)); [lia|]. cbv zeta. destruct (2 ^ 53 <=? am_mantissa (cb (Adjusted m p) 11)); reflexivity.
Qed.
Lemma round_small cb m p : p <= -11 ->
  round (Adjusted m p) cb =
  (let am := cb (Adjusted m p) (Z.min (- p + 1) 64) in Adjusted (am_mantissa am) (if am_mantissa am <? 2 ^ 52 then 0 else 1)).
Proof. intros Hp. unfold round. cbn [am_power2]. destruct (Z.leb_spec 11 (- p)); [reflexivity|lia]. Qed.

Lemma positive_ok b x : 0 < b -> 0 <= x -> b * 10 ^ x < 2 ^ (64 * 62) ->
  exists am, positive_digit_comp b x = Ok am /\ well am /\ pattern10 (to_float false am) b x.
Proof.
  intros Hb Hx Hcap. unfold positive_digit_comp, big. destruct (Z.ltb_spec (b * 10 ^ x) (2 ^ (64 * 62))); [|lia]. cbn [obind]. clear Hcap H.
  unfold pattern10. rewrite (Z.max_r 0 x), (Z.max_l 0 (- x)), Z.pow_0_r by lia.
  replace (b * 2 ^ 1074 * 10 ^ x) with (b * 10 ^ x * 2 ^ 1074) by (set (c := 2 ^ 1074); ring).
  assert (0 < b * 10 ^ x) as Hv by (apply Z.mul_pos_pos; [exact Hb|apply pow10_pos'; exact Hx]). set (v := b * 10 ^ x) in *. clearbody v. clear b x Hb Hx.
  destruct (hi64_ok v Hv) as (t & rho & -> & Ht & Hrho & Ev & Hl). set (l := bit_length v) in *. clearbody l.
  eexists. split; [reflexivity|]. rewrite round_normal by lia. rewrite tie_even_normal by lia. cbn [am_mantissa am_power2].
  change (11 - 1) with 10.
  set (k := l + 1021). replace (l - 64 + 1075 + 11) with (k + 1) by (unfold k; lia).
  set (r := t / 2 ^ 11 + _). assert (nearest_even (v * 2 ^ 1074) (1 * 2 ^ k) r) as HR.
  { assert (v * 2 ^ 1074 = t * 2 ^ (k - 11) + rho * 2 ^ (1074 - Z.max 0 (64 - l)) /\ 0 <= rho * 2 ^ (1074 - Z.max 0 (64 - l)) < 2 ^ (k - 11)) as [EX HX].
    { assert (2 ^ 1074 = 2 ^ Z.max 0 (64 - l) * 2 ^ (1074 - Z.max 0 (64 - l))) as -> by (rewrite <- Z.pow_add_r by lia; f_equal; lia).
      assert (2 ^ (k - 11) = 2 ^ Z.max 0 (l - 64) * 2 ^ (1074 - Z.max 0 (64 - l))) as -> by (rewrite <- Z.pow_add_r by lia; f_equal; unfold k; lia).
      assert (0 < 2 ^ (1074 - Z.max 0 (64 - l))) as Py by (apply Z.pow_pos_nonneg; lia). set (y := 2 ^ (1074 - Z.max 0 (64 - l))) in *. clearbody y.
      split; [rewrite Z.mul_assoc, Ev; ring|]. split; [apply Z.mul_nonneg_nonneg; lia|]. apply Z.mul_lt_mono_pos_r; lia. }
    pose proof (nearest_sticky (v * 2 ^ 1074) (2 ^ (k - 11)) t (rho * 2 ^ (1074 - Z.max 0 (64 - l))) ltac:(apply Z.pow_pos_nonneg; lia) EX HX ltac:(lia)) as N.
    rewrite <- Z.pow_add_r in N by (unfold k; lia). replace (k - 11 + 11) with k in N by lia. rewrite Z.mul_1_l.
    assert (negb (rho * 2 ^ (1074 - Z.max 0 (64 - l)) =? 0) = negb (rho =? 0)) as En.
    { assert (0 < 2 ^ (1074 - Z.max 0 (64 - l))) as Py by (apply Z.pow_pos_nonneg; lia). set (y := 2 ^ (1074 - Z.max 0 (64 - l))) in *. clearbody y.
      f_equal. destruct (Z.eqb_spec rho 0) as [->|Hne]; [reflexivity|]. apply Z.eqb_neq. intros C. apply Z.mul_eq_0 in C. lia. }
    rewrite En in N. exact N. }
  assert (2 ^ 52 <= r <= 2 ^ 53) as Hr.
  { unfold r. clear - Ht. match goal with |- context [if ?b then _ else _] => destruct b end; Z.div_mod_to_equations; lia. }
  destruct (finish_normal r (k + 1) Hr ltac:(unfold k; lia)) as [W T]. cbv zeta in W, T. split; [exact W|]. cbv zeta. rewrite T.
  replace (k + 1 - 1) with k by lia. apply core_up; [lia|apply Z.mul_nonneg_nonneg; [lia|apply Z.pow_nonneg; lia]|unfold k; lia| |lia|exact HR].
  right. rewrite Z.mul_1_l.
  assert (2 ^ 52 * 2 ^ k = 2 ^ 63 * 2 ^ (k - 11)) as -> by (rewrite <- !Z.pow_add_r by (unfold k; lia); f_equal; lia).
  assert (2 ^ 1074 = 2 ^ Z.max 0 (64 - l) * 2 ^ (1074 - Z.max 0 (64 - l))) as -> by (rewrite <- Z.pow_add_r by lia; f_equal; lia).
  assert (2 ^ (k - 11) = 2 ^ Z.max 0 (l - 64) * 2 ^ (1074 - Z.max 0 (64 - l))) as -> by (rewrite <- Z.pow_add_r by lia; f_equal; unfold k; lia).
  rewrite !Z.mul_assoc. apply Z.mul_le_mono_nonneg_r; [apply Z.pow_nonneg; lia|]. rewrite Ev.
  assert (2 ^ 63 * 2 ^ Z.max 0 (l - 64) <= t * 2 ^ Z.max 0 (l - 64)) by (apply Z.mul_le_mono_nonneg_r; [apply Z.pow_nonneg|]; lia). lia.
Qed.
