(** * Numbers with many digits that are not integers *)
From Verif Require Import Base BaseFacts RyuSpec FastFloatModel FastFloatTables FastFloatSpec FastFloatScaled FastFloatRound FastFloatCompute FastFloatCompare RyuShortest RyuDecimal RyuDouble.
Local Open Scope Z_scope.

Lemma land_exponent n : 0 <= n < 2 ^ 63 -> Z.land n 0x7FF0000000000000 = n / 2 ^ 52 * 2 ^ 52.
Proof.
  intros Hn. change 0x7FF0000000000000 with (Z.shiftl (Z.ones 11) 52).
  assert (n / 2 ^ 52 = Z.land (Z.shiftr n 52) (Z.ones 11)) as ->.
  { rewrite Z.land_ones, Z.shiftr_div_pow2 by lia. symmetry. apply Z.mod_small. clear - Hn. Z.div_mod_to_equations; lia. }
  rewrite <- Z.shiftl_mul_pow2 by lia. apply Z.bits_inj'. intros i Hi. rewrite Z.land_spec. destruct (Z_lt_le_dec i 52) as [H|H].
  - rewrite !Z.shiftl_spec_low by exact H. apply andb_false_r.
  - rewrite !Z.shiftl_spec_high by lia. rewrite Z.land_spec, Z.shiftr_spec by lia. replace (i - 52 + 52) with i by lia. reflexivity.
Qed.
Lemma land_fraction n : Z.land n 0x000FFFFFFFFFFFFF = n mod 2 ^ 52.
Proof. change 0x000FFFFFFFFFFFFF with (Z.ones 52). apply Z.land_ones. lia. Qed.

Lemma halfway k b : 0 <= k <= 2045 -> 0 <= b < 2 ^ 53 -> (k = 0 \/ 2 ^ 52 <= b) -> to_extended_halfway (k * 2 ^ 52 + b) = Adjusted (2 * b + 1) (k - 1075).
Proof.
  intros Hk Hb Hkb. unfold to_extended_halfway. rewrite land_exponent, land_fraction by lia.
  assert (Z.shiftl 1 52 = 0x0010000000000000) as E52 by reflexivity.
  destruct (Z_lt_le_dec b (2 ^ 52)) as [H|H].
  - assert (k = 0) as -> by lia. replace (0 * 2 ^ 52 + b) with b by lia. rewrite (Z.div_small b), (Z.mod_small b) by lia. change (0 * 2 ^ 52 =? 0) with true. cbv iota.
    cbn [am_mantissa am_power2]. rewrite Z.shiftl_mul_pow2 by lia. change (2 ^ 1) with 2. unfold w64. rewrite Z.mod_small by lia. f_equal; lia.
  - assert ((k * 2 ^ 52 + b) / 2 ^ 52 = k + 1) as -> by (symmetry; apply Z.div_unique_pos with (b - 2 ^ 52); lia).
    assert ((k * 2 ^ 52 + b) mod 2 ^ 52 = b - 2 ^ 52) as -> by (symmetry; apply Z.mod_unique_pos with (k + 1); lia).
    destruct (Z.eqb_spec ((k + 1) * 2 ^ 52) 0); [lia|]. cbn [am_mantissa am_power2]. rewrite <- E52, disjoint by lia.
    rewrite (Z.shiftr_div_pow2 _ 52), Z.div_mul by lia. rewrite Z.shiftl_mul_pow2 by lia. change (2 ^ 1) with 2. unfold w64. rewrite Z.mod_small by lia. f_equal; lia.
Qed.

Definition up (ord : comparison) (odd : bool) : bool := match ord with Gt => true | Lt => false | Eq => odd end.
Lemma nearest_compared x d b : 0 < d -> b * d <= x -> 2 * x < (2 * b + 3) * d ->
  nearest_even x d (b + if up (2 * x ?= (2 * b + 1) * d) (Z.odd b) then 1 else 0).
Proof.
  intros Hd H1 H2. unfold nearest_even. destruct (Z.compare_spec (2 * x) ((2 * b + 1) * d)) as [C|C|C]; cbn [up].
  - destruct (Z.odd b) eqn:Ob; (split; [lia|]); intros _.
    + rewrite Z.even_add, <- Z.negb_odd, Ob. reflexivity.
    + rewrite Z.add_0_r, <- Z.negb_odd, Ob. reflexivity.
  - rewrite Z.add_0_r. split; [lia|]. intros X. exfalso. lia.
  - split; [lia|]. intros X. exfalso. lia.
Qed.

Section Negative.
Variables (q w x b10 j : Z).
Hypothesis Hq : -342 <= q <= 308.
Hypothesis Hw : 10 ^ 18 <= w < 10 ^ 19.
Hypothesis Hx : -1093 <= x < 0.
Hypothesis Hj : 0 <= j.
Hypothesis Exq : q = x + j.
Hypothesis Hb10 : w * 10 ^ j <= b10 <= (w + 1) * 10 ^ j.
Hypothesis Hcap : b10 < 10 ^ 770.

Lemma negative_ok am0 : compute_float q w = Ok am0 -> am_power2 am0 < 2047 \/ (exists am1, compute_float q (w + 1) = Ok am1 /\ am0 <> am1) ->
  exists ame am, compute_error q w = Ok ame /\ am_power2 ame < 0 /\
    negative_digit_comp b10 (Adjusted (am_mantissa ame) (am_power2 ame - invalid_am_bias)) x = Ok am /\ well am /\ pattern10 (to_float false am) b10 x.
Proof.
  intros Hcf Hnot. unfold compute_error.
  assert (0 < w < 2 ^ 64) as Hw64 by (clear - Hw; lia).
  destruct (normalised w Hw64) as (Hlz & Enorm & Hw'). rewrite Enorm. remember (leading_zeroes w) as lz eqn:Elz.
  destruct (product q (w * 2 ^ lz) Hq Hw') as (hi & lo & high & low & En & Epr & Hh & Hl & Hd & Hp). rewrite Epr. cbn [obind].
  rewrite (Z.shiftr_div_pow2 high 63) by lia. remember (high / 2 ^ 63) as u eqn:Eu.
  remember (high / 2 ^ (9 + u)) as f eqn:Ef. remember (power q + 1022 - lz + u) as k eqn:Ek.
  destruct (quotient q w lz u high k f Hq Hw64 Elz Hd Hh Eu Ek Ef) as (Hu & Hf & Hb & _).
  (* The significand with 64 bits *)
  assert (Z.lxor u 1 = 1 - u) as -> by (destruct Hu as [->| ->]; reflexivity).
  remember (high * 2 ^ (1 - u)) as m64 eqn:Em.
  assert (w64 (Z.shiftl high (1 - u)) = m64 /\ 2 ^ 63 <= m64 < 2 ^ 64 /\ m64 / 2 ^ 10 = f) as (-> & Hm64 & Hmf).
  { rewrite Z.shiftl_mul_pow2 by lia. rewrite <- Em. clear - Em Ef Eu Hh Hu. unfold w64. destruct Hu as [U|U]; rewrite U in *.
    - change (2 ^ (1 - 0)) with 2 in Em. change (2 ^ (9 + 0)) with 512 in Ef. assert (2 ^ 63 <= m64 < 2 ^ 64) as B by (clear Ef; Z.div_mod_to_equations; lia).
      rewrite Z.mod_small by lia. split; [reflexivity|]. split; [exact B|]. rewrite Em, Ef. change (2 ^ 10) with (512 * 2). apply Z.div_mul_cancel_r; lia.
    - change (2 ^ (1 - 1)) with 1 in Em. change (2 ^ (9 + 1)) with 1024 in Ef. assert (2 ^ 63 <= m64 < 2 ^ 64) as B by (clear Ef; Z.div_mod_to_equations; lia).
      rewrite Z.mod_small by lia. split; [reflexivity|]. split; [exact B|]. rewrite Em, Ef. rewrite Z.mul_1_r. reflexivity. }
  assert (power q <= 1086 /\ -1075 <= power q) as Hpow by (unfold power; clear - Hq; Z.div_mod_to_equations; lia).
  replace (power q + 1075 - (1 - u) - lz - 62 + invalid_am_bias) with (k - 10 + invalid_am_bias) by (clear - Ek; lia).
  exists (Adjusted m64 (k - 10 + invalid_am_bias)). cbn [am_mantissa am_power2]. replace (k - 10 + invalid_am_bias - invalid_am_bias) with (k - 10) by (clear; lia).
  (* In units of the last place *)
  set (p := 10 ^ (- x)). assert (0 < p) as Hpp by (apply pow10_pos'; clear - Hx; lia).
  set (kp := Z.max 0 k). set (b := f / 2 ^ (1 + Z.max 0 (- k))). set (d := p * 2 ^ kp).
  assert (0 < 2 ^ kp) as Hkp by (apply Z.pow_pos_nonneg; unfold kp; clear; lia).
  assert (0 < d) as Hdp by (unfold d; apply Z.mul_pos_pos; assumption).
  set (wx := w * 10 ^ j * 2 ^ 1074).
  assert (f * (p * 2 ^ kp) <= 2 * wx * 2 ^ Z.max 0 (- k) < (f + 1) * (p * 2 ^ kp)) as Hfx.
  { assert (twice q w k * p = 2 * wx * 2 ^ Z.max 0 (- k) * 10 ^ Z.max 0 (- q)) as E1.
    { clear - Hx Hj Exq. unfold twice, wx, p. assert (10 ^ Z.max 0 q * 10 ^ (- x) = 10 ^ j * 10 ^ Z.max 0 (- q)) as E by (clear - Hx Hj Exq; rewrite <- !Z.pow_add_r by lia; f_equal; lia).
      clear - E. transitivity (2 * (w * 2 ^ 1074) * 2 ^ Z.max 0 (- k) * (10 ^ Z.max 0 q * 10 ^ (- x))); [set (c := 2 ^ 1074); ring|]. rewrite E. set (c := 2 ^ 1074). ring. }
    assert (unit q k * p = p * 2 ^ kp * 10 ^ Z.max 0 (- q)) as E2 by (unfold unit; fold kp; ring).
    assert (0 < 10 ^ Z.max 0 (- q)) as Pq by (apply pow10_pos'; clear; lia).
    clear - Hb E1 E2 Pq Hpp. set (a := 2 * wx * 2 ^ Z.max 0 (- k)) in *. set (c := p * 2 ^ kp) in *. clearbody a c.
    set (y := 10 ^ Z.max 0 (- q)) in *. clearbody y. set (tw := twice q w k) in *. set (un := unit q k) in *. clearbody tw un. clearbody p. split.
    - apply (Zmult_le_reg_r _ _ y); [lia|]. rewrite <- E1. replace (f * c * y) with (f * un * p) by (rewrite <- !Z.mul_assoc; f_equal; lia). apply Z.mul_le_mono_nonneg_r; lia.
    - apply (Zmult_lt_reg_r _ _ y); [lia|]. rewrite <- E1. replace ((f + 1) * c * y) with ((f + 1) * un * p) by (rewrite <- !Z.mul_assoc; f_equal; lia). apply Z.mul_lt_mono_pos_r; lia. }
  assert (b * d <= wx /\ wx < (b + 1) * d) as [Hbx1 Hbx2].
  { unfold b, d. assert (0 < 2 ^ Z.max 0 (- k)) as P by (apply Z.pow_pos_nonneg; clear; lia).
    assert (2 ^ (1 + Z.max 0 (- k)) = 2 * 2 ^ Z.max 0 (- k)) as E by (clear; rewrite Z.pow_add_r by lia; reflexivity).
    rewrite E. set (y := 2 ^ Z.max 0 (- k)) in *. clearbody y. pose proof (div_bounds f (2 * y) ltac:(clear - P; lia)) as B. set (b' := f / (2 * y)) in *. clearbody b'.
    set (c := p * 2 ^ kp) in *. fold c in Hdp. unfold d in Hdp. fold c in Hdp. clearbody c. clearbody wx. clear - B P Hfx Hdp. split.
    - apply (Zmult_le_reg_r _ _ (2 * y)); [lia|]. apply Z.le_trans with (f * c); [|lia]. replace (b' * c * (2 * y)) with (b' * (2 * y) * c) by ring. apply Z.mul_le_mono_nonneg_r; lia.
    - apply (Zmult_lt_reg_r _ _ (2 * y)); [lia|]. apply Z.lt_le_trans with ((f + 1) * c); [lia|]. replace ((b' + 1) * c * (2 * y)) with ((b' + 1) * (2 * y) * c) by ring.
      apply Z.mul_le_mono_nonneg_r; lia. }
  assert (0 <= b < 2 ^ 53 /\ (k < 0 -> b < 2 ^ 52) /\ (0 <= k -> 2 ^ 52 <= b)) as (Hb53 & Hbs & Hbl).
  { unfold b. destruct (Z_lt_le_dec k 0) as [Hk0|Hk0].
    - rewrite Z.max_r by (clear - Hk0; lia). assert (2 ^ 2 <= 2 ^ (1 + - k)) as P by (apply Z.pow_le_mono_r; clear - Hk0; lia). change (2 ^ 2) with 4 in P.
      set (y := 2 ^ (1 + - k)) in *. clearbody y.
      assert (0 <= f / y) by (apply Z.div_pos; clear - Hf P; lia). assert (f / y < 2 ^ 52).
      { apply Z.div_lt_upper_bound; [clear - P; lia|]. assert (4 * 2 ^ 52 <= y * 2 ^ 52) by (apply Z.mul_le_mono_nonneg_r; clear - P; lia). clear - Hf H0. lia. }
      clear - H H0 Hk0. lia.
    - rewrite Z.max_l by (clear - Hk0; lia). change (2 ^ (1 + 0)) with 2. clear - Hf Hk0. Z.div_mod_to_equations; lia. }
  (* The number itself *)
  set (X := b10 * 2 ^ 1074).
  assert (wx <= X /\ 2 * X < (2 * b + 3) * d) as [HX1 HX2].
  { assert (10 ^ j * 2 ^ 1074 * 10 ^ 18 <= wx) as C1.
    { unfold wx. replace (w * 10 ^ j * 2 ^ 1074) with (10 ^ j * 2 ^ 1074 * w) by (set (c := 2 ^ 1074); ring). apply Z.mul_le_mono_nonneg_l; [|clear - Hw; lia].
      apply Z.mul_nonneg_nonneg; apply Z.pow_nonneg; discriminate. }
    assert (wx <= X) as C2 by (unfold wx, X; apply Z.mul_le_mono_nonneg_r; [apply Z.pow_nonneg; discriminate|]; clear - Hb10; lia).
    assert (X <= wx + 10 ^ j * 2 ^ 1074) as C3.
    { unfold wx, X. replace (w * 10 ^ j * 2 ^ 1074 + 10 ^ j * 2 ^ 1074) with ((w + 1) * 10 ^ j * 2 ^ 1074) by (set (c := 2 ^ 1074); ring).
      apply Z.mul_le_mono_nonneg_r; [apply Z.pow_nonneg; discriminate|]. clear - Hb10. lia. }
    split; [exact C2|]. set (e := 10 ^ j * 2 ^ 1074) in *. clearbody e X wx.
    assert ((b + 1) * d <= 2 ^ 53 * d) as C4 by (apply Z.mul_le_mono_nonneg_r; clear - Hdp Hb53; lia).
    set (bd := b * d) in *. clear - C1 C3 C4 Hbx2 Hdp. replace ((2 * b + 3) * d) with (2 * ((b + 1) * d) + d) by ring. set (y := (b + 1) * d) in *. clearbody y d. lia. }
  assert (0 <= X) as HX0.
  { apply Z.le_trans with wx; [|exact HX1]. apply Z.le_trans with (b * d); [|exact Hbx1]. apply Z.mul_nonneg_nonneg; [clear - Hb53; lia|clear - Hdp; lia]. }
  (* Not beyond the largest double *)
  assert (k <= 2045) as Hk45.
  { destruct (Z_le_gt_dec k 2045) as [|Hk]; [assumption|exfalso].
    assert (pattern10 top w q /\ pattern10 top (w + 1) q) as [Pt Pt1].
    { assert (beyond (w * 2 ^ 1074 * 10 ^ Z.max 0 q) (10 ^ Z.max 0 (- q))) as By.
      { unfold beyond. assert (0 < k) as Hkpos by (clear - Hk; lia). clear - Hb Hf Hk.
        unfold twice, unit in Hb. rewrite (Z.max_l 0 (- k)), (Z.max_r 0 k) in Hb by lia. rewrite Z.pow_0_r, Z.mul_1_r in Hb.
        set (a := 2 * (w * 2 ^ 1074 * 10 ^ Z.max 0 q)) in *. set (y := 10 ^ Z.max 0 (- q)) in *. assert (0 < y) as Hy by (apply pow10_pos'; lia). clearbody a y.
        apply Z.le_trans with (2 ^ 53 * (y * 2 ^ k)).
        - assert (2 ^ 2046 <= 2 ^ k) as P by (apply Z.pow_le_mono_r; lia). assert (magnitude (top - 1) + magnitude top <= 2 ^ 53 * 2 ^ 2046) as C by (vm_compute; discriminate).
          apply Z.le_trans with (2 ^ 53 * 2 ^ 2046 * y); [apply Z.mul_le_mono_nonneg_r; [lia|exact C]|].
          replace (2 ^ 53 * (y * 2 ^ k)) with (2 ^ 53 * 2 ^ k * y) by ring. apply Z.mul_le_mono_nonneg_r; [lia|]. apply Z.mul_le_mono_nonneg_l; [lia|exact P].
        - apply Z.le_trans with (f * (y * 2 ^ k)); [|lia]. apply Z.mul_le_mono_nonneg_r; [|lia]. apply Z.mul_nonneg_nonneg; [lia|apply Z.pow_nonneg; lia]. }
      assert (beyond ((w + 1) * 2 ^ 1074 * 10 ^ Z.max 0 q) (10 ^ Z.max 0 (- q))) as By1.
      { unfold beyond in *. apply Z.le_trans with (2 * (w * 2 ^ 1074 * 10 ^ Z.max 0 q)); [exact By|]. apply Z.mul_le_mono_nonneg_l; [discriminate|].
        apply Z.mul_le_mono_nonneg_r; [apply Z.pow_nonneg; discriminate|]. apply Z.mul_le_mono_nonneg_r; [apply Z.pow_nonneg; discriminate|]. clear; lia. }
      split; right; (split; [reflexivity|assumption]). }
    assert (forall am v, well am -> pattern10 top v q -> pattern10 (to_float false am) v q -> am = Adjusted 0 2047) as Huniq.
    { intros am v Wm P1 P2.
      assert (to_float false am = top) as T.
      { destruct P1 as [[F _]|[_ By]]; [unfold finite, top in F; clear - F; lia|]. destruct P2 as [[F N]|[T _]]; [exfalso|exact T].
        set (xx := v * 2 ^ 1074 * 10 ^ Z.max 0 q) in *. set (pp := 10 ^ Z.max 0 (- q)) in *. assert (0 < pp) as Ppp by (apply pow10_pos'; clear; lia).
        unfold nearest, beyond, finite in *. fold top in F. set (n := to_float false am) in *. clearbody n xx pp.
        destruct (Z.eq_dec n (top - 1)) as [->|Hn].
        - change (Z.even (top - 1)) with false in N. cbv iota in N. replace (top - 1 + 1) with top in N by (clear; lia). clear - N By. lia.
        - assert (magnitude n < magnitude (top - 1)) as M1 by (apply magnitude_mono; clear - F Hn; lia).
          assert (magnitude (n + 1) <= magnitude top) as M2.
          { destruct (Z.eq_dec (n + 1) top) as [->|]; [clear; lia|]. apply Z.lt_le_incl, magnitude_mono. clear - F n0. lia. }
          assert ((magnitude n + magnitude (n + 1)) * pp < (magnitude (top - 1) + magnitude top) * pp) by (apply Z.mul_lt_mono_pos_r; [exact Ppp|clear - M1 M2; lia]).
          remember ((magnitude (top - 1) + magnitude top) * pp) as v1 eqn:V1. clear V1. destruct (Z.even n); clear - N By H; lia. }
      pose proof (proj2 (to_float_top am Wm) T) as T2. destruct Wm as (_ & [[_ M]|[_ M]]); [|clear - T2 M; lia]. specialize (M T2). destruct am as [mm pp]. cbn in *. subst. reflexivity. }
    destruct (compute_float_ok q w Hw64) as (am & E & Wm & Pm). rewrite E in Hcf. injection Hcf as <-.
    pose proof (Huniq am w Wm Pt Pm) as A0.
    destruct Hnot as [Hlt|(am1 & E1 & Hne)]; [rewrite A0 in Hlt; cbn in Hlt; clear - Hlt; lia|].
    destruct (compute_float_ok q (w + 1) ltac:(clear - Hw; lia)) as (am' & E' & Wm' & Pm'). rewrite E1 in E'. injection E' as <-.
    apply Hne. rewrite A0. symmetry. exact (Huniq am1 (w + 1) Wm' Pt1 Pm'). }
  (* Rounding down *)
  assert (m64 / 2 ^ (11 + Z.max 0 (- k)) = b) as Hmb.
  { unfold b. rewrite <- Hmf. rewrite Z.div_div by (try (apply Z.pow_pos_nonneg; clear; lia); clear; lia). f_equal. rewrite <- Z.pow_add_r by (clear; lia). f_equal. clear; lia. }
  assert (to_float false (round (Adjusted m64 (k - 10)) round_down) = kp * 2 ^ 52 + b) as Hdown.
  { destruct (Z_lt_le_dec k 0) as [Hk0|Hk0].
    - rewrite round_small by (clear - Hk0; lia). unfold round_down. cbn [am_mantissa am_power2].
      assert ((if Z.min (- (k - 10) + 1) 64 =? 64 then 0 else Z.shiftr m64 (Z.min (- (k - 10) + 1) 64)) = b) as ->.
      { rewrite <- Hmb. rewrite (Z.max_r 0 (- k)) by (clear - Hk0; lia). destruct (Z.eqb_spec (Z.min (- (k - 10) + 1) 64) 64) as [H|H].
        - symmetry. apply Z.div_small. split; [clear - Hm64; lia|]. apply Z.lt_le_trans with (2 ^ 64); [clear - Hm64; lia|]. apply Z.pow_le_mono_r; clear - H; lia.
        - rewrite Z.shiftr_div_pow2 by (clear - Hk0; lia). f_equal. f_equal. clear - H. lia. }
      destruct (finish_small b ltac:(specialize (Hbs Hk0); clear - Hbs Hb53; lia)) as [_ T]. cbv zeta in T. cbv zeta. rewrite T. unfold kp. rewrite Z.max_l by (clear - Hk0; lia).
      unfold top. clear - Hb53. lia.
    - rewrite round_normal by (clear - Hk0; lia). unfold round_down. cbn [am_mantissa am_power2]. change (11 =? 64) with false. cbv iota.
      rewrite Z.shiftr_div_pow2 by (clear; lia). rewrite Z.max_l in Hmb by (clear - Hk0; lia). change (11 + 0) with 11 in Hmb. rewrite Hmb.
      destruct (finish_normal b (k - 10 + 11) ltac:(specialize (Hbl Hk0); clear - Hbl Hb53; lia) ltac:(clear - Hk0; lia)) as [_ T]. cbv zeta in T. cbv zeta.
      rewrite T. unfold kp. rewrite Z.max_r by (clear - Hk0; lia). unfold top. clear - Hk45 Hb53. lia. }
  unfold negative_digit_comp. cbv zeta. rewrite Hdown, halfway.
  2:{ unfold kp. clear - Hk45. lia. }
  2:{ exact Hb53. }
  2:{ unfold kp. clear - Hbl. lia. }
  cbn [am_mantissa am_power2].
  set (pow2 := kp - 1075 - x).
  (* The comparison *)
  assert (0 < b10) as Hb10p.
  { apply Z.lt_le_trans with (w * 10 ^ j); [|clear - Hb10; lia]. apply Z.mul_pos_pos; [clear - Hw; lia|apply pow10_pos'; exact Hj]. }
  assert (b10 < 2 ^ 2560) as Hb2560.
  { apply Z.lt_trans with (10 ^ 770); [exact Hcap|]. vm_compute. reflexivity. }
  assert ((2 * b + 1) * 5 ^ (- x) < 2 ^ 2600) as Ht.
  { apply Z.le_lt_trans with (2 ^ 54 * 5 ^ 1093); [|vm_compute; reflexivity].
    apply Z.mul_le_mono_nonneg; [clear - Hb53; lia|clear - Hb53; lia|apply Z.pow_nonneg; discriminate|]. apply Z.pow_le_mono_r; clear - Hx; lia. }
  assert (0 < 5 ^ (- x)) as P5 by (apply Z.pow_pos_nonneg; clear - Hx; lia).
  assert (d * 2 ^ 1075 = 5 ^ (- x) * 2 ^ (1075 + kp - x)) as Ed0.
  { unfold d, p. rewrite pow10_split by (clear - Hx; lia). replace (1075 + kp - x) with (1075 + (kp + - x)) by (clear; lia). rewrite (Z.pow_add_r 2 1075) by (unfold kp; clear - Hx; lia).
    rewrite (Z.pow_add_r 2 kp) by (unfold kp; clear - Hx; lia). set (c := 2 ^ 1075). ring. }
  assert (exists real theor, obind (big ((2 * b + 1) * 5 ^ (- x))) (fun t => obind (if 0 <? pow2 then big (t * 2 ^ pow2) else Ok t) (fun t =>
            obind (if pow2 <? 0 then big (b10 * 2 ^ (- pow2)) else Ok b10) (fun r => Ok (r, t)))) = Ok (real, theor) /\
          (real ?= theor) = (2 * X ?= (2 * b + 1) * d)) as (real & theor & Ereal & Ecmp).
  { unfold big at 1. destruct (Z.ltb_spec ((2 * b + 1) * 5 ^ (- x)) (2 ^ (64 * 62))) as [_|C].
    2:{ exfalso. assert (2 ^ 2600 < 2 ^ (64 * 62)) as C' by (vm_compute; reflexivity). clear - C C' Ht.
        remember (2 ^ 2600) as v1 eqn:V1. remember (2 ^ (64 * 62)) as v2 eqn:V2. clear V1 V2. lia. }
    cbn [obind]. assert (2 * X = b10 * 2 ^ 1075) as EX by (unfold X; change (2 ^ 1075) with (2 * 2 ^ 1074); set (c := 2 ^ 1074); ring). 
    destruct (Z.ltb_spec 0 pow2) as [Hp2|Hp2].
    - assert ((2 * b + 1) * 5 ^ (- x) * 2 ^ pow2 * 2 ^ 1075 = (2 * b + 1) * d) as Et.
      { unfold d, p. rewrite pow10_split by (clear - Hx; lia). rewrite <- (Z.mul_assoc _ (2 ^ pow2)), <- Z.pow_add_r by (clear - Hp2; lia).
        replace (pow2 + 1075) with (- x + kp) by (unfold pow2; clear; lia). rewrite Z.pow_add_r by (unfold kp; clear - Hx; lia). ring. }
      assert ((2 * b + 1) * 5 ^ (- x) * 2 ^ pow2 < 2 ^ (64 * 62)) as Hc2.
      { destruct (Z_le_gt_dec k 0) as [Hk0|Hk0].
        - assert (pow2 <= 18) as P18 by (unfold pow2, kp; clear - Hk0 Hx; lia).
          apply Z.le_lt_trans with (2 ^ 2600 * 2 ^ 18); [|vm_compute; reflexivity]. apply Z.mul_le_mono_nonneg.
          + apply Z.mul_nonneg_nonneg; [clear - Hb53; lia|clear - P5; lia].
          + clear - Ht. remember (2 ^ 2600) as v1 eqn:V1. clear V1. lia.
          + apply Z.pow_nonneg; discriminate.
          + apply Z.pow_le_mono_r; clear - P18; lia.
        - assert (2 ^ 52 <= b) as B52 by (apply Hbl; clear - Hk0; lia).
          assert ((2 * b + 1) * d <= 3 * (2 * X)) as C1.
          { replace ((2 * b + 1) * d) with (2 * (b * d) + d) by ring. assert (1 * d <= b * d) as D1 by (apply Z.mul_le_mono_nonneg_r; clear - Hdp B52; lia).
            set (bd := b * d) in *. clearbody bd. clearbody X wx d. clear - D1 Hbx1 HX1 Hdp. lia. }
          rewrite EX, <- Et in C1.
          assert ((2 * b + 1) * 5 ^ (- x) * 2 ^ pow2 <= 3 * b10) as C2.
          { apply (Zmult_le_reg_r _ _ (2 ^ 1075)); [reflexivity|]. replace (3 * b10 * 2 ^ 1075) with (3 * (b10 * 2 ^ 1075)) by (set (c := 2 ^ 1075); ring). exact C1. }
          apply Z.le_lt_trans with (3 * b10); [exact C2|]. apply Z.lt_trans with (3 * 2 ^ 2560); [|vm_compute; reflexivity].
          apply Z.mul_lt_mono_pos_l; [reflexivity|exact Hb2560]. }
      unfold big. destruct (Z.ltb_spec ((2 * b + 1) * 5 ^ (- x) * 2 ^ pow2) (2 ^ (64 * 62))) as [_|C].
      2:{ exfalso. apply (Z.lt_irrefl (2 ^ (64 * 62))). apply Z.le_lt_trans with ((2 * b + 1) * 5 ^ (- x) * 2 ^ pow2); assumption. }
      cbn [obind]. destruct (Z.ltb_spec pow2 0) as [C|_]; [clear - C Hp2; lia|]. cbn [obind]. do 2 eexists. split; [reflexivity|].
      rewrite EX, <- Et. apply Zmult_compare_compat_r. reflexivity.
    - cbn [obind].
      assert ((2 * b + 1) * 5 ^ (- x) * 2 ^ (kp - x) = (2 * b + 1) * d) as Et.
      { unfold d, p. rewrite pow10_split by (clear - Hx; lia). replace (kp - x) with (- x + kp) by (clear; lia). rewrite Z.pow_add_r by (unfold kp; clear - Hx; lia). ring. }
      assert (b10 * 2 ^ (- pow2) * 2 ^ (kp - x) = 2 * X) as Er.
      { rewrite EX, <- Z.mul_assoc, <- Z.pow_add_r by (unfold kp in *; clear - Hp2 Hx; lia). f_equal. f_equal. unfold pow2. clear; lia. }
      assert ((b10 * 2 ^ (- pow2) ?= (2 * b + 1) * 5 ^ (- x)) = (2 * X ?= (2 * b + 1) * d)) as Ec.
      { rewrite <- Er, <- Et. apply Zmult_compare_compat_r. apply Z.lt_gt, Z.pow_pos_nonneg; [reflexivity|unfold kp; clear - Hx; lia]. }
      destruct (Z.ltb_spec pow2 0) as [Hp0|Hp0].
      + unfold big. destruct (Z.ltb_spec (b10 * 2 ^ (- pow2)) (2 ^ (64 * 62))) as [_|C].
        2:{ exfalso. apply (Z.lt_irrefl (2 ^ (64 * 62))). apply Z.le_lt_trans with (b10 * 2 ^ (- pow2)); [exact C|].
            apply Z.le_lt_trans with (2 ^ 2560 * 2 ^ 1075); [|vm_compute; reflexivity]. apply Z.mul_le_mono_nonneg.
            - clear - Hb10p; lia.
            - apply Z.lt_le_incl. exact Hb2560.
            - apply Z.pow_nonneg; discriminate.
            - apply Z.pow_le_mono_r; [reflexivity|]. unfold pow2, kp. clear - Hx. lia. }
        cbn [obind]. do 2 eexists. split; [reflexivity|exact Ec].
      + assert (pow2 = 0) as P0 by (clear - Hp0 Hp2; lia). cbn [obind]. do 2 eexists. split; [reflexivity|]. rewrite P0 in Ec. change (2 ^ (- 0)) with 1 in Ec. rewrite Z.mul_1_r in Ec. exact Ec. }
  set (r := b + if up (2 * X ?= (2 * b + 1) * d) (Z.odd b) then 1 else 0).
  pose proof (nearest_compared X d b Hdp ltac:(apply Z.le_trans with wx; assumption) HX2) as HR. fold r in HR.
  assert (b <= r <= b + 1) as Hr by (unfold r; match goal with |- context [if ?c then _ else _] => destruct c end; clear; lia).
  assert (pattern10 (Z.min (kp * 2 ^ 52 + r) top) b10 x) as HP.
  { unfold pattern10. rewrite (Z.max_l 0 x), (Z.max_r 0 (- x)), Z.pow_0_r, Z.mul_1_r by (clear - Hx; lia). fold X. fold p.
    apply core_up; [exact Hpp|exact HX0|unfold kp; clear; lia| |clear - Hr Hb53; lia|exact HR].
    destruct (Z_lt_le_dec k 1) as [H1|H1]; [left; unfold kp; clear - H1; lia|right]. fold d.
    apply Z.le_trans with (b * d); [|apply Z.le_trans with wx; assumption]. apply Z.mul_le_mono_nonneg_r; [clear - Hdp; lia|]. apply Hbl. clear - H1. lia. }
  exists (round (Adjusted m64 (k - 10)) (fun a shift => round_nearest_tie_even a shift (fun is_odd _ _ => match (2 * X ?= (2 * b + 1) * d) with Gt => true | Lt => false | Eq => is_odd end))).
  split; [reflexivity|]. split; [unfold invalid_am_bias; clear - Ek Hpow Hlz Hu; lia|]. split.
  { revert Ereal. destruct (big ((2 * b + 1) * 5 ^ (- x))) as [t0| | |]; cbn [obind]; try discriminate.
    destruct (if 0 <? pow2 then big (t0 * 2 ^ pow2) else Ok t0) as [t1| | |]; cbn [obind]; try discriminate.
    destruct (if pow2 <? 0 then big (b10 * 2 ^ (- pow2)) else Ok b10) as [r1| | |]; cbn [obind]; try discriminate.
    intros E. injection E as -> ->. rewrite Ecmp. reflexivity. }
  destruct (Z_lt_le_dec k 0) as [Hk0|Hk0].
  - rewrite round_small by (clear - Hk0; lia). cbv zeta.
    assert (am_mantissa (round_nearest_tie_even (Adjusted m64 (k - 10)) (Z.min (- (k - 10) + 1) 64)
              (fun is_odd _ _ => match (2 * X ?= (2 * b + 1) * d) with Gt => true | Lt => false | Eq => is_odd end)) = r) as ->.
    { destruct (Z_lt_le_dec (-53) k) as [H53|H53].
      - rewrite Z.min_l by (clear - H53; lia). rewrite tie_even_normal by (clear - Hm64 H53 Hk0; lia). cbn [am_mantissa].
        replace (- (k - 10) + 1) with (11 + Z.max 0 (- k)) by (clear - Hk0; lia). rewrite Hmb. reflexivity.
      - rewrite Z.min_r by (clear - H53; lia). rewrite tie_even_all by (clear - Hm64; lia). cbn [am_mantissa].
        assert (b = 0) as B0.
        { rewrite <- Hmb. apply Z.div_small. split; [clear - Hm64; lia|]. apply Z.lt_le_trans with (2 ^ 64); [clear - Hm64; lia|]. apply Z.pow_le_mono_r; clear - H53; lia. }
        unfold r. rewrite B0. reflexivity. }
    destruct (finish_small r ltac:(specialize (Hbs Hk0); clear - Hr Hbs Hb53; lia)) as [W T]. cbv zeta in W, T. split; [exact W|]. rewrite T.
    unfold kp in HP. rewrite Z.max_l in HP by (clear - Hk0; lia). exact HP.
  - rewrite round_normal by (clear - Hk0; lia). rewrite tie_even_normal by (clear - Hm64; lia). cbn [am_mantissa am_power2].
    rewrite Z.max_l in Hmb by (clear - Hk0; lia). change (11 + 0) with 11 in Hmb. rewrite Hmb.
    change (b + (if match 2 * X ?= (2 * b + 1) * d with Eq => Z.odd b | Lt => false | Gt => true end then 1 else 0)) with r.
    destruct (finish_normal r (k - 10 + 11) ltac:(specialize (Hbl Hk0); clear - Hr Hbl Hb53; lia) ltac:(clear - Hk0; lia)) as [W T]. cbv zeta in W, T. cbv zeta.
    split; [exact W|]. rewrite T. unfold kp in HP. rewrite Z.max_r in HP by (clear - Hk0; lia). replace (k - 10 + 11 - 1) with k by (clear; lia). exact HP.
Qed.
End Negative.

Lemma compute_error_negative q w : -342 <= q <= 308 -> 0 < w < 2 ^ 64 -> exists ame, compute_error q w = Ok ame /\ am_power2 ame < 0.
Proof.
  intros Hq Hw64. unfold compute_error. destruct (normalised w Hw64) as (Hlz & Enorm & Hw'). rewrite Enorm.
  destruct (product q (w * 2 ^ leading_zeroes w) Hq Hw') as (hi & lo & high & low & En & Epr & Hh & Hl & Hd & Hp). rewrite Epr. cbn [obind].
  eexists. split; [reflexivity|]. cbn [am_power2]. unfold invalid_am_bias, power. clear - Hq Hlz Hh. rewrite Z.shiftr_div_pow2 by lia.
  assert (high / 2 ^ 63 = 0 \/ high / 2 ^ 63 = 1) as [-> | ->] by (Z.div_mod_to_equations; lia).
  - change (Z.lxor 0 1) with 1. Z.div_mod_to_equations; lia.
  - change (Z.lxor 1 1) with 0. Z.div_mod_to_equations; lia.
Qed.
