(** * The number parser finds the nearest double *)
From Verif Require Import Base BaseFacts RyuSpec FastFloatModel FastFloatTables FastFloatSpec FastFloatScaled FastFloatRound RyuShortest RyuDecimal RyuDouble.
From Coq Require Import Znumtheory.
Local Open Scope Z_scope.

(** ** Powers *)

Lemma odd_coprime a n : Z.odd a = true -> 0 <= n -> Z.gcd a (2 ^ n) = 1.
Proof.
  intros Ho Hn. pattern n. apply natlike_ind; [rewrite Z.pow_0_r; apply Z.gcd_1_r| |exact Hn].
  intros k Hk IH. rewrite Z.pow_succ_r by exact Hk.
  assert (rel_prime a (2 * 2 ^ k)) as R; [|apply Zgcd_1_rel_prime; exact R].
  apply rel_prime_mult; apply Zgcd_1_rel_prime; [|exact IH].
  rewrite Z.gcd_comm. destruct (Zgcd_1_rel_prime 2 a) as [_ G]. apply G. apply prime_rel_prime; [apply prime_2|].
  intros D. apply Z.mod_divide in D; [|lia]. rewrite Zodd_mod in Ho. apply Zeq_bool_eq in Ho. lia.
Qed.
Lemma odd_divides a b n : Z.odd a = true -> 0 <= n -> (a | b * 2 ^ n) -> (a | b).
Proof. intros Ho Hn D. apply Z.gauss with (2 ^ n); [rewrite Z.mul_comm; exact D|apply odd_coprime; assumption]. Qed.
Lemma odd_pow5 n : 0 <= n -> Z.odd (5 ^ n) = true.
Proof.
  intros Hn. pattern n. apply natlike_ind; [reflexivity| |exact Hn]. intros k Hk IH. rewrite Z.pow_succ_r by exact Hk. rewrite Z.odd_mul, IH. reflexivity.
Qed.

(** ** Ties *)

Section Product.
Variables (q w hi lo high low u f : Z).
Hypothesis Hq : -342 <= q <= 308.
Hypothesis Hw : 2 ^ 63 <= w < 2 ^ 64.
Hypothesis Hentry : nth_error POWER_OF_FIVE_128 (Z.to_nat (q + 342)) = Some (hi, lo).
Hypothesis Hhigh : 2 ^ 62 <= high < 2 ^ 64.
Hypothesis Hlow : 0 <= low < 2 ^ 64.
Hypothesis Hproduct : first_product high low w hi \/ whole_product high low w hi lo.
Hypothesis Hu : u = 0 \/ u = 1.
Hypothesis Hf : 2 ^ 53 <= f < 2 ^ 54.
Hypothesis Hodd : Z.odd f = true.

Lemma pow_u : 2 ^ (9 + u) = 512 * 2 ^ u.
Proof. rewrite Z.pow_add_r by lia. reflexivity. Qed.
Let v : Z := 2 ^ u.
Lemma v_is : v = 1 \/ v = 2.
Proof. unfold v. destruct Hu as [->| ->]; [left|right]; reflexivity. Qed.

Lemma no_first : -4 <= q <= -1 -> first_product high low w hi -> low <= 1 -> high = f * (512 * v) -> False.
Proof.
  intros Hr [Hp Hm] Hl Hh. pose proof v_is as Hv. clearbody v. rewrite Hh in Hp.
  set (z := f * v) in *. assert (f * (512 * v) * 2 ^ 64 + low = z * 2 ^ 73 + low) as E by (unfold z; ring). rewrite E in Hp. clear E. clearbody z.
  assert (q = -1 \/ q = -2 \/ q = -3 \/ q = -4) as C by lia.
  clear Hhigh Hproduct Hh Hm Hf Hodd Hu Hv.
  destruct C as [->|[->|[->| ->]]]; vm_compute in Hentry; injection Hentry as <- <-; lia.
Qed.

Lemma tie_found : (low <= 1 /\ -4 <= q <= 23 /\ high = f * (512 * v)) <-> w * factor_num q = f * factor_den q * v.
Proof.
  destruct (entry q Hq) as (hi' & lo' & En & Hhi & Hlo & Hfl & Hup & Hdown). rewrite Hentry in En. injection En as <- <-. clear Hfl.
  pose proof v_is as Hv. pose proof (factor_den_pos q) as Hd. pose proof (factor_num_pos q) as Hn.
  split.
  - intros (Hl & Hr & Hh). destruct (Z_le_gt_dec 0 q) as [H0|H0].
    + destruct (Hup ltac:(lia)) as (-> & Heven & Hx). clear Hup Hdown. rewrite Z.add_0_r in *.
      assert (high * 2 ^ 64 + low = w * hi) as Hp.
      { destruct Hproduct as [[Hp _]|[Hp _]]; [exact Hp|]. rewrite Hp. rewrite Z.add_0_r, Z.mul_assoc. apply Z.div_mul. lia. }
      assert (low = 0) as L0.
      { apply Z.mod_divide in Heven as [h' Eh]; [|lia]. subst hi. clear - Hp Hl Hlow. assert (high * 2 ^ 64 + low = 2 * (w * h')) by lia. lia. }
      apply (Z.mul_reg_r _ _ (2 ^ 137)); [lia|].
      rewrite <- (Z.mul_assoc w), <- Hx. rewrite L0, Z.add_0_r, Hh in Hp.
      transitivity (w * hi * (2 ^ 64 * factor_den q)); [ring|]. rewrite <- Hp. ring.
    + destruct Hproduct as [Hp|Hp]; [exfalso; apply no_first; auto; lia|]. destruct Hp as [Hp _].
      specialize (Hdown ltac:(lia)). rewrite Hh in Hp.
      pose proof (div_bounds (w * (hi * 2 ^ 64 + lo)) (2 ^ 64) ltac:(reflexivity)) as B. rewrite <- Hp in B.
      set (t := hi * 2 ^ 64 + lo) in *. clearbody t. clear Hp Hup. clearbody v. set (z := f * v). 
      assert (f * (512 * v) = 512 * z) as E by (unfold z; ring). rewrite E in B. replace (f * factor_den q * v) with (z * factor_den q) by (unfold z; ring). clearbody z.
      assert (q = -1 \/ q = -2 \/ q = -3 \/ q = -4) as C by lia.
      assert (factor_num q = 1 /\ (factor_den q = 640 \/ factor_den q = 800 \/ factor_den q = 1000 \/ factor_den q = 625)) as [En1 Hden].
      { destruct C as [->|[->|[->| ->]]]; vm_compute; auto 6. }
      rewrite En1 in *. set (den := factor_den q) in *. clearbody den.
      assert (w * (t * den - 1 * 2 ^ 137) < w * den) as W1 by (apply Z.mul_lt_mono_pos_l; lia).
      assert (0 <= w * (t * den - 1 * 2 ^ 137)) as W0 by (apply Z.mul_nonneg_nonneg; lia).
      assert (w * (t * den - 1 * 2 ^ 137) = w * t * den - w * 2 ^ 137) as W2 by ring. rewrite W2 in W0, W1. set (wt := w * t) in *. clearbody wt.
      clear - B W0 W1 Hl Hlow Hden Hw. destruct Hden as [->|[->|[->| ->]]]; lia.
  - intros E. 
    assert (-4 <= q <= 23) as Hr.
    { clear Hup Hdown Hproduct Hhigh. unfold factor_num, factor_den in E. destruct (Z_le_gt_dec 24 q) as [H24|H24]; [exfalso|].
      - rewrite (Z.max_r 0 q), (Z.max_l 0 (- q)) in E by lia. change (5 ^ 0) with 1 in E. rewrite Z.mul_1_l in E.
        assert (5 ^ q | f) as D.
        { apply odd_divides with (Z.max 0 (bits q) + u); [apply odd_pow5; lia|lia|]. rewrite Z.pow_add_r by lia. fold v. exists (w * 2 ^ Z.max 0 (- bits q)).
          rewrite Z.mul_assoc. rewrite <- E. ring. }
        apply Z.divide_pos_le in D; [|lia]. assert (5 ^ 24 <= 5 ^ q) by (apply Z.pow_le_mono_r; lia). lia.
      - destruct (Z_le_gt_dec (-4) q) as [H4|H4]; [lia|exfalso].
        rewrite (Z.max_l 0 q), (Z.max_r 0 (- q)) in E by lia. change (5 ^ 0) with 1 in E. rewrite Z.mul_1_l in E.
        assert (f * 5 ^ (- q) | w) as D.
        { apply odd_divides with (Z.max 0 (- bits q)); [rewrite Z.odd_mul, Hodd, odd_pow5 by lia; reflexivity|lia|]. rewrite E.
          exists (2 ^ Z.max 0 (bits q) * v). ring. }
        apply Z.divide_pos_le in D; [|lia]. assert (5 ^ 5 <= 5 ^ (- q)) by (apply Z.pow_le_mono_r; lia).
        assert (2 ^ 53 * 5 ^ 5 <= f * 5 ^ (- q)) by (apply Z.mul_le_mono_nonneg; lia). lia. }
    assert (high = f * (512 * v) /\ low = 0) as [H1 H2]; [|rewrite H1, H2; lia].
    assert (high * 2 ^ 64 + low = f * (512 * v) * 2 ^ 64) as Hp; [|clear - Hp Hlow; lia].
    destruct (Z_le_gt_dec 0 q) as [H0|H0].
    + destruct (Hup ltac:(lia)) as (-> & Heven & Hx). clear Hup Hdown. rewrite Z.add_0_r in *.
      assert (high * 2 ^ 64 + low = w * hi) as ->.
      { destruct Hproduct as [[Hp _]|[Hp _]]; [exact Hp|]. rewrite Hp. rewrite Z.add_0_r, Z.mul_assoc. apply Z.div_mul. lia. }
      apply (Z.mul_reg_r _ _ (2 ^ 64 * factor_den q)); [lia|].
      transitivity (w * (hi * 2 ^ 64 * factor_den q)); [ring|]. rewrite Hx. rewrite Z.mul_assoc, E. ring.
    + specialize (Hdown ltac:(lia)). set (t := hi * 2 ^ 64 + lo) in *. set (den := factor_den q) in *. set (num := factor_num q) in *. clearbody num den.
      assert (w * (t * den - num * 2 ^ 137) = (w * t - f * v * 2 ^ 137) * den) as W.
      { transitivity (w * t * den - w * num * 2 ^ 137); [ring|]. rewrite E. ring. }
      assert (0 <= w * (t * den - num * 2 ^ 137) < 2 ^ 64 * den) as Wb.
      { split; [apply Z.mul_nonneg_nonneg; lia|]. apply Z.lt_le_trans with (w * den); [apply Z.mul_lt_mono_pos_l; lia|]. apply Z.mul_le_mono_nonneg_r; lia. }
      rewrite W in Wb.
      assert (0 <= w * t - f * v * 2 ^ 137 < 2 ^ 64) as Wc.
      { split; [apply (Zmult_le_reg_r 0 _ den); lia|]. apply (Zmult_lt_reg_r _ _ den); lia. }
      clear W Wb Hup. replace (f * (512 * v)) with (512 * (f * v)) by ring. set (z := f * v) in *. clearbody z.
      destruct Hproduct as [[Hp Hm]|[Hp _]].
      * assert (w * t = (w * hi) * 2 ^ 64 + w * lo) as Et by (unfold t; ring). rewrite Et, <- Hp in Wc.
        assert (0 <= w * lo) as L1 by (apply Z.mul_nonneg_nonneg; lia). assert (w * lo < 2 ^ 64 * 2 ^ 64) as L2.
        { apply Z.le_lt_trans with ((2 ^ 64 - 1) * (2 ^ 64 - 1)); [apply Z.mul_le_mono_nonneg; lia|lia]. }
        set (g := w * lo) in *. clearbody g. clear - Wc L1 L2 Hm Hlow. Z.div_mod_to_equations. lia.
      * rewrite Hp. rewrite (Z.div_unique_pos (w * t) (2 ^ 64) (512 * z * 2 ^ 64) (w * t - z * 2 ^ 137)); [reflexivity|lia|]. ring.
Qed.
End Product.

(** ** Patterns *)

Lemma disjoint a b n : 0 <= n -> 0 <= a < 2 ^ n -> 0 <= b -> Z.lor a (Z.shiftl b n) = b * 2 ^ n + a.
Proof.
  intros Hn Ha Hb. rewrite <- Z.shiftl_mul_pow2 by exact Hn.
  assert (Z.land a (Z.shiftl b n) = 0) as L.
  { apply Z.bits_inj'. intros i Hi. rewrite Z.land_spec, Z.bits_0. destruct (Z_lt_le_dec i n) as [H|H].
    - rewrite (Z.shiftl_spec_low b n i H). apply andb_false_r.
    - destruct (Z.eq_dec a 0) as [->|H0]; [rewrite Z.bits_0; reflexivity|].
      rewrite (Z.bits_above_log2 a i); [reflexivity|lia|]. apply Z.lt_le_trans with n; [|exact H]. apply Z.log2_lt_pow2; lia. }
  rewrite Z.add_comm. rewrite Z.add_nocarry_lxor by exact L. symmetry. apply Z.lxor_lor. exact L.
Qed.

Definition well (am : adjusted) : Prop :=
  0 <= am_power2 am <= 2047 /\ ((0 <= am_mantissa am < 2 ^ 52 /\ (am_power2 am = 2047 -> am_mantissa am = 0)) \/ (am_mantissa am = 2 ^ 52 /\ am_power2 am = 1)).
Lemma to_float_well am : well am -> to_float false am = (if am_mantissa am =? 2 ^ 52 then 2 ^ 52 else am_power2 am * 2 ^ 52 + am_mantissa am).
Proof.
  intros (Hp & [[Hm _]|[Hm H1]]); unfold to_float.
  - change (Z.shiftl 0 63) with 0. rewrite Z.lor_0_r, disjoint by lia. destruct (Z.eqb_spec (am_mantissa am) (2 ^ 52)); [lia|reflexivity].
  - rewrite Hm, H1. reflexivity.
Qed.
Lemma to_float_sign am : well am -> to_float true am = to_float false am + 2 ^ 63.
Proof.
  intros W. pose proof (to_float_well am W) as E. unfold to_float in *. change (Z.shiftl 0 63) with 0 in *. rewrite Z.lor_0_r in *. rewrite E.
  destruct W as (Hp & [[Hm _]|[Hm H1]]).
  - destruct (Z.eqb_spec (am_mantissa am) (2 ^ 52)); [lia|]. rewrite disjoint by lia. ring.
  - rewrite Hm, H1. reflexivity.
Qed.
Lemma to_float_top am : well am -> (am_power2 am = 2047 <-> to_float false am = top).
Proof.
  intros W. rewrite (to_float_well am W). unfold top. destruct W as (Hp & [[Hm H47]|[Hm H1]]).
  - destruct (Z.eqb_spec (am_mantissa am) (2 ^ 52)); [lia|]. lia.
  - rewrite Hm, Z.eqb_refl, H1. lia.
Qed.
Lemma to_float_zero am : well am -> (am_mantissa am = 0 /\ am_power2 am = 0 <-> to_float false am = 0).
Proof.
  intros W. rewrite (to_float_well am W). destruct W as (Hp & [[Hm _]|[Hm H1]]).
  - destruct (Z.eqb_spec (am_mantissa am) (2 ^ 52)); [lia|]. lia.
  - rewrite Hm, Z.eqb_refl, H1. lia.
Qed.
Lemma to_float_bounds am : well am -> 0 <= to_float false am <= top.
Proof.
  intros W. rewrite (to_float_well am W). unfold top. destruct W as (Hp & [[Hm H47]|[Hm H1]]).
  - destruct (Z.eqb_spec (am_mantissa am) (2 ^ 52)); lia.
  - rewrite Hm, Z.eqb_refl. lia.
Qed.

(** ** The quotient *)

Lemma pow10_split n : 0 <= n -> 10 ^ n = 5 ^ n * 2 ^ n.
Proof. intros H. change 10 with (5 * 2). apply Z.pow_mul_l. Qed.

Lemma normalised w : 0 < w < 2 ^ 64 -> 0 <= leading_zeroes w <= 63 /\ w64 (Z.shiftl w (leading_zeroes w)) = w * 2 ^ leading_zeroes w /\
  2 ^ 63 <= w * 2 ^ leading_zeroes w < 2 ^ 64.
Proof.
  intros Hw. unfold leading_zeroes, w64. pose proof (Z.log2_spec w ltac:(lia)) as L. pose proof (Z.log2_nonneg w) as L0.
  assert (Z.log2 w < 64) as L64 by (apply Z.log2_lt_pow2; lia). set (l := Z.log2 w) in *. clearbody l.
  assert (2 ^ l * 2 ^ (63 - l) = 2 ^ 63) as E by (rewrite <- Z.pow_add_r by lia; f_equal; lia).
  assert (0 < 2 ^ (63 - l)) by (apply Z.pow_pos_nonneg; lia).
  assert (2 ^ 63 <= w * 2 ^ (63 - l) < 2 ^ 64) as B.
  { split; [rewrite <- E; apply Z.mul_le_mono_nonneg_r; lia|]. rewrite Z.pow_succ_r in L by lia.
    replace (2 ^ 64) with ((2 * 2 ^ l) * 2 ^ (63 - l)) by (rewrite <- Z.mul_assoc, E; reflexivity). apply Z.mul_lt_mono_pos_r; lia. }
  split; [lia|]. split; [|exact B]. rewrite Z.shiftl_mul_pow2 by lia. apply Z.mod_small. lia.
Qed.

(** Twice the number [w * 10^q], divided by 2^k: a fraction *)
Definition twice (q w k : Z) : Z := 2 * (w * 2 ^ 1074 * 10 ^ Z.max 0 q) * 2 ^ Z.max 0 (- k).
Definition unit (q k : Z) : Z := 10 ^ Z.max 0 (- q) * 2 ^ Z.max 0 k.
Lemma unit_pos q k : 0 < unit q k.
Proof. unfold unit. apply Z.mul_pos_pos; apply Z.pow_pos_nonneg; lia. Qed.

Lemma cross q w lz u k : 0 <= lz -> 0 <= u -> k = power q + 1022 - lz + u ->
  w * 2 ^ lz * factor_num q * unit q k = twice q w k * (factor_den q * 2 ^ u).
Proof.
  intros Hlz Hu Hk. unfold factor_num, factor_den, unit, twice. rewrite !pow10_split by lia.
  set (qp := Z.max 0 q). set (qm := Z.max 0 (- q)). set (bp := Z.max 0 (bits q)). set (bm := Z.max 0 (- bits q)). set (kp := Z.max 0 k). set (km := Z.max 0 (- k)).
  assert (2 ^ lz * 2 ^ bm * 2 ^ qm * 2 ^ kp = 2 ^ 1 * 2 ^ 1074 * 2 ^ qp * 2 ^ km * 2 ^ bp * 2 ^ u) as E.
  { rewrite <- !Z.pow_add_r by lia. f_equal. unfold bits in *. lia. }
  transitivity (w * 5 ^ qp * 5 ^ qm * (2 ^ lz * 2 ^ bm * 2 ^ qm * 2 ^ kp)); [ring|]. rewrite E. change (2 ^ 1) with 2.
  set (c := 2 ^ 1074). ring.
Qed.

Lemma quotient q w lz u high k f : -342 <= q <= 308 -> 0 < w < 2 ^ 64 -> lz = leading_zeroes w -> high / 2 ^ 9 = w * 2 ^ lz * factor_num q / factor_den q ->
  2 ^ 62 <= high < 2 ^ 64 -> u = high / 2 ^ 63 -> k = power q + 1022 - lz + u -> f = high / 2 ^ (9 + u) ->
  (u = 0 \/ u = 1) /\ 2 ^ 53 <= f < 2 ^ 54 /\ f * unit q k <= twice q w k < (f + 1) * unit q k /\
  (w * 2 ^ lz * factor_num q = f * factor_den q * 2 ^ u <-> twice q w k = f * unit q k).
Proof.
  intros Hq Hw Elz Hd Hh Eu Ek Ef. destruct (normalised w Hw) as (Hlz & _ & _). rewrite <- Elz in Hlz.
  assert (u = 0 \/ u = 1) as Hu by (rewrite Eu; clear - Hh; Z.div_mod_to_equations; lia).
  assert (2 ^ 53 <= f < 2 ^ 54) as Hf.
  { rewrite Ef. destruct Hu as [U|U]; rewrite U in *.
    - change (2 ^ (9 + 0)) with 512. clear - Hh Eu. Z.div_mod_to_equations; lia.
    - change (2 ^ (9 + 1)) with 1024. clear - Hh Eu. Z.div_mod_to_equations; lia. }
  split; [exact Hu|]. split; [exact Hf|].
  assert (0 < 2 ^ u) as Hv by (apply Z.pow_pos_nonneg; lia).
  pose proof (factor_den_pos q) as Hden. pose proof (unit_pos q k) as Hunit.
  pose proof (cross q w lz u k ltac:(lia) ltac:(lia) Ek) as C. set (a := w * 2 ^ lz * factor_num q) in *. set (d := factor_den q * 2 ^ u) in *.
  assert (0 < d) as Hdp by (unfold d; apply Z.mul_pos_pos; lia).
  assert (f = a / d) as Efd.
  { rewrite Ef, Z.pow_add_r by lia. rewrite <- Z.div_div by lia. rewrite Hd. unfold d. rewrite Z.div_div by lia. reflexivity. }
  pose proof (div_bounds a d Hdp) as B. rewrite <- Efd in B. set (n := twice q w k) in *. set (m := unit q k) in *. clearbody a n m.
  replace (f * factor_den q * 2 ^ u) with (f * d) by (unfold d; ring). clearbody d. clear Efd Hd Ef.
  split; [split|].
  - apply (Zmult_le_reg_r _ _ d); [lia|]. rewrite <- C. replace (f * m * d) with (f * d * m) by ring. apply Z.mul_le_mono_nonneg_r; lia.
  - apply (Zmult_lt_reg_r _ _ d); [lia|]. rewrite <- C. replace ((f + 1) * m * d) with ((f + 1) * d * m) by ring. apply Z.mul_lt_mono_pos_r; lia.
  - split; intros E.
    + apply (Z.mul_reg_r _ _ d); [lia|]. rewrite <- C, E. ring.
    + apply (Z.mul_reg_r _ _ m); [lia|]. rewrite C, E. ring.
Qed.

Lemma land_3 f : 0 <= f -> Z.land f 3 = f mod 4.
Proof. intros H. change 3 with (Z.ones 2). rewrite Z.land_ones by lia. reflexivity. Qed.
Lemma land_1 f : 0 <= f -> Z.land f 1 = f mod 2.
Proof. intros H. change 1 with (Z.ones 1) at 1. rewrite Z.land_ones by lia. reflexivity. Qed.
Lemma ldiff_1 f : f mod 2 = 1 -> Z.ldiff f 1 = f - 1.
Proof.
  intros H. change 1 with (Z.ones 1) at 1. rewrite Z.ldiff_ones_r by lia. rewrite Z.shiftr_div_pow2, Z.shiftl_mul_pow2 by lia. change (2 ^ 1) with 2.
  Z.div_mod_to_equations; lia.
Qed.
Lemma ldiff_52 m : 2 ^ 52 <= m < 2 ^ 53 -> Z.ldiff m (2 ^ 52) = m - 2 ^ 52.
Proof.
  intros H. assert (m = Z.lor (m - 2 ^ 52) (Z.shiftl 1 52)) as E by (rewrite disjoint by lia; lia).
  rewrite E at 1. change (Z.shiftl 1 52) with (2 ^ 52). apply Z.bits_inj'. intros i Hi.
  rewrite Z.ldiff_spec, Z.lor_spec. destruct (Z.eq_dec i 52) as [->|Hne].
  - rewrite Z.pow2_bits_true by lia. rewrite andb_false_r. symmetry.
    destruct (Z.eq_dec (m - 2 ^ 52) 0) as [->|H0]; [apply Z.bits_0|]. apply Z.bits_above_log2; [lia|]. apply Z.log2_lt_pow2; lia.
  - rewrite Z.pow2_bits_false by lia. rewrite orb_false_r, andb_true_r. reflexivity.
Qed.

(** From the rounded significand to the pattern *)
Lemma finish_normal r power2 : 2 ^ 52 <= r <= 2 ^ 53 -> 1 <= power2 ->
  let am := (let (mantissa, power2) := if 2 ^ 53 <=? r then (2 ^ 52, power2 + 1) else (r, power2) in
             let mantissa := Z.ldiff mantissa (2 ^ 52) in
             if 0x7FF <=? power2 then Adjusted 0 0x7FF else Adjusted mantissa power2) in
  well am /\ to_float false am = Z.min ((power2 - 1) * 2 ^ 52 + r) top.
Proof.
  intros Hr Hp. cbv zeta. destruct (Z.leb_spec (2 ^ 53) r) as [H|H].
  - change (Z.ldiff (2 ^ 52) (2 ^ 52)) with 0. destruct (Z.leb_spec 0x7FF (power2 + 1)) as [H'|H'].
    + split; [unfold well; cbn; lia|]. change (to_float false (Adjusted 0 0x7FF)) with top. unfold top. lia.
    + assert (well (Adjusted 0 (power2 + 1))) as W by (unfold well; cbn [am_mantissa am_power2]; lia). split; [exact W|].
      rewrite (to_float_well _ W). cbn [am_mantissa am_power2]. change (0 =? 2 ^ 52) with false. cbv iota. unfold top. lia.
  - rewrite ldiff_52 by lia. destruct (Z.leb_spec 0x7FF power2) as [H'|H'].
    + split; [unfold well; cbn; lia|]. change (to_float false (Adjusted 0 0x7FF)) with top. unfold top. lia.
    + assert (well (Adjusted (r - 2 ^ 52) power2)) as W by (unfold well; cbn [am_mantissa am_power2]; lia). split; [exact W|].
      rewrite (to_float_well _ W). cbn [am_mantissa am_power2]. destruct (Z.eqb_spec (r - 2 ^ 52) (2 ^ 52)); [lia|]. unfold top. lia.
Qed.
Lemma finish_small r : 0 <= r <= 2 ^ 52 -> let am := Adjusted r (if r <? 2 ^ 52 then 0 else 1) in well am /\ to_float false am = Z.min (0 * 2 ^ 52 + r) top.
Proof.
  intros Hr. cbv zeta. assert (well (Adjusted r (if r <? 2 ^ 52 then 0 else 1))) as W.
  { unfold well. cbn [am_mantissa am_power2]. destruct (Z.ltb_spec r (2 ^ 52)); lia. }
  split; [exact W|]. rewrite (to_float_well _ W). cbn [am_mantissa am_power2]. unfold top. destruct (Z.eqb_spec r (2 ^ 52)); destruct (Z.ltb_spec r (2 ^ 52)); lia.
Qed.

Definition pattern10 (n m e : Z) : Prop := pattern n (m * 2 ^ 1074 * 10 ^ Z.max 0 e) (10 ^ Z.max 0 (- e)).

Lemma pow10_pos' n : 0 <= n -> 0 < 10 ^ n.
Proof. intros. apply Z.pow_pos_nonneg; lia. Qed.

Lemma pattern10_small q w : q < -342 -> 0 <= w < 2 ^ 64 -> pattern10 0 w q.
Proof.
  intros Hq Hw. left. split; [unfold finite; lia|]. unfold nearest. change (Z.even 0) with true. cbv iota.
  change (0 - 1) with (-1). rewrite magnitude_minus_one. change (magnitude 0) with 0. change (magnitude (0 + 1)) with 1.
  rewrite (Z.max_l 0 q), (Z.max_r 0 (- q)) by lia. rewrite Z.pow_0_r, Z.mul_1_r.
  assert (10 ^ 343 <= 10 ^ (- q)) by (apply Z.pow_le_mono_r; lia).
  assert (2 * (2 ^ 64 * 2 ^ 1074) <= 10 ^ 343) as C by (vm_compute; discriminate).
  assert (w * 2 ^ 1074 <= 2 ^ 64 * 2 ^ 1074) by (apply Z.mul_le_mono_nonneg_r; [apply Z.pow_nonneg|]; lia).
  assert (0 <= w * 2 ^ 1074) by (apply Z.mul_nonneg_nonneg; [|apply Z.pow_nonneg]; lia).
  remember (w * 2 ^ 1074) as a. remember (2 ^ 64 * 2 ^ 1074) as b. remember (10 ^ 343) as c. clear Heqa Heqb Heqc. lia.
Qed.
Lemma pattern10_large q w : 308 < q -> 0 < w -> pattern10 top w q.
Proof.
  intros Hq Hw. right. split; [reflexivity|]. unfold beyond. rewrite (Z.max_r 0 q), (Z.max_l 0 (- q)) by lia. rewrite Z.pow_0_r, Z.mul_1_r.
  assert (10 ^ 309 <= 10 ^ q) by (apply Z.pow_le_mono_r; lia).
  assert (magnitude (top - 1) + magnitude top <= 2 * (2 ^ 1074 * 10 ^ 309)) as C by (vm_compute; discriminate).
  assert (2 ^ 1074 * 10 ^ 309 <= w * 2 ^ 1074 * 10 ^ q).
  { apply Z.mul_le_mono_nonneg; [apply Z.pow_nonneg; lia| |apply Z.pow_nonneg; lia|exact H].
    rewrite <- (Z.mul_1_l (2 ^ 1074)) at 1. apply Z.mul_le_mono_nonneg_r; [apply Z.pow_nonneg|]; lia. }
  lia.
Qed.

Lemma no_tie_below q w g : 0 < w < 2 ^ 64 -> q < -300 -> Z.odd g = true -> 2 * (w * 2 ^ 1074 * 10 ^ Z.max 0 q) <> g * 10 ^ Z.max 0 (- q).
Proof.
  intros Hw Hq Og E. rewrite (Z.max_l 0 q), (Z.max_r 0 (- q)) in E by (clear - Hq; lia).
  rewrite Z.pow_0_r, Z.mul_1_r, pow10_split in E by (clear - Hq; lia).
  assert (5 ^ (- q) | w) as D.
  { apply odd_divides with 1075; [apply odd_pow5; clear - Hq; lia|discriminate|]. exists (g * 2 ^ (- q)). change (2 ^ 1075) with (2 * 2 ^ 1074).
    remember (2 ^ 1074) as c eqn:Hc. clear Hc. transitivity (2 * (w * c)); [ring|]. rewrite E. ring. }
  apply Z.divide_pos_le in D; [|clear - Hw; lia]. assert (5 ^ 300 <= 5 ^ (- q)) by (apply Z.pow_le_mono_r; clear - Hq; lia).
  assert (2 ^ 64 <= 5 ^ 300) by (vm_compute; discriminate). clear E. remember (5 ^ 300) as c eqn:Hc. clear Hc. lia.
Qed.

Lemma compute_float_ok q w : 0 < w < 2 ^ 64 -> exists am, compute_float q w = Ok am /\ well am /\ pattern10 (to_float false am) w q.
Proof.
  intros Hw. unfold compute_float. destruct (Z.eqb_spec w 0); [lia|]. cbn [orb].
  destruct (Z.ltb_spec q (-342)) as [Hq1|Hq1].
  { eexists. split; [reflexivity|]. split; [unfold well; cbn; lia|]. apply pattern10_small; [exact Hq1|lia]. }
  destruct (Z.ltb_spec 308 q) as [Hq2|Hq2].
  { eexists. split; [reflexivity|]. split; [unfold well; cbn; lia|]. apply pattern10_large; [exact Hq2|lia]. }
  destruct (normalised w Hw) as (Hlz & -> & Hw'). remember (leading_zeroes w) as lz eqn:Elz.
  destruct (product q (w * 2 ^ lz) ltac:(lia) Hw') as (hi & lo & high & low & En & -> & Hh & Hl & Hd & Hp). cbn [obind].
  rewrite (Z.shiftr_div_pow2 high 63) by lia. remember (high / 2 ^ 63) as u eqn:Eu.
  assert (0 <= u) as Hu0 by (rewrite Eu; apply Z.div_pos; lia).
  replace (u + 64 - 52 - 3) with (9 + u) by lia. rewrite (Z.shiftr_div_pow2 high (9 + u)) by lia. remember (high / 2 ^ (9 + u)) as f eqn:Ef.
  remember (power q + 1022 - lz + u) as k eqn:Ek.
  destruct (quotient q w lz u high k f ltac:(lia) Hw Elz Hd Hh Eu Ek Ef) as (Hu & Hf & Hb & Htie).
  replace (power q + u - lz + 1023) with (k + 1) by lia.
  unfold pattern10.
  assert (0 < 10 ^ Z.max 0 (- q)) as Hpp by (apply pow10_pos'; apply Z.le_max_l).
  assert (0 <= w * 2 ^ 1074 * 10 ^ Z.max 0 q) as Hx.
  { apply Z.mul_nonneg_nonneg; [apply Z.mul_nonneg_nonneg; [clear - Hw; lia|]|]; apply Z.pow_nonneg; discriminate. }
  assert (twice q w k = 2 * (w * 2 ^ 1074 * 10 ^ Z.max 0 q) * 2 ^ Z.max 0 (- k)) as Etw by reflexivity.
  assert (unit q k = 10 ^ Z.max 0 (- q) * 2 ^ Z.max 0 k) as Eun by reflexivity.
  assert (forall g, q < -300 -> Z.odd g = true -> 2 * (w * 2 ^ 1074 * 10 ^ Z.max 0 q) <> g * 10 ^ Z.max 0 (- q)) as Htie0 by (intros g; apply no_tie_below; exact Hw).
  set (x := w * 2 ^ 1074 * 10 ^ Z.max 0 q) in *. set (p := 10 ^ Z.max 0 (- q)) in *. clearbody x p.
  destruct (Z.leb_spec (k + 1) 0) as [Hk|Hk].
  - rewrite Z.max_r in Etw by lia. rewrite Z.max_l in Eun by lia. rewrite Z.pow_0_r, Z.mul_1_r in Eun. rewrite Etw, Eun in Hb.
    replace (- (k + 1) + 1) with (- k) by lia.
    assert (0 < 2 ^ (- k)) as Hpk by (apply Z.pow_pos_nonneg; lia).
    set (g := f / 2 ^ (- k)).
    assert (g * p <= 2 * x < (g + 1) * p) as Hg.
    { pose proof (div_bounds f (2 ^ (- k)) Hpk) as Bg. fold g in Bg. set (y := 2 ^ (- k)) in *. clearbody y. split.
      - apply (Zmult_le_reg_r _ _ y); [lia|]. apply Z.le_trans with (f * p); [|lia]. replace (g * p * y) with (g * y * p) by ring. apply Z.mul_le_mono_nonneg_r; lia.
      - apply (Zmult_lt_reg_r _ _ y); [lia|]. apply Z.lt_le_trans with ((f + 1) * p); [lia|]. replace ((g + 1) * p * y) with ((g + 1) * y * p) by ring.
        apply Z.mul_le_mono_nonneg_r; lia. }
    assert (q < -300) as Hq300.
    { assert (power q < -950) as Hpq by (clear - Ek Hk Hlz Hu0; lia). unfold power in Hpq. clear - Hpq. Z.div_mod_to_equations. lia. }
    assert (2 * x <> g * p \/ Z.odd g = false) as Hnotie.
    { destruct (Z.odd g) eqn:Og; [left; apply Htie0; assumption|right; reflexivity]. }
    pose proof (half_round x p g Hpp Hg) as HR.
    assert (Z.odd g && (2 * x =? g * p) && negb (g mod 4 =? 3) = false) as Hc.
    { destruct Hnotie as [H| ->]; [|reflexivity]. destruct (Z.eqb_spec (2 * x) (g * p)); [contradiction|]. rewrite andb_false_r. reflexivity. }
    rewrite Hc in HR. 
    assert (0 <= g < 2 ^ 53) as Hg53.
    { split; [apply Z.div_pos; lia|]. apply Z.div_lt_upper_bound; [exact Hpk|]. assert (2 ^ 1 <= 2 ^ (- k)) by (apply Z.pow_le_mono_r; lia). change (2 ^ 1) with 2 in H.
      assert (2 * 2 ^ 53 <= 2 ^ (- k) * 2 ^ 53) as H2 by (apply Z.mul_le_mono_nonneg_r; [discriminate|exact H]). clear - H2 Hf. lia. }
    set (r := (g + g mod 2) / 2) in *.
    assert (0 <= r <= 2 ^ 52) as Hr by (unfold r; clear - Hg53; Z.div_mod_to_equations; lia).
    destruct (finish_small r Hr) as [W T].
    assert (x < 2 ^ 53 * (p * 2 ^ 0)) as Hx53.
    { rewrite Z.pow_0_r, Z.mul_1_r. assert ((g + 1) * p <= 2 ^ 53 * p) as H by (apply Z.mul_le_mono_nonneg_r; clear - Hpp Hg53; lia). clear - H Hg Hx. lia. }
    assert (pattern (Z.min (0 * 2 ^ 52 + r) top) x p) as PT.
    { apply core; [exact Hpp|exact Hx|lia|left; reflexivity|exact Hx53|]. rewrite Z.pow_0_r, Z.mul_1_r. exact HR. }
    destruct (Z.leb_spec 64 (- k)) as [H64|H64].
    + eexists. split; [reflexivity|]. split; [unfold well; cbn; lia|].
      assert (r = 0) as R0.
      { unfold r. assert (g = 0) as ->; [|reflexivity]. unfold g. apply Z.div_small. split; [lia|]. assert (2 ^ 64 <= 2 ^ (- k)) as H by (apply Z.pow_le_mono_r; clear - H64; lia). clear - H Hf. lia. }
      rewrite R0 in PT. exact PT.
    + rewrite (Z.shiftr_div_pow2 f (- k)) by lia. fold g. rewrite land_1 by lia. rewrite Z.shiftr_div_pow2 by lia. change (2 ^ 1) with 2.
      assert (w64 (g + g mod 2) = g + g mod 2) as ->.
      { unfold w64. apply Z.mod_small. pose proof (Z.mod_pos_bound g 2 ltac:(reflexivity)) as H. clear - H Hg53. lia. }
      fold r. eexists. split; [reflexivity|]. split; [exact W|]. rewrite T. exact PT.
  - rewrite Z.max_l in Etw by lia. rewrite Z.max_r in Eun by lia. rewrite Z.pow_0_r, Z.mul_1_r in Etw. rewrite Etw, Eun in Hb, Htie.
    set (d := p * 2 ^ k) in *. assert (0 < d) as Hdp by (unfold d; apply Z.mul_pos_pos; [exact Hpp|apply Z.pow_pos_nonneg; lia]).
    rewrite land_3 by lia.
    set (cond := (low <=? 1) && (-4 <=? q) && (q <=? 23) && (f mod 4 =? 1) && (w64 (Z.shiftl f (9 + u)) =? high)).
    pose proof (half_round x d f Hdp Hb) as HR.
    assert (Z.odd f && (2 * x =? f * d) && negb (f mod 4 =? 3) = cond) as Hc.
    { unfold cond. destruct (Z.eqb_spec (f mod 4) 1) as [M|M].
      - assert (Z.odd f = true) as Ho. { rewrite Zodd_mod. apply Zeq_is_eq_bool. clear - M. Z.div_mod_to_equations; lia. }
        rewrite Ho. destruct (Z.eqb_spec (f mod 4) 3) as [M3|_]; [clear - M M3; lia|]. cbn [andb negb]. rewrite andb_true_r, andb_true_r.
        pose proof (tie_found q (w * 2 ^ lz) hi lo high low u f ltac:(lia) Hw' En Hl Hp Hu Hf Ho) as TF. cbv zeta in TF.
        rewrite Htie in TF.
        assert (Z.shiftl f (9 + u) = f * (512 * 2 ^ u)) as Es by (rewrite Z.shiftl_mul_pow2, Z.pow_add_r by lia; reflexivity).
        assert (0 <= f * (512 * 2 ^ u) <= high) as Bs.
        { split; [apply Z.mul_nonneg_nonneg; [lia|]; apply Z.mul_nonneg_nonneg; [lia|apply Z.pow_nonneg; lia]|].
          rewrite Ef. replace (512 * 2 ^ u) with (2 ^ (9 + u)) by (rewrite Z.pow_add_r by lia; reflexivity). apply div_bounds. apply Z.pow_pos_nonneg; lia. }
        unfold w64. rewrite Es, Z.mod_small by (clear - Bs Hh; lia).
        destruct (Z.eqb_spec (2 * x) (f * d)) as [T|T].
        + apply TF in T as (T1 & T2 & T3). symmetry. rewrite !andb_true_iff, !Z.leb_le, Z.eqb_eq. clear - T1 T2 T3. lia.
        + symmetry. apply Bool.not_true_iff_false. rewrite !andb_true_iff, !Z.leb_le, Z.eqb_eq. intros C. apply T, TF. clear - C. lia.
      - rewrite andb_false_r. cbn [andb]. destruct (Z.odd f) eqn:Ho; [|reflexivity]. 
        assert (f mod 4 = 3) as ->; [|cbn; apply andb_false_r]. rewrite Zodd_mod in Ho. apply Zeq_bool_eq in Ho. clear - M Ho. Z.div_mod_to_equations; lia. }
    rewrite Hc in HR. assert (cond = true -> f mod 4 = 1) as Hcond.
    { unfold cond. rewrite !andb_true_iff, Z.eqb_eq. tauto. }
    clearbody cond. clear Hc Htie Hp.
    set (m := if cond then Z.ldiff f 1 else f).
    set (r := if cond then (f - 1) / 2 else (f + f mod 2) / 2) in *.
    assert (Z.shiftr (w64 (m + Z.land m 1)) 1 = r) as Er.
    { assert (0 <= m < 2 ^ 54) as Hm.
      { unfold m. destruct cond; [|lia]. rewrite ldiff_1; [lia|]. specialize (Hcond eq_refl). clear - Hcond. Z.div_mod_to_equations; lia. }
      rewrite land_1 by lia. unfold w64. pose proof (Z.mod_pos_bound m 2 ltac:(lia)). rewrite Z.mod_small by (clear - H Hm; lia). rewrite Z.shiftr_div_pow2 by discriminate. change (2 ^ 1) with 2.
      unfold m, r. destruct cond; [|reflexivity]. specialize (Hcond eq_refl).
      assert (f mod 2 = 1) as M2 by (clear - Hcond; Z.div_mod_to_equations; lia). rewrite ldiff_1 by exact M2. f_equal.
      clear - M2. Z.div_mod_to_equations; lia. }
    rewrite Er.
    assert (2 ^ 52 <= r <= 2 ^ 53) as Hr.
    { unfold r. destruct cond.
      - specialize (Hcond eq_refl). clear - Hf Hcond. Z.div_mod_to_equations; lia.
      - clear - Hf. Z.div_mod_to_equations; lia. }
    destruct (finish_normal r (k + 1) Hr ltac:(lia)) as [W T]. replace (k + 1 - 1) with k in T by lia. cbv zeta in W, T.
    set (fin := let (mantissa, power2) := if 2 ^ 53 <=? r then (2 ^ 52, k + 1 + 1) else (r, k + 1) in
                let mantissa := Z.ldiff mantissa (2 ^ 52) in if 0x7FF <=? power2 then Adjusted 0 0x7FF else Adjusted mantissa power2).
    exists fin. split.
    { unfold fin. destruct (2 ^ 53 <=? r); match goal with |- (if ?b then _ else _) = _ => destruct b end; reflexivity. }
    split; [exact W|]. unfold fin. cbv zeta. rewrite T. apply core; [exact Hpp|exact Hx|lia| | |exact HR].
    + right. fold d. assert (2 ^ 53 * d <= f * d) as H by (apply Z.mul_le_mono_nonneg_r; clear - Hdp Hf; lia). clear - H Hb. lia.
    + fold d. assert ((f + 1) * d <= 2 ^ 54 * d) as H by (apply Z.mul_le_mono_nonneg_r; clear - Hdp Hf; lia). clear - H Hb. lia.
Qed.
