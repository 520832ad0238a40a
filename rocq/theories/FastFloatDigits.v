(** * Digits read eight at a time, and counted *)
From Verif Require Import Base BaseFacts RyuSpec RyuDigits RyuDouble FastFloatModel FastFloatCompute.
Local Open Scope Z_scope.

(** ** Eight bytes in a word *)

Fixpoint ones (n : nat) : Z := match n with O => 0 | S n => 1 + 256 * ones n end.
Lemma byte_bit a y k : 0 <= k -> Z.testbit (a + 256 * y) (8 * (k + 1) + 7) = Z.testbit (a / 256 + y) (8 * k + 7).
Proof.
  intros Hk. replace (a / 256 + y) with ((a + 256 * y) / 2 ^ 8) by (change (2 ^ 8) with 256; rewrite Z.mul_comm, Z.div_add by discriminate; reflexivity).
  rewrite Z.div_pow2_bits by lia. f_equal. lia.
Qed.
Lemma eight_are_digits cs : Forall (fun c => (c < 256)%N) cs ->
  (forall k, 0 <= k < Z.of_nat (length cs) -> Z.testbit (little_endian cs + 0x46 * ones (length cs)) (8 * k + 7) = false) ->
  (forall k, 0 <= k < Z.of_nat (length cs) -> Z.testbit (little_endian cs - 0x30 * ones (length cs)) (8 * k + 7) = false) -> Forall is_digit cs.
Proof.
  induction cs as [|c cs IH]; intros Hc H1 H2; [constructor|]. apply Forall_cons_iff in Hc. destruct Hc as [Hc Hcs]. cbn [little_endian length ones] in *.
  set (v := little_endian cs) in *. set (o := ones (length cs)) in *.
  assert (48 <= Z.of_N c <= 57) as D.
  { pose proof (H1 0 ltac:(lia)) as A. pose proof (H2 0 ltac:(lia)) as B. apply Z.testbit_false in A; [|lia]. apply Z.testbit_false in B; [|lia]. change (2 ^ (8 * 0 + 7)) with 128 in *.
    clear - A B Hc. assert (0 <= Z.of_N c < 256) by lia. clear Hc. set (z := Z.of_N c) in *. clearbody z v o. Z.div_mod_to_equations. lia. }
  constructor; [unfold is_digit; lia|]. apply IH; [exact Hcs| |]; intros k Hk.
  - specialize (H1 (k + 1) ltac:(lia)). replace (Z.of_N c + 256 * v + 70 * (1 + 256 * o)) with (Z.of_N c + 70 + 256 * (v + 70 * o)) in H1 by ring.
    rewrite byte_bit in H1 by lia. rewrite Z.div_small in H1 by lia. exact H1.
  - specialize (H2 (k + 1) ltac:(lia)). replace (Z.of_N c + 256 * v - 48 * (1 + 256 * o)) with (Z.of_N c - 48 + 256 * (v - 48 * o)) in H2 by ring.
    rewrite byte_bit in H2 by lia. rewrite Z.div_small in H2 by lia. exact H2.
Qed.
Lemma made_of_eight cs : length cs = 8%nat -> Forall (fun c => (c < 256)%N) cs -> is_made_of_eight_digits_fast (little_endian cs) = true -> Forall is_digit cs.
Proof.
  intros L Hc H. unfold is_made_of_eight_digits_fast in H. apply Z.eqb_eq in H.
  assert (forall k, 0 <= k < 8 -> Z.testbit (Z.lor (w64 (little_endian cs + 0x4646464646464646)) (w64 (little_endian cs - 0x3030303030303030))) (8 * k + 7) = false) as B.
  { intros k Hk. assert (Z.testbit 0x8080808080808080 (8 * k + 7) = true) as T.
    { assert (k = 0 \/ k = 1 \/ k = 2 \/ k = 3 \/ k = 4 \/ k = 5 \/ k = 6 \/ k = 7) as C by lia. destruct C as [->|[->|[->|[->|[->|[->|[->| ->]]]]]]]; reflexivity. }
    pose proof (f_equal (fun z => Z.testbit z (8 * k + 7)) H) as E. cbv beta in E. rewrite Z.land_spec, T, Z.bits_0, andb_true_r in E. exact E. }
  clear H. apply eight_are_digits; [exact Hc| |]; rewrite L; intros k Hk; specialize (B k ltac:(lia)); rewrite Z.lor_spec in B; apply orb_false_iff in B; destruct B as [B1 B2].
  - unfold w64 in B1. rewrite Z.mod_pow2_bits_low in B1 by lia. exact B1.
  - unfold w64 in B2. rewrite Z.mod_pow2_bits_low in B2 by lia. exact B2.
Qed.

Lemma land_cat n a b x y : 0 <= n -> 0 <= a < 2 ^ n -> 0 <= b < 2 ^ n -> 0 <= x -> 0 <= y -> Z.land (a + 2 ^ n * x) (b + 2 ^ n * y) = Z.land a b + 2 ^ n * Z.land x y.
Proof.
  intros Hn Ha Hb Hx Hy.
  replace (a + 2 ^ n * x) with (x * 2 ^ n + a) by ring. replace (b + 2 ^ n * y) with (y * 2 ^ n + b) by ring.
  rewrite <- !disjoint by lia.
  assert (forall c i, 0 <= c < 2 ^ n -> n <= i -> Z.testbit c i = false) as Hi.
  { intros c i Hc Hi. apply Z.testbit_false; [lia|]. rewrite Z.div_small; [reflexivity|]. split; [lia|]. apply Z.lt_le_trans with (2 ^ n); [lia|]. apply Z.pow_le_mono_r; lia. }
  assert (0 <= Z.land a b < 2 ^ n) as Hab.
  { split; [apply Z.land_nonneg; lia|]. destruct (Z.eq_dec (Z.land a b) 0) as [E|E]; [rewrite E; apply Z.pow_pos_nonneg; lia|].
    assert (0 <= Z.land a b) by (apply Z.land_nonneg; lia). apply Z.log2_lt_pow2; [lia|].
    destruct (Z_lt_le_dec (Z.log2 (Z.land a b)) n) as [|C]; [assumption|]. exfalso. pose proof (Z.bit_log2 (Z.land a b) ltac:(lia)) as T.
    rewrite Z.land_spec, (Hi a) in T by (try exact C; lia). discriminate. }
  replace (Z.land a b + 2 ^ n * Z.land x y) with (Z.land x y * 2 ^ n + Z.land a b) by ring. rewrite <- disjoint; [|lia|exact Hab|apply Z.land_nonneg; lia].
  apply Z.bits_inj'. intros i Hi'. rewrite Z.land_spec, !Z.lor_spec, Z.land_spec. destruct (Z_lt_le_dec i n) as [H|H].
  - rewrite !Z.shiftl_spec_low by exact H. rewrite !orb_false_r. reflexivity.
  - rewrite (Hi a), (Hi b) by assumption. rewrite !Z.shiftl_spec by lia. rewrite Z.land_spec. reflexivity.
Qed.

Lemma digits_value_cons c ds : digits_value (c :: ds) = digit c * 10 ^ Z.of_nat (length ds) + digits_value ds.
Proof. change (c :: ds) with ([c] ++ ds). rewrite digits_value_app. cbn [digits_value fold_left]. unfold digit, digits_value. cbn [fold_left]. f_equal. Qed.
Lemma digit_bound c : is_digit c -> 0 <= digit c <= 9.
Proof. unfold is_digit, digit. lia. Qed.

(** Digits two, four and eight at a time *)
Lemma eight_unrolled c0 c1 c2 c3 c4 c5 c6 c7 : Forall is_digit [c0; c1; c2; c3; c4; c5; c6; c7] ->
  parse_eight_digits_unrolled (little_endian [c0; c1; c2; c3; c4; c5; c6; c7]) = digits_value [c0; c1; c2; c3; c4; c5; c6; c7].
Proof.
  intros H. repeat (apply Forall_cons_iff in H; let H' := fresh in destruct H as [H' H]; apply digit_bound in H'). clear H.
  cbn [little_endian]. unfold digits_value. cbn [fold_left]. fold (digit c0) (digit c1) (digit c2) (digit c3) (digit c4) (digit c5) (digit c6) (digit c7).
  assert (forall c, Z.of_N c = digit c + 48) as E by (intros c; unfold digit; lia). rewrite !E. clear E.
  generalize dependent (digit c0). generalize dependent (digit c1). generalize dependent (digit c2). generalize dependent (digit c3).
  generalize dependent (digit c4). generalize dependent (digit c5). generalize dependent (digit c6). generalize dependent (digit c7). clear.
  intros d7 H7 d6 H6 d5 H5 d4 H4 d3 H3 d2 H2 d1 H1 d0 H0. unfold parse_eight_digits_unrolled.
  match goal with |- context [w64 (?v - 0x3030303030303030)] =>
    assert (w64 (v - 0x3030303030303030) = d0 + 256 * (d1 + 256 * (d2 + 256 * (d3 + 256 * (d4 + 256 * (d5 + 256 * (d6 + 256 * d7))))))) as ->
      by (unfold w64; rewrite Z.mod_small by lia; lia) end.
  rewrite (Z.shiftr_div_pow2 _ 8) by lia. change (2 ^ 8) with 256.
  assert ((d0 + 256 * (d1 + 256 * (d2 + 256 * (d3 + 256 * (d4 + 256 * (d5 + 256 * (d6 + 256 * d7))))))) / 256 =
          d1 + 256 * (d2 + 256 * (d3 + 256 * (d4 + 256 * (d5 + 256 * (d6 + 256 * d7)))))) as ->.
  { rewrite (Z.mul_comm 256), Z.div_add, Z.div_small by lia. reflexivity. }
  set (p0 := 10 * d0 + d1). set (p1 := 10 * d1 + d2). set (p2 := 10 * d2 + d3). set (p3 := 10 * d3 + d4).
  set (p4 := 10 * d4 + d5). set (p5 := 10 * d5 + d6). set (p6 := 10 * d6 + d7). set (p7 := 10 * d7).
  assert (w64 (w64 ((d0 + 256 * (d1 + 256 * (d2 + 256 * (d3 + 256 * (d4 + 256 * (d5 + 256 * (d6 + 256 * d7))))))) * 10) +
           (d1 + 256 * (d2 + 256 * (d3 + 256 * (d4 + 256 * (d5 + 256 * (d6 + 256 * d7))))))) =
          p0 + 256 * (p1 + 256 * (p2 + 256 * (p3 + 256 * (p4 + 256 * (p5 + 256 * (p6 + 256 * p7))))))) as ->.
  { unfold w64. rewrite (Z.mod_small ((d0 + _) * 10)) by lia. rewrite Z.mod_small by lia. unfold p0, p1, p2, p3, p4, p5, p6, p7. ring. }
  assert (0 <= p0 <= 99) as P0 by (unfold p0; lia). assert (0 <= p1 <= 99) as P1 by (unfold p1; lia). assert (0 <= p2 <= 99) as P2 by (unfold p2; lia).
  assert (0 <= p3 <= 99) as P3 by (unfold p3; lia). assert (0 <= p4 <= 99) as P4 by (unfold p4; lia). assert (0 <= p5 <= 99) as P5 by (unfold p5; lia).
  assert (0 <= p6 <= 99) as P6 by (unfold p6; lia). assert (0 <= p7 <= 99) as P7 by (unfold p7; lia).
  replace (10 * (10 * (10 * (10 * (10 * (10 * (10 * (10 * 0 + d0) + d1) + d2) + d3) + d4) + d5) + d6) + d7) with (1000000 * p0 + 10000 * p2 + 100 * p4 + p6)
    by (unfold p0, p2, p4, p6; ring).
  clearbody p0 p1 p2 p3 p4 p5 p6 p7. clear - P0 P1 P2 P3 P4 P5 P6 P7.
  assert (forall a b c d, 0 <= a < 256 -> 0 <= b < 256 ^ 3 -> 0 <= c < 256 -> 0 <= d -> Z.land (a + 256 * (b + 256 ^ 3 * (c + 256 * d))) 0x000000FF000000FF = a + 2 ^ 32 * c) as M.
  { intros a b c d Ha Hb Hc Hd.
    assert (forall u v, 0 <= u < 256 -> Z.land (u + 256 * v) 255 = u) as L8.
    { intros u v Hu. change 255 with (Z.ones 8). rewrite Z.land_ones by lia. change (2 ^ 8) with 256. rewrite Z.mul_comm, Z.mod_add by lia. apply Z.mod_small. lia. }
    replace (a + 256 * (b + 256 ^ 3 * (c + 256 * d))) with ((a + 256 * b) + 2 ^ 32 * (c + 256 * d)) by lia.
    change 0x000000FF000000FF with (255 + 2 ^ 32 * 255). rewrite land_cat by lia. rewrite !L8 by lia. reflexivity. }
  rewrite (Z.shiftr_div_pow2 _ 16) by lia. change (2 ^ 16) with (256 * 256).
  assert ((p0 + 256 * (p1 + 256 * (p2 + 256 * (p3 + 256 * (p4 + 256 * (p5 + 256 * (p6 + 256 * p7))))))) / (256 * 256) =
          p2 + 256 * (p3 + 256 * (p4 + 256 * (p5 + 256 * (p6 + 256 * p7))))) as ->.
  { rewrite <- Z.div_div by lia. rewrite (Z.mul_comm 256 (p1 + _)), Z.div_add, (Z.div_small p0) by lia. rewrite Z.add_0_l. rewrite (Z.mul_comm 256 (p2 + _)), Z.div_add, (Z.div_small p1) by lia. reflexivity. }
  replace (p0 + 256 * (p1 + 256 * (p2 + 256 * (p3 + 256 * (p4 + 256 * (p5 + 256 * (p6 + 256 * p7)))))))
    with (p0 + 256 * ((p1 + 256 * p2 + 256 ^ 2 * p3) + 256 ^ 3 * (p4 + 256 * (p5 + 256 * (p6 + 256 * p7))))) by ring.
  replace (p2 + 256 * (p3 + 256 * (p4 + 256 * (p5 + 256 * (p6 + 256 * p7)))))
    with (p2 + 256 * ((p3 + 256 * p4 + 256 ^ 2 * p5) + 256 ^ 3 * (p6 + 256 * p7))) by ring.
  rewrite !M by lia. rewrite Z.shiftr_div_pow2 by lia.
  assert (w64 ((p0 + 2 ^ 32 * p4) * 0x000F424000000064) = 100 * p0 + 2 ^ 32 * (1000000 * p0 + 100 * p4)) as ->.
  { unfold w64. symmetry. apply Z.mod_unique_pos with (1000000 * p4); lia. }
  assert (w64 ((p2 + 2 ^ 32 * p6) * 0x0000271000000001) = p2 + 2 ^ 32 * (10000 * p2 + p6)) as ->.
  { unfold w64. symmetry. apply Z.mod_unique_pos with (10000 * p6); lia. }
  assert (w64 (100 * p0 + 2 ^ 32 * (1000000 * p0 + 100 * p4) + (p2 + 2 ^ 32 * (10000 * p2 + p6))) =
          100 * p0 + p2 + (1000000 * p0 + 10000 * p2 + 100 * p4 + p6) * 2 ^ 32) as ->.
  { unfold w64. rewrite Z.mod_small by lia. ring. }
  rewrite Z.div_add, Z.div_small by lia. rewrite Z.mod_small by lia. lia.
Qed.

(** ** Runs of digits *)

Definition stops (r : bytes) : Prop := match r with c :: _ => ~ is_digit c | [] => True end.
Lemma is_integer_spec c : is_integer c = true <-> is_digit c.
Proof. unfold is_integer, is_digit. rewrite andb_true_iff, !N.leb_le. reflexivity. Qed.
Lemma is_integer_false c : is_integer c = false <-> ~ is_digit c.
Proof. rewrite <- is_integer_spec. destruct (is_integer c); intuition congruence. Qed.

Lemma w64_mul_add i y z : w64 (w64 i * y + z) = w64 (i * y + z).
Proof. unfold w64. rewrite <- Z.add_mod_idemp_l, Z.mul_mod_idemp_l, Z.add_mod_idemp_l by discriminate. reflexivity. Qed.
Lemma w64_add i z : w64 (w64 i + z) = w64 (i + z).
Proof. unfold w64. apply Z.add_mod_idemp_l. discriminate. Qed.
Lemma scan_many ds r : Forall is_digit ds -> forall i, 0 <= i < 2 ^ 64 -> scan_digits (ds ++ r) i = scan_digits r (w64 (i * 10 ^ Z.of_nat (length ds) + digits_value ds)).
Proof.
  induction ds as [|c ds IH]; intros Hd i Hi.
  - cbn [app length digits_value fold_left]. change (10 ^ Z.of_nat 0) with 1. f_equal. unfold w64, digits_value. cbn [fold_left]. rewrite Z.mod_small; lia.
  - apply Forall_cons_iff in Hd. destruct Hd as [Hc Hd]. cbn [app scan_digits]. rewrite (proj2 (is_integer_spec c) Hc).
    rewrite IH; [|exact Hd|unfold w64; apply Z.mod_pos_bound; lia]. f_equal. rewrite w64_add. rewrite w64_mul_add. f_equal.
    rewrite digits_value_cons. cbn [length]. rewrite Nat2Z.inj_succ, Z.pow_succ_r by lia. ring.
Qed.
Lemma scan_stops r i : stops r -> scan_digits r i = (r, i).
Proof. intros H. destruct r as [|c r]; [reflexivity|]. cbn [stops] in H. cbn [scan_digits]. rewrite (proj2 (is_integer_false c) H). reflexivity. Qed.
Lemma scan_all ds r i : Forall is_digit ds -> stops r -> 0 <= i < 2 ^ 64 -> scan_digits (ds ++ r) i = (r, w64 (i * 10 ^ Z.of_nat (length ds) + digits_value ds)).
Proof. intros Hd Hr Hi. rewrite scan_many by assumption. apply scan_stops. exact Hr. Qed.

Lemma loop_scan n : forall p i, (length p <= n)%nat -> Forall (fun c => (c < 256)%N) p -> 0 <= i < 2 ^ 64 ->
  let (p', i') := loop_parse_if_eight_digits p i in scan_digits p' i' = scan_digits p i.
Proof.
  induction n as [|n IH]; intros p i Hn Hp Hi.
  - destruct p; [reflexivity|cbn in Hn; lia].
  - destruct p as [|c0 [|c1 [|c2 [|c3 [|c4 [|c5 [|c6 [|c7 r]]]]]]]]; try reflexivity. cbn [loop_parse_if_eight_digits].
    destruct (is_made_of_eight_digits_fast _) eqn:E; [|reflexivity].
    assert (Forall (fun c => (c < 256)%N) [c0; c1; c2; c3; c4; c5; c6; c7] /\ Forall (fun c => (c < 256)%N) r) as [H8 Hr].
    { apply Forall_app. exact Hp. }
    pose proof (made_of_eight [c0; c1; c2; c3; c4; c5; c6; c7] eq_refl H8 E) as D. specialize (IH r (w64 (w64 (i * 100000000) + parse_eight_digits_unrolled (little_endian [c0; c1; c2; c3; c4; c5; c6; c7])))).
    match type of IH with _ -> _ -> _ -> let (_, _) := ?l in _ => destruct l as [p' i'] end. rewrite IH; [|cbn [length] in Hn; lia|exact Hr|unfold w64; apply Z.mod_pos_bound; lia].
    rewrite eight_unrolled by exact D. rewrite w64_add. symmetry. apply (scan_many [c0; c1; c2; c3; c4; c5; c6; c7] r D i Hi).
Qed.

(** The exponent: a large one is only known to be large. *)
Lemma scan_large ds r : Forall is_digit ds -> stops r -> forall a, 2 ^ 28 <= a -> scan_exponent (ds ++ r) a = (r, a).
Proof.
  intros Hd Hr. induction ds as [|c ds IH]; intros a Ha.
  - destruct r as [|c r]; [reflexivity|]. cbn [app scan_exponent]. cbn [stops] in Hr. rewrite (proj2 (is_integer_false c) Hr). reflexivity.
  - apply Forall_cons_iff in Hd. destruct Hd as [Hc Hd]. cbn [app scan_exponent]. rewrite (proj2 (is_integer_spec c) Hc).
    destruct (Z.ltb_spec a 0x10000000); [lia|]. apply IH; assumption.
Qed.
Lemma scan_exponent_ok ds r : Forall is_digit ds -> stops r -> forall a, 0 <= a -> exists a', scan_exponent (ds ++ r) a = (r, a') /\
  (a' = a * 10 ^ Z.of_nat (length ds) + digits_value ds \/ 2 ^ 28 <= a' <= a * 10 ^ Z.of_nat (length ds) + digits_value ds).
Proof.
  intros Hd Hr. induction ds as [|c ds IH]; intros a Ha.
  - exists a. split.
    + destruct r as [|c r]; [reflexivity|]. cbn [app scan_exponent]. cbn [stops] in Hr. rewrite (proj2 (is_integer_false c) Hr). reflexivity.
    + left. cbn [length]. change (10 ^ Z.of_nat 0) with 1. unfold digits_value. cbn [fold_left]. lia.
  - apply Forall_cons_iff in Hd. destruct Hd as [Hc Hd]. cbn [app scan_exponent]. rewrite (proj2 (is_integer_spec c) Hc).
    rewrite digits_value_cons. cbn [length]. rewrite Nat2Z.inj_succ, Z.pow_succ_r by lia. pose proof (digit_bound c Hc) as B.
    destruct (Z.ltb_spec a 0x10000000) as [H|H].
    + destruct (IH Hd (10 * a + digit c) ltac:(lia)) as (a' & E & C). exists a'. split; [exact E|].
      replace (a * (10 * 10 ^ Z.of_nat (length ds)) + (digit c * 10 ^ Z.of_nat (length ds) + digits_value ds))
        with ((10 * a + digit c) * 10 ^ Z.of_nat (length ds) + digits_value ds) by ring. exact C.
    + exists a. split; [apply scan_large; [exact Hd|exact Hr|lia]|]. right. split; [lia|].
      pose proof (digits_bound ds Hd) as D. assert (0 < 10 ^ Z.of_nat (length ds)) as P by (apply Z.pow_pos_nonneg; lia). set (y := 10 ^ Z.of_nat (length ds)) in *.
      assert (0 <= digit c * y) by (apply Z.mul_nonneg_nonneg; lia). assert (a * 1 <= a * (10 * y)) by (apply Z.mul_le_mono_nonneg_l; lia). lia.
Qed.

(** Nineteen digits *)
Lemma nineteen_ok p : Forall is_digit p -> forall i, 0 <= i < 10 ^ 19 -> exists c p', p = c ++ p' /\
  nineteen p i = (p', i * 10 ^ Z.of_nat (length c) + digits_value c) /\ i * 10 ^ Z.of_nat (length c) + digits_value c < 10 ^ 19 /\
  (p' = [] \/ 10 ^ 18 <= i * 10 ^ Z.of_nat (length c) + digits_value c) /\ (c <> [] -> i < 10 ^ 18).
Proof.
  induction p as [|d p IH]; intros Hd i Hi.
  - exists [], []. cbn [app nineteen length]. change (10 ^ Z.of_nat 0) with 1. unfold digits_value. cbn [fold_left]. repeat split; try lia; [f_equal; lia|left; reflexivity|congruence].
  - apply Forall_cons_iff in Hd. destruct Hd as [Hc Hd]. cbn [nineteen]. pose proof (digit_bound d Hc) as B.
    destruct (Z.ltb_spec i 1000000000000000000) as [H|H].
    + assert (w64 (w64 (i * 10) + digit d) = 10 * i + digit d) as -> by (rewrite w64_add; unfold w64; rewrite Z.mod_small; lia).
      destruct (IH Hd (10 * i + digit d) ltac:(lia)) as (c & p' & E & N & L & M & K). exists (d :: c), p'. rewrite E.
      rewrite digits_value_cons. cbn [length]. rewrite Nat2Z.inj_succ, Z.pow_succ_r by lia.
      replace (i * (10 * 10 ^ Z.of_nat (length c)) + (digit d * 10 ^ Z.of_nat (length c) + digits_value c))
        with ((10 * i + digit d) * 10 ^ Z.of_nat (length c) + digits_value c) by ring.
      split; [reflexivity|]. split; [rewrite <- E; exact N|]. split; [exact L|]. split; [exact M|]. intros _. lia.
    + exists [], (d :: p). cbn [app length]. change (10 ^ Z.of_nat 0) with 1. unfold digits_value. cbn [fold_left].
      split; [reflexivity|]. split; [f_equal; lia|]. split; [lia|]. split; [right; lia|congruence].
Qed.

(** The digits that count *)
Lemma drop_zeros_below p : forall n, drop_zeros p n <= n.
Proof.
  induction p as [|c p IH]; intros n; cbn [drop_zeros]; [lia|]. destruct (c =? 48)%N; [specialize (IH (n - 1)); lia|]. destruct (c =? 46)%N; [apply IH|lia].
Qed.
Lemma drop_zeros_digits ds x : Forall is_digit ds -> forall n,
  (digits_value ds = 0 /\ drop_zeros (ds ++ x) n = drop_zeros x (n - Z.of_nat (length ds))) \/
  (exists l, 1 <= l /\ drop_zeros (ds ++ x) n = n - Z.of_nat (length ds) + l /\ 10 ^ (l - 1) <= digits_value ds < 10 ^ l).
Proof.
  induction ds as [|c ds IH]; intros Hd n.
  - left. split; [reflexivity|]. cbn [app length]. f_equal. lia.
  - apply Forall_cons_iff in Hd. destruct Hd as [Hc Hd]. cbn [app drop_zeros]. rewrite digits_value_cons. cbn [length]. rewrite Nat2Z.inj_succ.
    destruct (N.eqb_spec c 48) as [->|H].
    + change (digit 48) with 0. rewrite Z.mul_0_l, Z.add_0_l. destruct (IH Hd (n - 1)) as [[E D]|(l & L & D & B)].
      * left. split; [exact E|]. rewrite D. f_equal. lia.
      * right. exists l. split; [exact L|]. split; [rewrite D; lia|exact B].
    + destruct (N.eqb_spec c 46) as [->|]; [unfold is_digit in Hc; lia|]. right. exists (Z.of_nat (length ds) + 1). split; [lia|]. split; [lia|].
      assert (1 <= digit c <= 9) as B by (unfold is_digit in Hc; unfold digit; lia). pose proof (digits_bound ds Hd) as D.
      replace (Z.of_nat (length ds) + 1 - 1) with (Z.of_nat (length ds)) by lia. rewrite Z.pow_add_r by lia. set (y := 10 ^ Z.of_nat (length ds)) in *. change (10 ^ 1) with 10.
      assert (1 * y <= digit c * y) by (apply Z.mul_le_mono_nonneg_r; lia). assert (digit c * y <= 9 * y) by (apply Z.mul_le_mono_nonneg_r; lia). lia.
Qed.
Lemma drop_zeros_ok ints point frac x : Forall is_digit ints -> Forall is_digit frac -> point = [46%N] \/ (point = [] /\ frac = []) ->
  let n := Z.of_nat (length ints) + Z.of_nat (length frac) in
  (19 <? (if 19 <? n then drop_zeros (ints ++ point ++ frac ++ x) n else n)) = (10 ^ 19 <=? digits_value (ints ++ frac)).
Proof.
  intros Hi Hf Hp n.
  assert (forall l v, 1 <= l -> 10 ^ (l - 1) <= v < 10 ^ l -> (19 <? l) = (10 ^ 19 <=? v)) as Hl.
  { intros l v Hl Hv. destruct (Z.ltb_spec 19 l) as [H|H]; symmetry; [apply Z.leb_le|apply Z.leb_gt].
    - apply Z.le_trans with (10 ^ (l - 1)); [apply Z.pow_le_mono_r; lia|lia].
    - apply Z.lt_le_trans with (10 ^ l); [lia|apply Z.pow_le_mono_r; lia]. }
  destruct (Z.ltb_spec 19 n) as [Hn|Hn].
  - rewrite digits_value_app. destruct (drop_zeros_digits ints (point ++ frac ++ x) Hi n) as [[E D]|(l & L & D & B)]; rewrite D.
    + rewrite E, Z.mul_0_l, Z.add_0_l. replace (n - Z.of_nat (length ints)) with (Z.of_nat (length frac)) by lia.
      assert (digits_value frac = 0 /\ drop_zeros (point ++ frac ++ x) (Z.of_nat (length frac)) <= 0 \/
              exists l, 1 <= l /\ drop_zeros (point ++ frac ++ x) (Z.of_nat (length frac)) = l /\ 10 ^ (l - 1) <= digits_value frac < 10 ^ l) as C.
      { destruct Hp as [->|[-> ->]].
        - cbn [app drop_zeros]. change (46 =? 48)%N with false. change (46 =? 46)%N with true. cbv iota.
          destruct (drop_zeros_digits frac x Hf (Z.of_nat (length frac))) as [[E' D']|(l & L & D' & B)].
          + left. split; [exact E'|]. rewrite D'. pose proof (drop_zeros_below x (Z.of_nat (length frac) - Z.of_nat (length frac))). lia.
          + right. exists l. split; [exact L|]. split; [rewrite D'; lia|exact B].
        - left. split; [reflexivity|]. cbn [app length]. apply drop_zeros_below. }
      destruct C as [[E' D']|(l & L & D' & B)].
      * rewrite E'. destruct (Z.ltb_spec 19 (drop_zeros (point ++ frac ++ x) (Z.of_nat (length frac)))); [lia|]. reflexivity.
      * rewrite D'. apply Hl; assumption.
    + replace (n - Z.of_nat (length ints) + l) with (l + Z.of_nat (length frac)) by lia. apply Hl; [lia|]. pose proof (digits_bound frac Hf) as F.
      replace (l + Z.of_nat (length frac) - 1) with (l - 1 + Z.of_nat (length frac)) by lia. rewrite !Z.pow_add_r by lia. set (y := 10 ^ Z.of_nat (length frac)) in *.
      assert (10 ^ (l - 1) * y <= digits_value ints * y) by (apply Z.mul_le_mono_nonneg_r; lia). assert ((digits_value ints + 1) * y <= 10 ^ l * y) by (apply Z.mul_le_mono_nonneg_r; lia). lia.
  - destruct (Z.ltb_spec 19 n); [lia|]. symmetry. apply Z.leb_gt. pose proof (digits_bound (ints ++ frac) ltac:(apply Forall_app; split; assumption)) as D.
    apply Z.lt_le_trans with (10 ^ Z.of_nat (length (ints ++ frac))); [lia|]. apply Z.pow_le_mono_r; [lia|]. rewrite app_length. lia.
Qed.
