(** * Scaling with the tables is exact *)
From Verif Require Import Base BaseFacts RyuModel RyuTables RyuCertificates RyuShortest.
From Coq Require Import Znumtheory.
Local Open Scope Z_scope.

(** ** Fractions between neighbours *)

Lemma farey p1 q1 p2 q2 n x : p2 * q1 - p1 * q2 = 1 -> 0 < q1 -> 0 <= q2 -> p1 * x < n * q1 -> n * q2 < p2 * x -> q1 + q2 <= x.
Proof.
  intros D H1 H2 L R.
  replace x with (q1 * (p2 * x - n * q2) + q2 * (n * q1 - p1 * x)).
  - assert (q1 * 1 <= q1 * (p2 * x - n * q2)) by (apply Z.mul_le_mono_nonneg_l; lia).
    assert (q2 * 1 <= q2 * (n * q1 - p1 * x)) by (apply Z.mul_le_mono_nonneg_l; lia). lia.
  - transitivity (x * (p2 * q1 - p1 * q2)); [ring|]. rewrite D. ring.
Qed.

(** Either both fractions are the same, or they lie between neighbours with large denominators. *)
Definition sandwich (ln ld hn hd : Z) (row : Z * Z * Z * Z) : bool :=
  let '(p1, q1, p2, q2) := row in
  (ln * hd =? hn * ld) ||
  ((p2 * q1 - p1 * q2 =? 1) && (0 <? q1) && (0 <=? q2) && (2 ^ 55 <? q1 + q2) && (p1 * ld <=? ln * q1) && (hn * q2 <? p2 * hd)).

Lemma floors ln ld hn hd row x : 0 < ld -> 0 < hd -> ln * hd <= hn * ld -> sandwich ln ld hn hd row = true -> 0 <= x <= 2 ^ 55 ->
  x * ln / ld = x * hn / hd.
Proof.
  intros Hl Hh Hle Hs Hx. destruct row as [[[p1 q1] p2] q2]. unfold sandwich in Hs. apply orb_prop in Hs as [Hs|Hs].
  - apply Z.eqb_eq in Hs. rewrite <- (Z.div_mul_cancel_r (x * ln) ld hd), <- (Z.div_mul_cancel_r (x * hn) hd ld) by lia.
    replace (x * ln * hd) with (x * (ln * hd)) by ring. rewrite Hs. f_equal; ring.
  - rewrite !andb_true_iff, Z.eqb_eq, !Z.ltb_lt, !Z.leb_le in Hs. destruct Hs as (((((D & H1) & H2) & HM) & HL) & HR).
    set (n := x * hn / hd). pose proof (div_bounds (x * hn) hd Hh) as Bn. fold n in Bn.
    pose proof (div_bounds (x * ln) ld Hl) as Bl.
    apply Z.le_antisymm.
    + apply div_ge; [exact Hh|]. apply Z.mul_le_mono_pos_r with ld; [exact Hl|].
      set (y := x * ln / ld) in *. clear - Bl Hle Hx Hh Hl.
      assert (y * ld * hd <= x * ln * hd) by (apply Z.mul_le_mono_nonneg_r; lia).
      assert (x * (ln * hd) <= x * (hn * ld)) by (apply Z.mul_le_mono_nonneg_l; lia). lia.
    + apply div_ge; [exact Hl|]. destruct (Z_lt_le_dec (x * ln) (n * ld)) as [L|]; [exfalso|assumption].
      assert (x <> 0) as Hx0.
      { intros E. apply (Z.lt_irrefl 0). unfold n in L. rewrite E in L. cbn in L. rewrite Z.div_0_l in L by lia. exact L. }
      assert (q1 + q2 <= x); [|clear - H HM Hx; lia].
      apply (farey p1 q1 p2 q2 n x D H1 H2).
      * apply Z.mul_lt_mono_pos_r with ld; [exact Hl|]. clear - HL L Hx Hx0 H1.
        assert (x * (p1 * ld) <= x * (ln * q1)) by (apply Z.mul_le_mono_nonneg_l; lia).
        assert (x * ln * q1 < n * ld * q1) by (apply Z.mul_lt_mono_pos_r; lia). lia.
      * apply Z.mul_lt_mono_pos_r with hd; [exact Hh|]. clear - HR Bn Hx Hx0 H2.
        assert (n * hd * q2 <= x * hn * q2) by (apply Z.mul_le_mono_nonneg_r; lia).
        assert (x * (hn * q2) < x * (p2 * hd)) by (apply Z.mul_lt_mono_pos_l; lia). lia.
Qed.

(** ** The tables *)

Definition q_up (e2 : Z) : Z := log10Pow2 e2 - (if 3 <? e2 then 1 else 0).
Definition j_up (e2 : Z) : Z := - e2 + q_up e2 + (125 + pow5bits (q_up e2) - 1).
Definition q_down (e2 : Z) : Z := log10Pow5 (- e2) - (if 1 <? - e2 then 1 else 0).
Definition i_down (e2 : Z) : Z := - e2 - q_down e2.
Definition j_down (e2 : Z) : Z := q_down e2 - (pow5bits (i_down e2) - 125).

Definition word (mul : Z * Z) : bool := (0 <=? fst mul) && (fst mul <? 2 ^ 64) && (0 <=? snd mul) && (snd mul <? 2 ^ 64).
(** The factor: an integer or at least 10, and not so large that numbers no longer fit. *)
Definition fits (num den : Z) : bool := (den <=? num) && ((den =? 1) || (10 * den <=? num)) && (2 ^ 55 * num <? 2 ^ 64 * den).

Definition check_up (row : Z * Z * Z * Z) (e2 : Z) : bool :=
  let q := q_up e2 in
  let j := j_up e2 in
  match nth_error DOUBLE_POW5_INV_SPLIT (Z.to_nat q) with
  | None => false
  | Some mul =>
      let m := fst mul + 2 ^ 64 * snd mul in
      let num := 2 ^ (e2 - q) in
      let den := 5 ^ q in
      (0 <=? q) && (q <=? e2) && (64 <=? j) && (j <? 192) && word mul && fits num den &&
      (num * 2 ^ j <=? m * den) && sandwich num den m (2 ^ j) row
  end.
Definition check_down (row : Z * Z * Z * Z) (e2 : Z) : bool :=
  let q := q_down e2 in
  let i := i_down e2 in
  let j := j_down e2 in
  match nth_error DOUBLE_POW5_SPLIT (Z.to_nat i) with
  | None => false
  | Some mul =>
      let m := fst mul + 2 ^ 64 * snd mul in
      let num := 5 ^ i in
      let den := 2 ^ q in
      (0 <=? q) && (0 <=? i) && (64 <=? j) && (j <? 192) && word mul && fits num den &&
      (m * den <=? num * 2 ^ j) && sandwich m (2 ^ j) num den row
  end.
Definition row_ok (row : Z * Z * Z * Z) (e2 : Z) : bool := if 0 <=? e2 then check_up row e2 else check_down row e2.
Fixpoint check_from (e2 : Z) (rows : list (Z * Z * Z * Z)) : bool :=
  match rows with [] => true | row :: r => row_ok row e2 && check_from (e2 + 1) r end.

Lemma checked : check_from (-1076) CERTIFICATES = true.
Proof. vm_compute. reflexivity. Qed.
Lemma count : length CERTIFICATES = 2046%nat.
Proof. reflexivity. Qed.

Lemma check_nth : forall rows e2 e, check_from e2 rows = true -> e2 <= e < e2 + Z.of_nat (length rows) -> exists row, row_ok row e = true.
Proof.
  induction rows as [|row rows IH]; intros e2 e H He; cbn [length check_from] in *; [lia|].
  apply andb_prop in H as [H1 H2]. destruct (Z.eq_dec e e2) as [->|Hne]; [exists row; exact H1|].
  apply (IH (e2 + 1)); [exact H2|lia].
Qed.
Lemma row_for e2 : -1076 <= e2 <= 969 -> exists row, row_ok row e2 = true.
Proof. intros H. apply (check_nth CERTIFICATES (-1076)); [exact checked|]. rewrite count. lia. Qed.

Lemma mul_shift_is x mul j : word mul = true -> 64 <= j < 192 -> 0 <= x <= 2 ^ 55 ->
  x * (fst mul + 2 ^ 64 * snd mul) / 2 ^ j < 2 ^ 64 -> mul_shift x mul j = Ok (x * (fst mul + 2 ^ 64 * snd mul) / 2 ^ j).
Proof.
  intros Hw Hj Hx Hs. unfold word in Hw. rewrite !andb_true_iff, !Z.ltb_lt, !Z.leb_le in Hw. destruct Hw as (((A1 & A2) & A3) & A4).
  set (lo := fst mul) in *. set (hi := snd mul) in *. unfold mul_shift. fold lo hi.
  destruct (Z.leb_spec 0 (j - 64)) as [_|]; [|lia]. destruct (Z.ltb_spec (j - 64) 128) as [_|]; [|lia]. cbn [andb].
  assert (x * lo / 2 ^ 64 + x * hi = x * (lo + 2 ^ 64 * hi) / 2 ^ 64) as E1.
  { replace (x * (lo + 2 ^ 64 * hi)) with (x * lo + x * hi * 2 ^ 64) by ring. rewrite Z.div_add by discriminate. reflexivity. }
  rewrite E1.
  assert (0 <= x * (lo + 2 ^ 64 * hi)) as P by (apply Z.mul_nonneg_nonneg; lia).
  assert (x * (lo + 2 ^ 64 * hi) < 2 ^ 192) as S1.
  { apply Z.le_lt_trans with (2 ^ 55 * (2 ^ 64 + 2 ^ 64 * 2 ^ 64)); [|reflexivity]. apply Z.mul_le_mono_nonneg; lia. }
  assert (0 <= x * (lo + 2 ^ 64 * hi) / 2 ^ 64 < 2 ^ 128) as S2.
  { split; [apply Z.div_pos; [exact P|reflexivity]|]. apply Z.div_lt_upper_bound; [reflexivity|]. exact S1. }
  rewrite (Z.mod_small _ (2 ^ 128)) by exact S2. rewrite Z.div_div by (try apply Z.pow_pos_nonneg; lia).
  rewrite <- Z.pow_add_r by lia. replace (64 + (j - 64)) with j by lia. unfold w64. rewrite Z.mod_small; [reflexivity|].
  split; [|exact Hs]. apply Z.div_pos; [exact P|]. apply Z.pow_pos_nonneg; lia.
Qed.

Lemma fits_small num den x : 0 < den -> fits num den = true -> 0 <= x <= 2 ^ 55 -> den <= num /\ (den = 1 \/ 10 * den <= num) /\ 2 ^ 55 * num < 2 ^ 64 * den /\ x * num / den < 2 ^ 64.
Proof.
  intros Hd H Hx. unfold fits in H. rewrite !andb_true_iff, orb_true_iff, Z.ltb_lt, Z.eqb_eq, !Z.leb_le in H. destruct H as [[H1 H3] H2]. split; [exact H1|].
  split; [exact H3|]. split; [exact H2|]. apply Z.div_lt_upper_bound; [exact Hd|].
  apply Z.le_lt_trans with (2 ^ 55 * num); [apply Z.mul_le_mono_nonneg_r; lia|]. lia.
Qed.

(** What the table's multipliers compute. *)
Record scales (mul : Z * Z) (j num den : Z) : Prop := {
  sc_den : 0 < den;
  sc_ge : den <= num;
  sc_ten : den = 1 \/ 10 * den <= num;
  sc_lt : 2 ^ 55 * num < 2 ^ 64 * den;
  sc_exact : forall x, 0 <= x <= 2 ^ 55 -> mul_shift x mul j = Ok (x * num / den)
}.

Lemma scale_up e2 : 0 <= e2 <= 969 -> exists mul, nth_error DOUBLE_POW5_INV_SPLIT (Z.to_nat (q_up e2)) = Some mul /\
  0 <= q_up e2 <= e2 /\ scales mul (j_up e2) (2 ^ (e2 - q_up e2)) (5 ^ q_up e2).
Proof.
  intros He. destruct (row_for e2) as [row H]; [lia|]. unfold row_ok in H. destruct (Z.leb_spec 0 e2) as [_|]; [|lia].
  unfold check_up in H. destruct (nth_error DOUBLE_POW5_INV_SPLIT (Z.to_nat (q_up e2))) as [mul|]; [|discriminate]. exists mul.
  split; [reflexivity|]. cbv zeta in H. rewrite !andb_true_iff, !Z.leb_le, Z.ltb_lt in H.
  destruct H as (((((((H1 & H2) & H3) & H4) & H5) & H6) & H7) & H8).
  assert (0 < 5 ^ q_up e2) as Hd by (apply Z.pow_pos_nonneg; lia).
  assert (0 < 2 ^ j_up e2) as Hj by (apply Z.pow_pos_nonneg; lia).
  split; [lia|].
  split; [exact Hd|apply (fits_small _ _ 0 Hd H6); lia|apply (fits_small _ _ 0 Hd H6); lia|apply (fits_small _ _ 0 Hd H6); lia|].
  intros x Hx. rewrite (floors _ _ _ _ _ _ Hd Hj H7 H8 Hx).
  apply mul_shift_is; [exact H5|lia|exact Hx|]. rewrite <- (floors _ _ _ _ _ _ Hd Hj H7 H8 Hx). apply fits_small; assumption.
Qed.

Lemma scale_down e2 : -1076 <= e2 < 0 -> exists mul, nth_error DOUBLE_POW5_SPLIT (Z.to_nat (i_down e2)) = Some mul /\
  0 <= q_down e2 /\ 0 <= i_down e2 /\ scales mul (j_down e2) (5 ^ i_down e2) (2 ^ q_down e2).
Proof.
  intros He. destruct (row_for e2) as [row H]; [lia|]. unfold row_ok in H. destruct (Z.leb_spec 0 e2) as [|_]; [lia|].
  unfold check_down in H. destruct (nth_error DOUBLE_POW5_SPLIT (Z.to_nat (i_down e2))) as [mul|]; [|discriminate]. exists mul.
  split; [reflexivity|]. cbv zeta in H. rewrite !andb_true_iff, !Z.leb_le, Z.ltb_lt in H.
  destruct H as (((((((H1 & H2) & H3) & H4) & H5) & H6) & H7) & H8).
  assert (0 < 2 ^ q_down e2) as Hd by (apply Z.pow_pos_nonneg; lia).
  assert (0 < 2 ^ j_down e2) as Hj by (apply Z.pow_pos_nonneg; lia).
  split; [exact H1|]. split; [exact H2|].
  split; [exact Hd|apply (fits_small _ _ 0 Hd H6); lia|apply (fits_small _ _ 0 Hd H6); lia|apply (fits_small _ _ 0 Hd H6); lia|].
  intros x Hx. rewrite <- (floors _ _ _ _ _ _ Hj Hd H7 H8 Hx).
  apply mul_shift_is; [exact H5|lia|exact Hx|]. rewrite (floors _ _ _ _ _ _ Hj Hd H7 H8 Hx). apply fits_small; assumption.
Qed.
