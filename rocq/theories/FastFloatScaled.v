(** * The products of the number parser *)
From Verif Require Import Base BaseFacts FastFloatModel FastFloatTables FastFloatCertificates RyuShortest RyuScaled.
Local Open Scope Z_scope.

(** As in RyuScaled.v, with a larger bound *)
Definition sandwich64 (ln ld hn hd : Z) (row : Z * Z * Z * Z) : bool :=
  let '(p1, q1, p2, q2) := row in
  (ln * hd =? hn * ld) ||
  ((p2 * q1 - p1 * q2 =? 1) && (0 <? q1) && (0 <=? q2) && (2 ^ 64 <? q1 + q2) && (p1 * ld <=? ln * q1) && (hn * q2 <? p2 * hd)).

Lemma floors64 ln ld hn hd row x : 0 < ld -> 0 < hd -> ln * hd <= hn * ld -> sandwich64 ln ld hn hd row = true -> 0 <= x <= 2 ^ 64 ->
  x * ln / ld = x * hn / hd.
Proof.
  intros Hl Hh Hle Hs Hx. destruct row as [[[p1 q1] p2] q2]. unfold sandwich64 in Hs. apply orb_prop in Hs as [Hs|Hs].
  - apply Z.eqb_eq in Hs. rewrite <- (Z.div_mul_cancel_r (x * ln) ld hd), <- (Z.div_mul_cancel_r (x * hn) hd ld) by lia.
    replace (x * ln * hd) with (x * (ln * hd)) by ring. rewrite Hs. f_equal; ring.
  - rewrite !andb_true_iff, Z.eqb_eq, !Z.ltb_lt, !Z.leb_le in Hs. destruct Hs as (((((D & H1) & H2) & HM) & HL) & HR).
    set (n := x * hn / hd). pose proof (div_bounds (x * hn) hd Hh) as Bn. fold n in Bn.
    pose proof (div_bounds (x * ln) ld Hl) as Bl.
    apply Z.le_antisymm.
    + apply div_ge; [exact Hh|]. apply Z.mul_le_mono_pos_r with ld; [exact Hl|].
      set (y := x * ln / ld) in *. clear - Bl Hle Hx Hh Hl.
      assert (y * ld * hd <= x * ln * hd) by (apply Z.mul_le_mono_nonneg_r; lia).
      assert (x * (ln * hd) <= x * (hn * ld)) by (apply Z.mul_le_mono_nonneg_l; lia). lia.
    + apply div_ge; [exact Hl|]. destruct (Z_lt_le_dec (x * ln) (n * ld)) as [L|]; [exfalso|assumption].
      assert (x <> 0) as Hx0.
      { intros E. apply (Z.lt_irrefl 0). unfold n in L. rewrite E in L. cbn in L. rewrite Z.div_0_l in L by lia. exact L. }
      assert (q1 + q2 <= x); [|clear - H HM Hx; lia].
      apply (farey p1 q1 p2 q2 n x D H1 H2).
      * apply Z.mul_lt_mono_pos_r with ld; [exact Hl|]. clear - HL L Hx Hx0 H1.
        assert (x * (p1 * ld) <= x * (ln * q1)) by (apply Z.mul_le_mono_nonneg_l; lia).
        assert (x * ln * q1 < n * ld * q1) by (apply Z.mul_lt_mono_pos_r; lia). lia.
      * apply Z.mul_lt_mono_pos_r with hd; [exact Hh|]. clear - HR Bn Hx Hx0 H2.
        assert (n * hd * q2 <= x * hn * q2) by (apply Z.mul_le_mono_nonneg_r; lia).
        assert (x * (hn * q2) < x * (p2 * hd)) by (apply Z.mul_lt_mono_pos_l; lia). lia.
Qed.

(** ** The table *)

(** The power of five that an entry stands for, divided by 2^137, is [factor_num q / factor_den q]. *)
Definition bits (q : Z) : Z := power q - q - 53.
Definition factor_num (q : Z) : Z := 5 ^ Z.max 0 q * 2 ^ Z.max 0 (- bits q).
Definition factor_den (q : Z) : Z := 5 ^ Z.max 0 (- q) * 2 ^ Z.max 0 (bits q).

Definition row_ok (row : Z * Z * Z * Z) (q : Z) : bool :=
  match nth_error POWER_OF_FIVE_128 (Z.to_nat (q + 342)) with
  | None => false
  | Some (hi, lo) =>
      let t := hi * 2 ^ 64 + lo in
      let num := factor_num q in
      let den := factor_den q in
      (2 ^ 63 <=? hi) && (hi <? 2 ^ 64) && (0 <=? lo) && (lo <? 2 ^ 64) &&
      (if t * den <=? num * 2 ^ 137 then sandwich64 t (2 ^ 137) num den row else sandwich64 num den t (2 ^ 137) row) &&
      (if (0 <=? q) && (q <=? 23) then (lo =? 0) && (hi mod 2 =? 0) && (t * den =? num * 2 ^ 137) else true) &&
      (if (-4 <=? q) && (q <=? -1) then (num * 2 ^ 137 <=? t * den) && (t * den - num * 2 ^ 137 <? den) else true)
  end.
Fixpoint check_from (q : Z) (rows : list (Z * Z * Z * Z)) : bool :=
  match rows with [] => true | row :: r => row_ok row q && check_from (q + 1) r end.

Lemma checked : check_from (-342) CERTIFICATES = true.
Proof. vm_compute. reflexivity. Qed.
Lemma count : length CERTIFICATES = 651%nat.
Proof. reflexivity. Qed.
Lemma check_nth : forall rows e2 e, check_from e2 rows = true -> e2 <= e < e2 + Z.of_nat (length rows) -> exists row, row_ok row e = true.
Proof.
  induction rows as [|row rows IH]; intros e2 e H He; cbn [length check_from] in *; [lia|].
  apply andb_prop in H as [H1 H2]. destruct (Z.eq_dec e e2) as [->|Hne]; [exists row; exact H1|].
  apply (IH (e2 + 1)); [exact H2|lia].
Qed.
Lemma factor_den_pos q : 0 < factor_den q.
Proof. unfold factor_den. apply Z.mul_pos_pos; apply Z.pow_pos_nonneg; lia. Qed.
Lemma factor_num_pos q : 0 < factor_num q.
Proof. unfold factor_num. apply Z.mul_pos_pos; apply Z.pow_pos_nonneg; lia. Qed.

Lemma entry q : -342 <= q <= 308 -> exists hi lo, nth_error POWER_OF_FIVE_128 (Z.to_nat (q + 342)) = Some (hi, lo) /\
  2 ^ 63 <= hi < 2 ^ 64 /\ 0 <= lo < 2 ^ 64 /\
  (forall w, 0 <= w <= 2 ^ 64 -> w * (hi * 2 ^ 64 + lo) / 2 ^ 137 = w * factor_num q / factor_den q) /\
  (0 <= q <= 23 -> lo = 0 /\ hi mod 2 = 0 /\ (hi * 2 ^ 64 + lo) * factor_den q = factor_num q * 2 ^ 137) /\
  (-4 <= q <= -1 -> 0 <= (hi * 2 ^ 64 + lo) * factor_den q - factor_num q * 2 ^ 137 < factor_den q).
Proof.
  intros Hq. destruct (check_nth CERTIFICATES (-342) q checked) as (row & H); [rewrite count; lia|]. revert H. unfold row_ok.
  pose proof (factor_den_pos q) as Hd. pose proof (factor_num_pos q) as Hn.
  destruct (nth_error POWER_OF_FIVE_128 (Z.to_nat (q + 342))) as [[hi lo]|]; [|discriminate]. cbv zeta.
  set (t := hi * 2 ^ 64 + lo). set (num := factor_num q) in *. set (den := factor_den q) in *. clearbody num den.
  rewrite !andb_true_iff. intros ((((((H1 & H2) & H3) & H4) & H5) & H6) & H7).
  apply Z.leb_le in H1. apply Z.ltb_lt in H2. apply Z.leb_le in H3. apply Z.ltb_lt in H4.
  exists hi, lo. fold t. split; [reflexivity|]. split; [lia|]. split; [lia|]. split; [|split].
  - intros w Hw. destruct (Z.leb_spec (t * den) (num * 2 ^ 137)) as [L|L].
    + apply floors64 with row; [reflexivity|exact Hd|exact L|exact H5|exact Hw].
    + symmetry. apply floors64 with row; [exact Hd|reflexivity|lia|exact H5|exact Hw].
  - intros Hr. destruct (Z.leb_spec 0 q); [|lia]. destruct (Z.leb_spec q 23); [|lia]. cbn [andb] in H6.
    apply andb_prop in H6 as [H6 E3]. apply andb_prop in H6 as [E1 E2]. apply Z.eqb_eq in E1, E2, E3. auto.
  - intros Hr. destruct (Z.leb_spec (-4) q); [|lia]. destruct (Z.leb_spec q (-1)); [|lia]. cbn [andb] in H7.
    apply andb_prop in H7 as [E1 E2]. apply Z.leb_le in E1. apply Z.ltb_lt in E2. lia.
Qed.

(** ** The product *)

Lemma land_511 x : 0 <= x -> Z.land x 0x1FF = x mod 512.
Proof. intros H. change 0x1FF with (Z.ones 9). rewrite Z.land_ones by lia. reflexivity. Qed.

Definition first_product (high low w hi : Z) : Prop := high * 2 ^ 64 + low = w * hi /\ high mod 512 <> 511.
Definition whole_product (high low w hi lo : Z) : Prop := high * 2 ^ 64 + low = w * (hi * 2 ^ 64 + lo) / 2 ^ 64 /\ w * hi / 2 ^ 64 mod 512 = 511.

Lemma product q w : -342 <= q <= 308 -> 2 ^ 63 <= w < 2 ^ 64 -> exists hi lo high low,
  nth_error POWER_OF_FIVE_128 (Z.to_nat (q + 342)) = Some (hi, lo) /\ compute_product_approximation q w = Ok (high, low) /\
  2 ^ 62 <= high < 2 ^ 64 /\ 0 <= low < 2 ^ 64 /\ high / 2 ^ 9 = w * factor_num q / factor_den q /\
  (first_product high low w hi \/ whole_product high low w hi lo).
Proof.
  intros Hq Hw. destruct (entry q Hq) as (hi & lo & En & Hhi & Hlo & Hf & _). exists hi, lo. rewrite En.
  unfold compute_product_approximation. destruct (Z.ltb_spec q (-342)); [lia|]. rewrite En.
  rewrite <- (Hf w) by lia. clear Hf En. set (f := w * hi).
  pose proof (div_bounds f (2 ^ 64) ltac:(reflexivity)) as B. pose proof (Z.div_mod f (2 ^ 64) ltac:(lia)) as E. unfold w64.
  pose proof (Z.mod_pos_bound f (2 ^ 64) ltac:(reflexivity)) as Bm. set (h := f / 2 ^ 64) in *. set (l := f mod 2 ^ 64) in *.
  assert (2 ^ 63 * 2 ^ 63 <= f) as F1 by (unfold f; apply Z.mul_le_mono_nonneg; lia).
  assert (f <= (2 ^ 64 - 1) * (2 ^ 64 - 1)) as F2 by (unfold f; apply Z.mul_le_mono_nonneg; lia).
  assert (2 ^ 62 <= h /\ h < 2 ^ 64 - 1) as [Hh1 Hh2] by (split; lia).
  rewrite land_511 by lia.
  set (g := w * lo). assert (0 <= g <= (2 ^ 64 - 1) * (2 ^ 64 - 1)) as G by (unfold g; split; [apply Z.mul_nonneg_nonneg; lia|apply Z.mul_le_mono_nonneg; lia]).
  pose proof (div_bounds g (2 ^ 64) ltac:(reflexivity)) as Bg. set (s := g / 2 ^ 64) in *.
  assert (w * (hi * 2 ^ 64 + lo) = f * 2 ^ 64 + g) as Et by (unfold f, g; ring).
  assert (w * (hi * 2 ^ 64 + lo) / 2 ^ 64 = f + s) as Ew.
  { rewrite Et. rewrite Z.div_add_l by lia. reflexivity. }
  assert (w * (hi * 2 ^ 64 + lo) / 2 ^ 137 = (f + s) / 2 ^ 73) as E137.
  { change (2 ^ 137) with (2 ^ 64 * 2 ^ 73). rewrite <- Z.div_div by lia. rewrite Ew. reflexivity. }
  assert (0 <= s < 2 ^ 64) as Hs by lia.
  assert (forall a b, 0 <= b < 2 ^ 64 -> (a * 2 ^ 64 + b) / 2 ^ 73 = a / 2 ^ 9) as D73.
  { intros a b Hb. change (2 ^ 73) with (2 ^ 64 * 2 ^ 9). rewrite <- Z.div_div by lia. rewrite Z.div_add_l by lia. rewrite (Z.div_small b) by lia. f_equal. lia. }
  destruct (Z.eqb_spec (h mod 512) 511) as [M|M].
  - (* Both products *)
    set (low := (l + s) mod 2 ^ 64).
    assert (exists c, l + s = c * 2 ^ 64 + low /\ (c = 0 \/ c = 1) /\ (low <? s) = (c =? 1) /\ 0 <= low < 2 ^ 64) as (c & Ec & Hc & Elt & Hl).
    { pose proof (Z.mod_pos_bound (l + s) (2 ^ 64) ltac:(reflexivity)) as Bl. fold low in Bl. 
      pose proof (Z.div_mod (l + s) (2 ^ 64) ltac:(lia)) as Ed. fold low in Ed. exists ((l + s) / 2 ^ 64). set (c := (l + s) / 2 ^ 64) in *. clearbody c low.
      assert (c = 0 \/ c = 1) as Hc by lia. split; [lia|]. split; [exact Hc|]. split; [|lia].
      destruct Hc as [->| ->]; [apply Z.ltb_ge; lia|apply Z.ltb_lt; lia]. }
    rewrite Elt. exists (h + c), low.
    assert ((if c =? 1 then (h + 1) mod 2 ^ 64 else h) = h + c) as ->.
    { destruct Hc as [->| ->]; [change (0 =? 1) with false; cbv iota; lia|]. change (1 =? 1) with true. cbv iota. apply Z.mod_small. lia. }
    assert ((h + c) * 2 ^ 64 + low = f + s) as Ehl by lia.
    split; [reflexivity|]. split; [reflexivity|]. split; [lia|]. split; [exact Hl|]. split.
    + rewrite E137, <- Ehl, D73 by exact Hl. reflexivity.
    + right. split; [rewrite Ew; exact Ehl|exact M].
  - exists h, l. split; [reflexivity|]. split; [reflexivity|]. split; [lia|]. split; [exact Bm|]. split.
    + rewrite E137.
      assert (exists c b, f + s = (h + c) * 2 ^ 64 + b /\ (c = 0 \/ c = 1) /\ 0 <= b < 2 ^ 64) as (c & b & Ec & Hc & Hb).
      { destruct (Z_lt_le_dec (l + s) (2 ^ 64)); [exists 0, (l + s)|exists 1, (l + s - 2 ^ 64)]; lia. }
      rewrite Ec, D73 by exact Hb. change (2 ^ 9) with 512. clear - Hc M Hh1. clearbody h. destruct Hc as [->| ->]; [f_equal; lia|].
      Z.div_mod_to_equations. lia.
    + left. split; [lia|exact M].
Qed.
