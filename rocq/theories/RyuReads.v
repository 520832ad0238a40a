(** * Reading printed numbers back *)
From Verif Require Import Base BaseFacts Text FloatModel FloatSpec FloatFacts RyuModel RyuTables RyuSpec RyuShortest RyuDecimal RyuDigits RyuFixed RyuPrint RyuDouble.
Local Open Scope Z_scope.

(** ** A decimal is nearest to one double *)

Lemma nearest_lt n n' m e : 0 <= n < n' -> nearest_double n m e -> nearest_double n' m e -> False.
Proof.
  intros H N N'. unfold nearest_double in *. cbv zeta in *. set (x := 2 * m * 2 ^ 1074 * 10 ^ Z.max 0 e) in *. set (p := 10 ^ Z.max 0 (- e)) in *.
  assert (0 < p) as Hp by (apply pow10_pos; lia). clearbody x p.
  assert (x <= (magnitude n + magnitude (n + 1)) * p) as U by (destruct (Z.even n); lia).
  assert ((magnitude (n' - 1) + magnitude n') * p <= x) as L by (destruct (Z.even n'); lia).
  destruct (Z.eq_dec n' (n + 1)) as [->|Hne].
  - replace (n + 1 - 1) with n in * by lia. replace (n + 1) with (Z.succ n) in N' by lia. rewrite Z.even_succ, <- Z.negb_even in N'.
    replace (Z.succ n) with (n + 1) in N' by lia. destruct (Z.even n); cbn [negb] in N'; lia.
  - pose proof (magnitude_mono n (n' - 1) ltac:(lia)). pose proof (magnitude_mono (n + 1) n' ltac:(lia)). nia.
Qed.
Lemma nearest_unique n n' m e : 0 <= n -> 0 <= n' -> nearest_double n m e -> nearest_double n' m e -> n = n'.
Proof.
  intros H H' N N'. destruct (Z.lt_trichotomy n n') as [L|[E|L]]; [exfalso|exact E|exfalso].
  - exact (nearest_lt n n' m e ltac:(lia) N N').
  - exact (nearest_lt n' n m e ltac:(lia) N' N).
Qed.

(** ** A text denotes one number *)

Fixpoint span (t : bytes) : bytes * bytes :=
  match t with
  | [] => ([], [])
  | c :: t' => if ((48 <=? c) && (c <=? 57))%N then let (a, b) := span t' in (c :: a, b) else ([], t)
  end.
Lemma span_app a b : Forall is_digit a -> (forall c r, b = c :: r -> ~ is_digit c) -> span (a ++ b) = (a, b).
Proof.
  intros Ha Hb. induction Ha as [|c a Hc Ha IH]; cbn [app span].
  - destruct b as [|c r]; [reflexivity|]. specialize (Hb c r eq_refl). cbn [span]. unfold is_digit in Hb.
    destruct (N.leb_spec 48 c); destruct (N.leb_spec c 57); cbn [andb]; try reflexivity. lia.
  - unfold is_digit in Hc. destruct (N.leb_spec 48 c); [|lia]. destruct (N.leb_spec c 57); [|lia]. cbn [andb]. rewrite IH. reflexivity.
Qed.

Definition take_sign (t : bytes) : bool * bytes :=
  match t with c :: r => if (c =? 45)%N then (true, r) else (false, t) | [] => (false, t) end.
Definition take_frac (t : bytes) : bytes * bytes :=
  match t with c :: r => if (c =? 46)%N then span r else ([], t) | [] => ([], t) end.
Definition take_expo (t : bytes) : Z :=
  match t with
  | c :: d :: r => if (c =? 101)%N then (if (d =? 45)%N then - digits_value (fst (span r)) else digits_value (fst (span r))) else 0
  | _ => 0
  end.
Definition read (t : bytes) : bool * Z * Z :=
  let (negative, t) := take_sign t in
  let (ints, t) := span t in
  let (frac, t) := take_frac t in
  (negative, digits_value (ints ++ frac), take_expo t - Z.of_nat (length frac)).

Lemma read_text negative ints frac tail : canonical_digits ints frac -> (forall c r, tail = c :: r -> ~ is_digit c /\ c <> 46%N) ->
  read (fixed_text negative ints frac ++ tail) = (negative, digits_value (ints ++ frac), take_expo tail - Z.of_nat (length frac)).
Proof.
  intros (H1 & H2 & H3 & H4) Ht. unfold read.
  assert (exists c r, ints = c :: r /\ is_digit c) as (c & r & Ei & Hc).
  { destruct H3 as [->|(c & r & -> & _)]; eexists _, _; (split; [reflexivity|]); [split; cbn; lia|apply Forall_inv in H1; exact H1]. }
  set (mid := match frac with [] => [] | _ => $"." ++ frac end).
  assert (take_sign (fixed_text negative ints frac ++ tail) = (negative, ints ++ mid ++ tail)) as ->.
  { unfold fixed_text. fold mid. rewrite <- !app_assoc. destruct negative; cbn [minus]; [reflexivity|]. rewrite Ei. cbn [app take_sign].
    unfold is_digit in Hc. destruct (N.eqb_spec c 45); [lia|reflexivity]. }
  rewrite span_app; [|exact H1|].
  2:{ intros x y E. unfold mid in E. destruct frac as [|f0 fr]; [cbn [app] in E; apply (Ht x y E)|]. inversion E. unfold is_digit. lia. }
  unfold mid. destruct frac as [|f0 fr].
  - cbn [app]. destruct tail as [|x y]; [reflexivity|]. destruct (Ht x y eq_refl) as [_ Hx]. cbn [take_frac]. destruct (N.eqb_spec x 46); [contradiction|reflexivity].
  - change (($"." ++ f0 :: fr) ++ tail) with (46%N :: (f0 :: fr) ++ tail). cbn [take_frac]. rewrite N.eqb_refl. rewrite span_app; [reflexivity|exact H2|].
    intros x y E. apply (Ht x y E).
Qed.

Lemma denotes_read t s m e : denotes t s m e -> read t = (s, m, e).
Proof.
  intros [negative ints frac H|negative ints frac ne expo H Hl Hd Hne].
  - rewrite <- (app_nil_r (fixed_text negative ints frac)). rewrite read_text; [reflexivity|exact H|discriminate].
  - unfold scientific_text. rewrite read_text; [|exact H|].
    2:{ intros c r E. inversion E. unfold is_digit. split; lia. }
    f_equal. f_equal. assert (span expo = (expo, [])) as S by (rewrite <- (app_nil_r expo) at 1; apply span_app; [exact Hd|discriminate]).
    destruct ne.
    + change (take_expo _) with (- digits_value (fst (span expo))). rewrite S. reflexivity.
    + change (take_expo _) with (digits_value (fst (span expo))). rewrite S. reflexivity.
Qed.
Lemma denotes_unique t s m e s' m' e' : denotes t s m e -> denotes t s' m' e' -> s = s' /\ m = m' /\ e = e'.
Proof. intros H H'. apply denotes_read in H, H'. rewrite H in H'. inversion H'. auto. Qed.

Lemma same_bits f g : (f < 2 ^ 64)%N -> (g < 2 ^ 64)%N -> is_negative f = is_negative g -> unsigned f = unsigned g -> f = g.
Proof.
  intros Hf Hg Hs Hu. unfold unsigned in Hu. apply N2Z.inj in Hu. unfold is_negative in Hs.
  assert (forall h, (h < 2 ^ 64)%N -> h = (h mod 2 ^ 63 + 2 ^ 63 * N.b2n (N.testbit h 63))%N) as K.
  { intros h Hh. rewrite N.testbit_odd, N.shiftr_div_pow2. assert (h / 2 ^ 63 < 2)%N as L by (apply N.div_lt_upper_bound; [discriminate|exact Hh]).
    rewrite (N.div_mod h (2 ^ 63)) at 1 by discriminate. destruct (h / 2 ^ 63)%N as [|[p|p|]]; cbn [N.odd N.b2n]; [apply N.add_comm|exfalso; clear - L; lia|exfalso; clear - L; lia|apply N.add_comm]. }
  rewrite (K f Hf), (K g Hg), Hs, Hu. reflexivity.
Qed.

Theorem reads_back_unique t f g : (f < 2 ^ 64)%N -> (g < 2 ^ 64)%N -> reads_back t f -> reads_back t g -> f = g.
Proof.
  intros Hf Hg (m & e & D & N) (m' & e' & D' & N'). destruct (denotes_unique _ _ _ _ _ _ _ D D') as (Es & -> & ->).
  apply (same_bits f g Hf Hg Es). apply (nearest_unique _ _ m' e'); try assumption; apply unsigned_range.
Qed.

(** ** Enough digits *)

Lemma rounded_reads f p m e text : 0 <= e + p -> m <> 0 -> nearest_double (unsigned f) m e -> rounded_text (is_negative f) p m e text -> reads_back text f.
Proof.
  intros H Hm N (ints & frac & R & -> & Hc & Hf & HR & HV). exists (digits_value (ints ++ frac)), (- Z.of_nat (length frac)).
  assert (R <> 0) as HR0.
  { rewrite (rounds_exact _ _ _ _ H HR). pose proof (pow10_pos (e + p) H). nia. }
  destruct (Z.eqb_spec R 0); [contradiction|]. rewrite Bool.andb_true_r. split; [apply denotes_fixed; exact Hc|].
  apply (nearest_same _ m e); [|exact N]. apply (exact_same p); [exact H|exact Hf|]. rewrite HV. exact HR.
Qed.

Lemma magnitude_previous n : 2 ^ 52 <= n -> 2 ^ 52 * (magnitude n - magnitude (n - 1)) <= magnitude n.
Proof.
  intros H. unfold magnitude. pose proof (Z.mod_pos_bound n (2 ^ 52) ltac:(lia)) as Hr. pose proof (Z.div_mod n (2 ^ 52) ltac:(lia)) as Hn.
  assert (1 <= n / 2 ^ 52) as Hd by (apply Z.div_le_lower_bound; lia). set (q := n / 2 ^ 52) in *. set (r := n mod 2 ^ 52) in *.
  destruct (Z.eqb_spec q 0); [lia|]. pose proof (Z.pow_pos_nonneg 2 (q - 1) ltac:(lia) ltac:(lia)) as Hp.
  destruct (Z_lt_le_dec 0 r) as [L|L].
  - replace ((n - 1) / 2 ^ 52) with q by (apply Z.div_unique with (r - 1); lia). replace ((n - 1) mod 2 ^ 52) with (r - 1) by (apply Z.mod_unique with q; lia).
    destruct (Z.eqb_spec q 0); [lia|]. nia.
  - assert (r = 0) as Er by lia. replace ((n - 1) / 2 ^ 52) with (q - 1) by (apply Z.div_unique with (2 ^ 52 - 1); lia).
    replace ((n - 1) mod 2 ^ 52) with (2 ^ 52 - 1) by (apply Z.mod_unique with (q - 1); lia). rewrite Er.
    destruct (Z.eqb_spec (q - 1) 0) as [E|E].
    + rewrite E. change (2 ^ 0) with 1. lia.
    + replace (2 ^ (q - 1)) with (2 * 2 ^ (q - 1 - 1)) by (rewrite <- Z.pow_succ_r by lia; f_equal; lia).
      pose proof (Z.pow_pos_nonneg 2 (q - 1 - 1) ltac:(lia) ltac:(lia)). nia.
Qed.

(** A decimal of 17 digits for a number from 10^(16-p) has at most [p] digits after the point. *)
Lemma decimal_above n m e p : 0 < n -> 0 <= p <= 16 -> 10 ^ (16 - p) * 2 ^ 1074 <= magnitude n -> nearest_double n m e -> 1 <= m <= 10 * 2 ^ 53 + 1 -> 0 <= e + p.
Proof.
  intros Hn Hp Hm HN Hd. destruct (Z_lt_le_dec (e + p) 0) as [L|L]; [exfalso|exact L].
  unfold nearest_double in HN. cbv zeta in HN. replace (Z.max 0 e) with 0 in HN by lia. replace (Z.max 0 (- e)) with (- e) in HN by lia. change (10 ^ 0) with 1 in HN.
  assert (2 ^ 52 <= n) as Hbig.
  { destruct (Z_lt_le_dec n (2 ^ 52)) as [S|]; [exfalso|assumption]. unfold magnitude in Hm. rewrite Z.div_small, Z.mod_small in Hm by lia. change (0 =? 0) with true in Hm. cbv iota in Hm.
    pose proof (pow10_pos (16 - p) ltac:(lia)). assert (2 ^ 52 < 2 ^ 1074) as X by reflexivity. set (c := 2 ^ 1074) in *. clearbody c. clear - S Hm X H. nia. }
  pose proof (magnitude_previous n Hbig) as HP.
  assert ((magnitude (n - 1) + magnitude n) * 10 ^ (- e) <= 2 * m * 2 ^ 1074 * 1) as U by (destruct (Z.even n); lia). clear HN.
  assert (10 ^ (p + 1) <= 10 ^ (- e)) as Hpe by (apply Z.pow_le_mono_r; lia).
  assert (10 ^ (16 - p) * 10 ^ (p + 1) = 10 ^ 17) as E17 by (rewrite <- Z.pow_add_r by lia; f_equal; lia).
  assert (19 * magnitude n <= 10 * (magnitude (n - 1) + magnitude n)) as H19 by lia.
  pose proof (pow10_pos (16 - p) ltac:(lia)) as P1. pose proof (pow10_pos (p + 1) ltac:(lia)) as P2.
  assert (0 < 2 ^ 1074) as Hc by reflexivity. set (c := 2 ^ 1074) in *. clearbody c.
  set (M := magnitude n) in *. set (M' := magnitude (n - 1)) in *. set (A := 10 ^ (16 - p)) in *. set (B := 10 ^ (p + 1)) in *. set (D := 10 ^ (- e)) in *.
  assert (19 * (A * c) * D <= 20 * m * c) as V.
  { apply Z.le_trans with (10 * (M' + M) * D); [apply Z.mul_le_mono_nonneg_r; lia|].
    replace (10 * (M' + M) * D) with (10 * ((M' + M) * D)) by ring. replace (20 * m * c) with (10 * (2 * m * c)) by ring. apply Z.mul_le_mono_nonneg_l; [lia|].
    rewrite Z.mul_1_r in U. exact U. }
  assert (19 * (10 ^ 17 * c) <= 20 * m * c) as W.
  { apply Z.le_trans with (19 * (A * c) * D); [|exact V]. rewrite <- E17. replace (19 * (A * B * c)) with (19 * (A * c) * B) by ring. apply Z.mul_le_mono_nonneg_l; [|exact Hpe]. nia. }
  nia.
Qed.

(** What is printed of a number that is large enough can be read back. *)
Theorem print_reads room f k p : value64 f = DFinite k -> 0 <= p <= 16 -> 10 ^ (16 - p) * 2 ^ 1074 <= Z.abs k -> (25 <= room)%nat ->
  exists text, print_double_ryu room f p = Ok text /\ reads_back text f /\ (length text <= 25)%nat.
Proof.
  intros Hv Hp Hk Hr. assert (0 < Z.abs k) as H0.
  { pose proof (pow10_pos (16 - p) ltac:(lia)). assert (0 < 2 ^ 1074) by reflexivity. nia. }
  destruct (Z_lt_le_dec (10 ^ 17 * 2 ^ 1074) (Z.abs k)) as [L|L].
  - destruct (print_large room f k p Hv L Hr) as (m & e & text & E & D & [N _] & Hl). exists text. split; [exact E|]. split; [|exact Hl]. exists m, e. auto.
  - destruct (print_moderate room f k p Hv ltac:(lia) ltac:(lia) ltac:(lia) ltac:(lia)) as (m & e & text & E & Hm & _ & [N _] & T & Hl).
    exists text. split; [exact E|]. split; [|lia]. destruct (finite_ok f k Hv ltac:(lia)) as (Hn & _). destruct (value_finite f k Hv) as (_ & Ek & _).
    apply (rounded_reads f p m e text); [|lia|exact N|exact T]. apply (decimal_above (unsigned f) m e p Hn Hp); [rewrite <- Ek; exact Hk|exact N|exact Hm].
Qed.

(** ** Integers *)

Lemma to_decimal_integer n v : 0 < n -> finite n -> magnitude n = v * 2 ^ 1074 -> 1 <= v < 2 ^ 53 ->
  exists d, to_decimal (n mod 2 ^ 52) (n / 2 ^ 52) = Ok d /\ 0 <= d_exponent d /\ d_mantissa d * 10 ^ d_exponent d = v.
Proof.
  intros Hn Hf HM Hv. unfold magnitude in HM. pose proof (Z.mod_pos_bound n (2 ^ 52) ltac:(lia)) as Hr. set (r := n mod 2 ^ 52) in *. set (q := n / 2 ^ 52) in *.
  assert (0 <= q) as Hq by (apply Z.div_pos; lia).
  destruct (Z.eqb_spec q 0) as [E|E].
  { exfalso. assert (2 ^ 52 < 2 ^ 1074) by reflexivity. nia. }
  set (m2 := 2 ^ 52 + r) in *. assert (2 ^ 52 <= m2 < 2 ^ 53) as Hm2 by (unfold m2; lia).
  assert (q <= 1075) as Hq1.
  { destruct (Z_le_gt_dec q 1075) as [|G]; [assumption|exfalso].
    assert (2 ^ (q - 1) = 2 ^ (q - 1075) * 2 ^ 1074) as X by (rewrite <- Z.pow_add_r by lia; f_equal; lia).
    assert (2 ^ 1 <= 2 ^ (q - 1075)) as Y by (apply Z.pow_le_mono_r; lia). assert (0 < 2 ^ 1074) as Z0 by reflexivity.
    rewrite X, Z.mul_assoc in HM. apply Z.mul_cancel_r in HM; [|lia]. nia. }
  assert (1023 <= q) as Hq2.
  { destruct (Z_lt_le_dec q 1023) as [G|]; [exfalso|assumption].
    assert (2 ^ (q - 1) <= 2 ^ 1021) as Y by (apply Z.pow_le_mono_r; lia). assert (2 ^ 1074 = 2 ^ 53 * 2 ^ 1021) as X by reflexivity.
    assert (0 < 2 ^ 1021) as Z0 by reflexivity. rewrite X in HM. set (c := 2 ^ 1021) in *. clearbody c. nia. }
  assert (m2 = v * 2 ^ (1075 - q)) as Em.
  { pose proof (Z.pow_pos_nonneg 2 (q - 1) ltac:(lia) ltac:(lia)) as Z0. apply Z.mul_cancel_r with (2 ^ (q - 1)); [lia|]. rewrite <- Z.mul_assoc, <- Z.pow_add_r by lia.
    replace (1075 - q + (q - 1)) with 1074 by lia. exact HM. }
  unfold to_decimal, d2d_small_int.
  assert (Z.lor (2 ^ 52) r = m2) as ->.
  { unfold m2. rewrite Z.add_nocarry_lxor; [rewrite Z.lxor_lor; [reflexivity|]|];
      (apply Z.bits_inj'; intros i Hi; rewrite Z.land_spec, Z.bits_0, Z.pow2_bits_eqb by lia;
       destruct (Z.eqb_spec 52 i) as [<-|]; [|reflexivity]; cbn [andb]; rewrite Z.testbit_odd, Z.shiftr_div_pow2, Z.div_small by lia; reflexivity). }
  replace (q - 1023 - 52) with (q - 1075) by lia. destruct (Z.ltb_spec 0 (q - 1075)); [lia|]. destruct (Z.ltb_spec (q - 1075) (-52)); [lia|].
  replace (- (q - 1075)) with (1075 - q) by lia. pose proof (Z.pow_pos_nonneg 2 (1075 - q) ltac:(lia) ltac:(lia)) as Z0.
  rewrite Z.sub_1_r, <- Z.ones_equiv, Z.land_ones by lia. rewrite Em, Z.mod_mul, Z.div_mul by lia. change (negb (0 =? 0)) with false. cbv iota.
  destruct (move_zeros_ok 21 v 0) as (m' & j & -> & Hj & _ & _ & Ev & _); [|lia|].
  { split; [lia|]. apply Z.lt_trans with (2 ^ 53); [lia|reflexivity]. }
  eexists. split; [reflexivity|]. cbn [d_exponent d_mantissa]. rewrite Z.add_0_l. split; [exact Hj|]. symmetry. exact Ev.
Qed.

(** The digits of an integer *)
Theorem print_integer room f k v p : value64 f = DFinite k -> Z.abs k = v * 2 ^ 1074 -> 1 <= v < 2 ^ 53 -> 0 <= p -> (19 <= room)%nat -> p + 3 <= Z.of_nat room ->
  exists ints, print_double_ryu room f p = Ok (minus (is_negative f) ++ ints) /\ canonical_digits ints [] /\ digits_value ints = v.
Proof.
  intros Hv Hk Hi Hp Hr Hr2. assert (0 < 2 ^ 1074) as Z0 by reflexivity.
  assert (0 < Z.abs k <= 10 ^ 17 * 2 ^ 1074) as Hk2 by (rewrite Hk; assert (2 ^ 53 < 10 ^ 17) by reflexivity; nia).
  destruct (finite_ok f k Hv ltac:(lia)) as (Hn & Hfin & Hs). destruct (value_finite f k Hv) as (HE & Ek & _).
  unfold print_double_ryu. rewrite which_ok by exact HE. unfold is_large. rewrite <- Ek. destruct (Z.ltb_spec (10 ^ 17 * 2 ^ 1074) (Z.abs k)); [lia|].
  unfold d2sfixed_buffered_n. rewrite Hs, mantissa_ok, exponent_ok, sign_ok.
  destruct (to_decimal_ok (unsigned f) Hn Hfin) as (d & E & D). destruct D as [D1 D2 D3 [D4 _]].
  destruct (to_decimal_integer (unsigned f) v Hn Hfin ltac:(rewrite <- Ek; exact Hk) Hi) as (d' & E' & De & Dv).
  rewrite E in E'. injection E' as <-. rewrite E. cbn [obind].
  assert (1 <= d_mantissa d < 10 ^ 17) as Hm by lia. destruct (decimalLength17_ok _ Hm) as [HL _].
  pose proof (decimal_below _ _ _ Hn ltac:(rewrite <- Ek; apply Hk2) D4 HL) as B.
  destruct (fixed_ok (repeat None room) d (is_negative f) p Hm D2 ltac:(lia) Hp) as (text & rest & X & _ & T & L); [rewrite repeat_length; lia|].
  rewrite X. cbn [obind]. rewrite text_of_some. destruct T as (ints & frac & R & -> & Hc & Hf & HR & HV).
  apply rounds_exact in HR; [|lia]. rewrite Z.pow_add_r, Z.mul_assoc, Dv in HR by lia.
  pose proof (pow10_pos p Hp) as P0. destruct (Z.eqb_spec R 0); [nia|]. rewrite Bool.andb_true_r.
  assert (frac = []) as ->.
  { destruct Hc as (_ & Hd & _ & [->|(r & c & -> & Hc)]); [reflexivity|exfalso].
    apply Forall_app in Hd as [_ Hd]. apply Forall_inv in Hd. unfold is_digit in Hd.
    rewrite app_length in HV, Hf. cbn [length] in HV, Hf. set (j := Z.of_nat (length r + 1)) in *.
    rewrite app_assoc, digits_value_app in HV. change (digits_value [c]) with (10 * 0 + (Z.of_N c - 48)) in HV. change (10 ^ Z.of_nat (length [c])) with 10 in HV.
    set (w := digits_value (ints ++ r)) in *. assert (10 ^ p = 10 ^ (p - j) * 10 ^ j) as Ep by (rewrite <- Z.pow_add_r by lia; f_equal; lia).
    pose proof (pow10_pos (p - j) ltac:(lia)) as P1. rewrite HR, Ep in HV.
    assert (w * 10 + (10 * 0 + (Z.of_N c - 48)) = v * 10 ^ j) as Y by (apply Z.mul_cancel_r with (10 ^ (p - j)); [lia|]; rewrite HV; ring).
    replace j with (Z.of_nat (length r) + 1) in Y by (unfold j; lia). rewrite Z.pow_add_r in Y by lia. change (10 ^ 1) with 10 in Y. lia. }
  exists ints. unfold fixed_text. rewrite app_nil_r. split; [reflexivity|]. split; [exact Hc|].
  cbn [length] in HV. rewrite app_nil_r, Z.sub_0_r in HV. apply Z.mul_cancel_r with (10 ^ p); [lia|]. rewrite HV. exact HR.
Qed.

(** ** What the WKT writer appends *)

Lemma nearest_integer n v : 0 < n -> magnitude n = v * 2 ^ 1074 -> nearest_double n v 0.
Proof.
  intros Hn H. unfold nearest_double. cbv zeta. change (Z.max 0 0) with 0. change (Z.max 0 (- 0)) with 0. change (10 ^ 0) with 1.
  pose proof (magnitude_mono (n - 1) n ltac:(lia)). pose proof (magnitude_mono n (n + 1) ltac:(lia)).
  replace (2 * v * 2 ^ 1074 * 1) with (2 * magnitude n) by (rewrite H; ring). destruct (Z.even n); lia.
Qed.

Lemma keeps_reads p f : 0 <= p <= 16 -> keeps p f -> exists text, print_double_ryu 40 f p = Ok text /\ reads_back text f.
Proof.
  intros Hp (Hf & [->|(k & Hv & [H|(v & Hv1 & Hk)])]).
  - exists $"0". split.
    + rewrite print_special; [reflexivity|lia|reflexivity].
    + exists 0, 0. split; [|split; vm_compute; congruence].
      apply (denotes_fixed false $"0" []). apply canonical_zero; [constructor|left; reflexivity].
  - destruct (print_reads 40 f k p Hv Hp H ltac:(lia)) as (text & E & R & _). exists text. auto.
  - destruct (print_integer 40 f k v p Hv Hk Hv1 ltac:(lia) ltac:(lia) ltac:(lia)) as (ints & E & C & V). exists (minus (is_negative f) ++ ints). split; [exact E|].
    assert (k <> 0) as Hk0 by (assert (0 < 2 ^ 1074) by reflexivity; intros ->; cbn [Z.abs] in Hk; nia).
    destruct (finite_ok f k Hv Hk0) as (Hn & _). destruct (value_finite f k Hv) as (_ & Ek & _).
    exists v, 0. split; [|apply nearest_integer; [exact Hn|rewrite <- Ek; exact Hk]].
    pose proof (denotes_fixed (is_negative f) ints [] C) as D. unfold fixed_text in D. rewrite !app_nil_r, V in D. exact D.
Qed.

Lemma denotes_chars t s m e : denotes t s m e -> Forall (fun c => is_digit c \/ c = 45%N \/ c = 46%N \/ c = 101%N \/ c = 43%N) t.
Proof.
  assert (forall negative ints frac, canonical_digits ints frac -> Forall (fun c => is_digit c \/ c = 45%N \/ c = 46%N \/ c = 101%N \/ c = 43%N) (fixed_text negative ints frac)) as K.
  { intros negative ints frac (H1 & H2 & _). unfold fixed_text. apply Forall_app. split; [destruct negative; [constructor; [right; left; reflexivity|]|]; constructor|].
    apply Forall_app. split; [eapply Forall_impl; [|exact H1]; auto|]. destruct frac; [constructor|]. apply Forall_app. split; [constructor; [right; right; left; reflexivity|constructor]|].
    eapply Forall_impl; [|exact H2]; auto. }
  intros [negative ints frac H|negative ints frac ne expo H Hl Hd Hne]; [apply K; exact H|]. unfold scientific_text.
  apply Forall_app. split; [apply K; exact H|]. apply Forall_app. split; [constructor; [right; right; right; left; reflexivity|constructor]|]. apply Forall_app.
  split; [destruct ne; [constructor; [right; left; reflexivity|constructor]|constructor; [do 4 right; reflexivity|constructor]]|]. eapply Forall_impl; [|exact Hd]; auto.
Qed.

Theorem prints_all f p : 0 <= p <= 37 -> exists text, print_double_ryu 40 f p = Ok text /\ (length text <= 40)%nat.
Proof.
  intros Hp. destruct (special (Z.of_N f)) eqn:Es.
  - rewrite print_special by (assumption || lia). eexists. split; [reflexivity|]. destruct (value64 f) as [|[]|]; apply Nat.leb_le; reflexivity.
  - assert (exists k, value64 f = DFinite k /\ k <> 0) as (k & Hv & Hk).
    { rewrite special_ok in Es. apply Bool.orb_false_iff in Es as [E1 E2]. rewrite value64_ok, E1. eexists. split; [reflexivity|].
      apply Z.eqb_neq in E2. pose proof (unsigned_range f). pose proof (magnitude_mono 0 (unsigned f) ltac:(lia)) as X. change (magnitude 0) with 0 in X.
      destruct (is_negative f); lia. }
    destruct (Z_lt_le_dec (10 ^ 17 * 2 ^ 1074) (Z.abs k)) as [L|L].
    + destruct (print_large 40 f k p Hv L ltac:(lia)) as (m & e & text & E & _ & _ & Hl). exists text. split; [exact E|lia].
    + destruct (print_moderate 40 f k p Hv ltac:(lia) ltac:(lia) ltac:(lia) ltac:(lia)) as (m & e & text & E & _ & _ & _ & _ & Hl). exists text. split; [exact E|lia].
Qed.

(** ** A parser that rounds correctly *)

(** [m * 10^e] is not below the numbers that [n] is nearest to. *)
Definition reaches (m e n : Z) : bool :=
  let x := 2 * m * 2 ^ 1074 * 10 ^ Z.max 0 e in
  let low := (magnitude (n - 1) + magnitude n) * 10 ^ Z.max 0 (- e) in
  if Z.even n then low <=? x else low <? x.
(** The last of the numbers from [n] to [n + 2^k - 1] that [m * 10^e] reaches *)
Fixpoint search (k : nat) (m e n : Z) : Z :=
  match k with
  | O => n
  | S k => if reaches m e (n + 2 ^ Z.of_nat k) then search k m e (n + 2 ^ Z.of_nat k) else search k m e n
  end.
Definition correct_parse (t : bytes) : option N :=
  match t with
  | c :: _ =>
      if ((c =? 45) || (48 <=? c) && (c <=? 57))%N then
        let '(negative, m, e) := read t in Some (Z.to_N (search 63 m e 0) + (if negative then 2 ^ 63 else 0))%N
      else None
  | [] => None
  end.

Lemma reaches_mono m e n n' : 0 <= n < n' -> reaches m e n' = true -> reaches m e n = true.
Proof.
  unfold reaches. cbv zeta. set (x := 2 * m * 2 ^ 1074 * 10 ^ Z.max 0 e). set (p := 10 ^ Z.max 0 (- e)). intros H E.
  assert (0 < p) as Hp by (apply pow10_pos; lia). clearbody x p.
  assert ((magnitude (n' - 1) + magnitude n') * p <= x) as L by (destruct (Z.even n'); [apply Z.leb_le in E|apply Z.ltb_lt in E]; lia).
  assert (magnitude (n - 1) <= magnitude n) as M0.
  { destruct (Z.eq_dec n 0) as [->|]; [vm_compute; congruence|]. pose proof (magnitude_mono (n - 1) n ltac:(lia)). lia. }
  pose proof (magnitude_mono n n' ltac:(lia)). assert (magnitude n <= magnitude (n' - 1)) as M1.
  { destruct (Z.eq_dec n (n' - 1)) as [->|]; [lia|]. pose proof (magnitude_mono n (n' - 1) ltac:(lia)). lia. }
  assert ((magnitude (n - 1) + magnitude n) * p < x) as G by nia. destruct (Z.even n); [apply Z.leb_le|apply Z.ltb_lt]; lia.
Qed.
Lemma nearest_reaches n m e : nearest_double n m e -> reaches m e n = true /\ reaches m e (n + 1) = false.
Proof.
  unfold nearest_double, reaches. cbv zeta. replace (n + 1 - 1) with n by lia. replace (Z.even (n + 1)) with (negb (Z.even n)) by (rewrite Z.even_add; destruct (Z.even n); reflexivity).
  destruct (Z.even n); cbn [negb]; intros [H1 H2]; (split; [apply Z.leb_le || apply Z.ltb_lt; exact H1|apply Z.leb_gt || apply Z.ltb_ge; exact H2]).
Qed.
Lemma search_ok m e x : reaches m e x = true -> reaches m e (x + 1) = false -> forall k n, 0 <= n <= x -> x < n + 2 ^ Z.of_nat k -> search k m e n = x.
Proof.
  intros Hx Hx1. induction k as [|k IH]; intros n Hn Hk; cbn [search].
  - change (2 ^ Z.of_nat 0) with 1 in Hk. lia.
  - rewrite Nat2Z.inj_succ, Z.pow_succ_r in Hk by lia. pose proof (Z.pow_pos_nonneg 2 (Z.of_nat k) ltac:(lia) ltac:(lia)) as P.
    destruct (reaches m e (n + 2 ^ Z.of_nat k)) eqn:E.
    + apply IH; [|lia]. split; [lia|]. destruct (Z_le_gt_dec (n + 2 ^ Z.of_nat k) x) as [|G]; [assumption|exfalso].
      destruct (Z.eq_dec (n + 2 ^ Z.of_nat k) (x + 1)) as [E1|E1]; [rewrite E1 in E; congruence|].
      assert (reaches m e (x + 1) = true) by (apply (reaches_mono m e (x + 1) (n + 2 ^ Z.of_nat k)); [lia|exact E]). congruence.
    + apply IH; [lia|]. destruct (Z_lt_le_dec x (n + 2 ^ Z.of_nat k)) as [|G]; [assumption|exfalso].
      destruct (Z.eq_dec (n + 2 ^ Z.of_nat k) x) as [E1|E1]; [rewrite E1 in E; congruence|].
      assert (reaches m e (n + 2 ^ Z.of_nat k) = true) by (apply (reaches_mono m e _ x); [lia|exact Hx]). congruence.
Qed.

Lemma denotes_first t s m e : denotes t s m e -> exists c r, t = c :: r /\ ((c =? 45) || (48 <=? c) && (c <=? 57))%N = true.
Proof.
  assert (forall negative ints frac tail, canonical_digits ints frac -> exists c r, fixed_text negative ints frac ++ tail = c :: r /\ ((c =? 45) || (48 <=? c) && (c <=? 57))%N = true) as K.
  { intros negative ints frac tail (H1 & _ & H3 & _). unfold fixed_text. destruct negative; [eexists _, _; split; reflexivity|].
    destruct H3 as [->|(c & r & -> & _)]; [eexists _, _; split; reflexivity|]. eexists _, _. split; [reflexivity|]. apply Forall_inv in H1. unfold is_digit in H1.
    destruct (N.leb_spec 48 c); [|lia]. destruct (N.leb_spec c 57); [|lia]. apply Bool.orb_true_r. }
  intros [negative ints frac H|negative ints frac ne expo H Hl Hd Hne].
  - rewrite <- (app_nil_r (fixed_text negative ints frac)). apply K. exact H.
  - apply K. exact H.
Qed.

Theorem correct_parse_ok : correctly_rounding correct_parse.
Proof.
  intros t f m e Hf D N _ _ _. destruct (denotes_first t _ _ _ D) as (c & r & Et & Hc). apply denotes_read in D. unfold correct_parse. rewrite Et at 1. rewrite Hc, D.
  destruct (nearest_reaches _ _ _ N) as [R1 R2]. pose proof (unsigned_range f) as U.
  rewrite (search_ok m e (unsigned f) R1 R2 63 0 ltac:(lia)) by (change (2 ^ Z.of_nat 63) with (2 ^ 63); lia). f_equal. clear - Hf.
  unfold unsigned, is_negative. rewrite N2Z.id. rewrite (N.div_mod f (2 ^ 63)) at 3 by discriminate.
  assert (f / 2 ^ 63 < 2)%N as L by (apply N.div_lt_upper_bound; [discriminate|exact Hf]).
  rewrite N.testbit_odd, N.shiftr_div_pow2. destruct (f / 2 ^ 63)%N as [|[p|p|]]; cbn [N.odd]; [|exfalso; clear - L; lia|exfalso; clear - L; lia|]; apply N.add_comm.
Qed.

(** ** As stated in PropertiesPrint.v *)

Lemma ryu_fixed f k p : value64 f = DFinite k -> 0 < Z.abs k <= 10 ^ 17 * 2 ^ 1074 -> 0 <= p <= 37 ->
  exists m e text, print_double_ryu 40 f p = Ok text /\ 1 <= m < 10 ^ 17 /\ shortest_decimal (unsigned f) m e /\ rounded_text (is_negative f) p m e text.
Proof.
  intros Hv Hk Hp. destruct (print_moderate 40 f k p Hv Hk ltac:(lia) ltac:(lia) ltac:(lia)) as (m & e & text & E & Hm & _ & N & T & _).
  exists m, e, text. split; [exact E|]. split; [lia|]. split; [exact N|exact T].
Qed.
Lemma ryu_scientific f k p : value64 f = DFinite k -> 10 ^ 17 * 2 ^ 1074 < Z.abs k ->
  exists m e text, print_double_ryu 40 f p = Ok text /\ denotes text (is_negative f) m e /\ shortest_decimal (unsigned f) m e.
Proof.
  intros Hv Hk. destruct (print_large 40 f k p Hv Hk ltac:(lia)) as (m & e & text & E & D & N & _). exists m, e, text. auto.
Qed.

(** There is only one such decimal. *)
Lemma nearest_scaled n m e j : 0 <= j -> nearest_double n m (e + j) -> nearest_double n (m * 10 ^ j) e.
Proof.
  intros Hj. apply nearest_same. unfold same_decimal. replace (Z.max 0 (e + j - e)) with j by lia. replace (Z.max 0 (e - (e + j))) with 0 by lia.
  change (10 ^ 0) with 1. ring.
Qed.
Lemma shortest_exponent n m e m' e' : shortest_decimal n m e -> shortest_decimal n m' e' -> e' <= e.
Proof.
  intros (_ & S & _) (N & _). destruct (Z_le_gt_dec e' e) as [|G]; [assumption|exfalso]. apply (S (m' * 10 ^ (e' - (e + 1)))).
  apply nearest_scaled; [lia|]. replace (e + 1 + (e' - (e + 1))) with e' by lia. exact N.
Qed.
Lemma shortest_digits n m e m' : shortest_decimal n m e -> shortest_decimal n m' e -> m' <= m.
Proof.
  intros (N & _ & C) (N' & _ & C'). destruct (Z_le_gt_dec m' m) as [|G]; [assumption|exfalso].
  destruct (C m' N') as [C1 C2]. destruct (C' m N) as [C3 C4].
  destruct (C2 ltac:(lia)) as [X|X]; [lia|]. destruct (C4 ltac:(lia)) as [Y|Y]; [lia|].
  apply Z.even_spec in X as [a Ha]. apply Z.even_spec in Y as [b Hb].
  assert (nearest_double n (m + 1) e) as N1.
  { unfold nearest_double in *. cbv zeta in *. assert (0 < 2 ^ 1074 * 10 ^ Z.max 0 e) as Hu by (apply Z.mul_pos_pos; [reflexivity|apply pow10_pos; lia]).
    replace (2 * (m + 1) * 2 ^ 1074 * 10 ^ Z.max 0 e) with (2 * (m + 1) * (2 ^ 1074 * 10 ^ Z.max 0 e)) by ring.
    replace (2 * m * 2 ^ 1074 * 10 ^ Z.max 0 e) with (2 * m * (2 ^ 1074 * 10 ^ Z.max 0 e)) in N by ring.
    replace (2 * m' * 2 ^ 1074 * 10 ^ Z.max 0 e) with (2 * m' * (2 ^ 1074 * 10 ^ Z.max 0 e)) in N' by ring.
    set (u := 2 ^ 1074 * 10 ^ Z.max 0 e) in *. clearbody u.
    assert (2 * m * u < 2 * (m + 1) * u) by (apply Z.mul_lt_mono_pos_r; lia). assert (2 * (m + 1) * u <= 2 * m' * u) by (apply Z.mul_le_mono_nonneg_r; lia).
    destruct (Z.even n); lia. }
  destruct (C _ N1) as [C5 _]. assert (distance n m e = distance n m' e) as E by lia. clear - C5 E G Ha Hb. unfold distance in *.
  assert (0 < 2 ^ 1074 * 10 ^ Z.max 0 e) as Hu by (apply Z.mul_pos_pos; [reflexivity|apply pow10_pos; lia]).
  replace (m * 2 ^ 1074 * 10 ^ Z.max 0 e) with (m * (2 ^ 1074 * 10 ^ Z.max 0 e)) in * by ring.
  replace (m' * 2 ^ 1074 * 10 ^ Z.max 0 e) with (m' * (2 ^ 1074 * 10 ^ Z.max 0 e)) in * by ring.
  replace ((m + 1) * 2 ^ 1074 * 10 ^ Z.max 0 e) with (m * (2 ^ 1074 * 10 ^ Z.max 0 e) + 2 ^ 1074 * 10 ^ Z.max 0 e) in * by ring.
  set (u := 2 ^ 1074 * 10 ^ Z.max 0 e) in *. clearbody u. set (v := magnitude n * 10 ^ Z.max 0 (- e)) in *. clearbody v.
  assert ((m + 2) * u <= m' * u) by (apply Z.mul_le_mono_nonneg_r; lia). lia.
Qed.
Lemma shortest_unique n m e m' e' : shortest_decimal n m e -> shortest_decimal n m' e' -> m = m' /\ e = e'.
Proof.
  intros H H'. pose proof (shortest_exponent _ _ _ _ _ H H'). pose proof (shortest_exponent _ _ _ _ _ H' H). assert (e' = e) as -> by lia.
  pose proof (shortest_digits _ _ _ _ H H'). pose proof (shortest_digits _ _ _ _ H' H). split; lia.
Qed.
Lemma ryu_integer f k v p : value64 f = DFinite k -> Z.abs k = v * 2 ^ 1074 -> 1 <= v < 2 ^ 53 -> 0 <= p <= 37 ->
  exists ints, print_double_ryu 40 f p = Ok (minus (is_negative f) ++ ints) /\ canonical_digits ints [] /\ digits_value ints = v.
Proof. intros Hv Hk Hi Hp. apply (print_integer 40 f k v p Hv Hk Hi); lia. Qed.
Lemma ryu_special f p :
  (value64 f = DNaN -> print_double_ryu 40 f p = Ok $"nan") /\
  (forall negative, value64 f = DInf negative -> print_double_ryu 40 f p = Ok (minus negative ++ $"Infinity")) /\
  (value64 f = DFinite 0 -> print_double_ryu 40 f p = Ok $"0").
Proof.
  assert (special (Z.of_N f) = match value64 f with DFinite k => k =? 0 | _ => true end) as S.
  { rewrite special_ok, value64_ok. destruct (unsigned f / 2 ^ 52 =? 2047); [destruct (unsigned f mod 2 ^ 52 =? 0); reflexivity|]. cbn [orb].
    pose proof (unsigned_range f). destruct (Z.eqb_spec (unsigned f) 0) as [->|Hn].
    - change (magnitude 0) with 0. destruct (is_negative f); reflexivity.
    - pose proof (magnitude_mono 0 (unsigned f) ltac:(lia)) as X. change (magnitude 0) with 0 in X. symmetry. apply Z.eqb_neq. destruct (is_negative f); lia. }
  split; [|split].
  - intros E. rewrite E in S. rewrite print_special by (exact S || lia). rewrite E. reflexivity.
  - intros s E. rewrite E in S. rewrite print_special by (exact S || lia). rewrite E. reflexivity.
  - intros E. rewrite E in S. rewrite print_special by (exact S || lia). rewrite E. reflexivity.
Qed.
Lemma ryu_distinct p f g : 0 <= p <= 16 -> keeps p f -> keeps p g -> print_double_ryu 40 f p = print_double_ryu 40 g p -> f = g.
Proof.
  intros Hp Hf Hg E. destruct (keeps_reads p f Hp Hf) as (t & Et & R). destruct (keeps_reads p g Hp Hg) as (u & Eu & R').
  rewrite Et, Eu in E. injection E as ->. apply (reads_back_unique u f g); [apply Hf|apply Hg|exact R|exact R'].
Qed.
Lemma ryu_short w p : 0 <= p <= 16 -> (length (ryu_print w p) <= 40)%nat.
Proof. intros Hp. unfold ryu_print. destruct (prints_all w p ltac:(lia)) as (text & -> & H). exact H. Qed.
