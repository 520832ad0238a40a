(** * Decimals in fixed notation *)
From Verif Require Import Base BaseFacts Text RyuModel RyuTables RyuSpec RyuShortest RyuDecimal RyuDigits.
Local Open Scope Z_scope.

(** ** No more than so many digits after the point *)

Lemma trim_zeros_ok : forall fuel out exp len, 1 <= out < 10 ^ Z.of_nat fuel -> has_digits len out ->
  exists out' k, trim_zeros fuel out exp len = Ok (out', exp + k, len - k) /\ 0 <= k /\ out = out' * 10 ^ k /\ 1 <= out' /\ out' mod 10 <> 0 /\
    has_digits (len - k) out'.
Proof.
  induction fuel as [|fuel IH]; intros out exp len Ho Hd.
  - change (10 ^ Z.of_nat 0) with 1 in Ho. lia.
  - cbn [trim_zeros]. destruct (Z.eqb_spec out 0) as [|_]; [lia|]. destruct (Z.eqb_spec (out mod 10) 0) as [E|E]; cbn [negb andb].
    + pose proof (Z.div_mod out 10 ltac:(lia)) as D. rewrite E in D.
      assert (1 < len) as Hl.
      { destruct Hd as [H1 H2]. destruct (Z.eq_dec len 1) as [->|]; [|lia]. change (10 ^ 1) with 10 in H2. lia. }
      destruct (IH (out / 10) (exp + 1) (len - 1)) as (out' & k & E1 & H1 & H2 & H3 & H4 & H5).
      { rewrite Nat2Z.inj_succ, Z.pow_succ_r in Ho by lia. lia. }
      { change 10 with (10 ^ 1) at 1. apply has_digits_div; [exact Hd|lia]. }
      exists out', (k + 1). rewrite E1. split; [replace (exp + (k + 1)) with (exp + 1 + k) by lia; replace (len - (k + 1)) with (len - 1 - k) by lia; reflexivity|]. split; [lia|]. split; [rewrite pow10_S by exact H1; lia|].
      split; [exact H3|]. split; [exact H4|]. replace (len - (k + 1)) with (len - 1 - k) by lia. exact H5.
    + exists out, 0. change (10 ^ 0) with 1. rewrite Z.add_0_r, Z.sub_0_r, Z.mul_1_r. repeat split; try lia; try assumption; apply Hd.
Qed.

Lemma pow_10_ok k : 0 <= k <= 17 -> pow_10 k = Ok (10 ^ k).
Proof.
  intros H. unfold pow_10. destruct (Z.leb_spec 0 k); [|lia].
  assert (forallb (fun n => match nth_error POW_TABLE n with Some p => p =? 10 ^ Z.of_nat n | None => false end) (seq 0 18) = true) as T by reflexivity.
  rewrite forallb_forall in T. specialize (T (Z.to_nat k)). rewrite in_seq in T. specialize (T ltac:(lia)).
  destruct (nth_error POW_TABLE (Z.to_nat k)); [|discriminate]. apply Z.eqb_eq in T. rewrite T, Z2Nat.id by lia. reflexivity.
Qed.

Definition round_half_even (v d : Z) : Z :=
  v / d + (if (d / 2 <? v mod d) || ((v mod d =? d / 2) && negb (Z.even (v / d))) then 1 else 0).

Lemma round_ok v d : 0 < d -> Z.even d = true -> nearest_even v d (round_half_even v d).
Proof.
  intros Hd He. unfold round_half_even, nearest_even.
  assert (d = 2 * (d / 2)) as Hh.
  { pose proof (Z.div_mod d 2 ltac:(lia)) as D. rewrite Zmod_even, He in D. lia. }
  pose proof (Z.div_mod v d ltac:(lia)) as D. pose proof (Z.mod_pos_bound v d Hd) as B.
  set (q := v / d) in *. set (r := v mod d) in *. set (h := d / 2) in *. clearbody q r h.
  destruct (Z.ltb_spec h r) as [L|L]; cbn [orb].
  - replace ((q + 1) * d - v) with (d - r) by lia. rewrite Z.abs_eq by lia. split; lia.
  - destruct (Z.eqb_spec r h) as [E|E]; cbn [andb].
    + destruct (Z.even q) eqn:Ev; cbn [negb].
      * replace ((q + 0) * d - v) with (- r) by lia. rewrite Z.add_0_r. rewrite Z.abs_opp, Z.abs_eq by lia. split; [lia|]. intros _. exact Ev.
      * replace ((q + 1) * d - v) with (d - r) by lia. rewrite Z.abs_eq by lia. split; [lia|]. intros _.
        rewrite Z.even_add, Ev. reflexivity.
    + replace ((q + 0) * d - v) with (- r) by lia. rewrite Z.abs_opp, Z.abs_eq by lia. split; lia.
Qed.

Lemma pow10_even k : 1 <= k -> Z.even (10 ^ k) = true.
Proof. intros H. rewrite Z.even_pow by lia. reflexivity. Qed.

(** What is left: nothing, or a number that ends in another digit than 0. *)
Inductive trimmed (out exp len : Z) : Prop :=
  | TrimmedZero : out = 0 -> exp = 0 \/ (exp < 0 /\ len = 0) -> trimmed out exp len
  | TrimmedMore : 1 <= out < 10 ^ 17 -> out mod 10 <> 0 -> has_digits len out -> trimmed out exp len.

Lemma trim_ok out exp len p : 1 <= out < 10 ^ 17 -> out mod 10 <> 0 -> has_digits len out -> len <= 17 -> -1000 < exp < 0 -> 0 <= p ->
  exists out' exp' len' R, trim out exp len p = Ok (out', exp', len') /\ - p <= exp' /\ rounds_at p out exp R /\ R = out' * 10 ^ (exp' + p) /\ trimmed out' exp' len' /\
    (exp' < 0 \/ R < 10 ^ 17).
Proof.
  intros Ho H10 Hd Hl He Hp. unfold trim. replace (w32 (- exp)) with (- exp) by (symmetry; apply Z.mod_small; lia).
  unfold rounds_at. destruct (Z.ltb_spec p (- exp)) as [L|L].
  - set (d := - exp - p). assert (1 <= d) as Hd1 by (unfold d; lia).
    replace (Z.max 0 (exp + p)) with 0 by lia. replace (Z.max 0 (- (exp + p))) with d by lia. change (10 ^ 0) with 1. rewrite Z.mul_1_r.
    assert (0 < 10 ^ d) as Hpd by (apply pow10_pos; lia).
    destruct (Z.ltb_spec len d) as [Ld|Ld].
    + exists 0, 0, len, 0. split; [reflexivity|]. split; [lia|]. split; [|split; [reflexivity|split; [apply TrimmedZero; [reflexivity|left; reflexivity]|right; reflexivity]]].
      assert (10 * out < 10 ^ d) as H.
      { destruct Hd as [_ [_ H]]. apply Z.lt_le_trans with (10 * 10 ^ len); [lia|]. rewrite <- pow10_S by (destruct (Z_lt_le_dec len 0); [exfalso; rewrite Z.pow_neg_r in H by lia; lia|lia]).
        apply Z.pow_le_mono_r; lia. }
      unfold nearest_even. replace (0 * 10 ^ d - out) with (- out) by lia. rewrite Z.abs_opp, Z.abs_eq by lia. lia.
    + destruct Hd as [Hl1 Hd]. rewrite pow_10_ok by lia. cbn [obind]. rewrite land_even.
      replace (out - out / 10 ^ d * 10 ^ d) with (out mod 10 ^ d) by (rewrite Z.mod_eq by lia; lia).
      pose proof (round_ok out (10 ^ d) Hpd (pow10_even d Hd1)) as R. unfold round_half_even in R.
      destruct ((10 ^ d / 2 <? out mod 10 ^ d) || (out mod 10 ^ d =? 10 ^ d / 2) && negb (Z.even (out / 10 ^ d))) eqn:Eup.
      * set (R' := out / 10 ^ d + 1) in *.
        assert (1 <= R' < 10 ^ 17) as HR'.
        { unfold R'. assert (0 <= out / 10 ^ d) by (apply Z.div_pos; lia).
          assert (out / 10 ^ d < 10 ^ 16); [|lia]. apply Z.div_lt_upper_bound; [lia|].
          assert (10 ^ 1 <= 10 ^ d) by (apply Z.pow_le_mono_r; lia). change (10 ^ 1) with 10 in *. lia. }
        destruct (decimalLength17_ok R' HR') as [Hd' _].
        destruct (trim_zeros_ok 21 R' (exp + d) (decimalLength17 R')) as (o & k & E & H1 & H2 & H3 & H4 & H5); [|exact Hd'|].
        { split; [lia|]. apply Z.lt_trans with (10 ^ 17); [lia|reflexivity]. }
        exists o, (exp + d + k), (decimalLength17 R' - k), R'. split; [exact E|]. split; [unfold d; lia|]. split; [exact R|].
        replace (exp + d + k + p) with k by (unfold d; lia). split; [exact H2|]. split; [|right; lia].
        apply TrimmedMore; [|exact H4|exact H5]. split; [lia|]. pose proof (pow10_pos k H1). clear - H H2 H3 HR'. nia.
      * rewrite Z.add_0_r in R. set (R' := out / 10 ^ d) in *.
        replace (w32 (len - d)) with (len - d) by (symmetry; apply Z.mod_small; lia).
        destruct (Z.eq_dec len d) as [Ed|Ed].
        -- assert (R' = 0) as E0 by (unfold R'; apply Z.div_small; rewrite <- Ed; lia). rewrite E0 in R |- *.
           exists 0, (exp + d), (len - d), 0. split; [reflexivity|]. split; [unfold d; lia|]. split; [exact R|]. split; [reflexivity|]. split; [|right; reflexivity].
           apply TrimmedZero; [reflexivity|]. destruct (Z.eq_dec p 0) as [->|]; [left; unfold d; lia|right; split; [unfold d; lia|lia]].
        -- assert (has_digits (len - d) R') as HR by (apply has_digits_div; [split; [exact Hl1|exact Hd]|lia]).
           assert (1 <= R') as HR1.
           { destruct HR as [? [? _]]. pose proof (pow10_pos (len - d - 1) ltac:(lia)). lia. }
           assert (R' <= out) as HRo by (apply Z.div_le_upper_bound; [lia|]; clear - Hpd Ho; nia).
           destruct (trim_zeros_ok 21 R' (exp + d) (len - d)) as (o & k & E & H1 & H2 & H3 & H4 & H5); [|exact HR|].
           { split; [lia|]. apply Z.lt_trans with (10 ^ 17); [lia|reflexivity]. }
           exists o, (exp + d + k), (len - d - k), R'. split; [exact E|]. split; [unfold d; lia|]. split; [exact R|].
           replace (exp + d + k + p) with k by (unfold d; lia). split; [exact H2|]. split; [|right; lia].
           apply TrimmedMore; [|exact H4|exact H5]. split; [lia|]. pose proof (pow10_pos k H1). clear - H H2 H3 HRo Ho. nia.
  - exists out, exp, len, (out * 10 ^ (exp + p)). split; [reflexivity|]. split; [lia|]. split; [|split; [reflexivity|split; [apply TrimmedMore; assumption|left; lia]]].
    replace (Z.max 0 (exp + p)) with (exp + p) by lia. replace (Z.max 0 (- (exp + p))) with 0 by lia. change (10 ^ 0) with 1.
    unfold nearest_even. rewrite Z.mul_1_r, Z.sub_diag. cbn. split; lia.
Qed.

(** ** The parts of the text *)

Definition zeros (n : Z) : bytes := repeat 48%N (Z.to_nat n).

Definition integer_text (P : parts) (ints : bytes) : Prop :=
  (p_integer P = 0 /\ p_zeros_after P = 0 /\ ints = $"0") \/
  (has_digits (p_integer_length P) (p_integer P) /\ p_integer P < 10 ^ 17 /\ 0 <= p_zeros_after P /\
   ints = digs (Z.to_nat (p_integer_length P)) (p_integer P) ++ zeros (p_zeros_after P)).
Definition fraction_text (P : parts) (frac : bytes) : Prop :=
  (p_fraction P = 0 /\ frac = []) \/
  (has_digits (p_fraction_length P) (p_fraction P) /\ p_fraction P < 10 ^ 17 /\ 0 <= p_zeros_before P /\
   frac = zeros (p_zeros_before P) ++ digs (Z.to_nat (p_fraction_length P)) (p_fraction P)).

Lemma zeros_digits n : Forall is_digit (zeros n).
Proof. apply Forall_forall. intros x H. apply repeat_spec in H. subst. split; lia. Qed.
Lemma zeros_value n : digits_value (zeros n) = 0.
Proof.
  unfold zeros. rewrite <- digs_zero. apply digs_value. pose proof (pow10_pos (Z.of_nat (Z.to_nat n)) ltac:(lia)). lia.
Qed.
Lemma zeros_length n : 0 <= n -> Z.of_nat (length (zeros n)) = n.
Proof. intros H. unfold zeros. rewrite repeat_length. lia. Qed.

Lemma has_digits_first k v : has_digits k v -> exists c r, digs (Z.to_nat k) v = c :: r /\ c <> 48%N.
Proof.
  intros [H1 H2]. replace (Z.to_nat k) with (S (Z.to_nat (k - 1))) by lia. apply digs_first.
  rewrite Nat2Z.inj_succ, Z2Nat.id by lia. replace (Z.succ (k - 1)) with k by lia. exact H2.
Qed.
Lemma has_digits_value k v : has_digits k v -> digits_value (digs (Z.to_nat k) v) = v.
Proof.
  intros [H1 H2]. apply digs_value. rewrite Z2Nat.id by lia. pose proof (pow10_pos (k - 1) ltac:(lia)). lia.
Qed.
Lemma digs_length_Z k v : 0 <= k -> Z.of_nat (length (digs (Z.to_nat k) v)) = k.
Proof. intros. rewrite digs_length. lia. Qed.
Lemma has_digits_pos k v : has_digits k v -> 1 <= v.
Proof. intros [H1 H2]. pose proof (pow10_pos (k - 1) ltac:(lia)). lia. Qed.

(** The parts of [out * 10^exp] *)
Definition parts_of (out exp len : Z) : outcome parts :=
  let nexp := - exp in
  if 0 <=? exp then Ok (Parts out len exp 0 0 0)
  else if nexp <? len then
    do p <- pow_10 nexp;
    let integer_part := out / p in
    let decimal_part := out mod p in
    let integer_part_length := len - nexp in
    let decimal_part_length := len - integer_part_length in
    do p1 <- pow_10 (decimal_part_length - 1);
    if decimal_part <? p1 then
      let decimal_part_length := decimalLength17 decimal_part in
      Ok (Parts integer_part integer_part_length 0 decimal_part decimal_part_length (len - integer_part_length - decimal_part_length))
    else Ok (Parts integer_part integer_part_length 0 decimal_part decimal_part_length 0)
  else Ok (Parts 0 0 0 out len (nexp - len)).

(** The length of the text without its sign *)
Definition text_length (exp len : Z) : Z :=
  if 0 <=? exp then len + exp else if - exp <? len then len + 1 else 2 - exp.

Lemma canonical_zero frac : Forall is_digit frac -> (frac = [] \/ exists r c, frac = r ++ [c] /\ c <> 48%N) -> canonical_digits $"0" frac.
Proof. intros H1 H2. split; [|split; [exact H1|split; [left; reflexivity|exact H2]]]. constructor; [|constructor]. split; cbn; lia. Qed.

Lemma fixed_length negative ints frac : frac <> [] ->
  length (fixed_text negative ints frac) = ((if negative then 1 else 0) + length ints + 1 + length frac)%nat.
Proof.
  intros H. unfold fixed_text. destruct frac as [|x y]; [congruence|]. rewrite !app_length.
  change (length $".") with 1%nat. destruct negative; [change (length (minus true)) with 1%nat|change (length (minus false)) with 0%nat]; lia.
Qed.

Lemma parts_more out exp len : 1 <= out < 10 ^ 17 -> out mod 10 <> 0 -> has_digits len out -> len <= 17 ->
  exists P ints frac, parts_of out exp len = Ok P /\ integer_text P ints /\ fraction_text P frac /\ canonical_digits ints frac /\
    Z.of_nat (length frac) = Z.max 0 (- exp) /\ digits_value (ints ++ frac) = out * 10 ^ Z.max 0 exp /\
    (p_integer P <> 0 \/ p_fraction P <> 0) /\
    Z.of_nat (length (fixed_text false ints frac)) = text_length exp len.
Proof.
  intros Ho H10 Hd Hl. pose proof (proj1 Hd) as Hl1. unfold parts_of, text_length. destruct (Z.leb_spec 0 exp) as [He|He].
  - exists (Parts out len exp 0 0 0), (digs (Z.to_nat len) out ++ zeros exp), [].
    destruct (has_digits_first len out Hd) as (c & r & Ec & Hc).
    replace (Z.max 0 (- exp)) with 0 by lia. replace (Z.max 0 exp) with exp by lia.
    split; [reflexivity|]. split; [right; cbn; repeat split; try lia; apply Hd|]. split; [left; split; reflexivity|].
    split; [|split; [reflexivity|split; [|split; [left; cbn; lia|]]]].
    + split; [apply Forall_app; split; [apply digs_digits|apply zeros_digits]|]. split; [constructor|]. split; [|left; reflexivity].
      right. rewrite Ec. exists c, (r ++ zeros exp). split; [reflexivity|exact Hc].
    + rewrite app_nil_r, digits_value_app, has_digits_value, zeros_value, zeros_length by assumption. lia.
    + unfold fixed_text. cbn [minus app]. rewrite app_nil_r, app_length, Nat2Z.inj_add, zeros_length, digs_length_Z by lia. lia.
  - replace (Z.max 0 (- exp)) with (- exp) by lia. replace (Z.max 0 exp) with 0 by lia. change (10 ^ 0) with 1. rewrite Z.mul_1_r.
    set (n := - exp) in *. assert (1 <= n) as Hn by (unfold n; lia).
    destruct (Z.ltb_spec n len) as [L|L].
    + rewrite pow_10_ok by lia. cbn [obind]. replace (len - (len - n)) with n by lia. rewrite pow_10_ok by lia. cbn [obind].
      assert (0 < 10 ^ n) as Hpn by (apply pow10_pos; lia).
      assert (has_digits (len - n) (out / 10 ^ n)) as Hi by (apply has_digits_div; [exact Hd|lia]).
      pose proof (Z.mod_pos_bound out (10 ^ n) Hpn) as Hb.
      assert (out mod 10 ^ n mod 10 <> 0) as Hm10.
      { replace n with (Z.succ (n - 1)) by lia. rewrite Z.pow_succ_r, Z.rem_mul_r by (try apply pow10_pos; lia).
        rewrite (Z.mul_comm 10), Z.mod_add, Z.mod_mod by lia. exact H10. }
      assert (1 <= out mod 10 ^ n) as Hf1.
      { destruct (Z.eq_dec (out mod 10 ^ n) 0) as [E|]; [rewrite E in Hm10; exfalso; apply Hm10; reflexivity|lia]. }
      assert (out mod 10 ^ n < 10 ^ 17) as Hf17 by (apply Z.le_lt_trans with out; [apply Z.mod_le; lia|lia]).
      assert (out / 10 ^ n < 10 ^ 17) as Hi17 by (apply Z.le_lt_trans with out; [apply Z.div_le_upper_bound; [lia|clear - Hpn Ho; nia]|lia]).
      set (f := out mod 10 ^ n) in *. set (i := out / 10 ^ n) in *.
      assert (digs (Z.to_nat n) f = digs (Z.to_nat n) out) as Ef.
      { unfold f. replace (10 ^ n) with (10 ^ Z.of_nat (Z.to_nat n)) by (f_equal; lia). apply digs_mod. }
      set (frac := digs (Z.to_nat n) f). set (ints := digs (Z.to_nat (len - n)) i).
      assert (canonical_digits ints frac) as Hcan.
      { split; [apply digs_digits|]. split; [apply digs_digits|]. split; [right; apply has_digits_first; exact Hi|].
        right. unfold frac. replace (Z.to_nat n) with (S (Z.to_nat (n - 1))) by lia. apply digs_last. exact Hm10. }
      assert (digits_value (ints ++ frac) = out) as Hval.
      { rewrite digits_value_app. unfold ints, frac. rewrite digs_length_Z, has_digits_value by (lia || exact Hi).
        rewrite digs_value by (rewrite Z2Nat.id by lia; lia). unfold i, f. pose proof (Z.div_mod out (10 ^ n) ltac:(lia)). lia. }
      assert (Z.of_nat (length (fixed_text false ints frac)) = len + 1) as Hlen.
      { rewrite fixed_length; unfold ints, frac; [rewrite !digs_length; lia|]. intros E. apply (f_equal (@length N)) in E. rewrite digs_length in E. cbn in E. lia. }
      destruct (Z.ltb_spec f (10 ^ (n - 1))) as [Lf|Lf].
      * destruct (decimalLength17_ok f (conj Hf1 Hf17)) as [Hdf Hdf17]. set (k := decimalLength17 f) in *.
        assert (k < n) as Hkn.
        { destruct Hdf as [? [Hk _]]. assert (10 ^ (k - 1) < 10 ^ (n - 1)) as X by lia. apply Z.pow_lt_mono_r_iff in X; lia. }
        exists (Parts i (len - n) 0 f k (n - k)), ints, frac. split; [reflexivity|].
        split; [right; cbn; split; [exact Hi|split; [exact Hi17|split; [lia|]]]; unfold zeros; cbn; rewrite app_nil_r; reflexivity|].
        split.
        { right. cbn. split; [exact Hdf|]. split; [exact Hf17|]. split; [lia|]. unfold frac, zeros.
          replace (Z.to_nat n) with (Z.to_nat (n - k) + Z.to_nat k)%nat by (destruct Hdf; lia). apply digs_pad.
          destruct Hdf as [? Hx]. rewrite Z2Nat.id by lia. lia. }
        split; [exact Hcan|]. split; [apply digs_length_Z; lia|]. split; [exact Hval|]. split; [right; cbn; lia|exact Hlen].
      * exists (Parts i (len - n) 0 f n 0), ints, frac. split; [reflexivity|].
        split; [right; cbn; split; [exact Hi|split; [exact Hi17|split; [lia|]]]; unfold zeros; cbn; rewrite app_nil_r; reflexivity|].
        split.
        { right. cbn. split; [split; [exact Hn|lia]|]. split; [exact Hf17|]. split; [lia|]. reflexivity. }
        split; [exact Hcan|]. split; [apply digs_length_Z; lia|]. split; [exact Hval|]. split; [right; cbn; lia|exact Hlen].
    + exists (Parts 0 0 0 out len (n - len)), $"0", (zeros (n - len) ++ digs (Z.to_nat len) out).
      split; [reflexivity|]. split; [left; repeat split|]. split; [right; cbn; repeat split; try lia; apply Hd|].
      split; [|split; [|split; [|split; [right; cbn; lia|]]]].
      * apply canonical_zero; [apply Forall_app; split; [apply zeros_digits|apply digs_digits]|]. right.
        destruct (digs_last (Z.to_nat (len - 1)) out H10) as (r & c & E & Hc). replace (S (Z.to_nat (len - 1))) with (Z.to_nat len) in E by lia.
        rewrite E. exists (zeros (n - len) ++ r), c. rewrite app_assoc. split; [reflexivity|exact Hc].
      * rewrite app_length, Nat2Z.inj_add, zeros_length, digs_length_Z by lia. lia.
      * rewrite digits_value_app. change (digits_value $"0") with 0. rewrite digits_value_app, zeros_value, has_digits_value by exact Hd. lia.
      * rewrite fixed_length.
        -- rewrite app_length, digs_length. unfold zeros. rewrite repeat_length. cbn [length]. change (length $"0") with 1%nat. lia.
        -- intros E. apply (f_equal (@length N)) in E. rewrite app_length, digs_length in E. cbn [length] in E. lia.
Qed.

Lemma fixed_parts_ok v p : 1 <= d_mantissa v < 10 ^ 17 -> d_mantissa v mod 10 <> 0 -> -1000 < d_exponent v -> 0 <= p ->
  exists P ints frac R, fixed_parts v p = Ok P /\ integer_text P ints /\ fraction_text P frac /\ canonical_digits ints frac /\
    Z.of_nat (length frac) <= p /\ rounds_at p (d_mantissa v) (d_exponent v) R /\
    digits_value (ints ++ frac) * 10 ^ (p - Z.of_nat (length frac)) = R /\
    (p_integer P <> 0 \/ p_fraction P <> 0 <-> R <> 0) /\
    Z.of_nat (length (fixed_text false ints frac)) <= Z.max 18 (Z.max (p + 2) (decimalLength17 (d_mantissa v) + d_exponent v)).
Proof.
  intros Hm H10 He Hp. destruct v as [m e]. cbn [d_mantissa d_exponent] in *.
  destruct (decimalLength17_ok m Hm) as [Hd Hl]. set (len := decimalLength17 m) in *.
  unfold fixed_parts. cbn [d_mantissa d_exponent]. fold len.
  destruct (Z.leb_spec 0 e) as [Le|Le].
  - destruct (parts_more m e len Hm H10 Hd Hl) as (P & ints & frac & E & T1 & T2 & Hc & Hf & Hv & Hn & Ht).
    unfold parts_of in E. destruct (Z.leb_spec 0 e) as [_|]; [|lia].
    exists P, ints, frac, (m * 10 ^ (e + p)). split; [exact E|]. split; [exact T1|]. split; [exact T2|]. split; [exact Hc|].
    rewrite Hf. replace (Z.max 0 (- e)) with 0 by lia. split; [exact Hp|]. split; [|split; [|split]].
    + unfold rounds_at, nearest_even. replace (Z.max 0 (e + p)) with (e + p) by lia. replace (Z.max 0 (- (e + p))) with 0 by lia.
      change (10 ^ 0) with 1. rewrite Z.mul_1_r, Z.sub_diag. cbn. split; lia.
    + rewrite Hv. replace (Z.max 0 e) with e by lia. rewrite Z.sub_0_r, Z.pow_add_r by lia. ring.
    + split; [|intros _; exact Hn]. intros _. pose proof (pow10_pos (e + p) ltac:(lia)). nia.
    + rewrite Ht. unfold text_length. destruct (Z.leb_spec 0 e) as [_|]; [|lia]. lia.
  - destruct (trim_ok m e len p Hm H10 Hd Hl ltac:(lia) Hp) as (out & exp & len' & R & E & Hexp & HR & HRv & T & HR17). rewrite E. cbn [obind].
    change (exists P ints frac R, parts_of out exp len' = Ok P /\ integer_text P ints /\ fraction_text P frac /\ canonical_digits ints frac /\
      Z.of_nat (length frac) <= p /\ rounds_at p m e R /\ digits_value (ints ++ frac) * 10 ^ (p - Z.of_nat (length frac)) = R /\
      (p_integer P <> 0 \/ p_fraction P <> 0 <-> R <> 0) /\
      Z.of_nat (length (fixed_text false ints frac)) <= Z.max 18 (Z.max (p + 2) (len + e))).
    destruct T as [E0 Ez|Ho H10' Hd'].
    + subst out. rewrite Z.mul_0_l in HRv. subst R.
      assert (exists P, parts_of 0 exp len' = Ok P /\ p_integer P = 0 /\ p_zeros_after P = 0 /\ p_fraction P = 0) as (P & EP & P1 & P2 & P3).
      { unfold parts_of. destruct (Z.leb_spec 0 exp) as [L|L].
        - eexists. split; [reflexivity|]. cbn. repeat split. lia.
        - destruct Ez as [|[_ ->]]; [lia|]. destruct (Z.ltb_spec (- exp) 0) as [|_]; [lia|]. eexists. split; [reflexivity|]. cbn. repeat split. }
      exists P, $"0", [], 0. split; [exact EP|]. split; [left; auto|]. split; [left; auto|].
      split; [apply canonical_zero; [constructor|left; reflexivity]|]. split; [exact Hp|]. split; [exact HR|]. split; [reflexivity|].
      rewrite P1, P3. split; [lia|]. change (Z.of_nat (length (fixed_text false $"0" []))) with 1. lia.
    + assert (len' <= 17) as Hl'.
      { destruct Hd' as [? [H ?]]. destruct (Z_le_gt_dec len' 17); [assumption|exfalso].
        assert (10 ^ 17 <= 10 ^ (len' - 1)) by (apply Z.pow_le_mono_r; lia). lia. }
      destruct (parts_more out exp len' Ho H10' Hd' Hl') as (P & ints & frac & EP & T1 & T2 & Hc & Hf & Hv & Hn & Ht).
      exists P, ints, frac, R. split; [exact EP|]. split; [exact T1|]. split; [exact T2|]. split; [exact Hc|].
      rewrite Hf. split; [lia|]. split; [exact HR|]. split; [|split].
      * rewrite Hv, HRv, <- Z.mul_assoc, <- Z.pow_add_r by lia. do 2 f_equal. lia.
      * split; [|intros _; exact Hn]. intros _. rewrite HRv. pose proof (pow10_pos (exp + p) ltac:(lia)). nia.
      * rewrite Ht. unfold text_length. destruct (Z.leb_spec 0 exp) as [L|L]; [|destruct (Z.ltb_spec (- exp) len'); lia].
        destruct HR17 as [|HR17]; [lia|]. destruct Hd' as [Hl1 [Hd1 _]].
        assert (10 ^ (len' - 1 + exp) < 10 ^ 17) as X.
        { rewrite Z.pow_add_r by lia. pose proof (pow10_pos exp L). pose proof (pow10_pos p Hp).
          rewrite Z.pow_add_r, Z.mul_assoc in HRv by lia. assert (out * 10 ^ exp <= R) by (clear - HRv H H0 Ho; nia).
          apply Z.le_lt_trans with (out * 10 ^ exp); [apply Z.mul_le_mono_nonneg_r; lia|lia]. }
        apply Z.pow_lt_mono_r_iff in X; lia.
Qed.
