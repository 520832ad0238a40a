(** * What is printed of every double *)
From Verif Require Import Base BaseFacts Text FloatModel FloatSpec FloatFacts RyuModel RyuTables RyuSpec RyuShortest RyuDecimal RyuDigits RyuFixed RyuPrint.
Local Open Scope Z_scope.

(** ** The bits *)

Lemma unsigned_z f : unsigned f = Z.of_N f mod 2 ^ 63.
Proof. unfold unsigned. rewrite N2Z.inj_mod. reflexivity. Qed.
Lemma mantissa_ok f : ieee_mantissa (Z.of_N f) = unsigned f mod 2 ^ 52.
Proof.
  unfold ieee_mantissa. change (2 ^ 52 - 1) with (Z.ones 52). rewrite Z.land_ones by lia. rewrite unsigned_z.
  change (2 ^ 63) with (2 ^ 52 * 2 ^ 11). rewrite Z.rem_mul_r by lia. rewrite (Z.mul_comm (2 ^ 52)), Z.mod_add by lia. rewrite Z.mod_mod by lia. reflexivity.
Qed.
Lemma exponent_mod f : unsigned f / 2 ^ 52 = (Z.of_N f / 2 ^ 52) mod 2 ^ 11.
Proof.
  rewrite unsigned_z. change (2 ^ 63) with (2 ^ 52 * 2 ^ 11). rewrite Z.rem_mul_r by lia. rewrite (Z.mul_comm (2 ^ 52)), Z.div_add by lia.
  rewrite Z.div_small by (apply Z.mod_pos_bound; lia). lia.
Qed.
Lemma exponent_ok f : ieee_exponent (Z.of_N f) = unsigned f / 2 ^ 52.
Proof.
  unfold ieee_exponent. change (2 ^ 11 - 1) with (Z.ones 11). rewrite Z.land_ones by lia. rewrite exponent_mod. unfold w32. apply Z.mod_small.
  pose proof (Z.mod_pos_bound (Z.of_N f / 2 ^ 52) (2 ^ 11) ltac:(lia)). cbn in *. lia.
Qed.
Lemma sign_ok f : ieee_sign (Z.of_N f) = is_negative f.
Proof.
  unfold ieee_sign, is_negative. rewrite land_even. rewrite Z.negb_even. rewrite N.testbit_odd, N.shiftr_div_pow2.
  rewrite <- (N2Z.id (f / 2 ^ 63)), N2Z.inj_div. change (Z.of_N (2 ^ 63)) with (2 ^ 63).
  assert (0 <= Z.of_N f / 2 ^ 63) as H by (apply Z.div_pos; lia). destruct (Z.of_N f / 2 ^ 63) as [|[q|q|]|]; try reflexivity; lia.
Qed.

Lemma unsigned_range f : 0 <= unsigned f < 2 ^ 63.
Proof. rewrite unsigned_z. apply Z.mod_pos_bound. lia. Qed.

Lemma value64_ok f : value64 f =
  if unsigned f / 2 ^ 52 =? 2047 then (if unsigned f mod 2 ^ 52 =? 0 then DInf (is_negative f) else DNaN)
  else DFinite (if is_negative f then - magnitude (unsigned f) else magnitude (unsigned f)).
Proof.
  unfold value64. replace (Z.of_N ((f / 2 ^ 52) mod 2 ^ 11)) with (unsigned f / 2 ^ 52).
  2:{ rewrite exponent_mod, N2Z.inj_mod, N2Z.inj_div. reflexivity. }
  replace (Z.of_N (f mod 2 ^ 52)) with (unsigned f mod 2 ^ 52); [reflexivity|].
  rewrite N2Z.inj_mod. change (Z.of_N (2 ^ 52)) with (2 ^ 52). rewrite <- mantissa_ok. unfold ieee_mantissa. change (2 ^ 52 - 1) with (Z.ones 52). apply Z.land_ones. lia.
Qed.

Lemma magnitude_pos n : 0 <= n -> 0 <= magnitude n.
Proof.
  intros H. unfold magnitude. pose proof (Z.mod_pos_bound n (2 ^ 52) ltac:(lia)).
  destruct (n / 2 ^ 52 =? 0); [lia|]. apply Z.mul_nonneg_nonneg; [lia|apply Z.pow_nonneg; lia].
Qed.
Lemma magnitude_zero n : 0 <= n -> magnitude n = 0 -> n = 0.
Proof.
  intros H. unfold magnitude. pose proof (Z.mod_pos_bound n (2 ^ 52) ltac:(lia)). pose proof (Z.div_mod n (2 ^ 52) ltac:(lia)).
  assert (0 <= n / 2 ^ 52) as Hd by (apply Z.div_pos; lia).
  destruct (Z.eqb_spec (n / 2 ^ 52) 0) as [E|E]; intros X.
  - rewrite E in *. lia.
  - pose proof (Z.pow_pos_nonneg 2 (n / 2 ^ 52 - 1) ltac:(lia) ltac:(lia)). nia.
Qed.
(** Neighbours are at most twice as large. *)
Lemma magnitude_next n : 0 <= n -> magnitude n < magnitude (n + 1) <= 2 * magnitude n + 1.
Proof.
  intros H. unfold magnitude. pose proof (Z.mod_pos_bound n (2 ^ 52) ltac:(lia)) as Hr. pose proof (Z.div_mod n (2 ^ 52) ltac:(lia)) as Hn.
  assert (0 <= n / 2 ^ 52) as Hd by (apply Z.div_pos; lia). set (q := n / 2 ^ 52) in *. set (r := n mod 2 ^ 52) in *.
  destruct (Z_lt_le_dec r (2 ^ 52 - 1)) as [L|L].
  - replace ((n + 1) / 2 ^ 52) with q by (apply Z.div_unique with (r + 1); lia). replace ((n + 1) mod 2 ^ 52) with (r + 1) by (apply Z.mod_unique with q; lia).
    destruct (Z.eqb_spec q 0); [lia|]. pose proof (Z.pow_pos_nonneg 2 (q - 1) ltac:(lia) ltac:(lia)). nia.
  - replace ((n + 1) / 2 ^ 52) with (q + 1) by (apply Z.div_unique with 0; lia). replace ((n + 1) mod 2 ^ 52) with 0 by (apply Z.mod_unique with (q + 1); lia).
    destruct (Z.eqb_spec (q + 1) 0); [lia|]. replace (q + 1 - 1) with q by lia. destruct (Z.eqb_spec q 0) as [E|E].
    + rewrite E. lia.
    + replace (2 ^ q) with (2 * 2 ^ (q - 1)) by (rewrite <- Z.pow_succ_r by lia; f_equal; lia).
      pose proof (Z.pow_pos_nonneg 2 (q - 1) ltac:(lia) ltac:(lia)). nia.
Qed.
Lemma magnitude_mono n m : 0 <= n < m -> magnitude n < magnitude m.
Proof.
  intros H. replace m with (n + 1 + Z.of_nat (Z.to_nat (m - n - 1))) by lia. generalize (Z.to_nat (m - n - 1)) as k.
  induction k as [|k IH]; [rewrite Z.add_0_r; apply magnitude_next; lia|].
  pose proof (magnitude_next (n + 1 + Z.of_nat k) ltac:(lia)) as X. replace (n + 1 + Z.of_nat (S k)) with (n + 1 + Z.of_nat k + 1) by lia. lia.
Qed.

Definition is_large (n : Z) : bool := 10 ^ 17 * 2 ^ 1074 <? magnitude n.

Lemma value_1e17 : value64 BITS_1e17 = DFinite (10 ^ 17 * 2 ^ 1074).
Proof. vm_compute. reflexivity. Qed.
Lemma value_m1e17 : value64 BITS_m1e17 = DFinite (- (10 ^ 17 * 2 ^ 1074)).
Proof. vm_compute. reflexivity. Qed.

Lemma which_ok f : unsigned f / 2 ^ 52 <> 2047 -> dgt f BITS_1e17 || dlt f BITS_m1e17 = is_large (unsigned f).
Proof.
  intros H. rewrite dgt_spec, dlt_spec. unfold double_lt. rewrite value_1e17, value_m1e17, value64_ok.
  destruct (Z.eqb_spec (unsigned f / 2 ^ 52) 2047) as [E|E]; [lia|]. unfold value_lt, is_large.
  pose proof (magnitude_pos _ (proj1 (unsigned_range f))). set (x := magnitude (unsigned f)) in *. set (c := 10 ^ 17 * 2 ^ 1074) in *.
  assert (0 < c) as Hc by reflexivity. clearbody c x.
  destruct (is_negative f); repeat match goal with |- context [?a <? ?b] => destruct (Z.ltb_spec a b) end; reflexivity || lia.
Qed.

Lemma written_some t : written (map Some t) = Some t.
Proof. induction t as [|c t IH]; [reflexivity|]. cbn [map written]. rewrite IH. reflexivity. Qed.
Lemma text_of_some t (rest : cells) : text_of (map Some t ++ rest) (Z.of_nat (length t)) = Ok t.
Proof.
  unfold text_of. rewrite app_length, map_length. destruct (Z.leb_spec 0 (Z.of_nat (length t))); [|lia].
  destruct (Z.leb_spec (Z.of_nat (length t)) (Z.of_nat (length t + length rest))); [|lia]. cbn [andb].
  rewrite Nat2Z.id, firstn_app, map_length, Nat.sub_diag, firstn_all2 by (rewrite map_length; lia). cbn [firstn]. rewrite app_nil_r.
  rewrite written_some. reflexivity.
Qed.

Lemma special_ok f :
  special (Z.of_N f) = ((unsigned f / 2 ^ 52 =? 2047) || (unsigned f =? 0)).
Proof.
  unfold special. rewrite exponent_ok, mantissa_ok. f_equal. pose proof (unsigned_range f). pose proof (Z.div_mod (unsigned f) (2 ^ 52) ltac:(lia)) as D.
  destruct (Z.eqb_spec (unsigned f) 0) as [->|E]; [reflexivity|].
  destruct (Z.eqb_spec (unsigned f / 2 ^ 52) 0) as [E1|]; [|reflexivity]. destruct (Z.eqb_spec (unsigned f mod 2 ^ 52) 0) as [E2|]; [|reflexivity]. rewrite E1, E2 in D. lia.
Qed.

(** ** Special numbers *)

Lemma put_first x room : (length x <= room)%nat -> exists rest, store_all (repeat None room) 0 x = Ok (map Some x ++ rest) /\ (length rest + length x = room)%nat.
Proof.
  intros H. destruct (put_text [] x (repeat None room) 0 eq_refl ltac:(rewrite repeat_length; exact H)) as (r & E & L). rewrite repeat_length in L. exists r. split; [exact E|exact L].
Qed.
Lemma copy_special_ok room f : (9 <= room)%nat -> special (Z.of_N f) = true ->
  exists t rest, copy_special (repeat None room) (Z.of_N f) = Ok (map Some t ++ rest, Z.of_nat (length t)) /\
    t = match value64 f with DNaN => $"nan" | DInf s => minus s ++ $"Infinity" | DFinite _ => $"0" end /\
    (forall k, value64 f = DFinite k -> k = 0).
Proof.
  intros Hr Hs. rewrite special_ok in Hs. unfold copy_special, copy_special_str. rewrite exponent_ok, mantissa_ok, sign_ok, value64_ok.
  destruct (Z.eqb_spec (unsigned f / 2 ^ 52) 2047) as [E|E]; cbn [orb] in Hs.
  - rewrite E. change (negb (2047 =? 0)) with true. destruct (Z.eqb_spec (unsigned f mod 2 ^ 52) 0) as [E2|E2]; cbn [negb].
    + destruct (is_negative f).
      * destruct (put_char [] 45%N (repeat None room) 0 eq_refl ltac:(rewrite repeat_length; lia)) as (r & X & L). cbn [map app] in X. rewrite X. cbn [obind].
        rewrite repeat_length in L. change (Some 45%N :: r) with (map Some [45%N] ++ r).
        destruct (put_text [45%N] $"Infinity" r 1 eq_refl) as (r2 & X2 & L2); [change (length $"Infinity") with 8%nat; lia|]. rewrite X2. cbn [obind].
        exists ([45%N] ++ $"Infinity"), r2. split; [reflexivity|]. split; [reflexivity|discriminate].
      * cbn [obind]. destruct (put_first $"Infinity" room) as (r & X & L); [change (length $"Infinity") with 8%nat; lia|]. rewrite X.
        exists ($"Infinity"), r. split; [reflexivity|]. split; [reflexivity|discriminate].
    + destruct (put_first $"nan" room) as (r & X & L); [change (length $"nan") with 3%nat; lia|]. rewrite X.
      exists ($"nan"), r. split; [reflexivity|]. split; [reflexivity|discriminate].
  - apply Z.eqb_eq in Hs. rewrite Hs. change (0 / 2 ^ 52) with 0. change (0 mod 2 ^ 52) with 0. cbn [Z.eqb negb].
    destruct (put_first $"0" room) as (r & X & L); [change (length $"0") with 1%nat; lia|]. rewrite X.
    exists ($"0"), r. split; [reflexivity|]. split; [reflexivity|]. intros k H. inversion H. change (magnitude 0) with 0. destruct (is_negative f); reflexivity.
Qed.

Lemma print_special room f p : (9 <= room)%nat -> special (Z.of_N f) = true ->
  print_double_ryu room f p = Ok (match value64 f with DNaN => $"nan" | DInf s => minus s ++ $"Infinity" | DFinite _ => $"0" end).
Proof.
  intros Hr Hs. unfold print_double_ryu, d2sexp_buffered_n, d2sfixed_buffered_n. rewrite Hs.
  destruct (copy_special_ok room f Hr Hs) as (t & rest & E & Et & _). rewrite Et in *. clear Et.
  destruct (dgt f BITS_1e17 || dlt f BITS_m1e17); rewrite E; cbn [obind]; apply text_of_some.
Qed.

Lemma value_finite f k : value64 f = DFinite k -> unsigned f / 2 ^ 52 <> 2047 /\ Z.abs k = magnitude (unsigned f) /\ (is_negative f = true -> k <= 0) /\ (is_negative f = false -> 0 <= k).
Proof.
  rewrite value64_ok. destruct (Z.eqb_spec (unsigned f / 2 ^ 52) 2047) as [E|E].
  - destruct (unsigned f mod 2 ^ 52 =? 0); discriminate.
  - intros H. inversion H. pose proof (magnitude_pos _ (proj1 (unsigned_range f))). split; [exact E|]. destruct (is_negative f); repeat split; intros; lia || discriminate.
Qed.

Lemma finite_ok f k : value64 f = DFinite k -> k <> 0 -> 0 < unsigned f /\ finite (unsigned f) /\ special (Z.of_N f) = false.
Proof.
  intros H Hk. destruct (value_finite f k H) as (E & Ek & _). pose proof (unsigned_range f) as R.
  assert (unsigned f <> 0) as H0 by (intros X; rewrite X in Ek; change (magnitude 0) with 0 in Ek; lia).
  assert (unsigned f / 2 ^ 52 < 2 ^ 11) as L by (apply Z.div_lt_upper_bound; lia).
  split; [lia|]. split.
  - split; [lia|]. pose proof (Z.mul_div_le (unsigned f) (2 ^ 52) ltac:(lia)). pose proof (Z.mod_pos_bound (unsigned f) (2 ^ 52) ltac:(lia)).
    pose proof (Z.div_mod (unsigned f) (2 ^ 52) ltac:(lia)). lia.
  - rewrite special_ok. destruct (Z.eqb_spec (unsigned f / 2 ^ 52) 2047); [contradiction|]. destruct (Z.eqb_spec (unsigned f) 0); [contradiction|reflexivity].
Qed.

(** The decimal of a double up to 1e17 has at most 18 digits before the point. *)
Lemma decimal_below n m e : 0 < n -> magnitude n <= 10 ^ 17 * 2 ^ 1074 -> nearest_double n m e -> has_digits (decimalLength17 m) m -> decimalLength17 m + e <= 18.
Proof.
  intros Hn Hm HN [H1 [H2 H3]]. destruct (Z_lt_le_dec 18 (decimalLength17 m + e)) as [L|L]; [exfalso|exact L].
  set (k := decimalLength17 m) in *. pose proof (magnitude_next n ltac:(lia)) as [_ HX]. unfold nearest_double in HN. cbv zeta in HN.
  set (x := 2 * m * 2 ^ 1074 * 10 ^ Z.max 0 e) in *.
  assert (x <= (magnitude n + magnitude (n + 1)) * 10 ^ Z.max 0 (- e)) as U by (destruct (Z.even n); lia). clear HN.
  pose proof (pow10_pos (Z.max 0 (- e)) ltac:(lia)) as Hp.
  assert (2 * 10 ^ 18 * 2 ^ 1074 * 10 ^ Z.max 0 (- e) <= x) as Lo.
  { unfold x. assert (10 ^ 18 * 10 ^ Z.max 0 (- e) <= m * 10 ^ Z.max 0 e) as Y.
    { rewrite <- Z.pow_add_r by lia. apply Z.le_trans with (10 ^ (k - 1) * 10 ^ Z.max 0 e).
      - rewrite <- Z.pow_add_r by lia. apply Z.pow_le_mono_r; lia.
      - apply Z.mul_le_mono_nonneg_r; [apply Z.pow_nonneg; lia|exact H2]. }
    replace (2 * 10 ^ 18 * 2 ^ 1074 * 10 ^ Z.max 0 (- e)) with (2 * 2 ^ 1074 * (10 ^ 18 * 10 ^ Z.max 0 (- e))) by ring.
    replace (2 * m * 2 ^ 1074 * 10 ^ Z.max 0 e) with (2 * 2 ^ 1074 * (m * 10 ^ Z.max 0 e)) by ring. apply Z.mul_le_mono_nonneg_l; [|exact Y].
    apply Z.mul_nonneg_nonneg; [lia|apply Z.pow_nonneg; lia]. }
  assert (1 <= 2 ^ 1074) as Hc by (apply Z.lt_pred_le; apply Z.pow_pos_nonneg; lia). set (c := 2 ^ 1074) in *. clearbody c.
  assert (magnitude n + magnitude (n + 1) <= 4 * (10 ^ 17 * c)) as V by lia.
  apply (Z.mul_le_mono_nonneg_r _ _ (10 ^ Z.max 0 (- e))) in V; [|lia]. nia.
Qed.

Lemma print_moderate room f k p : value64 f = DFinite k -> 0 < Z.abs k <= 10 ^ 17 * 2 ^ 1074 -> 0 <= p ->
  (19 <= room)%nat -> p + 3 <= Z.of_nat room ->
  exists m e text, print_double_ryu room f p = Ok text /\ 1 <= m <= 10 * 2 ^ 53 + 1 /\ m mod 10 <> 0 /\ shortest_decimal (unsigned f) m e /\
    rounded_text (is_negative f) p m e text /\ Z.of_nat (length text) <= Z.max 19 (p + 3).
Proof.
  intros Hv Hk Hp Hr Hr2. destruct (finite_ok f k Hv ltac:(lia)) as (Hn & Hfin & Hs). destruct (value_finite f k Hv) as (HE & Ek & _).
  unfold print_double_ryu. rewrite which_ok by exact HE. unfold is_large. rewrite <- Ek. destruct (Z.ltb_spec (10 ^ 17 * 2 ^ 1074) (Z.abs k)); [lia|].
  unfold d2sfixed_buffered_n. rewrite Hs, mantissa_ok, exponent_ok, sign_ok.
  destruct (to_decimal_ok (unsigned f) Hn Hfin) as (d & E & D). rewrite E. cbn [obind]. destruct D as [D1 D2 D3 D4].
  assert (1 <= d_mantissa d < 10 ^ 17) as Hm by lia. destruct (decimalLength17_ok _ Hm) as [HL _].
  pose proof (decimal_below _ _ _ Hn ltac:(rewrite <- Ek; apply Hk) (proj1 D4) HL) as B.
  destruct (fixed_ok (repeat None room) d (is_negative f) p Hm D2 ltac:(lia) Hp) as (text & rest & X & _ & T & L); [rewrite repeat_length; lia|].
  rewrite X. cbn [obind]. exists (d_mantissa d), (d_exponent d), text. split; [apply text_of_some|]. split; [lia|]. split; [exact D2|]. split; [exact D4|]. split; [exact T|lia].
Qed.

Lemma digits_bound t : Forall is_digit t -> 0 <= digits_value t < 10 ^ Z.of_nat (length t).
Proof.
  intros H. induction t as [|c t IH] using rev_ind; [cbn; lia|]. apply Forall_app in H as [H1 H2]. rewrite digits_value_app, app_length. cbn [length].
  specialize (IH H1). apply Forall_inv in H2. unfold is_digit in H2. rewrite Nat2Z.inj_add. change (Z.of_nat 1) with 1. rewrite Z.pow_add_r by lia.
  change (10 ^ 1) with 10. change (digits_value [c]) with (10 * 0 + (Z.of_N c - 48)). lia.
Qed.
Lemma one_digit ints frac : canonical_digits ints frac -> digits_value ints < 10 -> length ints = 1%nat.
Proof.
  intros (H1 & _ & [->|(c & r & -> & Hc)] & _) H; [reflexivity|]. destruct r as [|d r]; [reflexivity|exfalso].
  inversion H1 as [|x y Hx Hy E]. subst. unfold is_digit in Hx. pose proof (digits_bound _ Hy) as B.
  change (c :: d :: r) with ([c] ++ d :: r) in H. rewrite digits_value_app in H. change (digits_value [c]) with (10 * 0 + (Z.of_N c - 48)) in H.
  cbn [length] in *. rewrite Nat2Z.inj_succ, Z.pow_succ_r in * by lia. pose proof (pow10_pos (Z.of_nat (length r)) ltac:(lia)). nia.
Qed.

Lemma same_unique m e m' e' : same_decimal m e m' e' -> m mod 10 <> 0 -> m' mod 10 <> 0 -> m = m' /\ e = e'.
Proof.
  unfold same_decimal. intros H H1 H2.
  assert (forall a b k, a * 10 ^ Z.max 0 k = b -> 0 < k -> b mod 10 = 0) as X.
  { intros a b k <- Hk. replace (Z.max 0 k) with (k - 1 + 1) by lia. rewrite pow10_S by lia. replace (a * (10 * 10 ^ (k - 1))) with (a * 10 ^ (k - 1) * 10) by ring. apply Z.mod_mul. discriminate. }
  assert (e < e' \/ e = e' \/ e' < e) as [L|[L|L]] by lia.
  - exfalso. apply H1. apply (X m' m (e' - e)); [|lia]. rewrite <- H. replace (Z.max 0 (e - e')) with 0 by lia. apply Z.mul_1_r.
  - subst. rewrite Z.sub_diag in H. change (10 ^ Z.max 0 0) with 1 in H. lia.
  - exfalso. apply H2. apply (X m m' (e - e')); [|lia]. rewrite H. replace (Z.max 0 (e' - e)) with 0 by lia. apply Z.mul_1_r.
Qed.
Lemma canonical_last ints frac : canonical_digits ints frac -> length ints = 1%nat -> digits_value (ints ++ frac) <> 0 -> digits_value (ints ++ frac) mod 10 <> 0.
Proof.
  intros (H1 & H2 & _ & H4) HL Hne.
  assert (forall r c, is_digit c -> c <> 48%N -> digits_value (r ++ [c]) mod 10 <> 0) as X.
  { intros r c Hc Hz. rewrite digits_value_app. cbn [length]. change (10 ^ Z.of_nat 1) with 10. change (digits_value [c]) with (10 * 0 + (Z.of_N c - 48)).
    rewrite Z.add_comm, Z.mod_add by lia. unfold is_digit in Hc. rewrite Z.mod_small by lia. lia. }
  destruct H4 as [->|(r & c & -> & Hc)].
  - rewrite app_nil_r in *. destruct ints as [|c [|d r]]; try discriminate. apply (X [] c); [inversion H1; assumption|].
    intros ->. apply Hne. reflexivity.
  - rewrite app_assoc. apply X; [|exact Hc]. apply Forall_app in H2 as [_ H2]. inversion H2. assumption.
Qed.

Lemma print_large room f k p : value64 f = DFinite k -> 10 ^ 17 * 2 ^ 1074 < Z.abs k -> (25 <= room)%nat ->
  exists m e text, print_double_ryu room f p = Ok text /\ denotes text (is_negative f) m e /\ shortest_decimal (unsigned f) m e /\ (length text <= 25)%nat.
Proof.
  intros Hv Hk Hr. assert (k <> 0) as Hk0 by (intros ->; assert (0 < 10 ^ 17 * 2 ^ 1074) by reflexivity; lia).
  destruct (finite_ok f k Hv Hk0) as (Hn & Hfin & Hs). destruct (value_finite f k Hv) as (HE & Ek & _).
  unfold print_double_ryu. rewrite which_ok by exact HE. unfold is_large. rewrite <- Ek. destruct (Z.ltb_spec (10 ^ 17 * 2 ^ 1074) (Z.abs k)); [|lia].
  unfold d2sexp_buffered_n. rewrite Hs, mantissa_ok, exponent_ok, sign_ok.
  destruct (to_decimal_ok (unsigned f) Hn Hfin) as (d & E & D). rewrite E. cbn [obind]. destruct D as [D1 D2 D3 D4].
  assert (1 <= d_mantissa d < 10 ^ 17) as Hm by lia. destruct (decimalLength17_ok _ Hm) as [HL HL17]. cbv zeta.
  set (m := d_mantissa d) in *. set (len := decimalLength17 m) in *. assert (1 <= len) as Hl1 by apply HL.
  destruct (fixed_ok (repeat None room) (Decimal m (1 - len)) (is_negative f) 17 Hm D2 ltac:(cbn; lia) ltac:(lia)) as (text & rest & X & Hlen & T & L).
  { cbn [d_mantissa d_exponent]. fold len. rewrite repeat_length. lia. }
  rewrite X. cbn [obind]. cbn [d_mantissa d_exponent] in T, L. rewrite repeat_length in Hlen. fold len in L.
  set (expo := d_exponent d + len - 1). assert (-1000 < expo < 1000) as Hexp by (unfold expo; lia).
  destruct (print_exponent_ok text rest _ expo eq_refl ltac:(lia) Hexp) as (ex & rest' & X2 & Hd & Hne & Hval & Hlx). rewrite X2. cbn [obind]. rewrite text_of_some.
  destruct T as (ints & frac & R & Et & Hc & Hfr & HR & HV).
  assert (same_decimal m (1 - len) (digits_value (ints ++ frac)) (- Z.of_nat (length frac))) as S.
  { apply (exact_same 17); [lia|exact Hfr|]. rewrite HV. exact HR. }
  assert (R = m * 10 ^ (1 - len + 17)) as ER by (apply rounds_exact; [lia|exact HR]).
  assert (0 < R) as HR0 by (pose proof (pow10_pos (1 - len + 17) ltac:(lia)); nia).
  destruct (Z.eqb_spec R 0); [lia|]. rewrite Bool.andb_true_r in Et.
  eexists (digits_value (ints ++ frac)), (expo - Z.of_nat (length frac)), _. split; [reflexivity|].
  assert (length ints = 1%nat) as H1.
  { apply (one_digit ints frac Hc). rewrite digits_value_app in HV. destruct Hc as (_ & Hc & _). pose proof (digits_bound _ Hc) as B.
    set (j := Z.of_nat (length frac)) in *. assert (R < 10 ^ 18) as HR18.
    { rewrite ER. destruct HL as (_ & _ & HU). apply Z.lt_le_trans with (10 ^ len * 10 ^ (1 - len + 17)).
      - apply Z.mul_lt_mono_pos_r; [apply pow10_pos; lia|exact HU].
      - rewrite <- Z.pow_add_r by lia. apply Z.pow_le_mono_r; lia. }
    destruct (Z_lt_le_dec (digits_value ints) 10) as [|G]; [assumption|exfalso].
    assert (10 ^ 18 = 10 * 10 ^ j * 10 ^ (17 - j)) as E18.
    { rewrite <- Z.mul_assoc, <- Z.pow_add_r by lia. replace (j + (17 - j)) with 17 by lia. reflexivity. }
    pose proof (pow10_pos (17 - j) ltac:(lia)). pose proof (pow10_pos j ltac:(lia)).
    assert (10 * 10 ^ j <= digits_value ints * 10 ^ j + digits_value frac) as G2 by nia. rewrite E18, <- HV in HR18. nia. }
  split; [|split].
  - rewrite Et. destruct (Z.ltb_spec expo 0) as [Ln|Ln].
    + replace (expo - Z.of_nat (length frac)) with ((if true then - digits_value ex else digits_value ex) - Z.of_nat (length frac)) by lia.
      apply (denotes_scientific (is_negative f) ints frac true ex Hc H1 Hd Hne).
    + replace (expo - Z.of_nat (length frac)) with ((if false then - digits_value ex else digits_value ex) - Z.of_nat (length frac)) by lia.
      apply (denotes_scientific (is_negative f) ints frac false ex Hc H1 Hd Hne).
  - destruct (same_unique _ _ _ _ S D2) as [Em Ee]; [apply canonical_last; [exact Hc|exact H1|rewrite ER in HV; intros X0; rewrite X0 in HV; pose proof (pow10_pos (1 - len + 17) ltac:(lia)); nia]|].
    rewrite <- Em. replace (expo - Z.of_nat (length frac)) with (d_exponent d) by (unfold expo; lia). exact D4.
  - rewrite !app_length. change (length $"e") with 1%nat. cbn [length]. lia.
Qed.
