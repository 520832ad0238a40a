(** * Rounding to doubles, in general *)
From Verif Require Import Base BaseFacts RyuSpec FastFloatModel FastFloatSpec RyuShortest RyuDecimal RyuDouble.
Local Open Scope Z_scope.

(** [n] is the pattern for [x / p] (in units of 2^-1074): nearest, or beyond the largest *)
Definition nearest (n x p : Z) : Prop :=
  if Z.even n then (magnitude (n - 1) + magnitude n) * p <= 2 * x <= (magnitude n + magnitude (n + 1)) * p
  else (magnitude (n - 1) + magnitude n) * p < 2 * x < (magnitude n + magnitude (n + 1)) * p.
Definition top : Z := 2047 * 2 ^ 52.
Definition beyond (x p : Z) : Prop := (magnitude (top - 1) + magnitude top) * p <= 2 * x.
Definition pattern (n x p : Z) : Prop := (finite n /\ nearest n x p) \/ (n = top /\ beyond x p).

Lemma nearest_double_is n m e : nearest_double n m e <-> nearest n (m * 2 ^ 1074 * 10 ^ Z.max 0 e) (10 ^ Z.max 0 (- e)).
Proof.
  unfold nearest_double, nearest. rewrite !Z.mul_assoc. reflexivity.
Qed.
Lemma too_large_is m e : too_large m e <-> beyond (m * 2 ^ 1074 * 10 ^ Z.max 0 e) (10 ^ Z.max 0 (- e)).
Proof. unfold too_large, beyond, top. rewrite !Z.mul_assoc. reflexivity. Qed.

Lemma nearest_scale c n x p : 0 < c -> nearest n (c * x) (c * p) <-> nearest n x p.
Proof.
  intros Hc. unfold nearest.
  set (a := magnitude (n - 1) + magnitude n). set (b := magnitude n + magnitude (n + 1)).
  replace (a * (c * p)) with (c * (a * p)) by ring. replace (b * (c * p)) with (c * (b * p)) by ring. replace (2 * (c * x)) with (c * (2 * x)) by ring.
  destruct (Z.even n); rewrite <- ?Z.mul_le_mono_pos_l, <- ?Z.mul_lt_mono_pos_l by exact Hc; reflexivity.
Qed.
Lemma beyond_scale c x p : 0 < c -> beyond (c * x) (c * p) <-> beyond x p.
Proof.
  intros Hc. unfold beyond. set (a := magnitude (top - 1) + magnitude top).
  replace (a * (c * p)) with (c * (a * p)) by ring. replace (2 * (c * x)) with (c * (2 * x)) by ring.
  rewrite <- !Z.mul_le_mono_pos_l by exact Hc. reflexivity.
Qed.
Lemma pattern_scale c n x p : 0 < c -> pattern n (c * x) (c * p) <-> pattern n x p.
Proof. intros Hc. unfold pattern. rewrite nearest_scale, beyond_scale by exact Hc. reflexivity. Qed.
Lemma pattern_same n x p x' p' : 0 < p -> 0 < p' -> x * p' = x' * p -> pattern n x p -> pattern n x' p'.
Proof.
  intros Hp Hp' E H. apply (pattern_scale p) ; [exact Hp|]. apply (pattern_scale p') in H; [|exact Hp'].
  replace (p * x') with (p' * x) by lia. replace (p * p') with (p' * p) by lia. exact H.
Qed.

(** Between two numbers with the same pattern there is no other. *)
Lemma pattern_between n x1 x x2 p : x1 <= x <= x2 -> pattern n x1 p -> pattern n x2 p -> pattern n x p.
Proof.
  intros Hx [[F H1]|[E1 H1]] [[F2 H2]|[E2 H2]]; unfold pattern.
  - left. split; [exact F|]. unfold nearest in *. destruct (Z.even n); lia.
  - unfold finite, top in *. lia.
  - unfold finite, top in *. lia.
  - right. split; [exact E1|]. unfold beyond in *. lia.
Qed.

Lemma magnitude_at k r : 0 <= k -> 0 <= r <= 2 ^ 53 -> (k = 0 \/ 2 ^ 52 <= r) -> magnitude (k * 2 ^ 52 + r) = r * 2 ^ k.
Proof.
  intros Hk Hr Hn.
  assert (r < 2 ^ 52 \/ 2 ^ 52 <= r < 2 ^ 53 \/ r = 2 ^ 53) as [H|[H|H]] by lia.
  - assert (k = 0) as -> by lia. rewrite magnitude_of by lia. change (0 =? 0) with true. cbv iota. rewrite Z.pow_0_r. lia.
  - replace (k * 2 ^ 52 + r) with ((k + 1) * 2 ^ 52 + (r - 2 ^ 52)) by ring. rewrite magnitude_of by lia.
    destruct (Z.eqb_spec (k + 1) 0); [lia|]. f_equal; [lia|]. f_equal; lia.
  - subst r. replace (k * 2 ^ 52 + 2 ^ 53) with ((k + 2) * 2 ^ 52 + 0) by ring. rewrite magnitude_of by lia.
    destruct (Z.eqb_spec (k + 2) 0); [lia|]. replace (k + 2 - 1) with (1 + k) by lia. rewrite Z.pow_add_r by lia. ring.
Qed.
Lemma magnitude_minus_one : magnitude (-1) = 0.
Proof. reflexivity. Qed.

Lemma core_up x p k r : 0 < p -> 0 <= x -> 0 <= k -> (k = 0 \/ 2 ^ 52 * (p * 2 ^ k) <= x) -> r <= 2 ^ 53 -> nearest_even x (p * 2 ^ k) r ->
  pattern (Z.min (k * 2 ^ 52 + r) top) x p.
Proof.
  intros Hp Hx Hk Hlow Hhigh [Hr Heven].
  assert (0 < 2 ^ k) as H2 by (apply Z.pow_pos_nonneg; lia).
  set (d := p * 2 ^ k) in *. assert (0 < d) as Hd by (unfold d; apply Z.mul_pos_pos; lia).
  assert (0 <= r <= 2 ^ 53) as Br.
  { split.
    - destruct (Z_lt_le_dec r 0); [|assumption]. exfalso. assert (r * d <= -1 * d) by (apply Z.mul_le_mono_nonneg_r; lia). lia.
    - exact Hhigh. }
  assert (k = 0 \/ 2 ^ 52 <= r) as Bk.
  { destruct Hlow as [->|Hlow]; [left; reflexivity|right]. destruct (Z_lt_le_dec r (2 ^ 52)); [|assumption]. exfalso.
    assert (r * d <= (2 ^ 52 - 1) * d) by (apply Z.mul_le_mono_nonneg_r; lia). lia. }
  destruct (Z_lt_le_dec (k * 2 ^ 52 + r) top) as [Hf|Hf].
  - rewrite Z.min_l by lia. left. split; [unfold finite; fold top; lia|].
    unfold nearest. rewrite (magnitude_at k r Hk Br Bk).
    assert ((2 * r + 1) * d <= (r * 2 ^ k + magnitude (k * 2 ^ 52 + r + 1)) * p) as Hup.
    { assert ((r + 1) * 2 ^ k <= magnitude (k * 2 ^ 52 + r + 1)) as Hm.
      { destruct (Z.eq_dec r (2 ^ 53)) as [->|Hr53].
        - replace (k * 2 ^ 52 + 2 ^ 53 + 1) with ((k + 1) * 2 ^ 52 + (2 ^ 52 + 1)) by ring. rewrite magnitude_at by lia.
          replace (k + 1) with (1 + k) by lia. rewrite Z.pow_add_r by lia. change (2 ^ 1) with 2.
          rewrite Z.mul_assoc. apply Z.mul_le_mono_nonneg_r; lia.
        - replace (k * 2 ^ 52 + r + 1) with (k * 2 ^ 52 + (r + 1)) by ring. rewrite magnitude_at by lia. lia. }
      replace ((2 * r + 1) * d) with ((r * 2 ^ k + (r + 1) * 2 ^ k) * p) by (unfold d; ring). apply Z.mul_le_mono_nonneg_r; lia. }
    assert (Z.even (k * 2 ^ 52 + r) = Z.even r) as Ev.
    { rewrite Z.even_add, Z.even_mul. change (Z.even (2 ^ 52)) with true. rewrite orb_true_r. destruct (Z.even r); reflexivity. }
    rewrite Ev.
    assert ((magnitude (k * 2 ^ 52 + r - 1) + r * 2 ^ k) * p <= (2 * r - 1) * d \/
            (magnitude (k * 2 ^ 52 + r - 1) + r * 2 ^ k) * p < 2 * x \/ (r = 0 /\ (magnitude (k * 2 ^ 52 + r - 1) + r * 2 ^ k) * p = 0)) as Hdown.
    { destruct (Z.eq_dec r 0) as [->|Hr0].
      - right; right. split; [reflexivity|]. assert (k = 0) as -> by lia. change (0 * 2 ^ 52 + 0 - 1) with (-1). rewrite magnitude_minus_one. ring.
      - destruct Bk as [Bk|Bk]; [left|].
        + subst k. replace (0 * 2 ^ 52 + r - 1) with (0 * 2 ^ 52 + (r - 1)) by ring. rewrite magnitude_at by lia. unfold d. apply Z.eq_le_incl. ring.
        + destruct (Z.eq_dec r (2 ^ 52)) as [E|Hr52].
          * destruct (Z.eq_dec k 0) as [E0|Hk0].
            { left. rewrite E0. replace (0 * 2 ^ 52 + r - 1) with (0 * 2 ^ 52 + (r - 1)) by ring. rewrite magnitude_at by lia.
              unfold d. rewrite E0. apply Z.eq_le_incl. ring. }
            right. left. destruct Hlow as [?|Hlow]; [lia|].
            replace (k * 2 ^ 52 + r - 1) with ((k - 1) * 2 ^ 52 + (2 ^ 53 - 1)) by lia. rewrite magnitude_at by lia.
            apply Z.lt_le_trans with ((2 * 2 ^ 52) * d); [|lia].
            replace d with (2 * (p * 2 ^ (k - 1))).
            2:{ unfold d. replace k with (1 + (k - 1)) at 2 by lia. rewrite Z.pow_add_r by lia. ring. }
            replace (2 ^ k) with (2 * 2 ^ (k - 1)).
            2:{ replace k with (1 + (k - 1)) at 2 by lia. rewrite Z.pow_add_r by lia. ring. }
            rewrite E. assert (0 < p * 2 ^ (k - 1)) by (apply Z.mul_pos_pos; [lia|apply Z.pow_pos_nonneg; lia]). 
            set (y := 2 ^ (k - 1)) in *.
            replace (((2 ^ 53 - 1) * y + 2 ^ 52 * (2 * y)) * p) with ((2 ^ 54 - 1) * (p * y)) by ring. lia.
          * left. replace (k * 2 ^ 52 + r - 1) with (k * 2 ^ 52 + (r - 1)) by ring. rewrite magnitude_at by lia. unfold d. apply Z.eq_le_incl. ring. }
    set (hi := (r * 2 ^ k + magnitude (k * 2 ^ 52 + r + 1)) * p) in *. set (lo := (magnitude (k * 2 ^ 52 + r - 1) + r * 2 ^ k) * p) in *.
    assert ((2 * r - 1) * d <= 2 * x <= (2 * r + 1) * d) as Hb by lia.
    clear Hf Ev.
    destruct (Z.even r) eqn:Er.
    + split; [|lia]. destruct Hdown as [H|[H|[H H']]]; lia.
    + assert (2 * x <> (2 * r - 1) * d /\ 2 * x <> (2 * r + 1) * d) as [N1 N2].
      { split; intros E; assert (false = true) as C; try discriminate C; apply Heven; lia. }
      split; [|lia]. destruct Hdown as [H|[H|[H H']]]; [lia|lia|]. subst r. discriminate Er.
  - rewrite Z.min_r by lia. right. split; [reflexivity|]. unfold beyond, top in *.
    replace (2047 * 2 ^ 52 - 1) with (2045 * 2 ^ 52 + (2 ^ 53 - 1)) by lia. replace (2047 * 2 ^ 52) with (2045 * 2 ^ 52 + 2 ^ 53) by lia.
    rewrite !magnitude_at by lia.
    destruct (Z_le_gt_dec k 2045) as [Hk'|Hk'].
    + assert (k = 2045 /\ r = 2 ^ 53) as [E1 E2] by lia.
      assert ((2 * r - 1) * d <= 2 * x) by lia. replace (((2 ^ 53 - 1) * 2 ^ 2045 + 2 ^ 53 * 2 ^ 2045) * p) with ((2 * r - 1) * d); [assumption|].
      unfold d. rewrite E1, E2. set (y := 2 ^ 2045). ring.
    + destruct Hlow as [?|Hlow]; [lia|].
      assert (2 ^ 2046 <= 2 ^ k) as Hle by (apply Z.pow_le_mono_r; lia).
      apply Z.le_trans with (2 * (2 ^ 52 * d)); [|lia]. unfold d.
      assert (2 ^ 2046 * p <= 2 ^ k * p) by (apply Z.mul_le_mono_nonneg_r; lia).
      change (2 ^ 2046) with (2 * 2 ^ 2045) in H. set (y := 2 ^ 2045) in *.
      replace (((2 ^ 53 - 1) * y + 2 ^ 53 * y) * p) with ((2 ^ 54 - 1) * (y * p)) by ring.
      replace (2 * y * p) with (2 * (y * p)) in H by ring. replace (2 * (2 ^ 52 * (p * 2 ^ k))) with (2 ^ 53 * (2 ^ k * p)) by ring.
      assert (0 < y * p) by (apply Z.mul_pos_pos; [unfold y; reflexivity|exact Hp]).
      clear - H H0. remember (y * p) as a. remember (2 ^ k * p) as b. lia.
Qed.

Lemma core x p k r : 0 < p -> 0 <= x -> 0 <= k -> (k = 0 \/ 2 ^ 52 * (p * 2 ^ k) <= x) -> x < 2 ^ 53 * (p * 2 ^ k) -> nearest_even x (p * 2 ^ k) r ->
  pattern (Z.min (k * 2 ^ 52 + r) top) x p.
Proof.
  intros Hp Hx Hk Hlow Hhigh Hr. apply core_up; try assumption. destruct Hr as [Hr _].
  assert (0 < p * 2 ^ k) as Hd by (apply Z.mul_pos_pos; [exact Hp|apply Z.pow_pos_nonneg; lia]). set (d := p * 2 ^ k) in *. clearbody d.
  destruct (Z_le_gt_dec r (2 ^ 53)); [assumption|]. exfalso. assert ((2 ^ 53 + 1) * d <= r * d) by (apply Z.mul_le_mono_nonneg_r; lia). lia.
Qed.

(** From the quotient with one bit more *)
Lemma half_round x d f : 0 < d -> f * d <= 2 * x < (f + 1) * d ->
  nearest_even x d (if (Z.odd f) && (2 * x =? f * d) && negb (f mod 4 =? 3) then (f - 1) / 2 else (f + f mod 2) / 2).
Proof.
  intros Hd [H1 H2]. unfold nearest_even.
  assert (f mod 2 = 0 \/ f mod 2 = 1) as [M|M] by (pose proof (Z.mod_pos_bound f 2); lia).
  - replace (Z.odd f) with false by (symmetry; rewrite Zodd_mod, M; reflexivity). cbn [andb].
    rewrite M, Z.add_0_r. pose proof (Z.div_mod f 2 ltac:(lia)) as E. rewrite M in E. set (h := f / 2) in *. clearbody h.
    assert (f = 2 * h) as -> by lia. split; lia.
  - assert (Z.odd f = true) as -> by (rewrite Zodd_mod, M; reflexivity). cbn [andb].
    pose proof (Z.div_mod f 2 ltac:(lia)) as E. rewrite M in E. set (h := f / 2) in *. clearbody h. assert (f = 2 * h + 1) as Ef by lia.
    destruct (Z.eqb_spec (2 * x) (f * d)) as [T|T]; cbn [andb].
    + destruct (Z.eqb_spec (f mod 4) 3) as [M4|M4]; cbn [negb].
      * rewrite M. replace ((f + 1) / 2) with (h + 1) by (rewrite Ef; replace (2 * h + 1 + 1) with ((h + 1) * 2) by ring; rewrite Z.div_mul; lia).
        split; [lia|]. intros _. rewrite Z.even_spec. exists ((h + 1) / 2). Z.div_mod_to_equations; lia.
      * replace ((f - 1) / 2) with h by (rewrite Ef; replace (2 * h + 1 - 1) with (h * 2) by ring; rewrite Z.div_mul; lia).
        split; [lia|]. intros _. rewrite Z.even_spec. exists (h / 2). clear - M4 Ef. Z.div_mod_to_equations; lia.
    + rewrite M. replace ((f + 1) / 2) with (h + 1) by (rewrite Ef; replace (2 * h + 1 + 1) with ((h + 1) * 2) by ring; rewrite Z.div_mul; lia).
      split; [lia|]. intros C. lia.
Qed.

(** ** The arithmetic of doubles *)

Lemma round_quotient_ok x d : 0 < d -> nearest_even x d (round_quotient x d).
Proof.
  intros Hd. unfold nearest_even, round_quotient. pose proof (Z.div_mod x d ltac:(lia)) as E. pose proof (Z.mod_pos_bound x d Hd) as B.
  set (q := x / d) in *. set (r := x mod d) in *.
  destruct (Z.compare_spec (2 * r) d) as [C|C|C].
  - destruct (Z.even q) eqn:Q; (split; [lia|]); intros _; [exact Q|]. rewrite Z.even_add, Q. reflexivity.
  - split; lia.
  - split; lia.
Qed.

Lemma ieee_round_ok num den : 0 <= num -> 0 < den -> pattern (ieee_round num den) (num * 2 ^ 1074) den.
Proof.
  intros Hn Hd. unfold ieee_round. set (x := num * 2 ^ 1074). assert (0 <= x) as Hx by (unfold x; apply Z.mul_nonneg_nonneg; [lia|apply Z.pow_nonneg; lia]).
  set (k := Z.max 0 (Z.log2 (x / den) - 52)).
  pose proof (div_bounds x den Hd) as B. set (y := x / den) in *. assert (0 <= y) as Hy by (apply Z.div_pos; lia).
  assert (y < 2 ^ (53 + k) /\ (k = 0 \/ 2 ^ (52 + k) <= y)) as [Hy1 Hy2].
  { destruct (Z.eq_dec y 0) as [E|E].
    - unfold k. rewrite E. change (Z.log2 0) with 0. change (Z.max 0 (0 - 52)) with 0. split; [reflexivity|left; reflexivity].
    - pose proof (Z.log2_spec y ltac:(lia)) as L. unfold k. destruct (Z_le_gt_dec (Z.log2 y) 52).
      + rewrite Z.max_l by lia. split; [|left; reflexivity]. apply Z.lt_le_trans with (2 ^ Z.succ (Z.log2 y)); [lia|]. apply Z.pow_le_mono_r; lia.
      + rewrite Z.max_r by lia. replace (53 + (Z.log2 y - 52)) with (Z.succ (Z.log2 y)) by lia. replace (52 + (Z.log2 y - 52)) with (Z.log2 y) by lia.
        split; [lia|right; lia]. }
  assert (0 <= k) as Hk by (unfold k; lia).
  change (2047 * 2 ^ 52) with top. apply core; try assumption.
  - destruct Hy2 as [H|H]; [left; exact H|right]. rewrite Z.pow_add_r in H by lia.
    replace (2 ^ 52 * (den * 2 ^ k)) with ((2 ^ 52 * 2 ^ k) * den) by ring.
    assert ((2 ^ 52 * 2 ^ k) * den <= y * den) by (apply Z.mul_le_mono_nonneg_r; lia). lia.
  - rewrite Z.pow_add_r in Hy1 by lia. replace (2 ^ 53 * (den * 2 ^ k)) with ((2 ^ 53 * 2 ^ k) * den) by ring.
    assert ((y + 1) * den <= (2 ^ 53 * 2 ^ k) * den) by (apply Z.mul_le_mono_nonneg_r; lia). lia.
  - apply round_quotient_ok. apply Z.mul_pos_pos; [exact Hd|]. apply Z.pow_pos_nonneg; lia.
Qed.

Lemma units_magnitude n : units n = magnitude n.
Proof. reflexivity. Qed.

(** A pattern for an exact number is that number's. *)
Lemma pattern_exact n n' x p : 0 < p -> finite n' -> x = magnitude n' * p -> pattern n x p -> n = n'.
Proof.
  intros Hp F' -> [[F H]|[E H]].
  - apply (nearest_scale p n (magnitude n') 1 Hp) || idtac. unfold nearest, finite in *.
    destruct (Z.lt_trichotomy n n') as [L|[E|L]]; [exfalso|exact E|exfalso].
    + assert (magnitude n < magnitude (n + 1)) by (apply magnitude_next; lia).
      assert (magnitude (n + 1) <= magnitude n').
      { destruct (Z.eq_dec (n + 1) n') as [->|]; [lia|]. apply Z.lt_le_incl, magnitude_mono. lia. }
      assert ((magnitude n + magnitude (n + 1)) * p < 2 * (magnitude n' * p)).
      { replace (2 * (magnitude n' * p)) with ((2 * magnitude n') * p) by ring. apply Z.mul_lt_mono_pos_r; lia. }
      destruct (Z.even n); lia.
    + assert (magnitude (n - 1) < magnitude n) by (apply magnitude_mono; lia).
      assert (magnitude n' <= magnitude (n - 1)).
      { destruct (Z.eq_dec n' (n - 1)) as [->|]; [lia|]. apply Z.lt_le_incl, magnitude_mono. lia. }
      assert (2 * (magnitude n' * p) < (magnitude (n - 1) + magnitude n) * p).
      { replace (2 * (magnitude n' * p)) with ((2 * magnitude n') * p) by ring. apply Z.mul_lt_mono_pos_r; lia. }
      destruct (Z.even n); lia.
  - exfalso. unfold beyond in H. unfold finite in F'. fold top in F'.
    assert (magnitude (top - 1) < magnitude top) by (apply magnitude_mono; unfold top; lia).
    assert (magnitude n' <= magnitude (top - 1)).
    { destruct (Z.eq_dec n' (top - 1)) as [->|]; [lia|]. apply Z.lt_le_incl, magnitude_mono. lia. }
    assert (2 * (magnitude n' * p) < (magnitude (top - 1) + magnitude top) * p); [|lia].
    replace (2 * (magnitude n' * p)) with ((2 * magnitude n') * p) by ring. apply Z.mul_lt_mono_pos_r; lia.
Qed.

(** Integers of up to 53 bits, and others that are such an integer times a power of two, are doubles. *)
Lemma double_of_integer c j : 0 < c <= 2 ^ 53 -> 0 <= j <= 200 -> exists n, finite n /\ 0 < n /\ magnitude n = c * 2 ^ j * 2 ^ 1074.
Proof.
  intros Hc Hj. pose proof (Z.log2_spec c ltac:(lia)) as L. pose proof (Z.log2_nonneg c) as L0.
  assert (Z.log2 c <= 53) as L53 by (change 53 with (Z.log2 (2 ^ 53)); apply Z.log2_le_mono; lia).
  set (l := Z.log2 c) in *.
  destruct (Z.eq_dec c (2 ^ 53)) as [E|E].
  - exists ((j + 1074) * 2 ^ 52 + 2 ^ 53). split; [unfold finite; lia|]. split; [lia|]. rewrite magnitude_at by lia. rewrite Z.pow_add_r by lia. subst c. ring.
  - assert (l <= 52) as L52.
    { destruct (Z.eq_dec l 53) as [E53|]; [|lia]. exfalso. rewrite E53 in L. lia. }
    set (r := c * 2 ^ (52 - l)).
    assert (2 ^ l * 2 ^ (52 - l) = 2 ^ 52) as E52 by (rewrite <- Z.pow_add_r by lia; f_equal; lia).
    assert (0 < 2 ^ (52 - l)) by (apply Z.pow_pos_nonneg; lia).
    assert (2 ^ 52 <= r < 2 ^ 53) as Hr.
    { unfold r. rewrite Z.pow_succ_r in L by lia. split.
      - rewrite <- E52. apply Z.mul_le_mono_nonneg_r; lia.
      - replace (2 ^ 53) with ((2 * 2 ^ l) * 2 ^ (52 - l)) by (rewrite <- Z.mul_assoc, E52; reflexivity). apply Z.mul_lt_mono_pos_r; lia. }
    exists ((j + 1074 - (52 - l)) * 2 ^ 52 + r). split; [unfold finite; lia|]. split; [lia|]. rewrite magnitude_at by lia. unfold r.
    rewrite <- !Z.mul_assoc. f_equal. rewrite <- !Z.pow_add_r by lia. f_equal. lia.
Qed.
Lemma ieee_of_integer_exact c j : 0 < c <= 2 ^ 53 -> 0 <= j <= 200 -> units (ieee_of_integer (c * 2 ^ j)) = c * 2 ^ j * 2 ^ 1074 /\ finite (ieee_of_integer (c * 2 ^ j)).
Proof.
  intros Hc Hj. destruct (double_of_integer c j Hc Hj) as (n & F & Hn & M).
  assert (0 < 2 ^ j) by (apply Z.pow_pos_nonneg; lia).
  pose proof (ieee_round_ok (c * 2 ^ j) 1 ltac:(nia) ltac:(lia)) as P. unfold ieee_of_integer.
  rewrite (pattern_exact _ n _ 1 ltac:(lia) F ltac:(rewrite M, Z.mul_1_r; reflexivity) P). rewrite units_magnitude. split; [exact M|exact F].
Qed.
