(** * The decimal of a double *)
From Verif Require Import Base BaseFacts RyuModel RyuTables RyuShortest RyuScaled RyuSpec.
From Coq Require Import Znumtheory Zpow_facts.
Local Open Scope Z_scope.

(** ** Factors of five *)

Lemma low_rest_5 v : low_rest v 5 (v / 5) = v mod 5.
Proof. apply low_rest_mod. lia. Qed.

Lemma pow5_factor_ok : forall fuel v, 0 < v < 5 ^ Z.of_nat fuel ->
  exists n, pow5_factor fuel v = Ok n /\ 0 <= n /\ forall p, 0 <= p -> (p <= n <-> (5 ^ p | v)).
Proof.
  induction fuel as [|fuel IH]; intros v Hv.
  - change (5 ^ Z.of_nat 0) with 1 in Hv. lia.
  - cbn [pow5_factor]. rewrite low_rest_5. destruct (Z.eqb_spec (v mod 5) 0) as [E|E]; cbn [negb].
    + pose proof (Z.div_mod v 5 ltac:(lia)) as D. rewrite E in D.
      destruct (IH (v / 5)) as (n & -> & Hn & H).
      { rewrite Nat2Z.inj_succ, Z.pow_succ_r in Hv by lia. lia. }
      exists (n + 1). cbn [obind]. split; [reflexivity|]. split; [lia|]. intros p Hp.
      destruct (Z.eq_dec p 0) as [->|Hp0].
      * split; [intros _; apply Z.divide_1_l|lia].
      * replace p with (Z.succ (p - 1)) by lia. rewrite Z.pow_succ_r by lia. specialize (H (p - 1) ltac:(lia)).
        replace v with (5 * (v / 5)) at 1 by lia. split.
        -- intros L. apply Z.mul_divide_mono_l. apply H. lia.
        -- intros L. apply Z.mul_divide_cancel_l in L; [|lia]. apply H in L. lia.
    + exists 0. split; [reflexivity|]. split; [lia|]. intros p Hp. split.
      * intros L. replace p with 0 by lia. apply Z.divide_1_l.
      * intros L. destruct (Z.eq_dec p 0) as [->|Hp0]; [lia|]. exfalso. apply E. apply Z.mod_divide; [lia|].
        apply Z.divide_trans with (5 ^ p); [|exact L]. exists (5 ^ (p - 1)). rewrite Z.mul_comm, <- Z.pow_succ_r by lia. f_equal. lia.
Qed.
Lemma multiple_ok v p : 0 < v < 2 ^ 64 -> 0 <= p -> exists b, multiple_of_pow5 v p = Ok b /\ (b = true <-> (5 ^ p | v)).
Proof.
  intros Hv Hp. unfold multiple_of_pow5. destruct (pow5_factor_ok 64 v) as (n & -> & Hn & H).
  { split; [apply Hv|]. apply Z.lt_trans with (2 ^ 64); [apply Hv|reflexivity]. }
  exists (p <=? n). split; [reflexivity|]. rewrite Z.leb_le. apply H. exact Hp.
Qed.

Lemma land_even m : (Z.land m 1 =? 0) = Z.even m.
Proof.
  change 1 with (Z.ones 1). rewrite Z.land_ones by lia. change (2 ^ 1) with 2. rewrite Zmod_even. destruct (Z.even m); reflexivity.
Qed.

(** ** Step 4, given what step 3 computes *)

(** A decimal between the points half-way to the neighbours of [4 m2 * num / den]. *)
Definition within (m2 s num den out r : Z) : Prop :=
  if Z.even m2 then (4 * m2 - 1 - s) * num <= out * 10 ^ r * den <= (4 * m2 + 2) * num
  else (4 * m2 - 1 - s) * num < out * 10 ^ r * den < (4 * m2 + 2) * num.
Definition away (m2 num den out r : Z) : Z := Z.abs (out * 10 ^ r * den - 4 * m2 * num).
Definition good (m2 s num den out r : Z) : Prop :=
  0 <= r /\ 1 <= out <= 10 * 2 ^ 53 + 1 /\ out mod 10 <> 0 /\ within m2 s num den out r /\
  (forall c, ~ within m2 s num den c (r + 1)) /\
  (forall c, within m2 s num den c r -> away m2 num den out r <= away m2 num den c r /\
     (away m2 num den out r = away m2 num den c r -> c = out \/ Z.even out = true)).

Lemma bound_out m2 s num den vr t out : 0 < den -> 0 < t -> 0 < num -> 1 <= m2 < 2 ^ 53 -> 0 <= s <= 1 -> (s = 0 -> m2 = 2 ^ 52) ->
  vr = 4 * m2 * num / den -> (4 * m2 + 2) * num - (4 * m2 - 1 - s) * num <= 10 * t * den -> out <= vr / t + 1 -> out <= 10 * 2 ^ 53 + 1.
Proof.
  intros Hd Ht Hn Hm Hs H0 Hv Hw Ho. assert (vr / t <= 10 * 2 ^ 53); [|lia]. rewrite Hv, Z.div_div by lia.
  apply Z.div_le_upper_bound; [apply Z.mul_pos_pos; assumption|].
  assert ((3 + s) * num <= 10 * t * den) as Hw' by lia. clear Hw Ho Hv.
  destruct (Z.eq_dec s 0) as [->|Hne].
  - rewrite (H0 eq_refl). apply Z.le_trans with (2 ^ 53 * (3 * num)); [lia|]. apply Z.le_trans with (2 ^ 53 * (10 * t * den)); [|lia].
    apply Z.mul_le_mono_nonneg_l; lia.
  - replace s with 1 in * by lia. apply Z.le_trans with (m2 * (10 * t * den)).
    + replace (4 * m2 * num) with (m2 * (4 * num)) by ring. apply Z.mul_le_mono_nonneg_l; lia.
    + replace (den * t * (10 * 2 ^ 53)) with (2 ^ 53 * (10 * t * den)) by ring. apply Z.mul_le_mono_nonneg_r; [|lia].
      apply Z.mul_nonneg_nonneg; lia.
Qed.

Lemma floor_add a b num den : 0 < den -> den <= num -> 0 <= b -> a * num / den + b <= (a + b) * num / den.
Proof.
  intros Hd Hn Hb. apply div_ge; [exact Hd|]. pose proof (div_bounds (a * num) den Hd).
  assert (b * den <= b * num) by (apply Z.mul_le_mono_nonneg_l; lia). lia.
Qed.

Lemma step4 m2 s num den vp vmz vrz : 0 < den -> den <= num -> 2 ^ 55 * num < 2 ^ 64 * den ->
  1 <= m2 < 2 ^ 53 -> 0 <= s <= 1 -> (s = 0 -> m2 = 2 ^ 52) ->
  vp_spec ((4 * m2 + 2) * num) den (Z.even m2) vp ->
  vmz_spec ((4 * m2 - 1 - s) * num) den (Z.even m2) ((4 * m2 - 1 - s) * num / den) vmz ->
  open_spec ((4 * m2 + 2) * num) den (Z.even m2) vp ->
  vmz_all ((4 * m2 - 1 - s) * num) den (Z.even m2) ((4 * m2 - 1 - s) * num / den) vmz ->
  vrz_spec (4 * m2 * num) den (4 * m2 * num / den) vrz -> (den = 1 \/ 10 * den <= num) ->
  exists out r, shortest (Z.even m2) (4 * m2 * num / den) vp ((4 * m2 - 1 - s) * num / den) vmz vrz = Ok (out, r) /\ good m2 s num den out r.
Proof.
  intros Hd Hn Hl Hm Hs H0 Hvp Hvmz Ho Hvmz2 Hvrz Hten.
  set (A := (4 * m2 - 1 - s) * num) in *. set (B := 4 * m2 * num). set (C := (4 * m2 + 2) * num) in *.
  assert (0 < num) as Hn0 by lia.
  pose proof (floor_add 0 (4 * m2 - 1 - s) num den Hd Hn ltac:(lia)) as F1. rewrite Z.mul_0_l, Z.div_0_l in F1 by lia.
  rewrite !Z.add_0_l in F1. fold A in F1.
  assert (C / den - 1 <= vp /\ (vp = C / den \/ vp * den < C)) as Hvp'.
  { clear - Hvp Hd. destruct Hvp as [->|[_ E]]; [split; [lia|left; reflexivity]|]. rewrite E, Z.div_mul by lia. split; [lia|right; lia]. }
  assert (A / den + 3 <= C / den) as F2.
  { pose proof (floor_add (4 * m2 - 1 - s) (3 + s) num den Hd Hn ltac:(lia)) as F.
    replace (4 * m2 - 1 - s + (3 + s)) with (4 * m2 + 2) in F by lia. fold A in F. fold C in F. clear - F Hs. lia. }
  assert (B / den + 2 <= C / den) as F3 by (apply (floor_add (4 * m2) 2 num den Hd Hn); lia).
  assert (A / den + 1 <= B / den) as F4.
  { pose proof (floor_add (4 * m2 - 1 - s) (1 + s) num den Hd Hn ltac:(lia)) as F.
    replace (4 * m2 - 1 - s + (1 + s)) with (4 * m2) in F by lia. fold A in F. fold B in F. clear - F Hs. lia. }
  assert (ten_spec B den (B / den) vp (A / den)) as F5.
  { destruct Hten as [->|Hten]; [left; rewrite Z.div_1_r; lia|right].
    assert (A / den + 20 <= C / den); [|clear - H Hvp'; lia]. apply div_ge; [exact Hd|]. pose proof (div_bounds A den Hd) as [D _].
    assert (2 * (10 * den) <= C - A) as X by (unfold A, C; rewrite <- Z.mul_sub_distr_r; clear - Hten Hs Hd; nia). clear - D X. lia. }
  destruct (shortest_ok A B C den (Z.even m2) (B / den) vp (A / den) vmz vrz) as (out & r & E & R); try assumption; try reflexivity.
  - unfold A, B. apply Z.mul_lt_mono_pos_r; lia.
  - unfold A, B, C. rewrite <- !Z.mul_sub_distr_r. apply Z.mul_le_mono_nonneg_r; lia.
  - clear - F1 Hm Hs. lia.
  - apply Z.le_lt_trans with (2 ^ 55 * num); [|exact Hl]. apply Z.mul_le_mono_nonneg_r; lia.
  - clear - Hvp' F2. lia.
  - clear - Hvp' F3. lia.
  - clear - Hvp' F3. unfold gap_spec. destruct Hvp' as [_ [->|H]]; [left; exact F3|right; exact H].
  - exists out, r. split; [exact E|]. destruct R as (R1 & R2 & R3 & R4 & R5 & R6 & R7 & R8).
    split; [exact R1|]. split; [|split; [exact R6|split; [exact R3|split; [exact R7|exact R8]]]]. split; [exact R2|].
    rewrite pow10_S in R5 by exact R1.
    apply (bound_out m2 s num den (B / den) (10 ^ r)); try assumption; [apply pow10_pos, R1|reflexivity].
Qed.

(** ** Step 3 *)

Lemma gauss5 a b p k : 0 <= p -> 0 <= k -> (5 ^ p | a * 2 ^ k) -> b = a -> (5 ^ p | b).
Proof.
  intros Hp Hk H ->. apply Gauss with (2 ^ k); [rewrite Z.mul_comm; exact H|].
  apply rel_prime_Zpower; [lia|lia|]. apply Zgcd_1_rel_prime. reflexivity.
Qed.

Lemma exact_div a den : 0 < den -> (den | a) -> a = a / den * den.
Proof. intros H [k ->]. rewrite Z.div_mul by lia. reflexivity. Qed.
Lemma inexact a den : 0 < den -> ~ (den | a) -> a / den * den < a.
Proof.
  intros H Hn. pose proof (div_bounds a den H) as [L _]. destruct (Z.eq_dec (a / den * den) a) as [E|]; [|lia].
  exfalso. apply Hn. exists (a / den). lia.
Qed.

Lemma w64_id x : 0 <= x < 2 ^ 64 -> w64 x = x.
Proof. apply Z.mod_small. Qed.

Lemma mul_shift_all_ok m2 s mul j num den : scales mul j num den -> 1 <= m2 < 2 ^ 53 -> 0 <= s <= 1 ->
  mul_shift_all m2 mul j s = Ok (4 * m2 * num / den, (4 * m2 + 2) * num / den, (4 * m2 - 1 - s) * num / den).
Proof.
  intros H Hm Hs. unfold mul_shift_all. rewrite !w64_id by lia.
  rewrite !(sc_exact _ _ _ _ H) by lia. reflexivity.
Qed.

Lemma even_cases m2 : Z.even m2 = false -> exists h, m2 = 2 * h + 1.
Proof. intros H. exists (m2 / 2). pose proof (Zmod_even m2) as E. rewrite H in E. pose proof (Z.div_mod m2 2 ltac:(lia)). lia. Qed.

(** *** Nonnegative binary exponents *)
Lemma steps_up m2 e2 s : 0 <= e2 <= 969 -> 1 <= m2 < 2 ^ 53 -> 0 <= s <= 1 -> (s = 0 -> m2 = 2 ^ 52) ->
  exists vr vp vm vmz vrz out r, scaled m2 e2 s = Ok (vr, vp, vm, q_up e2, vmz, vrz) /\
    shortest (Z.even m2) vr vp vm vmz vrz = Ok (out, r) /\ good m2 s (2 ^ (e2 - q_up e2)) (5 ^ q_up e2) out r.
Proof.
  intros He Hm Hs H0. destruct (scale_up e2 He) as (mul & Hmul & Hq & S).
  unfold scaled. destruct (Z.leb_spec 0 e2) as [_|]; [|lia]. cbv zeta. fold (q_up e2).
  change (- e2 + q_up e2 + (125 + pow5bits (q_up e2) - 1)) with (j_up e2). rewrite Hmul, land_even.
  rewrite (mul_shift_all_ok m2 s mul (j_up e2) _ _ S Hm Hs). cbn [obind]. rewrite !w64_id by lia. rewrite low_rest_5.
  set (q := q_up e2) in *. set (k := e2 - q) in *. assert (0 <= k) as Hk by (unfold k; lia).
  set (num := 2 ^ k) in *. set (den := 5 ^ q) in *.
  pose proof (sc_den _ _ _ _ S) as Hd. pose proof (sc_ge _ _ _ _ S) as Hge. pose proof (sc_lt _ _ _ _ S) as Hlt. pose proof (sc_ten _ _ _ _ S) as Hten.
  assert (forall a, (den | a * num) <-> (5 ^ q | a)) as G.
  { intros a. split; intros H.
    - apply (gauss5 a a q k); try assumption; [lia|reflexivity].
    - apply Z.divide_mul_l. exact H. }
  assert (forall a, a * num = a * num / den * den -> (a * num / den) mod 5 = 0 -> (5 ^ (q + 1) | a)) as G1.
  { intros a E X. apply (gauss5 a a (q + 1) k); [lia|exact Hk| |reflexivity]. fold num. rewrite E.
    apply Z.mod_divide in X; [|lia]. destruct X as [c ->]. exists c. rewrite Z.pow_add_r by lia. fold den. change (5 ^ 1) with 5. ring. }
  assert (forall a, (5 ^ (q + 1) | a) -> (5 | a)) as G2.
  { intros a X. apply Z.divide_trans with (5 ^ (q + 1)); [|exact X]. exists (5 ^ q). rewrite Z.pow_add_r by lia. reflexivity. }
  assert (forall x, x mod 10 = 0 -> x mod 5 = 0) as M5.
  { intros x X. apply Z.mod_divide in X; [|lia]. destruct X as [c ->]. replace (c * 10) with (c * 2 * 5) by ring. apply Z.mod_mul. discriminate. }
  assert (4 * m2 mod 5 <> 0 -> vrz_spec (4 * m2 * num) den (4 * m2 * num / den) false) as Hr5.
  { intros E5. split; [discriminate|]. intros X Y. exfalso. apply E5. apply Z.mod_divide; [lia|]. apply G2, G1; assumption. }
  assert (forall vmz vrz, vmz_spec ((4 * m2 - 1 - s) * num) den (Z.even m2) ((4 * m2 - 1 - s) * num / den) vmz ->
    open_spec ((4 * m2 + 2) * num) den (Z.even m2) ((4 * m2 + 2) * num / den) ->
    vmz_all ((4 * m2 - 1 - s) * num) den (Z.even m2) ((4 * m2 - 1 - s) * num / den) vmz ->
    vrz_spec (4 * m2 * num) den (4 * m2 * num / den) vrz ->
    exists vr vp vm vmz' vrz' out r,
      Ok (4 * m2 * num / den, (4 * m2 + 2) * num / den, (4 * m2 - 1 - s) * num / den, q, vmz, vrz) = Ok (vr, vp, vm, q, vmz', vrz') /\
      shortest (Z.even m2) vr vp vm vmz' vrz' = Ok (out, r) /\ good m2 s num den out r) as same.
  { intros vmz vrz Hz Ho Hz2 Hr2. destruct (step4 m2 s num den _ vmz vrz Hd Hge Hlt Hm Hs H0 (or_introl eq_refl) Hz Ho Hz2 Hr2 Hten) as (out & r & E & R).
    do 5 eexists. exists out, r. split; [reflexivity|]. split; [exact E|exact R]. }
  assert (vmz_spec ((4 * m2 - 1 - s) * num) den (Z.even m2) ((4 * m2 - 1 - s) * num / den) false) as Hz0 by discriminate.
  destruct (Z.leb_spec q 21) as [Hq21|Hq21].
  - destruct (Z.eqb_spec (4 * m2 mod 5) 0) as [E5|E5].
    + destruct (multiple_ok (4 * m2) q) as (b & -> & Hb); [lia|lia|]. cbn [obind]. apply same; [exact Hz0| | |].
      2:{ intros _ X Y. exfalso. apply M5 in Y. pose proof (G2 _ (G1 _ X Y)) as [c Hc]. pose proof (Z.div_mod (4 * m2) 5 ltac:(lia)) as D. rewrite E5 in D. clear - D Hc Hs. lia. }
      2:{ split; intros X; [apply exact_div; [exact Hd|]; apply G, Hb, X|intros _; apply Hb, G; exists (4 * m2 * num / den); exact X]. }
      assert (~ (5 | 4 * m2 + 2)) as N5.
      { intros [c Hc]. clear - E5 Hc. pose proof (Z.div_mod (4 * m2) 5 ltac:(lia)). lia. }
      intros _. destruct (Z.eq_dec q 0) as [E|Hne].
      * right. unfold den. rewrite E. change (5 ^ 0) with 1. rewrite Z.div_1_r. intros X. apply N5.
        apply Z.mod_divide in X; [|lia]. change 5 with (5 ^ 1). apply (gauss5 (4 * m2 + 2) _ 1 k); [lia|exact Hk| |reflexivity].
        fold num. apply Z.divide_trans with 10; [exists 2; reflexivity|exact X].
      * left. apply inexact; [exact Hd|]. rewrite G. intros X. apply N5. apply Z.divide_trans with (5 ^ q); [|exact X].
        exists (5 ^ (q - 1)). rewrite Z.mul_comm, <- Z.pow_succ_r by lia. f_equal. lia.
    + destruct (Z.even m2) eqn:Ev.
      * destruct (multiple_ok (4 * m2 - 1 - s) q) as (b & -> & Hb); [lia|lia|]. cbn [obind].
        apply same; [|discriminate| |exact (Hr5 E5)].
        -- intros ->. split; [reflexivity|]. apply exact_div; [exact Hd|]. apply G, Hb. reflexivity.
        -- intros _ X _. apply Hb, G. eexists. exact X.
      * destruct (multiple_ok (4 * m2 + 2) q) as (b & -> & Hb); [lia|lia|]. cbn [obind]. destruct b.
        -- assert ((4 * m2 + 2) * num = (4 * m2 + 2) * num / den * den) as X by (apply exact_div; [exact Hd|]; apply G, Hb; reflexivity).
           set (v := (4 * m2 + 2) * num / den) in *.
           assert (1 <= v < 2 ^ 64) as Hv.
           { split.
             - apply div_ge; [exact Hd|]. apply Z.le_trans with (1 * num); [lia|]. apply Z.mul_le_mono_nonneg_r; lia.
             - apply Z.div_lt_upper_bound; [exact Hd|]. apply Z.le_lt_trans with (2 ^ 55 * num); [apply Z.mul_le_mono_nonneg_r; lia|lia]. }
           destruct (step4 m2 s num den (v - 1) false false Hd Hge Hlt Hm Hs H0) as (out & r & E & R).
           { right. split; [exact Ev|]. rewrite X. ring. }
           { discriminate. }
           { intros _. left. rewrite X. apply Z.mul_lt_mono_pos_r; lia. }
           { rewrite Ev. discriminate. }
           { exact (Hr5 E5). }
           { exact Hten. }
           rewrite Ev in E. do 5 eexists. exists out, r. rewrite w64_id by lia. split; [reflexivity|]. split; [exact E|exact R].
        -- rewrite Z.sub_0_r, w64_id; [|split].
           ++ apply same; [discriminate| |discriminate|exact (Hr5 E5)]. intros _. left. apply inexact; [exact Hd|]. rewrite G. intros X. apply Hb in X. discriminate.
           ++ apply Z.div_pos; [|exact Hd]. apply Z.mul_nonneg_nonneg; lia.
           ++ apply Z.div_lt_upper_bound; [exact Hd|]. apply Z.le_lt_trans with (2 ^ 55 * num); [apply Z.mul_le_mono_nonneg_r; lia|lia].
  - assert (forall a, (5 ^ (q + 1) | a) -> (5 ^ 23 | a)) as G23.
    { intros a X. apply Z.divide_trans with (5 ^ (q + 1)); [|exact X]. exists (5 ^ (q - 22)). rewrite <- Z.pow_add_r by lia. f_equal. lia. }
    apply same; [exact Hz0| | |].
    2:{ intros Ev X Y. exfalso. apply M5 in Y. destruct (G23 _ (G1 _ X Y)) as [t Ht]. change (5 ^ 23) with 11920928955078125 in Ht.
        apply Z.even_spec in Ev as [h Hh]. clear - Ht Hh Hm Hs H0. assert (s = 0 \/ s = 1) as [->| ->] by lia; [|lia]. rewrite (H0 eq_refl) in Ht. lia. }
    2:{ split; [discriminate|]. intros X Y. exfalso. destruct (G23 _ (G1 _ X Y)) as [t Ht]. change (5 ^ 23) with 11920928955078125 in Ht. clear - Ht Hm. lia. }
    intros Ev.
    set (v := (4 * m2 + 2) * num / den) in *. pose proof (div_bounds ((4 * m2 + 2) * num) den Hd) as [L _]. fold v in L.
    destruct (Z.eq_dec (v * den) ((4 * m2 + 2) * num)) as [E|Hne]; [right|left; lia]. intros X.
    apply Z.mod_divide in X; [|lia]. destruct X as [c Hc].
    assert (5 ^ 23 | 4 * m2 + 2) as D.
    { apply Z.divide_trans with (5 ^ (q + 1)).
      - exists (5 ^ (q - 22)). rewrite <- Z.pow_add_r by lia. f_equal. lia.
      - apply (gauss5 (4 * m2 + 2) _ (q + 1) k); [lia|exact Hk| |reflexivity]. fold num. rewrite <- E, Hc.
        exists (c * 2). rewrite Z.pow_add_r by lia. fold den. change (5 ^ 1) with 5. ring. }
    destruct D as [t Ht]. destruct (even_cases m2 Ev) as [h Hh]. change (5 ^ 23) with 11920928955078125 in Ht.
    clear - Ht Hh Hm. lia.
Qed.

(** *** Negative binary exponents *)
Lemma steps_down m2 e2 s : -1076 <= e2 < 0 -> 1 <= m2 < 2 ^ 53 -> 0 <= s <= 1 -> (s = 0 -> m2 = 2 ^ 52) ->
  exists vr vp vm vmz vrz out r, scaled m2 e2 s = Ok (vr, vp, vm, q_down e2 + e2, vmz, vrz) /\
    shortest (Z.even m2) vr vp vm vmz vrz = Ok (out, r) /\ good m2 s (5 ^ i_down e2) (2 ^ q_down e2) out r.
Proof.
  intros He Hm Hs H0. destruct (scale_down e2 He) as (mul & Hmul & Hq & Hi & S).
  unfold scaled. destruct (Z.leb_spec 0 e2) as [|_]; [lia|]. cbv zeta. fold (q_down e2). fold (i_down e2). fold (j_down e2).
  rewrite Hmul, land_even.
  rewrite (mul_shift_all_ok m2 s mul (j_down e2) _ _ S Hm Hs). cbn [obind]. rewrite !(w64_id (4 * m2)) by lia.
  set (q := q_down e2) in *. set (i := i_down e2) in *.
  set (num := 5 ^ i) in *. set (den := 2 ^ q) in *.
  pose proof (sc_den _ _ _ _ S) as Hd. pose proof (sc_ge _ _ _ _ S) as Hge. pose proof (sc_lt _ _ _ _ S) as Hlt. pose proof (sc_ten _ _ _ _ S) as Hten.
  assert (forall vmz vrz, vmz_spec ((4 * m2 - 1 - s) * num) den (Z.even m2) ((4 * m2 - 1 - s) * num / den) vmz ->
    open_spec ((4 * m2 + 2) * num) den (Z.even m2) ((4 * m2 + 2) * num / den) ->
    vmz_all ((4 * m2 - 1 - s) * num) den (Z.even m2) ((4 * m2 - 1 - s) * num / den) vmz ->
    vrz_spec (4 * m2 * num) den (4 * m2 * num / den) vrz ->
    exists vr vp vm vmz' vrz' out r,
      Ok (4 * m2 * num / den, (4 * m2 + 2) * num / den, (4 * m2 - 1 - s) * num / den, q + e2, vmz, vrz) = Ok (vr, vp, vm, q + e2, vmz', vrz') /\
      shortest (Z.even m2) vr vp vm vmz' vrz' = Ok (out, r) /\ good m2 s num den out r) as same.
  { intros vmz vrz Hz Ho Hz2 Hr2. destruct (step4 m2 s num den _ vmz vrz Hd Hge Hlt Hm Hs H0 (or_introl eq_refl) Hz Ho Hz2 Hr2 Hten) as (out & r & E & R).
    do 5 eexists. exists out, r. split; [reflexivity|]. split; [exact E|exact R]. }
  assert (forall a p, 0 <= p -> (2 ^ p | a * num) -> (2 ^ p | a)) as G.
  { intros a p Hp X. apply Gauss with num; [rewrite Z.mul_comm; exact X|]. unfold num.
    apply rel_prime_Zpower; [exact Hp|exact Hi|]. apply Zgcd_1_rel_prime. reflexivity. }
  assert (2 <= q -> ~ (den | (4 * m2 + 2) * num)) as N.
  { intros Hq2 X. assert (4 | (4 * m2 + 2) * num) as X4.
    { apply Z.divide_trans with den; [|exact X]. exists (2 ^ (q - 2)). unfold den. change 4 with (2 ^ 2). rewrite <- Z.pow_add_r by lia. f_equal. lia. }
    assert (4 | 4 * m2 + 2) as [c Hc]; [|clear - Hc; lia].
    apply Gauss with num; [rewrite Z.mul_comm; exact X4|]. unfold num. change 4 with (2 ^ 2).
    apply rel_prime_Zpower; [lia|exact Hi|]. apply Zgcd_1_rel_prime. reflexivity. }
  assert (q <= 1 -> forall a, (2 | a) -> (den | a)) as Y.
  { intros Hq1 a Ha. unfold den. assert (q = 0 \/ q = 1) as [->| ->] by lia; [apply Z.divide_1_l|exact Ha]. }
  assert (q <= 1 -> vrz_spec (4 * m2 * num) den (4 * m2 * num / den) true) as Hr1.
  { intros Hq1. split; [|reflexivity]. intros _. apply exact_div; [exact Hd|]. apply Y; [exact Hq1|]. exists (2 * m2 * num). ring. }
  destruct (Z.leb_spec q 1) as [Hq1|Hq1].
  - destruct (Z.even m2) eqn:Ev.
    + apply same; [|discriminate| |exact (Hr1 Hq1)].
      * intros Es. apply Z.eqb_eq in Es. split; [reflexivity|]. apply exact_div; [exact Hd|]. apply Y; [exact Hq1|].
        apply Z.divide_mul_l. exists (2 * m2 - 1). lia.
      * intros _ X X2. apply Z.eqb_eq. assert (s = 0 \/ s = 1) as [E|E] by lia; [exfalso|exact E].
        apply Z.mod_divide in X2; [|lia]. destruct X2 as [c Hc]. rewrite Hc in X. destruct (G (4 * m2 - 1 - s) 1 ltac:(lia)) as [t Ht].
        { rewrite X. exists (c * 5 * den). change (2 ^ 1) with 2. ring. }
        change (2 ^ 1) with 2 in Ht. clear - Ht E. lia.
    + assert ((4 * m2 + 2) * num = (4 * m2 + 2) * num / den * den) as X.
      { apply exact_div; [exact Hd|]. apply Y; [exact Hq1|]. apply Z.divide_mul_l. exists (2 * m2 + 1). lia. }
      set (v := (4 * m2 + 2) * num / den) in *.
      assert (1 <= v < 2 ^ 64) as Hv.
      { split.
        - apply div_ge; [exact Hd|]. apply Z.le_trans with (1 * num); [lia|]. apply Z.mul_le_mono_nonneg_r; lia.
        - apply Z.div_lt_upper_bound; [exact Hd|]. apply Z.le_lt_trans with (2 ^ 55 * num); [apply Z.mul_le_mono_nonneg_r; lia|lia]. }
      destruct (step4 m2 s num den (v - 1) false true Hd Hge Hlt Hm Hs H0) as (out & r & E & R).
      { right. split; [exact Ev|]. rewrite X. ring. }
      { discriminate. }
      { intros _. left. rewrite X. apply Z.mul_lt_mono_pos_r; lia. }
      { rewrite Ev. discriminate. }
      { exact (Hr1 Hq1). }
      { exact Hten. }
      rewrite Ev in E. do 5 eexists. exists out, r. rewrite w64_id by lia. split; [reflexivity|]. split; [exact E|exact R].
  - assert (open_spec ((4 * m2 + 2) * num) den (Z.even m2) ((4 * m2 + 2) * num / den)) as Ho.
    { intros _. left. apply inexact; [exact Hd|]. apply N. lia. }
    assert (vmz_all ((4 * m2 - 1 - s) * num) den (Z.even m2) ((4 * m2 - 1 - s) * num / den) false) as Hz2.
    { intros _ X _. exfalso. destruct (G (4 * m2 - 1 - s) 2 ltac:(lia)) as [t Ht].
      { apply Z.divide_trans with den; [|eexists; exact X]. exists (2 ^ (q - 2)). unfold den. rewrite <- Z.pow_add_r by lia. f_equal. lia. }
      change (2 ^ 2) with 4 in Ht. clear - Ht Hs. lia. }
    assert (forall b, (b = true <-> (2 ^ q | 4 * m2)) -> vrz_spec (4 * m2 * num) den (4 * m2 * num / den) b) as Hr2.
    { intros b Hb. split.
      - intros X. apply exact_div; [exact Hd|]. apply Z.divide_mul_l. apply Hb, X.
      - intros X _. apply Hb. apply G; [lia|]. eexists. exact X. }
    destruct (Z.ltb_spec q 63) as [L63|L63]; (apply same; [discriminate|exact Ho|exact Hz2|apply Hr2]).
    + unfold multiple_of_pow2. rewrite Z.sub_1_r, <- Z.ones_equiv, Z.land_ones, Z.eqb_eq by lia. apply Z.mod_divide. apply Z.pow_nonzero; lia.
    + split; [discriminate|]. intros X. exfalso. apply Z.divide_pos_le in X; [|lia].
      assert (2 ^ 63 <= 2 ^ q) by (apply Z.pow_le_mono_r; lia). clear - X H Hm. lia.
Qed.

(** ** The neighbours of a double *)

Lemma lor_hidden f : 0 <= f < 2 ^ 52 -> Z.lor (2 ^ 52) f = 2 ^ 52 + f.
Proof.
  intros H. assert (Z.land (2 ^ 52) f = 0) as L.
  { apply Z.bits_inj'. intros i Hi. rewrite Z.land_spec, Z.pow2_bits_eqb, Z.bits_0 by lia.
    destruct (Z.eqb_spec 52 i) as [<-|]; [|reflexivity]. cbn [andb]. rewrite Z.testbit_eqb by lia.
    rewrite Z.div_small by exact H. reflexivity. }
  rewrite <- Z.lxor_lor by exact L. symmetry. apply Z.add_nocarry_lxor. exact L.
Qed.

Lemma magnitude_of E f : 0 <= f < 2 ^ 52 -> 0 <= E -> magnitude (E * 2 ^ 52 + f) = if E =? 0 then f else (2 ^ 52 + f) * 2 ^ (E - 1).
Proof.
  intros Hf HE. unfold magnitude. rewrite Z.div_add_l, Z.div_small, Z.add_0_r by lia.
  rewrite Z.add_comm, Z.mod_add, Z.mod_small by lia. reflexivity.
Qed.

Lemma double_pow k : 1 <= k -> 2 ^ k = 2 * 2 ^ (k - 1).
Proof. intros H. rewrite <- Z.pow_succ_r by lia. f_equal. lia. Qed.

(** The parts of a double: it is [4 m2 * 2^e2], half-way to its neighbours are [(4 m2 - 1 - s) * 2^e2] and [(4 m2 + 2) * 2^e2]. *)
Lemma parts_ok n : 0 < n -> finite n -> let f := n mod 2 ^ 52 in let E := n / 2 ^ 52 in
  let '(m2, e2) := binary_parts f E in let s := mm_shift f E in
  -1076 <= e2 <= 969 /\ 1 <= m2 < 2 ^ 53 /\ 0 <= s <= 1 /\ (s = 0 -> m2 = 2 ^ 52) /\ Z.even m2 = Z.even n /\
  magnitude n = m2 * 2 ^ (e2 + 1076) /\
  2 * (magnitude (n - 1) + magnitude n) = (4 * m2 - 1 - s) * 2 ^ (e2 + 1076) /\
  2 * (magnitude n + magnitude (n + 1)) = (4 * m2 + 2) * 2 ^ (e2 + 1076).
Proof.
  intros Hn [_ Hfin]. cbv zeta. set (f := n mod 2 ^ 52). set (E := n / 2 ^ 52).
  assert (0 <= f < 2 ^ 52) as Hf by (apply Z.mod_pos_bound; reflexivity).
  assert (0 <= E) as HE by (apply Z.div_pos; [lia|reflexivity]).
  assert (E <= 2046) as HE2 by (assert (E < 2047); [apply Z.div_lt_upper_bound; [reflexivity|lia]|lia]).
  assert (n = E * 2 ^ 52 + f) as En by (unfold E, f; pose proof (Z.div_mod n (2 ^ 52) ltac:(lia)); lia).
  clearbody f E. clear Hfin.
  assert (Z.even n = Z.even f) as Ev.
  { rewrite En, Z.even_add, Z.even_mul. replace (Z.even (2 ^ 52)) with true by reflexivity. rewrite orb_true_r. destruct (Z.even f); reflexivity. }
  assert (magnitude (n + 1) = if E =? 0 then f + 1 else (2 ^ 52 + f + 1) * 2 ^ (E - 1)) as Up.
  { destruct (Z.eq_dec f (2 ^ 52 - 1)) as [Ef|Ef].
    - replace (n + 1) with ((E + 1) * 2 ^ 52 + 0) by lia. rewrite magnitude_of by lia.
      destruct (Z.eqb_spec (E + 1) 0) as [|_]; [lia|]. replace (E + 1 - 1) with E by lia. rewrite Ef.
      destruct (Z.eqb_spec E 0) as [->|Hne]; [reflexivity|]. rewrite (double_pow E) by lia. lia.
    - replace (n + 1) with (E * 2 ^ 52 + (f + 1)) by lia. rewrite magnitude_of by lia. destruct (E =? 0); [reflexivity|lia]. }
  assert (magnitude (n - 1) =
    if E =? 0 then f - 1 else if (f =? 0) && negb (E =? 1) then (2 ^ 53 - 1) * 2 ^ (E - 2) else (2 ^ 52 + f - 1) * 2 ^ (E - 1)) as Down.
  { destruct (Z.eq_dec f 0) as [Ef|Ef].
    - replace (n - 1) with ((E - 1) * 2 ^ 52 + (2 ^ 52 - 1)) by lia. rewrite magnitude_of by lia. rewrite Ef.
      destruct (Z.eqb_spec (E - 1) 0) as [E1|E1].
      + replace E with 1 by lia. reflexivity.
      + destruct (Z.eqb_spec E 0) as [|_]; [lia|]. destruct (Z.eqb_spec E 1) as [|_]; [lia|]. cbn [negb andb Z.eqb].
        replace (E - 1 - 1) with (E - 2) by lia. reflexivity.
    - replace (n - 1) with (E * 2 ^ 52 + (f - 1)) by lia. rewrite magnitude_of by lia.
      destruct (Z.eqb_spec f 0) as [|_]; [lia|]. destruct (E =? 0); [reflexivity|]. cbn [andb]. lia. }
  assert (magnitude n = if E =? 0 then f else (2 ^ 52 + f) * 2 ^ (E - 1)) as Mid by (rewrite En; apply magnitude_of; assumption).
  rewrite Ev. unfold binary_parts, mm_shift. rewrite lor_hidden by exact Hf.
  destruct (Z.eqb_spec E 0) as [E0|E0].
  - rewrite Mid, Up, Down. replace (1 - 1023 - 52 - 2 + 1076) with 0 by lia. change (2 ^ 0) with 1.
    destruct (Z.leb_spec E 1) as [_|]; [|lia]. rewrite orb_true_r. repeat split; try lia.
  - replace (E - 1023 - 52 - 2 + 1076) with (E - 1) by lia.
    assert (Z.even (2 ^ 52 + f) = Z.even f) as Ev2 by (rewrite Z.even_add; destruct (Z.even f); reflexivity).
    rewrite Mid, Up, Down. assert (0 < 2 ^ (E - 1)) as Hp by (apply Z.pow_pos_nonneg; lia).
    destruct (Z.eqb_spec f 0) as [Ef|Ef]; cbn [negb orb andb].
    + destruct (Z.leb_spec E 1) as [L|L].
      * destruct (Z.eqb_spec E 1) as [_|]; [|lia]. cbn [negb]. repeat split; try lia; try assumption.
      * destruct (Z.eqb_spec E 1) as [|_]; [lia|]. cbn [negb].
        assert (2 ^ (E - 1) = 2 * 2 ^ (E - 2)) as D by (rewrite (double_pow (E - 1)) by lia; do 2 f_equal; lia).
        repeat split; try lia; try assumption.
    + repeat split; try lia; try assumption.
Qed.

(** ** From the bounds to the nearest double *)

Lemma scale_iff c d a x l y : 0 < c -> 0 < d -> a * c = l * d -> x * c = y * d ->
  (a <= x <-> l <= y) /\ (a < x <-> l < y) /\ (x <= a <-> y <= l) /\ (x < a <-> y < l).
Proof.
  intros Hc Hd E1 E2.
  rewrite (Z.mul_le_mono_pos_r a x c), (Z.mul_le_mono_pos_r x a c), (Z.mul_lt_mono_pos_r c a x), (Z.mul_lt_mono_pos_r c x a) by exact Hc.
  rewrite E1, E2. rewrite <- !Z.mul_le_mono_pos_r, <- !Z.mul_lt_mono_pos_r by exact Hd. tauto.
Qed.

(** The units of step 4 and those of the specification *)
Lemma unit_up a e2 q r : 0 <= r -> 0 <= q <= e2 ->
  a * 2 ^ (e2 - q) * 2 ^ (q + 1076) = a * 2 ^ (e2 + 1076) * 10 ^ Z.max 0 (- (q + r)) * 1.
Proof.
  intros Hr Hq. replace (Z.max 0 (- (q + r))) with 0 by lia. change (10 ^ 0) with 1. rewrite !Z.mul_1_r.
  rewrite <- Z.mul_assoc, <- Z.pow_add_r by lia. do 2 f_equal. lia.
Qed.
Lemma point_up out q r : 0 <= r -> 0 <= q ->
  out * 10 ^ r * 5 ^ q * 2 ^ (q + 1076) = out * 2 ^ 1076 * 10 ^ Z.max 0 (q + r) * 1.
Proof.
  intros Hr Hq. replace (Z.max 0 (q + r)) with (q + r) by lia. rewrite !(Z.pow_add_r _ q) by lia.
  replace (10 ^ q) with (2 ^ q * 5 ^ q) by (rewrite <- Z.pow_mul_l; reflexivity). ring.
Qed.
Lemma unit_down a r i q : 0 <= r -> 0 <= q -> 0 <= i -> i + q <= 1076 ->
  a * 5 ^ i * 2 ^ (1076 - q) = a * 2 ^ (1076 - (i + q)) * 10 ^ Z.max 0 (- (r - i)) * 10 ^ Z.min r i.
Proof.
  intros Hr Hq Hi Hs. replace (1076 - q) with (i + (1076 - (i + q))) by lia. rewrite Z.pow_add_r by lia.
  replace (a * 2 ^ (1076 - (i + q)) * 10 ^ Z.max 0 (- (r - i)) * 10 ^ Z.min r i)
    with (a * 2 ^ (1076 - (i + q)) * (10 ^ Z.max 0 (- (r - i)) * 10 ^ Z.min r i)) by ring.
  rewrite <- (Z.pow_add_r 10) by lia. replace (Z.max 0 (- (r - i)) + Z.min r i) with i by lia.
  replace (10 ^ i) with (2 ^ i * 5 ^ i) by (rewrite <- Z.pow_mul_l; reflexivity). ring.
Qed.
Lemma point_down out r i q : 0 <= r -> 0 <= q -> 0 <= i -> i + q <= 1076 ->
  out * 10 ^ r * 2 ^ q * 2 ^ (1076 - q) = out * 2 ^ 1076 * 10 ^ Z.max 0 (r - i) * 10 ^ Z.min r i.
Proof.
  intros Hr Hq Hi Hs.
  replace (out * 2 ^ 1076 * 10 ^ Z.max 0 (r - i) * 10 ^ Z.min r i) with (out * 2 ^ 1076 * (10 ^ Z.max 0 (r - i) * 10 ^ Z.min r i)) by ring.
  rewrite <- (Z.pow_add_r 10) by lia. replace (Z.max 0 (r - i) + Z.min r i) with r by lia.
  replace 1076 with (q + (1076 - q)) at 2 by lia. rewrite (Z.pow_add_r 2 q) by lia. ring.
Qed.

(** What is printed of a double that is not zero. *)
Record decimal_ok (n : Z) (d : decimal) : Prop := {
  dk_mantissa : 1 <= d_mantissa d <= 10 * 2 ^ 53 + 1;
  dk_last : d_mantissa d mod 10 <> 0;
  dk_exponent : -326 <= d_exponent d <= 400;
  dk_shortest : shortest_decimal n (d_mantissa d) (d_exponent d)
}.

Lemma nearest_iff n m2 s c out e : Z.even m2 = Z.even n ->
  2 * (magnitude (n - 1) + magnitude n) = (4 * m2 - 1 - s) * c ->
  2 * (magnitude n + magnitude (n + 1)) = (4 * m2 + 2) * c ->
  (let l := (4 * m2 - 1 - s) * c * 10 ^ Z.max 0 (- e) in let h := (4 * m2 + 2) * c * 10 ^ Z.max 0 (- e) in
   let x := out * 2 ^ 1076 * 10 ^ Z.max 0 e in
   if Z.even m2 then l <= x <= h else l < x < h) <-> nearest_double n out e.
Proof.
  intros Hev H1 H2. unfold nearest_double. rewrite <- Hev. cbv zeta in *. rewrite <- H1, <- H2. clear H1 H2.
  set (a := magnitude (n - 1) + magnitude n) in *. set (b := magnitude n + magnitude (n + 1)) in *. set (p := 10 ^ Z.max 0 (- e)) in *.
  set (q := 10 ^ Z.max 0 e) in *.
  replace (out * 2 ^ 1076 * q) with (2 * (2 * out * 2 ^ 1074 * q)).
  2:{ change 1076 with (2 + 1074). rewrite Z.pow_add_r by lia. change (2 ^ 2) with 4. ring. }
  set (x := 2 * out * 2 ^ 1074 * q) in *.
  replace (2 * a * p) with (2 * (a * p)) by ring. replace (2 * b * p) with (2 * (b * p)) by ring.
  clearbody x. destruct (Z.even m2); lia.
Qed.

Lemma abs_scale x c : 0 < c -> Z.abs x * c = Z.abs (x * c).
Proof. intros H. rewrite Z.abs_mul, (Z.abs_eq c) by lia. reflexivity. Qed.
(** From the units of step 4 to those of the specification *)
Lemma shortest_from n m2 s c num den out r e (cc dd : Z -> Z) : Z.even m2 = Z.even n -> magnitude n = m2 * c ->
  2 * (magnitude (n - 1) + magnitude n) = (4 * m2 - 1 - s) * c ->
  2 * (magnitude n + magnitude (n + 1)) = (4 * m2 + 2) * c ->
  (forall r', 0 <= r' -> 0 < cc r' /\ 0 < dd r' /\ forall a, a * num * cc r' = a * c * 10 ^ Z.max 0 (- (e + (r' - r))) * dd r') ->
  (forall r', 0 <= r' -> forall x, x * 10 ^ r' * den * cc r' = x * 2 ^ 1076 * 10 ^ Z.max 0 (e + (r' - r)) * dd r') ->
  good m2 s num den out r -> shortest_decimal n out e.
Proof.
  intros Hev HM HL HU Hunit Hpoint (Hr & _ & _ & Hw & Hshort & Hclose).
  assert (forall r' x, 0 <= r' -> within m2 s num den x r' <-> nearest_double n x (e + (r' - r))) as W.
  { intros r' x Hr'. rewrite <- (nearest_iff n m2 s c x _ Hev HL HU). cbv zeta. unfold within.
    destruct (Hunit r' Hr') as (Hc & Hd & Hu). pose proof (Hpoint r' Hr' x) as Hx.
    destruct (scale_iff _ _ _ _ _ _ Hc Hd (Hu (4 * m2 - 1 - s)) Hx) as (c1 & c2 & _ & _).
    destruct (scale_iff _ _ _ _ _ _ Hc Hd (Hu (4 * m2 + 2)) Hx) as (_ & _ & c3 & c4).
    destruct (Z.even m2); rewrite ?c1, ?c2, ?c3, ?c4; tauto. }
  assert (forall x, nearest_double n x e <-> within m2 s num den x r) as W0.
  { intros x. rewrite (W r x Hr). replace (e + (r - r)) with e by lia. tauto. }
  destruct (Hunit r Hr) as (Hc & Hd & Hu). replace (e + (r - r)) with e in Hu by lia.
  assert (forall x, away m2 num den x r * cc r = 4 * distance n x e * dd r) as K.
  { intros x. unfold away, distance.
    replace (4 * Z.abs (x * 2 ^ 1074 * 10 ^ Z.max 0 e - magnitude n * 10 ^ Z.max 0 (- e)) * dd r) with (Z.abs (x * 2 ^ 1074 * 10 ^ Z.max 0 e - magnitude n * 10 ^ Z.max 0 (- e)) * (dd r * 4)) by ring.
    rewrite (abs_scale _ (cc r)), (abs_scale _ (dd r * 4)) by lia. f_equal. rewrite Z.mul_sub_distr_r, (Hu (4 * m2)), (Hpoint r Hr x), HM. replace (e + (r - r)) with e by lia.
    set (p := 10 ^ Z.max 0 e). set (p2 := 10 ^ Z.max 0 (- e)). change 1076 with (2 + 1074). rewrite Z.pow_add_r by lia. change (2 ^ 2) with 4. ring. }
  split; [apply W0, Hw|]. split.
  - intros x X. apply (Hshort x). apply W; [lia|]. replace (e + (r + 1 - r)) with (e + 1) by lia. exact X.
  - intros x X. apply W0 in X. destruct (Hclose x X) as [C1 C2]. pose proof (K out) as K1. pose proof (K x) as K2. clear - C1 C2 K1 K2 Hc Hd.
    set (d1 := distance n out e) in *. set (d2 := distance n x e) in *. set (a1 := away m2 num den out r) in *. set (a2 := away m2 num den x r) in *.
    clearbody d1 d2 a1 a2. set (u := cc r) in *. set (v := dd r) in *. clearbody u v. split.
    + apply Z.mul_le_mono_pos_r with v; [exact Hd|]. assert (a1 * u <= a2 * u) by (apply Z.mul_le_mono_nonneg_r; lia). lia.
    + intros E. apply C2. apply Z.mul_cancel_r with u; [lia|]. rewrite K1, K2, E. reflexivity.
Qed.

Lemma small_power r num den : 0 <= r -> 0 < den -> 10 ^ r * den <= 2 ^ 55 * num -> 2 ^ 55 * num < 2 ^ 64 * den -> r <= 19.
Proof.
  intros Hr Hd H1 H2. assert (10 ^ r < 2 ^ 64) by (apply Z.mul_lt_mono_pos_r with den; lia).
  destruct (Z_le_gt_dec r 19) as [|G]; [assumption|exfalso]. assert (10 ^ 20 <= 10 ^ r) by (apply Z.pow_le_mono_r; lia).
  assert (2 ^ 64 < 10 ^ 20) by reflexivity. lia.
Qed.

Lemma out_small m2 s num den out r : good m2 s num den out r -> 0 < den -> 0 < num -> 1 <= m2 < 2 ^ 53 -> 10 ^ r * den <= 2 ^ 55 * num.
Proof.
  intros (Hr & Ho & _ & Hw & _) Hd Hn Hm. assert (out * 10 ^ r * den <= (4 * m2 + 2) * num) as H.
  { unfold within in Hw. destruct (Z.even m2); lia. }
  pose proof (pow10_pos r Hr). apply Z.le_trans with (out * 10 ^ r * den).
  - apply Z.mul_le_mono_nonneg_r; [lia|]. nia.
  - apply Z.le_trans with ((4 * m2 + 2) * num); [exact H|]. apply Z.mul_le_mono_nonneg_r; lia.
Qed.

Lemma tables : length DOUBLE_POW5_INV_SPLIT = 292%nat /\ length DOUBLE_POW5_SPLIT = 326%nat.
Proof. split; reflexivity. Qed.

Lemma d2d_ok n : 0 < n -> finite n -> exists d, d2d (n mod 2 ^ 52) (n / 2 ^ 52) = Ok d /\ decimal_ok n d.
Proof.
  intros Hn Hf. pose proof (parts_ok n Hn Hf) as P. cbv zeta in P. unfold d2d.
  destruct (binary_parts (n mod 2 ^ 52) (n / 2 ^ 52)) as [m2 e2] eqn:Eb. set (s := mm_shift (n mod 2 ^ 52) (n / 2 ^ 52)) in *.
  destruct P as (He & Hm & Hs & H0 & Hev & HM & HL & HU). rewrite land_even.
  destruct (Z_lt_le_dec e2 0) as [Hneg|Hpos].
  - destruct (steps_down m2 e2 s ltac:(lia) Hm Hs H0) as (vr & vp & vm & vmz & vrz & out & r & -> & E & G). cbn [obind]. rewrite E. cbn [obind].
    destruct (scale_down e2 ltac:(lia)) as (mul & Hmul & Hq & Hi & S).
    assert (Z.to_nat (i_down e2) < 326)%nat as Hi2 by (rewrite <- (proj2 tables); apply nth_error_Some; rewrite Hmul; discriminate).
    assert (r <= 19) as Hr19.
    { apply (small_power r (5 ^ i_down e2) (2 ^ q_down e2)); [apply G|apply S| |apply S].
      apply (out_small m2 s _ _ out r G); [apply S|apply Z.pow_pos_nonneg; lia|exact Hm]. }
    eexists. split; [reflexivity|]. pose proof G as (Hr & Ho & Hl & _).
    assert (q_down e2 + e2 + r = r - i_down e2) as Ee by (unfold i_down; lia). rewrite Ee.
    split; cbn [d_mantissa d_exponent]; [exact Ho|exact Hl|lia|].
    replace (e2 + 1076) with (1076 - (i_down e2 + q_down e2)) in * by (unfold i_down; lia).
    assert (i_down e2 + q_down e2 <= 1076) as Hiq by (unfold i_down; lia).
    apply (shortest_from n m2 s _ (5 ^ i_down e2) (2 ^ q_down e2) out r _ (fun _ => 2 ^ (1076 - q_down e2)) (fun r' => 10 ^ Z.min r' (i_down e2)) Hev HM HL HU).
    + intros r' Hr'. split; [apply Z.pow_pos_nonneg; lia|]. split; [apply pow10_pos; lia|]. intros a.
      replace (r - i_down e2 + (r' - r)) with (r' - i_down e2) by lia. apply unit_down; assumption.
    + intros r' Hr' x. replace (r - i_down e2 + (r' - r)) with (r' - i_down e2) by lia. apply point_down; assumption.
    + exact G.
  - destruct (steps_up m2 e2 s ltac:(lia) Hm Hs H0) as (vr & vp & vm & vmz & vrz & out & r & -> & E & G). cbn [obind]. rewrite E. cbn [obind].
    destruct (scale_up e2 ltac:(lia)) as (mul & Hmul & Hq & S).
    assert (Z.to_nat (q_up e2) < 292)%nat as Hi2 by (rewrite <- (proj1 tables); apply nth_error_Some; rewrite Hmul; discriminate).
    assert (r <= 19) as Hr19.
    { apply (small_power r (2 ^ (e2 - q_up e2)) (5 ^ q_up e2)); [apply G|apply S| |apply S].
      apply (out_small m2 s _ _ out r G); [apply S|apply Z.pow_pos_nonneg; lia|exact Hm]. }
    eexists. split; [reflexivity|]. pose proof G as (Hr & Ho & Hl & _).
    split; cbn [d_mantissa d_exponent]; [exact Ho|exact Hl|lia|].
    apply (shortest_from n m2 s _ (2 ^ (e2 - q_up e2)) (5 ^ q_up e2) out r _ (fun _ => 2 ^ (q_up e2 + 1076)) (fun _ => 1) Hev HM HL HU).
    + intros r' Hr'. split; [apply Z.pow_pos_nonneg; lia|]. split; [lia|]. intros a.
      replace (q_up e2 + r + (r' - r)) with (q_up e2 + r') by lia. apply unit_up; lia.
    + intros r' Hr' x. replace (q_up e2 + r + (r' - r)) with (q_up e2 + r') by lia. apply point_up; lia.
    + exact G.
Qed.

(** ** Small integers *)

Lemma move_zeros_ok : forall fuel m e, 1 <= m < 10 ^ Z.of_nat fuel -> 0 <= e ->
  exists m' k, move_zeros fuel (Decimal m e) = Ok (Decimal m' (e + k)) /\ 0 <= k /\ 1 <= m' <= m /\ m' mod 10 <> 0 /\ m = m' * 10 ^ k /\ k < Z.of_nat fuel.
Proof.
  induction fuel as [|fuel IH]; intros m e Hm He.
  - change (10 ^ Z.of_nat 0) with 1 in Hm. lia.
  - cbn [move_zeros d_mantissa d_exponent]. rewrite low_rest_10. destruct (Z.eqb_spec (m mod 10) 0) as [E|E]; cbn [negb].
    + pose proof (Z.div_mod m 10 ltac:(lia)) as D. rewrite E in D.
      destruct (IH (m / 10) (e + 1)) as (m' & k & H1 & H2 & H3 & H4 & H5 & H6).
      { rewrite Nat2Z.inj_succ, Z.pow_succ_r in Hm by lia. lia. }
      { lia. }
      exists m', (k + 1). rewrite H1. split; [do 2 f_equal; lia|]. split; [lia|]. split; [lia|]. split; [exact H4|].
      split; [|lia]. rewrite pow10_S by exact H2. lia.
    + exists m, 0. change (10 ^ 0) with 1. rewrite Z.add_0_r. repeat split; try lia; assumption.
Qed.

Lemma to_decimal_ok n : 0 < n -> finite n -> exists d, to_decimal (n mod 2 ^ 52) (n / 2 ^ 52) = Ok d /\ decimal_ok n d.
Proof.
  intros Hn Hf. unfold to_decimal. destruct (d2d_small_int (n mod 2 ^ 52) (n / 2 ^ 52)) as [d|] eqn:Es; [|apply d2d_ok; assumption].
  pose proof (parts_ok n Hn Hf) as P. cbv zeta in P. unfold d2d_small_int in Es. unfold binary_parts in P.
  set (f := n mod 2 ^ 52) in *. set (E := n / 2 ^ 52) in *. set (m2 := Z.lor (2 ^ 52) f) in *.
  destruct (Z.ltb_spec 0 (E - 1023 - 52)) as [|L1]; [discriminate|]. destruct (Z.ltb_spec (E - 1023 - 52) (-52)) as [|L2]; [discriminate|].
  destruct (Z.eqb_spec E 0) as [|_]; [lia|].
  destruct P as (He & Hm & Hs & H0 & Hev & HM & HL & HU). set (s := mm_shift f E) in *.
  set (k := - (E - 1023 - 52)) in *. assert (0 <= k <= 52) as Hk by (unfold k; lia).
  destruct (Z.eqb_spec (Z.land m2 (2 ^ k - 1)) 0) as [Ez|]; [|discriminate]. cbn [negb] in Es. injection Es as <-.
  rewrite Z.sub_1_r, <- Z.ones_equiv, Z.land_ones in Ez by lia.
  assert (0 < 2 ^ k) as Hpk by (apply Z.pow_pos_nonneg; lia).
  pose proof (Z.div_mod m2 (2 ^ k) ltac:(lia)) as D. rewrite Ez, Z.add_0_r in D. set (v := m2 / 2 ^ k) in *.
  assert (1 <= v < 2 ^ 53) as Hv by nia.
  destruct (move_zeros_ok 21 v 0) as (m' & j & -> & Hj & Hm' & Hl & Ev & Hj2); [|lia|].
  { split; [lia|]. apply Z.lt_trans with (2 ^ 53); [lia|reflexivity]. }
  eexists. split; [reflexivity|]. split; cbn [d_mantissa d_exponent]; [lia|exact Hl|lia|].
  rewrite Z.add_0_l.
  assert (0 < 2 ^ (E - 1023 - 52 - 2 + 1076)) as Hc by (apply Z.pow_pos_nonneg; lia).
  assert (2 ^ 1076 = 4 * (2 ^ k * 2 ^ (E - 1023 - 52 - 2 + 1076))) as E1076.
  { change 4 with (2 ^ 2). rewrite <- !Z.pow_add_r by (unfold k; lia). f_equal. unfold k. lia. }
  set (c := 2 ^ (E - 1023 - 52 - 2 + 1076)) in *.
  assert (v * 2 ^ 1076 = 4 * m2 * c) as Ev2 by (rewrite E1076, D; ring).
  assert (4 * c <= 2 ^ 1076) as Hc2 by (rewrite E1076; clear - Hpk Hc; nia).
  assert (magnitude n = v * 2 ^ 1074) as HMv.
  { change 1076 with (2 + 1074) in Ev2. rewrite Z.pow_add_r in Ev2 by lia. change (2 ^ 2) with 4 in Ev2. clear - Ev2 HM. lia. }
  remember (2 ^ 1076) as big eqn:Ebig. clearbody c.
  split; [|split].
  - apply (nearest_iff n m2 s _ m' _ Hev HL HU). cbv zeta.
    replace (Z.max 0 (- j)) with 0 by lia. replace (Z.max 0 j) with j by lia. change (10 ^ 0) with 1. rewrite !Z.mul_1_r.
    rewrite <- Ebig. clear Ebig. replace (m' * big * 10 ^ j) with (m' * 10 ^ j * big) by ring. rewrite <- Ev, Ev2.
    assert ((4 * m2 - 1 - s) * c < 4 * m2 * c) by (apply Z.mul_lt_mono_pos_r; lia).
    assert (4 * m2 * c < (4 * m2 + 2) * c) by (apply Z.mul_lt_mono_pos_r; lia).
    destruct (Z.even m2); lia.
  - intros x X. apply (nearest_iff n m2 s _ x _ Hev HL HU) in X. cbv zeta in X.
    replace (Z.max 0 (- (j + 1))) with 0 in X by lia. replace (Z.max 0 (j + 1)) with (j + 1) in X by lia. change (10 ^ 0) with 1 in X. rewrite !Z.mul_1_r in X.
    rewrite <- Ebig in X. clear Ebig. rewrite pow10_S in X by exact Hj. set (w := x * (10 * 10 ^ j)).
    assert (w = v) as Ew.
    { replace (x * big * (10 * 10 ^ j)) with (w * big) in X by (unfold w; ring).
      assert ((4 * m2 - 2) * c <= w * big <= (4 * m2 + 2) * c) as Y.
      { assert ((4 * m2 - 2) * c <= (4 * m2 - 1 - s) * c) by (apply Z.mul_le_mono_nonneg_r; lia). destruct (Z.even m2); lia. }
      replace ((4 * m2 - 2) * c) with (v * big - 2 * c) in Y by (rewrite Ev2; ring). replace ((4 * m2 + 2) * c) with (v * big + 2 * c) in Y by (rewrite Ev2; ring).
      clear - Y Hc Hc2. assert (w < v \/ w = v \/ v < w) as [Z|[Z|Z]] by lia; [exfalso|exact Z|exfalso].
      - assert (w * big <= (v - 1) * big) by (apply Z.mul_le_mono_nonneg_r; lia). lia.
      - assert ((v + 1) * big <= w * big) by (apply Z.mul_le_mono_nonneg_r; lia). lia. }
    apply Hl. rewrite Ev in Ew. unfold w in Ew. pose proof (pow10_pos j Hj) as Ht.
    assert (m' = x * 10) as ->; [|apply Z.mod_mul; discriminate]. apply Z.mul_cancel_r with (10 ^ j); [lia|]. rewrite <- Ew. ring.
  - intros x _. assert (distance n m' j = 0) as ->.
    { unfold distance. replace (Z.max 0 (- j)) with 0 by lia. replace (Z.max 0 j) with j by lia. change (10 ^ 0) with 1. rewrite HMv.
      replace (m' * 2 ^ 1074 * 10 ^ j) with (m' * 10 ^ j * 2 ^ 1074) by ring. rewrite <- Ev. rewrite Z.mul_1_r, Z.sub_diag. reflexivity. }
    split; [apply Z.abs_nonneg|]. intros X. left. unfold distance in X. symmetry in X. apply Z.abs_0_iff in X.
    replace (Z.max 0 (- j)) with 0 in X by lia. replace (Z.max 0 j) with j in X by lia. change (10 ^ 0) with 1 in X. rewrite HMv, Z.mul_1_r in X.
    rewrite Ev in X. pose proof (pow10_pos j Hj) as Ht.
    apply Z.mul_cancel_r with (10 ^ j * 2 ^ 1074); [assert (0 < 10 ^ j * 2 ^ 1074) by (apply Z.mul_pos_pos; [exact Ht|reflexivity]); lia|].
    replace (x * (10 ^ j * 2 ^ 1074)) with (x * 2 ^ 1074 * 10 ^ j) by ring. replace (m' * (10 ^ j * 2 ^ 1074)) with (m' * 10 ^ j * 2 ^ 1074) by ring. clear - X. lia.
Qed.
