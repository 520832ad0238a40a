(** The standard library's comparison of decoded doubles is the order of their values. *)
From Verif Require Import Base FloatModel FloatSpec.
From Coq Require Import Floats.SpecFloat.
Local Open Scope Z_scope.

(** A decoded finite number: its exponent is the least possible or its significand is normalised. *)
Definition canonical (m : positive) (e : Z) : Prop :=
  e = -1074 /\ Zpos m < 2 ^ 53 \/ -1074 < e /\ 2 ^ 52 <= Zpos m < 2 ^ 53.

Inductive decoded : spec_float -> dvalue -> Prop :=
| dec_nan : decoded S754_nan DNaN
| dec_inf s : decoded (S754_infinity s) (DInf s)
| dec_zero s : decoded (S754_zero s) (DFinite 0)
| dec_fin s m e : canonical m e ->
    decoded (S754_finite s m e) (DFinite (if s then - (Zpos m * 2 ^ (e + 1074)) else Zpos m * 2 ^ (e + 1074))).

Lemma decode64_decoded w : decoded (decode64 w) (value64 w).
Proof.
  unfold decode64, value64.
  set (s := N.testbit w 63). set (ex := ((w / 2 ^ 52) mod 2 ^ 11)%N). set (fr := (w mod 2 ^ 52)%N).
  assert (Hex : (ex < 2048)%N) by (apply N.mod_lt; discriminate).
  assert (Hfr : (fr < 2 ^ 52)%N) by (apply N.mod_lt; discriminate).
  clearbody s ex fr. change (2 ^ 52)%N with 4503599627370496%N in *.
  destruct (Z.eqb_spec (Z.of_N ex) 2047) as [E|E].
  - destruct (N.eqb_spec fr 0) as [F|F]; destruct (Z.eqb_spec (Z.of_N fr) 0); try lia; constructor.
  - destruct (Z.eqb_spec (Z.of_N ex) 0) as [F|F].
    + destruct fr as [|p]; cbn [Z.of_N].
      * destruct s; apply dec_zero.
      * pose proof (dec_fin s p (-1074)) as D. change (2 ^ (-1074 + 1074)) with 1 in D. rewrite Z.mul_1_r in D.
        apply D. left. split; [reflexivity|]. change (2 ^ 53) with 9007199254740992. lia.
    + destruct (fr + 4503599627370496)%N as [|p] eqn:P; [lia|].
      pose proof (dec_fin s p (Z.of_N ex - 1075)) as D.
      replace (2 ^ 52 + Z.of_N fr) with (Zpos p) by (change (2 ^ 52) with 4503599627370496; lia).
      replace (Z.of_N ex - 1075 + 1074) with (Z.of_N ex - 1) in D by lia.
      apply D. unfold canonical. change (2 ^ 52) with 4503599627370496. change (2 ^ 53) with 9007199254740992. lia.
Qed.

(** Canonical numbers compare by exponent first. *)
Lemma canonical_lt_exp m1 e1 m2 e2 : canonical m1 e1 -> canonical m2 e2 -> e1 < e2 ->
  Zpos m1 * 2 ^ (e1 + 1074) < Zpos m2 * 2 ^ (e2 + 1074).
Proof.
  intros C1 C2 H.
  unfold canonical in *. change (2 ^ 53) with 9007199254740992 in *. change (2 ^ 52) with 4503599627370496 in *.
  assert (0 <= e1 + 1074) by lia.
  assert (L1 : Zpos m1 < 9007199254740992) by lia.
  assert (L2 : 4503599627370496 <= Zpos m2) by lia.
  replace (e2 + 1074) with ((e1 + 1074) + (1 + (e2 - e1 - 1))) by lia.
  rewrite (Z.pow_add_r 2 (e1 + 1074)), (Z.pow_add_r 2 1) by lia.
  set (P := 2 ^ (e1 + 1074)). assert (0 < P) by (apply Z.pow_pos_nonneg; lia).
  assert (1 <= 2 ^ (e2 - e1 - 1)) by (pose proof (Z.pow_pos_nonneg 2 (e2 - e1 - 1)); lia).
  change (2 ^ 1) with 2. set (Q := 2 ^ (e2 - e1 - 1)) in *.
  apply Z.lt_le_trans with (9007199254740992 * P); [apply Z.mul_lt_mono_pos_r; lia|].
  replace (Zpos m2 * (P * (2 * Q))) with ((Zpos m2 * 2 * Q) * P) by ring.
  apply Z.mul_le_mono_nonneg_r; [lia|].
  apply Z.le_trans with (Zpos m2 * 2 * 1); [lia|]. apply Z.mul_le_mono_nonneg_l; lia.
Qed.

Lemma canonical_compare m1 e1 m2 e2 : canonical m1 e1 -> canonical m2 e2 ->
  (Zpos m1 * 2 ^ (e1 + 1074) ?= Zpos m2 * 2 ^ (e2 + 1074)) =
  match Z.compare e1 e2 with Lt => Lt | Gt => Gt | Eq => Pos.compare_cont Eq m1 m2 end.
Proof.
  intros C1 C2. destruct (Z.compare_spec e1 e2) as [E|E|E].
  - subst e2. set (P := 2 ^ (e1 + 1074)).
    assert (0 < P) by (apply Z.pow_pos_nonneg; [lia|destruct C1; lia]).
    change (Pos.compare_cont Eq m1 m2) with (Zpos m1 ?= Zpos m2).
    rewrite !(Z.mul_comm _ P). symmetry. apply Zmult_compare_compat_l. lia.
  - apply Z.compare_lt_iff. apply canonical_lt_exp; assumption.
  - apply Z.compare_gt_iff. apply canonical_lt_exp; assumption.
Qed.

Lemma pos_scaled m e : canonical m e -> 0 < Zpos m * 2 ^ (e + 1074).
Proof.
  intros C. assert (0 < 2 ^ (e + 1074)) by (apply Z.pow_pos_nonneg; [lia|destruct C; lia]). lia.
Qed.

Lemma SFltb_decoded x y vx vy : decoded x vx -> decoded y vy -> SFltb x y = value_lt vx vy.
Proof.
  intros Hx Hy. unfold SFltb, SFcompare.
  inversion Hx as [|s1|s1|s1 m1 e1 C1]; inversion Hy as [|s2|s2|s2 m2 e2 C2]; subst; cbn [value_lt];
    try (destruct s1); try (destruct s2); try reflexivity;
    try (pose proof (pos_scaled _ _ C1)); try (pose proof (pos_scaled _ _ C2));
    try (symmetry; apply Z.ltb_lt; lia); try (symmetry; apply Z.ltb_ge; lia).
  - pose proof (canonical_compare _ _ _ _ C1 C2) as K. unfold Z.ltb. rewrite Z.compare_opp, (Z.compare_antisym (Zpos m1 * 2 ^ (e1 + 1074))), K.
    destruct (Z.compare e1 e2); try reflexivity.
  - pose proof (canonical_compare _ _ _ _ C1 C2) as K. unfold Z.ltb. rewrite K.
    destruct (Z.compare e1 e2); reflexivity.
Qed.

Lemma dlt_spec a b : dlt a b = double_lt a b.
Proof. apply SFltb_decoded; apply decode64_decoded. Qed.
Lemma dgt_spec a b : dgt a b = double_lt b a.
Proof. apply SFltb_decoded; apply decode64_decoded. Qed.
