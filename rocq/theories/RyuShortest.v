(** * Step 4 of the printer: a short decimal within bounds *)
From Verif Require Import Base RyuModel.
Local Open Scope Z_scope.

Lemma low_rest_mod v k : 0 < k < 2 ^ 32 -> low_rest v k (v / k) = v mod k.
Proof.
  intros H. unfold low_rest, w32. rewrite Zmult_mod_idemp_r, <- Zminus_mod.
  replace (v - k * (v / k)) with (v mod k) by (rewrite Z.mod_eq by lia; reflexivity).
  apply Z.mod_small. pose proof (Z.mod_pos_bound v k). lia.
Qed.
Lemma low_rest_10 v : low_rest v 10 (v / 10) = v mod 10.
Proof. apply low_rest_mod. lia. Qed.

Lemma pow10_pos r : 0 <= r -> 0 < 10 ^ r.
Proof. intros. apply Z.pow_pos_nonneg; lia. Qed.
Lemma pow10_S r : 0 <= r -> 10 ^ (r + 1) = 10 * 10 ^ r.
Proof. intros. rewrite Z.pow_add_r by lia. lia. Qed.
Lemma div_pow10_S a r : 0 <= r -> a / 10 ^ r / 10 = a / 10 ^ (r + 1).
Proof. intros H. rewrite Z.div_div, pow10_S by (try apply Z.pow_nonzero; lia). f_equal. lia. Qed.
Lemma div_bounds a t : 0 < t -> a / t * t <= a < (a / t + 1) * t.
Proof. intros H. pose proof (Z.mod_pos_bound a t H). pose proof (Z.div_mod a t ltac:(lia)). nia. Qed.
Lemma div_ge a t k : 0 < t -> k * t <= a -> k <= a / t.
Proof. intros H1 H2. apply Z.div_le_lower_bound; lia. Qed.
Lemma div_lt a t k : 0 < t -> a / t < k -> a < k * t.
Proof. intros H1 H2. pose proof (div_bounds a t H1). nia. Qed.
Lemma div_below a t k : 0 < t -> a < k * t -> a / t < k.
Proof. intros H1 H2. apply Z.div_lt_upper_bound; lia. Qed.
Lemma mod_pow10_S a r : 0 <= r -> a mod 10 ^ r = 0 -> a / 10 ^ r mod 10 = 0 -> a mod 10 ^ (r + 1) = 0.
Proof.
  intros H H1 H2. pose proof (pow10_pos r H). rewrite pow10_S by lia.
  apply Z.mod_divide; [lia|]. apply Z.mod_divide in H1; [|lia]. destruct H1 as [k ->].
  rewrite Z.div_mul in H2 by lia. apply Z.mod_divide in H2; [|lia]. destruct H2 as [k' ->]. exists k'. lia.
Qed.

Lemma mod_pow10_b a r : 0 <= r -> (a mod 10 ^ (r + 1) =? 0) = (a mod 10 ^ r =? 0) && (a / 10 ^ r mod 10 =? 0).
Proof.
  intros H. apply Bool.eq_true_iff_eq. rewrite andb_true_iff, !Z.eqb_eq. split; [|intros [H1 H2]; apply mod_pow10_S; assumption].
  intros H1. pose proof (pow10_pos r H). rewrite pow10_S in H1 by exact H. apply Z.mod_divide in H1; [|lia]. destruct H1 as [k ->].
  replace (k * (10 * 10 ^ r)) with (k * 10 * 10 ^ r) by ring. rewrite Z.mod_mul, Z.div_mul, Z.mod_mul by lia. split; reflexivity.
Qed.

(** Arithmetic in small contexts. *)
Lemma tenth_le y z : y / 10 <= z / 10 -> y <= z + 9.
Proof.
  intros H. pose proof (Z.div_mod z 10 ltac:(lia)). pose proof (Z.div_mod y 10 ltac:(lia)).
  pose proof (Z.mod_pos_bound y 10 ltac:(lia)). pose proof (Z.mod_pos_bound z 10 ltac:(lia)). lia.
Qed.
Lemma tenth_between z out y : z < out -> out <= y -> y / 10 <= z / 10 -> out mod 10 <> 0.
Proof.
  intros H1 H2 H3 E. pose proof (Z.div_mod out 10 ltac:(lia)). pose proof (Z.div_mod y 10 ltac:(lia)). pose proof (Z.div_mod z 10 ltac:(lia)).
  pose proof (Z.mod_pos_bound y 10 ltac:(lia)). pose proof (Z.mod_pos_bound z 10 ltac:(lia)). lia.
Qed.
Lemma tenth_same m r p : m mod 10 = 0 -> m <= r -> r <= p -> p / 10 <= m / 10 -> r / 10 = m / 10 /\ p / 10 = m / 10.
Proof.
  intros E H1 H2 H3. assert (m / 10 <= r / 10) by (apply Z.div_le_mono; lia). assert (r / 10 <= p / 10) by (apply Z.div_le_mono; lia). lia.
Qed.
Lemma tenth_rest m r : m mod 10 = 0 -> r / 10 = m / 10 -> r = m + r mod 10.
Proof. intros E H. pose proof (Z.div_mod m 10 ltac:(lia)). pose proof (Z.div_mod r 10 ltac:(lia)). lia. Qed.
Lemma tens_digit v : (50 <=? v mod 100) = (5 <=? v / 10 mod 10).
Proof.
  assert (v mod 100 = 10 * (v / 10 mod 10) + v mod 10) as E.
  { pose proof (Z.div_mod v 100 ltac:(lia)). pose proof (Z.div_mod v 10 ltac:(lia)). pose proof (Z.div_mod (v / 10) 10 ltac:(lia)).
    rewrite Z.div_div in * by lia. change (10 * 10) with 100 in *. lia. }
  pose proof (Z.mod_pos_bound v 10 ltac:(lia)). apply Bool.eq_true_iff_eq. rewrite !Z.leb_le. lia.
Qed.
Lemma half_digit v r : 0 <= r -> 5 <= v / 10 ^ r mod 10 -> 10 ^ (r + 1) <= 2 * (v mod 10 ^ (r + 1)).
Proof.
  intros Hr H. pose proof (pow10_pos r Hr). pose proof (pow10_pos (r + 1) ltac:(lia)).
  pose proof (Z.div_mod v (10 ^ (r + 1)) ltac:(lia)) as E1. pose proof (Z.div_mod v (10 ^ r) ltac:(lia)) as E2.
  pose proof (Z.div_mod (v / 10 ^ r) 10 ltac:(lia)) as E3. rewrite div_pow10_S in E3 by exact Hr.
  pose proof (Z.mod_pos_bound v (10 ^ r) ltac:(lia)). rewrite pow10_S in * by exact Hr. nia.
Qed.
Lemma scale_le a b t v den c : 0 < t -> 0 < den -> a <= b -> b * t <= v -> v * den <= c -> a * t * den <= c.
Proof. intros. apply Z.le_trans with (v * den); [|assumption]. apply Z.mul_le_mono_nonneg_r; [lia|]. nia. Qed.
Lemma scale_lt a b t v den c : 0 < den -> c < (v + 1) * den -> v < (b + 1) * t -> b < a -> 0 < t -> c < a * t * den.
Proof.
  intros. apply Z.lt_le_trans with ((v + 1) * den); [assumption|]. apply Z.mul_le_mono_nonneg_r; [lia|]. nia.
Qed.
Lemma lower_tenth v r : 0 <= v -> 0 <= r -> v / 10 ^ r <= v.
Proof. intros. pose proof (pow10_pos r ltac:(lia)). apply Z.div_le_upper_bound; nia. Qed.

Lemma spread A C den vp vm y z t : 0 < t -> 0 < den -> y <= z + 9 -> vp < (y + 1) * t -> z * t <= vm -> vm * den <= A -> C <= (vp + 1) * den ->
  C - A <= 10 * t * den.
Proof.
  intros. assert (vp + 1 - vm <= 10 * t) by nia. nia.
Qed.

Section Shortest.
(** The lower bound, the number and the upper bound are [A / den], [B / den] and [C / den]. *)
Variables A B C den : Z.
Variable accept : bool.
Variables vr vp vm : Z.
Variables vmz vrz : bool.
Definition vp_spec : Prop := vp = C / den \/ (accept = false /\ C = (vp + 1) * den).
Definition vmz_spec : Prop := vmz = true -> accept = true /\ A = vm * den.
Definition gap_spec : Prop := vr + 2 <= vp \/ vp * den < C.
Definition open_spec : Prop := accept = false -> vp * den < C \/ vp mod 10 <> 0.
Hypothesis Hden : 0 < den.
Hypothesis HA : 0 < A.
Hypothesis HAB : A < B.
Hypothesis Hmid : B - A <= C - B.
Hypothesis Hvm : vm = A / den.
Hypothesis Hvr : vr = B / den.
Hypothesis Hvp : vp_spec.
Hypothesis Hvm1 : 1 <= vm.
Hypothesis Hlarge : C < 2 ^ 64 * den.
Hypothesis Hgap1 : vm + 2 <= vp.
Hypothesis Hgap2 : vr + 1 <= vp.
Hypothesis Hgap3 : gap_spec.
Hypothesis Hvmz : vmz_spec.
Hypothesis Hopen : open_spec.
Definition vmz_all : Prop := accept = true -> A = vm * den -> vm mod 10 = 0 -> vmz = true.
Definition vrz_spec : Prop := (vrz = true -> B = vr * den) /\ (B = vr * den -> vr mod 5 = 0 -> vrz = true).
Definition ten_spec : Prop := B = vr * den \/ vm + 10 <= vp.
Hypothesis Hvr1 : vm + 1 <= vr.
Hypothesis Hvmz2 : vmz_all.
Hypothesis Hvrz : vrz_spec.
Hypothesis Hten : ten_spec.

Lemma bounds_C : vp * den <= C <= (vp + 1) * den.
Proof. pose proof (div_bounds C den Hden) as D. clear - D Hvp Hden. destruct Hvp as [->|[_ ->]]; lia. Qed.
Lemma bounds_A : vm * den <= A < (vm + 1) * den.
Proof. pose proof (div_bounds A den Hden). rewrite Hvm. assumption. Qed.
Lemma bounds_B : vr * den <= B < (vr + 1) * den.
Proof. pose proof (div_bounds B den Hden). rewrite Hvr. assumption. Qed.
Lemma above t : t * den < C -> t <= vp.
Proof.
  intros H. clear - H Hvp Hden. destruct Hvp as [->|[_ E]]; [|nia]. apply div_ge; [exact Hden|lia].
Qed.
Lemma small : vp < 2 ^ 64 /\ vr < 2 ^ 64 /\ vm < 2 ^ 64.
Proof. pose proof bounds_C as H. clear - H Hlarge Hgap1 Hgap2 Hden. assert (vp < 2 ^ 64) by nia. lia. Qed.
Lemma vm_vr : vm <= vr.
Proof. rewrite Hvm, Hvr. apply Z.div_le_mono; [exact Hden|clear - HAB; lia]. Qed.

(** Rounding up stays below the upper bound. *)
Lemma up_ok T : 0 < T -> vm / T < vp / T -> T <= 2 * (vr mod T) -> vr / T + 1 <= vp / T.
Proof.
  intros HT Hlt Hr. destruct (Z_lt_le_dec (vr / T) (vp / T)) as [|L]; [clear Hr; lia|exfalso].
  set (k := vr / T) in *.
  pose proof (Z.div_mod vr T ltac:(clear - HT; lia)) as Ev. fold k in Ev.
  assert (vm / T < k) as H1 by (clear - L Hlt; lia). apply div_lt in H1; [|exact HT].
  pose proof bounds_A as BA. pose proof bounds_B as BB.
  assert (2 * ((k + 1) * T) * den < 2 * C) as HC.
  { assert (A < k * T * den) by (clear - H1 BA Hden; nia).
    assert ((2 * (k * T) + T) * den <= 2 * B) by (clear - Ev Hr BB Hden; nia). clear - H H0 Hmid. nia. }
  assert ((k + 1) * T <= vp) as H2 by (apply above; clear - HC; lia).
  apply div_ge in H2; [clear - H2 L; lia|exact HT].
Qed.

(** What the removal of [r] digits leaves. *)
Record removed_ok (r : Z) (s : digits_state) : Prop := {
  ro_r : 0 <= r;
  ro_removed : s_removed s = r;
  ro_vr : s_vr s = vr / 10 ^ r;
  ro_vp : s_vp s = vp / 10 ^ r;
  ro_vm : s_vm s = vm / 10 ^ r;
  ro_vmz : s_vmz s = true -> accept = true /\ A = vm * den /\ vm mod 10 ^ r = 0;
  ro_vmz2 : vmz = true -> vm mod 10 ^ r = 0 -> s_vmz s = true;
  ro_digit : (r = 0 /\ s_last s = 0 /\ s_vrz s = vrz) \/
    (1 <= r /\ s_last s = vr / 10 ^ (r - 1) mod 10 /\ s_vrz s = vrz && (vr mod 10 ^ (r - 1) =? 0));
  ro_last : 0 <= s_last s;
  ro_up : 5 <= s_last s -> s_vr s + 1 <= s_vp s
}.

Lemma digit_10 v : 0 <= v mod 10 < 10 /\ v mod 10 mod 2 ^ 8 = v mod 10.
Proof. pose proof (Z.mod_pos_bound v 10 ltac:(lia)). rewrite (Z.mod_small _ (2 ^ 8)) by lia. lia. Qed.

Lemma digit_ok r s z : removed_ok r s ->
  s_vrz (remove_digit s z) = vrz && (vr mod 10 ^ (r + 1 - 1) =? 0).
Proof.
  intros R. cbn [remove_digit s_vrz]. replace (r + 1 - 1) with r by (clear; lia). pose proof (ro_r _ _ R) as R1.
  destruct (ro_digit _ _ R) as [(-> & -> & ->)|(H1 & -> & ->)].
  - change (10 ^ 0) with 1. rewrite Z.mod_1_r. reflexivity.
  - rewrite <- Bool.andb_assoc. f_equal. replace r with (r - 1 + 1) at 3 by (clear; lia). symmetry. apply mod_pow10_b. clear - H1. lia.
Qed.
Lemma vmz2_ok r s z : removed_ok r s -> (s_vmz s = true -> s_vm s mod 10 = 0 -> z = true) ->
  vmz = true -> vm mod 10 ^ (r + 1) = 0 -> z = true.
Proof.
  intros R Hz H1 H2. pose proof (ro_r _ _ R) as R1. rewrite <- Z.eqb_eq, mod_pow10_b in H2 by exact R1. apply andb_prop in H2 as [H2 H3].
  apply Z.eqb_eq in H2, H3. apply Hz; [apply (ro_vmz2 _ _ R); assumption|]. rewrite (ro_vm _ _ R). exact H3.
Qed.

Lemma remove_ok r s z : removed_ok r s -> s_vm s / 10 < s_vp s / 10 -> (z = true -> s_vmz s = true /\ s_vm s mod 10 = 0) ->
  (s_vmz s = true -> s_vm s mod 10 = 0 -> z = true) ->
  removed_ok (r + 1) (remove_digit s z).
Proof.
  intros R H Hz Hz2. pose proof (digit_ok r s z R) as Hdig. pose proof (ro_r _ _ R) as R1. unfold remove_digit in *. rewrite low_rest_10 in *.
  destruct (digit_10 (s_vr s)) as [Hd Hm]. split; cbn -[Z.pow Z.modulo Z.div]; rewrite ?Hm.
  - clear - R1. lia.
  - rewrite (ro_removed _ _ R). reflexivity.
  - rewrite (ro_vr _ _ R). apply div_pow10_S. exact R1.
  - rewrite (ro_vp _ _ R). apply div_pow10_S. exact R1.
  - rewrite (ro_vm _ _ R). apply div_pow10_S. exact R1.
  - intros E. destruct (Hz E) as [Hz1 Hz3]. destruct (ro_vmz _ _ R Hz1) as (a & b & c). split; [exact a|]. split; [exact b|].
    apply mod_pow10_S; [exact R1|exact c|]. rewrite <- (ro_vm _ _ R). exact Hz3.
  - apply (vmz2_ok r s z R Hz2).
  - right. split; [clear - R1; lia|]. split; [|exact Hdig]. rewrite (ro_vr _ _ R). replace (r + 1 - 1) with r by (clear; lia). reflexivity.
  - apply Hd.
  - intros L. rewrite (ro_vr _ _ R), (ro_vp _ _ R), !div_pow10_S by exact R1.
    apply up_ok.
    + apply pow10_pos. clear - R1. lia.
    + rewrite <- !div_pow10_S by exact R1. rewrite <- (ro_vp _ _ R), <- (ro_vm _ _ R). exact H.
    + apply half_digit; [exact R1|]. rewrite <- (ro_vr _ _ R). exact L.
Qed.

Lemma fuel_step x fuel : x < 10 ^ Z.of_nat (S fuel) -> x / 10 < 10 ^ Z.of_nat fuel.
Proof. intros H. apply Z.div_lt_upper_bound; [lia|]. rewrite Nat2Z.inj_succ, Z.pow_succ_r in H by lia. exact H. Qed.
Lemma fuel_more x fuel : x < 10 ^ Z.of_nat (S fuel) -> 1 <= x / 10 -> (0 < fuel)%nat.
Proof.
  intros H L. destruct fuel; [|lia]. apply fuel_step in H. change (10 ^ Z.of_nat 0) with 1 in H. lia.
Qed.

Lemma vm_pos r : 0 <= r -> 0 <= vm / 10 ^ r.
Proof. intros Hr. apply Z.div_pos; [clear - Hvm1; lia|apply pow10_pos; exact Hr]. Qed.

Lemma general_ok : forall fuel r s, removed_ok r s -> s_vm s < s_vp s -> s_vp s < 10 ^ Z.of_nat fuel -> (0 < fuel)%nat ->
  exists r' s', general_loop fuel s = Ok s' /\ removed_ok r' s' /\ s_vm s' < s_vp s' /\ s_vp s' / 10 <= s_vm s' / 10.
Proof.
  induction fuel as [|fuel IH]; intros r s R Hlt Hf Hp; [clear - Hp; lia|]. cbn [general_loop].
  destruct (Z.leb_spec (s_vp s / 10) (s_vm s / 10)) as [L|L].
  - exists r, s. split; [reflexivity|]. split; [exact R|]. split; [exact Hlt|exact L].
  - assert (1 <= s_vp s / 10) as L1.
    { assert (0 <= s_vm s / 10); [|clear - H L; lia]. apply Z.div_pos; [|reflexivity]. rewrite (ro_vm _ _ R). apply vm_pos. apply R. }
    apply (IH (r + 1)).
    + apply remove_ok; [exact R|exact L| |].
      * intros Hb. apply andb_prop in Hb as [-> Hb]. split; [reflexivity|].
        rewrite low_rest_10 in Hb. apply Z.eqb_eq. exact Hb.
      * intros -> Hb. rewrite low_rest_10, Hb. reflexivity.
    + exact L.
    + apply fuel_step. exact Hf.
    + apply (fuel_more (s_vp s)); assumption.
Qed.

(** All that is left is equal. *)
Definition collapsed (s : digits_state) : Prop := s_vr s = s_vm s /\ s_vp s = s_vm s /\ s_last s < 5.
(** No digit can be removed any more. *)
Definition done (s : digits_state) : Prop := s_vm s < s_vp s /\ s_vp s / 10 <= s_vm s / 10.

Lemma zeros_ok : forall fuel r s, removed_ok r s -> s_vmz s = true -> s_vm s < 10 ^ Z.of_nat fuel -> (0 < fuel)%nat -> 1 <= s_vm s ->
  (done s \/ collapsed s) ->
  exists r' s', zeros_loop fuel s = Ok s' /\ removed_ok r' s' /\ s_vmz s' = true /\ s_vm s' mod 10 <> 0 /\ (done s' \/ collapsed s').
Proof.
  induction fuel as [|fuel IH]; intros r s R Z0 Hf Hp H1 Hc; [clear - Hp; lia|]. cbn [zeros_loop]. rewrite low_rest_10.
  destruct (Z.eqb_spec (s_vm s mod 10) 0) as [E|E]; cbn [negb].
  - pose proof (ro_r _ _ R) as R1. pose proof (pow10_pos r R1) as Ht.
    assert (s_vm s <= s_vr s) as Hmr.
    { rewrite (ro_vr _ _ R), (ro_vm _ _ R). apply Z.div_le_mono; [exact Ht|apply vm_vr]. }
    assert (s_vr s <= s_vp s) as Hrp.
    { rewrite (ro_vr _ _ R), (ro_vp _ _ R). apply Z.div_le_mono; [exact Ht|clear - Hgap2; lia]. }
    assert (s_vp s / 10 <= s_vm s / 10) as He.
    { destruct Hc as [[_ He]|(_ & -> & _)]; [exact He|apply Z.le_refl]. }
    destruct (tenth_same _ _ _ E Hmr Hrp He) as [D1 D2].
    destruct (ro_vmz _ _ R Z0) as (Ha & HAe & Hm0).
    destruct (digit_10 (s_vr s)) as [Hd Hm].
    assert (s_vr s mod 10 < 5) as Hlast.
    { destruct Hc as [Hc|(c1 & c2 & c3)]; [|rewrite c1, E; reflexivity].
      destruct (Z_lt_le_dec (s_vr s mod 10) 5) as [|Hge]; [assumption|exfalso].
      set (t := 10 ^ r) in *.
      assert (vm = s_vm s * t) as Ev.
      { rewrite (ro_vm _ _ R). fold t. pose proof (Z.div_mod vm t ltac:(clear - Ht; lia)) as X. rewrite Hm0 in X. clear - X. lia. }
      pose proof (tenth_rest _ _ E D1) as Er.
      assert ((s_vm s + 5) * t <= vr) as Hv.
      { pose proof (div_bounds vr t Ht) as D. unfold t in D at 1 3; rewrite <- (ro_vr _ _ R) in D. clear - D Er Hge Ht. nia. }
      pose proof bounds_B as BB.
      assert ((s_vm s + 10) * t * den <= C) as HC.
      { assert (vm + 5 * t <= vr) by (clear - Hv Ev; nia). assert (5 * t * den <= B - A) by (clear - H HAe BB Hden; nia).
        clear - H0 HAe Hmid Ev. nia. }
      assert (vp = C / den) as EC by (clear - Hvp Ha; destruct Hvp as [|[X _]]; [assumption|congruence]).
      assert ((s_vm s + 10) * t <= vp) as H3 by (rewrite EC; apply div_ge; [exact Hden|exact HC]).
      apply div_ge in H3; [|exact Ht]. unfold t in H3. rewrite <- (ro_vp _ _ R) in H3.
      apply tenth_le in He. clear - He H3. lia. }
    assert (removed_ok (r + 1) (remove_digit s (s_vmz s))) as R'.
    { pose proof (digit_ok r s (s_vmz s) R) as Hdig. unfold remove_digit in *. rewrite low_rest_10 in *. split; cbn -[Z.pow Z.modulo Z.div]; rewrite ?Hm.
      - clear - R1. lia.
      - rewrite (ro_removed _ _ R). reflexivity.
      - rewrite (ro_vr _ _ R). apply div_pow10_S. exact R1.
      - rewrite (ro_vp _ _ R). apply div_pow10_S. exact R1.
      - rewrite (ro_vm _ _ R). apply div_pow10_S. exact R1.
      - intros _. split; [exact Ha|]. split; [exact HAe|]. apply mod_pow10_S; [exact R1|exact Hm0|]. rewrite <- (ro_vm _ _ R). exact E.
      - intros _ _. exact Z0.
      - right. split; [clear - R1; lia|]. split; [|exact Hdig]. rewrite (ro_vr _ _ R). replace (r + 1 - 1) with r by (clear; lia). reflexivity.
      - apply Hd.
      - clear - Hlast. lia. }
    pose proof (Z.div_mod (s_vm s) 10 ltac:(clear; lia)) as Em. rewrite E in Em.
    assert (1 <= s_vm s / 10) as L1 by (clear - Em H1; lia).
    apply (IH (r + 1)); [exact R'|exact Z0|apply fuel_step; exact Hf|apply (fuel_more (s_vm s)); assumption|exact L1|].
    right. unfold collapsed, remove_digit. cbn -[Z.pow Z.modulo Z.div low_rest]. rewrite low_rest_10, Hm. split; [exact D1|]. split; [exact D2|exact Hlast].
  - exists r, s. split; [reflexivity|]. split; [exact R|]. split; [exact Z0|]. split; [exact E|exact Hc].
Qed.

(** ** The result *)

Definition inside (c r : Z) : Prop := if accept then A <= c * 10 ^ r * den <= C else A < c * 10 ^ r * den < C.
Definition off (c r : Z) : Z := Z.abs (c * 10 ^ r * den - B).

(** [out * 10^r] lies within the bounds, is as short as possible and of those the nearest. *)
Definition result_ok (out r : Z) : Prop :=
  0 <= r /\ 1 <= out /\ inside out r /\
  out <= vr / 10 ^ r + 1 /\ C - A <= 10 ^ (r + 1) * den /\ out mod 10 <> 0 /\
  (forall c, ~ inside c (r + 1)) /\
  (forall c, inside c r -> off out r <= off c r /\ (off out r = off c r -> c = out \/ Z.even out = true)).

Definition exact_low (r : Z) : Prop := accept = true /\ A = vm * den /\ vm mod 10 ^ r = 0.

Lemma inside_high c r : inside c r -> c * 10 ^ r <= vp.
Proof.
  unfold inside. intros H. destruct accept eqn:Ea.
  - assert (vp = C / den) as ->.
    { clear - Hvp Ea. unfold vp_spec in Hvp. destruct Hvp as [|[X _]]; [assumption|congruence]. }
    apply div_ge; [exact Hden|]. apply H.
  - apply above. apply H.
Qed.
Lemma inside_low c r : inside c r -> vm < c * 10 ^ r \/ (accept = true /\ A = vm * den /\ c * 10 ^ r = vm).
Proof.
  unfold inside. intros H. set (x := c * 10 ^ r) in *. pose proof bounds_A as BA.
  destruct (Z_lt_le_dec vm x) as [|L]; [left; assumption|right].
  assert (x * den <= vm * den) as L2 by (apply Z.mul_le_mono_nonneg_r; [clear - Hden; lia|exact L]).
  destruct accept; [|clear - H L2 BA; lia].
  assert (A = vm * den) as E by (clear - H L2 BA; lia). split; [reflexivity|]. split; [exact E|].
  apply Z.mul_cancel_r with den; [clear - Hden; lia|]. clear - H L2 E. lia.
Qed.

Lemma no_shorter r y z : 0 <= r -> y = vp / 10 ^ r -> z = vm / 10 ^ r -> y / 10 <= z / 10 -> ~ exact_low (r + 1) ->
  forall c, ~ inside c (r + 1).
Proof.
  intros Hr Hy Hz He Hn c H. pose proof (pow10_pos (r + 1) ltac:(clear - Hr; lia)) as Ht.
  rewrite Hy, Hz, !div_pow10_S in He by exact Hr. apply Hn.
  pose proof (inside_high _ _ H) as H1. apply div_ge in H1; [|exact Ht].
  destruct (inside_low _ _ H) as [H2|(a & b & d)].
  - exfalso. apply div_below in H2; [|exact Ht].
    clear - H1 H2 He. lia.
  - split; [exact a|]. split; [exact b|]. rewrite <- d. apply Z.mod_mul. clear - Ht. lia.
Qed.

(** Which of two neighbours is nearer. *)
Lemma nearer_down x r : 0 <= r -> x = vr / 10 ^ r -> 2 * B <= (2 * x + 1) * 10 ^ r * den ->
  (2 * B = (2 * x + 1) * 10 ^ r * den -> Z.even x = true) ->
  forall c, off x r <= off c r /\ (off x r = off c r -> c = x \/ Z.even x = true).
Proof.
  intros Hr Hx H1 H2 c. unfold off. pose proof (pow10_pos r Hr) as Ht. set (t := 10 ^ r) in *.
  pose proof (div_bounds vr t Ht) as D. rewrite <- Hx in D. pose proof bounds_B as BB.
  assert (x * t * den <= B) as L by (clear - D BB Hden; nia).
  assert (0 < t * den) as Hu by (apply Z.mul_pos_pos; assumption).
  replace (x * t * den) with (x * (t * den)) in * by ring. replace (c * t * den) with (c * (t * den)) by ring.
  replace ((2 * x + 1) * t * den) with (2 * (x * (t * den)) + t * den) in * by ring. set (u := t * den) in *.
  destruct (Z_le_gt_dec c x) as [G|G].
  - destruct (Z.eq_dec c x) as [->|Hne]; [split; [apply Z.le_refl|auto]|].
    assert (c * u < x * u) by (apply Z.mul_lt_mono_pos_r; [exact Hu|clear - G Hne; lia]). clear - H L. lia.
  - assert ((x + 1) * u <= c * u) by (apply Z.mul_le_mono_nonneg_r; [clear - Hu; lia|clear - G; lia]).
    split; [clear - H L H1; lia|]. intros E. right. apply H2. clear - H L H1 E. lia.
Qed.
Lemma nearer_up x r : 0 <= r -> x = vr / 10 ^ r -> forall c, x < c \/ 
  ((2 * x + 1) * 10 ^ r * den <= 2 * B /\ (2 * B = (2 * x + 1) * 10 ^ r * den -> Z.even x = false)) ->
  off (x + 1) r <= off c r /\ (off (x + 1) r = off c r -> c = x + 1 \/ Z.even (x + 1) = true).
Proof.
  intros Hr Hx c H1. unfold off. pose proof (pow10_pos r Hr) as Ht. set (t := 10 ^ r) in *.
  pose proof (div_bounds vr t Ht) as D. rewrite <- Hx in D. pose proof bounds_B as BB.
  assert (B < (x + 1) * t * den) as L by (clear - D BB Hden; nia).
  assert (0 < t * den) as Hu by (apply Z.mul_pos_pos; assumption).
  replace ((x + 1) * t * den) with (x * (t * den) + t * den) in * by ring. replace (c * t * den) with (c * (t * den)) by ring.
  replace ((2 * x + 1) * t * den) with (2 * (x * (t * den)) + t * den) in * by ring. set (u := t * den) in *.
  destruct (Z_le_gt_dec c x) as [G|G].
  - destruct H1 as [H1|[H1 H2]]; [clear - H1 G; lia|].
    assert (c * u <= x * u) by (apply Z.mul_le_mono_nonneg_r; [clear - Hu; lia|exact G]).
    split; [clear - H L H1; lia|]. intros E. right. rewrite Z.even_add, H2; [reflexivity|]. clear - H L H1 E. lia.
  - destruct (Z.eq_dec c (x + 1)) as [->|Hne].
    + replace ((x + 1) * u) with (x * u + u) by ring. split; [apply Z.le_refl|auto].
    + assert ((x + 2) * u <= c * u) by (apply Z.mul_le_mono_nonneg_r; [clear - Hu; lia|clear - G Hne; lia]). clear - H L Hu. lia.
Qed.

(** What the last digit removed says. *)
Lemma last_digit r : 1 <= r -> let x := vr / 10 ^ r in let d := vr / 10 ^ (r - 1) mod 10 in
  (d < 5 -> 2 * B < (2 * x + 1) * 10 ^ r * den) /\ (5 <= d -> (2 * x + 1) * 10 ^ r * den <= 2 * B) /\
  (2 * B = (2 * x + 1) * 10 ^ r * den <-> d = 5 /\ vr mod 10 ^ (r - 1) = 0 /\ B = vr * den) /\
  (2 * B = (2 * x + 1) * 10 ^ r * den -> vr mod 5 = 0).
Proof.
  intros Hr x d. set (t := 10 ^ (r - 1)) in *. assert (0 < t) as Ht by (apply pow10_pos; clear - Hr; lia).
  assert (10 ^ r = 10 * t) as ET by (unfold t; rewrite <- pow10_S by (clear - Hr; lia); f_equal; clear; lia).
  pose proof (Z.div_mod vr t ltac:(clear - Ht; lia)) as E1. pose proof (Z.mod_pos_bound vr t Ht) as M1.
  pose proof (Z.div_mod (vr / t) 10 ltac:(clear; lia)) as E2. pose proof (Z.mod_pos_bound (vr / t) 10 ltac:(clear; lia)) as M2.
  fold d in E2, M2. assert (vr / t / 10 = x) as E3.
  { unfold x. replace r with (r - 1 + 1) by (clear; lia). rewrite <- div_pow10_S by (clear - Hr; lia). reflexivity. }
  rewrite E3 in E2. rewrite ET. set (rho := vr mod t) in *. rewrite E2 in E1. clearbody d x rho. clear E2 E3 ET Hr. pose proof bounds_B as BB.
  assert (vr = 10 * t * x + d * t + rho) as Ev by (rewrite E1 at 1; ring). clear E1.
  replace ((2 * x + 1) * (10 * t) * den) with (2 * (10 * t * x + 5 * t) * den) by ring.
  set (y := 10 * t * x) in *.
  assert (d < 5 -> vr + 1 <= y + 5 * t) as F1 by (clear - Ev M1 M2 Ht; nia).
  assert (5 <= d -> y + 5 * t <= vr) as F2 by (clear - Ev M1 M2 Ht; nia).
  assert (y + 5 * t = vr -> d = 5 /\ rho = 0) as F3.
  { intros E. assert ((5 - d) * t = rho) as X by (clear - Ev E; lia). assert (d = 5) as ->; [|clear - X; lia].
    assert (d < 5 \/ d = 5 \/ 5 < d) as [Y|[Y|Y]] by (clear; lia); [exfalso|exact Y|exfalso]; clear - X Y M1 Ht; nia. }
  assert (d = 5 -> rho = 0 -> y + 5 * t = vr) as F4 by (clear - Ev; intros -> ->; lia).
  assert (2 * B = 2 * (y + 5 * t) * den -> y + 5 * t = vr /\ B = vr * den) as F5.
  { intros E. assert (y + 5 * t = vr) as X by (clear - E BB Hden; nia). split; [exact X|]. rewrite <- X. clear - E. lia. }
  split; [|split; [|split; [split|]]].
  - intros H. apply F1 in H. assert ((vr + 1) * den <= (y + 5 * t) * den) by (apply Z.mul_le_mono_nonneg_r; [clear - Hden; lia|exact H]). clear - BB H0. lia.
  - intros H. apply F2 in H. assert ((y + 5 * t) * den <= vr * den) by (apply Z.mul_le_mono_nonneg_r; [clear - Hden; lia|exact H]). clear - BB H0. lia.
  - intros E. destruct (F5 E) as [X Y]. destruct (F3 X). auto.
  - intros (X & Y & Z). rewrite (F4 X Y), Z. ring.
  - intros E. destruct (F5 E) as [X _]. rewrite <- X. unfold y. replace (10 * t * x + 5 * t) with ((2 * t * x + t) * 5) by ring. apply Z.mod_mul. discriminate.
Qed.

Lemma result_from r x y z (up : bool) : 0 <= r -> x = vr / 10 ^ r -> y = vp / 10 ^ r -> z = vm / 10 ^ r ->
  (up = true -> x + 1 <= y) -> (up = false -> z < x \/ (exact_low r /\ z = x /\ z mod 10 <> 0)) ->
  (z < y -> y / 10 <= z / 10) -> (r = 0 -> x + (if up then 1 else 0) < vp \/ vp * den < C) ->
  ~ exact_low (r + 1) ->
  (up = false -> 2 * B <= (2 * x + 1) * 10 ^ r * den /\ (2 * B = (2 * x + 1) * 10 ^ r * den -> Z.even x = true)) ->
  (up = true -> (z = x /\ ~ exact_low r) \/
     ((2 * x + 1) * 10 ^ r * den <= 2 * B /\ (2 * B = (2 * x + 1) * 10 ^ r * den -> Z.even x = false))) ->
  result_ok (x + (if up then 1 else 0)) r.
Proof.
  intros Hr Hx Hy Hz Hup Hno Hend Hr0 Hexact Hdown Hnear.
  assert (forall c, ~ inside c (r + 1)) as Hshort.
  { apply (no_shorter r y z Hr Hy Hz); [|exact Hexact].
    destruct (Z_lt_le_dec z y) as [L|L]; [apply Hend, L|apply Z.div_le_mono; [reflexivity|exact L]]. }
  assert (forall c, inside c r -> off (x + (if up then 1 else 0)) r <= off c r /\
    (off (x + (if up then 1 else 0)) r = off c r -> c = x + (if up then 1 else 0) \/ Z.even (x + (if up then 1 else 0)) = true)) as Hclosest.
  { intros c Hc. destruct up.
    - apply (nearer_up x r Hr Hx). destruct (Hnear eq_refl) as [[Ezx Hl]|H]; [left|right; exact H].
      destruct (inside_low _ _ Hc) as [H2|(a & b & d)].
      + apply div_below in H2; [|apply pow10_pos; exact Hr]. rewrite <- Hz in H2. rewrite <- Ezx. exact H2.
      + exfalso. apply Hl. split; [exact a|]. split; [exact b|]. rewrite <- d. apply Z.mod_mul. pose proof (pow10_pos r Hr) as Ht. clear - Ht. lia.
    - rewrite Z.add_0_r. apply (nearer_down x r Hr Hx); apply (Hdown eq_refl). }
  clear Hexact Hdown Hnear. unfold result_ok, inside at 1. set (out := x + (if up then 1 else 0)) in *.
  set (t := 10 ^ r) in *. assert (0 < t) as Ht by (apply pow10_pos; exact Hr).
  pose proof (div_bounds vp t Ht) as Dp. pose proof (div_bounds vm t Ht) as Dm. rewrite <- Hy in Dp. rewrite <- Hz in Dm.
  pose proof bounds_A as BA. pose proof bounds_C as BC.
  assert (z <= x) as Hzx by (rewrite Hx, Hz; apply Z.div_le_mono; [exact Ht|apply vm_vr]).
  assert (x <= y) as Hxy by (rewrite Hx, Hy; apply Z.div_le_mono; [exact Ht|clear - Hgap2; lia]).
  assert (out <= y) as Hoy by (unfold out; destruct up; [apply Hup; reflexivity|clear - Hxy; lia]).
  assert (0 <= z) as Hz0 by (rewrite Hz; apply vm_pos; exact Hr).
  assert (z < out \/ exact_low r /\ out = z /\ z mod 10 <> 0) as Hlow.
  { unfold out. destruct up; [left; clear - Hzx; lia|]. destruct (Hno eq_refl) as [L|(a & b & c)]; [left; clear - L; lia|right].
    split; [exact a|]. split; [clear - b; lia|exact c]. }
  assert (out <= x + 1) as Hox by (unfold out; destruct up; clear; lia).
  clear Hno Hup. clearbody out.
  assert (out * t * den <= C) as HC1 by (apply (scale_le out y t vp); try assumption; [apply Dp|apply BC]).
  assert (out mod 10 <> 0) as Hm10.
  { destruct Hlow as [L|(a & -> & c)]; [|exact c]. apply (tenth_between z out y L Hoy). apply Hend. clear - L Hoy. lia. }
  assert (y <= z + 9) as Hyz.
  { destruct (Z_lt_le_dec z y) as [L|L]; [apply tenth_le, Hend, L|clear - L; lia]. }
  split; [exact Hr|].
  assert (1 <= out) as H1.
  { destruct Hlow as [L|(a & d & e)]; [clear - L Hz0; lia|]. rewrite d in *. destruct (Z.eq_dec z 0) as [->|Hne].
    - exfalso. apply e. reflexivity.
    - clear - Hne Hz0. lia. }
  split; [exact H1|]. split; [|split; [|split; [|split; [|split]]]]; [| | | |exact Hshort|exact Hclosest].
  - assert (accept = false -> out * t * den < C) as HC2.
    { intros Ea. destruct (Z.eq_dec (out * t * den) C) as [E|Hne]; [exfalso|clear - Hne HC1; lia].
      assert (out * t <= vp) as H2 by (clear - Hoy Dp Ht; nia).
      destruct (Hopen Ea) as [Ho|Ho]; [clear - E H2 Ho Hden; nia|].
      assert (out * t = vp) as H4 by (clear - E H2 BC Hden; nia).
      destruct (Z.eq_dec r 0) as [E0|Hr'].
      - unfold t in H4. rewrite E0 in H4. change (10 ^ 0) with 1 in H4. destruct (Hr0 E0) as [X|X]; [clear - H4 X; lia|]. unfold t in E. rewrite E0 in E. change (10 ^ 0) with 1 in E. rewrite H4 in E. clear - E X. lia.
      - apply Ho. rewrite <- H4. unfold t. replace r with (r - 1 + 1) by (clear; lia). rewrite pow10_S by (clear - Hr Hr'; lia).
        replace (out * (10 * 10 ^ (r - 1))) with (out * 10 ^ (r - 1) * 10) by (clear; lia). apply Z.mod_mul. discriminate. }
    destruct Hlow as [L|((a & b & c) & d & e)].
    + assert (A < out * t * den) as HA1 by (apply (scale_lt out z t vm); try assumption; [apply BA|apply Dm]).
      destruct accept; [clear - HA1 HC1; lia|]. split; [exact HA1|apply HC2; reflexivity].
    + rewrite a. pose proof (Z.div_mod vm t ltac:(clear - Ht; lia)) as Em. fold t in c. rewrite c, <- Hz in Em.
      split; [|exact HC1]. rewrite b, d. clear - Em. nia.
  - fold t. rewrite <- Hx. exact Hox.
  - rewrite pow10_S by exact Hr. fold t. clear - Hyz Dp Dm BA BC Ht Hden. apply spread with (vp := vp) (vm := vm) (y := y) (z := z); assumption || apply BA || apply BC || apply Dp || apply Dm.
  - exact Hm10.
Qed.

Lemma start_ok : removed_ok 0 (Digits vr vp vm vmz vrz 0 0).
Proof.
  split; cbn [s_vr s_vp s_vm s_vmz s_last s_removed]; try reflexivity; change (10 ^ 0) with 1; rewrite ?Z.div_1_r, ?Z.mod_1_r; try reflexivity.
  - intros E. destruct (Hvmz E) as [a b]. split; [exact a|]. split; [exact b|reflexivity].
  - intros E _. exact E.
  - left. repeat split; reflexivity.
  - intros X. exfalso. apply X. reflexivity.
Qed.

Lemma fuel_21 x : x < 2 ^ 64 -> x < 10 ^ Z.of_nat 21.
Proof. intros H. eapply Z.lt_trans; [exact H|reflexivity]. Qed.

Lemma out_below r x (up : bool) : x = vr / 10 ^ r -> r = 0 -> x + (if up then 1 else 0) < vp \/ vp * den < C.
Proof.
  intros -> ->. change (10 ^ 0) with 1. rewrite Z.div_1_r. destruct Hgap3 as [H|H]; [left|right; exact H]. clear - H. destruct up; lia.
Qed.

Lemma order r : 0 <= r -> vm / 10 ^ r <= vr / 10 ^ r /\ vr / 10 ^ r <= vp / 10 ^ r.
Proof.
  intros Hr. pose proof (pow10_pos r Hr). split; apply Z.div_le_mono; try assumption; [apply vm_vr|clear - Hgap2; lia].
Qed.

Lemma exact_low_vmz r : 1 <= r -> exact_low r -> vmz = true.
Proof.
  intros Hr (a & b & c). apply Hvmz2; [exact a|exact b|]. replace r with (r - 1 + 1) in c by (clear; lia). rewrite pow10_S in c by (clear - Hr; lia).
  pose proof (pow10_pos (r - 1) ltac:(clear - Hr; lia)) as Ht. apply Z.mod_divide in c; [|clear - Ht; lia]. destruct c as [k ->].
  replace (k * (10 * 10 ^ (r - 1))) with (k * 10 ^ (r - 1) * 10) by ring. apply Z.mod_mul. discriminate.
Qed.
Lemma nothing_removed x z : z = vm / 10 ^ 0 -> x = vr / 10 ^ 0 -> vp / 10 <= vm / 10 ->
  z <> x /\ 2 * B < (2 * x + 1) * 10 ^ 0 * den.
Proof.
  change (10 ^ 0) with 1. rewrite !Z.div_1_r. intros -> -> H. apply tenth_le in H. split; [clear - Hvr1; lia|].
  destruct Hten as [->|X]; [clear - Hden; lia|clear - X H; lia].
Qed.

(** In the common case, rounding is by the last digit only. *)
Definition digit_up (r : Z) (up : bool) : Prop := (r = 0 /\ up = false) \/ (1 <= r /\ up = (5 <=? vr / 10 ^ (r - 1) mod 10)).

Lemma common_ok : vmz = false -> vrz = false -> forall fuel r x y z up, 0 <= r -> x = vr / 10 ^ r -> y = vp / 10 ^ r -> z = vm / 10 ^ r ->
  (up = true -> x + 1 <= y) -> digit_up r up -> z < y -> y < 10 ^ Z.of_nat fuel -> (0 < fuel)%nat ->
  exists r' x' z' up', common_loop fuel x y z up r = Ok (x', z', up', r') /\ result_ok (x' + (if (x' =? z') || up' then 1 else 0)) r'.
Proof.
  intros Hmz Hrz. induction fuel as [|fuel IH]; intros r x y z up Hr Hx Hy Hz Hup Hdig Hlt Hf Hp; [clear - Hp; lia|]. cbn [common_loop].
  destruct (Z.leb_spec (y / 10) (z / 10)) as [L|L].
  - exists r, x, z, up. split; [reflexivity|].
    assert (r = 0 -> z <> x /\ 2 * B < (2 * x + 1) * 10 ^ r * den) as H0.
    { intros E. rewrite E in *. apply nothing_removed; try assumption. change (10 ^ 0) with 1 in *. rewrite Z.div_1_r in Hy, Hz. rewrite <- Hy, <- Hz. exact L. }
    assert (1 <= r -> 2 * B <> (2 * x + 1) * 10 ^ r * den) as Htie.
    { intros H1 E. rewrite Hx in E. destruct (last_digit r H1) as (_ & _ & T1 & T2). cbv zeta in T1, T2. pose proof (T2 E) as F. apply T1 in E.
      destruct E as (_ & _ & E). apply (proj2 Hvrz) in E; [|exact F]. congruence. }
    apply (result_from r x y z); try assumption.
    + intros E. apply orb_prop in E as [E|E]; [|apply Hup, E]. apply Z.eqb_eq in E. clear - E Hlt. lia.
    + intros E. apply orb_false_elim in E as [E _]. apply Z.eqb_neq in E. left. pose proof (order r Hr) as [O _].
      rewrite <- Hx, <- Hz in O. clear - E O. lia.
    + intros _. exact L.
    + apply out_below. exact Hx.
    + intros E. apply exact_low_vmz in E; [congruence|clear - Hr; lia].
    + intros E. apply orb_false_elim in E as [_ ->]. destruct Hdig as [[E _]|[H1 E]].
      * destruct (H0 E) as [_ H]. split; [clear - H; lia|]. intros X. exfalso. clear - H X. lia.
      * symmetry in E. apply Z.leb_gt in E. destruct (last_digit r H1) as (T & _). cbv zeta in T. rewrite <- Hx in T. apply T in E.
        split; [clear - E; lia|]. intros X. exfalso. clear - E X. lia.
    + intros E. destruct Hdig as [[H1 E1]|[H1 E1]].
      * exfalso. destruct (H0 H1) as [H _]. rewrite E1, Bool.orb_false_r in E. apply Z.eqb_eq in E. clear - E H. congruence.
      * apply orb_prop in E as [E|E].
        -- left. apply Z.eqb_eq in E. split; [symmetry; exact E|]. intros X. apply exact_low_vmz in X; [congruence|exact H1].
        -- right. rewrite E in E1. symmetry in E1. apply Z.leb_le in E1. destruct (last_digit r H1) as (_ & T & _). cbv zeta in T. rewrite <- Hx in T.
           split; [apply T, E1|]. intros X. exfalso. apply (Htie H1 X).
  - pose proof (vm_pos r Hr) as H0. rewrite <- Hz in H0.
    assert (1 <= y / 10) as L1.
    { assert (0 <= z / 10) by (apply Z.div_pos; [exact H0|reflexivity]). clear - H L. lia. }
    apply IH.
    + clear - Hr. lia.
    + rewrite Hx. apply div_pow10_S, Hr.
    + rewrite Hy. apply div_pow10_S, Hr.
    + rewrite Hz. apply div_pow10_S, Hr.
    + intros E. rewrite low_rest_10 in E. apply Z.leb_le in E. rewrite Hx, Hy, !div_pow10_S by exact Hr.
      apply up_ok.
      * apply pow10_pos. clear - Hr. lia.
      * rewrite <- !div_pow10_S by exact Hr. rewrite <- Hy, <- Hz. exact L.
      * apply half_digit; [exact Hr|]. rewrite <- Hx. exact E.
    + right. split; [clear - Hr; lia|]. rewrite low_rest_10, Hx. replace (r + 1 - 1) with r by (clear; lia). reflexivity.
    + exact L.
    + apply fuel_step. exact Hf.
    + apply (fuel_more y); assumption.
Qed.

Lemma w64_out out r : result_ok out r -> w64 out = out.
Proof.
  intros (Hr & H1 & _ & H2 & _). unfold w64. apply Z.mod_small. split; [clear - H1; lia|].
  pose proof (pow10_pos r Hr) as Ht. pose proof small as [S _].
  assert (vr / 10 ^ r <= vr).
  { apply Z.div_le_upper_bound; [exact Ht|]. pose proof vm_vr. clear - Ht H Hvm1. nia. }
  clear - H H2 S Hgap2. lia.
Qed.

Theorem shortest_ok : exists out r, shortest accept vr vp vm vmz vrz = Ok (out, r) /\ result_ok out r.
Proof.
  unfold shortest. pose proof small as (Sp & Sr & Sm). destruct (vmz || vrz) eqn:Ezz.
  - destruct (general_ok 21 0 _ start_ok) as (r & s & E & R & Hl & Hd).
    { cbn [s_vm s_vp]. clear - Hgap1. lia. }
    { apply fuel_21. exact Sp. }
    { apply Nat.lt_0_succ. }
    rewrite E. cbn [obind].
    assert (exists r' s', (if s_vmz s then zeros_loop 21 s else Ok s) = Ok s' /\ removed_ok r' s' /\
              (s_vmz s' = true -> s_vm s' mod 10 <> 0) /\ (done s' \/ (collapsed s' /\ s_vmz s' = true))) as (r' & s' & E' & R' & Hz' & Hc').
    { destruct (s_vmz s) eqn:Z0.
      - destruct (zeros_ok 21 r s R Z0) as (r' & s' & E1 & R1 & Z1 & M1 & C1).
        + rewrite (ro_vm _ _ R). pose proof (pow10_pos r (ro_r _ _ R)) as Ht. apply fuel_21.
          eapply Z.le_lt_trans; [|exact Sm]. apply Z.div_le_upper_bound; [exact Ht|]. clear - Ht Hvm1. nia.
        + apply Nat.lt_0_succ.
        + destruct (ro_vmz _ _ R Z0) as (_ & _ & Hm). pose proof (pow10_pos r (ro_r _ _ R)) as Ht.
          rewrite (ro_vm _ _ R). pose proof (Z.div_mod vm (10 ^ r) ltac:(clear - Ht; lia)) as X. rewrite Hm in X.
          clear - X Hvm1 Ht. nia.
        + left. split; assumption.
        + exists r', s'. split; [exact E1|]. split; [exact R1|]. split; [intros _; exact M1|]. destruct C1; [left; assumption|right; split; assumption].
      - exists r, s. split; [reflexivity|]. split; [exact R|]. split; [intros X; rewrite Z0 in X; discriminate|left; split; assumption]. }
    rewrite E'. cbn [obind].
    set (last := if s_vrz s' && (s_last s' =? 5) && (s_vr s' mod 2 =? 0) then 4 else s_last s').
    set (up := ((s_vr s' =? s_vm s') && (negb accept || negb (s_vmz s'))) || (5 <=? last)).
    assert (result_ok (s_vr s' + (if up then 1 else 0)) r') as RR.
    { assert (r' = 0 -> vp / 10 <= vm / 10) as Hend0.
      { intros E0. pose proof (ro_vp _ _ R') as P1. pose proof (ro_vm _ _ R') as P2. rewrite E0 in P1, P2. change (10 ^ 0) with 1 in P1, P2. rewrite Z.div_1_r in P1, P2.
        rewrite <- P1, <- P2. destruct Hc' as [[_ H]|[(_ & -> & _) _]]; [exact H|apply Z.le_refl]. }
      pose proof (ro_r _ _ R') as Hr. pose proof (order r' Hr) as [O1 O2]. rewrite <- (ro_vr _ _ R'), <- (ro_vm _ _ R') in O1.
      apply (result_from r' (s_vr s') (s_vp s') (s_vm s')); try apply R'.
      - unfold up. intros Hu. apply orb_prop in Hu as [Hu|Hu].
        + apply andb_prop in Hu as [Hu1 Hu2]. apply Z.eqb_eq in Hu1. destruct Hc' as [[Hc' _]|[_ Hc']].
          * clear - Hu1 Hc'. lia.
          * destruct (ro_vmz _ _ R' Hc') as (a & _). rewrite a, Hc' in Hu2. discriminate.
        + apply Z.leb_le in Hu. apply (ro_up _ _ R'). unfold last in Hu. clear - Hu. destruct (_ && _) in Hu; lia.
      - unfold up. intros Hu. apply orb_false_elim in Hu as [Hu _].
        destruct (Z.eqb_spec (s_vr s') (s_vm s')) as [Ee|Hne]; [right|left; clear - Hne O1; lia].
        cbn [andb] in Hu. apply orb_false_elim in Hu as [_ Hu]. apply negb_false_iff in Hu.
        split; [apply (ro_vmz _ _ R' Hu)|]. split; [symmetry; exact Ee|apply Hz', Hu].
      - intros _. destruct Hc' as [[_ H]|[(_ & -> & _) _]]; [exact H|apply Z.le_refl].
      - apply out_below, R'.
      - intros X. pose proof (exact_low_vmz (r' + 1) ltac:(clear - Hr; lia) X) as X1. destruct X as (_ & _ & X2).
        rewrite <- Z.eqb_eq, mod_pow10_b in X2 by exact Hr. apply andb_prop in X2 as [X2 X3]. apply Z.eqb_eq in X2, X3.
        pose proof (ro_vmz2 _ _ R' X1 X2) as X4. apply (Hz' X4). rewrite (ro_vm _ _ R'). exact X3.
      - intros Hu. apply orb_false_elim in Hu as [_ Hu]. apply Z.leb_gt in Hu. destruct (ro_digit _ _ R') as [(E0 & E1 & _)|(E0 & E1 & E2)].
        + rewrite E0 in *. destruct (nothing_removed (s_vr s') (s_vm s') (ro_vm _ _ R') (ro_vr _ _ R') (Hend0 eq_refl)) as [_ H].
          split; [clear - H; lia|]. intros X. exfalso. clear - H X. lia.
        + destruct (last_digit r' E0) as (T1 & _ & T2 & _). cbv zeta in T1, T2. rewrite <- (ro_vr _ _ R'), <- E1 in T1, T2.
          unfold last in Hu. destruct (s_vrz s' && (s_last s' =? 5) && (s_vr s' mod 2 =? 0)) eqn:Et.
          * apply andb_prop in Et as [Et Et3]. apply andb_prop in Et as [Et1 Et2]. rewrite Et1 in E2. symmetry in E2. apply andb_prop in E2 as [E2 E3].
            apply Z.eqb_eq in Et2, Et3, E3. assert (2 * B = (2 * s_vr s' + 1) * 10 ^ r' * den) as X.
            { apply T2. split; [exact Et2|]. split; [exact E3|]. apply (proj1 Hvrz). exact E2. }
            split; [clear - X; lia|]. intros _. rewrite Zmod_even in Et3. destruct (Z.even (s_vr s')); [reflexivity|discriminate].
          * apply T1 in Hu. split; [clear - Hu; lia|]. intros X. exfalso. clear - Hu X. lia.
      - intros Hu. destruct (ro_digit _ _ R') as [(E0 & E1 & _)|(E0 & E1 & E2)].
        + exfalso. rewrite E0 in *. destruct (nothing_removed (s_vr s') (s_vm s') (ro_vm _ _ R') (ro_vr _ _ R') (Hend0 eq_refl)) as [H _].
          apply orb_prop in Hu as [Hu|Hu].
          * apply andb_prop in Hu as [Hu _]. apply Z.eqb_eq in Hu. clear - H Hu. congruence.
          * unfold last in Hu. rewrite E1 in Hu. rewrite Bool.andb_false_r in Hu. discriminate.
        + destruct (last_digit r' E0) as (_ & T1 & T2 & T3). cbv zeta in T1, T2, T3. rewrite <- (ro_vr _ _ R') in T1, T2, T3. rewrite <- E1 in T1, T2.
          apply orb_prop in Hu as [Hu|Hu].
          * left. apply andb_prop in Hu as [Hu1 Hu2]. apply Z.eqb_eq in Hu1. split; [symmetry; exact Hu1|]. intros X.
            pose proof (exact_low_vmz r' E0 X) as X1. destruct X as (Xa & _ & X2). rewrite Xa, (ro_vmz2 _ _ R' X1 X2) in Hu2. discriminate.
          * right. apply Z.leb_le in Hu. unfold last in Hu. destruct (s_vrz s' && (s_last s' =? 5) && (s_vr s' mod 2 =? 0)) eqn:Et; [exfalso; apply Hu; reflexivity|].
            split; [apply T1, Hu|]. intros X. pose proof (T3 X) as X5. apply T2 in X as (X1 & X2 & X3). rewrite (proj2 Hvrz X3 X5), X2 in E2.
            rewrite E2, X1 in Et. cbn [andb Z.eqb] in Et. rewrite Zmod_even in Et. destruct (Z.even (s_vr s')); [discriminate Et|reflexivity]. }
    exists (s_vr s' + (if up then 1 else 0)), r'. rewrite (ro_removed _ _ R'). fold up. rewrite (w64_out _ _ RR). split; [reflexivity|exact RR].
  - apply orb_false_elim in Ezz as [Ez1 Ez2]. destruct (Z.ltb_spec (vm / 100) (vp / 100)) as [L|L].
    + destruct (common_ok Ez1 Ez2 21 2 (vr / 100) (vp / 100) (vm / 100) (50 <=? low_rest vr 100 (vr / 100))) as (r & x & z & up & E & R);
        try reflexivity; try exact L; try apply Nat.lt_0_succ; try (clear; lia).
      * intros H. rewrite low_rest_mod in H by (clear; lia). apply Z.leb_le in H. apply up_ok; [clear; lia|exact L|clear - H; lia].
      * right. split; [clear; lia|]. rewrite low_rest_mod by (clear; lia). change (10 ^ (2 - 1)) with 10. apply tens_digit.
      * apply fuel_21. eapply Z.le_lt_trans; [|exact Sp]. apply Z.div_le_upper_bound; [clear; lia|clear - Hgap1 Hvm1; lia].
      * rewrite E. cbn [obind]. exists (x + (if (x =? z) || up then 1 else 0)), r. rewrite (w64_out _ _ R). split; [reflexivity|exact R].
    + destruct (common_ok Ez1 Ez2 21 0 vr vp vm false) as (r & x & z & up & E & R);
        try (change (10 ^ 0) with 1; rewrite Z.div_1_r; reflexivity); try apply Nat.lt_0_succ; try (clear; lia); try discriminate; try (left; split; reflexivity).
      * clear - Hgap1. lia.
      * apply fuel_21. exact Sp.
      * rewrite E. cbn [obind]. exists (x + (if (x =? z) || up then 1 else 0)), r. rewrite (w64_out _ _ R). split; [reflexivity|exact R].
Qed.
End Shortest.
