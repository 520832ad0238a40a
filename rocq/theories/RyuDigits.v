(** * Writing digits *)
From Verif Require Import Base BaseFacts Text RyuModel RyuTables RyuSpec RyuShortest.
Local Open Scope Z_scope.

(** ** The last [k] digits of a number *)
Fixpoint digs (k : nat) (v : Z) : bytes :=
  match k with O => [] | S k => digs k (v / 10) ++ [Z.to_N (48 + v mod 10)] end.

Lemma digs_length k : forall v, length (digs k v) = k.
Proof. induction k as [|k IH]; intros v; cbn [digs]; [reflexivity|]. rewrite app_length, IH. cbn. lia. Qed.

Lemma digs_digits k : forall v, Forall is_digit (digs k v).
Proof.
  induction k as [|k IH]; intros v; cbn [digs]; [constructor|]. apply Forall_app. split; [apply IH|]. constructor; [|constructor].
  unfold is_digit. pose proof (Z.mod_pos_bound v 10 ltac:(lia)). lia.
Qed.

Lemma digits_value_app a b : digits_value (a ++ b) = digits_value a * 10 ^ Z.of_nat (length b) + digits_value b.
Proof.
  unfold digits_value. rewrite fold_left_app. generalize (fold_left (fun a c => 10 * a + (Z.of_N c - 48)) a 0). intros x.
  assert (forall l y, fold_left (fun a c => 10 * a + (Z.of_N c - 48)) l y = y * 10 ^ Z.of_nat (length l) + fold_left (fun a c => 10 * a + (Z.of_N c - 48)) l 0) as H.
  { induction l as [|c l IH]; intros y; cbn [fold_left length].
    - change (10 ^ Z.of_nat 0) with 1. lia.
    - rewrite IH, (IH (10 * 0 + _)). rewrite Nat2Z.inj_succ, Z.pow_succ_r by lia. ring. }
  apply H.
Qed.

Lemma digs_value k : forall v, 0 <= v < 10 ^ Z.of_nat k -> digits_value (digs k v) = v.
Proof.
  induction k as [|k IH]; intros v Hv; cbn [digs].
  - change (10 ^ Z.of_nat 0) with 1 in Hv. cbn. lia.
  - rewrite digits_value_app, IH.
    + cbn. pose proof (Z.mod_pos_bound v 10 ltac:(lia)). pose proof (Z.div_mod v 10 ltac:(lia)). lia.
    + rewrite Nat2Z.inj_succ, Z.pow_succ_r in Hv by lia. split; [apply Z.div_pos; lia|]. apply Z.div_lt_upper_bound; lia.
Qed.

Lemma digs_app a : forall b v, digs (a + b) v = digs a (v / 10 ^ Z.of_nat b) ++ digs b v.
Proof.
  intros b. induction b as [|b IH]; intros v.
  - rewrite Nat.add_0_r. change (10 ^ Z.of_nat 0) with 1. rewrite Z.div_1_r, app_nil_r. reflexivity.
  - rewrite Nat.add_succ_r. cbn [digs]. rewrite IH, app_assoc. f_equal. f_equal. rewrite Z.div_div by lia. do 2 f_equal.
    rewrite Nat2Z.inj_succ, Z.pow_succ_r by lia. reflexivity.
Qed.
Lemma digs_mod k : forall v, digs k (v mod 10 ^ Z.of_nat k) = digs k v.
Proof.
  induction k as [|k IH]; intros v; [reflexivity|]. cbn [digs]. rewrite Nat2Z.inj_succ, Z.pow_succ_r by lia. f_equal.
  - rewrite <- (IH (v / 10)). f_equal. rewrite Z.rem_mul_r by lia.
    pose proof (Z.mod_pos_bound v 10 ltac:(lia)). rewrite (Z.add_comm (v mod 10)), (Z.mul_comm 10), Z.div_add_l by lia.
    rewrite (Z.div_small (v mod 10)) by lia. lia.
  - do 3 f_equal. rewrite Z.rem_mul_r by lia. rewrite (Z.mul_comm 10), Z.mod_add by lia. apply Z.mod_mod. lia.
Qed.
Lemma digs_zero k : digs k 0 = repeat 48%N k.
Proof. induction k as [|k IH]; [reflexivity|]. cbn [digs]. change (0 / 10) with 0. rewrite IH. rewrite <- repeat_cons. reflexivity. Qed.
Lemma digs_pad a b v : 0 <= v < 10 ^ Z.of_nat b -> digs (a + b) v = repeat 48%N a ++ digs b v.
Proof. intros H. rewrite digs_app, Z.div_small, digs_zero by exact H. reflexivity. Qed.

Lemma digs_first k v : 10 ^ Z.of_nat k <= v < 10 ^ Z.of_nat (S k) -> exists c r, digs (S k) v = c :: r /\ c <> 48%N.
Proof.
  intros H. change (S k) with (1 + k)%nat. rewrite digs_app. cbn [digs app]. eexists _, _. split; [reflexivity|].
  rewrite Nat2Z.inj_succ, Z.pow_succ_r in H by lia.
  assert (1 <= v / 10 ^ Z.of_nat k < 10).
  { split; [apply Z.div_le_lower_bound; lia|apply Z.div_lt_upper_bound; lia]. }
  rewrite Z.mod_small by lia. lia.
Qed.
Lemma digs_last k v : v mod 10 <> 0 -> exists r c, digs (S k) v = r ++ [c] /\ c <> 48%N.
Proof.
  intros H. cbn [digs]. eexists _, _. split; [reflexivity|]. pose proof (Z.mod_pos_bound v 10 ltac:(lia)). lia.
Qed.

(** ** Numbers of digits *)

Definition has_digits (k v : Z) : Prop := 1 <= k /\ 10 ^ (k - 1) <= v < 10 ^ k.

Lemma has_digits_unique j k v : has_digits j v -> has_digits k v -> j = k.
Proof.
  intros [H1 H2] [H3 H4]. destruct (Z_lt_le_dec j k) as [L|L].
  - exfalso. assert (10 ^ j <= 10 ^ (k - 1)) by (apply Z.pow_le_mono_r; lia). lia.
  - destruct (Z_lt_le_dec k j) as [L'|L']; [|lia]. exfalso. assert (10 ^ k <= 10 ^ (j - 1)) by (apply Z.pow_le_mono_r; lia). lia.
Qed.

Lemma decimalLength17_ok v : 1 <= v < 10 ^ 17 -> has_digits (decimalLength17 v) v /\ decimalLength17 v <= 17.
Proof.
  intros H. unfold decimalLength17.
  repeat match goal with |- context [?a <=? v] => destruct (Z.leb_spec a v); [split; [split; [|split; cbn]|]; lia|] end.
  split; [split; [|split; cbn]|]; lia.
Qed.

Lemma has_digits_div v k j : has_digits k v -> 0 <= j < k -> has_digits (k - j) (v / 10 ^ j).
Proof.
  intros [H1 H2] Hj. pose proof (pow10_pos j ltac:(lia)). split; [lia|].
  split.
  - apply Z.div_le_lower_bound; [lia|]. rewrite <- Z.pow_add_r by lia. replace (j + (k - j - 1)) with (k - 1) by lia. lia.
  - apply Z.div_lt_upper_bound; [lia|]. rewrite <- Z.pow_add_r by lia. replace (j + (k - j)) with k by lia. lia.
Qed.

(** ** Memory *)

Lemma store_at (a : cells) x b p c : p = Z.of_nat (length a) -> store (a ++ x :: b) p c = Ok (a ++ Some c :: b).
Proof.
  intros ->. unfold store. rewrite app_length. cbn [length].
  destruct (Z.leb_spec 0 (Z.of_nat (length a))); [|lia]. destruct (Z.ltb_spec (Z.of_nat (length a)) (Z.of_nat (length a + S (length b)))); [|lia].
  cbn [andb]. rewrite Nat2Z.id, firstn_app, Nat.sub_diag, firstn_all, app_nil_r. f_equal. f_equal. f_equal.
  change (a ++ x :: b) with (a ++ ([x] ++ b)). rewrite app_assoc. rewrite <- (last_length a x). rewrite skipn_app, skipn_all, Nat.sub_diag. reflexivity.
Qed.

Lemma store_all_at t : forall (a g b : cells) p, length g = length t -> p = Z.of_nat (length a) ->
  store_all (a ++ g ++ b) p t = Ok (a ++ map Some t ++ b).
Proof.
  induction t as [|c t IH]; intros a g b p Hg Hp; destruct g as [|x g]; cbn [length] in Hg; try lia; cbn [store_all map app].
  - reflexivity.
  - rewrite store_at by exact Hp. cbn [obind]. change (a ++ Some c :: g ++ b) with (a ++ [Some c] ++ g ++ b). rewrite app_assoc.
    rewrite IH; [rewrite <- app_assoc; reflexivity|lia|]. rewrite app_length. cbn [length]. lia.
Qed.

Lemma digit_table : forallb (fun c => match slice DIGIT_TABLE (2 * Z.of_nat c) 2 with Some t => if list_eq_dec N.eq_dec t (digs 2 (Z.of_nat c)) then true else false | None => false end) (seq 0 100) = true.
Proof. vm_compute. reflexivity. Qed.

Lemma digit_table_at c : 0 <= c < 100 -> slice DIGIT_TABLE (2 * c) 2 = Some (digs 2 c).
Proof.
  intros H. pose proof digit_table as T. rewrite forallb_forall in T. specialize (T (Z.to_nat c)). rewrite Z2Nat.id in T by lia.
  rewrite in_seq in T. specialize (T ltac:(lia)). destruct (slice DIGIT_TABLE (2 * c) 2); [|discriminate].
  destruct (list_eq_dec N.eq_dec b (digs 2 c)) as [->|]; [reflexivity|discriminate].
Qed.

Lemma store_digits_at (a g b : cells) p i c : 0 <= c < 100 -> i = 2 * c -> length g = 2%nat -> p = Z.of_nat (length a) ->
  store_digits (a ++ g ++ b) p i = Ok (a ++ map Some (digs 2 c) ++ b).
Proof.
  intros Hc -> Hg Hp. unfold store_digits. rewrite digit_table_at by exact Hc. apply store_all_at; [|exact Hp].
  rewrite Hg, digs_length. reflexivity.
Qed.

(** [k] characters are written between [pre] and [rest], from their end: the last [i] digits of [v] are already. *)
Definition partly (m pre rest : cells) (k i : nat) (v : Z) : Prop :=
  exists gap : cells, (length gap + i = k)%nat /\ m = pre ++ gap ++ map Some (digs i v) ++ rest.

Lemma put_two m pre rest k i v p c : partly m pre rest k i v -> (i + 2 <= k)%nat ->
  p = Z.of_nat (length pre) + Z.of_nat k - Z.of_nat i - 2 -> c = v / 10 ^ Z.of_nat i mod 100 * 2 ->
  exists m', store_digits m p c = Ok m' /\ partly m' pre rest k (i + 2) v.
Proof.
  intros (gap & Hg & ->) Hk Hp Hc. set (n := (length gap - 2)%nat).
  assert (gap = firstn n gap ++ skipn n gap) as Eg by (symmetry; apply firstn_skipn).
  assert (length (firstn n gap) = n) as L1 by (rewrite firstn_length; unfold n; lia).
  assert (length (skipn n gap) = 2%nat) as L2 by (rewrite skipn_length; unfold n; lia).
  rewrite Eg. rewrite <- app_assoc, (app_assoc pre (firstn n gap)).
  eexists. split.
  - apply (store_digits_at _ _ _ p c (v / 10 ^ Z.of_nat i mod 100)).
    + apply Z.mod_pos_bound. lia.
    + lia.
    + exact L2.
    + rewrite app_length, L1. unfold n. lia.
  - exists (firstn n gap). split; [rewrite L1; unfold n; lia|]. rewrite <- app_assoc. f_equal. f_equal.
    rewrite (Nat.add_comm i 2), digs_app, map_app, <- app_assoc. f_equal. f_equal. change 100 with (10 ^ Z.of_nat 2). apply digs_mod.
Qed.

Lemma more_digits v k i j : has_digits (Z.of_nat k) v -> 10 ^ Z.of_nat j <= v / 10 ^ Z.of_nat i -> (i + j < k)%nat.
Proof.
  intros [H1 H2] H. pose proof (pow10_pos (Z.of_nat i) ltac:(lia)) as Hp.
  assert (10 ^ Z.of_nat (i + j) <= v).
  { rewrite Nat2Z.inj_add, Z.pow_add_r by lia. pose proof (div_bounds v (10 ^ Z.of_nat i) Hp).
    assert (10 ^ Z.of_nat j * 10 ^ Z.of_nat i <= v / 10 ^ Z.of_nat i * 10 ^ Z.of_nat i) by (apply Z.mul_le_mono_nonneg_r; lia). lia. }
  assert (10 ^ Z.of_nat (i + j) < 10 ^ Z.of_nat k) as L by lia. apply Z.pow_lt_mono_r_iff in L; lia.
Qed.
Lemma no_more_digits v k i j : has_digits (Z.of_nat k) v -> v / 10 ^ Z.of_nat i < 10 ^ Z.of_nat j -> (k <= i + j)%nat.
Proof.
  intros [H1 H2] H. pose proof (pow10_pos (Z.of_nat i) ltac:(lia)) as Hp. apply div_lt in H; [|exact Hp].
  rewrite <- Z.pow_add_r, <- Nat2Z.inj_add in H by lia.
  assert (10 ^ (Z.of_nat k - 1) < 10 ^ Z.of_nat (j + i)) as L by lia. apply Z.pow_lt_mono_r_iff in L; lia.
Qed.
Lemma shift_digits v i j : v / 10 ^ Z.of_nat i / 10 ^ Z.of_nat j = v / 10 ^ Z.of_nat (i + j).
Proof. rewrite Z.div_div by (try apply Z.pow_pos_nonneg; lia). rewrite <- Z.pow_add_r, <- Nat2Z.inj_add by lia. reflexivity. Qed.

Lemma four_ok m0 pre rest k v e : e = Z.of_nat (length pre) + Z.of_nat k -> has_digits (Z.of_nat k) v -> forall fuel m i x,
  m = m0 -> partly m0 pre rest k i v -> x = v / 10 ^ Z.of_nat i -> 1 <= x < 10 ^ (4 * Z.of_nat fuel) ->
  exists m' i', four_digits fuel m e x (Z.of_nat i) = Ok (m', v / 10 ^ Z.of_nat i', Z.of_nat i') /\ partly m' pre rest k i' v /\
    1 <= v / 10 ^ Z.of_nat i' < 10000.
Proof.
  intros He Hd fuel. revert m0. induction fuel as [|fuel IH]; intros m0 m i x -> Hp Hx Hf.
  - change (10 ^ (4 * Z.of_nat 0)) with 1 in Hf. lia.
  - cbn [four_digits]. destruct (Z.leb_spec 10000 x) as [L|L].
    + assert (i + 4 < k)%nat as Hk by (apply (more_digits v); [exact Hd|rewrite <- Hx; exact L]).
      destruct (put_two m0 pre rest k i v (e - Z.of_nat i - 2) (x mod 10000 mod 100 * 2) Hp) as (m1 & E1 & P1); [lia|lia| |].
      { rewrite <- Hx. f_equal. clear. lia. }
      rewrite E1. cbn [obind].
      destruct (put_two m1 pre rest k (i + 2) v (e - Z.of_nat i - 4) (x mod 10000 / 100 * 2) P1) as (m2 & E2 & P2); [lia|lia| |].
      { rewrite <- shift_digits, <- Hx. change (10 ^ Z.of_nat 2) with 100. f_equal. clear. lia. }
      rewrite E2. cbn [obind]. replace (Z.of_nat i + 4) with (Z.of_nat (i + 4)) by lia.
      apply (IH m2); [reflexivity| | |].
      * replace (i + 4)%nat with (i + 2 + 2)%nat by lia. exact P2.
      * rewrite <- shift_digits, <- Hx. reflexivity.
      * replace (4 * Z.of_nat (S fuel)) with (4 + 4 * Z.of_nat fuel) in Hf by lia. rewrite Z.pow_add_r in Hf by lia.
        split; [apply Z.div_le_lower_bound; lia|apply Z.div_lt_upper_bound; [lia|]]. apply Hf.
    + exists m0, i. rewrite <- Hx. split; [reflexivity|]. split; [exact Hp|lia].
Qed.

Lemma last_one (pre gap rest : cells) k i v : (length gap + i = k)%nat -> k = S i -> v / 10 ^ Z.of_nat i < 10 -> 0 <= v ->
  store (pre ++ gap ++ map Some (digs i v) ++ rest) (Z.of_nat (length pre)) (Z.to_N (48 + v / 10 ^ Z.of_nat i)) =
  Ok (pre ++ map Some (digs k v) ++ rest).
Proof.
  intros Hg -> Hx Hv. destruct gap as [|g [|? ?]]; cbn [length] in Hg; try lia. cbn [app]. rewrite store_at by reflexivity.
  f_equal. f_equal. change (S i) with (1 + i)%nat. rewrite digs_app. cbn [digs app map]. f_equal. rewrite Z.mod_small; [reflexivity|].
  split; [apply Z.div_pos; [exact Hv|apply Z.pow_pos_nonneg; lia]|exact Hx].
Qed.

Theorem to_chars_uint64_ok (pre gap rest : cells) v : has_digits (Z.of_nat (length gap)) v -> v < 10 ^ 17 ->
  to_chars_uint64 (pre ++ gap ++ rest) (Z.of_nat (length pre)) v (Z.of_nat (length gap)) =
  Ok (pre ++ map Some (digs (length gap) v) ++ rest, Z.of_nat (length gap)).
Proof.
  intros Hd Hv. set (k := length gap) in *. set (e := Z.of_nat (length pre) + Z.of_nat k).
  assert (1 <= v) as Hv1.
  { destruct Hd as [H1 H2]. pose proof (pow10_pos (Z.of_nat k - 1) ltac:(lia)). lia. }
  assert (partly (pre ++ gap ++ rest) pre rest k 0 v) as P0 by (exists gap; split; [unfold k; lia|reflexivity]).
  set (m0 := pre ++ gap ++ rest) in *. unfold to_chars_uint64. fold e.
  assert (exists m1 i1,
    (if negb (v / 2 ^ 32 =? 0) then
       let q := v / 100000000 in
       let output2 := low_rest v 100000000 q in
       let c := output2 mod 10000 in
       let output2 := output2 / 10000 in
       let d := output2 mod 10000 in
       let c0 := c mod 100 * 2 in
       let c1 := c / 100 * 2 in
       let d0 := d mod 100 * 2 in
       let d1 := d / 100 * 2 in
       do m <- store_digits m0 (e - 0 - 2) c0;
       do m <- store_digits m (e - 0 - 4) c1;
       do m <- store_digits m (e - 0 - 6) d0;
       do m <- store_digits m (e - 0 - 8) d1;
       Ok (m, q, 8)
     else Ok (m0, v, 0)) = Ok (m1, v / 10 ^ Z.of_nat i1, Z.of_nat i1) /\ partly m1 pre rest k i1 v /\ 1 <= v / 10 ^ Z.of_nat i1 < 2 ^ 32) as (m1 & i1 & E1 & P1 & B1).
  { destruct (Z.eqb_spec (v / 2 ^ 32) 0) as [Ez|Ez]; cbn [negb].
    - exists m0, 0%nat. change (10 ^ Z.of_nat 0) with 1. rewrite Z.div_1_r. split; [reflexivity|]. split; [exact P0|]. clear - Ez Hv1.
      pose proof (Z.div_mod v (2 ^ 32) ltac:(lia)). pose proof (Z.mod_pos_bound v (2 ^ 32) ltac:(lia)). lia.
    - assert (10 ^ Z.of_nat 9 <= v / 10 ^ Z.of_nat 0) as L.
      { change (10 ^ Z.of_nat 0) with 1. change (10 ^ Z.of_nat 9) with 1000000000. rewrite Z.div_1_r. clear - Ez Hv1.
        pose proof (Z.div_mod v (2 ^ 32) ltac:(lia)). pose proof (Z.mod_pos_bound v (2 ^ 32) ltac:(lia)). lia. }
      pose proof (more_digits v k 0 9 Hd L) as Hk. cbv zeta. rewrite low_rest_mod by lia.
      destruct (put_two m0 pre rest k 0 v (e - 0 - 2) (v mod 100000000 mod 10000 mod 100 * 2) P0) as (m1 & E1 & P1); [lia|lia| |].
      { change (10 ^ Z.of_nat 0) with 1. clear. lia. }
      rewrite E1. cbn [obind].
      destruct (put_two m1 pre rest k 2 v (e - 0 - 4) (v mod 100000000 mod 10000 / 100 * 2) P1) as (m2 & E2 & P2); [lia|lia| |].
      { change (10 ^ Z.of_nat 2) with 100. clear. lia. }
      rewrite E2. cbn [obind].
      destruct (put_two m2 pre rest k 4 v (e - 0 - 6) (v mod 100000000 / 10000 mod 10000 mod 100 * 2) P2) as (m3 & E3 & P3); [lia|lia| |].
      { change (10 ^ Z.of_nat 4) with 10000. clear. lia. }
      rewrite E3. cbn [obind].
      destruct (put_two m3 pre rest k 6 v (e - 0 - 8) (v mod 100000000 / 10000 mod 10000 / 100 * 2) P3) as (m4 & E4 & P4); [lia|lia| |].
      { change (10 ^ Z.of_nat 6) with 1000000. clear. lia. }
      rewrite E4. cbn [obind]. exists m4, 8%nat. split; [reflexivity|]. split; [exact P4|].
      change (10 ^ Z.of_nat 8) with 100000000. change (10 ^ Z.of_nat 9) with 1000000000 in L. change (10 ^ Z.of_nat 0) with 1 in L. rewrite Z.div_1_r in L.
      clear - L Hv. lia. }
  cbv zeta in E1 |- *. fold e.
  match goal with |- obind ?a _ = _ => replace a with (@Ok (cells * Z * Z) (m1, v / 10 ^ Z.of_nat i1, Z.of_nat i1)) by (symmetry; exact E1) end.
  cbn [obind]. clear E1. unfold w32 at 1. rewrite (Z.mod_small _ (2 ^ 32)) by lia.
  destruct (four_ok m1 pre rest k v e eq_refl Hd 4 m1 i1 _ eq_refl P1 eq_refl) as (m2 & i2 & E2 & P2 & B2).
  { change (10 ^ (4 * Z.of_nat 4)) with 10000000000000000. lia. }
  rewrite E2. cbn [obind]. clear E2 B1 P1.
  set (x := v / 10 ^ Z.of_nat i2) in *.
  assert (exists m3 i3,
    (if 100 <=? x then do m <- store_digits m2 (e - Z.of_nat i2 - 2) (w32 (w32 (x - 100 * (x / 100)) * 2)); Ok (m, x / 100, Z.of_nat i2 + 2)
     else Ok (m2, x, Z.of_nat i2)) = Ok (m3, v / 10 ^ Z.of_nat i3, Z.of_nat i3) /\ partly m3 pre rest k i3 v /\ 1 <= v / 10 ^ Z.of_nat i3 < 100) as (m3 & i3 & E3 & P3 & B3).
  { destruct (Z.leb_spec 100 x) as [L|L].
    - assert (i2 + 2 < k)%nat as Hk by (apply (more_digits v); [exact Hd|exact L]).
      destruct (put_two m2 pre rest k i2 v (e - Z.of_nat i2 - 2) (w32 (w32 (x - 100 * (x / 100)) * 2)) P2) as (m3 & E3 & P3); [lia|lia| |].
      { fold x. clear - B2. unfold w32. rewrite <- (Z.mod_eq x 100) by lia. pose proof (Z.mod_pos_bound x 100 ltac:(lia)).
        rewrite !(Z.mod_small _ (2 ^ 32)); lia. }
      rewrite E3. cbn [obind]. exists m3, (i2 + 2)%nat. rewrite <- shift_digits. fold x. change (10 ^ Z.of_nat 2) with 100.
      split; [do 2 f_equal; lia|]. split; [exact P3|]. clear - B2 L. lia.
    - exists m2, i2. fold x. split; [reflexivity|]. split; [exact P2|]. lia. }
  rewrite E3. cbn [obind]. clear E3 P2 B2 x. set (x := v / 10 ^ Z.of_nat i3) in *.
  destruct (Z.leb_spec 10 x) as [L|L].
  - assert (i3 + 1 < k)%nat as Hk by (apply (more_digits v); [exact Hd|exact L]).
    assert (k <= i3 + 2)%nat as Hk2 by (apply (no_more_digits v); [exact Hd|apply B3]).
    destruct (put_two m3 pre rest k i3 v (e - Z.of_nat i3 - 2) (w32 (x * 2)) P3) as (m4 & E4 & P4); [lia|lia| |].
    { fold x. unfold w32. rewrite !Z.mod_small; lia. }
    rewrite E4. cbn [obind]. destruct P4 as (gap' & Hg & ->). destruct gap'; cbn [length] in Hg; [|lia].
    replace (i3 + 2)%nat with k by lia. do 2 f_equal. lia.
  - assert (k <= i3 + 1)%nat as Hk2 by (apply (no_more_digits v); [exact Hd|apply L]).
    assert (i3 + 0 < k)%nat as Hk by (apply (more_digits v); [exact Hd|apply B3]).
    destruct P3 as (gap' & Hg & ->). unfold x. rewrite (last_one pre gap' rest k); [|exact Hg|lia|exact L|lia].
    cbn [obind]. do 2 f_equal. lia.
Qed.

Lemma to_chars_zero (pre : cells) x rest olength :
  to_chars_uint64 (pre ++ x :: rest) (Z.of_nat (length pre)) 0 olength = Ok (pre ++ Some 48%N :: rest, 1).
Proof.
  unfold to_chars_uint64. cbv zeta. change (0 / 2 ^ 32 =? 0) with true. cbn [negb obind]. change (w32 0) with 0.
  cbn [four_digits]. change (10000 <=? 0) with false. cbn [obind]. change (100 <=? 0) with false. cbn [obind].
  change (10 <=? 0) with false. change (Z.to_N (48 + 0)) with 48%N. cbv iota. rewrite store_at by reflexivity. reflexivity.
Qed.
