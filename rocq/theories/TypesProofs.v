From Verif Require Import Base BaseFacts TypesModel TypesSpec.
Local Open Scope Z_scope.
Ltac Zify.zify_post_hook ::= Z.to_euclidean_division_equations.

(** ** Type ids *)

Lemma in_dec_b t l : existsb (Z.eqb t) l = true -> In t l.
Proof. intros H. apply existsb_exists in H as (x & Hx & E). apply Z.eqb_eq in E. subst x. exact Hx. Qed.

Lemma make_type_parts k d l : supported k d l ->
  let t := make_type (geometry_kind_code k) (dim_code d) (layout_code l) in
  geometry_type_from_type t = geometry_kind_code k /\
  dimensions_from_type t = dim_code d /\
  coord_type_from_type t = layout_code l /\
  In t native_type_ids.
Proof.
  intros H. cbv zeta. destruct l; destruct k; try (discriminate (H eq_refl)); destruct d;
    (split; [reflexivity|split; [reflexivity|split; [reflexivity|apply in_dec_b; reflexivity]]]).
Qed.

Lemma make_type_unknown g d c :
  g = GT_GEOMETRY \/ d = DIM_UNKNOWN \/ c = CT_UNKNOWN \/ (g = GT_BOX /\ c <> CT_SEPARATE) ->
  make_type g d c = TYPE_UNINITIALIZED.
Proof.
  unfold make_type. intros [->|[->|[->|[-> Hc]]]].
  - reflexivity.
  - destruct (g =? GT_GEOMETRY); reflexivity.
  - destruct (g =? GT_GEOMETRY), (d =? DIM_UNKNOWN); reflexivity.
  - destruct (GT_BOX =? GT_GEOMETRY); [reflexivity|]. destruct (d =? DIM_UNKNOWN); [reflexivity|].
    destruct (c =? CT_UNKNOWN); [reflexivity|]. destruct (Z.eqb_spec c CT_SEPARATE); [contradiction|].
    reflexivity.
Qed.

Definition native_table : list (geometry_kind * dim * layout) :=
  [(KBox, XY, Separate); (KBox, XYZ, Separate); (KBox, XYM, Separate); (KBox, XYZM, Separate)] ++
  flat_map (fun l => flat_map (fun d =>
    map (fun k => (k, d, l)) [KPoint; KLinestring; KPolygon; KMultipoint; KMultilinestring; KMultipolygon])
    [XY; XYZ; XYM; XYZM]) [Separate; Interleaved].

Lemma native_table_ids :
  native_type_ids =
  map (fun x => traits_type_id (geometry_kind_code (fst (fst x))) (dim_code (snd (fst x))) (layout_code (snd x)))
    native_table.
Proof. vm_compute. reflexivity. Qed.

Lemma native_table_supported :
  Forall (fun x => supported (fst (fst x)) (snd (fst x)) (snd x)) native_table.
Proof. repeat constructor; cbn; intros H; discriminate H. Qed.

Lemma native_type_ids_enum t : In t native_type_ids <->
  exists k d l, supported k d l /\ t = traits_type_id (geometry_kind_code k) (dim_code d) (layout_code l).
Proof.
  split.
  - rewrite native_table_ids. intros H. apply in_map_iff in H as ([[k d] l] & E & Hin).
    exists k, d, l. split; [|symmetry; exact E].
    pose proof native_table_supported as HF. rewrite Forall_forall in HF. exact (HF _ Hin).
  - intros (k & d & l & Hs & ->). destruct l; destruct k; try (discriminate (Hs eq_refl)); destruct d; apply in_dec_b; reflexivity.
Qed.

Lemma make_type_traits k d l : supported k d l ->
  make_type (geometry_kind_code k) (dim_code d) (layout_code l) =
  traits_type_id (geometry_kind_code k) (dim_code d) (layout_code l).
Proof. intros H. destruct l; destruct k; try (discriminate (H eq_refl)); destruct d; reflexivity. Qed.

Lemma make_type_injective k1 d1 l1 k2 d2 l2 : supported k1 d1 l1 -> supported k2 d2 l2 ->
  make_type (geometry_kind_code k1) (dim_code d1) (layout_code l1) =
  make_type (geometry_kind_code k2) (dim_code d2) (layout_code l2) ->
  k1 = k2 /\ d1 = d2 /\ l1 = l2.
Proof.
  intros H1 H2 E.
  destruct (make_type_parts _ _ _ H1) as (A1 & B1 & C1 & _).
  destruct (make_type_parts _ _ _ H2) as (A2 & B2 & C2 & _).
  rewrite E in A1, B1, C1.
  assert (geometry_kind_code k1 = geometry_kind_code k2) as Ek by congruence.
  assert (dim_code d1 = dim_code d2) as Ed by congruence.
  assert (layout_code l1 = layout_code l2) as El by congruence.
  clear - Ek Ed El. split; [destruct k1, k2; try discriminate Ek; reflexivity|].
  split; [destruct d1, d2; try discriminate Ed; reflexivity|destruct l1, l2; try discriminate El; reflexivity].
Qed.

Ltac dec_eqs :=
  repeat match goal with |- context[?a =? ?b] => destruct (Z.eqb_spec a b); try lia end; cbn [andb negb orb]; try lia.

Lemma recompose_range t : 0 <= t ->
  let r := make_type (geometry_type_from_type t) (dimensions_from_type t) (coord_type_from_type t) in
  r = TYPE_UNINITIALIZED \/ (r = t /\ t < 13991).
Proof.
  intros Ht. cbv zeta.
  unfold make_type, geometry_type_from_type, dimensions_from_type, coord_type_from_type.
  destruct (is_serialized_or_uninit t) eqn:Es; [left; reflexivity|].
  unfold GT_BOX, GT_GEOMETRY, DIM_UNKNOWN, DIM_XY, DIM_XYZ, DIM_XYM, DIM_XYZM, CT_UNKNOWN, CT_SEPARATE, CT_INTERLEAVED,
    TYPE_WKB, TYPE_POINT, TYPE_INTERLEAVED_POINT, TYPE_UNINITIALIZED in *.
  destruct (Z.leb_spec 10001 t) as [Hi|Hi].
  - destruct (Z.leb_spec 100001 t) as [Hw|Hw].
    { left. destruct (_ =? 0); [reflexivity|]. destruct (_ =? 0); reflexivity. }
    set (g := Z.rem (t - 10000) 1000). set (q := Z.quot (t - 10000) 1000).
    assert (t = 10000 + 1000 * q + g /\ 0 <= g < 1000 /\ 0 <= q) as (E & Hg & Hq) by (subst g q; lia).
    destruct (Z.eqb_spec g 990) as [Eg|Eg]; cbn [Z.eqb].
    { left. change (990 =? 0) with false. cbn [orb andb]. destruct (_ =? 0); reflexivity. }
    destruct ((g <=? 6) && (1 <=? g)) eqn:Eb.
    2:{ left. reflexivity. }
    destruct (Z.eqb_spec g 0); [left; reflexivity|].
    destruct (Z.eqb_spec q 0) as [E0|E0]; [right; dec_eqs|].
    destruct (Z.eqb_spec q 1) as [E1|E1]; [right; dec_eqs|].
    destruct (Z.eqb_spec q 2) as [E2|E2]; [right; dec_eqs|].
    destruct (Z.eqb_spec q 3) as [E3|E3]; [right; dec_eqs|].
    left; reflexivity.
  - destruct (Z.leb_spec 100001 t) as [Hw|Hw]; [lia|].
    assert (t <> 0) by (intros ->; discriminate).
    destruct (Z.leb_spec 1 t); [|lia].
    set (g := Z.rem t 1000). set (q := Z.quot t 1000).
    assert (t = 1000 * q + g /\ 0 <= g < 1000 /\ 0 <= q) as (E & Hg & Hq) by (subst g q; lia).
    destruct (Z.eqb_spec g 990) as [Eg|Eg].
    { change (990 =? 0) with false. cbn iota.
      destruct (Z.eqb_spec q 0) as [E0|E0]; [right; dec_eqs|].
      destruct (Z.eqb_spec q 1) as [E1|E1]; [right; dec_eqs|].
      destruct (Z.eqb_spec q 2) as [E2|E2]; [right; dec_eqs|].
      destruct (Z.eqb_spec q 3) as [E3|E3]; [right; dec_eqs|].
      left; reflexivity. }
    destruct ((g <=? 6) && (1 <=? g)) eqn:Eb.
    2:{ left. reflexivity. }
    destruct (Z.eqb_spec g 0); [left; reflexivity|].
    destruct (Z.eqb_spec q 0) as [E0|E0]; [right; dec_eqs|].
    destruct (Z.eqb_spec q 1) as [E1|E1]; [right; dec_eqs|].
    destruct (Z.eqb_spec q 2) as [E2|E2]; [right; dec_eqs|].
    destruct (Z.eqb_spec q 3) as [E3|E3]; [right; dec_eqs|].
    left; reflexivity.
Qed.

Fixpoint zrange (n : nat) (from : Z) : list Z :=
  match n with O => [] | S n' => from :: zrange n' (from + 1) end.
Lemma zrange_in n from t : from <= t < from + Z.of_nat n -> In t (zrange n from).
Proof.
  revert from; induction n as [|n IH]; intros from H; cbn [zrange]; [lia|].
  destruct (Z.eq_dec from t); [left; assumption|right]. apply IH. lia.
Qed.

Lemma recompose_small :
  forallb (fun t =>
    let r := make_type (geometry_type_from_type t) (dimensions_from_type t) (coord_type_from_type t) in
    if existsb (Z.eqb t) native_type_ids then r =? t else r =? TYPE_UNINITIALIZED)
    (zrange (Z.to_nat 13991) 0) = true.
Proof. vm_compute. reflexivity. Qed.

(** Recomposing the parts of [t] gives [t] when [t] is a native type id and UNINITIALIZED otherwise. *)
Lemma recompose t : 0 <= t ->
  let r := make_type (geometry_type_from_type t) (dimensions_from_type t) (coord_type_from_type t) in
  (In t native_type_ids -> r = t) /\ (~ In t native_type_ids -> r = TYPE_UNINITIALIZED).
Proof.
  intros Ht. cbv zeta.
  destruct (Z.lt_ge_cases t 13991) as [Hs|Hs].
  - pose proof recompose_small as HA. rewrite forallb_forall in HA.
    assert (In t (zrange (Z.to_nat 13991) 0)) as Hr by (apply zrange_in; rewrite Z2Nat.id by lia; lia).
    specialize (HA t Hr). cbv zeta in HA.
    destruct (existsb (Z.eqb t) native_type_ids) eqn:Ee.
    + apply existsb_exists in Ee as (x & Hx & Ex). apply Z.eqb_eq in Ex; subst x. apply Z.eqb_eq in HA.
      split; [auto|]. intros; contradiction.
    + apply Z.eqb_eq in HA. split; [|auto]. intros Hi. exfalso.
      assert (existsb (Z.eqb t) native_type_ids = true) as Ht2
        by (apply existsb_exists; exists t; split; [exact Hi|apply Z.eqb_refl]).
      congruence.
  - split.
    + intros Hi. exfalso. unfold native_type_ids in Hi. cbn [In] in Hi.
      repeat (destruct Hi as [Hi|Hi]; [lia|]). exact Hi.
    + intros _. destruct (recompose_range t Ht) as [H|[_ H]]; [exact H|lia].
Qed.

Lemma traits_parts k d l :
  let t := traits_type_id (geometry_kind_code k) (dim_code d) (layout_code l) in
  traits_geometry_type t = geometry_kind_code k /\
  traits_dimensions t = dim_code d /\
  traits_coord_type t = layout_code l.
Proof. destruct k, d, l; vm_compute; auto. Qed.

(** ** Byte swapping *)

Lemma land_byte x k : N.land x (N.shiftl 255 k) = N.shiftl (N.shiftr x k mod 256) k.
Proof.
  change 255%N with (N.ones 8). apply N.bits_inj. intros i.
  rewrite N.land_spec.
  destruct (N.ltb_spec i k) as [Hlt|Hge].
  - rewrite (N.shiftl_spec_low _ _ i) by exact Hlt. rewrite N.shiftl_spec_low by exact Hlt. apply andb_false_r.
  - rewrite (N.shiftl_spec_high' _ _ i) by exact Hge. rewrite N.shiftl_spec_high' by exact Hge.
    change 256%N with (2 ^ 8)%N.
    destruct (N.ltb_spec (i - k) 8) as [H8|H8].
    + rewrite N.ones_spec_low by exact H8. rewrite N.mod_pow2_bits_low by exact H8.
      rewrite N.shiftr_spec'. replace (i - k + k)%N with i by lia. apply andb_true_r.
    + rewrite N.ones_spec_high by exact H8. rewrite N.mod_pow2_bits_high by exact H8. apply andb_false_r.
Qed.

Lemma lor_add n a b : (a mod 2 ^ n = 0 -> b < 2 ^ n -> N.lor a b = a + b)%N.
Proof.
  intros Ha Hb.
  assert (N.land a b = 0%N) as Hd.
  { apply N.bits_inj_0. intros i. rewrite N.land_spec. destruct (N.ltb_spec i n) as [Hlt|Hge].
    - rewrite <- (N.mod_pow2_bits_low a n i Hlt). rewrite Ha. rewrite N.bits_0. reflexivity.
    - rewrite <- (N.mod_small b (2 ^ n) Hb). rewrite N.mod_pow2_bits_high by exact Hge. apply andb_false_r. }
  rewrite <- N.lxor_lor by exact Hd. symmetry. apply N.add_nocarry_lxor. exact Hd.
Qed.

Lemma byte_of_val (pre post : bytes) (b : N) : wf_bytes (pre ++ [b]) ->
  (N.shiftr (le_val (pre ++ b :: post)) (8 * N.of_nat (length pre)) mod 256 = b)%N.
Proof.
  intros H. apply wf_bytes_app in H as [Hp Hb]. inversion Hb as [|? ? Hb' _]; subst. unfold is_byte in Hb'.
  rewrite N.shiftr_div_pow2, N.pow_mul_r. change (2 ^ 8)%N with 256%N.
  rewrite le_val_app. pose proof (le_val_bound _ Hp) as Hbd.
  rewrite N.add_comm, N.mul_comm, N.div_add_l by (pose proof (pow256_pos (length pre)); lia).
  rewrite N.div_small by exact Hbd. rewrite N.add_0_r. cbn [le_val].
  rewrite N.mul_comm, N.mod_add by lia. apply N.mod_small. exact Hb'.
Qed.

Ltac extract_byte pre post b k :=
  match goal with |- context[(N.shiftr ?v k mod 256)%N] =>
    replace (N.shiftr v k mod 256)%N with b
      by (symmetry; refine (byte_of_val pre post b _); repeat constructor; assumption)
  end.

Lemma shiftr_shiftl_le a n k : (k <= n)%N -> N.shiftr (N.shiftl a n) k = (a * 2 ^ (n - k))%N.
Proof. intros H. rewrite N.shiftr_shiftl_l by exact H. apply N.shiftl_mul_pow2. Qed.

Lemma bswap32_val b0 b1 b2 b3 : wf_bytes [b0; b1; b2; b3] ->
  bswap32 (le_val [b0; b1; b2; b3]) = le_val [b3; b2; b1; b0].
Proof.
  intros Hwf. unfold bswap32.
  change 0xFF%N with (N.shiftl 255 0). change 0xFF00%N with (N.shiftl 255 8).
  change 0xFF0000%N with (N.shiftl 255 16). change 0xFF000000%N with (N.shiftl 255 24).
  rewrite !land_byte.
  assert (Forall is_byte [b0; b1; b2; b3]) as Hf by exact Hwf.
  apply Forall_cons_iff in Hf as [H0 Hf]. apply Forall_cons_iff in Hf as [H1 Hf].
  apply Forall_cons_iff in Hf as [H2 Hf]. apply Forall_cons_iff in Hf as [H3 _].
  extract_byte ([] : bytes) ([b1; b2; b3] : bytes) b0 0%N.
  extract_byte ([b0] : bytes) ([b2; b3] : bytes) b1 8%N.
  extract_byte ([b0; b1] : bytes) ([b3] : bytes) b2 16%N.
  extract_byte ([b0; b1; b2] : bytes) ([] : bytes) b3 24%N.
  rewrite !shiftr_shiftl_le by lia. rewrite !N.shiftl_mul_pow2.
  unfold is_byte in *.
  change (2 ^ 0)%N with 1%N. change (2 ^ 24)%N with 16777216%N. change (2 ^ 8)%N with 256%N.
  change (2 ^ (16 - 8))%N with 256%N. change (2 ^ (24 - 24))%N with 1%N.
  rewrite (lor_add 24 (_ * _)) by (change (2 ^ 24)%N with 16777216%N; lia).
  rewrite (lor_add 16 (_ + _)) by (change (2 ^ 16)%N with 65536%N; lia).
  rewrite (lor_add 8 (_ + _)) by (change (2 ^ 8)%N with 256%N; lia).
  cbn [le_val]. lia.
Qed.

Lemma bswap64_val b0 b1 b2 b3 b4 b5 b6 b7 : wf_bytes [b0; b1; b2; b3; b4; b5; b6; b7] ->
  bswap64 (le_val [b0; b1; b2; b3; b4; b5; b6; b7]) = le_val [b7; b6; b5; b4; b3; b2; b1; b0].
Proof.
  intros Hwf. unfold bswap64.
  change 0xFF%N with (N.shiftl 255 0). change 0xFF00%N with (N.shiftl 255 8).
  change 0xFF0000%N with (N.shiftl 255 16). change 0xFF000000%N with (N.shiftl 255 24).
  change 0xFF00000000%N with (N.shiftl 255 32). change 0xFF0000000000%N with (N.shiftl 255 40).
  change 0xFF000000000000%N with (N.shiftl 255 48). change 0xFF00000000000000%N with (N.shiftl 255 56).
  rewrite !land_byte.
  assert (Forall is_byte [b0; b1; b2; b3; b4; b5; b6; b7]) as Hf by exact Hwf.
  apply Forall_cons_iff in Hf as [H0 Hf]. apply Forall_cons_iff in Hf as [H1 Hf].
  apply Forall_cons_iff in Hf as [H2 Hf]. apply Forall_cons_iff in Hf as [H3 Hf].
  apply Forall_cons_iff in Hf as [H4 Hf]. apply Forall_cons_iff in Hf as [H5 Hf].
  apply Forall_cons_iff in Hf as [H6 Hf]. apply Forall_cons_iff in Hf as [H7 _].
  extract_byte ([] : bytes) ([b1; b2; b3; b4; b5; b6; b7] : bytes) b0 0%N.
  extract_byte ([b0] : bytes) ([b2; b3; b4; b5; b6; b7] : bytes) b1 8%N.
  extract_byte ([b0; b1] : bytes) ([b3; b4; b5; b6; b7] : bytes) b2 16%N.
  extract_byte ([b0; b1; b2] : bytes) ([b4; b5; b6; b7] : bytes) b3 24%N.
  extract_byte ([b0; b1; b2; b3] : bytes) ([b5; b6; b7] : bytes) b4 32%N.
  extract_byte ([b0; b1; b2; b3; b4] : bytes) ([b6; b7] : bytes) b5 40%N.
  extract_byte ([b0; b1; b2; b3; b4; b5] : bytes) ([b7] : bytes) b6 48%N.
  extract_byte ([b0; b1; b2; b3; b4; b5; b6] : bytes) ([] : bytes) b7 56%N.
  rewrite !shiftr_shiftl_le by lia. rewrite !N.shiftl_mul_pow2.
  unfold is_byte in *. clear Hwf.
  repeat match goal with |- context[(2 ^ ?e)%N] => let v := eval vm_compute in (2 ^ e)%N in change (2 ^ e)%N with v end.
  rewrite (lor_add 56 (_ * _)) by (match goal with |- context[(2 ^ ?e)%N] => let v := eval vm_compute in (2 ^ e)%N in change (2 ^ e)%N with v end; lia).
  rewrite (lor_add 48 (_ + _)) by (match goal with |- context[(2 ^ ?e)%N] => let v := eval vm_compute in (2 ^ e)%N in change (2 ^ e)%N with v end; lia).
  rewrite (lor_add 40 (_ + _)) by (match goal with |- context[(2 ^ ?e)%N] => let v := eval vm_compute in (2 ^ e)%N in change (2 ^ e)%N with v end; lia).
  rewrite (lor_add 32 (_ + _)) by (match goal with |- context[(2 ^ ?e)%N] => let v := eval vm_compute in (2 ^ e)%N in change (2 ^ e)%N with v end; lia).
  rewrite (lor_add 24 (_ + _)) by (match goal with |- context[(2 ^ ?e)%N] => let v := eval vm_compute in (2 ^ e)%N in change (2 ^ e)%N with v end; lia).
  rewrite (lor_add 16 (_ + _)) by (match goal with |- context[(2 ^ ?e)%N] => let v := eval vm_compute in (2 ^ e)%N in change (2 ^ e)%N with v end; lia).
  rewrite (lor_add 8 (_ + _)) by (match goal with |- context[(2 ^ ?e)%N] => let v := eval vm_compute in (2 ^ e)%N in change (2 ^ e)%N with v end; lia).
  cbn [le_val]. lia.
Qed.

(** Swapping a word is reading its bytes in the opposite order. *)
Lemma bswap32_be l : wf_bytes l -> length l = 4%nat -> bswap32 (le_val l) = be_val l.
Proof.
  intros Hw Hl. destruct l as [|b0 [|b1 [|b2 [|b3 [|? ?]]]]]; try discriminate.
  rewrite bswap32_val by exact Hw. reflexivity.
Qed.
Lemma bswap64_be l : wf_bytes l -> length l = 8%nat -> bswap64 (le_val l) = be_val l.
Proof.
  intros Hw Hl. destruct l as [|b0 [|b1 [|b2 [|b3 [|b4 [|b5 [|b6 [|b7 [|? ?]]]]]]]]]; try discriminate.
  rewrite bswap64_val by exact Hw. reflexivity.
Qed.

Lemma bswap32_spec x : (x < 2 ^ 32)%N -> le_bytes 4 (bswap32 x) = rev (le_bytes 4 x).
Proof.
  intros Hx. rewrite <- (le_val_bytes 4 x) at 1 by exact Hx.
  rewrite bswap32_be; [|apply le_bytes_wf|apply le_bytes_length].
  unfold be_val. rewrite <- (le_bytes_val (rev (le_bytes 4 x))) at 2 by apply wf_bytes_rev, le_bytes_wf.
  rewrite rev_length, le_bytes_length. reflexivity.
Qed.
Lemma bswap64_spec x : (x < 2 ^ 64)%N -> le_bytes 8 (bswap64 x) = rev (le_bytes 8 x).
Proof.
  intros Hx. rewrite <- (le_val_bytes 8 x) at 1 by exact Hx.
  rewrite bswap64_be; [|apply le_bytes_wf|apply le_bytes_length].
  unfold be_val. rewrite <- (le_bytes_val (rev (le_bytes 8 x))) at 2 by apply wf_bytes_rev, le_bytes_wf.
  rewrite rev_length, le_bytes_length. reflexivity.
Qed.

Lemma bswap32_bound x : (x < 2 ^ 32 -> bswap32 x < 2 ^ 32)%N.
Proof.
  intros Hx. rewrite <- (le_val_bytes 4 x) by exact Hx.
  rewrite bswap32_be; [|apply le_bytes_wf|apply le_bytes_length].
  unfold be_val. pose proof (le_val_bound _ (wf_bytes_rev _ (le_bytes_wf 4 x))) as Hb.
  rewrite rev_length, le_bytes_length in Hb. exact Hb.
Qed.
Lemma bswap64_bound x : (x < 2 ^ 64 -> bswap64 x < 2 ^ 64)%N.
Proof.
  intros Hx. rewrite <- (le_val_bytes 8 x) by exact Hx.
  rewrite bswap64_be; [|apply le_bytes_wf|apply le_bytes_length].
  unfold be_val. pose proof (le_val_bound _ (wf_bytes_rev _ (le_bytes_wf 8 x))) as Hb.
  rewrite rev_length, le_bytes_length in Hb. exact Hb.
Qed.

Lemma bswap32_involutive x : (x < 2 ^ 32 -> bswap32 (bswap32 x) = x)%N.
Proof.
  intros Hx. pose proof (bswap32_bound x Hx) as Hb.
  rewrite <- (le_val_bytes 4 (bswap32 (bswap32 x))) by (apply bswap32_bound, Hb).
  rewrite bswap32_spec by exact Hb. rewrite bswap32_spec by exact Hx. rewrite rev_involutive.
  apply le_val_bytes. exact Hx.
Qed.
Lemma bswap64_involutive x : (x < 2 ^ 64 -> bswap64 (bswap64 x) = x)%N.
Proof.
  intros Hx. pose proof (bswap64_bound x Hx) as Hb.
  rewrite <- (le_val_bytes 8 (bswap64 (bswap64 x))) by (apply bswap64_bound, Hb).
  rewrite bswap64_spec by exact Hb. rewrite bswap64_spec by exact Hx. rewrite rev_involutive.
  apply le_val_bytes. exact Hx.
Qed.

(** ** Dimension maps *)

(** The map sends each destination ordinate to the position of the same ordinate in the source, or -1. *)
Lemma map_dimensions_spec s d j o : nth_error (ordinates d) j = Some o ->
  qget (map_dimensions (dim_code s) (dim_code d)) j =
  Some (match position o (ordinates s) with Some i => Z.of_nat i | None => -1 end).
Proof.
  destruct s, d; cbn [ordinates]; intros H;
  repeat (destruct j as [|j]; [cbn in H; injection H as <-; reflexivity|]; cbn [nth_error] in H);
  destruct j; discriminate.
Qed.

Lemma num_dimensions_spec d : num_dimensions (dim_code d) = Some (Z.of_nat (ndim d)).
Proof. destruct d; reflexivity. Qed.
