From Verif Require Import Base BaseFacts BufferModel.
Local Open Scope Z_scope.

Definition buf_ok (b : buf) : Prop := b_size b <= b_cap b.

Lemma buf_append_data b bs : b_data (buf_append b bs) = b_data b ++ bs.
Proof. unfold buf_append, buf_reserve. destruct (_ <=? _); reflexivity. Qed.

Lemma buf_append_ok b bs : buf_ok (buf_append b bs).
Proof.
  unfold buf_ok, b_size. rewrite buf_append_data. unfold buf_append, buf_reserve, b_size, grow_by_factor.
  rewrite app_length.
  destruct (Z.leb_spec (Z.of_nat (length (b_data b)) + Z.of_nat (length bs)) (b_cap b)); cbn [b_cap]; [lia|].
  destruct (Z.ltb_spec (Z.of_nat (length (b_data b)) + Z.of_nat (length bs)) (b_cap b * 2)); lia.
Qed.

Lemma buf_append_size b bs : b_size (buf_append b bs) = b_size b + Z.of_nat (length bs).
Proof. unfold b_size. rewrite buf_append_data, app_length. lia. Qed.

Lemma buf_reserve_data b n : b_data (buf_reserve b n) = b_data b.
Proof. unfold buf_reserve. destruct (_ <=? _); reflexivity. Qed.

Lemma buf_reserve_room b n : b_size (buf_reserve b n) + n <= b_cap (buf_reserve b n).
Proof.
  unfold b_size. rewrite buf_reserve_data. unfold buf_reserve, grow_by_factor, b_size.
  destruct (Z.leb_spec (Z.of_nat (length (b_data b)) + n) (b_cap b)); cbn [b_cap]; [lia|].
  destruct (Z.ltb_spec (Z.of_nat (length (b_data b)) + n) (b_cap b * 2)); lia.
Qed.

Lemma patch_at pre old new post : length old = length new ->
  patch (pre ++ old ++ post) (Z.of_nat (length pre)) new = Some (pre ++ new ++ post).
Proof.
  intros H. unfold patch. rewrite !app_length.
  destruct (Z.leb_spec 0 (Z.of_nat (length pre))); [|lia].
  destruct (Z.leb_spec (Z.of_nat (length pre) + Z.of_nat (length new)) (Z.of_nat (length pre + (length old + length post)))); [|lia].
  cbn [andb]. rewrite Nat2Z.id. rewrite firstn_app, firstn_all, Nat.sub_diag. cbn [firstn]. rewrite app_nil_r.
  do 3 f_equal. rewrite skipn_app, skipn_all2 by lia. cbn [app].
  rewrite <- H. replace (length pre + length old - length pre)%nat with (length old) by lia.
  rewrite skipn_app, skipn_all, Nat.sub_diag. reflexivity.
Qed.

Lemma patch_some l p new l' : patch l p new = Some l' -> length l' = length l.
Proof.
  unfold patch. destruct (_ && _) eqn:E; [|discriminate]. intros H; injection H as <-.
  rewrite !app_length, firstn_length, skipn_length. lia.
Qed.

Lemma patch_in l p new : 0 <= p -> p + Z.of_nat (length new) <= Z.of_nat (length l) -> exists l', patch l p new = Some l'.
Proof. intros A B. unfold patch. destruct (_ && _) eqn:E; [eauto|lia]. Qed.

Lemma aget_aset {A} (a : arr32 A) i v b : aset a i v = Some b ->
  (forall j, aget b j = if j =? i then Some v else aget a j).
Proof.
  unfold aset, aget. intros H j. destruct (in32 i) eqn:Ei; [|discriminate]. injection H as <-.
  destruct (Z.eqb_spec j i) as [->|]; [rewrite Ei; reflexivity|]. reflexivity.
Qed.

Lemma aset_some {A} (a : arr32 A) i v : 0 <= i < 32 -> exists b, aset a i v = Some b.
Proof. intros H. unfold aset, in32. destruct (_ && _) eqn:E; [eauto|lia]. Qed.

Lemma to_int32_small z : 0 <= z < 2 ^ 31 -> to_int32 z = z.
Proof. intros H. unfold to_int32. rewrite Z.mod_small by lia. lia. Qed.

Lemma le_bytes_mod k n : le_bytes k (n mod 256 ^ N.of_nat k)%N = le_bytes k n.
Proof.
  revert n; induction k as [|k IH]; intros n; [reflexivity|]. rewrite pow256_S. cbn [le_bytes].
  pose proof (pow256_pos k). f_equal.
  - rewrite N.mod_mul_r by lia. rewrite (N.mul_comm 256 (_ mod _)), N.mod_add, N.mod_mod by lia. reflexivity.
  - rewrite N.mod_mul_r by lia.
    rewrite N.add_comm, (N.mul_comm 256 (_ mod _)), N.div_add_l by lia. rewrite (N.div_small (n mod 256)) by (apply N.mod_lt; lia).
    rewrite N.add_0_r. apply IH.
Qed.

Lemma le_bytes_wrap32 n : le_bytes 4 (wrap32 n) = le_bytes 4 n.
Proof. apply (le_bytes_mod 4 n). Qed.

Lemma wrap32_add a b : wrap32 (wrap32 a + b) = wrap32 (a + b).
Proof. apply N.add_mod_idemp_l. discriminate. Qed.
Lemma wrap32_add_r a b : wrap32 (a + wrap32 b) = wrap32 (a + b).
Proof. apply N.add_mod_idemp_r. discriminate. Qed.
