(** * Facts about bytes, words and lists *)
From Verif Require Import Base.
Local Open Scope N_scope.
Ltac Zify.zify_post_hook ::= Z.div_mod_to_equations.

Lemma le_bytes_length k n : length (le_bytes k n) = k.
Proof. revert n; induction k as [|k IH]; intros n; cbn [le_bytes length]; [reflexivity|]. rewrite IH. reflexivity. Qed.

Lemma le_bytes_wf k n : wf_bytes (le_bytes k n).
Proof.
  revert n; induction k as [|k IH]; intros n; cbn [le_bytes]; constructor.
  - unfold is_byte. apply N.mod_lt. lia.
  - apply IH.
Qed.

Lemma pow256_S k : 256 ^ N.of_nat (S k) = 256 * 256 ^ N.of_nat k.
Proof. rewrite Nat2N.inj_succ, N.pow_succ_r'. reflexivity. Qed.

Lemma pow256_pos k : 0 < 256 ^ N.of_nat k.
Proof. induction k as [|k IH]. - reflexivity. - rewrite pow256_S. lia. Qed.

Lemma le_val_bytes k n : n < 256 ^ N.of_nat k -> le_val (le_bytes k n) = n.
Proof.
  revert n; induction k as [|k IH]; intros n Hn; cbn [le_bytes le_val].
  - cbn in Hn. lia.
  - rewrite pow256_S in Hn. rewrite IH.
    + pose proof (N.div_mod n 256). lia.
    + apply N.div_lt_upper_bound; lia.
Qed.

Lemma le_val_bound l : wf_bytes l -> le_val l < 256 ^ N.of_nat (length l).
Proof.
  induction 1 as [|b l Hb Hl IH]; cbn [le_val length].
  - reflexivity.
  - rewrite pow256_S. unfold is_byte in Hb. lia.
Qed.

Lemma le_bytes_val l : wf_bytes l -> le_bytes (length l) (le_val l) = l.
Proof.
  induction 1 as [|b l Hb Hl IH]; cbn [le_val length le_bytes]; [reflexivity|].
  unfold is_byte in Hb.
  replace ((b + 256 * le_val l) mod 256) with b.
  2:{ rewrite N.mul_comm, N.mod_add by lia. symmetry; apply N.mod_small; lia. }
  replace ((b + 256 * le_val l) / 256) with (le_val l).
  2:{ rewrite N.mul_comm, N.div_add by lia. rewrite N.div_small by lia. lia. }
  rewrite IH. reflexivity.
Qed.

Lemma le_val_app a b : le_val (a ++ b) = le_val a + 256 ^ N.of_nat (length a) * le_val b.
Proof.
  induction a as [|x a IH]; cbn [app le_val length].
  - change (256 ^ N.of_nat 0) with 1. lia.
  - rewrite IH, pow256_S. lia.
Qed.

Lemma wf_bytes_app a b : wf_bytes (a ++ b) <-> wf_bytes a /\ wf_bytes b.
Proof. unfold wf_bytes. apply Forall_app. Qed.

Lemma wf_bytes_rev a : wf_bytes a -> wf_bytes (rev a).
Proof. unfold wf_bytes. intros H. apply Forall_rev. exact H. Qed.

Lemma be_bytes_length k n : length (be_bytes k n) = k.
Proof. unfold be_bytes. rewrite rev_length. apply le_bytes_length. Qed.

Lemma be_bytes_wf k n : wf_bytes (be_bytes k n).
Proof. apply wf_bytes_rev, le_bytes_wf. Qed.

(** ** Slices *)

Lemma slice_app_at a b c k :
  length b = k -> slice (a ++ b ++ c) (Z.of_nat (length a)) k = Some b.
Proof.
  intros Hk. unfold slice. rewrite !app_length.
  destruct (Z.leb_spec 0 (Z.of_nat (length a))); [|lia].
  destruct (Z.leb_spec (Z.of_nat (length a) + Z.of_nat k) (Z.of_nat (length a + (length b + length c)))); [|lia].
  cbn [andb]. rewrite Nat2Z.id, skipn_app, skipn_all, Nat.sub_diag. cbn [app skipn].
  rewrite firstn_app, <- Hk, firstn_all, Nat.sub_diag. cbn [firstn]. rewrite app_nil_r. reflexivity.
Qed.

Lemma slice_length l p k b : slice l p k = Some b -> length b = k.
Proof.
  unfold slice. destruct (_ && _) eqn:E; [|discriminate]. intros H; injection H as <-.
  rewrite firstn_length, skipn_length. lia.
Qed.

Lemma slice_wf l p k b : wf_bytes l -> slice l p k = Some b -> wf_bytes b.
Proof.
  unfold slice. intros Hl. destruct (_ && _); [|discriminate]. intros H; injection H as <-.
  unfold wf_bytes in *. rewrite Forall_forall in *. intros x Hx.
  apply Hl. assert (In x (skipn (Z.to_nat p) l)) as Hs.
  { rewrite <- (firstn_skipn k). apply in_or_app. left. exact Hx. }
  rewrite <- (firstn_skipn (Z.to_nat p) l). apply in_or_app. right. exact Hs.
Qed.

Lemma slice_some_iff l p k :
  (exists b, slice l p k = Some b) <-> (0 <= p /\ p + Z.of_nat k <= Z.of_nat (length l))%Z.
Proof.
  unfold slice. destruct (_ && _) eqn:E.
  - split; [|intros; eauto]. intros _. lia.
  - split; [intros [b Hb]; discriminate|]. lia.
Qed.

Lemma slice_app_l a b p k : (p + Z.of_nat k <= Z.of_nat (length a))%Z -> slice (a ++ b) p k = slice a p k.
Proof.
  intros H. unfold slice. rewrite app_length.
  destruct (Z.leb_spec 0 p); cbn [andb]; [|reflexivity].
  destruct (Z.leb_spec (p + Z.of_nat k) (Z.of_nat (length a + length b))); [|lia].
  destruct (Z.leb_spec (p + Z.of_nat k) (Z.of_nat (length a))); [|lia].
  f_equal. rewrite skipn_app.
  rewrite firstn_app. rewrite skipn_length.
  replace (k - (length a - Z.to_nat p))%nat with 0%nat by lia.
  cbn [firstn]. apply app_nil_r.
Qed.

Lemma slice_app_r a b p k :
  (Z.of_nat (length a) <= p)%Z -> slice (a ++ b) p k = slice b (p - Z.of_nat (length a)) k.
Proof.
  intros H. unfold slice. rewrite app_length.
  replace (0 <=? p)%Z with true by lia. replace (0 <=? p - Z.of_nat (length a))%Z with true by lia.
  cbn [andb].
  replace (p + Z.of_nat k <=? Z.of_nat (length a + length b))%Z
    with (p - Z.of_nat (length a) + Z.of_nat k <=? Z.of_nat (length b))%Z by lia.
  destruct (_ <=? _)%Z; [|reflexivity].
  f_equal. f_equal. rewrite skipn_app. rewrite skipn_all2 by lia. cbn [app].
  f_equal. lia.
Qed.

(** ** Lists *)

Lemma nth_error_app_len {A} (a b : list A) x : nth_error (a ++ x :: b) (length a) = Some x.
Proof. rewrite nth_error_app2 by lia. rewrite Nat.sub_diag. reflexivity. Qed.

Lemma Forall_concat {A} (P : A -> Prop) ls : Forall (Forall P) ls -> Forall P (concat ls).
Proof. induction 1; cbn [concat]; [constructor|]. apply Forall_app; split; assumption. Qed.

Lemma concat_length_const {A} k (ls : list (list A)) :
  Forall (fun l => length l = k) ls -> length (concat ls) = (length ls * k)%nat.
Proof. induction 1; cbn [concat length]; [reflexivity|]. rewrite app_length. lia. Qed.

Lemma nth_error_ext_len {A} (a b : list A) :
  length a = length b -> (forall i, (i < length a)%nat -> nth_error a i = nth_error b i) -> a = b.
Proof.
  revert b; induction a as [|x a IH]; intros [|y b] Hl H; cbn in Hl; try discriminate; [reflexivity|].
  f_equal.
  - specialize (H 0%nat ltac:(cbn; lia)). cbn in H. congruence.
  - apply IH; [lia|]. intros i Hi. apply (H (S i)). cbn; lia.
Qed.

Lemma Forall2_length {A B} (R : A -> B -> Prop) a b : Forall2 R a b -> length a = length b.
Proof. induction 1; cbn [length]; congruence. Qed.
