(** * Printing without ryu: what is stripped *)
From Verif Require Import Base BaseFacts Text FloatModel FloatSpec RyuModel RyuSpec RyuDigits RyuFixed.
Local Open Scope Z_scope.

Lemma strip_zeros k r : strip (repeat 48%N k ++ r) = strip r.
Proof. induction k as [|k IH]; [reflexivity|]. exact IH. Qed.

Lemma split_zeros (t : bytes) : exists a k, t = a ++ repeat 48%N k /\ (a = [] \/ exists r c, a = r ++ [c] /\ c <> 48%N).
Proof.
  induction t as [|c t (a & k & -> & H)].
  - exists [], 0%nat. auto.
  - destruct H as [->|(r & d & -> & Hd)].
    + destruct (N.eq_dec c 48) as [->|Hc].
      * exists [], (S k). auto.
      * exists [c], k. split; [reflexivity|]. right. exists [], c. auto.
    + exists (c :: r ++ [d]), k. split; [reflexivity|]. right. exists (c :: r), d. auto.
Qed.

Lemma strip_fraction head frac : Forall is_digit frac ->
  exists frac' k, frac = frac' ++ repeat 48%N k /\ (frac' = [] \/ exists r c, frac' = r ++ [c] /\ c <> 48%N) /\
    rev (strip (rev (head ++ $"." ++ frac))) = head ++ match frac' with [] => [] | _ => $"." ++ frac' end.
Proof.
  intros Hd. destruct (split_zeros frac) as (a & k & E & H). exists a, k. split; [exact E|]. split; [exact H|].
  rewrite E, !rev_app_distr. rewrite <- !app_assoc.
  assert (rev (repeat 48%N k) = repeat 48%N k) as -> by (clear; induction k as [|k IH]; [reflexivity|]; cbn [repeat rev]; rewrite IH; symmetry; apply repeat_cons).
  rewrite strip_zeros. destruct H as [->|(r & c & -> & Hc)].
  - cbn [rev app]. rewrite app_nil_r. change (strip (rev $"." ++ rev head)) with (rev head). apply rev_involutive.
  - rewrite rev_app_distr. cbn [rev app]. assert (is_digit c) as Hdc.
    { rewrite E in Hd. apply Forall_app in Hd as [Hd _]. apply Forall_app in Hd as [_ Hd]. exact (Forall_inv Hd). }
    unfold is_digit in Hdc. cbn [strip]. destruct (N.eqb_spec c 48); [contradiction|]. destruct (N.eqb_spec c 46); [lia|].
    replace (match r ++ [c] with [] => [] | _ => $"." ++ r ++ [c] end) with ($"." ++ r ++ [c]) by (destruct r; reflexivity).
    cbn [rev]. rewrite !rev_app_distr, !rev_involutive. rewrite <- !app_assoc. reflexivity.
Qed.

Theorem fallback_ok expo fixed f p negative ints frac : dgt f BITS_1e17 || dlt f BITS_m1e17 = false ->
  fixed f p = minus negative ++ ints ++ $"." ++ frac -> Forall is_digit frac -> (length (fixed f p) <= 39)%nat ->
  exists frac' k, print_double_std expo fixed f p = Ok (fixed_text negative ints frac') /\ frac = frac' ++ repeat 48%N k /\
    (frac' = [] \/ exists r c, frac' = r ++ [c] /\ c <> 48%N).
Proof.
  intros Hs E Hd Hl. unfold print_double_std. rewrite Hs. rewrite firstn_all2 by exact Hl. rewrite E.
  destruct (strip_fraction (minus negative ++ ints) frac Hd) as (frac' & k & Ef & H & X). exists frac', k.
  split; [|split; [exact Ef|exact H]]. f_equal. rewrite <- app_assoc in X. rewrite X. unfold fixed_text. rewrite <- app_assoc. reflexivity.
Qed.
