(** * The place in the messages of the WKB reader *)
From Verif Require Import Base BaseFacts Text TypesModel TypesProofs NodesModel WkbReaderModel WkbReaderProofs WkbReaderSafety WktErrorModel WktErrorSpec WktErrorMessages WkbErrorModel WkbErrorSpec WkbErrorProofs.
Local Open Scope Z_scope.
Local Opaque ld.

(** The reader after the byte order, after the type, and after the size *)
Definition m_sized (src : bytes) (f : nat) (level : N) (at_type : Z) (g k : N) (size : N) (s : rstate) : told rstate :=
  if (N.eqb g 1 || N.eqb g 2) then m_coordinates s size k
  else if N.eqb g 3 then
    if N.eqb level 255 then Said ENOTSUP $"WKBReader exceeded maximum recursion"
    else m_times f (m_ring src k) size s
  else if (N.eqb g 4 || N.eqb g 5 || N.eqb g 6 || N.eqb g 7) then
    if N.eqb level 255 then Said ENOTSUP $"WKBReader exceeded maximum recursion"
    else m_times f (m_geometry src f (level + 1)%N) size s
  else Said EINVAL ($"Expected valid geometry type code but found " ++ ld (Z.of_N g) ++ $" at byte " ++ ld at_type).
Definition m_srid (src : bytes) (w : N) (s : rstate) : told rstate :=
  if ewkb_has w EWKB_SRID_BIT then and_then (m_u32 src s) (fun '(s, _) => Fine s) else Fine s.
Definition m_size (src : bytes) (g : N) (s : rstate) : told (rstate * N) := if negb (N.eqb g 1) then m_u32 src s else Fine (s, 1%N).
Definition size_of_type (w : N) : N := let '(_, z, m) := resolve_type w in (2 + b2n z + b2n m)%N.
Definition m_typed (src : bytes) (f : nat) (level : N) (at_type : Z) (w : N) (s : rstate) : told rstate :=
  and_then (m_srid src w s) (fun s => and_then (m_size src (type_in w) s) (fun '(s, size) => m_sized src f level at_type (type_in w) (size_of_type w) size s)).
Definition m_after (src : bytes) (f : nat) (level : N) (s : rstate) : told rstate :=
  and_then (m_u32 src s) (fun '(s2, w) => m_typed src f level (rs_pos s) w s2).

Lemma and_then_ext {A B} (m : told A) (f g : A -> told B) : (forall a, f a = g a) -> and_then m f = and_then m g.
Proof. intros H. destruct m; cbn; auto. Qed.
Lemma m_geometry_S src f level s : m_geometry src (S f) level s = and_then (m_endian src s) (m_after src f level).
Proof.
  cbn [m_geometry]. apply and_then_ext. intros s1. unfold m_after. apply and_then_ext. intros [s2 w]. unfold m_typed, m_srid. apply and_then_ext. intros s3.
  unfold size_of_type. pose proof (type_in_ok w) as T. destruct (resolve_type w) as [[g z] m]. cbn [fst] in T. rewrite <- T. reflexivity.
Qed.

(** ** More fuel *)
Lemma and_then_not {A B} (m : told A) (f : A -> told B) : and_then m f <> Exhausted -> m <> Exhausted.
Proof. intros H E. rewrite E in H. apply H. reflexivity. Qed.
Lemma times_mono rd rd' : (forall s, rd s <> Exhausted -> rd' s = rd s) -> forall f f' n s, m_times f rd n s <> Exhausted -> (f <= f')%nat -> m_times f' rd' n s = m_times f rd n s.
Proof.
  intros H f. induction f as [|f IH]; intros f' n s; destruct f' as [|f']; cbn [m_times]; destruct (N.eqb n 0); intros E Le; try reflexivity; try congruence; try lia.
  rewrite (H s (and_then_not _ _ E)). destruct (rd s) as [s1|c t| |]; cbn in *; auto. apply IH; [exact E|lia].
Qed.
Lemma geometry_mono src : forall f f' level s, m_geometry src f level s <> Exhausted -> (f <= f')%nat -> m_geometry src f' level s = m_geometry src f level s.
Proof.
  intros f. induction f as [|f IH]; intros f' level s E Le; [contradiction E; reflexivity|]. destruct f' as [|f']; [lia|]. rewrite m_geometry_S in E. rewrite !m_geometry_S.
  destruct (m_endian src s) as [s1|c t| |]; cbn [and_then] in *; auto. unfold m_after in *. destruct (m_u32 src s1) as [[s2 w]|c t| |]; cbn [and_then] in *; auto.
  unfold m_typed in *. destruct (m_srid src w s2) as [s3|c t| |]; cbn [and_then] in *; auto. destruct (m_size src (type_in w) s3) as [[s4 n]|c t| |]; cbn [and_then] in *; auto.
  unfold m_sized in *. destruct (N.eqb (type_in w) 1 || N.eqb (type_in w) 2); [reflexivity|]. destruct (N.eqb (type_in w) 3).
  - destruct (N.eqb level 255); [reflexivity|]. apply (times_mono _ _ (fun s _ => eq_refl) f f' n s4 E). lia.
  - destruct (N.eqb (type_in w) 4 || _ || _ || _); [|reflexivity]. destruct (N.eqb level 255); [reflexivity|].
    refine (times_mono _ _ _ f f' n s4 E _); [|lia]. intros s5 E5. apply IH; [exact E5|lia].
Qed.

(** ** Reading the same bytes again *)
Notation len l := (Z.of_nat (length l)).
Definition moved (d : Z) (s : rstate) : rstate := {| rs_pos := rs_pos s; rs_size := rs_size s + d; rs_swap := rs_swap s |}.
(** [src'] has the first [p] bytes of [src], and is not shorter. *)
Definition prefixed (src src' : bytes) (p : Z) : Prop := 0 <= p <= len src /\ len src <= len src' /\ exists x, src' = firstn (Z.to_nat p) src ++ x.
Lemma prefixed_slice src src' p q k b : prefixed src src' p -> slice src q k = Some b -> q + Z.of_nat k <= p -> slice src' q k = Some b.
Proof.
  intros ((P0 & P1) & _ & x & ->) H Q. rewrite <- H. rewrite <- (firstn_skipn (Z.to_nat p) src) at 2. rewrite !slice_app_l; [reflexivity| |]; rewrite firstn_length; lia.
Qed.
Lemma prefixed_le src src' p q : prefixed src src' p -> 0 <= q <= p -> prefixed src src' q.
Proof.
  intros (P & Q & x & E) H. split; [lia|]. split; [exact Q|]. exists (skipn (Z.to_nat q) (firstn (Z.to_nat p) src) ++ x). rewrite app_assoc. rewrite E. f_equal.
  rewrite <- (firstn_skipn (Z.to_nat q) (firstn (Z.to_nat p) src)) at 1. f_equal. rewrite firstn_firstn. f_equal. lia.
Qed.

Section Again.
  Variables src src' : bytes.
  Variable p : Z.
  Hypothesis same : prefixed src src' p.
  Notation d := (len src' - len src).

  Lemma endian_again s s2 : m_endian src s = Fine s2 -> rs_pos s2 <= p -> m_endian src' (moved d s) = Fine (moved d s2).
  Proof.
    destruct same as (_ & Q & _). unfold m_endian. cbn [moved rs_size rs_pos rs_swap]. destruct (0 <? rs_size s) eqn:E; [|discriminate]. destruct (slice src (rs_pos s) 1) as [b|] eqn:Eb; [|discriminate].
    intros H Pp. injection H as <-. cbn [rs_pos] in Pp. rewrite (prefixed_slice _ _ _ _ _ _ same Eb) by lia. destruct (0 <? rs_size s + d) eqn:E'; [|lia]. unfold moved. cbn. do 2 f_equal. lia.
  Qed.
  Lemma u32_again s s2 w : m_u32 src s = Fine (s2, w) -> rs_pos s2 <= p -> m_u32 src' (moved d s) = Fine (moved d s2, w).
  Proof.
    destruct same as (_ & Q & _). unfold m_u32. cbn [moved rs_size rs_pos rs_swap]. destruct (4 <=? rs_size s) eqn:E; [|discriminate]. destruct (slice src (rs_pos s) 4) as [b|] eqn:Eb; [|discriminate].
    intros H Pp. injection H as <- <-. cbn [rs_pos] in Pp. rewrite (prefixed_slice _ _ _ _ _ _ same Eb) by lia. destruct (4 <=? rs_size s + d) eqn:E'; [|lia]. unfold moved. cbn. do 3 f_equal. lia.
  Qed.
  Lemma coordinates_again s n k s2 : m_coordinates s n k = Fine s2 -> m_coordinates (moved d s) n k = Fine (moved d s2).
  Proof.
    destruct same as (_ & Q & _). unfold m_coordinates. cbn [moved rs_size rs_pos rs_swap]. destruct (rs_size s <? _) eqn:E; [discriminate|]. intros H. injection H as <-.
    destruct (rs_size s + d <? _) eqn:E'; [lia|]. reflexivity.
  Qed.
End Again.
Lemma endian_moves src s s2 : m_endian src s = Fine s2 -> rs_pos s2 = rs_pos s + 1 /\ rs_pos s2 <= len src /\ (good src s -> good src s2).
Proof.
  unfold m_endian. destruct (0 <? rs_size s) eqn:E; [|discriminate]. destruct (slice src (rs_pos s) 1) as [b|] eqn:Eb; [|discriminate]. intros H. injection H as <-.
  apply slice_in in Eb. cbn [rs_pos]. split; [reflexivity|]. split; [lia|]. unfold good. cbn [rs_pos rs_size]. lia.
Qed.
Lemma u32_moves src s s2 w : m_u32 src s = Fine (s2, w) -> rs_pos s2 = rs_pos s + 4 /\ rs_pos s2 <= len src /\ (good src s -> good src s2).
Proof.
  unfold m_u32. destruct (4 <=? rs_size s) eqn:E; [|discriminate]. destruct (slice src (rs_pos s) 4) as [b|] eqn:Eb; [|discriminate]. intros H. injection H as <- _.
  apply slice_in in Eb. cbn [rs_pos]. split; [reflexivity|]. split; [lia|]. unfold good. cbn [rs_pos rs_size]. lia.
Qed.
Lemma coordinates_move src s n k s2 : m_coordinates s n k = Fine s2 -> rs_pos s <= rs_pos s2 /\ (good src s -> good src s2).
Proof.
  unfold m_coordinates. set (needed := (wrap32 (n * k) * 8)%N). destruct (rs_size s <? _) eqn:E; [discriminate|]. intros H. injection H as <-. cbn [rs_pos]. split; [lia|]. unfold good. cbn [rs_pos rs_size].
  assert (needed = 0%N \/ 8 <= needed)%N as [Z0|Z8] by (unfold needed; lia); [rewrite Z0; lia|]. lia.
Qed.

(** A step that succeeds: where it ends, and that it does the same with more bytes. *)
Definition replays (rd : bytes -> rstate -> told rstate) : Prop := forall src s s2, rd src s = Fine s2 ->
  rs_pos s <= rs_pos s2 /\ (good src s -> good src s2) /\
  forall src' p, prefixed src src' p -> rs_pos s2 <= p -> rd src' (moved (len src' - len src) s) = Fine (moved (len src' - len src) s2).

Lemma times_replay rd n f : replays rd -> replays (fun src => m_times f (rd src) n).
Proof.
  intros H. revert n. induction f as [|f IH]; intros n src s s2; cbn [m_times]; destruct (N.eqb n 0).
  1, 3: intros E; injection E as <-; split; [lia|]; split; [auto|]; intros; reflexivity.
  - discriminate.
  - destruct (rd src s) as [s1|c t| |] eqn:E1; cbn [and_then]; try discriminate. intros E2. destruct (H _ _ _ E1) as (A1 & B1 & C1). destruct (IH _ _ _ _ E2) as (A2 & B2 & C2).
    split; [lia|]. split; [auto|]. intros src' p Pp Le. rewrite (C1 src' p Pp) by lia. cbn [and_then]. apply (C2 src' p Pp). lia.
Qed.
Lemma ring_replay k : replays (fun src => m_ring src k).
Proof.
  intros src s s2. unfold m_ring. destruct (m_u32 src s) as [[s1 n]|c t| |] eqn:E1; cbn [and_then]; try discriminate. intros E2.
  destruct (u32_moves _ _ _ _ E1) as (A1 & B1 & C1). destruct (coordinates_move src _ _ _ _ E2) as (A2 & B2). split; [lia|]. split; [auto|].
  intros src' p Pp Le. rewrite (u32_again _ _ _ Pp _ _ _ E1) by lia. cbn [and_then]. exact (coordinates_again _ _ _ Pp _ _ _ _ E2).
Qed.
Lemma srid_moves src w s s2 : m_srid src w s = Fine s2 -> rs_pos s <= rs_pos s2 /\ (rs_pos s <= len src -> rs_pos s2 <= len src) /\ (good src s -> good src s2) /\ (ewkb_has w EWKB_SRID_BIT = false -> s2 = s) /\
  (ewkb_has w EWKB_SRID_BIT = true -> rs_pos s2 = rs_pos s + 4).
Proof.
  unfold m_srid. destruct (ewkb_has w EWKB_SRID_BIT).
  - destruct (m_u32 src s) as [[s1 n]|c t| |] eqn:E1; cbn [and_then]; try discriminate. intros E2. injection E2 as <-. destruct (u32_moves _ _ _ _ E1) as (A & B & C). split; [lia|]. split; [lia|]. split; [auto|]. split; [discriminate|]. intros _. lia.
  - intros E. injection E as <-. split; [lia|]. split; [auto|]. split; [auto|]. split; [auto|discriminate].
Qed.
Lemma srid_again src src' p : prefixed src src' p -> forall w s s2, m_srid src w s = Fine s2 -> rs_pos s2 <= p -> m_srid src' w (moved (len src' - len src) s) = Fine (moved (len src' - len src) s2).
Proof.
  intros Pp w s s2. unfold m_srid. destruct (ewkb_has w EWKB_SRID_BIT).
  - destruct (m_u32 src s) as [[s1 n]|c t| |] eqn:E1; cbn [and_then]; try discriminate. intros E2 Le. injection E2 as <-. rewrite (u32_again _ _ _ Pp _ _ _ E1 Le). reflexivity.
  - intros E _. injection E as <-. reflexivity.
Qed.
Lemma size_moves src g s s2 n : m_size src g s = Fine (s2, n) -> rs_pos s <= rs_pos s2 /\ (rs_pos s <= len src -> rs_pos s2 <= len src) /\ (good src s -> good src s2).
Proof.
  unfold m_size. destruct (negb (N.eqb g 1)).
  - intros E. destruct (u32_moves _ _ _ _ E) as (A & B & C). split; [lia|]. split; [lia|auto].
  - intros E. injection E as <- _. split; [lia|]. auto.
Qed.
Lemma size_again src src' p : prefixed src src' p -> forall g s s2 n, m_size src g s = Fine (s2, n) -> rs_pos s2 <= p -> m_size src' g (moved (len src' - len src) s) = Fine (moved (len src' - len src) s2, n).
Proof.
  intros Pp g s s2 n. unfold m_size. destruct (negb (N.eqb g 1)).
  - intros E Le. exact (u32_again _ _ _ Pp _ _ _ E Le).
  - intros E _. injection E as <- <-. reflexivity.
Qed.
Lemma geometry_replay f : forall level, replays (fun src => m_geometry src f level).
Proof.
  induction f as [|f IH]; intros level src s s5; [discriminate|]. rewrite m_geometry_S. destruct (m_endian src s) as [s1|c t| |] eqn:E1; cbn [and_then]; try discriminate.
  unfold m_after. destruct (m_u32 src s1) as [[s2 w]|c t| |] eqn:E2; cbn [and_then]; try discriminate. unfold m_typed. destruct (m_srid src w s2) as [s3|c t| |] eqn:E3; cbn [and_then]; try discriminate.
  destruct (m_size src (type_in w) s3) as [[s4 n]|c t| |] eqn:E4; cbn [and_then]; try discriminate. intros E5.
  destruct (endian_moves _ _ _ E1) as (A1 & B1 & C1). destruct (u32_moves _ _ _ _ E2) as (A2 & B2 & C2). destruct (srid_moves _ _ _ _ E3) as (A3 & B3 & C3 & _). destruct (size_moves _ _ _ _ _ E4) as (A4 & B4 & C4).
  assert (replays (fun src => m_sized src f level (rs_pos s1) (type_in w) (size_of_type w) n)) as R.
  { clear - IH. intros src s s2. unfold m_sized. destruct (N.eqb (type_in w) 1 || N.eqb (type_in w) 2).
    - intros E. destruct (coordinates_move src _ _ _ _ E) as (A & B). split; [exact A|]. split; [exact B|]. intros src' p Pp _. exact (coordinates_again _ _ _ Pp _ _ _ _ E).
    - destruct (N.eqb (type_in w) 3); [|destruct (N.eqb (type_in w) 4 || _ || _ || _); [|discriminate]].
      + destruct (N.eqb level 255); [discriminate|]. exact (times_replay (fun src => m_ring src (size_of_type w)) n f (ring_replay _) src s s2).
      + destruct (N.eqb level 255); [discriminate|]. exact (times_replay (fun src => m_geometry src f (level + 1)) n f (IH _) src s s2). }
  destruct (R _ _ _ E5) as (A5 & B5 & C5). split; [lia|]. split; [intros G; exact (B5 (C4 (C3 (C2 (C1 G)))))|]. intros src' p Pp Le. rewrite m_geometry_S. rewrite (endian_again _ _ _ Pp _ _ E1) by lia. cbn [and_then].
  unfold m_after. rewrite (u32_again _ _ _ Pp _ _ _ E2) by lia. cbn [and_then moved rs_pos]. unfold m_typed. fold (moved (len src' - len src) s2). rewrite (srid_again _ _ _ Pp _ _ _ E3) by lia. cbn [and_then].
  rewrite (size_again _ _ _ Pp _ _ _ _ E4) by lia. cbn [and_then]. exact (C5 src' p Pp Le).
Qed.

(** ** Bytes that are there *)
Definition wide (src : bytes) (s : rstate) : Prop := len src <= rs_pos s + rs_size s.
Definition placed (src : bytes) (p : Z) (c : bytes) : Prop := exists u v, src = u ++ c ++ v /\ len u = p.
Lemma placed_app src p a b : placed src p (a ++ b) -> placed src p a /\ placed src (p + len a) b.
Proof.
  intros (u & v & E & Lu). split.
  - exists u, (b ++ v). rewrite E, <- !app_assoc. split; [reflexivity|exact Lu].
  - exists (u ++ a), v. rewrite E, <- !app_assoc, app_length. split; [reflexivity|lia].
Qed.
Lemma placed_after src p c x : 0 <= p <= len src -> placed (firstn (Z.to_nat p) src ++ c ++ x) p c.
Proof. intros H. exists (firstn (Z.to_nat p) src), x. split; [reflexivity|]. rewrite firstn_length. lia. Qed.
Lemma placed_len src p c : placed src p c -> 0 <= p /\ p + len c <= len src.
Proof. intros (u & v & -> & <-). rewrite !app_length. lia. Qed.
Lemma placed_slice src p c : placed src p c -> slice src p (length c) = Some c.
Proof. intros (u & v & -> & <-). apply slice_app_at; reflexivity. Qed.

Lemma u32_given src s b0 b1 b2 b3 : placed src (rs_pos s) [b0; b1; b2; b3] -> wide src s ->
  m_u32 src s = Fine ({| rs_pos := rs_pos s + 4; rs_size := rs_size s - 4; rs_swap := rs_swap s |}, if rs_swap s then bswap32 (le_val [b0; b1; b2; b3]) else le_val [b0; b1; b2; b3]).
Proof.
  intros P W. pose proof (placed_len _ _ _ P) as PL. cbn [length] in PL. unfold wide in W. unfold m_u32. destruct (4 <=? rs_size s) eqn:E; [|lia].
  pose proof (placed_slice _ _ _ P) as Q. cbn [length] in Q. rewrite Q. reflexivity.
Qed.
Lemma zero_given src s : placed src (rs_pos s) [0; 0; 0; 0]%N -> wide src s ->
  m_u32 src s = Fine ({| rs_pos := rs_pos s + 4; rs_size := rs_size s - 4; rs_swap := rs_swap s |}, 0%N).
Proof. intros P W. rewrite (u32_given _ _ _ _ _ _ P W). destruct (rs_swap s); reflexivity. Qed.
Definition line_word (swap : bool) : bytes := if swap then [0; 0; 0; 2]%N else [2; 0; 0; 0]%N.
Lemma after_line src f level s : placed src (rs_pos s) (line_word (rs_swap s) ++ [0; 0; 0; 0]%N) -> wide src s ->
  m_after src f level s = Fine {| rs_pos := rs_pos s + 8; rs_size := rs_size s - 8; rs_swap := rs_swap s |}.
Proof.
  intros P W. apply placed_app in P. destruct P as [P1 P2]. unfold m_after. unfold wide in W.
  assert (m_u32 src s = Fine ({| rs_pos := rs_pos s + 4; rs_size := rs_size s - 4; rs_swap := rs_swap s |}, 2%N)) as E.
  { unfold line_word in P1. destruct (rs_swap s) eqn:Sw; rewrite (u32_given _ _ _ _ _ _ P1 W), Sw; reflexivity. }
  rewrite E. cbn [and_then]. unfold m_typed. change (m_srid src 2 ?s) with (Fine s). cbn [and_then]. change (type_in 2) with 2%N. unfold m_size. change (negb (2 =? 1)%N) with true. cbv iota.
  assert (len (line_word (rs_swap s)) = 4) as L4 by (destruct (rs_swap s); reflexivity). rewrite L4 in P2.
  rewrite (zero_given src {| rs_pos := rs_pos s + 4; rs_size := rs_size s - 4; rs_swap := rs_swap s |} P2) by (unfold wide; cbn; lia). cbn [and_then]. unfold m_sized. change ((2 =? 1)%N || (2 =? 2)%N) with true. cbv iota.
  pose proof (placed_len _ _ _ P2) as B. cbn [length] in B. unfold m_coordinates. cbn [rs_pos rs_size rs_swap]. change (Z.of_N (wrap32 (0 * size_of_type 2) * 8)) with 0. destruct (rs_size s - 4 - 4 <? 0) eqn:Es; [lia|].
  f_equal. f_equal; lia.
Qed.
Definition empty_line : bytes := [1; 2; 0; 0; 0; 0; 0; 0; 0]%N.
Lemma line_given src level s : placed src (rs_pos s) empty_line -> wide src s -> exists s2, rs_pos s2 = rs_pos s + 9 /\ wide src s2 /\ forall f, (1 <= f)%nat -> m_geometry src f level s = Fine s2.
Proof.
  intros P W. exists {| rs_pos := rs_pos s + 1 + 8; rs_size := rs_size s - 1 - 8; rs_swap := false |}. unfold wide in *. cbn [rs_pos rs_size]. split; [lia|]. split; [lia|]. intros f F. destruct f as [|f]; [lia|].
  rewrite m_geometry_S. change empty_line with ([1%N] ++ (line_word false ++ [0; 0; 0; 0]%N)) in P. apply placed_app in P. destruct P as [P1 P2]. cbn [length] in P2.
  pose proof (placed_slice _ _ _ P1) as Q. cbn [length] in Q. pose proof (placed_len _ _ _ P1) as B. cbn [length] in B. unfold m_endian. destruct (0 <? rs_size s) eqn:E; [|lia]. rewrite Q. change (negb (le_val [1%N] =? 1)%N) with false. cbn [and_then].
  rewrite (after_line src f level {| rs_pos := rs_pos s + 1; rs_size := rs_size s - 1; rs_swap := false |} P2) by (unfold wide; cbn; lia). reflexivity.
Qed.
Lemma ring_given src k s : placed src (rs_pos s) [0; 0; 0; 0]%N -> wide src s -> exists s2, rs_pos s2 = rs_pos s + 4 /\ wide src s2 /\ m_ring src k s = Fine s2.
Proof.
  intros P W. exists {| rs_pos := rs_pos s + 4; rs_size := rs_size s - 4; rs_swap := rs_swap s |}. pose proof (placed_len _ _ _ P) as B. cbn [length] in B. unfold wide in *. cbn [rs_pos rs_size]. split; [lia|]. split; [lia|].
  unfold m_ring. rewrite (zero_given _ _ P W). cbn [and_then]. unfold m_coordinates. cbn [rs_pos rs_size rs_swap]. change (Z.of_N (wrap32 (0 * k) * 8)) with 0. destruct (rs_size s - 4 <? 0) eqn:Es; [lia|]. f_equal. f_equal. lia.
Qed.

(** Any number of empty items *)
Definition item (rd : bytes -> nat -> rstate -> told rstate) (e : bytes) : Prop := forall src s, placed src (rs_pos s) e -> wide src s ->
  exists s2, rs_pos s2 = rs_pos s + len e /\ wide src s2 /\ forall f, (1 <= f)%nat -> rd src f s = Fine s2.
Definition copies (n : nat) (e : bytes) : bytes := concat (repeat e n).
Lemma items_given rd e : item rd e -> forall n src s, placed src (rs_pos s) (copies n e) -> wide src s ->
  exists s2, rs_pos s2 = rs_pos s + len (copies n e) /\ wide src s2 /\ forall ft fr, (n <= ft)%nat -> (1 <= fr)%nat -> m_times ft (rd src fr) (N.of_nat n) s = Fine s2.
Proof.
  intros H n. induction n as [|n IH]; intros src s P W.
  - exists s. cbn [copies repeat concat length]. split; [lia|]. split; [exact W|]. intros ft fr _ _. destruct ft; reflexivity.
  - change (copies (S n) e) with (e ++ copies n e) in *. apply placed_app in P. destruct P as [P1 P2]. destruct (H _ _ P1 W) as (s1 & Q1 & W1 & E1). rewrite <- Q1 in P2. destruct (IH _ _ P2 W1) as (s2 & Q2 & W2 & E2).
    exists s2. rewrite app_length. split; [lia|]. split; [exact W2|]. intros ft fr Ft Fr. destruct ft as [|ft]; [lia|]. cbn [m_times]. destruct (N.of_nat (S n) =? 0)%N eqn:Z0; [lia|]. rewrite (E1 fr Fr). cbn [and_then].
    replace (N.of_nat (S n) - 1)%N with (N.of_nat n) by lia. apply E2; lia.
Qed.

(** ** Steps that fail *)
(** No bytes can follow the first [p]: a type that does not exist is before them, or there are too many levels. *)
Definition hopeless (src : bytes) (p : Z) : Prop :=
  (exists q e w, (Z.of_N q + 4 = p \/ Z.of_N q + 8 = p) /\ uint32_at src q e w /\ (~ (1 <= type_in w <= 7) \/ (3 <= type_in w /\ 255 * 9 <= q))%N).
Definition rescued (src : bytes) (ev : bytes -> rstate -> rstate -> Prop) (s : rstate) (text : bytes) : Prop :=
  exists before p, text = before ++ $" at byte " ++ ld p /\ rs_pos s <= p <= len src /\
    (hopeless src p \/
     exists c, wf_bytes c /\ forall src' x, src' = firstn (Z.to_nat p) src ++ c ++ x -> len src <= len src' ->
       exists s2, rs_pos s2 = p + len c /\ wide src' s2 /\ ev src' (moved (len src' - len src) s) s2).
Definition eventually (rd : bytes -> nat -> rstate -> told rstate) (src : bytes) (s s2 : rstate) : Prop := exists f0, forall f, (f0 <= f)%nat -> rd src f s = Fine s2.
Definition times_eventually (rd : bytes -> nat -> rstate -> told rstate) (n : N) (src : bytes) (s s2 : rstate) : Prop :=
  exists f0, forall ft fr, (f0 <= ft)%nat -> (f0 <= fr)%nat -> m_times ft (rd src fr) n s = Fine s2.

Lemma wf_copies n e : wf_bytes e -> wf_bytes (copies n e).
Proof. intros H. apply Forall_concat. induction n; cbn; constructor; auto. Qed.

Lemma times_break rd e lo src fr : (forall f, replays (fun src => rd src f)) -> (forall src f f' s, rd src f s <> Exhausted -> (f <= f')%nat -> rd src f' s = rd src f s) ->
  item rd e -> wf_bytes e -> (forall s text, rd src fr s = Said EINVAL text -> good src s -> lo <= rs_pos s -> rescued src (eventually rd) s text) ->
  forall ft n s text, m_times ft (rd src fr) n s = Said EINVAL text -> good src s -> lo <= rs_pos s -> rescued src (times_eventually rd n) s text.
Proof.
  intros Rep Mono It We Br ft. induction ft as [|ft IH]; intros n s text; cbn [m_times]; destruct (N.eqb n 0) eqn:N0; try discriminate. apply N.eqb_neq in N0.
  destruct (rd src fr s) as [s1|c t| |] eqn:E1; cbn [and_then]; try discriminate.
  - intros E2 G Lo. destruct (Rep fr _ _ _ E1) as (A1 & B1 & C1). destruct (IH _ _ _ E2 (B1 G) ltac:(lia)) as (pre & p & Et & Pp & H). exists pre, p. split; [exact Et|]. split; [lia|].
    destruct H as [H|(c & Wc & H)]; [left; exact H|]. right. exists c. split; [exact Wc|]. intros src' x Es Ls. destruct (H src' x Es Ls) as (s2 & P2 & W2 & f0 & F). exists s2. split; [exact P2|]. split; [exact W2|].
    assert (prefixed src src' p) as Pre. { split; [destruct G; lia|]. split; [exact Ls|]. exists (c ++ x). exact Es. }
    exists (S (Nat.max f0 fr)). intros f1 f2 F1 F2. destruct f1 as [|f1]; [lia|]. cbn [m_times]. destruct (N.eqb n 0) eqn:N0'; [apply N.eqb_eq in N0'; contradiction|].
    pose proof (C1 src' p Pre ltac:(lia)) as Q. rewrite (Mono src' fr f2); [|rewrite Q; discriminate|lia]. rewrite Q. cbn [and_then]. apply F; lia.
  - intros E2 G Lo. injection E2 as -> ->. destruct (Br _ _ E1 G Lo) as (pre & p & Et & Pp & H). exists pre, p. split; [exact Et|]. split; [exact Pp|]. destruct H as [H|(c & Wc & H)]; [left; exact H|]. right.
    exists (c ++ copies (N.to_nat n - 1) e). split; [apply wf_bytes_app; split; [exact Wc|apply wf_copies; exact We]|]. intros src' x Es Ls. rewrite <- app_assoc in Es.
    destruct (H src' (copies (N.to_nat n - 1) e ++ x) Es Ls) as (s1 & P1 & W1 & f0 & F).
    assert (placed src' (rs_pos s1) (copies (N.to_nat n - 1) e)) as Pl.
    { rewrite P1. assert (placed src' p (c ++ copies (N.to_nat n - 1) e)) as Q. { rewrite Es. rewrite app_assoc. rewrite app_assoc. rewrite <- (app_assoc _ c). rewrite <- app_assoc. apply placed_after. destruct G; lia. } apply placed_app in Q. exact (proj2 Q). }
    destruct (items_given _ _ It _ _ _ Pl W1) as (s2 & P2 & W2 & F2). exists s2. rewrite app_length. split; [lia|]. split; [exact W2|]. exists (S (Nat.max f0 (N.to_nat n))). intros f1 f2 F1 F2'. destruct f1 as [|f1]; [lia|].
    cbn [m_times]. destruct (N.eqb n 0) eqn:N0'; [apply N.eqb_eq in N0'; contradiction|]. rewrite F by lia. cbn [and_then]. replace (n - 1)%N with (N.of_nat (N.to_nat n - 1)) by lia. apply F2; lia.
Qed.

Section Breaks.
  Variable src : bytes.
  Hypothesis wf : wf_bytes src.

  Lemma good_wide s src' : good src s -> len src <= len src' -> wide src' (moved (len src' - len src) s).
  Proof. intros G L. unfold wide, moved, good in *. cbn [rs_pos rs_size]. lia. Qed.
  Lemma u32_word s s2 w : good src s -> m_u32 src s = Fine (s2, w) -> exists e, uint32_at src (Z.to_N (rs_pos s)) e w.
  Proof.
    intros G E. pose proof (u32_tells src wf s G) as A. rewrite E in A. destruct (read_u32 src s) as [[s2' w']|c| |]; cbn in A.
    - destruct A as (a & Ea & Eb & _ & _ & _ & _ & Sp & _). injection Ea as <-. injection Eb as _ <-. destruct (rs_swap s) eqn:Sw; [exists 0%N|exists 1%N]; apply Sp; reflexivity.
    - destruct A as (t & Et & _). discriminate.
    - discriminate.
    - discriminate.
  Qed.
  Lemma u32_said s text : good src s -> m_u32 src s = Said EINVAL text -> text = $"Expected uint32 but found end of buffer" ++ $" at byte " ++ ld (rs_pos s) /\ rs_pos s <= len src.
  Proof.
    intros (P & S & G). unfold m_u32. destruct (4 <=? rs_size s) eqn:E; [destruct (slice src (rs_pos s) 4); discriminate|]. intros H. injection H as <-. split; [reflexivity|lia].
  Qed.
  Lemma coordinates_break s n k text : m_coordinates s n k = Said EINVAL text -> good src s -> rs_pos s <= len src ->
    rescued src (fun src' s1 s2 => m_coordinates s1 n k = Fine s2) s text.
  Proof.
    unfold m_coordinates. set (needed := (wrap32 (n * k) * 8)%N). destruct (rs_size s <? Z.of_N needed) eqn:E; [|discriminate]. intros H G L. injection H as <-.
    exists ($"Expected coordinate sequence of " ++ ld (Z.of_N n) ++ $" coords (" ++ ld (Z.of_N needed) ++ $" bytes) but found " ++ ld (rs_size s) ++ $" bytes remaining"), (rs_pos s).
    split; [rewrite <- !app_assoc; reflexivity|]. split; [lia|]. right. exists (repeat 0%N (N.to_nat needed)). split; [apply Forall_forall; intros x Hx; apply repeat_spec in Hx; subst x; reflexivity|].
    intros src' x Es Ls. assert (rs_pos s + Z.of_N needed <= len src') as B. { rewrite Es, !app_length, repeat_length, firstn_length. destruct G. lia. }
    exists {| rs_pos := rs_pos s + Z.of_N needed; rs_size := rs_size s + (len src' - len src); rs_swap := rs_swap s |}. cbn [moved rs_pos rs_size rs_swap]. rewrite repeat_length. split; [lia|].
    unfold wide, good in *. cbn [rs_pos rs_size]. split; [lia|]. destruct (rs_size s + (len src' - len src) <? Z.of_N needed) eqn:E'; [lia|]. reflexivity.
  Qed.
  Lemma ring_break k s text : m_ring src k s = Said EINVAL text -> good src s -> rescued src (eventually (fun src (_ : nat) => m_ring src k)) s text.
  Proof.
    unfold m_ring. destruct (m_u32 src s) as [[s1 n]|c t| |] eqn:E1; cbn [and_then]; try discriminate; intros E2 G.
    - destruct (u32_moves _ _ _ _ E1) as (A1 & B1 & C1). destruct (coordinates_break _ _ _ _ E2 (C1 G) B1) as (pre & p & Et & Pp & H). exists pre, p. split; [exact Et|]. split; [lia|]. destruct H as [H|(c & Wc & H)]; [left; exact H|].
      right. exists c. split; [exact Wc|]. intros src' x Es Ls. destruct (H src' x Es Ls) as (s2 & P2 & W2 & F). exists s2. split; [exact P2|]. split; [exact W2|]. exists 0%nat. intros _ _.
      assert (prefixed src src' p) as Pre. { split; [destruct G; lia|]. split; [exact Ls|]. exists (c ++ x). exact Es. }
      rewrite (u32_again _ _ _ Pre _ _ _ E1) by lia. cbn [and_then]. exact F.
    - injection E2 as -> ->. destruct (u32_said _ _ G E1) as [Et L]. exists $"Expected uint32 but found end of buffer", (rs_pos s). split; [exact Et|]. split; [lia|]. right. exists [0; 0; 0; 0]%N. split; [repeat constructor|].
      intros src' x Es Ls. assert (placed src' (rs_pos s) [0; 0; 0; 0]%N) as Pl. { rewrite Es. apply placed_after. destruct G; lia. }
      destruct (ring_given src' k (moved (len src' - len src) s) Pl (good_wide _ _ G Ls)) as (s2 & P2 & W2 & F). exists s2. split; [exact P2|]. split; [exact W2|]. exists 0%nat. intros _ _. exact F.
  Qed.

  Lemma sized_zero src' f level at_type g k s : (2 <= g <= 7)%N -> (3 <= g -> level <> 255)%N -> 0 <= rs_size s -> m_sized src' f level at_type g k 0 s = Fine s.
  Proof.
    intros Hg Hl Hs. unfold m_sized. destruct (N.eqb g 1 || N.eqb g 2) eqn:E12.
    - unfold m_coordinates. change (Z.of_N (wrap32 (0 * k) * 8)) with 0. destruct (rs_size s <? 0) eqn:E; [lia|]. destruct s. cbn. f_equal. f_equal. lia.
    - apply orb_false_iff in E12. destruct E12 as [N1 N2]. apply N.eqb_neq in N1, N2. destruct (N.eqb level 255) eqn:E255; [apply N.eqb_eq in E255; contradiction Hl; lia|].
      destruct (N.eqb g 3) eqn:E3; [destruct f; reflexivity|]. destruct (N.eqb g 4 || N.eqb g 5 || N.eqb g 6 || N.eqb g 7) eqn:E47; [destruct f; reflexivity|]. lia.
  Qed.
  Lemma size_of_type_le w : (2 <= size_of_type w <= 4)%N.
  Proof. unfold size_of_type. destruct (resolve_type w) as [[g z] m]. pose proof (b2n_le z). pose proof (b2n_le m). lia. Qed.

  Lemma geometry_break f : forall level s text, m_geometry src f level s = Said EINVAL text -> good src s -> (level <= 255)%N -> 9 * Z.of_N level <= rs_pos s ->
    rescued src (eventually (fun src f => m_geometry src f level)) s text.
  Proof.
    induction f as [|f IH]; intros level s text; [discriminate|]. rewrite m_geometry_S. intros E G Lv Deep. destruct (m_endian src s) as [s1|c t| |] eqn:E1; cbn [and_then] in E; try discriminate.
    2:{ injection E as -> ->. unfold m_endian in E1. destruct (0 <? rs_size s) eqn:E0; [destruct (slice src (rs_pos s) 1); discriminate|]. injection E1 as <-.
        exists $"Expected endian byte but found end of buffer", (rs_pos s). split; [reflexivity|]. assert (0 <= rs_pos s <= len src) as L by (unfold good in G; lia). split; [lia|]. right. exists empty_line. split; [repeat constructor|].
        intros src' x Es Ls. assert (placed src' (rs_pos s) empty_line) as Pl. { rewrite Es. apply placed_after. exact L. }
        destruct (line_given src' level (moved (len src' - len src) s) Pl (good_wide _ _ G Ls)) as (s2 & P2 & W2 & F). exists s2. split; [exact P2|]. split; [exact W2|]. exists 1%nat. exact F. }
    destruct (endian_moves _ _ _ E1) as (A1 & B1 & C1). pose proof (C1 G) as G1.
    (* a type and nothing *)
    assert (forall pre, rescued src (eventually (fun src f => m_geometry src f level)) s (pre ++ $" at byte " ++ ld (rs_pos s1))) as New.
    { intros pre. exists pre, (rs_pos s1). split; [reflexivity|]. split; [lia|]. right. exists (line_word (rs_swap s1) ++ [0; 0; 0; 0]%N). split; [destruct (rs_swap s1); repeat constructor|].
      intros src' x Es Ls. assert (prefixed src src' (rs_pos s1)) as Pre. { split; [destruct G1; lia|]. split; [exact Ls|]. eexists. exact Es. }
      assert (placed src' (rs_pos s1) (line_word (rs_swap s1) ++ [0; 0; 0; 0]%N)) as Pl. { rewrite Es. apply placed_after. destruct G1; lia. }
      pose proof (good_wide _ _ G1 Ls) as W1. set (d := len src' - len src) in *.
      exists {| rs_pos := rs_pos s1 + 8; rs_size := rs_size s1 + d - 8; rs_swap := rs_swap s1 |}. cbn [rs_pos rs_size]. assert (len (line_word (rs_swap s1) ++ [0; 0; 0; 0]%N) = 8) as L8 by (destruct (rs_swap s1); reflexivity).
      split; [lia|]. split; [unfold wide, moved in *; cbn [rs_pos rs_size] in *; lia|]. exists 1%nat. intros f' F'. destruct f' as [|f']; [lia|]. rewrite m_geometry_S. unfold d. rewrite (endian_again _ _ _ Pre _ _ E1) by lia. fold d. cbn [and_then].
      rewrite (after_line src' f' level (moved d s1) Pl W1). reflexivity. }
    unfold m_after in E. destruct (m_u32 src s1) as [[s2 w]|c t| |] eqn:E2; cbn [and_then] in E; try discriminate.
    2:{ injection E as -> ->. destruct (u32_said _ _ G1 E2) as [-> _]. apply New. }
    destruct (u32_moves _ _ _ _ E2) as (A2 & B2 & C2). pose proof (C2 G1) as G2. destruct (u32_word _ _ _ G1 E2) as (e & Ew).
    unfold m_typed in E. pose proof (size_of_type_le w) as K. set (k := size_of_type w) in *. set (g := type_in w) in *.
    assert (forall src' p, prefixed src src' p -> rs_pos s2 <= p -> forall f', m_geometry src' (S f') level (moved (len src' - len src) s) = m_typed src' f' level (rs_pos s1) w (moved (len src' - len src) s2)) as Head.
    { intros src' p Pre Le f'. rewrite m_geometry_S. rewrite (endian_again _ _ _ Pre _ _ E1) by lia. cbn [and_then]. unfold m_after. rewrite (u32_again _ _ _ Pre _ _ _ E2) by lia. reflexivity. }
    destruct (m_srid src w s2) as [s3|c t| |] eqn:E3; cbn [and_then] in E; try discriminate.
    2:{ injection E as -> ->. unfold m_srid in E3. destruct (ewkb_has w EWKB_SRID_BIT) eqn:Srid; [|discriminate]. destruct (m_u32 src s2) as [[s3 x]|c t| |] eqn:E3'; cbn [and_then] in E3; try discriminate. injection E3 as -> ->.
        destruct (u32_said _ _ G2 E3') as [-> L]. eexists. exists (rs_pos s2). split; [reflexivity|]. split; [lia|].
        destruct (N.eq_dec g 0) as [G0|NG0]; [left; exists (Z.to_N (rs_pos s1)), e, w; split; [left; destruct G1; lia|]; split; [exact Ew|]; fold g; lia|].
        destruct (N.le_gt_cases g 7) as [G7|NG7]; [|left; exists (Z.to_N (rs_pos s1)), e, w; split; [left; destruct G1; lia|]; split; [exact Ew|]; fold g; lia].
        assert ((3 <= g -> level <> 255)%N \/ (level = 255 /\ 3 <= g)%N) as [N255|D255] by lia; [|left; exists (Z.to_N (rs_pos s1)), e, w; split; [left; destruct G1; lia|]; split; [exact Ew|]; fold g; lia]. right.
        destruct (N.eq_dec g 1) as [Eg1|Ng1].
        - exists ([0; 0; 0; 0]%N ++ repeat 0%N (N.to_nat (8 * k))). split; [apply Forall_forall; intros x Hx; apply in_app_iff in Hx; destruct Hx as [Hx|Hx]; [repeat destruct Hx as [<-|Hx]; try reflexivity; destruct Hx|apply repeat_spec in Hx; subst x; reflexivity]|].
          intros src' x Es Ls. assert (prefixed src src' (rs_pos s2)) as Pre. { split; [destruct G2; lia|]. split; [exact Ls|]. eexists. exact Es. }
          pose proof (good_wide _ _ G2 Ls) as W2. assert (placed src' (rs_pos s2) ([0; 0; 0; 0]%N ++ repeat 0%N (N.to_nat (8 * k)))) as Pl. { rewrite Es. apply placed_after. destruct G2; lia. }
          pose proof (placed_len _ _ _ Pl) as PL. rewrite app_length, repeat_length in PL |- *. cbn [length] in PL |- *. apply placed_app in Pl. destruct Pl as [Pl _]. set (d := len src' - len src) in *.
          exists {| rs_pos := rs_pos s2 + 4 + Z.of_N (8 * k); rs_size := rs_size s2 + d - 4; rs_swap := rs_swap s2 |}. cbn [rs_pos rs_size]. split; [lia|]. unfold wide in *. cbn [moved rs_pos rs_size] in *. split; [lia|].
          exists 1%nat. intros f' F'. destruct f' as [|f']; [lia|]. unfold d. rewrite (Head src' (rs_pos s2) Pre ltac:(lia)). fold d. unfold m_typed, m_srid. rewrite Srid. rewrite (zero_given src' (moved d s2) Pl) by (unfold wide; cbn [moved rs_pos rs_size]; lia). cbn [and_then].
          fold g. fold k. unfold m_size. rewrite Eg1. change (negb (1 =? 1)%N) with false. cbv iota. cbn [and_then]. unfold m_sized. change ((1 =? 1)%N || (1 =? 2)%N) with true. cbv iota. unfold m_coordinates. cbn [moved rs_pos rs_size rs_swap].
          assert (wrap32 (1 * k) * 8 = 8 * k)%N as Wk by (unfold wrap32, u32_max1; rewrite N.mod_small by lia; lia). rewrite Wk. destruct (rs_size s2 + d - 4 <? Z.of_N (8 * k)) eqn:Es'; [lia|]. reflexivity.
        - exists ([0; 0; 0; 0]%N ++ [0; 0; 0; 0]%N). split; [repeat constructor|].
          intros src' x Es Ls. assert (prefixed src src' (rs_pos s2)) as Pre. { split; [destruct G2; lia|]. split; [exact Ls|]. eexists. exact Es. }
          pose proof (good_wide _ _ G2 Ls) as W2. assert (placed src' (rs_pos s2) ([0; 0; 0; 0]%N ++ [0; 0; 0; 0]%N)) as Pl. { rewrite Es. apply placed_after. destruct G2; lia. }
          pose proof (placed_len _ _ _ Pl) as PL. rewrite app_length in PL |- *. cbn [length] in PL |- *. apply placed_app in Pl. destruct Pl as [Pl Pl2]. cbn [length] in Pl2. set (d := len src' - len src) in *.
          exists {| rs_pos := rs_pos s2 + 4 + 4; rs_size := rs_size s2 + d - 4 - 4; rs_swap := rs_swap s2 |}. cbn [rs_pos rs_size]. split; [lia|]. unfold wide in *. cbn [moved rs_pos rs_size] in *. split; [lia|].
          exists 1%nat. intros f' F'. destruct f' as [|f']; [lia|]. unfold d. rewrite (Head src' (rs_pos s2) Pre ltac:(lia)). fold d. unfold m_typed, m_srid. rewrite Srid. rewrite (zero_given src' (moved d s2) Pl) by (unfold wide; cbn [moved rs_pos rs_size]; lia). cbn [and_then moved rs_pos rs_size rs_swap].
          fold g. fold k. unfold m_size. destruct (N.eqb g 1) eqn:Eg1; [apply N.eqb_eq in Eg1; contradiction|]. cbn [negb]. rewrite (zero_given src' {| rs_pos := rs_pos s2 + 4; rs_size := rs_size s2 + d - 4; rs_swap := rs_swap s2 |} Pl2) by (unfold wide; cbn [rs_pos rs_size]; lia).
          cbn [and_then rs_pos rs_size rs_swap]. apply sized_zero; cbn [rs_size]; lia. }
    destruct (srid_moves _ _ _ _ E3) as (A3 & B3 & C3 & D3 & D3'). pose proof (C3 G2) as G3.
    destruct (m_size src g s3) as [[s4 n]|c t| |] eqn:E4; cbn [and_then] in E; try discriminate.
    2:{ injection E as -> ->. unfold m_size in E4. destruct (N.eqb g 1) eqn:Eg1; [discriminate|]. cbn [negb] in E4. destruct (u32_said _ _ G3 E4) as [-> L]. eexists. exists (rs_pos s3). split; [reflexivity|]. split; [lia|].
        assert (rs_pos s1 + 4 = rs_pos s3 \/ rs_pos s1 + 8 = rs_pos s3) as Q. { destruct (ewkb_has w EWKB_SRID_BIT); [right; specialize (D3' eq_refl); lia|left; rewrite (D3 eq_refl); lia]. }
        destruct (N.eq_dec g 0) as [G0|NG0]; [left; exists (Z.to_N (rs_pos s1)), e, w; split; [destruct G1; lia|]; split; [exact Ew|]; fold g; lia|].
        destruct (N.le_gt_cases g 7) as [G7|NG7]; [|left; exists (Z.to_N (rs_pos s1)), e, w; split; [destruct G1; lia|]; split; [exact Ew|]; fold g; lia].
        assert ((3 <= g -> level <> 255)%N \/ (level = 255 /\ 3 <= g)%N) as [N255|D255] by lia; [|left; exists (Z.to_N (rs_pos s1)), e, w; split; [destruct G1; lia|]; split; [exact Ew|]; fold g; lia]. right.
        exists [0; 0; 0; 0]%N. split; [repeat constructor|]. intros src' x Es Ls. assert (prefixed src src' (rs_pos s3)) as Pre. { split; [destruct G3; lia|]. split; [exact Ls|]. eexists. exact Es. }
        pose proof (good_wide _ _ G3 Ls) as W3. assert (placed src' (rs_pos s3) [0; 0; 0; 0]%N) as Pl. { rewrite Es. apply placed_after. destruct G3; lia. } pose proof (placed_len _ _ _ Pl) as PL. cbn [length] in PL |- *. set (d := len src' - len src) in *.
        exists {| rs_pos := rs_pos s3 + 4; rs_size := rs_size s3 + d - 4; rs_swap := rs_swap s3 |}. cbn [rs_pos rs_size]. split; [lia|]. unfold wide in *. cbn [moved rs_pos rs_size] in *. split; [lia|].
        exists 1%nat. intros f' F'. destruct f' as [|f']; [lia|]. unfold d. rewrite (Head src' (rs_pos s3) Pre ltac:(lia)). unfold m_typed. rewrite (srid_again _ _ _ Pre _ _ _ E3) by lia. fold d. cbn [and_then].
        fold g. fold k. unfold m_size. rewrite Eg1. cbn [negb]. rewrite (zero_given src' (moved d s3) Pl) by (unfold wide; cbn [moved rs_pos rs_size]; lia). cbn [and_then moved rs_pos rs_size rs_swap]. apply N.eqb_neq in Eg1. apply sized_zero; cbn [rs_size]; lia. }
    destruct (size_moves _ _ _ _ _ E4) as (A4 & B4 & C4). pose proof (C4 G3) as G4.
    assert (forall ev : bytes -> rstate -> rstate -> Prop, rescued src ev s4 text ->
              (forall src' t1 t2, ev src' t1 t2 -> exists f0, forall f', (f0 <= f')%nat -> m_sized src' f' level (rs_pos s1) g k n t1 = Fine t2) -> rescued src (eventually (fun src f => m_geometry src f level)) s text) as Through.
    { intros ev (pre & p & Et & Pp & H) Ev. exists pre, p. split; [exact Et|]. split; [lia|]. destruct H as [H|(c & Wc & H)]; [left; exact H|]. right. exists c. split; [exact Wc|]. intros src' x Es Ls.
      destruct (H src' x Es Ls) as (t & Pt & Wt & Evt). exists t. split; [exact Pt|]. split; [exact Wt|]. destruct (Ev _ _ _ Evt) as (f0 & F). exists (S f0). intros f' F'. destruct f' as [|f']; [lia|].
      assert (prefixed src src' p) as Pre. { split; [destruct G; lia|]. split; [exact Ls|]. eexists. exact Es. }
      rewrite (Head src' p Pre ltac:(lia)). unfold m_typed. rewrite (srid_again _ _ _ Pre _ _ _ E3) by lia. cbn [and_then]. fold g. fold k. rewrite (size_again _ _ _ Pre _ _ _ _ E4) by lia. cbn [and_then]. apply F. lia. }
    unfold m_sized in E. destruct (N.eqb g 1 || N.eqb g 2) eqn:E12.
    { apply (Through _ (coordinates_break _ _ _ _ E G4 ltac:(lia))). intros src' t1 t2 Ev. exists 0%nat. intros f' _. unfold m_sized. rewrite E12. exact Ev. }
    destruct (N.eqb g 3) eqn:E3'.
    { destruct (N.eqb level 255) eqn:E255'; [discriminate|]. refine (Through (times_eventually (fun src (_ : nat) => m_ring src k) n) _ _).
      - refine (times_break (fun src (_ : nat) => m_ring src k) [0; 0; 0; 0]%N 0 src 0%nat (fun _ => ring_replay k) (fun _ _ _ _ _ _ => eq_refl) _ ltac:(repeat constructor) _ f n s4 text E G4 ltac:(destruct G4; lia)).
        + intros src0 t Pl W. destruct (ring_given src0 k t Pl W) as (t2 & P2 & W2 & F). exists t2. split; [exact P2|]. split; [exact W2|]. intros _ _. exact F.
        + intros t text' Et Gt _. exact (ring_break k t text' Et Gt).
      - intros src' t1 t2 (f0 & F). exists f0. intros f' F'. unfold m_sized. rewrite E12, E3', E255'. exact (F f' f0 F' (Nat.le_refl _)). }
    destruct (N.eqb g 4 || N.eqb g 5 || N.eqb g 6 || N.eqb g 7) eqn:E47.
    { destruct (N.eqb level 255) eqn:E255'; [discriminate|]. apply N.eqb_neq in E255' as N255. assert (9 * Z.of_N (level + 1) <= rs_pos s4) as Deep4.
      { unfold m_size in E4. destruct (N.eqb g 1) eqn:Eg1; [cbn in E12; discriminate|]. cbn [negb] in E4. destruct (u32_moves _ _ _ _ E4). lia. }
      refine (Through (times_eventually (fun src f => m_geometry src f (level + 1)) n) _ _).
      - refine (times_break (fun src f => m_geometry src f (level + 1)) empty_line (9 * Z.of_N (level + 1)) src f (fun f' => geometry_replay f' (level + 1)) _ _ ltac:(repeat constructor) _ f n s4 text E G4 Deep4).
        + intros src0 f1 f2 t N L. exact (geometry_mono src0 f1 f2 (level + 1) t N L).
        + intros src0 t Pl W. destruct (line_given src0 (level + 1) t Pl W) as (t2 & P2 & W2 & F). exists t2. split; [exact P2|]. split; [exact W2|]. exact F.
        + intros t text' Et Gt Lo. apply (IH (level + 1)%N t text' Et Gt); lia.
      - intros src' t1 t2 (f0 & F). exists f0. intros f' F'. unfold m_sized. rewrite E12, E3', E47, E255'. exact (F f' f' F' F'). }
    injection E as <-. exact (New ($"Expected valid geometry type code but found " ++ ld (Z.of_N g))).
  Qed.

  Theorem place_ok swap0 before : len src < 2 ^ 62 -> wkb_read_from src swap0 = Err EINVAL ->
    exists pre d p, is_c_string (wkb_message src swap0 before) (pre ++ $" at byte " ++ d) /\ decimal_of (N.of_nat p) d /\ (p <= length src)%nat /\
      ((exists rest nodes, wf_bytes rest /\ wkb_read_from (firstn p src ++ rest) swap0 = Ok nodes) \/
       (exists q e w, (q + 4 = N.of_nat p \/ q + 8 = N.of_nat p)%N /\ uint32_at src q e w /\ (~ (1 <= type_in w <= 7) \/ (3 <= type_in w /\ 255 * 9 <= q))%N)).
  Proof.
    intros Short E. pose proof (read_tells src wf swap0) as H. rewrite E in H. destruct H as (t & Em & C & Nn & Lt). set (s0 := {| rs_pos := 0; rs_size := len src; rs_swap := swap0 |}).
    assert (good src s0) as G by (unfold good; cbn; lia).
    destruct (geometry_break (S (length src)) 0 s0 t Em G ltac:(lia) ltac:(cbn; lia)) as (pre & p & Et & Pp & H). cbn [s0 rs_pos] in Pp. exists pre, (ld p), (Z.to_nat p). split.
    { rewrite <- Et. unfold wkb_message. rewrite Em. exact (proj2 (error_set_fits t Nn (Lt Short))). }
    split; [replace (N.of_nat (Z.to_nat p)) with (Z.to_N p) by lia; apply ld_ok|]. split; [lia|]. destruct H as [(q & e & w & Q & U & T)|(c & Wc & H)].
    - right. exists q, e, w. split; [lia|]. auto.
    - left. set (src' := firstn (Z.to_nat p) src ++ c ++ repeat 0%N (length src)). assert (len src <= len src') as Ls by (unfold src'; rewrite !app_length, repeat_length; lia).
      destruct (H src' _ eq_refl Ls) as (s2 & _ & _ & f0 & F).
      assert (wf_bytes src') as Wf'. { unfold src'. apply wf_bytes_app. split; [|apply wf_bytes_app; split; [exact Wc|apply Forall_forall; intros x Hx; apply repeat_spec in Hx; subst x; reflexivity]].
        rewrite <- (firstn_skipn (Z.to_nat p) src) in wf. apply wf_bytes_app in wf. exact (proj1 wf). }
      pose proof (read_tells src' Wf' swap0) as A. assert (moved (len src' - len src) s0 = {| rs_pos := 0; rs_size := len src'; rs_swap := swap0 |}) as Em0 by (unfold moved, s0; cbn; f_equal; lia). rewrite Em0 in F.
      assert (m_read src' swap0 <> Exhausted -> m_read src' swap0 = Fine s2) as D.
      { unfold m_read. intros N. rewrite <- (geometry_mono src' _ (Nat.max f0 (S (length src'))) _ _ N) by lia. apply F. lia. }
      exists (c ++ repeat 0%N (length src)). fold src'. destruct (wkb_read_from src' swap0) as [nodes|code| |] eqn:R; cbn [agrees] in A.
      + exists nodes. split; [|reflexivity]. apply wf_bytes_app in Wf'. exact (proj2 Wf').
      + destruct A as (t' & A & _). rewrite D in A; [discriminate|rewrite A; discriminate].
      + rewrite D in A; [discriminate|rewrite A; discriminate].
      + contradiction (wkb_read_terminates src' swap0 R).
  Qed.
End Breaks.
