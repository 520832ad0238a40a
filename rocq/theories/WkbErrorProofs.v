(** * The messages of the WKB reader are true *)
From Verif Require Import Base BaseFacts Text TypesModel TypesProofs NodesModel WkbReaderModel WkbReaderProofs WkbReaderSafety WktErrorModel WktErrorSpec WktErrorMessages WkbErrorModel WkbErrorSpec.
Local Open Scope Z_scope.

Lemma ld_ok z : decimal_of (Z.to_N z) (ld z).
Proof. exact (proj1 (print_ld_ok (Z.to_N z))). Qed.
Lemma ld_N n : decimal_of n (ld (Z.of_N n)).
Proof. unfold ld. rewrite N2Z.id. exact (proj1 (print_ld_ok n)). Qed.
Lemma ld_short z : z < 2 ^ 63 -> (length (ld z) <= 64)%nat.
Proof.
  intros H. pose proof (proj2 (print_ld_ok (Z.to_N z))) as P. unfold ld.
  assert (N.log2 (Z.to_N z) < 64)%N as Q; [|lia].
  destruct (N.eq_dec (Z.to_N z) 0) as [->|NZ]; [reflexivity|]. apply N.log2_lt_pow2; [lia|]. change (2 ^ 64)%N with (2 * 2 ^ 63)%N. change (2 ^ 63) with (Z.of_N (2 ^ 63)) in H. lia.
Qed.
Lemma ld_no_nul z : ~ In 0%N (ld z).
Proof. exact (decimal_no_nul _ _ (ld_ok z)). Qed.

Local Opaque ld.

Section Src.
  Variable src : bytes.
  Hypothesis wf : wf_bytes src.
  Notation L := (Z.of_nat (length src)).

  Definition said (c : Z) (t : bytes) : Prop := complaint src c t /\ ~ In 0%N t /\ (L < 2 ^ 62 -> (length t < 1024)%nat).
  Definition agrees {A B} (Q : A -> B -> Prop) (m : told A) (o : outcome B) : Prop :=
    match o with
    | Ok b => exists a, m = Fine a /\ Q a b
    | Err c => exists t, m = Said c t /\ said c t
    | UB => m = Wild
    | NoFuel => m = Exhausted
    end.
  Lemma agrees_bind {A B A' B'} (Q : A -> B -> Prop) (R : A' -> B' -> Prop) m o f g : agrees Q m o -> (forall a b, Q a b -> agrees R (f a) (g b)) ->
    agrees R (and_then m f) (obind o g).
  Proof.
    intros H K. destruct o as [b|c| |]; cbn in *.
    - destruct H as (a & -> & q). exact (K a b q).
    - destruct H as (t & -> & s). exists t. auto.
    - rewrite H. reflexivity.
    - rewrite H. reflexivity.
  Qed.
  Lemma agrees_weaken {A B} (Q R : A -> B -> Prop) m o : agrees Q m o -> (forall a b, Q a b -> R a b) -> agrees R m o.
  Proof. intros H K. destruct o as [b|c| |]; cbn in *; auto. destruct H as (a & E & q). exists a. auto. Qed.

  (** [size_bytes] is right until coordinates have been read; then it is more than 7. *)
  Definition good (s : rstate) : Prop :=
    0 <= rs_pos s /\ 0 <= rs_size s /\ (rs_pos s + rs_size s = L \/ (L + 8 <= rs_pos s + rs_size s /\ 8 <= rs_size s)).

  Definition byte_at (p : Z) (e : N) : Prop := exists before after, src = before ++ [e] ++ after /\ Z.of_nat (length before) = p.
  Lemma slice_split p k b : slice src p k = Some b -> exists u v, src = u ++ b ++ v /\ Z.of_nat (length u) = p /\ length b = k.
  Proof.
    intros H. pose proof (slice_length _ _ _ _ H) as Lb. unfold slice in H. destruct ((0 <=? p) && (p + Z.of_nat k <=? Z.of_nat (length src))) eqn:E; [|discriminate].
    apply andb_true_iff in E. destruct E as [E1 E2]. apply Z.leb_le in E1, E2. injection H as H.
    exists (firstn (Z.to_nat p) src), (skipn k (skipn (Z.to_nat p) src)). rewrite <- H. rewrite firstn_skipn, firstn_skipn. split; [reflexivity|].
    rewrite firstn_length, Nat.min_l by lia. rewrite H. split; [lia|exact Lb].
  Qed.
  Lemma slice_in p k b : slice src p k = Some b -> 0 <= p /\ p + Z.of_nat k <= L.
  Proof. unfold slice. intros H. destruct ((0 <=? p) && (p + Z.of_nat k <=? Z.of_nat (length src))) eqn:E; [|discriminate]. lia. Qed.

  Lemma endian_tells s : good s ->
    agrees (fun a b => a = b /\ good b /\ rs_pos b = rs_pos s + 1 /\ rs_pos b <= L /\ exists e, byte_at (rs_pos s) e /\ rs_swap b = negb (N.eqb e 1))
      (m_endian src s) (read_endian src s).
  Proof.
    intros (P & S & G). unfold m_endian, read_endian. destruct (0 <? rs_size s) eqn:E.
    - destruct (slice src (rs_pos s) 1) as [b|] eqn:Eb; cbn; [|reflexivity]. eexists. split; [reflexivity|]. pose proof (slice_in _ _ _ Eb) as I.
      apply slice_split in Eb. destruct Eb as (u & v & Es & Lu & Lb). destruct b as [|e [|? ?]]; try discriminate Lb. cbn [rs_pos rs_size rs_swap]. split; [reflexivity|].
      split; [unfold good; cbn [rs_pos rs_size]; lia|]. split; [reflexivity|]. split; [lia|]. exists e. split; [exists u, v; auto|]. cbn. replace (e + 256 * 0)%N with e by lia. reflexivity.
    - cbn. eexists. split; [reflexivity|]. assert (rs_pos s = L) as PL by lia. split; [|split].
      + apply (no_endian src (Z.to_N (rs_pos s))); [lia|apply ld_ok].
      + rewrite in_app_iff. intros [H|H]; [vm_compute in H; repeat destruct H as [H|H]; try discriminate H; exact H|exact (ld_no_nul _ H)].
      + intros short. rewrite app_length. pose proof (ld_short (rs_pos s)). change (2 ^ 63) with 9223372036854775808 in *. change (2 ^ 62) with 4611686018427387904 in *. vm_compute (length $"Expected endian byte but found end of buffer at byte "). lia.
  Qed.
  Definition spelled (p : Z) (swap : bool) (w : N) : Prop := forall e, swap = negb (N.eqb e 1) -> uint32_at src (Z.to_N p) e w.
  Lemma u32_tells s : good s ->
    agrees (fun a b => a = b /\ good (fst b) /\ rs_pos (fst b) = rs_pos s + 4 /\ rs_pos (fst b) <= L /\ rs_swap (fst b) = rs_swap s /\
              spelled (rs_pos s) (rs_swap s) (snd b) /\ (snd b < 2 ^ 32)%N)
      (m_u32 src s) (read_u32 src s).
  Proof.
    intros (P & S & G). unfold m_u32, read_u32. destruct (4 <=? rs_size s) eqn:E.
    - destruct (slice src (rs_pos s) 4) as [b|] eqn:Eb; cbn [or_ub obind agrees]; [|reflexivity]. eexists. split; [reflexivity|]. cbn [fst snd rs_pos rs_size rs_swap]. split; [reflexivity|].
      pose proof (slice_in _ _ _ Eb) as I. pose proof (slice_wf _ _ _ _ wf Eb) as Wb. apply slice_split in Eb. destruct Eb as (u & v & Es & Lu & Lb).
      destruct b as [|b0 [|b1 [|b2 [|b3 [|? ?]]]]]; try discriminate Lb.
      assert ((if rs_swap s then bswap32 (le_val [b0; b1; b2; b3]) else le_val [b0; b1; b2; b3]) = if rs_swap s then le_val [b3; b2; b1; b0] else le_val [b0; b1; b2; b3]) as V.
      { destruct (rs_swap s); [|reflexivity]. rewrite bswap32_be by (auto; reflexivity). reflexivity. }
      split; [unfold good; cbn [rs_pos rs_size]; lia|]. split; [reflexivity|]. split; [lia|]. split; [reflexivity|]. rewrite V. split.
      + intros e He. exists u, b0, b1, b2, b3, v. split; [exact Es|]. split; [lia|]. rewrite He. destruct (e =? 1)%N; reflexivity.
      + destruct (rs_swap s).
        * pose proof (le_val_bound [b3; b2; b1; b0]) as B. apply B. inversion Wb as [|? ? ? W1]; inversion W1 as [|? ? ? W2]; inversion W2 as [|? ? ? W3]; inversion W3. repeat (constructor; auto).
        * exact (le_val_bound [b0; b1; b2; b3] Wb).
    - cbn. eexists. split; [reflexivity|]. split; [|split].
      + apply (no_uint32 src (Z.to_N (rs_pos s))); [lia|apply ld_ok].
      + rewrite in_app_iff. intros [H|H]; [vm_compute in H; repeat destruct H as [H|H]; try discriminate H; exact H|exact (ld_no_nul _ H)].
      + intros short. rewrite app_length. pose proof (ld_short (rs_pos s)). change (2 ^ 63) with 9223372036854775808 in *. change (2 ^ 62) with 4611686018427387904 in *. vm_compute (length $"Expected uint32 but found end of buffer at byte "). lia.
  Qed.
  Lemma coordinates_tell s n k nd : good s -> rs_pos s <= L -> (2 <= k <= 4)%N -> (n < 2 ^ 32)%N -> n = 1%N \/ (4 <= rs_pos s /\ spelled (rs_pos s - 4) (rs_swap s) n) ->
    agrees (fun a b => a = fst b /\ good a /\ rs_pos s <= rs_pos a) (m_coordinates s n k) (read_node_coordinates s n k nd).
  Proof.
    intros (P & S & G) PL K n32 N. unfold m_coordinates, read_node_coordinates. set (needed := (wrap32 (n * k) * 8)%N).
    assert (needed < 2 ^ 35)%N as NB. { unfold needed, wrap32, u32_max1. pose proof (N.mod_lt (n * k) 4294967296). change (2 ^ 35)%N with (4294967296 * 8)%N. lia. }
    assert (needed <= 8 * k * n)%N as NL. { unfold needed, wrap32, u32_max1. pose proof (N.mod_le (n * k) 4294967296). lia. }
    assert (n * k < 2 ^ 32 -> needed = 8 * k * n)%N as NE. { intros H. unfold needed, wrap32, u32_max1. rewrite N.mod_small by exact H. lia. }
    destruct (rs_size s <? Z.of_N needed) eqn:E.
    - cbn [agrees]. eexists. split; [reflexivity|]. split; [|split].
      + apply (no_coordinates src n k (Z.to_N (rs_pos s)) needed (Z.to_N (rs_size s))); auto using ld_ok, ld_N; try lia.
        destruct N as [N|[N4 N]]; [left; exact N|right]. replace (Z.to_N (rs_pos s) - 4)%N with (Z.to_N (rs_pos s - 4)) by lia.
        destruct (rs_swap s); [exists 0%N|exists 1%N]; apply N; reflexivity.
      + rewrite ?in_app_iff. intros H. decompose [or] H; try (match goal with H : In _ (ld _) |- _ => exact (ld_no_nul _ H) end);
          (match goal with H : In _ _ |- _ => clear - H; vm_compute in H; repeat destruct H as [H|H]; try discriminate H; exact H end).
      + intros short. rewrite ?app_length. pose proof (ld_short (rs_pos s)). pose proof (ld_short (rs_size s)). pose proof (ld_short (Z.of_N n)). pose proof (ld_short (Z.of_N needed)).
        change (2 ^ 35)%N with 34359738368%N in NB. change (2 ^ 32)%N with 4294967296%N in *. change (2 ^ 63) with 9223372036854775808 in *. change (2 ^ 62) with 4611686018427387904 in *.
        vm_compute (length $"Expected coordinate sequence of "). vm_compute (length $" coords ("). vm_compute (length $" bytes) but found "). vm_compute (length $" bytes remaining at byte "). lia.
    - cbn [agrees]. eexists. split; [reflexivity|]. cbn [fst]. split; [reflexivity|]. split; [|cbn [rs_pos]; lia]. unfold good; cbn [rs_pos rs_size].
      assert (needed = 0%N \/ 8 <= needed)%N as [Z0|Z8] by (unfold needed; lia); [rewrite Z0; lia|]. lia.
  Qed.

  Lemma times_tell f : forall rm rd n s lo, (forall s, good s -> lo <= rs_pos s -> agrees (fun a b => a = fst b /\ good a /\ rs_pos s <= rs_pos a) (rm s) (rd s)) -> good s -> lo <= rs_pos s ->
    agrees (fun a b => a = fst b /\ good a /\ rs_pos s <= rs_pos a) (m_times f rm n s) (read_n f rd n s).
  Proof.
    induction f as [|f IH]; intros rm rd n s lo H G Lo; cbn [m_times read_n]; destruct (N.eqb n 0).
    - eexists; split; [reflexivity|]; cbn; split; [reflexivity|]; split; [exact G|lia].
    - reflexivity.
    - eexists; split; [reflexivity|]; cbn; split; [reflexivity|]; split; [exact G|lia].
    - eapply agrees_bind; [exact (H s G Lo)|]. intros a [b ns] (Ea & Ga & Pa). cbn in Ea. subst a.
      eapply agrees_weaken with (Q := fun x y => x = fst y /\ good x /\ rs_pos b <= rs_pos x); [|intros x y (A & B & C); split; [exact A|]; split; [exact B|lia]].
      specialize (IH rm rd (n - 1)%N b lo H Ga ltac:(lia)). destruct (read_n f rd (n - 1) b) as [[s' ns']|c| |]; cbn in *; auto.
  Qed.
  Lemma ring_tells k template s : (2 <= k <= 4)%N -> good s -> agrees (fun a b => a = fst b /\ good a /\ rs_pos s <= rs_pos a) (m_ring src k s) (read_ring src k template s).
  Proof.
    intros K G. unfold m_ring, read_ring. pose proof (proj1 G) as P0. eapply agrees_bind; [exact (u32_tells s G)|]. intros [s1 n] [s1' n'] (E & G1 & P1 & L1 & Sw & Sp & B). cbn [fst snd] in *.
    injection E as <- <-. match goal with |- agrees _ _ (obind (read_node_coordinates _ _ _ ?nd) _) => pose proof (coordinates_tell s1 n k nd G1 L1 K B) as C end.
    assert (n = 1%N \/ (4 <= rs_pos s1 /\ spelled (rs_pos s1 - 4) (rs_swap s1) n)) as SP. { right. split; [lia|]. replace (rs_pos s1 - 4) with (rs_pos s) by lia. rewrite Sw. exact Sp. }
    specialize (C SP). match goal with |- agrees _ _ (obind ?o _) => destruct o as [[s2 nd2]|c| |] end; cbn in *; auto.
    destruct C as (a & Ea & -> & Ga & Pa). exists s2. split; [exact Ea|]. split; [reflexivity|]. split; [exact Ga|lia].
  Qed.

  Lemma type_in_ok w : fst (fst (resolve_type w)) = type_in w.
  Proof.
    unfold resolve_type, type_in. change 65535%N with (N.ones 16). rewrite N.land_ones. set (g := (w mod 2 ^ 16)%N). cbv zeta.
    assert (g = 1000 * (g / 1000) + g mod 1000 /\ g mod 1000 < 1000)%N as [D M] by (split; [apply N.div_mod'|apply N.mod_lt; lia]).
    destruct (3000 <=? g)%N eqn:E3; [cbn; lia|]. destruct (2000 <=? g)%N eqn:E2; [cbn; lia|]. destruct (1000 <=? g)%N eqn:E1; cbn; lia.
  Qed.
  Lemma b2n_le b : (b2n b <= 1)%N.
  Proof. destruct b; vm_compute; discriminate. Qed.
  Lemma deep_said : 256 * 9 <= L -> said ENOTSUP $"WKBReader exceeded maximum recursion".
  Proof.
    intros H. split; [apply too_deep; lia|]. split; [|intros _; vm_compute; lia]. intros I. vm_compute in I. repeat destruct I as [I|I]; try discriminate I; exact I.
  Qed.

  Lemma geometry_tells f : forall level s, (level <= 255)%N -> good s -> 9 * Z.of_N level <= rs_pos s ->
    agrees (fun a b => a = fst b /\ good a /\ rs_pos s <= rs_pos a) (m_geometry src f level s) (read_geometry src f level s).
  Proof.
    induction f as [|f IH]; intros level s Lv G Deep; cbn [m_geometry read_geometry]; [reflexivity|].
    eapply agrees_bind; [exact (endian_tells s G)|]. intros s1 s1' (<- & G1 & P1 & L1 & e & Be & Se). cbv zeta.
    eapply agrees_bind; [exact (u32_tells s1 G1)|]. intros [s2 w] [s2' w'] (E & G2 & P2 & L2 & Sw2 & Sp2 & _). cbn [fst snd] in *. injection E as <- <-.
    assert (agrees (fun a b => a = b /\ good a /\ rs_pos s2 <= rs_pos a <= L /\ rs_swap a = rs_swap s2)
              (if ewkb_has w EWKB_SRID_BIT then and_then (m_u32 src s2) (fun '(s, _) => Fine s) else Fine s2)
              (if ewkb_has w EWKB_SRID_BIT then do (s, _) <- read_u32 src s2; Ok s else Ok s2)) as A.
    { destruct (ewkb_has w EWKB_SRID_BIT).
      - eapply agrees_bind; [exact (u32_tells s2 G2)|]. intros [s3 n] [s3' n'] (E & G3 & P3 & L3 & Sw3 & _). cbn [fst snd] in *. injection E as <- <-. exists s3. split; [reflexivity|].
        split; [reflexivity|]. split; [exact G3|]. split; [lia|exact Sw3].
      - exists s2. split; [reflexivity|]. split; [reflexivity|]. split; [exact G2|]. split; [lia|reflexivity]. }
    eapply agrees_bind; [exact A|]. clear A. intros s3 s3' (<- & G3 & P3 & Sw3).
    pose proof (type_in_ok w) as T. destruct (resolve_type w) as [[g z] m]. cbn [fst] in T.
    assert (agrees (fun a b => a = b /\ good (fst a) /\ rs_pos (fst a) <= L /\ rs_pos s3 <= rs_pos (fst a) /\ (g <> 1%N -> rs_pos (fst a) = rs_pos s3 + 4) /\ (snd a < 2 ^ 32)%N /\
                      (snd a = 1%N \/ (4 <= rs_pos (fst a) /\ spelled (rs_pos (fst a) - 4) (rs_swap (fst a)) (snd a))))
              (if negb (N.eqb g 1) then m_u32 src s3 else Fine (s3, 1%N)) (if negb (N.eqb g 1) then read_u32 src s3 else Ok (s3, 1%N))) as A.
    { destruct (N.eqb g 1) eqn:G1'; cbn [negb].
      - eexists. split; [reflexivity|]. cbn [fst snd]. split; [reflexivity|]. split; [exact G3|]. split; [lia|]. split; [lia|]. split; [apply N.eqb_eq in G1'; contradiction|]. split; [reflexivity|left; reflexivity].
      - eapply agrees_weaken; [exact (u32_tells s3 G3)|]. intros [s4 n] [s4' n'] (E & G4 & P4 & L4 & Sw4 & Sp4 & B4). cbn [fst snd] in *. injection E as <- <-. split; [reflexivity|]. split; [exact G4|].
        split; [lia|]. split; [lia|]. split; [lia|]. split; [exact B4|]. right. split; [destruct G3; lia|]. replace (rs_pos s4 - 4) with (rs_pos s3) by lia. rewrite Sw4. exact Sp4. }
    eapply agrees_bind; [exact A|]. clear A. intros [s4 n] [s4' n'] (E & G4 & L4 & P4 & P4' & B4 & Sp4). cbn [fst snd] in *. injection E as <- <-. cbv zeta.
    assert (2 <= 2 + b2n z + b2n m <= 4)%N as K. { pose proof (b2n_le z). pose proof (b2n_le m). lia. }
    destruct (N.eqb g 1 || N.eqb g 2) eqn:G12.
    { match goal with |- agrees _ _ (obind (read_node_coordinates _ _ _ ?nd) _) => pose proof (coordinates_tell s4 n _ nd G4 L4 K B4 Sp4) as C end.
      match goal with |- agrees _ _ (obind ?o _) => destruct o as [[s5 nd5]|c| |] end; cbn in *; auto.
      destruct C as (a & Ea & -> & Ga & Pa). exists s5. split; [exact Ea|]. split; [reflexivity|]. split; [exact Ga|lia]. }
    apply orb_false_iff in G12. destruct G12 as [N1 N2]. apply N.eqb_neq in N1, N2. specialize (P4' N1).
    destruct (N.eqb g 3) eqn:G3'.
    { destruct (N.eqb level 255) eqn:E255; [apply N.eqb_eq in E255; eexists; split; [reflexivity|]; apply deep_said; lia|].
      match goal with |- agrees _ _ (obind (read_n _ (read_ring _ _ ?t) _ _) _) => pose proof (times_tell f (m_ring src (2 + b2n z + b2n m)) (read_ring src (2 + b2n z + b2n m) t) n s4 (rs_pos s4)
        (fun s Gs _ => ring_tells _ t s K Gs) G4 ltac:(lia)) as C end.
      match goal with |- agrees _ _ (obind ?o _) => destruct o as [[s5 nd5]|c| |] end; cbn in *; auto.
      destruct C as (a & Ea & -> & Ga & Pa). exists s5. split; [exact Ea|]. split; [reflexivity|]. split; [exact Ga|lia]. }
    destruct (N.eqb g 4 || N.eqb g 5 || N.eqb g 6 || N.eqb g 7) eqn:G47.
    { destruct (N.eqb level 255) eqn:E255; [apply N.eqb_eq in E255; eexists; split; [reflexivity|]; apply deep_said; lia|]. apply N.eqb_neq in E255.
      pose proof (times_tell f (m_geometry src f (level + 1)) (read_geometry src f (level + 1)) n s4 (9 * Z.of_N (level + 1))
        (fun s Gs Ds => IH (level + 1)%N s ltac:(lia) Gs Ds) G4 ltac:(lia)) as C.
      match goal with |- agrees _ _ (obind ?o _) => destruct o as [[s5 nd5]|c| |] end; cbn in *; auto.
      destruct C as (a & Ea & -> & Ga & Pa). exists s5. split; [exact Ea|]. split; [reflexivity|]. split; [exact Ga|lia]. }
    cbn [agrees]. eexists. split; [reflexivity|]. split; [|split].
    - destruct Be as (u & v & Es & Lu). rewrite T. apply (bad_type src u e v w (Z.to_N (rs_pos s1))); auto using ld_ok, ld_N; try lia.
    - rewrite ?in_app_iff. intros H. decompose [or] H; try (match goal with H : In _ (ld _) |- _ => exact (ld_no_nul _ H) end);
          (match goal with H : In _ _ |- _ => clear - H; vm_compute in H; repeat destruct H as [H|H]; try discriminate H; exact H end).
    - intros short. rewrite ?app_length. pose proof (ld_short (rs_pos s1)) as S1. pose proof (ld_short (Z.of_N g)) as S2.
      assert (g < 65536)%N. { rewrite T. unfold type_in. pose proof (N.mod_lt w (2 ^ 16)). cbv zeta. change (2 ^ 16)%N with 65536%N in *. lia. }
      change (2 ^ 63) with 9223372036854775808 in *. change (2 ^ 62) with 4611686018427387904 in *.
      vm_compute (length $"Expected valid geometry type code but found "). vm_compute (length $" at byte "). lia.
  Qed.

  Theorem read_tells swap0 : agrees (fun _ _ => True) (m_read src swap0) (wkb_read_from src swap0).
  Proof.
    unfold m_read, wkb_read_from. pose proof (geometry_tells (S (length src)) 0 {| rs_pos := 0; rs_size := L; rs_swap := swap0 |} ltac:(lia)) as H.
    assert (good {| rs_pos := 0; rs_size := L; rs_swap := swap0 |}) as G by (unfold good; cbn; lia).
    specialize (H G ltac:(cbn; lia)). match goal with |- agrees _ _ (obind ?o _) => destruct o as [[s5 nd5]|c| |] end; cbn in *; auto.
    destruct H as (a & E & _). exists a. auto.
  Qed.
  Theorem message_true swap0 before code : L < 2 ^ 62 -> wkb_read_from src swap0 = Err code ->
    exists text, is_c_string (wkb_message src swap0 before) text /\ complaint src code text.
  Proof.
    intros short E. pose proof (read_tells swap0) as H. rewrite E in H. destruct H as (t & Em & C & Nn & Lt). exists t. split; [|exact C].
    unfold wkb_message. rewrite Em. exact (proj2 (error_set_fits t Nn (Lt short))).
  Qed.
  Theorem message_kept swap0 before nodes : wkb_read_from src swap0 = Ok nodes -> wkb_message src swap0 before = before.
  Proof. intros E. pose proof (read_tells swap0) as H. rewrite E in H. destruct H as (t & Em & _). unfold wkb_message. rewrite Em. reflexivity. Qed.
End Src.

Lemma bad_type_unreadable rest nodes : wkb_read ([1; 99; 0; 0; 0]%N ++ rest) <> Ok nodes.
Proof.
  unfold wkb_read, wkb_read_from. set (src := [1; 99; 0; 0; 0]%N ++ rest). cbn [read_geometry]. unfold read_endian, read_u32 at 1. cbn [rs_size rs_pos rs_swap].
  assert (Z.of_nat (length src) = 5 + Z.of_nat (length rest)) as Ls by (unfold src; rewrite app_length; cbn [length]; lia).
  destruct (0 <? Z.of_nat (length src)) eqn:E0; [|lia]. cbn [or_ub].
  replace (slice src 0 1) with (Some [1%N]) by (unfold src; rewrite slice_app_l by (cbn; lia); reflexivity). cbn [or_ub obind rs_size rs_pos rs_swap].
  destruct (4 <=? Z.of_nat (length src) - 1) eqn:E1; [|lia].
  replace (slice src (0 + 1) 4) with (Some [99; 0; 0; 0]%N) by (unfold src; rewrite slice_app_l by (cbn; lia); reflexivity). cbn [or_ub obind rs_size rs_pos rs_swap].
  change (ewkb_has _ _) with false. cbv iota. cbn [obind]. change (resolve_type _) with (99%N, false, false). cbv iota beta. change (negb (99 =? 1)%N) with true. cbv iota.
  destruct (read_u32 src _) as [[s n]|c| |]; cbn [obind]; try discriminate.
Qed.
