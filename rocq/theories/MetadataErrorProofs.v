(** * Proofs about the messages of the metadata reader *)
From Verif Require Import Base Text BufferModel MetadataModel MetadataSpec MetadataProofs MetadataReading MetadataErrorModel WktErrorModel WktErrorSpec MetadataErrorSpec.
Local Open Scope Z_scope.

Lemma up_to_nul_ok t : before_nul t (up_to_nul t).
Proof.
  induction t as [|c t [H1 H2]]; [split; [intros []|left; reflexivity]|]. cbn [up_to_nul].
  destruct (N.eqb_spec c 0) as [->|E]; [split; [intros []|right; exists t; reflexivity]|].
  split; [intros [H|H]; [congruence|contradiction]|]. destruct H2 as [H2|[r H2]]; [left; f_equal; exact H2|right; exists r; cbn [app]; f_equal; exact H2].
Qed.

Lemma In_firstn {A} n (l : list A) x : In x (firstn n l) -> In x l.
Proof. intros H. rewrite <- (firstn_skipn n l). apply in_or_app. left. exact H. Qed.

Lemma error_set_string t : ~ In 0%N t -> is_c_string (snd (error_set t)) (firstn 1023 t).
Proof.
  intros H. split; [intros I; apply H; eapply In_firstn; exact I|]. unfold error_set. cbv zeta. cbn [snd].
  pose proof (firstn_le_length 1023 t) as L. set (k := length (firstn 1023 t)) in *. clearbody k.
  exists (repeat 0%N (1023 - k)). f_equal. replace (1024 - k)%nat with (S (1023 - k)) by lia. reflexivity.
Qed.

Lemma print_short past t : Z.of_nat (length t) < 2 ^ 31 -> print_precision past (Z.of_nat (length t)) t = Ok (up_to_nul t).
Proof.
  intros H. change (2 ^ 31) with 2147483648 in H. unfold print_precision, to_int32. rewrite Z.mod_small by lia.
  replace (Z.of_nat (length t) + 2147483648 - 2147483648) with (Z.of_nat (length t)) by lia.
  destruct (Z.ltb_spec (Z.of_nat (length t)) 0); [lia|]. rewrite Nat2Z.id, firstn_all. reflexivity.
Qed.

Lemma not_nul_around a q z : ~ In 0%N a -> ~ In 0%N q -> ~ In 0%N z -> ~ In 0%N (a ++ q ++ z).
Proof. intros A Q Z I. apply in_app_or in I as [I|I]; [auto|]. apply in_app_or in I as [I|I]; auto. Qed.

Lemma skip_not_blank s c r : skip_whitespace s = c :: r -> ~ In c [32; 9; 10; 13]%N.
Proof.
  induction s as [|x s IH]; [discriminate|]. cbn [skip_whitespace].
  destruct ((x =? 32) || (x =? 9) || (x =? 10) || (x =? 13))%N eqn:E; [exact IH|]. intros [= <- <-] I. cbn in I.
  repeat (apply Bool.orb_false_iff in E as [E ?]). repeat match goal with H : (_ =? _)%N = false |- _ => apply N.eqb_neq in H end. intuition congruence.
Qed.

(** The metadata that are accepted, wherever they are. *)
Definition accepted (a : bytes) : Prop := forall past fuel, (length a < fuel)%nat -> exists m, metadata_view_init past fuel a = Ok m.

Lemma parse_loose past fuel ms w w1 body rest : loose_members ms body -> blank w -> blank w1 -> (length body < fuel)%nat ->
  parse_json past fuel start_metadata (skip_whitespace (w ++ [123%N] ++ w1 ++ body ++ [125%N] ++ rest)) = do m <- members_fold start_metadata ms; Ok (m, rest).
Proof.
  intros Hms Hw Hw1 Hf. rewrite skip_blank by exact Hw. cbn [app]. rewrite (skip_none 123) by reflexivity.
  unfold parse_json. cbn [parse_char]. change ((123 =? object_open)%N) with true. cbv iota. cbn [obind].
  rewrite skip_blank by exact Hw1. destruct (loose_trim ms body rest Hms) as (b' & Hb' & Hl & E). rewrite E.
  rewrite (members_loop_loose _ ms b' Hb') by lia. destruct (members_fold start_metadata ms); reflexivity.
Qed.

Lemma parse_parts past fuel b m r : parse_json past fuel start_metadata (skip_whitespace b) = Ok (m, r) ->
  exists w w1 ms body, blank w /\ blank w1 /\ loose_members ms body /\ b = w ++ [123%N] ++ w1 ++ body ++ [125%N] ++ r /\ members_fold start_metadata ms = Ok m.
Proof.
  intros H. destruct (skip_split b) as (w & Hw & Eb).
  unfold parse_json in H. destruct (skip_whitespace b) as [|c s]; [discriminate|]. cbn [parse_char] in H.
  destruct (N.eqb_spec c object_open) as [->|]; [|discriminate]. cbn [obind] in H.
  destruct (skip_split s) as (w1 & Hw1 & Es).
  destruct (members_loop past fuel start_metadata (skip_whitespace s)) as [[m0 s1]| | |] eqn:Em; cbn [obind] in H; try discriminate.
  destruct s1 as [|c1 s1]; [discriminate|]. cbn [parse_char] in H.
  destruct (N.eqb_spec c1 object_close) as [->|]; [|discriminate]. cbn [obind] in H. injection H as -> ->.
  apply members_loop_ok in Em as (ms & body & Hms & Ebody & Hfold). rewrite Ebody in Es. subst s.
  exists w, w1, ms, body. auto.
Qed.

(** A text that starts with accepted metadata is read beyond them. *)
Lemma parse_accepted past fuel a t : a <> [] -> accepted a -> (length (a ++ t) < fuel)%nat ->
  exists m r, parse_json past fuel start_metadata (skip_whitespace (a ++ t)) = Ok (m, r).
Proof.
  intros Ha A Hf. destruct (A past (S (length a)) (Nat.lt_succ_diag_r _)) as [m E].
  apply view_init_ok in E as [[-> _]|(ms & m0 & (w & w1 & w' & body & Hw & Hw1 & _ & -> & Hms) & Hfold & _)]; [contradiction|].
  exists m0, (w' ++ t). replace ((w ++ [123%N] ++ w1 ++ body ++ [125%N] ++ w') ++ t) with (w ++ [123%N] ++ w1 ++ body ++ [125%N] ++ (w' ++ t)) in * by (repeat rewrite <- app_assoc; reflexivity).
  rewrite (parse_loose past fuel ms) by (assumption || (repeat rewrite app_length in Hf; cbn [length] in Hf; lia)). rewrite Hfold. reflexivity.
Qed.

Lemma message_true past fuel b before : Z.of_nat (length b) < 2 ^ 31 -> (length b < fuel)%nat -> metadata_view_init past fuel b = Err EINVAL ->
  exists message text, metadata_message past fuel b before = Ok message /\ is_c_string message (firstn 1023 text) /\ metadata_complaint accepted b text.
Proof.
  intros Hl Hf H. unfold metadata_view_init in H. unfold metadata_message. destruct b as [|c0 b0]; [discriminate|]. set (b := c0 :: b0) in *. clearbody b.
  cbv zeta in H. fold start_metadata in *.
  destruct (parse_json past fuel start_metadata (skip_whitespace b)) as [[m s]|e| |] eqn:E; try discriminate.
  - destruct (skip_whitespace s) as [|c r] eqn:Es; [discriminate|]. destruct (skip_split s) as (w' & Hw' & Eq). rewrite Es in Eq.
    destruct (parse_parts _ _ _ _ _ E) as (w & w1 & ms & body & Hw & Hw1 & Hms & Eb & Hfold).
    assert (b = (w ++ [123%N] ++ w1 ++ body ++ [125%N] ++ w') ++ c :: r) as Eb' by (rewrite Eb, Eq; repeat rewrite <- app_assoc; reflexivity).
    rewrite print_short by (rewrite Eb', app_length in Hl; lia). cbn [obind]. eexists. eexists. split; [reflexivity|].
    pose proof (up_to_nul_ok (c :: r)) as Q. split.
    + apply error_set_string. apply not_nul_around; [vm_compute; intuition discriminate|apply Q|vm_compute; intuition discriminate].
    + eapply trailing; [exact Eb'| | |exact (skip_not_blank _ _ _ Es)|exact Q].
      * destruct w; discriminate.
      * intros past' fuel' Hf'. exists (finish m). rewrite (view_init_loose past' fuel' ms); [|exists w, w1, w', body; auto|exact Hf'].
        rewrite Hfold. reflexivity.
  - rewrite print_short by exact Hl. cbn [obind]. eexists. eexists. split; [reflexivity|].
    pose proof (up_to_nul_ok b) as Q. split.
    + apply error_set_string. apply not_nul_around; [vm_compute; intuition discriminate|apply Q|vm_compute; intuition discriminate].
    + apply not_metadata; [exact Q|]. intros a t -> Ha A. destruct (parse_accepted past fuel a t Ha A Hf) as (m & r & E'). rewrite E in E'. discriminate.
Qed.

Lemma message_kept past fuel b before m : metadata_view_init past fuel b = Ok m -> metadata_message past fuel b before = Ok before.
Proof.
  unfold metadata_view_init, metadata_message. destruct b; [reflexivity|]. cbv zeta.
  destruct (parse_json _ _ _ _) as [[m0 s]| | |]; try discriminate. destruct (skip_whitespace s); [reflexivity|discriminate].
Qed.

(** Two GiB of a letter. *)
Lemma message_wild past fuel n before : Z.of_nat n = 2 ^ 31 - 1 -> past <> Some 0%N ->
  metadata_view_init past fuel (120%N :: repeat 120%N n) = Err EINVAL /\ metadata_message past fuel (120%N :: repeat 120%N n) before = UB.
Proof.
  intros Hn Hp. split; [reflexivity|]. unfold metadata_message. rewrite (skip_none 120) by reflexivity. cbn [parse_json parse_char obind].
  change ((120 =? object_open)%N) with false. cbv iota. unfold parse_json. cbn [parse_char]. change ((120 =? object_open)%N) with false. cbv iota. cbn [obind].
  unfold print_precision. cbn [length]. rewrite repeat_length, Nat2Z.inj_succ, Hn.
  change (to_int32 (Z.succ (2 ^ 31 - 1)) <? 0) with true. cbv iota.
  assert (existsb (N.eqb 0) (120%N :: repeat 120%N n) = false) as ->.
  { destruct (existsb _ _) eqn:E; [|reflexivity]. apply existsb_exists in E as (x & I & E). apply N.eqb_eq in E. subst x.
    destruct I as [I|I]; [discriminate|]. apply repeat_spec in I. discriminate. }
  destruct past as [[|p]|]; [congruence| |]; reflexivity.
Qed.
