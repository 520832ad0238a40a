(** * C71: the messages of the WKB reader *)
From Verif Require Import Base Text NodesModel WkbReaderModel WktErrorModel WktErrorSpec WkbErrorModel WkbErrorSpec WkbErrorProofs WkbErrorPlace.
Local Open Scope Z_scope.

(** [swap0] is the byte order that the reader was left in by its previous call, [before] the message before the call. *)

(** Whenever bytes cannot be read, the message is one of five, and what it says is so. What is missing: [C71_needed_refuted],
    [C71_found_refuted] and [C71_type_refuted]. *)
Theorem C71_message_partial : forall src, wf_bytes src -> forall swap0 before code, Z.of_nat (length src) < 2 ^ 62 -> wkb_read_from src swap0 = Err code ->
  exists text, is_c_string (wkb_message src swap0 before) text /\ complaint src code text.
Proof. exact message_true. Qed.
Print Assumptions C71_message_partial.

(** The message (of all but too deep geometries) ends with a place; the bytes before it are the start of something that can be read, unless
    a type is before it that does not exist (see [C71_type_refuted]), or one with parts after the headers of 255 levels. *)
Theorem C71_place_partial : forall src, wf_bytes src -> forall swap0 before, Z.of_nat (length src) < 2 ^ 62 -> wkb_read_from src swap0 = Err EINVAL ->
  exists start digits p, is_c_string (wkb_message src swap0 before) (start ++ $" at byte " ++ digits) /\ decimal_of (N.of_nat p) digits /\ (p <= length src)%nat /\
    ((exists rest nodes, wf_bytes rest /\ wkb_read_from (firstn p src ++ rest) swap0 = Ok nodes) \/
     (exists q e w, (q + 4 = N.of_nat p \/ q + 8 = N.of_nat p)%N /\ uint32_at src q e w /\ (~ (1 <= type_in w <= 7) \/ (3 <= type_in w /\ 255 * 9 <= q))%N)).
Proof. exact place_ok. Qed.
Print Assumptions C71_place_partial.

(** After a success, the message is what it was. *)
Theorem C71_success : forall src, wf_bytes src -> forall swap0 before nodes, wkb_read_from src swap0 = Ok nodes -> wkb_message src swap0 before = before.
Proof. exact message_kept. Qed.
Print Assumptions C71_success.

(** A linestring of 2^31 + 1 coordinates without any bytes for them: the message says that they need 16 bytes. *)
Definition says (src text : bytes) : Prop :=
  wkb_read src = Err EINVAL /\ forall before, is_c_string (wkb_message src false before) text.
Theorem C71_needed_refuted : let src := ([1; 2; 0; 0; 0] ++ le_bytes 4 (2 ^ 31 + 1))%N in
  wf_bytes src /\ says src $"Expected coordinate sequence of 2147483649 coords (16 bytes) but found 0 bytes remaining at byte 9".
Proof.
  cbv zeta. split; [repeat constructor|]. split; [reflexivity|]. intros before.
  split; [intros H; vm_compute in H; repeat destruct H as [H|H]; try discriminate H; exact H|]. eexists. vm_compute. reflexivity.
Qed.
Print Assumptions C71_needed_refuted.

(** A polygon that ends where the coordinates of its second ring should be: the message says that 16 bytes are there. *)
Theorem C71_found_refuted : let src := ([1; 3; 0; 0; 0; 2; 0; 0; 0] ++ [1; 0; 0; 0] ++ repeat 0 16 ++ [2; 0; 0; 0])%N in
  wf_bytes src /\ length src = 33%nat /\ says src $"Expected coordinate sequence of 2 coords (32 bytes) but found 16 bytes remaining at byte 33".
Proof.
  cbv zeta. split; [repeat constructor|]. split; [reflexivity|]. split; [reflexivity|]. intros before.
  split; [intros H; vm_compute in H; repeat destruct H as [H|H]; try discriminate H; exact H|]. eexists. vm_compute. reflexivity.
Qed.
Print Assumptions C71_found_refuted.

(** Bytes that end after a type that does not exist: the message says that there should be a number after it, although no bytes that start
    like this can be read. *)
Theorem C71_type_refuted : let src := [1; 99; 0; 0; 0]%N in
  wf_bytes src /\ says src $"Expected uint32 but found end of buffer at byte 5" /\
  forall rest nodes, wkb_read (src ++ rest) <> Ok nodes.
Proof.
  cbv zeta. split; [repeat constructor|]. split.
  - split; [reflexivity|]. intros before. split; [intros H; vm_compute in H; repeat destruct H as [H|H]; try discriminate H; exact H|]. eexists. vm_compute. reflexivity.
  - intros rest nodes. exact (bad_type_unreadable rest nodes).
Qed.
Print Assumptions C71_type_refuted.

Example C71_ex :
  wf_bytes [0; 0; 0; 3; 233; 0]%N /\ wkb_read [0; 0; 0; 3; 233; 0]%N = Err EINVAL /\
  says [] $"Expected endian byte but found end of buffer at byte 0" /\
  says [1; 1; 0]%N $"Expected uint32 but found end of buffer at byte 1" /\
  says ([1; 7; 0; 0; 0; 2; 0; 0; 0] ++ [1; 2; 0; 0; 0; 0; 0; 0; 0])%N $"Expected endian byte but found end of buffer at byte 18" /\
  says [0; 0; 0; 3; 233; 0]%N $"Expected coordinate sequence of 1 coords (24 bytes) but found 1 bytes remaining at byte 5" /\
  says ([1; 7; 0; 0; 0; 1; 0; 0; 0] ++ [0; 0; 0; 15; 160; 0; 0; 0; 0])%N $"Expected valid geometry type code but found 1000 at byte 10" /\
  wkb_read (flat_map (fun _ => [1; 7; 0; 0; 0; 1; 0; 0; 0]) (seq 0 256))%N = Err ENOTSUP.
Proof.
  split; [repeat constructor|]. split; [reflexivity|].
  repeat (split; [split; [reflexivity|]; intros before; split; [intros H; vm_compute in H; repeat destruct H as [H|H]; try discriminate H; exact H|]; eexists; vm_compute; reflexivity|]).
  vm_compute. reflexivity.
Qed.
