(** * C72: the error messages of the metadata reader *)
From Verif Require Import Base Text MetadataModel MetadataSpec MetadataErrorModel WktErrorModel WktErrorSpec MetadataErrorSpec MetadataErrorProofs.
Local Open Scope Z_scope.

(** As in PropertiesMetadata.v, [past] is the byte that follows the metadata in memory, if there is one that can be read, and
    [fuel] bounds the number of turns of the loops of the reader. *)

(** Whatever metadata are refused: the message is true of them, and no byte beyond them is read for it. Either it quotes them, and
    no beginning of them is accepted; or it quotes what follows a beginning that is accepted. A message that does not fit is cut.
    Missing: metadata of 2 GiB, for which it is false. *)
Theorem C72_message_partial : forall past fuel b before, Z.of_nat (length b) < 2 ^ 31 - 100 -> (length b < fuel)%nat ->
  metadata_view_init past fuel b = Err EINVAL ->
  exists message text, metadata_message past fuel b before = Ok message /\ is_c_string message (firstn 1023 text) /\
    metadata_complaint (fun a => forall past fuel, (length a < fuel)%nat -> exists m, metadata_view_init past fuel a = Ok m) b text.
Proof. intros past fuel b before H. apply message_true. change (2 ^ 31) with 2147483648 in *. lia. Qed.
Print Assumptions C72_message_partial.

Example C72_ex :
  (exists r, metadata_view_init None 30 $"{""edges"": 1}" = Err EINVAL /\
     metadata_message None 30 $"{""edges"": 1}" [] = Ok ($"Expected valid GeoArrow JSON metadata but got '{""edges"": 1}'" ++ [0%N] ++ r)) /\
  (exists r, metadata_view_init None 30 $" {""edges"": null} , {}" = Err EINVAL /\
     metadata_message None 30 $" {""edges"": null} , {}" [] =
       Ok ($"Expected JSON object with no trailing characters but found trailing ', {}'" ++ [0%N] ++ r)).
Proof. split; eexists; (split; [vm_compute; reflexivity|]); vm_compute; reflexivity. Qed.

(** After a success, the message is what it was. *)
Theorem C72_success : forall past fuel b before m, metadata_view_init past fuel b = Ok m -> metadata_message past fuel b before = Ok before.
Proof. exact message_kept. Qed.
Print Assumptions C72_success.

(** For 2 GiB the size that limits what is printed becomes negative and has no effect: the memory after the metadata is read up
    to the next NUL. *)
Theorem C72_message_refuted : forall past fuel n before, Z.of_nat n = 2 ^ 31 - 1 -> past <> Some 0%N -> exists b, length b = S n /\
  metadata_view_init past fuel b = Err EINVAL /\ metadata_message past fuel b before = UB.
Proof. intros past fuel n before H P. exists (120%N :: repeat 120%N n). split; [cbn [length]; rewrite repeat_length; reflexivity|]. exact (message_wild past fuel n before H P). Qed.
Print Assumptions C72_message_refuted.
