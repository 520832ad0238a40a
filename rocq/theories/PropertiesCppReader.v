(** * C65: reader objects of the C++ interface *)
From Verif Require Import Base BaseFacts TypesModel GeomSpec VisitorModel VisitorSpec ArrowModel NativeSpec WktGrammar SerialSpec WktReaderModel ArrayReaderModel CppWkbModel CppReaderModel CppReaderSpec CppReaderProofs
  PropertiesWktReader PropertiesKernel.
Local Open Scope Z_scope.

(** In all of these, the arrays of a program are [arrays 0], [arrays 1], ...; [parse] is the number parser, [wkt_state] and [wkb_state] are what earlier visits
    left in the readers of the encodings, and [calls] are calls of a reader's methods and of the release callbacks that the user has. *)

(** Every visit passes on exactly the features that it asks for, of the array that was set last, whether it was given or only shown. *)
Theorem C65_visits : forall arrays parse wkt_state wkb_state t features, number_parser parse -> (forall i, features_array parse t (arrays i) (features i)) ->
  forall r0 calls expected, reader_init t = Ok r0 -> reads features [] None calls expected ->
  exists visits released, reader_session arrays parse wkt_state wkb_state t calls = Ok (visits, released) /\
    Forall2 (fun fs visit => exists evs, trace visit = (evs, Ok tt) /\ features_events fs evs) expected visits.
Proof. exact session_read. Qed.
Print Assumptions C65_visits.

(** No array is released twice, and none that was neither given to the reader nor released by the user. Of the arrays that were given, the last
    one is released, even if its SetArray threw. Missing: the others (see [C65_released_refuted]). *)
Theorem C65_released_partial : forall arrays parse wkt_state wkb_state t calls visits released,
  reader_session arrays parse wkt_state wkb_state t calls = Ok (visits, released) ->
  NoDup released /\ released = released_by_user calls ++ last_of (given calls).
Proof. exact session_released. Qed.
Print Assumptions C65_released_partial.
(** So everything is released once if one array is given only. *)
Theorem C65_one_array : forall arrays parse wkt_state wkb_state t calls visits released, (length (given calls) <= 1)%nat ->
  reader_session arrays parse wkt_state wkb_state t calls = Ok (visits, released) ->
  NoDup released /\ released = released_by_user calls ++ given calls.
Proof.
  intros arrays parse st sw t calls visits released Hl E. destruct (session_released _ _ _ _ _ _ _ _ E) as (Hn & Hr). split; [exact Hn|]. rewrite Hr. f_equal.
  destruct (given calls) as [|i [|i' l]]; [reflexivity|reflexivity|cbn in Hl; lia].
Qed.
Print Assumptions C65_one_array.
(** All other arrays are never released, in whatever program. *)
Theorem C65_released_refuted : forall arrays parse wkt_state wkb_state t calls visits released,
  reader_session arrays parse wkt_state wkb_state t calls = Ok (visits, released) ->
  forall given_before i last, given calls = given_before ++ [last] -> In i given_before -> ~ In i released.
Proof. exact session_leaks. Qed.
Print Assumptions C65_released_refuted.

(** Three arrays: one given and visited, one shown, visited and released, one given. The first one is lost. *)
Definition ex_reader_arrays (i : nat) : arrow_array := match i with 1%nat => ex_array2 | _ => ex_array1 end.
Definition ex_reader_features (i : nat) : list (option geom) := match i with 1%nat => ex_batch2 | _ => ex_batch1 end.
Definition ex_reader_calls : list reader_call :=
  [RSetArray 0; RVisit 0 3; RVisit 1 2; RSetArrayNonOwning 1; RVisit 0 1; RRelease 1; RSetArray 2; RVisit 2 1].
Example C65_ex : number_parser ex_parse /\ (forall i, features_array ex_parse TYPE_WKB (ex_reader_arrays i) (ex_reader_features i)) /\
  reads ex_reader_features [] None ex_reader_calls [ex_batch1; window ex_batch1 1 2; ex_batch2; window ex_batch1 2 1] /\
  given ex_reader_calls = [0; 2]%nat /\
  (do (_, released) <- reader_session ex_reader_arrays ex_parse (fun _ _ => wkt_reader_init) (fun _ _ => true) TYPE_WKB ex_reader_calls; Ok released) = Ok [1; 2]%nat.
Proof.
  split; [apply ex_number|]. split; [intros [|[|i]]; [apply ex_features1|apply ex_features2|apply ex_features1]|]. split; [|split; [reflexivity|vm_compute; reflexivity]].
  set (X := reads ex_reader_features).
  change (X [] None [RSetArray 0; RVisit (Z.of_nat 0) (Z.of_nat 3); RVisit (Z.of_nat 1) (Z.of_nat 2); RSetArrayNonOwning 1; RVisit (Z.of_nat 0) (Z.of_nat 1); RRelease 1; RSetArray 2; RVisit (Z.of_nat 2) (Z.of_nat 1)]
    [window (ex_reader_features 0) 0 3; window (ex_reader_features 0) 1 2; window (ex_reader_features 1) 0 1; window (ex_reader_features 2) 2 1]). subst X.
  apply reads_given; [intros []|]. apply reads_visit; [cbn; lia|]. apply reads_visit; [cbn; lia|].
  apply reads_shown; [cbn; lia|]. apply reads_visit; [cbn; lia|]. apply reads_release; [cbn; lia|]. cbn [Nat.eqb].
  apply reads_given; [cbn; lia|]. apply reads_visit; [cbn; lia|]. apply reads_end.
Qed.
