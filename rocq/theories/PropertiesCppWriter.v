(** * C64: writer objects of the C++ interface *)
From Verif Require Import Base BaseFacts Text TypesModel FloatModel RyuModel GeomSpec VisitorModel VisitorSpec NativeSpec ArrowModel
  WkbSpec WktSpec SerialSpec ArrayReaderModel NativeWriterModel NativeWriterSpec NativeVisitorSpec
  WkbWriterModel WkbWriterSpec WktWriterModel WktWriterSpec KernelModel KernelSpec GeomFacts ConversionModel ConversionSpec ConversionProofs CppWkbModel CppWriterModel CppWriterSpec CppWriterProofs
  PropertiesWktWriter PropertiesConversion.
Local Open Scope Z_scope.

(** In all of these, [print_double] is the number printer of the WKT writer and [junk] the contents of newly allocated memory. [calls] are any
    calls of a writer's methods, and of the visitor it gives, that write the features [fss], an array for each Finish. *)

(** WKT: the texts of the features, with the settings at the first use of the visitor. Missing: calls of SetFlatMultipoint (see
    [C64_flat_refuted]), later settings ([C64_late_refuted]), and features that the WKT writer refuses. *)
Theorem C64_wkt_partial : forall print_double, short print_double -> forall junk fss calls, calls_for fss calls -> Forall (fun c => is_flat_call c = false) calls ->
  let cfg := wkt_config (fst (first_settings 16 true calls)) (snd (first_settings 16 true calls)) (-1) in
  Forall (fun fs => Forall expressible fs /\ Forall shallow fs /\ Z.of_nat (length fs) < 2 ^ 63 /\ text_size print_double cfg fs < 2 ^ 31) fss ->
  exists arrays, writer_session print_double junk TYPE_WKT calls = Ok arrays /\
    Forall2 (fun fs a => serial_ok Offsets32 a /\ serial_contents Offsets32 a (map (feature_text print_double cfg) fs) /\ aa_null_count a = nulls fs) fss arrays.
Proof. exact wkt_session. Qed.
Print Assumptions C64_wkt_partial.
(** With calls of SetFlatMultipoint, the texts are those of a session in which each of them is a call of SetPrecision with 0 or 1. *)
Theorem C64_wkt_as_made : forall print_double, short print_double -> forall junk fss calls, calls_for fss calls ->
  let made := first_settings 16 true (map (fun c => match c with CallSetFlatMultipoint flat => CallSetPrecision (if flat then 1 else 0) | _ => c end) calls) in
  let cfg := wkt_config (fst made) (snd made) (-1) in
  Forall (fun fs => Forall expressible fs /\ Forall shallow fs /\ Z.of_nat (length fs) < 2 ^ 63 /\ text_size print_double cfg fs < 2 ^ 31) fss ->
  exists arrays, writer_session print_double junk TYPE_WKT calls = Ok arrays /\
    Forall2 (fun fs a => serial_ok Offsets32 a /\ serial_contents Offsets32 a (map (feature_text print_double cfg) fs) /\ aa_null_count a = nulls fs) fss arrays.
Proof. exact wkt_session_as_made. Qed.
Print Assumptions C64_wkt_as_made.
(** WKB: the ISO encodings of the features. Missing: features nested more deeply than 30 levels, and arrays of 2 GiB or more. *)
Theorem C64_wkb_partial : forall print_double junk fss calls, calls_for fss calls -> Forall (fun c => is_setting c = false) calls ->
  Forall (fun fs => Z.of_nat (length fs) < 2 ^ 63 /\ all_geoms (fun g => wf_geom g /\ (nesting g <= 30)%nat) fs /\ total_size fs < 2 ^ 31) fss ->
  exists arrays, writer_session print_double junk TYPE_WKB calls = Ok arrays /\
    Forall2 (fun fs a => serial_ok Offsets32 a /\ serial_contents Offsets32 a (map feature_wkb fs) /\ aa_null_count a = nulls fs) fss arrays.
Proof. exact wkb_session. Qed.
Print Assumptions C64_wkb_partial.
(** Native arrays: what C49 says an array of that kind keeps of the features. Missing: what is missing there. *)
Theorem C64_native_partial : forall print_double junk, (forall i j, is_byte (junk i j)) -> forall k l d, k <> KBox ->
  forall fss calls, calls_for fss calls -> Forall (fun c => is_setting c = false) calls ->
  Forall (fun fs => (exists els, visited_as k d fs els) /\ Forall (feature_for k) fs /\ has_room k d fs) fss ->
  exists arrays, writer_session print_double junk (make_type (geometry_kind_code k) (dim_code d) (layout_code l)) calls = Ok arrays /\
    Forall2 (fun fs a => exists els, visited_as k d fs els /\ array_of k l d els a) fss arrays.
Proof. exact native_session. Qed.
Print Assumptions C64_native_partial.
(** Writers that are not of WKT have no settings: they throw, whatever was called before. *)
Theorem C64_no_settings : forall print_double junk t calls arrays c rest, t <> TYPE_WKT -> writer_session print_double junk t calls = Ok arrays ->
  is_setting c = true -> writer_session print_double junk t (calls ++ c :: rest) = Err THROWN.
Proof. exact settings_throw. Qed.
Print Assumptions C64_no_settings.
(** There are no writers of other serialized types and none of no type, and none of boxes gives a visitor. *)
Theorem C64_no_writer : forall print_double junk calls,
  Forall (fun t => writer_session print_double junk t calls = Err THROWN) [TYPE_LARGE_WKB; TYPE_LARGE_WKT; TYPE_WKB_VIEW; TYPE_WKT_VIEW; TYPE_UNINITIALIZED] /\
  forall d evs, writer_session print_double junk (make_type (geometry_kind_code KBox) (dim_code d) (layout_code Separate)) (CallVisit evs :: calls) = Err THROWN.
Proof. intros pd junk calls. split; [repeat constructor|]. intros [] evs; reflexivity. Qed.
Print Assumptions C64_no_writer.

(** SetFlatMultipoint(false) is SetPrecision(0), and multipoints stay flat. *)
Definition ex_points : geom := GColl CMultipoint XY [GPoint XY [[0x3FF8000000000000; 0x4004000000000000]]; GPoint XY [[0x400C000000000000; 0x3FF0000000000000]]]%N.
Definition ex_visit (g : geom) : writer_call := CallVisit ([EFeatStart] ++ canon_events g ++ [EFeatEnd]).
Definition texts_of (m : outcome (list arrow_array)) : outcome (list (option bytes)) := do arrays <- m; Ok (map (fun a => nth 2 (aa_buffers a) None) arrays).
Theorem C64_flat_refuted : forall junk,
  (forall print_double t flat calls, writer_session print_double junk t (CallSetFlatMultipoint flat :: calls) = writer_session print_double junk t (CallSetPrecision (if flat then 1 else 0) :: calls)) /\
  texts_of (writer_session ryu_print junk TYPE_WKT [CallSetFlatMultipoint false; ex_visit ex_points; CallFinish]) = Ok [Some $"MULTIPOINT (2 2, 4 1)"] /\
  feature_text ryu_print (wkt_config 16 false (-1)) (Some ex_points) = Some $"MULTIPOINT ((1.5 2.5), (3.5 1))" /\
  texts_of (writer_session ryu_print junk TYPE_WKT [CallSetPrecision 5; CallSetFlatMultipoint true; ex_visit (GPoint XY [[0x3FC0000000000000; 0]]%N); CallFinish]) = Ok [Some $"POINT (0.1 0)"].
Proof. intros junk. split; [reflexivity|]. split; [vm_compute; reflexivity|]. split; vm_compute; reflexivity. Qed.
Print Assumptions C64_flat_refuted.
(** A setting that is made after the visitor was asked for has no effect, not even on later arrays. *)
Theorem C64_late_refuted : forall junk,
  texts_of (writer_session ryu_print junk TYPE_WKT [ex_visit ex_points; CallFinish; CallSetPrecision 0; ex_visit ex_points; CallFinish]) =
    Ok [Some $"MULTIPOINT (1.5 2.5, 3.5 1)"; Some $"MULTIPOINT (1.5 2.5, 3.5 1)"].
Proof. intros junk. vm_compute. reflexivity. Qed.
Print Assumptions C64_late_refuted.

(** Two arrays, the first of two features in two pieces *)
Example C64_ex : let fs := [Some ex_points; None] in let calls := [CallSetPrecision 3; CallSetPrecision 0; ex_visit ex_points; CallSetPrecision 4; CallVisit [EFeatStart; ENullFeat; EFeatEnd]; CallFinish; CallFinish] in
  calls_for [fs; []] calls /\ Forall (fun c => is_flat_call c = false) calls /\ first_settings 16 true calls = (0, true) /\
  (let cfg := wkt_config 0 true (-1) in Forall (fun fs => Forall expressible fs /\ Forall shallow fs /\ Z.of_nat (length fs) < 2 ^ 63 /\ text_size ryu_print cfg fs < 2 ^ 31) [fs; []]) /\
  texts_of (writer_session ryu_print (fun _ _ => 0%N) TYPE_WKT calls) = Ok [Some $"MULTIPOINT (2 2, 4 1)"; Some []] /\
  Forall (fun fs => (exists els, visited_as KMultipoint XY fs els) /\ Forall (feature_for KMultipoint) fs /\ has_room KMultipoint XY fs) [fs; []].
Proof.
  cbv zeta. split.
  { do 2 apply call_precision. change [Some ex_points; None] with ([Some ex_points] ++ [@None geom]). apply call_visit.
    - change ([EFeatStart] ++ canon_events ex_points ++ [EFeatEnd]) with (([EFeatStart] ++ canon_events ex_points ++ [EFeatEnd]) ++ []). constructor; [|constructor]. constructor. apply canon_events_ok.
    - apply call_precision. change [@None geom] with ([@None geom] ++ []). apply call_visit; [|do 2 apply call_finish; apply no_calls].
      change [EFeatStart; ENullFeat; EFeatEnd] with ([EFeatStart; ENullFeat; EFeatEnd] ++ []). constructor; [constructor|constructor]. }
  split; [repeat constructor|]. split; [reflexivity|]. split; [|split].
  - apply Forall_cons; [|apply Forall_cons; [|apply Forall_nil]]; (split; [|split; [|split; [vm_compute; reflexivity|vm_compute; reflexivity]]]); try apply Forall_nil.
    + apply Forall_cons; [|apply Forall_cons; [|apply Forall_nil]]; intros g E; [|discriminate E]. injection E as <-. split; repeat constructor.
    + apply Forall_cons; [|apply Forall_cons; [|apply Forall_nil]]; intros g E; [|discriminate E]. injection E as <-. vm_compute. lia.
  - vm_compute. reflexivity.
  - constructor; [|constructor; [|constructor]].
    + split; [exists [Some [[0x3FF8000000000000; 0x4004000000000000]; [0x400C000000000000; 0x3FF0000000000000]]%N; None]; repeat constructor|]. split; [constructor; [|repeat constructor]|right; split; vm_compute; congruence].
      split; [|repeat constructor]. right. apply mo_leaf. right. right. split; [reflexivity|repeat constructor].
    + split; [exists []; constructor|]. split; [constructor|right; split; vm_compute; congruence].
Qed.
