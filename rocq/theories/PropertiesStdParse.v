(** * C63: reading numbers with the C library *)
From Verif Require Import Base BaseFacts Text TypesModel FloatModel FloatSpec RyuModel RyuSpec RyuDouble RyuReads PrintFallback GeomSpec VisitorModel VisitorSpec BufferModel BufferFacts NativeSpec
  WkbSpec WktSpec WktGrammar WktReadable WktRoundtrip SerialSpec WktReaderModel ArrayReaderModel NativeWriterModel NativeWriterSpec NativeVisitorSpec
  WkbWriterSpec WktWriterModel WktWriterSpec WktWriterHistory ConversionModel ConversionSpec ConversionProofs PrintRoundtrip
  FastFloatModel FastFloatSpec FastFloatNearest StdParseModel StdParseSpec StdParseProofs.
Local Open Scope Z_scope.

(** Whatever the text and whatever the C library makes of it: nothing is written outside of the copy, and a number is read exactly if
    the text has 1 to 63 bytes, none of them NUL, and the C library takes all of it. *)
Theorem C63_accepted : forall strtod t, (forall u, (snd (strtod u) <= length u)%nat) ->
  (from_chars_std strtod t = Err EINVAL \/ exists f, from_chars_std strtod t = Ok f) /\
  forall f, from_chars_std strtod t = Ok f <-> (1 <= length t <= 63)%nat /\ Forall (fun c => c <> 0%N) t /\ strtod t = (f, length t).
Proof. exact std_spec. Qed.
Print Assumptions C63_accepted.
(** Numbers of up to 63 bytes are read as the nearest double, if there is one. *)
Theorem C63_numbers : forall strtod, strtod_ok strtod -> forall t negative m e, number_text t negative m e -> (length t < 64)%nat ->
  exists f, from_chars_std strtod t = Ok f /\ (f < 2 ^ 64)%N /\ is_negative f = negative /\ forall n, finite n -> nearest_double n m e -> unsigned f = n.
Proof. exact std_numbers. Qed.
Print Assumptions C63_numbers.
(** The WKT round trips of C57 are those of this parser, too. *)
Theorem C63_parser : forall strtod, strtod_ok strtod -> number_parser (std_parse strtod) /\ correctly_rounding (std_parse strtod).
Proof. exact std_parse_ok. Qed.
Print Assumptions C63_parser.
Theorem C63_wkt_roundtrip : forall strtod, strtod_ok strtod ->
  forall precision flat max, max < 0 -> forall g evs s s0,
  let cfg := wkt_config precision flat max in
  typed g -> wf_geom g -> (nesting g <= 32)%nat -> uniform g -> readable flat g -> Forall (keeps (kc_precision cfg)) (WktReadable.ordinates g) ->
  geom_events g evs -> b_size (k_values s) < 2 ^ 31 -> buf_ok (k_values s) ->
  exists s' text evs', feed (wkt_step ryu_print cfg) s ([EFeatStart] ++ evs ++ [EFeatEnd]) = Some (s', 0) /\
    b_data (k_values s') = b_data (k_values s) ++ text /\
    trace (wkt_visit (std_parse strtod) s0 text) = ([EFeatStart] ++ evs' ++ [EFeatEnd], Ok tt) /\ geom_events g evs'.
Proof. intros strtod Hs. destruct (std_parse_ok strtod Hs) as [Hp Hc]. exact (ryu_roundtrip _ Hp Hc). Qed.
Print Assumptions C63_wkt_roundtrip.

(** Both builds read a number alike if it has up to 63 bytes, and its nearest double is finite and zero only if the number is. *)
Theorem C63_builds_agree_partial : forall strtod to_nearest mul, strtod_ok strtod -> to_nearest = true \/ exact_products mul ->
  forall t negative m e n, number_text t negative m e -> (length t < 64)%nat -> finite n -> nearest_double n m e -> (n = 0 -> m = 0) ->
  exists f, from_chars_std strtod t = Ok f /\ geoarrow_from_chars to_nearest mul t = Ok f.
Proof. exact builds_agree. Qed.
Print Assumptions C63_builds_agree_partial.
(** They do not with longer numbers, with numbers beyond the largest double, or with what follows a number: there is one build that
    reads the text and one that does not. *)
Theorem C63_builds_agree_refuted : forall mul,
  (forall strtod, from_chars_std strtod ($"0." ++ repeat 48%N 62) = Err EINVAL) /\ geoarrow_from_chars true mul ($"0." ++ repeat 48%N 62) = Ok 0%N /\
  (forall strtod, strtod_ok strtod -> exists f, from_chars_std strtod $"1e999" = Ok f) /\ geoarrow_from_chars true mul $"1e999" = Err EINVAL /\
  (forall strtod, snd (strtod $"1x") = 1%nat -> from_chars_std strtod $"1x" = Err EINVAL) /\ geoarrow_from_chars true mul $"1x" = Ok 0x3FF0000000000000%N.
Proof.
  intros mul. split; [intros strtod; vm_compute; reflexivity|]. split; [vm_compute; reflexivity|]. split.
  { intros strtod Hs. destruct (std_numbers strtod Hs $"1e999" false 1 999) as (f & E & _); [|vm_compute; lia|exists f; exact E].
    apply (a_number false $"1" [] [] $"e999" 999); [constructor; [vm_compute; split; discriminate|constructor]|constructor|discriminate|right; split; reflexivity|].
    apply (an_exponent $"e" [] $"999"); [left; reflexivity|left; reflexivity|repeat apply Forall_cons; try apply Forall_nil; vm_compute; split; discriminate|discriminate]. }
  split; [vm_compute; reflexivity|]. split; [|vm_compute; reflexivity]. intros strtod H. change (from_chars_std strtod $"1x") with (let '(result, end_ptr) := strtod $"1x" in if Nat.eqb end_ptr 2 then Ok result else Err EINVAL).
  destruct (strtod $"1x") as [f n]. cbn [snd] in H. subst n. reflexivity.
Qed.
Print Assumptions C63_builds_agree_refuted.

(** There is such a strtod. *)
Example C63_ex : strtod_ok ex_strtod /\ from_chars_std ex_strtod $"-10.5" = Ok 0xC025000000000000%N /\ from_chars_std ex_strtod $"-10.5x" = Err EINVAL /\
  from_chars_std ex_strtod ($"-10" ++ [0%N]) = Err EINVAL /\ from_chars_std ex_strtod ($"1." ++ repeat 48%N 61) = Ok 0x3FF0000000000000%N.
Proof. split; [exact ex_strtod_ok|]. do 3 (split; [vm_compute; reflexivity|]). vm_compute. reflexivity. Qed.
