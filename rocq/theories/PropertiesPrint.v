(** * C44, C57, C58: printing numbers *)
From Verif Require Import Base BaseFacts Text TypesModel FloatModel FloatSpec RyuModel RyuSpec RyuDouble RyuReads PrintFallback GeomSpec VisitorModel VisitorSpec BufferModel BufferFacts NativeSpec
  WkbSpec WktSpec WktGrammar WktReadable WktRoundtrip SerialSpec WktReaderModel ArrayReaderModel NativeWriterModel NativeWriterSpec NativeVisitorSpec
  WkbWriterSpec WktWriterModel WktWriterSpec WktWriterHistory ConversionModel ConversionSpec ConversionProofs PrintRoundtrip
  PropertiesWktWriter PropertiesWktReader.
Local Open Scope Z_scope.

(** In all of these, [f] is a double, given by its bits; [unsigned f] are its exponent and fraction bits. *)

(** ** C44 *)

(** A number up to 1e17 is printed as its shortest decimal - of those to which no double is nearer, the nearest one with as few digits
    as possible - rounded to [p] digits, without zeros at the end of the fraction. *)
Theorem C44_fixed : forall f k p, value64 f = DFinite k -> 0 < Z.abs k <= 10 ^ 17 * 2 ^ 1074 -> 0 <= p <= 37 ->
  exists m e text, print_double_ryu 40 f p = Ok text /\ 1 <= m < 10 ^ 17 /\ shortest_decimal (unsigned f) m e /\ rounded_text (is_negative f) p m e text.
Proof. exact ryu_fixed. Qed.
Print Assumptions C44_fixed.
(** A larger one as its shortest decimal, with an exponent, at every precision. *)
Theorem C44_scientific : forall f k p, value64 f = DFinite k -> 10 ^ 17 * 2 ^ 1074 < Z.abs k ->
  exists m e text, print_double_ryu 40 f p = Ok text /\ RyuSpec.denotes text (is_negative f) m e /\ shortest_decimal (unsigned f) m e.
Proof. exact ryu_scientific. Qed.
Print Assumptions C44_scientific.
(** A number has only one shortest decimal. *)
Theorem C44_one_decimal : forall n m e m' e', shortest_decimal n m e -> shortest_decimal n m' e' -> m = m' /\ e = e'.
Proof. exact shortest_unique. Qed.
Print Assumptions C44_one_decimal.
(** An integer below 2^53 as its digits, at every precision. *)
Theorem C44_integer : forall f k v p, value64 f = DFinite k -> Z.abs k = v * 2 ^ 1074 -> 1 <= v < 2 ^ 53 -> 0 <= p <= 37 ->
  exists ints, print_double_ryu 40 f p = Ok (minus (is_negative f) ++ ints) /\ canonical_digits ints [] /\ digits_value ints = v.
Proof. exact ryu_integer. Qed.
Print Assumptions C44_integer.
Theorem C44_special : forall f p,
  (value64 f = DNaN -> print_double_ryu 40 f p = Ok $"nan") /\
  (forall negative, value64 f = DInf negative -> print_double_ryu 40 f p = Ok (minus negative ++ $"Infinity")) /\
  (value64 f = DFinite 0 -> print_double_ryu 40 f p = Ok $"0").
Proof. exact ryu_special. Qed.
Print Assumptions C44_special.

(** -10.5, 2.5, 30 and 100; 123456.789 to 2 digits; -0.001 to 2 digits *)
Example C44_ex :
  value64 0xC025000000000000 = DFinite (- (21 * 2 ^ 1073)) /\ print_double_ryu 40 0xC025000000000000 16 = Ok $"-10.5" /\
  print_double_ryu 40 0x4004000000000000 0 = Ok $"2" /\ print_double_ryu 40 0x403E000000000000 16 = Ok $"30" /\
  print_double_ryu 40 0x4059000000000000 0 = Ok $"100" /\ print_double_ryu 40 0x40FE240C9FBE76C9 2 = Ok $"123456.79" /\
  print_double_ryu 40 0xBF50624DD2F1A9FC 2 = Ok $"0" /\ print_double_ryu 40 0x4376345785D8A000 3 = Ok $"100000000000000000".
Proof. repeat split; vm_compute; reflexivity. Qed.
(** 0.3, 5e-324, 2^60 and 2^53 + 2: the shortest decimals. *)
Example C44_shortest_ex : print_double_ryu 40 0x3FD3333333333333 17 = Ok $"0.3" /\ print_double_ryu 400 1 330 = Ok ($"0." ++ repeat 48%N 323 ++ $"5") /\
  print_double_ryu 40 0x43B0000000000000 2 = Ok $"1.152921504606847e+18" /\ print_double_ryu 40 0x4340000000000001 2 = Ok $"9007199254740994".
Proof. repeat split; vm_compute; reflexivity. Qed.
(** The largest double; 1e300 *)
Example C44_scientific_ex : print_double_ryu 40 0x7FEFFFFFFFFFFFFF 2 = Ok $"1.7976931348623157e+308" /\
  print_double_ryu 40 0xFE37E43C8800759C 2 = Ok $"-1e+300".
Proof. split; vm_compute; reflexivity. Qed.
Example C44_special_ex : value64 0x7FF8000000000000 = DNaN /\ value64 0xFFF0000000000000 = DInf true /\ value64 0x8000000000000000 = DFinite 0.
Proof. repeat split; vm_compute; reflexivity. Qed.

(** Built without ryu, the property is false: at precision 0 there is no point, and the zeros at the end of integers are dropped. *)
Definition C44_rendering (f : N) (p : Z) : bytes := if (f =? 0)%N then $"0" else $"100".
Theorem C44_fallback_refuted : forall expo,
  print_double_std expo C44_rendering 0x4059000000000000 0 = Ok $"1" /\ print_double_std expo C44_rendering 0 0 = Ok [].
Proof. intros expo. split; reflexivity. Qed.
Print Assumptions C44_fallback_refuted.
(** At other precisions only zeros of the fraction are dropped, and the point if nothing is left of it. *)
Theorem C44_fallback_partial : forall expo fixed f k p negative ints frac, value64 f = DFinite k -> Z.abs k <= 10 ^ 17 * 2 ^ 1074 ->
  fixed f p = minus negative ++ ints ++ $"." ++ frac -> Forall is_digit frac -> (length (fixed f p) <= 39)%nat ->
  exists frac' n, print_double_std expo fixed f p = Ok (fixed_text negative ints frac') /\ frac = frac' ++ repeat 48%N n /\
    (frac' = [] \/ exists r c, frac' = r ++ [c] /\ c <> 48%N).
Proof. exact std_fixed. Qed.
Print Assumptions C44_fallback_partial.
Example C44_fallback_ex : let fixed := fun (_ : N) (_ : Z) => $"-10.5000000000000000" in
  fixed 0xC025000000000000%N 16 = minus true ++ $"10" ++ $"." ++ $"5000000000000000" /\ Forall is_digit $"5000000000000000" /\
  print_double_std (fun _ => []) fixed 0xC025000000000000 16 = Ok $"-10.5".
Proof. split; [reflexivity|]. split; [repeat constructor; vm_compute; congruence|reflexivity]. Qed.

(** ** C57 *)

(** At precision [p], numbers of at least 10^(16-p) are printed with enough digits to be read back; so are zero and the integers
    below 2^53. At the default precision of 16, that is every number of at least 1. *)
Theorem C57_reads_back_partial : forall p f, 0 <= p <= 16 -> keeps p f -> exists text, print_double_ryu 40 f p = Ok text /\ reads_back text f.
Proof. exact keeps_reads. Qed.
Print Assumptions C57_reads_back_partial.
(** A text reads back as one number only, so that different numbers are printed differently. *)
Theorem C57_one_number : forall text f g, (f < 2 ^ 64)%N -> (g < 2 ^ 64)%N -> reads_back text f -> reads_back text g -> f = g.
Proof. exact reads_back_unique. Qed.
Print Assumptions C57_one_number.
Theorem C57_distinct : forall p f g, 0 <= p <= 16 -> keeps p f -> keeps p g -> print_double_ryu 40 f p = print_double_ryu 40 g p -> f = g.
Proof. exact ryu_distinct. Qed.
Print Assumptions C57_distinct.
(** Smaller numbers are not all kept: 0.3 and the next double are printed alike. Nor is the sign of zero. *)
Theorem C57_small_refuted : print_double_ryu 40 0x3FD3333333333333 16 = Ok $"0.3" /\ print_double_ryu 40 0x3FD3333333333334 16 = Ok $"0.3" /\
  print_double_ryu 40 0 16 = Ok $"0" /\ print_double_ryu 40 0x8000000000000000 16 = Ok $"0".
Proof. repeat split; vm_compute; reflexivity. Qed.
Print Assumptions C57_small_refuted.

(** WKT written with this printer is read back with any parser that rounds correctly. *)
Theorem C57_wkt_roundtrip_partial : forall parse, number_parser parse -> correctly_rounding parse ->
  forall precision flat max, max < 0 -> forall g evs s s0,
  let cfg := wkt_config precision flat max in
  typed g -> wf_geom g -> (nesting g <= 32)%nat -> uniform g -> readable flat g -> Forall (keeps (kc_precision cfg)) (WktReadable.ordinates g) ->
  geom_events g evs -> b_size (k_values s) < 2 ^ 31 -> buf_ok (k_values s) ->
  exists s' text evs', feed (wkt_step ryu_print cfg) s ([EFeatStart] ++ evs ++ [EFeatEnd]) = Some (s', 0) /\
    b_data (k_values s') = b_data (k_values s) ++ text /\
    trace (wkt_visit parse s0 text) = ([EFeatStart] ++ evs' ++ [EFeatEnd], Ok tt) /\ geom_events g evs'.
Proof. exact ryu_roundtrip. Qed.
Print Assumptions C57_wkt_roundtrip_partial.

(** Arrays stay the same through any number of encodings, WKT included. *)
Theorem C57_chain_partial : forall parse junk k d fss, number_parser parse -> correctly_rounding parse -> (forall i j, is_byte (junk i j)) ->
  Forall (fun fs =>
    all_geoms (fun g => wf_geom g /\ of_kind k d g /\ Forall (keeps 16) (WktReadable.ordinates g)) fs /\
    Z.of_nat (length fs) < 2 ^ 63 /\ total_size fs < 2 ^ 31 /\ text_size ryu_print (wkt_config 16 true (-1)) fs < 2 ^ 31 /\ has_room k d fs) fss ->
  forall ts t,
  Forall (fun t' => t' = TYPE_WKB \/ t' = TYPE_WKT \/ exists l, t' = make_type (geometry_kind_code k) (dim_code d) (layout_code l)) ts ->
  k <> KBox -> converts_through parse ryu_print junk t ts fss.
Proof. exact ryu_chain. Qed.
Print Assumptions C57_chain_partial.

(** There is such a parser. LINESTRING (30 -10.5, 0 123456.789) *)
Definition C57_line : geom := GLine XY [[0x403E000000000000; 0xC025000000000000]; [0; 0x40FE240C9FBE76C9]]%N.
Example C57_ex : number_parser correct_parse /\ correctly_rounding correct_parse /\ Forall (keeps 16) (WktReadable.ordinates C57_line) /\
  wkt (fun w => ryu_print w 16) true C57_line = $"LINESTRING (30 -10.5, 0 123456.789)" /\
  correct_parse $"123456.789" = Some 0x40FE240C9FBE76C9%N.
Proof.
  split; [split; reflexivity|]. split; [exact correct_parse_ok|]. split; [|split; vm_compute; reflexivity].
  assert (forall w k, (w < 2 ^ 64)%N -> value64 w = DFinite k -> (2 ^ 1074 <=? Z.abs k) = true -> keeps 16 w) as K.
  { intros w k Hw Hv Hk. split; [exact Hw|]. right. exists k. split; [exact Hv|]. left. apply Z.leb_le in Hk. change (10 ^ (16 - 16)) with 1. lia. }
  assert (forall w, match value64 w with DFinite k => (w <? 2 ^ 64)%N && (2 ^ 1074 <=? Z.abs k) | _ => false end = true -> keeps 16 w) as K2.
  { intros w H. destruct (value64 w) as [| |k] eqn:E; try discriminate. apply andb_prop in H as [H1 H2]. apply (K w k); [apply N.ltb_lt; exact H1|exact E|exact H2]. }
  cbn [WktReadable.ordinates C57_line]. unfold WktReadable.ordinates. cbn. repeat apply Forall_cons; try apply Forall_nil; try (apply K2; vm_compute; reflexivity).
  split; [reflexivity|left; reflexivity].
Qed.

(** ** C58 *)

(** At precisions up to 37 - the WKT writer's are 0 to 16 - no more than 40 characters are written, for any double. *)
Theorem C58_fits : forall f p, 0 <= p <= 37 -> exists text, print_double_ryu 40 f p = Ok text /\ (length text <= 40)%nat.
Proof. exact prints_all. Qed.
Print Assumptions C58_fits.
(** This is what C20, C22 and the other properties of the WKT writer ask of its printer. *)
Theorem C58_short : short ryu_print.
Proof. exact ryu_short. Qed.
Print Assumptions C58_short.
(** At precision 38 -1e-38 takes 41. *)
Theorem C58_precision_refuted : print_double_ryu 40 0xB80B38FB9DAA78E4 38 = UB /\ print_double_ryu 41 0xB80B38FB9DAA78E4 38 = Ok $"-0.00000000000000000000000000000000000001".
Proof. split; vm_compute; reflexivity. Qed.
Print Assumptions C58_precision_refuted.
Example C58_ex : ryu_print 0xB80B38FB9DAA78E4 37 = $"0" /\ ryu_print 0xB8AA000000000000 37 = $"-0.0000000000000000000000000000000000098" /\
  length (ryu_print 0xB8AA000000000000 37) = 40%nat.
Proof. repeat split; vm_compute; reflexivity. Qed.
