(** * C62: reading numbers *)
From Verif Require Import Base BaseFacts Text TypesModel FloatModel FloatSpec RyuModel RyuSpec RyuDouble RyuReads PrintFallback GeomSpec VisitorModel VisitorSpec BufferModel BufferFacts NativeSpec
  WkbSpec WktSpec WktGrammar WktReadable WktRoundtrip SerialSpec WktReaderModel ArrayReaderModel NativeWriterModel NativeWriterSpec NativeVisitorSpec
  WkbWriterSpec WktWriterModel WktWriterSpec WktWriterHistory ConversionModel ConversionSpec ConversionProofs PrintRoundtrip
  PropertiesWktWriter PropertiesWktReader PropertiesPrint FastFloatModel FastFloatSpec FastFloatNearest.
Local Open Scope Z_scope.

(** In all of these, [to_nearest] says whether the rounding mode is to nearest; if it is not, [mul] are the products in that mode, of
    which it is asked only that those that are doubles are exact. *)

(** Whatever the digits, their number, the point and the exponent: the longest number at the start is read, as the nearest double - of two
    nearest ones, the even one. It is an error if the number is beyond the largest double, or not zero although the nearest double is. *)
Theorem C62_numbers : forall to_nearest mul, to_nearest = true \/ exact_products mul -> forall t text rest negative m e,
  Forall (fun c => (c < 256)%N) t -> Z.of_nat (length t) < 2 ^ 27 -> longest_number t text rest negative m e ->
  match from_chars to_nearest mul t with
  | Ok (f, r) => r = rest /\ rounded negative m e f /\ (unsigned f = 0 -> m = 0)
  | Err c => c = EINVAL /\ (too_large m e \/ too_small m e)
  | _ => False
  end.
Proof. intros to_nearest mul Hm t text rest negative m e Hb Hl. exact (reads_number to_nearest mul t text rest negative m e Hm Hb Hl). Qed.
Print Assumptions C62_numbers.
(** Numbers that are too large or too small are not the ones that have a nearest double. *)
Theorem C62_errors : forall n m e, finite n -> nearest_double n m e -> ~ too_large m e.
Proof. exact not_too_large. Qed.
Print Assumptions C62_errors.
(** Without a number, the longest word for an infinity or a not-a-number is read; without one of those, it is an error. *)
Theorem C62_words : forall to_nearest mul t, Forall (fun c => (c < 256)%N) t -> no_number t ->
  match from_chars to_nearest mul t with
  | Ok (f, r) => exists text negative bits, longest_word t text r negative bits /\ f = (bits + if (negative : bool) then 2 ^ 63 else 0)%N
  | Err c => c = EINVAL /\ no_word t
  | _ => False
  end.
Proof. exact reads_word. Qed.
Print Assumptions C62_words.
(** Whatever the text, nothing worse than this error happens, and what is read is not empty. *)
Theorem C62_any_text : forall to_nearest mul, to_nearest = true \/ exact_products mul -> forall t, Forall (fun c => (c < 256)%N) t -> Z.of_nat (length t) < 2 ^ 27 ->
  (exists f r, from_chars to_nearest mul t = Ok (f, r) /\ exists text, t = text ++ r /\ text <> []) \/ from_chars to_nearest mul t = Err EINVAL.
Proof. intros to_nearest mul Hm t. exact (reads_anything to_nearest mul t Hm). Qed.
Print Assumptions C62_any_text.

(** The parser is what C26, C45, C57 and others ask for. *)
Theorem C62_parser : forall to_nearest mul, to_nearest = true \/ exact_products mul ->
  number_parser (fast_parse to_nearest mul) /\ correctly_rounding (fast_parse to_nearest mul).
Proof. exact fast_parse_ok. Qed.
Print Assumptions C62_parser.
(** So WKT written by the library is read back by the library: C57 without assumptions about its numbers' parser or printer. *)
Theorem C62_wkt_roundtrip : forall to_nearest mul, to_nearest = true \/ exact_products mul ->
  forall precision flat max, max < 0 -> forall g evs s s0,
  let cfg := wkt_config precision flat max in
  typed g -> wf_geom g -> (nesting g <= 32)%nat -> uniform g -> readable flat g -> Forall (keeps (kc_precision cfg)) (WktReadable.ordinates g) ->
  geom_events g evs -> b_size (k_values s) < 2 ^ 31 -> buf_ok (k_values s) ->
  exists s' text evs', feed (wkt_step ryu_print cfg) s ([EFeatStart] ++ evs ++ [EFeatEnd]) = Some (s', 0) /\
    b_data (k_values s') = b_data (k_values s) ++ text /\
    trace (wkt_visit (fast_parse to_nearest mul) s0 text) = ([EFeatStart] ++ evs' ++ [EFeatEnd], Ok tt) /\ geom_events g evs'.
Proof. intros to_nearest mul Hm. destruct (fast_parse_ok to_nearest mul Hm) as [Hp Hc]. exact (ryu_roundtrip _ Hp Hc). Qed.
Print Assumptions C62_wkt_roundtrip.
Theorem C62_chain : forall to_nearest mul, to_nearest = true \/ exact_products mul -> forall junk k d fss, (forall i j, is_byte (junk i j)) ->
  Forall (fun fs =>
    all_geoms (fun g => wf_geom g /\ of_kind k d g /\ Forall (keeps 16) (WktReadable.ordinates g)) fs /\
    Z.of_nat (length fs) < 2 ^ 63 /\ total_size fs < 2 ^ 31 /\ text_size ryu_print (wkt_config 16 true (-1)) fs < 2 ^ 31 /\ has_room k d fs) fss ->
  forall ts t,
  Forall (fun t' => t' = TYPE_WKB \/ t' = TYPE_WKT \/ exists l, t' = make_type (geometry_kind_code k) (dim_code d) (layout_code l)) ts ->
  k <> KBox -> converts_through (fast_parse to_nearest mul) ryu_print junk t ts fss.
Proof. intros to_nearest mul Hm junk k d fss. destruct (fast_parse_ok to_nearest mul Hm) as [Hp Hc]. exact (ryu_chain _ junk k d fss Hp Hc). Qed.
Print Assumptions C62_chain.

(** What follows the number is not looked at, so texts that are no numbers are read as numbers, in WKT also. *)
Theorem C62_whole_text_refuted : forall mul s0, geoarrow_from_chars true mul $"1abc" = Ok 0x3FF0000000000000%N /\ geoarrow_from_chars true mul $"1" = Ok 0x3FF0000000000000%N /\
  trace (wkt_visit (fast_parse true mul) s0 $"POINT (1abc 2-3)") = trace (wkt_visit (fast_parse true mul) s0 $"POINT (1 2)") /\
  snd (trace (wkt_visit (fast_parse true mul) s0 $"POINT (1abc 2-3)")) = Ok tt.
Proof. intros mul s0. do 3 (split; [vm_compute; reflexivity|]). vm_compute. reflexivity. Qed.
Print Assumptions C62_whole_text_refuted.

(** Rounding modes with which the hypothesis is met *)
Example C62_mode_ex : exact_products ieee_mul.
Proof. exact ieee_mul_exact. Qed.
(** -10.5; 0.3; the largest double; more digits than a word has room for: 1 + 2^-53, which is half-way to the next double, and a little more; the smallest double *)
Example C62_ex : forall mul,
  from_chars true mul $"-10.5 2" = Ok (0xC025000000000000%N, $" 2") /\ from_chars true mul $"0.3" = Ok (0x3FD3333333333333%N, []) /\
  from_chars true mul $"17976931348623157e292" = Ok (0x7FEFFFFFFFFFFFFF%N, []) /\ from_chars true mul $"1.8e308" = Err EINVAL /\
  from_chars true mul $"1.00000000000000011102230246251565404236316680908203125" = Ok (0x3FF0000000000000%N, []) /\
  from_chars true mul $"1.000000000000000111022302462515654042363166809082031250000001" = Ok (0x3FF0000000000001%N, []) /\
  from_chars true mul $"5e-324" = Ok (1%N, []) /\ from_chars true mul $"2e-324" = Err EINVAL /\ from_chars true mul $"-0.0" = Ok (0x8000000000000000%N, []) /\
  from_chars true mul $"1e+" = Ok (0x3FF0000000000000%N, $"e+") /\ from_chars true mul $".5.5" = Ok (0x3FE0000000000000%N, $".5") /\ from_chars true mul $"+1" = Err EINVAL.
Proof. intros mul. do 11 (split; [vm_compute; reflexivity|]). vm_compute. reflexivity. Qed.
Example C62_longest_ex : longest_number $"-10.5 2" $"-10.5" $" 2" true 105 (-1).
Proof.
  split; [reflexivity|]. split.
  { apply (a_number true $"10" $"." $"5" [] 0); [| |discriminate|left; reflexivity|constructor]; repeat apply Forall_cons; try apply Forall_nil; vm_compute; split; discriminate. }
  intros text' rest' negative' m' e' E B; revert E; destruct B as [neg ints point frac expo x Hi Hf Hne Hp He]; intros E.
  assert (Forall (fun c => c <> 32%N) (minus neg ++ ints ++ point ++ frac ++ expo)) as F.
  { assert (forall ds, Forall is_digit ds -> Forall (fun c => c <> 32%N) ds) as D by (intros ds H; eapply Forall_impl; [|exact H]; unfold is_digit; cbv beta; intros; lia).
    repeat (apply Forall_app; split); [destruct neg; repeat constructor; discriminate|apply D; exact Hi|destruct Hp as [->|[-> _]]; repeat constructor; discriminate|apply D; exact Hf|].
    destruct He as [|letter sign digits Hl Hs Hd _]; [constructor|]. repeat (apply Forall_app; split); [destruct Hl as [-> | ->]|destruct Hs as [->|[-> | ->]]|apply D; exact Hd]; repeat constructor; discriminate. }
  destruct (Nat.le_gt_cases (length (minus neg ++ ints ++ point ++ frac ++ expo)) 5) as [L|L]; [exact L|exfalso].
  set (u := minus neg ++ ints ++ point ++ frac ++ expo) in *. clearbody u. do 6 (destruct u as [|? u]; [cbn in L; lia|]). apply (f_equal (fun l => nth 5 l 0%N)) in E. cbn in E. do 5 (apply Forall_cons_iff in F; destruct F as [_ F]).
  apply Forall_cons_iff in F. destruct F as [F _]. apply F. symmetry. exact E.
Qed.
Example C62_words_ex : forall mul, from_chars true mul $"-Infinite" = Ok (0xFFF0000000000000%N, $"inite") /\ from_chars true mul $"NaN(x_1))" = Ok (0x7FF8000000000000%N, $")") /\
  from_chars true mul $"nan(-)" = Ok (0x7FF8000000000000%N, $"(-)") /\ from_chars true mul $"-" = Err EINVAL /\ no_number $"-Infinite".
Proof.
  intros mul. do 4 (split; [vm_compute; reflexivity|]). intros text rest negative m e E B; revert E; destruct B as [neg ints point frac expo x Hi Hf Hne Hp He]; intros E.
  assert (exists c q, ints ++ point ++ frac ++ expo = c :: q /\ (is_digit c \/ c = 46%N)) as (c & q & Eq & Hc).
  { destruct ints as [|c ints]; [|exists c, (ints ++ point ++ frac ++ expo); apply Forall_cons_iff in Hi; split; [reflexivity|left; apply Hi]].
    destruct Hp as [->|[-> ->]]; [exists 46%N, (frac ++ expo); split; [reflexivity|right; reflexivity]|exfalso; apply Hne; reflexivity]. }
  rewrite Eq in E. unfold is_digit in Hc. destruct neg; cbn in E; injection E as E _; lia.
Qed.
