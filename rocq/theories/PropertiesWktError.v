(** * C69: the messages of the WKT reader *)
From Verif Require Import Base BaseFacts Text GeomSpec VisitorModel FloatModel FloatSpec WktReaderModel WktGrammar FastFloatModel FastFloatSpec FastFloatNearest StdParseModel StdParseSpec StdParseProofs
  WktErrorModel WktErrorSpec WktErrorProofs WktErrorLink WktErrorMessages PropertiesWktReader.
Local Open Scope Z_scope.

(** In all of these, [parse] is the number parser, and [s0] and [s1] are readers in whatever state an earlier use left them. *)

(** If a text is not readable, the message names something and a place: it does not stand there, but with it (and more) instead of what
    does, the text would be readable. And unless it is an opening parenthesis (see below), no text that has the same word there, and the
    same character after it, is readable, whatever follows: it gets the same message. *)
Theorem C69_message_partial : forall parse, parse [] = None -> parse $"0" <> None -> forall s0 before src,
  Z.of_nat (length src) < 2 ^ 63 -> snd (trace (wkt_visit parse s0 src)) = Err EINVAL ->
  exists what p digits, is_c_string (wkt_message parse before src) ($"Expected " ++ what ++ $" at byte " ++ digits) /\ decimal_of (N.of_nat p) digits /\
    (p <= length src)%nat /\ ~ stands parse what (skipn p src) /\
    (exists c, stands parse what c /\ forall s1, snd (trace (wkt_visit parse s1 (firstn p src ++ c))) = Ok tt) /\
    (what <> $"'('" -> forall s1 before' src', firstn p src' = firstn p src -> same_start (skipn p src) (skipn p src') ->
       snd (trace (wkt_visit parse s1 src')) = Err EINVAL /\ wkt_message parse before' src' = wkt_message parse before src).
Proof. exact message_ok. Qed.
Print Assumptions C69_message_partial.

(** In general, what is named need not be where the text stops being WKT: whitespace may stand there, and it is what follows the
    whitespace that cannot. *)
Theorem C69_place_refuted : let src := $"MULTIPOINT ( 1 2)" in let src' := $"MULTIPOINT ( (1 2))" in
  snd (trace (wkt_visit ex_parse wkt_reader_init src)) = Err EINVAL /\
  is_c_string (wkt_message ex_parse [] src) $"Expected '(' at byte 12" /\
  firstn 12 src' = firstn 12 src /\ same_start (skipn 12 src) (skipn 12 src') /\ snd (trace (wkt_visit ex_parse wkt_reader_init src')) = Ok tt.
Proof.
  cbv zeta. split; [vm_compute; reflexivity|]. split.
  { split; [intros H; vm_compute in H; repeat destruct H as [H|H]; try discriminate H; exact H|]. exists (repeat 0%N 1000). vm_compute. reflexivity. }
  split; [reflexivity|]. split; [|vm_compute; reflexivity]. exists [], 32%N, $"1 2)", $"(1 2))". split; [constructor|]. split; [right; left; reflexivity|]. split; reflexivity.
Qed.
Print Assumptions C69_place_refuted.

(** After a success, the message is what it was. *)
Theorem C69_success : forall parse s0 before src, snd (trace (wkt_visit parse s0 src)) = Ok tt -> wkt_message parse before src = before.
Proof. exact message_quiet. Qed.
Print Assumptions C69_success.

(** The number parsers of both builds are such. *)
Theorem C69_parsers :
  (forall to_nearest mul, to_nearest = true \/ exact_products mul -> fast_parse to_nearest mul [] = None /\ fast_parse to_nearest mul $"0" <> None) /\
  (forall strtod, strtod_ok strtod -> std_parse strtod [] = None /\ std_parse strtod $"0" <> None).
Proof.
  split.
  - intros to_nearest mul H. destruct (fast_parse_ok to_nearest mul H) as [[H0 _] _]. split; [exact H0|]. destruct to_nearest; vm_compute; discriminate.
  - intros strtod H. destruct (std_parse_ok strtod H) as [[H0 _] _]. split; [exact H0|].
    destruct (std_numbers strtod H $"0" false 0 0) as (f & E & _).
    + apply (FastFloatSpec.a_number false $"0" [] [] [] 0); [constructor; [vm_compute; split; discriminate|constructor]|constructor|discriminate|right; split; reflexivity|constructor].
    + vm_compute. lia.
    + unfold std_parse. rewrite E. discriminate.
Qed.
Print Assumptions C69_parsers.

(** Setting a message: its first 1023 bytes are kept, and the code says whether that is all of it. *)
Theorem C69_error_set : forall text, ~ In 0%N text ->
  length (snd (error_set text)) = 1024%nat /\ is_c_string (snd (error_set text)) (firstn 1023 text) /\ fst (error_set text) = (if (1023 <? length text)%nat then 34 else 0).
Proof. exact error_set_ok. Qed.
Print Assumptions C69_error_set.

(** Messages for unreadable texts: in the middle, at the end, after the end, and two that a caller may not expect. *)
Definition message_of (src : bytes) : bytes := firstn 60 (wkt_message ex_parse [] src).
Definition padded (t : bytes) : bytes := firstn 60 (t ++ repeat 0%N 60).
Example C69_ex :
  ex_parse [] = None /\ ex_parse $"0" <> None /\ snd (trace (wkt_visit ex_parse wkt_reader_init $"POLYGON ((1 2, 3 x))")) = Err EINVAL /\
  message_of $"POLYGON ((1 2, 3 x))" = padded $"Expected number at byte 17" /\
  message_of $"POINT Z (1 2)" = padded $"Expected whitespace at byte 12" /\
  message_of $"LINESTRING (1 2 3)" = padded $"Expected ',' at byte 16" /\
  message_of $"POINT (1 2" = padded $"Expected ')' at byte 10" /\
  message_of $"POINT ZZ (1 2)" = padded $"Expected '(' or 'EMPTY' at byte 6" /\
  message_of $"GEOMETRYCOLLECTION (POINT (1 2), CIRCLE (1 2))" = padded $"Expected geometry type at byte 33" /\
  message_of $"POINT (1 2) POINT (1 2)" = padded $"Expected end of input at byte 12" /\
  message_of $"MULTIPOINT (EMPTY, 1 2)" = padded $"Expected '(' or 'EMPTY' at byte 19" /\
  message_of $"MULTIPOINT (   1 2)" = padded $"Expected '(' at byte 14" /\
  message_of $"POINT (1 2)" = [].
Proof. split; [reflexivity|]. split; [discriminate|]. repeat (split; [vm_compute; reflexivity|]). vm_compute. reflexivity. Qed.
