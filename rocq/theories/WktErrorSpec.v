(** * What WKT error messages say *)
From Verif Require Import Base Text WktGrammar.
Local Open Scope N_scope.

(** [t] starts with the word [w]. *)
Definition starts_with_word (w t : bytes) : Prop :=
  Forall (fun c => ~ ends_word c) w /\ exists r, t = w ++ r /\ match r with c :: _ => ends_word c | [] => True end.
(** The names of the geometry types. *)
Definition type_names : list bytes :=
  [$"POINT"; $"LINESTRING"; $"POLYGON"; $"MULTIPOINT"; $"MULTILINESTRING"; $"MULTIPOLYGON"; $"GEOMETRYCOLLECTION"].

(** The things that a message may say it expected, and where they are: at the start of [t]. *)
Section Stands.
Variable parse : bytes -> option N.
Inductive stands : bytes -> bytes -> Prop :=
| an_opening r : stands $"'('" ($"(" ++ r)
| a_closing r : stands $"')'" ($")" ++ r)
| a_comma r : stands $"','" ($"," ++ r)
| whitespace c r : blank [c] -> stands $"whitespace" (c :: r)
| an_opening_list r : stands $"'(' or 'EMPTY'" ($"(" ++ r)
| an_empty_list t : starts_with_word $"EMPTY" t -> stands $"'(' or 'EMPTY'" t
| a_number w t : parse w <> None -> starts_with_word w t -> stands $"number" t
| a_type w t : In w type_names -> starts_with_word w t -> stands $"geometry type" t
| the_end : stands $"end of input" []
| a_nul r : stands $"end of input" (0 :: r).
Definition expectable : list bytes :=
  [$"'('"; $"')'"; $"','"; $"whitespace"; $"'(' or 'EMPTY'"; $"number"; $"geometry type"; $"end of input"].
End Stands.

(** [t] and [t'] start with the same word and the same character after it. *)
Definition same_start (t t' : bytes) : Prop :=
  exists w c r r', Forall (fun c => ~ ends_word c) w /\ ends_word c /\ t = w ++ [c] ++ r /\ t' = w ++ [c] ++ r'.

(** The text of a C string in a buffer. *)
Definition is_c_string (buffer text : bytes) : Prop := ~ In 0 text /\ exists r, buffer = text ++ [0] ++ r.
(** A decimal numeral without leading zeros. *)
Definition decimal_of (n : N) (t : bytes) : Prop :=
  t <> [] /\ Forall (fun c => 48 <= c <= 57) t /\ fold_left (fun a c => 10 * a + (c - 48)) t 0 = n /\ (hd 0 t = 48 -> t = [48]).
