(** * The messages of the WKT reader: src/geoarrow/wkt_reader.c and util.c *)
From Verif Require Import Base Text WktReaderModel.
Local Open Scope N_scope.

(** What a function of the reader does when every call of the visitor succeeds: it goes on before [Got rest], or sets the message
    "Expected what at byte ..." before [Bad what rest] and returns EINVAL. [Tired]: the model's fuel is exhausted.
    Simplification: the state is the text that remains; WktReaderModel has all of it, and the calls. *)
Inductive reading :=
| Got (rest : bytes)
| Bad (what rest : bytes)
| Tired.
Definition chain (f g : bytes -> reading) (t : bytes) : reading := match f t with Got r => g r | x => x end.

(** wkt_reader.c lines 24-34: GeoArrowWKTSkipWhitespace *)
Fixpoint skipped (t : bytes) : bytes := match t with c :: r => if is_space c then skipped r else t | [] => [] end.
Definition e_skip (t : bytes) : reading := Got (skipped t).
(** wkt_reader.c lines 36-59 and 69-79: the bytes before the next separator, NUL or end, and at most [max] of them *)
Fixpoint word_at (t : bytes) : bytes := match t with c :: r => if (c =? 0) || is_sep c then [] else c :: word_at r | [] => [] end.
Definition word_upto (max : nat) (t : bytes) : bytes := firstn max (word_at t).

(** wkt_reader.c lines 88-98: GeoArrowWKTAssertChar; lines 94-95: the character in quotes *)
Definition e_char (c : N) (t : bytes) : reading :=
  match t with
  | x :: r => if x =? c then Got r else Bad [39; c; 39] t
  | [] => Bad [39; c; 39] t
  end.
(** wkt_reader.c lines 100-110: GeoArrowWKTAssertWhitespace *)
Definition e_space (t : bytes) : reading :=
  match t with
  | x :: _ => if is_space x then Got (skipped t) else Bad $"whitespace" t
  | [] => Bad $"whitespace" t
  end.
(** wkt_reader.c lines 112-122: GeoArrowWKTAssertWordEmpty *)
Definition e_empty (t : bytes) : reading :=
  if word_is (word_upto 6 t) $"EMPTY" then Got (skipn 5 t) else Bad $"'(' or 'EMPTY'" t.

Section Parser.
Variable parse : bytes -> option N.

(** wkt_reader.c lines 124-136: ReadOrdinate; lines 130-132: back to the start of the word *)
Definition e_ordinate (t : bytes) : reading :=
  match parse (word_at t) with
  | Some _ => Got (skipn (length (word_at t)) t)
  | None => Bad $"number" t
  end.
(** wkt_reader.c lines 159-163: the ordinates after the first *)
Fixpoint e_ordinates (k : nat) : bytes -> reading :=
  match k with
  | O => Got
  | S k => chain e_space (chain e_ordinate (e_ordinates k))
  end.
(** wkt_reader.c lines 152-167: ReadCoordinate, with [n] more ordinates than one *)
Definition e_coordinate (n : nat) : bytes -> reading := chain e_ordinate (e_ordinates n).

(** The loops of wkt_reader.c lines 183-189, 214-224, 261-269, 300-308, 333-342, 365-374 and 398-404, each with the step over the
    parenthesis after it (lines 193, 226, 271, 310, 344, 376 and 406) *)
Fixpoint e_more (fuel : nat) (item : bytes -> reading) (t : bytes) : reading :=
  if hd 0 t =? chr_close then Got (skipn 1 t)
  else
    match fuel with
    | O => Tired
    | S f => chain e_skip (chain (e_char chr_comma) (chain e_skip (chain item (chain e_skip (e_more f item))))) t
    end.
Definition e_rest (item : bytes -> reading) (t : bytes) : reading := e_more (S (length t)) item t.
(** wkt_reader.c lines 178-194, 205-227, 254-272, 293-311, 325-345, 358-377 and 393-407: a first item, and the loop *)
Definition e_items (item : bytes -> reading) : bytes -> reading := chain item (chain e_skip (e_rest item)).

(** After whitespace, wkt_reader.c lines 172-174 and 197, 250-252 and 275, and so on: [list] after a parenthesis and whitespace, or
    the word EMPTY *)
Definition e_paren (list : bytes -> reading) (t : bytes) : reading :=
  if hd 0 t =? chr_open then list (skipped (skipn 1 t)) else e_empty t.

(** wkt_reader.c lines 169-198: ReadEmptyOrCoordinates, after whitespace *)
Definition e_coordinates (n : nat) : bytes -> reading := e_paren (e_items (e_coordinate n)).
(** wkt_reader.c lines 230-246: ReadEmptyOrPointCoordinate, after whitespace *)
Definition e_point (n : nat) : bytes -> reading := e_paren (chain (e_coordinate n) (chain e_skip (e_char chr_close))).
(** wkt_reader.c lines 248-276: ReadPolygon, after whitespace *)
Definition e_polygon (n : nat) : bytes -> reading := e_paren (e_items (chain e_skip (e_coordinates n))).
(** wkt_reader.c lines 278-315: ReadMultipoint, and 200-228: ReadMultipointFlat, after whitespace. Lines 288-289 step back by one
    byte, which is the parenthesis unless whitespace follows it. *)
Definition e_multipoint (n : nat) (t : bytes) : reading :=
  e_paren (fun t2 =>
    if (hd 0 t2 =? chr_open) || (hd 0 t2 =? chr_E) then e_items (chain e_skip (e_point n)) t2
    else chain (e_char chr_open) (e_items (e_coordinate n)) (skipn (length t - S (length t2)) t)) t.
(** wkt_reader.c lines 317-349: ReadMultilinestring, and 351-381: ReadMultipolygon, after whitespace *)
Definition e_multilinestring (n : nat) : bytes -> reading := e_paren (e_items (chain e_skip (e_coordinates n))).
Definition e_multipolygon (n : nat) : bytes -> reading := e_paren (e_items (chain e_skip (e_polygon n))).

(** wkt_reader.c lines 460-485: what follows the tag of a geometry of type [ty], after whitespace; [member] is ReadTaggedGeometry *)
Definition e_body (ty : N) (n : nat) (member : bytes -> reading) : bytes -> reading :=
  if ty =? 1 then e_point n
  else if ty =? 2 then e_coordinates n
  else if ty =? 3 then e_polygon n
  else if ty =? 4 then e_multipoint n
  else if ty =? 5 then e_multilinestring n
  else if ty =? 6 then e_multipolygon n
  else e_paren (e_items member).

(** wkt_reader.c lines 413-488: ReadTaggedGeometry *)
Fixpoint e_tagged (fuel : nat) (t : bytes) : reading :=
  match fuel with
  | O => Tired
  | S f =>
      let t0 := skipped t in
      match type_of_word (word_upto 19 t0) with
      | None => Bad $"geometry type" t0
      | Some ty =>
          let t1 := skipped (skipn (length (word_upto 19 t0)) t0) in
          let '(_, n_values, k) := dims_of_word (word_upto 3 t1) in
          e_body ty (N.to_nat n_values - 1) (e_tagged f) (skipped (skipn k t1))
      end
  end.

(** wkt_reader.c lines 527-531 *)
Definition e_end (t : bytes) : reading := if hd 0 t =? 0 then Got t else Bad $"end of input" t.
(** wkt_reader.c lines 516-534: GeoArrowWKTReaderVisit *)
Definition e_visit (src : bytes) : reading := chain (e_tagged (S (length src))) (chain e_skip e_end) src.
End Parser.

(** The decimal digits that vsnprintf prints for %ld and a number that is not negative. *)
Fixpoint digits_from (fuel : nat) (n : N) (after : bytes) : bytes :=
  match fuel with
  | O => after
  | S f => let after := (48 + n mod 10) :: after in if n <? 10 then after else digits_from f (n / 10) after
  end.
Definition print_ld (n : N) : bytes := digits_from (S (N.to_nat (N.log2 n))) n [].

(** util.c lines 13-31: GeoArrowErrorSet with a message of 1024 bytes, where the format gives [text] ([vsnprintf] leaves the last
    byte to the NUL); the bytes after it are zero (line 18). The result is the code and the message. Simplification: there are no
    encoding errors (lines 25-26). *)
Definition ERANGE : Z := 34.
Definition error_set (text : bytes) : Z * bytes :=
  let shown := firstn 1023 text in
  (if (1024 <=? length text)%nat then ERANGE else 0%Z, shown ++ repeat 0 (1024 - length shown)).
(** wkt_reader.c lines 81-86: SetParseErrorAuto; [pos] is the distance from the start of the source *)
Definition expected_at (what : bytes) (pos : nat) : bytes := $"Expected " ++ what ++ $" at byte " ++ print_ld (N.of_nat pos).

(** The message after a visit of [src] by a visitor that accepts everything; [before] is what it was. *)
Definition wkt_message (parse : bytes -> option N) (before src : bytes) : bytes :=
  match e_visit parse src with
  | Bad what rest => snd (error_set (expected_at what (length src - length rest)))
  | _ => before
  end.
