(** * Printing doubles *)
(** GeoArrowPrintDouble (src/geoarrow/double_print.c) and the vendored printer it calls (src/geoarrow/ryu). Modelled: the
    variant for compilers with a 128-bit integer type (HAS_UINT128), 64-bit platforms and full tables (no
    RYU_OPTIMIZE_SIZE, no RYU_DEBUG). The [assert]s are left out: they are not part of a release build. Words are
    nonnegative [Z]; wrapping is explicit wherever the arithmetic could leave the type. Paths are relative to
    src/geoarrow. *)
From Verif Require Import Base Text FloatModel RyuTables.
Local Open Scope Z_scope.

Definition w32 (x : Z) : Z := x mod 2 ^ 32.
Definition w64 (x : Z) : Z := x mod 2 ^ 64.

(** ** The memory that a text is printed to: so many characters, each unwritten or written *)
Definition cells := list (option N).

(** [result[p] = c]: outside of the memory, no meaning. *)
Definition store (m : cells) (p : Z) (c : N) : outcome cells :=
  if (0 <=? p) && (p <? Z.of_nat (length m))
  then Ok (firstn (Z.to_nat p) m ++ Some c :: skipn (S (Z.to_nat p)) m)
  else UB.
(** [memcpy(result + p, text, strlen(text))] *)
Fixpoint store_all (m : cells) (p : Z) (t : bytes) : outcome cells :=
  match t with [] => Ok m | c :: r => do m <- store m p c; store_all m (p + 1) r end.
(** [memcpy(result + p, DIGIT_TABLE + i, 2)] *)
Definition store_digits (m : cells) (p i : Z) : outcome cells :=
  match slice DIGIT_TABLE i 2 with Some t => store_all m p t | None => UB end.
(** The first [n] characters, all of which must have been written. *)
Fixpoint written (m : cells) : option bytes :=
  match m with
  | [] => Some []
  | Some c :: r => option_map (cons c) (written r)
  | None :: _ => None
  end.
Definition text_of (m : cells) (n : Z) : outcome bytes :=
  if (0 <=? n) && (n <=? Z.of_nat (length m))
  then match written (firstn (Z.to_nat n) m) with Some t => Ok t | None => UB end
  else UB.

(** ** Arithmetic *)

(** ryu/common.h lines 66-73 *)
Definition pow5bits (e : Z) : Z := w32 (w32 e * 1217359) / 2 ^ 19 + 1.
(** ryu/common.h lines 79-85 *)
Definition log10Pow2 (e : Z) : Z := w32 (w32 e * 78913) / 2 ^ 18.
(** ryu/common.h lines 88-94 *)
Definition log10Pow5 (e : Z) : Z := w32 (w32 e * 732923) / 2 ^ 20.

(** ((uint32_t)v) - k * ((uint32_t)q): how d2s.c and d2s_intrinsics.h compute remainders *)
Definition low_rest (v k q : Z) : Z := w32 (w32 v - w32 (k * w32 q)).

(** ryu/d2s_intrinsics.h lines 188-201: pow5Factor. Zero, for which the loop does not end, runs out of fuel. *)
Fixpoint pow5_factor (fuel : nat) (value : Z) : outcome Z :=
  match fuel with
  | O => NoFuel
  | S fuel =>
      let q := value / 5 in
      if negb (low_rest value 5 q =? 0) then Ok 0 else do n <- pow5_factor fuel q; Ok (n + 1)
  end.
(** Lines 204-207. A 64-bit number has fewer than 64 factors. *)
Definition multiple_of_pow5 (value p : Z) : outcome bool := do n <- pow5_factor 64 value; Ok (p <=? n).
(** Lines 210-214. [p] is below 64 where it is called. *)
Definition multiple_of_pow2 (value p : Z) : bool := Z.land value (2 ^ p - 1) =? 0.

(** ryu/d2s.c lines 98-103: mulShift. Shifting by a negative amount or by 128 or more has no meaning. *)
Definition mul_shift (m : Z) (mul : Z * Z) (j : Z) : outcome Z :=
  let b0 := m * fst mul in
  let b2 := m * snd mul in
  if (0 <=? j - 64) && (j - 64 <? 128) then Ok (w64 ((b0 / 2 ^ 64 + b2) mod 2 ^ 128 / 2 ^ (j - 64))) else UB.
(** Lines 105-123: mulShiftAll. The results: vr, vp and vm. *)
Definition mul_shift_all (m : Z) (mul : Z * Z) (j mmShift : Z) : outcome (Z * Z * Z) :=
  do vp <- mul_shift (w64 (4 * m + 2)) mul j;
  do vm <- mul_shift (w64 (4 * m - 1 - mmShift)) mul j;
  do vr <- mul_shift (w64 (4 * m)) mul j;
  Ok (vr, vp, vm).

(** ryu/d2s.c lines 187-242 *)
Definition decimalLength17 (v : Z) : Z :=
  if 10000000000000000 <=? v then 17
  else if 1000000000000000 <=? v then 16
  else if 100000000000000 <=? v then 15
  else if 10000000000000 <=? v then 14
  else if 1000000000000 <=? v then 13
  else if 100000000000 <=? v then 12
  else if 10000000000 <=? v then 11
  else if 1000000000 <=? v then 10
  else if 100000000 <=? v then 9
  else if 10000000 <=? v then 8
  else if 1000000 <=? v then 7
  else if 100000 <=? v then 6
  else if 10000 <=? v then 5
  else if 1000 <=? v then 4
  else if 100 <=? v then 3
  else if 10 <=? v then 2
  else 1.

(** ** The shortest decimal *)

(** ryu/d2s.c lines 245-250: floating_decimal_64, for [mantissa * 10^exponent] *)
Record decimal := Decimal { d_mantissa : Z; d_exponent : Z }.

(** ryu/d2s.c lines 256-279: the number is [m2 * 2^(e2 + 2)]; half-way to its neighbours are [(4 m2 - 1 - mmShift) * 2^e2] and
    [(4 m2 + 2) * 2^e2] *)
Definition binary_parts (ieeeMantissa ieeeExponent : Z) : Z * Z :=
  if ieeeExponent =? 0 then (ieeeMantissa, 1 - 1023 - 52 - 2) else (Z.lor (2 ^ 52) ieeeMantissa, ieeeExponent - 1023 - 52 - 2).
Definition mm_shift (ieeeMantissa ieeeExponent : Z) : Z :=
  if negb (ieeeMantissa =? 0) || (ieeeExponent <=? 1) then 1 else 0.

(** Lines 280-366: step 3. The results: vr, vp, vm, e10, vmIsTrailingZeros and vrIsTrailingZeros. *)
Definition scaled (m2 e2 mmShift : Z) : outcome (Z * Z * Z * Z * bool * bool) :=
  let acceptBounds := Z.land m2 1 =? 0 in
  let mv := w64 (4 * m2) in
  if 0 <=? e2 then
    let q := log10Pow2 e2 - (if 3 <? e2 then 1 else 0) in
    let k := 125 + pow5bits q - 1 in
    let i := - e2 + q + k in
    match nth_error DOUBLE_POW5_INV_SPLIT (Z.to_nat q) with
    | None => UB
    | Some mul =>
        do (vr, vp, vm) <- mul_shift_all m2 mul i mmShift;
        if q <=? 21 then
          let mvMod5 := low_rest mv 5 (mv / 5) in
          if mvMod5 =? 0 then
            do b <- multiple_of_pow5 mv q;
            Ok (vr, vp, vm, q, false, b)
          else if acceptBounds then
            do b <- multiple_of_pow5 (w64 (mv - 1 - mmShift)) q;
            Ok (vr, vp, vm, q, b, false)
          else
            do b <- multiple_of_pow5 (w64 (mv + 2)) q;
            Ok (vr, w64 (vp - (if b then 1 else 0)), vm, q, false, false)
        else Ok (vr, vp, vm, q, false, false)
    end
  else
    let q := log10Pow5 (- e2) - (if 1 <? - e2 then 1 else 0) in
    let e10 := q + e2 in
    let i := - e2 - q in
    let k := pow5bits i - 125 in
    let j := q - k in
    match nth_error DOUBLE_POW5_SPLIT (Z.to_nat i) with
    | None => UB
    | Some mul =>
        do (vr, vp, vm) <- mul_shift_all m2 mul j mmShift;
        if q <=? 1 then
          if acceptBounds then Ok (vr, vp, vm, e10, mmShift =? 1, true)
          else Ok (vr, w64 (vp - 1), vm, e10, false, true)
        else if q <? 63 then Ok (vr, vp, vm, e10, false, multiple_of_pow2 mv q)
        else Ok (vr, vp, vm, e10, false, false)
    end.

(** The variables of step 4 *)
Record digits_state := Digits {
  s_vr : Z; s_vp : Z; s_vm : Z; s_vmz : bool; s_vrz : bool; s_last : Z; s_removed : Z }.

(** Lines 382-390 and 402-411: one digit less. The result of [last] is a uint8_t: at most 9. *)
Definition remove_digit (s : digits_state) (vmz : bool) : digits_state :=
  {| s_vr := s_vr s / 10; s_vp := s_vp s / 10; s_vm := s_vm s / 10;
     s_vmz := vmz; s_vrz := s_vrz s && (s_last s =? 0);
     s_last := low_rest (s_vr s) 10 (s_vr s / 10) mod 2 ^ 8; s_removed := s_removed s + 1 |}.
(** Lines 375-391 *)
Fixpoint general_loop (fuel : nat) (s : digits_state) : outcome digits_state :=
  match fuel with
  | O => NoFuel
  | S fuel =>
      if s_vp s / 10 <=? s_vm s / 10 then Ok s
      else general_loop fuel (remove_digit s (s_vmz s && (low_rest (s_vm s) 10 (s_vm s / 10) =? 0)))
  end.
(** Lines 397-412. A [vm] of zero, for which the loop does not end, runs out of fuel. *)
Fixpoint zeros_loop (fuel : nat) (s : digits_state) : outcome digits_state :=
  match fuel with
  | O => NoFuel
  | S fuel =>
      if negb (low_rest (s_vm s) 10 (s_vm s / 10) =? 0) then Ok s
      else zeros_loop fuel (remove_digit s (s_vmz s))
  end.
(** Lines 443-456. The results: vr, vm, roundUp and removed. *)
Fixpoint common_loop (fuel : nat) (vr vp vm : Z) (roundUp : bool) (removed : Z) : outcome (Z * Z * bool * Z) :=
  match fuel with
  | O => NoFuel
  | S fuel =>
      if vp / 10 <=? vm / 10 then Ok (vr, vm, roundUp, removed)
      else common_loop fuel (vr / 10) (vp / 10) (vm / 10) (5 <=? low_rest vr 10 (vr / 10)) (removed + 1)
  end.

(** Lines 367-463: step 4. The results: output and removed. Twenty-one rounds are more than a 64-bit number has digits. *)
Definition shortest (acceptBounds : bool) (vr vp vm : Z) (vmz vrz : bool) : outcome (Z * Z) :=
  if vmz || vrz then
    do s <- general_loop 21 (Digits vr vp vm vmz vrz 0 0);
    do s <- (if s_vmz s then zeros_loop 21 s else Ok s);
    let last := if s_vrz s && (s_last s =? 5) && (s_vr s mod 2 =? 0) then 4 else s_last s in
    let up := ((s_vr s =? s_vm s) && (negb acceptBounds || negb (s_vmz s))) || (5 <=? last) in
    Ok (w64 (s_vr s + (if up then 1 else 0)), s_removed s)
  else
    let two := vm / 100 <? vp / 100 in
    do (vr, vm, roundUp, removed) <-
      (if two then common_loop 21 (vr / 100) (vp / 100) (vm / 100) (50 <=? low_rest vr 100 (vr / 100)) 2
       else common_loop 21 vr vp vm false 0);
    Ok (w64 (vr + (if (vr =? vm) || roundUp then 1 else 0)), removed).

(** ryu/d2s.c lines 252-476: d2d *)
Definition d2d (ieeeMantissa ieeeExponent : Z) : outcome decimal :=
  let (m2, e2) := binary_parts ieeeMantissa ieeeExponent in
  do (vr, vp, vm, e10, vmz, vrz) <- scaled m2 e2 (mm_shift ieeeMantissa ieeeExponent);
  do (output, removed) <- shortest (Z.land m2 1 =? 0) vr vp vm vmz vrz;
  Ok (Decimal output (e10 + removed)).

(** ryu/d2s.c lines 670-700: d2d_small_int; [None] for false *)
Definition d2d_small_int (ieeeMantissa ieeeExponent : Z) : option decimal :=
  let m2 := Z.lor (2 ^ 52) ieeeMantissa in
  let e2 := ieeeExponent - 1023 - 52 in
  if 0 <? e2 then None
  else if e2 <? -52 then None
  else
    let fraction := Z.land m2 (2 ^ (- e2) - 1) in
    if negb (fraction =? 0) then None else Some (Decimal (m2 / 2 ^ (- e2)) 0).

(** ryu/d2s.c lines 734-742 and 782-790: the zeros at the end of a small integer go to the exponent *)
Fixpoint move_zeros (fuel : nat) (v : decimal) : outcome decimal :=
  match fuel with
  | O => NoFuel
  | S fuel =>
      let q := d_mantissa v / 10 in
      if negb (low_rest (d_mantissa v) 10 q =? 0) then Ok v else move_zeros fuel (Decimal q (d_exponent v + 1))
  end.

(** ryu/d2s.c lines 726-745 and 774-793: the decimal of a number that is neither special nor zero *)
Definition to_decimal (ieeeMantissa ieeeExponent : Z) : outcome decimal :=
  match d2d_small_int ieeeMantissa ieeeExponent with
  | Some v => move_zeros 21 v
  | None => d2d ieeeMantissa ieeeExponent
  end.

(** ** Writing decimals *)

(** ryu/d2s.c lines 478-503: pow_10, a table of 18 entries *)
Definition POW_TABLE : list Z :=
  [1; 10; 100; 1000; 10000; 100000; 1000000; 10000000; 100000000; 1000000000; 10000000000; 100000000000; 1000000000000;
   10000000000000; 100000000000000; 1000000000000000; 10000000000000000; 100000000000000000].
Definition pow_10 (exp : Z) : outcome Z :=
  if 0 <=? exp then match nth_error POW_TABLE (Z.to_nat exp) with Some p => Ok p | None => UB end else UB.

(** ryu/d2s.c lines 533-545: the digits of a uint32_t, four at a time from the end ([e] is where they end). The results: the
    memory, the rest of the number and the number of digits written. *)
Fixpoint four_digits (fuel : nat) (m : cells) (e output2 i : Z) : outcome (cells * Z * Z) :=
  match fuel with
  | O => NoFuel
  | S fuel =>
      if 10000 <=? output2 then
        let c := output2 mod 10000 in
        let output2 := output2 / 10000 in
        let c0 := c mod 100 * 2 in
        let c1 := c / 100 * 2 in
        do m <- store_digits m (e - i - 2) c0;
        do m <- store_digits m (e - i - 4) c1;
        four_digits fuel m e output2 (i + 4)
      else Ok (m, output2, i)
  end.

(** ryu/d2s.c lines 505-567: to_chars_uint64, printing at [base]. The results: the memory and the number of digits. *)
Definition to_chars_uint64 (m : cells) (base output olength : Z) : outcome (cells * Z) :=
  let e := base + olength in
  do (m, output, i) <-
    (if negb (output / 2 ^ 32 =? 0) then
       let q := output / 100000000 in
       let output2 := low_rest output 100000000 q in
       let c := output2 mod 10000 in
       let output2 := output2 / 10000 in
       let d := output2 mod 10000 in
       let c0 := c mod 100 * 2 in
       let c1 := c / 100 * 2 in
       let d0 := d mod 100 * 2 in
       let d1 := d / 100 * 2 in
       do m <- store_digits m (e - 0 - 2) c0;
       do m <- store_digits m (e - 0 - 4) c1;
       do m <- store_digits m (e - 0 - 6) d0;
       do m <- store_digits m (e - 0 - 8) d1;
       Ok (m, q, 8)
     else Ok (m, output, 0));
  do (m, output2, i) <- four_digits 4 m e (w32 output) i;
  do (m, output2, i) <-
    (if 100 <=? output2 then
       let c := w32 (w32 (output2 - 100 * (output2 / 100)) * 2) in
       do m <- store_digits m (e - i - 2) c;
       Ok (m, output2 / 100, i + 2)
     else Ok (m, output2, i));
  if 10 <=? output2 then
    do m <- store_digits m (e - i - 2) (w32 (output2 * 2));
    Ok (m, i + 2)
  else
    do m <- store m base (Z.to_N (48 + output2));
    Ok (m, i + 1).

(** ryu/d2s.c lines 609-613: the zeros that rounding left at the end. Output, exponent and length. *)
Fixpoint trim_zeros (fuel : nat) (output exp olength : Z) : outcome (Z * Z * Z) :=
  match fuel with
  | O => NoFuel
  | S fuel =>
      if negb (output =? 0) && (output mod 10 =? 0) then trim_zeros fuel (output / 10) (exp + 1) (olength - 1)
      else Ok (output, exp, olength)
  end.

(** ryu/d2s.c lines 587-615: no more than [precision] digits after the point. [precision] is a uint32_t. *)
Definition trim (output exp olength precision : Z) : outcome (Z * Z * Z) :=
  if precision <? w32 (- exp) then
    let digits_to_trim := - exp - precision in
    if olength <? digits_to_trim then Ok (0, 0, olength)
    else
      do divisor <- pow_10 digits_to_trim;
      let divisor_half := divisor / 2 in
      let outputDiv := output / divisor in
      let remainder := output - outputDiv * divisor in
      let up := (divisor_half <? remainder) || ((remainder =? divisor_half) && negb (Z.land outputDiv 1 =? 0)) in
      let output := if up then outputDiv + 1 else outputDiv in
      let olength := if up then decimalLength17 output else w32 (olength - digits_to_trim) in
      trim_zeros 21 output (exp + digits_to_trim) olength
  else Ok (output, exp, olength).

(** The variables of to_chars_fixed before printing: integer_part, integer_part_length, trailing_integer_zeros, decimal_part,
    decimal_part_length and leading_decimal_zeros *)
Record parts := Parts {
  p_integer : Z; p_integer_length : Z; p_zeros_after : Z; p_fraction : Z; p_fraction_length : Z; p_zeros_before : Z }.

(** ryu/d2s.c lines 571-639 *)
Definition fixed_parts (v : decimal) (precision : Z) : outcome parts :=
  let output := d_mantissa v in
  let olength := decimalLength17 output in
  let exp := d_exponent v in
  if 0 <=? exp then Ok (Parts output olength exp 0 0 0)
  else
    do (output, exp, olength) <- trim output exp olength precision;
    let nexp := - exp in
    if 0 <=? exp then Ok (Parts output olength exp 0 0 0)
    else if nexp <? olength then
      do p <- pow_10 nexp;
      let integer_part := output / p in
      let decimal_part := output mod p in
      let integer_part_length := olength - nexp in
      let decimal_part_length := olength - integer_part_length in
      do p1 <- pow_10 (decimal_part_length - 1);
      if decimal_part <? p1 then
        let decimal_part_length := decimalLength17 decimal_part in
        Ok (Parts integer_part integer_part_length 0 decimal_part decimal_part_length
              (olength - integer_part_length - decimal_part_length))
      else Ok (Parts integer_part integer_part_length 0 decimal_part decimal_part_length 0)
    else Ok (Parts 0 0 0 output olength (nexp - olength)).

(** [for (i = 0; i < n; i++) result[index++] = '0'] *)
Definition store_zeros (m : cells) (index n : Z) : outcome cells := store_all m index (repeat 48%N (Z.to_nat n)).

(** ryu/d2s.c lines 569-668: to_chars_fixed. The results: the memory and the number of characters. *)
Definition to_chars_fixed (m : cells) (v : decimal) (sign : bool) (precision : Z) : outcome (cells * Z) :=
  do p <- fixed_parts v precision;
  let minus := sign && (negb (p_integer p =? 0) || negb (p_fraction p =? 0)) in
  do m <- (if minus then store m 0 45%N else Ok m);
  let index := if minus then 1 else 0 in
  do (m, n) <- to_chars_uint64 m index (p_integer p) (p_integer_length p);
  let index := index + n in
  do m <- store_zeros m index (p_zeros_after p);
  let index := index + p_zeros_after p in
  if negb (p_fraction p =? 0) then
    do m <- store m index 46%N;
    let index := index + 1 in
    do m <- store_zeros m index (p_zeros_before p);
    let index := index + p_zeros_before p in
    do (m, n) <- to_chars_uint64 m index (p_fraction p) (p_fraction_length p);
    Ok (m, index + n)
  else Ok (m, index).

(** ryu/common.h lines 96-112 *)
Definition copy_special_str (m : cells) (sign exponent mantissa : bool) : outcome (cells * Z) :=
  if mantissa then do m <- store_all m 0 $"nan"; Ok (m, 3)
  else if exponent then
    do m <- (if sign then store m 0 45%N else Ok m);
    let s := if sign then 1 else 0 in
    do m <- store_all m s $"Infinity";
    Ok (m, s + 8)
  else do m <- store_all m 0 $"0"; Ok (m, 1).

(** ryu/d2s.c lines 713-724 and 761-772: sign, mantissa and exponent of a 64-bit pattern *)
Definition ieee_sign (bits : Z) : bool := negb (Z.land (bits / 2 ^ 63) 1 =? 0).
Definition ieee_mantissa (bits : Z) : Z := Z.land bits (2 ^ 52 - 1).
Definition ieee_exponent (bits : Z) : Z := w32 (Z.land (bits / 2 ^ 52) (2 ^ 11 - 1)).
Definition special (bits : Z) : bool :=
  (ieee_exponent bits =? 2047) || ((ieee_exponent bits =? 0) && (ieee_mantissa bits =? 0)).
Definition copy_special (m : cells) (bits : Z) : outcome (cells * Z) :=
  copy_special_str m (ieee_sign bits) (negb (ieee_exponent bits =? 0)) (negb (ieee_mantissa bits =? 0)).

(** ryu/d2s.c lines 702-748 *)
Definition d2sfixed_buffered_n (m : cells) (bits precision : Z) : outcome (cells * Z) :=
  if special bits then copy_special m bits
  else
    do v <- to_decimal (ieee_mantissa bits) (ieee_exponent bits);
    to_chars_fixed m v (ieee_sign bits) precision.

(** ryu/d2s.c lines 802-822: the exponent, printed at [index] *)
Definition print_exponent (m : cells) (index exp : Z) : outcome (cells * Z) :=
  do m <- store m index 101%N;
  let index := index + 1 in
  do m <- store m index (if exp <? 0 then 45%N else 43%N);
  let index := index + 1 in
  let exp := if exp <? 0 then - exp else exp in
  if 100 <=? exp then
    do m <- store_digits m index (2 * (exp / 10));
    do m <- store m (index + 2) (Z.to_N (48 + exp mod 10));
    Ok (m, index + 3)
  else if 10 <=? exp then
    do m <- store_digits m index (2 * exp);
    Ok (m, index + 2)
  else
    do m <- store m index (Z.to_N (48 + exp));
    Ok (m, index + 1).

(** ryu/d2s.c lines 750-825 *)
Definition d2sexp_buffered_n (m : cells) (bits precision : Z) : outcome (cells * Z) :=
  if special bits then copy_special m bits
  else
    do v <- to_decimal (ieee_mantissa bits) (ieee_exponent bits);
    let olength := decimalLength17 (d_mantissa v) in
    let original := d_exponent v + olength - 1 in
    do (m, index) <- to_chars_fixed m (Decimal (d_mantissa v) (1 - olength)) (ieee_sign bits) precision;
    print_exponent m index original.

(** The 64-bit patterns of the literals 1.0e17 and -1.0e17 *)
Definition BITS_1e17 : N := 0x4376345785D8A000%N.
Definition BITS_m1e17 : N := 0xC376345785D8A000%N.

(** double_print.c lines 10-20: GeoArrowPrintDouble with GEOARROW_USE_RYU, printing a double given by its 64-bit pattern to
    memory of [room] characters. The result: the characters that the returned length counts. *)
Definition print_double_ryu (room : nat) (f : N) (precision : Z) : outcome bytes :=
  let m := repeat None room in
  do (m, n) <-
    (if dgt f BITS_1e17 || dlt f BITS_m1e17 then d2sexp_buffered_n m (Z.of_N f) 17
     else d2sfixed_buffered_n m (Z.of_N f) precision);
  text_of m n.

(** What the WKT writer appends of a number (wkt_writer.c lines 38-48): it has made sure of 40 characters. *)
Definition ryu_print (f : N) (precision : Z) : bytes := match print_double_ryu 40 f precision with Ok t => t | _ => [] end.

(** ** Without ryu *)

(** double_print.c lines 36-45: zeros at the end, and one point before them, are dropped. The text is given last character first. *)
Fixpoint strip (r : bytes) : bytes :=
  match r with
  | [] => []
  | c :: r' => if (c =? 48)%N then strip r' else if (c =? 46)%N then r' else r
  end.

(** double_print.c lines 24-48: GeoArrowPrintDouble without GEOARROW_USE_RYU. [expo f] and [fixed f precision] are what the C
    library's snprintf prints for "%0.16e" and "%0.*f"; of this it writes at most 39 characters, and a terminating zero.
    Counting more than those (line 27) has no meaning. *)
Definition print_double_std (expo : N -> bytes) (fixed : N -> Z -> bytes) (f : N) (precision : Z) : outcome bytes :=
  if dgt f BITS_1e17 || dlt f BITS_m1e17 then
    if (length (expo f) <=? 39)%nat then Ok (expo f) else UB
  else Ok (rev (strip (rev (firstn 39 (fixed f precision))))).
