(** * Reading doubles *)
(** GeoArrowFromChars as it is built by default (src/geoarrow/double_parse_fast_float.cc) and the parser that it calls
    (src/geoarrow/fast_float.h, whose lines are cited below). Modelled: texts of char, the default options (general format, '.'
    as decimal point, none of the FASTFLOAT_ macros that change what is accepted), little-endian 64-bit platforms with a 128-bit
    integer type. Pointers into the text are modelled as what is left of the text from there, words as nonnegative [Z]; wrapping is
    explicit wherever the arithmetic could leave the type. *)
From Verif Require Import Base Text FastFloatTables.
Local Open Scope Z_scope.

Definition w64 (x : Z) : Z := x mod 2 ^ 64.

(** ** The arithmetic of doubles *)

(** A double that is not negative, by the number that its bits denote: its magnitude in units of 2^-1074 (IEEE 754). *)
Definition units (n : Z) : Z :=
  let exponent := n / 2 ^ 52 in
  if exponent =? 0 then n mod 2 ^ 52 else (2 ^ 52 + n mod 2 ^ 52) * 2 ^ (exponent - 1).
(** The integer nearest to [num / den]; of two nearest ones, the even one. *)
Definition round_quotient (num den : Z) : Z :=
  let q := num / den in
  match 2 * (num mod den) ?= den with Lt => q | Gt => q + 1 | Eq => if Z.even q then q else q + 1 end.
(** IEEE 754: when rounding to nearest, an operation with the exact result [num / den] gives the double (infinity: 2047 * 2^52)
    whose significand is the exact one rounded to the unit in the last place. *)
Definition ieee_round (num den : Z) : Z :=
  let x := num * 2 ^ 1074 in
  let k := Z.max 0 (Z.log2 (x / den) - 52) in
  Z.min (k * 2 ^ 52 + round_quotient x (den * 2 ^ k)) (2047 * 2 ^ 52).
(** The double for an integer, and products and quotients of doubles. *)
Definition ieee_of_integer (i : Z) : Z := ieee_round i 1.
Definition ieee_mul (a b : Z) : Z := ieee_round (units a * units b) (2 ^ 1074 * 2 ^ 1074).
Definition ieee_div (a b : Z) : Z := ieee_round (units a) (units b).

(** ** Eight digits at a time *)

(** Lines 1510-1512: is_integer *)
Definition is_integer (c : N) : bool := ((48 <=? c) && (c <=? 57))%N.
Definition digit (c : N) : Z := Z.of_N c - 48.

(** Lines 1521-1539: read8_to_u64 *)
Fixpoint little_endian (cs : bytes) : Z := match cs with [] => 0 | c :: cs => Z.of_N c + 256 * little_endian cs end.
(** Lines 1590-1599: parse_eight_digits_unrolled *)
Definition parse_eight_digits_unrolled (val : Z) : Z :=
  let mask := 0x000000FF000000FF in
  let mul1 := 0x000F424000000064 in
  let mul2 := 0x0000271000000001 in
  let val := w64 (val - 0x3030303030303030) in
  let val := w64 (w64 (val * 10) + Z.shiftr val 8) in
  let val := Z.shiftr (w64 (w64 (Z.land val mask * mul1) + w64 (Z.land (Z.shiftr val 16) mask * mul2))) 32 in
  val mod 2 ^ 32.
(** Lines 1612-1616: is_made_of_eight_digits_fast *)
Definition is_made_of_eight_digits_fast (val : Z) : bool :=
  Z.land (Z.lor (w64 (val + 0x4646464646464646)) (w64 (val - 0x3030303030303030))) 0x8080808080808080 =? 0.

(** Lines 1690-1698: loop_parse_if_eight_digits *)
Fixpoint loop_parse_if_eight_digits (p : bytes) (i : Z) : bytes * Z :=
  match p with
  | c0 :: c1 :: c2 :: c3 :: c4 :: c5 :: c6 :: c7 :: r =>
      let val := little_endian [c0; c1; c2; c3; c4; c5; c6; c7] in
      if is_made_of_eight_digits_fast val then loop_parse_if_eight_digits r (w64 (w64 (i * 100000000) + parse_eight_digits_unrolled val))
      else (p, i)
  | _ => (p, i)
  end.

(** ** The parts of a numeral *)

(** Lines 1720-1732: parsed_number_string_t. [pn_rest]: what follows lastmatch. [pn_fraction]: [None] when its pointer is NULL. *)
Record parsed := Parsed {
  pn_exponent : Z; pn_mantissa : Z; pn_rest : bytes; pn_negative : bool; pn_too_many : bool; pn_integer : bytes; pn_fraction : option bytes
}.

(** Lines 1788-1794 and 1821-1825: digits, and [i] after them *)
Fixpoint scan_digits (p : bytes) (i : Z) : bytes * Z :=
  match p with
  | c :: r => if is_integer c then scan_digits r (w64 (w64 (10 * i) + digit c)) else (p, i)
  | [] => (p, i)
  end.
(** From [p] up to [q], which is what is left of the text [p] *)
Definition between (p q : bytes) : bytes := firstn (length p - length q) p.

(** Lines 1867-1873: the digits of an exponent *)
Fixpoint scan_exponent (p : bytes) (exp_number : Z) : bytes * Z :=
  match p with
  | c :: r => if is_integer c then scan_exponent r (if exp_number <? 0x10000000 then 10 * exp_number + digit c else exp_number) else (p, exp_number)
  | [] => (p, exp_number)
  end.
(** Lines 1840-1885, for the general format: what follows the exponent, if there is one, and the exponent *)
Definition parse_exponent (p : bytes) : bytes * Z :=
  match p with
  | c :: r =>
      if ((c =? 101) || (c =? 69))%N then
        let (neg_exp, r) := match r with
                            | c :: r' => if (c =? 45)%N then (true, r') else if (c =? 43)%N then (false, r') else (false, r)
                            | [] => (false, r)
                            end in
        match r with
        | c :: _ => if is_integer c then let (r, e) := scan_exponent r 0 in (r, if (neg_exp : bool) then - e else e) else (p, 0)
        | [] => (p, 0)
        end
      else (p, 0)
  | [] => (p, 0)
  end.

(** Lines 1900-1908: the digits that count, without the zeros in front *)
Fixpoint drop_zeros (start : bytes) (digit_count : Z) : Z :=
  match start with
  | c :: r => if (c =? 48)%N then drop_zeros r (digit_count - 1) else if (c =? 46)%N then drop_zeros r digit_count else digit_count
  | [] => digit_count
  end.
(** Lines 1920-1923 and 1929-1932: up to nineteen digits *)
Fixpoint nineteen (p : bytes) (i : Z) : bytes * Z :=
  match p with
  | c :: r => if i <? 1000000000000000000 then nineteen r (w64 (w64 (i * 10) + digit c)) else (p, i)
  | [] => (p, i)
  end.

(** Lines 1747-1942: parse_number_string; [None] when the answer is not valid. The text is not empty. *)
Definition parse_number_string (t : bytes) : option parsed :=
  let negative := match t with c :: _ => (c =? 45)%N | [] => false end in
  let start_digits := if negative then tl t else t in
  if negative && negb (match start_digits with c :: _ => is_integer c || (c =? 46)%N | [] => false end) then None
  else
    let (p, i) := scan_digits start_digits 0 in
    let end_of_integer_part := p in
    let integer := between start_digits p in
    let digit_count := Z.of_nat (length integer) in
    let '(p, i, exponent, fraction) :=
      match p with
      | c :: before =>
          if (c =? 46)%N then
            let (p, i) := loop_parse_if_eight_digits before i in
            let (p, i) := scan_digits p i in
            (p, i, Z.of_nat (length p) - Z.of_nat (length before), Some (between before p))
          else (p, i, 0, None)
      | [] => (p, i, 0, None)
      end in
    let digit_count := digit_count - exponent in
    if digit_count =? 0 then None
    else
      let (p, exp_number) := parse_exponent p in
      let rest := p in
      let exponent := exponent + exp_number in
      let digit_count := if 19 <? digit_count then drop_zeros start_digits digit_count else digit_count in
      if 19 <? digit_count then
        let (p, i) := nineteen integer 0 in
        if 1000000000000000000 <=? i then
          Some (Parsed (Z.of_nat (length p) + exp_number) i rest negative true integer fraction)
        else
          match fraction with
          | Some f => let (p, i) := nineteen f i in
                      Some (Parsed (Z.of_nat (length p) - Z.of_nat (length f) + exp_number) i rest negative true integer fraction)
          | None => Some (Parsed exp_number i rest negative true integer fraction)
          end
      else Some (Parsed exponent i rest negative false integer fraction).

(** ** From decimal to binary *)

(** Lines 2790-2814: compute_product_approximation<55>: the high and the low word. 0x1FF is precision_mask. *)
Definition compute_product_approximation (q w : Z) : outcome (Z * Z) :=
  if q <? -342 then UB
  else
    match nth_error POWER_OF_FIVE_128 (Z.to_nat (q + 342)) with
    | None => UB
    | Some (p0, p1) =>
        let high := w * p0 / 2 ^ 64 in
        let low := w64 (w * p0) in
        if Z.land high 0x1FF =? 0x1FF then
          let second := w * p1 / 2 ^ 64 in
          let low := w64 (low + second) in
          Ok (if low <? second then w64 (high + 1) else high, low)
        else Ok (high, low)
    end.

(** Lines 2832-2834: detail::power; [/] rounds down as the shift does *)
Definition power (q : Z) : Z := (152170 + 65536) * q / 2 ^ 16 + 63.

(** Lines 485-504: leading_zeroes *)
Definition leading_zeroes (w : Z) : Z := 63 - Z.log2 w.

(** Lines 562-575: adjusted_mantissa *)
Record adjusted := Adjusted { am_mantissa : Z; am_power2 : Z }.
Definition same (a b : adjusted) : bool := (am_mantissa a =? am_mantissa b) && (am_power2 a =? am_power2 b).

(** Lines 2869-2976: compute_float *)
Definition compute_float (q w : Z) : outcome adjusted :=
  if (w =? 0) || (q <? -342) then Ok (Adjusted 0 0)
  else if 308 <? q then Ok (Adjusted 0 0x7FF)
  else
    let lz := leading_zeroes w in
    let w := w64 (Z.shiftl w lz) in
    do (high, low) <- compute_product_approximation q w;
    let upperbit := Z.shiftr high 63 in
    let shift := upperbit + 64 - 52 - 3 in
    let mantissa := Z.shiftr high shift in
    let power2 := power q + upperbit - lz + 1023 in
    if power2 <=? 0 then
      if 64 <=? - power2 + 1 then Ok (Adjusted 0 0)
      else
        let mantissa := Z.shiftr mantissa (- power2 + 1) in
        let mantissa := Z.shiftr (w64 (mantissa + Z.land mantissa 1)) 1 in
        Ok (Adjusted mantissa (if mantissa <? 2 ^ 52 then 0 else 1))
    else
      let mantissa :=
        if (low <=? 1) && (-4 <=? q) && (q <=? 23) && (Z.land mantissa 3 =? 1) && (w64 (Z.shiftl mantissa shift) =? high)
        then Z.ldiff mantissa 1 else mantissa in
      let mantissa := Z.shiftr (w64 (mantissa + Z.land mantissa 1)) 1 in
      let (mantissa, power2) := if 2 ^ 53 <=? mantissa then (2 ^ 52, power2 + 1) else (mantissa, power2) in
      let mantissa := Z.ldiff mantissa (2 ^ 52) in
      if 0x7FF <=? power2 then Ok (Adjusted 0 0x7FF) else Ok (Adjusted mantissa power2).

(** Lines 577-578: invalid_am_bias *)
Definition invalid_am_bias : Z := -0x8000.
(** Lines 2837-2862: compute_error and compute_error_scaled *)
Definition compute_error (q w : Z) : outcome adjusted :=
  let lz := leading_zeroes w in
  do (high, _) <- compute_product_approximation q (w64 (Z.shiftl w lz));
  let hilz := Z.lxor (Z.shiftr high 63) 1 in
  Ok (Adjusted (w64 (Z.shiftl high hilz)) (power q + 1075 - hilz - lz - 62 + invalid_am_bias)).

(** ** Big integers *)

(** Lines 3000-3628: bigint, 62 limbs of 64 bits. Simplification: the arithmetic on limbs is taken to be exact; what no longer fits
    (the code goes on with a wrong number, since FASTFLOAT_ASSERT checks nothing) has no meaning. *)
Definition big (v : Z) : outcome Z := if v <? 2 ^ (64 * 62) then Ok v else UB.
(** Lines 3852-3856: add_native *)
Definition add_native (v power value : Z) : outcome Z := do v <- big (v * power); big (v + value).

(** Lines 3664-3682: scientific_exponent *)
Fixpoint divide_by (fuel : nat) (k e mantissa exponent : Z) : outcome (Z * Z) :=
  match fuel with
  | O => NoFuel
  | S fuel => if k <=? mantissa then divide_by fuel k e (mantissa / k) (exponent + e) else Ok (mantissa, exponent)
  end.
Definition scientific_exponent (n : parsed) : outcome Z :=
  do (m, e) <- divide_by 8 10000 4 (pn_mantissa n) (pn_exponent n);
  do (m, e) <- divide_by 8 100 2 m e;
  do (m, e) <- divide_by 8 10 1 m e;
  Ok e.

(** Lines 3789-3803 and 3807-3825: skip_zeros and is_truncated. Simplification: one zero at a time. *)
Fixpoint skip_zeros (p : bytes) : bytes := match p with c :: r => if (c =? 48)%N then skip_zeros r else p | [] => [] end.
Definition is_truncated (p : bytes) : bool := existsb (fun c => negb (c =? 48)%N) p.

(** Lines 3895-3901 and 3931-3937: the digits of one step *)
Fixpoint step_eight (max_digits : Z) (p : bytes) (value counter digits : Z) : bytes * Z * Z * Z :=
  match p with
  | c0 :: c1 :: c2 :: c3 :: c4 :: c5 :: c6 :: c7 :: r =>
      if (8 <=? 19 - counter) && (8 <=? max_digits - digits) then
        step_eight max_digits r (w64 (w64 (value * 100000000) + parse_eight_digits_unrolled (little_endian [c0; c1; c2; c3; c4; c5; c6; c7])))
          (counter + 8) (digits + 8)
      else (p, value, counter, digits)
  | _ => (p, value, counter, digits)
  end.
Fixpoint step_one (max_digits : Z) (p : bytes) (value counter digits : Z) : bytes * Z * Z * Z :=
  match p with
  | c :: r =>
      if (counter <? 19) && (digits <? max_digits) then step_one max_digits r (w64 (w64 (value * 10) + digit c)) (counter + 1) (digits + 1)
      else (p, value, counter, digits)
  | [] => (p, value, counter, digits)
  end.
(** Lines 3894-3919 and 3930-3949: a span of digits; [true] when the maximum of digits is reached. [more]: whether the digits after the
    span are other than zeros. *)
Fixpoint parse_span (fuel : nat) (max_digits : Z) (more : bool) (result : Z) (p : bytes) (digits : Z) : outcome (Z * Z * bool) :=
  match fuel with
  | O => NoFuel
  | S fuel =>
      match p with
      | [] => Ok (result, digits, false)
      | _ =>
          let '(p, value, counter, digits) := step_eight max_digits p 0 0 digits in
          let '(p, value, counter, digits) := step_one max_digits p value counter digits in
          do result <- add_native result (10 ^ counter) value;
          if digits =? max_digits then
            if is_truncated p || more then do result <- add_native result 10 1; Ok (result, digits + 1, true)
            else Ok (result, digits, true)
          else parse_span fuel max_digits more result p digits
      end
  end.
(** Lines 3868-3956: parse_mantissa. The counter is 0 at the end. *)
Definition parse_mantissa (n : parsed) (max_digits : Z) : outcome (Z * Z) :=
  let p := skip_zeros (pn_integer n) in
  do (result, digits, full) <- parse_span (S (length p)) max_digits (match pn_fraction n with Some f => is_truncated f | None => false end) 0 p 0;
  if (full : bool) then Ok (result, digits)
  else
    match pn_fraction n with
    | None => Ok (result, digits)
    | Some f =>
        let f := if digits =? 0 then skip_zeros f else f in
        do (result, digits, _) <- parse_span (S (length f)) max_digits false result f digits;
        Ok (result, digits)
    end.

(** ** Comparing digits *)

(** Lines 3729-3757: round; [cb] shifts and rounds *)
Definition round (am : adjusted) (cb : adjusted -> Z -> adjusted) : adjusted :=
  if 11 <=? - am_power2 am then
    let am := cb am (Z.min (- am_power2 am + 1) 64) in
    Adjusted (am_mantissa am) (if am_mantissa am <? 2 ^ 52 then 0 else 1)
  else
    let am := cb am 11 in
    let am := if 2 ^ 53 <=? am_mantissa am then Adjusted (2 ^ 52) (am_power2 am + 1) else am in
    let am := Adjusted (Z.ldiff (am_mantissa am) (2 ^ 52)) (am_power2 am) in
    if 0x7FF <=? am_power2 am then Adjusted 0 0x7FF else am.
(** Lines 3759-3780: round_nearest_tie_even; [cb]: is_odd, is_halfway, is_above *)
Definition round_nearest_tie_even (am : adjusted) (shift : Z) (cb : bool -> bool -> bool -> bool) : adjusted :=
  let mask := if shift =? 64 then 2 ^ 64 - 1 else 2 ^ shift - 1 in
  let halfway := if shift =? 0 then 0 else 2 ^ (shift - 1) in
  let truncated_bits := Z.land (am_mantissa am) mask in
  let mantissa := if shift =? 64 then 0 else Z.shiftr (am_mantissa am) shift in
  Adjusted (w64 (mantissa + (if cb (Z.land mantissa 1 =? 1) (truncated_bits =? halfway) (halfway <? truncated_bits) then 1 else 0)))
    (am_power2 am + shift).
(** Lines 3782-3790: round_down *)
Definition round_down (am : adjusted) (shift : Z) : adjusted :=
  Adjusted (if shift =? 64 then 0 else Z.shiftr (am_mantissa am) shift) (am_power2 am + shift).

(** Lines 1127-1141: to_float *)
Definition to_float (negative : bool) (am : adjusted) : Z :=
  Z.lor (Z.lor (am_mantissa am) (Z.shiftl (am_power2 am) 52)) (Z.shiftl (if negative then 1 else 0) 63).
(** Lines 3685-3725: to_extended and to_extended_halfway *)
Definition to_extended_halfway (n : Z) : adjusted :=
  let am := if Z.land n 0x7FF0000000000000 =? 0 then Adjusted (Z.land n 0x000FFFFFFFFFFFFF) (1 - 1075)
            else Adjusted (Z.lor (Z.land n 0x000FFFFFFFFFFFFF) 0x0010000000000000) (Z.shiftr (Z.land n 0x7FF0000000000000) 52 - 1075) in
  Adjusted (w64 (Z.shiftl (am_mantissa am) 1 + 1)) (am_power2 am - 1).

(** Lines 3420-3456 and 3560-3583: hi64 and bit_length *)
Definition bit_length (v : Z) : Z := if v =? 0 then 0 else Z.log2 v + 1.
Definition hi64 (v : Z) : Z * bool :=
  let l := bit_length v in
  if l <=? 64 then (Z.shiftl v (64 - l), false) else (Z.shiftr v (l - 64), negb (v mod 2 ^ (l - 64) =? 0)).

(** Lines 3963-3984: positive_digit_comp *)
Definition positive_digit_comp (bigmant exponent : Z) : outcome adjusted :=
  do v <- big (bigmant * 10 ^ exponent);
  let (mantissa, truncated) := hi64 v in
  Ok (round (Adjusted mantissa (bit_length v - 64 + 1075))
        (fun a shift => round_nearest_tie_even a shift (fun is_odd is_halfway is_above =>
           is_above || (is_halfway && truncated) || (is_odd && is_halfway)))).
(** Lines 3989-4036: negative_digit_comp *)
Definition negative_digit_comp (bigmant : Z) (am : adjusted) (exponent : Z) : outcome adjusted :=
  let b := to_float false (round am round_down) in
  let theor := to_extended_halfway b in
  let pow2_exp := am_power2 theor - exponent in
  do theor_digits <- big (am_mantissa theor * 5 ^ (- exponent));
  do theor_digits <- (if 0 <? pow2_exp then big (theor_digits * 2 ^ pow2_exp) else Ok theor_digits);
  do real_digits <- (if pow2_exp <? 0 then big (bigmant * 2 ^ (- pow2_exp)) else Ok bigmant);
  let ord := real_digits ?= theor_digits in
  Ok (round am (fun a shift => round_nearest_tie_even a shift (fun is_odd _ _ =>
        match ord with Gt => true | Lt => false | Eq => is_odd end))).
(** Lines 4051-4069: digit_comp *)
Definition digit_comp (n : parsed) (am : adjusted) : outcome adjusted :=
  let am := Adjusted (am_mantissa am) (am_power2 am - invalid_am_bias) in
  do sci_exp <- scientific_exponent n;
  do (bigmant, digits) <- parse_mantissa n 769;
  let exponent := sci_exp + 1 - digits in
  if 0 <=? exponent then positive_digit_comp bigmant exponent else negative_digit_comp bigmant am exponent.

(** ** Numbers *)

(** Lines 411-422: fastfloat_strncasecmp *)
Fixpoint same_letters (t expected : bytes) : bool :=
  match expected, t with
  | [], _ => true
  | e :: expected, c :: t => (N.lor c 32 =? e)%N && same_letters t expected
  | _, [] => false
  end.
(** Lines 4108-4119: what follows nan *)
Fixpoint nan_sequence (p : bytes) : option bytes :=
  match p with
  | [] => None
  | c :: r =>
      if (c =? 41)%N then Some r
      else if ((97 <=? c) && (c <=? 122) || (65 <=? c) && (c <=? 90) || (48 <=? c) && (c <=? 57) || (c =? 95))%N then nan_sequence r
      else None
  end.
(** Lines 4099-4143: parse_infnan: the bits and what follows *)
Definition parse_infnan (t : bytes) : outcome (N * bytes) :=
  let minusSign := match t with c :: _ => (c =? 45)%N | [] => false end in
  let sign := (if minusSign then 0x8000000000000000 else 0)%N in
  let first := if minusSign then tl t else t in
  if same_letters first $"nan" then
    let first := skipn 3 first in
    Ok ((sign + 0x7FF8000000000000)%N,
        match first with
        | c :: r => if (c =? 40)%N then match nan_sequence r with Some r => r | None => first end else first
        | [] => first
        end)
  else if same_letters first $"inf" then
    Ok ((sign + 0x7FF0000000000000)%N, if same_letters (skipn 3 first) $"inity" then skipn 8 first else skipn 3 first)
  else Err EINVAL.

Section Mode.
(** detail::rounds_to_nearest(), and products of doubles in the mode that is not to nearest *)
Variable to_nearest : bool.
Variable directed_mul : Z -> Z -> Z.

(** Lines 614-616: powers_of_ten; literals are rounded to nearest *)
Definition exact_power_of_ten (k : Z) : Z := ieee_of_integer (10 ^ k).
(** Lines 620-645: max_mantissa *)
Definition max_mantissa (k : Z) : Z := 0x20000000000000 / 5 ^ k.

(** Lines 4273-4356: from_chars_advanced of the parts *)
Definition from_parts (n : parsed) : outcome (N * bytes) :=
  let signed := fun v => Z.to_N (v + if pn_negative n then 2 ^ 63 else 0) in
  let slow :=
    do am <- compute_float (pn_exponent n) (pn_mantissa n);
    do am <- (if pn_too_many n && (0 <=? am_power2 am) then
                do am' <- compute_float (pn_exponent n) (w64 (pn_mantissa n + 1));
                if same am am' then Ok am else compute_error (pn_exponent n) (pn_mantissa n)
              else Ok am);
    do am <- (if am_power2 am <? 0 then digit_comp n am else Ok am);
    if (negb (pn_mantissa n =? 0) && (am_mantissa am =? 0) && (am_power2 am =? 0)) || (am_power2 am =? 0x7FF) then Err EINVAL
    else Ok (Z.to_N (to_float (pn_negative n) am), pn_rest n) in
  if (-22 <=? pn_exponent n) && (pn_exponent n <=? 22) && negb (pn_too_many n) then
    if to_nearest then
      if pn_mantissa n <=? 2 ^ 53 then
        let value := ieee_of_integer (pn_mantissa n) in
        let value := if pn_exponent n <? 0 then ieee_div value (exact_power_of_ten (- pn_exponent n))
                     else ieee_mul value (exact_power_of_ten (pn_exponent n)) in
        Ok (signed value, pn_rest n)
      else slow
    else if (0 <=? pn_exponent n) && (pn_mantissa n <=? max_mantissa (pn_exponent n)) then
      Ok (signed (directed_mul (ieee_of_integer (pn_mantissa n)) (exact_power_of_ten (pn_exponent n))), pn_rest n)
    else slow
  else slow.

(** Lines 4358-4393: from_chars_float_advanced: the bits and what follows the number *)
Definition from_chars (t : bytes) : outcome (N * bytes) :=
  match t with
  | [] => Err EINVAL
  | _ => match parse_number_string t with Some n => from_parts n | None => parse_infnan t end
  end.

(** double_parse_fast_float.cc lines 7-21: GeoArrowFromChars. Where the number ends is not looked at. *)
Definition geoarrow_from_chars (t : bytes) : outcome N := do (f, _) <- from_chars t; Ok f.
End Mode.

(** The parser of wkt_reader.c lines 124-136 (ReadOrdinate), where any error becomes one of the reader *)
Definition fast_parse (to_nearest : bool) (directed_mul : Z -> Z -> Z) (t : bytes) : option N :=
  match geoarrow_from_chars to_nearest directed_mul t with Ok f => Some f | _ => None end.
