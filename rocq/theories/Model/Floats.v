(** Division of integers giving a float: [a / b] for natural numbers, as in CPython's long_true_divide (Objects/longobject.c), and the
    difficulty of headers. *)
From Verif.Model Require Import Py Bits Coin.

(** A double that is not negative: [mant] * 2 ^ [expo] *)
Record double := mk_double { mant : Z; expo : Z }.
Definition bit_length (n : Z) : Z := if n =? 0 then 0 else Z.log2 n + 1.
(** ldexp(x, e) for x with 53 significant bits, as mantissa and exponent with 2^52 <= mantissa < 2^53, or the least exponent.
    [x] is 53 bits wide or one more bit than that, then even: all that can come of rounding. *)
Definition pack (m e : Z) : double := if m =? 2 ^ 53 then mk_double (2 ^ 52) (e + 1) else mk_double m e.

(** DBL_MIN_EXP, DBL_MAX_EXP, DBL_MANT_DIG *)
Definition MIN_EXP : Z := -1021.
Definition MAX_EXP : Z := 1024.
Definition MANT_DIG : Z := 53.
(** long_true_divide.  The C code divides numbers below 2^53 in hardware; IEEE division rounds the quotient to the nearest
    double, an even one in case of a tie, which is what the rest of the code does in general, so that this case is not distinguished
    here.  The C code changes the lowest digit of x in place; here that is x itself. *)
Definition true_divide (a b : Z) : result double :=
  if b =? 0 then Err ZeroDivisionError
  else if a =? 0 then Ok (mk_double 0 (-1074))
  else
    let diff := bit_length a - bit_length b in
    if MAX_EXP <? diff then Err OverflowError
    else if diff <? MIN_EXP - MANT_DIG - 1 then Ok (mk_double 0 (-1074))
    else
      let shift := Z.max diff MIN_EXP - MANT_DIG - 2 in
      let '(x, inexact) :=
        if shift <=? 0 then (Z.shiftl a (- shift), false)
        else (Z.shiftr a shift, negb (Z.shiftl (Z.shiftr a shift) shift =? a)) in
      let inexact := inexact || negb (x mod b =? 0) in
      let x := x / b in
      let x_bits := bit_length x in
      let extra_bits := Z.max x_bits (MIN_EXP - shift) - MANT_DIG in
      let mask := Z.shiftl 1 (extra_bits - 1) in
      let low := Z.lor x (if inexact then 1 else 0) in
      let low := if negb (Z.land low mask =? 0) && negb (Z.land low (3 * mask - 1) =? 0) then low + mask else low in
      let x := Z.shiftl (Z.shiftr low extra_bits) extra_bits in
      if (MAX_EXP <=? shift + x_bits) && ((MAX_EXP <? shift + x_bits) || (x =? Z.shiftl 1 x_bits)) then Err OverflowError
      else Ok (pack (Z.shiftr x extra_bits) (shift + extra_bits)).

(** coin.py:96-97 [Coin.bits_to_difficulty], coin.py:67-68 [Header.difficulty]; [Bitcoin.max_target], coin.py:83 *)
Definition bits_to_difficulty (bits : Z) : result double :=
  m <- max_target Bitcoin ;; t <- bits_to_target bits ;; true_divide m t.
