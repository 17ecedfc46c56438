(** Model of /repo/bitcoinx/work.py:33-77: compact difficulty encoding.  The lru_cache decorators
    are left out: the functions are pure. *)
From Verif.Model Require Import Py.

(** work.py:33-52 [bits_to_target] *)
Definition bits_to_target (bits : Z) : result Z :=
  if negb ((0 <=? bits) && (bits <=? 0x2100ffff)) then Err ValueError
  else
    let word := Z.land bits 0x00ffffff in
    if negb ((0x8000 <=? word) && (word <=? 0x7fffff)) && negb (bits =? 0) then Err ValueError
    else
      let size := Z.shiftr bits 24 in
      let shift := 8 * (size - 3) in
      if shift <=? 0 then
        let res := Z.shiftr word (- shift) in
        if negb (Z.shiftl res (- shift) =? word) then Err ValueError
        else Ok res
      else Ok (Z.shiftl word shift).

(** work.py:55-72 [target_to_bits] *)
Definition target_to_bits (target : Z) : result Z :=
  let bits := bit_length target in
  if (target <? 0) || (256 <? bits) then Err ValueError
  else
    let size := (bits + 7) / 8 in
    let shift := 8 * (size - 3) in
    let word := if shift <=? 0 then Z.shiftl target (- shift) else Z.shiftr target shift in
    let '(word, size) :=
      if negb (Z.land word 0x00800000 =? 0) then (Z.shiftr word 8, size + 1) else (word, size) in
    Ok (Z.lor word (Z.shiftl size 24)).

(** work.py:75-77 [bits_to_work] *)
Definition bits_to_work (bits : Z) : result Z :=
  t <- bits_to_target bits ;; Ok (Z.shiftl 1 256 / (t + 1)).
