(** How many words a new Electrum mnemonic has and how many random bytes are drawn for it: the floating point part of
    mnemonic.py.  [logarithm] is what math.log(wordlist_size, 2) returns, a float; everything done with it is modelled. *)
From Verif.Model Require Import Py Text Misc Mnemonic Floats.

(** A float that is not negative is [scaled d] / 2^1074 *)
Definition scaled (d : double) : Z := mant d * 2 ^ (expo d + 1074).
(** The conversion of an integer to a float: the nearest one, the even one of two; OverflowError if it is too big.  The same as
    dividing by 1 (Objects/longobject.c, [PyLong_AsDouble]). *)
Definition float_of_int (n : Z) : result double := true_divide n 1.
(** Of an integer and a float.  IEEE division and multiplication give the nearest float.  A product that is too big is infinite, which is
    no OverflowError yet, but here it is always passed to ceil, which raises it then. *)
Definition int_div_float (n : Z) (d : double) : result double := x <- float_of_int n ;; true_divide (scaled x) (scaled d).
Definition int_mul_float (n : Z) (d : double) : result double := x <- float_of_int n ;; true_divide (scaled x * scaled d) (2 ^ 2148).
(** math.ceil *)
Definition float_ceil (d : double) : Z := - (- scaled d / 2 ^ 1074).

(** mnemonic.py:217 *)
Definition electrum_word_count (logarithm : double) (bits : Z) : result Z := x <- int_div_float bits logarithm ;; Ok (float_ceil x).
(** mnemonic.py:337-338: the number of bytes drawn *)
Definition random_size (logarithm : double) (word_count : Z) : result Z :=
  x <- int_mul_float word_count logarithm ;;
  let bits := float_ceil x + 16 in
  Ok ((bits + 7) / 8).

(** mnemonic.py:204-226 [generate_new], with mnemonic.py:333-349 [_random_integer]; [urandom i size] is what is returned the i-th
    time; [log2 n] is math.log(n, 2). *)
Definition generate_new_mnemonic (nfkd lower_ : pystr -> pystr) (hmac : bytes -> bytes -> bytes) (log2 : Z -> double) (urandom : nat -> Z -> bytes)
    (fuel : nat) (wordlist : list pystr) (prefix : pystr) (bits : Z) (skip_old : bool) : result pystr :=
  if bits <? 132 then Err ValueError
  else if zlen wordlist <? 2048 then Err ValueError
  else
    word_count <- electrum_word_count (log2 (zlen wordlist)) bits ;;
    size <- random_size (log2 (zlen wordlist)) word_count ;;
    generate_new nfkd lower_ hmac fuel (fun i => urandom i size) word_count wordlist prefix bits skip_old.
