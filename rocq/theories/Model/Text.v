(** ASCII literals as lists of code points. *)
From Coq Require Export Ascii String.
From Coq Require Export List.
From Verif.Model Require Import Py.
Definition txt (s : string) : pystr := map (fun c => Z.of_N (N_of_ascii c)) (list_ascii_of_string s).

(** [s.encode()]: UTF-8.  A surrogate raises UnicodeEncodeError, a subclass of ValueError. *)
Definition utf8_char (c : Z) : result bytes :=
  if c <? 0 then Err ValueError
  else if c <? 0x80 then Ok [c]
  else if c <? 0x800 then Ok [0xc0 + c / 64; 0x80 + c mod 64]
  else if (0xd800 <=? c) && (c <=? 0xdfff) then Err ValueError
  else if c <? 0x10000 then Ok [0xe0 + c / 4096; 0x80 + c / 64 mod 64; 0x80 + c mod 64]
  else if c <? 0x110000 then Ok [0xf0 + c / 262144; 0x80 + c / 4096 mod 64; 0x80 + c / 64 mod 64; 0x80 + c mod 64]
  else Err ValueError.
Definition utf8_encode (s : pystr) : result bytes := l <- mapM utf8_char s ;; Ok (concat l).
