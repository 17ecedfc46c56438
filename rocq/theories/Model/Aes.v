(** Model of /repo/bitcoinx/aes.py. *)
From Verif.Model Require Import Py.

(** aes.py:47-49 [_append_PKCS7_padding] *)
Definition append_padding (data : bytes) : bytes :=
  let padlen := 16 - zlen data mod 16 in data ++ zrepeat padlen padlen.
(** aes.py:52-60 [_strip_PKCS7_padding] *)
Definition strip_padding (data : bytes) : result bytes :=
  if (zlen data =? 0) || negb (zlen data mod 16 =? 0) then Err BadPaddingError
  else
    padlen <- pyindex data (-1) ;;
    if negb ((0 <? padlen) && (padlen <=? 16)) then Err BadPaddingError
    else if negb (bytes_eqb (slice_from data (- padlen)) (zrepeat padlen padlen)) then Err BadPaddingError
    else Ok (slice_to data (- padlen)).

Section Aes.
  (** AES in CBC mode, of a library: key, iv, data.  It raises on data that is not a multiple of 16 bytes
      long. *)
  Variable cbc_encrypt cbc_decrypt : bytes -> bytes -> bytes -> result bytes.

  (** aes.py:63-70 and 73-82 *)
  Definition aes_encrypt_with_iv (key iv data : bytes) : result bytes := cbc_encrypt key iv (append_padding data).
  Definition aes_decrypt_with_iv (key iv data : bytes) : result bytes :=
    d <- cbc_decrypt key iv data ;; strip_padding d.
End Aes.
