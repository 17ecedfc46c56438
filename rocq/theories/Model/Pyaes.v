(** The branches of /repo/bitcoinx/aes.py taken where Cryptodome is not installed: pyaes 1.6.1, whose aes.py and blockfeeder.py are not
    in /repo.  Its block cipher is that of FIPS 197, as in Cipher.v; modelled here is what is around it: the mode of operation with the
    last block as its state, the feeder with its buffer, and the exceptions of both. *)
From Verif.Model Require Import Py Hashes Cipher Aes.

(** aes.py:68, 78: AESModeOfOperationCBC(key, iv=iv): the key and the last block of ciphertext. *)
Record cbc_mode := { mode_key : bytes; mode_last : bytes }.
Definition new_mode (key iv : bytes) : result cbc_mode :=
  if negb (zlen iv =? 16) then Err ValueError
  else if negb ((zlen key =? 16) || (zlen key =? 24) || (zlen key =? 32)) then Err ValueError
  else Ok {| mode_key := key; mode_last := iv |}.
(** AESModeOfOperationCBC.encrypt and .decrypt: one block. *)
Definition mode_encrypt (m : cbc_mode) (block : bytes) : result (bytes * cbc_mode) :=
  if negb (zlen block =? 16) then Err ValueError
  else
    let c := encrypt_block (key_schedule (mode_key m)) (zlen (mode_key m) / 4 + 6) (xor_bytes block (mode_last m)) in
    Ok (c, {| mode_key := mode_key m; mode_last := c |}).
Definition mode_decrypt (m : cbc_mode) (block : bytes) : result (bytes * cbc_mode) :=
  if negb (zlen block =? 16) then Err ValueError
  else
    let p := xor_bytes (decrypt_block (key_schedule (mode_key m)) (zlen (mode_key m) / 4 + 6) block) (mode_last m) in
    Ok (p, {| mode_key := mode_key m; mode_last := block |}).

Section Feeder.
  Variable step : cbc_mode -> bytes -> result (bytes * cbc_mode).
  (** Encrypter and Decrypter: the mode and the bytes kept back, None after the last feed(). *)
  Record feeder := { fe_mode : cbc_mode; fe_buffer : option bytes }.
  (** BlockFeeder.feed of data: 16 bytes are always kept back, for the padding.  [fuel] bounds the loop by the size of the buffer. *)
  Definition can_consume (size : Z) : Z := if 16 <=? size then 16 else 0.
  Fixpoint feed_loop (fuel : nat) (m : cbc_mode) (buffer acc : bytes) : result (bytes * cbc_mode * bytes) :=
    match fuel with
    | O => Err OutOfFuel
    | S f =>
        if 16 <? zlen buffer then
          let n := can_consume (zlen buffer - 16) in
          if n =? 0 then Ok (acc, m, buffer)
          else
            '(out, m') <- step m (slice_to buffer n) ;;
            feed_loop f m' (slice_from buffer n) (acc ++ out)
        else Ok (acc, m, buffer)
    end.
  Definition feed (fe : feeder) (data : bytes) : result (bytes * feeder) :=
    match fe_buffer fe with
    | None => Err ValueError
    | Some b =>
        '(out, m, b') <- feed_loop (S (length (b ++ data))) (fe_mode fe) (b ++ data) [] ;;
        Ok (out, {| fe_mode := m; fe_buffer := Some b' |})
    end.
  (** BlockFeeder.feed() without padding: the bytes kept back must be one block, or else Exception('invalid data length for final
      block') is raised. *)
  Definition feed_end (fe : feeder) : result (bytes * feeder) :=
    match fe_buffer fe with
    | None => Err ValueError
    | Some b =>
        if negb (zlen b =? 16) then Err PlainException
        else '(out, m) <- step (fe_mode fe) b ;; Ok (out, {| fe_mode := m; fe_buffer := None |})
    end.
  (** aes.py:68-70, 78-80 *)
  Definition pyaes_run (key iv data : bytes) : result bytes :=
    m <- new_mode key iv ;;
    '(a, fe) <- feed {| fe_mode := m; fe_buffer := Some [] |} data ;;
    '(b, _) <- feed_end fe ;;
    Ok (a ++ b).
End Feeder.
Definition pyaes_encrypt : bytes -> bytes -> bytes -> result bytes := pyaes_run mode_encrypt.
Definition pyaes_decrypt : bytes -> bytes -> bytes -> result bytes := pyaes_run mode_decrypt.

(** aes.py:36-40: [AES] is the module of Cryptodome, or None; every function tests it. *)
Definition library_encrypt (cryptodome : bool) : bytes -> bytes -> bytes -> result bytes := if cryptodome then aes_cbc_encrypt else pyaes_encrypt.
Definition library_decrypt (cryptodome : bool) : bytes -> bytes -> bytes -> result bytes := if cryptodome then aes_cbc_decrypt else pyaes_decrypt.
