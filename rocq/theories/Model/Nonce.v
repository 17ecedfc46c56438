(** The default nonce function of libsecp256k1 (nonce_function_rfc6979 in secp256k1.c, secp256k1_rfc6979_hmac_sha256_initialize
    and _generate in hash_impl.h), which sign_der and sign_recoverable (/repo/bitcoinx/signature.py:106-131) use by passing NULL for
    noncefp and ndata.  Versions from 2023 on reduce the hash modulo the group order first; that is the same for hashes below the
    order. *)
From Verif.Model Require Import Py Hashes.

(** The generator's state: k, v *)
Definition drbg_step (st : bytes * bytes) (sep : Z) (data : bytes) : bytes * bytes :=
  let '(k, v) := st in
  let k := hmac_sha256 k (v ++ [sep] ++ data) in
  (k, hmac_sha256 k v).
Definition drbg_init (key : bytes) : bytes * bytes :=
  drbg_step (drbg_step (zrepeat 0 32, zrepeat 1 32) 0 key) 1 key.
(** 32 bytes, which are also the new v; [retry]: it is not the first time *)
Definition drbg_generate (retry : bool) (st : bytes * bytes) : bytes * bytes :=
  let '(k, v) := if retry then drbg_step st 0 [] else st in (k, hmac_sha256 k v).
Fixpoint drbg_run (count : nat) (st : bytes * bytes) : bytes * bytes :=
  match count with O => drbg_generate false st | S n => drbg_generate true (drbg_run n st) end.
Definition rfc6979_nonce (msg_hash secret : bytes) (count : nat) : bytes := snd (drbg_run count (drbg_init (secret ++ msg_hash))).
