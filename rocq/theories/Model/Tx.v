(** Model of /repo/bitcoinx/tx.py (Tx, TxInput, TxOutput).  JSON conversion is in Model/TxJson.v. *)
From Verif.Model Require Import Py Packing.

(** tx.py:200-206; [script_sig] is the script's raw bytes (Script wraps bytes). *)
Record tx_input := mk_input {
  prev_hash : bytes; prev_idx : Z; script_sig : bytes; sequence : Z }.
(** tx.py:285-289 *)
Record tx_output := mk_output { value : Z; script_pubkey : bytes }.
(** tx.py:49-55 *)
Record tx := mk_tx {
  version : Z; inputs : list tx_input; outputs : list tx_output; locktime : Z }.

(** tx.py:44-46 *)
Definition ZERO : bytes := zrepeat 0 32.
Definition UINT32_MAX : Z := 4294967295.
Definition LOCKTIME_THRESHOLD : Z := 500000000.

(** tx.py:212-219 [TxInput.read]; the length of what read(32) returns is not checked. *)
Definition read_input : reader tx_input := fun s =>
  '(h, s) <- read 32 s ;;
  '(i, s) <- read_le_uint32 s ;;
  '(c, s) <- read_varbytes s ;;
  '(q, s) <- read_le_uint32 s ;;
  Ok (mk_input h i c q, s).

(** tx.py:291-296 [TxOutput.read] *)
Definition read_output : reader tx_output := fun s =>
  '(v, s) <- read_le_int64 s ;;
  '(c, s) <- read_varbytes s ;;
  Ok (mk_output v c, s).

(** tx.py:62-69 [Tx.read] *)
Definition read_tx : reader tx := fun s =>
  '(v, s) <- read_le_int32 s ;;
  '(i, s) <- read_list read_input s ;;
  '(o, s) <- read_list read_output s ;;
  '(l, s) <- read_le_uint32 s ;;
  Ok (mk_tx v i o l, s).

(** tx.py:71-73 [Tx.from_bytes]; bytes after the transaction are ignored. *)
Definition from_reader {A} (r : reader A) (raw : bytes) : result A :=
  '(x, _) <- r raw ;; Ok x.
Definition tx_from_bytes : bytes -> result tx := from_reader read_tx.

(** tx.py:221-222 [prevout_bytes] *)
Definition prevout_bytes (i : tx_input) : result bytes :=
  b <- pack_le_uint32 (prev_idx i) ;; Ok (prev_hash i ++ b).

(** tx.py:224-230 [to_bytes_for_signature] *)
Definition input_bytes_for_signature (i : tx_input) (value : Z) (script : bytes) : result bytes :=
  p <- prevout_bytes i ;;
  s <- pack_varbytes script ;;
  v <- pack_le_int64 value ;;
  q <- pack_le_uint32 (sequence i) ;;
  Ok (p ++ s ++ v ++ q).

(** tx.py:232-237 [TxInput.to_bytes] *)
Definition input_to_bytes (i : tx_input) : result bytes :=
  p <- prevout_bytes i ;;
  s <- pack_varbytes (script_sig i) ;;
  q <- pack_le_uint32 (sequence i) ;;
  Ok (p ++ s ++ q).

(** tx.py:298-302 [TxOutput.to_bytes] *)
Definition output_to_bytes (o : tx_output) : result bytes :=
  v <- pack_le_int64 (value o) ;;
  s <- pack_varbytes (script_pubkey o) ;;
  Ok (v ++ s).

(** tx.py:75-81 [Tx.to_bytes] *)
Definition tx_to_bytes (t : tx) : result bytes :=
  v <- pack_le_int32 (version t) ;;
  i <- pack_list (inputs t) input_to_bytes ;;
  o <- pack_list (outputs t) output_to_bytes ;;
  l <- pack_le_uint32 (locktime t) ;;
  Ok (v ++ i ++ o ++ l).

(** tx.py:83-88 [from_hex], [to_hex] *)
Definition tx_from_hex (s : pystr) : result tx := b <- from_hex s ;; tx_from_bytes b.
Definition tx_to_hex (t : tx) : result pystr := b <- tx_to_bytes t ;; Ok (to_hex b).

(** tx.py:208-210 [TxInput.is_coinbase] *)
Definition input_is_coinbase (i : tx_input) : bool :=
  (prev_idx i =? UINT32_MAX) && bytes_eqb (prev_hash i) ZERO.
(** tx.py:58-60 [Tx.is_coinbase] *)
Definition tx_is_coinbase (t : tx) : result bool :=
  i <- pyindex (inputs t) 0 ;; Ok (input_is_coinbase i).

(** tx.py:256-257 [is_final], 137-139 [are_inputs_final] *)
Definition input_is_final (i : tx_input) : bool := sequence i =? 4294967295.
Definition are_inputs_final (t : tx) : bool := forallb input_is_final (inputs t).
(** tx.py:141-153 [is_final_for_block] *)
Definition is_final_for_block (t : tx) (block_height timestamp : Z) : bool :=
  (locktime t =? 0)
  || (locktime t <? (if locktime t <? LOCKTIME_THRESHOLD then block_height else timestamp))
  || are_inputs_final t.

(** tx.py:250-254, 304-308 [size] *)
Definition input_size (i : tx_input) : result Z :=
  let n := zlen (script_sig i) in l <- varint_len n ;; Ok (40 + l + n).
Definition output_size (o : tx_output) : result Z :=
  let n := zlen (script_pubkey o) in l <- varint_len n ;; Ok (8 + l + n).
Definition zsum (l : list Z) : Z := fold_right Z.add 0 l.
(** tx.py:164-176 [size_io], [size] *)
Definition size_io (ins : list tx_input) (outs : list tx_output) : result Z :=
  a <- varint_len (zlen ins) ;; si <- mapM input_size ins ;;
  b <- varint_len (zlen outs) ;; so <- mapM output_size outs ;;
  Ok (a + zsum si + b + zsum so + 8).
Definition tx_size (t : tx) : result Z := size_io (inputs t) (outputs t).
(** tx.py:178-180 [total_output_value] *)
Definition total_output_value (t : tx) : Z := zsum (map value (outputs t)).

(** signature.py:168-177, 254-261: SigHash is an int; base and anyone_can_pay. *)
Definition SIGHASH_ALL : Z := 1.
Definition SIGHASH_NONE : Z := 2.
Definition SIGHASH_SINGLE : Z := 3.
Definition SIGHASH_FORKID : Z := 64.
Definition SIGHASH_ANYONE_CAN_PAY : Z := 128.
Definition sighash_base (h : Z) : Z := Z.land h 31.
Definition sighash_anyone_can_pay (h : Z) : bool := negb (Z.land h SIGHASH_ANYONE_CAN_PAY =? 0).

Section SignatureHash.
  (** hashes.py:69-71, an arbitrary function here *)
  Variable double_sha256 : bytes -> bytes.

  (** tx.py:90-92 *)
  Definition hash_prevouts (t : tx) : result bytes :=
    l <- mapM prevout_bytes (inputs t) ;; Ok (double_sha256 (concat l)).
  (** tx.py:94-96 *)
  Definition hash_sequence (t : tx) : result bytes :=
    l <- mapM (fun i => pack_le_uint32 (sequence i)) (inputs t) ;;
    Ok (double_sha256 (concat l)).
  (** tx.py:98-100 *)
  Definition hash_outputs (t : tx) : result bytes :=
    l <- mapM output_to_bytes (outputs t) ;; Ok (double_sha256 (concat l)).

  (** tx.py:102-135 [signature_hash]: what is hashed, then the hash.  The sighash argument is an
      integer; the TypeError for a non-SigHash argument is not modelled. *)
  Definition signature_preimage (t : tx) (input_index value : Z) (script : bytes) (sighash : Z)
    : result bytes :=
    if negb ((0 <=? input_index) && (input_index <? zlen (inputs t))) then Err IndexError
    else if value <? 0 then Err ValueError
    else
      txin <- pyindex (inputs t) input_index ;;
      let base := sighash_base sighash in
      let not_single_none := negb ((base =? SIGHASH_SINGLE) || (base =? SIGHASH_NONE)) in
      let acp := sighash_anyone_can_pay sighash in
      hp <- (if negb acp then hash_prevouts t else Ok ZERO) ;;
      hs <- (if negb acp && not_single_none then hash_sequence t else Ok ZERO) ;;
      ho <- (if not_single_none then hash_outputs t
             else if (base =? SIGHASH_SINGLE) && (input_index <? zlen (outputs t))
             then o <- pyindex (outputs t) input_index ;;
                  b <- output_to_bytes o ;; Ok (double_sha256 b)
             else Ok ZERO) ;;
      v <- pack_le_int32 (version t) ;;
      ti <- input_bytes_for_signature txin value script ;;
      l <- pack_le_uint32 (locktime t) ;;
      h <- pack_le_uint32 sighash ;;
      Ok (v ++ hp ++ hs ++ ti ++ ho ++ l ++ h).
  Definition signature_hash (t : tx) (input_index value : Z) (script : bytes) (sighash : Z)
    : result bytes :=
    p <- signature_preimage t input_index value script sighash ;; Ok (double_sha256 p).

  (** tx.py:155-157 [hash] *)
  Definition tx_hash (t : tx) : result bytes :=
    b <- tx_to_bytes t ;; Ok (double_sha256 b).
End SignatureHash.
