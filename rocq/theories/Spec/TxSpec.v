(** What a well-formed transaction is, and what a signature commits to. *)
From Verif.Model Require Import Py Tx.

Definition script_wf (s : bytes) : Prop := bytes_ok s = true /\ zlen s < 2 ^ 63.
Definition input_wf (i : tx_input) : Prop :=
  bytes_ok (prev_hash i) = true /\ zlen (prev_hash i) = 32 /\ 0 <= prev_idx i < 2 ^ 32 /\
  script_wf (script_sig i) /\ 0 <= sequence i < 2 ^ 32.
Definition output_wf (o : tx_output) : Prop :=
  - 2 ^ 63 <= value o < 2 ^ 63 /\ script_wf (script_pubkey o).
Definition tx_wf (t : tx) : Prop :=
  - 2 ^ 31 <= version t < 2 ^ 31 /\
  (Forall input_wf (inputs t) /\ zlen (inputs t) < 2 ^ 64) /\
  (Forall output_wf (outputs t) /\ zlen (outputs t) < 2 ^ 64) /\
  0 <= locktime t < 2 ^ 32.

(** ** Signature hashes *)
Record sig_call := mk_call {
  c_tx : tx; c_index : Z; c_value : Z; c_script : bytes; c_sighash : Z }.

Definition call_index_ok (c : sig_call) : Prop := 0 <= c_index c < zlen (inputs (c_tx c)).
Definition call_wf (c : sig_call) : Prop :=
  tx_wf (c_tx c) /\ call_index_ok c /\ 0 <= c_value c < 2 ^ 63 /\ script_wf (c_script c)
  /\ 0 <= c_sighash c < 2 ^ 32.

(** The flags: the low five bits select the base type, bit 7 is ANYONE_CAN_PAY. *)
Definition base_of (sighash : Z) : Z := sighash mod 32.
Definition acp_of (sighash : Z) : bool := Z.testbit sighash 7.
Definition is_none_or_single (sighash : Z) : Prop := base_of sighash = 2 \/ base_of sighash = 3.

Definition outpoint (i : tx_input) : bytes * Z := (prev_hash i, prev_idx i).
Definition signed_input (c : sig_call) : option tx_input :=
  nth_error (inputs (c_tx c)) (Z.to_nat (c_index c)).

(** Two calls agree on everything a signature of these flags is about. *)
Definition same_commitment (c d : sig_call) : Prop :=
  version (c_tx c) = version (c_tx d) /\
  locktime (c_tx c) = locktime (c_tx d) /\
  c_sighash c = c_sighash d /\
  c_value c = c_value d /\
  c_script c = c_script d /\
  option_map outpoint (signed_input c) = option_map outpoint (signed_input d) /\
  option_map sequence (signed_input c) = option_map sequence (signed_input d) /\
  (acp_of (c_sighash c) = false ->
     map outpoint (inputs (c_tx c)) = map outpoint (inputs (c_tx d))) /\
  (acp_of (c_sighash c) = false -> ~ is_none_or_single (c_sighash c) ->
     map sequence (inputs (c_tx c)) = map sequence (inputs (c_tx d))) /\
  (~ is_none_or_single (c_sighash c) -> outputs (c_tx c) = outputs (c_tx d)) /\
  (base_of (c_sighash c) = 3 ->
     nth_error (outputs (c_tx c)) (Z.to_nat (c_index c)) =
     nth_error (outputs (c_tx d)) (Z.to_nat (c_index d))).

(** The byte strings whose hashes enter a signature hash: the preimage itself and the
    serialized outpoints, sequences, outputs and matching output. *)
Definition ok_list {A} (r : result A) : list A := match r with Ok a => [a] | Err _ => [] end.
Definition hashed_strings (H : bytes -> bytes) (c : sig_call) : list bytes :=
  ok_list (signature_preimage H (c_tx c) (c_index c) (c_value c) (c_script c) (c_sighash c)) ++
  map (@concat Z) (ok_list (mapM prevout_bytes (inputs (c_tx c)))) ++
  map (@concat Z) (ok_list (mapM (fun i => Packing.pack_le_uint32 (sequence i)) (inputs (c_tx c)))) ++
  map (@concat Z) (ok_list (mapM output_to_bytes (outputs (c_tx c)))) ++
  match nth_error (outputs (c_tx c)) (Z.to_nat (c_index c)) with
  | Some o => ok_list (output_to_bytes o)
  | None => []
  end.
(** No two of these strings have the same hash, and none hashes to zero. *)
Definition collision_free (H : bytes -> bytes) (l : list bytes) : Prop :=
  (forall x y, In x l -> In y l -> H x = H y -> x = y) /\
  (forall x, In x l -> H x <> repeat 0 32).
