(** What the JSON object of a transaction says. *)
From Verif.Model Require Import Py Text Tx TxJson.

Fixpoint entry (k : pystr) (l : list (pystr * json)) : option json :=
  match l with [] => None | (k', v) :: r => if bytes_eqb k k' then Some v else entry k r end.
Definition field (j : json) (k : string) : option json := match j with JDict l => entry (txt k) l | _ => None end.

(** The input that makes new coins *)
Definition makes_coins (i : tx_input) : Prop := prev_hash i = repeat 0 32 /\ prev_idx i = 2 ^ 32 - 1.
Definition bit (flags n : Z) : bool := Z.testbit flags n.

Definition says_input (flags n : Z) (i : tx_input) (j : json) : Prop :=
  field j "sequence" = Some (JInt (sequence i)) /\
  field j "nInput" = (if bit flags 0 then Some (JInt n) else None) /\
  (makes_coins i -> field j "coinbase" = Some (JStr (to_hex (script_sig i))) /\ field j "hash" = None /\ field j "idx" = None /\ field j "script" = None) /\
  (~ makes_coins i -> field j "hash" = Some (JStr (to_hex (prev_hash i))) /\ field j "idx" = Some (JInt (prev_idx i)) /\
    field j "coinbase" = None /\ field j "text" = None /\
    exists asm, field j "script" = Some (JDict [(txt "asm", asm); (txt "hex", JStr (to_hex (script_sig i)))])).
Definition says_output (flags n : Z) (o : tx_output) (j : json) : Prop :=
  field j "value" = Some (JInt (value o)) /\
  field j "nOutput" = (if bit flags 1 then Some (JInt n) else None) /\
  exists s, field j "script" = Some s /\ field s "hex" = Some (JStr (to_hex (script_pubkey o))).
(** [b] is the transaction's serialization, [h] its hash, [meaning] the meaning of the lock time. *)
Definition says_tx (flags : Z) (t : tx) (b h : bytes) (meaning : pystr) (j : json) : Prop :=
  field j "version" = Some (JInt (version t)) /\ field j "locktime" = Some (JInt (locktime t)) /\
  field j "nInputs" = Some (JInt (zlen (inputs t))) /\ field j "nOutputs" = Some (JInt (zlen (outputs t))) /\
  field j "hash" = Some (JStr (to_hex (rev h))) /\
  field j "size" = (if bit flags 2 then Some (JInt (zlen b)) else None) /\
  field j "locktimeMeaning" = (if bit flags 3 then Some (JStr meaning) else None) /\
  exists vin vout, field j "vin" = Some (JList vin) /\ field j "vout" = Some (JList vout) /\ length vin = length (inputs t) /\ length vout = length (outputs t) /\
    (forall n i e, nth_error (inputs t) n = Some i -> nth_error vin n = Some e -> says_input flags (Z.of_nat n) i e) /\
    (forall n o e, nth_error (outputs t) n = Some o -> nth_error vout n = Some e -> says_output flags (Z.of_nat n) o e).
