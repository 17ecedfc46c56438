(** Property theorems C04-C12: transactions. *)
From Verif.Model Require Import Py Packing Tx.
From Verif.Spec Require Import Numbers TxSpec.
From Verif.Proofs Require Import TxFacts SighashFacts.

(** A transaction used in the examples: two inputs, two outputs. *)
Definition tx1 : tx :=
  mk_tx 2 [mk_input (repeat 7 32) 1 [81; 82] 4294967295; mk_input (repeat 9 32) 0 [] 5]
        [mk_output 1000 [118; 169]; mk_output 2000 []] 600000.
Example tx1_wf : tx_wf tx1.
Proof.
  unfold tx_wf, tx1; cbn [version inputs outputs locktime].
  repeat (apply conj || constructor); cbn [version inputs outputs locktime prev_hash prev_idx script_sig sequence value script_pubkey]; try lia; try reflexivity; vm_compute; try reflexivity; discriminate.
Qed.

Theorem C04_tx_roundtrip : forall t, tx_wf t ->
  exists b, tx_to_bytes t = Ok b /\ bytes_ok b = true /\
    (forall s, read_tx (b ++ s) = Ok (t, s)) /\ tx_from_bytes b = Ok t.
Proof. exact tx_roundtrip. Qed.
Print Assumptions C04_tx_roundtrip.
Theorem C04_tx_roundtrip_hex : forall t, tx_wf t ->
  exists s, tx_to_hex t = Ok s /\ tx_from_hex s = Ok t.
Proof. exact tx_roundtrip_hex. Qed.
Print Assumptions C04_tx_roundtrip_hex.

Theorem C05_tx_truncated : forall t b p q, tx_wf t -> tx_to_bytes t = Ok b ->
  b = p ++ q -> q <> [] -> exists e, tx_from_bytes p = Err e.
Proof. exact tx_truncated. Qed.
Print Assumptions C05_tx_truncated.
Example C05_example : exists b, tx_to_bytes tx1 = Ok b /\
  zlen b = 114 /\ tx_from_bytes (ztake 40 b) = Err StructError.
Proof. eexists. split; [vm_compute; reflexivity|]. split; vm_compute; reflexivity. Qed.

Theorem C06_tx_canonical : forall s t rest, bytes_ok s = true -> read_tx s = Ok (t, rest) ->
  tx_wf t /\ exists c b, s = c ++ rest /\ tx_to_bytes t = Ok b /\ tx_from_bytes b = Ok t /\
    zlen b <= zlen c /\ (zlen b = zlen c <-> b = c).
Proof. exact tx_canonical. Qed.
Print Assumptions C06_tx_canonical.
Theorem C06_tx_errors : forall raw e, tx_from_bytes raw = Err e -> e = StructError \/ e = OverflowError.
Proof. exact tx_from_bytes_exn. Qed.
Print Assumptions C06_tx_errors.
(** Serializations are not unique: bytes other than to_bytes() decode to the same transaction. *)
Theorem C06_tx_not_unique : exists raw t b, bytes_ok raw = true /\ tx_from_bytes raw = Ok t /\
  tx_to_bytes t = Ok b /\ b <> raw.
Proof.
  exists [1; 0; 0; 0; 253; 0; 0; 0; 5; 0; 0; 0], (mk_tx 1 [] [] 5), [1; 0; 0; 0; 0; 0; 5; 0; 0; 0].
  repeat split; try (vm_compute; reflexivity). discriminate.
Qed.
Print Assumptions C06_tx_not_unique.

Theorem C07_tx_size : forall t b, Forall (fun i => zlen (prev_hash i) = 32) (inputs t) ->
  tx_to_bytes t = Ok b -> tx_size t = Ok (zlen b).
Proof. exact tx_size_ok. Qed.
Print Assumptions C07_tx_size.
Theorem C07_input_size : forall i b, zlen (prev_hash i) = 32 -> input_to_bytes i = Ok b ->
  input_size i = Ok (zlen b).
Proof. exact input_size_ok. Qed.
Print Assumptions C07_input_size.
Theorem C07_output_size : forall o b, output_to_bytes o = Ok b -> output_size o = Ok (zlen b).
Proof. exact output_size_ok. Qed.
Print Assumptions C07_output_size.
Example C07_example : tx_size tx1 = Ok 114.
Proof. vm_compute; reflexivity. Qed.

Theorem C08_signature_hash_ignores : forall H c d, same_commitment c d ->
  call_index_ok c -> call_index_ok d ->
  signature_hash H (c_tx c) (c_index c) (c_value c) (c_script c) (c_sighash c) =
  signature_hash H (c_tx d) (c_index d) (c_value d) (c_script d) (c_sighash d).
Proof. exact signature_hash_respects. Qed.
Print Assumptions C08_signature_hash_ignores.
(** SINGLE|ANYONE_CAN_PAY: different other inputs, other outputs and positions. *)
Definition call1 := mk_call tx1 0 50 [81] 195.
Definition call2 := mk_call
  (mk_tx 2 [mk_input (repeat 7 32) 1 [1; 2; 3] 4294967295] [mk_output 1000 [118; 169]; mk_output 7 [1]] 600000)
  0 50 [81] 195.
Example C08_example : same_commitment call1 call2 /\ call_index_ok call1 /\ call_index_ok call2 /\
  c_tx call1 <> c_tx call2.
Proof.
  split; [|split; [|split]].
  - unfold same_commitment. repeat (split; [vm_compute; reflexivity|]).
    split; [vm_compute; discriminate|]. split; [vm_compute; discriminate|]. split.
    + intros HN. exfalso. apply HN. right. vm_compute. reflexivity.
    + intros _. vm_compute. reflexivity.
  - vm_compute. split; [discriminate|reflexivity].
  - vm_compute. split; [discriminate|reflexivity].
  - discriminate.
Qed.

Theorem C09_signature_hash_binds : forall H : bytes -> bytes, (forall x, zlen (H x) = 32) ->
  forall c d hash, call_wf c -> call_wf d ->
  collision_free H (hashed_strings H c ++ hashed_strings H d) ->
  signature_hash H (c_tx c) (c_index c) (c_value c) (c_script c) (c_sighash c) = Ok hash ->
  signature_hash H (c_tx d) (c_index d) (c_value d) (c_script d) (c_sighash d) = Ok hash ->
  same_commitment c d.
Proof. exact signature_hash_binds. Qed.
Print Assumptions C09_signature_hash_binds.
(** A hash with 32-byte results for which the two calls above produce no collision: sum of the
    bytes weighted by position, in the first element. *)
Definition toy_hash (x : bytes) : bytes :=
  Z.land (fold_left (fun a b => 257 * a + b + 1) x 1) (2 ^ 250 - 1) :: repeat 0 31.
Example C09_example : (forall x, zlen (toy_hash x) = 32) /\ call_wf call1 /\ call_wf call2 /\
  collision_free toy_hash (hashed_strings toy_hash call1 ++ hashed_strings toy_hash call2) /\
  exists h, signature_hash toy_hash (c_tx call1) 0 50 [81] 195 = Ok h /\
            signature_hash toy_hash (c_tx call2) 0 50 [81] 195 = Ok h.
Proof.
  assert (W2 : tx_wf (c_tx call2)).
  { unfold tx_wf, call2; cbn [c_tx version inputs outputs locktime].
    repeat (apply conj || constructor); cbn [prev_hash prev_idx script_sig sequence value script_pubkey]; try lia; try reflexivity; vm_compute; try reflexivity; discriminate. }
  split; [reflexivity|]. split; [|split; [|split]].
  - split; [apply tx1_wf|]. repeat split; vm_compute; try reflexivity; discriminate.
  - split; [exact W2|]. repeat split; vm_compute; try reflexivity; discriminate.
  - split.
    + assert (HB : forallb (fun x => forallb (fun y => negb (bytes_eqb (toy_hash x) (toy_hash y)) || bytes_eqb x y)
        (hashed_strings toy_hash call1 ++ hashed_strings toy_hash call2))
        (hashed_strings toy_hash call1 ++ hashed_strings toy_hash call2) = true) by (vm_compute; reflexivity).
      rewrite forallb_forall in HB. intros x y Hx Hy HE. specialize (HB x Hx).
      rewrite forallb_forall in HB. specialize (HB y Hy). rewrite HE, PyFacts.bytes_eqb_refl in HB. cbn in HB.
      now apply PyFacts.bytes_eqb_eq.
    + assert (HB : forallb (fun x => negb (bytes_eqb (toy_hash x) (repeat 0 32)))
        (hashed_strings toy_hash call1 ++ hashed_strings toy_hash call2) = true) by (vm_compute; reflexivity).
      rewrite forallb_forall in HB. intros x Hx HE. specialize (HB x Hx). rewrite HE, PyFacts.bytes_eqb_refl in HB. discriminate.
  - eexists; split; vm_compute; reflexivity.
Qed.

Theorem C10_signature_hash_errors : forall H t i v s h, tx_wf t -> script_wf s ->
  (signature_hash H t i v s h = Err IndexError <-> ~ (0 <= i < zlen (inputs t))) /\
  (signature_hash H t i v s h = Err ValueError <-> 0 <= i < zlen (inputs t) /\ v < 0) /\
  (signature_hash H t i v s h = Err StructError <->
     0 <= i < zlen (inputs t) /\ 0 <= v /\ (2 ^ 63 <= v \/ h < 0 \/ 2 ^ 32 <= h)) /\
  ((exists x, signature_hash H t i v s h = Ok x) <->
     0 <= i < zlen (inputs t) /\ 0 <= v < 2 ^ 63 /\ 0 <= h < 2 ^ 32).
Proof. exact signature_hash_errors. Qed.
Print Assumptions C10_signature_hash_errors.
Theorem C10_signature_hash_length : forall (H : bytes -> bytes) t i v s h x,
  (forall y, zlen (H y) = 32) -> signature_hash H t i v s h = Ok x -> zlen x = 32.
Proof. exact signature_hash_len. Qed.
Print Assumptions C10_signature_hash_length.
Example C10_example : signature_hash toy_hash tx1 2 0 [] 1 = Err IndexError /\
  signature_hash toy_hash tx1 (-1) 0 [] 1 = Err IndexError /\
  signature_hash toy_hash tx1 1 (-5) [] 1 = Err ValueError /\
  is_ok (signature_hash toy_hash tx1 1 5 [] 65) = true.
Proof. repeat split; vm_compute; reflexivity. Qed.

Theorem C11_final : forall t h ts, is_final_for_block t h ts = true <->
  locktime t = 0 \/
  (locktime t < 500000000 /\ locktime t < h) \/
  (500000000 <= locktime t /\ locktime t < ts) \/
  Forall (fun i => sequence i = 2 ^ 32 - 1) (inputs t).
Proof. exact final_iff. Qed.
Print Assumptions C11_final.
Example C11_example : is_final_for_block tx1 600000 0 = false /\ is_final_for_block tx1 600001 0 = true.
Proof. split; vm_compute; reflexivity. Qed.

(** The claim "is_coinbase() is true iff there is exactly one input, spending the null outpoint" fails:
    a transaction with two inputs is called a coinbase, one without inputs raises IndexError. *)
Theorem C12_is_coinbase_refuted : exists t, tx_wf t /\ tx_is_coinbase t = Ok true /\ zlen (inputs t) = 2.
Proof.
  exists (mk_tx 1 [mk_input (repeat 0 32) 4294967295 [] 0; mk_input (repeat 9 32) 0 [] 5] [] 0).
  split; [|split; vm_compute; reflexivity].
  unfold tx_wf; cbn [version inputs outputs locktime].
  repeat (apply conj || constructor); cbn [prev_hash prev_idx script_sig sequence value script_pubkey]; try lia; try reflexivity; vm_compute; try reflexivity; discriminate.
Qed.
Print Assumptions C12_is_coinbase_refuted.
Theorem C12_is_coinbase_empty_refuted : exists t, tx_wf t /\ tx_is_coinbase t = Err IndexError.
Proof.
  exists (mk_tx 1 [] [] 0). split; [|vm_compute; reflexivity].
  unfold tx_wf; cbn [version inputs outputs locktime].
  repeat (apply conj || constructor); try lia; reflexivity.
Qed.
Print Assumptions C12_is_coinbase_empty_refuted.
(** What does hold.  Missing from the full claim: that there is no second input. *)
Theorem C12_is_coinbase_partial : forall t, tx_is_coinbase t = Ok true <->
  exists i rest, inputs t = i :: rest /\ prev_hash i = repeat 0 32 /\ prev_idx i = 2 ^ 32 - 1.
Proof. exact coinbase_iff. Qed.
Print Assumptions C12_is_coinbase_partial.
