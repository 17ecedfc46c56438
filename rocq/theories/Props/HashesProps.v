(** Property theorems C94-C96: the hash functions, what equal hashes mean, the genesis headers. *)
From Verif.Model Require Import Py Packing Bits Tx Coin Hashes.
From Verif.Spec Require Import Numbers TxSpec HashSpec WorkSpec.
From Verif.Proofs Require Import NumbersFacts HashesExact HmacFacts ClashFacts.

(** C94.  The functions of hashes.py are the ones of FIPS 180-4, the RIPEMD-160 paper, RFC 2104 and RFC 2898. *)
Theorem C94_sha256 : forall m d, bytes_ok m = true -> (sha256 m = d <-> sha256_says m d).
Proof. exact sha256_exact. Qed.
Print Assumptions C94_sha256.
Theorem C94_sha512 : forall m d, bytes_ok m = true -> (sha512 m = d <-> sha512_says m d).
Proof. exact sha512_exact. Qed.
Print Assumptions C94_sha512.
Theorem C94_sha1 : forall m d, bytes_ok m = true -> (sha1 m = d <-> sha1_says m d).
Proof. exact sha1_exact. Qed.
Print Assumptions C94_sha1.
Theorem C94_ripemd160 : forall m d, bytes_ok m = true -> (ripemd160 m = d <-> ripemd160_says m d).
Proof. exact ripemd160_exact. Qed.
Print Assumptions C94_ripemd160.
Theorem C94_double_sha256 : forall m d, bytes_ok m = true -> (double_sha256 m = d <-> exists h, sha256_says m h /\ sha256_says h d).
Proof.
  intros m d HM. split.
  - intros <-. exists (sha256 m). split; apply sha256_exact; auto using sha256_ok.
  - intros (h & H1 & H2). apply sha256_exact in H1; [|exact HM]. subst h. apply sha256_exact in H2; [exact H2|apply sha256_ok].
Qed.
Print Assumptions C94_double_sha256.
Theorem C94_hash160 : forall m d, bytes_ok m = true -> (hash160 m = d <-> exists h, sha256_says m h /\ ripemd160_says h d).
Proof.
  intros m d HM. split.
  - intros <-. exists (sha256 m). split; [apply sha256_exact|apply ripemd160_exact]; auto using sha256_ok.
  - intros (h & H1 & H2). apply sha256_exact in H1; [|exact HM]. subst h. apply ripemd160_exact in H2; [exact H2|apply sha256_ok].
Qed.
Print Assumptions C94_hash160.
Theorem C94_hmac_sha512 : forall key msg d, bytes_ok key = true -> bytes_ok msg = true -> (hmac_sha512 key msg = d <-> hmac_says sha512_says 128 key msg d).
Proof. exact hmac_sha512_exact. Qed.
Print Assumptions C94_hmac_sha512.
Theorem C94_hmac_sha256 : forall key msg d, bytes_ok key = true -> bytes_ok msg = true -> (hmac_sha256 key msg = d <-> hmac_says sha256_says 64 key msg d).
Proof. exact hmac_sha256_exact. Qed.
Print Assumptions C94_hmac_sha256.
Theorem C94_pbkdf2 : forall password salt c d, bytes_ok password = true -> bytes_ok salt = true -> 1 <= c ->
  (pbkdf2_sha512 password salt c = d <-> pbkdf2_says (hmac_says sha512_says 128) password salt c d).
Proof. intros password salt c d HP HS. exact (pbkdf2_exact password salt HP HS c d). Qed.
Print Assumptions C94_pbkdf2.
(** The list of primes that the constants are made from is the list of the first 80 primes. *)
Theorem C94_primes : first_primes primes_80 /\ zlen primes_80 = 80.
Proof. split; [exact primes_80_first|reflexivity]. Qed.
Print Assumptions C94_primes.
(** Sizes of the results, of any input. *)
Theorem C94_sizes : forall x k,
  (zlen (sha1 x) = 20 /\ bytes_ok (sha1 x) = true) /\ (zlen (sha256 x) = 32 /\ bytes_ok (sha256 x) = true) /\
  (zlen (sha512 x) = 64 /\ bytes_ok (sha512 x) = true) /\ (zlen (ripemd160 x) = 20 /\ bytes_ok (ripemd160 x) = true) /\
  (zlen (double_sha256 x) = 32 /\ bytes_ok (double_sha256 x) = true) /\ (zlen (hash160 x) = 20 /\ bytes_ok (hash160 x) = true) /\
  (zlen (hmac_sha512 k x) = 64 /\ bytes_ok (hmac_sha512 k x) = true) /\ (zlen (hmac_sha256 k x) = 32 /\ bytes_ok (hmac_sha256 k x) = true).
Proof. intros x k. repeat split; first [apply sha1_len|apply sha1_ok|apply sha256_len|apply sha256_ok|apply sha512_len|apply sha512_ok|apply ripemd160_len|apply ripemd160_ok]. Qed.
Print Assumptions C94_sizes.
(** The values of tests/test_hashes.py:8-21. *)
Example C94_example :
  sha1 [115; 104; 97; 49] = [0x41; 0x5a; 0xb4; 0x0a; 0xe9; 0xb7; 0xcc; 0x4e; 0x66; 0xd6; 0x76; 0x9c; 0xb2; 0xc0; 0x81; 0x06; 0xe8; 0x29; 0x3b; 0x48] /\
  hash160 [104; 97; 115; 104; 49; 54; 48] = [0xb7; 0xe2; 0xbd; 0x68; 0x28; 0x82; 0xa8; 0xbd; 0xfc; 0x10; 0x03; 0x00; 0xdc; 0xcb; 0x58; 0xb7; 0xe6; 0x32; 0x18; 0x3e].
Proof. split; vm_compute; reflexivity. Qed.
(** SHA-512 of "abc", from FIPS 180-4. *)
Example C94_example_512 : be_int (sha512 [97; 98; 99]) =
  0xddaf35a193617abacc417349ae20413112e6fa4e89a97ea20a9eeee64b55d39a2192992a274fc1a836ba3c23a3feebbd454d4423643ce80e2a9ac94fa54ca49f.
Proof. vm_compute; reflexivity. Qed.

(** C95.  If two different things have the same hash, then hashing them shows a collision of one step of SHA-256 or RIPEMD-160: two
    different steps that are actually taken, with the same result.  (Messages of 2^61 bytes and more, whose length in bits does not fit, are excluded.) *)
Theorem C95_sha256 : forall a b, bytes_ok a = true -> bytes_ok b = true -> zlen a < 2 ^ 61 -> zlen b < 2 ^ 61 -> sha256 a = sha256 b -> a = b \/ sha256_clash a b.
Proof. intros a b HA HB LA LB. exact (sha256_binds a b (conj HA LA) (conj HB LB)). Qed.
Print Assumptions C95_sha256.
Theorem C95_ripemd160 : forall a b, bytes_ok a = true -> bytes_ok b = true -> zlen a < 2 ^ 61 -> zlen b < 2 ^ 61 -> ripemd160 a = ripemd160 b -> a = b \/ ripemd160_clash a b.
Proof. intros a b HA HB LA LB. exact (ripemd160_binds a b (conj HA LA) (conj HB LB)). Qed.
Print Assumptions C95_ripemd160.
Theorem C95_double_sha256 : forall a b, bytes_ok a = true -> bytes_ok b = true -> zlen a < 2 ^ 61 -> zlen b < 2 ^ 61 -> double_sha256 a = double_sha256 b -> a = b \/ double_sha256_clash a b.
Proof. intros a b HA HB LA LB. exact (double_sha256_binds a b (conj HA LA) (conj HB LB)). Qed.
Print Assumptions C95_double_sha256.
Theorem C95_hash160 : forall a b, bytes_ok a = true -> bytes_ok b = true -> zlen a < 2 ^ 61 -> zlen b < 2 ^ 61 -> hash160 a = hash160 b -> a = b \/ hash160_clash a b.
Proof. intros a b HA HB LA LB. exact (hash160_binds a b (conj HA LA) (conj HB LB)). Qed.
Print Assumptions C95_hash160.
(** The hash of a transaction names the transaction. *)
Theorem C95_tx_hash : forall t t' h, tx_wf t -> tx_wf t' ->
  (forall b, tx_to_bytes t = Ok b -> zlen b < 2 ^ 61) -> (forall b, tx_to_bytes t' = Ok b -> zlen b < 2 ^ 61) ->
  tx_hash double_sha256 t = Ok h -> tx_hash double_sha256 t' = Ok h ->
  t = t' \/ exists b b', tx_to_bytes t = Ok b /\ tx_to_bytes t' = Ok b' /\ double_sha256_clash b b'.
Proof. exact tx_hash_binds. Qed.
Print Assumptions C95_tx_hash.
(** The signature hash commits to what its flags include (C09 with the function that is used). *)
Theorem C95_signature_hash : forall c d h, call_wf c -> call_wf d ->
  Forall (fun x => zlen x < 2 ^ 61) (hashed_strings double_sha256 c ++ hashed_strings double_sha256 d) ->
  signature_hash double_sha256 (c_tx c) (c_index c) (c_value c) (c_script c) (c_sighash c) = Ok h ->
  signature_hash double_sha256 (c_tx d) (c_index d) (c_value d) (c_script d) (c_sighash d) = Ok h ->
  same_commitment c d \/
  (exists x y, In x (hashed_strings double_sha256 c ++ hashed_strings double_sha256 d) /\
               In y (hashed_strings double_sha256 c ++ hashed_strings double_sha256 d) /\ double_sha256_clash x y) \/
  exists x, In x (hashed_strings double_sha256 c ++ hashed_strings double_sha256 d) /\ double_sha256 x = repeat 0 32.
Proof. exact signature_hash_binds_real. Qed.
Print Assumptions C95_signature_hash.
(** The hash of a header names the whole chain of headers up to it. *)
Theorem C95_header_chain : forall x l x' l', header_chain double_sha256 (x :: l) -> header_chain double_sha256 (x' :: l') ->
  double_sha256 x = double_sha256 x' ->
  x :: l = x' :: l' \/ (exists y y', In y (x :: l) /\ In y' (x' :: l') /\ double_sha256_clash y y') \/
  exists y, In y (l ++ l') /\ double_sha256 y = repeat 0 32.
Proof. exact header_chain_binds. Qed.
Print Assumptions C95_header_chain.
(** A chain: the header after the genesis header of the main network (block 1). *)
Definition header_1 : bytes :=
  [1; 0; 0; 0] ++ double_sha256 genesis_mainnet ++
  [0x98; 0x20; 0x51; 0xfd; 0x1e; 0x4b; 0xa7; 0x44; 0xbb; 0xbe; 0x68; 0x0e; 0x1f; 0xee; 0x14; 0x67;
   0x7b; 0xa1; 0xa3; 0xc3; 0x54; 0x0b; 0xf7; 0xb1; 0xcd; 0xb6; 0x06; 0xe8; 0x57; 0x23; 0x3e; 0x0e] ++
  [0x61; 0xbc; 0x66; 0x49; 0xff; 0xff; 0x00; 0x1d; 0x01; 0xe3; 0x62; 0x99].
Lemma genesis_names c : In c all_coins -> names_previous (c_genesis_header c) (repeat 0 32).
Proof.
  intros HC. exists (ztake 4 (c_genesis_header c)), (zdrop 36 (c_genesis_header c)). cbn in HC. repeat destruct HC as [<-|HC]; try contradiction; repeat split.
Qed.
Example C95_example : header_chain double_sha256 [header_1; genesis_mainnet].
Proof.
  apply chain_next; [|apply chain_first; apply (genesis_names Bitcoin); now left].
  exists [1; 0; 0; 0], (zdrop 36 header_1). split; [|split; [reflexivity|split; [apply double_sha256_len|split]]].
  - unfold header_1. now vm_compute.
  - now vm_compute.
  - unfold header_1. rewrite !PyFacts.bytes_ok_app, double_sha256_ok. reflexivity.
Qed.

(** C96.  Each coin's genesis header has 80 bytes and no predecessor; its hash meets its own target, which is the coin's maximum target. *)
Lemma genesis_work : (le_int (double_sha256 genesis_mainnet) <=? 0xffff * 2 ^ 208) && (le_int (double_sha256 genesis_testnet) <=? 0xffff * 2 ^ 208) = true.
Proof. vm_compute. reflexivity. Qed.
Theorem C96_genesis : forall c, In c all_coins ->
  names_previous (c_genesis_header c) (repeat 0 32) /\
  exists b t, genesis_bits c = Ok b /\ max_target c = Ok t /\ compact b t /\ val_le (double_sha256 (c_genesis_header c)) <= t.
Proof.
  intros c HC. split; [now apply genesis_names|]. exists 0x1d00ffff, (0xffff * 2 ^ 208).
  split; [|split]; [cbn in HC; repeat destruct HC as [<-|HC]; try contradiction; vm_compute; reflexivity..|]. split.
  - right. split; [lia|]. exists 0xffff, 0x1d. vm_compute. repeat split; discriminate.
  - pose proof genesis_work as HW. apply andb_true_iff in HW as [H1 H2]. apply Z.leb_le in H1, H2. rewrite NumbersFacts.val_le_int.
    destruct HC as [<-|[<-|[<-|[<-|[]]]]]; cbn [c_genesis_header Bitcoin BitcoinTestnet BitcoinScalingTestnet BitcoinRegtest]; [exact H1|exact H2|exact H2|exact H2].
Qed.
Print Assumptions C96_genesis.
(** The hash of the main network's genesis header, as displayed. *)
Example C96_example : rev (double_sha256 genesis_mainnet) =
  [0; 0; 0; 0; 0; 0x19; 0xd6; 0x68; 0x9c; 0x08; 0x5a; 0xe1; 0x65; 0x83; 0x1e; 0x93;
   0x4f; 0xf7; 0x63; 0xae; 0x46; 0xa2; 0xa6; 0xc1; 0x72; 0xb3; 0xf1; 0xb6; 0x0a; 0x8c; 0xe2; 0x6f].
Proof. vm_compute. reflexivity. Qed.
