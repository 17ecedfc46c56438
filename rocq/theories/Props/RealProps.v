(** Signatures with the nonces of RFC 6979, and keys, addresses and messages with the functions that the code uses: C99 and C100.  No curve,
    hash function or nonce is left as an argument here. *)
From Verif.Model Require Import Py Text Packing Misc Curve Secp256k1 Coin Base58 Base64 Signature Der Keys Address Bip32 Ecdsa Hashes Nonce.
From Verif.Spec Require Import Numbers CurveSpec KeysSpec EcdsaSpec AddressSpec Bip32Spec HashSpec NonceSpec.
From Verif.Proofs Require Import PyFacts NumbersFacts PackingFacts ScriptTheorems CurveFacts KeysFacts DerFacts DerExact EcdsaFacts MessageFacts SecpLaws HashesExact NonceFacts SignExact.
From Verif.Props Require Import KeysProps KeyFormsProps AddressProps Bip32Props EcdsaProps HashesProps.
#[local] Opaque hmac_sha256 hmac_sha512 double_sha256 hash160 rfc6979_nonce secp256k1.

(** C99.  The nonces are the candidates of RFC 6979: for hashes below the order exactly those, *)
Theorem C99_nonce x secret h1 i T : octets x secret -> zlen h1 = 32 -> bytes_ok h1 = true -> val_be h1 < CURVE_ORDER ->
  (rfc6979_nonce h1 secret i = T <-> exists K, candidate CURVE_ORDER x h1 i K T).
Proof. intros. now apply nonce_exact. Qed.
(** for other hashes those that would be without the reduction modulo the order. *)
Theorem C99_nonce_unreduced x secret h1 i T : octets x secret -> zlen h1 = 32 -> bytes_ok h1 = true ->
  (rfc6979_nonce h1 secret i = T <-> exists K, candidate (2 ^ 256) x h1 i K T).
Proof.
  intros HS HL HB. apply nonce_exact; try assumption. rewrite val_be_int. pose proof (be_int_bound h1 HB) as [_ HH]. rewrite HL in HH. exact HH.
Qed.
(** Signing takes the first candidate that gives a signature.  With q the order that is RFC 6979; every hash is below q = 2^256. *)
Definition real_sign := privkey_sign secp256k1 secp_coords rfc6979_nonce.
Definition real_sign_recoverable := privkey_sign_recoverable secp256k1 secp_coords rfc6979_nonce.
Definition real_sign_message := sign_message secp256k1 secp_coords rfc6979_nonce.
Definition real_first := first_signed secp256k1 secp_coords.
Lemma secret_octets k : valid_privkey k -> octets (val_be (sk_secret k)) (sk_secret k) /\ seckey_verify (sk_secret k) = true.
Proof.
  intros (HB & HL & HR). split; [repeat split; assumption|]. unfold seckey_verify. rewrite <- val_be_int. apply andb_true_iff. split; apply Z.ltb_lt; lia.
Qed.
Lemma signed_range x z k r s recid : signed_with secp256k1 secp_coords x z k r s recid -> 0 < r < CURVE_ORDER /\ 0 < s < CURVE_ORDER /\ 0 <= recid <= 3.
Proof.
  intros (_ & R & s1 & _ & -> & Hr & Hs & _ & HC). pose proof order_pos as HP. pose proof (Z.mod_pos_bound (px secp_coords R) CURVE_ORDER ltac:(lia)) as HM. pose proof (law_px _ _ secp_coords_laws R) as HX. pose proof order_field as HF.
  assert (0 <= px secp_coords R / CURVE_ORDER <= 1) as HD by (split; [apply Z.div_pos; lia|]; enough (px secp_coords R / CURVE_ORDER < 2) by lia; apply Z.div_lt_upper_bound; lia).
  split; [lia|]. destruct (podd secp_coords R); destruct HC as [(H1 & -> & ->)|(H1 & -> & ->)]; lia.
Qed.
Lemma first_range q x h r s recid : real_first q x h r s recid -> 0 < r < CURVE_ORDER /\ 0 < s < CURVE_ORDER /\ 0 <= recid <= 3.
Proof. intros (n & K & T & _ & HS & _). exact (signed_range _ _ _ _ _ _ HS). Qed.
Lemma real_ecdsa q k h r s recid : valid_privkey k -> bytes_ok h = true -> zlen h = 32 -> val_be h < q ->
  ((exists fuel, ecdsa_sign secp256k1 secp_coords rfc6979_nonce fuel h (sk_secret k) = Ok (r, s, recid)) <-> real_first q (val_be (sk_secret k)) h r s recid).
Proof.
  intros HV HB HL Hq. destruct (secret_octets k HV) as [HO HS]. unfold ecdsa_sign. rewrite HS. exact (sign_exact secp256k1 secp_laws secp_coords secp_coords_laws q _ h (sk_secret k) HO HL HB Hq r s recid).
Qed.
Definition hashed (hasher : option (bytes -> bytes)) (m : bytes) : bytes := match hasher with Some f => f m | None => m end.
Lemma message_hash_is m hasher h : message_hash m hasher = Ok h <-> h = hashed hasher m /\ zlen h = 32.
Proof.
  unfold message_hash, hashed. cbv zeta. destruct hasher as [f|]; match goal with |- (if ?b then _ else _) = _ <-> _ => destruct b eqn:E end;
    [apply Z.eqb_eq in E|apply Z.eqb_neq in E|apply Z.eqb_eq in E|apply Z.eqb_neq in E]; split; try discriminate; try (intros HH; injection HH as <-; auto); intros [-> HL]; try reflexivity; contradiction.
Qed.
Theorem C99_sign q k m hasher d : valid_privkey k -> let h := hashed hasher m in bytes_ok h = true -> val_be h < q ->
  ((exists fuel, real_sign fuel k m hasher = Ok d) <->
   zlen h = 32 /\ exists r s recid, real_first q (val_be (sk_secret k)) h r s recid /\ der_form r s d).
Proof.
  intros HV h HB Hq. unfold real_sign, privkey_sign, sign_der. split.
  - intros (fuel & HE). apply bind_Ok in HE as (h' & HH & HE). apply message_hash_is in HH as [-> HL]. apply bind_Ok in HE as ([[r s] recid] & HS & HE). apply Ok_inj in HE.
    split; [exact HL|]. exists r, s, recid. assert (real_first q (val_be (sk_secret k)) h r s recid) as HF by (apply real_ecdsa; [exact HV|exact HB|exact HL|exact Hq|now exists fuel]). split; [exact HF|].
    apply first_range in HF. apply serialize_der_iff; [lia|lia|]. now symmetry.
  - intros (HL & r & s & recid & HF & HD). pose proof (first_range _ _ _ _ _ _ HF) as HR. apply real_ecdsa in HF as (fuel & HF); [|assumption..]. exists fuel.
    assert (message_hash m hasher = Ok h) as -> by (apply message_hash_is; auto). cbn [bind]. rewrite HF. cbn [bind]. apply serialize_der_iff in HD; [|lia|lia]. now rewrite HD.
Qed.
Lemma compact_is r s c : 0 < r < CURVE_ORDER -> 0 < s < CURVE_ORDER -> compact_form r s c <-> c = serialize_compact r s.
Proof.
  intros Hr Hs. pose proof order_lt as HO. unfold serialize_compact. destruct (bytes32_ok r) as [B1 L1], (bytes32_ok s) as [B2 L2]. split.
  - intros (br & bs & -> & M1 & M2 & HBc & <- & <-). rewrite bytes_ok_app in HBc. apply andb_true_iff in HBc as [Q1 Q2]. rewrite !val_be_int, !bytes32_be by assumption. reflexivity.
  - intros ->. exists (bytes32 r), (bytes32 s). rewrite bytes_ok_app, B1, B2, !val_be_int, !be_bytes32 by lia. repeat split; assumption.
Qed.
Theorem C99_sign_recoverable q k m hasher sig : valid_privkey k -> let h := hashed hasher m in bytes_ok h = true -> val_be h < q ->
  ((exists fuel, real_sign_recoverable fuel k m hasher = Ok sig) <->
   zlen h = 32 /\ exists r s recid c, real_first q (val_be (sk_secret k)) h r s recid /\ compact_form r s c /\ sig = c ++ [recid]).
Proof.
  intros HV h HB Hq. unfold real_sign_recoverable, privkey_sign_recoverable, sign_recoverable. split.
  - intros (fuel & HE). apply bind_Ok in HE as (h' & HH & HE). apply message_hash_is in HH as [-> HL]. apply bind_Ok in HE as ([[r s] recid] & HS & HE). apply Ok_inj in HE.
    split; [exact HL|]. exists r, s, recid, (serialize_compact r s). assert (real_first q (val_be (sk_secret k)) h r s recid) as HF by (apply real_ecdsa; [exact HV|exact HB|exact HL|exact Hq|now exists fuel]). split; [exact HF|].
    apply first_range in HF. split; [now apply compact_is|now symmetry].
  - intros (HL & r & s & recid & c & HF & HD & ->). pose proof (first_range _ _ _ _ _ _ HF) as HR. apply real_ecdsa in HF as (fuel & HF); [|assumption..]. exists fuel.
    assert (message_hash m hasher = Ok h) as -> by (apply message_hash_is; auto). cbn [bind]. rewrite HF. cbn [bind]. apply compact_is in HD; [|lia|lia]. now rewrite HD.
Qed.
(** Signed messages: a header byte, r and s; the hash is the double SHA-256 of the framed message. *)
Theorem C99_sign_message k m sig : valid_privkey k ->
  ((exists fuel, real_sign_message fuel k m (Some double_sha256) = Ok sig) <->
   exists mb pre r s recid c, message_bytes m = Ok mb /\ framed mb pre /\ real_first (2 ^ 256) (val_be (sk_secret k)) (double_sha256 pre) r s recid /\
     compact_form r s c /\ sig = (27 + (if sk_compressed k then 4 else 0) + recid) :: c).
Proof.
  intros HV. assert (forall pre, val_be (double_sha256 pre) < 2 ^ 256) as HQ.
  { intros pre. rewrite val_be_int. pose proof (be_int_bound _ (double_sha256_ok pre)) as [_ HH]. rewrite double_sha256_len in HH. exact HH. }
  assert (forall c recid f, zlen c = 64 -> 0 <= recid <= 3 -> to_message_signature (c ++ [recid]) f = Ok ((27 + (if f then 4 else 0) + recid) :: c)) as HT.
  { intros c recid f HL HR. unfold to_message_signature. rewrite pyindex_last. cbn [bind]. rewrite pack_byte_ok by (destruct f; lia). cbn [bind app]. rewrite slice_to_nonneg by lia. now rewrite ztake_app_exact by lia. }
  unfold real_sign_message, sign_message. split.
  - intros (fuel & HE). apply bind_Ok in HE as (pre & HN & HE). apply bind_Ok in HE as (rs & HS & HE). apply normalize_framed in HN as (mb & HM & HF).
    destruct (proj1 (C99_sign_recoverable (2 ^ 256) k pre (Some double_sha256) rs HV (double_sha256_ok pre) (HQ pre)) (ex_intro _ fuel HS)) as (_ & r & s & recid & c & HFi & HC & ->).
    pose proof (first_range _ _ _ _ _ _ HFi) as HR. pose proof HC as (br & bs & Ec & L1 & L2 & _). rewrite HT in HE; [|subst c; rewrite zlen_app; lia|lia]. apply Ok_inj in HE. exists mb, pre, r, s, recid, c. split; [exact HM|]. split; [exact HF|]. split; [exact HFi|]. split; [exact HC|now symmetry].
  - intros (mb & pre & r & s & recid & c & HM & HF & HFi & HC & ->). pose proof (first_range _ _ _ _ _ _ HFi) as HR.
    destruct (proj2 (C99_sign_recoverable (2 ^ 256) k pre (Some double_sha256) (c ++ [recid]) HV (double_sha256_ok pre) (HQ pre))) as (fuel & HS).
    { split; [apply double_sha256_len|]. exists r, s, recid, c. auto. }
    exists fuel. assert (normalize_message m = Ok pre) as -> by (apply normalize_framed; eauto). cbn [bind]. unfold real_sign_recoverable in HS. rewrite HS. cbn [bind]. destruct HC as (br & bs & -> & L1 & L2 & _). apply HT; [rewrite zlen_app; lia|lia].
Qed.
(** The number of attempts allowed does not matter once there is a signature, and a key signs a message in one way only. *)
Theorem C99_deterministic k m hasher fuel fuel' d d' : real_sign fuel k m hasher = Ok d -> real_sign fuel' k m hasher = Ok d' -> d = d'.
Proof.
  assert (forall f f' c h s g, sign_loop secp256k1 secp_coords rfc6979_nonce f c h s = Ok g -> (f <= f')%nat -> sign_loop secp256k1 secp_coords rfc6979_nonce f' c h s = Ok g) as HM.
  { induction f as [|f IH]; intros f' c h s g HE HL; [discriminate|]. destruct f' as [|f']; [lia|]. cbn [sign_loop] in *. cbv zeta in *. match goal with |- match ?t with _ => _ end = _ => destruct t end; [exact HE|]. apply IH; [exact HE|lia]. }
  unfold real_sign, privkey_sign, sign_der, ecdsa_sign. intros H1 H2. apply bind_Ok in H1 as (h & HH & H1). rewrite HH in H2. cbn [bind] in H2. apply bind_Ok in H1 as (g & HG & H1). apply bind_Ok in H2 as (g' & HG' & H2).
  destruct (seckey_verify (sk_secret k)); [|discriminate HG]. assert (g = g') as <-; [|congruence].
  apply (HM _ (Nat.max fuel fuel')) in HG; [|lia]. apply (HM _ (Nat.max fuel fuel')) in HG'; [|lia]. congruence.
Qed.
Print Assumptions C99_nonce.
Print Assumptions C99_nonce_unreduced.
Print Assumptions C99_sign.
Print Assumptions C99_sign_recoverable.
Print Assumptions C99_sign_message.
Print Assumptions C99_deterministic.
(** A known nonce (secret 1, SHA-256 of a text); and a signature of 5 by the secret 2 with the nonce 1. *)
Example C99_ex : to_hex (rfc6979_nonce (sha256 (txt "Satoshi Nakamoto")) (bytes32 1) 0) = txt "8f8a276c19f4149656b280621e358cce24f5f52542772691ee69063b74f15d15".
Proof. vm_compute. reflexivity. Qed.
Example C99_ex_key : octets 1 (bytes32 1) /\ valid_privkey (mk_privkey (bytes32 1) true Bitcoin) /\ bytes_ok (bytes32 77) = true /\ val_be (bytes32 77) < CURVE_ORDER.
Proof. unfold octets, valid_privkey, valid_secret. repeat split. Qed.

(** C100.  Private keys as WIF, addresses as text, extended keys as text. *)
Definition SHA := double_sha256.
Theorem C100_WIF k : valid_privkey k -> In (sk_coin k) all_coins -> exists t c', privkey_to_WIF SHA k None None = Ok t /\
  privkey_from_WIF SHA t = Ok (mk_privkey (sk_secret k) (sk_compressed k) c') /\ c_WIF_byte c' = c_WIF_byte (sk_coin k).
Proof. intros HV HC. apply (C51_roundtrip SHA double_sha256_ok double_sha256_len k None None HV HC). discriminate. Qed.
Theorem C100_address (P : pubkey secp256k1) c : In c all_coins -> exists a t, pubkey_to_address secp256k1 hash160 P None c = Ok a /\ address_to_string SHA a = Ok t /\ zlen t <= 35 /\
  address_from_string SHA t c = Ok a /\ address_hash160 a = hash160 (pubkey_to_bytes secp256k1 P None).
Proof.
  intros HC. set (h := hash160 (pubkey_to_bytes secp256k1 P None)). assert (pubkey_to_address secp256k1 hash160 P None c = Ok (P2PKH h c)) as HA.
  { unfold pubkey_to_address, make_P2PKH, validate_hash160, pubkey_hash160. fold h. unfold h. rewrite hash160_len. reflexivity. }
  destruct (C47_roundtrip SHA double_sha256_ok double_sha256_len c (P2PKH h c) HC) as (t & HT & HL & HF); [repeat split; [apply hash160_ok|apply hash160_len]|].
  exists (P2PKH h c), t. repeat split; assumption.
Qed.
(** Keys with the same address on a network are the same key in the same form, unless the computations of their hashes clash. *)
Theorem C100_address_of_one_key (P Q : pubkey secp256k1) c a b t : In c all_coins -> pubkey_to_address secp256k1 hash160 P None c = Ok a -> pubkey_to_address secp256k1 hash160 Q None c = Ok b ->
  address_to_string SHA a = Ok t -> address_to_string SHA b = Ok t ->
  (pk_point P = pk_point Q /\ pk_compressed P = pk_compressed Q) \/ hash160_clash (pubkey_to_bytes secp256k1 P None) (pubkey_to_bytes secp256k1 Q None).
Proof.
  intros HC HA HB HTa HTb. destruct (C100_address P c HC) as (a' & ta & HA' & _ & _ & _ & EA). destruct (C100_address Q c HC) as (b' & tb & HB' & HTb' & _ & _ & EB).
  pose proof (eq_trans (eq_sym HA) HA') as E1. pose proof (eq_trans (eq_sym HB) HB') as E2. apply Ok_inj in E1, E2. subst a' b'.
  assert (a = b) as <-.
  { assert (forall R x, pubkey_to_address secp256k1 hash160 R None c = Ok x -> address_of c x) as HO.
    { intros R x HX. unfold pubkey_to_address, make_P2PKH, validate_hash160, pubkey_hash160 in HX. rewrite hash160_len in HX. cbn [bind Z.eqb Pos.eqb negb] in HX. apply Ok_inj in HX. subst x. repeat split; [apply hash160_ok|apply hash160_len]. }
    exact (C47_injective SHA double_sha256_ok double_sha256_len c a b t HC (HO _ _ HA) (HO _ _ HB) HTa HTb). }
  destruct (C82_roundtrip secp256k1 P None secp_laws) as (RP & _ & LP). destruct (C82_roundtrip secp256k1 Q None secp_laws) as (RQ & _ & LQ).
  assert (forall R : pubkey secp256k1, bytes_ok (pubkey_to_bytes secp256k1 R None) = true) as HO by (intros R; apply (law_bytes secp256k1 secp_laws)).
  destruct (C95_hash160 (pubkey_to_bytes secp256k1 P None) (pubkey_to_bytes secp256k1 Q None) (HO P) (HO Q)) as [HE|HE]; [| |congruence| |right; exact HE].
  - rewrite LP. destruct (pk_compressed P); reflexivity.
  - rewrite LQ. destruct (pk_compressed Q); reflexivity.
  - left. rewrite HE in RP. pose proof (eq_trans (eq_sym RP) RQ) as E. apply Ok_inj in E. injection E as E1 E2. split; assumption.
Qed.
Theorem C100_xprv k : valid_xprv k -> d_depth (xprv_derivation k) <= 255 -> exists t c', xprv_to_string SHA k = Ok t /\
  bip32_key_from_string secp256k1 SHA t = Ok (inr (mk_xprv (mk_privkey (sk_secret (xprv_key k)) true c') (xprv_derivation k))) /\
  In c' all_coins /\ c_xprv_verbytes c' = c_xprv_verbytes (sk_coin (xprv_key k)).
Proof. exact (C52_private secp256k1 SHA double_sha256_ok double_sha256_len k). Qed.
Theorem C100_xpub (k : xpub secp256k1) : valid_xpub k -> d_depth (xpub_derivation k) <= 255 -> exists t c', xpub_to_string secp256k1 SHA k = Ok t /\
  bip32_key_from_string secp256k1 SHA t = Ok (inl (mk_xpub (mk_pubkey (pk_point (xpub_key k)) true c') (xpub_derivation k))) /\
  In c' all_coins /\ c_xpub_verbytes c' = c_xpub_verbytes (pk_coin (xpub_key k)).
Proof. exact (C52_public secp256k1 SHA secp_laws double_sha256_ok double_sha256_len k). Qed.
(** A key derived from a seed along a path, at most 255 deep, is written and read; from where the rest of the path is not hardened, the
    public keys can be derived without the private ones; messages signed with it verify with its public key and its address. *)
Definition real_child := xprv_child secp256k1 hash160 hmac_sha512.
Definition real_public_child := xpub_child secp256k1 hash160 hmac_sha512.
Theorem C100_wallet seed c root path k : In c all_coins -> xprv_from_seed hmac_sha512 seed c = Ok root -> follow real_child root path = Ok k ->
  valid_xprv k /\ d_depth (xprv_derivation k) = zlen path /\
  (zlen path <= 255 -> exists t c', xprv_to_string SHA k = Ok t /\ bip32_key_from_string secp256k1 SHA t = Ok (inr (mk_xprv (mk_privkey (sk_secret (xprv_key k)) true c') (xprv_derivation k)))) /\
  exists K, xprv_public_key secp256k1 k = Ok K /\
    (forall rest, Forall (fun n => n < 2 ^ 31) rest -> agree (fun k' K' => xprv_public_key secp256k1 k' = Ok K') (follow real_child k rest) (follow real_public_child K rest)) /\
    forall ex fuel m sig, real_sign_message fuel (xprv_key k) m (Some double_sha256) = Ok sig ->
      verify_message secp256k1 secp_coords ex (xpub_key K) (AsBytes sig) m (Some double_sha256) = Ok true /\
      forall coin, In coin all_coins -> exists a t, pubkey_to_address secp256k1 hash160 (xpub_key K) None coin = Ok a /\ address_to_string SHA a = Ok t /\
        verify_message_and_address secp256k1 secp_coords ex SHA hash160 (AsBytes sig) m (AddrObject a) (Some double_sha256) = Ok true /\
        verify_message_and_address secp256k1 secp_coords ex SHA hash160 (AsBytes sig) m (AddrText t) (Some double_sha256) = Ok true.
Proof.
  intros HC HR HF. destruct (C52_reachable secp256k1 hash160 hmac_sha512 secp_laws hash160_ok hash160_len hmac_sha512_ok hmac_sha512_len seed c root path k HC HR HF) as [HV HD].
  split; [exact HV|]. split; [exact HD|]. split.
  { intros HP. destruct (C100_xprv k HV) as (t & c' & H1 & H2 & _); [rewrite HD; exact HP|]. now exists t, c'. }
  destruct (C53_public_key secp256k1 secp_laws k HV) as (p & HK & HG). eexists. split; [exact HK|]. split.
  { intros rest HRe. exact (C53_path secp256k1 hash160 hmac_sha512 secp_laws hash160_ok hash160_len hmac_sha512_ok hmac_sha512_len rest k _ HV HK HRe). }
  intros ex fuel m sig HS. set (P := mk_pubkey p true (sk_coin (xprv_key k))). cbn [xpub_key]. fold P.
  assert (privkey_public_key secp256k1 (xprv_key k) = Ok P) as HP.
  { destruct HV as (HVk & HVc & _). destruct (C55_public_key secp256k1 secp_laws (xprv_key k) HVk) as (p' & E1 & E2). rewrite HVc in E1. pose proof (eq_trans (eq_sym E2) HG) as E. injection E as ->. exact E1. }
  split; [now apply (C73_message secp256k1 secp_laws secp_coords secp_coords_laws ex double_sha256 double_sha256_ok rfc6979_nonce NonceFacts.nonce_ok fuel (xprv_key k) m sig P HP HS)|].
  intros coin Hcoin. destruct (C100_address P coin Hcoin) as (a & t & HA & HT & _ & _ & _). exists a, t. split; [exact HA|]. split; [exact HT|].
  destruct (C73_address secp256k1 secp_laws secp_coords secp_coords_laws ex double_sha256 double_sha256_ok rfc6979_nonce NonceFacts.nonce_ok SHA hash160 fuel (xprv_key k) m sig P true double_sha256_ok double_sha256_len hash160_ok HP HS) as [V1 V2].
  unfold pubkey_to_address, make_P2PKH, validate_hash160, pubkey_hash160 in HA. rewrite hash160_len in HA. cbn [bind Z.eqb Pos.eqb negb] in HA. apply Ok_inj in HA. subst a. split; [apply V1|].
  assert (0 <= c_P2PKH_verbyte coin < 256) as Hb by (unfold all_coins in Hcoin; repeat (destruct Hcoin as [<-|Hcoin]; [vm_compute; split; congruence|]); destruct Hcoin).
  unfold address_to_string in HT. rewrite pack_byte_ok in HT by exact Hb. cbn [bind app] in HT. apply Ok_inj in HT. subst t. now apply V2.
Qed.
Print Assumptions C100_WIF.
Print Assumptions C100_address.
Print Assumptions C100_address_of_one_key.
Print Assumptions C100_xprv.
Print Assumptions C100_xpub.
Print Assumptions C100_wallet.
(** The first test vector of BIP32, and a key in WIF. *)
Example C100_ex : (k <- xprv_from_seed hmac_sha512 (zrange 0 16) Bitcoin ;; xprv_to_string SHA k) =
    Ok (txt "xprv9s21ZrQH143K3QTDL4LXw2F7HEK3wJUD2nW2nRk4stbPy6cq3jPPqjiChkVvvNKmPGJxWUtg6LnF5kejMRNNU3TGtRBeJgk33yuGBxrMPHi") /\
  privkey_to_WIF SHA (mk_privkey (bytes32 1) true Bitcoin) None None = Ok (txt "KwDiBf89QgGbjEhKnhXJuH7LrciVrZi3qYjgd9M7rFU73sVHnoWn").
Proof. split; vm_compute; reflexivity. Qed.
