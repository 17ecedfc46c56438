(** C108: AES without Cryptodome. *)
From Verif.Model Require Import Py Text Curve Secp256k1 Hashes Base64 Aes Cipher Pyaes Keys.
From Verif.Spec Require Import Numbers CurveSpec KeysSpec MiscSpec HashSpec AesSpec.
From Verif.Proofs Require Import PyFacts MiscFacts CurveFacts KeysFacts SecpLaws HashesExact HmacFacts EciesFacts CipherFacts CipherCbc CipherExact CipherTheorems PyaesFacts.
From Verif.Props Require Import KeysProps CipherProps.

(** What is encrypted does not depend on the library, whatever the arguments; nor does what is raised. *)
Theorem C108_encrypt key iv data : aes_encrypt_with_iv pyaes_encrypt key iv data = aes_encrypt_with_iv aes_cbc_encrypt key iv data.
Proof.
  unfold aes_encrypt_with_iv. rewrite pyaes_encrypt_is. destruct (append_padded data) as (n & Hn & HP & HX). rewrite HX.
  assert (zlen (append_padding data) <> 0) as HZ by (rewrite HP, zlen_app; unfold zlen at 2; rewrite repeat_length; pose proof (zlen_nonneg data); lia).
  destruct (Z.eqb_spec (zlen (append_padding data)) 0) as [H0|_]; [contradiction|]. cbn [orb negb Z.eqb]. unfold aes_cbc_encrypt.
  destruct (cbc_args key iv []) eqn:EA; [reflexivity|]. destruct (cbc_args key iv (append_padding data)) eqn:EB; [|reflexivity]. apply args_sizes in EB as [HS _]. rewrite good_args in EA by (exact HS || reflexivity). discriminate.
Qed.
Theorem C108_encrypt_says key iv m c : key_ok key -> bytes_ok iv = true -> zlen iv = 16 -> bytes_ok m = true ->
  (aes_encrypt_with_iv pyaes_encrypt key iv m = Ok c <-> exists p, padded m p /\ cbc_says (aes_says key) iv p c).
Proof. intros. rewrite C108_encrypt. now apply C97_encrypt. Qed.
(** What is decrypted does not depend on it either. *)
Theorem C108_decrypt key iv data m : aes_decrypt_with_iv pyaes_decrypt key iv data = Ok m <-> aes_decrypt_with_iv aes_cbc_decrypt key iv data = Ok m.
Proof.
  unfold aes_decrypt_with_iv. rewrite pyaes_decrypt_is. destruct (aes_cbc_decrypt key iv []) as [x|e] eqn:EN.
  - destruct (Z.eqb_spec (zlen data) 0) as [H0|H0]; cbn [orb].
    + apply zlen_0_nil in H0 as ->. rewrite EN. cbn [bind]. unfold aes_cbc_decrypt in EN. destruct (cbc_args key iv []); [|discriminate]. injection EN as <-. split; discriminate.
    + destruct (Z.eqb_spec (zlen data mod 16) 0) as [HM|HM]; cbn [negb]; [reflexivity|]. unfold aes_cbc_decrypt. destruct (cbc_args key iv data) eqn:EA; [apply args_sizes in EA as [_ HD]; contradiction|]. split; discriminate.
  - unfold aes_cbc_decrypt in *. destruct (cbc_args key iv []) eqn:EN'; [discriminate|]. injection EN as <-. destruct (cbc_args key iv data) eqn:EA; [|reflexivity]. apply args_sizes in EA as [HS _]. rewrite good_args in EN' by (exact HS || reflexivity). discriminate.
Qed.
(** What pyaes raises: Exception itself where Cryptodome raises ValueError for part of a block, or nothing for no data at all.
    Compare C97_errors. *)
Theorem C108_errors key iv data e : aes_decrypt_with_iv pyaes_decrypt key iv data = Err e <->
  e = ValueError /\ bad_sizes key iv \/
  e = PlainException /\ ~ bad_sizes key iv /\ (data = [] \/ zlen data mod 16 <> 0) \/
  e = BadPaddingError /\ ~ bad_sizes key iv /\ data <> [] /\ zlen data mod 16 = 0 /\ forall m p, padded m p -> aes_cbc_decrypt key iv data <> Ok p.
Proof.
  pose proof (proj2 (C97_errors key iv data e)) as HC. unfold aes_decrypt_with_iv in *. rewrite pyaes_decrypt_is.
  assert (bad_sizes key iv <-> ~ good_sizes key iv) as HBG by (unfold bad_sizes, good_sizes; lia).
  destruct (sizes_dec key iv) as [HG|HG].
  - unfold aes_cbc_decrypt at 1. rewrite good_args by (exact HG || reflexivity). destruct (Z.eqb_spec (zlen data) 0) as [H0|H0]; cbn [orb].
    + apply zlen_0_nil in H0 as ->. cbn [bind]. split; [intros H; injection H as <-; right; left; tauto|]. intros [(_ & HB)|[(-> & _)|(_ & _ & HN & _)]]; [tauto|reflexivity|now destruct HN].
    + assert (data <> []) as HN by (intros ->; now apply H0). destruct (Z.eqb_spec (zlen data mod 16) 0) as [HM|HM]; cbn [negb]; [rewrite HC; clear HC; tauto|].
      cbn [bind]. split; [intros H; injection H as <-; right; left; tauto|]. intros [(_ & HB)|[(-> & _)|(_ & _ & _ & HX & _)]]; [tauto|reflexivity|contradiction].
  - unfold aes_cbc_decrypt at 1. destruct (cbc_args key iv []) eqn:EA; [apply args_sizes in EA as [HS _]; contradiction|]. cbn [bind]. split; [intros H; injection H as <-; left; tauto|].
    intros [(-> & _)|[(_ & HX & _)|(_ & HX & _)]]; [reflexivity|tauto|tauto].
Qed.
(** "aes_decrypt_with_iv does the same whichever library there is" is false, and exactly for data that is empty or not whole blocks. *)
Theorem C108_refuted : exists key iv data e e', bytes_ok key = true /\ bytes_ok iv = true /\ bytes_ok data = true /\ ~ bad_sizes key iv /\
  aes_decrypt_with_iv aes_cbc_decrypt key iv data = Err e /\ aes_decrypt_with_iv pyaes_decrypt key iv data = Err e' /\ e <> e'.
Proof.
  exists (seq_bytes 16), fips_block, [], BadPaddingError, PlainException. split; [reflexivity|]. split; [reflexivity|]. split; [reflexivity|]. split; [intros [H|H]; apply H; [left|]; reflexivity|].
  split; [vm_compute; reflexivity|]. split; [vm_compute; reflexivity|discriminate].
Qed.
Theorem C108_differ key iv data : aes_decrypt_with_iv pyaes_decrypt key iv data <> aes_decrypt_with_iv aes_cbc_decrypt key iv data <->
  ~ bad_sizes key iv /\ (data = [] \/ zlen data mod 16 <> 0).
Proof.
  split.
  - intros HD. destruct (aes_decrypt_with_iv pyaes_decrypt key iv data) as [m|e] eqn:EP; [apply C108_decrypt in EP; congruence|]. apply C108_errors in EP as [(-> & HB)|[(_ & H)|(-> & HB & HN & HM & HF)]]; [|exact H|].
    + exfalso. apply HD. symmetry. apply (proj2 (C97_errors key iv data ValueError)). left. split; [reflexivity|]. now left.
    + exfalso. apply HD. symmetry. apply (proj2 (C97_errors key iv data BadPaddingError)). right. split; [reflexivity|]. split; [tauto|exact HF].
  - intros (HB & HD) HE. assert (aes_decrypt_with_iv pyaes_decrypt key iv data = Err PlainException) as HP by (apply C108_errors; auto). rewrite HP in HE. symmetry in HE. apply (proj2 (C97_errors key iv data PlainException)) in HE as [(HX & _)|(HX & _)]; discriminate.
Qed.
(** aes.py as it is run, with the library that was found: the ciphertexts are the same with both, and only without Cryptodome
    can Exception itself be raised. *)
Theorem C108_library b key iv data :
  aes_encrypt_with_iv (library_encrypt b) key iv data = aes_encrypt_with_iv aes_cbc_encrypt key iv data /\
  (aes_decrypt_with_iv (library_decrypt b) key iv data = Err PlainException <-> b = false /\ ~ bad_sizes key iv /\ (data = [] \/ zlen data mod 16 <> 0)).
Proof.
  split; [destruct b; [reflexivity|apply C108_encrypt]|]. destruct b; cbn [library_decrypt].
  - split; [|intros [HX _]; discriminate]. intros HE. apply (proj2 (C97_errors key iv data PlainException)) in HE as [(HX & _)|(HX & _)]; discriminate.
  - rewrite C108_errors. split; [intros [ [HX _]|[(_ & H)|(HX & _)] ]; [discriminate|auto|discriminate]|]. intros (_ & H). right. left. auto.
Qed.
Print Assumptions C108_library.
(** Messages hide the difference: decrypt_message turns every exception of either library into DecryptionError, so that everything proved
    in C98 holds without Cryptodome. *)
Theorem C108_messages (g : curve) sha512 hmac source (pub : pubkey g) m magic excess k t : 
  encrypt_message g sha512 hmac pyaes_encrypt source pub m magic = encrypt_message g sha512 hmac aes_cbc_encrypt source pub m magic /\
  decrypt_message g sha512 hmac pyaes_decrypt k t magic = decrypt_message g sha512 hmac aes_cbc_decrypt k t magic /\
  forall mt ta, encrypt_message_to_base64 g sha512 hmac pyaes_encrypt source pub mt magic = encrypt_message_to_base64 g sha512 hmac aes_cbc_encrypt source pub mt magic /\
    decrypt_message_arg g sha512 hmac pyaes_decrypt excess k ta magic = decrypt_message_arg g sha512 hmac aes_cbc_decrypt excess k ta magic.
Proof.
  assert (forall m, encrypt_message g sha512 hmac pyaes_encrypt source pub m magic = encrypt_message g sha512 hmac aes_cbc_encrypt source pub m magic) as HE.
  { intros m'. unfold encrypt_message. destruct (privkey_from_random source) as [e|e]; [|reflexivity]. cbn [bind]. unfold encrypt_message_with. destruct (ecdh_shared_secret g e pub); [|reflexivity]. cbn [bind]. now rewrite C108_encrypt. }
  assert (forall t, decrypt_message g sha512 hmac pyaes_decrypt k t magic = decrypt_message g sha512 hmac aes_cbc_decrypt k t magic) as HD.
  { intros t'. unfold decrypt_message. cbv zeta. destruct (zlen t' <? 81 + zlen magic); [reflexivity|]. destruct (negb (starts_with t' magic)); [reflexivity|].
    match goal with |- bind ?x _ = _ => destruct x as [p|e] end; [|reflexivity]. cbn [bind]. destruct (ecdh_shared_secret g k p) as [s|e]; [|reflexivity]. cbn [bind].
    match goal with |- (if ?b then _ else _) = _ => destruct b end; [reflexivity|].
    match goal with |- match aes_decrypt_with_iv _ ?a ?b ?c with _ => _ end = _ => pose proof (C108_decrypt a b c) as HX; destruct (aes_decrypt_with_iv pyaes_decrypt a b c) as [d|e]; destruct (aes_decrypt_with_iv aes_cbc_decrypt a b c) as [d'|e'] end.
    - pose proof (proj1 (HX d) eq_refl). congruence.
    - pose proof (proj1 (HX d) eq_refl). discriminate.
    - pose proof (proj2 (HX d') eq_refl). discriminate.
    - reflexivity. }
  split; [apply HE|]. split; [apply HD|]. intros mt ta. split.
  - unfold encrypt_message_to_base64, encrypt_message_arg. destruct mt; [destruct (utf8_encode _); [|reflexivity]|]; cbn [bind]; now rewrite HE.
  - unfold decrypt_message_arg. match goal with |- bind ?x _ = _ => destruct x as [p|e] end; [|reflexivity]. cbn [bind]. apply HD.
Qed.
Print Assumptions C108_encrypt.
Print Assumptions C108_encrypt_says.
Print Assumptions C108_decrypt.
Print Assumptions C108_errors.
Print Assumptions C108_refuted.
Print Assumptions C108_differ.
Print Assumptions C108_messages.
Example C108_ex :
  let key := seq_bytes 32 in let m := txt "forty bytes of text, forty bytes of text" in
  (c <- aes_encrypt_with_iv pyaes_encrypt key fips_block m ;; Ok (zlen c)) = Ok 48 /\
  (c <- aes_encrypt_with_iv pyaes_encrypt key fips_block m ;; aes_decrypt_with_iv aes_cbc_decrypt key fips_block c) = Ok m /\
  (c <- aes_encrypt_with_iv aes_cbc_encrypt key fips_block m ;; aes_decrypt_with_iv pyaes_decrypt key fips_block c) = Ok m /\
  aes_decrypt_with_iv pyaes_decrypt key fips_block (seq_bytes 17) = Err PlainException /\
  aes_decrypt_with_iv aes_cbc_decrypt key fips_block (seq_bytes 17) = Err ValueError /\
  aes_decrypt_with_iv pyaes_decrypt key fips_block (seq_bytes 32) = Err BadPaddingError.
Proof. vm_compute. repeat split. Qed.
