(** AES and the encrypted messages that use it: C97 and C98.  No cipher, curve or hash function is left as an argument here. *)
From Verif.Model Require Import Py Text Packing Curve Secp256k1 Hashes Base64 Aes Cipher Keys.
From Verif.Spec Require Import Numbers CurveSpec KeysSpec MiscSpec HashSpec AesSpec.
From Verif.Proofs Require Import PyFacts NumbersFacts MiscFacts CurveFacts KeysFacts SecpLaws HashesExact HmacFacts EciesFacts CipherFacts CipherCbc CipherExact CipherTheorems.
From Verif.Props Require Import KeysProps.

(** C97.  Keys of 16, 24 or 32 bytes. *)
Theorem C97_block key block out nk : bytes_ok key = true -> zlen key = 4 * nk -> nk = 4 \/ nk = 6 \/ nk = 8 -> bytes_ok block = true -> zlen block = 16 ->
  (encrypt_block (key_schedule key) (nk + 6) block = out <-> aes_says key block out).
Proof.
  intros HO HL HC HB HBL. assert (key_ok key) as HK by (split; [lia|exact HO]). apply block_exact; [exact HK|exact HL|]. apply good_ok. unfold zlen in HBL. split; [lia|exact HB].
Qed.
(** Each block has one image, and no other block has it. *)
Theorem C97_permutation key : key_ok key -> forall b, bytes_ok b = true -> zlen b = 16 ->
  (exists! c, aes_says key b c) /\ exists! a, bytes_ok a = true /\ aes_says key a b.
Proof.
  intros HK b HB HL. assert (good 16 b) as HG by (apply good_ok; unfold zlen in HL; split; [lia|exact HB]). split.
  - exists (E key b). split; [now apply E_exact|]. intros c HC. now apply E_exact in HC.
  - pose proof (D_good key HK b HG) as HD. exists (D key b). split.
    + split; [now apply good_ok in HD|]. apply E_exact; [exact HK|exact HD|]. now apply E_D.
    + intros a [HA HS]. assert (good 16 a) as HGa.
      { apply good_ok. split; [|exact HA]. destruct HS as (nk & w & s & _ & _ & _ & (s' & [HT _] & _) & _). unfold zlen in HT. lia. }
      apply E_exact in HS; [|exact HK|exact HGa]. rewrite <- HS. now apply D_E.
Qed.
Print Assumptions C97_block.
Print Assumptions C97_permutation.
Lemma padded_is m p : padded m p -> p = append_padding m.
Proof.
  intros (n & Hn & HP & HM). unfold append_padding, zrepeat. cbv zeta. assert (n = 16 - zlen m mod 16) as <-; [|exact HP]. rewrite HP, zlen_app in HM. unfold zlen at 2 in HM. rewrite repeat_length, Z2Nat.id in HM by lia.
  pose proof (Z.mod_pos_bound (zlen m) 16 ltac:(lia)) as HB. rewrite Zplus_mod in HM. destruct (Z.eq_dec n 16) as [->|NE].
  - change (16 mod 16) with 0 in HM. rewrite Z.add_0_r, Z.mod_mod in HM; lia.
  - rewrite (Z.mod_small n) in HM by lia. destruct (Z.lt_ge_cases (zlen m mod 16 + n) 16); [rewrite Z.mod_small in HM; lia|]. destruct (Z.eq_dec (zlen m mod 16 + n) 16); [lia|].
    replace (zlen m mod 16 + n) with (zlen m mod 16 + n - 16 + 1 * 16) in HM by lia. rewrite Z.mod_add, Z.mod_small in HM; lia.
Qed.
(** aes_encrypt_with_iv is CBC encryption of the padded data, aes_decrypt_with_iv its inverse. *)
Theorem C97_encrypt key iv m c : key_ok key -> bytes_ok iv = true -> zlen iv = 16 -> bytes_ok m = true ->
  (aes_encrypt_with_iv aes_cbc_encrypt key iv m = Ok c <-> exists p, padded m p /\ cbc_says (aes_says key) iv p c).
Proof.
  intros HK HI HL HM. pose proof (append_padded m) as HP. assert (whole iv (append_padding m)) as HW by (destruct HP as (n & _ & _ & HX); repeat split; [exact HL|exact HI|exact HX|now apply padding_bytes]).
  unfold aes_encrypt_with_iv. rewrite (cbc_exact key HK iv _ c HW). split; [eauto|]. intros (p & HPp & HS). now rewrite <- (padded_is m p HPp).
Qed.
Theorem C97_encrypts key iv m : key_ok key -> bytes_ok iv = true -> zlen iv = 16 -> bytes_ok m = true ->
  exists c, aes_encrypt_with_iv aes_cbc_encrypt key iv m = Ok c /\ bytes_ok c = true /\ zlen c = 16 * (zlen m / 16 + 1).
Proof.
  intros HK HI HL HM. pose proof (append_padded m) as HP. assert (whole iv (append_padding m)) as HW by (destruct HP as (n & _ & _ & HX); repeat split; [exact HL|exact HI|exact HX|now apply padding_bytes]).
  destruct (cbc_encrypted key HK iv _ HW) as (c & HE & HZ & HB & _). exists c. split; [exact HE|]. split; [exact HB|]. rewrite HZ. unfold append_padding, zrepeat. cbv zeta. rewrite zlen_app. unfold zlen at 2. rewrite repeat_length.
  pose proof (Z.mod_pos_bound (zlen m) 16 ltac:(lia)). pose proof (Z.div_mod (zlen m) 16 ltac:(lia)). lia.
Qed.
Theorem C97_decrypt key iv m c : key_ok key -> bytes_ok iv = true -> zlen iv = 16 -> bytes_ok c = true ->
  (aes_decrypt_with_iv aes_cbc_decrypt key iv c = Ok m <-> bytes_ok m = true /\ aes_encrypt_with_iv aes_cbc_encrypt key iv m = Ok c).
Proof.
  intros HK HI HL HC. unfold aes_decrypt_with_iv. split.
  - intros HD. apply bind_Ok in HD as (p & HD & HS). apply strip_padded in HS.
    assert (whole iv c) as HW by (unfold aes_cbc_decrypt in HD; destruct (cbc_args key iv c) eqn:EA; [|discriminate]; apply cbc_args_iff in EA as (_ & _ & HX); repeat split; assumption).
    destruct (cbc_decrypted key HK iv c HW) as (d & HD' & HZ & HB & HE). rewrite HD in HD'. injection HD' as <-. pose proof (padded_is m p HS) as HP.
    split; [|unfold aes_encrypt_with_iv; now rewrite <- HP]. destruct HS as (n & _ & -> & _). rewrite bytes_ok_app in HB. now apply andb_true_iff in HB.
  - intros [HM HE]. pose proof (append_padded m) as HP. assert (whole iv (append_padding m)) as HW by (destruct HP as (n & _ & _ & HX); repeat split; [exact HL|exact HI|exact HX|now apply padding_bytes]).
    destruct (cbc_encrypted key HK iv _ HW) as (c' & HE' & _ & _ & HD). unfold aes_encrypt_with_iv in HE. rewrite HE in HE'. injection HE' as <-. rewrite HD. cbn [bind]. now apply strip_padded.
Qed.
(** What they raise. *)
Definition bad_sizes (key iv : bytes) : Prop := ~ (zlen key = 16 \/ zlen key = 24 \/ zlen key = 32) \/ zlen iv <> 16.
Theorem C97_errors key iv data e :
  (aes_encrypt_with_iv aes_cbc_encrypt key iv data = Err e <-> e = ValueError /\ bad_sizes key iv) /\
  (aes_decrypt_with_iv aes_cbc_decrypt key iv data = Err e <->
     e = ValueError /\ (bad_sizes key iv \/ zlen data mod 16 <> 0) \/
     e = BadPaddingError /\ ~ (bad_sizes key iv \/ zlen data mod 16 <> 0) /\ forall m p, padded m p -> aes_cbc_decrypt key iv data <> Ok p).
Proof.
  assert (forall d, cbc_args key iv d = false <-> bad_sizes key iv \/ zlen d mod 16 <> 0) as HA by (intros d; rewrite <- not_true_iff_false, cbc_args_iff; unfold bad_sizes; lia).
  split.
  - unfold aes_encrypt_with_iv, aes_cbc_encrypt. specialize (HA (append_padding data)). destruct (append_padded data) as (n & _ & _ & HX). destruct (cbc_args key iv (append_padding data)).
    + split; [discriminate|]. intros (_ & HB). discriminate (proj2 HA (or_introl HB)).
    + split; [|intros (-> & _); reflexivity]. intros H. injection H as <-. split; [reflexivity|]. apply proj1 in HA. destruct (HA eq_refl) as [HB|HB]; [exact HB|contradiction].
  - unfold aes_decrypt_with_iv, aes_cbc_decrypt. specialize (HA data). destruct (cbc_args key iv data).
    + assert (~ (bad_sizes key iv \/ zlen data mod 16 <> 0)) as HN by (intros HB; discriminate (proj2 HA HB)). cbn [bind]. set (p := cbc_decrypt_blocks _ _ _). clearbody p. split.
      * intros H. right. split; [now apply strip_err in H|]. split; [exact HN|]. intros m p' HP HE. injection HE as <-. apply strip_padded in HP. rewrite HP in H. discriminate.
      * intros [(_ & HB)|(-> & _ & HF)]; [contradiction|]. destruct (strip_padding p) as [m|e'] eqn:ES; [|now apply strip_err in ES as ->]. apply strip_padded in ES. now destruct (HF m p ES).
    + pose proof (proj1 HA eq_refl) as HB. cbn [bind]. split; [intros H; injection H as <-; auto|]. intros [(-> & _)|(_ & HN & _)]; [reflexivity|contradiction].
Qed.
Print Assumptions C97_encrypt.
Print Assumptions C97_encrypts.
Print Assumptions C97_decrypt.
Print Assumptions C97_errors.
(** FIPS 197, appendices B and C; then two blocks of CBC and a refusal. *)
Definition seq_bytes (n : Z) : bytes := zrange 0 n.
Definition fips_block : bytes := map (fun i => 17 * i) (zrange 0 16).
Example C97_ex :
  to_hex (encrypt_block (key_schedule (seq_bytes 16)) 10 fips_block) = txt "69c4e0d86a7b0430d8cdb78070b4c55a" /\
  to_hex (encrypt_block (key_schedule (seq_bytes 24)) 12 fips_block) = txt "dda97ca4864cdfe06eaf70a0ec0d7191" /\
  to_hex (encrypt_block (key_schedule (seq_bytes 32)) 14 fips_block) = txt "8ea2b7ca516745bfeafc49904b496089" /\
  (c <- aes_encrypt_with_iv aes_cbc_encrypt (seq_bytes 16) fips_block (txt "twenty bytes of text") ;; Ok (zlen c, bytes_eqb (firstn 16 c) (skipn 16 c))) = Ok (32, false) /\
  (c <- aes_encrypt_with_iv aes_cbc_encrypt (seq_bytes 16) fips_block (txt "twenty bytes of text") ;; aes_decrypt_with_iv aes_cbc_decrypt (seq_bytes 16) fips_block c) = Ok (txt "twenty bytes of text") /\
  aes_decrypt_with_iv aes_cbc_decrypt (seq_bytes 16) fips_block fips_block = Err BadPaddingError /\
  aes_decrypt_with_iv aes_cbc_decrypt (seq_bytes 16) fips_block (seq_bytes 17) = Err ValueError.
Proof. vm_compute. repeat split. Qed.
Example C97_ex_key : key_ok (seq_bytes 16) /\ key_ok (seq_bytes 24) /\ key_ok (seq_bytes 32) /\ bytes_ok fips_block = true /\ zlen fips_block = 16.
Proof. unfold key_ok. repeat split; try reflexivity; auto. Qed.

(** C98.  The messages, with secp256k1, SHA-512, HMAC-SHA256 and AES. *)
Theorem aes_laws : cbc_laws aes_cbc_encrypt aes_cbc_decrypt.
Proof.
  split. intros key iv d HK HI HD HKo HIo HDo. destruct (cbc_encrypted key ltac:(split; [lia|exact HKo]) iv d ltac:(repeat split; assumption)) as (c & H). exists c. exact H.
Qed.
Definition real_encrypt := encrypt_message secp256k1 sha512 hmac_sha256 aes_cbc_encrypt.
Definition real_decrypt := decrypt_message secp256k1 sha512 hmac_sha256 aes_cbc_decrypt.
Lemma sha512_facts x : zlen (sha512 x) = 64 /\ bytes_ok (sha512 x) = true.
Proof. split; [apply sha512_len|apply sha512_ok]. Qed.
Lemma hmac_facts k x : zlen (hmac_sha256 k x) = 32 /\ bytes_ok (hmac_sha256 k x) = true.
Proof. split; [apply hmac_sha256_len|apply hmac_sha256_ok]. Qed.
Theorem C98_roundtrip k P source m magic t : bytes_ok m = true -> valid_privkey k -> privkey_public_key secp256k1 k = Ok P -> Forall (fun b => bytes_ok b = true) source ->
  real_encrypt source P m magic = Ok t -> real_decrypt k t magic = Ok m.
Proof. exact (C56_roundtrip secp256k1 sha512 hmac_sha256 _ _ secp_laws sha512_facts (fun k x => proj1 (hmac_facts k x)) aes_laws k P source m magic t). Qed.
Theorem C98_encrypts (P : pubkey secp256k1) source m magic k : bytes_ok m = true -> Forall (fun b => bytes_ok b = true) source -> privkey_from_random source = Ok k ->
  exists t, real_encrypt source P m magic = Ok t.
Proof. exact (C56_encrypts secp256k1 sha512 hmac_sha256 _ _ secp_laws sha512_facts aes_laws P source m magic k). Qed.
Theorem C98_base64 ex k P source m mb magic t : valid_privkey k -> privkey_public_key secp256k1 k = Ok P -> Forall (fun b => bytes_ok b = true) source -> bytes_ok magic = true ->
  match m with AsText s => utf8_encode s | AsBytes b => Ok b end = Ok mb -> (forall b, m = AsBytes b -> bytes_ok b = true) ->
  encrypt_message_to_base64 secp256k1 sha512 hmac_sha256 aes_cbc_encrypt source P m magic = Ok t ->
  decrypt_message_arg secp256k1 sha512 hmac_sha256 aes_cbc_decrypt ex k (AsText t) magic = Ok mb.
Proof. exact (C56_base64 secp256k1 sha512 hmac_sha256 _ _ ex secp_laws sha512_facts hmac_facts aes_laws k P source m mb magic t). Qed.
(** A message is the magic, a compressed point, a ciphertext and a MAC; the keys are thirds of the SHA-512 of the shared point.  [says] is
    for both directions. *)
Definition message_says (S : pt secp256k1) (magic E m t : bytes) : Prop :=
  exists key p c mac, sha512_says (secp_serialize true S) key /\ padded m p /\
    cbc_says (aes_says (firstn 16 (skipn 16 key))) (firstn 16 key) p c /\
    hmac_says sha256_says 64 (skipn 32 key) (magic ++ E ++ c) mac /\ t = magic ++ E ++ c ++ mac.
Lemma keys_third S : let key := sha512 (secp_serialize true S) in
  keys_of secp256k1 sha512 S = (firstn 16 key, firstn 16 (skipn 16 key), skipn 32 key) /\
  zlen (firstn 16 key) = 16 /\ bytes_ok (firstn 16 key) = true /\ key_ok (firstn 16 (skipn 16 key)) /\ bytes_ok (skipn 32 key) = true.
Proof.
  cbv zeta. destruct (keys_len secp256k1 sha512 (fun x => proj1 (sha512_facts x)) S) as [H1 H2]. destruct (keys_bytes secp256k1 sha512 (fun x => proj2 (sha512_facts x)) S) as [H3 H4].
  assert (keys_of secp256k1 sha512 S = (firstn 16 (sha512 (secp_serialize true S)), firstn 16 (skipn 16 (sha512 (secp_serialize true S))), skipn 32 (sha512 (secp_serialize true S)))) as HE.
  { unfold keys_of. rewrite !pyslice_nonneg by lia. rewrite slice_from_nonneg by lia. rewrite !zdrop_skipn, !ztake_firstn. reflexivity. }
  rewrite HE in H1, H2, H3, H4. cbn [fst snd] in *. split; [exact HE|]. split; [exact H1|]. split; [exact H3|]. split; [split; [left; exact H2|exact H4]|].
  change 32%nat with (Z.to_nat 32). rewrite <- zdrop_skipn. apply bytes_ok_zdrop, sha512_ok.
Qed.
Lemma message_iff S magic E m t : bytes_ok (magic ++ E) = true -> bytes_ok m = true ->
  (message_says S magic E m t <-> exists c, aes_encrypt_with_iv aes_cbc_encrypt (snd (fst (keys_of secp256k1 sha512 S))) (fst (fst (keys_of secp256k1 sha512 S))) m = Ok c /\
     bytes_ok c = true /\ 16 <= zlen c /\ t = (magic ++ E ++ c) ++ hmac_sha256 (snd (keys_of secp256k1 sha512 S)) (magic ++ E ++ c)).
Proof.
  intros HO HM. destruct (keys_third S) as (-> & HL & HI & HK & HB). cbn [fst snd]. set (key := sha512 (secp_serialize true S)) in *.
  assert (forall h, sha512_says (secp_serialize true S) h <-> key = h) as HS by (intros h; symmetry; apply sha512_exact; exact (law_bytes _ secp_laws true S)).
  assert (forall c, bytes_ok c = true -> bytes_ok (magic ++ E ++ c) = true) as HX by (intros c Hc; rewrite app_assoc, bytes_ok_app, HO; exact Hc).
  destruct (C97_encrypts _ _ m HK HI HL HM) as (c & HE & Hc & HZ). assert (16 <= zlen c) as H16 by (pose proof (Z.div_pos (zlen m) 16 (zlen_nonneg m)); lia).
  pose proof (hmac_sha256_exact (skipn 32 key) (magic ++ E ++ c)) as HH. split.
  - intros (h & p & c' & mac & H1 & H2 & H3 & H4 & ->). apply HS in H1. subst h. assert (aes_encrypt_with_iv aes_cbc_encrypt (firstn 16 (skipn 16 key)) (firstn 16 key) m = Ok c') as HE' by (apply C97_encrypt; eauto).
    assert (c' = c) as -> by congruence. apply HH in H4; [|exact HB|now apply HX]. exists c. rewrite H4. split; [exact HE|]. split; [exact Hc|]. split; [exact H16|]. now rewrite <- !app_assoc.
  - intros (c' & HE' & _ & _ & ->). assert (c' = c) as -> by congruence. apply C97_encrypt in HE; [|assumption..]. destruct HE as (p & HP & HC).
    exists key, p, c, (hmac_sha256 (skipn 32 key) (magic ++ E ++ c)). split; [now apply HS|]. split; [exact HP|]. split; [exact HC|]. split; [apply HH; auto|]. now rewrite <- !app_assoc.
Qed.
Lemma smul_times k p : valid_privkey k -> smul secp256k1 (be_int (sk_secret k)) p = times secp256k1 (Z.to_pos (val_be (sk_secret k))) p.
Proof.
  intros (_ & _ & HR). rewrite val_be_int in *. rewrite <- (pmul_times secp256k1 secp_laws). destruct (be_int (sk_secret k)); [lia|reflexivity|lia].
Qed.
Theorem C98_decrypt k t magic m : valid_privkey k -> bytes_ok t = true ->
  (real_decrypt k t magic = Ok m <->
   bytes_ok m = true /\ exists E P S, zlen E = 33 /\ secp_parse E = Some P /\ times secp256k1 (Z.to_pos (val_be (sk_secret k))) (Some P) = Some S /\ message_says S magic E m t).
Proof.
  intros HV HT. split.
  - intros HD. destruct (ecies_accepts secp256k1 secp_laws sha512 hmac_sha256 aes_cbc_decrypt k t magic m HV HD) as (E & P & S & c & mac & HE & HEL & HmL & HP & HS & HM & pd & HD' & Hpd).
    rewrite HE, !bytes_ok_app in HT. apply andb_true_iff in HT as [T1 HT]. apply andb_true_iff in HT as [T2 HT]. apply andb_true_iff in HT as [T3 T4].
    pose proof (keys_third S) as (HKe & HL & HI & HK & HB). assert (aes_decrypt_with_iv aes_cbc_decrypt (snd (fst (keys_of secp256k1 sha512 S))) (fst (fst (keys_of secp256k1 sha512 S))) c = Ok m) as HA by (unfold aes_decrypt_with_iv; rewrite HD'; cbn [bind]; now apply strip_padded).
    rewrite HKe in HA. cbn [fst snd] in HA. apply C97_decrypt in HA as [HO HA]; [|assumption..]. split; [exact HO|]. exists E, P, S. split; [exact HEL|]. split; [exact HP|]. split; [now rewrite <- smul_times|].
    apply message_iff; [rewrite bytes_ok_app, T1; exact T2|exact HO|]. exists c. rewrite HKe. cbn [fst snd]. split; [exact HA|]. split; [exact T3|]. split.
    + destruct (C97_encrypts _ _ m HK HI HL HO) as (c' & HE' & _ & HZ). assert (c' = c) as -> by congruence. pose proof (Z.div_pos (zlen m) 16 (zlen_nonneg m)). lia.
    + rewrite HE, HM, HKe. cbn [snd]. now rewrite <- !app_assoc.
  - intros (HO & E & P & S & HEL & HP & HS & HM). rewrite <- smul_times in HS by exact HV.
    assert (bytes_ok (magic ++ E) = true) as HB by (destruct HM as (h & p & c & mac & _ & _ & _ & _ & ->); rewrite app_assoc, bytes_ok_app in HT; now apply andb_true_iff in HT).
    apply message_iff in HM as (c & HA & Hc & H16 & ->); [|assumption..]. unfold real_decrypt.
    destruct (decrypt_parts secp256k1 secp_laws sha512 hmac_sha256 aes_cbc_decrypt k magic E P c (hmac_sha256 (snd (keys_of secp256k1 sha512 S)) (magic ++ E ++ c)) HEL (hmac_sha256_len _ _) H16 HP HV) as (S' & HS' & ->).
    pose proof (eq_trans (eq_sym HS') HS) as HQ. injection HQ as ->. rewrite bytes_eqb_refl. destruct (keys_third S) as (HKe & HL & HI & HK & _). rewrite HKe in *. cbn [fst snd] in *.
    rewrite (proj2 (C97_decrypt _ _ m c HK HI HL Hc)); [reflexivity|]. split; [exact HO|exact HA].
Qed.
Theorem C98_encrypt (P : pubkey secp256k1) source m magic t : bytes_ok m = true -> bytes_ok magic = true -> Forall (fun b => bytes_ok b = true) source ->
  (real_encrypt source P m magic = Ok t <->
   exists e Q S, privkey_from_random source = Ok e /\ gen_times secp256k1 (val_be (sk_secret e)) = Some Q /\
     times secp256k1 (Z.to_pos (val_be (sk_secret e))) (Some (pk_point P)) = Some S /\ message_says S magic (secp_serialize true Q) m t).
Proof.
  intros HM HMg HF. assert (forall Q, bytes_ok (magic ++ secp_serialize true Q) = true) as HB by (intros Q; rewrite bytes_ok_app, HMg; exact (law_bytes _ secp_laws true Q)).
  assert (forall e, privkey_from_random source = Ok e -> real_encrypt source P m magic = encrypt_message_with secp256k1 sha512 hmac_sha256 aes_cbc_encrypt e P m magic /\ valid_privkey e /\ sk_compressed e = true) as HR.
  { intros e He. split; [unfold real_encrypt, encrypt_message; rewrite He; reflexivity|]. now apply from_random_valid in He. }
  assert (forall e, privkey_from_random source = Ok e -> exists Q S, gen_times secp256k1 (val_be (sk_secret e)) = Some Q /\ times secp256k1 (Z.to_pos (val_be (sk_secret e))) (Some (pk_point P)) = Some S /\
    (real_encrypt source P m magic = Ok t <-> message_says S magic (secp_serialize true Q) m t)) as HX.
  { intros e He. destruct (HR e He) as (HEq & HV & HC). destruct (encrypt_spec secp256k1 secp_laws sha512 (fun x => proj1 (sha512_facts x)) (fun x => proj2 (sha512_facts x)) hmac_sha256 _ _ aes_laws P m magic e HM HV HC) as (Q & S & c & HQ & HS & HE & HL & Hc & _ & HT).
    exists Q, S. split; [now rewrite (gen_times_smul secp256k1 secp_laws), val_be_int|]. split; [now rewrite <- smul_times|]. rewrite HEq. rewrite message_iff by auto. split.
    - intros Ht. exists c. split; [exact HE|]. split; [exact Hc|]. split; [|pose proof (eq_trans (eq_sym Ht) HT) as HJ; injection HJ as HJ; exact HJ]. destruct (keys_third S) as (HKe & HL' & HI & HK & _). destruct (C97_encrypts _ _ m HK HI HL' HM) as (c' & HE' & _ & HZ). rewrite HKe in HE. cbn [fst snd] in HE. unfold aes_encrypt_with_iv in HE'. assert (c' = c) as -> by congruence. pose proof (Z.div_pos (zlen m) 16 (zlen_nonneg m)). lia.
    - intros (c' & HE' & _ & _ & ->). unfold aes_encrypt_with_iv in HE'. assert (c' = c) as -> by congruence. exact HT. }
  split.
  - intros HE. pose proof HE as HE0. unfold real_encrypt, encrypt_message in HE0. apply bind_Ok in HE0 as (e & He & _). destruct (HX e He) as (Q & S & HQ & HS & HI). exists e, Q, S. repeat split; try assumption. now apply HI.
  - intros (e & Q & S & He & HQ & HS & HMs). destruct (HX e He) as (Q' & S' & HQ' & HS' & HI). pose proof (eq_trans (eq_sym HQ') HQ) as H1. injection H1 as ->. pose proof (eq_trans (eq_sym HS') HS) as H2. injection H2 as ->. now apply HI.
Qed.
Print Assumptions C98_roundtrip.
Print Assumptions C98_encrypts.
Print Assumptions C98_base64.
Print Assumptions C98_decrypt.
Print Assumptions C98_encrypt.
(** Encrypting to the key 2 with the key 3: the first random value is not below the order.  By C98_roundtrip this decrypts. *)
Example C98_ex :
  (P <- privkey_public_key secp256k1 (sample_key 2 true) ;;
   t <- real_encrypt [zrepeat 255 32; bytes32 3] P (txt "sixteen bytes...and more") (txt "BIE1") ;;
   Ok (zlen t, ztake 37 t)) = Ok (101, txt "BIE1" ++ [2] ++ bytes32 0xF9308A019258C31049344F85F89D5229B531C845836F99B08601F113BCE036F9).
Proof. vm_compute. reflexivity. Qed.
