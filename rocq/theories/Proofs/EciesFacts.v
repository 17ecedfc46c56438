(** ECIES *)
From Verif.Model Require Import Py Text Packing Misc Curve Coin Base58 Aes Keys.
From Verif.Spec Require Import Numbers CurveSpec KeysSpec MiscSpec.
From Verif.Proofs Require Import PyFacts NumbersFacts PackingFacts ScriptFacts ScriptTheorems MiscFacts CurveFacts KeysFacts.

Lemma slice_to_end {A} (a c : list A) n : zlen c = n -> 0 < n -> slice_to (a ++ c) (- n) = a.
Proof.
  intros HL Hn. unfold slice_to, slice_bound. destruct (Z.ltb_spec (- n) 0); [|lia]. rewrite zlen_app, HL. pose proof (zlen_nonneg a). rewrite Z.max_r by lia. apply ztake_app_exact. lia.
Qed.
Lemma slice_from_end {A} (a c : list A) n : zlen c = n -> 0 < n -> slice_from (a ++ c) (- n) = c.
Proof.
  intros HL Hn. unfold slice_from, slice_bound. destruct (Z.ltb_spec (- n) 0); [|lia]. rewrite zlen_app, HL. pose proof (zlen_nonneg a). rewrite Z.max_r by lia. apply zdrop_app_exact. lia.
Qed.
Lemma slice_mid {A} (a b c : list A) i n : zlen a = i -> zlen c = n -> 0 < n -> pyslice (a ++ b ++ c) i (- n) = b.
Proof.
  intros HA HC Hn. unfold pyslice, slice_bound. pose proof (zlen_nonneg a). pose proof (zlen_nonneg b). destruct (Z.ltb_spec i 0); [lia|]. destruct (Z.ltb_spec (- n) 0); [|lia].
  rewrite !zlen_app. rewrite Z.min_l by lia. rewrite Z.max_r by lia. rewrite zdrop_app_exact by lia. apply ztake_app_exact. lia.
Qed.
Lemma starts_with_prefix b : forall a, starts_with a b = true <-> exists r, a = b ++ r.
Proof.
  induction b as [|y b IH]; intros a; [split; [now exists a|now destruct a]|]. destruct a as [|x a]; cbn [starts_with app].
  - split; [discriminate|]. intros (r & E). discriminate.
  - rewrite andb_true_iff, Z.eqb_eq, IH. split; [intros (-> & r & ->); now exists r|]. intros (r & E). injection E as -> ->. eauto.
Qed.
Lemma bytes_len_split (b : bytes) n : 0 <= n <= zlen b -> exists x y, b = x ++ y /\ zlen x = n.
Proof. intros Hn. exists (ztake n b), (zdrop n b). split; [symmetry; apply ztake_zdrop|]. rewrite zlen_ztake. lia. Qed.

Lemma padding_bytes m : bytes_ok m = true -> bytes_ok (append_padding m) = true.
Proof.
  intros HM. unfold append_padding. cbv zeta. rewrite bytes_ok_app, HM. unfold zrepeat. apply forallb_forall. intros x Hx. apply repeat_spec in Hx. subst x. pose proof (Z.mod_pos_bound (zlen m) 16 ltac:(lia)). unfold byte_ok. lia.
Qed.
Section Ecies.
  Variable C : curve.
  Hypothesis L : curve_laws C.
  Variable sha512 : bytes -> bytes.
  Hypothesis sha512_len : forall x, zlen (sha512 x) = 64.
  Hypothesis sha512_bytes : forall x, bytes_ok (sha512 x) = true.
  Variable hmac_sha256 : bytes -> bytes -> bytes.
  Hypothesis hmac_len : forall k x, zlen (hmac_sha256 k x) = 32.
  Variable enc dec : bytes -> bytes -> bytes -> result bytes.
  Hypothesis HCBC : cbc_laws enc dec.

  (** The initialization vector, the AES key and the MAC key *)
  Definition keys_of (P : pt C) : bytes * bytes * bytes :=
    let k := sha512 (pubkey_serialize C true P) in (pyslice k 0 16, pyslice k 16 32, slice_from k 32).
  Lemma keys_len P : zlen (fst (fst (keys_of P))) = 16 /\ zlen (snd (fst (keys_of P))) = 16.
  Proof using sha512_len.
    unfold keys_of. cbn [fst snd]. rewrite !pyslice_nonneg by lia. rewrite !zlen_ztake, !zlen_zdrop, sha512_len. split; lia.
  Qed.
  Lemma keys_bytes P : bytes_ok (fst (fst (keys_of P))) = true /\ bytes_ok (snd (fst (keys_of P))) = true.
  Proof using sha512_bytes.
    unfold keys_of. cbn [fst snd]. rewrite !pyslice_nonneg by lia. split; apply bytes_ok_ztake, bytes_ok_zdrop, sha512_bytes.
  Qed.
  Lemma from_random_valid source k : Forall (fun b => bytes_ok b = true) source -> privkey_from_random source = Ok k -> valid_privkey k /\ sk_compressed k = true.
  Proof.
    induction 1 as [|b r HB _ IH]; [discriminate|]. cbn [privkey_from_random]. destruct (make_privkey b true None) as [k'|e] eqn:E.
    - intros E'. injection E' as ->. apply make_privkey_Ok in E as (HV & _ & HC & _); [|exact HB]. auto.
    - destruct (is_ValueError e); [exact IH|discriminate].
  Qed.

  Lemma encrypt_spec (P : pubkey C) m magic e : bytes_ok m = true -> valid_privkey e -> sk_compressed e = true ->
    exists E S c, smul C (be_int (sk_secret e)) (Some (gen C)) = Some E /\ smul C (be_int (sk_secret e)) (Some (pk_point P)) = Some S /\
      enc (snd (fst (keys_of S))) (fst (fst (keys_of S))) (append_padding m) = Ok c /\ zlen c = zlen (append_padding m) /\ bytes_ok c = true /\
      dec (snd (fst (keys_of S))) (fst (fst (keys_of S))) c = Ok (append_padding m) /\
      encrypt_message_with C sha512 hmac_sha256 enc e P m magic =
        Ok ((magic ++ pubkey_serialize C true E ++ c) ++ hmac_sha256 (snd (keys_of S)) (magic ++ pubkey_serialize C true E ++ c)).
  Proof using L sha512_len sha512_bytes HCBC.
    intros HO HV HC. destruct (public_key_spec C L e HV) as (E & HE & HG). rewrite (gen_times_smul C L), val_be_int in HG.
    destruct (pubkey_mul_valid C L P (sk_secret e) HV) as (S & HS & HSm). destruct (keys_len S) as [H1 H2]. destruct (keys_bytes S) as [H3 H4].
    assert (HM : zlen (append_padding m) mod 16 = 0) by (destruct (append_padded m) as (n & _ & _ & HM); exact HM).
    destruct (cbc_inverse _ _ HCBC _ _ (append_padding m) H2 H1 HM H4 H3 (padding_bytes m HO)) as (c & Hc & HL & Hb & HD). exists E, S, c. repeat split; try assumption.
    unfold encrypt_message_with, ecdh_shared_secret. rewrite HS. cbn [bind]. cbv zeta. unfold pubkey_to_bytes, aes_encrypt_with_iv. cbn [pk_point].
    change (pyslice (sha512 (pubkey_serialize C true S)) 16 32) with (snd (fst (keys_of S))). change (pyslice (sha512 (pubkey_serialize C true S)) 0 16) with (fst (fst (keys_of S))).
    rewrite Hc. cbn [bind]. rewrite HE. cbn [bind]. cbn [pk_compressed pk_point]. rewrite HC. reflexivity.
  Qed.
  Lemma decrypt_parts k magic E P c mac : zlen E = 33 -> zlen mac = 32 -> 16 <= zlen c -> pubkey_parse C E = Some P -> valid_privkey k ->
    exists S, smul C (be_int (sk_secret k)) (Some P) = Some S /\
      decrypt_message C sha512 hmac_sha256 dec k ((magic ++ E ++ c) ++ mac) magic =
        (if bytes_eqb (hmac_sha256 (snd (keys_of S)) (magic ++ E ++ c)) mac
         then match aes_decrypt_with_iv dec (snd (fst (keys_of S))) (fst (fst (keys_of S))) c with Ok d => Ok d | Err _ => Err DecryptionError end
         else Err DecryptionError).
  Proof using L.
    clear sha512_len sha512_bytes hmac_len HCBC enc. intros HE Hmac Hc HP HV. destruct (pubkey_mul_valid C L (mk_pubkey P true Bitcoin) (sk_secret k) HV) as (S & HS & HSm). exists S. cbn [pk_point] in HSm. split; [exact HSm|].
    unfold decrypt_message. cbv zeta. rewrite !zlen_app, HE, Hmac. destruct (Z.ltb_spec (zlen magic + (33 + zlen c) + 32) (81 + zlen magic)); [lia|].
    assert (HSW : starts_with ((magic ++ E ++ c) ++ mac) magic = true) by (apply starts_with_prefix; exists ((E ++ c) ++ mac); now rewrite <- !app_assoc). rewrite HSW. cbn [negb].
    pose proof (zlen_nonneg magic).
    assert (HX : pyslice ((magic ++ E ++ c) ++ mac) (zlen magic) (zlen magic + 33) = E).
    { rewrite pyslice_nonneg by lia. rewrite <- !app_assoc, zdrop_app_exact by lia. apply ztake_app_exact. lia. }
    rewrite HX. unfold pubkey_from_bytes at 1. rewrite HP. cbn [bind]. rewrite HE. cbn [Z.eqb Pos.eqb]. unfold ecdh_shared_secret. rewrite HS. cbn [bind].
    assert (HY : pyslice ((magic ++ E ++ c) ++ mac) (zlen magic + 33) (-32) = c).
    { change (-32) with (- (32)). replace ((magic ++ E ++ c) ++ mac) with ((magic ++ E) ++ c ++ mac) by now rewrite <- !app_assoc. apply slice_mid; [rewrite zlen_app|..]; lia. }
    rewrite HY. change (-32) with (- (32)). rewrite slice_from_end, slice_to_end by lia.
    unfold pubkey_to_bytes. cbn [pk_point pk_compressed]. unfold keys_of. cbn [fst snd].
    destruct (bytes_eqb _ mac); reflexivity.
  Qed.
  (** Decrypting what was encrypted to the key *)
  Theorem ecies_roundtrip k P source m magic t : bytes_ok m = true -> valid_privkey k -> privkey_public_key C k = Ok P -> Forall (fun b => bytes_ok b = true) source ->
    encrypt_message C sha512 hmac_sha256 enc source P m magic = Ok t -> decrypt_message C sha512 hmac_sha256 dec k t magic = Ok m.
  Proof using L sha512_len sha512_bytes hmac_len HCBC.
    intros HO HV HP HF HE. unfold encrypt_message in HE. apply bind_Ok in HE as (e & He & HE). apply from_random_valid in He as [HVe HCe]; [|exact HF].
    destruct (encrypt_spec P m magic e HO HVe HCe) as (E & S & c & HE1 & HS1 & Hc & HcL & _ & HcD & HEq). rewrite HE in HEq.
    assert (HT : t = (magic ++ pubkey_serialize C true E ++ c) ++ hmac_sha256 (snd (keys_of S)) (magic ++ pubkey_serialize C true E ++ c)) by congruence. rewrite HT. clear HT HEq HE.
    destruct (public_key_point C L k P HV HP) as (HPt & _).
    assert (H16 : 16 <= zlen c). { rewrite HcL. destruct (append_padded m) as (n & Hn & HA & HM). pose proof (zlen_nonneg m). assert (0 < zlen (append_padding m)) by (rewrite HA, zlen_app; unfold zlen at 2; rewrite repeat_length; lia).
      apply Z.mod_divide in HM as (q & Hq); lia. }
    destruct (decrypt_parts k magic (pubkey_serialize C true E) E c (hmac_sha256 (snd (keys_of S)) (magic ++ pubkey_serialize C true E ++ c))) as (S' & HS' & ->); [apply (law_length C L)|apply hmac_len|exact H16|apply (law_parse C L)|exact HV|].
    assert (S' = S) as ->.
    { rewrite <- HE1 in HS'. rewrite <- HPt in HS1. destruct HV as (_ & _ & R1), HVe as (_ & _ & R2). rewrite val_be_int in R1, R2. rewrite <- (smul_mul C L) in HS', HS1 by lia. rewrite Z.mul_comm in HS'. congruence. }
    rewrite bytes_eqb_refl. unfold aes_decrypt_with_iv. rewrite HcD. cbn [bind]. rewrite (proj2 (strip_padded _ m)); [reflexivity|apply append_padded].
  Qed.
  (** Encryption does not fail *)
  Theorem ecies_encrypts (P : pubkey C) source m magic k : bytes_ok m = true -> Forall (fun b => bytes_ok b = true) source -> privkey_from_random source = Ok k ->
    exists t, encrypt_message C sha512 hmac_sha256 enc source P m magic = Ok t.
  Proof using L sha512_len sha512_bytes HCBC.
    intros HO HF HR. unfold encrypt_message. rewrite HR. cbn [bind]. apply from_random_valid in HR as [HV HC]; [|exact HF]. destruct (encrypt_spec P m magic k HO HV HC) as (E & S & c & _ & _ & _ & _ & _ & _ & ->). eauto.
  Qed.
  (** It gives bytes *)
  Theorem ecies_bytes (P : pubkey C) source m magic t : (forall k x, bytes_ok (hmac_sha256 k x) = true) -> bytes_ok m = true -> bytes_ok magic = true -> Forall (fun b => bytes_ok b = true) source ->
    encrypt_message C sha512 hmac_sha256 enc source P m magic = Ok t -> bytes_ok t = true.
  Proof using L sha512_len sha512_bytes HCBC.
    intros HH HO HMg HF HE. unfold encrypt_message in HE. apply bind_Ok in HE as (e & He & HE). apply from_random_valid in He as [HVe HCe]; [|exact HF].
    destruct (encrypt_spec P m magic e HO HVe HCe) as (E & S & c & _ & _ & _ & _ & Hb & _ & HEq). rewrite HE in HEq. injection HEq as ->.
    rewrite !bytes_ok_app, HMg, Hb, HH, (law_bytes C L). reflexivity.
  Qed.
  (** What decrypts *)
  Theorem ecies_accepts k t magic d : valid_privkey k -> decrypt_message C sha512 hmac_sha256 dec k t magic = Ok d ->
    exists E P S c mac, t = magic ++ E ++ c ++ mac /\ zlen E = 33 /\ zlen mac = 32 /\ pubkey_parse C E = Some P /\
      smul C (be_int (sk_secret k)) (Some P) = Some S /\ mac = hmac_sha256 (snd (keys_of S)) (magic ++ E ++ c) /\
      exists pd, dec (snd (fst (keys_of S))) (fst (fst (keys_of S))) c = Ok pd /\ padded d pd.
  Proof using L.
    clear sha512_len sha512_bytes hmac_len HCBC enc. intros HV HD. pose proof HD as HD0. unfold decrypt_message in HD. cbv zeta in HD. destruct (Z.ltb_spec (zlen t) (81 + zlen magic)) as [|HLen]; [discriminate|].
    destruct (starts_with t magic) eqn:HSW; [|discriminate]. apply starts_with_prefix in HSW as (r & ->). cbn [negb] in HD. rewrite zlen_app in HLen.
    destruct (bytes_len_split r 33 ltac:(lia)) as (E & r1 & -> & HE). rewrite zlen_app in HLen. destruct (bytes_len_split r1 (zlen r1 - 32) ltac:(lia)) as (c & mac & -> & Hc). rewrite zlen_app in *.
    assert (HX : pyslice (magic ++ E ++ c ++ mac) (zlen magic) (zlen magic + 33) = E).
    { pose proof (zlen_nonneg magic). rewrite pyslice_nonneg by lia. rewrite zdrop_app_exact by lia. apply ztake_app_exact. lia. }
    rewrite HX in HD. unfold pubkey_from_bytes at 1 in HD. destruct (pubkey_parse C E) as [P|] eqn:HP; [|discriminate]. clear HD.
    destruct (decrypt_parts k magic E P c mac HE ltac:(lia) ltac:(lia) HP HV) as (S & HS & HQ).
    replace ((magic ++ E ++ c) ++ mac) with (magic ++ E ++ c ++ mac) in HQ by now rewrite <- !app_assoc. rewrite HQ in HD0.
    destruct (bytes_eqb_spec (hmac_sha256 (snd (keys_of S)) (magic ++ E ++ c)) mac) as [HM|]; [|discriminate].
    exists E, P, S, c, mac. repeat split; try assumption; [lia|now symmetry|].
    unfold aes_decrypt_with_iv in HD0. destruct (dec _ _ c) as [pd|]; [|discriminate]. cbn [bind] in HD0. exists pd. split; [reflexivity|]. apply strip_padded.
    destruct (strip_padding pd); [|discriminate]. now injection HD0 as ->.
  Qed.
  Theorem ecies_errors k t magic e : valid_privkey k -> decrypt_message C sha512 hmac_sha256 dec k t magic = Err e -> e = DecryptionError.
  Proof using L.
    clear sha512_len sha512_bytes hmac_len HCBC enc. intros HV. unfold decrypt_message. cbv zeta. destruct (_ <? _); [now injection 1|]. destruct (negb _); [now injection 1|]. unfold pubkey_from_bytes at 1.
    destruct (pubkey_parse C _) as [P|] eqn:HP; [|now injection 1]. cbn [bind]. unfold ecdh_shared_secret.
    match goal with |- context [pubkey_multiply C ?Q (sk_secret k)] => destruct (pubkey_mul_valid C L Q (sk_secret k) HV) as (S & -> & _) end. cbn [bind].
    destruct (negb _); [now injection 1|]. destruct (aes_decrypt_with_iv _ _ _ _); [discriminate|now injection 1].
  Qed.
End Ecies.
