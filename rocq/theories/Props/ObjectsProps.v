(** C88-C90: comparison and hashing of objects, what is printed, and small conversions. *)
From Verif.Model Require Import Py Text Packing Misc Curve Coin Base58 Script Keys Bip32 Address Tx Objects.
From Verif.Spec Require Import Numbers ScriptSpec KeysSpec CurveSpec TxSpec AddressSpec ObjectsSpec.
From Verif.Proofs Require Import PyFacts NumbersFacts TextFacts ScriptFacts ScriptTheorems PackingFacts CurveFacts KeysFacts TxFacts AddressFacts TxJsonFacts ObjectsFacts.
From Verif.Props Require Import Base58Props KeysProps Bip32Props KeyFormsProps.

(** ** C88: == *)
Section Equality.
  Variable C : curve.
  Hypothesis L : curve_laws C.
  Lemma pubkeys_eqb_points (a : list (pubkey C)) : forall b, pubkeys_eqb C a b = true <-> map pk_point a = map pk_point b.
  Proof using L.
    induction a as [|x a IH]; intros [|y b]; cbn [pubkeys_eqb map]; try (split; [discriminate|discriminate]); [tauto|]. rewrite andb_true_iff, IH, (C82_equal C x y L). split; [intros [-> ->]; reflexivity|intros E; injection E; auto].
  Qed.
  Theorem C88_meaning (x y : obj C) : valid_obj x -> valid_obj y -> obj_eqb C x y = true <-> same x y.
  Proof using L.
    intros Hx Hy. split.
    - destruct x as [b|b|b|k|k|k|k|i o]; cbn [obj_eqb].
      1-3: destruct (obj_bytes C y) as [b'|] eqn:E; [|discriminate]; rewrite bytes_eqb_eq; intros ->; eapply same_bytes; [reflexivity|exact E].
      1-2: cbn [obj_priv]; destruct (obj_priv C y) as [k'|] eqn:E; [|discriminate]; intros HE; apply C81_equal in HE; [eapply same_priv; [reflexivity|exact E|exact HE]|apply Hx; reflexivity|apply Hy; exact E].
      1-2: cbn [obj_pub]; destruct (obj_pub C y) as [k'|] eqn:E; [|discriminate]; intros HE; apply (C82_equal C _ _ L) in HE; eapply same_pub; [reflexivity|exact E|exact HE].
      destruct y as [| | | | | | |j o']; try discriminate. destruct o as [[h c|h c]|k c|ks m| |], o' as [[h' c'|h' c']|k' c'|ks' m'| |]; cbn [output_eqb address_eqb]; try discriminate.
      + rewrite bytes_eqb_eq. intros ->. constructor.
      + rewrite bytes_eqb_eq. intros ->. constructor.
      + intros HE. apply (C82_equal C _ _ L) in HE. now constructor.
      + rewrite andb_true_iff, pubkeys_eqb_points, Z.eqb_eq. intros [HE ->]. now constructor.
      + constructor.
      + rewrite Z.eqb_eq. intros ->. constructor.
    - intros HS. destruct HS as [x y b E E'|x y k k' E E' HV|x y k k' E E' HP|i j h c d|i j h c d|i j k k' c d HP|i j ks ks' m HP|i j|i].
      + destruct x; try discriminate E; injection E as ->; cbn [obj_eqb]; rewrite E'; apply bytes_eqb_refl.
      + assert (HE : privkey_eqb k k' = true) by (apply C81_equal; [apply Hx; exact E|apply Hy; exact E'|exact HV]). destruct x; try discriminate E; cbn [obj_eqb]; rewrite E, E'; exact HE.
      + assert (HE : pubkey_eqb C k k' = true) by (apply (C82_equal C _ _ L); exact HP). destruct x; try discriminate E; cbn [obj_eqb]; rewrite E, E'; exact HE.
      + apply bytes_eqb_refl.
      + apply bytes_eqb_refl.
      + apply (C82_equal C _ _ L). exact HP.
      + cbn. rewrite Z.eqb_refl, andb_true_r. now apply pubkeys_eqb_points.
      + reflexivity.
      + cbn. apply Z.eqb_refl.
  Qed.
  (** An equivalence, and equal objects have equal hashes, whatever Python's hash functions are *)
  Lemma key_same x y : @valid_obj C x -> @valid_obj C y -> obj_eqb C x y = true -> same x y.
  Proof using L. intros Hx Hy. apply C88_meaning; assumption. Qed.
  Lemma same_secret k k' : valid_privkey k -> valid_privkey k' -> val_be (sk_secret k) = val_be (sk_secret k') -> sk_secret k = sk_secret k'.
  Proof using. clear. intros Hk Hk' HV. apply C81_equal in HV; [|assumption|assumption]. now apply bytes_eqb_eq. Qed.
  Theorem C88_equivalence (x y z : obj C) : valid_obj x -> valid_obj y -> valid_obj z ->
    obj_eqb C x x = true /\ (obj_eqb C x y = obj_eqb C y x) /\ (obj_eqb C x y = true -> obj_eqb C y z = true -> obj_eqb C x z = true).
  Proof using L.
    intros Hx Hy Hz. assert (HSym : forall a b : obj C, same a b -> same b a).
    { intros a b HS. destruct HS; try (constructor; auto); [eapply same_bytes; eauto|eapply same_priv; eauto|eapply same_pub; eauto]. }
    split; [|split].
    - apply C88_meaning; [assumption|assumption|]. destruct x as [b|b|b|k|k|k|k|i [[h c|h c]|k c|ks m| |]]; try (eapply same_bytes; reflexivity); try (eapply same_priv; reflexivity); try (eapply same_pub; reflexivity); constructor; reflexivity.
    - destruct (obj_eqb C x y) eqn:E, (obj_eqb C y x) eqn:E'; try reflexivity.
      + apply C88_meaning in E; [|assumption|assumption]. apply HSym, C88_meaning in E; [congruence|assumption|assumption].
      + apply C88_meaning in E'; [|assumption|assumption]. apply HSym, C88_meaning in E'; [congruence|assumption|assumption].
    - intros H1 H2. apply C88_meaning in H1; [|assumption|assumption]. apply C88_meaning in H2; [|assumption|assumption]. apply C88_meaning; [assumption|assumption|].
      destruct H1 as [x y b E E'|x y k k' E E' HV|x y k k' E E' HP|i j h c d|i j h c d|i j k k' c d HP|i j ks ks' m HP|i j|i]; inversion H2; subst; try discriminate; try (constructor; congruence);
        try (match goal with HA : obj_bytes C ?u = Some _, HB : obj_bytes C ?u = Some _ |- _ => rewrite HA in HB; injection HB as -> end; eapply same_bytes; eassumption);
        try (match goal with HA : obj_priv C ?u = Some _, HB : obj_priv C ?u = Some _ |- _ => rewrite HA in HB; injection HB as -> end; eapply same_priv; try eassumption; congruence);
        try (match goal with HA : obj_pub C ?u = Some _, HB : obj_pub C ?u = Some _ |- _ => rewrite HA in HB; injection HB as -> end; eapply same_pub; try eassumption; congruence);
        try (destruct y; discriminate).
  Qed.
  Theorem C88_hash (hash_bytes : bytes -> Z) (hash_tuple : list Z -> Z) (hash_id hash_reduce : Z -> Z) (x y : obj C) : (forall b, hash_reduce (hash_bytes b) = hash_bytes b) -> valid_obj x -> valid_obj y ->
    obj_eqb C x y = true -> obj_hash C hash_bytes hash_tuple hash_id hash_reduce x = obj_hash C hash_bytes hash_tuple hash_id hash_reduce y.
  Proof using L.
    intros HR Hx Hy HE. apply C88_meaning in HE; [|assumption|assumption].
    assert (HP : forall k k' : pubkey C, pk_point k = pk_point k' -> hash_pub C hash_bytes hash_reduce k = hash_pub C hash_bytes hash_reduce k') by (intros k k' E; unfold hash_pub, pubkey_to_bytes; now rewrite E).
    destruct HE as [x y b E E'|x y k k' E E' HV|x y k k' E E' HQ|i j h c d|i j h c d|i j k k' c d HQ|i j ks ks' m HQ|i j|i]; try reflexivity.
    - destruct x; try discriminate E; destruct y; try discriminate E'; injection E as ->; injection E' as ->; cbn [obj_hash]; rewrite ?HR; reflexivity.
    - pose proof (same_secret k k' (Hx k E) (Hy k' E') HV) as HS. destruct x; try discriminate E; destruct y; try discriminate E'; injection E as E; injection E' as E'; cbn [obj_hash]; subst; now rewrite HS.
    - destruct x; try discriminate E; destruct y; try discriminate E'; injection E as E; injection E' as E'; cbn [obj_hash]; subst; now apply HP.
    - cbn [obj_hash]. now rewrite (HP k k' HQ).
    - cbn [obj_hash]. replace (map (hash_pub C hash_bytes hash_reduce) ks') with (map (hash_pub C hash_bytes hash_reduce) ks); [reflexivity|]. clear - HP HQ. revert ks' HQ. induction ks as [|k ks IH]; intros [|k' ks'] HQ; try discriminate HQ; [reflexivity|]. cbn [map] in *. injection HQ as H1 H2. now rewrite (HP k k' H1), (IH ks' H2).
  Qed.
End Equality.
Print Assumptions C88_meaning.
Print Assumptions C88_equivalence.
Print Assumptions C88_hash.

Example C88_ex : curve_laws toy /\ valid_obj (OPriv toy (mk_privkey (zrepeat 1 32) true Bitcoin)) /\
  obj_eqb toy (OScript toy [1; 2]) (OBytes toy [1; 2]) = true /\ obj_eqb toy (OBytes toy [1; 2]) (OSignature toy [1; 3]) = false /\
  obj_eqb toy (OPriv toy (mk_privkey (zrepeat 1 32) true Bitcoin)) (OPriv toy (mk_privkey (zrepeat 1 32) false BitcoinTestnet)) = true /\
  obj_eqb toy (OPriv toy (mk_privkey (zrepeat 1 32) true Bitcoin)) (OBytes toy (zrepeat 1 32)) = false /\
  obj_eqb toy (OOut toy 1 OUnknown) (OOut toy 2 OUnknown) = false /\
  obj_eqb toy (OOut toy 1 (OAddress (P2PKH (zrepeat 1 20) Bitcoin))) (OOut toy 2 (OAddress (P2SH (zrepeat 1 20) Bitcoin))) = false.
Proof.
  split; [exact toy_laws|]. split; [|repeat split; vm_compute; reflexivity]. intros k E. injection E as <-. split; [vm_compute; reflexivity|]. split; vm_compute; intuition congruence.
Qed.

(** ** C89: what is printed *)
Definition hashes_ok (h : header) : Prop := bytes_ok (h_prev_hash h) = true /\ bytes_ok (h_merkle_root h) = true /\ bytes_ok (h_hash h) = true.
Ltac stop := eexists; eexists; split; [vm_compute; reflexivity|apply not_plain; lia].
Ltac chars := auto using hex_of_int_plain, str_of_int_plain, to_hex_plain, hash_hex_plain.
Ltac field E HE := apply field_txt in HE as [E HE]; [|stop|chars|chars].
(** All that a header's text leaves out is the raw bytes; the text ends where it says *)
Lemma header_text h h' r r' : hashes_ok h -> hashes_ok h' -> header_str h ++ r = header_str h' ++ r' ->
  h_version h = h_version h' /\ h_prev_hash h = h_prev_hash h' /\ h_merkle_root h = h_merkle_root h' /\ h_timestamp h = h_timestamp h' /\ h_bits h = h_bits h' /\ h_nonce h = h_nonce h' /\ h_hash h = h_hash h' /\ h_height h = h_height h' /\ r = r'.
Proof.
  intros (P1 & P2 & P3) (Q1 & Q2 & Q3). unfold header_str, header_hex_str. rewrite <- !app_assoc. intros HE. apply app_inv_head in HE.
  field E1 HE. field E2 HE. field E3 HE. field E4 HE. field E5 HE. field E6 HE. field E7 HE. field E8 HE. apply hex_of_int_inj in E1. apply hash_hex_inj in E2; [|assumption|assumption]. apply hash_hex_inj in E3; [|assumption|assumption].
  apply str_of_int_inj in E4, E5, E6, E8. apply hash_hex_inj in E7; [|assumption|assumption]. auto 10.
Qed.
Theorem C89_header h h' : hashes_ok h -> hashes_ok h' -> header_str h = header_str h' ->
  h_version h = h_version h' /\ h_prev_hash h = h_prev_hash h' /\ h_merkle_root h = h_merkle_root h' /\ h_timestamp h = h_timestamp h' /\ h_bits h = h_bits h' /\ h_nonce h = h_nonce h' /\ h_hash h = h_hash h' /\ h_height h = h_height h'.
Proof. intros H1 H2 HE. destruct (header_text h h' [] [] H1 H2 (f_equal (fun x => x ++ []) HE)) as (? & ? & ? & ? & ? & ? & ? & ? & _). auto 10. Qed.
Theorem C89_incorrect_bits h h' b b' : hashes_ok h -> hashes_ok h' -> incorrect_bits_str h b = incorrect_bits_str h' b' -> b = b' /\ header_str h = header_str h'.
Proof.
  intros H1 H2 HE. unfold incorrect_bits_str in HE. apply app_inv_head in HE. pose proof (header_text _ _ _ _ H1 H2 HE) as (V1 & V2 & V3 & V4 & V5 & V6 & V7 & V8 & HR). apply app_inv_head in HR. apply str_of_int_inj in HR.
  split; [exact HR|]. unfold header_str, header_hex_str. congruence.
Qed.
Theorem C89_insufficient_pow h h' s : hashes_ok h -> hashes_ok h' -> insufficient_pow_str h = Ok s -> insufficient_pow_str h' = Ok s -> header_str h = header_str h'.
Proof.
  intros H1 H2 E E'. unfold insufficient_pow_str in *. apply bind_Ok in E as (t & _ & E), E' as (t' & _ & E'). rewrite <- E' in E. apply Ok_inj in E. apply app_inv_head in E. rewrite <- ?app_assoc in E. pose proof (header_text _ _ _ _ H1 H2 E) as (V1 & V2 & V3 & V4 & V5 & V6 & V7 & V8 & HR).
  unfold header_str, header_hex_str. congruence.
Qed.
(** The bits are printed after 0x, but in decimal: they are right as hexadecimal exactly when below ten. *)
Definition bits_shown (n : Z) : pystr := str_of_int n.
Theorem C89_bits_exactly h n : 0 <= h_bits h -> 0 <= n ->
  (exists front back, header_str h = front ++ txt ", bits=0x" ++ bits_shown (h_bits h) ++ txt ", nonce=" ++ back) /\ (hex_value (bits_shown (h_bits h)) = h_bits h <-> h_bits h < 10) /\
  incorrect_bits_str h n = txt "header " ++ header_str h ++ txt " requires bits 0x" ++ bits_shown n /\ (hex_value (bits_shown n) = n <-> n < 10).
Proof.
  intros Hb Hn. split; [|split; [now apply hex_of_decimal|split; [reflexivity|now apply hex_of_decimal]]]. unfold header_str, bits_shown.
  eexists (txt "Header(version=0x" ++ hex_of_int (h_version h) ++ txt ", prev_hash=" ++ hash_to_hex_str (h_prev_hash h) ++ txt ", merkle_root=" ++ hash_to_hex_str (h_merkle_root h) ++ txt ", timestamp=" ++ str_of_int (h_timestamp h)), _.
  rewrite <- !app_assoc. reflexivity.
Qed.
Theorem C89_bits_refuted : exists h n, 0 <= h_bits h < 2 ^ 32 /\ 0 <= n < 2 ^ 32 /\ hex_value (bits_shown (h_bits h)) <> h_bits h /\ hex_value (bits_shown n) <> n.
Proof. exists (mk_header 1 [] [] 0 0x1d00ffff 0 [] [] 0), 0x1d00ffff. repeat split; vm_compute; discriminate. Qed.
Theorem C89_input i i' : bytes_ok (prev_hash i) = true -> bytes_ok (prev_hash i') = true -> bytes_ok (script_sig i) = true -> bytes_ok (script_sig i') = true -> input_repr i = input_repr i' -> i = i'.
Proof.
  intros P1 P2 Q1 Q2 HE. unfold input_repr in HE. apply app_inv_head in HE. field E1 HE. field E2 HE. field E3 HE. apply (f_equal (fun x => x ++ [])) in HE. rewrite <- !app_assoc in HE. field E4 HE.
  apply hash_hex_inj in E1; [|assumption|assumption]. apply to_hex_inj in E3; [|assumption|assumption]. apply str_of_int_inj in E2, E4. destruct i, i'; cbn in *; congruence.
Qed.
Theorem C89_output o o' : bytes_ok (script_pubkey o) = true -> bytes_ok (script_pubkey o') = true -> output_repr o = output_repr o' -> o = o'.
Proof.
  intros P Q HE. unfold output_repr in HE. apply app_inv_head in HE. field E1 HE. apply (f_equal (fun x => x ++ [])) in HE. rewrite <- !app_assoc in HE. field E2 HE.
  apply to_hex_inj in E2; [|assumption|assumption]. apply str_of_int_inj in E1. destruct o, o'; cbn in *; congruence.
Qed.
Theorem C89_derivation d d' : bytes_ok (d_chain_code d) = true -> bytes_ok (d_chain_code d') = true -> bytes_ok (d_parent_fingerprint d) = true -> bytes_ok (d_parent_fingerprint d') = true -> derivation_repr d = derivation_repr d' -> d = d'.
Proof.
  intros P1 P2 Q1 Q2 HE. unfold derivation_repr in HE. apply app_inv_head in HE. field E1 HE. field E2 HE. field E3 HE. apply (f_equal (fun x => x ++ [])) in HE. rewrite <- !app_assoc in HE. field E4 HE.
  apply to_hex_inj in E1; [|assumption|assumption]. apply to_hex_inj in E4; [|assumption|assumption]. apply str_of_int_inj in E2, E3. destruct d, d'; cbn in *; congruence.
Qed.
(** A private key's texts tell its SHA-256 and nothing else *)
Theorem C89_secret (S : bytes -> bytes) k k' : (forall x, bytes_ok (S x) = true) ->
  (privkey_str S (xprv_key k) = privkey_str S (xprv_key k') <-> S (sk_secret (xprv_key k)) = S (sk_secret (xprv_key k'))) /\
  (xprv_repr S k = xprv_repr S k' <-> S (sk_secret (xprv_key k)) = S (sk_secret (xprv_key k'))).
Proof.
  intros HS. assert (HP : privkey_str S (xprv_key k) = privkey_str S (xprv_key k') <-> S (sk_secret (xprv_key k)) = S (sk_secret (xprv_key k'))).
  { unfold privkey_str. split; [apply to_hex_inj; apply HS|now intros ->]. }
  split; [exact HP|]. rewrite <- HP. unfold xprv_repr. split; [|now intros ->]. intros HE. apply app_inv_head in HE. now apply app_inv_tail in HE.
Qed.
Print Assumptions C89_header.
Print Assumptions C89_incorrect_bits.
Print Assumptions C89_insufficient_pow.
Print Assumptions C89_bits_exactly.
Print Assumptions C89_bits_refuted.
Print Assumptions C89_input.
Print Assumptions C89_output.
Print Assumptions C89_derivation.
Print Assumptions C89_secret.
Example C89_ex : header_str (mk_header 0x20000000 [1; 2] [] 1231006505 0x1d00ffff 7 [171] [] 9) =
    txt "Header(version=0x20000000, prev_hash=0201, merkle_root=, timestamp=1231006505, bits=0x486604799, nonce=7, hash=ab, height=9)" /\
  output_repr (mk_output 5 [106]) = txt "TxOutput(value=5, script_pubkey=""6a"")".
Proof. split; vm_compute; reflexivity. Qed.

(** ** C90: scripts of keys, arguments that are keys, hexadecimal of parts of transactions, big-endian readers *)
Theorem C90_key_args (C : curve) (k : pubkey C) c : curve_laws C -> let k' := mk_pubkey (pk_point k) (pk_compressed k) Bitcoin in
  (forall a, In a [KeyObj C k; KeyBytes C (pubkey_to_bytes C k None); KeyHex C (pubkey_to_hex C k None)] -> exists o, new_P2PK C a c = Ok o /\ output_eqb C o (OP2PK k c) = true) /\
  new_P2PK C (KeyObj C k) c = Ok (OP2PK k c) /\ new_P2PK C (KeyBytes C (pubkey_to_bytes C k None)) c = Ok (OP2PK k' c) /\ new_P2PK C (KeyHex C (pubkey_to_hex C k None)) c = Ok (OP2PK k' c).
Proof.
  intros L k'. destruct (C82_roundtrip C k None L) as (HB & HH & _). cbv zeta in HB, HH. fold k' in HB, HH.
  assert (E1 : new_P2PK C (KeyObj C k) c = Ok (OP2PK k c)) by reflexivity.
  assert (E2 : new_P2PK C (KeyBytes C (pubkey_to_bytes C k None)) c = Ok (OP2PK k' c)) by (unfold new_P2PK; cbn [to_public_key]; rewrite HB; reflexivity).
  assert (E3 : new_P2PK C (KeyHex C (pubkey_to_hex C k None)) c = Ok (OP2PK k' c)) by (unfold new_P2PK; cbn [to_public_key]; rewrite HH; reflexivity).
  split; [|auto]. assert (HK : pubkey_eqb C k' k = true) by (apply (C82_equal C k' k L); reflexivity). assert (HK' : pubkey_eqb C k k = true) by (apply (C82_equal C k k L); reflexivity).
  intros a [<-|[<-|[<-|[]]]]; [exists (OP2PK k c)|exists (OP2PK k' c)|exists (OP2PK k' c)]; auto.
Qed.
Lemma forall2_len {A B} (R : A -> B -> Prop) l l' : Forall2 R l l' -> zlen l = zlen l'.
Proof. induction 1 as [|x y l l' _ _ IH]; [reflexivity|]. now rewrite !zlen_cons, IH. Qed.
(** A multisignature output can be made exactly of good arguments and a threshold in range *)
Theorem C90_multisig (C : curve) args t o : new_multisig C args t = Ok o <->
  exists ks, Forall2 (fun a k => to_public_key C a = Ok k) args ks /\ 1 <= t <= zlen args /\ o = OMultiSig ks t.
Proof.
  assert (HM : forall ks, mapM (to_public_key C) args = Ok ks <-> Forall2 (fun a k => to_public_key C a = Ok k) args ks).
  { induction args as [|a args IH]; intros ks; cbn [mapM].
    - split; [intros E; injection E as <-; constructor|intros H; inversion H; reflexivity].
    - split.
      + intros E. apply bind_Ok in E as (k & E1 & E). apply bind_Ok in E as (r & E2 & E). apply Ok_inj in E. subst ks. constructor; [exact E1|]. now apply IH.
      + intros H. inversion H as [|? k ? r H1 H2]; subst. rewrite H1. cbn [bind]. apply IH in H2. rewrite H2. reflexivity. }
  unfold new_multisig. split.
  - intros E. apply bind_Ok in E as (ks & E1 & E). unfold make_multisig in E. destruct ((1 <=? t) && (t <=? zlen ks)) eqn:HT; [|discriminate]. apply Ok_inj in E. exists ks. apply HM in E1. split; [exact E1|]. split; [|now symmetry].
    apply forall2_len in E1. rewrite E1. lia.
  - intros (ks & HF & HT & ->). pose proof (forall2_len _ _ _ HF) as HL. apply HM in HF. rewrite HF. cbn [bind]. unfold make_multisig. rewrite <- HL. replace ((1 <=? t) && (t <=? zlen args)) with true by lia. reflexivity.
Qed.
(** The scripts a key makes are the standard ones, byte for byte, and classify back *)
Theorem C90_scripts (C : curve) (H160 : bytes -> bytes) (k : pubkey C) c : curve_laws C -> (forall x, bytes_ok (H160 x) = true) -> (forall x, zlen (H160 x) = 20) ->
  let key := pubkey_to_bytes C k None in
  P2PK_script C k = Ok ([if pk_compressed k then 33 else 65] ++ key ++ [172]) /\ P2PKH_script C H160 k = Ok ([118; 169; 20] ++ H160 key ++ [136; 172]) /\
  (exists s, P2PKH_script C H160 k = Ok s /\ classify_output_script C s c = Ok (OAddress (P2PKH (H160 key) c))) /\
  (exists s, P2PK_script C k = Ok s /\ classify_output_script C s c = Ok (OP2PK (mk_pubkey (pk_point k) (pk_compressed k) Bitcoin) c)).
Proof.
  intros L HB HZ key. assert (HP : forall d, 2 <= zlen d < 76 -> push_item d = Ok (zlen d :: d)).
  { intros d Hd. rewrite push_item_plain; [|intros [(n & -> & _)| ->]; rewrite zlen_cons, zlen_nil in Hd; lia|lia]. unfold plain_push. destruct (Z.leb_spec (zlen d) 75); [reflexivity|lia]. }
  assert (HK : zlen key = if pk_compressed k then 33 else 65) by apply (law_length C L).
  assert (E1 : P2PK_script C k = Ok ([if pk_compressed k then 33 else 65] ++ key ++ [172])).
  { unfold P2PK_script. cbn [to_script_bytes]. fold key. rewrite HP by (rewrite HK; destruct (pk_compressed k); lia). rewrite HK. reflexivity. }
  assert (E2 : P2PKH_script C H160 k = Ok ([118; 169; 20] ++ H160 key ++ [136; 172])).
  { unfold P2PKH_script, pubkey_to_address, make_P2PKH, validate_hash160, pubkey_hash160. fold key. rewrite HZ. cbn [bind Z.eqb Pos.eqb negb address_script]. rewrite HP by (rewrite HZ; lia). rewrite HZ. reflexivity. }
  split; [exact E1|]. split; [exact E2|]. split.
  - eexists. split; [exact E2|]. refine (proj2 (own_script C L (OAddress (P2PKH (H160 key) c)) c _ (conj (HB key) (HZ key)) _)). cbn [to_script_bytes address_script]. rewrite HP by (rewrite HZ; lia). rewrite HZ. reflexivity.
  - eexists. split; [exact E1|]. exact (proj2 (own_script C L (OP2PK k (pk_coin k)) c _ I E1)).
Qed.
(** Inputs and outputs as hexadecimal *)
Theorem C90_input_hex i : input_wf i -> exists h, input_to_hex i = Ok h /\ input_from_hex h = Ok i.
Proof.
  intros HW. destruct (c_enc input_codec i HW) as (b & HE & HB). exists (to_hex b). unfold input_to_hex, input_from_hex, input_from_bytes. rewrite HE, from_hex_to_hex by exact HB. split; [reflexivity|]. cbn [bind].
  pose proof (c_rt input_codec i b [] HW HE) as HR. rewrite app_nil_r in HR. rewrite HR. reflexivity.
Qed.
Theorem C90_output_hex o : output_wf o -> exists h, output_to_hex o = Ok h /\ output_from_hex h = Ok o.
Proof.
  intros HW. destruct (c_enc output_codec o HW) as (b & HE & HB). exists (to_hex b). unfold output_to_hex, output_from_hex, output_from_bytes. rewrite HE, from_hex_to_hex by exact HB. split; [reflexivity|]. cbn [bind].
  pose proof (c_rt output_codec o b [] HW HE) as HR. rewrite app_nil_r in HR. rewrite HR. reflexivity.
Qed.
(** The readers of fixed-width big-endian numbers: the next bytes' value, or struct.error if they are too few *)
Definition reads (width : Z) (val : bytes -> Z) (r : reader Z) : Prop :=
  (forall front rest, bytes_ok front = true -> zlen front = width -> r (front ++ rest) = Ok (val front, rest)) /\ (forall s, zlen s < width -> r s = Err StructError).
Lemma read_fixed_reads n lo hi val pack unpack : Z.of_nat n < 2 ^ 63 -> fixed_width_spec (Z.of_nat n) lo hi val pack unpack -> reads (Z.of_nat n) val (read_fixed n unpack).
Proof.
  intros Hn (_ & _ & HU & HS). assert (HR : (2 ^ 63 <=? Z.of_nat n) = false) by lia. split.
  - intros front rest HB HL. unfold read_fixed, read. rewrite HR. cbn [bind]. rewrite ztake_app_exact, zdrop_app_exact by (symmetry; exact HL). rewrite (proj1 (HU front HB HL)). reflexivity.
  - intros s Hs. unfold read_fixed, read. rewrite HR. cbn [bind]. rewrite HS; [reflexivity|]. pose proof (zlen_nonneg s). rewrite zlen_ztake. unfold bytes in *. lia.
Qed.
Theorem C90_readers : reads 2 val_be read_be_uint16 /\ reads 4 val_be read_be_uint32 /\ reads 8 val_be read_be_uint64 /\
  reads 2 val_le read_le_uint16 /\ reads 4 val_le read_le_uint32 /\ reads 8 val_le read_le_uint64.
Proof.
  split; [|split; [|split; [|split; [|split]]]].
  - exact (read_fixed_reads 2 _ _ _ _ _ ltac:(lia) (uint_be_spec 2)).
  - exact (read_fixed_reads 4 _ _ _ _ _ ltac:(lia) (uint_be_spec 4)).
  - exact (read_fixed_reads 8 _ _ _ _ _ ltac:(lia) (uint_be_spec 8)).
  - exact (read_fixed_reads 2 _ _ _ _ _ ltac:(lia) (uint_le_spec 2)).
  - exact (read_fixed_reads 4 _ _ _ _ _ ltac:(lia) (uint_le_spec 4)).
  - exact (read_fixed_reads 8 _ _ _ _ _ ltac:(lia) (uint_le_spec 8)).
Qed.
(** A hash's value is what its displayed text denotes in hexadecimal *)
Theorem C90_hash_value h : bytes_ok h = true -> hash_to_value h = hex_value (hash_to_hex_str h) /\ hash_to_value h = val_le h.
Proof.
  intros HB. unfold hash_to_value. rewrite <- val_le_int. split; [|reflexivity]. unfold hash_to_hex_str, hex_value.
  assert (HG : forall b acc, bytes_ok b = true -> fold_left (fun a c => 16 * a + (if c <? 58 then c - 48 else c - 87)) (to_hex b) acc = fold_left (fun a d => 256 * a + d) b acc).
  { induction b as [|x b IH]; intros acc HX; [reflexivity|]. rewrite bytes_ok_cons, andb_true_iff in HX. destruct HX as [Hx HX]. unfold byte_ok in Hx. cbn [to_hex fold_left]. rewrite (proj2 (hex_char_ok (x / 16) ltac:(lia))), (proj2 (hex_char_ok (x mod 16) ltac:(lia))), IH by exact HX. f_equal. lia. }
  rewrite HG by (now rewrite bytes_ok_rev). rewrite val_le_int. fold (val_be (rev h)). now rewrite val_be_rev, rev_involutive.
Qed.
Theorem C90_total_value t : total_output_value t = fold_right (fun o a => value o + a) 0 (outputs t).
Proof. unfold total_output_value. induction (outputs t) as [|o l IH]; [reflexivity|]. cbn [map zsum fold_right] in *. now rewrite <- IH. Qed.
(** A random extended key is made of the first 64 bytes whose first half is a key *)
Theorem C90_random source k : Forall (fun b => bytes_ok b = true) source -> xprv_from_random source = Ok k ->
  sk_compressed (xprv_key k) = true /\ sk_coin (xprv_key k) = Bitcoin /\ d_n (xprv_derivation k) = 0 /\ d_depth (xprv_derivation k) = 0 /\ d_parent_fingerprint (xprv_derivation k) = [0; 0; 0; 0] /\
  exists bad data rest, source = bad ++ data :: rest /\ data = sk_secret (xprv_key k) ++ d_chain_code (xprv_derivation k) /\ valid_secret (sk_secret (xprv_key k)) /\ Forall (fun b => ~ valid_secret (ztake 32 b)) bad.
Proof.
  induction 1 as [|b r HB _ IH]; [discriminate|]. cbn [xprv_from_random]. unfold xprv_from_parts, make_xprv. rewrite slice_to_nonneg, slice_from_nonneg by lia. destruct (make_privkey (ztake 32 b) true (Some Bitcoin)) as [k'|e] eqn:E; cbn [bind].
  - intros E'. apply Ok_inj in E'. subst k. apply make_privkey_Ok in E as (HV & HS & HC & HCo); [|now apply bytes_ok_ztake]. cbn. split; [exact HC|]. split; [exact HCo|]. split; [reflexivity|]. split; [reflexivity|]. split; [reflexivity|]. exists [], b, r. rewrite HS, ztake_zdrop. split; [reflexivity|]. split; [reflexivity|]. split; [rewrite <- HS; exact HV|constructor].
  - intros HE. assert (is_ValueError e = true) as HX by (apply make_privkey_Err in E as ->; reflexivity). rewrite HX in HE. destruct (IH HE) as (H1 & H2 & H3 & H4 & H5 & bad & data & rest & -> & HD & HV & HF). repeat (split; [assumption|]). exists (b :: bad), data, rest. split; [reflexivity|]. split; [exact HD|]. split; [exact HV|].
    constructor; [|exact HF]. intros HVb. rewrite (make_privkey_valid _ true (Some Bitcoin) HVb) in E. discriminate E.
Qed.
Print Assumptions C90_key_args.
Print Assumptions C90_multisig.
Print Assumptions C90_scripts.
Print Assumptions C90_input_hex.
Print Assumptions C90_output_hex.
Print Assumptions C90_readers.
Print Assumptions C90_hash_value.
Print Assumptions C90_total_value.
Print Assumptions C90_random.
Example C90_ex_values : hash_to_value [1; 2] = 513 /\ hash_to_hex_str [1; 2] = txt "0201" /\ read_be_uint32 [0; 0; 1; 2; 9] = Ok (258, [9]) /\ read_be_uint64 [1; 2] = Err StructError /\
  total_output_value (mk_tx 1 [] [mk_output 5 []; mk_output 7 []] 0) = 12 /\ output_to_hex (mk_output 5 [106]) = Ok (txt "0500000000000000016a") /\
  (k <- xprv_from_random [zrepeat 0 64; zrepeat 1 32 ++ zrepeat 2 32] ;; Ok (sk_secret (xprv_key k))) = Ok (zrepeat 1 32).
Proof. repeat split; vm_compute; reflexivity. Qed.
