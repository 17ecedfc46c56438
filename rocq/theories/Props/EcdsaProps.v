(** Signatures and signed messages: C73 to C80.

    The curve [C] and its coordinates [K] are any that obey [curve_laws] and [coords_laws]; Proofs/ToyCoords.v has an
    instance, which the examples use.  [H] is the hash (double_sha256 by default), [nonce] the RFC 6979 nonces. *)
From Verif.Model Require Import Py Text Packing Misc Curve Coin Base58 Base64 Signature Der Keys Address Ecdsa.
From Verif.Spec Require Import Numbers CurveSpec KeysSpec EcdsaSpec Base64Spec.
From Verif.Proofs Require Import PyFacts NumbersFacts ScriptTheorems Base58Facts CurveFacts KeysFacts ElectrumFacts DerFacts DerExact Base64Facts Base64Exact EcdsaFacts MessageFacts ToyCoords.
From Verif.Props Require Import Base58Props MiscProps KeysProps.

Lemma parsed_spec H b m v r s h : parsed H b m v r s h <->
  exists mb pre, message_bytes m = Ok mb /\ framed mb pre /\ h = H pre /\ zlen h = 32 /\ message_signature b v r s /\ 27 <= v <= 34 /\ 0 <= r < CURVE_ORDER /\ 0 <= s < CURVE_ORDER.
Proof.
  unfold parsed, message_signature. split.
  - intros (pre & br & bs & HN & Hh & H32 & -> & L1 & L2 & R1 & R2 & Hv & Hr & Hs). apply normalize_framed in HN as (mb & HM & HF). exists mb, pre. repeat (split; [assumption|]). split; [|repeat split; assumption || lia].
    exists br, bs. rewrite !val_be_int. repeat split; assumption.
  - intros (mb & pre & HM & HF & Hh & H32 & (br & bs & -> & L1 & L2 & R1 & R2) & Hv & Hr & Hs). exists pre, br, bs. rewrite !val_be_int in *. split; [apply normalize_framed; exists mb; split; assumption|]. repeat split; assumption || lia.
Qed.

Section Ecdsa.
  Variable C : curve.
  Hypothesis L : curve_laws C.
  Variable K : coords C.
  Hypothesis KL : coords_laws C K.
  Variable ex : Z -> Z -> bool.
  Variable H : bytes -> bytes.
  Hypothesis H_ok : forall x, bytes_ok (H x) = true.
  Variable nonce : bytes -> bytes -> nat -> bytes.
  Hypothesis nonce_ok : forall m s c, bytes_ok (nonce m s c) = true.
  Notation N := CURVE_ORDER.

  (** C73.  Signed messages verify, as bytes and in base64, and give the key back. *)
  Theorem C73_message fuel k m sig P : privkey_public_key C k = Ok P -> sign_message C K nonce fuel k m (Some H) = Ok sig ->
    zlen sig = 65 /\ bytes_ok sig = true /\
    verify_message C K ex P (AsBytes sig) m (Some H) = Ok true /\
    exists P', pubkey_from_signed_message C K ex (AsBytes sig) m (Some H) = Ok P' /\ pk_point P' = pk_point P /\ pubkey_eqb C P' P = true.
  Proof using L KL H_ok nonce_ok.
    intros HP HS. destruct (sign_message_spec C L K KL H H_ok nonce nonce_ok fuel k m sig P HP HS) as (HL & HB & _). destruct (signed_verifies C L K KL ex H H_ok nonce nonce_ok fuel k m sig P HP HS) as [HV HR].
    repeat (split; [assumption|]). eexists. split; [exact HR|]. split; [reflexivity|]. now apply (pubkey_eqb_point C L).
  Qed.
  Theorem C73_base64 fuel k m t P : privkey_public_key C k = Ok P -> sign_message_to_base64 C K nonce fuel k m (Some H) = Ok t ->
    zlen t = 88 /\ verify_message C K ex P (AsText t) m (Some H) = Ok true /\
    exists P', pubkey_from_signed_message C K ex (AsText t) m (Some H) = Ok P' /\ pk_point P' = pk_point P.
  Proof using L KL H_ok nonce_ok.
    intros HP HS. unfold sign_message_to_base64 in HS. apply bind_Ok in HS as (sig & HS & HT). apply Ok_inj in HT. subst t. destruct (C73_message fuel k m sig P HP HS) as (HL & HB & HV & P' & HR & HE & _).
    pose proof (b64_roundtrip ex sig HB) as HD. rewrite (verify_text C K ex P _ sig m _ HD), (recover_text C K ex _ sig m _ HD). split; [|split; [exact HV|exists P'; split; assumption]].
    rewrite (b64_length (length sig)) by apply Nat.le_refl. rewrite HL. reflexivity.
  Qed.
  (** The address of the key, compressed or not, as an object or as text with any version byte, is accepted. *)
  Theorem C73_address D H160 fuel k m sig P c : (forall x, bytes_ok (D x) = true) -> (forall x, zlen (D x) = 32) -> (forall x, bytes_ok (H160 x) = true) -> privkey_public_key C k = Ok P -> sign_message C K nonce fuel k m (Some H) = Ok sig ->
    let h := H160 (pubkey_to_bytes C P (Some c)) in
    (forall coin, verify_message_and_address C K ex D H160 (AsBytes sig) m (AddrObject (P2PKH h coin)) (Some H) = Ok true) /\
    (forall v, 0 <= v < 256 -> verify_message_and_address C K ex D H160 (AsBytes sig) m (AddrText (base58_encode_check D (v :: h))) (Some H) = Ok true).
  Proof using L KL H_ok nonce_ok.
    intros HD HDL HO HP HS h. destruct (sign_message_spec C L K KL H H_ok nonce nonce_ok fuel k m sig P HP HS) as (HL & HB & v & r & s & z & HPa & _ & Hlow & HR). split.
    - intros coin. apply (verify_address_iff C L K KL ex H H_ok D H160 sig m); [exact HB|]. exists v, r, s, z, (pk_point P), h. repeat (split; [assumption|]). split; [left; now exists coin|]. subst h. destruct c; [left|right]; reflexivity.
    - intros w Hw. apply (verify_address_iff C L K KL ex H H_ok D H160 sig m); [exact HB|]. exists v, r, s, z, (pk_point P), h. repeat (split; [assumption|]). split; [|subst h; destruct c; [left|right]; reflexivity].
      right; left. exists (base58_encode_check D (w :: h)), w. split; [reflexivity|]. apply (decode_check_encode D HD HDL). rewrite bytes_ok_cons. apply andb_true_iff. split; [apply byte_ok_iff; lia|apply HO].
  Qed.
  (** DER and recoverable signatures of a message or of its hash *)
  Theorem C73_der fuel k m hasher d P : (forall h, hasher = Some h -> forall x, bytes_ok (h x) = true) -> (hasher = None -> bytes_ok m = true) -> privkey_public_key C k = Ok P ->
    privkey_sign C K nonce fuel k m hasher = Ok d -> zlen d <= 72 /\ bytes_ok d = true /\ pubkey_verify_der_signature C K P d m hasher = Ok true.
  Proof using L KL nonce_ok. exact (signed_der_verifies C L K KL nonce nonce_ok fuel k m hasher d P). Qed.
  Theorem C73_recoverable fuel k m hasher sig P : (forall h, hasher = Some h -> forall x, bytes_ok (h x) = true) -> (hasher = None -> bytes_ok m = true) -> privkey_public_key C k = Ok P ->
    privkey_sign_recoverable C K nonce fuel k m hasher = Ok sig ->
    zlen sig = 65 /\ bytes_ok sig = true /\ pubkey_verify_recoverable_signature C K P sig m hasher = Ok true /\
    exists P', pubkey_from_recoverable_signature C K sig m hasher = Ok P' /\ pk_point P' = pk_point P.
  Proof using L KL nonce_ok.
    intros HO HM HP HS. destruct (signed_recoverable_verifies C L K KL nonce nonce_ok fuel k m hasher sig P HO HM HP HS) as (H1 & H2 & H3 & H4). repeat (split; [assumption|]). eexists. split; [exact H4|reflexivity].
  Qed.
  (** Signing succeeds once a nonce works, and otherwise raises only for messages that cannot be encoded or a hasher that does not give 32 bytes. *)
  Theorem C73_signs k m mb pre n R : valid_privkey k -> message_bytes m = Ok mb -> framed mb pre -> zlen (H pre) = 32 ->
    let k_n := val_be (nonce (H pre) (sk_secret k) n) in
    0 < k_n < N -> mult C k_n (Some (gen C)) = Some R -> px K R mod N <> 0 -> (px K R mod N * val_be (sk_secret k) + val_be (H pre)) mod N <> 0 ->
    forall fuel, (n < fuel)%nat -> exists sig, sign_message C K nonce fuel k m (Some H) = Ok sig.
  Proof using L KL H_ok nonce_ok.
    cbv zeta. rewrite !val_be_int. intros HV HM HF H32 Hk HR. rewrite (mult_smul C L) in HR. apply (sign_message_total C L K KL H H_ok nonce nonce_ok k m pre n R); try assumption. apply normalize_framed. exists mb. split; assumption.
  Qed.
  Theorem C73_errors fuel k m e : valid_privkey k -> sign_message C K nonce fuel k m (Some H) = Err e ->
    e = OutOfFuel \/ (e = ValueError /\ exists mb pre, message_bytes m = Ok mb /\ framed mb pre /\ zlen (H pre) <> 32) \/ message_bytes m = Err e \/ exists mb, message_bytes m = Ok mb /\ 2 ^ 64 <= zlen mb.
  Proof using L KL H_ok nonce_ok.
    intros HV HE. destruct (sign_message_errors C L K KL nonce nonce_ok H fuel k m e H_ok HV HE) as [->|[HN|(-> & pre & HN & HZ)]]; [now left| |].
    - right; right. unfold normalize_message in HN. fold (message_bytes m) in HN. apply bind_Err in HN as [HN|(mb & HM & HN)]; [now left|]. right. exists mb. split; [exact HM|]. rewrite prefix_value in HN. cbn [bind] in HN. apply bind_Err in HN as [HN|(v & _ & HN)]; [|discriminate HN].
      unfold pack_varbytes in HN. apply bind_Err in HN as [HN|(v & _ & HN)]; [|discriminate HN]. pose proof (zlen_nonneg mb). destruct (PackingFacts.pack_varint_cases (zlen mb)) as [[HH E]|[[HH E]|[[HH E]|[[HH E]|[HH E]]]]]; rewrite E in HN; try discriminate HN. unfold PackingFacts.varint_range in HH. clear - HH H0. lia.
    - right; left. split; [reflexivity|]. apply normalize_framed in HN as (mb & HM & HF). exists mb, pre. repeat split; assumption.
  Qed.

  (** C74.  verify_message is true exactly for 65 bytes with a header of 27 to 34 (its low bits are ignored) whose r and s are an
      ECDSA signature of the framed message by the key, s in the lower half. *)
  Theorem C74_exactly P b m : bytes_ok b = true -> verify_message C K ex P (AsBytes b) m (Some H) = Ok true <->
    exists mb pre v r s, message_bytes m = Ok mb /\ framed mb pre /\ zlen (H pre) = 32 /\ message_signature b v r s /\ 27 <= v <= 34 /\
      ecdsa_signature C K r s (val_be (H pre)) (pk_point P) /\ 2 * s < N.
  Proof using L KL H_ok.
    intros HB. rewrite (verify_message_iff C L K KL ex H H_ok P b m HB). split.
    - intros (v & r & s & h & HP & HV). apply parsed_spec in HP as (mb & pre & H1 & H2 & -> & H4 & H5 & H6 & H7 & H8). exists mb, pre, v, r, s. rewrite val_be_int. repeat (split; [assumption|]). exact HV.
    - intros (mb & pre & v & r & s & H1 & H2 & H3 & H4 & H5 & H6 & H7). rewrite val_be_int in H6. exists v, r, s, (H pre). split; [|split; assumption]. apply parsed_spec. destruct H6 as (Hr & Hs & _). exists mb, pre. repeat (split; [assumption||reflexivity|]). clear - Hr Hs. lia.
  Qed.
  (** Otherwise it is false, or raises: InvalidSignatureError exactly if the bytes do not have that form or a number is not below the order. *)
  Theorem C74_raises P b m mb pre : bytes_ok b = true -> message_bytes m = Ok mb -> framed mb pre -> zlen (H pre) = 32 ->
    match verify_message C K ex P (AsBytes b) m (Some H) with
    | Ok _ => exists v r s, message_signature b v r s /\ 27 <= v <= 34 /\ r < N /\ s < N
    | Err e => e = InvalidSignatureError /\ ~ exists v r s, message_signature b v r s /\ 27 <= v <= 34 /\ r < N /\ s < N
    end.
  Proof using L KL H_ok.
    intros HB HM HF H32. assert (HN : normalize_message m = Ok pre) by (apply normalize_framed; exists mb; split; assumption).
    assert (HX : forall a, verify_message C K ex P (AsBytes b) m (Some H) = Ok a <-> exists v r s h, parsed H b m v r s h /\ Ok (ecdsa_verify C K r s h (pk_point P)) = Ok a) by (intros a; exact (rec_parsed H b m HB bool (fun r s _ h => Ok (ecdsa_verify C K r s h (pk_point P))) a)).
    destruct (verify_message C K ex P (AsBytes b) m (Some H)) as [a|e] eqn:E.
    - destruct (proj1 (HX a) eq_refl) as (v & r & s & h & HP & _). apply parsed_spec in HP as (_ & _ & _ & _ & _ & _ & H5 & H6 & H7 & H8). exists v, r, s. split; [exact H5|]. clear - H6 H7 H8. lia.
    - split.
      + rewrite verify_unfold, HN in E. cbn [bind] in E. apply bind_Err in E as [E|(rs & _ & E)]; [now apply MiscProps.C58_rejected in E|]. rewrite hash_some, H32 in E. cbn [Z.eqb Pos.eqb bind] in E. apply bind_Err in E as [E|([[r s] id] & _ & E)]; [now apply recsig_Err in E|discriminate E].
      + intros (v & r & s & HS & Hv & Hr & Hs). assert (HP : parsed H b m v r s (H pre)).
        { apply parsed_spec. exists mb, pre. repeat (split; [assumption||reflexivity|]). destruct HS as (br & bs & -> & L1 & L2 & <- & <-). rewrite !val_be_int in *. rewrite bytes_ok_cons, bytes_ok_app in HB. apply andb_true_iff in HB as [_ HB]. apply andb_true_iff in HB as [B1 B2]. pose proof (DerFacts.be_int_bound br B1). pose proof (DerFacts.be_int_bound bs B2). clear - Hr Hs H0 H1. lia. }
        pose proof (proj2 (HX (ecdsa_verify C K r s (H pre) (pk_point P))) (ex_intro _ v (ex_intro _ r (ex_intro _ s (ex_intro _ (H pre) (conj HP eq_refl)))))) as HC. congruence.
  Qed.
  (** A text is the bytes it decodes to; one that is not base64 raises InvalidSignatureError, or ValueError if it is not ASCII. *)
  Theorem C74_text P t m mb pre : message_bytes m = Ok mb -> framed mb pre ->
    match b64decode ex t with
    | Ok b => bytes_ok b = true /\ verify_message C K ex P (AsText t) m (Some H) = verify_message C K ex P (AsBytes b) m (Some H)
    | Err _ => verify_message C K ex P (AsText t) m (Some H) = Err InvalidSignatureError \/
               (verify_message C K ex P (AsText t) m (Some H) = Err ValueError /\ exists c, In c t /\ ~ 0 <= c < 128)
    end.
  Proof using.
    intros HM HF. assert (HN : normalize_message m = Ok pre) by (apply normalize_framed; exists mb; split; assumption). destruct (b64decode ex t) as [b|e] eqn:E.
    - split; [exact (b64_bytes ex t b E)|]. now apply verify_text.
    - unfold verify_message. rewrite HN. cbn [bind]. unfold to_recoverable. rewrite E. apply b64_errors in E as [->|[-> HC]]; [left; reflexivity|right; split; [reflexivity|exact HC]].
  Qed.

  (** verify_der_signature is true exactly for the DER form of a signature with s in the lower half: one text of bytes for each signature. *)
  Theorem C74_der P d m hasher : (forall h, hasher = Some h -> forall x, bytes_ok (h x) = true) -> (hasher = None -> bytes_ok m = true) -> bytes_ok d = true ->
    pubkey_verify_der_signature C K P d m hasher = Ok true <->
    exists z r s, z = match hasher with Some h => h m | None => m end /\ zlen z = 32 /\ der_form r s d /\ ecdsa_signature C K r s (val_be z) (pk_point P) /\ 2 * s < N.
  Proof using L KL.
    intros HO HM HB. rewrite (verify_der_iff C L K KL P d m hasher HO HM HB). split.
    - intros (h & r & s & HH & HD & HS & Hlow). exists h, r, s. rewrite val_be_int. pose proof HS as (Hr & Hs & _). rewrite (serialize_der_iff r s d) by (clear - Hr Hs; lia).
      unfold message_hash in HH. destruct hasher as [f|]; match type of HH with (if ?c =? 32 then _ else _) = _ => destruct (Z.eqb_spec c 32) as [E|E] end; try discriminate HH; apply Ok_inj in HH; subst h; repeat (split; [first [assumption|reflexivity]|]); assumption.
    - intros (z & r & s & Hz & Hl & HD & HS & Hlow). exists z, r, s. rewrite val_be_int in HS. pose proof HS as (Hr & Hs & _). rewrite (serialize_der_iff r s d) in HD by (clear - Hr Hs; lia).
      split; [|repeat (split; [assumption|]); assumption]. unfold message_hash. destruct hasher as [f|]; rewrite <- Hz, Hl; reflexivity.
  Qed.

  (** C75.  from_signed_message gives P exactly if the r, s and recovery id of the signature make it one of the framed message by P. *)
  Theorem C75_exactly b m P : bytes_ok b = true -> pubkey_from_signed_message C K ex (AsBytes b) m (Some H) = Ok P <->
    pk_compressed P = true /\ pk_coin P = Bitcoin /\
    exists mb pre v r s, message_bytes m = Ok mb /\ framed mb pre /\ zlen (H pre) = 32 /\ message_signature b v r s /\ 27 <= v <= 34 /\
      recoverable_signature C K r s ((v - 27) mod 4) (val_be (H pre)) (pk_point P).
  Proof using L KL H_ok.
    intros HB. rewrite (recover_message_iff C L K KL ex H H_ok b m P HB). split.
    - intros (Hc & Hn & v & r & s & h & HP & HV). split; [exact Hc|]. split; [exact Hn|]. apply parsed_spec in HP as (mb & pre & H1 & H2 & -> & H4 & H5 & H6 & H7 & H8). exists mb, pre, v, r, s. rewrite val_be_int. repeat (split; [assumption|]). exact HV.
    - intros (Hc & Hn & mb & pre & v & r & s & H1 & H2 & H3 & H4 & H5 & H6). split; [exact Hc|]. split; [exact Hn|]. rewrite val_be_int in H6. exists v, r, s, (H pre). split; [|assumption]. apply parsed_spec. destruct H6 as (Hr & Hs & _). exists mb, pre. repeat (split; [assumption||reflexivity|]). clear - Hr Hs. lia.
  Qed.
  (** The recovered key verifies the signature exactly if s is in the lower half. *)
  Theorem C75_verifies_partial b m P v r s : bytes_ok b = true -> pubkey_from_signed_message C K ex (AsBytes b) m (Some H) = Ok P -> message_signature b v r s ->
    verify_message C K ex P (AsBytes b) m (Some H) = Ok (2 * s <? N).
  Proof using L KL H_ok.
    intros HB HR HS. apply C75_exactly in HR as (_ & _ & mb & pre & v' & r' & s' & H1 & H2 & H3 & H4 & H5 & H6); [|exact HB].
    assert (HE : v' = v /\ r' = r /\ s' = s).
    { destruct HS as (br & bs & E1 & L1 & L2 & <- & <-). destruct H4 as (br' & bs' & E2 & L1' & L2' & <- & <-). rewrite E1 in E2. injection E2 as E0 E2. pose proof (f_equal (ztake 32) E2) as T1. pose proof (f_equal (zdrop 32) E2) as T2. rewrite !ztake_app_exact in T1 by (symmetry; assumption). rewrite !zdrop_app_exact in T2 by (symmetry; assumption). subst. auto. }
    destruct HE as (-> & -> & ->). assert (HT : verify_message C K ex P (AsBytes b) m (Some H) = Ok true <-> 2 * s < N).
    { rewrite (C74_exactly P b m HB). split.
      - intros (mb' & pre' & v2 & r2 & s2 & _ & _ & _ & H4' & _ & _ & Hlow). destruct HS as (br & bs & E1 & L1 & L2 & <- & <-). destruct H4' as (br' & bs' & E2 & L1' & L2' & <- & <-). rewrite E1 in E2. injection E2 as E0 E2. pose proof (f_equal (zdrop 32) E2) as T2. rewrite !zdrop_app_exact in T2 by (symmetry; assumption). subst. exact Hlow.
      - intros Hlow. exists mb, pre, v, r, s. repeat (split; [assumption|]). split; [|exact Hlow]. apply (recoverable_plain C K r s ((v - 27) mod 4)); [clear; lia|exact H6]. }
    pose proof (C74_raises P b m mb pre HB H1 H2 H3) as HX. destruct (verify_message C K ex P (AsBytes b) m (Some H)) as [a|e].
    - f_equal. destruct (Z.ltb_spec (2 * s) N) as [Hl|Hl]; [apply HT in Hl; congruence|]. destruct a; [|reflexivity]. pose proof (proj1 HT eq_refl) as HQ. clear - HQ Hl. lia.
    - exfalso. destruct HX as [_ HX]. apply HX. exists v, r, s. split; [assumption|]. destruct H6 as (Hr & Hs & _). clear - H5 Hr Hs. lia.
  Qed.
  (** Every message signature that verifies has a twin that gives the same key, which does not verify it. *)
  Theorem C75_high_s_refuted b m P : bytes_ok b = true -> pubkey_from_signed_message C K ex (AsBytes b) m (Some H) = Ok P -> verify_message C K ex P (AsBytes b) m (Some H) = Ok true ->
    exists b', pubkey_from_signed_message C K ex (AsBytes b') m (Some H) = Ok P /\ verify_message C K ex P (AsBytes b') m (Some H) = Ok false.
  Proof using L KL H_ok. exact (malleable C L K KL ex H H_ok b m P). Qed.

  (** C76.  verify_message_and_address is true exactly if the signature gives a key with s in the lower half and the address, an object or
      text of any network and kind, has the hash of the key, compressed or not. *)
  Theorem C76_exactly D H160 b m a : bytes_ok b = true ->
    verify_message_and_address C K ex D H160 (AsBytes b) m a (Some H) = Ok true <->
    exists mb pre v r s Q hash, message_bytes m = Ok mb /\ framed mb pre /\ zlen (H pre) = 32 /\ message_signature b v r s /\ 27 <= v <= 34 /\
      recoverable_signature C K r s ((v - 27) mod 4) (val_be (H pre)) Q /\ 2 * s < N /\
      ((exists coin, a = AddrObject (P2PKH hash coin)) \/ (exists t x, a = AddrText t /\ base58_decode_check D t = Ok (x :: hash)) \/ (exists t, a = AddrText t /\ base58_decode_check D t = Ok [] /\ hash = [])) /\
      (hash = H160 (pubkey_serialize C true Q) \/ hash = H160 (pubkey_serialize C false Q)).
  Proof using L KL H_ok.
    intros HB. rewrite (verify_address_iff C L K KL ex H H_ok D H160 b m a HB). split.
    - intros (v & r & s & h & Q & hash & HP & HV & HX). apply parsed_spec in HP as (mb & pre & H1 & H2 & -> & H4 & H5 & H6 & H7 & H8). exists mb, pre, v, r, s, Q, hash. rewrite val_be_int. repeat (split; [assumption|]). exact HX.
    - intros (mb & pre & v & r & s & Q & hash & H1 & H2 & H3 & H4 & H5 & H6 & HX). rewrite val_be_int in H6. exists v, r, s, (H pre), Q, hash. split; [|split; assumption]. apply parsed_spec. destruct H6 as (Hr & Hs & _). exists mb, pre. repeat (split; [assumption||reflexivity|]). clear - Hr Hs. lia.
  Qed.
  (** Bytes that are no signature make it False whatever the address; with a valid message it raises only for what is neither, or for
      text that is no base58 check text, TypeError or Base58Error. *)
  Theorem C76_errors_partial D H160 b m a mb pre : bytes_ok b = true -> message_bytes m = Ok mb -> framed mb pre -> zlen (H pre) = 32 ->
    match verify_message_and_address C K ex D H160 (AsBytes b) m a (Some H) with
    | Ok _ => True
    | Err e => (exists P, pubkey_from_signed_message C K ex (AsBytes b) m (Some H) = Ok P) /\
               ((e = TypeError /\ (a = AddrOther \/ exists h c, a = AddrObject (P2SH h c))) \/ (e = Base58Error /\ exists t, a = AddrText t /\ base58_decode_check D t = Err e))
    end.
  Proof using L KL H_ok.
    intros HB HM HF H32. assert (HN : normalize_message m = Ok pre) by (apply normalize_framed; exists mb; split; assumption). unfold verify_message_and_address.
    destruct (pubkey_from_signed_message C K ex (AsBytes b) m (Some H)) as [P|e] eqn:E.
    - assert (HVO : exists x, verify_message C K ex P (AsBytes b) m (Some H) = Ok x).
      { apply C75_exactly in E as (_ & _ & mb' & pre' & v & r & s & _ & _ & _ & H4 & H5 & H6); [|exact HB]. pose proof (C74_raises P b m mb pre HB HM HF H32) as HX. destruct (verify_message C K ex P (AsBytes b) m (Some H)) as [x|e]; [now exists x|]. exfalso. destruct HX as [_ HX]. apply HX. exists v, r, s. split; [assumption|]. destruct H6 as (Hr & Hs & _). clear - H5 Hr Hs. lia. }
      destruct HVO as [x HV]. rewrite HV. destruct a as [[h c|h c]|t|]; cbn [bind]; try exact I.
      + split; [now exists P|]. left. split; [reflexivity|]. right. now exists h, c.
      + destruct (base58_decode_check D t) as [raw|e] eqn:ED; cbn [bind]; [exact I|]. split; [now exists P|]. right. split; [now apply decode_check_err in ED|]. now exists t.
      + split; [now exists P|]. left. split; [reflexivity|now left].
    - assert (HE : e = InvalidSignatureError); [|subst e; exact I]. rewrite recover_unfold, HN in E. cbn [bind] in E. apply bind_Err in E as [E|(rs & _ & E)]; [now apply MiscProps.C58_rejected in E|]. rewrite hash_some, H32 in E. cbn [Z.eqb Pos.eqb bind] in E.
      apply bind_Err in E as [E|([[r s] id] & _ & E)]; [now apply recsig_Err in E|]. destruct (ecdsa_recover C K r s id (H pre)); congruence.
  Qed.
  (** Not so for text: a signature with a character that is not ASCII raises ValueError instead of giving False. *)
  Theorem C76_text_refuted D H160 t c m a mb pre : In c t -> ~ 0 <= c < 128 -> message_bytes m = Ok mb -> framed mb pre ->
    verify_message_and_address C K ex D H160 (AsText t) m a (Some H) = Err ValueError.
  Proof using.
    intros HI HC HM HF. assert (HN : normalize_message m = Ok pre) by (apply normalize_framed; exists mb; split; assumption). unfold verify_message_and_address, pubkey_from_signed_message, to_recoverable. rewrite HN. cbn [bind]. rewrite (b64_non_ascii ex t c HI HC). reflexivity.
  Qed.
End Ecdsa.
Print Assumptions C73_message.
Print Assumptions C73_base64.
Print Assumptions C73_address.
Print Assumptions C73_der.
Print Assumptions C73_recoverable.
Print Assumptions C73_signs.
Print Assumptions C73_errors.
Print Assumptions C74_exactly.
Print Assumptions C74_raises.
Print Assumptions C74_text.
Print Assumptions C74_der.
Print Assumptions C75_exactly.
Print Assumptions C75_verifies_partial.
Print Assumptions C75_high_s_refuted.
Print Assumptions C76_exactly.
Print Assumptions C76_errors_partial.
Print Assumptions C76_text_refuted.

(** A key, a hash and nonces; the second nonce is used, as the first is zero. *)
Definition toy_nonce (m s : bytes) (c : nat) : bytes := match c with O => bytes32 0 | _ => bytes32 (12345 + Z.of_nat c) end.
Lemma toy_nonce_ok m s c : bytes_ok (toy_nonce m s c) = true.
Proof. destruct c; apply bytes32_ok. Qed.
Definition no_excess (_ _ : Z) : bool := false.
Definition hello : text_or_bytes := AsText (txt "hello").
Definition or_nil (r : result bytes) : bytes := match r with Ok s => s | Err _ => [] end.
Definition toy_sig : bytes := Eval vm_compute in or_nil (sign_message toy toy_coords toy_nonce 5 (sample_key 7 true) hello (Some toy_hash)).
(** The twin of [toy_sig] with N - s *)
Definition twin (sig : bytes) : bytes := match sig with v :: b => 27 + Z.lxor ((v - 27) mod 4) 1 :: ztake 32 b ++ bytes32 (CURVE_ORDER - be_int (zdrop 32 b)) | [] => [] end.
Definition toy_twin : bytes := twin toy_sig.
Definition toy_h160 (b : bytes) : bytes := zrepeat ((be_int b + zlen b) mod 251) 20.
Definition toy_address : pystr := base58_encode_check toy_hash (0 :: toy_h160 (pubkey_to_bytes toy (toy_pub 7) (Some false))).
Example C73_ex :
  sign_message toy toy_coords toy_nonce 5 (sample_key 7 true) hello (Some toy_hash) = Ok toy_sig /\ zlen toy_sig = 65 /\
  verify_message toy toy_coords no_excess (toy_pub 7) (AsBytes toy_sig) hello (Some toy_hash) = Ok true /\
  verify_message toy toy_coords no_excess (toy_pub 7) (AsText (b64encode toy_sig)) (AsBytes (txt "hello")) (Some toy_hash) = Ok true /\
  verify_message toy toy_coords no_excess (toy_pub 8) (AsBytes toy_sig) hello (Some toy_hash) = Ok false /\
  verify_message_and_address toy toy_coords no_excess toy_hash toy_h160 (AsBytes toy_sig) hello (AddrText toy_address) (Some toy_hash) = Ok true /\
  (d <- privkey_sign toy toy_coords toy_nonce 5 (sample_key 7 true) (txt "hello") (Some toy_hash) ;; pubkey_verify_der_signature toy toy_coords (toy_pub 7) d (txt "hello") (Some toy_hash)) = Ok true /\
  (d <- privkey_sign toy toy_coords toy_nonce 5 (sample_key 7 true) (txt "hello") (Some toy_hash) ;; pubkey_verify_der_signature toy toy_coords (toy_pub 7) d (txt "hellp") (Some toy_hash)) = Ok false.
Proof. do 7 (split; [vm_compute; reflexivity|]). vm_compute; reflexivity. Qed.
Example C75_ex :
  (P <- pubkey_from_signed_message toy toy_coords no_excess (AsBytes toy_twin) hello (Some toy_hash) ;; Ok (pubkey_eqb toy P (toy_pub 7))) = Ok true /\
  verify_message toy toy_coords no_excess (toy_pub 7) (AsBytes toy_twin) hello (Some toy_hash) = Ok false.
Proof. split; vm_compute; reflexivity. Qed.
Example C76_ex :
  verify_message_and_address toy toy_coords no_excess toy_hash toy_h160 (AsBytes toy_sig) (AsText (txt "hellp")) (AddrText toy_address) (Some toy_hash) = Ok false /\
  verify_message_and_address toy toy_coords no_excess toy_hash toy_h160 (AsBytes []) hello (AddrText []) (Some toy_hash) = Ok false /\
  verify_message_and_address toy toy_coords no_excess toy_hash toy_h160 (AsBytes toy_sig) hello (AddrText (txt "x")) (Some toy_hash) = Err Base58Error /\
  verify_message_and_address toy toy_coords no_excess toy_hash toy_h160 (AsText [233]) hello (AddrText toy_address) (Some toy_hash) = Err ValueError.
Proof. do 3 (split; [vm_compute; reflexivity|]). vm_compute; reflexivity. Qed.

(** C77.  What is signed is the framed message, text counting as its UTF-8 bytes; framing loses nothing. *)
Theorem C77_framed m pre : normalize_message m = Ok pre <-> exists b, message_bytes m = Ok b /\ framed b pre.
Proof. exact (normalize_framed m pre). Qed.
Theorem C77_injective m m' pre : normalize_message m = Ok pre -> normalize_message m' = Ok pre -> message_bytes m = message_bytes m'.
Proof.
  intros H1 H2. apply normalize_framed in H1 as (b & H1 & F1). apply normalize_framed in H2 as (b' & H2 & F2). rewrite H1, H2. f_equal. exact (framed_inj b b' pre F1 F2).
Qed.
Theorem C77_texts t t' pre : normalize_message (AsText t) = Ok pre -> normalize_message (AsText t') = Ok pre -> t = t'.
Proof.
  intros H1 H2. pose proof (C77_injective _ _ _ H1 H2) as HE. apply normalize_framed in H1 as (b & H1 & _). cbn [message_bytes] in *. rewrite H1 in HE. exact (utf8_encode_inj t t' b H1 (eq_sym HE)).
Qed.
(** Every message shorter than 2^64 bytes has a frame. *)
Theorem C77_total b : zlen b < 2 ^ 64 -> exists pre, framed b pre.
Proof.
  intros HL. pose proof (zlen_nonneg b). destruct (PackingFacts.c_enc PackingFacts.varint_codec (zlen b)) as (v & HV & _); [unfold PackingFacts.varint_range; lia|]. exists (prefix_bytes ++ v ++ b). apply framed_iff. exists (v ++ b). split; [|reflexivity]. unfold pack_varbytes. now rewrite HV.
Qed.
Print Assumptions C77_framed.
Print Assumptions C77_injective.
Print Assumptions C77_texts.
Print Assumptions C77_total.
Example C77_ex : normalize_message (AsText [233]) = Ok ([24] ++ txt "Bitcoin Signed Message:" ++ [10; 2; 195; 169]) /\
  framed [195; 169] ([24] ++ txt "Bitcoin Signed Message:" ++ [10; 2; 195; 169]).
Proof. split; [vm_compute; reflexivity|]. exists [2]. split; [|reflexivity]. split; [reflexivity|]. left. split; reflexivity. Qed.

(** C78.  Conversions.  From compact form: numbers below the order give the DER form and come back. *)
Theorem C78_compact_roundtrip r s c : 0 <= r < CURVE_ORDER -> 0 <= s < CURVE_ORDER -> compact_form r s c ->
  exists d, compact_signature_to_der c = Ok d /\ der_form r s d /\ zlen d <= 72 /\ der_signature_to_compact d = Ok c.
Proof.
  intros Hr Hs (br & bs & -> & L1 & L2 & HB & R1 & R2). rewrite val_be_int in R1, R2. rewrite bytes_ok_app in HB. apply andb_true_iff in HB as [B1 B2]. exists (serialize_der r s).
  split; [|split; [apply serialize_der_iff; auto|split; [apply serialize_length; assumption|]]].
  - unfold compact_signature_to_der, parse_compact. rewrite zlen_app, L1, L2. change (negb (32 + 32 =? 64)) with false. cbv iota. rewrite ztake_app_exact, zdrop_app_exact by (symmetry; assumption). rewrite ztake_all by lia. rewrite R1, R2.
    destruct (Z.leb_spec CURVE_ORDER r); [lia|]. destruct (Z.leb_spec CURVE_ORDER s); [lia|]. reflexivity.
  - unfold der_signature_to_compact, der_signature_to_cdata. rewrite parse_serialize by assumption. cbn [bind]. unfold serialize_compact. rewrite <- R1, <- R2, !bytes32_be by assumption. reflexivity.
Qed.
(** What der_signature_to_compact accepts, and the numbers it reads *)
Theorem C78_der_exactly d c : bytes_ok d = true -> der_signature_to_compact d = Ok c <->
  exists R S r s, der_sequence d R S /\ reads_as R r /\ reads_as S s /\ compact_form r s c.
Proof.
  intros HB. unfold der_signature_to_compact, der_signature_to_cdata. pose proof order_lt as HO.
  assert (HC : forall r s, 0 <= r < CURVE_ORDER -> 0 <= s < CURVE_ORDER -> compact_form r s c <-> c = serialize_compact r s).
  { intros r s Hr Hs. unfold serialize_compact. destruct (bytes32_ok r) as [B1 L1], (bytes32_ok s) as [B2 L2]. split.
    - intros (br & bs & -> & M1 & M2 & HBc & <- & <-). rewrite bytes_ok_app in HBc. apply andb_true_iff in HBc as [Q1 Q2]. rewrite !val_be_int, !bytes32_be by assumption. reflexivity.
    - intros ->. exists (bytes32 r), (bytes32 s). rewrite bytes_ok_app, B1, B2, !val_be_int, !be_bytes32 by lia. repeat split; assumption. }
  split.
  - intros HE. destruct (parse_der d) as [[r s]|] eqn:EP; [|discriminate HE]. cbn [bind] in HE. apply Ok_inj in HE. subst c. pose proof (parse_der_range d r s HB EP) as [Hr Hs]. apply parse_der_iff in EP as (R & S & HD & HR & HS); [|exact HB]. exists R, S, r, s. repeat (split; [assumption|]). now apply HC.
  - intros (R & S & r & s & HD & HR & HS & HF). assert (EP : parse_der d = Some (r, s)) by (apply parse_der_iff; [exact HB|]; exists R, S; repeat split; assumption). pose proof (parse_der_range d r s HB EP) as [Hr Hs]. rewrite EP. cbn [bind]. f_equal. symmetry. now apply HC.
Qed.
Theorem C78_der_errors d e : der_signature_to_compact d = Err e -> e = InvalidSignatureError.
Proof. unfold der_signature_to_compact, der_signature_to_cdata. destruct (parse_der d) as [[r s]|]; cbn [bind]; congruence. Qed.
(** From DER form: if the numbers read are not zero, the bytes are the DER form and come back. *)
Theorem C78_der_roundtrip d c r s : bytes_ok d = true -> der_signature_to_compact d = Ok c -> compact_form r s c -> r <> 0 -> s <> 0 ->
  0 < r < CURVE_ORDER /\ 0 < s < CURVE_ORDER /\ der_form r s d /\ compact_signature_to_der c = Ok d.
Proof.
  intros HB HE HF Hr Hs. unfold der_signature_to_compact, der_signature_to_cdata in HE. destruct (parse_der d) as [[r1 s1]|] eqn:EP; [|discriminate HE]. cbn [bind] in HE. apply Ok_inj in HE. pose proof (parse_der_range d r1 s1 HB EP) as [Rr Rs]. pose proof order_lt as HO.
  assert (HV : r1 = r /\ s1 = s).
  { destruct HF as (br & bs & -> & L1 & L2 & _ & <- & <-). unfold serialize_compact in HE. destruct (bytes32_ok r1) as [_ M1], (bytes32_ok s1) as [_ M2]. pose proof (f_equal (ztake 32) HE) as T1. pose proof (f_equal (zdrop 32) HE) as T2. rewrite !ztake_app_exact in T1 by (symmetry; assumption). rewrite !zdrop_app_exact in T2 by (symmetry; assumption). rewrite <- T1, <- T2, !val_be_int, !be_bytes32 by lia. auto. }
  destruct HV as [-> ->]. split; [lia|]. split; [lia|]. pose proof (parse_der_canonical d r s HB EP Hr Hs) as HD. split; [apply serialize_der_iff; assumption|]. destruct (C78_compact_roundtrip r s c Rr Rs HF) as (d' & HE' & HD' & _). rewrite HE'. f_equal. apply serialize_der_iff in HD'; [|assumption..]. congruence.
Qed.
(** compact_signature_to_der takes 64 bytes and raises InvalidSignatureError for others; *)
Theorem C78_compact_errors c : match compact_signature_to_der c with Ok _ => zlen c = 64 | Err e => e = InvalidSignatureError /\ zlen c <> 64 end.
Proof. unfold compact_signature_to_der. destruct (Z.eqb_spec (zlen c) 64); cbn [negb]; [|auto]. destruct (match parse_compact c with Some rs => rs | None => (0, 0) end). assumption. Qed.
(** but it turns every signature with a number not below the order into that of zeros, *)
Theorem C78_compact_refuted r s c : compact_form r s c -> CURVE_ORDER <= r \/ CURVE_ORDER <= s -> compact_signature_to_der c = Ok [48; 6; 2; 1; 0; 2; 1; 0].
Proof.
  intros (br & bs & -> & L1 & L2 & _ & <- & <-) HR. rewrite !val_be_int in HR. unfold compact_signature_to_der, parse_compact. rewrite zlen_app, L1, L2. change (negb (32 + 32 =? 64)) with false. cbv iota. rewrite ztake_app_exact, zdrop_app_exact by (symmetry; assumption). rewrite ztake_all by lia.
  destruct (Z.leb_spec CURVE_ORDER (be_int br)); [reflexivity|]. destruct (Z.leb_spec CURVE_ORDER (be_int bs)); [reflexivity|]. lia.
Qed.
(** and different DER signatures have the same compact form. *)
Theorem C78_der_refuted : exists d d' c, d <> d' /\ bytes_ok d = true /\ bytes_ok d' = true /\ der_signature_to_compact d = Ok c /\ der_signature_to_compact d' = Ok c.
Proof. exists [48; 6; 2; 1; 0; 2; 1; 1], [48; 6; 2; 1; 200; 2; 1; 1], (bytes32 0 ++ bytes32 1). split; [discriminate|]. vm_compute. auto. Qed.
Print Assumptions C78_compact_roundtrip.
Print Assumptions C78_der_exactly.
Print Assumptions C78_der_errors.
Print Assumptions C78_der_roundtrip.
Print Assumptions C78_compact_errors.
Print Assumptions C78_compact_refuted.
Print Assumptions C78_der_refuted.
Example C78_ex : compact_signature_to_der (bytes32 200 ++ bytes32 1000) = Ok [48; 8; 2; 2; 0; 200; 2; 2; 3; 232] /\
  compact_form 200 1000 (bytes32 200 ++ bytes32 1000) /\
  der_signature_to_compact [48; 8; 2; 2; 0; 200; 2; 2; 3; 232] = Ok (bytes32 200 ++ bytes32 1000) /\
  der_signature_to_compact [48; 8; 2; 2; 0; 20; 2; 2; 3; 232] = Err InvalidSignatureError /\
  compact_signature_to_der (zrepeat 255 64) = Ok [48; 6; 2; 1; 0; 2; 1; 0].
Proof. split; [vm_compute; reflexivity|]. split; [exists (bytes32 200), (bytes32 1000); repeat apply conj; vm_compute; reflexivity|]. repeat apply conj; vm_compute; reflexivity. Qed.

(** C79.  Signature objects.  What is accepted: the single byte 255, which is no signature, or a DER signature and a byte. *)
Theorem C79_accepted raw : bytes_ok raw = true ->
  match signature_new raw with
  | Ok raw' => raw' = raw /\ (raw = [255] \/ exists d x R S, raw = d ++ [x] /\ der_sequence d R S)
  | Err e => e = InvalidSignatureError /\ raw <> [255] /\ ~ exists d x R S, raw = d ++ [x] /\ der_sequence d R S
  end.
Proof.
  intros HB. unfold signature_new, make_signature. destruct (bytes_eqb_spec raw [255]) as [->|HN]; [auto|].
  assert (HX : forall d, bytes_ok d = true -> is_ok (der_signature_to_compact d) = true <-> exists R S, der_sequence d R S).
  { intros d HBd. split.
    - destruct (der_signature_to_compact d) as [c|] eqn:E; [|discriminate]. intros _. apply C78_der_exactly in E as (R & S & _ & _ & HD & _); [|exact HBd]. eauto.
    - intros (R & S & HD). pose proof HD as (_ & _ & _ & HR & HS & _). destruct (reads_as_exists R HR) as [r Hr]. destruct (reads_as_exists S HS) as [s Hs]. assert (EP : parse_der d = Some (r, s)) by (apply parse_der_iff; [exact HBd|]; exists R, S; auto). unfold der_signature_to_compact, der_signature_to_cdata. rewrite EP. reflexivity. }
  assert (HS : forall (d : bytes) x, slice_to (d ++ [x]) (-1) = d).
  { intros d x. unfold slice_to, slice_bound. change (-1 <? 0) with true. cbv iota. rewrite zlen_app. change (zlen [x]) with 1. pose proof (zlen_nonneg d). rewrite Z.max_r by lia. apply ztake_app_exact. lia. }
  destruct raw as [|x d _] using rev_ind.
  - cbn. split; [reflexivity|]. split; [exact HN|]. intros (d & x & _ & _ & HE & _). destruct d; discriminate HE.
  - rewrite HS. rewrite bytes_ok_app in HB. apply andb_true_iff in HB as [HB _]. specialize (HX d HB). destruct (is_ok (der_signature_to_compact d)).
    + split; [reflexivity|]. right. destruct (proj1 HX eq_refl) as (R & S & HD). exists d, x, R, S. auto.
    + split; [reflexivity|]. split; [exact HN|]. intros (d' & x' & R & S & HE & HD). apply app_inj_tail in HE as [-> _]. assert (false = true) by (apply HX; eauto). discriminate.
Qed.
(** The parts of a signature *)
Theorem C79_parts d x R S r s : bytes_ok d = true -> der_sequence d R S -> reads_as R r -> reads_as S s ->
  signature_is_present (d ++ [x]) = true /\ signature_der (d ++ [x]) = Ok d /\ signature_sighash (d ++ [x]) = Ok x /\
  signature_r_value (d ++ [x]) = Ok r /\ signature_s_value (d ++ [x]) = Ok s /\
  exists c, signature_to_compact (d ++ [x]) = Ok c /\ compact_form r s c.
Proof.
  intros HB HD HR HS. assert (EP : parse_der d = Some (r, s)) by (apply parse_der_iff; [exact HB|]; exists R, S; auto). pose proof (parse_der_range d r s HB EP) as [Hr Hs].
  assert (HN : bytes_eqb (d ++ [x]) [255] = false). { destruct (bytes_eqb_spec (d ++ [x]) [255]) as [HE|]; [|reflexivity]. change [255] with ([] ++ [255]) in HE. apply app_inj_tail in HE as [-> _]. discriminate EP. }
  assert (HSl : slice_to (d ++ [x]) (-1) = d). { unfold slice_to, slice_bound. change (-1 <? 0) with true. cbv iota. rewrite zlen_app. change (zlen [x]) with 1. pose proof (zlen_nonneg d). rewrite Z.max_r by lia. apply ztake_app_exact. lia. }
  assert (HC : signature_to_compact (d ++ [x]) = Ok (serialize_compact r s)). { unfold signature_to_compact, signature_der, der_signature_to_compact, der_signature_to_cdata. rewrite HN, HSl. cbn [bind]. rewrite EP. reflexivity. }
  unfold signature_is_present, signature_der, signature_sighash, signature_r_value, signature_s_value. rewrite HC, HN, HSl, pyindex_last. cbn [bind negb]. repeat (split; [reflexivity|]).
  unfold serialize_compact. destruct (bytes32_ok r) as [B1 L1], (bytes32_ok s) as [B2 L2]. pose proof order_lt. rewrite slice_to_nonneg, slice_from_nonneg, ztake_app_exact, zdrop_app_exact by lia.
  unfold be_bytes_to_int. rewrite !be_bytes32 by lia. repeat (split; [reflexivity|]). eexists. split; [reflexivity|]. exists (bytes32 r), (bytes32 s). rewrite bytes_ok_app, B1, B2, !val_be_int, !be_bytes32 by lia. repeat split; assumption.
Qed.
Theorem C79_missing : signature_is_present [255] = false /\ signature_der [255] = Err InvalidSignatureError /\ signature_sighash [255] = Err InvalidSignatureError /\
  signature_to_compact [255] = Err InvalidSignatureError /\ signature_r_value [255] = Err InvalidSignatureError /\ signature_s_value [255] = Err InvalidSignatureError.
Proof. repeat split. Qed.
(** from_der_sig puts a signature together from the parts the attributes give, and from_hex undoes to_hex. *)
Theorem C79_from_der_sig raw d x : bytes_ok raw = true -> signature_new raw = Ok raw -> signature_der raw = Ok d -> signature_sighash raw = Ok x -> signature_from_der_sig d x = Ok raw.
Proof.
  intros HB HN HD HX. unfold signature_der, signature_sighash in *. destruct (bytes_eqb raw [255]); [discriminate HD|]. destruct raw as [|y l _] using rev_ind; [discriminate HX|]. rewrite pyindex_last in HX. apply Ok_inj in HX. subst y.
  assert (HSl : slice_to (l ++ [x]) (-1) = l). { unfold slice_to, slice_bound. change (-1 <? 0) with true. cbv iota. rewrite zlen_app. change (zlen [x]) with 1. pose proof (zlen_nonneg l). rewrite Z.max_r by lia. apply ztake_app_exact. lia. }
  rewrite HSl in HD. apply Ok_inj in HD. subst d. unfold signature_from_der_sig. rewrite bytes_ok_app, bytes_ok_cons in HB. apply andb_true_iff in HB as [_ HB]. rewrite andb_true_r in HB. apply byte_ok_iff in HB. rewrite pack_byte_ok by lia. cbn [bind]. exact HN.
Qed.
Theorem C79_hex raw : bytes_ok raw = true -> signature_from_hex (to_hex raw) = signature_new raw.
Proof. intros HB. unfold signature_from_hex. now rewrite from_hex_to_hex. Qed.
(** Making one from an empty DER signature and sighash 255 is not refused: the result is the missing signature. *)
Theorem C79_from_der_sig_refuted : signature_from_der_sig [] 255 = Ok [255] /\ signature_is_present [255] = false /\ der_signature_to_compact [] = Err InvalidSignatureError.
Proof. repeat split. Qed.
(** With any other sighash, or a DER signature that is not empty, from_der_sig accepts exactly the DER signatures. *)
Theorem C79_from_der_sig_partial d x : bytes_ok d = true -> 0 <= x < 256 -> d <> [] \/ x <> 255 ->
  match signature_from_der_sig d x with
  | Ok raw => raw = d ++ [x] /\ exists R S, der_sequence d R S
  | Err e => e = InvalidSignatureError /\ ~ exists R S, der_sequence d R S
  end.
Proof.
  intros HB Hx HD. unfold signature_from_der_sig. rewrite pack_byte_ok by exact Hx. cbn [bind]. assert (HBx : bytes_ok (d ++ [x]) = true) by (rewrite bytes_ok_app, HB, bytes_ok_cons, andb_true_r; now apply byte_ok_iff).
  assert (HNE : d ++ [x] <> [255]). { intros HE. change [255] with ([] ++ [255]) in HE. apply app_inj_tail in HE as [-> ->]. destruct HD; contradiction. }
  pose proof (C79_accepted (d ++ [x]) HBx) as HA. destruct (signature_new (d ++ [x])) as [raw|e].
  - destruct HA as [-> [HE|(d' & x' & R & S & HE & HS)]]; [contradiction|]. split; [reflexivity|]. apply app_inj_tail in HE as [-> _]. eauto.
  - destruct HA as (-> & _ & HA). split; [reflexivity|]. intros (R & S & HS). apply HA. exists d, x, R, S. auto.
Qed.
Print Assumptions C79_accepted.
Print Assumptions C79_parts.
Print Assumptions C79_missing.
Print Assumptions C79_from_der_sig.
Print Assumptions C79_hex.
Print Assumptions C79_from_der_sig_refuted.
Print Assumptions C79_from_der_sig_partial.
Example C79_ex : signature_new [48; 6; 2; 1; 5; 2; 1; 9; 65] = Ok [48; 6; 2; 1; 5; 2; 1; 9; 65] /\
  signature_s_value [48; 6; 2; 1; 5; 2; 1; 9; 65] = Ok 9 /\ signature_sighash [48; 6; 2; 1; 5; 2; 1; 9; 65] = Ok 65 /\
  der_sequence [48; 6; 2; 1; 5; 2; 1; 9] [5] [9] /\ reads_as [9] 9 /\
  signature_new [48; 6; 2; 1; 5; 2; 1] = Err InvalidSignatureError.
Proof.
  repeat (split; [vm_compute; reflexivity|]). split; [|split; [left; repeat split|vm_compute; reflexivity]].
  exists [1], [1], [6]. repeat (split; [split; [reflexivity|]; exact I || (left; split; reflexivity)|]). reflexivity.
Qed.

(** C80.  Base64. *)
Theorem C80_roundtrip ex b : bytes_ok b = true -> b64decode ex (b64encode b) = Ok b.
Proof. exact (b64_roundtrip ex b). Qed.
Theorem C80_length b : zlen (b64encode b) = 4 * ((zlen b + 2) / 3).
Proof. exact (b64_length (length b) b (Nat.le_refl _)). Qed.
Theorem C80_decodes ex s b : b64decode ex s = Ok b -> bytes_ok b = true.
Proof. exact (b64_bytes ex s b). Qed.
Theorem C80_errors ex s e : b64decode ex s = Err e -> e = BinasciiError \/ (e = ValueError /\ exists c, In c s /\ ~ 0 <= c < 128).
Proof. exact (b64_errors ex s e). Qed.
(** The texts are those of RFC 4648, the bits after the bytes zero. *)
Theorem C80_encode b t : bytes_ok b = true -> b64encode b = t <-> exists cs pad, base64_text b 0 cs pad t /\ zlen t mod 4 = 0 /\ 0 <= pad <= 2.
Proof. exact (b64encode_exact b t). Qed.
(** Decoding takes any such text, whatever those bits, and where this Python allows it, with more '=' than needed. *)
Theorem C80_decode ex t b : b64decode ex t = Ok b <-> bytes_ok b = true /\ exists rest cs pad, base64_text b rest cs pad t /\ 0 <= pad <= 2 /\
  (zlen t mod 4 = 0 \/ (4 * ((zlen cs + 3) / 4) < zlen t /\ ex (zlen cs) pad = true)).
Proof. exact (b64decode_exact ex t b). Qed.
(** So different texts, each four characters for every three bytes, decode to the same bytes. *)
Theorem C80_unique_refuted : exists t t' b, t <> t' /\ zlen t = zlen t' /\ forall ex, b64decode ex t = Ok b /\ b64decode ex t' = Ok b.
Proof. exists (txt "QQ=="), (txt "QR=="), [65]. split; [discriminate|]. split; [reflexivity|]. intros ex. split; reflexivity. Qed.
Example C80_text_ex : base64_text [72; 105; 33; 72] 0 (txt "SGkhSA") 2 (txt "SGkhSA==").
Proof. exists [18; 6; 36; 33; 18; 0]. split; [change (txt "SGkhSA") with [83; 71; 107; 104; 83; 65]; repeat (apply Forall2_cons; [unfold b64_digit; lia|]); apply Forall2_nil|]. split; [|reflexivity]. exists 4. vm_compute. repeat split; discriminate. Qed.
Print Assumptions C80_encode.
Print Assumptions C80_decode.
Print Assumptions C80_unique_refuted.
Print Assumptions C80_roundtrip.
Print Assumptions C80_length.
Print Assumptions C80_decodes.
Print Assumptions C80_errors.
Example C80_ex : b64encode [72; 101; 108; 108; 111] = txt "SGVsbG8=" /\ b64decode no_excess (txt "SGVsbG8=") = Ok [72; 101; 108; 108; 111] /\
  b64decode no_excess (txt "SGVsbG8") = Err BinasciiError /\ b64decode no_excess [233] = Err ValueError.
Proof. vm_compute. repeat split. Qed.
