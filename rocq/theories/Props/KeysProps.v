(** Keys: C51, C55, C56 and C67.

    The curve is any [C] obeying [curve_laws] (Spec/CurveSpec.v); Proofs/CurveFacts.v has an instance, [toy],
    the integers modulo the order with the serialization formats of points, which the examples use. *)
From Coq Require Import Permutation.
From Verif.Model Require Import Py Text Packing Misc Curve Coin Base58 Base64 Aes Keys.
From Verif.Spec Require Import Numbers CurveSpec KeysSpec MiscSpec.
From Verif.Proofs Require Import PyFacts NumbersFacts MiscFacts CurveFacts KeysFacts WifFacts EciesFacts Base64Facts MessageFacts.
From Verif.Props Require Import Base58Props.

(** C51.  The result has the secret, the flag that was written and a coin with the WIF byte that was written. *)
Theorem C51_roundtrip (H : bytes -> bytes) : (forall x, bytes_ok (H x) = true) -> (forall x, zlen (H x) = 32) ->
  forall k oc oco, valid_privkey k -> In (sk_coin k) all_coins -> (forall c, oco = Some c -> In c all_coins) ->
  exists t c', privkey_to_WIF H k oc oco = Ok t /\
    privkey_from_WIF H t = Ok (mk_privkey (sk_secret k) (match oc with Some f => f | None => sk_compressed k end) c') /\
    c_WIF_byte c' = c_WIF_byte (match oco with Some c => c | None => sk_coin k end).
Proof.
  intros HO HL k oc oco HV HC HCo. destruct (WIF_roundtrip H HO HL k oc oco HV HC HCo) as (t & c' & H1 & H2 & _ & H4 & _). eauto.
Qed.
Theorem C51_inverse (H : bytes -> bytes) t k : privkey_from_WIF H t = Ok k ->
  valid_privkey k /\ In (sk_coin k) all_coins /\ privkey_to_WIF H k None None = Ok t.
Proof. exact (WIF_inverse H t k). Qed.
Theorem C51_errors (H : bytes -> bytes) t e : privkey_from_WIF H t = Err e -> e = ValueError \/ e = Base58Error.
Proof. exact (WIF_errors H t e). Qed.
(** The three forms of a key, each read as itself. *)
Theorem C51_text_WIF (H S : bytes -> bytes) : (forall x, bytes_ok (H x) = true) -> (forall x, zlen (H x) = 32) ->
  forall k oc oco t, valid_privkey k -> In (sk_coin k) all_coins -> (forall c, oco = Some c -> In c all_coins) ->
  privkey_to_WIF H k oc oco = Ok t -> privkey_from_text H S t = privkey_from_WIF H t.
Proof.
  intros HO HL k oc oco t HV HC HCo HT. destruct (WIF_roundtrip H HO HL k oc oco HV HC HCo) as (t' & c' & H1 & _ & _ & _ & HZ).
  rewrite H1 in HT. injection HT as <-. apply text_WIF. rewrite HZ. destruct (match oc with Some f => f | None => sk_compressed k end); auto.
Qed.
Theorem C51_text_hex (H S : bytes -> bytes) k : valid_privkey k -> privkey_from_text H S (privkey_to_hex k) = Ok (mk_privkey (sk_secret k) true Bitcoin).
Proof. exact (text_hex H S k). Qed.
Theorem C51_text_minikey (H S : bytes -> bytes) t : is_minikey S t = Ok true -> privkey_from_text H S t = make_privkey (S t) false None.
Proof. exact (text_minikey H S t). Qed.
Print Assumptions C51_roundtrip.
Print Assumptions C51_inverse.
Print Assumptions C51_errors.
Print Assumptions C51_text_WIF.
Print Assumptions C51_text_hex.
Print Assumptions C51_text_minikey.
Definition sample_key (x : Z) (c : bool) : privkey := mk_privkey (bytes32 x) c BitcoinRegtest.
Lemma sample_valid x c : 0 < x < CURVE_ORDER -> valid_privkey (sample_key x c).
Proof. intros Hx. exact (proj1 (bytes32_valid x Hx)). Qed.
Example C51_ex :
  (t <- privkey_to_WIF toy_hash (sample_key 12345678901234567890 true) None None ;; privkey_from_text toy_hash toy_hash t)
    = Ok (mk_privkey (bytes32 12345678901234567890) true BitcoinTestnet) /\
  valid_privkey (sample_key 12345678901234567890 true) /\
  is_minikey (fun _ => [0]) (txt "S6c56bnXQiBjk9mqSYE7yk") = Ok true.
Proof. split; [vm_compute; reflexivity|]. split; [apply sample_valid; vm_compute; split; reflexivity|vm_compute; reflexivity]. Qed.

(** C55.  Equal keys: the same point, and == in Python.  Both sides raise ValueError or neither. *)
Theorem C55_shared_secret (C : curve) : curve_laws C -> forall A B PA PB m h, valid_privkey A -> valid_privkey B -> bytes_ok m = true ->
  (forall f, h = Some f -> forall x, bytes_ok (f x) = true) ->
  privkey_public_key C A = Ok PA -> privkey_public_key C B = Ok PB ->
  agree (fun p q => pk_point p = pk_point q /\ pubkey_eqb C p q = true) (shared_secret C A PB m h) (shared_secret C B PA m h).
Proof.
  intros L A B PA PB m h HA HB Hm Hh HPA HPB. pose proof (shared_secrets_agree C L A B PA PB m h HA HB Hm Hh HPA HPB) as HG.
  destruct (shared_secret C A PB m h), (shared_secret C B PA m h); cbn in *; auto. split; [exact HG|]. now apply (pubkey_eqb_point C L).
Qed.
(** When it does raise: the hash does not have 32 bytes, is not below the order, or cancels one of the secrets. *)
Theorem C55_fails (C : curve) : curve_laws C -> forall A B PB m h, valid_privkey A -> valid_privkey B -> bytes_ok m = true ->
  (forall f, h = Some f -> forall x, bytes_ok (f x) = true) -> privkey_public_key C B = Ok PB ->
  (shared_secret C A PB m h = Err ValueError <->
   let d := match h with Some f => f m | None => m end in
   zlen d <> 32 \/ CURVE_ORDER <= val_be d \/ (val_be (sk_secret A) + val_be d) mod CURVE_ORDER = 0 \/ (val_be (sk_secret B) + val_be d) mod CURVE_ORDER = 0).
Proof. exact (shared_secret_fails C). Qed.
Theorem C55_ecdh (C : curve) : curve_laws C -> forall A B PA PB, valid_privkey A -> valid_privkey B -> privkey_public_key C A = Ok PA -> privkey_public_key C B = Ok PB ->
  exists p q, ecdh_shared_secret C A PB = Ok p /\ ecdh_shared_secret C B PA = Ok q /\ pk_point p = pk_point q /\ pubkey_eqb C p q = true.
Proof.
  intros L A B PA PB HA HB HPA HPB. destruct (ecdh_agree C L A B PA PB HA HB HPA HPB) as (p & q & H1 & H2 & H3). exists p, q. repeat split; auto. now apply (pubkey_eqb_point C L).
Qed.
(** Every valid private key has a public key: the secret times the generator. *)
Theorem C55_public_key (C : curve) : curve_laws C -> forall k, valid_privkey k ->
  exists p, privkey_public_key C k = Ok (mk_pubkey p (sk_compressed k) (sk_coin k)) /\ gen_times C (val_be (sk_secret k)) = Some p.
Proof. exact (public_key_spec C). Qed.
Print Assumptions C55_shared_secret.
Print Assumptions C55_fails.
Print Assumptions C55_ecdh.
Print Assumptions C55_public_key.
Definition hex_of (r : result (pubkey toy)) : result pystr := p <- r ;; Ok (pubkey_to_hex toy p None).
Example C55_ex :
  (P <- privkey_public_key toy (sample_key 7 true) ;; hex_of (shared_secret toy (sample_key 5 true) P (bytes32 10) None))
    = Ok (txt "02" ++ to_hex (bytes32 255)) /\
  (P <- privkey_public_key toy (sample_key 5 true) ;; hex_of (shared_secret toy (sample_key 7 true) P (bytes32 10) None))
    = Ok (txt "02" ++ to_hex (bytes32 255)) /\
  (P <- privkey_public_key toy (sample_key 7 true) ;; hex_of (shared_secret toy (sample_key 5 true) P (bytes32 (CURVE_ORDER - 7)) None)) = Err ValueError.
Proof. vm_compute. repeat split. Qed.

(** C56.  [cbc_laws]: AES-CBC of whole blocks can be undone. *)
Theorem C56_roundtrip (C : curve) (sha512 : bytes -> bytes) (hmac : bytes -> bytes -> bytes) (enc dec : bytes -> bytes -> bytes -> result bytes) :
  curve_laws C -> (forall x, zlen (sha512 x) = 64 /\ bytes_ok (sha512 x) = true) -> (forall k x, zlen (hmac k x) = 32) -> cbc_laws enc dec ->
  forall k P source m magic t, bytes_ok m = true -> valid_privkey k -> privkey_public_key C k = Ok P -> Forall (fun b => bytes_ok b = true) source ->
  encrypt_message C sha512 hmac enc source P m magic = Ok t -> decrypt_message C sha512 hmac dec k t magic = Ok m.
Proof. intros L H1 H2 H3. exact (ecies_roundtrip C L sha512 (fun x => proj1 (H1 x)) (fun x => proj2 (H1 x)) hmac H2 enc dec H3). Qed.
(** Encryption succeeds once the random source yields a valid key. *)
Theorem C56_encrypts (C : curve) (sha512 : bytes -> bytes) (hmac : bytes -> bytes -> bytes) (enc dec : bytes -> bytes -> bytes -> result bytes) :
  curve_laws C -> (forall x, zlen (sha512 x) = 64 /\ bytes_ok (sha512 x) = true) -> cbc_laws enc dec ->
  forall (P : pubkey C) source m magic k, bytes_ok m = true -> Forall (fun b => bytes_ok b = true) source -> privkey_from_random source = Ok k ->
  exists t, encrypt_message C sha512 hmac enc source P m magic = Ok t.
Proof. intros L H1 H3. exact (ecies_encrypts C L sha512 (fun x => proj1 (H1 x)) (fun x => proj2 (H1 x)) hmac enc dec H3). Qed.
(** Whatever decrypts is the magic, a compressed point P, a ciphertext and its MAC under the key that the shared point gives; and the
    ciphertext decrypts to the padded message. *)
Theorem C56_accepts (C : curve) (sha512 : bytes -> bytes) (hmac : bytes -> bytes -> bytes) (dec : bytes -> bytes -> bytes -> result bytes) :
  curve_laws C -> forall k t magic d, valid_privkey k -> decrypt_message C sha512 hmac dec k t magic = Ok d ->
  exists E P S c mac, t = magic ++ E ++ c ++ mac /\ pubkey_parse C E = Some P /\ zlen E = 33 /\
    times C (Z.to_pos (val_be (sk_secret k))) (Some P) = Some S /\
    let key := sha512 (pubkey_serialize C true S) in
    mac = hmac (skipn 32 key) (magic ++ E ++ c) /\ zlen mac = 32 /\
    exists pd, dec (firstn 16 (skipn 16 key)) (firstn 16 key) c = Ok pd /\ padded d pd.
Proof.
  intros L k t magic d HV HD. destruct (ecies_accepts C L sha512 hmac dec k t magic d HV HD) as (E & P & S & c & mac & -> & HE & Hm & HP & HS & HM & pd & Hpd & Hd).
  exists E, P, S, c, mac. split; [reflexivity|]. split; [exact HP|]. split; [exact HE|]. destruct HV as (_ & _ & HR). rewrite val_be_int in *. split.
  { rewrite <- (pmul_times C L). rewrite <- HS. destruct (be_int (sk_secret k)); [lia|reflexivity|lia]. }
  cbv zeta. unfold keys_of in HM, Hpd. cbn [fst snd] in HM, Hpd. rewrite !pyslice_nonneg in Hpd by lia. rewrite slice_from_nonneg in HM by lia.
  rewrite !zdrop_skipn, !ztake_firstn in *. split; [exact HM|]. split; [exact Hm|]. exists pd. split; assumption.
Qed.
Theorem C56_errors (C : curve) (sha512 : bytes -> bytes) (hmac : bytes -> bytes -> bytes) (dec : bytes -> bytes -> bytes -> result bytes) :
  curve_laws C -> forall k t magic e, valid_privkey k -> decrypt_message C sha512 hmac dec k t magic = Err e -> e = DecryptionError.
Proof. intros L. exact (ecies_errors C L sha512 hmac dec). Qed.
(** Text: the message is its UTF-8 bytes and the base64 form decrypts. *)
Theorem C56_base64 (C : curve) (sha512 : bytes -> bytes) (hmac : bytes -> bytes -> bytes) (enc dec : bytes -> bytes -> bytes -> result bytes) ex :
  curve_laws C -> (forall x, zlen (sha512 x) = 64 /\ bytes_ok (sha512 x) = true) -> (forall k x, zlen (hmac k x) = 32 /\ bytes_ok (hmac k x) = true) -> cbc_laws enc dec ->
  forall k P source m mb magic t, valid_privkey k -> privkey_public_key C k = Ok P -> Forall (fun b => bytes_ok b = true) source -> bytes_ok magic = true ->
  match m with AsText s => utf8_encode s | AsBytes b => Ok b end = Ok mb -> (forall b, m = AsBytes b -> bytes_ok b = true) ->
  encrypt_message_to_base64 C sha512 hmac enc source P m magic = Ok t ->
  decrypt_message_arg C sha512 hmac dec ex k (AsText t) magic = Ok mb.
Proof.
  intros L H1 H2 H3 k P source m mb magic t HV HP HS HMg HM HO' HE. assert (bytes_ok mb = true) as HO by (destruct m as [s|b]; [exact (utf8_bytes s mb HM)|injection HM as <-; exact (HO' b eq_refl)]). unfold encrypt_message_to_base64 in HE. apply bind_Ok in HE as (e & HE & HT). injection HT as <-.
  unfold encrypt_message_arg in HE. rewrite HM in HE. cbn [bind] in HE.
  pose proof (ecies_bytes C L sha512 (fun x => proj1 (H1 x)) (fun x => proj2 (H1 x)) hmac enc dec H3 P source mb magic e (fun k x => proj2 (H2 k x)) HO HMg HS HE) as HB.
  unfold decrypt_message_arg. rewrite (b64_roundtrip ex e HB). cbn [bind].
  exact (C56_roundtrip C sha512 hmac enc dec L H1 (fun k x => proj1 (H2 k x)) H3 k P source mb magic e HO HV HP HS HE).
Qed.
(** Text that is not base64 raises DecryptionError, but only if it is ASCII; otherwise ValueError. *)
Theorem C56_text_errors_partial (C : curve) (sha512 : bytes -> bytes) (hmac : bytes -> bytes -> bytes) (dec : bytes -> bytes -> bytes -> result bytes) ex :
  curve_laws C -> forall k t magic e, valid_privkey k -> decrypt_message_arg C sha512 hmac dec ex k (AsText t) magic = Err e ->
  e = DecryptionError \/ (e = ValueError /\ exists c, In c t /\ ~ 0 <= c < 128).
Proof.
  intros L k t magic e HV HE. unfold decrypt_message_arg in HE. apply bind_Err in HE as [HE|(b & _ & HE)]; [|left; exact (C56_errors C sha512 hmac dec L k b magic e HV HE)].
  destruct (b64decode ex t) as [b|e'] eqn:E; [discriminate HE|]. apply b64_errors in E as [->|[-> HC]]; injection HE as <-; auto.
Qed.
Theorem C56_text_refuted (C : curve) (sha512 : bytes -> bytes) (hmac : bytes -> bytes -> bytes) (dec : bytes -> bytes -> bytes -> result bytes) ex k t c magic :
  In c t -> ~ 0 <= c < 128 -> decrypt_message_arg C sha512 hmac dec ex k (AsText t) magic = Err ValueError.
Proof. intros HI HC. unfold decrypt_message_arg. rewrite (b64_non_ascii ex t c HI HC). reflexivity. Qed.
Print Assumptions C56_base64.
Print Assumptions C56_text_errors_partial.
Print Assumptions C56_text_refuted.
Print Assumptions C56_roundtrip.
Print Assumptions C56_encrypts.
Print Assumptions C56_accepts.
Print Assumptions C56_errors.
(** A cipher that obeys the laws: add the iv's and key's first byte to each byte. *)
Definition toy_shift (d : Z) (data : bytes) : bytes := map (fun x => (x + d) mod 256) data.
Definition toy_enc (key iv data : bytes) : result bytes := Ok (toy_shift (hd 0 key + hd 0 iv) data).
Definition toy_dec (key iv data : bytes) : result bytes := if zlen data mod 16 =? 0 then Ok (toy_shift (- (hd 0 key + hd 0 iv)) data) else Err ValueError.
Lemma toy_cbc : cbc_laws toy_enc toy_dec.
Proof.
  split. intros key iv d _ _ HM _ _ HO. eexists. split; [reflexivity|]. assert (HL : forall x (l : bytes), zlen (toy_shift x l) = zlen l) by (intros; unfold zlen, toy_shift; now rewrite map_length).
  split; [apply HL|]. split.
  - apply forallb_forall. intros x Hx. apply in_map_iff in Hx as (y & <- & _). pose proof (Z.mod_pos_bound (y + (hd 0 key + hd 0 iv)) 256 ltac:(lia)). unfold byte_ok. lia.
  - unfold toy_dec. rewrite HL, HM. cbn [Z.eqb]. f_equal. unfold toy_shift. rewrite map_map. rewrite <- (map_id d) at 2. apply map_ext_in. intros x Hx. eapply forallb_forall in HO; [|exact Hx]. unfold byte_ok in HO.
    rewrite Zplus_mod_idemp_l. replace (x + (hd 0 key + hd 0 iv) + - (hd 0 key + hd 0 iv)) with x by lia. apply Z.mod_small. lia.
Qed.
Definition toy_sha512 (x : bytes) : bytes := zrepeat (be_int x mod 251) 64.
Definition toy_hmac (k x : bytes) : bytes := zrepeat ((be_int k + be_int x) mod 241) 32.
Lemma zrepeat_bytes x n : 0 <= x < 256 -> bytes_ok (zrepeat x n) = true.
Proof. intros Hx. apply forallb_forall. intros y Hy. apply repeat_spec in Hy. subst y. unfold byte_ok. lia. Qed.
Lemma toy_lengths : (forall x, zlen (toy_sha512 x) = 64 /\ bytes_ok (toy_sha512 x) = true) /\ (forall k x, zlen (toy_hmac k x) = 32 /\ bytes_ok (toy_hmac k x) = true).
Proof.
  split; intros; (split; [reflexivity|]); apply zrepeat_bytes; [pose proof (Z.mod_pos_bound (be_int x) 251)|pose proof (Z.mod_pos_bound (be_int k + be_int x) 241)]; lia.
Qed.
Example C56_text_ex :
  (P <- privkey_public_key toy (sample_key 7 true) ;;
   t <- encrypt_message_to_base64 toy toy_sha512 toy_hmac toy_enc [zrepeat 0 32; bytes32 99] P (AsText (txt "hello")) (txt "BIE1") ;;
   decrypt_message_arg toy toy_sha512 toy_hmac toy_dec (fun _ _ => false) (sample_key 7 true) (AsText t) (txt "BIE1")) = Ok (txt "hello") /\
  decrypt_message_arg toy toy_sha512 toy_hmac toy_dec (fun _ _ => false) (sample_key 7 true) (AsText [66; 233]) (txt "BIE1") = Err ValueError.
Proof. vm_compute. split; reflexivity. Qed.
Example C56_ex :
  (P <- privkey_public_key toy (sample_key 7 true) ;;
   t <- encrypt_message toy toy_sha512 toy_hmac toy_enc [zrepeat 0 32; bytes32 99] P (txt "hello") (txt "BIE1") ;;
   decrypt_message toy toy_sha512 toy_hmac toy_dec (sample_key 7 true) t (txt "BIE1")) = Ok (txt "hello") /\
  (P <- privkey_public_key toy (sample_key 7 true) ;;
   t <- encrypt_message toy toy_sha512 toy_hmac toy_enc [bytes32 99] P (txt "hello") (txt "BIE1") ;;
   decrypt_message toy toy_sha512 toy_hmac toy_dec (sample_key 8 true) t (txt "BIE1")) = Err DecryptionError.
Proof. vm_compute. repeat split. Qed.

(** C67 *)
Theorem C67_combine_order (C : curve) : curve_laws C -> forall l m, Permutation l m ->
  agree (fun p q => pk_point p = pk_point q /\ pubkey_eqb C p q = true) (combine_keys C l) (combine_keys C m).
Proof.
  intros L l m HP. assert (HS : pubkey_combine C (map pk_point l) = pubkey_combine C (map pk_point m)). { rewrite !(pubkey_combine_sum C L). apply (point_sum_perm C L). now apply Permutation_map. }
  unfold combine_keys. destruct l as [|a l], m as [|b m]; [cbn; auto|apply Permutation_nil in HP; discriminate|apply Permutation_sym, Permutation_nil in HP; discriminate|].
  rewrite HS. destruct (pubkey_combine C (map pk_point (b :: m))); cbn [agree]; [|auto]. split; [reflexivity|]. now apply (pubkey_eqb_point C L).
Qed.
Theorem C67_combine (C : curve) : curve_laws C -> forall l,
  match combine_keys C l with Ok p => point_sum C (map pk_point l) = Some (pk_point p) | Err e => e = ValueError /\ (l = [] \/ point_sum C (map pk_point l) = None) end.
Proof.
  intros L l. unfold combine_keys. destruct l as [|k l]; [auto|]. rewrite (pubkey_combine_sum C L). destruct (point_sum C (map pk_point (k :: l))); cbn; auto.
Qed.
(** The sum of the public keys is the public key of the sum of the secrets. *)
Theorem C67_combine_secrets (C : curve) : curve_laws C -> forall ks Ps, Forall valid_privkey ks -> Forall2 (fun k P => privkey_public_key C k = Ok P) ks Ps ->
  point_sum C (map pk_point Ps) = gen_times C (fold_right (fun k acc => (val_be (sk_secret k) + acc) mod CURVE_ORDER) 0 ks).
Proof. exact (point_sum_secrets C). Qed.
Theorem C67_add (C : curve) : curve_laws C -> forall k t P, valid_privkey k -> bytes_ok t = true -> privkey_public_key C k = Ok P ->
  pubkey_add C P t = match privkey_add k t with Ok k' => privkey_public_key C k' | Err e => Err e end.
Proof. exact (add_commutes C). Qed.
Theorem C67_multiply (C : curve) : curve_laws C -> forall k t P, valid_privkey k -> bytes_ok t = true -> privkey_public_key C k = Ok P ->
  pubkey_multiply C P t = match privkey_multiply k t with Ok k' => privkey_public_key C k' | Err e => Err e end.
Proof. exact (multiply_commutes C). Qed.
(** What add and multiply do to secrets, and when they raise. *)
Theorem C67_add_secret k t : valid_privkey k -> bytes_ok t = true ->
  match privkey_add k t with
  | Ok k' => valid_privkey k' /\ val_be (sk_secret k') = (val_be (sk_secret k) + val_be t) mod CURVE_ORDER /\ sk_compressed k' = sk_compressed k /\ sk_coin k' = sk_coin k /\ zlen t = 32 /\ val_be t < CURVE_ORDER
  | Err e => e = ValueError /\ (zlen t <> 32 \/ CURVE_ORDER <= val_be t \/ (val_be (sk_secret k) + val_be t) mod CURVE_ORDER = 0)
  end.
Proof.
  intros HV HB. destruct (privkey_add_spec k t HV HB) as [(s & HL & HT & -> & HS & HE)|(-> & HF)]; rewrite !val_be_int; auto. cbn. repeat split; try assumption; apply HS.
Qed.
Theorem C67_multiply_secret k t : valid_privkey k -> bytes_ok t = true ->
  match privkey_multiply k t with
  | Ok k' => valid_privkey k' /\ val_be (sk_secret k') = (val_be (sk_secret k) * val_be t) mod CURVE_ORDER /\ sk_compressed k' = sk_compressed k /\ sk_coin k' = sk_coin k /\ zlen t = 32 /\ 0 < val_be t < CURVE_ORDER
  | Err e => e = ValueError /\ (zlen t <> 32 \/ CURVE_ORDER <= val_be t \/ val_be t = 0)
  end.
Proof.
  intros HV HB. destruct (privkey_mul_spec k t HV HB) as [(s & HL & HT & -> & HS & HE)|(-> & HF)]; rewrite !val_be_int; auto. cbn. repeat split; try assumption; try apply HS; apply HT.
Qed.
Print Assumptions C67_combine_order.
Print Assumptions C67_combine.
Print Assumptions C67_combine_secrets.
Print Assumptions C67_add.
Print Assumptions C67_multiply.
Print Assumptions C67_add_secret.
Print Assumptions C67_multiply_secret.
Definition toy_pub (x : Z) : pubkey toy := match privkey_public_key toy (sample_key x true) with Ok P => P | Err _ => mk_pubkey (gen toy) true Bitcoin end.
Example C67_ex : hex_of (combine_keys toy [toy_pub 5; toy_pub 7; toy_pub 100]) = Ok (txt "02" ++ to_hex (bytes32 112)) /\
  hex_of (combine_keys toy [toy_pub 100; toy_pub 5; toy_pub 7]) = Ok (txt "02" ++ to_hex (bytes32 112)) /\
  hex_of (combine_keys toy [toy_pub 5; toy_pub (CURVE_ORDER - 5)]) = Err ValueError /\
  hex_of (pubkey_add toy (toy_pub 5) (bytes32 (CURVE_ORDER - 5))) = Err ValueError /\
  hex_of (pubkey_add toy (toy_pub 5) (bytes32 6)) = hex_of (privkey_public_key toy (sample_key 11 true)).
Proof. vm_compute. repeat split. Qed.
