(** The first characters and the lengths of the texts for people: C83. *)
From Verif.Model Require Import Py Text Packing Misc Curve Coin Base58 Script Keys Bip32 Address.
From Verif.Spec Require Import Numbers CurveSpec KeysSpec Bip32Spec.
From Verif.Proofs Require Import PyFacts NumbersFacts PackingFacts ScriptFacts ScriptTheorems Digits Base58Facts WifFacts CurveFacts KeysFacts Bip32Facts Bip32Keys TextPrefix.
From Verif.Props Require Import Base58Props KeysProps Bip32Props.

Section Prefix.
  Variable H : bytes -> bytes.
  Hypothesis H_ok : forall x, bytes_ok (H x) = true.
  Hypothesis H_len : forall x, zlen (H x) = 32.

  Lemma check_char v r n m (ok : Z -> bool) : 0 < v < 256 -> bytes_ok r = true -> zlen r = n -> 1 <= m ->
    (58 ^ (m - 1) <=? v * 256 ^ (n + 4)) && ((v + 1) * 256 ^ (n + 4) <=? 58 ^ m) &&
    forallb (fun d => match znth base58_chars d with Some c => ok c | None => false end) (zrange (v * 256 ^ (n + 4) / 58 ^ (m - 1)) (((v + 1) * 256 ^ (n + 4) - 1) / 58 ^ (m - 1) + 1)) = true ->
    exists c rest, base58_encode_check H (v :: r) = c :: rest /\ ok c = true /\ zlen rest = m - 1.
  Proof using H_ok H_len.
    intros Hv Hr Hn Hm HA. apply andb_true_iff in HA as [HA H3]. apply andb_true_iff in HA as [H1 H2]. apply Z.leb_le in H1, H2. unfold base58_encode_check.
    assert (HZ : zlen (r ++ slice_to (H (v :: r)) 4) = n + 4) by (rewrite zlen_app, (H4_len H H_ok H_len), Hn; reflexivity).
    assert (HV : be_int [v] = v) by (unfold be_int, le_int; cbn; lia).
    apply (encode_char [v] (r ++ slice_to (H (v :: r)) 4) m ok); rewrite ?HV, ?HZ; try assumption; [congruence|cbn; lia|].
    change ([v] ++ r ++ slice_to (H (v :: r)) 4) with (v :: (r ++ slice_to (H (v :: r)) 4)). rewrite bytes_ok_cons, bytes_ok_app, Hr, (H4_ok H H_ok H_len), !andb_true_r. apply byte_ok_iff. lia.
  Qed.
  Lemma check_word p r n m (w : pystr) ds : p <> [] -> hd 0 p <> 0 -> bytes_ok p = true -> bytes_ok r = true -> zlen r = n -> zlen w <= m -> chars_of w ds ->
    (58 ^ (m - 1) <=? be_int p * 256 ^ (n + 4)) && ((be_int p + 1) * 256 ^ (n + 4) <=? 58 ^ m) &&
    (be_int p * 256 ^ (n + 4) / 58 ^ (m - zlen w) =? vbe 58 ds) && (((be_int p + 1) * 256 ^ (n + 4) - 1) / 58 ^ (m - zlen w) =? vbe 58 ds) = true ->
    exists rest, base58_encode_check H (p ++ r) = w ++ rest /\ zlen rest = m - zlen w.
  Proof using H_ok H_len.
    intros Hp Hh HB Hr Hn Hm HW HA. apply andb_true_iff in HA as [HA H4]. apply andb_true_iff in HA as [HA H3]. apply andb_true_iff in HA as [H1 H2]. apply Z.leb_le in H1, H2. apply Z.eqb_eq in H3, H4. unfold base58_encode_check.
    assert (HZ : zlen (r ++ slice_to (H (p ++ r)) 4) = n + 4) by (rewrite zlen_app, (H4_len H H_ok H_len), Hn; reflexivity).
    rewrite <- app_assoc. apply (encode_word p (r ++ slice_to (H (p ++ r)) 4) m w ds); rewrite ?HZ; try assumption.
    now rewrite !bytes_ok_app, HB, Hr, (H4_ok H H_ok H_len).
  Qed.
End Prefix.

(** C83.  Addresses of Bitcoin: P2PKH begin with 1 and have at most 34 characters; P2SH begin with 3 and have 34. *)
Theorem C83_P2PKH (H : bytes -> bytes) : (forall x, bytes_ok (H x) = true) -> (forall x, zlen (H x) = 32) ->
  forall h, bytes_ok h = true -> zlen h = 20 -> exists r, address_to_string H (P2PKH h Bitcoin) = Ok (txt "1" ++ r) /\ zlen r <= 33.
Proof.
  intros HO HL h HB HZ. unfold address_to_string. rewrite pack_byte_ok by (vm_compute; split; congruence). cbn [bind]. change ([c_P2PKH_verbyte Bitcoin] ++ h) with (0 :: h). unfold base58_encode_check.
  change ((0 :: h) ++ slice_to (H (0 :: h)) 4) with (0 :: (h ++ slice_to (H (0 :: h)) 4)).
  assert (HBB : bytes_ok (h ++ slice_to (H (0 :: h)) 4) = true) by (rewrite bytes_ok_app, HB; apply (H4_ok H HO HL)).
  rewrite encode_zero by exact HBB. eexists. split; [reflexivity|]. apply encode_length_le; [exact HBB| | |]; rewrite ?zlen_app, ?(H4_len H HO HL), ?HZ; vm_compute; congruence.
Qed.
Theorem C83_P2SH (H : bytes -> bytes) : (forall x, bytes_ok (H x) = true) -> (forall x, zlen (H x) = 32) ->
  forall h, bytes_ok h = true -> zlen h = 20 -> exists r, address_to_string H (P2SH h Bitcoin) = Ok (txt "3" ++ r) /\ zlen r = 33.
Proof.
  intros HO HL h HB HZ. unfold address_to_string. rewrite pack_byte_ok by (vm_compute; split; congruence). cbn [bind]. change ([c_P2SH_verbyte Bitcoin] ++ h) with (5 :: h).
  destruct (check_char H HO HL 5 h 20 34 (fun c => c =? 51) ltac:(lia) HB HZ ltac:(lia)) as (c & r & E & Hc & Hr); [vm_compute; reflexivity|]. rewrite E. apply Z.eqb_eq in Hc. subst c. exists r. auto.
Qed.
(** Those of the test networks: P2PKH begin with m or n and have 34 characters; P2SH begin with 2 and have 35. *)
Theorem C83_test_P2PKH (H : bytes -> bytes) : (forall x, bytes_ok (H x) = true) -> (forall x, zlen (H x) = 32) ->
  forall c h, In c all_coins -> c <> Bitcoin -> bytes_ok h = true -> zlen h = 20 ->
  exists f r, address_to_string H (P2PKH h c) = Ok (f ++ r) /\ (f = txt "m" \/ f = txt "n") /\ zlen r = 33.
Proof.
  intros HO HL c h HC HN HB HZ. unfold address_to_string. assert (HV : c_P2PKH_verbyte c = 0x6f) by (repeat destruct HC as [<-|HC]; try contradiction; try reflexivity; congruence). rewrite HV, pack_byte_ok by lia. cbn [bind app].
  destruct (check_char H HO HL 0x6f h 20 34 (fun c => (c =? 109) || (c =? 110)) ltac:(lia) HB HZ ltac:(lia)) as (d & r & E & Hc & Hr); [vm_compute; reflexivity|]. rewrite E. exists [d], r. split; [reflexivity|]. split; [|exact Hr].
  apply orb_true_iff in Hc as [Hc|Hc]; apply Z.eqb_eq in Hc; subst d; [now left|now right].
Qed.
Theorem C83_test_P2SH (H : bytes -> bytes) : (forall x, bytes_ok (H x) = true) -> (forall x, zlen (H x) = 32) ->
  forall c h, In c all_coins -> c <> Bitcoin -> bytes_ok h = true -> zlen h = 20 ->
  exists r, address_to_string H (P2SH h c) = Ok (txt "2" ++ r) /\ zlen r = 34.
Proof.
  intros HO HL c h HC HN HB HZ. unfold address_to_string. assert (HV : c_P2SH_verbyte c = 0xc4) by (repeat destruct HC as [<-|HC]; try contradiction; try reflexivity; congruence). rewrite HV, pack_byte_ok by lia. cbn [bind app].
  destruct (check_char H HO HL 0xc4 h 20 35 (fun c => c =? 50) ltac:(lia) HB HZ ltac:(lia)) as (d & r & E & Hc & Hr); [vm_compute; reflexivity|]. rewrite E. apply Z.eqb_eq in Hc. subst d. exists r. auto.
Qed.
(** Private keys: 5 and 51 characters, or K or L and 52 when compressed; 9 and 51, or c and 52, for the test networks. *)
Theorem C83_WIF (H : bytes -> bytes) : (forall x, bytes_ok (H x) = true) -> (forall x, zlen (H x) = 32) ->
  forall k (f : bool) c, valid_privkey k -> In c all_coins -> exists w r, privkey_to_WIF H k (Some f) (Some c) = Ok (w ++ r) /\ zlen r = (if f then 51 else 50) /\
    ((c = Bitcoin /\ f = false /\ w = txt "5") \/ (c = Bitcoin /\ f = true /\ (w = txt "K" \/ w = txt "L")) \/
     (c <> Bitcoin /\ f = false /\ w = txt "9") \/ (c <> Bitcoin /\ f = true /\ w = txt "c")).
Proof.
  intros HO HL k f c (HB & HZ & _) HC.
  assert (HV : (c = Bitcoin /\ c_WIF_byte c = 0x80) \/ (c <> Bitcoin /\ c_WIF_byte c = 0xef)).
  { repeat destruct HC as [<-|HC]; try contradiction; [left; split; reflexivity| | |]; right; (split; [intros E; apply (f_equal c_id) in E; discriminate E|reflexivity]). }
  rewrite to_WIF_spec by (cbv beta iota; destruct HV as [[_ ->]|[_ ->]]; lia). cbv beta iota. unfold wif_payload.
  assert (HR : bytes_ok (sk_secret k ++ (if f then [1] else [])) = true) by (rewrite bytes_ok_app, HB; destruct f; reflexivity).
  assert (HN : zlen (sk_secret k ++ (if f then [1] else [])) = (if f then 33 else 32)) by (rewrite zlen_app, HZ; destruct f; reflexivity).
  destruct HV as [[-> HV]|[Hne HV]]; rewrite HV; destruct f.
  - destruct (check_char H HO HL 0x80 _ 33 52 (fun c => (c =? 75) || (c =? 76)) ltac:(lia) HR HN ltac:(lia)) as (d & r & E & Hc & Hr); [vm_compute; reflexivity|]. rewrite E. exists [d], r. split; [reflexivity|]. split; [exact Hr|]. right. left. split; [reflexivity|]. split; [reflexivity|].
    apply orb_true_iff in Hc as [Hc|Hc]; apply Z.eqb_eq in Hc; subst d; [now left|now right].
  - destruct (check_char H HO HL 0x80 _ 32 51 (fun c => c =? 53) ltac:(lia) HR HN ltac:(lia)) as (d & r & E & Hc & Hr); [vm_compute; reflexivity|]. rewrite E. apply Z.eqb_eq in Hc. subst d. exists (txt "5"), r. split; [reflexivity|]. split; [exact Hr|]. left. auto.
  - destruct (check_char H HO HL 0xef _ 33 52 (fun c => c =? 99) ltac:(lia) HR HN ltac:(lia)) as (d & r & E & Hc & Hr); [vm_compute; reflexivity|]. rewrite E. apply Z.eqb_eq in Hc. subst d. exists (txt "c"), r. split; [reflexivity|]. split; [exact Hr|]. right. right. right. auto.
  - destruct (check_char H HO HL 0xef _ 32 51 (fun c => c =? 57) ltac:(lia) HR HN ltac:(lia)) as (d & r & E & Hc & Hr); [vm_compute; reflexivity|]. rewrite E. apply Z.eqb_eq in Hc. subst d. exists (txt "9"), r. split; [reflexivity|]. split; [exact Hr|]. right. right. left. auto.
Qed.
(** Extended keys: xprv, xpub, tprv and tpub, and 111 characters. *)
Theorem C83_xprv (H : bytes -> bytes) : (forall x, bytes_ok (H x) = true) -> (forall x, zlen (H x) = 32) ->
  forall k t, valid_xprv k -> xprv_to_string H k = Ok t -> exists w r, t = w ++ r /\ zlen t = 111 /\
    ((sk_coin (xprv_key k) = Bitcoin /\ w = txt "xprv") \/ (sk_coin (xprv_key k) <> Bitcoin /\ w = txt "tprv")).
Proof.
  intros HO HL k t HV HT. assert (HDp : d_depth (xprv_derivation k) <= 255).
  { destruct (Z_le_gt_dec (d_depth (xprv_derivation k)) 255); [assumption|]. exfalso. rewrite (proj1 (C52_deep toy H toy_laws) k HV ltac:(lia)) in HT. discriminate HT. }
  destruct HV as (HP & _ & HCo & HD). pose proof HP as (HB & HZ & _). destruct (extended_key_spec _ (sk_coin (xprv_key k)) _ HD HDp (or_introl HZ)) as (nb & _ & HBn & HLn & _ & _ & HE). rewrite HZ in HE. cbn [Z.eqb Pos.eqb] in HE.
  unfold xprv_to_string, xprv_extended_key in HT. rewrite HE in HT. cbn [bind] in HT. apply Ok_inj in HT. subst t.
  destruct HD as (Hc1 & Hc2 & _ & Hdp & Hf1 & Hf2).
  assert (HR : bytes_ok ([d_depth (xprv_derivation k)] ++ d_parent_fingerprint (xprv_derivation k) ++ nb ++ d_chain_code (xprv_derivation k) ++ 0 :: sk_secret (xprv_key k)) = true).
  { rewrite !bytes_ok_app, !bytes_ok_cons, HBn, HB. rewrite ?Hc1, ?Hc2, ?Hf1, ?Hf2. cbn [bytes_ok forallb]. rewrite !andb_true_r. apply byte_ok_iff. lia. }
  assert (HN : zlen ([d_depth (xprv_derivation k)] ++ d_parent_fingerprint (xprv_derivation k) ++ nb ++ d_chain_code (xprv_derivation k) ++ 0 :: sk_secret (xprv_key k)) = 74).
  { rewrite !zlen_app, !zlen_cons, HLn, HZ. change (zlen (@nil Z)) with 0. lia. }
  assert (HX : (sk_coin (xprv_key k) = Bitcoin /\ c_xprv_verbytes (sk_coin (xprv_key k)) = [0x04; 0x88; 0xad; 0xe4]) \/ (sk_coin (xprv_key k) <> Bitcoin /\ c_xprv_verbytes (sk_coin (xprv_key k)) = [0x04; 0x35; 0x83; 0x94])).
  { clear - HCo. repeat destruct HCo as [<-|HCo]; try contradiction; [left; split; reflexivity| | |]; right; (split; [intros E; apply (f_equal c_id) in E; discriminate E|reflexivity]). }
  destruct HX as [[HX ->]|[HX ->]].
  - destruct (check_word H HO HL [0x04; 0x88; 0xad; 0xe4] _ 74 111 (txt "xprv") [55; 47; 49; 53] ltac:(congruence) ltac:(cbn; lia) eq_refl HR HN ltac:(vm_compute; congruence)) as (r & E & Hr); [repeat constructor|vm_compute; reflexivity|].
    rewrite E. exists (txt "xprv"), r. split; [reflexivity|]. split; [rewrite zlen_app, Hr; reflexivity|left; auto].
  - destruct (check_word H HO HL [0x04; 0x35; 0x83; 0x94] _ 74 111 (txt "tprv") [51; 47; 49; 53] ltac:(congruence) ltac:(cbn; lia) eq_refl HR HN ltac:(vm_compute; congruence)) as (r & E & Hr); [repeat constructor|vm_compute; reflexivity|].
    rewrite E. exists (txt "tprv"), r. split; [reflexivity|]. split; [rewrite zlen_app, Hr; reflexivity|right; auto].
Qed.
Theorem C83_xpub (C : curve) (H : bytes -> bytes) : curve_laws C -> (forall x, bytes_ok (H x) = true) -> (forall x, zlen (H x) = 32) ->
  forall (k : xpub C) t, valid_xpub k -> xpub_to_string C H k = Ok t -> exists w r, t = w ++ r /\ zlen t = 111 /\
    ((pk_coin (xpub_key k) = Bitcoin /\ w = txt "xpub") \/ (pk_coin (xpub_key k) <> Bitcoin /\ w = txt "tpub")).
Proof.
  intros L HO HL k t HV HT. assert (HDp : d_depth (xpub_derivation k) <= 255).
  { destruct (Z_le_gt_dec (d_depth (xpub_derivation k)) 255); [assumption|]. exfalso. rewrite (proj2 (C52_deep C H L) k HV ltac:(lia)) in HT. discriminate HT. }
  destruct HV as (HC & HCo & HD). pose proof (law_length C L true (pk_point (xpub_key k))) as HZ. destruct (extended_key_spec _ (pk_coin (xpub_key k)) _ HD HDp (or_intror HZ)) as (nb & _ & HBn & HLn & _ & _ & HE). rewrite HZ in HE. cbn [Z.eqb Pos.eqb] in HE.
  unfold xpub_to_string, xpub_extended_key, pubkey_to_bytes in HT. rewrite HC, HE in HT. cbn [bind] in HT. apply Ok_inj in HT. subst t.
  pose proof (law_bytes C L true (pk_point (xpub_key k))) as HB.
  destruct HD as (Hc1 & Hc2 & _ & Hdp & Hf1 & Hf2).
  set (key := pubkey_serialize C true (pk_point (xpub_key k))) in *.
  assert (HR : bytes_ok ([d_depth (xpub_derivation k)] ++ d_parent_fingerprint (xpub_derivation k) ++ nb ++ d_chain_code (xpub_derivation k) ++ key) = true).
  { rewrite !bytes_ok_app, HBn, HB. rewrite ?Hc1, ?Hc2, ?Hf1, ?Hf2. cbn [bytes_ok forallb]. rewrite !andb_true_r. apply byte_ok_iff. lia. }
  assert (HN : zlen ([d_depth (xpub_derivation k)] ++ d_parent_fingerprint (xpub_derivation k) ++ nb ++ d_chain_code (xpub_derivation k) ++ key) = 74).
  { rewrite !zlen_app, zlen_cons, HLn, HZ. change (zlen (@nil Z)) with 0. lia. }
  assert (HX : (pk_coin (xpub_key k) = Bitcoin /\ c_xpub_verbytes (pk_coin (xpub_key k)) = [0x04; 0x88; 0xb2; 0x1e]) \/ (pk_coin (xpub_key k) <> Bitcoin /\ c_xpub_verbytes (pk_coin (xpub_key k)) = [0x04; 0x35; 0x87; 0xcf])).
  { clear - HCo. repeat destruct HCo as [<-|HCo]; try contradiction; [left; split; reflexivity| | |]; right; (split; [intros E; apply (f_equal c_id) in E; discriminate E|reflexivity]). }
  destruct HX as [[HX ->]|[HX ->]].
  - destruct (check_word H HO HL [0x04; 0x88; 0xb2; 0x1e] _ 74 111 (txt "xpub") [55; 47; 52; 34] ltac:(congruence) ltac:(cbn; lia) eq_refl HR HN ltac:(vm_compute; congruence)) as (r & E & Hr); [repeat constructor|vm_compute; reflexivity|].
    rewrite E. exists (txt "xpub"), r. split; [reflexivity|]. split; [rewrite zlen_app, Hr; reflexivity|left; auto].
  - destruct (check_word H HO HL [0x04; 0x35; 0x87; 0xcf] _ 74 111 (txt "tpub") [51; 47; 52; 34] ltac:(congruence) ltac:(cbn; lia) eq_refl HR HN ltac:(vm_compute; congruence)) as (r & E & Hr); [repeat constructor|vm_compute; reflexivity|].
    rewrite E. exists (txt "tpub"), r. split; [reflexivity|]. split; [rewrite zlen_app, Hr; reflexivity|right; auto].
Qed.
Print Assumptions C83_P2PKH.
Print Assumptions C83_P2SH.
Print Assumptions C83_test_P2PKH.
Print Assumptions C83_test_P2SH.
Print Assumptions C83_WIF.
Print Assumptions C83_xprv.
Print Assumptions C83_xpub.
Example C83_ex :
  (t <- address_to_string toy_hash (P2PKH (zrepeat 0 20) Bitcoin) ;; Ok (slice_to t 1)) = Ok (txt "1") /\
  (t <- address_to_string toy_hash (P2PKH (zrepeat 0 20) BitcoinTestnet) ;; Ok (slice_to t 1)) = Ok (txt "m") /\
  (t <- address_to_string toy_hash (P2PKH (zrepeat 255 20) BitcoinTestnet) ;; Ok (slice_to t 1)) = Ok (txt "n") /\
  (t <- privkey_to_WIF toy_hash (sample_key 9 true) (Some true) (Some Bitcoin) ;; Ok (slice_to t 1, zlen t)) = Ok (txt "K", 52) /\
  (t <- privkey_to_WIF toy_hash (sample_key (CURVE_ORDER - 1) true) (Some true) (Some Bitcoin) ;; Ok (slice_to t 1, zlen t)) = Ok (txt "L", 52) /\
  (t <- xprv_to_string toy_hash sample_xprv ;; Ok (slice_to t 4, zlen t)) = Ok (txt "tprv", 111) /\
  valid_xprv sample_xprv.
Proof. do 6 (split; [vm_compute; reflexivity|]). exact sample_xprv_valid. Qed.
