(** BIP32: extended keys as text, and derivation. *)
From Verif.Model Require Import Py Text Packing Misc Curve Coin Base58 Keys Bip32.
From Verif.Spec Require Import Numbers CurveSpec KeysSpec MiscSpec Bip32Spec.
From Verif.Proofs Require Import PyFacts NumbersFacts PackingFacts ScriptFacts ScriptTheorems Base58Facts MiscFacts TextFacts CurveFacts KeysFacts Bip32Facts.

Lemma pack_u32 v : 0 <= v < 2 ^ 32 -> exists b, pack_be_uint32 v = Ok b /\ bytes_ok b = true /\ zlen b = 4 /\ val_be b = v /\ unpack_be_uint32 b = Ok v.
Proof. destruct (uint_be_spec 4) as (H & _). apply H. Qed.
Lemma unpack_u32 b : bytes_ok b = true -> zlen b = 4 -> unpack_be_uint32 b = Ok (val_be b) /\ 0 <= val_be b < 2 ^ 32 /\ pack_be_uint32 (val_be b) = Ok b.
Proof. destruct (uint_be_spec 4) as (_ & _ & H & _). apply H. Qed.
Lemma coin_verbytes c : In c all_coins -> zlen (c_xprv_verbytes c) = 4 /\ zlen (c_xpub_verbytes c) = 4 /\ bytes_ok (c_xprv_verbytes c) = true /\ bytes_ok (c_xpub_verbytes c) = true /\
  (exists c', lookup_xver_bytes (c_xprv_verbytes c) = Ok (c', false) /\ In c' all_coins /\ c_xprv_verbytes c' = c_xprv_verbytes c) /\
  (exists c', lookup_xver_bytes (c_xpub_verbytes c) = Ok (c', true) /\ In c' all_coins /\ c_xpub_verbytes c' = c_xpub_verbytes c).
Proof.
  intros Hc. repeat destruct Hc as [<-|Hc]; try contradiction; repeat (split; [reflexivity|]); (split; eexists; (split; [vm_compute; reflexivity|]); (split; [cbn; auto|reflexivity])).
Qed.
Lemma lookup_xver_inv x c b : lookup_xver_bytes x = Ok (c, b) -> In c all_coins /\ x = if b then c_xpub_verbytes c else c_xprv_verbytes c.
Proof.
  unfold lookup_xver_bytes. destruct (find_xver_spec x all_coins) as [(c' & -> & HX & (p & q & HA & _))|[(c' & -> & HX & _ & (p & q & HA & _))|(-> & _)]]; intros E; try discriminate; injection E as <- <-; rewrite HA; (split; [apply in_elt|now symmetry]).
Qed.

(** The six fields of 78 bytes *)
Lemma split78 (e : bytes) : zlen e = 78 -> exists v x f n c y k, e = v ++ [x] ++ f ++ n ++ c ++ y :: k /\ zlen v = 4 /\ zlen f = 4 /\ zlen n = 4 /\ zlen c = 32 /\ zlen k = 32.
Proof.
  intros HL. assert (HS : forall (b : bytes) i, 0 <= i <= zlen b -> exists x y, b = x ++ y /\ zlen x = i /\ zlen y = zlen b - i).
  { intros b i Hi. exists (ztake i b), (zdrop i b). split; [symmetry; apply ztake_zdrop|]. rewrite zlen_ztake, zlen_zdrop. lia. }
  destruct (HS e 4 ltac:(lia)) as (v & e1 & -> & Hv & H1). destruct e1 as [|x e1]; [change (zlen (@nil Z)) with 0 in H1; lia|]. rewrite zlen_cons in H1.
  destruct (HS e1 4 ltac:(lia)) as (f & e2 & -> & Hf & H2). destruct (HS e2 4 ltac:(lia)) as (n & e3 & -> & Hn & H3). destruct (HS e3 32 ltac:(lia)) as (c & e4 & -> & Hc & H4).
  destruct e4 as [|y k]; [change (zlen (@nil Z)) with 0 in H4; lia|]. rewrite zlen_cons in H4. exists v, x, f, n, c, y, k. repeat split; try assumption; lia.
Qed.
Lemma fields78 (v : bytes) x (f n c : bytes) y (k : bytes) : zlen v = 4 -> zlen f = 4 -> zlen n = 4 -> zlen c = 32 -> zlen k = 32 -> let e := v ++ [x] ++ f ++ n ++ c ++ y :: k in
  zlen e = 78 /\ slice_to e 4 = v /\ pyslice e 9 13 = n /\ pyindex e 4 = Ok x /\ pyslice e 13 45 = c /\ pyslice e 5 9 = f /\ slice_from e 45 = y :: k /\ pyindex e 45 = Ok y /\ slice_from e 46 = k.
Proof.
  intros Hv Hf Hn Hc Hk. cbv zeta. assert (HI : forall (a r : bytes) b i, zlen a = i -> 0 <= i -> pyindex (a ++ b :: r) i = Ok b).
  { intros a r b i HL Hi. unfold pyindex. destruct (Z.ltb_spec i 0); [lia|]. rewrite znth_app_r by lia. replace (i - zlen a) with 0 by lia. reflexivity. }
  split; [rewrite !zlen_app, !zlen_cons; change (zlen (@nil Z)) with 0; lia|]. split; [rewrite slice_to_nonneg by lia; apply ztake_app_exact; lia|].
  split. { rewrite pyslice_nonneg by lia. replace (v ++ [x] ++ f ++ n ++ c ++ y :: k) with ((v ++ [x] ++ f) ++ n ++ (c ++ y :: k)) by now rewrite <- !app_assoc. rewrite zdrop_app_exact by (rewrite !zlen_app; change (zlen [x]) with 1; lia). apply ztake_app_exact. lia. }
  split; [apply HI; lia|].
  split. { rewrite pyslice_nonneg by lia. replace (v ++ [x] ++ f ++ n ++ c ++ y :: k) with ((v ++ [x] ++ f ++ n) ++ c ++ (y :: k)) by now rewrite <- !app_assoc. rewrite zdrop_app_exact by (rewrite !zlen_app; change (zlen [x]) with 1; lia). apply ztake_app_exact. lia. }
  split. { rewrite pyslice_nonneg by lia. replace (v ++ [x] ++ f ++ n ++ c ++ y :: k) with ((v ++ [x]) ++ f ++ (n ++ c ++ y :: k)) by now rewrite <- !app_assoc. rewrite zdrop_app_exact by (rewrite !zlen_app; change (zlen [x]) with 1; lia). apply ztake_app_exact. lia. }
  assert (HE : v ++ [x] ++ f ++ n ++ c ++ y :: k = (v ++ [x] ++ f ++ n ++ c) ++ y :: k) by now rewrite <- !app_assoc. rewrite HE.
  assert (HZ : zlen (v ++ [x] ++ f ++ n ++ c) = 45) by (rewrite !zlen_app; change (zlen [x]) with 1; lia).
  split; [rewrite slice_from_nonneg by lia; apply zdrop_app_exact; lia|]. split; [apply HI; lia|]. change (y :: k) with ([y] ++ k). rewrite app_assoc, slice_from_nonneg by lia. apply zdrop_app_exact. rewrite zlen_app. change (zlen [y]) with 1. lia.
Qed.

(** What extended_key writes *)
Lemma extended_key_spec d c key : valid_derivation d -> d_depth d <= 255 -> zlen key = 32 \/ zlen key = 33 ->
  exists nb, pack_be_uint32 (d_n d) = Ok nb /\ bytes_ok nb = true /\ zlen nb = 4 /\ val_be nb = d_n d /\ unpack_be_uint32 nb = Ok (d_n d) /\
    extended_key d c key = Ok ((if zlen key =? 32 then c_xprv_verbytes c else c_xpub_verbytes c) ++ [d_depth d] ++ d_parent_fingerprint d ++ nb ++ d_chain_code d ++ (if zlen key =? 32 then 0 :: key else key)).
Proof.
  intros (_ & _ & Hn & Hd & _) HD HK. destruct (pack_u32 (d_n d) Hn) as (nb & HP & HB & HL & HV & HU). exists nb. repeat split; try assumption. unfold extended_key.
  destruct HK as [HK|HK]; rewrite HK; cbn [Z.eqb Pos.eqb]; [change ([0] ++ key) with (0 :: key); rewrite zlen_cons, HK|rewrite HK]; cbn [Z.add Z.eqb Pos.add Pos.eqb negb]; rewrite pack_byte_ok by lia; cbn [bind]; rewrite HP; reflexivity.
Qed.
Lemma extended_key_deep d c key : 255 < d_depth d -> zlen key = 32 \/ zlen key = 33 -> extended_key d c key = Err StructError.
Proof.
  intros HD HK. unfold extended_key. assert (HP : pack_byte (d_depth d) = Err StructError).
  { destruct (uint_le_spec 1) as (_ & H & _). apply H. change (2 ^ (8 * Z.of_nat 1)) with 256. lia. }
  destruct HK as [HK|HK]; rewrite HK; cbn [Z.eqb Pos.eqb]; [change ([0] ++ key) with (0 :: key); rewrite zlen_cons, HK|rewrite HK]; cbn [Z.add Z.eqb Pos.add Pos.eqb negb]; rewrite HP; reflexivity.
Qed.

Section Bip32.
  Variable C : curve.
  Hypothesis L : curve_laws C.
  Variable H : bytes -> bytes.
  Hypothesis H_ok : forall x, bytes_ok (H x) = true.
  Hypothesis H_len : forall x, zlen (H x) = 32.

  Lemma layout_ok v d key : bytes_ok v = true -> valid_derivation d -> d_depth d <= 255 -> bytes_ok key = true -> forall nb, bytes_ok nb = true ->
    bytes_ok (v ++ [d_depth d] ++ d_parent_fingerprint d ++ nb ++ d_chain_code d ++ key) = true.
  Proof. clear H_ok H_len. intros Hv (H1 & _ & _ & H2 & H3 & _) HD HK nb Hn. rewrite !bytes_ok_app, Hv, H1, H3, HK, Hn. cbn [bytes_ok forallb]. rewrite (proj2 (byte_ok_iff (d_depth d))) by lia. reflexivity. Qed.
  Theorem xprv_roundtrip k : valid_xprv k -> d_depth (xprv_derivation k) <= 255 ->
    exists t c', xprv_to_string H k = Ok t /\
      bip32_key_from_string C H t = Ok (inr (mk_xprv (mk_privkey (sk_secret (xprv_key k)) true c') (xprv_derivation k))) /\
      In c' all_coins /\ c_xprv_verbytes c' = c_xprv_verbytes (sk_coin (xprv_key k)).
  Proof using H_ok H_len.
    destruct k as [[s cm co] d]. intros (HV & HC & Hco & HD) HDp. cbn [xprv_key xprv_derivation sk_secret sk_compressed sk_coin] in *. subst cm. pose proof HV as (HB & HL & HR).
    cbn [sk_secret] in *. destruct (coin_verbytes co Hco) as (Hz & _ & Hvb & _ & (c' & Hlk & Hc' & Hce) & _).
    destruct (extended_key_spec d co s HD HDp (or_introl HL)) as (nb & HP & HBn & HLn & HVn & HUn & HE). rewrite HL in HE. cbn [Z.eqb Pos.eqb] in HE.
    eexists _, c'. split; [unfold xprv_to_string, xprv_extended_key; cbn [xprv_key xprv_derivation sk_secret sk_coin]; rewrite HE; reflexivity|]. split; [|auto].
    unfold bip32_key_from_string. rewrite (decode_check_encode H H_ok H_len) by (apply layout_ok; auto; cbn [bytes_ok forallb]; exact HB). cbn [bind].
    destruct HD as (HD1 & HD2 & HD3 & HD4 & HD5 & HD6).
    destruct (fields78 (c_xprv_verbytes co) (d_depth d) (d_parent_fingerprint d) nb (d_chain_code d) 0 s Hz HD6 HLn HD2 HL) as (E1 & E2 & E3 & E4 & E5 & E6 & E7 & E8 & E9).
    unfold from_extended_key. rewrite E1, E2, E3, E4, E5, E6, E8, E9. cbn [Z.eqb Pos.eqb negb]. rewrite Hlk. cbn [bind]. rewrite HUn. cbn [bind Z.eqb negb]. unfold make_xprv. rewrite make_privkey_valid by exact HV. cbn [bind]. destruct d; reflexivity.
  Qed.
  Theorem xpub_roundtrip (k : xpub C) : valid_xpub k -> d_depth (xpub_derivation k) <= 255 ->
    exists t c', xpub_to_string C H k = Ok t /\
      bip32_key_from_string C H t = Ok (inl (mk_xpub (mk_pubkey (pk_point (xpub_key k)) true c') (xpub_derivation k))) /\
      In c' all_coins /\ c_xpub_verbytes c' = c_xpub_verbytes (pk_coin (xpub_key k)).
  Proof using L H_ok H_len.
    destruct k as [[p cm co] d]. intros (HC & Hco & HD) HDp. cbn [xpub_key xpub_derivation pk_point pk_compressed pk_coin] in *. subst cm.
    pose proof (law_length C L true p) as HL. pose proof (law_bytes C L true p) as HB.
    destruct (coin_verbytes co Hco) as (_ & Hz & _ & Hvb & _ & (c' & Hlk & Hc' & Hce)).
    destruct (extended_key_spec d co (pubkey_serialize C true p) HD HDp (or_intror HL)) as (nb & HP & HBn & HLn & HVn & HUn & HE). rewrite HL in HE. cbn [Z.eqb Pos.eqb] in HE.
    eexists _, c'. split; [unfold xpub_to_string, xpub_extended_key, pubkey_to_bytes; cbn [xpub_key xpub_derivation pk_point pk_compressed pk_coin]; rewrite HE; reflexivity|]. split; [|auto].
    unfold bip32_key_from_string. rewrite (decode_check_encode H H_ok H_len) by (apply layout_ok; auto). cbn [bind].
    destruct HD as (HD1 & HD2 & HD3 & HD4 & HD5 & HD6). destruct (pubkey_serialize C true p) as [|y q] eqn:Eq; [discriminate|]. rewrite zlen_cons in HL.
    destruct (fields78 (c_xpub_verbytes co) (d_depth d) (d_parent_fingerprint d) nb (d_chain_code d) y q Hz HD6 HLn HD2 ltac:(lia)) as (E1 & E2 & E3 & E4 & E5 & E6 & E7 & E8 & E9).
    unfold from_extended_key. rewrite E1, E2, E3, E4, E5, E6, E7. cbn [Z.eqb Pos.eqb negb]. rewrite Hlk. cbn [bind]. rewrite HUn. cbn [bind]. unfold pubkey_from_bytes. rewrite <- Eq, (law_parse C L). cbn [bind]. destruct d; reflexivity.
  Qed.
  Theorem xkey_deep : (forall k, valid_xprv k -> 255 < d_depth (xprv_derivation k) -> xprv_to_string H k = Err StructError) /\
    (forall k : xpub C, valid_xpub k -> 255 < d_depth (xpub_derivation k) -> xpub_to_string C H k = Err StructError).
  Proof using L.
    clear H_ok H_len. split.
    - intros k ((_ & HL & _) & _) HD. unfold xprv_to_string, xprv_extended_key. rewrite extended_key_deep by auto. reflexivity.
    - intros k (HC & _) HD. unfold xpub_to_string, xpub_extended_key. rewrite extended_key_deep; [reflexivity|exact HD|]. right. unfold pubkey_to_bytes. rewrite HC. apply (law_length C L).
  Qed.
  (** Reading, then writing *)
  Theorem xkey_inverse t x : bip32_key_from_string C H t = Ok x ->
    match x with
    | inl K => valid_xpub K /\ 0 <= d_depth (xpub_derivation K) <= 255 /\ xpub_to_string C H K = Ok t
    | inr k => valid_xprv k /\ 0 <= d_depth (xprv_derivation k) <= 255 /\ xprv_to_string H k = Ok t
    end.
  Proof using L.
    clear H_ok H_len. unfold bip32_key_from_string. intros HF. apply bind_Ok in HF as (e & HD & HF). apply decode_check_inv in HD as [-> HB]. unfold from_extended_key in HF. destruct (Z.eqb_spec (zlen e) 78) as [HL|]; [|discriminate]. cbn [negb] in HF.
    destruct (split78 e HL) as (v & x0 & f & nb & c & y & key & -> & Hv & Hf & Hn & Hc & Hk). destruct (fields78 v x0 f nb c y key Hv Hf Hn Hc Hk) as (_ & E2 & E3 & E4 & E5 & E6 & E7 & E8 & E9).
    rewrite E2, E3, E4, E5, E6, E7, E8, E9 in HF. rewrite !bytes_ok_app in HB. cbn [bytes_ok forallb] in HB. repeat rewrite andb_true_iff in HB. destruct HB as (Bv & (Bx & _) & Bf & Bn & Bc & By & Bk). change (bytes_ok key = true) in Bk.
    unfold byte_ok in Bx. apply andb_true_iff in Bx as [Bx1 Bx2]. rewrite Z.leb_le in Bx1. rewrite Z.ltb_lt in Bx2.
    apply bind_Ok in HF as ((co & pub) & Hlk & HF). apply lookup_xver_inv in Hlk as [Hco Hvc]. destruct (unpack_u32 nb Bn Hn) as (HU & HR & HPk). rewrite HU in HF. cbn [bind] in HF.
    set (d := mk_derivation c (val_be nb) x0 f) in *. assert (HD : valid_derivation d) by (repeat split; cbn; auto; lia).
    destruct pub.
    - apply bind_Ok in HF as (P & HP & HF). injection HF as <-. unfold make_xpub. cbn [xpub_key xpub_derivation]. split; [repeat split; cbn; auto; lia|]. split; [cbn; lia|].
      unfold pubkey_from_bytes in HP. destruct (pubkey_parse C (y :: key)) as [p|] eqn:HPs; [|discriminate]. injection HP as <-. cbn [pk_point].
      assert (HLk : zlen (y :: key) = 33) by (rewrite zlen_cons; lia). pose proof (law_compressed C L _ _ HPs HLk) as HS.
      unfold xpub_to_string, xpub_extended_key, pubkey_to_bytes. cbn [xpub_key xpub_derivation pk_point pk_compressed pk_coin]. rewrite <- HS.
      destruct (extended_key_spec d co (y :: key) HD ltac:(cbn; lia) (or_intror HLk)) as (nb' & HP' & _ & _ & _ & _ & HE). rewrite HE. cbn [bind]. rewrite HLk. cbn [Z.eqb Pos.eqb]. cbn [d_n d] in HP'. rewrite HPk in HP'. injection HP' as <-. cbn [d_depth d_parent_fingerprint d_chain_code d]. now rewrite Hvc.
    - cbn [bind] in HF. destruct (Z.eqb_spec y 0) as [->|]; [|discriminate]. cbn [negb] in HF. apply bind_Ok in HF as (k & HK & HF). injection HF as <-. unfold make_xprv in HK. apply bind_Ok in HK as (pk & HPK & HK). injection HK as <-.
      apply make_privkey_Ok in HPK as (HV & HS & HCm & HCo); [|exact Bk]. cbn [xprv_key xprv_derivation]. split; [repeat split; cbn; auto; try apply HV; try lia; now rewrite HCo|]. split; [cbn; lia|].
      unfold xprv_to_string, xprv_extended_key. cbn [xprv_key xprv_derivation]. rewrite HS, HCo.
      destruct (extended_key_spec d co key HD ltac:(cbn; lia) (or_introl Hk)) as (nb' & HP' & _ & _ & _ & _ & HE). rewrite HE. cbn [bind]. rewrite Hk. cbn [Z.eqb Pos.eqb]. cbn [d_n d] in HP'. rewrite HPk in HP'. injection HP' as <-. cbn [d_depth d_parent_fingerprint d_chain_code d]. now rewrite Hvc.
  Qed.
  Theorem xkey_errors t e : bip32_key_from_string C H t = Err e -> e = ValueError \/ e = Base58Error.
  Proof.
    clear H_ok H_len. unfold bip32_key_from_string. intros HF. apply bind_Err in HF as [HF|(ek & HD & HF)]; [right; now apply (decode_check_err H t)|]. left. apply decode_check_inv in HD as [_ HB]. unfold from_extended_key in HF. destruct (Z.eqb_spec (zlen ek) 78) as [HL|]; [|now injection HF].
    cbn [negb] in HF. destruct (split78 ek HL) as (v & x0 & f & nb & c & y & key & -> & Hv & Hf & Hn & Hc & Hk). destruct (fields78 v x0 f nb c y key Hv Hf Hn Hc Hk) as (_ & E2 & E3 & E4 & E5 & E6 & E7 & E8 & E9).
    rewrite E2, E3, E4, E5, E6, E7, E8, E9 in HF. rewrite !bytes_ok_app in HB. repeat rewrite andb_true_iff in HB. destruct HB as (_ & _ & _ & Bn & _).
    apply bind_Err in HF as [HF|((co & pub) & _ & HF)].
    - unfold lookup_xver_bytes in HF. destruct (find_xver_spec v all_coins) as [(c' & E & _)|[(c' & E & _)|(E & _)]]; rewrite E in HF; congruence.
    - destruct (unpack_u32 nb Bn Hn) as (HU & _). rewrite HU in HF. cbn [bind] in HF. destruct pub.
      + apply bind_Err in HF as [HF|(p & _ & HF)]; [|discriminate]. unfold pubkey_from_bytes in HF. destruct (pubkey_parse C (y :: key)); [discriminate|now injection HF].
      + cbn [bind] in HF. destruct (y =? 0); [|now injection HF]. cbn [negb] in HF. apply bind_Err in HF as [HF|(p & _ & HF)]; [|discriminate]. unfold make_xprv in HF. apply bind_Err in HF as [HF|(q & _ & HF)]; [|discriminate]. now apply make_privkey_Err in HF.
  Qed.

End Bip32.

Section Derive.
  Variable C : curve.
  Hypothesis L : curve_laws C.
  (** * Derivation *)
  Variable hash160 : bytes -> bytes.
  Hypothesis hash160_ok : forall x, bytes_ok (hash160 x) = true.
  Hypothesis hash160_len : forall x, zlen (hash160 x) = 20.
  Variable hmac : bytes -> bytes -> bytes.
  Hypothesis hmac_ok : forall k x, bytes_ok (hmac k x) = true.
  Hypothesis hmac_len : forall k x, zlen (hmac k x) = 64.

  Lemma halves k m l r : hmac_sha512_halves hmac k m = (l, r) -> bytes_ok l = true /\ zlen l = 32 /\ bytes_ok r = true /\ zlen r = 32.
  Proof using All.
    unfold hmac_sha512_halves. rewrite slice_to_nonneg, slice_from_nonneg by lia. intros E. injection E as <- <-. pose proof (hmac_ok k m). pose proof (hmac_len k m). rewrite zlen_ztake, zlen_zdrop. repeat split; try lia; [now apply bytes_ok_ztake|now apply bytes_ok_zdrop].
  Qed.
  Lemma xprv_pub k : valid_xprv k -> exists p, xprv_public_key C k = Ok (make_xpub C p (xprv_derivation k) (sk_coin (xprv_key k))) /\ privkey_public_key C (xprv_key k) = Ok (mk_pubkey p true (sk_coin (xprv_key k))).
  Proof using All.
    intros (HV & HC & _). destruct (public_key_spec C L (xprv_key k) HV) as (p & HP & _). exists p. unfold privkey_public_key in HP. unfold xprv_public_key, privkey_public_key.
    destruct (privkey_point C (xprv_key k)) as [q|]; [|discriminate]. cbn [bind] in *. injection HP as ->. split; [reflexivity|now rewrite HC].
  Qed.
  Lemma xprv_pub_valid k K : valid_xprv k -> xprv_public_key C k = Ok K -> valid_xpub K /\ xpub_derivation K = xprv_derivation k /\ pk_coin (xpub_key K) = sk_coin (xprv_key k).
  Proof using All. intros HV HK. destruct (xprv_pub k HV) as (p & HP & _). rewrite HP in HK. injection HK as <-. destruct HV as (_ & _ & HC & HD). repeat split; try apply HD; auto. Qed.
  Lemma fingerprint_ok (K : xpub C) : bytes_ok (xpub_fingerprint C hash160 K) = true /\ zlen (xpub_fingerprint C hash160 K) = 4.
  Proof using All. unfold xpub_fingerprint, xpub_identifier. rewrite slice_to_nonneg by lia. split; [now apply bytes_ok_ztake|]. rewrite zlen_ztake, hash160_len. lia. Qed.

  (** One private step: what it gives when it succeeds, ValueError otherwise *)
  Definition child_message (k : xprv) (p : pt C) (nb : bytes) (n : Z) : bytes :=
    (if HARDENED <=? n then [0] ++ sk_secret (xprv_key k) else pubkey_serialize C true p) ++ nb.
  Lemma xprv_child_spec k n K : valid_xprv k -> xprv_public_key C k = Ok K -> 0 <= n < 2 ^ 32 ->
    exists nb l r, pack_be_uint32 n = Ok nb /\ hmac_sha512_halves hmac (d_chain_code (xprv_derivation k)) (child_message k (pk_point (xpub_key K)) nb n) = (l, r) /\
      match privkey_add (xprv_key k) l with
      | Ok s => xprv_child C hash160 hmac k n = Ok (mk_xprv (mk_privkey (sk_secret s) true (sk_coin (xprv_key k))) (derivation_child (xprv_derivation k) r n (xpub_fingerprint C hash160 K))) /\ valid_privkey s
      | Err e => xprv_child C hash160 hmac k n = Err ValueError /\ e = ValueError
      end.
  Proof using All.
    intros HV HK Hn. destruct (xprv_pub k HV) as (p & HP & HPP). assert (HKp : K = make_xpub C p (xprv_derivation k) (sk_coin (xprv_key k))) by congruence. destruct (pack_u32 n Hn) as (nb & Hnb & _).
    destruct (hmac_sha512_halves hmac (d_chain_code (xprv_derivation k)) (child_message k p nb n)) as [l r] eqn:HM. exists nb, l, r. split; [exact Hnb|]. subst K. cbn [xpub_key make_xpub pk_point]. split; [exact HM|].
    destruct (halves _ _ _ _ HM) as (Hlb & Hll & _). destruct HV as (HV & HC & _). unfold xprv_child, xprv_fingerprint. rewrite HP. change (Z.shiftl 1 32) with (2 ^ 32).
    rewrite (proj2 (andb_true_iff (0 <=? n) (n <? 2 ^ 32))) by (rewrite Z.leb_le, Z.ltb_lt; exact Hn). cbn [negb bind].
    assert (HS : (if HARDENED <=? n then Ok ([0] ++ sk_secret (xprv_key k)) else Ok (pubkey_to_bytes C (xpub_key (make_xpub C p (xprv_derivation k) (sk_coin (xprv_key k)))) None)) = Ok (if HARDENED <=? n then [0] ++ sk_secret (xprv_key k) else pubkey_serialize C true p)) by (destruct (HARDENED <=? n); reflexivity).
    rewrite HS. cbn [bind]. rewrite Hnb. cbn [bind]. fold (child_message k p nb n). rewrite HM.
    destruct (privkey_add_spec (xprv_key k) l HV Hlb) as [(s & _ & _ & EA & HSv & _)|(EA & _)]; rewrite EA; cbn [bind]; [|auto].
    split; [|exact HSv]. unfold make_xprv. cbn [sk_secret]. rewrite make_privkey_valid by exact HSv. reflexivity.
  Qed.
  Lemma xprv_child_valid k n k' : valid_xprv k -> xprv_child C hash160 hmac k n = Ok k' -> valid_xprv k' /\ d_depth (xprv_derivation k') = d_depth (xprv_derivation k) + 1 /\ d_n (xprv_derivation k') = n /\ sk_coin (xprv_key k') = sk_coin (xprv_key k).
  Proof using All.
    intros HV HC. destruct (xprv_pub k HV) as (p & HP & _). assert (Hn : 0 <= n < 2 ^ 32).
    { unfold xprv_child in HC. destruct (negb _) eqn:E; [discriminate|]. apply negb_false_iff, andb_true_iff in E. rewrite Z.leb_le, Z.ltb_lt in E. exact E. }
    destruct (xprv_child_spec k n _ HV HP Hn) as (nb & l & r & _ & HM & HS). destruct (halves _ _ _ _ HM) as (_ & _ & Hrb & Hrl).
    destruct (privkey_add (xprv_key k) l) as [s|e]; destruct HS as [HS1 HS2]; [|congruence]. rewrite HS1 in HC. injection HC as <-. cbn.
    destruct (fingerprint_ok (make_xpub C p (xprv_derivation k) (sk_coin (xprv_key k)))) as [F1 F2]. destruct HV as (_ & _ & HVc & (_ & _ & _ & HD & _)).
    repeat split; cbn; auto; try apply HS2; try lia.
  Qed.
  (** C53 *)
  Theorem child_agree k K n : valid_xprv k -> xprv_public_key C k = Ok K -> n < 2 ^ 31 ->
    agree (fun k' K' => xprv_public_key C k' = Ok K') (xprv_child C hash160 hmac k n) (xpub_child C hash160 hmac K n).
  Proof using All.
    intros HV HK Hn. destruct (Z.ltb_spec n 0) as [Hneg|Hpos].
    { unfold xprv_child, xpub_child. destruct (Z.leb_spec 0 n); [lia|]. cbn. auto. }
    destruct (xprv_pub k HV) as (p & HP & HPP). assert (HKp : K = make_xpub C p (xprv_derivation k) (sk_coin (xprv_key k))) by congruence.
    destruct (xprv_child_spec k n K HV HK ltac:(lia)) as (nb & l & r & Hnb & HM & HS). destruct (halves _ _ _ _ HM) as (Hlb & Hll & _).
    unfold child_message in HM. rewrite HARDENED_val in HM. destruct (Z.leb_spec (2 ^ 31) n); [lia|].
    assert (HX : xpub_child C hash160 hmac K n = match pubkey_add C (xpub_key K) l with Ok P => Ok (make_xpub C (pk_point P) (derivation_child (xprv_derivation k) r n (xpub_fingerprint C hash160 K)) (sk_coin (xprv_key k))) | Err e => Err e end).
    { unfold xpub_child. rewrite HARDENED_val. rewrite (proj2 (andb_true_iff (0 <=? n) (n <? 2 ^ 31))) by (rewrite Z.leb_le, Z.ltb_lt; lia). cbn [negb]. rewrite Hnb. cbn [bind]. subst K. cbn [xpub_key xpub_derivation make_xpub] in *. unfold pubkey_to_bytes at 1. cbn [pk_compressed pk_point] in *. rewrite HM. destruct (pubkey_add C _ l); reflexivity. }
    rewrite HX. subst K. cbn [xpub_key make_xpub] in *. rewrite (add_commutes C L (xprv_key k) l _ (proj1 HV) Hlb HPP).
    destruct (privkey_add (xprv_key k) l) as [s|e] eqn:EA; destruct HS as [-> HS2]; [|subst e; cbn; auto].
    destruct (public_key_spec C L s HS2) as (q & HQ & _). rewrite HQ. cbn [agree pk_point]. unfold xprv_public_key, privkey_public_key, privkey_point in *. cbn [xprv_key sk_secret sk_coin xprv_derivation].
    destruct (pubkey_create C (sk_secret s)); [|discriminate]. cbn [bind] in *. injection HQ as ->. reflexivity.
  Qed.
  Theorem path_agree path : forall k K, valid_xprv k -> xprv_public_key C k = Ok K -> Forall (fun n => n < 2 ^ 31) path ->
    agree (fun k' K' => xprv_public_key C k' = Ok K') (follow (xprv_child C hash160 hmac) k path) (follow (xpub_child C hash160 hmac) K path).
  Proof using All.
    induction path as [|n path IH]; intros k K HV HK HF; [exact HK|]. inversion HF as [|? ? Hn HF']; subst. cbn [follow]. pose proof (child_agree k K n HV HK Hn) as HA.
    destruct (xprv_child C hash160 hmac k n) as [k'|e] eqn:Ek, (xpub_child C hash160 hmac K n) as [K'|e'] eqn:EK; cbn [agree] in HA; try contradiction; [|exact HA].
    apply IH; auto. now apply (xprv_child_valid k n k').
  Qed.
  Lemma path_valid path : forall k k', valid_xprv k -> follow (xprv_child C hash160 hmac) k path = Ok k' -> valid_xprv k' /\ d_depth (xprv_derivation k') = d_depth (xprv_derivation k) + zlen path.
  Proof using All.
    induction path as [|n path IH]; intros k k' HV HF; cbn [follow] in HF; [injection HF as <-; split; [exact HV|change (zlen (@nil Z)) with 0; lia]|].
    destruct (xprv_child C hash160 hmac k n) as [k1|] eqn:E; [|discriminate]. destruct (xprv_child_valid k n k1 HV E) as (HV1 & HD & _). destruct (IH k1 k' HV1 HF) as [HV2 HD2]. split; [exact HV2|]. rewrite zlen_cons. lia.
  Qed.
  Lemma seed_valid seed c k : In c all_coins -> xprv_from_seed hmac seed c = Ok k -> valid_xprv k /\ d_depth (xprv_derivation k) = 0.
  Proof using All.
    intros Hc. unfold xprv_from_seed. destruct (hmac_sha512_halves hmac (txt "Bitcoin seed") seed) as [l r] eqn:HM. destruct (halves _ _ _ _ HM) as (Hl & Hll & Hr & Hrl).
    unfold xprv_from_parts, make_xprv. intros HK. apply bind_Ok in HK as (pk & HP & HK). injection HK as <-. apply make_privkey_Ok in HP as (HV & HS & HCm & HCo); [|exact Hl].
    split; [|reflexivity]. repeat split; cbn; auto; try apply HV; try lia. now rewrite HCo.
  Qed.
  Lemma xprv_child_err k n e : valid_xprv k -> xprv_child C hash160 hmac k n = Err e -> e = ValueError.
  Proof using All.
    intros HV HE. destruct ((0 <=? n) && (n <? 2 ^ 32)) eqn:ER.
    - apply andb_true_iff in ER as [E1 E2]. rewrite Z.leb_le in E1. rewrite Z.ltb_lt in E2. destruct (xprv_pub k HV) as (p & HP & _). destruct (xprv_child_spec k n _ HV HP (conj E1 E2)) as (nb & l & r & _ & _ & HS).
      destruct (privkey_add (xprv_key k) l); destruct HS as [HS _]; congruence.
    - unfold xprv_child in HE. change (Z.shiftl 1 32) with (2 ^ 32) in HE. rewrite ER in HE. cbn [negb] in HE. congruence.
  Qed.
  Lemma xpub_child_err K n e : xpub_child C hash160 hmac K n = Err e -> e = ValueError.
  Proof using All.
    unfold xpub_child. rewrite HARDENED_val. destruct ((0 <=? n) && (n <? 2 ^ 31)) eqn:ER; cbn [negb]; [|now injection 1]. apply andb_true_iff in ER as [E1 E2]. rewrite Z.leb_le in E1. rewrite Z.ltb_lt in E2.
    destruct (pack_u32 n ltac:(lia)) as (nb & -> & _). cbn [bind]. destruct (hmac_sha512_halves _ _ _) as [l r]. intros HE. apply bind_Err in HE as [HE|(P & _ & HE)]; [|discriminate].
    rewrite pubkey_add_spec in HE. destruct (_ && _); [|congruence]. destruct (gadd C _ _); congruence.
  Qed.

  (** * child_safe *)
  Lemma low_bits_zero n : 0 <= n -> (Z.land n (HARDENED - 1) =? 0) = true <-> (2 ^ 31 | n).
  Proof using All.
    intros Hn. change (HARDENED - 1) with (Z.ones 31). rewrite Z.land_ones, Z.eqb_eq by lia. split; intros HM; [apply Z.mod_divide in HM; [exact HM|discriminate]|]. now apply Z.mod_divide.
  Qed.
  Theorem xprv_child_safe_spec fuel : forall k n r, valid_xprv k -> xprv_child_safe C hash160 hmac fuel k n = r -> r <> Err OutOfFuel ->
    match r with
    | Ok k' => exists m, n <= m /\ same_kind n m /\ xprv_child C hash160 hmac k m = Ok k' /\ forall j, n <= j < m -> xprv_child C hash160 hmac k j = Err ValueError
    | Err e => e = ValueError /\ (~ 0 <= n < 2 ^ 32 \/ forall j, n <= j -> same_kind n j -> xprv_child C hash160 hmac k j = Err ValueError)
    end.
  Proof using All.
    induction fuel as [|fuel IH]; intros k n r HV HR HO; [cbn in HR; congruence|]. cbn [xprv_child_safe] in HR. destruct (xprv_child C hash160 hmac k n) as [k'|e] eqn:E.
    - subst r. exists n. assert (Hn : 0 <= n < 2 ^ 32). { unfold xprv_child in E. destruct (negb _) eqn:EN; [discriminate|]. apply negb_false_iff, andb_true_iff in EN. rewrite Z.leb_le, Z.ltb_lt in EN. exact EN. }
      split; [lia|]. split; [unfold same_kind; lia|]. split; [exact E|]. intros j Hj. lia.
    - pose proof (xprv_child_err k n e HV E) as ->. cbn [is_ValueError] in HR. change (Z.shiftl 1 32) with (2 ^ 32) in HR. destruct ((0 <=? n) && (n <? 2 ^ 32)) eqn:ER.
      2:{ cbn [negb] in HR. subst r. split; [reflexivity|]. left. intros HN. rewrite (proj2 (andb_true_iff _ _)) in ER; [discriminate|]. rewrite Z.leb_le, Z.ltb_lt. exact HN. }
      cbn [negb] in HR. apply andb_true_iff in ER as [E1 E2]. rewrite Z.leb_le in E1. rewrite Z.ltb_lt in E2. destruct (Z.land (n + 1) (HARDENED - 1) =? 0) eqn:EL.
      + subst r. split; [reflexivity|]. right. apply low_bits_zero in EL as (q & Hq); [|lia]. intros j Hj HS. assert (j = n) as ->; [|exact E]. unfold same_kind in HS. assert (q = 1 \/ q = 2) by lia. lia.
      + assert (HD : ~ (2 ^ 31 | n + 1)) by (intros HD; apply low_bits_zero in HD; [congruence|lia]).
        assert (HN1 : n + 1 <> 2 ^ 31) by (intros HX; apply HD; rewrite HX; apply Z.divide_refl). assert (HN2 : n + 1 <> 2 ^ 32) by (intros HX; apply HD; rewrite HX; exists 2; reflexivity).
        specialize (IH k (n + 1) r HV HR HO). destruct r as [k'|e].
        * destruct IH as (m & Hm & HS & HC & HJ). exists m. split; [lia|]. split; [unfold same_kind in *; lia|]. split; [exact HC|]. intros j Hj. destruct (Z.eq_dec j n) as [->|]; [exact E|]. apply HJ. lia.
        * destruct IH as [-> [HF|HF]]; split; try reflexivity; [exfalso; lia|]. right. intros j Hj HS. destruct (Z.eq_dec j n) as [->|]; [exact E|]. apply HF; [lia|]. unfold same_kind in *. lia.
  Qed.
  Theorem xprv_child_safe_stops fuel : forall k n, valid_xprv k -> 2 ^ 31 <= Z.of_nat fuel -> xprv_child_safe C hash160 hmac fuel k n <> Err OutOfFuel.
  Proof using All.
    assert (HG : forall fuel k n, valid_xprv k -> (0 <= n -> 2 ^ 31 - n mod 2 ^ 31 <= Z.of_nat fuel) -> (0 < fuel)%nat -> xprv_child_safe C hash160 hmac fuel k n <> Err OutOfFuel).
    { clear fuel. induction fuel as [|fuel IH]; intros k n HV HF HP; [lia|]. cbn [xprv_child_safe]. destruct (xprv_child C hash160 hmac k n) as [k'|e] eqn:E; [discriminate|]. pose proof (xprv_child_err k n e HV E) as ->. cbn [is_ValueError].
      destruct (negb _) eqn:ER; [discriminate|]. apply negb_false_iff, andb_true_iff in ER as [E1 E2]. rewrite Z.leb_le in E1. destruct (Z.land (n + 1) (HARDENED - 1) =? 0) eqn:EL; [discriminate|].
      assert (HD : (n + 1) mod 2 ^ 31 <> 0). { intros HD. apply Z.mod_divide in HD; [|discriminate]. apply low_bits_zero in HD; [congruence|lia]. }
      pose proof (Z.mod_pos_bound n (2 ^ 31) ltac:(lia)) as HB.
      assert (HM : (n + 1) mod 2 ^ 31 = n mod 2 ^ 31 + 1).
      { rewrite <- (Zplus_mod_idemp_l n 1). destruct (Z.eq_dec (n mod 2 ^ 31 + 1) (2 ^ 31)) as [HQ|HQ]; [exfalso; apply HD; rewrite <- (Zplus_mod_idemp_l n 1), HQ; reflexivity|]. apply Z.mod_small. lia. }
      specialize (HF E1). pose proof (Z.mod_pos_bound (n + 1) (2 ^ 31) ltac:(lia)). apply IH; [exact HV|intros _; rewrite HM; lia|]. lia. }
    intros k n HV HF. apply HG; [exact HV| |lia]. intros _. pose proof (Z.mod_pos_bound n (2 ^ 31) ltac:(lia)). lia.
  Qed.
  Theorem xpub_child_safe_spec fuel : forall K n r, xpub_child_safe C hash160 hmac fuel K n = r -> r <> Err OutOfFuel ->
    match r with
    | Ok K' => exists m, n <= m < 2 ^ 31 /\ 0 <= n /\ xpub_child C hash160 hmac K m = Ok K' /\ forall j, n <= j < m -> xpub_child C hash160 hmac K j = Err ValueError
    | Err e => e = ValueError /\ (~ 0 <= n < 2 ^ 31 \/ forall j, n <= j < 2 ^ 31 -> xpub_child C hash160 hmac K j = Err ValueError)
    end.
  Proof using All.
    induction fuel as [|fuel IH]; intros K n r HR HO; [cbn in HR; congruence|]. cbn [xpub_child_safe] in HR. destruct (xpub_child C hash160 hmac K n) as [K'|e] eqn:E.
    - subst r. exists n. assert (Hn : 0 <= n < 2 ^ 31). { unfold xpub_child in E. rewrite HARDENED_val in E. destruct (negb _) eqn:EN; [discriminate|]. apply negb_false_iff, andb_true_iff in EN. rewrite Z.leb_le, Z.ltb_lt in EN. exact EN. }
      split; [lia|]. split; [lia|]. split; [exact E|]. intros j Hj. lia.
    - pose proof (xpub_child_err K n e E) as ->. cbn [is_ValueError] in HR. rewrite HARDENED_val in HR. destruct ((0 <=? n) && (n <? 2 ^ 31)) eqn:ER.
      2:{ cbn [negb] in HR. subst r. split; [reflexivity|]. left. intros HN. rewrite (proj2 (andb_true_iff _ _)) in ER; [discriminate|]. rewrite Z.leb_le, Z.ltb_lt. exact HN. }
      cbn [negb] in HR. apply andb_true_iff in ER as [E1 E2]. rewrite Z.leb_le in E1. rewrite Z.ltb_lt in E2. specialize (IH K (n + 1) r HR HO). destruct r as [K'|e].
      + destruct IH as (m & Hm & H0 & HC & HJ). exists m. split; [lia|]. split; [lia|]. split; [exact HC|]. intros j Hj. destruct (Z.eq_dec j n) as [->|]; [exact E|]. apply HJ. lia.
      + destruct IH as [-> HF]. split; [reflexivity|]. right. intros j Hj. destruct (Z.eq_dec j n) as [->|]; [exact E|]. destruct HF as [HF|HF]; [lia|]. apply HF. lia.
  Qed.
  Theorem xpub_child_safe_stops fuel : forall K n, 2 ^ 31 < Z.of_nat fuel -> xpub_child_safe C hash160 hmac fuel K n <> Err OutOfFuel.
  Proof using All.
    assert (HG : forall fuel K n, (0 <= n -> 2 ^ 31 - n < Z.of_nat fuel) -> (0 < fuel)%nat -> xpub_child_safe C hash160 hmac fuel K n <> Err OutOfFuel).
    { clear fuel. induction fuel as [|fuel IH]; intros K n HF HP; [lia|]. cbn [xpub_child_safe]. destruct (xpub_child C hash160 hmac K n) as [K'|e] eqn:E; [discriminate|]. pose proof (xpub_child_err K n e E) as ->. cbn [is_ValueError]. rewrite HARDENED_val.
      destruct (negb _) eqn:ER; [discriminate|]. apply negb_false_iff, andb_true_iff in ER as [E1 E2]. rewrite Z.leb_le in E1. rewrite Z.ltb_lt in E2. specialize (HF E1). apply IH; lia. }
    intros K n HF. apply HG; lia.
  Qed.
End Derive.
