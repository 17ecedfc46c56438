(** Padding, signatures, hexadecimal, integers, coins, header fields: C57 to C59 and C63 to C66. *)
From Verif.Model Require Import Py Text Packing Misc Aes Signature Bits Coin.
From Verif.Spec Require Import Numbers MiscSpec.
From Verif.Proofs Require Import PyFacts NumbersFacts PackingFacts ScriptFacts MiscFacts.

(** C57 *)
Theorem C57_append (d : bytes) : padded d (append_padding d) /\ strip_padding (append_padding d) = Ok d.
Proof. split; [apply append_padded|]. apply strip_padded, append_padded. Qed.
Theorem C57_strip (d r : bytes) : strip_padding d = Ok r <-> padded r d.
Proof. exact (strip_padded d r). Qed.
Theorem C57_strip_inv (d r : bytes) : strip_padding d = Ok r -> append_padding r = d.
Proof.
  intros HS. apply strip_padded in HS as (n & Hn & -> & HM). unfold append_padding, zrepeat.
  rewrite zlen_app in HM. unfold zlen at 2 in HM. rewrite repeat_length, Z2Nat.id in HM by lia.
  assert (HE : 16 - zlen r mod 16 = n).
  { pose proof (Z.mod_pos_bound (zlen r) 16 ltac:(lia)). rewrite (Z.div_mod (zlen r) 16) in HM by lia.
    replace (16 * (zlen r / 16) + zlen r mod 16 + n) with (zlen r mod 16 + n + (zlen r / 16) * 16) in HM by lia. rewrite Z.mod_add in HM by lia.
    apply Z.mod_divide in HM as (q & Hq); lia. }
  now rewrite HE.
Qed.
Theorem C57_errors (d : bytes) e : strip_padding d = Err e -> e = BadPaddingError.
Proof. exact (strip_err d e). Qed.
Print Assumptions C57_append.
Print Assumptions C57_strip.
Print Assumptions C57_strip_inv.
Print Assumptions C57_errors.
Example C57_ex : append_padding [1; 2; 3] = [1; 2; 3] ++ repeat 13 13 /\ append_padding (repeat 9 16) = repeat 9 16 ++ repeat 16 16 /\
  strip_padding (repeat 0 15 ++ [2]) = Err BadPaddingError /\ strip_padding (repeat 0 14 ++ [2; 2]) = Ok (repeat 0 14).
Proof. vm_compute. repeat split. Qed.

(** C58 *)
Theorem C58_roundtrip (sig : bytes) x c : zlen sig = 64 -> 0 <= x <= 3 ->
  exists m, to_message_signature (sig ++ [x]) c = Ok m /\ to_recoverable_signature m = Ok (sig ++ [x]).
Proof. exact (rec_of_message sig x c). Qed.
(** Exactly the message signatures of 65 bytes with first byte 27 to 34 are accepted; each is the message
    signature of what it converts to, for exactly one flag. *)
Theorem C58_accepted (m : bytes) :
  (exists r, to_recoverable_signature m = Ok r) <-> zlen m = 65 /\ exists m0 sig, m = m0 :: sig /\ 27 <= m0 <= 34.
Proof.
  split.
  - intros (r & HR). apply message_of_rec in HR as (m0 & sig & -> & HL & Hm & _). split; [rewrite zlen_cons; lia|]. exists m0, sig. split; [reflexivity|lia].
  - intros (HL & m0 & sig & -> & Hm). unfold to_recoverable_signature. rewrite HL. change (65 =? 65) with true. cbn [negb]. rewrite pyindex_0. cbn [bind].
    destruct (Z.leb_spec 27 m0); [|lia]. destruct (Z.ltb_spec m0 35); [|lia]. cbn [andb negb]. rewrite land_3 by lia.
    pose proof (Z.mod_pos_bound (m0 - 27) 4 ltac:(lia)). rewrite ScriptTheorems.pack_byte_ok by lia. cbn [bind]. eexists; reflexivity.
Qed.
Theorem C58_rejected (m : bytes) e : to_recoverable_signature m = Err e -> e = InvalidSignatureError.
Proof.
  unfold to_recoverable_signature. destruct (Z.eqb_spec (zlen m) 65) as [HL|]; [|now injection 1]. destruct m as [|m0 sig]; [discriminate|]. cbn [negb]. rewrite pyindex_0.
  cbn [bind]. destruct (Z.leb_spec 27 m0); [|now injection 1]. destruct (Z.ltb_spec m0 35); [|now injection 1]. cbn [andb negb]. rewrite land_3 by lia.
  pose proof (Z.mod_pos_bound (m0 - 27) 4 ltac:(lia)). rewrite ScriptTheorems.pack_byte_ok by lia. discriminate.
Qed.
Theorem C58_inverse (m r : bytes) : to_recoverable_signature m = Ok r ->
  exists m0 sig, m = m0 :: sig /\ zlen sig = 64 /\ 27 <= m0 <= 34 /\ r = sig ++ [(m0 - 27) mod 4] /\ to_message_signature r (31 <=? m0) = Ok m.
Proof. exact (message_of_rec m r). Qed.
Print Assumptions C58_roundtrip.
Print Assumptions C58_accepted.
Print Assumptions C58_rejected.
Print Assumptions C58_inverse.
Example C58_ex : to_message_signature (repeat 7 64 ++ [2]) true = Ok (33 :: repeat 7 64) /\
  to_recoverable_signature (33 :: repeat 7 64) = Ok (repeat 7 64 ++ [2]) /\ to_recoverable_signature (35 :: repeat 7 64) = Err InvalidSignatureError.
Proof. vm_compute. repeat split. Qed.

(** C59: the texts of the 256 sighash bytes exist and are different (all pairs are checked). *)
Theorem C59_text_total v : 0 <= v < 256 -> exists t, sighash_to_string v = Ok t.
Proof.
  intros Hv. assert (HA : is_ok (sighash_to_string v) = true) by (revert v Hv; apply (zrange_all (fun v => is_ok (sighash_to_string v))); vm_compute; reflexivity).
  destruct (sighash_to_string v); [eexists; reflexivity|discriminate].
Qed.
Theorem C59_text_injective v w : 0 <= v < 256 -> 0 <= w < 256 -> sighash_to_string v = sighash_to_string w -> v = w.
Proof.
  intros Hv Hw HE.
  assert (HA : forallb (fun w => match sighash_to_string v, sighash_to_string w with Ok a, Ok b => (v =? w) || negb (bytes_eqb a b) | _, _ => false end) (zrange 0 256) = true).
  { revert v Hv HE. intros v Hv _. revert v Hv.
    apply (zrange_all (fun v => forallb (fun w => match sighash_to_string v, sighash_to_string w with Ok a, Ok b => (v =? w) || negb (bytes_eqb a b) | _, _ => false end) (zrange 0 256))).
    vm_compute. reflexivity. }
  apply (zrange_all _ 0 256) with (x := w) in HA; [|exact Hw]. cbv beta in HA. rewrite HE in HA. destruct (sighash_to_string w); [|discriminate].
  rewrite bytes_eqb_refl, orb_false_r in HA. now apply Z.eqb_eq.
Qed.
Theorem C59_attributes v : 0 <= v < 256 ->
  sighash_base v = v mod 32 /\ (sighash_anyone_can_pay v = true <-> 128 <= v) /\ sighash_base v <= 31.
Proof.
  intros Hv. assert (HA : (sighash_base v =? v mod 32) && (Bool.eqb (sighash_anyone_can_pay v) (128 <=? v)) = true).
  { revert v Hv. apply (zrange_all (fun v => (sighash_base v =? v mod 32) && (Bool.eqb (sighash_anyone_can_pay v) (128 <=? v)))). vm_compute. reflexivity. }
  apply andb_true_iff in HA as [H1 H2]. apply Z.eqb_eq in H1. apply Bool.eqb_prop in H2. rewrite H1, H2, Z.leb_le.
  pose proof (Z.mod_pos_bound v 32 ltac:(lia)). repeat split; lia.
Qed.
Print Assumptions C59_text_total.
Print Assumptions C59_text_injective.
Print Assumptions C59_attributes.
Example C59_ex : sighash_to_string 0xc3 = Ok (txt "SINGLE|ANYONE_CAN_PAY|FORKID") /\ sighash_to_string 0x24 = Ok (txt "0x24") /\ sighash_base 0xc3 = 3.
Proof. vm_compute. repeat split. Qed.

(** C63 *)
Theorem C63_hash_hex (h : bytes) : bytes_ok h = true -> hex_str_to_hash (hash_to_hex_str h) = Ok h.
Proof. intros HB. unfold hex_str_to_hash, hash_to_hex_str. rewrite from_hex_to_hex by now rewrite bytes_ok_rev. cbn [bind]. now rewrite rev_involutive. Qed.
Theorem C63_hex_hash (s : pystr) : lower_hex s -> Nat.Even (length s) ->
  exists h, hex_str_to_hash s = Ok h /\ bytes_ok h = true /\ hash_to_hex_str h = s.
Proof.
  intros HL HE. destruct (hex_text s HL HE) as (b & HB & HO & HT). exists (rev b). unfold hex_str_to_hash, hash_to_hex_str. rewrite HB, bytes_ok_rev, rev_involutive. repeat split; assumption.
Qed.
(** The text has two characters per byte, the last byte first. *)
Theorem C63_text (h : bytes) x : hash_to_hex_str (h ++ [x]) = hex_char (x / 16) :: hex_char (x mod 16) :: hash_to_hex_str h.
Proof. unfold hash_to_hex_str. rewrite rev_app_distr. reflexivity. Qed.
Print Assumptions C63_hash_hex.
Print Assumptions C63_hex_hash.
Print Assumptions C63_text.
Example C63_ex : hash_to_hex_str [1; 0xab] = txt "ab01" /\ hex_str_to_hash (txt "ab01") = Ok [1; 0xab] /\ lower_hex (txt "ab01") /\ Nat.Even (length (txt "ab01")).
Proof. split; [reflexivity|]. split; [reflexivity|]. split; [repeat (constructor; [cbn; lia|]); constructor|now exists 2%nat]. Qed.

(** C64 *)
Theorem C64_le_least (v : Z) : 0 <= v -> exists b, int_to_le_bytes v None = Ok b /\ bytes_ok b = true /\ val_le b = v /\ le_bytes_to_int b = v /\
  forall b', bytes_ok b' = true -> val_le b' = v -> zlen b <= zlen b'.
Proof. intros Hv. destruct (le_bytes_none v Hv) as (b & H1 & H2 & H3 & H4). exists b. repeat split; auto. Qed.
Theorem C64_be_least (v : Z) : 0 <= v -> exists b, int_to_be_bytes v None = Ok b /\ bytes_ok b = true /\ val_be b = v /\ be_bytes_to_int b = v /\
  forall b', bytes_ok b' = true -> val_be b' = v -> zlen b <= zlen b'.
Proof.
  intros Hv. destruct (le_bytes_none v Hv) as (b & H1 & H2 & H3 & H4). exists (rev b). rewrite be_of_le, H1, bytes_ok_rev. split; [reflexivity|]. split; [exact H2|].
  rewrite val_be_rev, rev_involutive, <- val_le_int. split; [exact H3|]. split; [unfold be_bytes_to_int, be_int; rewrite rev_involutive, <- val_le_int; exact H3|].
  intros b' HB HV. rewrite zlen_rev. rewrite val_be_rev, <- val_le_int in HV. rewrite <- (zlen_rev b'). apply H4; [now rewrite bytes_ok_rev|exact HV].
Qed.
Theorem C64_negative (v : Z) size : v < 0 -> int_to_le_bytes v size = Err (match size with Some n => if n <? 0 then ValueError else OverflowError | None => OverflowError end)
  /\ int_to_be_bytes v size = Err (match size with Some n => if n <? 0 then ValueError else OverflowError | None => OverflowError end).
Proof.
  intros Hv. assert (HL : int_to_le_bytes v size = Err (match size with Some n => if n <? 0 then ValueError else OverflowError | None => OverflowError end)).
  { unfold int_to_le_bytes, to_bytes_le. destruct size as [n|].
    - destruct (n <? 0); [reflexivity|]. destruct (Z.ltb_spec v 0); [reflexivity|lia].
    - unfold bit_length. destruct (Z.eqb_spec v 0); [lia|]. pose proof (Z.log2_nonneg (Z.abs v)). pose proof (Z.div_pos (Z.log2 (Z.abs v) + 1 + 7) 8 ltac:(lia) ltac:(lia)).
      destruct (Z.ltb_spec ((Z.log2 (Z.abs v) + 1 + 7) / 8) 0); [lia|]. destruct (Z.ltb_spec v 0); [reflexivity|lia]. }
  split; [exact HL|]. rewrite be_of_le, HL. reflexivity.
Qed.
Theorem C64_sized (v n : Z) : 0 <= n ->
  (0 <= v < 256 ^ n -> exists b, int_to_le_bytes v (Some n) = Ok b /\ int_to_be_bytes v (Some n) = Ok (rev b) /\ bytes_ok b = true /\ zlen b = n /\ val_le b = v /\ val_be (rev b) = v) /\
  (~ 0 <= v < 256 ^ n -> int_to_le_bytes v (Some n) = Err OverflowError /\ int_to_be_bytes v (Some n) = Err OverflowError).
Proof.
  intros Hn. destruct (to_bytes_le_spec v n Hn) as [H1 H2]. rewrite be_of_le. unfold int_to_le_bytes. split.
  - intros Hv. destruct (H1 Hv) as (b & HE & HB & HL & HV). exists b. rewrite HE. repeat split; auto. rewrite val_be_rev, rev_involutive, <- val_le_int. exact HV.
  - intros Hv. rewrite (H2 Hv). split; reflexivity.
Qed.
Theorem C64_chunks {A} (items : list A) size : 0 < size ->
  exists l, chunks items size = Ok l /\ pieces size items l /\ concat l = items.
Proof.
  intros Hs. unfold chunks. destruct (Z.eqb_spec size 0); [lia|]. destruct (Z.ltb_spec size 0); [lia|]. eexists. split; [reflexivity|].
  assert (HP : pieces size items (chunks_from (length items) items size 0)). { rewrite <- (zdrop_0 0 items) at 1 by lia. apply chunks_from_pieces; lia. }
  split; [exact HP|]. exact (pieces_concat _ _ _ HP).
Qed.
(** There is only one way to cut a list into such pieces. *)
Theorem C64_pieces_unique {A} (items : list A) size l l' : 0 < size -> pieces size items l -> pieces size items l' -> l = l'.
Proof. exact (fun Hs => pieces_fun size items l l' Hs). Qed.
Print Assumptions C64_le_least.
Print Assumptions C64_be_least.
Print Assumptions C64_negative.
Print Assumptions C64_sized.
Print Assumptions C64_chunks.
Print Assumptions C64_pieces_unique.
Example C64_ex : int_to_le_bytes 0x1234 None = Ok [0x34; 0x12] /\ int_to_be_bytes 0x1234 (Some 3) = Ok [0; 0x12; 0x34] /\
  int_to_be_bytes 0x1234 (Some 1) = Err OverflowError /\ int_to_le_bytes 0 None = Ok [] /\ chunks [1; 2; 3; 4; 5] 2 = Ok [[1; 2]; [3; 4]; [5]].
Proof. vm_compute. repeat split. Qed.

(** C65 *)
Theorem C65_from_WIF_byte (w : Z) :
  (exists c, from_WIF_byte w = Ok c /\ first_with (fun c => c_WIF_byte c = w) all_coins c) \/
  (from_WIF_byte w = Err ValueError /\ Forall (fun c => c_WIF_byte c <> w) all_coins).
Proof. exact (find_WIF_spec w all_coins). Qed.
Theorem C65_lookup_xver_bytes (x : bytes) :
  (exists c, lookup_xver_bytes x = Ok (c, true) /\ c_xpub_verbytes c = x /\ first_with (fun c => c_xpub_verbytes c = x \/ c_xprv_verbytes c = x) all_coins c) \/
  (exists c, lookup_xver_bytes x = Ok (c, false) /\ c_xprv_verbytes c = x /\ c_xpub_verbytes c <> x /\ first_with (fun c => c_xpub_verbytes c = x \/ c_xprv_verbytes c = x) all_coins c) \/
  (lookup_xver_bytes x = Err ValueError /\ Forall (fun c => c_xpub_verbytes c <> x /\ c_xprv_verbytes c <> x) all_coins).
Proof. exact (find_xver_spec x all_coins). Qed.
(** Coins are not told apart by these bytes: every test network comes back as the first one. *)
Theorem C65_shared_bytes : forall c, In c all_coins -> c <> Bitcoin ->
  from_WIF_byte (c_WIF_byte c) = Ok BitcoinTestnet /\ lookup_xver_bytes (c_xpub_verbytes c) = Ok (BitcoinTestnet, true) /\
  lookup_xver_bytes (c_xprv_verbytes c) = Ok (BitcoinTestnet, false).
Proof. intros c Hc Hn. repeat destruct Hc as [<-|Hc]; try congruence; try contradiction; repeat split; vm_compute; reflexivity. Qed.
Print Assumptions C65_from_WIF_byte.
Print Assumptions C65_lookup_xver_bytes.
Print Assumptions C65_shared_bytes.
Example C65_ex : from_WIF_byte 0xef = Ok BitcoinTestnet /\ from_WIF_byte 1 = Err ValueError /\ lookup_xver_bytes [4; 0x88; 0xad; 0xe4] = Ok (Bitcoin, false).
Proof. repeat split. Qed.

(** C66 *)
Theorem C66_header_fields (H : bytes -> bytes) raw height : bytes_ok raw = true -> zlen raw = 80 ->
  exists h v t b n, deserialized_header H raw height = Ok h /\
    pack_le_int32 (h_version h) = Ok v /\ pack_le_uint32 (h_timestamp h) = Ok t /\ pack_le_uint32 (h_bits h) = Ok b /\ pack_le_uint32 (h_nonce h) = Ok n /\
    raw = v ++ h_prev_hash h ++ h_merkle_root h ++ t ++ b ++ n /\ zlen (h_prev_hash h) = 32 /\ zlen (h_merkle_root h) = 32 /\
    header_prev_hash raw = h_prev_hash h /\ header_timestamp raw = Ok (h_timestamp h) /\ header_bits raw = Ok (h_bits h) /\
    header_work raw = header_obj_work h /\ h_hash h = H raw /\ h_raw h = raw /\ h_height h = height.
Proof. exact (header_fields H raw height). Qed.
Theorem C66_other_lengths (H : bytes -> bytes) raw height : zlen raw <> 80 -> deserialized_header H raw height = Err StructError.
Proof. intros HL. unfold deserialized_header, unpack_header. destruct (Z.eqb_spec (zlen raw) 80); [contradiction|reflexivity]. Qed.
Print Assumptions C66_header_fields.
Print Assumptions C66_other_lengths.
Example C66_ex : exists h, deserialized_header (fun x => x) genesis_mainnet 0 = Ok h /\ h_version h = 1 /\ h_timestamp h = 1231006505 /\ h_bits h = 0x1d00ffff /\ h_nonce h = 2083236893.
Proof. eexists. split; [reflexivity|]. vm_compute. repeat split. Qed.
