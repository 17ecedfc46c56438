(** Padding, signatures, integers, chunks, coins and header fields. *)
From Verif.Model Require Import Py Text Packing Misc Aes Signature Bits Coin.
From Verif.Spec Require Import Numbers MiscSpec.
From Verif.Proofs Require Import PyFacts NumbersFacts PackingFacts ScriptFacts ScriptTheorems Digits Base58Facts TextFacts.

(** * Padding *)
Lemma append_padded d : padded d (append_padding d).
Proof.
  unfold append_padding, zrepeat. pose proof (Z.mod_pos_bound (zlen d) 16 ltac:(lia)) as HM. exists (16 - zlen d mod 16). split; [lia|]. split; [reflexivity|].
  rewrite zlen_app. unfold zlen at 2. rewrite repeat_length, Z2Nat.id by lia. rewrite (Z.div_mod (zlen d) 16) at 1 by lia.
  replace (16 * (zlen d / 16) + zlen d mod 16 + (16 - zlen d mod 16)) with ((zlen d / 16 + 1) * 16) by lia. apply Z.mod_mul. lia.
Qed.
Lemma padded_fun d d' p : padded d p -> padded d' p -> d = d'.
Proof.
  intros (n & Hn & -> & _) (m & Hm & HE & _).
  assert (n = m) as <-.
  { apply (f_equal (fun l => last l 0)) in HE. destruct (Z.to_nat n) as [|n'] eqn:En; [lia|]. destruct (Z.to_nat m) as [|m'] eqn:Em; [lia|].
    cbn [repeat] in HE. rewrite !repeat_cons, !app_assoc, !last_last in HE. exact HE. }
  now apply app_inv_tail in HE.
Qed.
Lemma strip_padded d r : strip_padding d = Ok r <-> padded r d.
Proof.
  unfold strip_padding. split.
  - destruct (Z.eqb_spec (zlen d) 0) as [|H0]; [discriminate|]. destruct (Z.eqb_spec (zlen d mod 16) 0) as [HM|]; [|discriminate]. cbn [orb negb].
    intros HB. apply bind_Ok in HB as (n & Hn & HB). destruct (Z.ltb_spec 0 n); [|discriminate]. destruct (Z.leb_spec n 16); [|discriminate]. cbn [andb negb] in HB.
    destruct (bytes_eqb_spec (slice_from d (- n)) (zrepeat n n)) as [HE|]; [|discriminate]. cbn [negb] in HB. injection HB as <-.
    exists n. split; [lia|]. split; [|exact HM]. change (repeat n (Z.to_nat n)) with (zrepeat n n). rewrite <- HE. symmetry. apply ztake_zdrop.
  - intros (n & Hn & HE & HM). assert (HL : zlen d = zlen r + n). { rewrite HE, zlen_app. unfold zlen at 2. rewrite repeat_length. lia. } pose proof (zlen_nonneg r).
    destruct (Z.eqb_spec (zlen d) 0) as [|_]; [lia|]. rewrite HM. cbn [Z.eqb orb negb].
    assert (HI : pyindex d (-1) = Ok n).
    { rewrite HE. destruct (Z.to_nat n) as [|k] eqn:Ek; [lia|]. cbn [repeat]. rewrite repeat_cons, app_assoc. apply last_index. }
    rewrite HI. cbn [bind]. destruct (Z.ltb_spec 0 n); [|lia]. destruct (Z.leb_spec n 16); [|lia]. cbn [andb negb].
    assert (HS : slice_to d (- n) = r /\ slice_from d (- n) = zrepeat n n).
    { unfold slice_to, slice_from, slice_bound. destruct (Z.ltb_spec (- n) 0); [|lia]. rewrite HL, Z.max_r by lia. rewrite HE.
      split; [apply ztake_app_exact|apply zdrop_app_exact]; lia. }
    destruct HS as [-> ->]. now rewrite bytes_eqb_refl.
Qed.
Lemma strip_err d e : strip_padding d = Err e -> e = BadPaddingError.
Proof.
  unfold strip_padding. destruct (Z.eqb_spec (zlen d) 0) as [|H0]; [now injection 1|]. destruct (_ || _); [now injection 1|].
  destruct (pyindex d (-1)) as [n|e'] eqn:E.
  - cbn [bind]. destruct (negb _); [now injection 1|]. destruct (negb _); [now injection 1|discriminate].
  - exfalso. destruct d as [|x l _] using rev_ind; [now apply H0|]. rewrite last_index in E. discriminate.
Qed.

(** * Message signatures *)
Lemma land_3 x : 0 <= x -> Z.land x 3 = x mod 4.
Proof. intros. change 3 with (Z.ones 2). rewrite Z.land_ones by lia. reflexivity. Qed.
Lemma rec_of_message sig x c : zlen sig = 64 -> 0 <= x <= 3 ->
  exists m, to_message_signature (sig ++ [x]) c = Ok m /\ to_recoverable_signature m = Ok (sig ++ [x]).
Proof.
  intros HL Hx. exists ([27 + (if c then 4 else 0) + x] ++ sig). unfold to_message_signature. rewrite last_index. cbn [bind].
  rewrite pack_byte_ok by (destruct c; lia). cbn [bind]. rewrite slice_to_nonneg by lia. rewrite ztake_app_exact by lia. split; [reflexivity|].
  unfold to_recoverable_signature. rewrite zlen_app, HL. cbn [app]. change (zlen [27 + (if c then 4 else 0) + x] + 64 =? 65) with true. cbn [negb].
  rewrite pyindex_0. cbn [bind]. replace (_ && _) with true by (symmetry; apply andb_true_iff; rewrite Z.leb_le, Z.ltb_lt; destruct c; lia). cbn [negb].
  rewrite take1. replace (27 + (if c then 4 else 0) + x - 27) with ((if c then 1 else 0) * 4 + x) by (destruct c; lia).
  rewrite land_3 by (destruct c; lia). rewrite Z.add_comm, Z.mod_add, Z.mod_small by lia. rewrite pack_byte_ok by lia. reflexivity.
Qed.
Lemma message_of_rec m r : to_recoverable_signature m = Ok r ->
  exists m0 sig, m = m0 :: sig /\ zlen sig = 64 /\ 27 <= m0 <= 34 /\ r = sig ++ [(m0 - 27) mod 4] /\ to_message_signature r (31 <=? m0) = Ok m.
Proof.
  unfold to_recoverable_signature. destruct (Z.eqb_spec (zlen m) 65) as [HL|]; [|discriminate]. destruct m as [|m0 sig]; [discriminate|]. cbn [negb].
  rewrite zlen_cons in HL. rewrite pyindex_0. cbn [bind]. destruct (Z.leb_spec 27 m0); [|discriminate]. destruct (Z.ltb_spec m0 35); [|discriminate]. cbn [andb negb].
  rewrite take1, land_3 by lia. pose proof (Z.mod_pos_bound (m0 - 27) 4 ltac:(lia)). rewrite pack_byte_ok by lia. cbn [bind]. intros E. injection E as <-.
  exists m0, sig. repeat split; try lia. unfold to_message_signature. rewrite last_index. cbn [bind].
  assert (HV : 27 + (if 31 <=? m0 then 4 else 0) + (m0 - 27) mod 4 = m0).
  { destruct (Z.leb_spec 31 m0).
    - replace (m0 - 27) with ((m0 - 31) + 1 * 4) by lia. rewrite Z.mod_add, Z.mod_small by lia. lia.
    - rewrite Z.mod_small by lia. lia. }
  rewrite HV, pack_byte_ok by lia. cbn [bind]. rewrite slice_to_nonneg, ztake_app_exact by lia. reflexivity.
Qed.

(** * Hexadecimal *)
Lemma hex_char_val c : 48 <= c <= 57 \/ 97 <= c <= 102 -> exists d, hex_val c = Some d /\ 0 <= d < 16 /\ hex_char d = c /\ is_space c = false.
Proof.
  intros Hc. assert (HC : forall x, 48 <= x < 103 -> (48 <= x <= 57 \/ 97 <= x <= 102) ->
    match hex_val x with Some d => (0 <=? d) && (d <? 16) && (hex_char d =? x) && negb (is_space x) | None => false end = true).
  { intros x Hx. assert (HA : (if (x <=? 57) || (97 <=? x) then match hex_val x with Some d => (0 <=? d) && (d <? 16) && (hex_char d =? x) && negb (is_space x) | None => false end else true) = true).
    { revert x Hx. apply (zrange_all (fun x => if (x <=? 57) || (97 <=? x) then match hex_val x with Some d => (0 <=? d) && (d <? 16) && (hex_char d =? x) && negb (is_space x) | None => false end else true)).
      vm_compute. reflexivity. }
    intros [Hl|Hl]; destruct (Z.leb_spec x 57), (Z.leb_spec 97 x); try lia; exact HA. }
  specialize (HC c ltac:(lia) Hc). destruct (hex_val c) as [d|]; [|discriminate]. exists d. split; [reflexivity|].
  repeat (apply andb_true_iff in HC as [HC ?]). apply Z.leb_le in HC. split; [split; [lia|now apply Z.ltb_lt]|]. split; [now apply Z.eqb_eq|now apply negb_true_iff].
Qed.
Lemma hex_text s : lower_hex s -> Nat.Even (length s) -> exists b, from_hex s = Ok b /\ bytes_ok b = true /\ to_hex b = s.
Proof.
  remember (length s) as n eqn:Hn. assert (HL : (length s <= n)%nat) by lia. rewrite Hn. clear Hn. revert s HL. induction n as [|n IH]; intros s HL HH HE.
  - destruct s; [|cbn in HL; lia]. exists []. repeat split.
  - destruct s as [|c [|d s]]; [exists []; repeat split| |].
    { destruct HE as (k & HE). cbn in HE. lia. }
    inversion HH as [|? ? Hc HH']. inversion HH' as [|? ? Hd HH'']. subst. cbn in HL.
    destruct (IH s ltac:(lia) HH'') as (b & HB & HO & HT). { destruct HE as (k & HE). exists (k - 1)%nat. cbn in HE. lia. }
    destruct (hex_char_val c Hc) as (x & Hx & Hxr & Hxc & Hcs). destruct (hex_char_val d Hd) as (y & Hy & Hyr & Hyd & _).
    exists (16 * x + y :: b). cbn [from_hex]. rewrite Hcs, Hx, Hy, HB. cbn [bind]. split; [reflexivity|]. split.
    + rewrite bytes_ok_cons, HO, (proj2 (byte_ok_iff _)) by lia. reflexivity.
    + cbn [to_hex]. rewrite HT. f_equal; [|f_equal].
      * rewrite <- Hxc. f_equal. replace (16 * x + y) with (y + x * 16) by lia. rewrite Z.div_add, Z.div_small by lia. lia.
      * rewrite <- Hyd. f_equal. replace (16 * x + y) with (y + x * 16) by lia. rewrite Z.mod_add, Z.mod_small by lia. lia.
Qed.

(** * Integers *)
Lemma to_bytes_le_spec v n : 0 <= n ->
  (0 <= v < 256 ^ n -> exists b, to_bytes_le v n = Ok b /\ bytes_ok b = true /\ zlen b = n /\ val_le b = v) /\
  (~ 0 <= v < 256 ^ n -> to_bytes_le v n = Err OverflowError).
Proof.
  intros Hn. assert (HP : 256 ^ n = 2 ^ (8 * n)) by (change 256 with (2 ^ 8); rewrite <- Z.pow_mul_r by lia; reflexivity). rewrite HP. unfold to_bytes_le.
  destruct (Z.ltb_spec n 0); [lia|]. split.
  - intros Hv. destruct (Z.ltb_spec v 0); [lia|]. destruct (Z.leb_spec (2 ^ (8 * n)) v); [lia|]. cbn [orb]. eexists. split; [reflexivity|].
    split; [apply le_digits_ok|]. split; [rewrite zlen_le_digits; lia|]. rewrite val_le_int. apply le_int_digits. rewrite Z2Nat.id by lia. exact Hv.
  - intros Hv. destruct (Z.ltb_spec v 0); [reflexivity|]. destruct (Z.leb_spec (2 ^ (8 * n)) v); [reflexivity|]. lia.
Qed.
Lemma le_bytes_none v : 0 <= v -> exists b, int_to_le_bytes v None = Ok b /\ bytes_ok b = true /\ val_le b = v /\
  forall b', bytes_ok b' = true -> val_le b' = v -> zlen b <= zlen b'.
Proof.
  intros Hv. destruct (Z.eq_dec v 0) as [->|Hne].
  - exists []. repeat split. intros. apply zlen_nonneg.
  - destruct (le_bytes_pos v ltac:(lia)) as (body & x & HE & HB & Hx & HV). exists (body ++ [x]). split; [exact HE|].
    split; [rewrite bytes_ok_app, HB; cbn; rewrite andb_true_r; apply byte_ok_iff; lia|]. rewrite val_le_snoc. split; [lia|].
    intros b' HB' HV'. rewrite zlen_app. change (zlen [x]) with 1. destruct (Z.le_gt_cases (zlen body + 1) (zlen b')) as [|HC]; [assumption|exfalso].
    rewrite val_le_int in HV'. pose proof (le_int_bound b' HB') as HBD. rewrite val_le_int in HV. pose proof (le_int_nonneg body HB).
    assert (HP : 256 ^ zlen body = 2 ^ (8 * zlen body)) by (change 256 with (2 ^ 8); rewrite <- Z.pow_mul_r by (pose proof (zlen_nonneg body); lia); reflexivity).
    pose proof (zlen_nonneg b'). assert (2 ^ (8 * zlen b') <= 2 ^ (8 * zlen body)) by (apply Z.pow_le_mono_r; lia).
    assert (0 < 256 ^ zlen body) by (apply Z.pow_pos_nonneg; [lia|apply zlen_nonneg]). nia.
Qed.
Lemma be_of_le v o : int_to_be_bytes v o = bind (int_to_le_bytes v o) (fun b => Ok (rev b)).
Proof. reflexivity. Qed.

(** * Chunks *)
Lemma chunks_from_pieces {A} size : 0 < size -> forall f (l : list A) i, 0 <= i -> (length l <= f + Z.to_nat i)%nat ->
  pieces size (zdrop i l) (chunks_from f l size i).
Proof.
  intros Hs. induction f as [|f IH]; intros l i Hi HL.
  - rewrite zdrop_all by (unfold zlen; lia). constructor.
  - cbn [chunks_from]. destruct (Z.ltb_spec i (zlen l)) as [Hlt|Hge]; [|rewrite zdrop_all by lia; constructor].
    rewrite pyslice_nonneg by lia. replace (i + size - i) with size by lia.
    pose proof (ztake_zdrop size (zdrop i l)) as HT. rewrite zdrop_zdrop in HT by lia. rewrite (Z.add_comm size i) in HT.
    destruct (Z.le_gt_cases (zlen l) (i + size)) as [Hend|Hmore].
    + assert (HC : chunks_from f l size (i + size) = []). { destruct f; cbn [chunks_from]; [reflexivity|]. destruct (Z.ltb_spec (i + size) (zlen l)); [lia|reflexivity]. }
      rewrite HC. rewrite ztake_all by (rewrite zlen_zdrop; lia). constructor. rewrite zlen_zdrop. lia.
    + rewrite <- HT at 1. constructor.
      * rewrite zlen_ztake, zlen_zdrop. lia.
      * intros E. apply (f_equal zlen) in E. rewrite zlen_zdrop in E. change (zlen (@nil A)) with 0 in E. lia.
      * apply IH; lia.
Qed.
Lemma pieces_concat {A} size (l : list A) ps : pieces size l ps -> concat ps = l.
Proof. induction 1 as [|l Hl|l r rest Hl Hr _ IH]; cbn; [reflexivity|apply app_nil_r|now rewrite IH]. Qed.
Lemma pieces_fun {A} size (l : list A) ps qs : 0 < size -> pieces size l ps -> pieces size l qs -> ps = qs.
Proof.
  intros Hs HP. revert qs. induction HP as [|l Hl|l r rest Hl Hr HP IH]; intros qs HQ.
  - inversion HQ as [|? Hl|l r ? Hl Hr]; subst; [reflexivity|unfold zlen in *; cbn [length] in *; lia|]. exfalso. destruct l; [cbn in *; congruence|discriminate].
  - inversion HQ as [|? Hl'|l' r ? Hl' Hr Hq]; subst; [unfold zlen in *; cbn [length] in *; lia|reflexivity|]. exfalso. rewrite zlen_app in Hl. destruct r; [congruence|]. rewrite zlen_cons in Hl. pose proof (zlen_nonneg r). lia.
  - inversion HQ as [HE|? Hl' HE|l' r' rest' Hl' Hr' Hq HE]; subst.
    + symmetry in HE. apply app_eq_nil in HE as [-> ->]. congruence.
    + exfalso. rewrite zlen_app in Hl'. destruct r; [congruence|]. rewrite zlen_cons in Hl'. pose proof (zlen_nonneg r). lia.
    + assert (l = l' /\ r = r') as [-> ->].
      { apply (f_equal (fun x => (ztake (zlen l) x, zdrop (zlen l) x))) in HE. rewrite (ztake_app_exact (zlen l) l' r'), (zdrop_app_exact (zlen l) l' r') in HE by lia.
        rewrite (ztake_app_exact (zlen l) l r), (zdrop_app_exact (zlen l) l r) in HE by reflexivity. now injection HE as -> ->. }
      f_equal. now apply IH.
Qed.

(** * Coins *)
Lemma find_WIF_spec w l : (exists c, find_WIF w l = Ok c /\ first_with (fun c => c_WIF_byte c = w) l c) \/
  (find_WIF w l = Err ValueError /\ Forall (fun c => c_WIF_byte c <> w) l).
Proof.
  induction l as [|c l IH]; [right; split; [reflexivity|constructor]|]. cbn [find_WIF]. destruct (Z.eqb_spec w (c_WIF_byte c)) as [HE|HN].
  - left. exists c. split; [reflexivity|]. exists [], l. repeat split; [now symmetry|constructor].
  - destruct IH as [(d & HD & (a & b & -> & HP & HF))|(HE & HF)].
    + left. exists d. split; [exact HD|]. exists (c :: a), b. repeat split; [exact HP|]. constructor; [congruence|exact HF].
    + right. split; [exact HE|]. constructor; [congruence|exact HF].
Qed.
Lemma find_xver_spec x l :
  (exists c, find_xver x l = Ok (c, true) /\ c_xpub_verbytes c = x /\ first_with (fun c => c_xpub_verbytes c = x \/ c_xprv_verbytes c = x) l c) \/
  (exists c, find_xver x l = Ok (c, false) /\ c_xprv_verbytes c = x /\ c_xpub_verbytes c <> x /\ first_with (fun c => c_xpub_verbytes c = x \/ c_xprv_verbytes c = x) l c) \/
  (find_xver x l = Err ValueError /\ Forall (fun c => c_xpub_verbytes c <> x /\ c_xprv_verbytes c <> x) l).
Proof.
  induction l as [|c l IH]; [right; right; split; [reflexivity|constructor]|]. cbn [find_xver].
  destruct (bytes_eqb_spec x (c_xpub_verbytes c)) as [HE|HN]; [left; exists c; split; [reflexivity|]; split; [now symmetry|]; exists [], l; repeat split; [left; now symmetry|constructor]|].
  destruct (bytes_eqb_spec x (c_xprv_verbytes c)) as [HE|HN'].
  - right. left. exists c. repeat split; [now symmetry|congruence|]. exists [], l. repeat split; [right; now symmetry|constructor].
  - assert (HQ : ~ (c_xpub_verbytes c = x \/ c_xprv_verbytes c = x)) by (intros [|]; congruence).
    destruct IH as [(d & HD & HX & (a & b & -> & HP & HF))|[(d & HD & HX & HNX & (a & b & -> & HP & HF))|(HE & HF)]].
    + left. exists d. repeat split; [exact HD|exact HX|]. exists (c :: a), b. repeat split; [exact HP|]. now constructor.
    + right. left. exists d. repeat split; [exact HD|exact HX|exact HNX|]. exists (c :: a), b. repeat split; [exact HP|]. now constructor.
    + right. right. split; [exact HE|]. constructor; [split; congruence|exact HF].
Qed.

(** * Header fields *)
Lemma unpack_pack_u32 b v : bytes_ok b = true -> unpack_le_uint32 b = Ok v -> pack_le_uint32 v = Ok b /\ v = val_le b.
Proof.
  intros HB HU. split; [now apply pack_unpack_uint_le|]. unfold unpack_le_uint32, unpack_uint_le in HU. destruct (_ =? _); [|discriminate]. injection HU as <-. symmetry; apply val_le_int.
Qed.
Lemma header_fields (H : bytes -> bytes) raw height : bytes_ok raw = true -> zlen raw = 80 ->
  exists h v t b n, deserialized_header H raw height = Ok h /\
    pack_le_int32 (h_version h) = Ok v /\ pack_le_uint32 (h_timestamp h) = Ok t /\ pack_le_uint32 (h_bits h) = Ok b /\ pack_le_uint32 (h_nonce h) = Ok n /\
    raw = v ++ h_prev_hash h ++ h_merkle_root h ++ t ++ b ++ n /\ zlen (h_prev_hash h) = 32 /\ zlen (h_merkle_root h) = 32 /\
    header_prev_hash raw = h_prev_hash h /\ header_timestamp raw = Ok (h_timestamp h) /\ header_bits raw = Ok (h_bits h) /\
    header_work raw = header_obj_work h /\ h_hash h = H raw /\ h_raw h = raw /\ h_height h = height.
Proof.
  intros HB HL.
  assert (HU : forall k, 0 <= k <= 76 -> exists v, unpack_le_uint32 (ztake 4 (zdrop k raw)) = Ok v).
  { intros k Hk. unfold unpack_le_uint32, unpack_uint_le. rewrite zlen_ztake, zlen_zdrop, HL. replace (Z.max 0 (Z.min 4 (Z.max 0 (Z.min 80 (80 - k))))) with 4 by lia. cbn [Z.eqb]. eexists; reflexivity. }
  destruct (HU 68 ltac:(lia)) as (t & Ht). destruct (HU 72 ltac:(lia)) as (b & Hb). destruct (HU 76 ltac:(lia)) as (n & Hn).
  assert (HV : exists v, unpack_le_int32 (ztake 4 raw) = Ok v).
  { unfold unpack_le_int32, unpack_int_le. rewrite zlen_ztake, HL. change (Z.max 0 (Z.min 4 80) =? Z.of_nat 4) with true. eexists; reflexivity. }
  destruct HV as (v & Hv). assert (HT : forall k m, bytes_ok (ztake k (zdrop m raw)) = true) by (intros; apply bytes_ok_ztake; now apply bytes_ok_zdrop).
  exists (mk_header v (ztake 32 (zdrop 4 raw)) (ztake 32 (zdrop 36 raw)) t b n (H raw) raw height), (ztake 4 raw), (ztake 4 (zdrop 68 raw)), (ztake 4 (zdrop 72 raw)), (ztake 4 (zdrop 76 raw)).
  cbn [h_version h_timestamp h_bits h_nonce h_prev_hash h_merkle_root h_hash h_raw h_height].
  split. { unfold deserialized_header, unpack_header. rewrite HL. change (80 =? 80) with true. cbn [negb]. rewrite Hv, Ht, Hb, Hn. reflexivity. }
  split. { apply (pack_unpack_int_le 4); [lia|now apply bytes_ok_ztake|exact Hv]. }
  split; [now apply unpack_pack_u32|]. split; [now apply unpack_pack_u32|]. split; [now apply unpack_pack_u32|].
  assert (HS : forall k m, 0 <= k -> 0 <= m -> zdrop m raw = ztake k (zdrop m raw) ++ zdrop (m + k) raw).
  { intros k m Hk Hm. rewrite <- (ztake_zdrop k (zdrop m raw)) at 1. rewrite zdrop_zdrop by lia. rewrite (Z.add_comm k m). reflexivity. }
  split. { rewrite <- (zdrop_0 0 raw) at 1 by lia. rewrite (HS 4 0), (zdrop_0 0 raw) by lia. change (0 + 4) with 4. f_equal.
    rewrite (HS 32 4) at 1 by lia. f_equal. change (4 + 32) with 36. rewrite (HS 32 36) at 1 by lia. f_equal. change (36 + 32) with 68.
    rewrite (HS 4 68) at 1 by lia. f_equal. change (68 + 4) with 72. rewrite (HS 4 72) at 1 by lia. f_equal. change (72 + 4) with 76.
    symmetry. apply ztake_all. rewrite zlen_zdrop. lia. }
  split; [rewrite zlen_ztake, zlen_zdrop; lia|]. split; [rewrite zlen_ztake, zlen_zdrop; lia|].
  unfold header_prev_hash, header_work, header_timestamp, header_bits, header_obj_work. rewrite !pyslice_nonneg by lia.
  change (36 - 4) with 32. change (72 - 68) with 4. change (76 - 72) with 4. rewrite Ht, Hb. cbn [bind h_bits]. repeat split.
Qed.
