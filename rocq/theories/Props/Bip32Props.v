(** BIP32: C52, C53, C54 and C68. *)
From Verif.Model Require Import Py Text Packing Misc Curve Coin Base58 Keys Bip32.
From Verif.Spec Require Import Numbers CurveSpec KeysSpec Bip32Spec.
From Verif.Proofs Require Import PyFacts NumbersFacts CurveFacts KeysFacts Bip32Facts Bip32Keys.
From Verif.Props Require Import Base58Props KeysProps.

(** C52 *)
Theorem C52_private (C : curve) (H : bytes -> bytes) : (forall x, bytes_ok (H x) = true) -> (forall x, zlen (H x) = 32) ->
  forall k, valid_xprv k -> d_depth (xprv_derivation k) <= 255 ->
  exists t c', xprv_to_string H k = Ok t /\
    bip32_key_from_string C H t = Ok (inr (mk_xprv (mk_privkey (sk_secret (xprv_key k)) true c') (xprv_derivation k))) /\
    In c' all_coins /\ c_xprv_verbytes c' = c_xprv_verbytes (sk_coin (xprv_key k)).
Proof. exact (xprv_roundtrip C H). Qed.
Theorem C52_public (C : curve) (H : bytes -> bytes) : curve_laws C -> (forall x, bytes_ok (H x) = true) -> (forall x, zlen (H x) = 32) ->
  forall k : xpub C, valid_xpub k -> d_depth (xpub_derivation k) <= 255 ->
  exists t c', xpub_to_string C H k = Ok t /\
    bip32_key_from_string C H t = Ok (inl (mk_xpub (mk_pubkey (pk_point (xpub_key k)) true c') (xpub_derivation k))) /\
    In c' all_coins /\ c_xpub_verbytes c' = c_xpub_verbytes (pk_coin (xpub_key k)).
Proof. intros L. exact (xpub_roundtrip C L H). Qed.
Theorem C52_deep (C : curve) (H : bytes -> bytes) : curve_laws C ->
  (forall k, valid_xprv k -> 255 < d_depth (xprv_derivation k) -> xprv_to_string H k = Err StructError) /\
  (forall k : xpub C, valid_xpub k -> 255 < d_depth (xpub_derivation k) -> xpub_to_string C H k = Err StructError).
Proof. intros L. exact (xkey_deep C L H). Qed.
(** The other way: a string that is read as a key is what that key writes. *)
Theorem C52_inverse (C : curve) (H : bytes -> bytes) : curve_laws C -> forall t x, bip32_key_from_string C H t = Ok x ->
  match x with
  | inl K => valid_xpub K /\ 0 <= d_depth (xpub_derivation K) <= 255 /\ xpub_to_string C H K = Ok t
  | inr k => valid_xprv k /\ 0 <= d_depth (xprv_derivation k) <= 255 /\ xprv_to_string H k = Ok t
  end.
Proof. intros L. exact (xkey_inverse C L H). Qed.
Theorem C52_errors (C : curve) (H : bytes -> bytes) t e : bip32_key_from_string C H t = Err e -> e = ValueError \/ e = Base58Error.
Proof. exact (xkey_errors C H t e). Qed.
(** The bytes written are those of BIP32: version, depth, fingerprint, child number, chain code, key. *)
Theorem C52_layout (k : xprv) : valid_xprv k -> d_depth (xprv_derivation k) <= 255 ->
  exists e, xprv_extended_key k = Ok e /\ layout (c_xprv_verbytes (sk_coin (xprv_key k))) (xprv_derivation k) (0 :: sk_secret (xprv_key k)) e.
Proof.
  intros (HV & _ & _ & HD) HDp. pose proof HV as (_ & HL & _). destruct (extended_key_spec _ (sk_coin (xprv_key k)) _ HD HDp (or_introl HL)) as (nb & HP & HB & HLn & HVn & _ & HE).
  rewrite HL in HE. eexists. split; [exact HE|]. exists [d_depth (xprv_derivation k)], nb. split; [reflexivity|]. split; [reflexivity|]. split; [|rewrite zlen_cons; repeat split; try assumption; lia].
  unfold val_be, val_le. cbn. lia.
Qed.
Theorem C52_layout_public (C : curve) : curve_laws C -> forall k : xpub C, valid_xpub k -> d_depth (xpub_derivation k) <= 255 ->
  exists e, xpub_extended_key C k = Ok e /\ layout (c_xpub_verbytes (pk_coin (xpub_key k))) (xpub_derivation k) (pubkey_serialize C true (pk_point (xpub_key k))) e.
Proof.
  intros L k (HC & _ & HD) HDp. pose proof (law_length C L true (pk_point (xpub_key k))) as HL. destruct (extended_key_spec _ (pk_coin (xpub_key k)) _ HD HDp (or_intror HL)) as (nb & HP & HB & HLn & HVn & _ & HE).
  rewrite HL in HE. unfold xpub_extended_key, pubkey_to_bytes. rewrite HC. eexists. split; [exact HE|]. exists [d_depth (xpub_derivation k)], nb. split; [reflexivity|]. split; [reflexivity|]. split; [|repeat split; assumption].
  unfold val_be, val_le. cbn. lia.
Qed.
(** Every key derived from a seed is a valid extended key, at depth the length of its path. *)
Theorem C52_reachable (C : curve) (hash160 : bytes -> bytes) (hmac : bytes -> bytes -> bytes) : curve_laws C ->
  (forall x, bytes_ok (hash160 x) = true) -> (forall x, zlen (hash160 x) = 20) -> (forall k x, bytes_ok (hmac k x) = true) -> (forall k x, zlen (hmac k x) = 64) ->
  forall seed c k path k', In c all_coins -> xprv_from_seed hmac seed c = Ok k -> follow (xprv_child C hash160 hmac) k path = Ok k' ->
  valid_xprv k' /\ d_depth (xprv_derivation k') = zlen path.
Proof.
  intros L H1 H2 H3 H4 seed c k path k' Hc HK HF. destruct (seed_valid C L hash160 H1 H2 hmac H3 H4 seed c k Hc HK) as [HV HD]. destruct (path_valid C L hash160 H1 H2 hmac H3 H4 path k k' HV HF) as [HV' HD']. split; [exact HV'|]. lia.
Qed.
Print Assumptions C52_private.
Print Assumptions C52_public.
Print Assumptions C52_deep.
Print Assumptions C52_inverse.
Print Assumptions C52_errors.
Print Assumptions C52_layout.
Print Assumptions C52_layout_public.
Print Assumptions C52_reachable.
Definition toy_hash160 (x : bytes) : bytes := zrepeat (be_int x mod 256) 20.
(** 64 bytes; the left half is out of range if the message ends in 5. *)
Definition toy_hmac512 (k x : bytes) : bytes := if be_int x mod 256 =? 5 then zrepeat 255 64 else bytes32 (be_int x + be_int k) ++ bytes32 (be_int x).
Lemma zrepeat_ok x n : 0 <= x < 256 -> bytes_ok (zrepeat x n) = true.
Proof. intros Hx. unfold bytes_ok, zrepeat. apply forallb_forall. intros y Hy. apply repeat_spec in Hy. subst. apply byte_ok_iff. exact Hx. Qed.
Lemma toy_hashes : (forall x, bytes_ok (toy_hash160 x) = true) /\ (forall x, zlen (toy_hash160 x) = 20) /\ (forall k x, bytes_ok (toy_hmac512 k x) = true) /\ (forall k x, zlen (toy_hmac512 k x) = 64).
Proof.
  split; [intros x; apply zrepeat_ok; apply Z.mod_pos_bound; lia|]. split; [reflexivity|]. split; intros k x; unfold toy_hmac512; (destruct (_ =? 5); [reflexivity|]).
  - now rewrite bytes_ok_app, !(proj1 (bytes32_ok _)).
  - now rewrite zlen_app, !(proj2 (bytes32_ok _)).
Qed.
Definition sample_xprv : xprv := mk_xprv (mk_privkey (bytes32 77) true BitcoinRegtest) (mk_derivation (bytes32 5) 0x80000003 7 [1; 2; 3; 4]).
Lemma sample_xprv_valid : valid_xprv sample_xprv.
Proof.
  split; [exact (proj1 (bytes32_valid 77 ltac:(vm_compute; split; reflexivity)))|]. split; [reflexivity|]. split; [cbn; auto|]. repeat split; try reflexivity; try (vm_compute; discriminate).
Qed.
Definition private_part (r : result (xpub toy + xprv)) : option xprv := match r with Ok (inr k) => Some k | _ => None end.
Example C52_ex :
  private_part (t <- xprv_to_string toy_hash sample_xprv ;; bip32_key_from_string toy toy_hash t) =
    Some (mk_xprv (mk_privkey (bytes32 77) true BitcoinTestnet) (xprv_derivation sample_xprv)) /\
  (k <- follow (xprv_child toy toy_hash160 toy_hmac512) sample_xprv [0; 7; 0x80000000] ;; Ok (d_depth (xprv_derivation k))) = Ok 10.
Proof. vm_compute. repeat split. Qed.

(** C53.  The public key of the child is the child of the public key, with the same derivation; and both raise ValueError, or neither. *)
Theorem C53_child (C : curve) (hash160 : bytes -> bytes) (hmac : bytes -> bytes -> bytes) : curve_laws C ->
  (forall x, bytes_ok (hash160 x) = true) -> (forall x, zlen (hash160 x) = 20) -> (forall k x, bytes_ok (hmac k x) = true) -> (forall k x, zlen (hmac k x) = 64) ->
  forall k K n, valid_xprv k -> xprv_public_key C k = Ok K -> n < 2 ^ 31 ->
  agree (fun k' K' => xprv_public_key C k' = Ok K') (xprv_child C hash160 hmac k n) (xpub_child C hash160 hmac K n).
Proof. intros L H1 H2 H3 H4. exact (child_agree C L hash160 H1 H2 hmac H3 H4). Qed.
Theorem C53_path (C : curve) (hash160 : bytes -> bytes) (hmac : bytes -> bytes -> bytes) : curve_laws C ->
  (forall x, bytes_ok (hash160 x) = true) -> (forall x, zlen (hash160 x) = 20) -> (forall k x, bytes_ok (hmac k x) = true) -> (forall k x, zlen (hmac k x) = 64) ->
  forall path k K, valid_xprv k -> xprv_public_key C k = Ok K -> Forall (fun n => n < 2 ^ 31) path ->
  agree (fun k' K' => xprv_public_key C k' = Ok K') (follow (xprv_child C hash160 hmac) k path) (follow (xpub_child C hash160 hmac) K path).
Proof. intros L H1 H2 H3 H4. exact (path_agree C L hash160 H1 H2 hmac H3 H4). Qed.
(** Every valid extended private key has an extended public key. *)
Theorem C53_public_key (C : curve) : curve_laws C -> forall k, valid_xprv k ->
  exists p, xprv_public_key C k = Ok (mk_xpub (mk_pubkey p true (sk_coin (xprv_key k))) (xprv_derivation k)) /\ gen_times C (val_be (sk_secret (xprv_key k))) = Some p.
Proof.
  intros L k (HV & HC & _). destruct (public_key_spec C L (xprv_key k) HV) as (p & HP & HG). exists p. split; [|exact HG]. unfold privkey_public_key in HP. unfold xprv_public_key, make_xpub.
  destruct (privkey_point C (xprv_key k)); [|discriminate]. cbn [bind] in *. now injection HP as ->.
Qed.
(** What a step computes: the left half of the HMAC is added to the secret, the right half is the new chain code. *)
Theorem C53_child_value (C : curve) (hash160 : bytes -> bytes) (hmac : bytes -> bytes -> bytes) : curve_laws C ->
  (forall x, bytes_ok (hash160 x) = true) -> (forall x, zlen (hash160 x) = 20) -> (forall k x, bytes_ok (hmac k x) = true) -> (forall k x, zlen (hmac k x) = 64) ->
  forall k p n, valid_xprv k -> gen_times C (val_be (sk_secret (xprv_key k))) = Some p -> 0 <= n < 2 ^ 32 ->
  exists nb, zlen nb = 4 /\ val_be nb = n /\
    let h := hmac (d_chain_code (xprv_derivation k)) ((if 2 ^ 31 <=? n then 0 :: sk_secret (xprv_key k) else pubkey_serialize C true p) ++ nb) in
    match xprv_child C hash160 hmac k n with
    | Ok k' => val_be (firstn 32 h) < CURVE_ORDER /\ val_be (sk_secret (xprv_key k')) = (val_be (sk_secret (xprv_key k)) + val_be (firstn 32 h)) mod CURVE_ORDER /\ valid_xprv k' /\
               sk_coin (xprv_key k') = sk_coin (xprv_key k) /\
               xprv_derivation k' = mk_derivation (skipn 32 h) n (d_depth (xprv_derivation k) + 1) (firstn 4 (hash160 (pubkey_serialize C true p)))
    | Err e => e = ValueError /\ (CURVE_ORDER <= val_be (firstn 32 h) \/ (val_be (sk_secret (xprv_key k)) + val_be (firstn 32 h)) mod CURVE_ORDER = 0)
    end.
Proof.
  intros L H1 H2 H3 H4 k p n HV HG Hn. destruct (C53_public_key C L k HV) as (p' & HP & HG'). rewrite HG in HG'. injection HG' as <-.
  destruct (xprv_child_spec C L hash160 H1 H2 hmac H3 H4 k n _ HV HP Hn) as (nb & l & r & Hnb & HM & HS). cbn [xpub_key pk_point] in HM.
  destruct (pack_u32 n Hn) as (nb' & Hnb' & _ & HLn & HVn & _). rewrite Hnb in Hnb'. injection Hnb' as <-. exists nb. split; [exact HLn|]. split; [exact HVn|].
  unfold hmac_sha512_halves, child_message in HM. rewrite HARDENED_val in HM. change ([0] ++ sk_secret (xprv_key k)) with (0 :: sk_secret (xprv_key k)) in HM. cbv zeta. set (h := hmac _ _) in *.
  rewrite slice_to_nonneg, slice_from_nonneg, ztake_firstn, zdrop_skipn in HM by lia. change (Z.to_nat 32) with 32%nat in HM. apply pair_equal_spec in HM as [<- <-].
  assert (HB : bytes_ok (firstn 32 h) = true). { change 32%nat with (Z.to_nat 32). rewrite <- ztake_firstn. apply bytes_ok_ztake. apply H3. }
  assert (HZ : zlen (firstn 32 h) = 32). { change 32%nat with (Z.to_nat 32). rewrite <- ztake_firstn, zlen_ztake. unfold h. rewrite H4. reflexivity. }
  rewrite !val_be_int. destruct (privkey_add_spec (xprv_key k) (firstn 32 h) (proj1 HV) HB) as [(s & _ & HT & EA & HSv & HSe)|(EA & HF)]; rewrite EA in HS; destruct HS as [HC HS2]; pose proof HC as HC'; rewrite HC.
  - cbn [xprv_key xprv_derivation sk_secret sk_coin]. split; [exact HT|]. rewrite val_be_int. split; [exact HSe|]. split; [now apply (xprv_child_valid C L hash160 H1 H2 hmac H3 H4 k n)|]. split; [reflexivity|].
    unfold derivation_child, xpub_fingerprint, xpub_identifier, pubkey_to_bytes. cbn [xpub_key pk_compressed pk_point]. rewrite slice_to_nonneg, ztake_firstn by lia. reflexivity.
  - split; [reflexivity|]. destruct HF as [HF|HF]; [lia|exact HF].
Qed.
Print Assumptions C53_child.
Print Assumptions C53_path.
Print Assumptions C53_public_key.
Print Assumptions C53_child_value.
Definition pub_hex (r : result (xpub toy)) : result (pystr * derivation) := K <- r ;; Ok (pubkey_to_hex toy (xpub_key K) None, xpub_derivation K).
Example C53_ex :
  pub_hex (k <- follow (xprv_child toy toy_hash160 toy_hmac512) sample_xprv [0; 7] ;; xprv_public_key toy k) =
  pub_hex (K <- xprv_public_key toy sample_xprv ;; follow (xpub_child toy toy_hash160 toy_hmac512) K [0; 7]) /\
  (k <- follow (xprv_child toy toy_hash160 toy_hmac512) sample_xprv [0; 7] ;; Ok tt) = Ok tt /\
  pub_hex (K <- xprv_public_key toy sample_xprv ;; follow (xpub_child toy toy_hash160 toy_hmac512) K [0; 5; 7]) = Err ValueError /\
  (k <- follow (xprv_child toy toy_hash160 toy_hmac512) sample_xprv [0; 5; 7] ;; Ok tt) = Err ValueError.
Proof. vm_compute. repeat split. Qed.

(** C54 *)
Theorem C54_roundtrip (d : list Z) : Forall (fun n => 0 <= n < 2 ^ 32) d -> exists s, bip32_build_chain_string d = Ok s /\ bip32_decompose_chain_string s = Ok d.
Proof. intros HF. destruct (proj1 (build_spec d) HF) as (s & _ & HB & _). exists s. split; [exact HB|]. now apply decompose_build. Qed.
Theorem C54_build (d : list Z) :
  (Forall (fun n => 0 <= n < 2 ^ 32) d -> exists s parts, bip32_build_chain_string d = Ok s /\ slashed s (txt "m" :: parts) /\ Forall2 part_says parts d) /\
  (~ Forall (fun n => 0 <= n < 2 ^ 32) d -> bip32_build_chain_string d = Err ValueError).
Proof. exact (build_spec d). Qed.
(** The second half of the claim is false: a newline ends a part too, and then the apostrophe before it is ignored. *)
Theorem C54_newline_refuted : exists s ns, bip32_decompose_chain_string s = Ok ns /\ ~ exists parts, slashed s (txt "m" :: parts) /\ Forall2 part_says parts ns.
Proof.
  exists (txt "m/44'" ++ [10]), [44]. split; [reflexivity|]. intros (parts & (_ & HF & HE) & HP).
  assert (HS : split_on 47 (txt "m/44'" ++ [10]) = txt "m" :: parts) by (rewrite HE; apply split_join_on; [discriminate|exact HF]). vm_compute in HS. injection HS as <-.
  inversion HP as [|? ? ? ? (s & v & HN & HV & [[HE1 HE2]|[HE1 HE2]]) _]; subst.
  - assert (HI : In 10 [52; 52; 39; 10]) by (cbn; auto). apply (numeral_chars _ _ 10 HN) in HI. lia.
  - apply numeral_nonneg in HN. lia.
Qed.
(** What holds: what is read is what BIP32 says, except in parts that end with a newline. *)
Theorem C54_decompose_partial (s : pystr) ns : bip32_decompose_chain_string s = Ok ns <-> exists parts, slashed s (txt "m" :: parts) /\ Forall2 part_reads parts ns.
Proof. exact (decompose_spec s ns). Qed.
Theorem C54_no_newline_partial (s : pystr) ns : ~ In 10 s -> (bip32_decompose_chain_string s = Ok ns <-> exists parts, slashed s (txt "m" :: parts) /\ Forall2 part_says parts ns).
Proof.
  intros HN. rewrite decompose_spec. split; intros (parts & HS & HF); exists parts; (split; [exact HS|]).
  - destruct HS as (_ & _ & HE). assert (HI : forall p, In p parts -> ~ In 10 p).
    { intros p Hp Hc. apply HN. rewrite HE. clear -Hp Hc. generalize (txt "m") as q. induction parts as [|a parts IH]; intros q; [contradiction|]. cbn [join]. apply in_or_app. right. apply in_or_app. right. destruct Hp as [->|Hp]; [|now apply IH].
      destruct parts; [exact Hc|]. apply in_or_app. now left. }
    clear -HF HI. induction HF as [|p n parts ns Hp HF IH]; constructor; [|apply IH; intros q Hq; apply HI; now right].
    destruct Hp as [Hp|(v & x & _ & _ & _ & [->| ->])]; [exact Hp| |]; exfalso; apply (HI _ (or_introl eq_refl)); repeat (apply in_or_app; right); cbn; auto.
  - clear -HF. induction HF; constructor; auto. now left.
Qed.
Theorem C54_errors (s : pystr) e : bip32_decompose_chain_string s = Err e -> e = ValueError.
Proof. exact (decompose_err s e). Qed.
Theorem C54_is_valid (s : pystr) : exists b : bool, bip32_is_valid_chain_string s = Ok b /\ (b = true <-> exists ns, bip32_decompose_chain_string s = Ok ns).
Proof.
  unfold bip32_is_valid_chain_string. destruct (bip32_decompose_chain_string s) as [ns|e] eqn:E; [exists true; split; [reflexivity|]; split; eauto|].
  apply decompose_err in E. subst e. exists false. split; [reflexivity|]. split; [discriminate|]. intros (ns & HN). discriminate.
Qed.
(** Whatever is read can be written again, and then reads the same. *)
Theorem C54_rebuild (s : pystr) ns : bip32_decompose_chain_string s = Ok ns -> exists t, bip32_build_chain_string ns = Ok t /\ bip32_decompose_chain_string t = Ok ns.
Proof.
  intros HD. apply C54_roundtrip. apply decompose_spec in HD as (parts & _ & HF). induction HF; constructor; auto. now apply (part_reads_range x).
Qed.
Print Assumptions C54_roundtrip.
Print Assumptions C54_build.
Print Assumptions C54_newline_refuted.
Print Assumptions C54_decompose_partial.
Print Assumptions C54_no_newline_partial.
Print Assumptions C54_errors.
Print Assumptions C54_is_valid.
Print Assumptions C54_rebuild.
Example C54_ex : bip32_build_chain_string [1; 0x80000002; 0x80000003; 0] = Ok (txt "m/1/2'/3'/0") /\
  bip32_decompose_chain_string (txt "m/1/2'/3'/0") = Ok [1; 0x80000002; 0x80000003; 0] /\ bip32_decompose_chain_string (txt "m") = Ok [] /\
  bip32_decompose_chain_string (txt "m/007") = Ok [7] /\ bip32_decompose_chain_string (txt "m/") = Err ValueError /\ bip32_decompose_chain_string (txt "m/2147483648") = Err ValueError.
Proof. vm_compute. repeat split. Qed.

(** C68.  The loop is modelled with a bound on its iterations; it needs at most 2^31 (private) or 2^31 + 1 (public) of them. *)
Theorem C68_private (C : curve) (hash160 : bytes -> bytes) (hmac : bytes -> bytes -> bytes) : curve_laws C ->
  (forall x, bytes_ok (hash160 x) = true) -> (forall x, zlen (hash160 x) = 20) -> (forall k x, bytes_ok (hmac k x) = true) -> (forall k x, zlen (hmac k x) = 64) ->
  forall fuel k n r, valid_xprv k -> xprv_child_safe C hash160 hmac fuel k n = r -> r <> Err OutOfFuel ->
  match r with
  | Ok k' => exists m, n <= m /\ same_kind n m /\ xprv_child C hash160 hmac k m = Ok k' /\ forall j, n <= j < m -> xprv_child C hash160 hmac k j = Err ValueError
  | Err e => e = ValueError /\ (~ 0 <= n < 2 ^ 32 \/ forall j, n <= j -> same_kind n j -> xprv_child C hash160 hmac k j = Err ValueError)
  end.
Proof. intros L H1 H2 H3 H4. exact (xprv_child_safe_spec C L hash160 H1 H2 hmac H3 H4). Qed.
Theorem C68_private_stops (C : curve) (hash160 : bytes -> bytes) (hmac : bytes -> bytes -> bytes) : curve_laws C ->
  (forall x, bytes_ok (hash160 x) = true) -> (forall x, zlen (hash160 x) = 20) -> (forall k x, bytes_ok (hmac k x) = true) -> (forall k x, zlen (hmac k x) = 64) ->
  forall fuel k n, valid_xprv k -> 2 ^ 31 <= Z.of_nat fuel -> xprv_child_safe C hash160 hmac fuel k n <> Err OutOfFuel.
Proof. intros L H1 H2 H3 H4. exact (xprv_child_safe_stops C L hash160 H1 H2 hmac H3 H4). Qed.
Theorem C68_public (C : curve) (hash160 : bytes -> bytes) (hmac : bytes -> bytes -> bytes) : curve_laws C ->
  (forall x, bytes_ok (hash160 x) = true) -> (forall x, zlen (hash160 x) = 20) -> (forall k x, bytes_ok (hmac k x) = true) -> (forall k x, zlen (hmac k x) = 64) ->
  forall fuel K n r, xpub_child_safe C hash160 hmac fuel K n = r -> r <> Err OutOfFuel ->
  match r with
  | Ok K' => exists m, n <= m < 2 ^ 31 /\ 0 <= n /\ xpub_child C hash160 hmac K m = Ok K' /\ forall j, n <= j < m -> xpub_child C hash160 hmac K j = Err ValueError
  | Err e => e = ValueError /\ (~ 0 <= n < 2 ^ 31 \/ forall j, n <= j < 2 ^ 31 -> xpub_child C hash160 hmac K j = Err ValueError)
  end.
Proof. intros L H1 H2 H3 H4. exact (xpub_child_safe_spec C L hash160 H1 H2 hmac H3 H4). Qed.
Theorem C68_public_stops (C : curve) (hash160 : bytes -> bytes) (hmac : bytes -> bytes -> bytes) : curve_laws C ->
  (forall x, bytes_ok (hash160 x) = true) -> (forall x, zlen (hash160 x) = 20) -> (forall k x, bytes_ok (hmac k x) = true) -> (forall k x, zlen (hmac k x) = 64) ->
  forall fuel K n, 2 ^ 31 < Z.of_nat fuel -> xpub_child_safe C hash160 hmac fuel K n <> Err OutOfFuel.
Proof. intros L H1 H2 H3 H4. exact (xpub_child_safe_stops C L hash160 H1 H2 hmac H3 H4). Qed.
Print Assumptions C68_private.
Print Assumptions C68_private_stops.
Print Assumptions C68_public.
Print Assumptions C68_public_stops.
Definition der_n (r : result xprv) : result Z := k <- r ;; Ok (d_n (xprv_derivation k)).
Example C68_ex :
  der_n (xprv_child toy toy_hash160 toy_hmac512 sample_xprv 5) = Err ValueError /\ der_n (xprv_child_safe toy toy_hash160 toy_hmac512 3 sample_xprv 5) = Ok 6 /\
  der_n (xprv_child_safe toy toy_hash160 toy_hmac512 3 sample_xprv 4) = Ok 4 /\ der_n (xprv_child_safe toy toy_hash160 toy_hmac512 3 sample_xprv (2 ^ 32)) = Err ValueError /\
  der_n (xprv_child_safe toy toy_hash160 (fun _ _ => zrepeat 255 64) 3 sample_xprv (2 ^ 31 - 2)) = Err ValueError.
Proof. vm_compute. repeat split. Qed.
