(** Addresses and classification of output scripts: C42, C43, C44 and C47.

    [C] is any curve obeying [curve_laws]; the examples use the instance [toy] of Proofs/CurveFacts.v. *)
From Verif.Model Require Import Py Text Packing Misc Curve Coin Base58 Script Cashaddr Keys Bip32 Address.
From Verif.Spec Require Import Numbers ScriptSpec CurveSpec CashaddrSpec AddressSpec.
From Verif.Proofs Require Import PyFacts NumbersFacts ScriptFacts ScriptTheorems AsmFacts CurveFacts ClassifyFacts AddressFacts AddressText.
From Verif.Props Require Import Base58Props KeysProps Bip32Props CashaddrProps.

(** C42.  Each kind gives back what made the script; the coin is the one asked for, and the key objects made by
    reading have the coin Bitcoin.  [output_eqb] is == in Python. *)
Theorem C42_P2PKH (C : curve) h c' c s : curve_laws C -> bytes_ok h = true -> zlen h = 20 ->
  to_script_bytes C (OAddress (P2PKH h c')) = Ok s -> classify_output_script C s c = Ok (OAddress (P2PKH h c)).
Proof. intros L HB HL HS. apply (own_script C L (OAddress (P2PKH h c')) c s); [split; assumption|exact HS]. Qed.
Theorem C42_P2SH (C : curve) h c' c s : curve_laws C -> bytes_ok h = true -> zlen h = 20 ->
  to_script_bytes C (OAddress (P2SH h c')) = Ok s -> classify_output_script C s c = Ok (OAddress (P2SH h c)).
Proof. intros L HB HL HS. apply (own_script C L (OAddress (P2SH h c')) c s); [split; assumption|exact HS]. Qed.
Theorem C42_P2PK (C : curve) (k : pubkey C) c' c s : curve_laws C ->
  to_script_bytes C (OP2PK k c') = Ok s -> classify_output_script C s c = Ok (OP2PK (mk_pubkey (pk_point k) (pk_compressed k) Bitcoin) c).
Proof. intros L HS. apply (own_script C L (OP2PK k c') c s); [exact I|exact HS]. Qed.
Theorem C42_multisig (C : curve) (ks : list (pubkey C)) m c s : curve_laws C -> 1 <= m <= zlen ks ->
  to_script_bytes C (OMultiSig ks m) = Ok s ->
  classify_output_script C s c = Ok (OMultiSig (map (fun k => mk_pubkey (pk_point k) (pk_compressed k) Bitcoin) ks) m).
Proof. intros L HM HS. apply (own_script C L (OMultiSig ks m) c s); [exact HM|exact HS]. Qed.
(** All of that in terms of ==; and the script exists. *)
Theorem C42_equal (C : curve) (o : output C) c s : curve_laws C -> valid_output C o -> to_script_bytes C o = Ok s ->
  exists o', classify_output_script C s c = Ok o' /\ output_eqb C o' o = true.
Proof.
  intros L HV HS. exists (read_back C o c). split; [now apply (own_script C L o c s)|]. apply (read_back_eq C o c). intros ->. exact HV.
Qed.
Theorem C42_script_exists (C : curve) (o : output C) : curve_laws C -> valid_output C o -> (forall ks m, o = OMultiSig ks m -> zlen ks < 2 ^ 31) ->
  exists s, to_script_bytes C o = Ok s.
Proof. intros L. exact (own_script_exists C L o). Qed.
(** Pushes, then OP_RETURN, then anything at all, even a truncated script *)
Theorem C42_op_return (C : curve) parts ds rest c : Forall2 encodes parts (map Data ds) -> bytes_ok (concat parts ++ [106] ++ rest) = true ->
  classify_output_script C (concat parts ++ [106] ++ rest) c = Ok OReturn.
Proof.
  intros HF HB. apply classify_spec; [exact HB|discriminate|]. assert (HBr : bytes_ok rest = true).
  { rewrite !bytes_ok_app in HB. apply andb_true_iff in HB as [_ HB]. now apply andb_true_iff in HB as [_ HB]. }
  destruct (parse_total rest HBr) as (parts2 & l2 & tail & -> & HF2 & HT). exists (map Data ds ++ Code 106 :: l2), ds, l2.
  assert (HFA : Forall2 encodes (parts ++ [106] :: parts2) (map Data ds ++ Code 106 :: l2)) by (apply Forall2_app; [exact HF|]; constructor; [constructor; lia|exact HF2]).
  split; [|constructor]. destruct HT as [[-> _]|[(Hne & more & d & Hm & HE) _]].
  - left. exists (parts ++ [106] :: parts2). split; [|exact HFA]. rewrite concat_app. cbn [concat]. now rewrite app_nil_r.
  - right. exists (parts ++ [106] :: parts2), tail, more, d. split; [rewrite concat_app; cbn [concat]; now rewrite <- !app_assoc|]. auto.
Qed.
Print Assumptions C42_P2PKH.
Print Assumptions C42_P2SH.
Print Assumptions C42_P2PK.
Print Assumptions C42_multisig.
Print Assumptions C42_equal.
Print Assumptions C42_script_exists.
Print Assumptions C42_op_return.
(** A key of the toy curve, and what can be seen of an output. *)
Definition toy_key (x : Z) (c : bool) : result (pubkey toy) := privkey_public_key toy (sample_key x c).
Definition seen (o : output toy) : pystr * list bytes * Z :=
  match o with
  | OAddress (P2PKH h c) => (txt "P2PKH", [h], c_id c)
  | OAddress (P2SH h c) => (txt "P2SH", [h], c_id c)
  | OP2PK k c => (txt "P2PK", [pubkey_to_bytes toy k None], c_id c)
  | OMultiSig ks m => (txt "multisig", map (fun k => pubkey_to_bytes toy k None) ks, m)
  | OReturn => (txt "return", [], 0)
  | OUnknown => (txt "unknown", [], 0)
  end.
Definition see (r : result (output toy)) : result (pystr * list bytes * Z) := o <- r ;; Ok (seen o).
Definition twice (o : output toy) : result (pystr * list bytes * Z) := s <- to_script_bytes toy o ;; see (classify_output_script toy s BitcoinTestnet).
Example C42_ex :
  (k <- toy_key 5 true ;; twice (OP2PK k Bitcoin)) = Ok (txt "P2PK", [2 :: bytes32 5], 1) /\
  (k <- toy_key 5 true ;; j <- toy_key 6 false ;; twice (OMultiSig [k; j; k] 2)) = Ok (txt "multisig", [2 :: bytes32 5; 4 :: bytes32 6 ++ zrepeat 0 32; 2 :: bytes32 5], 2) /\
  twice (OAddress (P2PKH (zrange 0 20) Bitcoin)) = Ok (txt "P2PKH", [zrange 0 20], 1) /\ twice (OAddress (P2SH (zrange 0 20) Bitcoin)) = Ok (txt "P2SH", [zrange 0 20], 1) /\
  see (classify_output_script toy [2; 7; 7; 0; 106; 5; 1] Bitcoin) = Ok (txt "return", [], 0).
Proof. vm_compute. repeat split. Qed.

(** C43, exactly.  [denotes s l]: [s] is the whole operations [l]; [reduces l l']: removing operations without
    effect from [l] leaves [l']. *)
Theorem C43_P2PKH (C : curve) s c h c' : bytes_ok s = true -> (classify_output_script C s c = Ok (OAddress (P2PKH h c')) <->
  c' = c /\ zlen h = 20 /\ exists l, denotes s l /\ reduces l (std_P2PKH h)).
Proof. intros HB. apply (classify_spec C s c (OAddress (P2PKH h c')) HB). discriminate. Qed.
Theorem C43_P2SH (C : curve) s c h c' : bytes_ok s = true -> (classify_output_script C s c = Ok (OAddress (P2SH h c')) <->
  c' = c /\ zlen h = 20 /\ exists l, denotes s l /\ reduces l (std_P2SH h)).
Proof. intros HB. apply (classify_spec C s c (OAddress (P2SH h c')) HB). discriminate. Qed.
Theorem C43_P2PK (C : curve) s c (k : pubkey C) c' : bytes_ok s = true -> (classify_output_script C s c = Ok (OP2PK k c') <->
  c' = c /\ exists l b, denotes s l /\ reduces l (std_P2PK b) /\ reads_as b k).
Proof. intros HB. apply (classify_spec C s c (OP2PK k c') HB). discriminate. Qed.
Theorem C43_multisig (C : curve) s c (ks : list (pubkey C)) t : bytes_ok s = true -> (classify_output_script C s c = Ok (OMultiSig ks t) <->
  exists l m keys n, denotes s l /\ reduces l (std_multisig m keys n) /\
    number m t /\ number n (zlen keys) /\ Forall2 reads_as keys ks /\ 1 <= t <= zlen keys).
Proof. intros HB. apply (classify_spec C s c (OMultiSig ks t) HB). discriminate. Qed.
Theorem C43_op_return (C : curve) s c : bytes_ok s = true -> (classify_output_script C s c = Ok OReturn <->
  exists l ds r, (denotes s l \/ ends_early s l) /\ reduces l (map Data ds ++ Code 106 :: r)).
Proof. intros HB. apply (classify_spec C s c OReturn HB). discriminate. Qed.
Theorem C43_truncated (C : curve) s c l o : bytes_ok s = true -> ends_early s l -> classify_output_script C s c = Ok o -> o = OReturn \/ o = OUnknown.
Proof.
  intros HB HE HC. assert (HN : forall l', denotes s l' -> False) by (intros l' HD; exact (denotes_not_early _ _ _ HB HD HE)).
  destruct o as [[h c'|h c']|k c'|ks t| |]; [exfalso|exfalso|exfalso|exfalso|now left|now right].
  - apply (C43_P2PKH C s c h c' HB) in HC as (_ & _ & l' & HD & _). exact (HN _ HD).
  - apply (C43_P2SH C s c h c' HB) in HC as (_ & _ & l' & HD & _). exact (HN _ HD).
  - apply (C43_P2PK C s c k c' HB) in HC as (_ & l' & b & HD & _). exact (HN _ HD).
  - apply (C43_multisig C s c ks t HB) in HC as (l' & m & keys & n & HD & _). exact (HN _ HD).
Qed.
(** Classification never raises. *)
Theorem C43_total (C : curve) s c : bytes_ok s = true -> exists o, classify_output_script C s c = Ok o.
Proof. exact (classify_total C s c). Qed.
Print Assumptions C43_P2PKH.
Print Assumptions C43_P2SH.
Print Assumptions C43_P2PK.
Print Assumptions C43_multisig.
Print Assumptions C43_op_return.
Print Assumptions C43_truncated.
Print Assumptions C43_total.
(** 7 7 2DROP DUP NOP HASH160 <h> 9 DROP EQUALVERIFY CHECKSIG; h of 19 bytes; a 0-of-1 multisig; a truncated one *)
Definition p2pkh_padded (h : bytes) : bytes := [87; 87; 109; 118; 97; 169; zlen h] ++ h ++ [89; 117; 136; 172].
Example C43_ex : see (classify_output_script toy (p2pkh_padded (zrange 0 20)) Bitcoin) = Ok (txt "P2PKH", [zrange 0 20], 0) /\
  see (classify_output_script toy (p2pkh_padded (zrange 0 19)) Bitcoin) = Ok (txt "unknown", [], 0) /\
  see (classify_output_script toy ([0; 33; 2] ++ bytes32 5 ++ [81; 174]) Bitcoin) = Ok (txt "unknown", [], 0) /\
  see (classify_output_script toy ([1; 1; 33; 2] ++ bytes32 5 ++ [1; 1; 174]) Bitcoin) = Ok (txt "multisig", [2 :: bytes32 5], 1) /\
  see (classify_output_script toy ([33; 2] ++ bytes32 5 ++ [172; 5]) Bitcoin) = Ok (txt "unknown", [], 0).
Proof. vm_compute. repeat split. Qed.
Example C43_ex_reduces h : reduces [Data [7]; Data [7]; Code 109; Code 118; Code 97; Code 169; Data h; Data [9]; Code 117; Code 136; Code 172] (std_P2PKH h).
Proof.
  apply (red_remove [] [Data [7]; Data [7]; Code 109] [Code 118; Code 97; Code 169; Data h; Data [9]; Code 117; Code 136; Code 172]); [constructor|].
  apply (red_remove [Code 118] [Code 97] [Code 169; Data h; Data [9]; Code 117; Code 136; Code 172]); [constructor|].
  apply (red_remove [Code 118; Code 169; Data h] [Data [9]; Code 117] [Code 136; Code 172]); [constructor|]. constructor.
Qed.

(** C44.  False: the script of a P2SH address cannot be converted when classification is asked for, because
    P2SH_Address has no attribute KIND. *)
Theorem C44_refuted : exists (s : bytes) flags, bytes_ok s = true /\
  forall C H H160 der_ok c, script_to_json C H H160 der_ok s flags false c = Err AttributeError.
Proof.
  exists ([169; 20] ++ zrange 0 20 ++ [135]), 16. split; [reflexivity|]. intros C H H160 der_ok c. unfold script_to_json.
  replace (to_asm der_ok ([169; 20] ++ zrange 0 20 ++ [135]) false) with (Ok (txt "OP_HASH160 000102030405060708090a0b0c0d0e0f10111213 OP_EQUAL")) by (vm_compute; reflexivity).
  cbn [bind negb andb]. change (Z.land 16 16 =? 0) with false. cbn [negb andb].
  replace (classify_output_script C ([169; 20] ++ zrange 0 20 ++ [135]) c) with (Ok (@OAddress C (P2SH (zrange 0 20) c))); [reflexivity|]. symmetry. apply C43_P2SH; [reflexivity|].
  split; [reflexivity|]. split; [reflexivity|]. exists (std_P2SH (zrange 0 20)). split; [|constructor]. exists [[169]; 20 :: zrange 0 20; [135]]. split; [reflexivity|].
  repeat constructor; try lia; vm_compute; discriminate.
Qed.
(** That is the only way for the conversion of an output script to fail. *)
Theorem C44_exactly (C : curve) (H H160 : bytes -> bytes) (der_ok : bytes -> bool) s flags c : In c all_coins -> (forall x, zlen (H160 x) = 20) -> bytes_ok s = true ->
  (Z.land flags 16 <> 0 /\ (exists l h, zlen h = 20 /\ denotes s l /\ reduces l (std_P2SH h)) /\ script_to_json C H H160 der_ok s flags false c = Err AttributeError) \/
  (~ (Z.land flags 16 <> 0 /\ exists l h, zlen h = 20 /\ denotes s l /\ reduces l (std_P2SH h)) /\ exists j, script_to_json C H H160 der_ok s flags false c = Ok j).
Proof.
  intros HI HH HB. pose proof (coins_fine c HI) as HC. destruct (asm_roundtrip der_ok s HB) as (asm & HA & _). unfold script_to_json. rewrite HA. cbn [bind]. destruct (Z.eqb_spec (Z.land flags 16) 0) as [HF|HF].
  { right. split; [intros [HX _]; contradiction|]. cbn. eexists. reflexivity. }
  cbn [negb andb]. destruct (classify_total C s c HB) as (o & HO). rewrite HO. cbn [bind].
  assert (HS : forall h c', o = OAddress (P2SH h c') <-> c' = c /\ zlen h = 20 /\ exists l, denotes s l /\ reduces l (std_P2SH h)).
  { intros h c'. rewrite <- (C43_P2SH C s c h c' HB), HO. split; [now intros ->|congruence]. }
  assert (HT : forall a, (exists t, a = P2PKH t c) -> exists t, address_to_string H a = Ok t).
  { intros a (t & ->). cbn. destruct HC as (H1 & _). rewrite pack_byte_ok by exact H1. cbn. eexists. reflexivity. }
  assert (HP : forall h c', o = OAddress (P2PKH h c') -> c' = c) by (intros h c' ->; now apply C43_P2PKH in HO).
  assert (HK : forall k c', o = OP2PK k c' -> c' = c) by (intros k c' ->; now apply C43_P2PK in HO).
  assert (HD : (exists h c', o = OAddress (P2SH h c')) \/ (forall h c', o <> OAddress (P2SH h c'))) by (destruct o as [[]| | | |]; [right; discriminate|left; eauto|right; discriminate..]).
  destruct HD as [(h & c' & ->)|HD].
  - left. destruct (proj1 (HS h c') eq_refl) as (_ & HL & l & HDn & HR). split; [exact HF|]. split; [exists l, h; auto|reflexivity].
  - right. split.
    { intros (_ & l & h & HL & HDn & HR). apply (HD h c). apply HS. eauto. }
    destruct o as [[h c'|h c']|k c'|ks t| |]; cbn [output_kind bind].
    + rewrite (HP h c' eq_refl). destruct (HT (P2PKH h c) ltac:(eauto)) as (t & ->). eexists. reflexivity.
    + exfalso. now apply (HD h c').
    + rewrite (HK k c' eq_refl). unfold pubkey_to_address, make_P2PKH, validate_hash160, pubkey_hash160. rewrite HH. cbn [Z.eqb Pos.eqb bind]. destruct (HT (P2PKH (H160 (pubkey_to_bytes C k None)) c) ltac:(eauto)) as (t & ->). eexists. reflexivity.
    + eexists. reflexivity.
    + eexists. reflexivity.
    + eexists. reflexivity.
Qed.
Print Assumptions C44_refuted.
Print Assumptions C44_exactly.
Example C44_ex : script_to_json toy toy_hash toy_hash160 (fun _ => true) [106; 1; 7] 16 false Bitcoin = Ok [(txt "asm", txt "OP_RETURN 7"); (txt "hex", txt "6a0107"); (txt "type", txt "op_return")] /\
  script_to_json toy toy_hash toy_hash160 (fun _ => true) ([33; 2] ++ bytes32 5 ++ [172]) 16 false Bitcoin =
    Ok [(txt "asm", txt "020000000000000000000000000000000000000000000000000000000000000005 OP_CHECKSIG"); (txt "hex", txt "21020000000000000000000000000000000000000000000000000000000000000005ac");
        (txt "type", txt "pubkey"); (txt "pubkey", txt "020000000000000000000000000000000000000000000000000000000000000005");
        (txt "address", base58_encode_check toy_hash (0 :: toy_hash160 (2 :: bytes32 5)))].
Proof. vm_compute. repeat split. Qed.

(** C47 *)
Theorem C47_roundtrip (H : bytes -> bytes) : (forall x, bytes_ok (H x) = true) -> (forall x, zlen (H x) = 32) ->
  forall c a, In c all_coins -> address_of c a -> exists t, address_to_string H a = Ok t /\ zlen t <= 35 /\ address_from_string H t c = Ok a.
Proof.
  intros HO HL c a HI HA. pose proof (coins_fine c HI) as HC. exists (base58_encode_check H (verbyte a :: address_hash160 a)). pose proof (to_string_eq H c a HC HA) as HT. split; [exact HT|]. split; [exact (to_string_short H HO HL c a _ HC HA HT)|].
  apply (from_string_spec H HO HL _ c a HC). auto.
Qed.
Theorem C47_unambiguous (H : bytes -> bytes) : (forall x, bytes_ok (H x) = true) -> (forall x, zlen (H x) = 32) ->
  forall c t a, In c all_coins -> zlen t <= 35 -> address_from_string H t c = Ok a -> address_of c a /\ address_to_string H a = Ok t.
Proof.
  intros HO HL c t a HI Ht HF. pose proof (coins_fine c HI) as HC. apply (from_string_spec H HO HL t c a HC) in HF as [HA [HT|(body & HB & HFo)]]; [auto|].
  pose proof HA as (_ & _ & H20). apply cash_body_length in HB; [|exact H20]. apply cash_forms_length in HFo. lia.
Qed.
(** Exactly which texts are read: the base58 text, and the cashaddr text in lower or upper case with or without its prefix. *)
Theorem C47_exactly (H : bytes -> bytes) : (forall x, bytes_ok (H x) = true) -> (forall x, zlen (H x) = 32) ->
  forall c t a, In c all_coins -> (address_from_string H t c = Ok a <-> address_of c a /\
    (address_to_string H a = Ok t \/ exists body, cash_body (c_cashaddr_prefix c) (kind_of a) (address_hash160 a) body /\ cash_forms (c_cashaddr_prefix c) body t)).
Proof. intros HO HL c t a HI. exact (from_string_spec H HO HL t c a (coins_fine c HI)). Qed.
(** Two base58 texts of a coin's addresses are different if the addresses are. *)
Theorem C47_injective (H : bytes -> bytes) : (forall x, bytes_ok (H x) = true) -> (forall x, zlen (H x) = 32) ->
  forall c a b t, In c all_coins -> address_of c a -> address_of c b -> address_to_string H a = Ok t -> address_to_string H b = Ok t -> a = b.
Proof.
  intros HO HL c a b t HI HA HB HTa HTb. assert (HE : address_from_string H t c = Ok a) by (apply (C47_exactly H HO HL c t a HI); auto). assert (HE' : address_from_string H t c = Ok b) by (apply (C47_exactly H HO HL c t b HI); auto). congruence.
Qed.
(** Texts that are not read raise ValueError or Base58Error (a subclass); the assertion about the prefix never fails. *)
Theorem C47_errors (H : bytes -> bytes) c t e : In c all_coins -> address_from_string H t c = Err e -> e = ValueError \/ e = Base58Error.
Proof. intros HI. exact (from_string_err H t c e (coins_fine c HI)). Qed.
Print Assumptions C47_roundtrip.
Print Assumptions C47_unambiguous.
Print Assumptions C47_exactly.
Print Assumptions C47_injective.
Print Assumptions C47_errors.
Example C47_ex : (t <- address_to_string toy_hash (P2SH sample_hash BitcoinTestnet) ;; Ok (zlen t)) = Ok 35 /\
  (t <- address_to_string toy_hash (P2SH sample_hash BitcoinTestnet) ;; address_from_string toy_hash t BitcoinTestnet) = Ok (P2SH sample_hash BitcoinTestnet) /\
  (t <- address_to_string toy_hash (P2SH sample_hash BitcoinTestnet) ;; address_from_string toy_hash t Bitcoin) = Err ValueError /\
  address_from_string toy_hash (txt "pryvnjktenxuan7s68fd84x46mta3kw6mvl5sck89y") Bitcoin = Ok (P2SH sample_hash Bitcoin) /\
  address_from_string toy_hash (txt "BITCOINCASH:PRYVNJKTENXUAN7S68FD84X46MTA3KW6MVL5SCK89Y") Bitcoin = Ok (P2SH sample_hash Bitcoin) /\
  address_from_string toy_hash (txt "BITCOINCASH:pryvnjktenxuan7s68fd84x46mta3kw6mvl5sck89y") Bitcoin = Err Base58Error.
Proof. vm_compute. repeat split. Qed.
