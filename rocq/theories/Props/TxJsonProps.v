(** C84-C86, C87: the JSON objects of transactions. *)
From Verif.Model Require Import Py Text Packing Misc Curve Coin Base58 Script Keys Bip32 Address Tx TxJson.
From Verif.Spec Require Import Numbers TxSpec ScriptSpec CurveSpec AddressSpec CalendarSpec TxJsonSpec.
From Verif.Proofs Require Import PyFacts NumbersFacts TextFacts ScriptFacts ScriptTheorems TxFacts Bip32Facts CashaddrFacts CurveFacts AddressFacts AddressText CalendarFacts TxJsonFacts.
From Verif.Props Require Import Base58Props KeysProps Bip32Props AddressProps.

(** ** C84: the object of a transaction says what the transaction is *)
Theorem C84_says (C : curve) (H H160 : bytes -> bytes) (der_ok : bytes -> bool) t flags c j : (forall x, zlen (H x) = 32) -> tx_wf t -> tx_to_json C H H160 der_ok t flags c = Ok j ->
  exists b meaning, tx_to_bytes t = Ok b /\ locktime_description (locktime t) = Ok meaning /\ says_tx flags t b (H b) meaning j.
Proof. intros HL. exact (tx_json_says C H H160 der_ok HL t flags c j). Qed.
(** Nothing is lost, whatever the flags and coins *)
Theorem C84_lossless (C : curve) (H H160 : bytes -> bytes) (der_ok : bytes -> bool) t t' flags flags' c c' j : tx_wf t -> tx_wf t' ->
  tx_to_json C H H160 der_ok t flags c = Ok j -> tx_to_json C H H160 der_ok t' flags' c' = Ok j -> t = t'.
Proof. exact (tx_json_inj C H H160 der_ok t t' flags flags' c c' j). Qed.
(** Text in a coinbase script can be read *)
Theorem C84_coinbase_text (C : curve) (H H160 : bytes -> bytes) (der_ok : bytes -> bool) i s b flags n j : makes_coins i -> utf8_encode s = Ok b -> script_sig i = b ->
  input_to_json C H H160 der_ok i flags n = Ok j -> field j "text" = Some (JStr s).
Proof.
  intros HC HU HB HJ. apply coinbase_iff in HC. unfold input_to_json in HJ. rewrite HC, HB, (utf8_replace_encode s b HU) in HJ. cbn [bind] in HJ. apply Ok_inj in HJ. subst j. reflexivity.
Qed.
(** An input does not depend on the flags that are about outputs. *)
Theorem C84_input_flags (C : curve) (H H160 : bytes -> bytes) (der_ok : bytes -> bool) i flags flags' n : bit flags 0 = bit flags' 0 ->
  input_to_json C H H160 der_ok i flags n = input_to_json C H H160 der_ok i flags' n.
Proof. intros HF. unfold input_to_json, script_to_json. change ENUMERATE_INPUTS with (2 ^ 0). rewrite !land_bit by lia. now rewrite HF. Qed.
Print Assumptions C84_says.
Print Assumptions C84_lossless.
Print Assumptions C84_coinbase_text.
Print Assumptions C84_input_flags.

(** ** C85: the object of a script, and exactly when there is none *)
Definition pays_hash (s : bytes) : Prop := exists l h, zlen h = 20 /\ denotes s l /\ reduces l (std_P2SH h).
Theorem C85_exactly (C : curve) (H H160 : bytes -> bytes) (der_ok : bytes -> bool) t flags c : In c all_coins -> (forall x, zlen (H160 x) = 20) -> tx_wf t ->
  (bit flags 4 = true /\ Exists (fun o => pays_hash (script_pubkey o)) (outputs t) -> tx_to_json C H H160 der_ok t flags c = Err AttributeError) /\
  (~ (bit flags 4 = true /\ Exists (fun o => pays_hash (script_pubkey o)) (outputs t)) -> exists j, tx_to_json C H H160 der_ok t flags c = Ok j).
Proof.
  intros HC HH HW. pose proof HW as (_ & (HI & _) & (HO & _) & HLk). destruct (tx_roundtrip t HW) as (b & Hb & _).
  assert (HSz : tx_size t = Ok (zlen b)). { apply tx_size_ok; [|exact Hb]. eapply Forall_impl; [|exact HI]. intros i (_ & HL & _). exact HL. }
  assert (HM : exists m, locktime_description (locktime t) = Ok m) by (destruct (locktime_description_ok _ HLk) as [[_ ->]|[[_ (s & -> & _)]|[_ (s & -> & _)]]]; eexists; reflexivity). destruct HM as (meaning & HM).
  assert (HB : bit flags 4 = true <-> Z.land flags 16 <> 0). { unfold bit. change 16 with (2 ^ 4). pose proof (land_pow flags 4 ltac:(lia)) as HP. destruct (Z.testbit flags 4), (Z.eqb_spec (Z.land flags (2 ^ 4)) 0); try discriminate HP; intuition congruence. }
  assert (HV : exists vin, mapM (fun '(n, i) => input_to_json C H H160 der_ok i flags (Some n)) (enumerate_from 0 (inputs t)) = Ok vin).
  { apply enumerate_total. intros n i Hi. rewrite Forall_forall in HI. destruct (input_json_ok C H H160 der_ok i flags n (HI i Hi)) as (j & Hj & _). exists j. exact Hj. }
  destruct HV as (vin & HV). unfold tx_to_json. rewrite HV. cbn [bind]. clear HV HI.
  assert (HOne : forall o n, In o (outputs t) -> (bit flags 4 = true /\ pays_hash (script_pubkey o) /\ output_to_json C H H160 der_ok o flags c (Some n) = Err AttributeError) \/
    (~ (bit flags 4 = true /\ pays_hash (script_pubkey o)) /\ exists j, output_to_json C H H160 der_ok o flags c (Some n) = Ok j)).
  { intros o n Ho. rewrite Forall_forall in HO. destruct (HO o Ho) as [_ [Hs _]]. unfold output_to_json. rewrite HB. destruct (C44_exactly C H H160 der_ok (script_pubkey o) flags c HC HH Hs) as [(A & B & ->)|(A & j & ->)].
    - left. split; [exact A|]. split; [exact B|reflexivity].
    - right. split; [exact A|]. cbn [bind]. eexists. reflexivity. }
  clear HO HW. split.
  - intros [HF HX].
    assert (HE : forall l n, (forall o, In o l -> In o (outputs t)) -> Exists (fun o => pays_hash (script_pubkey o)) l -> mapM (fun '(n, o) => output_to_json C H H160 der_ok o flags c (Some n)) (enumerate_from n l) = Err AttributeError).
    { induction l as [|o l IH]; intros n HS HL; [inversion HL|]. cbn [enumerate_from mapM]. destruct (HOne o n (HS o (or_introl eq_refl))) as [(_ & _ & ->)|(A & j & ->)]; [reflexivity|]. cbn [bind].
      inversion HL; subst; [exfalso; apply A; split; assumption|]. rewrite IH; [reflexivity|intros x Hx; apply HS; now right|assumption]. }
    rewrite HE; [reflexivity|auto|exact HX].
  - intros HN. destruct (enumerate_total (fun '(n, o) => output_to_json C H H160 der_ok o flags c (Some n)) (outputs t)) with (n := 0) as (vout & ->).
    + intros n o Ho. destruct (HOne o n Ho) as [(A & B & _)|(_ & j & Hj)]; [|exists j; exact Hj]. exfalso. apply HN. split; [exact A|]. rewrite Exists_exists. eauto.
    + cbn [bind]. unfold hex_hash, tx_hash. rewrite Hb. cbn [bind]. rewrite HSz, HM. cbn [bind]. destruct (flag_set flags JSON_SIZE), (flag_set flags LOCKTIME_MEANING); cbn [bind]; eexists; reflexivity.
Qed.
(** What is said of a script that is not an output's or that is not to be classified *)
Theorem C85_plain (C : curve) (H H160 : bytes -> bytes) (der_ok : bytes -> bool) s flags sig c : bytes_ok s = true -> sig = true \/ bit flags 4 = false ->
  exists asm, to_asm der_ok s sig = Ok asm /\ script_to_json C H H160 der_ok s flags sig c = Ok [(txt "asm", asm); (txt "hex", to_hex s)].
Proof.
  intros HB HF. destruct (asm_total der_ok s sig HB) as (asm & HA). exists asm. split; [exact HA|]. unfold script_to_json. rewrite HA. cbn [bind]. change 16 with (2 ^ 4). fold (flag_set flags (2 ^ 4)). rewrite land_bit by lia. destruct HF as [->| ->]; [reflexivity|]. now rewrite andb_false_r.
Qed.
(** ... and of those that are *)
Definition basis (der_ok : bytes -> bool) (s : bytes) (kind : string) (l : list (pystr * pystr)) (r : result (list (pystr * pystr))) : Prop :=
  exists asm, to_asm der_ok s false = Ok asm /\ r = Ok ([(txt "asm", asm); (txt "hex", to_hex s); (txt "type", txt kind)] ++ l).
Section Kinds.
  Variable C : curve.
  Variable H H160 : bytes -> bytes.
  Variable der_ok : bytes -> bool.
  Hypothesis H160_len : forall x, zlen (H160 x) = 20.
  Notation sjson s flags c := (script_to_json C H H160 der_ok s flags false c).
  Lemma kind_step s flags c o : bytes_ok s = true -> bit flags 4 = true -> classify_output_script C s c = Ok o -> exists asm, to_asm der_ok s false = Ok asm /\
    sjson s flags c = (kind <- output_kind C o ;; let base := [(txt "asm", asm); (txt "hex", to_hex s); (txt "type", kind)] in
      match o with
      | OAddress (P2PKH h c') => a <- address_to_string H (P2PKH h c') ;; Ok (base ++ [(txt "address", a)])
      | OP2PK k c' => ad <- pubkey_to_address C H160 k None c' ;; a <- address_to_string H ad ;; Ok (base ++ [(txt "pubkey", pubkey_to_hex C k None); (txt "address", a)])
      | _ => Ok base
      end).
  Proof using.
    clear. intros HB HF HO. destruct (asm_total der_ok s false HB) as (asm & HA). exists asm. split; [exact HA|]. unfold script_to_json. rewrite HA. cbn [bind]. change 16 with (2 ^ 4). fold (flag_set flags (2 ^ 4)). rewrite land_bit, HF by lia. cbn [negb andb]. rewrite HO. reflexivity.
  Qed.
  Theorem C85_pubkeyhash s flags c l h : In c all_coins -> bytes_ok s = true -> bit flags 4 = true -> zlen h = 20 -> denotes s l -> reduces l (std_P2PKH h) ->
    basis der_ok s "pubkeyhash" [(txt "address", base58_encode_check H (c_P2PKH_verbyte c :: h))] (sjson s flags c).
  Proof using.
    intros HI HB HF HL HD HR. assert (HO : classify_output_script C s c = Ok (OAddress (P2PKH h c))) by (apply C43_P2PKH; eauto 6).
    destruct (kind_step s flags c _ HB HF HO) as (asm & HA & HJ). exists asm. split; [exact HA|]. rewrite HJ. cbn [output_kind bind]. unfold address_to_string. rewrite pack_byte_ok by (exact (proj1 (coins_fine c HI))). reflexivity.
  Qed.
  Theorem C85_pubkey s flags c l b (k : pubkey C) : In c all_coins -> bytes_ok s = true -> bit flags 4 = true -> denotes s l -> reduces l (std_P2PK b) -> reads_as b k ->
    basis der_ok s "pubkey" [(txt "pubkey", to_hex (pubkey_to_bytes C k None)); (txt "address", base58_encode_check H (c_P2PKH_verbyte c :: H160 (pubkey_to_bytes C k None)))] (sjson s flags c).
  Proof using H160_len.
    intros HI HB HF HD HR HK. assert (HO : classify_output_script C s c = Ok (OP2PK k c)) by (apply C43_P2PK; eauto 6).
    destruct (kind_step s flags c _ HB HF HO) as (asm & HA & HJ). exists asm. split; [exact HA|]. rewrite HJ. cbn [output_kind bind]. unfold pubkey_to_address, make_P2PKH, validate_hash160, pubkey_hash160. rewrite H160_len. change (20 =? 20) with true. cbn [bind].
    unfold address_to_string. rewrite pack_byte_ok by (exact (proj1 (coins_fine c HI))). reflexivity.
  Qed.
  Theorem C85_multisig s flags c l m keys n t (ks : list (pubkey C)) : bytes_ok s = true -> bit flags 4 = true -> denotes s l -> reduces l (std_multisig m keys n) ->
    number m t -> number n (zlen keys) -> Forall2 reads_as keys ks -> 1 <= t <= zlen keys -> basis der_ok s "multisig" [] (sjson s flags c).
  Proof using.
    intros HB HF HD HR Hm Hn HK HT. assert (HO : classify_output_script C s c = Ok (OMultiSig ks t)) by (apply C43_multisig; [exact HB|]; exists l, m, keys, n; auto 10).
    destruct (kind_step s flags c _ HB HF HO) as (asm & HA & HJ). exists asm. split; [exact HA|]. rewrite HJ. reflexivity.
  Qed.
  Theorem C85_op_return s flags c l ds r : bytes_ok s = true -> bit flags 4 = true -> denotes s l \/ ends_early s l -> reduces l (map Data ds ++ Code 106 :: r) -> basis der_ok s "op_return" [] (sjson s flags c).
  Proof using.
    intros HB HF HD HR. assert (HO : classify_output_script C s c = Ok OReturn) by (apply C43_op_return; [exact HB|]; exists l, ds, r; auto).
    destruct (kind_step s flags c _ HB HF HO) as (asm & HA & HJ). exists asm. split; [exact HA|]. rewrite HJ. reflexivity.
  Qed.
End Kinds.
Print Assumptions C85_exactly.
Print Assumptions C85_plain.
Print Assumptions C85_pubkeyhash.
Print Assumptions C85_pubkey.
Print Assumptions C85_multisig.
Print Assumptions C85_op_return.

(** ** C86: what lock times mean *)
Theorem C86_meaning n : 0 <= n < 2 ^ 32 ->
  (n = 0 /\ locktime_description n = Ok (txt "valid in any block")) \/
  (0 < n < 500000000 /\ exists s, locktime_description n = Ok (txt "valid in blocks with height greater than " ++ s) /\ writes_grouped s n) \/
  (500000000 <= n /\ exists s, locktime_description n = Ok (txt "valid in blocks with MTP greater than " ++ s ++ txt " UTC") /\ writes_time s n).
Proof. exact (locktime_description_ok n). Qed.
Theorem C86_distinct n n' s : 0 <= n < 2 ^ 32 -> 0 <= n' < 2 ^ 32 -> locktime_description n = Ok s -> locktime_description n' = Ok s -> n = n'.
Proof. intros Hn Hm H1 H2. apply (locktime_description_inj n n' Hn Hm). now rewrite H1, H2. Qed.
Print Assumptions C86_meaning.
Print Assumptions C86_distinct.
Example C86_ex : locktime_description 1234567 = Ok (txt "valid in blocks with height greater than 1,234,567") /\
  locktime_description 1582934400 = Ok (txt "valid in blocks with MTP greater than 2020-02-29 00:00:00 UTC") /\
  locktime_description (2 ^ 32 - 1) = Ok (txt "valid in blocks with MTP greater than 2106-02-07 06:28:15 UTC") /\ locktime_description 499999999 = Ok (txt "valid in blocks with height greater than 499,999,999").
Proof. do 3 (split; [vm_compute; reflexivity|]). vm_compute; reflexivity. Qed.

(** ** C87: whether an input's hash is the hash that the spent transaction shows *)
Theorem C87_exactly (C : curve) (H H160 : bytes -> bytes) (der_ok : bytes -> bool) t flags c j b i n flags' j' : (forall x, zlen (H x) = 32) -> (forall x, bytes_ok (H x) = true) -> tx_wf t -> input_wf i -> tx_to_bytes t = Ok b ->
  tx_to_json C H H160 der_ok t flags c = Ok j -> input_to_json C H H160 der_ok i flags' (Some n) = Ok j' -> prev_hash i = H b -> ~ makes_coins i ->
  (field j' "hash" = field j "hash" <-> rev (H b) = H b).
Proof.
  intros HL HO HW HI Hb HJ HJ' HP HN. destruct (tx_json_says C H H160 der_ok HL t flags c j HW HJ) as (b' & m & Hb' & _ & HS). rewrite Hb in Hb'. apply Ok_inj in Hb'. subst b'.
  destruct (input_json_ok C H H160 der_ok i flags' n HI) as (j'' & HJ'' & _ & _ & _ & HF). rewrite HJ' in HJ''. apply Ok_inj in HJ''. subst j''. destruct (HF HN) as (-> & _). destruct HS as (_ & _ & _ & _ & -> & _). rewrite HP. split.
  - intros E. injection E as E. apply to_hex_inj in E; [now symmetry|apply HO|]. unfold bytes_ok in *. rewrite forallb_forall in *. intros x Hx. apply in_rev in Hx. specialize (HO b). rewrite forallb_forall in HO. auto.
  - intros ->. reflexivity.
Qed.
Definition first32 (x : bytes) : bytes := firstn 32 (x ++ repeat 0 32).
Definition spent : tx := mk_tx 1 [mk_input (repeat 7 32) 0 [1; 5] 5] [mk_output 9 [81]] 0.
Definition spender : tx := mk_tx 1 [mk_input (first32 (match tx_to_bytes spent with Ok b => b | Err _ => [] end)) 0 [1; 2; 0] 5] [mk_output 8 [106; 1; 7]; mk_output 1 (p2pkh_padded (zrange 0 20))] 500000000.
Definition toy_json (t : tx) (flags : Z) : result json := tx_to_json toy first32 toy_hash160 (fun _ => true) t flags Bitcoin.
Definition hash_shown (t : tx) : option json := match toy_json t 0 with Ok j => field j "hash" | Err _ => None end.
Definition hash_spent (t : tx) : option json :=
  match toy_json t 0 with Ok j => match field j "vin" with Some (JList (i :: _)) => field i "hash" | _ => None end | Err _ => None end.
Lemma spent_wf : tx_wf spent.
Proof.
  split; [cbn; lia|]. split; [split; [|reflexivity]|split; [split; [|reflexivity]|cbn; lia]].
  - constructor; [|constructor]. split; [reflexivity|]. split; [reflexivity|]. split; [cbn; lia|]. split; [split; [reflexivity|reflexivity]|cbn; lia].
  - constructor; [|constructor]. split; [cbn; lia|]. split; reflexivity.
Qed.
Lemma spender_wf : tx_wf spender.
Proof.
  split; [cbn; lia|]. split; [split; [|reflexivity]|split; [split; [|reflexivity]|cbn; lia]].
  - constructor; [|constructor]. split; [reflexivity|]. split; [reflexivity|]. split; [cbn; lia|]. split; [split; [reflexivity|reflexivity]|cbn; lia].
  - constructor; [|constructor; [|constructor]]; (split; [cbn; lia|]; split; reflexivity).
Qed.
Theorem C87_refuted : exists t t' h, tx_wf t /\ tx_wf t' /\ tx_hash first32 t = Ok h /\ map prev_hash (inputs t') = [h] /\ exists a b, hash_shown t = Some (JStr a) /\ hash_spent t' = Some (JStr b) /\ a <> b.
Proof.
  exists spent, spender, (first32 (match tx_to_bytes spent with Ok b => b | Err _ => [] end)). split; [exact spent_wf|]. split; [exact spender_wf|]. split; [vm_compute; reflexivity|]. split; [reflexivity|].
  exists (to_hex (rev (first32 (match tx_to_bytes spent with Ok b => b | Err _ => [] end)))), (to_hex (first32 (match tx_to_bytes spent with Ok b => b | Err _ => [] end))).
  split; [vm_compute; reflexivity|]. split; [vm_compute; reflexivity|]. intros HE. vm_compute in HE. discriminate HE.
Qed.
Example C84_ex : (j <- toy_json spender 31 ;; Ok (field j "size", field j "locktimeMeaning", field j "nOutputs")) =
    Ok (Some (JInt 106), Some (JStr (txt "valid in blocks with MTP greater than 1985-11-05 00:53:20 UTC")), Some (JInt 2)).
Proof. vm_compute. reflexivity. Qed.
Definition to_hash : tx := mk_tx 1 (inputs spent) [mk_output 9 [81]; mk_output 9 ([169; 20] ++ zrange 0 20 ++ [135])] 0.
Definition made : tx_input := mk_input (repeat 0 32) (2 ^ 32 - 1) ([72; 195; 169; 105]) 0.
Example C85_ex : (j <- toy_json to_hash 16 ;; Ok (field j "nOutputs")) = Err AttributeError /\ (j <- toy_json to_hash 15 ;; Ok (field j "nOutputs")) = Ok (Some (JInt 2)) /\
  (j <- input_to_json toy first32 toy_hash160 (fun _ => true) made 1 (Some 0) ;; Ok (field j "text", field j "nInput")) = Ok (Some (JStr [72; 233; 105]), Some (JInt 0)).
Proof. do 2 (split; [vm_compute; reflexivity|]). vm_compute; reflexivity. Qed.
Print Assumptions C87_exactly.
Print Assumptions C87_refuted.
