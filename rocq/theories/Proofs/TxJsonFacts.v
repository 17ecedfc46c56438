(** JSON objects of transactions. *)
From Verif.Model Require Import Py Text Packing Misc Curve Coin Base58 Signature Script Keys Bip32 Address Tx TxJson.
From Verif.Spec Require Import Numbers TxSpec ScriptSpec CurveSpec AddressSpec CalendarSpec TxJsonSpec.
From Verif.Proofs Require Import PyFacts NumbersFacts TextFacts ScriptFacts ScriptTheorems AsmFacts CashaddrFacts TxFacts CalendarFacts.

(** ** Descriptions of lock times *)
Lemma padded_two n : 0 <= n < 100 -> padded 2 n = two_digits n.
Proof.
  intros Hn. assert (HF : forallb (fun n => bytes_eqb (padded 2 n) (two_digits n)) (zrange 0 100) = true) by (vm_compute; reflexivity).
  apply bytes_eqb_eq. exact (zrange_all _ _ _ HF n Hn).
Qed.
Lemma padded_four n : 0 <= n < 10000 -> padded 4 n = four_digits n.
Proof.
  intros Hn. assert (HF : forallb (fun n => bytes_eqb (padded 4 n) (four_digits n)) (zrange 0 10000) = true) by (vm_compute; reflexivity).
  apply bytes_eqb_eq. exact (zrange_all _ _ _ HF n Hn).
Qed.
Lemma date_year n y m d : date_of n = (y, m, d) -> 1970 <= y /\ 1 <= m <= 12 /\ 1 <= d <= 31 /\ 365 * (y - 1970) <= Z.of_nat n + 10.
Proof.
  intros HE. destruct (date_of_ok n) as [HV HN]. rewrite HE in *. destruct HV as (HY & HM & HD).
  assert (Hd : month_length y m <= 31). { unfold month_length. destruct (m =? 2); [destruct (leap y); lia|]. destruct ((m =? 4) || (m =? 6) || (m =? 9) || (m =? 11)); lia. }
  unfold day_no in HN. rewrite month_length_mlen in HD. destruct (in_year_inv (leap y) m d HM HD) as [_ HR]. rewrite month_length_mlen in Hd.
  assert (HY2 : 1970 <= y). { destruct (Z_lt_dec y 1970) as [HL|]; [|lia]. exfalso. apply before_year_mono in HL. change (before_year 1970) with 719162 in HL. lia. }
  unfold before_year in HN. lia.
Qed.
Lemma utc_isoformat_ok t : 0 <= t < 2 ^ 32 -> exists s, utc_isoformat t = Ok s /\ writes_time s t.
Proof.
  intros Ht. change (2 ^ 32) with 4294967296 in Ht. unfold utc_isoformat. pose (days := Z.to_nat (t / 86400)). assert (HD : t / 86400 = Z.of_nat days) by (unfold days; lia). rewrite HD, ord2ymd_date.
  destruct (date_of days) as [[y m] d] eqn:E. destruct (date_year _ _ _ _ E) as (Hy & Hm & Hd & Hn). destruct (Z.ltb_spec 9999 y); [lia|]. eexists. split; [reflexivity|].
  exists days, y, m, d, (t mod 86400 / 3600), (t mod 86400 / 60 mod 60), (t mod 86400 mod 60). split; [lia|]. split; [lia|]. split; [lia|]. split; [lia|]. split; [exact E|].
  rewrite padded_four, !padded_two by lia. reflexivity.
Qed.
Lemma two_digits_inj a b : 0 <= a -> 0 <= b -> two_digits a = two_digits b -> a = b.
Proof. unfold two_digits. intros Ha Hb HE. injection HE as H1 H2. lia. Qed.
Lemma writes_time_inj s t t' : writes_time s t -> writes_time s t' -> t = t'.
Proof.
  intros (n & y & m & d & h & mi & sec & -> & Hh & Hm & Hs & HD & ->) (n' & y' & m' & d' & h' & mi' & sec' & -> & Hh' & Hm' & Hs' & HD' & HE).
  destruct (date_year _ _ _ _ HD) as (Y1 & M1 & D1 & _). destruct (date_year _ _ _ _ HD') as (Y2 & M2 & D2 & _).
  unfold four_digits, two_digits in HE. cbn [app] in HE. injection HE as E1 E2 E3 E4 E5 E6 E7 E8 E9 E10 E11 E12 E13 E14.
  assert (y = y') by lia. assert (m = m') by lia. assert (d = d') by lia. subst y' m' d'. rewrite <- HD' in HD. apply date_of_inj in HD. subst n'. lia.
Qed.
Lemma with_commas_groups ds : ds <> [] -> exists g gs, with_commas ds = join (txt ",") (g :: gs) /\ 1 <= zlen g <= 3 /\ Forall (fun x => zlen x = 3) gs /\ concat (g :: gs) = ds /\ zlen ds = zlen g + 3 * zlen gs.
Proof.
  induction ds as [|c r IH]; [congruence|]. intros _. destruct r as [|c' r'].
  - exists [c], []. repeat split; try constructor; try discriminate.
  - destruct IH as (g & gs & HE & HG & HF & HC & HZ); [discriminate|]. remember (c' :: r') as r eqn:Hr. cbn [with_commas]. replace (match r with [] => false | _ => zlen r mod 3 =? 0 end) with (zlen r mod 3 =? 0) by now rewrite Hr.
    rewrite HE. destruct (Z.eqb_spec (zlen r mod 3) 0) as [H3|H3].
    + exists [c], (g :: gs). assert (zlen g = 3) by lia. split; [reflexivity|]. split; [change (zlen [c]) with 1; lia|]. split; [now constructor|]. split; [cbn [concat app]; f_equal; exact HC|]. rewrite !zlen_cons. change (zlen (@nil Z)) with 0. lia.
    + exists (c :: g), gs. split; [destruct gs; reflexivity|]. rewrite !zlen_cons. split; [lia|]. split; [exact HF|]. split; [cbn [concat app]; f_equal; exact HC|]. lia.
Qed.
Lemma thousands_ok n : 0 < n -> writes_grouped (thousands n) n.
Proof.
  intros Hn. unfold thousands. destruct (Z.ltb_spec n 0); [lia|]. destruct (str_of_nonneg_ok n ltac:(lia)) as (H1 & H2 & H3 & H4). destruct (with_commas_groups _ H1) as (g & gs & HE & HG & HF & HC & _).
  exists g, gs. split; [exact HE|]. split; [exact HG|]. split; [exact HF|]. rewrite HC. split.
  - apply Forall_forall. intros c Hc. rewrite forallb_forall in H2. specialize (H2 c Hc). unfold is_digit in H2. lia.
  - split; [|exact H3]. specialize (H4 Hn). rewrite <- HC in H4. destruct g as [|c g]; [change (zlen (@nil Z)) with 0 in HG; lia|]. cbn in H4 |- *. congruence.
Qed.
Lemma grouped_chars g gs : ~ In 44 (concat (g :: gs)) -> filter (fun c => negb (c =? 44)) (join (txt ",") (g :: gs)) = concat (g :: gs).
Proof.
  assert (HG : forall g, ~ In 44 g -> filter (fun c => negb (c =? 44)) g = g). { clear g gs. induction g as [|c g' IH]; [reflexivity|]. intros HN. cbn [filter]. destruct (Z.eqb_spec c 44) as [->|]; [exfalso; apply HN; now left|]. cbn [negb]. f_equal. apply IH. intros HI. apply HN. now right. }
  revert g. induction gs as [|g' gs IH]; intros g HN.
  - cbn [join concat] in *. rewrite app_nil_r in *. now apply HG.
  - cbn [concat] in HN. assert (~ In 44 g /\ ~ In 44 (concat (g' :: gs))) as [N1 N2] by (split; intros HI; apply HN; apply in_or_app; cbn [concat]; auto).
    change (join (txt ",") (g :: g' :: gs)) with (g ++ txt "," ++ join (txt ",") (g' :: gs)). rewrite !filter_app, (HG g N1), (IH g' N2). reflexivity.
Qed.
Lemma writes_grouped_inj s n n' : writes_grouped s n -> writes_grouped s n' -> n = n'.
Proof.
  intros (g & gs & E1 & _ & _ & HC & _ & HV) (g' & gs' & E2 & _ & _ & HC' & _ & HV'). rewrite E1 in E2. apply (f_equal (filter (fun c => negb (c =? 44)))) in E2.
  assert (HN : forall l, Forall (fun c => 48 <= c <= 57) l -> ~ In 44 l) by (intros l HF HI; rewrite Forall_forall in HF; specialize (HF 44 HI); cbv beta in HF; lia).
  rewrite grouped_chars in E2 by (apply HN; exact HC). rewrite grouped_chars in E2 by (apply HN; exact HC'). rewrite <- HV, <- HV'. exact (f_equal digit_value E2).
Qed.
Lemma locktime_description_ok n : 0 <= n < 2 ^ 32 ->
  (n = 0 /\ locktime_description n = Ok (txt "valid in any block")) \/
  (0 < n < 500000000 /\ exists s, locktime_description n = Ok (txt "valid in blocks with height greater than " ++ s) /\ writes_grouped s n) \/
  (500000000 <= n /\ exists s, locktime_description n = Ok (txt "valid in blocks with MTP greater than " ++ s ++ txt " UTC") /\ writes_time s n).
Proof.
  intros Hn. unfold locktime_description. destruct (Z.eqb_spec n 0) as [->|H0]; [left; auto|]. right. destruct (Z.ltb_spec n 500000000) as [H5|H5].
  - left. split; [lia|]. eexists. split; [reflexivity|]. apply thousands_ok. lia.
  - right. split; [exact H5|]. destruct (utc_isoformat_ok n Hn) as (s & -> & HW). exists s. auto.
Qed.
Lemma locktime_description_inj n m : 0 <= n < 2 ^ 32 -> 0 <= m < 2 ^ 32 -> locktime_description n = locktime_description m -> n = m.
Proof.
  intros Hn Hm HE. destruct (locktime_description_ok n Hn) as [[N0 N1]|[[N0 (s & N1 & N2)]|[N0 (s & N1 & N2)]]], (locktime_description_ok m Hm) as [[M0 M1]|[[M0 (s' & M1 & M2)]|[M0 (s' & M1 & M2)]]]; rewrite N1, M1 in HE; apply Ok_inj in HE; try (cbn in HE; discriminate HE).
  - lia.
  - apply app_inv_head in HE. subst s'. exact (writes_grouped_inj _ _ _ N2 M2).
  - apply app_inv_head in HE. apply app_inv_tail in HE. subst s'. exact (writes_time_inj _ _ _ N2 M2).
Qed.

(** ** Text of coinbase scripts *)
Lemma cont_iff b : cont b = true <-> 128 <= b < 192.
Proof. unfold cont. lia. Qed.
Lemma utf8_first_char c e rest : utf8_char c = Ok e -> exists a r, e = a :: r /\ utf8_first a (r ++ rest) = (c, zlen e).
Proof.
  unfold utf8_char. destruct (Z.ltb_spec c 0); [discriminate|]. destruct (Z.ltb_spec c 0x80); [|destruct (Z.ltb_spec c 0x800); [|destruct ((0xd800 <=? c) && (c <=? 0xdfff)) eqn:ES; [discriminate|]; destruct (Z.ltb_spec c 0x10000); [|destruct (Z.ltb_spec c 0x110000); [|discriminate]]]]; intros HE; apply Ok_inj in HE; subst e.
  - eexists _, _. split; [reflexivity|]. unfold utf8_first. replace (c <? 0x80) with true by lia. reflexivity.
  - eexists _, _. split; [reflexivity|]. unfold utf8_first. cbn [app]. replace (0xc0 + c / 64 <? 0x80) with false by lia. replace (0xc0 + c / 64 <? 0xc2) with false by lia. replace (0xc0 + c / 64 <? 0xe0) with true by lia.
    replace (cont (0x80 + c mod 64)) with true by (symmetry; apply cont_iff; lia). f_equal. lia.
  - eexists _, _. split; [reflexivity|]. unfold utf8_first. cbn [app]. assert (0xe0 <= 0xe0 + c / 4096 < 0xf0) by lia. replace (0xe0 + c / 4096 <? 0x80) with false by lia. replace (0xe0 + c / 4096 <? 0xc2) with false by lia. replace (0xe0 + c / 4096 <? 0xe0) with false by lia. replace (0xe0 + c / 4096 <? 0xf0) with true by lia.
    replace (cont (0x80 + c / 64 mod 64)) with true by (symmetry; apply cont_iff; lia). replace (cont (0x80 + c mod 64)) with true by (symmetry; apply cont_iff; lia). cbn [negb orb].
    assert (HX : (if 0x80 + c / 64 mod 64 <? 0xa0 then 0xe0 + c / 4096 =? 0xe0 else 0xe0 + c / 4096 =? 0xed) = false). { destruct (Z.ltb_spec (0x80 + c / 64 mod 64) 0xa0); apply Z.eqb_neq; lia. }
    rewrite HX. f_equal. lia.
  - eexists _, _. split; [reflexivity|]. unfold utf8_first. cbn [app]. assert (0xf0 <= 0xf0 + c / 262144 < 0xf5) by lia. replace (0xf0 + c / 262144 <? 0x80) with false by lia. replace (0xf0 + c / 262144 <? 0xc2) with false by lia. replace (0xf0 + c / 262144 <? 0xe0) with false by lia. replace (0xf0 + c / 262144 <? 0xf0) with false by lia. replace (0xf0 + c / 262144 <? 0xf5) with true by lia.
    replace (cont (0x80 + c / 4096 mod 64)) with true by (symmetry; apply cont_iff; lia). replace (cont (0x80 + c / 64 mod 64)) with true by (symmetry; apply cont_iff; lia). replace (cont (0x80 + c mod 64)) with true by (symmetry; apply cont_iff; lia). cbn [negb orb].
    assert (HX : (if 0x80 + c / 4096 mod 64 <? 0x90 then 0xf0 + c / 262144 =? 0xf0 else 0xf0 + c / 262144 =? 0xf4) = false). { destruct (Z.ltb_spec (0x80 + c / 4096 mod 64) 0x90); apply Z.eqb_neq; lia. }
    rewrite HX. f_equal. lia.
Qed.
Lemma utf8_replace_encode s b : utf8_encode s = Ok b -> utf8_replace b = s.
Proof.
  unfold utf8_encode, utf8_replace. intros HE. apply bind_Ok in HE as (l & HM & HE). apply Ok_inj in HE. subst b.
  assert (HG : forall f, (length (concat l) <= f)%nat -> utf8_replace_loop f (concat l) = s); [|apply HG; lia].
  revert l HM. induction s as [|c s IH]; intros l HM f Hf.
  - apply Ok_inj in HM. subst l. destruct f; reflexivity.
  - cbn [mapM] in HM. apply bind_Ok in HM as (e & He & HM). apply bind_Ok in HM as (l' & HM & HX). apply Ok_inj in HX. subst l. destruct (utf8_first_char c e (concat l') He) as (a & r & -> & HU).
    cbn [concat app] in Hf |- *. cbn [length] in Hf. destruct f as [|f]; [lia|]. cbn [utf8_replace_loop]. rewrite HU. f_equal.
    change (a :: r ++ concat l') with ((a :: r) ++ concat l'). rewrite zdrop_app_exact by reflexivity. apply IH; [exact HM|]. rewrite app_length in Hf. lia.
Qed.

(** ** Disassembly with signature hashes never fails. *)
Lemma sighash_text v : exists t, sighash_to_string v = Ok t.
Proof.
  unfold sighash_to_string. assert (HL : Z.land v 3 = v mod 4) by (change 3 with (Z.ones 2); apply Z.land_ones; lia). rewrite HL.
  assert (HC : v mod 4 = 0 \/ v mod 4 = 1 \/ v mod 4 = 2 \/ v mod 4 = 3) by lia. destruct HC as [HC|[HC|[HC|HC]]]; rewrite HC; cbn; eexists; reflexivity.
Qed.
Lemma word_sig_total der_ok o w : op_to_asm_word der_ok o false = Ok w -> exists w', op_to_asm_word der_ok o true = Ok w'.
Proof.
  destruct o as [c|d]; [intros HE; exists w; exact HE|]. unfold op_to_asm_word. destruct (Z.leb_spec (zlen d) 4) as [H4|H4]; [intros HE; exists w; exact HE|].
  destruct d as [|x d]; [change (zlen (@nil Z)) with 0 in H4; lia|]. rewrite pyindex_0. cbn [bind andb]. intros _.
  destruct ((x =? 48) && (9 <=? zlen (x :: d)) && (zlen (x :: d) <=? 73)); [|eexists; reflexivity]. unfold make_signature.
  assert (HS : exists w', signature_to_string (x :: d) = Ok w').
  { unfold signature_to_string. destruct (@exists_last _ (x :: d) ltac:(discriminate)) as (b & l & E). rewrite E, last_index. cbn [bind]. destruct (sighash_text l) as (t & ->). cbn [bind]. eexists. reflexivity. }
  destruct (bytes_eqb (x :: d) [255]); [exact HS|]. destruct (der_ok (slice_to (x :: d) (-1))); [exact HS|]. eexists. reflexivity.
Qed.
Lemma asm_total der_ok s f : bytes_ok s = true -> exists a, to_asm der_ok s f = Ok a.
Proof.
  intros HB. destruct f; [|destruct (asm_roundtrip der_ok s HB) as (a & HA & _); eauto]. destruct (asm_roundtrip der_ok s HB) as (a & HA & _). unfold to_asm in *. destruct (script_ops s) as [l t]. apply bind_Ok in HA as (ws & HM & _).
  destruct (mapM_total (fun o => op_to_asm_word der_ok o true) l) as (ws' & ->).
  - intros o Ho. apply mapM_Ok_iff in HM. clear - HM Ho. induction HM as [|o' w l ws HW HM IH]; [destruct Ho|]. destruct Ho as [<-|Ho]; [exact (word_sig_total der_ok _ _ HW)|auto].
  - cbn [bind]. destruct t; eexists; reflexivity.
Qed.

(** ** Objects *)
Lemma land_bit f n : 0 <= n -> flag_set f (2 ^ n) = bit f n.
Proof. intros Hn. unfold flag_set, bit. rewrite land_pow by exact Hn. apply negb_involutive. Qed.
Lemma to_hex_inj a b : bytes_ok a = true -> bytes_ok b = true -> to_hex a = to_hex b -> a = b.
Proof. intros Ha Hb HE. apply (f_equal from_hex) in HE. rewrite !from_hex_to_hex in HE by assumption. now apply Ok_inj in HE. Qed.
Lemma coinbase_iff i : input_is_coinbase i = true <-> makes_coins i.
Proof.
  unfold input_is_coinbase, makes_coins. rewrite andb_true_iff, Z.eqb_eq, bytes_eqb_eq. change UINT32_MAX with (2 ^ 32 - 1). change ZERO with (repeat 0 32). tauto.
Qed.

Section Json.
  Variable C : curve.
  Variable H H160 : bytes -> bytes.
  Variable der_ok : bytes -> bool.
  Notation sjson := (script_to_json C H H160 der_ok).
  Notation ijson := (input_to_json C H H160 der_ok).
  Notation ojson := (output_to_json C H H160 der_ok).
  Notation tjson := (tx_to_json C H H160 der_ok).

  Lemma script_json_front s flags sig c l : sjson s flags sig c = Ok l -> exists asm r, to_asm der_ok s sig = Ok asm /\ l = (txt "asm", asm) :: (txt "hex", to_hex s) :: r /\ ~ In (txt "hex") (map fst r) /\ (sig = true -> r = []).
  Proof.
    unfold script_to_json. intros HE. apply bind_Ok in HE as (asm & HA & HE). cbv zeta in HE. exists asm.
    assert (HX : forall l' : list (pystr * pystr), (forall k, In k (map fst l') -> k <> txt "hex") -> ~ In (txt "hex") (map fst l')) by (intros l' Hl HI; exact (Hl _ HI eq_refl)).
    destruct (negb sig && negb (Z.land flags 16 =? 0)) eqn:EF; [|apply Ok_inj in HE; subst l; exists []; repeat split; auto].
    assert (HS : sig = false) by (destruct sig; [discriminate EF|reflexivity]).
    apply bind_Ok in HE as (o & HO & HE). apply bind_Ok in HE as (kind & HK & HE).
    assert (HT : forall r : list (pystr * pystr), (forall k, In k (map fst r) -> k <> txt "hex") -> forall l', Ok l' = Ok l -> l' = (txt "asm", asm) :: (txt "hex", to_hex s) :: r ->
      exists r, to_asm der_ok s sig = Ok asm /\ l = (txt "asm", asm) :: (txt "hex", to_hex s) :: r /\ ~ In (txt "hex") (map fst r) /\ (sig = true -> r = [])).
    { intros r Hr l' HL HL'. apply Ok_inj in HL. subst l'. exists r. split; [exact HA|]. split; [exact HL'|]. split; [apply HX; exact Hr|]. intros E. rewrite E in HS. discriminate HS. }
    destruct o as [[h c'|h c']|k c'|ks m| |].
    - apply bind_Ok in HE as (a & _ & HE). eapply HT; [|exact HE|reflexivity]. intros k Hk. cbn in Hk. destruct Hk as [<-|[<-|[]]]; discriminate.
    - eapply HT; [|exact HE|reflexivity]. intros k Hk. cbn in Hk. destruct Hk as [<-|[]]; discriminate.
    - apply bind_Ok in HE as (ad & _ & HE). apply bind_Ok in HE as (a & _ & HE). eapply HT; [|exact HE|reflexivity]. intros k' Hk. cbn in Hk. destruct Hk as [<-|[<-|[<-|[]]]]; discriminate.
    - eapply HT; [|exact HE|reflexivity]. intros k Hk. cbn in Hk. destruct Hk as [<-|[]]; discriminate.
    - eapply HT; [|exact HE|reflexivity]. intros k Hk. cbn in Hk. destruct Hk as [<-|[]]; discriminate.
    - eapply HT; [|exact HE|reflexivity]. intros k Hk. cbn in Hk. destruct Hk as [<-|[]]; discriminate.
  Qed.
  Lemma script_sig_json s flags c : bytes_ok s = true -> exists asm, to_asm der_ok s true = Ok asm /\ sjson s flags true c = Ok [(txt "asm", asm); (txt "hex", to_hex s)].
  Proof. intros HB. destruct (asm_total der_ok s true HB) as (asm & HA). exists asm. split; [exact HA|]. unfold script_to_json. rewrite HA. reflexivity. Qed.

  Lemma input_json_ok i flags n : input_wf i -> exists j, ijson i flags (Some n) = Ok j /\ says_input flags n i j.
  Proof.
    intros (HB & HL & HI & (HS & _) & HQ). unfold input_to_json. change ENUMERATE_INPUTS with (2 ^ 0). rewrite (land_bit flags 0) by lia. destruct (input_is_coinbase i) eqn:EC.
    - apply coinbase_iff in EC. cbn [bind]. eexists. split; [reflexivity|]. unfold says_input. destruct (bit flags 0); (split; [reflexivity|]; split; [reflexivity|]; split; [intros _; repeat split|intros HN; contradiction]).
    - assert (HN : ~ makes_coins i) by (rewrite <- coinbase_iff, EC; discriminate). destruct (script_sig_json (script_sig i) flags Bitcoin HS) as (asm & _ & ->). cbn [bind]. eexists. split; [reflexivity|]. unfold says_input.
      destruct (bit flags 0); (split; [reflexivity|]; split; [reflexivity|]; split; [intros HY; contradiction|intros _; repeat split; eexists; reflexivity]).
  Qed.
  Lemma input_json_inj i i' flags flags' n n' j : input_wf i -> input_wf i' -> ijson i flags n = Ok j -> ijson i' flags' n' = Ok j -> i = i'.
  Proof.
    intros (HB & _ & _ & (HS & _) & _) (HB' & _ & _ & (HS' & _) & _). unfold input_to_json. intros H1 H2. destruct (input_is_coinbase i) eqn:EC, (input_is_coinbase i') eqn:EC'.
    - cbn [bind] in H1, H2. rewrite <- H2 in H1. apply Ok_inj in H1. injection H1 as E1 _ E3 _. apply coinbase_iff in EC as [C1 C2], EC' as [C1' C2']. apply to_hex_inj in E1; [|assumption|assumption]. destruct i, i'. cbn in *. congruence.
    - apply bind_Ok in H2 as (l & HL & H2). apply bind_Ok in HL as (s & _ & HL). apply Ok_inj in HL. subst l. cbn [bind] in H1. rewrite <- H2 in H1. apply Ok_inj in H1. cbn in H1. discriminate H1.
    - apply bind_Ok in H1 as (l & HL & H1). apply bind_Ok in HL as (s & _ & HL). apply Ok_inj in HL. subst l. cbn [bind] in H2. rewrite <- H2 in H1. apply Ok_inj in H1. cbn in H1. discriminate H1.
    - apply bind_Ok in H1 as (l & HL & H1). apply bind_Ok in HL as (s & Hs & HL). apply Ok_inj in HL. subst l. apply bind_Ok in H2 as (l & HL & H2). apply bind_Ok in HL as (s' & Hs' & HL). apply Ok_inj in HL. subst l.
      rewrite <- H2 in H1. apply Ok_inj in H1. injection H1 as E1 E2 E3 E4 _. apply to_hex_inj in E1; [|assumption|assumption]. apply script_json_front in Hs as (a & r & _ & -> & _), Hs' as (a' & r' & _ & -> & _). cbn [map] in E3. injection E3 as _ E3 _.
      apply to_hex_inj in E3; [|assumption|assumption]. destruct i, i'. cbn in *. congruence.
  Qed.
  Lemma entry_map k v l : entry k (map (fun '(k, v) => (k, JStr v)) ((k, v) :: l)) = Some (JStr v).
  Proof. cbn [map entry]. now rewrite bytes_eqb_refl. Qed.
  Lemma output_json_says o flags n c j : ojson o flags c (Some n) = Ok j -> says_output flags n o j.
  Proof.
    unfold output_to_json. change ENUMERATE_OUTPUTS with (2 ^ 1). rewrite (land_bit flags 1) by lia. intros HE. apply bind_Ok in HE as (s & Hs & HE). apply Ok_inj in HE. subst j. unfold says_output.
    apply script_json_front in Hs as (a & r & _ & -> & _). destruct (bit flags 1); (split; [reflexivity|]; split; [reflexivity|]; eexists; split; [reflexivity|]; reflexivity).
  Qed.
  Lemma output_json_inj o o' flags flags' c c' n n' j : output_wf o -> output_wf o' -> ojson o flags c n = Ok j -> ojson o' flags' c' n' = Ok j -> o = o'.
  Proof.
    intros (_ & (HS & _)) (_ & (HS' & _)). unfold output_to_json. intros H1 H2. apply bind_Ok in H1 as (s & Hs & H1), H2 as (s' & Hs' & H2). rewrite <- H2 in H1. apply Ok_inj in H1. injection H1 as E1 E2 _.
    apply script_json_front in Hs as (a & r & _ & -> & _), Hs' as (a' & r' & _ & -> & _). cbn [map] in E2. injection E2 as _ E2 _. apply to_hex_inj in E2; [|assumption|assumption]. destruct o, o'. cbn in *. congruence.
  Qed.
  Lemma enumerate_inj {A} (P : A -> Prop) (f f' : Z * A -> result json) : (forall n x n' x' j, P x -> P x' -> f (n, x) = Ok j -> f' (n', x') = Ok j -> x = x') ->
    forall l n l' n' v, Forall P l -> Forall P l' -> mapM f (enumerate_from n l) = Ok v -> mapM f' (enumerate_from n' l') = Ok v -> l = l'.
  Proof.
    clear. intros HI. induction l as [|x l IH]; intros n l' n' v HP HP' H1 H2.
    - apply Ok_inj in H1. subst v. destruct l' as [|x' l']; [reflexivity|]. cbn [enumerate_from mapM] in H2. apply bind_Ok in H2 as (? & _ & H2). apply bind_Ok in H2 as (? & _ & H2). discriminate H2.
    - cbn [enumerate_from mapM] in H1. apply bind_Ok in H1 as (j & Hj & H1). apply bind_Ok in H1 as (vs & Hv & H1). apply Ok_inj in H1. subst v. destruct l' as [|x' l']; [discriminate H2|].
      cbn [enumerate_from mapM] in H2. apply bind_Ok in H2 as (j' & Hj' & H2). apply bind_Ok in H2 as (vs' & Hv' & H2). apply Ok_inj in H2. injection H2 as -> ->. inversion HP; subst. inversion HP'; subst. f_equal; [eapply HI; eauto|eapply IH; eauto].
  Qed.
  Lemma enumerate_nth {A} (f : Z * A -> result json) l : forall n v, mapM f (enumerate_from n l) = Ok v -> length v = length l /\ forall k x e, nth_error l k = Some x -> nth_error v k = Some e -> f (n + Z.of_nat k, x) = Ok e.
  Proof.
    clear. induction l as [|x l IH]; intros n v HM.
    - apply Ok_inj in HM. subst v. split; [reflexivity|]. intros [|k]; discriminate.
    - cbn [enumerate_from mapM] in HM. apply bind_Ok in HM as (j & Hj & HM). apply bind_Ok in HM as (vs & Hv & HM). apply Ok_inj in HM. subst v. destruct (IH _ _ Hv) as [HL HN]. split; [cbn; lia|]. intros [|k] y e Hy He.
      + cbn in Hy, He. injection Hy as ->. injection He as ->. now replace (n + Z.of_nat 0) with n by lia.
      + replace (n + Z.of_nat (S k)) with (n + 1 + Z.of_nat k) by lia. exact (HN k y e Hy He).
  Qed.
  Lemma enumerate_total {A} (f : Z * A -> result json) l : (forall n x, In x l -> exists j, f (n, x) = Ok j) -> forall n, exists v, mapM f (enumerate_from n l) = Ok v.
  Proof.
    clear. induction l as [|x l IH]; intros HT n; [eexists; reflexivity|]. cbn [enumerate_from mapM]. destruct (HT n x (or_introl eq_refl)) as (j & ->). destruct (IH (fun n y Hy => HT n y (or_intror Hy)) (n + 1)) as (v & ->). eexists. reflexivity.
  Qed.
  Lemma tx_json_inj t t' flags flags' c c' j : tx_wf t -> tx_wf t' -> tjson t flags c = Ok j -> tjson t' flags' c' = Ok j -> t = t'.
  Proof.
    intros (_ & (HI & _) & (HO & _) & _) (_ & (HI' & _) & (HO' & _) & _). unfold tx_to_json. intros H1 H2.
    apply bind_Ok in H1 as (vin & Hvin & H1). apply bind_Ok in H1 as (vout & Hvout & H1). apply bind_Ok in H1 as (h & _ & H1). apply bind_Ok in H1 as (sz & _ & H1). apply bind_Ok in H1 as (m & _ & H1). apply Ok_inj in H1. subst j.
    apply bind_Ok in H2 as (vin' & Hvin' & H2). apply bind_Ok in H2 as (vout' & Hvout' & H2). apply bind_Ok in H2 as (h' & _ & H2). apply bind_Ok in H2 as (sz' & _ & H2). apply bind_Ok in H2 as (m' & _ & H2). apply Ok_inj in H2. injection H2 as E1 _ E3 _ E5 E6 _. subst vin' vout'.
    assert (HEi : inputs t = inputs t'). { eapply (enumerate_inj input_wf); [|exact HI|exact HI'|exact Hvin|exact Hvin']. intros n x n' x' j Hx Hx' A B. exact (input_json_inj _ _ _ _ _ _ _ Hx Hx' A B). }
    assert (HEo : outputs t = outputs t'). { eapply (enumerate_inj output_wf); [|exact HO|exact HO'|exact Hvout|exact Hvout']. intros n x n' x' j Hx Hx' A B. exact (output_json_inj _ _ _ _ _ _ _ _ _ Hx Hx' A B). }
    destruct t, t'. cbn in *. congruence.
  Qed.
  Hypothesis H_len : forall x, zlen (H x) = 32.
  Lemma tx_json_says t flags c j : tx_wf t -> tjson t flags c = Ok j -> exists b meaning, tx_to_bytes t = Ok b /\ locktime_description (locktime t) = Ok meaning /\ says_tx flags t b (H b) meaning j.
  Proof using H_len.
    intros HW HJ. destruct (tx_roundtrip t HW) as (b & Hb & _). pose proof HW as (_ & (HI & _) & (HO & _) & HLk).
    assert (HSz : tx_size t = Ok (zlen b)). { apply tx_size_ok; [|exact Hb]. eapply Forall_impl; [|exact HI]. intros i (_ & HL & _). exact HL. }
    assert (HM : exists m, locktime_description (locktime t) = Ok m) by (destruct (locktime_description_ok _ HLk) as [[_ ->]|[[_ (s & -> & _)]|[_ (s & -> & _)]]]; eexists; reflexivity). destruct HM as (meaning & HM).
    exists b, meaning. split; [exact Hb|]. split; [exact HM|]. unfold tx_to_json in HJ. apply bind_Ok in HJ as (vin & Hvin & HJ). apply bind_Ok in HJ as (vout & Hvout & HJ). unfold hex_hash, tx_hash in HJ. rewrite Hb in HJ. cbn [bind] in HJ. rewrite H_len in HJ. change (32 =? 0) with false in HJ. cbv iota in HJ.
    change JSON_SIZE with (2 ^ 2) in HJ. change LOCKTIME_MEANING with (2 ^ 3) in HJ. rewrite (land_bit flags 2), (land_bit flags 3), HSz, HM in HJ by lia. cbn [bind] in HJ.
    destruct (enumerate_nth _ _ _ _ Hvin) as [HLi HNi]. destruct (enumerate_nth _ _ _ _ Hvout) as [HLo HNo].
    assert (HIn : forall n i e, nth_error (inputs t) n = Some i -> nth_error vin n = Some e -> says_input flags (Z.of_nat n) i e).
    { intros n i e Hn He. specialize (HNi n i e Hn He). cbv beta iota in HNi. rewrite Z.add_0_l in HNi. rewrite Forall_forall in HI. destruct (input_json_ok i flags (Z.of_nat n) (HI i (nth_error_In _ _ Hn))) as (j' & HJ' & HSj). rewrite HJ' in HNi. apply Ok_inj in HNi. now subst j'. }
    assert (HOut : forall n o e, nth_error (outputs t) n = Some o -> nth_error vout n = Some e -> says_output flags (Z.of_nat n) o e).
    { intros n o e Hn He. specialize (HNo n o e Hn He). cbv beta iota in HNo. rewrite Z.add_0_l in HNo. exact (output_json_says _ _ _ _ _ HNo). }
    unfold says_tx. destruct (bit flags 2), (bit flags 3); cbn [bind] in HJ; apply Ok_inj in HJ; subst j; do 7 (split; [reflexivity|]); exists vin, vout; auto 10.
  Qed.
End Json.
