(** C84: the text of a coinbase input, whatever its bytes. *)
From Verif.Model Require Import Py Text Packing Misc Curve Coin Base58 Script Keys Bip32 Address Tx TxJson.
From Verif.Spec Require Import Numbers TxSpec CurveSpec TxJsonSpec Utf8Spec.
From Verif.Proofs Require Import PyFacts TxFacts TxJsonFacts Utf8Facts.

(** str.encode() encodes each character as RFC 3629 says. *)
Theorem C84_encode c e : utf8_char c = Ok e <-> encodes c e.
Proof.
  split.
  - unfold utf8_char. intros HE.
    destruct (Z.ltb_spec c 0); [discriminate|]. destruct (Z.ltb_spec c 0x80); [apply Ok_inj in HE; subst e; apply enc_1; lia|].
    destruct (Z.ltb_spec c 0x800); [apply Ok_inj in HE; subst e; apply enc_2; lia|]. destruct (_ && _) eqn:ES; [discriminate|].
    destruct (Z.ltb_spec c 0x10000); [apply Ok_inj in HE; subst e; apply enc_3; lia|].
    destruct (Z.ltb_spec c 0x110000); [apply Ok_inj in HE; subst e; apply enc_4; lia|discriminate].
  - intros HE. destruct HE as [c Hc|c x y Hy Hc Hr|c x y z Hy Hz Hc Hr Hs|c w x y z Hx Hy Hz Hc Hr]; unfold utf8_char.
    + replace (c <? 0) with false by lia. replace (c <? 0x80) with true by lia. reflexivity.
    + replace (c <? 0) with false by lia. replace (c <? 0x80) with false by lia. replace (c <? 0x800) with true by lia. repeat f_equal; lia.
    + replace (c <? 0) with false by lia. replace (c <? 0x80) with false by lia. replace (c <? 0x800) with false by lia. replace ((0xd800 <=? c) && (c <=? 0xdfff)) with false by lia.
      replace (c <? 0x10000) with true by lia. repeat f_equal; lia.
    + replace (c <? 0) with false by lia. replace (c <? 0x80) with false by lia. replace (c <? 0x800) with false by lia. replace ((0xd800 <=? c) && (c <=? 0xdfff)) with false by lia.
      replace (c <? 0x10000) with false by lia. replace (c <? 0x110000) with true by lia. repeat f_equal; lia.
Qed.
Print Assumptions C84_encode.

(** Every script of a coinbase input has a text, and it is the one of the Unicode Standard. *)
Theorem C84_coinbase_any (C : curve) (H H160 : bytes -> bytes) (der_ok : bytes -> bool) i flags n j : makes_coins i -> bytes_ok (script_sig i) = true ->
  input_to_json C H H160 der_ok i flags n = Ok j -> forall s, field j "text" = Some (JStr s) <-> reads (script_sig i) s.
Proof.
  intros HC HB HJ s. apply coinbase_iff in HC. unfold input_to_json in HJ. rewrite HC in HJ. cbn [bind] in HJ. apply Ok_inj in HJ. subst j.
  rewrite <- (replace_iff _ s HB). match goal with |- ?f = _ <-> _ => change f with (Some (JStr (utf8_replace (script_sig i)))) end.
  split; [intros HX; injection HX as HX; exact HX|now intros ->].
Qed.
Print Assumptions C84_coinbase_any.

(** The example of the Unicode Standard (table 3-11) *)
Example C84_unicode_ex :
  let b := [0x61; 0xf1; 0x80; 0x80; 0xe1; 0x80; 0xc2; 0x62; 0x80; 0x63; 0x80; 0xbf; 0x64] in
  let s := [0x61; 0xfffd; 0xfffd; 0xfffd; 0x62; 0xfffd; 0x63; 0xfffd; 0xfffd; 0x64] in
  utf8_replace b = s /\ reads b s.
Proof. cbv zeta. assert (HE : utf8_replace [0x61; 0xf1; 0x80; 0x80; 0xe1; 0x80; 0xc2; 0x62; 0x80; 0x63; 0x80; 0xbf; 0x64] = [0x61; 0xfffd; 0xfffd; 0xfffd; 0x62; 0xfffd; 0x63; 0xfffd; 0xfffd; 0x64]) by reflexivity. split; [exact HE|now apply replace_iff]. Qed.
Example C84_coinbase_any_ex : exists i, makes_coins i /\ bytes_ok (script_sig i) = true /\ reads (script_sig i) [0xfffd; 0xfffd; 0x61].
Proof.
  exists (mk_input (repeat 0 32) 0xffffffff [0xf4; 0x90; 0x61] 0). split; [apply coinbase_iff; reflexivity|]. split; [reflexivity|]. now apply replace_iff.
Qed.
