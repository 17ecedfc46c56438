(** C59: exactly what the text of a sighash is, and the values of the names; C47: the cashaddr prefixes by name. *)
From Verif.Model Require Import Py Text Packing Misc Signature Bits Coin.
From Verif.Spec Require Import SighashSpec.
From Verif.Proofs Require Import PyFacts ScriptFacts MiscFacts.
From Verif.Props Require Import MiscProps.

Lemma barred_fun ws t t' : barred ws t -> barred ws t' -> t = t'.
Proof.
  intros HB. revert t'. induction HB as [|w|w v ws t HB IH]; intros t' HB'; inversion HB'; subst; auto. f_equal. f_equal. auto.
Qed.
Lemma barred_join ws : barred ws (join (txt "|") ws).
Proof.
  induction ws as [|w ws IH]; [constructor|]. destruct ws as [|v ws]; [cbn; constructor|]. cbn [join]. constructor. exact IH.
Qed.

(** The words of the digits *)
Definition digit_words (a f x b : Z) : list pystr :=
  (if b =? 0 then [] else if b =? 1 then [txt "ALL"] else if b =? 2 then [txt "NONE"] else [txt "SINGLE"]) ++ (if a =? 0 then [] else [txt "ANYONE_CAN_PAY"]) ++
  (if f =? 0 then [] else [txt "FORKID"]) ++ (if x =? 0 then [] else [txt "0x" ++ [nth (Z.to_nat (x / 4)) (txt "0123456789abcdef") 0; nth (Z.to_nat (x mod 4 * 4)) (txt "0123456789abcdef") 0]]).
Lemma digit_text a f x b : 0 <= a < 2 -> 0 <= f < 2 -> 0 <= x < 16 -> 0 <= b < 4 -> sighash_to_string (128 * a + 64 * f + 4 * x + b) = Ok (join (txt "|") (digit_words a f x b)).
Proof.
  intros Ha Hf Hx Hb.
  assert (match sighash_to_string (128 * a + 64 * f + 4 * x + b) with Ok t => bytes_eqb t (join (txt "|") (digit_words a f x b)) | Err _ => false end = true) as HA.
  { revert b Hb. refine (zrange_all (fun b => match sighash_to_string (128 * a + 64 * f + 4 * x + b) with Ok t => bytes_eqb t (join (txt "|") (digit_words a f x b)) | Err _ => false end) 0 4 _).
    revert x Hx. refine (zrange_all (fun x => forallb (fun b => match sighash_to_string (128 * a + 64 * f + 4 * x + b) with Ok t => bytes_eqb t (join (txt "|") (digit_words a f x b)) | Err _ => false end) (zrange 0 4)) 0 16 _).
    assert (a = 0 \/ a = 1) as [-> | ->] by lia; assert (f = 0 \/ f = 1) as [-> | ->] by lia; vm_compute; reflexivity. }
  destruct (sighash_to_string _) as [t|]; [|discriminate]. f_equal. now apply bytes_eqb_eq.
Qed.
Lemma nth_error_digit (l : pystr) n c : nth_error l n = Some c -> nth n l 0 = c.
Proof. revert n. induction l as [|h l IH]; intros [|n] H; cbn in *; try discriminate; [congruence|now apply IH]. Qed.
Lemma sighash_words_text v ws : sighash_words v ws -> sighash_to_string v = Ok (join (txt "|") ws).
Proof.
  intros [a f x b base acp fork rest HB HA HF HX]. rewrite digit_text.
  - unfold digit_words. f_equal. f_equal. f_equal; [|f_equal; [|f_equal] ].
    + destruct HB as [ [-> ->] | [ [-> ->] | [ [-> ->] | [-> ->] ] ] ]; reflexivity.
    + destruct HA as [ [-> ->] | [-> ->] ]; reflexivity.
    + destruct HF as [ [-> ->] | [-> ->] ]; reflexivity.
    + destruct HX as [ [-> ->] | (hi & lo & c & d & Hx & HE & Hl & Hc & Hd & ->) ]; [reflexivity|]. destruct (Z.eqb_spec x 0); [lia|].
      assert (hi = x / 4) as -> by lia. assert (lo = x mod 4 * 4) as -> by lia. now rewrite (nth_error_digit _ _ _ Hc), (nth_error_digit _ _ _ Hd).
  - lia.
  - lia.
  - destruct HX as [ [-> _] | (hi & lo & c & d & Hx & _) ]; lia.
  - lia.
Qed.
Lemma sighash_words_exist v : 0 <= v < 256 -> exists ws, sighash_words v ws.
Proof.
  intros Hv. exists (digit_words (v / 128) (v / 64 mod 2) (v / 4 mod 16) (v mod 4)).
  replace v with (128 * (v / 128) + 64 * (v / 64 mod 2) + 4 * (v / 4 mod 16) + v mod 4) at 1 by (clear - Hv; lia).
  assert (0 <= v / 128 < 2 /\ 0 <= v / 64 mod 2 < 2 /\ 0 <= v / 4 mod 16 < 16 /\ 0 <= v mod 4 < 4) as (Ha & Hf & Hx & Hb) by (clear - Hv; lia).
  revert Ha Hf Hx Hb. generalize (v / 128) (v / 64 mod 2) (v / 4 mod 16) (v mod 4). clear. intros a f x b Ha Hf Hx Hb. unfold digit_words. constructor.
  - assert (b = 0 \/ b = 1 \/ b = 2 \/ b = 3) as [-> | [-> | [-> | ->] ] ] by lia; cbn; tauto.
  - assert (a = 0 \/ a = 1) as [-> | ->] by lia; cbn; tauto.
  - assert (f = 0 \/ f = 1) as [-> | ->] by lia; cbn; tauto.
  - destruct (Z.eqb_spec x 0) as [|HN]; [left; split; [assumption|reflexivity]|]. right. exists (x / 4), (x mod 4 * 4). do 2 eexists. split; [lia|]. split; [lia|]. split; [lia|].
    split; [apply nth_error_nth'; cbn [length txt String.list_ascii_of_string map]; change (length (txt "0123456789abcdef")) with 16%nat; lia|].
    split; [apply nth_error_nth'; change (length (txt "0123456789abcdef")) with 16%nat; lia|]. reflexivity.
Qed.

(** C59: the text is exactly that *)
Theorem C59_text v t : 0 <= v < 256 -> (sighash_to_string v = Ok t <-> exists ws, sighash_words v ws /\ barred ws t).
Proof.
  intros Hv. split.
  - intros HT. destruct (sighash_words_exist v Hv) as [ws HW]. exists ws. split; [exact HW|]. rewrite (sighash_words_text v ws HW) in HT. injection HT as <-. apply barred_join.
  - intros (ws & HW & HB). rewrite (sighash_words_text v ws HW). f_equal. exact (barred_fun _ _ _ (barred_join ws) HB).
Qed.
Print Assumptions C59_text.
(** and the constants are what their names are the texts of *)
Theorem C59_names : (forall v, 0 <= v < 256 -> (sighash_to_string v = Ok (txt "ALL") <-> v = SH_ALL) /\ (sighash_to_string v = Ok (txt "NONE") <-> v = SH_NONE) /\ (sighash_to_string v = Ok (txt "SINGLE") <-> v = SH_SINGLE) /\
  (sighash_to_string v = Ok (txt "FORKID") <-> v = SH_FORKID) /\ (sighash_to_string v = Ok (txt "ANYONE_CAN_PAY") <-> v = SH_ANYONE_CAN_PAY)).
Proof.
  intros v Hv. assert (forall c n, 0 <= c < 256 -> sighash_to_string c = Ok n -> (sighash_to_string v = Ok n <-> v = c)) as HG.
  { intros c n Hc HN. split; [|intros ->; exact HN]. intros HT. apply C59_text_injective; [exact Hv|exact Hc|congruence]. }
  repeat split; apply HG; try (unfold SH_ALL, SH_NONE, SH_SINGLE, SH_FORKID, SH_ANYONE_CAN_PAY; lia); vm_compute; reflexivity.
Qed.
Print Assumptions C59_names.
Example C59_text_ex : sighash_words 0xe7 [txt "SINGLE"; txt "ANYONE_CAN_PAY"; txt "FORKID"; txt "0x24"] /\ barred [txt "SINGLE"; txt "ANYONE_CAN_PAY"; txt "FORKID"; txt "0x24"] (txt "SINGLE|ANYONE_CAN_PAY|FORKID|0x24").
Proof.
  split; [|exact (barred_join [txt "SINGLE"; txt "ANYONE_CAN_PAY"; txt "FORKID"; txt "0x24"])]. apply (sighash_intro 1 1 9 3 [txt "SINGLE"] [txt "ANYONE_CAN_PAY"] [txt "FORKID"] [txt "0x24"]); try tauto.
  right. exists 2, 4, 50, 52. repeat split; lia.
Qed.

(** C47: the prefixes of the coins' cash addresses *)
Theorem C47_prefixes : c_cashaddr_prefix Bitcoin = txt "bitcoincash" /\ forall c, In c [BitcoinTestnet; BitcoinScalingTestnet; BitcoinRegtest] -> c_cashaddr_prefix c = txt "bchtest".
Proof. split; [reflexivity|]. intros c [<- | [<- | [<- | [] ] ] ]; reflexivity. Qed.
Print Assumptions C47_prefixes.
